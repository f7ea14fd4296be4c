(** PrfWire2.v -- the decoders understand every form of SpecWire (C61). *)
From Verif Require Export PrfWire.

Lemma element_decode s t body e rest ad lo cp : element s e (t_cls t) (t_constructed t) (t_number t) body ->
  ad_wf ad -> bytes_ok (ad_data ad) -> ad_view ad = e ++ rest -> (lo = true \/ rest = []) ->
  forall ex, (ex = None \/ ex = Some t) ->
  ber_decode ad ex lo cp = Ok (t, body_of cp (body_sub ad e body), sb_drop (zlen e) (ad_sub ad)) /\
  sb_wf (body_sub ad e body) /\ sb_view (body_sub ad e body) = body.
Proof.
  intros (ident & len & HI & HL & E & _) Hw Hok Hv Hlo ex Hex.
  destruct (sb_new_ad ad Hw) as [W V]. rewrite Hv in V.
  fold (ad_sub ad) in W, V. set (sb := ad_sub ad) in *.
  assert (Ok' : bytes_ok (sb_data sb)) by (unfold sb; rewrite ad_sub_data; exact Hok).
  rewrite E, <- !app_assoc in V.
  pose proof (tag_decode_ident ident _ _ _ sb _ HI W V) as Htag.
  destruct (sb_drop_app _ _ _ W V) as [W1 V1].
  pose proof (decode_length_octets len _ _ _ HL W1 Ok' V1) as Hlen.
  destruct (sb_drop_app _ _ _ W1 V1) as [W2 V2]. rewrite sb_drop_drop in *.
  pose proof (sb_split_spec _ (zlen body) W2 (zlen_nonneg body)) as Hsp.
  destruct (sb_split (sb_drop (zlen ident + zlen len) sb) (zlen body)) as [h tl] eqn:Esp.
  destruct Hsp as (Hwh & Hwt & Hvh & Hvt & Hdh & Hdt & Hsh & Hst & Hstt).
  rewrite V2 in Hvh, Hvt. rewrite firstn_zlen_app in Hvh. rewrite skipn_zlen_app in Hvt.
  pose proof (sb_view_zlen _ Hwh) as HLh. rewrite Hvh in HLh.
  assert (LE : zlen e = zlen ident + zlen len + zlen body) by (subst e; zl; lia).
  cbn [sb_drop sb_data sb_start sb_stop] in *.
  assert (EH : h = body_sub ad e body).
  { destruct h as [hd hs he]. unfold body_sub. cbn [sb_data sb_start sb_stop] in *. subst hd. unfold sb in *. rewrite ad_sub_data, ad_sub_start in *.
    f_equal; lia. }
  assert (ET : tl = sb_drop (zlen e) sb).
  { destruct tl as [td ts te]. unfold sb_drop. cbn [sb_data sb_start sb_stop] in *. subst td te. f_equal. lia. }
  split; [|rewrite <- EH; auto].
  unfold ber_decode. fold (ad_sub ad). fold sb. rewrite Htag. cbn [bind].
  replace (mkTag (t_number t) (t_constructed t) (t_cls t)) with t by (destruct t; reflexivity).
  assert (EX : match ex with Some e0 => negb (tag_eqb t e0) | None => false end = false).
  { destruct Hex as [->| ->]; [reflexivity|]. now rewrite tag_eqb_refl. }
  rewrite EX, Hlen. cbn [bind]. fold (zlen body). rewrite Esp, sb_len_wf by auto. cbn [bind]. rewrite Hvh, Z.ltb_irrefl.
  rewrite sb_bool_wf, Hvt by auto.
  assert (EL : negb lo && match rest with [] => false | _ => true end = false).
  { destruct Hlo as [->| ->]; [reflexivity|]. now rewrite andb_false_r. }
  rewrite EL, <- EH, <- ET. reflexivity.
Qed.
Lemma decodes_element {A} s t (f : asn1data -> res A) body e x cp : element s e (t_cls t) (t_constructed t) (t_number t) body ->
  (forall b, ad_wf b -> bytes_ok (ad_data b) -> ad_view b = body -> f b = Ok x) ->
  decodes (fun ad lo => asn1_decode t f ad lo cp) e x.
Proof.
  intros E F ad rest lo W O V LO.
  destruct (element_decode s t body e rest ad lo cp E W O V LO (Some t) (or_intror eq_refl)) as (H & Wb & Vb).
  unfold asn1_decode. rewrite H. cbn [bind]. destruct (body_of_facts cp ad e body O Wb Vb) as (B1 & B2 & B3).
  rewrite (F _ B1 B2 B3). reflexivity.
Qed.
Lemma element_nonempty s e cls c n body : element s e cls c n body -> 0 < zlen e.
Proof.
  intros (ident & len & HI & _ & -> & _). zl. pose proof (zlen_nonneg len). pose proof (zlen_nonneg body).
  destruct HI; zl; try lia. pose proof (zlen_nonneg highs). lia.
Qed.

Section Decode.
  Context (s : bool).

  Lemma int_deserialize_wire c body : bytes_ok body -> in_int_range c (tc_value body) ->
    forall b, ad_wf b -> ad_view b = body -> int_deserialize c b = Ok (PInt c (tc_value body)).
  Proof.
    intros O R b W V. unfold int_deserialize. rewrite adata_bytes_view, V, from_be_signed_value by auto.
    destruct (int_construct_spec c (tc_value body)) as [[_ E]|[N _]]; [exact E|tauto].
  Qed.
  Lemma Integer_wire_decodes v e : int_wire s e (0, 2) v -> int32 v -> decodes Integer_decode e v.
  Proof.
    intros (body & E & O & N & <- & _) R ad rest lo W OK V LO. unfold Integer_decode, prim_decode.
    rewrite (decodes_element s (pcls_tag (CInt Integer32)) (prim_deserialize (CInt Integer32)) body e (PInt Integer32 (tc_value body)) true E)
      with (rest := rest); auto.
    intros b B1 B2 B3. cbn [prim_deserialize]. apply int_deserialize_wire; auto.
  Qed.
  Lemma OctetString_wire_decodes d e : octets_wire s e (0, 4) d -> zlen d <= 65535 -> decodes OctetString_decode e d.
  Proof.
    intros [E O] L ad rest lo W OK V LO. unfold OctetString_decode, prim_decode.
    rewrite (decodes_element s (pcls_tag (COctets OctetString)) (prim_deserialize (COctets OctetString)) d e (POctets OctetString d) true E)
      with (rest := rest); auto.
    intros b B1 B2 B3. cbn [prim_deserialize]. unfold octets_deserialize. rewrite OctetString_construct_ok; rewrite adata_bytes_view, B3 by auto; auto.
  Qed.

  (** OIDs *)
  Lemma odl_highs highs low rest : Forall (fun b => 128 <= b < 256) highs -> 0 <= low < 128 -> forall v acc,
    oid_deserialize_loop (highs ++ low :: rest) (v * 128) acc =
    oid_deserialize_loop rest 0 (fold_left (fun a g => a * 128 + g) (map (fun b => b - 128) highs ++ [low]) v :: acc).
  Proof.
    intros F L. induction F as [|h highs H F IH]; intros v acc; cbn [app map].
    - rewrite odl_step by lia. destruct (low <? 128) eqn:X; [|lia]. reflexivity.
    - rewrite odl_step by lia. destruct (h <? 128) eqn:X; [lia|]. rewrite IH. cbn [fold_left].
      replace (h mod 128) with (h - 128) by (apply Z.mod_unique with (q := 1); lia). reflexivity.
  Qed.
  Lemma odl_subs body l : subidentifiers body l -> forall acc, oid_deserialize_loop body 0 acc = (0, rev acc ++ l).
  Proof.
    induction 1 as [|highs low rest arcs F HD L R IH]; intros acc.
    - cbn. now rewrite app_nil_r.
    - change 0 with (0 * 128) at 1. rewrite odl_highs by auto. rewrite IH. cbn [rev]. rewrite <- app_assoc. reflexivity.
  Qed.
  Lemma base128_pos l v : 0 <= v -> Forall (fun g => 0 <= g) l -> v * 128 ^ Z.of_nat (length l) <= fold_left (fun a g => a * 128 + g) l v.
  Proof.
    revert v. induction l as [|g l IH]; intros v V F; cbn [fold_left length].
    - change (128 ^ Z.of_nat 0) with 1. lia.
    - inversion F; subst. rewrite Nat2Z.inj_succ, Z.pow_succ_r by lia. specialize (IH (v * 128 + g) ltac:(lia) H2).
      pose proof (Z.pow_pos_nonneg 128 (Z.of_nat (length l)) ltac:(lia) ltac:(lia)). nia.
  Qed.
  (** A first sub-identifier below 128 takes one octet. *)
  Lemma subs_first body x l : subidentifiers body (x :: l) -> x < 128 -> exists rest, body = x :: rest /\ 0 <= x /\ subidentifiers rest l.
  Proof.
    intros H X. inversion H as [|highs low rest arcs F HD L R E1 E2]; subst.
    destruct highs as [|h highs]; cbn [app map base128] in *.
    - exists rest. unfold base128 in *. cbn in *. split; [reflexivity|]. split; [lia|auto].
    - exfalso. inversion F as [|? ? Hh F']; subst. cbn [hd] in HD. unfold base128 in X. cbn [fold_left] in X.
      assert (P : Forall (fun g => 0 <= g) (map (fun b => b - 128) highs ++ [low])).
      { apply Forall_app. split; [|constructor; [lia|auto]]. apply Forall_forall. intros y Y. apply in_map_iff in Y as (z & <- & Y).
        rewrite Forall_forall in F'. specialize (F' _ Y). cbv beta in F'. lia. }
      pose proof (base128_pos (map (fun b => b - 128) highs ++ [low]) (0 * 128 + (h - 128)) ltac:(lia) P) as B.
      rewrite app_length in B. cbn [length] in B.
      assert (128 ^ 1 <= 128 ^ Z.of_nat (length (map (fun b => b - 128) highs) + 1)) by (apply Z.pow_le_mono_r; lia).
      change (128 ^ 1) with 128 in *. nia.
  Qed.
  Lemma oid_deserialize_wire c body l b : oid_contents body l -> oid_new c l = Ok l -> adata_bytes b = body ->
    oid_deserialize c b = Ok (POid c l).
  Proof.
    intros (x & y & arcs & -> & XY & SUB) N V. pose proof N as N'. apply oid_new_ok in N' as (NN & N2 & N40 & _). cbn [nth] in *.
    inversion NN as [|? ? X0 NN']; subst. inversion NN' as [|? ? Y0 NN'']; subst.
    destruct (subs_first _ _ _ SUB ltac:(lia)) as (rest & E & _ & SR).
    unfold oid_deserialize. rewrite E, (odl_subs rest arcs SR). cbn [Z.eqb negb rev app].
    replace ((40 * x + y) / 40) with x by (Z.div_mod_to_equations; lia).
    replace ((40 * x + y) mod 40) with y by (Z.div_mod_to_equations; lia).
    unfold oid_construct. rewrite N. reflexivity.
  Qed.
  Lemma OID_wire_decodes l e : oid_wire s e l -> oid_new OID l = Ok l -> decodes OID_decode e l.
  Proof.
    intros (body & E & C) N ad rest lo W OK V LO. unfold OID_decode, prim_decode.
    rewrite (decodes_element s (pcls_tag (COid OID)) (prim_deserialize (COid OID)) body e (POid OID l) true E) with (rest := rest); auto.
    intros b B1 B2 B3. cbn [prim_deserialize]. eapply oid_deserialize_wire; eauto. rewrite adata_bytes_view; auto.
  Qed.

  (** Values; which values may arrive is [value_in]. *)
  Definition value_in (p : prim) : Prop :=
    prim_constructible p /\ match p with PInt INTEGER _ | POctets OCTET_STRING _ | POid OBJECT_IDENTIFIER _ => False | _ => True end.
  Lemma value_wire_lookup p e : value_wire s e p -> value_in p ->
    exists t body c, element s e (t_cls t) (t_constructed t) (t_number t) body /\ dict_get tag_eqb varbind_types t = Some c /\
      (forall b, adata_bytes b = body -> prim_deserialize c b = Ok (norm_prim p)).
  Proof.
    intros H [C S]. destruct p as [c v|c d|c|c l]; cbn [value_wire prim_constructible] in *.
    - destruct H as (body & E & O & _ & TV & _). apply int_new_ok in C.
      assert (D : forall c', in_int_range c' v -> forall b, adata_bytes b = body -> int_deserialize c' b = Ok (PInt c' v)).
      { intros c' R b V. unfold int_deserialize. rewrite V, from_be_signed_value, TV by auto.
        destruct (int_construct_spec c' v) as [[_ X]|[X _]]; [exact X|tauto]. }
      destruct c; try (now elim S);
        (exists (int_tag Integer32), body, (CInt Integer32); split; [exact E|]; split; [reflexivity|now apply D]) ||
        (exists (int_tag Counter32), body, (CInt Counter32); split; [exact E|]; split; [reflexivity|now apply D]) ||
        (exists (int_tag Gauge32), body, (CInt Gauge32); split; [exact E|]; split; [reflexivity|now apply D]) ||
        (exists (int_tag TimeTicks), body, (CInt TimeTicks); split; [exact E|]; split; [reflexivity|now apply D]) ||
        (exists (int_tag Counter64), body, (CInt Counter64); split; [exact E|]; split; [reflexivity|now apply D]).
    - destruct H as [E O]. destruct C as [_ C].
      assert (D : forall b, adata_bytes b = d -> prim_deserialize (COctets c) b = Ok (POctets c d)).
      { intros b V. cbn [prim_deserialize]. unfold octets_deserialize, octets_construct. rewrite V, C. destruct c; reflexivity. }
      exists (octets_tag c), d, (COctets c). split; [destruct c; exact E|]. split; [destruct c; try reflexivity; now elim S|exact D].
    - exists (null_tag c), [], (CNull c). split; [destruct c; exact H|]. split; [destruct c; reflexivity|]. reflexivity.
    - destruct c; [now elim S|]. destruct H as (body & E & OC). exists (oid_tag OID), body, (COid OID).
      split; [exact E|]. split; [reflexivity|]. intros b V. eapply oid_deserialize_wire; eauto.
  Qed.
  Lemma varbind_wire_decodes v e : varbind_wire s e v -> oid_new OID (vb_name v) = Ok (vb_name v) -> value_in (vb_value v) ->
    decodes varbind_decode e (norm_vb v).
  Proof.
    intros (e1 & e2 & E & N & V) ON VI. apply (decodes_element s sequence_tag varbind_deserialize (e1 ++ e2)); [exact E|].
    intros b B1 B2 B3. unfold varbind_deserialize.
    destruct (decodes_step OID_decode e1 (vb_name v) b e2 (OID_wire_decodes _ _ N ON) B1 B2 B3) as (tl & E1 & _ & W & O & V1 & _).
    rewrite E1. cbn [bind].
    destruct (value_wire_lookup _ _ V VI) as (t & body & c & E2 & LK & D).
    destruct (element_decode s t body e2 [] (ASub tl) false true E2 W O) with (ex := @None tag) as (E3 & W2 & V2); auto; [now rewrite app_nil_r|].
    rewrite E3. cbn [bind]. rewrite LK, D; [reflexivity|]. cbn. now rewrite sb_getslice_all.
  Qed.
  Definition vb_in (v : varbind) : Prop := oid_new OID (vb_name v) = Ok (vb_name v) /\ value_in (vb_value v).
  Lemma vblist_loop_wire es l : Forall2 (varbind_wire s) es l -> Forall vb_in l -> forall fuel b,
    ad_wf b -> bytes_ok (ad_data b) -> ad_view b = concat es -> (length (concat es) <= fuel)%nat -> vblist_loop fuel b = Ok (map norm_vb l).
  Proof.
    induction 1 as [|e v es l Hv Hl IH]; intros F fuel b W O V Hf; cbn [map concat] in *.
    - assert (E : adata_bool b = false) by (rewrite adata_bool_view, V by auto; reflexivity).
      destruct fuel; cbn [vblist_loop]; rewrite E; reflexivity.
    - inversion F as [|? ? [ON VI] F']; subst.
      assert (Hpos : 0 < zlen e) by (destruct Hv as (? & ? & X & _); eapply element_nonempty; exact X).
      assert (E : adata_bool b = true).
      { rewrite adata_bool_view, V by auto. zl. pose proof (zlen_nonneg (concat es)).
        destruct (zlen e + zlen (concat es) =? 0) eqn:?; [lia|reflexivity]. }
      rewrite app_length in Hf. unfold zlen in Hpos.
      destruct fuel as [|fuel]; [lia|]. cbn [vblist_loop]. rewrite E.
      destruct (decodes_step varbind_decode e (norm_vb v) b (concat es) (varbind_wire_decodes v e Hv ON VI) W O V)
        as (tl & E2 & _ & W2 & O2 & V2 & _). rewrite E2. cbn [bind].
      rewrite (IH F' fuel (ASub tl)) by (auto; lia). reflexivity.
  Qed.
  Lemma vblist_wire_decodes l e : varbinds_wire s e l -> Forall vb_in l -> decodes vblist_decode e (map norm_vb l).
  Proof.
    intros (es & E & F2) F. apply (decodes_element s sequence_tag vblist_deserialize (concat es)); [exact E|].
    intros b B1 B2 B3. unfold vblist_deserialize. rewrite adata_bytes_view, B3 by auto. eapply vblist_loop_wire; eauto.
  Qed.
  Lemma pdu_wire_decodes p e : pdu_wire s e p -> pdu_fields_ok p -> Forall vb_in (pdu_vbs p) -> decodes (pdu_decode (pdu_cls p)) e (norm_pdu p).
  Proof.
    intros (e1 & e2 & e3 & e4 & E & H1 & H2 & H3 & H4) (I1 & I2 & I3 & Hfld) F.
    apply (decodes_element s (pdu_tag (pdu_cls p)) (pdu_deserialize (pdu_cls p)) (e1 ++ e2 ++ e3 ++ e4)); [destruct (pdu_cls p); exact E|].
    intros b B1 B2 B3. unfold pdu_deserialize.
    destruct (decodes_step _ _ _ _ _ (Integer_wire_decodes _ _ H1 I1) B1 B2 B3) as (t1 & E1 & _ & W1 & O1 & V1 & _).
    rewrite E1. cbn [bind].
    destruct (decodes_step _ _ _ _ _ (Integer_wire_decodes _ _ H2 I2) W1 O1 V1) as (t2 & E2 & _ & W2 & O2 & V2 & _).
    rewrite E2. cbn [bind].
    destruct (decodes_step _ _ _ _ _ (Integer_wire_decodes _ _ H3 I3) W2 O2 V2) as (t3 & E3 & _ & W3 & O3 & V3 & _).
    rewrite E3. cbn [bind].
    destruct (decodes_last _ _ _ _ (vblist_wire_decodes _ _ H4 F) W3 O3 V3) as (t4 & E4). rewrite E4. cbn [bind].
    unfold norm_pdu. destruct (is_bulk (pdu_cls p)) eqn:Eb.
    - destruct (pdu_cls p); try discriminate. destruct (pdu_a p <? 0) eqn:?; [lia|].
      destruct (pdu_b p <? 0) eqn:?; [lia|]. reflexivity.
    - assert (FF : 0 <= pdu_a p <= 18 /\ pdu_b p <= zlen (pdu_vbs p) /\ (pdu_a p <> 0 -> 0 <= pdu_b p))
        by (destruct (pdu_cls p); auto; discriminate).
      unfold ErrorStatus. destruct ((0 <=? pdu_a p) && (pdu_a p <=? 18)) eqn:Ea; [|lia]. cbn [reraise bind].
      assert (L : zlen (map norm_vb (pdu_vbs p)) = zlen (pdu_vbs p)) by (unfold zlen; now rewrite map_length).
      rewrite L. destruct ((negb (pdu_a p =? 0) && (pdu_b p <? 0)) || (zlen (pdu_vbs p) <? pdu_b p)) eqn:Ec; [|reflexivity].
      destruct (pdu_a p =? 0) eqn:?; cbn [negb andb orb] in Ec; lia.
  Qed.
  Lemma anypdu_wire l p e sb : pdu_wire s e p -> pdu_fields_ok p -> Forall vb_in (pdu_vbs p) -> In (pdu_cls p) l ->
    sb_wf sb -> bytes_ok (sb_data sb) -> sb_view sb = e -> anypdu_decode (pdu_types l) sb = Ok (norm_pdu p).
  Proof.
    intros WP FO F HI W O V. unfold anypdu_decode.
    replace (sb_new (ASub sb) None None) with sb by (destruct sb; reflexivity).
    pose proof WP as (e1 & e2 & e3 & e4 & (ident & len & ID & _ & E & _) & _).
    assert (V' : sb_view sb = ident ++ len ++ e1 ++ e2 ++ e3 ++ e4) by congruence.
    rewrite (tag_decode_ident _ _ _ _ _ _ ID W V'). cbn [bind].
    replace (mkTag (pdu_number (pdu_cls p)) true 2) with (pdu_tag (pdu_cls p)) by (destruct (pdu_cls p); reflexivity).
    rewrite dict_pdu_types by auto.
    destruct (decodes_last _ _ _ (ASub sb) (pdu_wire_decodes p e WP FO F) W O V) as (tl & D). rewrite D. reflexivity.
  Qed.
  Lemma message_wire_decodes types m e : message_wire s e m -> (m_version m = SNMPv1 \/ m_version m = SNMPv2c) -> octets_ok (m_community m) ->
    In (pdu_cls (m_pdu m)) types -> pdu_fields_ok (m_pdu m) -> Forall vb_in (pdu_vbs (m_pdu m)) ->
    decodes (fun ad lo => asn1_decode sequence_tag (message_deserialize (pdu_types types)) ad lo true) e (norm_message m) /\
    decodes (fun ad lo => asn1_decode sequence_tag version_deserialize ad lo true) e (m_version m).
  Proof.
    intros (e1 & e2 & e3 & E & H1 & H2 & H3) Hv [_ Hc] HI FO F.
    assert (I32 : int32 (m_version m)) by (destruct Hv as [->| ->]; unfold int32, SNMPv1, SNMPv2c; lia).
    split.
    - apply (decodes_element s sequence_tag _ (e1 ++ e2 ++ e3)); [exact E|]. intros b B1 B2 B3. unfold message_deserialize.
      destruct (decodes_step _ _ _ _ _ (Integer_wire_decodes _ _ H1 I32) B1 B2 B3) as (t1 & E1 & _ & W1 & O1 & V1 & _).
      rewrite E1. cbn [bind]. rewrite version_known by tauto. cbn [bind].
      assert (X : negb ((m_version m =? SNMPv1) || (m_version m =? SNMPv2c)) = false) by (destruct Hv as [->| ->]; reflexivity). rewrite X.
      destruct (decodes_step _ _ _ _ _ (OctetString_wire_decodes _ _ H2 Hc) W1 O1 V1) as (t2 & E2 & _ & W2 & O2 & V2 & _).
      rewrite E2. cbn [bind]. rewrite (anypdu_wire types (m_pdu m) e3) by auto. reflexivity.
    - apply (decodes_element s sequence_tag _ (e1 ++ e2 ++ e3)); [exact E|]. intros b B1 B2 B3. unfold version_deserialize.
      destruct (decodes_step _ _ _ _ _ (Integer_wire_decodes _ _ H1 I32) B1 B2 B3) as (t1 & E1 & _).
      rewrite E1. cbn [bind]. apply version_known; tauto.
  Qed.
End Decode.
