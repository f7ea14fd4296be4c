(** PrfMsgDec.v -- exceptions and well-formedness of decoded messages. *)
From Verif Require Export PrfParams.

Lemma bytes_only {P : exc -> Prop} {A} (r : res A) : raises_only PE r -> P ParseError -> raises_only P r.
Proof. intros H HP e E. rewrite <- (H e E). exact HP. Qed.

Definition IME (e : exc) : Prop := is_IncomingMessageError e = true.
Lemma IME_PE : IME ParseError. Proof. reflexivity. Qed.
Ltac rx := first [apply raises_ok | apply raises_raise; reflexivity].

Lemma asn1_decode_raises_gen {A} (P : exc -> Prop) t (f : asn1data -> res A) d lo cp : P ParseError ->
  (forall b, ad_wf b -> bytes_ok (ad_data b) -> raises_only P (f b)) ->
  ad_wf d -> bytes_ok (ad_data d) -> raises_only P (asn1_decode t f d lo cp).
Proof.
  intros HP Hf W O. unfold asn1_decode. apply raises_bind; [apply bytes_only; auto; now apply ber_decode_raises|].
  intros [[t' b] tl] E. destruct (ber_decode_ok_wf _ _ _ _ _ _ _ W O E) as (Wb & Ob & _).
  apply raises_bind; [now apply Hf|]. intros; apply raises_ok.
Qed.

Lemma anypdu_decode_raises types s : sb_wf s -> bytes_ok (sb_data s) -> raises_only PE (anypdu_decode types s).
Proof.
  intros W O. unfold anypdu_decode. replace (sb_new (ASub s) None None) with s by (destruct s; reflexivity).
  apply raises_bind; [intros e E; destruct (tag_decode_total s W O) as [(t & k & X & _)|X]; congruence|]. intros [i tl] _.
  destruct (dict_get tag_eqb types i); [|rx].
  apply raises_bind; [now apply pdu_decode_raises|]. intros; apply raises_ok.
Qed.
Lemma anypdu_decode_ok types s p : sb_wf s -> bytes_ok (sb_data s) -> anypdu_decode (pdu_types types) s = Ok p ->
  In (pdu_cls p) types /\ pdu_fields_ok p /\ Forall vb_wf (pdu_vbs p).
Proof.
  intros W O H. unfold anypdu_decode in H. apply bind_ok in H as ([i tl] & _ & H).
  destruct (dict_get tag_eqb (pdu_types types) i) eqn:E; [|discriminate].
  apply bind_ok in H as ([p' tl'] & H & E'). injection E' as ->.
  apply pdu_decode_ok in H as (Hc & H1 & H2); auto. split; [|auto].
  apply dict_get_in in E. unfold pdu_types in E. apply in_map_iff in E as (c & E & Hin). injection E as _ <-. now rewrite Hc.
Qed.

Lemma ProtocolVersion_raises v : raises_only IME (ProtocolVersion v).
Proof. unfold ProtocolVersion. destruct (_ || _); rx. Qed.
Lemma ProtocolVersion_ok v w : ProtocolVersion v = Ok w -> w = v /\ (v = SNMPv1 \/ v = SNMPv2c \/ v = SNMPv3).
Proof.
  unfold ProtocolVersion. destruct ((v =? SNMPv1) || (v =? SNMPv2c) || (v =? SNMPv3)) eqn:E; intros H; [|discriminate].
  injection H as <-. split; auto. rewrite !orb_true_iff, !Z.eqb_eq in E. tauto.
Qed.

Lemma version_decode_raises d : ad_wf d -> bytes_ok (ad_data d) -> raises_only IME (version_decode d).
Proof.
  intros W O. unfold version_decode. apply raises_bind; [|intros; apply raises_ok].
  apply asn1_decode_raises_gen; auto; [reflexivity|]. intros b Wb Ob. unfold version_deserialize.
  apply raises_bind; [apply bytes_only; [now apply Integer_decode_raises|reflexivity]|].
  intros [v tl] _. apply ProtocolVersion_raises.
Qed.
Lemma version_decode_ok d v : ad_wf d -> bytes_ok (ad_data d) -> version_decode d = Ok v ->
  v = SNMPv1 \/ v = SNMPv2c \/ v = SNMPv3.
Proof.
  intros W O H. unfold version_decode in H. apply bind_ok in H as ([v' tl] & H & E). injection E as ->.
  apply asn1_decode_ok in H as (_ & _ & _ & b & Wb & Ob & H); auto. unfold version_deserialize in H.
  apply bind_ok in H as ([w tl'] & _ & H). apply ProtocolVersion_ok in H as [-> H]. exact H.
Qed.

Lemma message_decode_raises types d : ad_wf d -> bytes_ok (ad_data d) -> raises_only IME (message_decode types d).
Proof.
  intros W O. unfold message_decode. apply raises_bind; [|intros; apply raises_ok].
  apply asn1_decode_raises_gen; auto; [reflexivity|]. intros b Wb Ob. unfold message_deserialize.
  apply raises_bind; [apply bytes_only; [now apply Integer_decode_raises|reflexivity]|].
  intros [v tl] E. apply Integer_decode_ok in E as (W1 & O1 & _); auto.
  apply raises_bind; [apply ProtocolVersion_raises|]. intros w _.
  destruct (negb _); [rx|].
  apply raises_bind; [apply bytes_only; [now apply OctetString_decode_raises|reflexivity]|].
  intros [c tl2] E2. apply OctetString_decode_ok in E2 as (W2 & O2 & _); auto.
  apply raises_bind; [apply bytes_only; [now apply anypdu_decode_raises|reflexivity]|]. intros; apply raises_ok.
Qed.


Lemma message_decode_ok types d m : ad_wf d -> bytes_ok (ad_data d) -> message_decode (pdu_types types) d = Ok m ->
  message_wf types m /\ version_decode d = Ok (m_version m).
Proof.
  intros W O H. unfold message_decode in H. apply bind_ok in H as ([m' tl] & H & E). injection E as ->.
  unfold asn1_decode in H. apply bind_ok in H as ([[t' b] tl'] & Hb & H).
  destruct (ber_decode_ok_wf _ _ _ _ _ _ _ W O Hb) as (Wb & Ob & _).
  apply bind_ok in H as (m0 & H & E). injection E as -> ->.
  unfold message_deserialize in H. apply bind_ok in H as ([v tl1] & E1 & H).
  pose proof E1 as E1'. apply Integer_decode_ok in E1 as (W1 & O1 & _); auto.
  apply bind_ok in H as (w & Hw & H). pose proof Hw as Hw'. apply ProtocolVersion_ok in Hw as [-> Hv].
  destruct (negb ((v =? SNMPv1) || (v =? SNMPv2c))) eqn:Ev; [discriminate|].
  apply bind_ok in H as ([c tl2] & E2 & H). apply OctetString_decode_ok in E2 as (W2 & O2 & _ & C1 & C2); auto.
  apply bind_ok in H as (p & Hp & H). injection H as <-.
  apply anypdu_decode_ok in Hp as (P1 & P2 & P3); auto. split.
  - apply negb_false_iff in Ev. rewrite orb_true_iff, !Z.eqb_eq in Ev. split; [exact Ev|].
    split; [split; auto|]. auto.
  - unfold version_decode, asn1_decode. rewrite Hb. cbn [bind]. unfold version_deserialize. rewrite E1'. cbn [bind].
    rewrite Hw'. reflexivity.
Qed.

(** ** v3 *)
Lemma flags_construct_raises b : ad_wf b -> bytes_ok (ad_data b) -> raises_only IME (flags_construct b).
Proof.
  intros W O. unfold flags_construct. apply raises_bind.
  - assert (X : exists r, adata_index b 0 = r /\ (forall e, r = Raise e -> e = IndexError)).
    { eexists. split; [reflexivity|]. intros e. destruct b as [l|s]; cbn [adata_index].
      - unfold py_index. destruct l; cbn; intros H; [now injection H as <-|discriminate].
      - change (sb_dereference s = Raise e -> e = IndexError). intros H. cbn in W.
        destruct (sb_view s) as [|y v] eqn:V; [rewrite (sb_deref_nil s W V) in H; now injection H as <-|].
        rewrite (sb_deref_cons s y v W V) in H. discriminate. }
    destruct X as (r & -> & X). destruct r as [a|e]; [apply raises_ok|]. rewrite (X e eq_refl). apply raises_raise. reflexivity.
  - intros y _. apply raises_bind; [|intros; apply raises_ok].
    unfold SecurityLevel. destruct (_ && _); rx.
Qed.
Lemma flags_decode_raises d lo : ad_wf d -> bytes_ok (ad_data d) -> raises_only IME (flags_decode d lo).
Proof. apply asn1_decode_raises_gen; [reflexivity|]. apply flags_construct_raises. Qed.
Lemma flags_construct_level b f : flags_construct b = Ok f -> level_ok (fl_level f).
Proof.
  unfold flags_construct. intros H. apply bind_ok in H as (y & _ & H). apply bind_ok in H as (l & Hl & H). injection H as <-.
  cbn [fl_level]. unfold SecurityLevel in Hl. destruct (negb (Z.land y AUTH_FLAG =? 0)), (negb (Z.land y PRIV_FLAG =? 0));
    cbn in Hl; try discriminate; injection Hl as <-; unfold level_ok; cbn; auto.
Qed.
Lemma flags_decode_ok d lo f tl : ad_wf d -> bytes_ok (ad_data d) -> flags_decode d lo = Ok (f, tl) ->
  ad_wf (ASub tl) /\ bytes_ok (ad_data (ASub tl)) /\ level_ok (fl_level f).
Proof.
  intros W O H. apply asn1_decode_ok in H as (W1 & O1 & _ & b & Wb & Ob & H); auto. split; [auto|]. split; [auto|].
  eapply flags_construct_level; eauto.
Qed.

Lemma header_decode_raises d lo : ad_wf d -> bytes_ok (ad_data d) -> raises_only IME (header_decode d lo).
Proof.
  apply asn1_decode_raises_gen; [reflexivity|]. clear. intros b W O. unfold header_deserialize.
  apply raises_bind; [apply bytes_only; [now apply Integer_decode_raises|reflexivity]|].
  intros [v1 t1] E1. apply Integer_decode_ok in E1 as (W1 & O1 & _); auto.
  apply raises_bind; [apply bytes_only; [now apply Integer_decode_raises|reflexivity]|].
  intros [v2 t2] E2. apply Integer_decode_ok in E2 as (W2 & O2 & _); auto.
  apply raises_bind; [now apply flags_decode_raises|].
  intros [v3 t3] E3. apply flags_decode_ok in E3 as (W3 & O3 & _); auto.
  apply raises_bind; [apply bytes_only; [now apply Integer_decode_raises|reflexivity]|].
  intros [v4 t4] _. destruct (v1 <? 0); [rx|]. destruct (v2 <? 484); [rx|].
  destruct (v4 <? 1); [rx|]. destruct (v4 =? USM); rx.
Qed.
Lemma header_decode_ok d lo h tl : ad_wf d -> bytes_ok (ad_data d) -> header_decode d lo = Ok (h, tl) ->
  ad_wf (ASub tl) /\ bytes_ok (ad_data (ASub tl)) /\ header_ok h.
Proof.
  intros W O H. apply asn1_decode_ok in H as (W1 & O1 & _ & b & Wb & Ob & H); auto. split; [auto|]. split; [auto|].
  clear - Wb Ob H. unfold header_deserialize in H.
  apply bind_ok in H as ([v1 t1] & E1 & H). apply Integer_decode_ok in E1 as (W1 & O1 & _ & I1); auto.
  apply bind_ok in H as ([v2 t2] & E2 & H). apply Integer_decode_ok in E2 as (W2 & O2 & _ & I2); auto.
  apply bind_ok in H as ([v3 t3] & E3 & H). apply flags_decode_ok in E3 as (W3 & O3 & I3); auto.
  apply bind_ok in H as ([v4 t4] & E4 & H). apply Integer_decode_ok in E4 as (W4 & O4 & _ & I4); auto.
  destruct (v1 <? 0) eqn:?; [discriminate|]. destruct (v2 <? 484) eqn:?; [discriminate|].
  destruct (v4 <? 1) eqn:?; [discriminate|]. destruct (v4 =? USM) eqn:?; [|discriminate].
  injection H as <-. unfold int32 in *. unfold header_ok. cbn. split; [lia|]. split; [lia|]. split; [auto|lia].
Qed.

Lemma scoped_decode_raises d lo : ad_wf d -> bytes_ok (ad_data d) -> raises_only PE (scoped_decode d lo).
Proof.
  apply asn1_decode_raises_gen; [reflexivity|]. clear. intros b W O. unfold scoped_deserialize.
  apply raises_bind; [now apply OctetString_decode_raises|].
  intros [v1 t1] E1. apply OctetString_decode_ok in E1 as (W1 & O1 & _); auto.
  apply raises_bind; [now apply OctetString_decode_raises|].
  intros [v2 t2] E2. apply OctetString_decode_ok in E2 as (W2 & O2 & _); auto.
  apply raises_bind; [now apply anypdu_decode_raises|]. intros; apply raises_ok.
Qed.
Lemma scoped_decode_ok d lo s tl : ad_wf d -> bytes_ok (ad_data d) -> scoped_decode d lo = Ok (s, tl) -> scoped_wf s.
Proof.
  intros W O H. apply asn1_decode_ok in H as (_ & _ & _ & b & Wb & Ob & H); auto.
  clear - Wb Ob H. unfold scoped_deserialize in H.
  apply bind_ok in H as ([v1 t1] & E1 & H). apply OctetString_decode_ok in E1 as (W1 & O1 & _ & I1 & J1); auto.
  apply bind_ok in H as ([v2 t2] & E2 & H). apply OctetString_decode_ok in E2 as (W2 & O2 & _ & I2 & J2); auto.
  apply bind_ok in H as (p & Hp & H). injection H as <-. change pduTypes_v2 with (pdu_types all_pdus) in Hp.
  apply anypdu_decode_ok in Hp as (_ & P2 & P3); auto. repeat (split; auto).
Qed.

Lemma octets_original_raises d lo cp : ad_wf d -> bytes_ok (ad_data d) ->
  raises_only PE (OctetString_decode_original d lo cp).
Proof.
  apply asn1_decode_raises_gen; [reflexivity|]. clear. intros b W O. apply raises_bind; [|intros; apply raises_ok].
  unfold octets_construct, reraise. destruct (octets_new OctetString (adata_bytes b)) eqn:E; [rx|].
  cbn [octets_new] in E. destruct (_ <? _); [|discriminate]. injection E as <-. rx.
Qed.
Lemma octets_original_ok d lo cp b tl : ad_wf d -> bytes_ok (ad_data d) ->
  OctetString_decode_original d lo cp = Ok (b, tl) ->
  ad_wf (ASub tl) /\ bytes_ok (ad_data (ASub tl)) /\ ad_wf b /\ bytes_ok (ad_data b) /\
  octets_ok (adata_bytes b) /\ (cp = false -> exists s, b = ASub s /\ sb_data s = ad_data d).
Proof.
  intros W O H. unfold OctetString_decode_original, asn1_decode in H. apply bind_ok in H as ([[t' b'] tl'] & Hb & H).
  destruct (ber_decode_ok_wf _ _ _ _ _ _ _ W O Hb) as (Wb & Ob & W1 & D1 & O1).
  apply bind_ok in H as (b0 & H & E). injection E as -> ->. apply bind_ok in H as (p & Hp & H). injection H as ->.
  split; [auto|]. split; [auto|]. split; [auto|]. split; [auto|]. split.
  - assert (Q : zlen (adata_bytes b) <= 65535).
    { unfold octets_construct, reraise in Hp. destruct (octets_new OctetString (adata_bytes b)) eqn:E; [|destruct (is_ValueError e); discriminate].
      cbn [octets_new] in E. destruct (0xffff <? zlen (adata_bytes b)) eqn:X; [discriminate|lia]. }
    split; auto. rewrite adata_bytes_view by auto. now apply ad_view_ok.
  - intros ->. destruct (ber_decode_total d (Some (octets_tag OctetString)) lo false W O)
      as [(t2 & b2 & tl2 & k & E' & _ & _ & _ & _ & _ & Db & _)|E']; [|rewrite Hb in E'; discriminate].
    rewrite Hb in E'. injection E' as _ -> _. eexists. split; [reflexivity|]. rewrite Db. destruct d; reflexivity.
Qed.

Lemma v3_decode_raises d : ad_wf d -> bytes_ok (ad_data d) -> raises_only IME (v3_decode d).
Proof.
  intros W O. unfold v3_decode. apply raises_bind; [|intros; apply raises_ok].
  apply asn1_decode_raises_gen; auto; [reflexivity|]. clear. intros b W O. unfold v3_deserialize.
  apply raises_bind; [apply bytes_only; [now apply Integer_decode_raises|reflexivity]|].
  intros [v tl] E. apply Integer_decode_ok in E as (W1 & O1 & _); auto.
  apply raises_bind; [apply ProtocolVersion_raises|]. intros w _. destruct (negb _); [rx|].
  apply raises_bind; [now apply header_decode_raises|].
  intros [h t2] E2. apply header_decode_ok in E2 as (W2 & O2 & _); auto.
  apply raises_bind; [apply bytes_only; [now apply octets_original_raises|reflexivity]|].
  intros [p t3] E3. apply octets_original_ok in E3 as (W3 & O3 & _); auto.
  destruct (fl_priv (h_flags h)).
  - apply raises_bind; [apply bytes_only; [now apply OctetString_decode_raises|reflexivity]|]. intros; apply raises_ok.
  - apply raises_bind; [apply bytes_only; [now apply scoped_decode_raises|reflexivity]|]. intros; apply raises_ok.
Qed.

Lemma skipn_add {A} a b (l : list A) : skipn a (skipn b l) = skipn (a + b) l.
Proof.
  revert l; induction b as [|b IH]; intros l; [now rewrite Nat.add_0_r|].
  rewrite <- plus_n_Sm. destruct l; [now rewrite !skipn_nil|]. apply IH.
Qed.
(** What a successfully decoded v3 message looks like. *)

Lemma ber_decode_nocopy d ex lo t b tl : ad_wf d -> bytes_ok (ad_data d) ->
  ber_decode d ex lo false = Ok (t, b, tl) -> exists s, b = ASub s /\ sb_wf s /\ sb_data s = ad_data d.
Proof.
  intros W O H. destruct (ber_decode_total d ex lo false W O)
      as [(t2 & b2 & tl2 & k & E' & _ & _ & W' & _ & _ & Db & _)|E']; [|congruence].
  rewrite H in E'. injection E' as _ -> _. eexists. split; [reflexivity|]. split; [auto|]. rewrite Db. destruct d; reflexivity.
Qed.

Lemma v3_decode_ok d m : ad_wf d -> bytes_ok (ad_data d) -> v3_decode d = Ok m ->
  v3_wf m /\ v3_engineID m = None /\ v3_name m = None /\
  exists s, v3_params m = ASub s /\ sb_wf s /\ sb_data s = ad_data d.
Proof.
  intros W O H. unfold v3_decode in H. apply bind_ok in H as ([m' tl] & H & E). injection E as ->.
  unfold asn1_decode in H. apply bind_ok in H as ([[t' b] tl'] & Hb & H).
  destruct (ber_decode_nocopy _ _ _ _ _ _ W O Hb) as (sb & -> & Wb & Db).
  assert (Ob : bytes_ok (ad_data (ASub sb))) by (cbn; now rewrite Db).
  apply bind_ok in H as (m0 & H & E). injection E as -> ->. unfold v3_deserialize in H.
  apply bind_ok in H as ([v t1] & E1 & H). apply Integer_decode_ok in E1 as (W1 & O1 & D1 & _); auto.
  apply bind_ok in H as (w & _ & H). destruct (negb _); [discriminate|].
  apply bind_ok in H as ([h t2] & E2 & H).
  assert (D2 : sb_data t2 = ad_data (ASub t1)) by (apply asn1_decode_ok in E2; tauto).
  apply header_decode_ok in E2 as (W2 & O2 & Hh); auto.
  apply bind_ok in H as ([p t3] & E3 & H). apply octets_original_ok in E3 as (W3 & O3 & Wp & Op & Hp & Hc); auto.
  destruct (Hc eq_refl) as (s & -> & Ds).
  assert (Dd : sb_data s = ad_data d). { rewrite Ds. cbn. rewrite D2. cbn. rewrite D1. cbn. exact Db. }
  unfold v3_wf. unfold fl_priv in H. destruct (sl_priv (fl_level (h_flags h))) eqn:Ep.
  - apply bind_ok in H as ([c t4] & E4 & H). apply OctetString_decode_ok in E4 as (_ & _ & _ & C1 & C2); auto.
    injection H as <-. cbn [v3_header v3_params v3_encrypted v3_scoped v3_engineID v3_name fst]. rewrite Ep.
    split; [|split; [reflexivity|split; [reflexivity|exists s; auto]]].
    split; [auto|]. split; [auto|]. split; [auto|]. exists c. split; [auto|split; auto].
  - apply bind_ok in H as ([c t4] & E4 & H). apply scoped_decode_ok in E4 as Hs; auto.
    injection H as <-. cbn [v3_header v3_params v3_encrypted v3_scoped v3_engineID v3_name fst]. rewrite Ep.
    split; [|split; [reflexivity|split; [reflexivity|exists s; auto]]].
    split; [auto|]. split; [auto|]. split; [auto|]. exists c. split; auto.
Qed.

(** USM parameters *)
Lemma params_decode_raises d : ad_wf d -> bytes_ok (ad_data d) -> raises_only PE (params_decode d).
Proof.
  intros W O. unfold params_decode. apply raises_bind; [|intros; apply raises_ok].
  apply asn1_decode_raises_gen; auto; [reflexivity|]. clear. intros b W O. unfold params_deserialize.
  apply raises_bind; [now apply OctetString_decode_raises|].
  intros [v1 t1] E1. apply OctetString_decode_ok in E1 as (W1 & O1 & _); auto.
  apply raises_bind; [now apply Integer_decode_raises|].
  intros [v2 t2] E2. apply Integer_decode_ok in E2 as (W2 & O2 & _); auto.
  apply raises_bind; [now apply Integer_decode_raises|].
  intros [v3 t3] E3. apply Integer_decode_ok in E3 as (W3 & O3 & _); auto.
  apply raises_bind; [now apply OctetString_decode_raises|].
  intros [v4 t4] E4. apply OctetString_decode_ok in E4 as (W4 & O4 & _); auto.
  apply raises_bind; [now apply octets_original_raises|].
  intros [v5 t5] E5. apply octets_original_ok in E5 as (W5 & O5 & _); auto.
  apply raises_bind; [now apply OctetString_decode_raises|].
  intros [v6 t6] E6. apply raises_ok.
Qed.

(** The decoded signature sits at [up_index] of the whole message. *)
Lemma params_decode_ok s p : sb_wf s -> bytes_ok (sb_data s) -> params_decode (ASub s) = Ok p ->
  params_ok p /\ exists i before after, up_index p = Some i /\ up_whole p = Some (sb_data s) /\
    sb_data s = before ++ up_signature p ++ after /\ zlen before = i.
Proof.
  intros W O H. unfold params_decode in H. apply bind_ok in H as ([m' tl] & H & E). injection E as ->.
  unfold asn1_decode in H. apply bind_ok in H as ([[t' b] tl'] & Hb & H).
  destruct (ber_decode_nocopy (ASub s) _ _ _ _ _ W O Hb) as (sb & -> & Wb & Db).
  assert (Ob : bytes_ok (ad_data (ASub sb))) by (cbn; rewrite Db; exact O).
  apply bind_ok in H as (m0 & H & E). injection E as -> ->. unfold params_deserialize in H.
  apply bind_ok in H as ([v1 t1] & E1 & H). apply OctetString_decode_ok in E1 as (W1 & O1 & D1 & I1 & J1); auto.
  apply bind_ok in H as ([v2 t2] & E2 & H). apply Integer_decode_ok in E2 as (W2 & O2 & D2 & I2); auto.
  apply bind_ok in H as ([v3 t3] & E3 & H). apply Integer_decode_ok in E3 as (W3 & O3 & D3 & I3); auto.
  apply bind_ok in H as ([v4 t4] & E4 & H). apply OctetString_decode_ok in E4 as (W4 & O4 & D4 & I4 & J4); auto.
  apply bind_ok in H as ([v5 t5] & E5 & H). apply octets_original_ok in E5 as (W5 & O5 & Wg & Og & Hg & Hc); auto.
  destruct (Hc eq_refl) as (sg & -> & Ds).
  apply bind_ok in H as ([v6 t6] & E6 & H). apply OctetString_decode_ok in E6 as (W6 & O6 & D6 & I6 & J6); auto.
  injection H as <-.
  assert (Dg : sb_data sg = sb_data s). { rewrite Ds. cbn. rewrite D4. cbn. rewrite D3. cbn. rewrite D2. cbn. rewrite D1. cbn. exact Db. }
  unfold UsmSecurityParameters. cbn [up_index up_whole up_signature]. split.
  - unfold params_ok, octets_ok. cbn [up_engineID up_boots up_time up_userName up_signature up_salt].
    cbn in Hg. repeat (split; auto); apply Hg.
  - cbn in Wg. exists (sb_start sg), (firstn (Z.to_nat (sb_start sg)) (sb_data sg)), (skipn (Z.to_nat (sb_stop sg)) (sb_data sg)).
    rewrite Dg. split; [auto|]. split; [auto|]. rewrite sb_getslice_all by auto. destruct Wg as [G1 G2]. rewrite Dg in G2.
    unfold sb_view. rewrite Dg. split.
    + rewrite <- (firstn_skipn (Z.to_nat (sb_start sg)) (sb_data s)) at 1. f_equal.
      rewrite <- (firstn_skipn (Z.to_nat (sb_stop sg - sb_start sg)) (skipn (Z.to_nat (sb_start sg)) (sb_data s))) at 1. f_equal.
      rewrite skipn_add. f_equal. lia.
    + unfold zlen in *. rewrite firstn_length. lia.
Qed.

(** ** Levels *)
Lemma level_cases l : level_ok l -> l = noAuthNoPriv \/ l = authNoPriv \/ l = authPriv.
Proof. destruct l as [[] []]; cbn; intros H; auto. now specialize (H eq_refl). Qed.
