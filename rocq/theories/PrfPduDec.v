(** PrfPduDec.v -- decoding PDUs from arbitrary bytes: exceptions, termination
    and what a decoded PDU satisfies; encoding succeeds on small PDUs. *)
From Verif Require Export PrfPdu.

Lemma asn1_decode_shrinks {A} t (f : asn1data -> res A) d lo c x tl :
  ad_wf d -> bytes_ok (ad_data d) -> asn1_decode t f d lo c = Ok (x, tl) ->
  (length (sb_view tl) < length (ad_view d))%nat.
Proof.
  intros H1 H2 E. unfold asn1_decode in E. apply bind_ok in E as ([[t' b] tl'] & E1 & E2).
  apply bind_ok in E2 as (x' & E2 & E3). injection E3 as _ <-.
  destruct (ber_decode_total d (Some t) lo c H1 H2)
    as [(t2 & b2 & tl2 & k & E' & _ & _ & Wb & Wt & Hk & Db & Dt & Sb & Tb & Tt & Hs & _)|E']; [|congruence].
  rewrite E1 in E'. injection E' as _ _ <-.
  destruct (sb_new_ad d H1) as [W V]. rewrite <- V.
  pose proof (sb_view_zlen _ W) as L1. pose proof (sb_view_zlen _ Wt) as L2.
  destruct Wb as [? ?]. unfold zlen in *. lia.
Qed.

Definition PE := eq ParseError.
Lemma Integer_decode_raises d lo : ad_wf d -> bytes_ok (ad_data d) -> raises_only PE (Integer_decode d lo).
Proof.
  intros H1 H2. unfold Integer_decode. apply raises_bind; [now apply prim_decode_raises|].
  intros [p tl] E. apply asn1_decode_ok in E as (_ & _ & _ & b & _ & _ & E); auto.
  cbn [prim_deserialize] in E. unfold int_deserialize in E.
  destruct (int_construct_spec Integer32 (from_be_signed (adata_bytes b))) as [[_ X]|[_ X]]; rewrite X in E; [|discriminate].
  injection E as <-. apply raises_ok.
Qed.
Lemma Integer_decode_ok d lo v tl : ad_wf d -> bytes_ok (ad_data d) -> Integer_decode d lo = Ok (v, tl) ->
  ad_wf (ASub tl) /\ bytes_ok (ad_data (ASub tl)) /\ sb_data tl = ad_data d /\ int32 v.
Proof.
  intros H1 H2 H. unfold Integer_decode in H. apply bind_ok in H as ([p tl'] & H & E).
  apply asn1_decode_ok in H as (W & O & Da & b & _ & _ & D); auto. cbn [prim_deserialize] in D. unfold int_deserialize in D.
  destruct (int_construct_spec Integer32 (from_be_signed (adata_bytes b))) as [[R X]|[_ X]]; rewrite X in D; [|discriminate].
  injection D as <-. injection E as <- <-. auto.
Qed.
Lemma OctetString_decode_raises d lo : ad_wf d -> bytes_ok (ad_data d) -> raises_only PE (OctetString_decode d lo).
Proof.
  intros H1 H2. unfold OctetString_decode. apply raises_bind; [now apply prim_decode_raises|].
  intros [p tl] E. apply asn1_decode_ok in E as (_ & _ & _ & b & _ & _ & E); auto.
  cbn [prim_deserialize] in E. unfold octets_deserialize in E.
  destruct (octets_construct_spec OctetString b) as [[_ X]|[_ X]]; rewrite X in E; [|discriminate].
  injection E as <-. apply raises_ok.
Qed.
Lemma OctetString_decode_ok d lo v tl : ad_wf d -> bytes_ok (ad_data d) -> OctetString_decode d lo = Ok (v, tl) ->
  ad_wf (ASub tl) /\ bytes_ok (ad_data (ASub tl)) /\ sb_data tl = ad_data d /\ bytes_ok v /\ zlen v <= 65535.
Proof.
  intros H1 H2 H. unfold OctetString_decode in H. apply bind_ok in H as ([p tl'] & H & E).
  apply asn1_decode_ok in H as (W & O & Da & b & Wb & Ob & D); auto. cbn [prim_deserialize] in D. unfold octets_deserialize in D.
  destruct (octets_construct_spec OctetString b) as [[R X]|[_ X]]; rewrite X in D; [|discriminate].
  injection D as <-. injection E as <- <-. cbn [octets_fit] in R.
  split; [auto|]. split; [auto|]. split; [auto|]. split; [|auto]. rewrite adata_bytes_view by auto. now apply ad_view_ok.
Qed.

(** Values produced by a deserializer are constructible. *)
Lemma prim_deserialize_ok c d p : ad_wf d -> bytes_ok (ad_data d) -> prim_deserialize c d = Ok p ->
  prim_cls p = c /\ prim_constructible p.
Proof.
  intros H1 H2. destruct c as [c|c|c|c]; cbn [prim_deserialize]; intros H.
  - unfold int_deserialize in H. destruct (int_construct_spec c (from_be_signed (adata_bytes d))) as [[R X]|[_ X]];
      rewrite X in H; [|discriminate]. injection H as <-. split; [reflexivity|]. now apply int_new_ok.
  - unfold octets_deserialize in H. destruct (octets_construct_spec c d) as [[R X]|[_ X]]; rewrite X in H; [|discriminate].
    injection H as <-. split; [reflexivity|]. cbn [prim_constructible].
    split; [rewrite adata_bytes_view by auto; now apply ad_view_ok|].
    destruct c; cbn in *; auto.
    + destruct (65535 <? zlen (adata_bytes d)) eqn:?; [lia|reflexivity].
    + rewrite R. reflexivity.
  - injection H as <-. split; [reflexivity|exact I].
  - unfold oid_deserialize in H. destruct (adata_bytes d) as [|b s]; [discriminate|].
    destruct (oid_deserialize_loop s 0 []) as [v more]. destruct (negb (v =? 0)); [discriminate|].
    apply bind_ok in H as (l & Hl & H). injection H as <-.
    destruct (oid_construct_spec c ([b / 40; b mod 40] ++ more)) as [[R X]|[_ X]]; rewrite X in Hl; [|discriminate].
    injection Hl as <-. split; [reflexivity|]. cbn [prim_constructible]. now apply oid_new_ok.
Qed.

(** What a decoded binding satisfies. *)

Lemma OID_decode_raises d lo : ad_wf d -> bytes_ok (ad_data d) -> raises_only PE (OID_decode d lo).
Proof.
  intros H1 H2. unfold OID_decode. apply raises_bind; [now apply prim_decode_raises|].
  intros [p tl] E. apply asn1_decode_ok in E as (_ & _ & _ & b & W & O & E); auto.
  apply prim_deserialize_ok in E as [E _]; auto. destruct p as [| | |c l]; try discriminate; apply raises_ok.
Qed.
Lemma OID_decode_ok d lo v tl : ad_wf d -> bytes_ok (ad_data d) -> OID_decode d lo = Ok (v, tl) ->
  ad_wf (ASub tl) /\ bytes_ok (ad_data (ASub tl)) /\ oid_new OID v = Ok v.
Proof.
  intros H1 H2 H. unfold OID_decode in H. apply bind_ok in H as ([p tl'] & H & E).
  apply asn1_decode_ok in H as (W & O & Da & b & Wb & Ob & D); auto.
  apply prim_deserialize_ok in D as [Hc Hp]; auto. destruct p as [| | |c l]; try discriminate.
  injection Hc as ->. injection E as <- <-. auto.
Qed.

Lemma varbind_deserialize_raises d : ad_wf d -> bytes_ok (ad_data d) -> raises_only PE (varbind_deserialize d).
Proof.
  intros H1 H2. unfold varbind_deserialize. apply raises_bind; [now apply OID_decode_raises|].
  intros [n tl] E. apply OID_decode_ok in E as (W & O & _); auto.
  apply raises_bind; [now apply ber_decode_raises|]. intros [[t b] tl2] E2.
  destruct (dict_get tag_eqb varbind_types t) as [c|]; [|now apply raises_raise].
  apply raises_bind; [apply prim_deserialize_raises|]. intros; apply raises_ok.
Qed.
Lemma dict_get_in {V} (l : list (tag * V)) t c : dict_get tag_eqb l t = Some c -> In (t, c) l.
Proof.
  induction l as [|[t' c'] l IH]; cbn [dict_get]; [discriminate|].
  destruct (tag_eqb t t') eqn:E; intros H; [apply tag_eqb_eq in E as ->; injection H as ->; now left|right; auto].
Qed.
Lemma varbind_deserialize_ok d v : ad_wf d -> bytes_ok (ad_data d) -> varbind_deserialize d = Ok v -> vb_wf v.
Proof.
  intros H1 H2 H. unfold varbind_deserialize in H. apply bind_ok in H as ([n tl] & E & H).
  apply OID_decode_ok in E as (W & O & Hn); auto. apply bind_ok in H as ([[t b] tl2] & E2 & H).
  destruct (ber_decode_ok_wf _ _ _ _ _ _ _ W O E2) as (Wb & Ob & _).
  destruct (dict_get tag_eqb varbind_types t) as [c|] eqn:L; [|discriminate].
  apply bind_ok in H as (p & Hp & H). injection H as <-. apply prim_deserialize_ok in Hp as [Hc Hp]; auto.
  split; [auto|]. split; [auto|]. cbn [vb_value]. rewrite Hc. apply dict_get_in in L.
  unfold varbind_types in L. apply in_map_iff in L as (c' & L1 & L2). injection L1 as _ <-. exact L2.
Qed.

Lemma vblist_loop_total fuel d : ad_wf d -> bytes_ok (ad_data d) -> (length (ad_view d) <= fuel)%nat ->
  raises_only PE (vblist_loop fuel d) /\ forall l, vblist_loop fuel d = Ok l -> Forall vb_wf l.
Proof.
  revert d; induction fuel as [|fuel IH]; intros d H1 H2 Hf; cbn [vblist_loop].
  - rewrite adata_bool_view by auto. destruct (ad_view d); cbn [length] in Hf; [|lia].
    split; [apply raises_ok|]. intros l H; injection H as <-; constructor.
  - destruct (adata_bool d); [|split; [apply raises_ok|]; intros l H; injection H as <-; constructor].
    assert (R : raises_only PE (varbind_decode d true)).
    { apply asn1_decode_raises; auto; try reflexivity. apply varbind_deserialize_raises. }
    destruct (varbind_decode d true) as [[v tl]|e] eqn:E; cbn [bind];
      [|split; [apply raises_raise, R; reflexivity|discriminate]].
    pose proof (asn1_decode_shrinks _ _ _ _ _ _ _ H1 H2 E) as Hs.
    apply asn1_decode_ok in E as (W & O & _ & b & Wb & Ob & E); auto.
    destruct (IH (ASub tl) W O) as [IH1 IH2]; [cbn [ad_view]; lia|].
    split.
    + apply raises_bind; [exact IH1|]. intros; apply raises_ok.
    + intros l H. apply bind_ok in H as (l' & Hl & H). injection H as <-. constructor; auto.
      eapply varbind_deserialize_ok; eauto.
Qed.
Lemma vblist_deserialize_total d : ad_wf d -> bytes_ok (ad_data d) ->
  raises_only PE (vblist_deserialize d) /\ forall l, vblist_deserialize d = Ok l -> Forall vb_wf l.
Proof.
  intros H1 H2. unfold vblist_deserialize. apply vblist_loop_total; auto. now rewrite adata_bytes_view.
Qed.

Lemma pdu_deserialize_raises c d : ad_wf d -> bytes_ok (ad_data d) -> raises_only PE (pdu_deserialize c d).
Proof.
  intros H1 H2. unfold pdu_deserialize.
  apply raises_bind; [now apply Integer_decode_raises|]. intros [v1 t1] E1.
  apply Integer_decode_ok in E1 as (W1 & O1 & _ & _); auto.
  apply raises_bind; [now apply Integer_decode_raises|]. intros [v2 t2] E2.
  apply Integer_decode_ok in E2 as (W2 & O2 & _ & _); auto.
  apply raises_bind; [now apply Integer_decode_raises|]. intros [v3 t3] E3.
  apply Integer_decode_ok in E3 as (W3 & O3 & _ & _); auto.
  apply raises_bind.
  { apply asn1_decode_raises; auto; try reflexivity. intros; now apply vblist_deserialize_total. }
  intros [l t4] _. destruct (is_bulk c).
  - destruct (v2 <? 0); [now apply raises_raise|]. destruct (v3 <? 0); [now apply raises_raise|apply raises_ok].
  - apply raises_bind.
    + apply raises_reraise; [|reflexivity]. unfold ErrorStatus. destruct (_ && _); [apply raises_ok|].
      apply raises_raise. now left.
    + intros s _. destruct (_ || _); [now apply raises_raise|apply raises_ok].
Qed.
Lemma pdu_decode_raises c d lo : ad_wf d -> bytes_ok (ad_data d) -> raises_only PE (pdu_decode c d lo).
Proof. intros. apply asn1_decode_raises; auto; try reflexivity. apply pdu_deserialize_raises. Qed.

Lemma pdu_deserialize_ok c d p : ad_wf d -> bytes_ok (ad_data d) -> pdu_deserialize c d = Ok p ->
  pdu_cls p = c /\ pdu_fields_ok p /\ Forall vb_wf (pdu_vbs p).
Proof.
  intros H1 H2 H. unfold pdu_deserialize in H.
  apply bind_ok in H as ([v1 t1] & E1 & H). apply Integer_decode_ok in E1 as (W1 & O1 & _ & I1); auto.
  apply bind_ok in H as ([v2 t2] & E2 & H). apply Integer_decode_ok in E2 as (W2 & O2 & _ & I2); auto.
  apply bind_ok in H as ([v3 t3] & E3 & H). apply Integer_decode_ok in E3 as (W3 & O3 & _ & I3); auto.
  apply bind_ok in H as ([l t4] & E4 & H). apply asn1_decode_ok in E4 as (_ & _ & _ & b & Wb & Ob & E4); auto.
  apply vblist_deserialize_total in E4; auto. unfold pdu_fields_ok.
  destruct (is_bulk c) eqn:Eb.
  - destruct (v2 <? 0) eqn:?; [discriminate|]. destruct (v3 <? 0) eqn:?; [discriminate|].
    injection H as <-. cbn. destruct c; try discriminate. repeat split; auto; lia || (apply I1 || apply I2 || apply I3).
  - unfold ErrorStatus in H. destruct ((0 <=? v2) && (v2 <=? 18)) eqn:Ea; [|discriminate]. cbn [reraise bind] in H.
    destruct ((negb (v2 =? 0) && (v3 <? 0)) || (zlen l <? v3)) eqn:Ec; [discriminate|].
    injection H as <-. cbn.
    assert (F : 0 <= v2 <= 18 /\ v3 <= zlen l /\ (v2 <> 0 -> 0 <= v3)).
    { destruct (v2 =? 0) eqn:?; cbn [negb andb orb] in Ec; lia. }
    split; [reflexivity|]. split; [|auto]. split; [auto|]. split; [auto|]. split; [auto|].
    destruct c; auto; discriminate.
Qed.
Lemma pdu_decode_ok c d lo p tl : ad_wf d -> bytes_ok (ad_data d) -> pdu_decode c d lo = Ok (p, tl) ->
  pdu_cls p = c /\ pdu_fields_ok p /\ Forall vb_wf (pdu_vbs p).
Proof.
  intros H1 H2 H. apply asn1_decode_ok in H as (_ & _ & _ & b & Wb & Ob & H); auto. eapply pdu_deserialize_ok; eauto.
Qed.

(** ** Equality *)
Lemma zlist_eqb_refl l : zlist_eqb l l = true. Proof. now apply zlist_eqb_eq. Qed.
Lemma same_value_eqb x y : same_value x y -> prim_eqb x y = true.
Proof.
  intros [->|(v & -> & ->)]; [|cbn; now rewrite Z.eqb_refl].
  destruct x; cbn; rewrite ?Z.eqb_refl, ?zlist_eqb_refl, ?tag_eqb_refl; reflexivity.
Qed.
Lemma same_vb_eqb x y : same_vb x y -> varbind_eqb x y = true.
Proof. intros [E H]. unfold varbind_eqb. rewrite E, (same_value_eqb _ _ H). cbn. now rewrite zlist_eqb_refl. Qed.
Lemma same_pdu_eqb x y : same_pdu x y -> pdu_eqb x y = true.
Proof.
  intros (E1 & E2 & E3 & E4 & H). unfold pdu_eqb, pducls_eqb. rewrite E1, E2, E3, E4, tag_eqb_refl, !Z.eqb_refl. cbn.
  induction H; cbn; auto. now rewrite (same_vb_eqb _ _ H).
Qed.
Lemma eqb_same_cls a b : pducls_eqb a b = true -> a = b.
Proof. destruct a, b; cbn; congruence. Qed.

(** ** Sizes: encoding succeeds *)
Lemma encode_length_size n e : 0 <= n < 256 ^ 127 -> encode_length n = Ok e -> zlen e <= 128.
Proof.
  intros Hn H. unfold encode_length in H. destruct (n <? 128) eqn:E.
  - apply py_bytes_inv in H as [-> _]. zl. lia.
  - apply bind_ok in H as (arr & Ha & H). destruct (127 <? zlen arr) eqn:El; [discriminate|].
    apply bind_ok in H as (a2 & H2 & H). injection H as <-. apply py_bytes_inv in H2 as [-> _].
    unfold zlen in *. rewrite rev_length, app_length. cbn [length]. lia.
Qed.
Lemma ber_encode_size t d : tag_ok t -> t_number t < 31 -> bytes_ok d -> zlen d < 256 ^ 127 ->
  exists e, ber_encode t d = Ok e /\ zlen e <= zlen d + 129.
Proof.
  intros Ht Hs Hd Hl. destruct (ber_encode_ok t d Ht Hd Hl) as (e & He & _). exists e. split; [auto|].
  apply ber_encode_inv in He as (a & b & Ha & Hb & ->). zl.
  apply encode_length_size in Hb; [|pose proof (zlen_nonneg d); lia].
  unfold tag_encode in Ha. destruct (t_number t <? 31) eqn:E; [|lia]. cbn [bind] in Ha.
  apply bind_ok in Ha as (x & Hx & Ha). injection Ha as <-. apply py_bytes_inv in Hx as [-> _]. cbn [app rev]. zl. lia.
Qed.

Lemma ssl_len fuel n ind arr : serialize_subid_loop fuel n ind = Ok arr -> (length arr <= fuel)%nat.
Proof.
  revert n ind arr; induction fuel as [|fuel IH]; intros n ind arr; cbn [serialize_subid_loop];
    destruct (n =? 0); intros H; try discriminate; try (injection H as <-; cbn; lia).
  apply bind_ok in H as (r & Hr & H). injection H as <-. cbn [length]. apply IH in Hr. lia.
Qed.
Lemma serialize_subid_len n b : 0 <= n < 2 ^ 32 -> serialize_subid n = Ok b -> zlen b <= 32.
Proof.
  intros Hn H. unfold serialize_subid in H. destruct (n <? 128).
  - apply py_bytes_inv in H as [-> _]. zl. lia.
  - apply bind_ok in H as (t & Ht & H). apply bind_ok in H as (t2 & H2 & H). injection H as <-.
    apply py_bytes_inv in H2 as [-> _]. apply ssl_len in Ht. unfold zlen. rewrite rev_length.
    assert (bit_length n <= 32) by (apply bit_length_spec; lia). lia.
Qed.
Lemma serialize_subids_len l b : Forall (fun x => 0 <= x < 2 ^ 32) l -> serialize_subids l = Ok b -> zlen b <= 32 * zlen l.
Proof.
  intros H; revert b; induction H as [|x l Hx Hl IH]; intros b; cbn [serialize_subids]; intros E.
  - injection E as <-. zl. lia.
  - apply bind_ok in E as (a & Ha & E). apply bind_ok in E as (c & Hc & E). injection E as <-.
    apply serialize_subid_len in Ha; auto. apply IH in Hc. zl. lia.
Qed.
Lemma oid_serialize_len l b : oid_valid OID l -> oid_serialize l = Ok b -> zlen b <= 4200.
Proof.
  intros (H1 & H2 & H3 & H4 & H5) H.
  assert (F : Forall (fun x => 0 <= x < 2 ^ 32) l).
  { rewrite Forall_forall in *. intros x Hx. split; auto. }
  unfold oid_serialize in H. destruct l as [|f l1]; [injection H as <-; zl; lia|].
  apply bind_ok in H as (a & Ha & H). apply bind_ok in H as (c & Hc & H). injection H as <-.
  pose proof (Forall_nth0 (f :: l1) 0 H1) as N0. pose proof (Forall_nth0 (f :: l1) 1 H1) as N1.
  assert (zlen a <= 32).
  { apply serialize_subid_len in Ha; auto.
    replace (f * 40) with (40 * nth 0 (f :: l1) 0) by (cbn; lia).
    replace (match l1 with [] => 0 | s :: _ => s end) with (nth 1 (f :: l1) 0) by (destruct l1; reflexivity).
    pose proof (first_octet_bound (nth 0 (f :: l1) 0) (nth 1 (f :: l1) 0) ltac:(lia) ltac:(lia)). lia. }
  apply serialize_subids_len in Hc; [|now apply Forall_skipn].
  assert (zlen (skipn 2 (f :: l1)) <= zlen (f :: l1)) by (unfold zlen; rewrite skipn_length; lia).
  zl. lia.
Qed.
Lemma int_content_small c v : c <> INTEGER -> in_int_range c v -> zlen (int_content v) <= 9.
Proof.
  intros Hc H. rewrite int_content_len.
  assert (B : bitCount v <= 64).
  { apply bitCount_spec; [lia|]. destruct c; cbn in H; try lia. now elim Hc. }
  pose proof (bitCount_nonneg v). assert (bitCount v / 8 <= 8) by (apply Z.div_le_upper_bound; lia). lia.
Qed.

Definition value_weight (p : prim) : Z := match p with POctets _ d => zlen d | _ => 0 end.
Definition big : Z := 256 ^ 127.
Lemma big_pos : 10000000000 < 256 ^ 126 /\ 256 ^ 126 * 256 = big.
Proof. unfold big. split; [reflexivity|]. reflexivity. Qed.
Lemma value_encode_size p : snmp_value p -> value_weight p < 256 ^ 126 ->
  exists e, prim_encode p = Ok e /\ zlen e <= value_weight p + 4400.
Proof.
  intros [H1 H2] Hw. destruct (prim_serialize_spec p H1) as (b & Hb & Hok & _).
  assert (L : zlen b <= value_weight p + 4200).
  { destruct p as [c v|c d|c|c l]; cbn [prim_serialize value_weight] in *.
    - rewrite int_serialize_ok in Hb. injection Hb as <-. apply int_new_ok in H1.
      assert (zlen (int_content v) <= 9) by (eapply int_content_small; [|exact H1]; destruct c; congruence || tauto). lia.
    - injection Hb as <-. lia.
    - injection Hb as <-. zl. lia.
    - destruct c; [tauto|]. apply oid_new_ok in H1. apply oid_serialize_len in Hb; [lia|auto]. }
  destruct big_pos as [B1 B2]. unfold big in B2.
  destruct (ber_encode_size (pcls_tag (prim_cls p)) b (pcls_tag_ok _)) as (e & He & Le); auto;
    [destruct p as [[]|[]|[]|[]]; cbn; lia|lia|].
  exists e. unfold prim_encode. rewrite Hb. split; [exact He|lia].
Qed.
Lemma sequence_encode_size d : bytes_ok d -> zlen d < big -> exists e, ber_encode sequence_tag d = Ok e /\ zlen e <= zlen d + 129.
Proof. intros. apply ber_encode_size; auto using sequence_tag_ok. cbn. lia. Qed.

Lemma varbind_encode_size v : vb_ok v -> vb_weight v < 256 ^ 126 ->
  exists e, varbind_encode v = Ok e /\ zlen e <= vb_weight v.
Proof.
  intros Hv Hw. pose proof Hv as (H1 & H2 & H3). destruct big_pos as [B1 B2].
  unfold vb_weight in *. fold (value_weight (vb_value v)) in *.
  destruct (value_encode_size (POid OID (vb_name v))) as (e1 & E1 & L1); [split; auto|cbn; lia|].
  destruct (value_encode_size (vb_value v) H3) as (e2 & E2 & L2); [lia|]. cbn [value_weight] in L1.
  destruct (sequence_encode_size (e1 ++ e2)) as (e & E & L).
  - apply bytes_ok_app. split; eapply prim_encode_bytes; eauto; try exact H1; apply H3.
  - zl. lia.
  - exists e. unfold varbind_encode, varbind_serialize. cbn [join_encodings]. rewrite E1, E2. cbn [bind].
    rewrite app_nil_r. split; [exact E|]. autorewrite with zlen in L. lia.
Qed.
Definition vbs_weight (l : list varbind) : Z := fold_right (fun v n => vb_weight v + n) 20000 l.
Lemma vb_weight_pos v : 0 < vb_weight v.
Proof. unfold vb_weight. destruct (vb_value v); pose proof (zlen_nonneg (@nil Z)); try lia. pose proof (zlen_nonneg data). lia. Qed.
Lemma vbs_weight_pos l : 20000 <= vbs_weight l.
Proof. induction l; cbn; [lia|]. pose proof (vb_weight_pos a). fold (vbs_weight l). lia. Qed.
Lemma vblist_serialize_size l : Forall vb_ok l -> vbs_weight l < 256 ^ 126 ->
  exists b, vblist_serialize l = Ok b /\ zlen b <= vbs_weight l - 20000.
Proof.
  induction 1 as [|v l Hv Hl IH]; intros Hw.
  - exists []. split; [reflexivity|]. cbn. zl. lia.
  - cbn [vbs_weight fold_right] in *. fold (vbs_weight l) in *. pose proof (vb_weight_pos v). pose proof (vbs_weight_pos l).
    destruct IH as (b & Eb & Lb); [lia|]. destruct (varbind_encode_size v Hv) as (e & E & L); [lia|].
    exists (e ++ b). unfold vblist_serialize in *. cbn [map join_encodings]. rewrite E, Eb. split; [reflexivity|]. zl. lia.
Qed.
Lemma Integer_encode_size v : int32 v -> exists e, Integer_encode v = Ok e /\ zlen e <= 138.
Proof.
  intros H. unfold Integer_encode. destruct (int_new_spec Integer32 v) as [[R E]|[R _]]; [|elim R; exact H].
  rewrite E. cbn [bind]. unfold prim_encode. cbn [prim_serialize]. rewrite int_serialize_ok. cbn [bind].
  pose proof (int_content_small Integer32 v ltac:(discriminate) R).
  destruct big_pos as [B1 B2]. unfold big in B2.
  destruct (ber_encode_size (pcls_tag (CInt Integer32)) (int_content v)) as (e & He & Le);
    auto using pcls_tag_ok, int_content_bytes; [lia|]. exists e. split; [exact He|lia].
Qed.
Lemma OctetString_encode_size d : bytes_ok d -> zlen d <= 65535 ->
  exists e, OctetString_encode d = Ok e /\ zlen e <= zlen d + 129.
Proof.
  intros H L. unfold OctetString_encode. cbn [octets_new]. destruct (0xffff <? zlen d) eqn:E; [lia|]. cbn [bind].
  unfold prim_encode. cbn [prim_serialize bind]. destruct big_pos as [B1 B2]. unfold big in B2.
  apply ber_encode_size; auto; [apply (pcls_tag_ok (COctets OctetString))|lia].
Qed.

Lemma pdu_encode_size p : pdu_ok p -> pdu_weight p < 256 ^ 126 ->
  exists e, pdu_encode p = Ok e /\ zlen e <= pdu_weight p.
Proof.
  intros [(H1 & H2 & H3 & _) Hl] Hw. unfold pdu_weight in *. fold (vbs_weight (pdu_vbs p)) in *.
  destruct big_pos as [B1 B2]. pose proof (vbs_weight_pos (pdu_vbs p)).
  destruct (Integer_encode_size _ H1) as (e1 & E1 & L1). destruct (Integer_encode_size _ H2) as (e2 & E2 & L2).
  destruct (Integer_encode_size _ H3) as (e3 & E3 & L3).
  destruct (vblist_serialize_size _ Hl Hw) as (b & Eb & Lb).
  assert (Hb : bytes_ok b).
  { eapply join_bytes; [|exact Eb]. intros x Hx. apply in_map_iff in Hx as (v & Hx & Hi).
    rewrite Forall_forall in Hl. eapply varbind_encode_bytes; eauto. }
  destruct (sequence_encode_size b Hb) as (e4 & E4 & L4); [lia|].
  assert (E4' : vblist_encode (pdu_vbs p) = Ok e4) by (unfold vblist_encode; rewrite Eb; exact E4).
  destruct (ber_encode_size (pdu_tag (pdu_cls p)) (e1 ++ e2 ++ e3 ++ e4)) as (e & E & L).
  - apply pdu_tag_ok.
  - destruct (pdu_cls p); cbn; lia.
  - rewrite !bytes_ok_app. repeat split; try (eapply Integer_encode_bytes; eassumption). eapply vblist_encode_bytes; eauto.
  - unfold big in *. zl. lia.
  - exists e. unfold pdu_encode, pdu_serialize. cbn [join_encodings]. rewrite E1, E2, E3, E4'. cbn [bind].
    rewrite app_nil_r. split; [exact E|]. autorewrite with zlen in L. lia.
Qed.
