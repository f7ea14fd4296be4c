(** PrfWire.v -- the encoders produce the octets of SpecWire (C60). *)
From Verif Require Export PrfPdu PrfMsg PrfParams PrfBerSpec SpecWire.

(** * Encoding *)
Lemma tag_encode_low t : tag_ok t -> t_number t < 31 ->
  exists b, tag_encode t = Ok [b] /\ identifier_octets [b] (t_cls t) (t_constructed t) (t_number t).
Proof.
  intros H L. destruct (tag_encode_ok t H) as (e & E & OK).
  assert (S : exists b, e = [b]).
  { unfold tag_encode in E. destruct (t_number t <? 31) eqn:X; [|lia]. cbn [bind] in E.
    apply bind_ok in E as (arr & P & E). apply py_bytes_inv in P as [-> _]. injection E as <-. cbn. eauto. }
  destruct S as [b ->]. exists b. split; [exact E|].
  assert (V : sb_view (sb_whole [b]) = [b] ++ []) by reflexivity.
  pose proof (tag_decode_encode t [b] [] (sb_whole [b]) H E (sb_whole_wf _) V) as D.
  destruct (tag_decode_ident_inv _ _ _ (sb_whole_wf _) OK D) as (ident & rest & I1 & I2 & I3).
  rewrite sb_whole_view in I2.
  destruct ident as [|i ident]; [inversion I1|]. cbn in I2. injection I2 as <- I2. symmetry in I2. apply app_eq_nil in I2 as [-> _]. exact I1.
Qed.
Lemma encode_length_wire n e : 0 <= n -> encode_length n = Ok e -> length_octets e n /\ shortest e n.
Proof.
  intros N E. destruct (encode_length_spec n N) as [[L E']|(L & k & K & B & E1 & E2)].
  - rewrite E' in E. injection E as <-. split; [constructor; lia|]. unfold shortest. destruct (n <? 128) eqn:X; [auto|lia].
  - destruct (le_lt_dec k 127) as [H|H]; [|rewrite E2 in E by auto; discriminate]. rewrite E1 in E by auto. injection E as <-.
    pose proof (be_bytes_length k n) as LN. pose proof (from_be_be_bytes k n) as FB. rewrite Z.mod_small in FB by lia.
    split.
    + rewrite <- FB at 2. rewrite <- LN at 1. apply length_long; [lia|]. apply be_bytes_ok.
    + unfold shortest. destruct (n <? 128) eqn:X; [lia|]. destruct (be_bytes k n) as [|d ds] eqn:BE; [cbn in LN; lia|].
      exists (128 + Z.of_nat k), d, ds. split; [reflexivity|]. intros ->. rewrite from_be_cons in FB. cbn [length] in LN.
      assert (OK : bytes_ok ds). { pose proof (be_bytes_ok k n) as O. rewrite BE in O. now apply bytes_ok_cons in O. }
      pose proof (from_be_bound ds OK). replace (Z.of_nat k - 1) with (zlen ds) in B by (unfold zlen; lia). lia.
Qed.
Lemma ber_encode_element t d e : tag_ok t -> t_number t < 31 -> ber_encode t d = Ok e ->
  element true e (t_cls t) (t_constructed t) (t_number t) d.
Proof.
  intros H L E. apply ber_encode_inv in E as (a & b & A & B & ->). destruct (tag_encode_low t H L) as (x & A' & I).
  rewrite A in A'. injection A' as ->. destruct (encode_length_wire _ _ (zlen_nonneg d) B) as [W S].
  exists [x], b. auto 6.
Qed.
Lemma seq_element d e : ber_encode sequence_tag d = Ok e -> element true e 0 true 16 d.
Proof. intros E. apply (ber_encode_element sequence_tag); auto using sequence_tag_ok. cbn. lia. Qed.

Lemma base128_snoc l x : base128 (l ++ [x]) = base128 l * 128 + x.
Proof. unfold base128. now rewrite fold_left_app. Qed.
Lemma ssl_groups fuel n arr : 0 <= n -> serialize_subid_loop fuel n 128 = Ok arr ->
  Forall (fun b => 128 <= b < 256) (rev arr) /\ base128 (map (fun b => b - 128) (rev arr)) = n /\ hd 129 (rev arr) <> 128.
Proof.
  revert n arr. induction fuel as [|fuel IH]; intros n arr N; cbn [serialize_subid_loop]; destruct (n =? 0) eqn:E; intros H; try discriminate.
  - injection H as <-. cbn. repeat split; auto; lia.
  - injection H as <-. cbn. repeat split; auto; lia.
  - apply bind_ok in H as (arr' & H' & H). injection H as <-. rewrite shiftr_div in H' by lia. change (2 ^ 7) with 128 in H'.
    destruct (IH (n / 128) arr') as (F & B & HD); [apply Z.div_pos; lia|exact H'|].
    pose proof (Z.mod_pos_bound n 128 ltac:(lia)) as M. rewrite land_7f, lor_80' by lia.
    cbn [rev]. split; [|split].
    + apply Forall_app. split; [exact F|]. repeat constructor; lia.
    + rewrite map_app. cbn [map]. rewrite base128_snoc, B. pose proof (Z.div_mod n 128 ltac:(lia)). lia.
    + destruct (rev arr') as [|h t]; [|exact HD]. cbn in B |- *. pose proof (Z.div_mod n 128 ltac:(lia)). lia.
Qed.
Lemma serialize_subid_wire n b : 0 <= n -> serialize_subid n = Ok b ->
  exists highs low, b = highs ++ [low] /\ Forall (fun b => 128 <= b < 256) highs /\ hd 129 highs <> 128 /\ 0 <= low < 128 /\
    base128 (map (fun b => b - 128) highs ++ [low]) = n.
Proof.
  intros N. unfold serialize_subid. destruct (n <? 128) eqn:E.
  - intros H. apply py_bytes_inv in H as [-> _]. exists [], n. cbn. repeat split; auto; lia.
  - intros H. apply bind_ok in H as (arr & H1 & H). apply bind_ok in H as (arr2 & P & H). injection H as <-.
    apply py_bytes_inv in P as [-> _].
    destruct (Z.to_nat (bit_length n)) as [|fuel]; cbn [serialize_subid_loop] in H1; destruct (n =? 0) eqn:Z0; try lia; try discriminate.
    apply bind_ok in H1 as (arr' & H' & H1). injection H1 as <-. rewrite shiftr_div in H' by lia. change (2 ^ 7) with 128 in H'.
    destruct (ssl_groups fuel (n / 128) arr') as (F & B & HD); [apply Z.div_pos; lia|exact H'|].
    pose proof (Z.mod_pos_bound n 128 ltac:(lia)) as M. rewrite land_7f, Z.lor_0_r. cbn [rev].
    exists (rev arr'), (n mod 128). repeat split; auto; try lia. rewrite base128_snoc, B. pose proof (Z.div_mod n 128 ltac:(lia)). lia.
Qed.
Lemma serialize_subids_wire l b : Forall (fun x => 0 <= x) l -> serialize_subids l = Ok b -> subidentifiers b l.
Proof.
  intros F. revert b. induction F as [|x l X F IH]; cbn [serialize_subids]; intros b H.
  - injection H as <-. constructor.
  - apply bind_ok in H as (a & A & H). apply bind_ok in H as (c & C & H). injection H as <-.
    destruct (serialize_subid_wire x a X A) as (highs & low & -> & F1 & F2 & F3 & <-).
    rewrite <- app_assoc. cbn [app]. constructor; auto.
Qed.
Lemma oid_serialize_wire c l b : oid_new c l = Ok l -> oid_faithful l -> oid_serialize l = Ok b -> oid_contents b l.
Proof.
  intros N [L Z0] H. apply oid_new_ok in N. destruct N as (NN & N2 & N40 & _).
  destruct l as [|f [|s l]]; cbn [length] in L; try lia. cbn [nth] in *. inversion NN as [|? ? F0 NN']; subst. inversion NN' as [|? ? S0 NN'']; subst.
  exists f, s, l. split; [reflexivity|]. split; [lia|].
  unfold oid_serialize in H. rewrite (Z.mul_comm f 40), lor_add in H by auto. cbn [skipn] in H.
  apply (serialize_subids_wire (40 * f + s :: l)); [constructor; [lia|auto]|]. exact H.
Qed.

Lemma value_encode_wire p e : snmp_value p -> prim_encode p = Ok e -> value_wire true e p.
Proof.
  intros [C S] H. unfold prim_encode in H. apply bind_ok in H as (b & Hb & H).
  apply ber_encode_element in H; [|apply pcls_tag_ok|destruct p as [[]|[]|[]|[]]; cbn; lia].
  destruct p as [c v|c d|c|c l]; cbn [prim_cls prim_serialize pcls_tag value_wire] in *.
  - rewrite int_serialize_ok in Hb. injection Hb as <-. exists (int_content v). split; [destruct c; exact H|].
    split; [apply int_content_bytes|].
    split. { intros X. pose proof (int_content_first v) as Y. now rewrite X in Y. }
    split; [rewrite <- from_be_signed_value by apply int_content_bytes; apply int_content_value|]. intros _. apply int_content_first.
  - injection Hb as <-. split; [destruct c; exact H|apply C].
  - injection Hb as <-. destruct c; exact H.
  - destruct c; [now elim S|]. exists b. split; [exact H|]. eapply oid_serialize_wire; eauto.
Qed.
Lemma varbind_encode_wire v e : vb_ok v -> varbind_encode v = Ok e -> varbind_wire true e v.
Proof.
  intros (N & F & V) H. unfold varbind_encode in H. apply bind_ok in H as (body & Hb & H).
  unfold varbind_serialize in Hb. apply join_inv in Hb as (e1 & y & H1 & Hb & ->).
  apply join_inv in Hb as (e2 & y2 & H2 & Hb & ->). apply join_nil in Hb as ->. rewrite app_nil_r in H.
  exists e1, e2. split; [now apply seq_element|]. split.
  - apply (value_encode_wire (POid OID (vb_name v))); [split; auto|exact H1].
  - now apply value_encode_wire.
Qed.
Lemma varbinds_encode_wire l e : Forall vb_ok l -> vblist_encode l = Ok e -> varbinds_wire true e l.
Proof.
  intros F H. unfold vblist_encode, vblist_serialize in H. apply bind_ok in H as (body & Hb & H).
  assert (X : exists es, body = concat es /\ Forall2 (varbind_wire true) es l).
  { clear H. revert body Hb. induction F as [|v l V F IH]; cbn [map]; intros body Hb.
    - apply join_nil in Hb as ->. exists []. split; [reflexivity|constructor].
    - apply join_inv in Hb as (e1 & y & H1 & Hb & ->). destruct (IH _ Hb) as (es & -> & W).
      exists (e1 :: es). split; [reflexivity|]. constructor; auto using varbind_encode_wire. }
  destruct X as (es & -> & W). exists es. split; [now apply seq_element|exact W].
Qed.
Lemma Integer_encode_wire v e : Integer_encode v = Ok e -> int_wire true e (0, 2) v.
Proof.
  unfold Integer_encode. intros H. apply bind_ok in H as (p & P & H). destruct (int_new_spec Integer32 v) as [[R E]|[R E]]; rewrite E in P; [|discriminate].
  injection P as <-. apply (value_encode_wire (PInt Integer32 v)); auto. split; [exact E|exact Logic.I].
Qed.
Lemma OctetString_encode_wire d e : bytes_ok d -> OctetString_encode d = Ok e -> octets_wire true e (0, 4) d.
Proof.
  intros O H. apply OctetString_encode_inv in H as [L H]. split; [|exact O].
  apply (ber_encode_element (octets_tag OctetString)); auto; [apply (pcls_tag_ok (COctets OctetString))|cbn; lia].
Qed.
Lemma pdu_encode_wire p e : pdu_ok p -> pdu_encode p = Ok e -> pdu_wire true e p.
Proof.
  intros [_ F] H. unfold pdu_encode in H. apply bind_ok in H as (body & Hb & H).
  unfold pdu_serialize in Hb. apply join_inv in Hb as (e1 & y1 & H1 & Hb & ->).
  apply join_inv in Hb as (e2 & y2 & H2 & Hb & ->). apply join_inv in Hb as (e3 & y3 & H3 & Hb & ->).
  apply join_inv in Hb as (e4 & y4 & H4 & Hb & ->). apply join_nil in Hb as ->. rewrite app_nil_r in *.
  exists e1, e2, e3, e4. split; [|split; [|split; [|split]]]; auto using Integer_encode_wire, varbinds_encode_wire.
  apply ber_encode_element in H; [|apply pdu_tag_ok|destruct (pdu_cls p); cbn; lia]. destruct (pdu_cls p); exact H.
Qed.
Lemma message_encode_wire types m e : message_ok types m -> message_encode m = Ok e -> message_wire true e m.
Proof.
  intros (_ & [C _] & P & _) H. unfold message_encode in H. apply bind_ok in H as (body & Hb & H).
  unfold message_serialize in Hb. apply join_inv in Hb as (e1 & y1 & H1 & Hb & ->).
  apply join_inv in Hb as (e2 & y2 & H2 & Hb & ->). apply join_inv in Hb as (e3 & y3 & H3 & Hb & ->).
  apply join_nil in Hb as ->. rewrite app_nil_r in *.
  exists e1, e2, e3. split; [|split; [|split]]; auto using seq_element, Integer_encode_wire, OctetString_encode_wire, pdu_encode_wire.
Qed.
Lemma flags_encode_wire f e : flags_encode f = Ok e -> exists x, octets_wire true e (0, 4) [x] /\ flags_octet true x f.
Proof.
  intros H. unfold flags_encode in H. apply bind_ok in H as (d & D & H).
  assert (E : exists x, d = [x] /\ flags_octet true x f /\ 0 <= x < 256).
  { unfold flags_data, fl_auth, fl_priv in D. destruct f as [[[] []] []]; cbn in D; injection D as <-; eexists; (split; [reflexivity|]); unfold flags_octet; (split; [split; [reflexivity|intros _; reflexivity]|split; [discriminate|reflexivity]]). }
  destruct E as (x & -> & F & B). exists x. split; [|exact F]. split.
  - apply (ber_encode_element (octets_tag OctetString)); auto; [apply (pcls_tag_ok (COctets OctetString))|cbn; lia].
  - constructor; [exact B|constructor].
Qed.
Lemma header_encode_wire h e : header_encode h = Ok e -> header_wire true e h.
Proof.
  intros H. unfold header_encode in H. apply bind_ok in H as (body & Hb & H).
  unfold header_serialize in Hb. apply join_inv in Hb as (e1 & y1 & H1 & Hb & ->).
  apply join_inv in Hb as (e2 & y2 & H2 & Hb & ->). apply join_inv in Hb as (e3 & y3 & H3 & Hb & ->).
  apply join_inv in Hb as (e4 & y4 & H4 & Hb & ->). apply join_nil in Hb as ->. rewrite app_nil_r in *.
  destruct (flags_encode_wire _ _ H3) as (x & W & F).
  exists e1, e2, e3, e4, x. split; [|split; [|split; [|split; [|split]]]]; auto using seq_element, Integer_encode_wire.
Qed.
Lemma scoped_encode_wire s e : scoped_ok s -> scoped_encode s = Ok e -> scoped_wire true e s.
Proof.
  intros ([O1 _] & [O2 _] & P) H. unfold scoped_encode in H. apply bind_ok in H as (body & Hb & H).
  unfold scoped_serialize in Hb. apply join_inv in Hb as (e1 & y1 & H1 & Hb & ->).
  apply join_inv in Hb as (e2 & y2 & H2 & Hb & ->). apply join_inv in Hb as (e3 & y3 & H3 & Hb & ->).
  apply join_nil in Hb as ->. rewrite app_nil_r in *.
  exists e1, e2, e3. split; [|split; [|split]]; auto using seq_element, OctetString_encode_wire, pdu_encode_wire.
Qed.
Lemma v3_encode_wire m e : v3_ok m -> v3_encode m = Ok e -> v3_wire true e m.
Proof.
  intros (HO & [PO _] & X) H. destruct (v3_encode_pieces m e H) as (e1 & e2 & e3 & e4 & H1 & H2 & H3 & H4 & H').
  exists e1, e2, e3, e4. split; [|split; [|split; [|split]]]; auto using seq_element, header_encode_wire, OctetString_encode_wire.
  - apply (Integer_encode_wire 3). exact H1.
  - unfold v3_payload, fl_priv in H4. destruct (sl_priv _).
    + destruct X as (c & E & [O _]). rewrite E in H4. exists c. auto using OctetString_encode_wire.
    + destruct X as (s & E & O). rewrite E in H4. exists s. auto using scoped_encode_wire.
Qed.
Lemma params_encode_wire p e : params_ok p -> params_encode p = Ok e -> params_wire true e p.
Proof.
  intros ([O1 _] & _ & _ & [O2 _] & [O3 _] & [O4 _]) H. unfold params_encode in H. apply bind_ok in H as (body & Hb & H).
  unfold params_serialize in Hb. apply join_inv in Hb as (e1 & y1 & H1 & Hb & ->).
  apply join_inv in Hb as (e2 & y2 & H2 & Hb & ->). apply join_inv in Hb as (e3 & y3 & H3 & Hb & ->).
  apply join_inv in Hb as (e4 & y4 & H4 & Hb & ->). apply join_inv in Hb as (e5 & y5 & H5 & Hb & ->).
  apply join_inv in Hb as (e6 & y6 & H6 & Hb & ->). apply join_nil in Hb as ->. rewrite app_nil_r in *.
  exists e1, e2, e3, e4, e5, e6. repeat split; auto using seq_element, Integer_encode_wire; try (now apply OctetString_encode_wire).
Qed.
