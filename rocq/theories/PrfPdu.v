(** PrfPdu.v -- proofs about Pdu.v *)
From Verif Require Export PrfDec SpecPdu.

Definition norm_prim (p : prim) : prim :=
  match p with PInt Unsigned32 v => PInt Gauge32 v | _ => p end.
Definition norm_vb (v : varbind) : varbind := mkVarBind (vb_name v) (norm_prim (vb_value v)).
Definition norm_pdu (p : pdu) : pdu :=
  mkPDU (pdu_cls p) (pdu_requestID p) (pdu_a p) (pdu_b p) (map norm_vb (pdu_vbs p)).

Lemma norm_same p : same_value p (norm_prim p).
Proof. destruct p as [[]| | |]; cbn; unfold same_value; eauto. Qed.
Lemma norm_vb_same v : same_vb v (norm_vb v).
Proof. split; [reflexivity|apply norm_same]. Qed.
Lemma norm_pdu_same p : same_pdu p (norm_pdu p).
Proof.
  repeat (split; [reflexivity|]). cbn. induction (pdu_vbs p); constructor; auto using norm_vb_same.
Qed.

Lemma oid_valid_base c l : oid_valid c l -> oid_valid OBJECT_IDENTIFIER l.
Proof. unfold oid_valid; tauto. Qed.
Lemma faithful_image c l : oid_valid c l -> oid_faithful l -> oid_image l = l.
Proof. intros H [H1 H2]. apply oid_image_id; auto. eapply oid_valid_base; eauto. Qed.

(** The value of a binding, decoded under the class found in TYPES. *)
Lemma value_lookup p b : snmp_value p -> prim_serialize p = Ok b ->
  exists c, dict_get tag_eqb varbind_types (pcls_tag (prim_cls p)) = Some c /\
    prim_deserialize c (ABytes b) = Ok (norm_prim p).
Proof.
  intros [H1 H2] Hs. destruct (prim_serialize_spec p H1) as (b' & Hb & Hok & Hd).
  rewrite Hs in Hb; injection Hb as <-.
  destruct p as [[]|[]|[]|[]]; try (now elim H2); cbn [prim_cls prim_image norm_prim] in *;
    try (eexists; split; [reflexivity|exact Hd]; fail).
  - eexists; split; [reflexivity|]. revert Hd. cbn [prim_deserialize]. unfold int_deserialize. intros Hd.
    set (v := from_be_signed _) in *. destruct (int_construct_spec Unsigned32 v) as [[R E]|[R E]]; rewrite E in Hd; [|discriminate].
    injection Hd as Hd. destruct (int_construct_spec Gauge32 v) as [[R' E']|[R' E']]; [rewrite E', Hd; reflexivity|].
    now elim R'.
  - eexists; split; [reflexivity|]. rewrite Hd. cbn [prim_constructible] in H1. apply oid_new_ok in H1.
    now rewrite (faithful_image OID subidentifiers H1 H2).
Qed.

Lemma OID_decodes l e : oid_new OID l = Ok l -> oid_faithful l -> prim_encode (POid OID l) = Ok e ->
  decodes OID_decode e l.
Proof.
  intros Hl Hf He ad rest lo Hw Hok Hv Hlo. unfold prim_encode in He. apply bind_ok in He as (b & Hb & He).
  destruct (prim_serialize_spec (POid OID l) Hl) as (b' & Hb' & Hbok & Hd). rewrite Hb in Hb'; injection Hb' as <-.
  unfold OID_decode, prim_decode.
  pose proof (decodes_tlv (pcls_tag (COid OID)) (prim_deserialize (COid OID)) b e (POid OID l) true (pcls_tag_ok _) He) as D.
  cbv beta in D. rewrite D with (rest := rest); auto. intros b0 B1 B2 B3.
  rewrite (prim_deserialize_viewdet (COid OID) b0 (ABytes b)) by (split; [|split]; cbn; auto).
  cbn [prim_cls] in Hd. rewrite Hd. cbn [prim_image]. apply oid_new_ok in Hl. now rewrite (faithful_image OID l).
Qed.
Lemma prim_encode_bytes p e : prim_constructible p -> prim_encode p = Ok e -> bytes_ok e /\ 0 < zlen e.
Proof.
  intros Hp He. unfold prim_encode in He. apply bind_ok in He as (b & Hb & He).
  destruct (prim_serialize_spec p Hp) as (b' & Hb' & Hok & _). rewrite Hb in Hb'; injection Hb' as <-.
  split; [eapply ber_encode_bytes; eauto using pcls_tag_ok|eapply ber_encode_nonempty; eauto using pcls_tag_ok].
Qed.

Lemma varbind_decodes v e : vb_ok v -> varbind_encode v = Ok e -> decodes varbind_decode e (norm_vb v).
Proof.
  intros (Hn & Hf & Hv) He. unfold varbind_encode in He. apply bind_ok in He as (body & Hb & He).
  unfold varbind_serialize in Hb. apply join_inv in Hb as (e1 & y & H1 & Hb & ->).
  apply join_inv in Hb as (e2 & y2 & H2 & Hb & ->). apply join_nil in Hb as ->. rewrite app_nil_r in *.
  apply decodes_tlv with (body := e1 ++ e2); auto using sequence_tag_ok.
  intros b B1 B2 B3. unfold varbind_deserialize.
  destruct (decodes_step OID_decode e1 (vb_name v) b e2 (OID_decodes _ _ Hn Hf H1) B1 B2 B3)
    as (tl & E & _ & W & O & V & _). rewrite E. cbn [bind].
  unfold prim_encode in H2. apply bind_ok in H2 as (c & Hc & H2).
  destruct (ber_decode_at _ c e2 (ASub tl) [] false true (pcls_tag_ok _) H2 W O) with (ex := @None tag)
    as (E2 & W2 & V2); auto; [now rewrite app_nil_r|]. rewrite E2. cbn [bind].
  destruct (value_lookup _ _ Hv Hc) as (cl & L & D). rewrite L. cbn [body_of].
  rewrite sb_getslice_all, V2, D by auto. reflexivity.
Qed.
Lemma varbind_encode_bytes v e : vb_ok v -> varbind_encode v = Ok e -> bytes_ok e /\ 0 < zlen e.
Proof.
  intros (Hn & Hf & Hv) He. unfold varbind_encode in He. apply bind_ok in He as (body & Hb & He).
  unfold varbind_serialize in Hb. apply join_inv in Hb as (e1 & y & H1 & Hb & ->).
  apply join_inv in Hb as (e2 & y2 & H2 & Hb & ->). apply join_nil in Hb as ->.
  split; [|eapply ber_encode_nonempty; eauto using sequence_tag_ok].
  eapply ber_encode_bytes; eauto using sequence_tag_ok. rewrite !bytes_ok_app. split; [|split; [|constructor]].
  - apply (prim_encode_bytes (POid OID (vb_name v))); auto.
  - apply (prim_encode_bytes (vb_value v)); auto. apply Hv.
Qed.

Lemma adata_bool_view b : ad_wf b -> adata_bool b = negb (zlen (ad_view b) =? 0).
Proof.
  destruct b as [l|s]; cbn [adata_bool ad_view ad_wf]; intros H.
  - destruct l; [reflexivity|]. zl. pose proof (zlen_nonneg l). lia.
  - rewrite sb_bool_wf by auto. destruct (sb_view s); [reflexivity|]. zl. pose proof (zlen_nonneg b). lia.
Qed.

Lemma vblist_loop_encode l : Forall vb_ok l -> forall body fuel b,
  join_encodings (map varbind_encode l) = Ok body -> ad_wf b -> bytes_ok (ad_data b) -> ad_view b = body ->
  (length body <= fuel)%nat -> vblist_loop fuel b = Ok (map norm_vb l).
Proof.
  induction 1 as [|v l Hv Hl IH]; intros body fuel b Hj W O V Hf; cbn [map] in *.
  - apply join_nil in Hj as ->. assert (E : adata_bool b = false) by (rewrite adata_bool_view, V by auto; reflexivity).
    destruct fuel; cbn [vblist_loop]; rewrite E; reflexivity.
  - apply join_inv in Hj as (e & rest & He & Hj & ->).
    destruct (varbind_encode_bytes v e Hv He) as [_ Hpos].
    assert (E : adata_bool b = true).
    { rewrite adata_bool_view, V by auto. zl. pose proof (zlen_nonneg rest).
      destruct (zlen e + zlen rest =? 0) eqn:?; [lia|reflexivity]. }
    rewrite app_length in Hf. unfold zlen in Hpos.
    destruct fuel as [|fuel]; [lia|]. cbn [vblist_loop]. rewrite E.
    destruct (decodes_step varbind_decode e (norm_vb v) b rest (varbind_decodes v e Hv He) W O V)
      as (tl & E2 & _ & W2 & O2 & V2 & _). rewrite E2. cbn [bind].
    rewrite (IH rest fuel (ASub tl)) by (auto; lia). reflexivity.
Qed.

Lemma vblist_decodes l e : Forall vb_ok l -> vblist_encode l = Ok e -> decodes vblist_decode e (map norm_vb l).
Proof.
  intros Hl He. unfold vblist_encode in He. apply bind_ok in He as (body & Hb & He).
  apply decodes_tlv with (body := body); auto using sequence_tag_ok. intros b B1 B2 B3.
  unfold vblist_deserialize. rewrite adata_bytes_view, B3 by auto. eapply vblist_loop_encode; eauto.
Qed.
Lemma join_bytes l b : (forall e, In (Ok e) l -> bytes_ok e) -> join_encodings l = Ok b -> bytes_ok b.
Proof.
  revert b; induction l as [|x l IH]; intros b H Hj; [apply join_nil in Hj as ->; constructor|].
  apply join_inv in Hj as (e & r & -> & Hj & ->). apply bytes_ok_app. split; [apply H; now left|].
  apply IH; auto. intros; apply H; now right.
Qed.
Lemma vblist_encode_bytes l e : Forall vb_ok l -> vblist_encode l = Ok e -> bytes_ok e.
Proof.
  intros Hl He. unfold vblist_encode in He. apply bind_ok in He as (body & Hb & He).
  eapply ber_encode_bytes; eauto using sequence_tag_ok. unfold vblist_serialize in Hb.
  eapply join_bytes; [|exact Hb]. intros x Hx. apply in_map_iff in Hx as (v & Hx & Hi).
  rewrite Forall_forall in Hl. eapply varbind_encode_bytes; eauto.
Qed.

Lemma pdu_decodes p e : pdu_ok p -> pdu_encode p = Ok e -> decodes (pdu_decode (pdu_cls p)) e (norm_pdu p).
Proof.
  intros [(_ & _ & _ & Hfld) Hl] He. unfold pdu_encode in He. apply bind_ok in He as (body & Hb & He).
  unfold pdu_serialize in Hb. apply join_inv in Hb as (e1 & y1 & H1 & Hb & ->).
  apply join_inv in Hb as (e2 & y2 & H2 & Hb & ->). apply join_inv in Hb as (e3 & y3 & H3 & Hb & ->).
  apply join_inv in Hb as (e4 & y4 & H4 & Hb & ->). apply join_nil in Hb as ->. rewrite app_nil_r in *.
  apply decodes_tlv with (body := e1 ++ e2 ++ e3 ++ e4); auto using pdu_tag_ok.
  intros b B1 B2 B3. unfold pdu_deserialize.
  destruct (decodes_step _ _ _ _ _ (Integer_decodes _ _ H1) B1 B2 B3) as (t1 & E1 & _ & W1 & O1 & V1 & _).
  rewrite E1. cbn [bind].
  destruct (decodes_step _ _ _ _ _ (Integer_decodes _ _ H2) W1 O1 V1) as (t2 & E2 & _ & W2 & O2 & V2 & _).
  rewrite E2. cbn [bind].
  destruct (decodes_step _ _ _ _ _ (Integer_decodes _ _ H3) W2 O2 V2) as (t3 & E3 & _ & W3 & O3 & V3 & _).
  rewrite E3. cbn [bind].
  destruct (decodes_last _ _ _ _ (vblist_decodes _ _ Hl H4) W3 O3 V3) as (t4 & E4). rewrite E4. cbn [bind].
  unfold norm_pdu. destruct (is_bulk (pdu_cls p)) eqn:Eb.
  - destruct (pdu_cls p); try discriminate. destruct (pdu_a p <? 0) eqn:?; [lia|].
    destruct (pdu_b p <? 0) eqn:?; [lia|]. reflexivity.
  - assert (F : 0 <= pdu_a p <= 18 /\ pdu_b p <= zlen (pdu_vbs p) /\ (pdu_a p <> 0 -> 0 <= pdu_b p))
      by (destruct (pdu_cls p); auto; discriminate).
    unfold ErrorStatus. destruct ((0 <=? pdu_a p) && (pdu_a p <=? 18)) eqn:Ea; [|lia]. cbn [reraise bind].
    assert (L : zlen (map norm_vb (pdu_vbs p)) = zlen (pdu_vbs p)) by (unfold zlen; now rewrite map_length).
    rewrite L. destruct ((negb (pdu_a p =? 0) && (pdu_b p <? 0)) || (zlen (pdu_vbs p) <? pdu_b p)) eqn:Ec; [|reflexivity].
    destruct (pdu_a p =? 0) eqn:?; cbn [negb andb orb] in Ec; lia.
Qed.
Lemma pdu_encode_bytes p e : pdu_ok p -> pdu_encode p = Ok e -> bytes_ok e /\ 0 < zlen e.
Proof.
  intros [_ Hl] He. unfold pdu_encode in He. apply bind_ok in He as (body & Hb & He).
  split; [|eapply ber_encode_nonempty; eauto using pdu_tag_ok].
  eapply ber_encode_bytes; eauto using pdu_tag_ok. eapply join_bytes; [|exact Hb].
  intros x [Hx|[Hx|[Hx|[Hx|[]]]]]; try (eapply Integer_encode_bytes; eassumption).
  eapply vblist_encode_bytes; eauto.
Qed.
