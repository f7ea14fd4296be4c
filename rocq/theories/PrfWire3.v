(** PrfWire3.v -- SNMPv3 messages and USM parameters from their octets (C61). *)
From Verif Require Export PrfWire2.

Section Decode3.
  Context (s : bool).

  Lemma flags_construct_wire x f d : flags_octet s x f -> level_ok (fl_level f) -> 0 <= x < 256 -> ad_wf d -> ad_view d = [x] -> flags_construct d = Ok f.
  Proof.
    intros [F _] L B W V. assert (IX : adata_index d 0 = Ok x).
    { destruct d as [l|sb]; cbn [ad_wf ad_view adata_index] in *; [subst l; reflexivity|]. change (sb_dereference sb = Ok x). now apply (sb_deref_cons sb x []). }
    unfold flags_construct. rewrite IX. cbn [reraise bind].
    assert (T : negb (Z.land x AUTH_FLAG =? 0) = Z.testbit (x mod 8) 0 /\ negb (Z.land x PRIV_FLAG =? 0) = Z.testbit (x mod 8) 1 /\
                negb (Z.land x REPORTABLE_FLAG =? 0) = Z.testbit (x mod 8) 2).
    { assert (G : (Bool.eqb (negb (Z.land x AUTH_FLAG =? 0)) (Z.testbit (x mod 8) 0) && Bool.eqb (negb (Z.land x PRIV_FLAG =? 0)) (Z.testbit (x mod 8) 1) &&
                Bool.eqb (negb (Z.land x REPORTABLE_FLAG =? 0)) (Z.testbit (x mod 8) 2)) = true).
      { clear - B. revert x B. apply byte_sweep. vm_compute. reflexivity. }
      apply andb_true_iff in G as [G G3]. apply andb_true_iff in G as [G1 G2]. now rewrite (eqb_prop _ _ G1), (eqb_prop _ _ G2), (eqb_prop _ _ G3). }
    destruct T as (-> & -> & ->). rewrite F. destruct f as [[a p] r]. unfold level_ok in L. cbn in *.
    destruct a, p, r; cbn; try reflexivity; specialize (L eq_refl); discriminate.
  Qed.
  Lemma header_wire_decodes h e : header_wire s e h -> header_ok h -> decodes header_decode e h.
  Proof.
    intros (e1 & e2 & e3 & e4 & x & E & H1 & H2 & [H3 HX] & HF & H4) (Hi & Hs & Hl & Hm).
    apply (decodes_element s sequence_tag _ (e1 ++ e2 ++ e3 ++ e4)); [exact E|]. intros b B1 B2 B3. unfold header_deserialize.
    destruct (decodes_step _ _ _ _ _ (Integer_wire_decodes s _ _ H1 ltac:(unfold int32; lia)) B1 B2 B3) as (t1 & E1 & _ & W1 & O1 & V1 & _).
    rewrite E1. cbn [bind].
    destruct (decodes_step _ _ _ _ _ (Integer_wire_decodes s _ _ H2 ltac:(unfold int32; lia)) W1 O1 V1) as (t2 & E2 & _ & W2 & O2 & V2 & _).
    rewrite E2. cbn [bind].
    assert (D3 : decodes flags_decode e3 (h_flags h)).
    { apply (decodes_element s (octets_tag OctetString) flags_construct [x]); [exact H3|]. intros d D1 D2 D4.
      inversion HX as [|? ? BX _]; subst. eapply flags_construct_wire; eauto. }
    destruct (decodes_step _ _ _ _ _ D3 W2 O2 V2) as (t3 & E3 & _ & W3 & O3 & V3 & _).
    rewrite E3. cbn [bind].
    destruct (decodes_last _ _ _ _ (Integer_wire_decodes s _ _ H4 ltac:(rewrite Hm; unfold int32, USM; lia)) W3 O3 V3) as (t4 & E4). rewrite E4. cbn [bind].
    destruct (h_id h <? 0) eqn:?; [lia|]. destruct (h_maxSize h <? 484) eqn:?; [lia|].
    rewrite Hm. change (USM <? 1) with false. cbv iota. rewrite Z.eqb_refl. rewrite <- Hm. destruct h; reflexivity.
  Qed.
  Lemma scoped_wire_decodes sp e : scoped_wire s e sp -> octets_ok (sp_contextEngineID sp) -> octets_ok (sp_contextName sp) ->
    pdu_fields_ok (sp_pdu sp) -> Forall vb_in (pdu_vbs (sp_pdu sp)) -> decodes scoped_decode e (norm_scoped sp).
  Proof.
    intros (e1 & e2 & e3 & E & H1 & H2 & H3) [_ L1] [_ L2] FO F.
    apply (decodes_element s sequence_tag _ (e1 ++ e2 ++ e3)); [exact E|]. intros b B1 B2 B3. unfold scoped_deserialize.
    destruct (decodes_step _ _ _ _ _ (OctetString_wire_decodes s _ _ H1 L1) B1 B2 B3) as (t1 & E1 & _ & W1 & O1 & V1 & _).
    rewrite E1. cbn [bind].
    destruct (decodes_step _ _ _ _ _ (OctetString_wire_decodes s _ _ H2 L2) W1 O1 V1) as (t2 & E2 & _ & W2 & O2 & V2 & _).
    rewrite E2. cbn [bind]. change pduTypes_v2 with (pdu_types all_pdus).
    rewrite (anypdu_wire s all_pdus (sp_pdu sp) e3) by auto using in_all_pdus. reflexivity.
  Qed.
  Lemma original_wire d e ad rest cp : octets_wire s e (0, 4) d -> zlen d <= 65535 -> ad_wf ad -> bytes_ok (ad_data ad) -> ad_view ad = e ++ rest ->
    OctetString_decode_original ad true cp = Ok (body_of cp (body_sub ad e d), sb_drop (zlen e) (ad_sub ad)) /\
    sb_wf (body_sub ad e d) /\ sb_view (body_sub ad e d) = d.
  Proof.
    intros [E O] L W OK V.
    destruct (element_decode s (octets_tag OctetString) d e rest ad true cp E W OK V (or_introl eq_refl) _ (or_intror eq_refl)) as (D & Wb & Vb).
    split; [|auto]. unfold OctetString_decode_original, asn1_decode. rewrite D. cbn [bind].
    destruct (body_of_facts cp ad e d OK Wb Vb) as (F1 & F2 & F3).
    rewrite OctetString_construct_ok; [reflexivity|]. now rewrite adata_bytes_view, F3.
  Qed.

  (** What may be in a message that arrives. *)
  Definition scoped_in (sp : scopedpdu) : Prop :=
    octets_ok (sp_contextEngineID sp) /\ octets_ok (sp_contextName sp) /\ pdu_fields_ok (sp_pdu sp) /\ Forall vb_in (pdu_vbs (sp_pdu sp)).
  Definition v3_in (m : v3msg) : Prop :=
    header_ok (v3_header m) /\ octets_ok (adata_bytes (v3_params m)) /\
    if sl_priv (fl_level (h_flags (v3_header m)))
    then exists c, v3_encrypted m = Some c /\ octets_ok c
    else exists sp, v3_scoped m = Some sp /\ scoped_in sp.
  Lemma v3_wire_decode m e : v3_wire s e m -> v3_in m -> bytes_ok e ->
    exists prm, v3_decode (ABytes e) = Ok (norm_v3 m prm) /\ adata_bytes prm = adata_bytes (v3_params m).
  Proof.
    intros (e1 & e2 & e3 & e4 & E & H1 & H2 & H3 & H4) (Hh & [_ HP] & Hpay) Hok.
    set (body := e1 ++ e2 ++ e3 ++ e4) in *.
    assert (V : ad_view (ABytes e) = e ++ []) by (cbn; now rewrite app_nil_r).
    destruct (element_decode s sequence_tag body e [] (ABytes e) false false E Logic.I Hok V (or_intror eq_refl) _ (or_intror eq_refl)) as (EE & Wb & Vb).
    unfold v3_decode, asn1_decode. rewrite EE. cbn [bind].
    destruct (body_of_facts false (ABytes e) _ _ Hok Wb Vb) as (B1 & B2 & B3). cbn [body_of] in *.
    set (b := body_sub (ABytes e) e body) in *. unfold v3_deserialize.
    destruct (decodes_step _ _ _ _ _ (Integer_wire_decodes s _ _ H1 ltac:(unfold int32; lia)) B1 B2 B3) as (t1 & E1 & _ & W1 & O1 & V1 & _).
    rewrite E1. cbn [bind]. rewrite version_known by (unfold SNMPv3; tauto). cbn [bind].
    replace (negb (3 =? SNMPv3)) with false by reflexivity. cbv iota.
    destruct (decodes_step _ _ _ _ _ (header_wire_decodes _ _ H2 Hh) W1 O1 V1) as (t2 & E2 & _ & W2 & O2 & V2 & _).
    rewrite E2. cbn [bind].
    destruct (original_wire _ e3 (ASub t2) e4 false H3 HP W2 O2 V2) as (E3 & W3' & V3'). rewrite E3. cbn [bind body_of].
    destruct (tail_facts (ASub t2) e3 e4 W2 O2 V2) as (W3 & V3 & O3 & _ & _).
    set (t3 := sb_drop (zlen e3) (ad_sub (ASub t2))) in *.
    unfold norm_v3, fl_priv. destruct (sl_priv (fl_level (h_flags (v3_header m)))).
    - destruct Hpay as (c & Ec & [_ Hc]). destruct H4 as (c' & Ec' & H4). rewrite Ec in Ec'. injection Ec' as <-.
      destruct (decodes_last _ _ _ (ASub t3) (OctetString_wire_decodes s _ _ H4 Hc) W3 O3 V3) as (t4 & E4). rewrite E4. cbn [bind fst].
      rewrite Ec. eexists. split; [reflexivity|]. cbn [adata_bytes]. now rewrite sb_getslice_all.
    - destruct Hpay as (sp & Es & Hs). destruct H4 as (sp' & Es' & H4). rewrite Es in Es'. injection Es' as <-.
      destruct Hs as (S1 & S2 & S3 & S4).
      destruct (decodes_last _ _ _ (ASub t3) (scoped_wire_decodes _ _ H4 S1 S2 S3 S4) W3 O3 V3) as (t4 & E4). rewrite E4. cbn [bind fst].
      rewrite Es. eexists. split; [reflexivity|]. cbn [adata_bytes]. now rewrite sb_getslice_all.
  Qed.
  Lemma params_wire_decode p e sb : params_wire s e p -> params_ok p -> sb_wf sb -> bytes_ok (sb_data sb) -> sb_view sb = e ->
    exists p', params_decode (ASub sb) = Ok p' /\
      up_engineID p' = up_engineID p /\ up_boots p' = up_boots p /\ up_time p' = up_time p /\
      up_userName p' = up_userName p /\ up_signature p' = up_signature p /\ up_salt p' = up_salt p.
  Proof.
    intros (e1 & e2 & e3 & e4 & e5 & e6 & E & H1 & H2 & H3 & H4 & H5 & H6) ([_ L1] & I2 & I3 & [_ L4] & [_ L5] & [_ L6]) W O V0.
    assert (V : ad_view (ASub sb) = e ++ []) by (cbn; now rewrite app_nil_r).
    destruct (element_decode s sequence_tag _ e [] (ASub sb) false false E W O V (or_intror eq_refl) _ (or_intror eq_refl)) as (EE & Wb & Vb).
    unfold params_decode, asn1_decode. rewrite EE. cbn [bind].
    destruct (body_of_facts false (ASub sb) _ _ O Wb Vb) as (B1 & B2 & B3). cbn [body_of] in *.
    set (b := body_sub (ASub sb) e _) in *. unfold params_deserialize. cbv zeta.
    destruct (decodes_step _ _ _ _ _ (OctetString_wire_decodes s _ _ H1 L1) B1 B2 B3) as (t1 & E1 & _ & W1 & O1 & V1 & _).
    rewrite E1. cbn [bind].
    destruct (decodes_step _ _ _ _ _ (Integer_wire_decodes s _ _ H2 I2) W1 O1 V1) as (t2 & E2 & _ & W2 & O2 & V2 & _).
    rewrite E2. cbn [bind].
    destruct (decodes_step _ _ _ _ _ (Integer_wire_decodes s _ _ H3 I3) W2 O2 V2) as (t3 & E3 & _ & W3 & O3 & V3 & _).
    rewrite E3. cbn [bind].
    destruct (decodes_step _ _ _ _ _ (OctetString_wire_decodes s _ _ H4 L4) W3 O3 V3) as (t4 & E4 & _ & W4 & O4 & V4 & _).
    rewrite E4. cbn [bind].
    destruct (original_wire _ e5 (ASub t4) e6 false H5 L5 W4 O4 V4) as (E5 & W5' & V5'). rewrite E5. cbn [bind body_of].
    destruct (tail_facts (ASub t4) e5 e6 W4 O4 V4) as (W5 & V5 & O5 & _ & _).
    set (t5 := sb_drop (zlen e5) (ad_sub (ASub t4))) in *.
    destruct (decodes_last _ _ _ (ASub t5) (OctetString_wire_decodes s _ _ H6 L6) W5 O5 V5) as (t6 & E6). rewrite E6. cbn [bind].
    eexists. split; [reflexivity|]. cbn. rewrite sb_getslice_all by auto. auto 7.
  Qed.
End Decode3.

Lemma vb_wf_in v : vb_wf v -> vb_in v /\ norm_vb v = v.
Proof.
  intros (N & C & I). destruct v as [name [[]|[]|[]|[]]]; cbn in *;
    try (exfalso; repeat (destruct I as [I|I]; [discriminate I|]); contradiction I);
    (split; [split; [exact N|split; [exact C|exact Logic.I]]|reflexivity]).
Qed.
Lemma vbs_wf_in l : Forall vb_wf l -> Forall vb_in l /\ map norm_vb l = l.
Proof.
  induction 1 as [|v l V F [I1 I2]]; [split; [constructor|reflexivity]|].
  destruct (vb_wf_in v V) as [J1 J2]. split; [constructor; auto|]. cbn. now rewrite J2, I2.
Qed.
Lemma norm_pdu_wf p : Forall vb_wf (pdu_vbs p) -> norm_pdu p = p.
Proof. intros F. destruct (vbs_wf_in _ F) as [_ E]. unfold norm_pdu. rewrite E. destruct p; reflexivity. Qed.
Lemma message_wire_exact s types m e : bytes_ok e -> message_wire s e m -> message_wf types m ->
  message_decode (pdu_types types) (ABytes e) = Ok m /\ version_decode (ABytes e) = Ok (m_version m).
Proof.
  intros O W (V & C & T & F & B). destruct (vbs_wf_in _ B) as [B' _].
  destruct (message_wire_decodes s types m e W V C T F B') as [D1 D2].
  destruct (decodes_last _ _ _ (ABytes e) D1 Logic.I O eq_refl) as (t1 & E1).
  destruct (decodes_last _ _ _ (ABytes e) D2 Logic.I O eq_refl) as (t2 & E2).
  unfold message_decode, version_decode. rewrite E1, E2. cbn [bind fst]. unfold norm_message. rewrite norm_pdu_wf by auto.
  split; [destruct m; reflexivity|reflexivity].
Qed.
Lemma v3_wire_exact s m e : bytes_ok e -> v3_wire s e m -> v3_wf m ->
  exists m', v3_decode (ABytes e) = Ok m' /\ v3_header m' = v3_header m /\ v3_scoped m' = v3_scoped m /\
    v3_encrypted m' = v3_encrypted m /\ adata_bytes (v3_params m') = adata_bytes (v3_params m).
Proof.
  intros O W (H & P & X).
  assert (I : v3_in m).
  { split; [exact H|]. split; [exact P|]. destruct (sl_priv _).
    - destruct X as (_ & c & E & OC). eauto.
    - destruct X as (_ & sp & E & O1 & O2 & F & B). destruct (vbs_wf_in _ B) as [B' _]. exists sp. split; [exact E|]. split; [exact O1|]. split; [exact O2|]. split; [exact F|exact B']. }
  destruct (v3_wire_decode s m e W I O) as (prm & D & A). exists (norm_v3 m prm). split; [exact D|].
  unfold norm_v3, fl_priv. destruct (sl_priv _).
  - destruct X as (X & c & E & OC). cbn. auto.
  - destruct X as (X & sp & E & O1 & O2 & F & B). cbn. rewrite E. cbn. split; [auto|]. split; [|auto]. unfold norm_scoped. rewrite norm_pdu_wf by auto. destruct sp; reflexivity.
Qed.
