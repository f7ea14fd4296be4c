(** PrfFail1.v -- when the security module does not fail to make a message. *)
From Verif Require Import PrfPriv PrfMsgProps.
From Verif Require Export SpecFail PrfUsmProps PrfUse.

Lemma params_encode_size p : octets_ok (up_engineID p) -> int32 (up_boots p) -> int32 (up_time p) -> octets_ok (up_userName p) ->
  octets_ok (up_signature p) -> octets_ok (up_salt p) ->
  exists e, params_encode p = Ok e /\ zlen e <= zlen (up_engineID p) + zlen (up_userName p) + zlen (up_signature p) + zlen (up_salt p) + 1000.
Proof.
  intros [A1 A2] B D [E1 E2] [F1 F2] [G1 G2].
  destruct (OctetString_encode_size _ A1 A2) as (e1 & X1 & L1). destruct (Integer_encode_size _ B) as (e2 & X2 & L2).
  destruct (Integer_encode_size _ D) as (e3 & X3 & L3). destruct (OctetString_encode_size _ E1 E2) as (e4 & X4 & L4).
  destruct (OctetString_encode_size _ F1 F2) as (e5 & X5 & L5). destruct (OctetString_encode_size _ G1 G2) as (e6 & X6 & L6).
  destruct big_pos as [B1 B2].
  destruct (sequence_encode_size (e1 ++ e2 ++ e3 ++ e4 ++ e5 ++ e6)) as (e & X & L).
  - rewrite !bytes_ok_app. repeat split; try (eapply Integer_encode_bytes; eassumption).
    + exact (proj1 (OctetString_encode_bytes _ _ A1 X1)).
    + exact (proj1 (OctetString_encode_bytes _ _ E1 X4)).
    + exact (proj1 (OctetString_encode_bytes _ _ F1 X5)).
    + exact (proj1 (OctetString_encode_bytes _ _ G1 X6)).
  - unfold big in *. zl. lia.
  - exists e. split; [eapply params_encode_of_pieces; eauto|]. autorewrite with zlen in L. lia.
Qed.
Lemma scoped_size e p b : bytes_ok e -> zlen e <= 1000 -> bytes_ok b -> pdu_encode p = Ok b -> zlen b <= 60000 ->
  exists d, scoped_encode (mkScoped e [] p) = Ok d /\ zlen d <= 62000.
Proof.
  intros A L B P LB. destruct (OctetString_encode_size e A ltac:(lia)) as (e1 & X1 & L1).
  destruct (OctetString_encode_size []) as (e2 & X2 & L2); [constructor|cbv; discriminate|].
  destruct big_pos as [B1 B2]. change (zlen (@nil Z)) with 0 in L2.
  destruct (sequence_encode_size (e1 ++ e2 ++ b)) as (d & X & LD).
  - rewrite !bytes_ok_app. split; [exact (proj1 (OctetString_encode_bytes _ _ A X1))|].
    split; [exact (proj1 (OctetString_encode_bytes _ _ (Forall_nil _) X2))|exact B].
  - unfold big in *. zl. lia.
  - exists d. unfold scoped_encode, scoped_serialize. cbn [join_encodings sp_contextEngineID sp_contextName sp_pdu]. rewrite X1, X2, P. cbn [bind].
    rewrite app_nil_r. split; [exact X|]. autorewrite with zlen in LD. lia.
Qed.
Lemma v3_encode_size m b : header_ok (v3_header m) -> octets_ok (adata_bytes (v3_params m)) -> v3_payload m = Ok b -> bytes_ok b -> zlen b < 256 ^ 125 ->
  exists w, v3_encode m = Ok w.
Proof.
  intros H [P1 P2] E B L. destruct (Integer_encode_size SNMPv3) as (e1 & E1 & L1); [unfold int32; cbv; split; discriminate|].
  destruct (header_encode_size _ H) as (e2 & E2 & L2). destruct (OctetString_encode_size _ P1 P2) as (e3 & E3 & L3).
  destruct big_pos as [B1 B2]. assert (B3 : 256 ^ 125 * 256 = 256 ^ 126) by reflexivity.
  destruct (sequence_encode_size (e1 ++ e2 ++ e3 ++ b)) as (e & X & LX).
  - rewrite !bytes_ok_app. split; [eapply Integer_encode_bytes; eauto|]. split; [eapply header_encode_bytes; eauto|].
    split; [exact (proj1 (OctetString_encode_bytes _ _ P1 E3))|exact B].
  - unfold big in *. zl. lia.
  - exists e. eapply v3_encode_of_pieces; eauto.
Qed.
Lemma enciphers_len C p b t salt data right : enciphers C p b t salt data right -> zlen right <= zlen data + 8.
Proof.
  unfold enciphers, is_cfb, is_cbc, zlen. destruct (pv_alg p); [intros [L _]; lia|]. intros (pad & P & _ & L & _). rewrite L, app_length. lia.
Qed.

Section Makes.
  Context (C : crypto) (R size : Z) (CO : crypto_ok C) (SZ : 484 <= size <= 2147483647).
  Lemma outgoing_header id level p e : 0 <= id <= 2147483647 -> SpecMsg.level_ok level -> header_ok (v3_header (outgoing size id level p e)).
  Proof. intros I L. cbn. repeat split; cbn; auto; lia. Qed.
  (** Whatever the payload is. *)
  Lemma signs m alg key salt e n boots time b : header_ok (v3_header m) -> octets_ok e -> zlen e <= 1000 -> octets_ok n -> zlen n <= 1000 -> octets_ok salt -> zlen salt <= 8 ->
    int32 boots -> int32 time -> v3_payload m = Ok b -> bytes_ok b -> zlen b < 256 ^ 125 ->
    (forall P, octets_ok P -> v3_ok (set_params m P)) ->
    exists w, (do securityParameters <- params_encode (UsmSecurityParameters e boots time n (ABytes (msgAuthenticationParameters alg)) salt);
      do _ <- octets_new OctetString securityParameters;
      do w <- v3_encode (set_params m securityParameters);
      do p <- findSecurityParameters w; do location <- findSignature p;
      match location with ABytes _ => Raise AttributeError | ASub loc => Ok (sb_replace loc (auth_sign C alg key w)) end) = Ok w.
  Proof.
    intros HO EO EL NO NL SO SL BI TI PY BB LB V. set (p := UsmSecurityParameters e boots time n (ABytes (msgAuthenticationParameters alg)) salt).
    pose proof (auth_N_pos alg) as NP. pose proof (zero_octets alg) as ZO.
    destruct (params_encode_size p) as (P & EP & LP); try assumption.
    assert (ZS : zlen (up_signature p) = auth_N alg) by (cbn; apply zero_bytes_len; lia).
    assert (PK : params_ok p) by (unfold params_ok; auto 8).
    assert (L65 : zlen P <= 65535).
    { rewrite ZS in LP. cbn [p UsmSecurityParameters up_engineID up_userName up_salt] in LP. assert (auth_N alg <= 100) by (destruct alg; cbn; lia). lia. }
    assert (PO : octets_ok P) by (split; [exact (params_encode_bytes _ _ PK EP)|exact L65]).
    destruct (v3_encode_size (set_params m P) b) as (w & EW); [exact HO|exact PO|exact PY|exact BB|exact LB|].
    destruct (auth_sign_spec C alg key w CO) as (S1 & S2 & S3).
    destruct (locate_signed m p P w (auth_sign C alg key w) (V P PO) PK EP EW L65) as (pre & post & prm0 & P' & prm & EQ & F & FS & _); [lia|lia|exact S3|].
    rewrite EP. cbn [bind]. cbn [octets_new]. destruct (Z.ltb_spec 65535 (zlen P)); [lia|]. cbn [bind]. rewrite EW. cbn [bind]. rewrite F. cbn [bind]. rewrite FS. cbn [bind]. eauto.
  Qed.
  Lemma usm_makes s id level p e user ts b : 0 <= id <= 2147483647 -> SpecMsg.level_ok level -> pdu_ok p -> pdu_encode p = Ok b -> zlen b <= 60000 ->
    bytes_ok e -> zlen e <= 1000 -> bytes_ok user -> zlen user <= 1000 ->
    (sl_auth level = true -> engine_clock (getEngineTime R (us_time s) e ts) /\ exists l a, getCredentials (us_users s) e user = Ok l /\ lc_auth l = Some a /\
       (sl_priv level = true -> exists pv, lc_priv l = Some pv /\ priv_ok pv)) ->
    exists w, snd (usm_prepareOutgoing C R s (outgoing size id level p e) e user ts) = Ok w.
  Proof.
    intros I LO PO PE LB EB EL UB UL A. pose proof (outgoing_header id level p e I LO) as HO. pose proof (proj1 (pdu_encode_bytes _ _ PO PE)) as BB.
    destruct (scoped_size e p b EB EL BB PE LB) as (d & SD & LD).
    assert (SO : scoped_ok (mkScoped e [] p)) by (split; [split; [exact EB|cbn; lia]|]; split; [split; [constructor|cbv; discriminate]|exact PO]).
    pose proof (scoped_encode_bytes _ _ SO SD) as DB.
    assert (EO : octets_ok e) by (split; [exact EB|lia]). assert (UO : octets_ok user) by (split; [exact UB|lia]).
    destruct big_pos as [B1 B2]. assert (B3 : 256 ^ 125 * 256 = 256 ^ 126) by reflexivity.
    unfold usm_prepareOutgoing. cbn [outgoing v3_header h_flags fl_auth fl_priv fl_level v3_scoped].
    change (fl_auth (mkFlags level (is_Confirmed (pdu_cls p)))) with (sl_auth level). change (fl_priv (mkFlags level (is_Confirmed (pdu_cls p)))) with (sl_priv level).
    destruct (sl_auth level) eqn:SA.
    - destruct (A eq_refl) as [EC (l & [alg key] & GC & LA & PV)]. rewrite GC, LA. destruct (getEngineTime R (us_time s) e ts) as [boots time]. destruct EC as [EC1 EC2]. cbn [fst snd] in EC1, EC2.
      assert (BI : int32 boots) by (unfold int32; lia). assert (TI : int32 time) by (unfold int32; lia).
      destruct (sl_priv level) eqn:SP.
      + destruct (PV eq_refl) as (pv & LPV & PK). rewrite LPV, SD.
        destruct (encrypt_spec C pv d boots time PK) as (z & R1 & _); [unfold is_time; lia|unfold is_time; lia|].
        destruct (priv_encrypt C pv d boots time) as [pv' r] eqn:PR. cbn [snd] in R1. subst r.
        set (cipher := _ ++ zero_bytes z) in *. set (salt := enc_salt pv boots) in *.
        destruct (encrypt_salt C pv d boots time pv' cipher salt PK CO DB) as [SO' CB]; [unfold is_time; lia|unfold is_time; lia|exact PR|].
        destruct (sent_is C pv d boots time pv' cipher salt CO PK) as (right & n & ER & EN & NN & SL & _); [unfold is_time; lia|unfold is_time; lia|exact PR|].
        apply enciphers_len in EN. assert (CL : zlen cipher <= 62100) by (rewrite ER; zl; rewrite zero_bytes_len by lia; lia).
        clearbody cipher salt. cbn [snd bind]. cbn [octets_new]. destruct (Z.ltb_spec 65535 (zlen cipher)); [lia|]. cbn [bind].
        destruct (OctetString_encode_size cipher CB ltac:(lia)) as (pb & PY & LPY).
        set (m := mkV3 (mkHeader id size (mkFlags level (is_Confirmed (pdu_cls p))) USM) (Some (mkScoped e [] p)) (Some cipher) (ABytes []) None None).
        apply (signs m alg key salt e user boots time pb); auto.
        * lia.
        * unfold v3_payload. cbn. unfold fl_priv. cbn. rewrite SP. exact PY.
        * exact (proj1 (OctetString_encode_bytes _ _ CB PY)).
        * lia.
        * intros P OP. split; [exact HO|]. split; [exact OP|]. cbn. rewrite SP. exists cipher. split; [reflexivity|]. split; [exact CB|lia].
      + cbn [snd bind].
        set (m := mkV3 (mkHeader id size (mkFlags level (is_Confirmed (pdu_cls p))) USM) (Some (mkScoped e [] p)) None (ABytes []) None None).
        apply (signs m alg key [] e user boots time d); auto.
        * split; [constructor|cbv; discriminate].
        * cbv; discriminate.
        * unfold v3_payload. cbn. unfold fl_priv. cbn. rewrite SP. exact SD.
        * lia.
        * intros P OP. split; [exact HO|]. split; [exact OP|]. cbn. rewrite SP. eauto.
    - assert (SP : sl_priv level = false) by (destruct (sl_priv level) eqn:X; [|reflexivity]; rewrite (LO X) in SA; discriminate SA).
      cbn [snd bind]. assert (ON : octets_ok []) by (split; [constructor|cbv; discriminate]). assert (I0 : int32 0) by (unfold int32; cbv; split; discriminate).
      destruct (params_encode_size (UsmSecurityParameters e 0 0 user (ABytes []) []) EO I0 I0 UO ON ON) as (P & EP & LP).
      cbn [UsmSecurityParameters up_engineID up_boots up_time up_userName up_signature up_salt] in LP. change (zlen (@nil Z)) with 0 in LP. cbn in LP.
      rewrite EP. cbn [bind octets_new]. destruct (Z.ltb_spec 65535 (zlen P)); [lia|]. cbn [bind].
      assert (PK : octets_ok P).
      { split; [|lia]. eapply params_encode_bytes; [|exact EP]. unfold params_ok. cbn [UsmSecurityParameters up_engineID up_boots up_time up_userName up_signature up_salt adata_bytes]. auto 8. }
      match goal with |- exists w, (do x <- v3_encode ?m; _) = _ => destruct (v3_encode_size m d) as (w & EW) end.
      + exact HO.
      + exact PK.
      + unfold v3_payload. cbn. unfold fl_priv. cbn. rewrite SP. exact SD.
      + exact DB.
      + lia.
      + rewrite EW. cbn [bind]. eauto.
  Qed.
End Makes.
