(** PrfPriv.v -- proofs for C78. *)
From Coq Require Import Lia.
From Verif Require Import PrfBase PrfUsers PrfCrypto Envelope.
From Verif Require Export SpecPriv.

Lemma skipn_add {A} n m : forall l : list A, skipn (n + m) l = skipn m (skipn n l).
Proof. induction n as [|n IH]; intros [|x l]; cbn; auto. now rewrite skipn_nil. Qed.
Lemma block_S n k l : block n (S k) l = block n k (skipn n l).
Proof. unfold block. replace (n * S k)%nat with (n + n * k)%nat by lia. now rewrite skipn_add. Qed.
Lemma block_0 n l : block n 0 l = firstn n l.
Proof. unfold block. rewrite Nat.mul_0_r. reflexivity. Qed.
Lemma block_nil n k : block n k [] = [].
Proof. unfold block. rewrite skipn_nil. apply firstn_nil. Qed.
Lemma before_S n iv c k : before n iv c (S k) = before n (block n 0 c) (skipn n c) k.
Proof. destruct k; cbn [before]; [reflexivity|apply block_S]. Qed.
Lemma xor_nil a : xor_bytes a [] = [].
Proof. destruct a; reflexivity. Qed.

Section Cfb.
  Variable E : bytes -> bytes.
  Hypothesis E16 : forall b, length b = 16%nat -> length (E b) = 16%nat /\ bytes_ok (E b).
  Lemma cfb_is : forall fuel iv data, length iv = 16%nat -> (length data <= fuel)%nat -> is_cfb E iv data (cfb_encrypt fuel E iv data).
  Proof.
    intros fuel iv data I L. split; [now apply cfb_enc_len|]. revert iv data I L.
    induction fuel as [|fuel IH]; intros iv data I L k.
    { destruct data; [|cbn in L; lia]. cbn [cfb_encrypt]. now rewrite !block_nil, xor_nil. }
    destruct data as [|x data]; [cbn [cfb_encrypt]; now rewrite !block_nil, xor_nil|].
    cbn [cfb_encrypt]. set (d := x :: data) in *. assert (1 <= length d)%nat by (subst d; cbn; lia).
    destruct (E16 iv I) as [EL _]. set (c := xor_bytes (E iv) (firstn 16 d)).
    destruct (Nat.le_gt_cases 16 (length d)) as [G|G].
    - assert (LC : length c = 16%nat) by (subst c; rewrite xor_length, firstn_length; lia).
      assert (H0 : block 16 0 (c ++ cfb_encrypt fuel E c (skipn 16 d)) = c).
      { rewrite block_0, firstn_app, LC, Nat.sub_diag, firstn_O, app_nil_r. apply firstn_all2. lia. }
      destruct k as [|k]; [rewrite H0, block_0; reflexivity|].
      rewrite before_S, H0, !block_S. rewrite skipn_app, LC, Nat.sub_diag, skipn_O, (skipn_all2 c) by lia. cbn [app].
      apply IH; [exact LC|rewrite skipn_length; lia].
    - rewrite (skipn_all2 d) by lia. assert (Z : cfb_encrypt fuel E c [] = []) by (destruct fuel; reflexivity). rewrite Z, app_nil_r.
      assert (LC : (length c <= 16)%nat) by (subst c; rewrite xor_length, firstn_length; lia).
      destruct k as [|k]; [rewrite !block_0; cbn [before]; now rewrite firstn_all2|].
      rewrite !block_S, (skipn_all2 c), (skipn_all2 d), !block_nil, xor_nil by lia. reflexivity.
  Qed.
  Lemma is_cfb_eq : forall fuel iv data c, length iv = 16%nat -> (length data <= fuel)%nat -> is_cfb E iv data c -> c = cfb_encrypt fuel E iv data.
  Proof.
    induction fuel as [|fuel IH]; intros iv data c I L [LC B].
    { destruct data; [|cbn in L; lia]. destruct c; [reflexivity|discriminate LC]. }
    destruct data as [|x data]; [destruct c; [reflexivity|discriminate LC]|].
    cbn [cfb_encrypt]. set (d := x :: data) in *. assert (1 <= length d)%nat by (subst d; cbn; lia).
    destruct (E16 iv I) as [EL _]. pose proof (B 0%nat) as B0. cbn [before] in B0. rewrite !block_0 in B0. rewrite <- B0.
    rewrite <- (firstn_skipn 16 c) at 1. f_equal.
    destruct (Nat.le_gt_cases 16 (length d)) as [G|G].
    - apply IH; [rewrite firstn_length; lia|rewrite skipn_length; lia|]. split; [rewrite !skipn_length; lia|].
      intros k. specialize (B (S k)). rewrite before_S, !block_S, block_0 in B. exact B.
    - rewrite !skipn_all2 by lia. destruct fuel; reflexivity.
  Qed.
End Cfb.

Section Cbc.
  Variables E D : bytes -> bytes.
  Hypothesis E8 : forall b, length b = 8%nat -> length (E b) = 8%nat /\ bytes_ok (E b).
  Lemma cbc_is : forall n fuel iv data, length iv = 8%nat -> length data = (n * 8)%nat -> (length data <= fuel)%nat -> is_cbc E iv data (cbc_encrypt fuel E iv data).
  Proof.
    intros n fuel iv data I L F. split; [eapply cbc_enc_len; eauto|]. split; [eauto|]. revert fuel iv data I L F.
    induction n as [|n IH]; intros fuel iv data I L F k K; [lia|].
    destruct fuel as [|fuel]; [lia|]. destruct data as [|x data]; [cbn in L; lia|]. cbn [cbc_encrypt]. set (d := x :: data) in *.
    set (c := E (xor_bytes iv (firstn 8 d))).
    assert (LX : length (xor_bytes iv (firstn 8 d)) = 8%nat) by (rewrite xor_length, firstn_length; lia).
    destruct (E8 _ LX) as [LC BC]. fold c in LC, BC.
    assert (H0 : block 8 0 (c ++ cbc_encrypt fuel E c (skipn 8 d)) = c).
    { rewrite block_0, firstn_app, LC, Nat.sub_diag, firstn_O, app_nil_r. apply firstn_all2. lia. }
    destruct k as [|k]; [rewrite H0, block_0; reflexivity|].
    rewrite before_S, H0, !block_S. rewrite skipn_app, LC, Nat.sub_diag, skipn_O, (skipn_all2 c) by lia. cbn [app].
    apply IH; [exact LC|rewrite skipn_length; lia|rewrite skipn_length; lia|rewrite skipn_length; lia].
  Qed.
  Lemma is_cbc_eq : forall n fuel iv data c, length iv = 8%nat -> length data = (n * 8)%nat -> (length data <= fuel)%nat -> is_cbc E iv data c -> c = cbc_encrypt fuel E iv data.
  Proof.
    induction n as [|n IH]; intros fuel iv data c I L F (LC & _ & B).
    { destruct data; [|cbn in L; lia]. destruct c; [|discriminate LC]. destruct fuel; reflexivity. }
    destruct fuel as [|fuel]; [lia|]. destruct data as [|x data]; [cbn in L; lia|]. cbn [cbc_encrypt]. set (d := x :: data) in *.
    pose proof (B 0%nat ltac:(lia)) as B0. cbn [before] in B0. rewrite !block_0 in B0. rewrite <- B0.
    rewrite <- (firstn_skipn 8 c) at 1. f_equal.
    apply IH; [rewrite firstn_length; lia|rewrite skipn_length; lia|rewrite skipn_length; lia|].
    split; [rewrite !skipn_length; lia|]. split; [exists n; rewrite skipn_length; lia|].
    intros k K. rewrite skipn_length in K. specialize (B (S k) ltac:(lia)). rewrite before_S, !block_S, block_0 in B. exact B.
  Qed.
End Cbc.

Lemma aes16 C k : crypto_ok C -> forall x, length x = 16%nat -> length (c_aes C k x) = 16%nat /\ bytes_ok (c_aes C k x).
Proof. intros CO x Hx. destruct (ok_aes C CO k x) as [X1 X2]; [now apply (zlen_len x 16)|]. split; [now apply (zlen_len _ 16)|auto]. Qed.
Lemma des8 C k : crypto_ok C -> forall x, length x = 8%nat -> length (c_des C k x) = 8%nat /\ bytes_ok (c_des C k x).
Proof. intros CO x Hx. destruct (ok_des C CO k x) as [X1 X2]; [now apply (zlen_len x 8)|]. split; [now apply (zlen_len _ 8)|auto]. Qed.
Lemma undes8 C k : crypto_ok C -> forall x, length x = 8%nat -> length (c_des_inv C k x) = 8%nat /\ bytes_ok (c_des_inv C k x).
Proof. intros CO x Hx. destruct (ok_des_dec C CO k x) as [X1 X2]; [now apply (zlen_len x 8)|]. split; [now apply (zlen_len _ 8)|auto]. Qed.
Lemma undes C k : crypto_ok C -> forall x, length x = 8%nat -> bytes_ok x -> c_des_inv C k (c_des C k x) = x.
Proof. intros CO x Hx Bx. apply (ok_des_inv C CO); auto. now apply (zlen_len x 8). Qed.

Lemma pad_len (data : bytes) : (length (zero_bytes (8 - zlen data mod 8)) <= 8)%nat.
Proof. pose proof (Z.mod_pos_bound (zlen data) 8). unfold zero_bytes. rewrite repeat_length. lia. Qed.

(** What is sent. *)
Lemma sent_is C p data b t p' cipher salt : crypto_ok C -> priv_ok p -> is_time b -> (pv_alg p = AesCfb128 -> is_time t) ->
  priv_encrypt C p data b t = (p', Ok (cipher, salt)) ->
  exists right n, cipher = right ++ zero_bytes n /\ enciphers C p b t salt data right /\ 0 <= n <= 16 /\ zlen salt = 8 /\ bytes_ok salt /\
    (c_backend C = PyCryptodome -> n = 0).
Proof.
  intros CO P B T E. destruct (enc_salt_len p b) as [SL SB]. pose proof (rfc_iv_len p b t _ P SL) as IL.
  destruct (encrypt_spec C p data b t P B T) as (z & R & R2). rewrite E in R. cbn [snd] in R. injection R as -> ->.
  set (iv := rfc_iv p b t (enc_salt p b)) in *. rewrite R2. clear R2 E. unfold enc_core, enciphers.
  fold iv. destruct (pv_alg p) eqn:A.
  - assert (LI : length iv = 16%nat) by now apply (zlen_len iv 16).
    set (enc := cfb_encrypt _ _ _ _). assert (LE : length enc = length data) by (apply cfb_enc_len; auto using aes16).
    exists enc. assert (X : forall m, 0 <= m <= 16 -> (c_backend C = PyCryptodome -> m = 0) -> library_output C 16 data enc = enc ++ zero_bytes m ->
      exists n, library_output C 16 data enc = enc ++ zero_bytes n /\ is_cfb (c_aes C (pv_key p)) iv data enc /\ 0 <= n <= 16 /\ zlen (enc_salt p b) = 8 /\ bytes_ok (enc_salt p b) /\ (c_backend C = PyCryptodome -> n = 0)).
    { intros m M M0 EQ. exists m. split; [exact EQ|]. split; [apply cfb_is; auto using aes16|auto]. }
    unfold library_output, out_buffer in *. destruct (c_backend C).
    + eapply X; [| |reflexivity]; [|intros K; discriminate K]. pose proof (Z.mod_pos_bound (zlen data) 16). unfold zlen at 3 6. rewrite LE. fold (zlen data). lia.
    + apply (X 0); [lia|auto|]. cbn. now rewrite app_nil_r.
  - assert (LI : length iv = 8%nat) by now apply (zlen_len iv 8). destruct (des_pad_nat data) as (n & LN).
    set (enc := cbc_encrypt _ _ _ _). destruct (cbc_enc_len _ (des8 C (pv_key p) CO) n (length (des_pad data)) iv (des_pad data) LI LN) as [LE _]; [auto|]. fold enc in LE.
    exists enc. assert (IS : is_cbc (c_des C (pv_key p)) iv (des_pad data) enc) by (eapply cbc_is; eauto using des8).
    assert (X : exists m, 0 <= m <= 16 /\ (c_backend C = PyCryptodome -> m = 0) /\ library_output C 8 (des_pad data) enc = enc ++ zero_bytes m).
    { unfold library_output, out_buffer. destruct (c_backend C).
      - exists 8. split; [lia|]. split; [intros K; discriminate K|]. do 2 f_equal. unfold zlen. rewrite LE, LN.
        replace (Z.of_nat (n * 8) mod 8) with 0; [lia|]. rewrite Nat2Z.inj_mul. symmetry. apply Z.mod_mul. lia.
      - exists 0. split; [lia|]. split; [auto|]. cbn. now rewrite app_nil_r. }
    destruct X as (m & M & M0 & EQ). exists m. split; [exact EQ|]. split; [|auto].
    exists (zero_bytes (8 - zlen data mod 8)). split; [apply pad_len|]. split; [apply zero_ok|]. exact IS.
Qed.

(** What is received. *)
Lemma received_is C p plain cipher salt b t : crypto_ok C -> priv_ok p -> is_time b -> (pv_alg p = AesCfb128 -> is_time t) -> zlen salt = 8 -> bytes_ok salt -> bytes_ok plain ->
  enciphers C p b t salt plain cipher -> forall n, (pv_alg p = DesCbc -> n mod 8 = 0) ->
  exists tail, priv_decrypt C p (cipher ++ zero_bytes n) b t salt = Ok (plain ++ tail).
Proof.
  intros CO P B T SL SB BP EN n N8. pose proof (rfc_iv_len p b t _ P SL) as IL. set (iv := rfc_iv p b t salt) in *.
  unfold enciphers in EN. unfold priv_decrypt. destruct (pv_alg p) eqn:A.
  - assert (LI : length iv = 16%nat) by now apply (zlen_len iv 16).
    rewrite packIV_ok by auto. cbn [reraise bind].
    assert (IV : be32 b ++ be32 t ++ salt = iv) by (subst iv; unfold rfc_iv; now rewrite A). rewrite IV.
    rewrite library_iv_id by exact IL. cbn [bind].
    pose proof (is_cfb_eq _ (aes16 C (pv_key p) CO) (length plain) iv plain cipher LI ltac:(lia) EN) as EC.
    destruct (cfb_roundtrip _ (aes16 C (pv_key p) CO) (length plain) (length (cipher ++ zero_bytes n)) iv plain (zero_bytes n) LI ltac:(lia)) as (rest & ER & _).
    { rewrite app_length. destruct EN as [L _]. lia. }
    rewrite <- EC in ER. rewrite ER. destruct (library_output_app C 16 (cipher ++ zero_bytes n) (plain ++ rest)) as (z2 & ->).
    rewrite <- app_assoc. eauto.
  - assert (LI : length iv = 8%nat) by now apply (zlen_len iv 8). destruct EN as (pad & _ & PB & EN).
    assert (PV : zlen (pv_preIV p) = 8 /\ bytes_ok (pv_preIV p)) by (unfold priv_ok in P; rewrite A in P; apply P).
    assert (IV : computeIV p salt = iv) by (subst iv; unfold rfc_iv, computeIV; now rewrite A).
    assert (BI : bytes_ok iv) by (subst iv; unfold rfc_iv; rewrite A; apply xor_ok; [apply PV|auto]).
    pose proof EN as (LC & (m & LM) & _). specialize (N8 eq_refl).
    pose proof (is_cbc_eq _ m (length (plain ++ pad)) iv (plain ++ pad) cipher LI LM ltac:(lia) EN) as EC.
    assert (K : exists k, zero_bytes n = zero_bytes (8 * Z.of_nat k)).
    { exists (Z.to_nat (n / 8)). destruct (Z.le_gt_cases 0 n) as [G|G].
      - rewrite Z2Nat.id by (apply Z.div_pos; lia). f_equal. pose proof (Z.div_mod n 8). lia.
      - unfold zero_bytes. replace (Z.to_nat n) with 0%nat by lia. assert (n / 8 <= 0) by (apply Z.div_le_upper_bound; lia). replace (Z.to_nat (8 * Z.of_nat (Z.to_nat (n / 8)))) with 0%nat by lia. reflexivity. }
    destruct K as (k & ->).
    assert (M8 : zlen (cipher ++ zero_bytes (8 * Z.of_nat k)) mod 8 =? 0 = true).
    { apply Z.eqb_eq. unfold zlen. rewrite app_length, zero_bytes8, LC, LM. rewrite <- Nat.mul_add_distr_r, Nat2Z.inj_mul. apply Z.mod_mul. lia. }
    rewrite M8. cbn [negb]. rewrite IV. rewrite library_iv_id by exact IL. cbn [bind]. cbv zeta.
    assert (Data : exists k2, match c_backend C return bytes with PyCryptodome => des_pad (cipher ++ zero_bytes (8 * Z.of_nat k)) | OpenSSL => cipher ++ zero_bytes (8 * Z.of_nat k) end
              = cipher ++ zero_bytes (8 * Z.of_nat k2)).
    { destruct (c_backend C); [eauto|]. exists (k + 1)%nat. unfold des_pad. apply Z.eqb_eq in M8. rewrite M8, <- app_assoc. f_equal.
      unfold zero_bytes. rewrite <- repeat_app. f_equal. lia. }
    destruct Data as (k2 & ->).
    destruct (cbc_roundtrip _ _ (des8 C (pv_key p) CO) (undes8 C (pv_key p) CO) (undes C (pv_key p) CO) m k2 (length (plain ++ pad)) (length (cipher ++ zero_bytes (8 * Z.of_nat k2))) iv (plain ++ pad)
                (zero_bytes (8 * Z.of_nat k2)) LI BI) as (rest & ER & LR & BR); auto using zero_bytes8, zero_ok.
    { apply Forall_app; auto. }
    { rewrite <- LC, app_length. lia. }
    rewrite <- EC in ER. rewrite ER. destruct (library_output_app C 8 (cipher ++ zero_bytes (8 * Z.of_nat k2)) ((plain ++ pad) ++ rest)) as (z2 & ->).
    rewrite <- !app_assoc. eauto.
Qed.
Lemma enciphers_same C D p q b t salt plain cipher : same_ciphers C D -> same_key p q -> enciphers C p b t salt plain cipher -> enciphers D q b t salt plain cipher.
Proof. intros [X Y] (KA & KK & KV). unfold enciphers, rfc_iv. rewrite <- X, <- Y, <- KA, <- KK, <- KV. auto. Qed.
Lemma sent_multiple C p data b t salt cipher n : pv_alg p = DesCbc -> enciphers C p b t salt data cipher -> zlen (cipher ++ zero_bytes n) mod 8 = 0 -> 0 <= n -> n mod 8 = 0.
Proof.
  intros A EN M N. unfold enciphers in EN. rewrite A in EN. destruct EN as (pad & _ & _ & LC & (m & LM) & _).
  unfold zlen in M. rewrite app_length, LC, LM, Nat2Z.inj_add, Nat2Z.inj_mul in M. unfold zero_bytes in M. rewrite repeat_length, Z2Nat.id in M by lia.
  rewrite Z.add_comm, Z.mod_add in M by lia. exact M.
Qed.

(** OpenSSL 1.1 is what Crypto.v has; OpenSSL 3 keeps the last block. *)
Lemma written_same C p data salt b t : c_backend C = OpenSSL -> pv_alg p = DesCbc -> des_decrypt Written C p data salt = priv_decrypt C p data b t salt.
Proof. intros O A. unfold des_decrypt, priv_decrypt, process, evp_update, library_output. rewrite A, O. reflexivity. Qed.
Lemma held_back C p plain cipher salt : crypto_ok C -> priv_ok p -> pv_alg p = DesCbc -> zlen salt = 8 -> bytes_ok salt -> bytes_ok plain ->
  is_cbc (c_des C (pv_key p)) (xor_bytes (pv_preIV p) salt) plain cipher ->
  des_decrypt HeldBack C p cipher salt = Ok (firstn (length plain - 8) plain ++ zero_bytes (Z.min 16 (8 + zlen plain))).
Proof.
  intros CO P A SL SB BP EN. set (iv := xor_bytes (pv_preIV p) salt) in *.
  assert (PV : zlen (pv_preIV p) = 8 /\ bytes_ok (pv_preIV p)) by (unfold priv_ok in P; rewrite A in P; apply P).
  assert (LI : length iv = 8%nat) by (subst iv; rewrite xor_length; destruct PV as [PV _]; unfold zlen in *; lia).
  assert (BI : bytes_ok iv) by (apply xor_ok; [apply PV|auto]).
  pose proof EN as (LC & (m & LM) & _). pose proof (is_cbc_eq _ m (length plain) iv plain cipher LI LM ltac:(lia) EN) as EC.
  unfold des_decrypt. assert (M8 : zlen cipher mod 8 = 0) by (unfold zlen; rewrite LC, LM, Nat2Z.inj_mul; apply Z.mod_mul; lia).
  rewrite M8. change (negb (0 =? 0)) with false. cbv iota. unfold computeIV. fold iv. rewrite library_iv_id by now apply (zlen_len iv 8). cbn [bind].
  destruct (cbc_roundtrip _ _ (des8 C (pv_key p) CO) (undes8 C (pv_key p) CO) (undes C (pv_key p) CO) m 0 (length plain) (length cipher) iv plain [] LI BI BP LM) as (rest & ER & LR & _); auto.
  { constructor. }
  { cbn. lia. }
  rewrite app_nil_r, <- EC in ER. destruct rest; [|discriminate LR]. rewrite app_nil_r in ER. rewrite ER. f_equal.
  unfold process, evp_update, out_buffer. do 2 f_equal. unfold zlen. rewrite firstn_length, LC. fold (zlen plain).
  change (Z.of_nat 8) with 8. replace (zlen plain mod 8) with 0 by (rewrite <- M8; unfold zlen; now rewrite LC). unfold zlen. lia.
Qed.
