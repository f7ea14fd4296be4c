(** PropertiesPriv.v -- C78: what is encrypted is what the RFCs say, whichever
    library does it. *)
From Coq Require Import Lia.
From Verif Require Import PrfBase PrfCrypto PropertiesUsm PrfPriv Envelope SpecPriv.

(** * C78, sending *)
Definition C78_statement : Prop := forall C p data boots time p' cipher salt, crypto_ok C -> priv_ok p -> bytes_ok data ->
  is_time boots -> (pv_alg p = AesCfb128 -> is_time time) ->
  priv_encrypt C p data boots time = (p', Ok (cipher, salt)) -> enciphers C p boots time salt data cipher.
(** With OpenSSL the output buffer is longer than the output, and all of it is sent. *)
Definition ex_aes : priv := mkPriv AesCfb128 [1] [] 0.
Definition ex_des : priv := mkPriv DesCbc [1] [1; 2; 3; 4; 5; 6; 7; 8] 0.
Lemma ex_aes_ok : priv_ok ex_aes. Proof. cbv [priv_ok ex_aes pv_alg pv_salt]. lia. Qed.
Lemma ex_des_ok : priv_ok ex_des. Proof. cbv [priv_ok ex_des pv_alg pv_salt pv_preIV]. split; [lia|]. split; [reflexivity|]. repeat constructor; lia. Qed.
Lemma ex_time n : 0 <= n < 100 -> is_time n. Proof. unfold is_time. lia. Qed.
Theorem C78_refuted : ~ C78_statement.
Proof.
  intros H. set (x := priv_encrypt (toy OpenSSL) ex_aes [5] 1 2).
  assert (X : exists cipher salt, snd x = Ok (cipher, salt) /\ length cipher = 16%nat) by (vm_compute; eauto).
  destruct X as (cipher & salt & X & L). specialize (H (toy OpenSSL) ex_aes [5] 1 2 (fst x) cipher salt (toy_ok OpenSSL) ex_aes_ok).
  destruct H as [K _]; [repeat constructor; lia|apply ex_time; lia|intros _; apply ex_time; lia|fold x; rewrite <- X; apply surjective_pairing|].
  rewrite L in K. discriminate K.
Qed.
Print Assumptions C78_refuted.
Theorem C78_pycryptodome_partial : forall C p data boots time p' cipher salt, c_backend C = PyCryptodome -> crypto_ok C -> priv_ok p -> bytes_ok data ->
  is_time boots -> (pv_alg p = AesCfb128 -> is_time time) ->
  priv_encrypt C p data boots time = (p', Ok (cipher, salt)) -> enciphers C p boots time salt data cipher.
Proof.
  intros C p data b t p' cipher salt PY CO P BD B T E. destruct (sent_is C p data b t p' cipher salt CO P B T E) as (r & n & -> & EN & _ & _ & _ & N).
  rewrite (N PY). cbn. now rewrite app_nil_r.
Qed.
Print Assumptions C78_pycryptodome_partial.
(** With either library: the octets meant, then at most 16 zero octets. *)
Theorem C78_sent_partial : forall C p data boots time p' cipher salt, crypto_ok C -> priv_ok p -> bytes_ok data ->
  is_time boots -> (pv_alg p = AesCfb128 -> is_time time) ->
  priv_encrypt C p data boots time = (p', Ok (cipher, salt)) ->
  exists right extra, cipher = right ++ extra /\ enciphers C p boots time salt data right /\ (length extra <= 16)%nat /\ Forall (fun x => x = 0) extra.
Proof.
  intros C p data b t p' cipher salt CO P BD B T E. destruct (sent_is C p data b t p' cipher salt CO P B T E) as (r & n & -> & EN & N & _).
  exists r, (zero_bytes n). split; [reflexivity|]. split; [exact EN|]. unfold zero_bytes. split; [rewrite repeat_length; lia|].
  apply Forall_forall. intros x K. now apply repeat_spec in K.
Qed.
Print Assumptions C78_sent_partial.

(** * C78, receiving *)
(** Whatever an agent with the same key sends by the RFCs, with any salt, decrypts
    to what it meant (and some octets behind, that are not looked at: C37). *)
Theorem C78_received : forall C p boots time salt plain cipher, crypto_ok C -> priv_ok p ->
  is_time boots -> (pv_alg p = AesCfb128 -> is_time time) -> zlen salt = 8 -> bytes_ok salt -> bytes_ok plain ->
  enciphers C p boots time salt plain cipher ->
  exists tail, priv_decrypt C p cipher boots time salt = Ok (plain ++ tail).
Proof.
  intros C p b t salt plain cipher CO P B T SL SB BP EN. destruct (received_is C p plain cipher salt b t CO P B T SL SB BP EN 0) as (tail & E); [reflexivity|].
  change (zero_bytes 0) with (@nil Z) in E. rewrite app_nil_r in E. eauto.
Qed.
Print Assumptions C78_received.
(** One library encrypts, another decrypts. *)
Theorem C78_libraries : forall C D p q data boots time p' cipher salt, crypto_ok C -> crypto_ok D -> same_ciphers C D -> priv_ok p -> priv_ok q -> same_key p q ->
  bytes_ok data -> is_time boots -> (pv_alg p = AesCfb128 -> is_time time) ->
  priv_encrypt C p data boots time = (p', Ok (cipher, salt)) ->
  exists tail, priv_decrypt D q cipher boots time salt = Ok (data ++ tail).
Proof.
  intros C D p q data b t p' cipher salt CO DO SC P Q K BD B T E.
  destruct (sent_is C p data b t p' cipher salt CO P B T E) as (r & n & -> & EN & N & SL & SB & _).
  apply (received_is D q data r salt b t DO Q B); auto.
  - destruct K as [<- _]. exact T.
  - eapply enciphers_same; eauto.
  - intros A. assert (PA : pv_alg p = DesCbc) by (destruct K as [-> _]; exact A).
    eapply (sent_multiple C p data b t salt r n PA EN); [|lia].
    assert (S8 : snd (priv_encrypt C p data b t) = Ok (r ++ zero_bytes n, salt)) by now rewrite E.
    destruct (encrypt_spec C p data b t P B T) as (z & R & R2). rewrite S8 in R. injection R as R _. rewrite R, R2, PA.
    destruct (des_pad_nat data) as (m & LM). unfold enc_core. rewrite PA. set (iv := rfc_iv _ _ _ _).
    assert (LI : length iv = 8%nat).
    { destruct (enc_salt_len p b) as [SL' _]. pose proof (rfc_iv_len p b t _ P SL') as IL. rewrite PA in IL. now apply (zlen_len iv 8). }
    destruct (cbc_enc_len _ (des8 C (pv_key p) CO) m (length (des_pad data)) iv (des_pad data) LI LM) as [LE _]; [auto|].
    destruct (lib_pad_nat C (des_pad data) _ m LM LE) as (k & ->). unfold zlen. rewrite app_length, zero_bytes8, LE, LM.
    rewrite <- Nat.mul_add_distr_r, Nat2Z.inj_mul. apply Z.mod_mul. lia.
Qed.
Print Assumptions C78_libraries.

(** * OpenSSL 3 *)
(** Crypto.v has OpenSSL 1.1. *)
Theorem C78_openssl_1 : forall C p cipher boots time salt, c_backend C = OpenSSL -> pv_alg p = DesCbc ->
  des_decrypt Written C p cipher salt = priv_decrypt C p cipher boots time salt.
Proof. intros C p cipher b t salt. apply written_same. Qed.
Print Assumptions C78_openssl_1.
(** With OpenSSL 3 the last 8 octets of whatever an agent sends are lost: zeros
    take their place. *)
Theorem C78_openssl_3 : forall C p salt plain cipher, crypto_ok C -> priv_ok p -> pv_alg p = DesCbc -> zlen salt = 8 -> bytes_ok salt -> bytes_ok plain ->
  is_cbc (c_des C (pv_key p)) (xor_bytes (pv_preIV p) salt) plain cipher ->
  exists zeros, des_decrypt HeldBack C p cipher salt = Ok (firstn (length plain - 8) plain ++ zeros) /\ Forall (fun x => x = 0) zeros.
Proof.
  intros C p salt plain cipher CO P A SL SB BP EN. exists (zero_bytes (Z.min 16 (8 + zlen plain))). split; [now apply held_back|].
  apply Forall_forall. intros x K. now apply repeat_spec in K.
Qed.
Print Assumptions C78_openssl_3.
Definition C78_openssl_3_statement : Prop := forall C p boots time salt plain cipher, crypto_ok C -> priv_ok p -> pv_alg p = DesCbc ->
  zlen salt = 8 -> bytes_ok salt -> bytes_ok plain -> enciphers C p boots time salt plain cipher ->
  exists tail, des_decrypt HeldBack C p cipher salt = Ok (plain ++ tail).
Theorem C78_openssl_3_refuted : ~ C78_openssl_3_statement.
Proof.
  intros H. set (plain := [1; 2; 3; 4; 5; 6; 7; 8]). set (salt := [0; 0; 0; 1; 0; 0; 0; 9]).
  set (iv := xor_bytes (pv_preIV ex_des) salt). set (cipher := cbc_encrypt 8 (c_des (toy OpenSSL) [1]) iv plain).
  assert (BP : bytes_ok plain) by (repeat constructor; lia). assert (BS : bytes_ok salt) by (repeat constructor; lia).
  assert (IS : is_cbc (c_des (toy OpenSSL) [1]) iv plain cipher) by (apply (cbc_is _ (des8 _ _ (toy_ok OpenSSL)) 1); [reflexivity|reflexivity|cbn; lia]).
  destruct (H (toy OpenSSL) ex_des 1 2 salt plain cipher (toy_ok OpenSSL) ex_des_ok) as (tail & E); auto.
  { cbv [enciphers ex_des pv_alg pv_key]. exists []. split; [cbn; lia|]. split; [constructor|]. rewrite app_nil_r. exact IS. }
  destruct (C78_openssl_3 (toy OpenSSL) ex_des salt plain cipher (toy_ok OpenSSL) ex_des_ok) as (z & E2 & Z); auto.
  rewrite E in E2. injection E2 as E2. cbn [plain firstn length Nat.sub app] in E2. subst z. inversion Z as [|? ? K _]. discriminate K.
Qed.
Print Assumptions C78_openssl_3_refuted.

(** * Examples: the hypotheses are met *)
Definition ex_plain : bytes := [48; 3; 2; 1; 5; 9; 9; 9; 9; 9; 9; 9; 9; 9; 9; 9; 9; 9; 7].
Example C78_example : forall b, is_ok (snd (priv_encrypt (toy b) ex_aes ex_plain 1 2)) = true /\ is_ok (snd (priv_encrypt (toy b) ex_des ex_plain 1 2)) = true /\
  crypto_ok (toy b) /\ priv_ok ex_aes /\ priv_ok ex_des /\ bytes_ok ex_plain /\ same_ciphers (toy OpenSSL) (toy PyCryptodome).
Proof.
  intros b. split; [destruct b; vm_compute; reflexivity|]. split; [destruct b; vm_compute; reflexivity|]. split; [apply toy_ok|]. split; [apply ex_aes_ok|]. split; [apply ex_des_ok|].
  split; [repeat constructor; lia|]. split; reflexivity.
Qed.
Example C78_received_example : forall b, exists salt cipher, zlen salt = 8 /\ bytes_ok salt /\ enciphers (toy b) ex_aes 1 2 salt ex_plain cipher /\
  exists salt2 cipher2, zlen salt2 = 8 /\ bytes_ok salt2 /\ enciphers (toy b) ex_des 1 2 salt2 ex_plain cipher2.
Proof.
  intros b. assert (BP : bytes_ok ex_plain) by (repeat constructor; lia). destruct (C37_encrypts (toy b) ex_aes ex_plain 1 2 ex_aes_ok (ex_time 1 ltac:(lia)) (fun _ => ex_time 2 ltac:(lia))) as (c & s & E).
  destruct (sent_is (toy b) ex_aes ex_plain 1 2 (fst (priv_encrypt (toy b) ex_aes ex_plain 1 2)) c s (toy_ok b) ex_aes_ok (ex_time 1 ltac:(lia)) (fun _ => ex_time 2 ltac:(lia))) as (r & n & _ & EN & _ & SL & SB & _).
  { rewrite <- E. apply surjective_pairing. }
  exists s, r. split; [exact SL|]. split; [exact SB|]. split; [exact EN|].
  destruct (C37_encrypts (toy b) ex_des ex_plain 1 2 ex_des_ok (ex_time 1 ltac:(lia)) (fun _ => ex_time 2 ltac:(lia))) as (c2 & s2 & E2).
  destruct (sent_is (toy b) ex_des ex_plain 1 2 (fst (priv_encrypt (toy b) ex_des ex_plain 1 2)) c2 s2 (toy_ok b) ex_des_ok (ex_time 1 ltac:(lia)) (fun _ => ex_time 2 ltac:(lia))) as (r2 & n2 & _ & EN2 & _ & SL2 & SB2 & _).
  { rewrite <- E2. apply surjective_pairing. }
  exists s2, r2. auto.
Qed.
