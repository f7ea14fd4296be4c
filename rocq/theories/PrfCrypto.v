(** PrfCrypto.v -- proofs about the privacy protocols. *)
From Coq Require Import Lia.
From Verif Require Import PrfBase PrfUsers.
From Verif Require Export SpecUsm.

Lemma lxor_byte a b : 0 <= a < 256 -> 0 <= b < 256 -> 0 <= Z.lxor a b < 256.
Proof.
  intros A B. assert (N : 0 <= Z.lxor a b) by (apply Z.lxor_nonneg; lia). split; [exact N|].
  destruct (Z.eq_dec (Z.lxor a b) 0) as [->|NZ]; [lia|].
  change 256 with (2 ^ 8). apply Z.log2_lt_pow2; [lia|].
  eapply Z.le_lt_trans; [apply Z.log2_lxor; lia|].
  assert (L : forall x, 0 <= x < 256 -> Z.log2 x < 8).
  { intros x Hx. destruct (Z.eq_dec x 0) as [->|]; [cbn; lia|]. apply Z.log2_lt_pow2; [lia|]. change (2 ^ 8) with 256. lia. }
  apply Z.max_lub_lt; now apply L.
Qed.
Lemma xor_length a b : length (xor_bytes a b) = Nat.min (length a) (length b).
Proof. revert b; induction a as [|x a IH]; intros [|y b]; cbn; auto. Qed.
Lemma xor_ok a b : bytes_ok a -> bytes_ok b -> bytes_ok (xor_bytes a b).
Proof.
  intros A. revert b. induction A as [|x a Hx A IH]; intros b B; [constructor|]. destruct B as [|y b Hy B]; cbn; [constructor|].
  constructor; [now apply lxor_byte|]. now apply IH.
Qed.
Lemma xor_invol a b : (length b <= length a)%nat -> xor_bytes a (xor_bytes a b) = b.
Proof.
  revert b; induction a as [|x a IH]; intros [|y b] H; cbn in *; auto; try lia.
  rewrite IH by lia. f_equal. rewrite <- Z.lxor_assoc, Z.lxor_nilpotent, Z.lxor_0_l. reflexivity.
Qed.
Lemma xor_app a b c : (length b <= length a)%nat ->
  xor_bytes a (b ++ c) = xor_bytes a b ++ xor_bytes (skipn (length b) a) c.
Proof.
  revert b; induction a as [|x a IH]; intros [|y b] H; cbn in *; auto; try lia. rewrite IH by lia. reflexivity.
Qed.
Lemma xor_inj p a b : length a = length b -> (length a <= length p)%nat -> xor_bytes p a = xor_bytes p b -> a = b.
Proof. intros L H E. rewrite <- (xor_invol p a) by lia. rewrite E. apply xor_invol. lia. Qed.

Lemma zlen_len (l : bytes) n : zlen l = Z.of_nat n <-> length l = n.
Proof. unfold zlen. lia. Qed.
Lemma firstn_ok n l : bytes_ok l -> bytes_ok (firstn n l).
Proof. intros H. unfold bytes_ok in *. rewrite <- (firstn_skipn n l) in H. now apply Forall_app in H. Qed.
Lemma skipn_ok n l : bytes_ok l -> bytes_ok (skipn n l).
Proof. intros H. unfold bytes_ok in *. rewrite <- (firstn_skipn n l) in H. now apply Forall_app in H. Qed.
Lemma zero_ok n : bytes_ok (zero_bytes n).
Proof. unfold zero_bytes, bytes_ok. apply Forall_forall. intros x H. apply repeat_spec in H. lia. Qed.

Section Cfb.
  Variable E : bytes -> bytes.
  Hypothesis E16 : forall b, length b = 16%nat -> length (E b) = 16%nat /\ bytes_ok (E b).

  Lemma cfb_enc_len : forall fuel iv data, length iv = 16%nat -> (length data <= fuel)%nat ->
    length (cfb_encrypt fuel E iv data) = length data.
  Proof.
    induction fuel as [|fuel IH]; intros iv data I L; [destruct data; cbn in *; [auto|lia]|].
    destruct data as [|x data]; [reflexivity|]. cbn [cfb_encrypt]. set (d := x :: data) in *.
    assert (D : (1 <= length d)%nat) by (subst d; cbn; lia).
    rewrite app_length. destruct (Nat.le_gt_cases 16 (length d)) as [G|G].
    - assert (LC : length (xor_bytes (E iv) (firstn 16 d)) = 16%nat) by (rewrite xor_length, firstn_length; destruct (E16 iv I); lia).
      rewrite IH by (auto; rewrite skipn_length; lia). rewrite LC, skipn_length. lia.
    - rewrite (skipn_all2 d) by lia. rewrite xor_length, firstn_length. destruct (E16 iv I).
      assert (Z : cfb_encrypt fuel E (xor_bytes (E iv) (firstn 16 d)) [] = []) by (destruct fuel; reflexivity). rewrite Z. cbn [length]. lia.
  Qed.
  Lemma cfb_enc_ok : forall fuel iv data, length iv = 16%nat -> bytes_ok data -> bytes_ok (cfb_encrypt fuel E iv data).
  Proof.
    induction fuel as [|fuel IH]; intros iv data I B; [constructor|]. destruct data as [|x data]; [constructor|]. cbn [cfb_encrypt].
    set (d := x :: data) in *. apply Forall_app. split; [apply xor_ok; [now apply E16|now apply firstn_ok]|].
    destruct (Nat.le_gt_cases 16 (length d)) as [G|G].
    - apply IH; [rewrite xor_length, firstn_length; destruct (E16 iv I); lia|now apply skipn_ok].
    - rewrite (skipn_all2 d) by lia. destruct fuel; constructor.
  Qed.
  Lemma cfb_dec_ok : forall fuel iv data, length iv = 16%nat -> bytes_ok data -> bytes_ok (cfb_decrypt fuel E iv data).
  Proof.
    induction fuel as [|fuel IH]; intros iv data I B; [constructor|]. destruct data as [|x data]; [constructor|]. cbn [cfb_decrypt].
    set (d := x :: data) in *. apply Forall_app. split; [apply xor_ok; [now apply E16|now apply firstn_ok]|].
    destruct (Nat.le_gt_cases 16 (length d)) as [G|G].
    - apply IH; [rewrite firstn_length; lia|now apply skipn_ok].
    - rewrite (skipn_all2 d) by lia. destruct fuel; constructor.
  Qed.
  Lemma cfb_dec_len : forall fuel iv data, length iv = 16%nat -> (length data <= fuel)%nat ->
    length (cfb_decrypt fuel E iv data) = length data.
  Proof.
    induction fuel as [|fuel IH]; intros iv data I L; [destruct data; cbn in *; [auto|lia]|].
    destruct data as [|x data]; [reflexivity|]. cbn [cfb_decrypt]. set (d := x :: data) in *.
    assert (D : (1 <= length d)%nat) by (subst d; cbn; lia).
    rewrite app_length, xor_length, firstn_length. destruct (E16 iv I). destruct (Nat.le_gt_cases 16 (length d)) as [G|G].
    - rewrite IH by (rewrite ?firstn_length, ?skipn_length; lia). rewrite skipn_length. lia.
    - rewrite (skipn_all2 d) by lia. assert (Z : cfb_decrypt fuel E (firstn 16 d) [] = []) by (destruct fuel; reflexivity). rewrite Z. cbn [length]. lia.
  Qed.

  (** Decryption inverts encryption, whatever follows. *)
  Lemma cfb_roundtrip : forall fuel fuel2 iv data tail, length iv = 16%nat -> (length data <= fuel)%nat ->
    (length data + length tail <= fuel2)%nat ->
    exists rest, cfb_decrypt fuel2 E iv (cfb_encrypt fuel E iv data ++ tail) = data ++ rest /\
                 length rest = length tail.
  Proof.
    induction fuel as [|fuel IH]; intros fuel2 iv data tail I L L2.
    { destruct data; [|cbn in L; lia]. cbn [cfb_encrypt app]. eexists. split; [reflexivity|]. apply cfb_dec_len; cbn in *; auto; lia. }
    destruct data as [|x data].
    { cbn [cfb_encrypt app]. eexists. split; [reflexivity|]. apply cfb_dec_len; cbn in *; auto; lia. }
    cbn [cfb_encrypt]. set (d := x :: data) in *. assert (D : (1 <= length d)%nat) by (subst d; cbn; lia).
    destruct (E16 iv I) as [EL _]. set (c := xor_bytes (E iv) (firstn 16 d)).
    destruct fuel2 as [|fuel2]; [lia|].
    destruct (Nat.le_gt_cases 16 (length d)) as [G|G].
    - assert (LC : length c = 16%nat) by (subst c; rewrite xor_length, firstn_length; lia).
      rewrite <- app_assoc. assert (NE : exists y z, c ++ cfb_encrypt fuel E c (skipn 16 d) ++ tail = y :: z).
      { destruct c; [cbn in LC; lia|]. cbn. eauto. }
      destruct NE as (y & z & NE). rewrite NE. cbn [cfb_decrypt]. rewrite <- NE.
      rewrite firstn_app, skipn_app, LC. rewrite (firstn_all2 c), (skipn_all2 c) by lia. rewrite Nat.sub_diag, firstn_O, skipn_O, app_nil_r, app_nil_l.
      destruct (IH fuel2 c (skipn 16 d) tail LC) as (rest & -> & R).
      { rewrite skipn_length. lia. } { rewrite skipn_length. lia. }
      exists rest. split; [|exact R]. subst c. rewrite xor_invol by (rewrite firstn_length; lia).
      rewrite app_assoc, firstn_skipn. reflexivity.
    - rewrite (skipn_all2 d) by lia. assert (Ec : c = xor_bytes (E iv) d) by (subst c; now rewrite (firstn_all2 d) by lia). clearbody c.
      assert (Z : forall f v, cfb_encrypt f E v [] = []) by (intros f v; destruct f; reflexivity). rewrite Z, app_nil_r.
      assert (LC : length c = length d) by (rewrite Ec, xor_length; lia).
      assert (NE : exists y z, c ++ tail = y :: z) by (destruct c; [cbn in LC; lia|cbn; eauto]).
      destruct NE as (y & z & NE).
      exists (xor_bytes (skipn (length d) (E iv)) (firstn (16 - length d) tail) ++
              cfb_decrypt fuel2 E (firstn 16 (c ++ tail)) (skipn 16 (c ++ tail))). split.
      + rewrite NE. cbn [cfb_decrypt]. rewrite <- NE. rewrite (firstn_app 16 c tail) at 1. rewrite (firstn_all2 c) by lia. rewrite LC.
        rewrite xor_app by lia. rewrite LC, Ec. rewrite xor_invol by lia. rewrite <- app_assoc. reflexivity.
      + assert (S : length (skipn 16 (c ++ tail)) = (length c + length tail - 16)%nat) by (rewrite skipn_length, app_length; lia).
        destruct (Nat.le_gt_cases 16 (length c + length tail)) as [G2|G2].
        * rewrite app_length, cfb_dec_len by (rewrite ?firstn_length, ?S, ?app_length; lia). rewrite S, xor_length, skipn_length, firstn_length. lia.
        * rewrite (skipn_all2 (c ++ tail)) by (rewrite app_length; lia).
          assert (Zd : forall f v, cfb_decrypt f E v [] = []) by (intros f v; destruct f; reflexivity). rewrite Zd, app_nil_r, xor_length, skipn_length, firstn_length. lia.
  Qed.
End Cfb.

Section Cbc.
  Variables E D : bytes -> bytes.
  Hypothesis E8 : forall b, length b = 8%nat -> length (E b) = 8%nat /\ bytes_ok (E b).
  Hypothesis D8 : forall b, length b = 8%nat -> length (D b) = 8%nat /\ bytes_ok (D b).
  Hypothesis DE : forall b, length b = 8%nat -> bytes_ok b -> D (E b) = b.

  Lemma cbc_enc_len : forall n fuel iv data, length iv = 8%nat -> length data = (n * 8)%nat -> (length data <= fuel)%nat ->
    length (cbc_encrypt fuel E iv data) = length data /\ bytes_ok (cbc_encrypt fuel E iv data).
  Proof.
    induction n as [|n IH]; intros fuel iv data I L F.
    { destruct data; [|cbn in L; lia]. destruct fuel; cbn; split; auto; constructor. }
    destruct fuel as [|fuel]; [lia|]. destruct data as [|x data]; [cbn in L; lia|]. cbn [cbc_encrypt]. set (d := x :: data) in *.
    set (c := E (xor_bytes iv (firstn 8 d))).
    assert (LX : length (xor_bytes iv (firstn 8 d)) = 8%nat) by (rewrite xor_length, firstn_length; lia).
    destruct (E8 _ LX) as [LC BC]. fold c in LC, BC.
    destruct (IH fuel c (skipn 8 d) LC) as [L1 B1]; [rewrite skipn_length; lia|rewrite skipn_length; lia|].
    split; [rewrite app_length, L1, skipn_length; lia|]. now apply Forall_app.
  Qed.
  Lemma cbc_dec_len : forall n fuel iv data, length iv = 8%nat -> bytes_ok iv -> length data = (n * 8)%nat -> (length data <= fuel)%nat -> bytes_ok data ->
    length (cbc_decrypt fuel D iv data) = length data /\ bytes_ok (cbc_decrypt fuel D iv data).
  Proof.
    induction n as [|n IH]; intros fuel iv data I BI L F B.
    { destruct data; [|cbn in L; lia]. destruct fuel; cbn; split; auto; constructor. }
    destruct fuel as [|fuel]; [lia|]. destruct data as [|x data]; [cbn in L; lia|]. cbn [cbc_decrypt]. set (d := x :: data) in *.
    assert (LC : length (firstn 8 d) = 8%nat) by (rewrite firstn_length; lia). destruct (D8 _ LC) as [LD BD].
    destruct (IH fuel (firstn 8 d) (skipn 8 d) LC) as [L1 B1]; [now apply firstn_ok|rewrite skipn_length; lia|rewrite skipn_length; lia|now apply skipn_ok|].
    split; [rewrite app_length, L1, xor_length, skipn_length; lia|]. apply Forall_app. split; [now apply xor_ok|auto].
  Qed.
  Lemma cbc_roundtrip : forall n k fuel fuel2 iv data tail, length iv = 8%nat -> bytes_ok iv -> bytes_ok data ->
    length data = (n * 8)%nat -> (length data <= fuel)%nat -> length tail = (k * 8)%nat -> bytes_ok tail ->
    (length data + length tail <= fuel2)%nat ->
    exists rest, cbc_decrypt fuel2 D iv (cbc_encrypt fuel E iv data ++ tail) = data ++ rest /\
                 length rest = length tail /\ bytes_ok rest.
  Proof.
    induction n as [|n IH]; intros k fuel fuel2 iv data tail I BI B L F LT BT F2.
    { destruct data; [|cbn in L; lia]. replace (cbc_encrypt fuel E iv []) with (@nil Z) by (destruct fuel; reflexivity). cbn [app].
      eexists. split; [reflexivity|]. eapply cbc_dec_len; eauto. }
    destruct fuel as [|fuel]; [lia|]. destruct data as [|x data]; [cbn in L; lia|]. cbn [cbc_encrypt]. set (d := x :: data) in *.
    set (c := E (xor_bytes iv (firstn 8 d))).
    assert (LX : length (xor_bytes iv (firstn 8 d)) = 8%nat) by (rewrite xor_length, firstn_length; lia).
    assert (BX : bytes_ok (xor_bytes iv (firstn 8 d))) by (apply xor_ok; [auto|now apply firstn_ok]).
    destruct (E8 _ LX) as [LC BC]. fold c in LC, BC.
    rewrite <- app_assoc. assert (NE : exists y z, c ++ cbc_encrypt fuel E c (skipn 8 d) ++ tail = y :: z).
    { destruct c; [cbn in LC; lia|]. cbn. eauto. }
    destruct fuel2 as [|fuel2]; [lia|].
    destruct NE as (y & z & NE). rewrite NE. cbn [cbc_decrypt]. rewrite <- NE.
    rewrite firstn_app, skipn_app, LC. rewrite (firstn_all2 c), (skipn_all2 c) by lia. rewrite Nat.sub_diag, firstn_O, skipn_O, app_nil_r, app_nil_l.
    destruct (IH k fuel fuel2 c (skipn 8 d) tail LC BC) as (rest & -> & R); auto; try (rewrite skipn_length; lia); [now apply skipn_ok|].
    exists rest. split; [|exact R]. subst c. rewrite DE by auto. rewrite xor_invol by (rewrite firstn_length; lia).
    rewrite app_assoc, firstn_skipn. reflexivity.
  Qed.
End Cbc.

(** * The libraries *)
Lemma library_iv_id C n iv : zlen iv = n -> library_iv C n iv = Ok iv.
Proof.
  intros H. unfold library_iv. destruct (c_backend C).
  - rewrite firstn_app. unfold zlen in H. rewrite <- H, Nat2Z.id, Nat.sub_diag, firstn_all. cbn. now rewrite app_nil_r.
  - rewrite H, Z.eqb_refl. reflexivity.
Qed.
Lemma library_output_app C n data out : exists z, library_output C n data out = out ++ zero_bytes z.
Proof.
  unfold library_output, out_buffer. destruct (c_backend C); eauto. exists 0. cbn. now rewrite app_nil_r.
Qed.

Lemma be_bytes_len n v : length (be_bytes n v) = n.
Proof. revert v; induction n as [|n IH]; intros v; cbn; [reflexivity|]. rewrite app_length, IH. cbn. lia. Qed.
Lemma be_bytes_byte n v : bytes_ok (be_bytes n v).
Proof.
  revert v; induction n as [|n IH]; intros v; cbn; [constructor|]. apply Forall_app. split; [apply IH|].
  constructor; [apply Z.mod_pos_bound; lia|constructor].
Qed.
Lemma be_bytes_inj n : forall v w, 0 <= v < 256 ^ Z.of_nat n -> 0 <= w < 256 ^ Z.of_nat n -> be_bytes n v = be_bytes n w -> v = w.
Proof.
  induction n as [|n IH]; intros v w V W E.
  - change (256 ^ Z.of_nat 0) with 1 in *. lia.
  - cbn [be_bytes] in E. apply app_inj_tail in E as [E1 E2].
    assert (P : 256 ^ Z.of_nat (S n) = 256 ^ Z.of_nat n * 256) by (rewrite Nat2Z.inj_succ, Z.pow_succ_r by lia; lia).
    rewrite P in *. apply IH in E1.
    + rewrite (Z.div_mod v 256), (Z.div_mod w 256) by lia. congruence.
    + split; [apply Z.div_pos; lia|apply Z.div_lt_upper_bound; lia].
    + split; [apply Z.div_pos; lia|apply Z.div_lt_upper_bound; lia].
Qed.
Lemma be32_eq v : be_bytes 4 v = be32 v.
Proof.
  cbn [be_bytes app]. unfold be32. rewrite !Z.div_div by lia. reflexivity.
Qed.
Lemma to_bytes_ok n v : 0 <= v < 256 ^ Z.of_nat n -> to_bytes_unsigned n v = Ok (be_bytes n v).
Proof.
  intros H. unfold to_bytes_unsigned. replace (0 <=? v) with true by (symmetry; apply Z.leb_le; lia).
  replace (v <? 256 ^ Z.of_nat n) with true by (symmetry; apply Z.ltb_lt; lia). reflexivity.
Qed.
Lemma pow4 : 256 ^ Z.of_nat 4 = 4294967296. Proof. reflexivity. Qed.
Lemma pow8 : 256 ^ Z.of_nat 8 = 18446744073709551616. Proof. reflexivity. Qed.
Lemma time_lt v : is_time v -> 0 <= v < 256 ^ Z.of_nat 4.
Proof. unfold is_time. rewrite pow4. change (2 ^ 31) with 2147483648. lia. Qed.

Lemma packIV_ok b t salt : is_time b -> is_time t -> zlen salt = 8 -> packIV b t salt = Ok (be32 b ++ be32 t ++ salt).
Proof.
  intros B T S. unfold packIV. rewrite S. cbn [Z.eqb Pos.eqb negb]. rewrite !to_bytes_ok by (now apply time_lt). cbn [bind].
  now rewrite !be32_eq.
Qed.

(** What [priv_encrypt] does, in terms of the IV of the RFC. *)
Definition enc_salt (p : priv) (b : Z) : bytes :=
  match pv_alg p with
  | AesCfb128 => be_bytes 8 ((pv_salt p + 1) mod 2 ^ 64)
  | DesCbc => be32 b ++ be_bytes 4 ((pv_salt p + 1) mod 2 ^ 32)
  end.
Definition enc_core (C : crypto) (p : priv) (iv data : bytes) : bytes :=
  match pv_alg p with
  | AesCfb128 => cfb_encrypt (length data) (c_aes C (pv_key p)) iv data
  | DesCbc => let data := des_pad data in cbc_encrypt (length data) (c_des C (pv_key p)) iv data
  end.
Definition next_priv (p : priv) : priv :=
  mkPriv (pv_alg p) (pv_key p) (pv_preIV p) ((pv_salt p + 1) mod salt_period (pv_alg p)).

Lemma encrypt_next C p data b t : fst (priv_encrypt C p data b t) = next_priv p.
Proof. unfold priv_encrypt, next_priv. destruct (pv_alg p); reflexivity. Qed.
Lemma next_ok p : priv_ok p -> priv_ok (next_priv p).
Proof.
  unfold priv_ok, next_priv. cbn [pv_alg pv_salt pv_preIV]. destruct (pv_alg p); unfold salt_period.
  - intros _. apply Z.mod_pos_bound. reflexivity.
  - intros (_ & A & B). repeat split; auto; apply Z.mod_pos_bound; reflexivity.
Qed.
Lemma next_same p : same_key (next_priv p) p.
Proof. unfold same_key, next_priv. auto. Qed.

Lemma be32_len v : zlen (be32 v) = 4. Proof. reflexivity. Qed.
Lemma be32_ok v : bytes_ok (be32 v). Proof. rewrite <- be32_eq. apply be_bytes_byte. Qed.

Lemma enc_salt_len p b : zlen (enc_salt p b) = 8 /\ bytes_ok (enc_salt p b).
Proof.
  unfold enc_salt. destruct (pv_alg p).
  - split; [unfold zlen; now rewrite be_bytes_len|apply be_bytes_byte].
  - split; [unfold zlen; rewrite app_length, be_bytes_len; reflexivity|]. apply Forall_app. split; [apply be32_ok|apply be_bytes_byte].
Qed.
Lemma rfc_iv_len p b t salt : priv_ok p -> zlen salt = 8 ->
  zlen (rfc_iv p b t salt) = match pv_alg p with AesCfb128 => 16 | DesCbc => 8 end.
Proof.
  unfold priv_ok, rfc_iv. destruct (pv_alg p); intros P S.
  - unfold zlen in *. rewrite !app_length. cbn [length be32]. lia.
  - destruct P as (_ & P & _). unfold zlen in *. rewrite xor_length. lia.
Qed.

Lemma encrypt_spec C p data b t : priv_ok p -> is_time b -> (pv_alg p = AesCfb128 -> is_time t) ->
  exists pad, snd (priv_encrypt C p data b t) =
    Ok (enc_core C p (rfc_iv p b t (enc_salt p b)) data ++ zero_bytes pad, enc_salt p b) /\
    (enc_core C p (rfc_iv p b t (enc_salt p b)) data ++ zero_bytes pad =
     library_output C (match pv_alg p with AesCfb128 => 16 | DesCbc => 8 end)
       (match pv_alg p with AesCfb128 => data | DesCbc => des_pad data end)
       (enc_core C p (rfc_iv p b t (enc_salt p b)) data)).
Proof.
  intros P B T. destruct (enc_salt_len p b) as [SL _]. pose proof (rfc_iv_len p b t _ P SL) as IL.
  unfold priv_ok in P. unfold priv_encrypt, enc_core, rfc_iv, enc_salt in *. destruct (pv_alg p) eqn:A; cbn [snd].
  - assert (M : 0 <= (pv_salt p + 1) mod 2 ^ 64 < 2 ^ 64) by (apply Z.mod_pos_bound; reflexivity).
    rewrite to_bytes_ok by (rewrite pow8; change (2 ^ 64) with 18446744073709551616 in M; exact M). cbn [bind].
    rewrite packIV_ok by auto. cbn [bind]. rewrite library_iv_id by exact IL. cbn [bind].
    set (out := cfb_encrypt _ _ _ _). destruct (library_output_app C 16 data out) as (z & ->). exists z. auto.
  - assert (M : 0 <= (pv_salt p + 1) mod 2 ^ 32 < 2 ^ 32) by (apply Z.mod_pos_bound; reflexivity).
    rewrite to_bytes_ok by (now apply time_lt). cbn [bind].
    rewrite to_bytes_ok by (rewrite pow4; change (2 ^ 32) with 4294967296 in M; exact M). cbn [bind].
    rewrite be32_eq. unfold computeIV. rewrite library_iv_id by exact IL. cbn [bind]. cbv zeta.
    set (out := cbc_encrypt _ _ _ _). destruct (library_output_app C 8 (des_pad data) out) as (z & ->). exists z. auto.
Qed.

Lemma zero_bytes_len n : 0 <= n -> zlen (zero_bytes n) = n.
Proof. intros H. unfold zero_bytes, zlen. rewrite repeat_length. lia. Qed.

Lemma des_pad_spec data : exists n, zlen (des_pad data) = 8 * n /\ 0 <= n.
Proof.
  unfold des_pad. exists (zlen data / 8 + 1). pose proof (Z.mod_pos_bound (zlen data) 8). pose proof (Z.div_mod (zlen data) 8).
  assert (0 <= zlen data) by (unfold zlen; lia). assert (0 <= zlen data / 8) by (apply Z.div_pos; lia).
  split; [|lia]. unfold zlen at 1. rewrite app_length. fold (zlen data). rewrite Nat2Z.inj_add. fold (zlen data).
  fold (zlen (zero_bytes (8 - zlen data mod 8))). rewrite zero_bytes_len by lia. lia.
Qed.
Lemma des_pad_nat data : exists n, length (des_pad data) = (n * 8)%nat.
Proof. destruct (des_pad_spec data) as (n & E & H). exists (Z.to_nat n). unfold zlen in E. lia. Qed.
Lemma des_pad_app data : exists z, des_pad data = data ++ zero_bytes z. Proof. unfold des_pad. eauto. Qed.

Lemma lib_pad_nat C data out n : length data = (n * 8)%nat -> length out = length data ->
  exists k, library_output C 8 data out = out ++ zero_bytes (8 * Z.of_nat k).
Proof.
  intros L O. unfold library_output, out_buffer. destruct (c_backend C).
  - exists 1%nat. f_equal. f_equal. unfold zlen. rewrite O, L. replace (Z.of_nat (n * 8) mod 8) with 0; [lia|].
    rewrite Nat2Z.inj_mul. symmetry. apply Z.mod_mul. lia.
  - exists 0%nat. cbn. now rewrite app_nil_r.
Qed.
Lemma zero_bytes8 k : length (zero_bytes (8 * Z.of_nat k)) = (k * 8)%nat.
Proof. unfold zero_bytes. rewrite repeat_length. lia. Qed.

(** C37 *)
Lemma privacy_roundtrip C p q data b t p' cipher salt : crypto_ok C -> priv_ok p -> same_key p q ->
  bytes_ok data -> is_time b -> (pv_alg p = AesCfb128 -> is_time t) ->
  priv_encrypt C p data b t = (p', Ok (cipher, salt)) ->
  exists pad, priv_decrypt C q cipher b t salt = Ok (data ++ pad) /\ bytes_ok pad.
Proof.
  intros CO P (KA & KK & KV) BD B T E. destruct (enc_salt_len p b) as [SL SB]. pose proof (rfc_iv_len p b t _ P SL) as IL.
  destruct (encrypt_spec C p data b t P B) as (z & R & R2); [auto|]. rewrite E in R. cbn [snd] in R. injection R as -> ->.
  set (iv := rfc_iv p b t (enc_salt p b)) in *. rewrite R2.
  unfold priv_decrypt, enc_core in *. rewrite <- KA, <- KK.
  destruct (pv_alg p) eqn:A.
  - rewrite packIV_ok by auto. cbn [reraise bind].
    assert (IV : be32 b ++ be32 t ++ enc_salt p b = iv) by (subst iv; unfold rfc_iv; now rewrite A). rewrite IV.
    rewrite library_iv_id by exact IL. cbn [bind].
    assert (E16 : forall x, length x = 16%nat -> length (c_aes C (pv_key p) x) = 16%nat /\ bytes_ok (c_aes C (pv_key p) x)).
    { intros x Hx. destruct (ok_aes C CO (pv_key p) x) as [X1 X2]; [now apply (zlen_len x 16)|]. split; [now apply (zlen_len _ 16)|auto]. }
    rewrite <- R2. set (enc := cfb_encrypt _ _ _ _) in *.
    assert (LI : length iv = 16%nat) by now apply (zlen_len iv 16).
    assert (LE : length enc = length data) by (apply cfb_enc_len; auto).
    destruct (cfb_roundtrip _ E16 (length data) (length (enc ++ zero_bytes z)) iv data (zero_bytes z) LI) as (rest & ER & LR); auto.
    { rewrite app_length. lia. }
    fold enc in ER. rewrite ER. destruct (library_output_app C 16 (enc ++ zero_bytes z) (data ++ rest)) as (z2 & ->).
    rewrite <- app_assoc. eexists. split; [reflexivity|]. apply Forall_app. split; [|apply zero_ok].
    assert (BR : bytes_ok (data ++ rest)).
    { rewrite <- ER. apply cfb_dec_ok; auto. apply Forall_app. split; [now apply cfb_enc_ok|apply zero_ok]. }
    now apply Forall_app in BR.
  - destruct (des_pad_nat data) as (n & LN). assert (LI : length iv = 8%nat) by now apply (zlen_len iv 8).
    assert (PV : zlen (pv_preIV p) = 8 /\ bytes_ok (pv_preIV p)) by (unfold priv_ok in P; rewrite A in P; apply P).
    assert (IV : computeIV q (enc_salt p b) = iv) by (subst iv; unfold rfc_iv, computeIV; now rewrite A, KV).
    assert (BI : bytes_ok iv) by (subst iv; unfold rfc_iv; rewrite A; apply xor_ok; [apply PV|auto]).
    assert (BP : bytes_ok (des_pad data)) by (unfold des_pad; apply Forall_app; split; [auto|apply zero_ok]).
    assert (E8 : forall x, length x = 8%nat -> length (c_des C (pv_key p) x) = 8%nat /\ bytes_ok (c_des C (pv_key p) x)).
    { intros x Hx. destruct (ok_des C CO (pv_key p) x) as [X1 X2]; [now apply (zlen_len x 8)|]. split; [now apply (zlen_len _ 8)|auto]. }
    assert (D8 : forall x, length x = 8%nat -> length (c_des_inv C (pv_key p) x) = 8%nat /\ bytes_ok (c_des_inv C (pv_key p) x)).
    { intros x Hx. destruct (ok_des_dec C CO (pv_key p) x) as [X1 X2]; [now apply (zlen_len x 8)|]. split; [now apply (zlen_len _ 8)|auto]. }
    assert (DE : forall x, length x = 8%nat -> bytes_ok x -> c_des_inv C (pv_key p) (c_des C (pv_key p) x) = x).
    { intros x Hx Bx. apply (ok_des_inv C CO); auto. now apply (zlen_len x 8). }
    cbv zeta. set (enc := cbc_encrypt _ _ _ _) in *.
    destruct (cbc_enc_len _ E8 n (length (des_pad data)) iv (des_pad data) LI LN) as [LE BE]; [auto|]. fold enc in LE, BE.
    destruct (lib_pad_nat C (des_pad data) enc n LN LE) as (k & EK). rewrite EK.
    assert (M8 : zlen (enc ++ zero_bytes (8 * Z.of_nat k)) mod 8 =? 0 = true).
    { apply Z.eqb_eq. unfold zlen. rewrite app_length, zero_bytes8, LE, LN. rewrite <- Nat.mul_add_distr_r, Nat2Z.inj_mul. apply Z.mod_mul. lia. }
    rewrite M8. cbn [negb]. rewrite IV. rewrite library_iv_id by exact IL. cbn [bind].
    (* pycryptodome pads again before decrypting *)
    assert (Data : exists k2, match c_backend C return bytes with PyCryptodome => des_pad (enc ++ zero_bytes (8 * Z.of_nat k)) | OpenSSL => enc ++ zero_bytes (8 * Z.of_nat k) end
              = enc ++ zero_bytes (8 * Z.of_nat k2)).
    { destruct (c_backend C); [eauto|]. exists (k + 1)%nat. unfold des_pad. apply Z.eqb_eq in M8. rewrite M8, <- app_assoc. f_equal.
      unfold zero_bytes. rewrite <- repeat_app. f_equal. lia. }
    destruct Data as (k2 & ->).
    destruct (cbc_roundtrip _ _ E8 D8 DE n k2 (length (des_pad data)) (length (enc ++ zero_bytes (8 * Z.of_nat k2))) iv (des_pad data)
                (zero_bytes (8 * Z.of_nat k2)) LI BI BP LN) as (rest & ER & LR & BR); auto using zero_bytes8, zero_ok.
    { rewrite app_length. lia. }
    fold enc in ER. rewrite ER. destruct (library_output_app C 8 (enc ++ zero_bytes (8 * Z.of_nat k2)) (des_pad data ++ rest)) as (z2 & ->).
    destruct (des_pad_app data) as (z3 & ->). rewrite <- !app_assoc. eexists. split; [reflexivity|].
    repeat (apply Forall_app; split); auto; apply zero_ok.
Qed.

(** C38 *)
Lemma encryptions_nth C : forall l p i data b t, priv_ok p -> Forall (fun x => is_time (snd (fst x)) /\ is_time (snd x)) l ->
  nth_error l i = Some (data, b, t) ->
  exists cipher q, nth_error (encryptions C p l) i = Some (Ok (cipher, enc_salt q b)) /\ same_key q p /\
    pv_salt q = (pv_salt p + Z.of_nat i) mod salt_period (pv_alg p) /\ priv_ok q.
Proof.
  induction l as [|[[d0 b0] t0] l IH]; intros p i data b t P F N; [destruct i; discriminate|].
  inversion F as [|? ? [B T] F']; subst. cbn [fst snd] in *. cbn [encryptions].
  pose proof (encrypt_next C p d0 b0 t0) as NX. destruct (encrypt_spec C p d0 b0 t0 P B) as (z & R & _); [auto|].
  destruct (priv_encrypt C p d0 b0 t0) as [p1 r]. cbn [fst snd] in *. subst p1 r.
  destruct i as [|i]; cbn [nth_error] in *.
  - injection N as -> -> ->. do 2 eexists. split; [reflexivity|]. split; [split; auto|]. split; [|auto].
    rewrite Z.add_0_r. symmetry. apply Z.mod_small. unfold priv_ok in P. unfold salt_period. destruct (pv_alg p); [auto|tauto].
  - destruct (IH (next_priv p) i data b t (next_ok p P) F' N) as (c & q & E & (S1 & S2 & S3) & S & O).
    exists c, q. split; [exact E|]. split; [split; auto|]. split; [|auto]. rewrite S. cbn [next_priv pv_salt pv_alg].
    rewrite Zplus_mod_idemp_l. f_equal. lia.
Qed.

Lemma mod_distinct m x i j : 0 < m -> 0 < j - i < m -> (x + i) mod m <> (x + j) mod m.
Proof.
  intros M H E. assert (D : ((x + j) - (x + i)) mod m = 0).
  { rewrite Zminus_mod, E, Z.sub_diag. apply Z.mod_0_l. lia. }
  replace (x + j - (x + i)) with (j - i) in D by lia. rewrite Z.mod_small in D; lia.
Qed.

Lemma salts_differ p q b b' i j s0 : priv_ok p -> priv_ok q -> pv_alg p = pv_alg q ->
  pv_salt p = (s0 + Z.of_nat i) mod salt_period (pv_alg p) -> pv_salt q = (s0 + Z.of_nat j) mod salt_period (pv_alg p) ->
  (i < j)%nat -> Z.of_nat j - Z.of_nat i < salt_period (pv_alg p) ->
  enc_salt p b <> enc_salt q b' /\ (pv_alg p = DesCbc -> skipn 4 (enc_salt p b) <> skipn 4 (enc_salt q b')).
Proof.
  intros Pp Pq A Sp Sq L Per. unfold enc_salt. rewrite <- A. rewrite Sp, Sq. unfold salt_period in *.
  assert (Core : forall m n, 0 < m -> m = 256 ^ Z.of_nat n -> Z.of_nat j - Z.of_nat i < m ->
     be_bytes n (((s0 + Z.of_nat i) mod m + 1) mod m) <> be_bytes n (((s0 + Z.of_nat j) mod m + 1) mod m)).
  { intros m n M E Pm X. apply be_bytes_inj in X.
    - rewrite !Zplus_mod_idemp_l in X. apply (mod_distinct m (s0 + 1) (Z.of_nat i) (Z.of_nat j)); [lia|lia|].
      replace (s0 + 1 + Z.of_nat i) with (s0 + Z.of_nat i + 1) by lia. replace (s0 + 1 + Z.of_nat j) with (s0 + Z.of_nat j + 1) by lia. exact X.
    - rewrite <- E. apply Z.mod_pos_bound. lia.
    - rewrite <- E. apply Z.mod_pos_bound. lia. }
  destruct (pv_alg p).
  - split; [apply (Core (2 ^ 64) 8%nat); auto; reflexivity|discriminate].
  - pose proof (Core (2 ^ 32) 4%nat ltac:(reflexivity) ltac:(reflexivity) Per) as D. split.
    + intros X. apply (f_equal (skipn 4)) in X. cbn [skipn be32 app] in X. contradiction.
    + intros _ X. cbn [skipn be32 app] in X. contradiction.
Qed.
