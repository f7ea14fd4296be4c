(** SpecPriv.v -- the encryption of RFC 3414 8.1.1.2 and RFC 3826 3.1.3. *)
From Verif Require Export SpecUsm.

(** Block [k] (counted from 0) of [n] octets; the last one may be shorter. *)
Definition block (n k : nat) (l : bytes) : bytes := firstn n (skipn (n * k) l).
(** The ciphertext block before block [k]. *)
Definition before (n : nat) (iv cipher : bytes) (k : nat) : bytes :=
  match k with O => iv | S k' => block n k' cipher end.
(** CFB with 128-bit segments: each block is the exclusive or of the plaintext and
    of the encryption of the ciphertext block before it; nothing is added. *)
Definition is_cfb (E : bytes -> bytes) (iv plain cipher : bytes) : Prop :=
  length cipher = length plain /\
  forall k, block 16 k cipher = xor_bytes (E (before 16 iv cipher k)) (block 16 k plain).
(** CBC: each block is the encryption of the exclusive or of the plaintext and of
    the ciphertext block before it; whole blocks only. *)
Definition is_cbc (E : bytes -> bytes) (iv plain cipher : bytes) : Prop :=
  length cipher = length plain /\ (exists n, length plain = (n * 8)%nat) /\
  forall k, (8 * k < length plain)%nat -> block 8 k cipher = E (xor_bytes (before 8 iv cipher k) (block 8 k plain)).
(** [cipher] is what a sender with this key, these clocks and this salt makes of
    [plain]; for DES, of [plain] and up to 8 octets of padding. *)
Definition enciphers (C : crypto) (p : priv) (boots time : Z) (salt plain cipher : bytes) : Prop :=
  match pv_alg p with
  | AesCfb128 => is_cfb (c_aes C (pv_key p)) (rfc_iv p boots time salt) plain cipher
  | DesCbc => exists pad, (length pad <= 8)%nat /\ bytes_ok pad /\ is_cbc (c_des C (pv_key p)) (rfc_iv p boots time salt) (plain ++ pad) cipher
  end.
(** The same algorithms, perhaps in another library. *)
Definition same_ciphers (C D : crypto) : Prop := c_aes C = c_aes D /\ c_des C = c_des D.
