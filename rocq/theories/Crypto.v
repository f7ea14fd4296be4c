(** Crypto.v -- model of snmp/security/usm/auth.py and
    snmp/security/usm/priv/{pycryptodome,openssl}/*.py (definitions only).

    Hash functions, HMAC and the block ciphers come from other libraries: they
    are the fields of a record [crypto], an ordinary argument of everything
    that uses them.  The modes of operation (CFB128, CBC) are modelled. *)
From Verif Require Export Base.

(** auth.py:47-69: the AuthProtocol classes. *)
Inductive authalg := HmacMd5 | HmacSha | HmacSha224 | HmacSha256 | HmacSha384 | HmacSha512.
Definition authalg_eq_dec : forall a b : authalg, {a = b} + {a <> b}.
Proof. decide equality. Defined.
Definition auth_N (a : authalg) : Z :=
  match a with
  | HmacMd5 => 12 | HmacSha => 12 | HmacSha224 => 16 | HmacSha256 => 24
  | HmacSha384 => 32 | HmacSha512 => 48
  end.
(** digest_size of the hashlib algorithm named in auth.py:48-68. *)
Definition digest_size (a : authalg) : Z :=
  match a with
  | HmacMd5 => 16 | HmacSha => 20 | HmacSha224 => 28 | HmacSha256 => 32
  | HmacSha384 => 48 | HmacSha512 => 64
  end.

(** The PrivProtocol classes, and which library implements them
    (priv/__init__.py:3-32). *)
Inductive privalg := AesCfb128 | DesCbc.
Definition privalg_eq_dec : forall a b : privalg, {a = b} + {a <> b}.
Proof. decide equality. Defined.
Inductive backend := OpenSSL | PyCryptodome.

(** [c_hash a] is ALGORITHM over everything fed by update(); [c_hmac a key] is
    hmac.new(key, digestmod=ALGORITHM).  [c_aes], [c_des], [c_des_inv] are the
    block functions under a key.  [c_overread iv] are the bytes in memory after
    a too short IV (openssl only). *)
Record crypto := mkCrypto {
  c_backend : backend;
  c_hash : authalg -> bytes -> bytes;
  c_hmac : authalg -> bytes -> bytes -> bytes;
  c_aes : bytes -> bytes -> bytes;
  c_des : bytes -> bytes -> bytes;
  c_des_inv : bytes -> bytes -> bytes;
  c_overread : bytes -> bytes
}.

(** * HmacAuthProtocol *)
(** auth.py:24-25: the data hashed after [n] updates with [secret]. *)
Fixpoint repeat_update (n : nat) (secret context : bytes) : bytes :=
  match n with O => context | S n' => repeat_update n' secret (context ++ secret) end.
(** auth.py:19-28; divmod by zero raises ZeroDivisionError. *)
Definition computeKey (C : crypto) (a : authalg) (secret : bytes) : res bytes :=
  if zlen secret =? 0 then Raise ZeroDivisionError else
  let rep := 2 ^ 20 / zlen secret in
  let truncate := 2 ^ 20 mod zlen secret in
  let context := repeat_update (Z.to_nat rep) secret [] in
  let context := context ++ py_slice secret None (Some truncate) in
  Ok (c_hash C a context).
(** auth.py:30-36 *)
Definition localizeKey (C : crypto) (a : authalg) (key engineID : bytes) : bytes :=
  c_hash C a (key ++ engineID ++ key).
(** auth.py:38-40 *)
Definition msgAuthenticationParameters (a : authalg) : bytes := zero_bytes (auth_N a).
(** auth.py:42-45 *)
Definition auth_sign (C : crypto) (a : authalg) (key data : bytes) : bytes :=
  py_slice (c_hmac C a key data) None (Some (auth_N a)).

(** * Modes of operation *)
Fixpoint xor_bytes (a b : bytes) : bytes :=
  match a, b with
  | x :: a', y :: b' => Z.lxor x y :: xor_bytes a' b'
  | _, _ => []
  end.
(** CFB with 128-bit segments (the last segment may be short). *)
Fixpoint cfb_encrypt (fuel : nat) (E : bytes -> bytes) (iv data : bytes) : bytes :=
  match fuel, data with
  | S fuel', _ :: _ =>
    let c := xor_bytes (E iv) (firstn 16 data) in
    c ++ cfb_encrypt fuel' E c (skipn 16 data)
  | _, _ => []
  end.
Fixpoint cfb_decrypt (fuel : nat) (E : bytes -> bytes) (iv data : bytes) : bytes :=
  match fuel, data with
  | S fuel', _ :: _ =>
    let c := firstn 16 data in
    xor_bytes (E iv) c ++ cfb_decrypt fuel' E c (skipn 16 data)
  | _, _ => []
  end.
(** CBC with 64-bit blocks, on a whole number of blocks. *)
Fixpoint cbc_encrypt (fuel : nat) (E : bytes -> bytes) (iv data : bytes) : bytes :=
  match fuel, data with
  | S fuel', _ :: _ =>
    let c := E (xor_bytes iv (firstn 8 data)) in
    c ++ cbc_encrypt fuel' E c (skipn 8 data)
  | _, _ => []
  end.
Fixpoint cbc_decrypt (fuel : nat) (D : bytes -> bytes) (iv data : bytes) : bytes :=
  match fuel, data with
  | S fuel', _ :: _ =>
    let c := firstn 8 data in
    xor_bytes iv (D c) ++ cbc_decrypt fuel' D c (skipn 8 data)
  | _, _ => []
  end.

(** openssl/__init__.py:47-67: bytes(output), the buffer being longer than the
    data.  EVP_EncryptUpdate/EVP_DecryptUpdate are taken to write the transform
    of the whole input at the start of the buffer (OpenSSL 1.1). *)
Definition out_buffer (datalen blocklen : Z) (out : bytes) : bytes :=
  out ++ zero_bytes (datalen + blocklen - datalen mod blocklen - zlen out).
Definition library_output (C : crypto) (blocklen : Z) (data out : bytes) : bytes :=
  match c_backend C with
  | PyCryptodome => out
  | OpenSSL => out_buffer (zlen data) blocklen out
  end.
(** The IV given to the library: pycryptodome raises ValueError on a wrong
    length (Crypto.Cipher), openssl reads [n] bytes from its address. *)
Definition library_iv (C : crypto) (n : Z) (iv : bytes) : res bytes :=
  match c_backend C with
  | PyCryptodome => if zlen iv =? n then Ok iv else Raise ValueError
  | OpenSSL => Ok (firstn (Z.to_nat n) (iv ++ c_overread C iv))
  end.

(** * PrivProtocol objects *)
Record priv := mkPriv { pv_alg : privalg; pv_key : bytes; pv_preIV : bytes; pv_salt : Z }.

(** pycryptodome/aes.py:22-28, pycryptodome/des.py:19-26 (the same in openssl/);
    [rnd] is int.from_bytes(os.urandom(SALTLEN), "big"). *)
Definition priv_new (a : privalg) (key : bytes) (rnd : Z) : res priv :=
  if zlen key <? 16 then Raise ValueError else
  match a with
  | AesCfb128 => Ok (mkPriv a (py_slice key None (Some 16)) [] (rnd mod 2 ^ 64))
  | DesCbc => Ok (mkPriv a (py_slice key None (Some 8)) (py_slice key (Some 8) (Some 16)) (rnd mod 2 ^ 32))
  end.

(** aes.py packIV *)
Definition packIV (engineBoots engineTime : Z) (salt : bytes) : res bytes :=
  if negb (zlen salt =? 8) then Raise ValueError else
  do b <- to_bytes_unsigned 4 engineBoots;
  do t <- to_bytes_unsigned 4 engineTime;
  Ok (b ++ t ++ salt).
(** des.py computeIV *)
Definition computeIV (p : priv) (salt : bytes) : bytes := xor_bytes (pv_preIV p) salt.
(** des.py pad *)
Definition des_pad (data : bytes) : bytes := data ++ zero_bytes (8 - zlen data mod 8).

(** aes.py decrypt, des.py decrypt *)
Definition priv_decrypt (C : crypto) (p : priv) (data : bytes) (engineBoots engineTime : Z)
    (salt : bytes) : res bytes :=
  match pv_alg p with
  | AesCfb128 =>
    do iv <- reraise is_ValueError DecryptionError (packIV engineBoots engineTime salt);
    do iv <- library_iv C 16 iv;
    Ok (library_output C 16 data (cfb_decrypt (length data) (c_aes C (pv_key p)) iv data))
  | DesCbc =>
    if negb (zlen data mod 8 =? 0) then Raise DecryptionError else
    do iv <- library_iv C 8 (computeIV p salt);
    let data := match c_backend C with PyCryptodome => des_pad data | OpenSSL => data end in
    Ok (library_output C 8 data (cbc_decrypt (length data) (c_des_inv C (pv_key p)) iv data))
  end.

(** aes.py encrypt, des.py encrypt: the new object state and the result. *)
Definition priv_encrypt (C : crypto) (p : priv) (data : bytes) (engineBoots engineTime : Z)
  : priv * res (bytes * bytes) :=
  match pv_alg p with
  | AesCfb128 =>
    let s := (pv_salt p + 1) mod 2 ^ 64 in
    (mkPriv (pv_alg p) (pv_key p) (pv_preIV p) s,
     do salt <- to_bytes_unsigned 8 s;
     do iv <- packIV engineBoots engineTime salt;
     do iv <- library_iv C 16 iv;
     Ok (library_output C 16 data (cfb_encrypt (length data) (c_aes C (pv_key p)) iv data), salt))
  | DesCbc =>
    let s := (pv_salt p + 1) mod 2 ^ 32 in
    (mkPriv (pv_alg p) (pv_key p) (pv_preIV p) s,
     do b <- to_bytes_unsigned 4 engineBoots;
     do c <- to_bytes_unsigned 4 s;
     let salt := b ++ c in
     do iv <- library_iv C 8 (computeIV p salt);
     let data := des_pad data in
     Ok (library_output C 8 data (cbc_encrypt (length data) (c_des C (pv_key p)) iv data), salt))
  end.
