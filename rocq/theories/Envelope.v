(** Envelope.v -- snmp/security/usm/priv/openssl/__init__.py: what the OpenSSL
    library writes to the output buffer, and what is made of it. *)
From Verif Require Export Crypto.

(** EVP_EncryptUpdate writes the transform of the whole input.
    EVP_DecryptUpdate of a block cipher with padding (the default, never switched
    off here: openssl/__init__.py:37-46) keeps the last block for
    EVP_DecryptFinal, which is never called.  OpenSSL 1.1 had written it already
    ([Written]; only the length that it reports, [outl], is shorter), OpenSSL 3
    has not ([HeldBack]). *)
Inductive evp := Written | HeldBack.
Definition evp_update (v : evp) (decrypts : bool) (blocklen : nat) (out : bytes) : bytes :=
  match v, decrypts with
  | HeldBack, true => firstn (length out - blocklen) out
  | _, _ => out
  end.
(** openssl/__init__.py:47-67: [outl] is ignored, the whole of the zeroed buffer
    is returned. *)
Definition process (v : evp) (decrypts : bool) (blocklen : nat) (data out : bytes) : bytes :=
  out_buffer (zlen data) (Z.of_nat blocklen) (evp_update v decrypts blocklen out).
(** openssl/des.py:35-46 *)
Definition des_decrypt (v : evp) (C : crypto) (p : priv) (data salt : bytes) : res bytes :=
  if negb (zlen data mod 8 =? 0) then Raise DecryptionError else
  do iv <- library_iv C 8 (computeIV p salt);
  Ok (process v true 8 data (cbc_decrypt (length data) (c_des_inv C (pv_key p)) iv data)).
