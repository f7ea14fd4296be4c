(** UsmParams.v -- model of snmp/security/usm/parameters.py (definitions only). *)
From Verif Require Export MsgV3.

(** parameters.py:11-36: [up_index] and [up_whole] are None when built from
    bytes. *)
Record usmparams := mkParams {
  up_engineID : bytes; up_boots : Z; up_time : Z; up_userName : bytes;
  up_signature : bytes; up_salt : bytes;
  up_index : option Z; up_whole : option bytes
}.
Definition UsmSecurityParameters (engineID : bytes) (boots time : Z) (userName : bytes)
    (signature : asn1data) (salt : bytes) : usmparams :=
  match signature with
  | ASub s => mkParams engineID boots time userName (sb_getslice s None None) salt
                       (Some (sb_start s)) (Some (sb_data s))
  | ABytes l => mkParams engineID boots time userName l salt None None
  end.

(** parameters.py:38-44 *)
Definition params_serialize (p : usmparams) : res bytes :=
  join_encodings [OctetString_encode (up_engineID p); Integer_encode (up_boots p);
                  Integer_encode (up_time p); OctetString_encode (up_userName p);
                  OctetString_encode (up_signature p); OctetString_encode (up_salt p)].
Definition params_encode (p : usmparams) : res bytes :=
  do b <- params_serialize p; ber_encode sequence_tag b.

(** parameters.py:121-159 *)
Definition params_deserialize (data : asn1data) : res usmparams :=
  let copy := match data with ABytes _ => true | ASub _ => false end in
  do r <- OctetString_decode data true;
  let '(engineID, ptr) := r in
  do r <- Integer_decode (ASub ptr) true;
  let '(boots, ptr) := r in
  do r <- Integer_decode (ASub ptr) true;
  let '(time, ptr) := r in
  do r <- OctetString_decode (ASub ptr) true;
  let '(userName, ptr) := r in
  do r <- OctetString_decode_original (ASub ptr) true copy;
  let '(signature, ptr) := r in
  do r <- OctetString_decode (ASub ptr) false;
  let '(salt, _) := r in
  Ok (UsmSecurityParameters engineID boots time userName signature salt).
(** parameters.py:109-119: copy defaults to False. *)
Definition params_decode (data : asn1data) : res usmparams :=
  do r <- asn1_decode sequence_tag params_deserialize data false false;
  Ok (fst r).

(** parameters.py:161-173 *)
Definition findSignature (msgSecurityParameters : asn1data) : res asn1data :=
  do r <- ber_decode msgSecurityParameters (Some sequence_tag) false false;
  let '(_, ptr, _) := r in
  do r <- ber_decode ptr (Some (octets_tag OctetString)) true false;
  let '(_, _, ptr) := r in
  do r <- ber_decode (ASub ptr) (Some (int_tag Integer32)) true false;
  let '(_, _, ptr) := r in
  do r <- ber_decode (ASub ptr) (Some (int_tag Integer32)) true false;
  let '(_, _, ptr) := r in
  do r <- ber_decode (ASub ptr) (Some (octets_tag OctetString)) true false;
  let '(_, _, ptr) := r in
  do r <- ber_decode (ASub ptr) (Some (octets_tag OctetString)) true false;
  let '(_, ptr, _) := r in
  Ok ptr.
