(** MsgV3.v -- model of snmp/security/levels.py and of the codec part of
    snmp/message/v3.py (definitions only). *)
From Verif Require Export Msg.

(** * SecurityLevel (security/levels.py) *)
Record seclevel := mkLevel { sl_auth : bool; sl_priv : bool }.
(** levels.py:7-15; the arguments are already converted with bool(). *)
Definition SecurityLevel (auth priv : bool) : res seclevel :=
  if priv && negb auth then Raise ValueError else Ok (mkLevel auth priv).
(** levels.py:38-44 *)
Definition sl_eqb (a b : seclevel) : bool :=
  Bool.eqb (sl_auth a) (sl_auth b) && Bool.eqb (sl_priv a) (sl_priv b).
(** levels.py:46-50 *)
Definition sl_ltb (self other : seclevel) : bool :=
  if sl_auth self then sl_priv other && negb (sl_priv self) else sl_auth other.
(** levels.py:52-53 *)
Definition sl_geb (self other : seclevel) : bool := negb (sl_ltb self other).
(** levels.py:55-57 *)
Definition noAuthNoPriv := mkLevel false false.
Definition authNoPriv := mkLevel true false.
Definition authPriv := mkLevel true true.

(** * MessageFlags (v3.py:50-136) *)
Record msgflags := mkFlags { fl_level : seclevel; fl_reportable : bool }.
Definition fl_auth (f : msgflags) : bool := sl_auth (fl_level f).
Definition fl_priv (f : msgflags) : bool := sl_priv (fl_level f).
Definition AUTH_FLAG := 1.
Definition PRIV_FLAG := 2.
Definition REPORTABLE_FLAG := 4.

(** v3.py:79-95 *)
Definition flags_construct (data : asn1data) : res msgflags :=
  do byte <- reraise (exc_eqb IndexError) ParseError (adata_index data 0);
  do level <- reraise is_ValueError InvalidMessage
    (SecurityLevel (negb (Z.land byte AUTH_FLAG =? 0)) (negb (Z.land byte PRIV_FLAG =? 0)));
  Ok (mkFlags level (negb (Z.land byte REPORTABLE_FLAG =? 0))).
(** v3.py:97-110 *)
Definition flags_data (f : msgflags) : res bytes :=
  let byte := 0 in
  let byte := if fl_auth f then Z.lor byte AUTH_FLAG else byte in
  let byte := if fl_priv f then Z.lor byte PRIV_FLAG else byte in
  let byte := if fl_reportable f then Z.lor byte REPORTABLE_FLAG else byte in
  py_bytes [byte].
(** asn1.py:55-56 with TAG, serialize inherited from OCTET_STRING. *)
Definition flags_encode (f : msgflags) : res bytes :=
  do d <- flags_data f; ber_encode (octets_tag OctetString) d.
Definition flags_decode (data : asn1data) (leftovers : bool) : res (msgflags * subbytes) :=
  asn1_decode (octets_tag OctetString) flags_construct data leftovers true.

(** * HeaderData (v3.py:138-222) *)
Record header := mkHeader {
  h_id : Z; h_maxSize : Z; h_flags : msgflags; h_securityModel : Z
}.
(** models.py:5-6, SecurityModel.USM = 3 *)
Definition USM := 3.
(** v3.py:151-155 *)
Definition header_serialize (h : header) : res bytes :=
  join_encodings [Integer_encode (h_id h); Integer_encode (h_maxSize h);
                  flags_encode (h_flags h); Integer_encode (h_securityModel h)].
Definition header_encode (h : header) : res bytes :=
  do b <- header_serialize h; ber_encode sequence_tag b.
(** v3.py:186-222 *)
Definition header_deserialize (data : asn1data) : res header :=
  do r <- Integer_decode data true;
  let '(msgID, data) := r in
  do r <- Integer_decode (ASub data) true;
  let '(maxSize, data) := r in
  do r <- flags_decode (ASub data) true;
  let '(flags, data) := r in
  do r <- Integer_decode (ASub data) false;
  let '(model, _) := r in
  if msgID <? 0 then Raise ParseError
  else if maxSize <? 484 then Raise ParseError
  else if model <? 1 then Raise ParseError
  else if model =? USM then Ok (mkHeader msgID maxSize flags model)
  else Raise UnknownSecurityModel.
Definition header_decode (data : asn1data) (leftovers : bool) : res (header * subbytes) :=
  asn1_decode sequence_tag header_deserialize data leftovers true.

(** * ScopedPDU (v3.py:224-294) *)
Record scopedpdu := mkScoped {
  sp_contextEngineID : bytes; sp_contextName : bytes; sp_pdu : pdu
}.
(** v3.py:235-238 *)
Definition scoped_serialize (s : scopedpdu) : res bytes :=
  join_encodings [OctetString_encode (sp_contextEngineID s);
                  OctetString_encode (sp_contextName s); pdu_encode (sp_pdu s)].
Definition scoped_encode (s : scopedpdu) : res bytes :=
  do b <- scoped_serialize s; ber_encode sequence_tag b.
(** v3.py:265-294 with types=pduTypes *)
Definition scoped_deserialize (data : asn1data) : res scopedpdu :=
  do r <- OctetString_decode data true;
  let '(contextEngineID, data) := r in
  do r <- OctetString_decode (ASub data) true;
  let '(contextName, data) := r in
  do p <- anypdu_decode pduTypes_v2 data;
  Ok (mkScoped contextEngineID contextName p).
Definition scoped_decode (data : asn1data) (leftovers : bool) : res (scopedpdu * subbytes) :=
  asn1_decode sequence_tag scoped_deserialize data leftovers true.

(** * SNMPv3Message (v3.py:297-464) *)
(** [v3_params] is securityParameters.original: bytes for a message being
    built, a subbytes into the whole message for a decoded one (v3.py:425-428,
    smi.py:77-92). *)
Record v3msg := mkV3 {
  v3_header : header;
  v3_scoped : option scopedpdu;
  v3_encrypted : option bytes;
  v3_params : asn1data;
  v3_engineID : option bytes;
  v3_name : option bytes
}.

(** v3.py:319-339; OctetString objects already hold at most 65535 bytes (their
    constructor, smi.py:93-96). *)
Definition v3_serialize (m : v3msg) : res bytes :=
  join_encodings [Integer_encode SNMPv3; header_encode (v3_header m);
    OctetString_encode (adata_bytes (v3_params m));
    if fl_priv (h_flags (v3_header m)) then
      match v3_encrypted m with
      | Some e => OctetString_encode e
      | None => Raise SNMPLibraryBug
      end
    else
      match v3_scoped m with
      | Some s => scoped_encode s
      | None => Raise SNMPLibraryBug
      end].
Definition v3_encode (m : v3msg) : res bytes :=
  do b <- v3_serialize m; ber_encode sequence_tag b.

(** [OctetString.decode(data, leftovers, copy)], returning [.original]
    (smi.py:77-92): the body before [data[:]]. *)
Definition OctetString_decode_original (data : asn1data) (leftovers copy : bool)
  : res (asn1data * subbytes) :=
  asn1_decode (octets_tag OctetString)
    (fun body => do _ <- octets_construct OctetString body; Ok body) data leftovers copy.

(** v3.py:405-442 *)
Definition v3_deserialize (data : asn1data) : res v3msg :=
  do r <- Integer_decode data true;
  let '(msgVersion, ptr) := r in
  do version <- ProtocolVersion msgVersion;
  if negb (version =? SNMPv3) then Raise BadVersion
  else
    do r <- header_decode (ASub ptr) true;
    let '(hdr, ptr) := r in
    do r <- OctetString_decode_original (ASub ptr) true false;
    let '(params, ptr) := r in
    if fl_priv (h_flags hdr) then
      do r <- OctetString_decode (ASub ptr) false;
      Ok (mkV3 hdr None (Some (fst r)) params None None)
    else
      do r <- scoped_decode (ASub ptr) false;
      Ok (mkV3 hdr (Some (fst r)) None params None None).
(** v3.py:395-403: copy defaults to False. *)
Definition v3_decode (data : asn1data) : res v3msg :=
  do r <- asn1_decode sequence_tag v3_deserialize data false false;
  Ok (fst r).

(** v3.py:444-452 *)
Definition findSecurityParameters (wholeMsg : bytes) : res asn1data :=
  do r <- ber_decode (ABytes wholeMsg) (Some sequence_tag) false false;
  let '(_, ptr, _) := r in
  do r <- ber_decode ptr (Some (int_tag Integer32)) true false;
  let '(_, _, ptr) := r in
  do r <- ber_decode (ASub ptr) (Some sequence_tag) true false;
  let '(_, _, ptr) := r in
  do r <- ber_decode (ASub ptr) (Some (octets_tag OctetString)) true false;
  let '(_, ptr, _) := r in
  Ok ptr.

(** v3.py:454-457 *)
Definition v3_plaintext (m : v3msg) : res bytes :=
  match v3_scoped m with
  | Some s => scoped_encode s
  | None => Raise AssertionError
  end.
(** v3.py:459-464 *)
Definition v3_set_plaintext (m : v3msg) (data : bytes) : res v3msg :=
  do r <- scoped_decode (ABytes data) true;
  Ok (mkV3 (v3_header m) (Some (fst r)) (v3_encrypted m) (v3_params m)
           (v3_engineID m) (v3_name m)).
