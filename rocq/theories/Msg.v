(** Msg.v -- model of snmp/message/version.py and snmp/message/core.py
    (definitions only). *)
From Verif Require Export Pdu.

(** version.py:16-19 (ProtocolVersion members, as their int values). *)
Definition SNMPv1 := 0.
Definition SNMPv2c := 1.
Definition SNMPv3 := 3.
(** [ProtocolVersion(v)], with [except ValueError: raise BadVersion]
    (version.py:48-51, core.py:64-67, v3.py:412-415). *)
Definition ProtocolVersion (v : Z) : res Z :=
  if (v =? SNMPv1) || (v =? SNMPv2c) || (v =? SNMPv3) then Ok v else Raise BadVersion.

(** version.py:38-52 *)
Definition version_deserialize (data : asn1data) : res Z :=
  do r <- Integer_decode data true;
  let '(msgVersion, _) := r in
  ProtocolVersion msgVersion.
(** [VersionOnlyMessage.decode(data).version] *)
Definition version_decode (data : asn1data) : res Z :=
  do r <- asn1_decode sequence_tag version_deserialize data false true;
  Ok (fst r).

(** The [types] dictionaries: {cls.TAG: cls}.
    v1: message/v1.py:13-20; v2c, v3: message/v2c.py:11-22, message/v3.py:20-31. *)
Definition pdu_types (l : list pducls) : list (tag * pducls) := map (fun c => (pdu_tag c, c)) l.
Definition pduTypes_v1 : list (tag * pducls) :=
  pdu_types [GetRequestPDU; GetNextRequestPDU; ResponsePDU; SetRequestPDU].
Definition pduTypes_v2 : list (tag * pducls) :=
  pdu_types [GetRequestPDU; GetNextRequestPDU; ResponsePDU; SetRequestPDU;
             GetBulkRequestPDU; InformRequestPDU; SNMPv2TrapPDU; ReportPDU].

(** core.py:77-91 and v3.py:283-291: peek at the tag, then decode. *)
Definition anypdu_decode (types : list (tag * pducls)) (ptr : subbytes) : res pdu :=
  do r <- tag_decode (sb_new (ASub ptr) None None);
  let '(identifier, _) := r in
  match dict_get tag_eqb types identifier with
  | None => Raise ParseError
  | Some pduType => do r <- pdu_decode pduType (ASub ptr) false; Ok (fst r)
  end.

(** * Message (core.py:14-91) *)
Record message := mkMessage { m_version : Z; m_community : bytes; m_pdu : pdu }.

(** core.py:26-29 *)
Definition message_serialize (m : message) : res bytes :=
  join_encodings [Integer_encode (m_version m); OctetString_encode (m_community m);
                  pdu_encode (m_pdu m)].
Definition message_encode (m : message) : res bytes :=
  do b <- message_serialize m; ber_encode sequence_tag b.

(** core.py:54-91 *)
Definition message_deserialize (types : list (tag * pducls)) (data : asn1data) : res message :=
  do r <- Integer_decode data true;
  let '(msgVersion, ptr) := r in
  do version <- ProtocolVersion msgVersion;
  if negb ((version =? SNMPv1) || (version =? SNMPv2c)) then Raise BadVersion
  else
    do r <- OctetString_decode (ASub ptr) true;
    let '(community, ptr) := r in
    do p <- anypdu_decode types ptr;
    Ok (mkMessage version community p).
Definition message_decode (types : list (tag * pducls)) (data : asn1data) : res message :=
  do r <- asn1_decode sequence_tag (message_deserialize types) data false true;
  Ok (fst r).
