(** SpecWire.v -- the octets of SNMP messages, for C60 and C61: the ASN.1 of RFC
    1157, RFC 3416, RFC 3412 and RFC 3414 under the encoding rules of X.690,
    written down independently of the library's encoders and decoders.

    With [strict] the forms are those a sender has to use (X.690 10.1: shortest
    length, 8.3.2: shortest integer); without, those a receiver has to accept
    (RFC 3417 section 8 allows any definite length). *)
From Verif Require Export SpecBer SpecAsn1 UsmParams.

Definition octet (b : Z) : Prop := 0 <= b < 256.
(** The only length octets allowed in strict mode. *)
Definition shortest (len : list Z) (n : Z) : Prop :=
  if n <? 128 then len = [n] else exists k d ds, len = k :: d :: ds /\ d <> 0.

(** Sub-identifiers in base 128, each in the fewest octets (X.690 8.19.2). *)
Inductive subidentifiers : list Z -> list Z -> Prop :=
| sub_none : subidentifiers [] []
| sub_more : forall highs low rest arcs,
    Forall (fun b => 128 <= b < 256) highs -> hd 129 highs <> 128 -> 0 <= low < 128 -> subidentifiers rest arcs ->
    subidentifiers (highs ++ low :: rest) (base128 (map (fun b => b - 128) highs ++ [low]) :: arcs).
(** X.690 8.19.4: the first two arcs share a sub-identifier. *)
Definition oid_contents (body : list Z) (oid : list Z) : Prop :=
  exists a b arcs, oid = a :: b :: arcs /\ (0 <= a <= 1 /\ 0 <= b < 40 \/ a = 2 /\ 0 <= b) /\
    subidentifiers body (40 * a + b :: arcs).

(** Tag (class, number) of the integer, octet string and null types (RFC 2578
    section 7, RFC 3416 section 3). *)
Definition int_type (c : icls) : Z * Z :=
  match c with
  | INTEGER | Integer32 => (0, 2) | Counter32 => (1, 1) | Unsigned32 | Gauge32 => (1, 2)
  | TimeTicks => (1, 3) | Counter64 => (1, 6)
  end.
Definition octets_type (c : ocls) : Z * Z :=
  match c with OCTET_STRING | OctetString => (0, 4) | IpAddress => (1, 0) | Opaque => (1, 4) end.
Definition null_type (c : ncls) : Z * Z :=
  match c with NULL => (0, 5) | NoSuchObject => (2, 0) | NoSuchInstance => (2, 1) | EndOfMibView => (2, 2) end.
(** RFC 3416 section 3 *)
Definition pdu_number (c : pducls) : Z :=
  match c with
  | GetRequestPDU => 0 | GetNextRequestPDU => 1 | ResponsePDU => 2 | SetRequestPDU => 3
  | GetBulkRequestPDU => 5 | InformRequestPDU => 6 | SNMPv2TrapPDU => 7 | ReportPDU => 8
  end.

Section Wire.
  Variable strict : bool.

  (** One element: identifier, length, contents. *)
  Definition element (e : list Z) (cls : Z) (constructed : bool) (number : Z) (body : list Z) : Prop :=
    exists ident len, identifier_octets ident cls constructed number /\
      length_octets len (Z.of_nat (length body)) /\ e = ident ++ len ++ body /\
      (strict = true -> length ident = 1%nat /\ shortest len (Z.of_nat (length body))).

  Definition int_wire (e : list Z) (type : Z * Z) (v : Z) : Prop :=
    exists body, element e (fst type) false (snd type) body /\ Forall octet body /\ body <> [] /\ tc_value body = v /\
      (strict = true -> minimal_first_octets body).
  Definition octets_wire (e : list Z) (type : Z * Z) (d : list Z) : Prop :=
    element e (fst type) false (snd type) d /\ Forall octet d.
  Definition oid_wire (e : list Z) (oid : list Z) : Prop :=
    exists body, element e 0 false 6 body /\ oid_contents body oid.
  Definition value_wire (e : list Z) (p : prim) : Prop :=
    match p with
    | PInt c v => int_wire e (int_type c) v
    | POctets c d => octets_wire e (octets_type c) d
    | PNull c => element e (fst (null_type c)) false (snd (null_type c)) []
    | POid _ oid => oid_wire e oid
    end.
  (** RFC 3416 section 3: VarBind ::= SEQUENCE { name, value } *)
  Definition varbind_wire (e : list Z) (v : varbind) : Prop :=
    exists e1 e2, element e 0 true 16 (e1 ++ e2) /\ oid_wire e1 (vb_name v) /\ value_wire e2 (vb_value v).
  (** VarBindList ::= SEQUENCE OF VarBind *)
  Definition varbinds_wire (e : list Z) (l : list varbind) : Prop :=
    exists es, element e 0 true 16 (concat es) /\ Forall2 varbind_wire es l.
  (** PDU ::= IMPLICIT SEQUENCE { request-id, error-status, error-index,
      variable-bindings }; BulkPDU has non-repeaters, max-repetitions instead. *)
  Definition pdu_wire (e : list Z) (p : pdu) : Prop :=
    exists e1 e2 e3 e4, element e 2 true (pdu_number (pdu_cls p)) (e1 ++ e2 ++ e3 ++ e4) /\
      int_wire e1 (0, 2) (pdu_requestID p) /\ int_wire e2 (0, 2) (pdu_a p) /\ int_wire e3 (0, 2) (pdu_b p) /\
      varbinds_wire e4 (pdu_vbs p).
  (** RFC 1157 section 4, RFC 1901: Message ::= SEQUENCE { version, community, data } *)
  Definition message_wire (e : list Z) (m : message) : Prop :=
    exists e1 e2 e3, element e 0 true 16 (e1 ++ e2 ++ e3) /\
      int_wire e1 (0, 2) (m_version m) /\ octets_wire e2 (0, 4) (m_community m) /\ pdu_wire e3 (m_pdu m).

  (** RFC 3412 section 6.4: msgFlags is one octet, .... .rpa reportable, priv,
      auth; the receiver ignores the other bits. *)
  Definition flags_octet (x : Z) (f : msgflags) : Prop :=
    x mod 8 = (if sl_auth (fl_level f) then 1 else 0) + (if sl_priv (fl_level f) then 2 else 0) + (if fl_reportable f then 4 else 0) /\
    (strict = true -> x < 8).
  (** RFC 3412 section 6: HeaderData ::= SEQUENCE { msgID, msgMaxSize, msgFlags, msgSecurityModel } *)
  Definition header_wire (e : list Z) (h : header) : Prop :=
    exists e1 e2 e3 e4 x, element e 0 true 16 (e1 ++ e2 ++ e3 ++ e4) /\
      int_wire e1 (0, 2) (h_id h) /\ int_wire e2 (0, 2) (h_maxSize h) /\
      octets_wire e3 (0, 4) [x] /\ flags_octet x (h_flags h) /\ int_wire e4 (0, 2) (h_securityModel h).
  (** ScopedPDU ::= SEQUENCE { contextEngineID, contextName, data } *)
  Definition scoped_wire (e : list Z) (s : scopedpdu) : Prop :=
    exists e1 e2 e3, element e 0 true 16 (e1 ++ e2 ++ e3) /\
      octets_wire e1 (0, 4) (sp_contextEngineID s) /\ octets_wire e2 (0, 4) (sp_contextName s) /\ pdu_wire e3 (sp_pdu s).
  (** SNMPv3Message ::= SEQUENCE { msgVersion, msgGlobalData, msgSecurityParameters,
      msgData }; msgData is the encrypted PDU when the privacy flag is set. *)
  Definition v3_wire (e : list Z) (m : v3msg) : Prop :=
    exists e1 e2 e3 e4, element e 0 true 16 (e1 ++ e2 ++ e3 ++ e4) /\
      int_wire e1 (0, 2) 3 /\ header_wire e2 (v3_header m) /\
      octets_wire e3 (0, 4) (adata_bytes (v3_params m)) /\
      if sl_priv (fl_level (h_flags (v3_header m)))
      then exists c, v3_encrypted m = Some c /\ octets_wire e4 (0, 4) c
      else exists s, v3_scoped m = Some s /\ scoped_wire e4 s.
  (** RFC 3414 section 2.4: UsmSecurityParameters ::= SEQUENCE { engine ID, boots,
      time, user name, authentication parameters, privacy parameters } *)
  Definition params_wire (e : list Z) (p : usmparams) : Prop :=
    exists e1 e2 e3 e4 e5 e6, element e 0 true 16 (e1 ++ e2 ++ e3 ++ e4 ++ e5 ++ e6) /\
      octets_wire e1 (0, 4) (up_engineID p) /\ int_wire e2 (0, 2) (up_boots p) /\ int_wire e3 (0, 2) (up_time p) /\
      octets_wire e4 (0, 4) (up_userName p) /\ octets_wire e5 (0, 4) (up_signature p) /\ octets_wire e6 (0, 4) (up_salt p).
End Wire.
