(** SpecPdu.v -- which PDUs are well-formed, and when two are the same
    (independent of the code's encoders and decoders). *)
From Verif Require Export Pdu.

(** OIDs that the code's encoding preserves (see C07). *)
Definition oid_faithful (l : list Z) : Prop :=
  (2 <= length l)%nat /\ Z.land (40 * nth 0 l 0) (nth 1 l 0) = 0.

(** A value of one of the SNMP types, as the user can construct it. *)
Definition snmp_value (p : prim) : Prop :=
  prim_constructible p /\
  match p with
  | PInt INTEGER _ | POctets OCTET_STRING _ | POid OBJECT_IDENTIFIER _ => False
  | POid OID l => oid_faithful l
  | _ => True
  end.

Definition vb_ok (v : varbind) : Prop :=
  oid_new OID (vb_name v) = Ok (vb_name v) /\ oid_faithful (vb_name v) /\ snmp_value (vb_value v).

Definition int32 (v : Z) : Prop := -2147483648 <= v <= 2147483647.

(** Field rules of RFC 3416 that the decoder enforces. *)
Definition pdu_fields_ok (p : pdu) : Prop :=
  int32 (pdu_requestID p) /\ int32 (pdu_a p) /\ int32 (pdu_b p) /\
  match pdu_cls p with
  | GetBulkRequestPDU => 0 <= pdu_a p /\ 0 <= pdu_b p
  | _ => 0 <= pdu_a p <= 18 /\ pdu_b p <= zlen (pdu_vbs p) /\ (pdu_a p <> 0 -> 0 <= pdu_b p)
  end.
Definition pdu_ok (p : pdu) : Prop := pdu_fields_ok p /\ Forall vb_ok (pdu_vbs p).

(** The same value: identical, except that an Unsigned32 arrives as a Gauge32
    (both have the same tag in SNMP, and compare equal). *)
Definition same_value (x y : prim) : Prop :=
  y = x \/ exists v, x = PInt Unsigned32 v /\ y = PInt Gauge32 v.
Definition same_vb (x y : varbind) : Prop :=
  vb_name y = vb_name x /\ same_value (vb_value x) (vb_value y).
Definition same_pdu (x y : pdu) : Prop :=
  pdu_cls y = pdu_cls x /\ pdu_requestID y = pdu_requestID x /\
  pdu_a y = pdu_a x /\ pdu_b y = pdu_b x /\ Forall2 same_vb (pdu_vbs x) (pdu_vbs y).

(** Size of the user data in a PDU: octets of its octet strings plus a generous
    constant per binding. *)
Definition vb_weight (v : varbind) : Z :=
  20000 + match vb_value v with POctets _ d => zlen d | _ => 0 end.
Definition pdu_weight (p : pdu) : Z := fold_right (fun v n => vb_weight v + n) 20000 (pdu_vbs p).

(** What can be said of any decoded variable binding: its name and value are
    values the constructors accept, of one of the SMI/SNMP types. *)
Definition vb_wf (v : varbind) : Prop :=
  oid_new OID (vb_name v) = Ok (vb_name v) /\ prim_constructible (vb_value v) /\
  In (prim_cls (vb_value v))
    [CInt Integer32; COctets OctetString; CNull NULL; COid OID; COctets IpAddress;
     CInt Counter32; CInt Gauge32; CInt TimeTicks; COctets Opaque; CInt Counter64;
     CNull NoSuchObject; CNull NoSuchInstance; CNull EndOfMibView].

(** The value types by tag (RFC 2578 section 7, RFC 3416 section 3): tag class,
    tag number; all primitive.  Classes: 0 universal, 1 application,
    2 context-specific. *)
Definition smi_type (t : tag) : option pcls :=
  if t_constructed t then None else
  match t_cls t, t_number t with
  | 0, 2 => Some (CInt Integer32)
  | 0, 4 => Some (COctets OctetString)
  | 0, 5 => Some (CNull NULL)
  | 0, 6 => Some (COid OID)
  | 1, 0 => Some (COctets IpAddress)
  | 1, 1 => Some (CInt Counter32)
  | 1, 2 => Some (CInt Gauge32)
  | 1, 3 => Some (CInt TimeTicks)
  | 1, 4 => Some (COctets Opaque)
  | 1, 6 => Some (CInt Counter64)
  | 2, 0 => Some (CNull NoSuchObject)
  | 2, 1 => Some (CNull NoSuchInstance)
  | 2, 2 => Some (CNull EndOfMibView)
  | _, _ => None
  end.
