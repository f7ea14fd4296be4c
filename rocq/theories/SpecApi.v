(** SpecApi.v -- vocabulary of C62 and C63: what a call asks for. *)
From Verif Require Export Api SpecProc SpecMsg.

(** * Object identifiers in text *)
(** Decimal digits, and the number they stand for. *)
Definition numeral (s : pystr) (n : Z) : Prop :=
  s <> [] /\ Forall (fun c => 48 <= c <= 57) s /\ fold_left (fun a c => 10 * a + (c - 48)) s 0 = n.
Inductive dotted : pystr -> list Z -> Prop :=
| dotted_last : forall s n, numeral s n -> dotted s [n]
| dotted_dot : forall s n t l, numeral s n -> dotted t l -> dotted (s ++ 46 :: t) (n :: l).
(** "1.3.6" or ".1.3.6" *)
Definition spells (s : pystr) (l : list Z) : Prop := dotted s l \/ exists t, s = 46 :: t /\ dotted t l.
Definition names (a : name_arg) (l : list Z) : Prop :=
  match a with NText s => spells s l | NOid l' => l' = l end.

(** * Requests *)
(** A variable binding in a request that reads: the name, and Null. *)
Definition reads (a : vb_arg) (v : varbind) : Prop :=
  match a with
  | VName n => names n (vb_name v) /\ vb_value v = PNull NULL
  | VVarBind v' => v = v'
  end.
Definition writes (a : name_arg * option prim) (v : varbind) : Prop :=
  names (fst a) (vb_name v) /\
  match snd a with Some x => vb_value v = x | None => vb_value v = PNull NULL end.
(** The PDU a request method is to send, up to the request ID. *)
Definition asks (q : request) (p : pdu) : Prop :=
  match q with
  | Get oids => pdu_cls p = GetRequestPDU /\ pdu_a p = 0 /\ pdu_b p = 0 /\ Forall2 reads oids (pdu_vbs p)
  | GetNext oids => pdu_cls p = GetNextRequestPDU /\ pdu_a p = 0 /\ pdu_b p = 0 /\ Forall2 reads oids (pdu_vbs p)
  | GetBulk oids nonRepeaters maxRepetitions =>
    pdu_cls p = GetBulkRequestPDU /\ pdu_a p = nonRepeaters /\ pdu_b p = maxRepetitions /\ Forall2 reads oids (pdu_vbs p)
  | Set_ varbinds => pdu_cls p = SetRequestPDU /\ pdu_a p = 0 /\ pdu_b p = 0 /\ Forall2 writes varbinds (pdu_vbs p)
  end.
(** Every name is one that an OID can be made of. *)
Definition names_valid (p : pdu) : Prop := Forall (fun v => oid_new OID (vb_name v) = Ok (vb_name v)) (pdu_vbs p).
(** [p] but for its request ID. *)
Definition numbered (p : pdu) (id : Z) : pdu := mkPDU (pdu_cls p) id (pdu_a p) (pdu_b p) (pdu_vbs p).

(** * Histories *)
(** The PDU and the community of each request that was made, by a call of
    sendRequest() or by another manager that shares the message processor, in
    order: the request number [r] is the [r]-th of them. *)
Fixpoint calls (evs : list event1) : list (pdu * bytes) :=
  match evs with
  | [] => []
  | MCall p community _ _ :: evs' => (p, community) :: calls evs'
  | MOther p community :: evs' => (p, community) :: calls evs'
  | _ :: evs' => calls evs'
  end.
