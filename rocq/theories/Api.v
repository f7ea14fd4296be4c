(** Api.v -- model of the request methods of the managers and of the
    constructors they use (definitions only): manager/v1.py:195-221,
    manager/v2c.py:195-235, manager/v3.py:680-720, pdu.py:58-68, 103-106,
    176-190, 280-294. *)
From Verif Require Export ManagerV1 OidText.

(** An object identifier argument: str or OID (isinstance, pdu.py:62). *)
Inductive name_arg := NText (s : pystr) | NOid (l : list Z).
(** pdu.py:58-68; [value] None becomes Null(). *)
Definition VarBind (name : name_arg) (value : option prim) : res varbind :=
  do l <- match name with NText s => oid_parse OID s | NOid l => Ok l end;
  Ok (mkVarBind l (match value with Some v => v | None => PNull NULL end)).
(** An argument of VarBindList(): a name or a VarBind (pdu.py:103-106). *)
Inductive vb_arg := VName (n : name_arg) | VVarBind (v : varbind).
(** pdu.py:103-106 *)
Definition VarBindList (args : list vb_arg) : res (list varbind) :=
  map_res (fun a => match a with VName n => VarBind n None | VVarBind v => Ok v end) args.
(** PDU.__init__ (pdu.py:176-190) with positional arguments only *)
Definition new_PDU (c : pducls) (args : list vb_arg) : res pdu :=
  do vbs <- VarBindList args; Ok (mkPDU c 0 0 0 vbs).
(** BulkPDU.__init__ (pdu.py:280-294) with the arguments that getBulk() gives it *)
Definition new_BulkPDU (c : pducls) (args : list vb_arg) (nonRepeaters maxRepetitions : Z) : res pdu :=
  do vbs <- VarBindList args; Ok (mkPDU c 0 nonRepeaters maxRepetitions vbs).

(** A call of a request method, without the arguments that it passes on to
    sendRequest(). *)
Inductive request :=
| Get (oids : list vb_arg)                                           (* v1.py:195-200 *)
| GetNext (oids : list vb_arg)                                       (* v1.py:202-207 *)
| GetBulk (oids : list vb_arg) (nonRepeaters maxRepetitions : Z)     (* v2c.py:202-214; not in v1.py *)
| Set_ (varbinds : list (name_arg * option prim)).                   (* v1.py:209-221; VarBind( *varbind ) *)
(** The PDU that is passed to sendRequest(); Raise: the method raises and
    sendRequest() is not called. *)
Definition request_pdu (q : request) : res pdu :=
  match q with
  | Get oids => new_PDU GetRequestPDU oids
  | GetNext oids => new_PDU GetNextRequestPDU oids
  | GetBulk oids nonRepeaters maxRepetitions => new_BulkPDU GetBulkRequestPDU oids nonRepeaters maxRepetitions
  | Set_ varbinds =>
    do vbs <- map_res (fun nv => VarBind (fst nv) (snd nv)) varbinds;
    new_PDU SetRequestPDU (map VVarBind vbs)
  end.

(** A call of a method of an SNMPv1/SNMPv2c manager with the given default
    community (v1.py:171-184): the event of ManagerV1, if there is one.  wait=
    and self.autowait only decide whether wait() is called at once (190-193),
    which is the event MWait. *)
Definition api1 (default : bytes) (q : request) (community : option bytes) (timeout period : Z) : res event1 :=
  do p <- request_pdu q;
  Ok (MCall p (match community with Some c => c | None => default end) timeout period).
