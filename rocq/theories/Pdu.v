(** Pdu.v -- model of snmp/pdu.py (definitions only).

    repr/str/toString are modelled in Repr.v. *)
From Verif Require Export Asn1.

(** [b"".join([obj.encode() for obj in self])] (asn1.py:84-85): the encodings
    are computed left to right; the first exception propagates. *)
Fixpoint join_encodings (l : list (res bytes)) : res bytes :=
  match l with
  | [] => Ok []
  | e :: l' => do a <- e; do b <- join_encodings l'; Ok (a ++ b)
  end.

(** [Integer(v).encode()] where Integer = Integer32 (smi.py:46-52). *)
Definition Integer_encode (v : Z) : res bytes :=
  do p <- int_new Integer32 v; prim_encode p.

(** [OctetString(d).encode()] (smi.py:76-84). *)
Definition OctetString_encode (d : bytes) : res bytes :=
  do p <- octets_new OctetString d; prim_encode p.

(** [Integer.decode(data, leftovers)], returning [.value]. *)
Definition Integer_decode (data : asn1data) (leftovers : bool) : res (Z * subbytes) :=
  do r <- prim_decode (CInt Integer32) data leftovers true;
  match r with
  | (PInt _ v, tail) => Ok (v, tail)
  | _ => Raise AttributeError
  end.

(** [OctetString.decode(data, leftovers)], returning [.data]. *)
Definition OctetString_decode (data : asn1data) (leftovers : bool) : res (bytes * subbytes) :=
  do r <- prim_decode (COctets OctetString) data leftovers true;
  match r with
  | (POctets _ d, tail) => Ok (d, tail)
  | _ => Raise AttributeError
  end.

(** [OID.decode(data, leftovers)]. *)
Definition OID_decode (data : asn1data) (leftovers : bool) : res (list Z * subbytes) :=
  do r <- prim_decode (COid OID) data leftovers true;
  match r with
  | (POid _ l, tail) => Ok (l, tail)
  | _ => Raise AttributeError
  end.

(** * VarBind (pdu.py:38-99).  Values are limited to primitive objects; the
    name is an OID, parsing of a str name is OidText.oid_parse. *)
Record varbind := mkVarBind { vb_name : list Z; vb_value : prim }.

(** pdu.py:40-56: VarBind.TYPES. *)
Definition varbind_types : list (tag * pcls) :=
  map (fun c => (pcls_tag c, c))
    [CInt Integer32; COctets OctetString; CNull NULL; COid OID; COctets IpAddress;
     CInt Counter32; CInt Gauge32; CInt TimeTicks; COctets Opaque; CInt Counter64;
     CNull NoSuchObject; CNull NoSuchInstance; CNull EndOfMibView].

(** asn1.py:84-85 with pdu.py:71-73. *)
Definition varbind_serialize (v : varbind) : res bytes :=
  join_encodings [prim_encode (POid OID (vb_name v)); prim_encode (vb_value v)].
(** asn1.py:55-56 *)
Definition varbind_encode (v : varbind) : res bytes :=
  do b <- varbind_serialize v; ber_encode sequence_tag b.

(** pdu.py:84-99 *)
Definition varbind_deserialize (data : asn1data) : res varbind :=
  do nr <- OID_decode data true;
  let '(name, data) := nr in
  do r <- ber_decode (ASub data) None false true;
  let '(identifier, data, _) := r in
  match dict_get tag_eqb varbind_types identifier with
  | None => Raise ParseError
  | Some valueType =>
    do value <- prim_deserialize valueType data;
    Ok (mkVarBind name value)
  end.
(** asn1.py:40-53 *)
Definition varbind_decode (data : asn1data) (leftovers : bool) : res (varbind * subbytes) :=
  asn1_decode sequence_tag varbind_deserialize data leftovers true.

(** * VarBindList (pdu.py:101-152): the list of variables. *)
Definition vblist_serialize (l : list varbind) : res bytes :=
  join_encodings (map varbind_encode l).
Definition vblist_encode (l : list varbind) : res bytes :=
  do b <- vblist_serialize l; ber_encode sequence_tag b.

(** pdu.py:144-150: [while data:]. *)
Fixpoint vblist_loop (fuel : nat) (data : asn1data) : res (list varbind) :=
  if adata_bool data then
    match fuel with
    | O => Raise Diverges
    | S fuel' =>
      do r <- varbind_decode data true;
      let '(var, data) := r in
      do more <- vblist_loop fuel' (ASub data);
      Ok (var :: more)
    end
  else Ok [].
(** pdu.py:140-152.  Fuel: one iteration per byte suffices. *)
Definition vblist_deserialize (data : asn1data) : res (list varbind) :=
  vblist_loop (length (adata_bytes data)) data.
Definition vblist_decode (data : asn1data) (leftovers : bool) : res (list varbind * subbytes) :=
  asn1_decode sequence_tag vblist_deserialize data leftovers true.

(** * PDU and BulkPDU (pdu.py:175-370) and their subclasses (pdu.py:390-420) *)
Inductive pducls :=
| GetRequestPDU | GetNextRequestPDU | ResponsePDU | SetRequestPDU
| GetBulkRequestPDU | InformRequestPDU | SNMPv2TrapPDU | ReportPDU.

(** pdu.py:392-420 *)
Definition pdu_tag (c : pducls) : tag :=
  mkTag (match c with
         | GetRequestPDU => 0 | GetNextRequestPDU => 1 | ResponsePDU => 2 | SetRequestPDU => 3
         | GetBulkRequestPDU => 5 | InformRequestPDU => 6 | SNMPv2TrapPDU => 7 | ReportPDU => 8
         end) true CONTEXT_SPECIFIC.

(** Base classes: isinstance(pdu, BulkPDU), Response, Internal, Confirmed. *)
Definition is_bulk (c : pducls) : bool :=
  match c with GetBulkRequestPDU => true | _ => false end.
Definition is_Response (c : pducls) : bool :=
  match c with ResponsePDU | ReportPDU => true | _ => false end.
Definition is_Internal (c : pducls) : bool :=
  match c with ReportPDU => true | _ => false end.
Definition is_Confirmed (c : pducls) : bool :=
  match c with
  | GetRequestPDU | GetNextRequestPDU | SetRequestPDU | GetBulkRequestPDU | InformRequestPDU => true
  | _ => false
  end.

(** [pdu_a] is errorStatus (PDU) or nonRepeaters (BulkPDU); [pdu_b] is
    errorIndex or maxRepetitions. *)
Record pdu := mkPDU {
  pdu_cls : pducls; pdu_requestID : Z; pdu_a : Z; pdu_b : Z; pdu_vbs : list varbind
}.

(** pdu.py:192-196, 296-300 with asn1.py:84-85 *)
Definition pdu_serialize (p : pdu) : res bytes :=
  join_encodings [Integer_encode (pdu_requestID p); Integer_encode (pdu_a p);
                  Integer_encode (pdu_b p); vblist_encode (pdu_vbs p)].
Definition pdu_encode (p : pdu) : res bytes :=
  do b <- pdu_serialize p; ber_encode (pdu_tag (pdu_cls p)) b.

(** [ErrorStatus(v)] (pdu.py:154-173): a member, or ValueError. *)
Definition ErrorStatus (v : Z) : res Z :=
  if (0 <=? v) && (v <=? 18) then Ok v else Raise ValueError.

(** pdu.py:238-277 and 341-370 *)
Definition pdu_deserialize (c : pducls) (data : asn1data) : res pdu :=
  do r <- Integer_decode data true;
  let '(requestID, data) := r in
  do r <- Integer_decode (ASub data) true;
  let '(a, data) := r in
  do r <- Integer_decode (ASub data) true;
  let '(b, data) := r in
  do r <- vblist_decode (ASub data) false;
  let '(vbs, _) := r in
  if is_bulk c then
    if a <? 0 then Raise ParseError
    else if b <? 0 then Raise ParseError
    else Ok (mkPDU c requestID a b vbs)
  else
    do errorStatus <- reraise is_ValueError ParseError (ErrorStatus a);
    if (negb (errorStatus =? 0) && (b <? 0)) || (zlen vbs <? b) then Raise ParseError
    else Ok (mkPDU c requestID errorStatus b vbs).
Definition pdu_decode (c : pducls) (data : asn1data) (leftovers : bool) : res (pdu * subbytes) :=
  asn1_decode (pdu_tag c) (pdu_deserialize c) data leftovers true.

(** __eq__ (asn1.py:66-77): same type, same length, equal items. *)
Definition varbind_eqb (a b : varbind) : bool :=
  prim_eqb (POid OID (vb_name a)) (POid OID (vb_name b)) && prim_eqb (vb_value a) (vb_value b).
Fixpoint vblist_eqb (a b : list varbind) : bool :=
  match a, b with
  | [], [] => true
  | x :: a', y :: b' => varbind_eqb x y && vblist_eqb a' b'
  | _, _ => false
  end.
Definition pducls_eqb (a b : pducls) : bool := tag_eqb (pdu_tag a) (pdu_tag b).
(** The items are Integer(...) objects; building them raises ValueError when a
    field is out of range, which is not modelled here (fields in range). *)
Definition pdu_eqb (a b : pdu) : bool :=
  pducls_eqb (pdu_cls a) (pdu_cls b) && (pdu_requestID a =? pdu_requestID b)
  && (pdu_a a =? pdu_a b) && (pdu_b a =? pdu_b b) && vblist_eqb (pdu_vbs a) (pdu_vbs b).

(** * ErrorResponse (pdu.py:422-442): the [cause] attribute *)
Inductive cause := CauseRequest (request : pdu) | CauseVarBind (v : varbind) | CauseIndex (i : Z).
Definition error_cause (index : Z) (request : pdu) : res cause :=
  if index =? 0 then Ok (CauseRequest request)
  else match py_index (pdu_vbs request) (index - 1) with
       | Ok v => Ok (CauseVarBind v)
       | Raise IndexError => Ok (CauseIndex index)
       | Raise e => Raise e
       end.
