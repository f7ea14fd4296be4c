(** Repr.v -- the text of values: __repr__, __str__ and toString of the SMI
    types, of variable bindings, of PDUs and of ErrorResponse (definitions only).

    A [pystr] is a list of code points.  Not modelled: an OctetString built from
    a subbytes object, whose [original] is then that object (smi.py:79-84); a
    variable's value never is, as decode() copies by default (ber.py:167, 206;
    pdu.py:92). An IpAddress prints the text it was built from (smi.py:118-119);
    as in Asn1.v, that is the text of inet_ntoa(). *)
From Coq Require Import String Ascii.
From Verif Require Export Pdu OidText.
Open Scope Z_scope.

(** A literal of the source code. *)
Definition text (s : string) : pystr := map (fun c => Z.of_nat (nat_of_ascii c)) (list_ascii_of_string s).

(** sep.join(parts) *)
Fixpoint join_text (sep : pystr) (parts : list pystr) : pystr :=
  match parts with
  | [] => []
  | [p] => p
  | p :: rest => p ++ sep ++ join_text sep rest
  end.

(** typename(self) (utils.py:283-300): the name of the class.  Integer and Null
    are other names of Integer32 and NULL (smi.py:55, 140). *)
Definition int_name (c : icls) : pystr :=
  text match c with
       | INTEGER => "INTEGER" | Integer32 => "Integer32" | Unsigned32 => "Unsigned32" | Counter32 => "Counter32"
       | Gauge32 => "Gauge32" | TimeTicks => "TimeTicks" | Counter64 => "Counter64"
       end.
Definition octets_name (c : ocls) : pystr :=
  text match c with
       | OCTET_STRING => "OCTET_STRING" | OctetString => "OctetString" | IpAddress => "IpAddress" | Opaque => "Opaque"
       end.
Definition null_name (c : ncls) : pystr :=
  text match c with
       | NULL => "NULL" | NoSuchObject => "NoSuchObject" | NoSuchInstance => "NoSuchInstance"
       | EndOfMibView => "EndOfMibView"
       end.
Definition oid_name (c : dcls) : pystr :=
  text match c with OBJECT_IDENTIFIER => "OBJECT_IDENTIFIER" | OID => "OID" end.
Definition pdu_name (c : pducls) : pystr :=
  text match c with
       | GetRequestPDU => "GetRequestPDU" | GetNextRequestPDU => "GetNextRequestPDU"
       | ResponsePDU => "ResponsePDU" | SetRequestPDU => "SetRequestPDU"
       | GetBulkRequestPDU => "GetBulkRequestPDU" | InformRequestPDU => "InformRequestPDU"
       | SNMPv2TrapPDU => "SNMPv2TrapPDU" | ReportPDU => "ReportPDU"
       end.

(** repr() of a bytes object, as CPython writes it: single quotes, or double
    quotes if it holds a single quote and no double quote; the quote and the
    backslash behind a backslash, \t \n \r, and \x with two hexadecimal digits
    for other bytes that are not printable ASCII. *)
Definition hex_digit (d : Z) : Z := if d <? 10 then 48 + d else 87 + d.
Definition byte_repr (q b : Z) : pystr :=
  if (b =? q) || (b =? 92) then [92; b]
  else if b =? 9 then [92; 116]
  else if b =? 10 then [92; 110]
  else if b =? 13 then [92; 114]
  else if (b <? 32) || (127 <=? b) then [92; 120; hex_digit (b / 16); hex_digit (b mod 16)]
  else [b].
Definition quote_of (d : bytes) : Z := if existsb (Z.eqb 39) d && negb (existsb (Z.eqb 34) d) then 34 else 39.
Definition bytes_repr (d : bytes) : pystr :=
  let q := quote_of d in [98; q] ++ flat_map (byte_repr q) d ++ [q].

(** asn1.py:113-114 (INTEGER), 168-169 (OCTET_STRING, Opaque), 221-222 (NULL),
    302-304 (OBJECT_IDENTIFIER); smi.py:86-87 (OctetString), 118-119
    (IpAddress: repr() of a str of digits and dots is that text in quotes). *)
Definition prim_repr (p : prim) : pystr :=
  match p with
  | PInt c v => int_name c ++ text "(" ++ py_str_int v ++ text ")"
  | POctets IpAddress d => octets_name IpAddress ++ text "('" ++ oid_str d ++ text "')"
  | POctets c d => octets_name c ++ text "(" ++ bytes_repr d ++ text ")"
  | PNull c => null_name c ++ text "()"
  | POid c l => oid_name c ++ text "(" ++ join_text (text ", ") (map py_str_int l) ++ text ")"
  end.

(** str(): asn1.py:306-307 for OBJECT_IDENTIFIER; the others have no __str__,
    so that str() is repr(). *)
Definition prim_str (p : prim) : pystr :=
  match p with POid _ l => oid_str l | _ => prim_repr p end.

(** pdu.py:78-79 *)
Definition varbind_repr (v : varbind) : pystr :=
  text "VarBind(" ++ prim_repr (POid OID (vb_name v)) ++ text ", " ++ prim_repr (vb_value v) ++ text ")".
(** pdu.py:81-82 *)
Definition varbind_str (v : varbind) : pystr :=
  prim_str (POid OID (vb_name v)) ++ text ": " ++ prim_str (vb_value v).

(** pdu.py:130-132 *)
Definition vblist_repr (l : list varbind) : pystr :=
  text "VarBindList(" ++ join_text (text ", ") (map varbind_repr l) ++ text ")".
(** pdu.py:137-138: the line separator is code point 10. *)
Definition vblist_toString (l : list varbind) (indent : pystr) : pystr :=
  join_text [10] (map (fun v => indent ++ varbind_str v) l).
(** pdu.py:134-135: what print() shows of a response. *)
Definition vblist_str (l : list varbind) : pystr := vblist_toString l [].

(** ErrorStatus(status).name (pdu.py:154-173) *)
Definition status_name (status : Z) : pystr :=
  text match status with
       | 0 => "noError" | 1 => "tooBig" | 2 => "noSuchName" | 3 => "badValue" | 4 => "readOnly" | 5 => "genErr"
       | 6 => "noAccess" | 7 => "wrongType" | 8 => "wrongLength" | 9 => "wrongEncoding" | 10 => "wrongValue"
       | 11 => "noCreation" | 12 => "inconsistentValue" | 13 => "resourceUnavailable" | 14 => "commitFailed"
       | 15 => "undoFailed" | 16 => "authorizationError" | 17 => "notWritable" | 18 => "inconsistentName"
       | _ => ""
       end.

(** One keyword argument of a PDU's repr, left out if it is zero. *)
Definition argument (key : string) (v : Z) : list pystr :=
  if v =? 0 then [] else [text key ++ py_str_int v].
(** pdu.py:201-215 and 305-319.  format() of an ErrorStatus is that of its
    number. *)
Definition pdu_repr (p : pdu) : pystr :=
  let bulk := is_bulk (pdu_cls p) in
  pdu_name (pdu_cls p) ++ text "(" ++
  join_text (text ", ")
    (argument "requestID=" (pdu_requestID p)
     ++ argument (if bulk then "nonRepeaters=" else "errorStatus=") (pdu_a p)
     ++ argument (if bulk then "maxRepetitions=" else "errorIndex=") (pdu_b p)
     ++ [text "variableBindings=" ++ vblist_repr (pdu_vbs p)])
  ++ text ")".

Fixpoint repeat_text (tab : pystr) (n : nat) : pystr :=
  match n with O => [] | S n' => tab ++ repeat_text tab n' end.

(** pdu.py:220-236 and 324-339; depth is not negative here. BulkPDU does not
    indent its first line. *)
Definition pdu_toString (p : pdu) (depth : nat) (tab : pystr) : pystr :=
  let indent := repeat_text tab depth in
  let subindent := indent ++ tab in
  let lines first a b a_text vbs :=
    join_text [10]
      [first ++ text ":";
       subindent ++ text "Request ID: " ++ py_str_int (pdu_requestID p);
       subindent ++ text a ++ a_text;
       subindent ++ text b ++ py_str_int (pdu_b p);
       subindent ++ text "Variable Bindings:";
       vbs] in
  if is_bulk (pdu_cls p) then
    lines (pdu_name (pdu_cls p)) "Non-Repeaters: "%string "Max Repetitions: "%string (py_str_int (pdu_a p))
      (vblist_toString (pdu_vbs p) (subindent ++ tab))
  else
    lines (indent ++ pdu_name (pdu_cls p)) "Error Status: "%string "Error Index: "%string (status_name (pdu_a p))
      (vblist_toString (pdu_vbs p) (subindent ++ tab)).
(** pdu.py:217-218 and 321-322 *)
Definition pdu_str (p : pdu) : pystr := pdu_toString p 0 (text "    ").

(** str() of an ErrorResponse (pdu.py:428-442): [details] names the variable
    that caused the error, if the index tells one. *)
Definition error_str (status index : Z) (request : pdu) : res pystr :=
  do c <- error_cause index request;
  Ok (status_name status ++ match c with
                            | CauseVarBind v => text ": " ++ prim_str (POid OID (vb_name v))
                            | _ => []
                            end).
