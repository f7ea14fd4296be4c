(** SpecRepr.v -- which bindings the text tells apart. *)
From Verif Require Export SpecPdu Repr.

(** The value of an octet string is made of octets. *)
Definition made_of_octets (v : varbind) : Prop := match vb_value v with POctets _ d => bytes_ok d | _ => True end.
(** An OID that is the value of a variable has the class OID, the one that
    VarBind.TYPES has (str() does not show the class of an OID). *)
Definition plain_oid (v : varbind) : Prop := match vb_value v with POid c _ => c = OID | _ => True end.
Definition printable (v : varbind) : Prop := made_of_octets v /\ plain_oid v.

(** What an error tells: its status, and the name of the variable, if the index
    is that of one. *)
Definition blamed (index : Z) (request : pdu) : option (list Z) :=
  if index <=? 0 then None else option_map vb_name (nth_error (pdu_vbs request) (Z.to_nat (index - 1))).
