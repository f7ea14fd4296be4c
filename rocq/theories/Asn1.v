(** Asn1.v -- model of snmp/asn1.py and snmp/smi.py (definitions only).

    The primitive classes of asn1.py, smi.py and pdu.py:26-36 are represented by
    the four families INTEGER, OCTET_STRING, NULL and OBJECT_IDENTIFIER, each
    with its subclasses. *)
From Verif Require Export Ber.

(** Subclasses of INTEGER (asn1.py:100, smi.py:46-74). [Integer] and [Unsigned]
    are aliases of Integer32 and Unsigned32 (smi.py:55-56). *)
Inductive icls := INTEGER | Integer32 | Unsigned32 | Counter32 | Gauge32 | TimeTicks | Counter64.
(** Subclasses of OCTET_STRING (asn1.py:156, smi.py:76,106,137). *)
Inductive ocls := OCTET_STRING | OctetString | IpAddress | Opaque.
(** Subclasses of NULL (asn1.py:212, pdu.py:27-36). *)
Inductive ncls := NULL | NoSuchObject | NoSuchInstance | EndOfMibView.
(** OBJECT_IDENTIFIER (asn1.py:242) and OID (smi.py:142). *)
Inductive dcls := OBJECT_IDENTIFIER | OID.

(** A class, as passed to decodeIndex() or found in VarBind.TYPES. *)
Inductive pcls := CInt (c : icls) | COctets (c : ocls) | CNull (c : ncls) | COid (c : dcls).

(** An object of a primitive class.  An IpAddress is represented by its four
    address bytes [data]; the textual [addr] attribute is not modelled. *)
Inductive prim :=
| PInt (c : icls) (value : Z)
| POctets (c : ocls) (data : bytes)
| PNull (c : ncls)
| POid (c : dcls) (subidentifiers : list Z).

Definition prim_cls (p : prim) : pcls :=
  match p with
  | PInt c _ => CInt c | POctets c _ => COctets c | PNull c => CNull c | POid c _ => COid c
  end.

(** TAG class attributes: asn1.py:102, smi.py:53,60,68,74. *)
Definition int_tag (c : icls) : tag :=
  match c with
  | INTEGER | Integer32 => mkTag 2 false UNIVERSAL
  | Unsigned32 | Gauge32 => mkTag 2 false APPLICATION
  | Counter32 => mkTag 1 false APPLICATION
  | TimeTicks => mkTag 3 false APPLICATION
  | Counter64 => mkTag 6 false APPLICATION
  end.
(** asn1.py:157, smi.py:107,138 *)
Definition octets_tag (c : ocls) : tag :=
  match c with
  | OCTET_STRING | OctetString => mkTag 4 false UNIVERSAL
  | IpAddress => mkTag 0 false APPLICATION
  | Opaque => mkTag 4 false APPLICATION
  end.
(** asn1.py:213, pdu.py:28,32,36 *)
Definition null_tag (c : ncls) : tag :=
  match c with
  | NULL => mkTag 5 false UNIVERSAL
  | NoSuchObject => mkTag 0 false CONTEXT_SPECIFIC
  | NoSuchInstance => mkTag 1 false CONTEXT_SPECIFIC
  | EndOfMibView => mkTag 2 false CONTEXT_SPECIFIC
  end.
(** asn1.py:243 *)
Definition oid_tag (c : dcls) : tag := mkTag 6 false UNIVERSAL.
(** asn1.py:468 *)
Definition sequence_tag : tag := mkTag 16 true UNIVERSAL.

Definition pcls_tag (c : pcls) : tag :=
  match c with
  | CInt c => int_tag c | COctets c => octets_tag c | CNull c => null_tag c | COid c => oid_tag c
  end.

(** * ASN1.decode (asn1.py:40-53)

    Without [leftovers] the second component (the tail) is dropped by the
    callers, as the real method does not return it. *)
Definition asn1_decode {A : Type} (t : tag) (deserialize : asn1data -> res A)
    (data : asn1data) (leftovers copy : bool) : res (A * subbytes) :=
  do r <- ber_decode data (Some t) leftovers copy;
  let '(_, encoding, tail) := r in
  do x <- deserialize encoding;
  Ok (x, tail).

(** * INTEGER (asn1.py:100-154) and BoundedInteger (smi.py:20-44) *)

(** asn1.py:120-125 *)
Definition bitCount (value : Z) : Z :=
  let value := if value <? 0 then - value - 1 else value in
  bit_length value.

(** BITS and SIGNED (smi.py:46-74); None for plain INTEGER. *)
Definition int_bits (c : icls) : option (Z * bool) :=
  match c with
  | INTEGER => None
  | Integer32 => Some (32, true)
  | Unsigned32 | Counter32 | Gauge32 | TimeTicks => Some (32, false)
  | Counter64 => Some (64, false)
  end.

(** smi.py:37-44 *)
Definition inRange (bits : Z) (signed : bool) (value : Z) : bool :=
  if (value <? 0) && negb signed then false
  else
    let nbits := bitCount value in
    let allowable := if signed then bits - 1 else bits in
    nbits <=? allowable.

(** The constructor: asn1.py:104-105, smi.py:24-28. *)
Definition int_new (c : icls) (value : Z) : res prim :=
  match int_bits c with
  | None => Ok (PInt c value)
  | Some (bits, signed) =>
    if inRange bits signed value then Ok (PInt c value) else Raise ValueError
  end.

(** construct: asn1.py:127-129, smi.py:30-35. *)
Definition int_construct (c : icls) (value : Z) : res prim :=
  match int_bits c with
  | None => int_new c value
  | Some _ => reraise is_ValueError ParseError (int_new c value)
  end.

(** asn1.py:131-134 *)
Definition int_deserialize (c : icls) (data : asn1data) : res prim :=
  int_construct c (from_be_signed (adata_bytes data)).

(** asn1.py:136-140 *)
Definition int_serialize (value : Z) : res bytes :=
  let nbytes := bitCount value / 8 + 1 in
  to_bytes_signed (Z.to_nat nbytes) value.

(** * OCTET_STRING (asn1.py:156-210), OctetString, IpAddress, Opaque (smi.py:76-138) *)

(** The constructors on a byte string: asn1.py:159-160, smi.py:77-84 with
    check() at smi.py:93-96.  For IpAddress the argument is the result of
    inet_aton, always 4 bytes (smi.py:109-116); [octets_new IpAddress] models
    [IpAddress(inet_ntoa(data))] and assumes inet_aton inverts inet_ntoa, which
    raises OSError unless there are exactly 4 bytes. *)
Definition octets_new (c : ocls) (data : bytes) : res prim :=
  match c with
  | OCTET_STRING | Opaque => Ok (POctets c data)
  | OctetString => if 0xffff <? zlen data then Raise ValueError else Ok (POctets c data)
  | IpAddress => if zlen data =? 4 then Ok (POctets c data) else Raise OSError
  end.

(** construct: asn1.py:198-203, smi.py:98-103, smi.py:124-134. *)
Definition octets_construct (c : ocls) (data : asn1data) : res prim :=
  let data := adata_bytes data in
  match c with
  | OCTET_STRING | Opaque => octets_new c data
  | OctetString => reraise is_ValueError ParseError (octets_new c data)
  | IpAddress => reraise (exc_eqb OSError) ParseError (octets_new c data)
  end.

(** asn1.py:205-207 *)
Definition octets_deserialize (c : ocls) (data : asn1data) : res prim := octets_construct c data.

(** asn1.py:235-237: the content is ignored. *)
Definition null_deserialize (c : ncls) (data : asn1data) : res prim := Ok (PNull c).

(** * OBJECT_IDENTIFIER (asn1.py:242-465) and OID (smi.py:142-158) *)

(** asn1.py:251-269.  [first] and [second] default to 0. *)
Definition object_identifier_new (l : list Z) : res (list Z) :=
  let first := match l with a :: _ => a | _ => 0 end in
  let second := match l with _ :: b :: _ => b | _ => 0 end in
  if 2 <? first then Raise ValueError
  else if 40 <=? second then Raise ValueError
  else if existsb (fun x => x <? 0) l then Raise ValueError
  else Ok l.

(** smi.py:143-151 *)
Definition smi_oid_new (l : list Z) : res (list Z) :=
  if 128 <? zlen l then Raise ValueError
  else if existsb (fun x => 32 <? bit_length x) l then Raise ValueError
  else object_identifier_new l.

Definition oid_new (c : dcls) (l : list Z) : res (list Z) :=
  match c with OBJECT_IDENTIFIER => object_identifier_new l | OID => smi_oid_new l end.

(** asn1.py:403-408 *)
Definition oid_construct (c : dcls) (l : list Z) : res (list Z) :=
  reraise is_ValueError ParseError (oid_new c l).

(** asn1.py:419-426: the loop over the remaining bytes; [acc] is the list of
    sub-identifiers appended so far, reversed.  Returns (value, sub-identifiers). *)
Fixpoint oid_deserialize_loop (stream : bytes) (value : Z) (acc : list Z) : Z * list Z :=
  match stream with
  | [] => (value, rev acc)
  | byte :: stream' =>
    let value := Z.lor value (Z.land byte 0x7f) in
    if negb (Z.land byte 0x80 =? 0)
    then oid_deserialize_loop stream' (Z.shiftl value 7) acc
    else oid_deserialize_loop stream' 0 (value :: acc)
  end.

(** asn1.py:410-431 *)
Definition oid_deserialize (c : dcls) (data : asn1data) : res prim :=
  match adata_bytes data with
  | [] => Raise ParseError
  | b :: stream =>
    let oid := [b / 40; b mod 40] in
    let '(value, more) := oid_deserialize_loop stream 0 [] in
    if negb (value =? 0) then Raise ParseError
    else do l <- oid_construct c (oid ++ more); Ok (POid c l)
  end.

(** asn1.py:438-444: appends low groups first (the list is reversed after). *)
Fixpoint serialize_subid_loop (fuel : nat) (num flag : Z) : res (list Z) :=
  if num =? 0 then Ok []
  else match fuel with
  | O => Raise Diverges
  | S fuel' =>
    do rest <- serialize_subid_loop fuel' (Z.shiftr num 7) 0x80;
    Ok (Z.lor (Z.land num 0x7f) flag :: rest)
  end.

(** asn1.py:433-447; the bytes appended to [bytearr]. *)
Definition serialize_subid (num : Z) : res bytes :=
  if num <? 0x80 then py_bytes [num]
  else do tmp <- serialize_subid_loop (Z.to_nat (bit_length num)) num 0;
       do tmp <- py_bytes tmp;
       Ok (rev tmp).

(** asn1.py:462-463 *)
Fixpoint serialize_subids (l : list Z) : res bytes :=
  match l with
  | [] => Ok []
  | x :: l' => do a <- serialize_subid x; do b <- serialize_subids l'; Ok (a ++ b)
  end.

(** asn1.py:449-465.  [first * 40 | second] parses as [(first * 40) | second]. *)
Definition oid_serialize (l : list Z) : res bytes :=
  match l with
  | [] => Ok [0]
  | first :: l1 =>
    let second := match l1 with s :: _ => s | [] => 0 end in
    do a <- serialize_subid (Z.lor (first * 40) second);
    do b <- serialize_subids (skipn 2 l);
    Ok (a ++ b)
  end.

(** * Generic operations on primitive objects *)

(** serialize(): asn1.py:136,209,239,449 *)
Definition prim_serialize (p : prim) : res bytes :=
  match p with
  | PInt _ v => int_serialize v
  | POctets _ d => Ok d
  | PNull _ => Ok []
  | POid _ l => oid_serialize l
  end.

(** encode(): asn1.py:55-56 *)
Definition prim_encode (p : prim) : res bytes :=
  do body <- prim_serialize p; ber_encode (pcls_tag (prim_cls p)) body.

(** cls.deserialize *)
Definition prim_deserialize (c : pcls) (data : asn1data) : res prim :=
  match c with
  | CInt c => int_deserialize c data
  | COctets c => octets_deserialize c data
  | CNull c => null_deserialize c data
  | COid c => oid_deserialize c data
  end.

(** cls.decode *)
Definition prim_decode (c : pcls) (data : asn1data) (leftovers copy : bool)
  : res (prim * subbytes) :=
  asn1_decode (pcls_tag c) (prim_deserialize c) data leftovers copy.

(** cls(...) as called by the user: int for integers, bytes for octet strings,
    sub-identifiers for OIDs. *)
Definition prim_constructible (p : prim) : Prop :=
  match p with
  | PInt c v => int_new c v = Ok p
  | POctets c d => bytes_ok d /\ octets_new c d = Ok p
  | PNull c => True
  | POid c l => oid_new c l = Ok l
  end.

(** __eq__: asn1.py:107-111, 162-166, 215-219, 271-275; objects of different
    families compare unequal (NotImplemented on both sides). *)
Definition prim_eqb (a b : prim) : bool :=
  match a, b with
  | PInt c v, PInt c' v' => (v =? v') && tag_eqb (int_tag c) (int_tag c')
  | POctets c d, POctets c' d' => zlist_eqb d d' && tag_eqb (octets_tag c) (octets_tag c')
  | PNull c, PNull c' => tag_eqb (null_tag c) (null_tag c')
  | POid _ l, POid _ l' => zlist_eqb l l'
  | _, _ => false
  end.

(** Tuple comparison [<] (asn1.py:277-278 delegates to tuple.__lt__). *)
Fixpoint oid_ltb (a b : list Z) : bool :=
  match a, b with
  | [], [] => false
  | [], _ :: _ => true
  | _ :: _, [] => false
  | x :: a', y :: b' => if x =? y then oid_ltb a' b' else x <? y
  end.

(** asn1.py:347-348 *)
Definition oid_startswith (l prefix : list Z) : bool :=
  zlist_eqb (py_slice l None (Some (zlen prefix))) (py_slice prefix None None).

(** asn1.py:344-345: [self.__class__] is the class [c] of self. *)
Definition oid_extend (c : dcls) (l more : list Z) : res (list Z) := oid_new c (l ++ more).

(** * Table indices: asOID / fromOID / withIndex / decodeIndex *)

(** asOID: asn1.py:142-143, 175-179, 224-225, 321-325; smi.py:121-122. *)
Definition asOID (p : prim) (implied : bool) : list Z :=
  match p with
  | PInt _ v => [v]
  | POctets IpAddress d => d
  | POctets _ d => if implied then d else zlen d :: d
  | PNull _ => []
  | POid _ l => if implied then l else zlen l :: l
  end.

(** [n] calls of next(nums); StopIteration when exhausted. *)
Fixpoint take_nums (n : nat) (nums : list Z) : res (list Z * list Z) :=
  match n with
  | O => Ok ([], nums)
  | S n' =>
    match nums with
    | [] => Raise StopIteration
    | x :: nums' => do r <- take_nums n' nums'; let '(xs, rest) := r in Ok (x :: xs, rest)
    end
  end.

(** fromOID: asn1.py:145-154, 181-196, 227-233, 327-342.  Returns the object and
    the rest of the iterator.  In OBJECT_IDENTIFIER.fromOID the calls of next()
    happen inside a generator expression, where a StopIteration becomes a
    RuntimeError (PEP 479, Python >= 3.7). *)
Definition fromOID (c : pcls) (nums : list Z) (implied : bool) : res (prim * list Z) :=
  match c with
  | CInt c =>
    match nums with
    | [] => Raise StopIteration
    | x :: nums' =>
      do p <- reraise (exc_eqb ParseError) IndexDecodeError (int_construct c x);
      Ok (p, nums')
    end
  | COctets c =>
    do dr <- (if implied then do d <- py_bytes nums; Ok (d, [])
              else match nums with
                   | [] => Raise StopIteration
                   | len :: nums' =>
                     do tr <- take_nums (Z.to_nat len) nums';
                     let '(xs, rest) := tr in
                     do d <- py_bytes xs; Ok (d, rest)
                   end);
    let '(d, rest) := dr in
    do p <- reraise (exc_eqb ParseError) IndexDecodeError (octets_construct c (ABytes d));
    Ok (p, rest)
  | CNull c => Ok (PNull c, nums)
  | COid c =>
    do lr <- (if implied then Ok (nums, [])
              else match nums with
                   | [] => Raise StopIteration
                   | len :: nums' =>
                     reraise (exc_eqb StopIteration) RuntimeError
                             (take_nums (Z.to_nat len) nums')
                   end);
    let '(l, rest) := lr in
    do l <- reraise (exc_eqb ParseError) IndexDecodeError (oid_construct c l);
    Ok (POid c l, rest)
  end.

(** asn1.py:377-387 *)
Definition decodeIndexField (nums : list Z) (c : pcls) (implied : bool) : res (prim * list Z) :=
  reraise (exc_eqb StopIteration) IndexDecodeError (fromOID c nums implied).

(** asn1.py:360-365: all types but the last with implied=False, the last with
    the given flag. *)
Fixpoint decodeIndex_fields (nums : list Z) (types : list pcls) (implied : bool)
  : res (list prim * list Z) :=
  match types with
  | [] => Ok ([], nums)
  | [c] => do r <- decodeIndexField nums c implied; let '(p, rest) := r in Ok ([p], rest)
  | c :: types' =>
    do r <- decodeIndexField nums c false;
    let '(p, rest) := r in
    do r' <- decodeIndex_fields rest types' implied;
    let '(ps, rest') := r' in Ok (p :: ps, rest')
  end.

(** asn1.py:350-375 *)
Definition decodeIndex (l prefix : list Z) (types : list pcls) (implied : bool)
  : res (list prim) :=
  if negb (oid_startswith l prefix) then Raise BadPrefix
  else
    do r <- decodeIndex_fields (py_slice l (Some (zlen prefix)) None) types implied;
    let '(index, rest) := r in
    match rest with
    | [] => Ok index
    | _ :: _ => Raise IndexDecodeError
    end.

(** smi.py:153-158 *)
Definition getIndex (l prefix : list Z) (c : pcls) (implied : bool) : res prim :=
  do ps <- decodeIndex l prefix [c] implied; py_index ps 0.

(** asn1.py:389-401; [c] is the class of self. *)
Fixpoint withIndex (c : dcls) (l : list Z) (index : list prim) (implied : bool)
  : res (list Z) :=
  match index with
  | [] => Ok l
  | [p] => oid_extend c l (asOID p implied)
  | p :: index' => do l' <- oid_extend c l (asOID p false); withIndex c l' index' implied
  end.
