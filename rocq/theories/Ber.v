(** Ber.v -- model of snmp/ber.py (definitions only). *)
From Verif Require Export Utils.

(** ber.py:21-39.  [t_cls] is the IntEnum value 0..3 (ber.py:25-30). *)
Record tag := mkTag { t_number : Z; t_constructed : bool; t_cls : Z }.

Definition UNIVERSAL := 0.
Definition APPLICATION := 1.
Definition CONTEXT_SPECIFIC := 2.
Definition PRIVATE := 3.

(** ber.py:41-49 *)
Definition tag_eqb (a b : tag) : bool :=
  (t_cls a =? t_cls b) && Bool.eqb (t_constructed a) (t_constructed b)
  && (t_number a =? t_number b).

(** ber.py:76-88: the [while byte & 0x80] loop of Tag.decode. *)
Fixpoint tag_decode_loop (fuel : nat) (number byte : Z) (data : subbytes)
  : res (Z * subbytes) :=
  if Z.land byte 0x80 =? 0 then Ok (number, data)
  else match fuel with
  | O => Raise Diverges
  | S fuel' =>
    do byte <- reraise (exc_eqb IndexError) ParseError (sb_dereference data);
    let data := sb_advance data in
    let number := Z.shiftl number 7 in
    let number := Z.lor number (Z.land byte 0x7f) in
    tag_decode_loop fuel' number byte data
  end.

(** [cls.Class(class_)] (ber.py:90): ValueError for a value that is no member. *)
Definition tag_class (c : Z) : res Z :=
  if (0 <=? c) && (c <=? 3) then Ok c else Raise ValueError.

(** ber.py:57-90.  Fuel: one iteration per remaining byte suffices. *)
Definition tag_decode (data : subbytes) : res (tag * subbytes) :=
  do byte <- reraise (exc_eqb IndexError) ParseError (sb_dereference data);
  let data := sb_advance data in
  let class_ := Z.shiftr (Z.land byte 0xc0) 6 in
  let constructed := negb (Z.land byte 0x20 =? 0) in
  let number := Z.land byte 0x1f in
  do nd <- (if number =? 0x1f
            then tag_decode_loop (S (length (sb_data data))) 0 0x80 data
            else Ok (number, data));
  let '(number, data) := nd in
  do c <- tag_class class_;
  Ok (mkTag number constructed c, data).

(** ber.py:105-110: the loop appending low 7-bit groups; returns [arr] in the
    order of the appends.  Fuel: bit_length(number) iterations suffice. *)
Fixpoint tag_encode_loop (fuel : nat) (number indicator : Z) : res (list Z) :=
  if number =? 0 then Ok []
  else match fuel with
  | O => Raise Diverges
  | S fuel' =>
    do rest <- tag_encode_loop fuel' (Z.shiftr number 7) 0x80;
    Ok (Z.lor indicator (Z.land number 0x7f) :: rest)
  end.

(** ber.py:92-113.  [bytearray.append] raises ValueError outside 0..255. *)
Definition tag_encode (t : tag) : res bytes :=
  let byte := Z.land (Z.shiftl (t_cls t) 6) 0xc0 in
  let byte := if t_constructed t then Z.lor byte 0x20 else byte in
  do ba <- (if t_number t <? 0x1f
            then Ok (Z.lor byte (t_number t), [])
            else do arr <- tag_encode_loop (Z.to_nat (bit_length (t_number t))) (t_number t) 0;
                 Ok (Z.lor byte 0x1f, arr));
  let '(byte, arr) := ba in
  do arr <- py_bytes (arr ++ [byte]);
  Ok (rev arr).

(** ber.py:133-143: [for i in range(n)]. *)
Fixpoint decode_length_loop (n : nat) (length : Z) (data : subbytes) : res (Z * subbytes) :=
  match n with
  | O => Ok (length, data)
  | S n' =>
    do byte <- reraise (exc_eqb IndexError) ParseError (sb_dereference data);
    let data := sb_advance data in
    let length := Z.shiftl length 8 in
    let length := Z.lor length byte in
    decode_length_loop n' length data
  end.

(** ber.py:115-145 *)
Definition decode_length (data : subbytes) : res (Z * subbytes) :=
  do length <- reraise (exc_eqb IndexError) ParseError (sb_dereference data);
  let data := sb_advance data in
  if negb (Z.land length 0x80 =? 0) then
    let n := Z.land length 0x7f in
    decode_length_loop (Z.to_nat n) 0 data
  else Ok (length, data).

(** ber.py:152-155: appends low bytes; result in append order. *)
Fixpoint encode_length_loop (fuel : nat) (length : Z) : res (list Z) :=
  if length =? 0 then Ok []
  else match fuel with
  | O => Raise Diverges
  | S fuel' =>
    do rest <- encode_length_loop fuel' (Z.shiftr length 8);
    Ok (Z.land length 0xff :: rest)
  end.

(** ber.py:147-161.  For a negative length [bytes([length])] raises ValueError. *)
Definition encode_length (length : Z) : res bytes :=
  if length <? 0x80 then py_bytes [length]
  else
    do arr <- encode_length_loop (Z.to_nat (bit_length length)) length;
    if 0x7f <? zlen arr then Raise EncodeError
    else
      do arr <- py_bytes (arr ++ [Z.lor 0x80 (zlen arr)]);
      Ok (rev arr).

(** ber.py:163-217.  The real function returns a value whose shape depends on
    [expected] and [leftovers]; the model always returns (tag, body, tail) and
    the callers take what the real return value contains. *)
Definition ber_decode (data : asn1data) (expected : option tag) (leftovers copy : bool)
  : res (tag * asn1data * subbytes) :=
  let data := sb_new data None None in
  do td <- tag_decode data;
  let '(tag, data) := td in
  if match expected with Some e => negb (tag_eqb tag e) | None => false end
  then Raise ParseError
  else
    do ld <- decode_length data;
    let '(length, data) := ld in
    let '(data, tail) := sb_split data length in
    do n <- sb_len data;
    if n <? length then Raise ParseError
    else if negb leftovers && sb_bool tail then Raise ParseError
    else
      let body := if copy then ABytes (sb_getslice data None None) else ASub data in
      Ok (tag, body, tail).

(** ber.py:219-221 *)
Definition ber_encode (t : tag) (data : bytes) : res bytes :=
  do a <- tag_encode t;
  do b <- encode_length (zlen data);
  Ok (a ++ b ++ data).
