(** PropertiesCodec.v -- properties C01-C12, C21, C22 (see /verif/properties.jsonl). *)
From Verif Require Import PrfBerSpec PrfOid PrfUtils PrfCodec.

(** * C01: tags round-trip *)
Theorem C01_tag_roundtrip : forall t rest, 0 <= t_number t -> 0 <= t_cls t <= 3 ->
  exists enc, tag_encode t = Ok enc /\ bytes_ok enc /\
    exists tail, tag_decode (sb_new (ABytes (enc ++ rest)) None None) = Ok (t, tail) /\
                 sb_getslice tail None None = rest.
Proof. exact tag_roundtrip. Qed.
Print Assumptions C01_tag_roundtrip.

Theorem C01_tag_prefix_free : forall t1 t2 e1 e2 more,
  0 <= t_number t1 -> 0 <= t_cls t1 <= 3 -> 0 <= t_number t2 -> 0 <= t_cls t2 <= 3 ->
  tag_encode t1 = Ok e1 -> tag_encode t2 = Ok e2 -> e2 = e1 ++ more -> t1 = t2 /\ more = [].
Proof. exact tag_prefix_free. Qed.
Print Assumptions C01_tag_prefix_free.
Example C01_example : tag_encode (mkTag 201 true 2) = Ok [0xbf; 0x81; 0x49].
Proof. reflexivity. Qed.

(** * C02: length fields *)
Theorem C02_length_roundtrip : forall n rest, 0 <= n < 256 ^ 127 -> bytes_ok rest ->
  exists enc, encode_length n = Ok enc /\
    (exists tail, decode_length (sb_new (ABytes (enc ++ rest)) None None) = Ok (n, tail) /\
                  sb_getslice tail None None = rest) /\
    (n < 128 -> enc = [n]) /\
    (128 <= n -> exists ds, enc = (128 + zlen ds) :: ds /\ bytes_ok ds /\ ds <> [] /\
       fold_left (fun a x => a * 256 + x) ds 0 = n /\
       forall ds', bytes_ok ds' -> fold_left (fun a x => a * 256 + x) ds' 0 = n -> zlen ds <= zlen ds').
Proof. exact length_roundtrip. Qed.
Print Assumptions C02_length_roundtrip.

Theorem C02_length_too_long : forall n, 256 ^ 127 <= n -> encode_length n = Raise EncodeError.
Proof. exact encode_length_err. Qed.
Print Assumptions C02_length_too_long.
Example C02_example : encode_length 1000 = Ok [0x82; 3; 0xe8].
Proof. reflexivity. Qed.

(** * C03: TLV round trip *)
Theorem C03_tlv_roundtrip : forall t d rest expected leftovers copy,
  0 <= t_number t -> 0 <= t_cls t <= 3 -> bytes_ok d -> bytes_ok rest -> zlen d < 256 ^ 127 ->
  exists enc, ber_encode t d = Ok enc /\
    ((expected = None \/ expected = Some t) -> (leftovers = true \/ rest = []) ->
       exists body tail, ber_decode (ABytes (enc ++ rest)) expected leftovers copy = Ok (t, body, tail) /\
         adata_bytes body = d /\ sb_getslice tail None None = rest) /\
    (leftovers = false /\ rest <> [] \/ (exists t', expected = Some t' /\ t' <> t) ->
       ber_decode (ABytes (enc ++ rest)) expected leftovers copy = Raise ParseError).
Proof. exact tlv_roundtrip. Qed.
Print Assumptions C03_tlv_roundtrip.
Example C03_example : ber_decode (ABytes [0x04; 2; 7; 8; 9]) None true true
  = Ok (mkTag 4 false 0, ABytes [7; 8], mkSub [0x04; 2; 7; 8; 9] 4 5).
Proof. reflexivity. Qed.

(** * C04: decoding is total and exact *)
(** [tlv] (SpecBer) is the independent description of a TLV. *)
Theorem C04_decode_total : forall l expected leftovers copy, bytes_ok l ->
  (exists t body tail, ber_decode (ABytes l) expected leftovers copy = Ok (t, body, tail) /\
     tlv l (t_cls t) (t_constructed t) (t_number t) (adata_bytes body) (sb_getslice tail None None) /\
     (forall e, expected = Some e -> t = e) /\
     (leftovers = false -> sb_getslice tail None None = []) /\
     (* the leftovers are the end of the input object itself *)
     sb_data tail = l /\ sb_stop tail = zlen l) \/
  ber_decode (ABytes l) expected leftovers copy = Raise ParseError.
Proof. exact decode_total. Qed.
Print Assumptions C04_decode_total.

(** Decoding accepts every input described by [tlv] that the options allow. *)
Theorem C04_decode_complete : forall l expected leftovers copy t body rest, bytes_ok l ->
  tlv l (t_cls t) (t_constructed t) (t_number t) body rest ->
  (expected = None \/ expected = Some t) -> (leftovers = true \/ rest = []) ->
  exists b tail, ber_decode (ABytes l) expected leftovers copy = Ok (t, b, tail) /\
    adata_bytes b = body /\ sb_getslice tail None None = rest.
Proof. exact decode_complete. Qed.
Print Assumptions C04_decode_complete.
Example C04_example : ber_decode (ABytes [0x1f; 0x81]) None true false = Raise ParseError.
Proof. reflexivity. Qed.

(** * C05: INTEGER *)
Theorem C05_integer_exact : forall v, exists content, int_serialize v = Ok content /\
  bytes_ok content /\ content <> [] /\ tc_value content = v /\ minimal_first_octets content /\
  (forall l, bytes_ok l -> l <> [] -> tc_value l = v -> zlen content <= zlen l) /\
  int_deserialize INTEGER (ABytes content) = Ok (PInt INTEGER v).
Proof. exact integer_exact. Qed.
Print Assumptions C05_integer_exact.

Theorem C05_integer_decode : forall l, bytes_ok l ->
  int_deserialize INTEGER (ABytes l) = Ok (PInt INTEGER (tc_value l)).
Proof. exact integer_decode. Qed.
Print Assumptions C05_integer_decode.

Theorem C05_integer_tlv : forall v e rest, prim_encode (PInt INTEGER v) = Ok e -> bytes_ok rest ->
  exists tail, prim_decode (CInt INTEGER) (ABytes (e ++ rest)) true false = Ok (PInt INTEGER v, tail) /\
               sb_getslice tail None None = rest.
Proof. exact integer_tlv. Qed.
Print Assumptions C05_integer_tlv.
Example C05_example : prim_encode (PInt INTEGER (-129)) = Ok [2; 2; 0xff; 0x7f].
Proof. reflexivity. Qed.

(** * C06: bounded integers *)
(** [in_int_range] is the table of ranges (PrfAsn1). *)
Theorem C06_constructor_range : forall c v,
  int_new c v = if match c with
    | INTEGER => true
    | Integer32 => (-2147483648 <=? v) && (v <=? 2147483647)
    | Unsigned32 | Counter32 | Gauge32 | TimeTicks => (0 <=? v) && (v <=? 4294967295)
    | Counter64 => (0 <=? v) && (v <=? 18446744073709551615)
    end then Ok (PInt c v) else Raise ValueError.
Proof. exact constructor_range. Qed.
Print Assumptions C06_constructor_range.

Theorem C06_decode_range : forall c l, bytes_ok l -> let v := tc_value l in
  int_deserialize c (ABytes l) = if match c with
    | INTEGER => true
    | Integer32 => (-2147483648 <=? v) && (v <=? 2147483647)
    | Unsigned32 | Counter32 | Gauge32 | TimeTicks => (0 <=? v) && (v <=? 4294967295)
    | Counter64 => (0 <=? v) && (v <=? 18446744073709551615)
    end then Ok (PInt c v) else Raise ParseError.
Proof. exact decode_range. Qed.
Print Assumptions C06_decode_range.
Example C06_example : int_deserialize Counter32 (ABytes [0; 255; 255; 255; 255]) = Ok (PInt Counter32 4294967295)
  /\ int_deserialize Integer32 (ABytes [0; 128; 0; 0; 0]) = Raise ParseError.
Proof. split; reflexivity. Qed.

(** * C07: OIDs survive encoding (false of the code) *)
(** The full statement: every OID with at least two sub-identifiers decodes to itself. *)
Definition C07_statement : Prop := forall c l, (2 <= length l)%nat -> oid_new c l = Ok l ->
  exists content, oid_serialize l = Ok content /\ oid_deserialize c (ABytes content) = Ok (POid c l).
Theorem C07_refuted : ~ C07_statement.
Proof. exact oid_roundtrip_refuted. Qed.
Print Assumptions C07_refuted.

(** What holds: exactly the OIDs whose first two arcs satisfy
    (40 * first) & second = 0 survive (always if first = 0). *)
Theorem C07_oid_roundtrip_partial : forall c l, (2 <= length l)%nat -> oid_new c l = Ok l ->
  exists content, oid_serialize l = Ok content /\ bytes_ok content /\
    (oid_deserialize c (ABytes content) = Ok (POid c l) <->
     Z.land (40 * nth 0 l 0) (nth 1 l 0) = 0).
Proof. exact oid_roundtrip_iff. Qed.
Print Assumptions C07_oid_roundtrip_partial.

(** Every accepted OID is encodable, and decodes to an OID differing at most in
    the first two sub-identifiers. *)
Theorem C07_oid_tail_partial : forall c l, oid_new c l = Ok l ->
  exists content a b, oid_serialize l = Ok content /\
    oid_deserialize c (ABytes content) = Ok (POid c (a :: b :: skipn 2 l)).
Proof. exact oid_tail. Qed.
Print Assumptions C07_oid_tail_partial.

Theorem C07_short_oids : forall c a, 0 <= a <= 2 ->
  (oid_serialize [] = Ok [0] /\ oid_deserialize c (ABytes [0]) = Ok (POid c [0; 0])) /\
  exists content, oid_serialize [a] = Ok content /\ oid_deserialize c (ABytes content) = Ok (POid c [a; 0]).
Proof. exact short_oids. Qed.
Print Assumptions C07_short_oids.
Example C07_example : oid_new OID [1; 3; 6; 1; 4; 1; 311] = Ok [1; 3; 6; 1; 4; 1; 311] /\
  Z.land (40 * 1) 3 = 0 /\ Z.land (40 * 1) 8 <> 0.
Proof. split; [reflexivity|split; [reflexivity|discriminate]]. Qed.

(** * C08: truncated OID contents (false of the code) *)
Definition C08_statement : Prop := forall c l, bytes_ok l -> (l = [] \/ 128 <= last l 0) ->
  oid_deserialize c (ABytes l) = Raise ParseError.
Theorem C08_refuted : ~ C08_statement.
Proof. exact oid_truncated_refuted. Qed.
Print Assumptions C08_refuted.

(** What holds: empty contents are rejected; contents ending in a run of bytes
    with the continuation bit are rejected unless that run consists only of
    0x80 bytes, in which case the run is silently ignored. *)
Theorem C08_truncated_partial : forall c b0 pre run, bytes_ok (b0 :: pre) ->
  Forall (fun b => 128 <= b < 256) run -> (pre = [] \/ last pre 0 < 128) ->
  oid_deserialize c (ABytes []) = Raise ParseError /\
  (Exists (fun b => b <> 128) run ->
     oid_deserialize c (ABytes (b0 :: pre ++ run)) = Raise ParseError) /\
  (Forall (fun b => b = 128) run ->
     oid_deserialize c (ABytes (b0 :: pre ++ run)) = oid_deserialize c (ABytes (b0 :: pre))).
Proof. exact oid_truncated_cases. Qed.
Print Assumptions C08_truncated_partial.
Example C08_example : oid_deserialize OID (ABytes [43; 6; 0x81]) = Raise ParseError.
Proof. reflexivity. Qed.

(** * C09: order *)
Theorem C09_lex_order : forall a b, oid_ltb a b = true <-> lex_lt a b.
Proof. exact oid_ltb_lex. Qed.
Print Assumptions C09_lex_order.
Theorem C09_strict_total_order :
  (forall a, oid_ltb a a = false) /\
  (forall a b c, oid_ltb a b = true -> oid_ltb b c = true -> oid_ltb a c = true) /\
  (forall a b, oid_ltb a b = true \/ a = b \/ oid_ltb b a = true).
Proof. exact (conj oid_ltb_irrefl (conj oid_ltb_trans oid_ltb_total)). Qed.
Print Assumptions C09_strict_total_order.
Theorem C09_equality : forall c c' a b, prim_eqb (POid c a) (POid c' b) = true <-> a = b.
Proof. exact oid_eq_spec. Qed.
Print Assumptions C09_equality.
Theorem C09_startswith : forall l prefix,
  (oid_startswith l prefix = true <-> exists rest, l = prefix ++ rest) /\
  (oid_startswith l prefix = true -> oid_ltb l prefix = false).
Proof. exact startswith_spec. Qed.
Print Assumptions C09_startswith.
Example C09_example : oid_ltb [1;3;6] [1;3;6;0] = true /\ oid_startswith [1;3;6;0] [1;3;6] = true.
Proof. split; reflexivity. Qed.

(** * C10: text form *)
Theorem C10_parse_str : forall c l, oid_new c l = Ok l -> oid_parse c (oid_str l) = Ok l.
Proof. exact parse_str. Qed.
Print Assumptions C10_parse_str.
(** The leading dot: for every OID but the empty one ("." is rejected). *)
Theorem C10_parse_dot_str : forall c l, oid_new c l = Ok l -> l <> [] ->
  oid_parse c (46 :: oid_str l) = Ok l.
Proof. exact parse_dot_str. Qed.
Print Assumptions C10_parse_dot_str.
Theorem C10_parse_raises : forall c s e, oid_parse c s = Raise e -> e = ValueError.
Proof. exact parse_raises. Qed.
Print Assumptions C10_parse_raises.
Example C10_example : oid_str [1; 3; 4294967295] = [49;46;51;46;52;50;57;52;57;54;55;50;57;53]
  /\ oid_parse OID [49;46;51;46;52;50;57;52;57;54;55;50;57;53] = Ok [1; 3; 4294967295].
Proof. split; reflexivity. Qed.

(** * C11: table indices (false of the code for IpAddress) *)
Definition C11_statement : Prop := forall c prefix index implied l,
  Forall prim_constructible index -> withIndex c prefix index implied = Ok l ->
  decodeIndex l prefix (map prim_cls index) implied = Ok index.
Theorem C11_refuted : ~ C11_statement.
Proof. exact index_refuted. Qed.
Print Assumptions C11_refuted.
Theorem C11_index_roundtrip_partial : forall c prefix index implied l,
  Forall prim_constructible index ->
  (forall p, In p index -> is_ip p = false) ->
  withIndex c prefix index implied = Ok l ->
  decodeIndex l prefix (map prim_cls index) implied = Ok index.
Proof. exact index_roundtrip_no_ip. Qed.
Print Assumptions C11_index_roundtrip_partial.
(** An IpAddress works only as the last field with implied=True. *)
Theorem C11_index_roundtrip_ip_partial : forall c prefix index d l,
  Forall prim_constructible (index ++ [POctets IpAddress d]) ->
  (forall p, In p index -> is_ip p = false) ->
  withIndex c prefix (index ++ [POctets IpAddress d]) true = Ok l ->
  decodeIndex l prefix (map prim_cls (index ++ [POctets IpAddress d])) true
  = Ok (index ++ [POctets IpAddress d]).
Proof. exact index_roundtrip_ip. Qed.
Print Assumptions C11_index_roundtrip_ip_partial.
Example C11_example : exists l,
  let index := [PInt Integer32 7; POctets OctetString [104; 105]; POid OID [1; 3]] in
  withIndex OID [1;3;6] index false = Ok l /\ decodeIndex l [1;3;6] (map prim_cls index) false = Ok index.
Proof. eexists. split; reflexivity. Qed.

(** * C12: decodeIndex exceptions (false of the code) *)
Definition C12_statement : Prop := forall c l prefix types implied,
  oid_new c l = Ok l -> oid_new c prefix = Ok prefix ->
  match decodeIndex l prefix types implied with
  | Ok ps => map prim_cls ps = types /\ (exists rest, l = prefix ++ rest)
  | Raise e => e = BadPrefix /\ ~ (exists rest, l = prefix ++ rest) \/
               e = IndexDecodeError /\ (exists rest, l = prefix ++ rest)
  end.
Theorem C12_refuted : ~ C12_statement.
Proof. exact decodeIndex_refuted. Qed.
Print Assumptions C12_refuted.
(** What holds: the only other exceptions are ValueError, when an octet-string
    field meets a sub-identifier above 255, and RuntimeError, when an OID field
    is truncated. *)
Theorem C12_decodeIndex_partial : forall l prefix types implied,
  match decodeIndex l prefix types implied with
  | Ok ps => map prim_cls ps = types /\ (exists rest, l = prefix ++ rest)
  | Raise e => e = BadPrefix /\ ~ (exists rest, l = prefix ++ rest) \/
      (exists rest, l = prefix ++ rest /\
        (e = IndexDecodeError \/
         (e = ValueError /\ (exists c, In (COctets c) types) /\ ~ bytes_ok rest) \/
         (e = RuntimeError /\ (exists c, In (COid c) types))))
  end.
Proof. exact decodeIndex_cases. Qed.
Print Assumptions C12_decodeIndex_partial.
Example C12_example : decodeIndex [1;3;5] [1;3;6] [CInt Integer32] false = Raise BadPrefix
  /\ decodeIndex [1;3;6] [1;3;6] [CInt Integer32] false = Raise IndexDecodeError.
Proof. split; reflexivity. Qed.

(** * C21: NumberGenerator *)
(** [numgen_nth g k] is the k-th number returned by next() (k >= 1). *)
Theorem C21_range : forall n (signed : bool) r k, 1 <= n -> 1 <= r <= 2 ^ (n - 1) ->
  let x := numgen_nth (numgen_init n signed r) k in
  if signed then - 2 ^ (n - 1) <= x < 2 ^ (n - 1) else 0 <= x < 2 ^ n.
Proof. exact numgen_range. Qed.
Print Assumptions C21_range.
Theorem C21_distinct : forall n (signed : bool) r i j, 1 <= n -> 1 <= r <= 2 ^ (n - 1) ->
  (numgen_nth (numgen_init n signed r) i = numgen_nth (numgen_init n signed r) j <->
   (2 ^ n | Z.of_nat i - Z.of_nat j)).
Proof. exact numgen_eq_iff. Qed.
Print Assumptions C21_distinct.
Theorem C21_zero_last : forall n (signed : bool) r k, 1 <= n -> 1 <= r <= 2 ^ (n - 1) ->
  (numgen_nth (numgen_init n signed r) k = 0 <-> (2 ^ n | Z.of_nat k)).
Proof. exact numgen_zero. Qed.
Print Assumptions C21_zero_last.
Theorem C21_every_number : forall n (signed : bool) r x, 1 <= n -> 1 <= r <= 2 ^ (n - 1) ->
  (if signed then - 2 ^ (n - 1) <= x < 2 ^ (n - 1) else 0 <= x < 2 ^ n) ->
  exists k, 1 <= Z.of_nat k <= 2 ^ n /\ numgen_nth (numgen_init n signed r) k = x.
Proof. exact numgen_every. Qed.
Print Assumptions C21_every_number.
Theorem C21_nth_is_next : forall g k,
  numgen_nth g (S k) = fst (numgen_next (numgen_after g k)) /\
  numgen_after g (S k) = snd (numgen_next (numgen_after g k)).
Proof. exact numgen_nth_next. Qed.
Print Assumptions C21_nth_is_next.
Example C21_example : map (numgen_nth (numgen_init 3 true 2)) [1;2;3;4;5;6;7;8]%nat = [3;-2;1;-4;-1;2;-3;0].
Proof. reflexivity. Qed.

(** * C22: subbytes (false of the code in general) *)
(** A chain of subbytes() constructions; only those whose bounds are in order
    (after Python's clamping, start <= stop). *)
Theorem C22_refuted : exists l a b, bytes_ok l /\
  sb_len (sb_new (ABytes l) (Some a) (Some b)) <> Ok (zlen (py_slice l (Some a) (Some b))) /\
  sb_replace (sb_new (ABytes l) (Some a) (Some b)) [] <> l /\ py_slice l (Some a) (Some b) = [].
Proof. exact subbytes_refuted. Qed.
Print Assumptions C22_refuted.
Theorem C22_negative_step_refuted : exists l, bytes_ok l /\
  sb_getslice_step (sb_new (ABytes l) None None) None None (-1) <> py_slice_ext l None None (-1).
Proof. exact subbytes_step_refuted. Qed.
Print Assumptions C22_negative_step_refuted.

(** [represents s v]: s was built from bytes by nested subbytes(data, start, stop)
    with bounds in order, and v by the corresponding Python slices. *)
Theorem C22_subbytes_partial : forall s v, represents s v ->
  sb_len s = Ok (zlen v) /\
  sb_bool s = negb (zlen v =? 0) /\
  sb_iter s = Ok v /\
  (forall i, sb_getitem s i = py_index v i) /\
  (forall a b, sb_getslice s a b = py_slice v a b) /\
  (forall a b step, 0 < step -> sb_getslice_step s a b step = py_slice_ext v a b step) /\
  (forall other, sb_eq_bytes s other = Ok (zlist_eqb v other)) /\
  (forall n, represents (fst (sb_split s n)) (py_slice v None (Some n)) /\
             represents (snd (sb_split s n)) (py_slice v (Some n) None)) /\
  (exists before after, sb_data s = before ++ v ++ after /\
     zlen before = sb_start s /\ forall r, sb_replace s r = before ++ r ++ after).
Proof. exact subbytes_spec. Qed.
Print Assumptions C22_subbytes_partial.
Example C22_example : represents (sb_new (ASub (sb_new (ABytes [1;2;3;4;5;6]) (Some 1) (Some (-1)))) (Some (-3)) None)
  (py_slice (py_slice [1;2;3;4;5;6] (Some 1) (Some (-1))) (Some (-3)) None).
Proof. apply rep_sub; [apply rep_bytes|]; vm_compute; discriminate. Qed.
