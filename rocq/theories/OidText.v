(** OidText.v -- OBJECT_IDENTIFIER.__str__ and parse (asn1.py:306-319), with the
    Python text primitives they use (definitions only).  A [pystr] is a list of
    code points; only ASCII text is given a meaning by [py_int] (Python's int()
    also accepts other Unicode digits and spaces; not modelled, nor is the
    4300-digit limit of recent Pythons). *)
From Verif Require Export Asn1.

(** str(n) for n >= 0: decimal digits, most significant first. *)
Fixpoint dec_digits (fuel : nat) (n : Z) (acc : pystr) : pystr :=
  match fuel with
  | O => acc
  | S fuel' =>
    let acc := (48 + n mod 10) :: acc in
    if n / 10 =? 0 then acc else dec_digits fuel' (n / 10) acc
  end.

(** str(n) *)
Definition py_str_int (n : Z) : pystr :=
  let m := Z.abs n in
  let ds := dec_digits (S (Z.to_nat (bit_length m))) m [] in
  if n <? 0 then 45 :: ds else ds.

(** ".".join(parts) *)
Fixpoint join_dot (parts : list pystr) : pystr :=
  match parts with
  | [] => []
  | [p] => p
  | p :: rest => p ++ 46 :: join_dot rest
  end.

(** asn1.py:306-307 *)
Definition oid_str (l : list Z) : pystr := join_dot (map py_str_int l).

(** s.split(".") *)
Fixpoint split_dot (s : pystr) : list pystr :=
  match s with
  | [] => [[]]
  | c :: s' =>
    if c =? 46 then [] :: split_dot s'
    else match split_dot s' with
         | [] => [[c]]
         | p :: ps => (c :: p) :: ps
         end
  end.

Definition is_space (c : Z) : bool := (c =? 32) || ((9 <=? c) && (c <=? 13)) || ((28 <=? c) && (c <=? 31)).
Fixpoint lstrip (s : pystr) : pystr :=
  match s with c :: s' => if is_space c then lstrip s' else s | [] => [] end.
Definition strip (s : pystr) : pystr := rev (lstrip (rev (lstrip s))).

Definition is_digit (c : Z) : bool := (48 <=? c) && (c <=? 57).

(** Digits with single underscores between digits allowed; [prev] tells whether
    the previous character was a digit. *)
Fixpoint int_digits (s : pystr) (acc : Z) (prev : bool) : res Z :=
  match s with
  | [] => if prev then Ok acc else Raise ValueError
  | c :: s' =>
    if is_digit c then int_digits s' (acc * 10 + (c - 48)) true
    else if (c =? 95) && prev then int_digits s' acc false
    else Raise ValueError
  end.

(** int(s), base 10 *)
Definition py_int (s : pystr) : res Z :=
  match strip s with
  | c :: s' =>
    if c =? 45 then do n <- int_digits s' 0 false; Ok (- n)
    else if c =? 43 then int_digits s' 0 false
    else int_digits (c :: s') 0 false
  | [] => Raise ValueError
  end.

Fixpoint map_res {A B : Type} (f : A -> res B) (l : list A) : res (list B) :=
  match l with
  | [] => Ok []
  | x :: l' => do y <- f x; do ys <- map_res f l'; Ok (y :: ys)
  end.

(** asn1.py:309-319 *)
Definition oid_parse (c : dcls) (s : pystr) : res (list Z) :=
  let numbers := split_dot s in
  let numbers := match numbers with [] :: rest => rest | _ => numbers end in
  reraise is_ValueError ValueError
    (do l <- map_res py_int numbers; oid_new c l).
