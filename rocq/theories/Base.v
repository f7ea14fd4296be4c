(** Base.v -- Python primitives used by the model (definitions only).

    Python [bytes] and [str] are [list Z] (bytes: 0..255, str: code points),
    Python [int] is [Z].  Exceptions are values of [exc]. *)
From Coq Require Export ZArith List Bool.
Export ListNotations.
Open Scope Z_scope.

(** Exceptions.  The classes of snmp/exception.py:1-15 and every exception
    class defined or used in the modelled files.  Arguments (messages) of the
    exceptions are not modelled. *)
Inductive exc : Type :=
(* built-in exceptions *)
| ValueError | IndexError | KeyError | TypeError | StopIteration | RuntimeError
| OverflowError | ZeroDivisionError | OSError | AssertionError
| UnboundLocalError | UnicodeDecodeError | AttributeError
(* snmp/exception.py *)
| SNMPLibraryBug | UnsupportedFeature
(* snmp/ber.py *)
| ParseError | EncodeError
(* snmp/asn1.py *)
| BadPrefix | IndexDecodeError
(* snmp/message/ *)
| BadVersion | CacheError | InvalidMessage | LateResponse | ResponseMismatch
| UnknownSecurityModel
(* snmp/security/usm/ *)
| DecryptionError | UnsupportedSecLevel | NotInTimeWindow | UnknownUserName
| UnknownEngineID | WrongDigest | InvalidSecurityLevel
| InvalidUserName | InvalidEngineID | UserNameCollision
(* snmp/manager/, snmp/engine.py *)
| Timeout | DiscoveryError | NoDefaultUser
(* not a Python exception: the model ran out of fuel (non-termination) *)
| Diverges.

Definition exc_eq_dec : forall a b : exc, {a = b} + {a <> b}.
Proof. decide equality. Defined.

(** [IncomingMessageError] and its subclasses: exception.py:13, ber.py:17,
    message/version.py:13, message/v1.py:25-28, message/v2c.py:27-30,
    message/v3.py:36-48, security/usm/__init__.py:9,
    security/usm/implementation.py:20-33, manager/v3.py:79. *)
Definition is_IncomingMessageError (e : exc) : bool :=
  match e with
  | ParseError | BadVersion | InvalidMessage | LateResponse | ResponseMismatch
  | UnknownSecurityModel | DecryptionError | UnsupportedSecLevel
  | NotInTimeWindow | UnknownUserName | UnknownEngineID | WrongDigest
  | DiscoveryError => true
  | _ => false
  end.

(** [SNMPException] and its subclasses (exception.py:1). *)
Definition is_SNMPException (e : exc) : bool :=
  is_IncomingMessageError e ||
  match e with
  | EncodeError | BadPrefix | IndexDecodeError | CacheError | Timeout
  | NoDefaultUser => true
  | _ => false
  end.

(** [ValueError] and its subclasses (users.py:14-20, implementation.py:35;
    UnicodeDecodeError is a built-in subclass). *)
Definition is_ValueError (e : exc) : bool :=
  match e with
  | ValueError | InvalidUserName | InvalidEngineID | UserNameCollision
  | InvalidSecurityLevel | UnicodeDecodeError => true
  | _ => false
  end.

(** [AssertionError] and its subclasses (exception.py:5,9). *)
Definition is_AssertionError (e : exc) : bool :=
  match e with
  | AssertionError | SNMPLibraryBug | UnsupportedFeature => true
  | _ => false
  end.

(** [except Exception] catches every real Python exception of this model. *)
Definition is_Exception (e : exc) : bool :=
  match e with Diverges => false | _ => true end.

Definition exc_eqb (a b : exc) : bool := if exc_eq_dec a b then true else false.

(** Results: a value or a raised exception. *)
Inductive res (A : Type) : Type :=
| Ok (a : A)
| Raise (e : exc).
Arguments Ok {A} a.
Arguments Raise {A} e.

Definition bind {A B : Type} (x : res A) (f : A -> res B) : res B :=
  match x with Ok a => f a | Raise e => Raise e end.

Notation "'do' x <- m ; k" := (bind m (fun x => k))
  (at level 200, x pattern, m at level 100, k at level 200, right associativity).

(** [try: m except (classes satisfying p): raise e'] *)
Definition reraise {A : Type} (p : exc -> bool) (e' : exc) (m : res A) : res A :=
  match m with
  | Ok a => Ok a
  | Raise e => if p e then Raise e' else Raise e
  end.

(** [try: m except (classes satisfying p): h] *)
Definition catch {A : Type} (p : exc -> bool) (h : res A) (m : res A) : res A :=
  match m with
  | Ok a => Ok a
  | Raise e => if p e then h else Raise e
  end.

Definition is_ok {A : Type} (r : res A) : bool :=
  match r with Ok _ => true | Raise _ => false end.

(** Lists of integers: Python [bytes], [str] and tuples of [int]. *)
Definition bytes := list Z.
Definition pystr := list Z.

Definition is_byte (b : Z) : bool := (0 <=? b) && (b <? 256).
Definition bytes_okb (l : bytes) : bool := forallb is_byte l.
Definition bytes_ok (l : bytes) : Prop := Forall (fun b => 0 <= b < 256) l.

(** Python [len(l)] as an int. *)
Definition zlen {A : Type} (l : list A) : Z := Z.of_nat (length l).

(** Python [l[i]] for an int [i]: negative indices count from the end. *)
Definition py_index {A : Type} (l : list A) (i : Z) : res A :=
  let j := if i <? 0 then i + zlen l else i in
  if (j <? 0) || (zlen l <=? j) then Raise IndexError
  else match nth_error l (Z.to_nat j) with
       | Some x => Ok x
       | None => Raise IndexError
       end.

(** Python's clamping of one slice bound (step 1). *)
Definition slice_bound (len i : Z) : Z :=
  if i <? 0 then Z.max 0 (i + len) else Z.min i len.

(** Python [l[start:stop]]. *)
Definition py_slice {A : Type} (l : list A) (start stop : option Z) : list A :=
  let n := zlen l in
  let a := match start with None => 0 | Some i => slice_bound n i end in
  let b := match stop with None => n | Some i => slice_bound n i end in
  firstn (Z.to_nat (b - a)) (skipn (Z.to_nat a) l).

(** Python [l[start:stop:step]] (CPython's PySlice_AdjustIndices). *)
Definition slice_bound_step (len step i : Z) : Z :=
  if i <? 0 then
    (if i + len <? 0 then (if step <? 0 then -1 else 0) else i + len)
  else
    (if len <=? i then (if step <? 0 then len - 1 else len) else i).

Definition py_slice_ext {A : Type} (l : list A) (start stop : option Z) (step : Z)
  : res (list A) :=
  if step =? 0 then Raise ValueError else
  let n := zlen l in
  let a := match start with
           | None => if step <? 0 then n - 1 else 0
           | Some i => slice_bound_step n step i
           end in
  let b := match stop with
           | None => if step <? 0 then -1 else n
           | Some i => slice_bound_step n step i
           end in
  let count := if step <? 0
               then (if b <? a then (a - b - 1) / (- step) + 1 else 0)
               else (if a <? b then (b - a - 1) / step + 1 else 0) in
  Ok (flat_map (fun k => match nth_error l (Z.to_nat (a + Z.of_nat k * step)) with
                         | Some x => [x] | None => [] end)
               (seq 0 (Z.to_nat count))).

(** Python [bytes(iterable_of_ints)]: ValueError outside 0..255. *)
Definition py_bytes (l : list Z) : res bytes :=
  if bytes_okb l then Ok l else Raise ValueError.

(** Python [bytes(n)] for an int n: n zero bytes. *)
Definition zero_bytes (n : Z) : bytes := repeat 0 (Z.to_nat n).

(** Unsigned big-endian value: [int.from_bytes(l, "big")]. *)
Definition from_be (l : bytes) : Z := fold_left (fun acc b => acc * 256 + b) l 0.

(** [int.from_bytes(l, "big", signed=True)]; the empty string gives 0. *)
Definition from_be_signed (l : bytes) : Z :=
  match l with
  | [] => 0
  | b :: _ => if 128 <=? b then from_be l - 256 ^ (zlen l) else from_be l
  end.

(** The n low-order bytes of v, big-endian. *)
Fixpoint be_bytes (n : nat) (v : Z) : bytes :=
  match n with
  | O => []
  | S n' => be_bytes n' (v / 256) ++ [v mod 256]
  end.

(** [v.to_bytes(n, "big")]: OverflowError if negative or too big. *)
Definition to_bytes_unsigned (n : nat) (v : Z) : res bytes :=
  if (0 <=? v) && (v <? 256 ^ Z.of_nat n) then Ok (be_bytes n v) else Raise OverflowError.

(** [v.to_bytes(n, "big", signed=True)] for n >= 1. *)
Definition to_bytes_signed (n : nat) (v : Z) : res bytes :=
  let half := 2 ^ (8 * Z.of_nat n - 1) in
  if (- half <=? v) && (v <? half) then Ok (be_bytes n v) else Raise OverflowError.

(** [v.bit_length()] *)
Definition bit_length (v : Z) : Z :=
  if v =? 0 then 0 else Z.log2 (Z.abs v) + 1.

(** Equality of int sequences ([bytes], [str], tuples of int). *)
Fixpoint zlist_eqb (a b : list Z) : bool :=
  match a, b with
  | [], [] => true
  | x :: a', y :: b' => (x =? y) && zlist_eqb a' b'
  | _, _ => false
  end.

(** Python dict: association list in insertion order. *)
Section Dict.
  Context {K V : Type} (eqb : K -> K -> bool).
  Definition dict := list (K * V).
  Fixpoint dict_get (d : dict) (k : K) : option V :=
    match d with
    | [] => None
    | (k', v) :: d' => if eqb k k' then Some v else dict_get d' k
    end.
  Definition dict_mem (d : dict) (k : K) : bool :=
    match dict_get d k with Some _ => true | None => false end.
  Fixpoint dict_set (d : dict) (k : K) (v : V) : dict :=
    match d with
    | [] => [(k, v)]
    | (k', v') :: d' => if eqb k k' then (k', v) :: d' else (k', v') :: dict_set d' k v
    end.
  Fixpoint dict_del (d : dict) (k : K) : dict :=
    match d with
    | [] => []
    | (k', v') :: d' => if eqb k k' then d' else (k', v') :: dict_del d' k
    end.
End Dict.
Arguments dict : clear implicits.
