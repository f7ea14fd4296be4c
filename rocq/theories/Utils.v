(** Utils.v -- model of snmp/utils.py (definitions only). *)
From Verif Require Export Base.

(** * NumberGenerator (utils.py:54-90) *)

Record numgen := mkGen {
  ng_previous : Z; ng_range : Z; ng_step : Z; ng_wrap : Z
}.

(** utils.py:69-78.  [r] is the value returned by [randint(1, half)]
    (assumed 1 <= r <= half where it matters); n >= 1 (for n < 1 the real code
    raises ValueError from the negative shift, not modelled). *)
Definition numgen_init (n : Z) (signed : bool) (r : Z) : numgen :=
  let half := Z.shiftl 1 (n - 1) in
  let range := Z.shiftl half 1 in
  let step := 2 * r - 1 in
  let wrap := range - 1 in
  let wrap := if signed then wrap - half else wrap in
  mkGen 0 range step wrap.

(** utils.py:83-90: returns the number and the updated generator. *)
Definition numgen_next (g : numgen) : Z * numgen :=
  let p := ng_previous g + ng_step g in
  let p := if ng_wrap g <? p then p - ng_range g else p in
  (p, mkGen p (ng_range g) (ng_step g) (ng_wrap g)).

(** * subbytes (utils.py:92-281) *)

Record subbytes := mkSub { sb_data : bytes; sb_start : Z; sb_stop : Z }.

(** [Asn1Data = Union[bytes, subbytes]] (ber.py:9). *)
Inductive asn1data := ABytes (l : bytes) | ASub (s : subbytes).

(** utils.py:211-247 *)
Definition sb_translate (s : subbytes) (index : Z) (clamp : bool) : Z :=
  if index <? 0 then
    let index := index + sb_stop s in
    if index <? sb_start s then
      (if clamp then sb_start s else zlen (sb_data s))
    else index
  else
    let index := index + sb_start s in
    if sb_stop s <=? index then
      (if clamp then sb_stop s else zlen (sb_data s))
    else index.

(** utils.py:114-133 *)
Definition sb_new (data : asn1data) (start stop : option Z) : subbytes :=
  let base := match data with
              | ASub s => s
              | ABytes l => mkSub l 0 (zlen l)
              end in
  let newstart := match start with
                  | None => sb_start base
                  | Some i => sb_translate base i true
                  end in
  let newstop := match stop with
                 | None => sb_stop base
                 | Some i => sb_translate base i true
                 end in
  mkSub (sb_data base) newstart newstop.

(** utils.py:147-149 *)
Definition sb_bool (s : subbytes) : bool := sb_start s <? sb_stop s.

(** utils.py:195-197.  The built-in [len()] raises ValueError if [__len__]
    returns a negative number. *)
Definition sb_len (s : subbytes) : res Z :=
  let n := sb_stop s - sb_start s in
  if n <? 0 then Raise ValueError else Ok n.

(** utils.py:190-193: the bytes produced by iteration, [range(start, stop)]. *)
Definition sb_iter (s : subbytes) : res bytes :=
  fold_right (fun i acc => do x <- py_index (sb_data s) i; do l <- acc; Ok (x :: l))
             (Ok [])
             (map (fun k => sb_start s + Z.of_nat k)
                  (seq 0 (Z.to_nat (sb_stop s - sb_start s)))).

(** utils.py:175-188, int key *)
Definition sb_getitem (s : subbytes) (key : Z) : res Z :=
  py_index (sb_data s) (sb_translate s key false).

(** utils.py:175-188, slice key without a step *)
Definition sb_getslice (s : subbytes) (start stop : option Z) : bytes :=
  py_slice (sb_data s)
    (Some (match start with None => sb_start s | Some i => sb_translate s i true end))
    (Some (match stop with None => sb_stop s | Some i => sb_translate s i true end)).

(** utils.py:175-188, slice key with a step *)
Definition sb_getslice_step (s : subbytes) (start stop : option Z) (step : Z) : res bytes :=
  py_slice_ext (sb_data s)
    (Some (match start with None => sb_start s | Some i => sb_translate s i true end))
    (Some (match stop with None => sb_stop s | Some i => sb_translate s i true end))
    step.

(** utils.py:249-255 *)
Definition sb_advance (s : subbytes) : subbytes := sb_new (ASub s) (Some 1) None.

(** utils.py:257-262 *)
Definition sb_dereference (s : subbytes) : res Z := sb_getitem s 0.

(** utils.py:264-271 *)
Definition sb_replace (s : subbytes) (replacement : bytes) : bytes :=
  py_slice (sb_data s) None (Some (sb_start s)) ++ replacement
  ++ py_slice (sb_data s) (Some (sb_stop s)) None.

(** utils.py:273-281 *)
Definition sb_split (s : subbytes) (index : Z) : subbytes * subbytes :=
  (sb_new (ASub s) None (Some index), sb_new (ASub s) (Some index) None).

(** utils.py:151-165: [self == other] for [other] a bytes object or subbytes.
    [len()] may raise ValueError (not caught by [except TypeError]). *)
Definition sb_eq_bytes (s : subbytes) (other : bytes) : res bool :=
  do n <- sb_len s;
  if negb (n =? zlen other) then Ok false
  else do l <- sb_iter s; Ok (zlist_eqb l other).

(** Contents of an Asn1Data argument, as seen by [iter()], [bytes()],
    [int.from_bytes()] and [data[:]]. *)
Definition adata_bytes (d : asn1data) : bytes :=
  match d with ABytes l => l | ASub s => sb_getslice s None None end.

(** [while data:] / [bool(data)] on an Asn1Data value. *)
Definition adata_bool (d : asn1data) : bool :=
  match d with ABytes l => match l with [] => false | _ => true end | ASub s => sb_bool s end.

(** [len(data)] on an Asn1Data value. *)
Definition adata_len (d : asn1data) : res Z :=
  match d with ABytes l => Ok (zlen l) | ASub s => sb_len s end.

(** [data[0]]-style access on an Asn1Data value. *)
Definition adata_index (d : asn1data) (i : Z) : res Z :=
  match d with ABytes l => py_index l i | ASub s => sb_getitem s i end.

(** * ComparableWeakRef (utils.py:11-52)

    The referenced object is represented by its current key value, or [None]
    when it has been garbage-collected. *)
Record weakref := mkRef { wr_value : Z }.

(** utils.py:25-31 *)
Definition wr_new (key : Z) : weakref := mkRef key.

(** utils.py:33-40: reads the key and stores it when the object is alive. *)
Definition wr_get (w : weakref) (live_key : option Z) : Z * weakref :=
  match live_key with
  | Some k => (k, mkRef k)
  | None => (wr_value w, w)
  end.

(** utils.py:50-52 *)
Definition wr_lt (w1 : weakref) (k1 : option Z) (w2 : weakref) (k2 : option Z)
  : bool * weakref * weakref :=
  let '(v1, w1') := wr_get w1 k1 in
  let '(v2, w2') := wr_get w2 k2 in
  (v1 <? v2, w1', w2').
