(** SpecUtils.v -- vocabulary of C12, C21, C22. *)
From Verif Require Export Asn1.

(** * NumberGenerator *)
(** The generator after k calls of next(), and the k-th number (k >= 1). *)
Fixpoint numgen_after (g : numgen) (k : nat) : numgen :=
  match k with O => g | S k' => snd (numgen_next (numgen_after g k')) end.
Definition numgen_nth (g : numgen) (k : nat) : Z := ng_previous (numgen_after g k).

(** * subbytes: Python's clamped slice bounds *)
Definition lower (n : Z) (o : option Z) : Z := match o with None => 0 | Some i => slice_bound n i end.
Definition upper (n : Z) (o : option Z) : Z := match o with None => n | Some i => slice_bound n i end.
(** Chains of subbytes constructions with bounds in order. *)
Inductive represents : subbytes -> bytes -> Prop :=
| rep_bytes : forall l a b, lower (zlen l) a <= upper (zlen l) b ->
    represents (sb_new (ABytes l) a b) (py_slice l a b)
| rep_sub : forall s v a b, represents s v -> lower (zlen v) a <= upper (zlen v) b ->
    represents (sb_new (ASub s) a b) (py_slice v a b).
(** * OID indices: IpAddress values *)
Definition is_ip (p : prim) : bool := match p with POctets IpAddress _ => true | _ => false end.
