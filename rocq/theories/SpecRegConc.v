(** SpecRegConc.v -- the vocabulary of C66 at the level of single statements. *)
From Verif Require Export RegConc SpecReg.

(** How many of the requests and managers in the namespace [ns] have the engine ID [e]. *)
Definition held (ns : pystr) (e : bytes) (l : list cell) : Z :=
  fold_right (fun x n => (if zlist_eqb (ce_ns x) ns then holds e (ce_engine x) else 0) + n) 0 l.
(** Each engine is registered once for each of them, and as often as [others] say. *)
Definition balanced (others : pystr -> bytes -> Z) (g : regs) : Prop :=
  forall ns e, registered (rg_users g) ns e = held ns e (rg_cells g) + others ns e.
(** A start: nobody is in a setter, and the registry is the result of any
    operations before. *)
Definition reg_start (others : pystr -> bytes -> Z) (g : regs) : Prop :=
  rg_setters g = [] /\ rg_log g = [] /\ (exists C rnd h, rg_users g = fst (user_run C rnd registry0 h)) /\
  (forall ns e, 0 <= others ns e) /\ balanced others g.
(** What a setter may raise: the engine is registered in another namespace, or the
    registration itself fails. *)
Definition released_twice (r : res unit) : Prop := r = Raise SNMPLibraryBug \/ r = Raise AssertionError.
(** No two threads are in the setter of one request or manager at the same time. *)
Definition apart (C : crypto) (rnd : nat -> Z) (g : regs) (evs : list reg_event) : Prop :=
  forall before c new after, evs = before ++ RBegin c new :: after ->
    ~ In c (map st_cell (rg_setters (reg_steps C rnd g before))).
