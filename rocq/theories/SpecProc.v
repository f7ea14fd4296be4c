(** SpecProc.v -- vocabulary of C23-C27. *)
From Verif Require Export ProcConc SpecUtils.

(** The request with cache entry [e] holds the ID [id]: it was allocated to it,
    and the handle has been neither closed nor collected since. *)
Fixpoint outstanding {E I M} (K : proto E I M) (l : list (log E I M)) (e : E) (id : Z) : Prop :=
  match l with
  | [] => False
  | x :: older => x = LAlloc e id \/
      (x <> LClose (k_handle K e) /\ x <> LDie (k_handle K e) /\ outstanding K older e id)
  end.

(** IDs a processor may use. *)
Definition id_in_range (G : genspec) (id : Z) : Prop :=
  if gs_signed G then - 2 ^ (gs_bits G - 1) <= id < 2 ^ (gs_bits G - 1) else 0 <= id < 2 ^ gs_bits G.
(** What random.randint can return for a generator. *)
Definition draws_ok (G : genspec) (rnd : nat -> Z) : Prop :=
  forall k, 1 <= rnd k <= 2 ^ (gs_bits G - 1).

(** Somebody still remembers [id] and will remove it from the cache (or may):
    a callback, a pending uncache(), or, where a dead handle leads to uncache(),
    a listener about to look at the handle. *)
Definition remembered {E I M} (K : proto E I M) (s : conc E M) (id : Z) : bool :=
  existsb (fun p => snd p =? id) (cs_cb s) ||
  existsb (fun t => match t with
                    | TRegister _ i | TUncache _ i | TDrop i => i =? id
                    | TDeref _ m => k_drop_dead K && (k_id K m =? id)
                    | _ => false
                    end) (cs_tasks s).
(** No ID is allocated while it is remembered from an earlier use. *)
Fixpoint race_free {E I M} (K : proto E I M) (rnd : nat -> Z) (sl : conc E M * list (log E I M))
    (evs : list (event E I)) : Prop :=
  match evs with
  | [] => True
  | x :: evs' =>
    (forall e id, In (LAlloc e id) (snd (conc_step K rnd (fst sl) x)) -> remembered K (fst sl) id = false) /\
    race_free K rnd (conc_next K rnd sl x) evs'
  end.

(** A generator position: some NumberGenerator after any number of next(). *)
Definition gen_at (G : genspec) (g : numgen) : Prop :=
  exists r k, 1 <= r <= 2 ^ (gs_bits G - 1) /\ g = numgen_after (numgen_init (gs_bits G) (gs_signed G) r) k.
(** [n] attempts in a row that found no free ID. *)
Fixpoint attempts_fail {E} (G : genspec) (rnd : nat -> Z) (e : E) (n : nat) (c c' : cache_st E) : Prop :=
  match n with
  | O => c' = c
  | S n' => exists c1, cache_attempt G rnd c e = (None, c1) /\ attempts_fail G rnd e n' c1 c'
  end.

(** Security level [l] is at least [m] (only noAuthNoPriv, authNoPriv and
    authPriv can be constructed). *)
Definition level_at_least (l m : seclevel) : Prop :=
  (sl_auth m = true -> sl_auth l = true) /\ (sl_auth m = true -> sl_priv m = true -> sl_priv l = true).
(** [before] (newest first) the delivery, [m] arrived as [i] and was looked up
    at a moment when [id] had been given to the request [e] and the
    close() of that request had not completed. *)
Definition looked_up {E I M} (K : proto E I M) (before : list (log E I M)) (e : E) (m : M) (id : Z) (i : I) : Prop :=
  exists mid pre, before = mid ++ LFound e m :: pre /\ In (LReceive i) pre /\
    In (LAlloc e id) pre /\ ~ In (LUncached (k_handle K e) id) pre.
