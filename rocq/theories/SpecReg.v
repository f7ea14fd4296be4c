(** SpecReg.v -- the vocabulary of C66: how often a remote engine is registered,
    and by whom. *)
From Verif Require Export SpecMgr3.

(** How often [e] is registered in the namespace [ns] (users.py:82-121). *)
Definition registered (u : registry) (ns : pystr) (e : bytes) : Z :=
  match dict_get zlist_eqb (ur_engines u) e with
  | Some r => if zlist_eqb (re_namespace r) ns then re_count r else 0
  | None => 0
  end.
(** Who holds a registration of [e]: the requests, and the manager. *)
Definition holds (e : bytes) (o : option bytes) : Z :=
  match o with Some e' => if zlist_eqb e' e then 1 else 0 | None => 0 end.
Definition holders (s : mgr3) (e : bytes) : Z :=
  holds e (v_engine s) + fold_right (fun q n => holds e (q_engine q) + n) 0 (v_reqs s).

(** The registrations in the namespace [ns] of the others that use the security
    module: [before] the history, and by the events.  Only a call that succeeds
    counts. *)
Definition changed (W : world) (s : mgr3) (x : event3) (e : bytes) : Z :=
  match x with
  | VUsers op =>
    match op, snd (user_step (w_crypto W) (w_rnd W 2) (us_users (v_usm s)) op) with
    | OpRegister e' ns, Ok true => if zlist_eqb ns (w_namespace W) then holds e (Some e') else 0
    | OpRelease e' ns, Ok _ => if zlist_eqb ns (w_namespace W) then - holds e (Some e') else 0
    | _, _ => 0
    end
  | _ => 0
  end.
Fixpoint others_from (W : world) (s : mgr3) (evs : list event3) (e : bytes) : Z :=
  match evs with
  | [] => 0
  | x :: evs => changed W s x e + others_from W (fst (step3 W s x)) evs e
  end.
Definition others (W : world) (evs : list event3) (e : bytes) : Z :=
  registered (us_users (w_usm W)) (w_namespace W) e + others_from W (fst (new3 W)) evs e.
(** The others release only what they registered. *)
Definition others_fair (W : world) (evs : list event3) : Prop :=
  forall before after e, evs = before ++ after -> 0 <= others W before e.
