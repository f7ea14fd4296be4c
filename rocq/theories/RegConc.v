(** RegConc.v -- the setters of the engineID properties (snmp/manager/v3.py), one
    Python statement at a time.

    ManagerV3.v makes each setter one step.  The setters take no lock of their own:
    Request.engineID is set by the listener and by poke() under manager.lock, but
    by close() (335-339: at the end of wait(), or in __del__) without it, so close()
    and the listener can be in the setter of one request at the same time.  This
    file has the statements of the setters (311-321 for requests, 500-510 for
    managers: the same statements) as steps of any number of threads, on any number
    of requests and managers that share one security module.  The calls of the
    security module are under its userLock (implementation.py:92-100): one step. *)
From Verif Require Export Users.

(** A request, or a manager: the namespace of the manager, and _engineID. *)
Record cell := mkCell { ce_ns : pystr; ce_engine : option bytes }.
(** Where a thread is. *)
Inductive setter_pc :=
| PCompare                                   (* 312-313: if engineID == self._engineID: return *)
| PRegister                                  (* 315-316: if not None, self.manager.registerRemoteEngine(engineID) *)
| PTest                                      (* 318: if self._engineID is not None *)
| PArgument                                  (* 319: self._engineID *)
| PRelease (old : option bytes)              (* 319: self.manager.unregisterRemoteEngine(old) *)
| PStore.                                    (* 321: self._engineID = engineID *)
(** A thread in the setter of [st_cell], with the argument [st_new]. *)
Record setter := mkSetter { st_cell : nat; st_new : option bytes; st_pc : setter_pc }.
(** [rg_log]: how the calls ended, newest first. *)
Record regs := mkRegs { rg_users : registry; rg_cells : list cell; rg_setters : list setter; rg_log : list (nat * res unit) }.
Definition cell_at (g : regs) (c : nat) : cell := nth c (rg_cells g) (mkCell [] None).
Fixpoint put_cell (l : list cell) (c : nat) (x : cell) : list cell :=
  match l, c with
  | [], _ => []
  | _ :: l', O => x :: l'
  | y :: l', S c' => y :: put_cell l' c' x
  end.

Inductive reg_event :=
| RBegin (c : nat) (new : option bytes)      (* a thread enters the setter *)
| RStep (n : nat).                           (* the n-th of the threads in setters runs one statement *)

Section Setters.
  Context (C : crypto) (rnd : nat -> Z).
  (** One statement: the new state of the shared data, and the thread, or how the
      setter ended. *)
  Definition setter_step (u : registry) (x : cell) (t : setter) : registry * cell * (setter + res unit) :=
    let go pc := inl (mkSetter (st_cell t) (st_new t) pc) in
    match st_pc t with
    | PCompare => (u, x, if opt_eqb zlist_eqb (st_new t) (ce_engine x) then inr (Ok tt) else go PRegister)
    | PRegister =>
      match st_new t with
      | None => (u, x, go PTest)
      | Some e =>
        (* 577-584 *)
        match ur_assign C rnd u e (ce_ns x) with
        | (u, Ok true) => (u, x, go PTest)
        | (u, Ok false) => (u, x, inr (Raise DiscoveryError))
        | (u, Raise ex) => (u, x, inr (Raise ex))
        end
      end
    | PTest => (u, x, go (match ce_engine x with None => PStore | Some _ => PArgument end))
    | PArgument => (u, x, go (PRelease (ce_engine x)))
    | PRelease old =>
      (* 586-587; None is not among the keys of the registry *)
      match old with
      | None => (u, x, inr (Raise SNMPLibraryBug))
      | Some e =>
        match ur_release u e (ce_ns x) with
        | (u, Ok _) => (u, x, go PStore)
        | (u, Raise ex) => (u, x, inr (Raise ex))
        end
      end
    | PStore => (u, mkCell (ce_ns x) (st_new t), inr (Ok tt))
    end.
  Definition reg_step (g : regs) (ev : reg_event) : regs :=
    match ev with
    | RBegin c new =>
      if (c <? length (rg_cells g))%nat then mkRegs (rg_users g) (rg_cells g) (rg_setters g ++ [mkSetter c new PCompare]) (rg_log g) else g
    | RStep n =>
      match nth_error (rg_setters g) n with
      | None => g
      | Some t =>
        let '(u, x, k) := setter_step (rg_users g) (cell_at g (st_cell t)) t in
        let '(new, l) := match k with inl t' => ([t'], []) | inr r => ([], [(st_cell t, r)]) end in
        mkRegs u (put_cell (rg_cells g) (st_cell t) x) (firstn n (rg_setters g) ++ new ++ skipn (S n) (rg_setters g)) (l ++ rg_log g)
      end
    end.
  Definition reg_steps (g : regs) (evs : list reg_event) : regs := fold_left reg_step evs g.
End Setters.
