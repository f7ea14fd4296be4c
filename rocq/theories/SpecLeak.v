(** SpecLeak.v -- what the library remembers of requests (specification for C79). *)
From Verif Require Export LeakConc SpecProc.

(** The outstanding IDs of the processor, with their entries. *)
Definition table (s : lk) : dict Z entry3 := ca_out (cs_cache (lk_proc s)).
(** A thread is sending the message [h]: it has not yet called addCallback(). *)
Definition sending (s : lk) (h : nat) : Prop :=
  (exists e n, In (TAlloc e n) (cs_tasks (lk_proc s)) /\ e3_handle e = h) \/ (exists id, In (TRegister h id) (cs_tasks (lk_proc s))).
(** In this history, a message is closed after it was sent: when close() of the
    message is called, no thread is sending it, and none will. *)
Definition in_turn (rnd : nat -> Z) (evs : list lk_event) : Prop :=
  forall pre h post, evs = pre ++ KClose h :: post -> ~ sending (lk_run rnd pre) h /\ forall e, In (KSend e) post -> e3_handle e <> h.
(** Everything is over: no message is left in any set, no thread is busy. *)
Definition quiet (s : lk) : Prop := lk_set s = [] /\ lk_popped s = [] /\ cs_tasks (lk_proc s) = [].
