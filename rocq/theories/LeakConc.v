(** LeakConc.v -- the messages of SNMPv3 requests and the message processor,
    when close() runs while another thread is sending (definitions only).

    ManagerV3.v treats close() and reallySend() as single steps.  Here each is
    taken apart; the processor is the one of ProcConc.v, where every critical
    section of cacheLock is one step.  A message is known by its number (handle);
    which request it belongs to does not matter.
    Not modelled here: everything else that requests and managers do. *)
From Verif Require Export ProcConc.

Notation conc3 := (conc entry3 (v3msg * scopedpdu)).
(** [lk_set]: the messages that are in the set self.messages of their request;
    [lk_popped]: those that a close() took out of it, and of which it has not yet
    called close(); [lk_made]: all messages so far. *)
Record lk := mkLk { lk_proc : conc3; lk_set : list nat; lk_popped : list nat; lk_made : list nat }.

Inductive lk_event :=
| KAdd (h : nat)          (* manager/v3.py:384-385: message = RequestMessage(...); self.messages.add(message) *)
| KSend (e : entry3)      (* 386; message/v3.py:613-622: a thread enters cache(entry) for its message *)
| KStep (n : nat)         (* ProcConc: the n-th pending thread goes on: a round of cache(), addCallback(), uncache(), ... *)
| KReceive (m : v3msg)    (* ProcConc: the listener gets a message *)
| KPop (h : nat)          (* manager/v3.py:336-337: self.messages.pop(), which may return any of them *)
| KClose (h : nat)        (* 337, 268-272: .close() of the message that was popped *)
| KDie (h : nat).         (* nobody refers to the message any more; RequestMessage has no __del__ *)

Section Leak.
  Context (rnd : nat -> Z).
  Notation step := (conc_step K3 rnd).
  Definition take_out (h : nat) (l : list nat) : list nat := filter (fun x => negb (Nat.eqb x h)) l.
  (** An event that is not possible in a state changes nothing. *)
  Definition lk_step (s : lk) (x : lk_event) : lk :=
    match x with
    | KAdd h => if mem h (lk_made s) then s else mkLk (lk_proc s) (h :: lk_set s) (lk_popped s) (h :: lk_made s)
    | KSend e => if mem (e3_handle e) (lk_made s) then mkLk (fst (step (lk_proc s) (EStart e))) (lk_set s) (lk_popped s) (lk_made s) else s
    | KStep n => mkLk (fst (step (lk_proc s) (EStep n))) (lk_set s) (lk_popped s) (lk_made s)
    | KReceive m => mkLk (fst (step (lk_proc s) (EReceive m))) (lk_set s) (lk_popped s) (lk_made s)
    | KPop h => if mem h (lk_set s) then mkLk (lk_proc s) (take_out h (lk_set s)) (h :: lk_popped s) (lk_made s) else s
    | KClose h => if mem h (lk_popped s) then mkLk (fst (step (lk_proc s) (EClose h))) (lk_set s) (take_out h (lk_popped s)) (lk_made s) else s
    | KDie h => if mem h (lk_set s) || mem h (lk_popped s) then s
                else mkLk (fst (step (lk_proc s) (EDie h))) (lk_set s) (lk_popped s) (lk_made s)
    end.
  Definition lk_new : lk := mkLk (conc0 K3 rnd) [] [] [].
  Definition lk_run (evs : list lk_event) : lk := fold_left lk_step evs lk_new.
End Leak.
