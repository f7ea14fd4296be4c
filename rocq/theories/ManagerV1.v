(** ManagerV1.v -- model of snmp/manager/v1.py and snmp/manager/v2c.py with the
    message processor they use (definitions only).  The two files are the same
    but for names; [V] says which.  Line numbers are those of manager/v1.py.

    Threads.  Every thread that is inside sendRequest(), wait() or push() is a
    task; an event advances one task by one step.  The body of a
    [with self.lock] block is one step: inside it only event.is_set() reads
    something that another thread may change meanwhile (push() needs no lock),
    it is read once, and push() writes nothing that the rest of the block reads.
    What the processor does in prepareOutgoingMessage() and
    prepareDataElements() is one step here; ProcConc.v has the finer steps.

    [clk i] is the result of the i-th call of time.time().  A request is a
    number, the index in the list of all requests ever made.  Two requests do
    not share a PDU object.

    channel.send() raises OSError when the system refuses to send (MFail).

    Other managers.  An Engine makes one message processor for all its managers
    of a version, so their requests share one dictionary of request IDs.  All
    that another manager changes there are its own entries: one is added when
    it sends a request for the first time (MOther; sending it again leaves the
    dictionary as it is, message/v1.py:85-89) and removed when the request is
    closed or collected (MDie). *)
From Verif Require Export Sched Heap Processor.

(** Request (18-38).  [rq_cb]: callback is not None.  [rq_response]: the event
    is set if and only if there is a response (push(), 70-72, sets both).
    [rq_ref]: the ComparableWeakRef (184).  [rq_alive]: not yet collected. *)
Record req1 := mkReq1 {
  rq_community : bytes; rq_pdu : pdu; rq_cb : bool; rq_response : option message;
  rq_sched : sched; rq_ref : weakref; rq_alive : bool
}.
(** A placeholder, for numbers that are not the number of a request: a dead
    request.  (No such number ever gets into the heap, the tasks or the cache.) *)
Definition no_req1 : req1 :=
  mkReq1 [] (mkPDU GetRequestPDU 0 0 0 []) false None (mkSched 0 0 0) (wr_new 0) false.
Definition get1 (l : list req1) (r : nat) : req1 := nth r l no_req1.
(** Program points. *)
Inductive task1 :=
| TSend (r : nat)                       (* 186: about to take the lock *)
| TPush (r : nat) (m : message)         (* the listener is about to call push() *)
| TLoop (r : nat)                       (* 104: while not self.expired *)
| TRefresh (r : nat)                    (* 138: while self.requests *)
| TLocked (r : nat)                     (* 139: about to take the lock *)
| TBlock (r : nat) (limit : option Z)   (* 106: event.wait(timeout) *)
| TGot (r : nat)                        (* 107 *)
| TClose (r : nat) (p : option pdu).    (* 111 *)
Definition task_req (t : task1) : nat :=
  match t with
  | TSend r | TPush r _ | TLoop r | TRefresh r | TLocked r | TBlock r _ | TGot r | TClose r _ => r
  end.
Record mgr1 := mkMgr1 {
  m1_cache : cache_st entry1; m1_reqs : list req1; m1_heap : list nat;
  m1_tasks : list task1; m1_clock : nat
}.

Inductive outcome1 :=
| OReturned (vbs : list varbind)
| OErrorResponse (status index : Z) (c : res cause)
| ORaised (e : exc).
Inductive log1 :=
| LSent (r : nat) (now : Z) (again : bool) (wire : bytes)   (* channel.send(wire) *)
| LSendFailed (r : nat) (e : exc)                           (* sendPdu() raised *)
| LPushed (r : nat) (m : message)
| LBlocked (r : nat) (limit : option Z)                     (* about to call event.wait(limit) *)
| LOutcome (r : nat) (o : outcome1).                        (* wait() is over *)

Inductive event1 :=
| MCall (p : pdu) (community : bytes) (timeout period : Z)  (* sendRequest() *)
| MWait (r : nat)                                           (* wait() *)
| MReceive (datagram : bytes)                               (* the listener got it *)
| MDie (r : nat)                                            (* garbage collection *)
| MStep (n : nat)                                           (* the n-th task runs *)
| MFail (n : nat)                                           (* it runs, and channel.send(), if called, raises *)
| MOther (p : pdu) (community : bytes).                     (* another manager sends a new request *)

Definition set_req (s : mgr1) (r : nat) (q : req1) : mgr1 :=
  mkMgr1 (m1_cache s) (put (m1_reqs s) r q) (m1_heap s) (m1_tasks s) (m1_clock s).
Definition with_cache1 (s : mgr1) (c : cache_st entry1) : mgr1 :=
  mkMgr1 c (m1_reqs s) (m1_heap s) (m1_tasks s) (m1_clock s).
Definition with_heap1 (s : mgr1) (rh : list req1 * list nat) : mgr1 :=
  mkMgr1 (m1_cache s) (fst rh) (snd rh) (m1_tasks s) (m1_clock s).
Definition with_sched1 (q : req1) (c : sched) : req1 :=
  mkReq1 (rq_community q) (rq_pdu q) (rq_cb q) (rq_response q) c (rq_ref q) (rq_alive q).
Definition with_ref1 (q : req1) (w : weakref) : req1 :=
  mkReq1 (rq_community q) (rq_pdu q) (rq_cb q) (rq_response q) (rq_sched q) w (rq_alive q).

(** key=lambda r: r.nextRefresh (184), of a live request. *)
Definition live_key1 (q : req1) : option Z :=
  if rq_alive q then Some (sc_next (rq_sched q)) else None.
(** ComparableWeakRef.__lt__ (utils.py:50-52) *)
Definition ref_lt1 (l : list req1) (a b : nat) : bool * list req1 :=
  let x := get1 l a in
  let y := get1 l b in
  let '(r, w1, w2) := wr_lt (rq_ref x) (live_key1 x) (rq_ref y) (live_key1 y) in
  (r, put (put l a (with_ref1 x w1)) b (with_ref1 y w2)).

Section Manager1.
  Context (V : v12) (rnd : nat -> Z) (clk : nat -> Z).

  (** time.time() *)
  Definition tick1 (s : mgr1) : Z * mgr1 :=
    (clk (m1_clock s), mkMgr1 (m1_cache s) (m1_reqs s) (m1_heap s) (m1_tasks s) (S (m1_clock s))).

  (** reallySend (75-76): manager.sendPdu (158-169), dispatcher.sendPdu.
      [net]: channel.send() does not raise (transport/udp.py: sendto). *)
  Definition reallySend1 (net : bool) (s : mgr1) (r : nat) (q : req1) : mgr1 * res bytes :=
    let '(o, w) := v12_prepareOutgoing V rnd (m1_cache s) (rq_pdu q) r (negb (rq_cb q)) (rq_community q) in
    let q := mkReq1 (rq_community q) (s1_pdu o)
               (rq_cb q || match s1_callback o with Some _ => true | None => false end)
               (rq_response q) (rq_sched q) (rq_ref q) (rq_alive q) in
    (set_req (with_cache1 s (s1_cache o)) r q, do b <- w; if net then Ok b else Raise OSError).
  Definition sent_log (r : nat) (now : Z) (again : bool) (w : res bytes) : log1 :=
    match w with Ok b => LSent r now again b | Raise e => LSendFailed r e end.

  (** close() (56-59): the assertion, then uncache. *)
  Definition close1 (s : mgr1) (r : nat) (q : req1) : mgr1 * res unit :=
    if rq_cb q then
      (set_req (with_cache1 s (uncache (m1_cache s) (pdu_requestID (rq_pdu q)))) r
         (mkReq1 (rq_community q) (rq_pdu q) false (rq_response q) (rq_sched q) (rq_ref q) (rq_alive q)),
       Ok tt)
    else (s, Raise AssertionError).

  (** 150-151: heapq.heappop(self.requests); continue *)
  Definition pop1 (s : mgr1) (r : nat) : mgr1 * list task1 * list log1 :=
    match heappop ref_lt1 (m1_reqs s) (m1_heap s) with
    | None => (s, [], [LOutcome r (ORaised IndexError)])
    | Some rh => (with_heap1 s rh, [TRefresh r], [])
    end.
  (** 139-156: one turn of the loop of refresh(), called by wait() of [r];
      request.refresh() is 78-95. *)
  Definition locked1 (net : bool) (s : mgr1) (r : nat) : mgr1 * list task1 * list log1 :=
    match m1_heap s with
    | [] => (s, [], [LOutcome r (ORaised IndexError)])
    | root :: _ =>
      let p := get1 (m1_reqs s) root in
      if negb (rq_alive p) then pop1 s r
      else
        match rq_response p with
        | Some _ => pop1 s r
        | None =>
          let '(now, s) := tick1 s in
          match sched_refresh (rq_sched p) now with
          | Raise e => (s, [], [LOutcome r (ORaised e)])
          | Ok RFinished => pop1 s r
          | Ok (RLater wait) => (s, [TBlock r (Some wait)], [LBlocked r (Some wait)])
          | Ok (RResend c) =>
            let '(s, w) := reallySend1 net s root (with_sched1 p c) in
            match w with
            | Raise e => (s, [], [LSendFailed root e; LOutcome r (ORaised e)])
            | Ok b =>
              match heapreplace ref_lt1 (m1_reqs s) (m1_heap s) root with
              | None => (s, [], [LOutcome r (ORaised IndexError)])
              | Some rh => (with_heap1 s rh, [TRefresh r], [LSent root now true b])
              end
            end
          end
        end
    end.

  (** One step of a task: the new state, what the task becomes, the log. *)
  Definition task1_step (net : bool) (s : mgr1) (t : task1) : mgr1 * list task1 * list log1 :=
      let q := get1 (m1_reqs s) (task_req t) in
      match t with
      | TSend r =>
        (* 186-188: heappush(self.requests, reference); request.send() (97-100) *)
        let s := with_heap1 s (heappush ref_lt1 (m1_reqs s) (m1_heap s) r) in
        let '(now, s) := tick1 s in
        let q := get1 (m1_reqs s) r in
        let '(s, w) := reallySend1 net s r (with_sched1 q (sched_send (rq_sched q) now)) in
        (s, [], [sent_log r now false w])
      | TPush r m =>
        (* 70-72 *)
        (set_req s r (mkReq1 (rq_community q) (rq_pdu q) (rq_cb q) (Some m) (rq_sched q) (rq_ref q) (rq_alive q)),
         [], [LPushed r m])
      | TLoop r =>
        let '(now, s) := tick1 s in
        if sched_expired (rq_sched q) now then (s, [TClose r None], [])
        else (s, [TRefresh r], [])
      | TRefresh r =>
        match m1_heap s with
        | [] => (s, [TBlock r None], [LBlocked r None])
        | _ :: _ => (s, [TLocked r], [])
        end
      | TLocked r =>
        locked1 net s r
      | TBlock r limit =>
        (* 106: returns True if the event is set; False can be returned only
           when there is a limit. *)
        match rq_response q, limit with
        | Some _, _ => (s, [TGot r], [])
        | None, Some _ => (s, [TLoop r], [])
        | None, None => (s, [TBlock r None], [])
        end
      | TGot r =>
        (* 107-109 *)
        match rq_response q with
        | Some m => (s, [TClose r (Some (m_pdu m))], [])
        | None => (s, [], [LOutcome r (ORaised AssertionError)])
        end
      | TClose r p =>
        (* 111-118 *)
        match close1 s r q with
        | (s, Raise e) => (s, [], [LOutcome r (ORaised e)])
        | (s, Ok _) =>
          (s, [],
           [LOutcome r
              (match p with
               | None => ORaised Timeout
               | Some p =>
                 if pdu_a p =? 0 then OReturned (pdu_vbs p)
                 else OErrorResponse (pdu_a p) (pdu_b p) (error_cause (pdu_b p) (rq_pdu q))
               end)])
        end
      end.

  Definition run_task (net : bool) (s : mgr1) (n : nat) : mgr1 * list log1 :=
    match nth_error (m1_tasks s) n with
    | None => (s, [])
    | Some t =>
      let '(s', new, l) := task1_step net s t in
      (mkMgr1 (m1_cache s') (m1_reqs s') (m1_heap s')
              (firstn n (m1_tasks s) ++ new ++ skipn (S n) (m1_tasks s)) (m1_clock s'), l)
    end.

  Definition add_task (s : mgr1) (t : task1) : mgr1 :=
    mkMgr1 (m1_cache s) (m1_reqs s) (m1_heap s) (m1_tasks s ++ [t]) (m1_clock s).
  Definition alive1 (s : mgr1) (h : nat) : bool := rq_alive (get1 (m1_reqs s) h).
  (** An event that is not possible in a state changes nothing. *)
  Definition m1_step (s : mgr1) (x : event1) : mgr1 * list log1 :=
    match x with
    | MCall p community timeout period =>
      (* 171-184: the Request (26-38) and its reference *)
      let '(now, s) := tick1 s in
      let c := sched_new now timeout period in
      let q := mkReq1 community p false None c (wr_new (sc_next c)) true in
      (add_task (mkMgr1 (m1_cache s) (m1_reqs s ++ [q]) (m1_heap s) (m1_tasks s) (m1_clock s))
                (TSend (length (m1_reqs s))), [])
    | MWait r =>
      (* the handle exists for the user once sendRequest() has returned *)
      if alive1 s r && negb (existsb (fun t => match t with TSend r' => Nat.eqb r' r | _ => false end) (m1_tasks s))
      then (add_task s (TLoop r), []) else (s, [])
    | MReceive datagram =>
      let '(c, x) := v12_prepareDataElements V (alive1 s) (m1_cache s) datagram in
      let s := with_cache1 s c in
      match x with
      | Ok (m, h) => (add_task s (TPush h m), [])
      | Raise _ => (s, [])
      end
    | MDie r =>
      (* nobody refers to it any more; __del__ (40-42) *)
      let q := get1 (m1_reqs s) r in
        if negb (rq_alive q) || existsb (fun t => Nat.eqb (task_req t) r) (m1_tasks s) then (s, [])
        else
          let q := mkReq1 (rq_community q) (rq_pdu q) (rq_cb q) (rq_response q) (rq_sched q) (rq_ref q) false in
          let s := set_req s r q in
          (if rq_cb q then fst (close1 s r q) else s, [])
    | MStep n => run_task true s n
    | MFail n => run_task false s n
    | MOther p community =>
      (* The Request object of the other manager.  Its schedule plays no role
         here: it is never in the heap of this manager. *)
      let '(now, s) := tick1 s in
      let c := sched_new now 0 1 in
      let q := mkReq1 community p false None c (wr_new (sc_next c)) true in
      (fst (reallySend1 true (mkMgr1 (m1_cache s) (m1_reqs s ++ [q]) (m1_heap s) (m1_tasks s) (m1_clock s))
              (length (m1_reqs s)) q), [])
    end.

  (** SNMPv1Manager.__init__ (121-136) with a new message processor. *)
  Definition mgr1_new : mgr1 := mkMgr1 (cache_new gen_v1 rnd 0) [] [] [] 0.
  (** The state and the log (newest first) after a list of events. *)
  Definition m1_next (sl : mgr1 * list log1) (x : event1) : mgr1 * list log1 :=
    let '(s, l) := sl in let '(s', l') := m1_step s x in (s', rev l' ++ l).
  Definition m1_run (evs : list event1) : mgr1 * list log1 := fold_left m1_next evs (mgr1_new, []).
End Manager1.
