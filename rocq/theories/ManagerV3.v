(** ManagerV3.v -- model of snmp/manager/v3.py with the message processor and
    the security module it uses (definitions only).  Line numbers are those of
    manager/v3.py.

    Threads.  The threads that are inside sendRequest() or wait() are tasks; the
    listener (there is one, see dispatcher.py:32-45) is in state [v_listener].
    An event advances one of them by one step.  A step is the body of one
    [with self.activeLock] block, together with what precedes and follows it in
    the enclosing [with self.lock] block, if any: that part only touches state,
    nextState, engineID and unsent, which no block under activeLock alone does.
    [with self.lock] blocks with a loop (poke, onReport) are one step for each
    turn of the loop; no other thread can take the lock meanwhile, but refresh()
    (which needs activeLock only) can run.
    What the processor does in prepareOutgoingMessage() and
    prepareDataElements() is one step here; ProcConc.v has the finer steps.
    Request.close() is one step.

    [clk i] is the result of the i-th call of time.time(); [rnd k] are the random
    numbers: 0 for message IDs, 1 for request IDs, 2 for salts; [rnd 3 i] is what
    the operating system answers to the datagram handed to it after the i-th call
    of time.time(): it takes it (0) or sendto() raises OSError.  [R]: clock ticks
    per second.  Requests, messages and SharedBools are numbers, indices in the
    lists of all ever made.  Two requests do not share a PDU object.
    event.wait() does not raise (KeyboardInterrupt).
    [fmt m]: the constructor of the exception for report [m] does not raise
    (50-74: securityName.decode(), and str() of the variable binding). *)
From Verif Require Export Sched Heap Processor SpecUsers.

(** 26-32 *)
Definition usmStats : list Z := [1; 3; 6; 1; 6; 3; 15; 1; 1].
Inductive report :=
| UnsupportedSecurityLevelReport | UnknownUserNameReport | WrongDigestReport | DecryptionErrorReport
| UnrecognizedReport.
(** 220-225, 246-258: what to do with a report, by the name in its first variable binding. *)
Inductive reported := RUnknownEngineID | RNotInTimeWindow | RException (x : report).
Definition report_kind (oid : list Z) : reported :=
  if zlist_eqb oid (usmStats ++ [4; 0]) then RUnknownEngineID
  else if zlist_eqb oid (usmStats ++ [2; 0]) then RNotInTimeWindow
  else RException
    (if zlist_eqb oid (usmStats ++ [1; 0]) then UnsupportedSecurityLevelReport
     else if zlist_eqb oid (usmStats ++ [3; 0]) then UnknownUserNameReport
     else if zlist_eqb oid (usmStats ++ [5; 0]) then WrongDigestReport
     else if zlist_eqb oid (usmStats ++ [6; 0]) then DecryptionErrorReport
     else UnrecognizedReport).

(** * State (82-204) *)
Inductive mstate :=
| Inactive | Unsynchronized | WaitForDiscovery | Synchronizing | TrustEveryResponse | RequireAuthentication.
(** Whether sendto() raises OSError (see above). *)
Definition refused (rnd : nat -> nat -> Z) (i : nat) : bool := negb (rnd 3%nat i =? 0).
(** The new value of manager.nextState, if it is assigned (with the returned value). *)
Definition onInactive (st : mstate) : option mstate :=
  match st with
  | WaitForDiscovery => Some Inactive
  | Synchronizing => Some Unsynchronized
  | _ => None
  end.
Definition onRequest (st : mstate) (auth : bool) : option mstate * bool :=
  match st with
  | Inactive => (Some WaitForDiscovery, true)
  | Unsynchronized => (Some Synchronizing, true)
  | WaitForDiscovery => (None, false)
  | Synchronizing => (None, negb auth)
  | TrustEveryResponse | RequireAuthentication => (None, true)
  end.
(** [mine]: manager.engineID *)
Definition onReport (st : mstate) (mine : option bytes) (engineID : bytes) : res (option mstate * bool) :=
  match st with
  | Inactive | Unsynchronized => Raise SNMPLibraryBug
  | WaitForDiscovery => Ok (Some TrustEveryResponse, true)
  | Synchronizing =>
    if opt_bytes_eqb engineID mine then Ok (Some RequireAuthentication, true) else Ok (None, false)
  | TrustEveryResponse | RequireAuthentication => Ok (None, false)
  end.
Definition onResponse (st : mstate) (mine : option bytes) (engineID : bytes) (auth : bool)
  : res (option mstate * bool) :=
  match st with
  | Inactive | Unsynchronized => Raise SNMPLibraryBug
  | WaitForDiscovery => Raise DiscoveryError
  | Synchronizing =>
    if auth || opt_bytes_eqb engineID mine then Ok (Some RequireAuthentication, true) else Ok (None, false)
  | TrustEveryResponse => Ok (if auth then Some RequireAuthentication else None, true)
  | RequireAuthentication => Ok (None, auth)
  end.

(** * Objects *)
(** Request (274-301).  [q_sync]: the SharedBool it holds.  [q_alive]: not yet
    collected.  The set of messages: those in [v_msgs] that are open. *)
Record req3 := mkReq3 {
  q_engine : option bytes; q_pdu : pdu; q_user : bytes; q_level : seclevel;
  q_event : bool; q_exception : option (report * varbind); q_response : option v3msg;
  q_sched : sched; q_sync : nat; q_alive : bool
}.
(** A placeholder, for numbers that are not the number of a request. *)
Definition no_req3 : req3 :=
  mkReq3 None (mkPDU GetRequestPDU 0 0 0 []) [] noAuthNoPriv false None None (mkSched 0 0 0) 0 false.
Definition get3 (l : list req3) (r : nat) : req3 := nth r l no_req3.
(** RequestMessage (227-236).  [g_cb]: callback and messageID.  [g_open]: it is
    in the set of messages of its request.  [g_own]: it is a message of this
    manager.  A message of another manager has a handle too, is never open, and
    of its fields only [g_cb] matters: the other manager is not done with it. *)
Record msg3 := mkMsg3 { g_req : nat; g_sync : nat; g_cb : option Z; g_open : bool; g_own : bool }.
Definition no_msg3 : msg3 := mkMsg3 0 0 None false false.
Definition getm (l : list msg3) (h : nat) : msg3 := nth h l no_msg3.

Inductive outcome3 :=
| VReturned (vbs : list varbind)
| VErrorResponse (status index : Z) (c : res cause)
| VReport (x : report) (vb : varbind)
| VRaised (e : exc).
(** Why a message is sent: by sendRequest(), by poke(), by the loop in
    onReport(), by refresh(), or because of a report (unknownEngineIDs,
    notInTimeWindows). *)
Inductive why3 := ByCall | ByPoke | ByDrain | ByRefresh | ByUnknownEngine | ByNotInTime.

(** Program points of sendRequest() and wait(). *)
Inductive task3 :=
| SSend (r : nat)                                       (* 660: about to take lock *)
| SLoop (r : nat)                                       (* 415: while not self.expired *)
| SRefresh (r : nat)                                    (* 552: about to take activeLock *)
| SPoke (r : nat)                                       (* 526: about to take lock *)
| SPoking (r : nat) (unsent : list nat) (active : bool) (* 532: with the lock *)
| SBlock (r : nat) (limit : Z)                          (* 419: event.wait(timeout) *)
| SEnd (r : nat)                                        (* 429 *)
| SClose (r : nat) (o : outcome3).                      (* 446 *)
Definition task_req3 (t : task3) : nat :=
  match t with
  | SSend r | SLoop r | SRefresh r | SPoke r | SPoking r _ _ | SBlock r _ | SEnd r | SClose r _ => r
  end.
(** Program points of the listener.  [w]: ByUnknownEngine or ByNotInTime. *)
Inductive listener :=
| LIdle
| LPush (h : nat) (m : v3msg)                    (* about to call push() *)
| LReport (r : nat) (e : bytes) (w : why3)       (* 590: about to take lock *)
| LDrain (r : nat) (e : bytes) (w : why3)        (* 599: with the lock *)
| LSync (r : nat)                                (* 343 *)
| LRespond (r : nat) (m : v3msg)                 (* 612: about to take lock *)
| LStore (r : nat) (m : v3msg).                  (* 363 *)

Record mgr3 := mkMgr3 {
  v_usm : usm; v_proc : proc3; v_clock : nat;
  v_gen : numgen; v_made : nat;
  v_engine : option bytes; v_state : mstate; v_next : option mstate;
  v_heap : list nat; v_unsent : list nat; v_refs : list weakref;
  v_reqs : list req3; v_msgs : list msg3; v_bools : list bool;
  v_tasks : list task3; v_listener : listener
}.
Definition set_io (s : mgr3) u p c :=
  mkMgr3 u p c (v_gen s) (v_made s) (v_engine s) (v_state s) (v_next s) (v_heap s) (v_unsent s) (v_refs s)
    (v_reqs s) (v_msgs s) (v_bools s) (v_tasks s) (v_listener s).
Definition set_ids (s : mgr3) g n :=
  mkMgr3 (v_usm s) (v_proc s) (v_clock s) g n (v_engine s) (v_state s) (v_next s) (v_heap s) (v_unsent s) (v_refs s)
    (v_reqs s) (v_msgs s) (v_bools s) (v_tasks s) (v_listener s).
Definition set_engine (s : mgr3) e :=
  mkMgr3 (v_usm s) (v_proc s) (v_clock s) (v_gen s) (v_made s) e (v_state s) (v_next s) (v_heap s) (v_unsent s) (v_refs s)
    (v_reqs s) (v_msgs s) (v_bools s) (v_tasks s) (v_listener s).
Definition set_state (s : mgr3) st nx :=
  mkMgr3 (v_usm s) (v_proc s) (v_clock s) (v_gen s) (v_made s) (v_engine s) st nx (v_heap s) (v_unsent s) (v_refs s)
    (v_reqs s) (v_msgs s) (v_bools s) (v_tasks s) (v_listener s).
Definition set_queue (s : mgr3) h u w :=
  mkMgr3 (v_usm s) (v_proc s) (v_clock s) (v_gen s) (v_made s) (v_engine s) (v_state s) (v_next s) h u w
    (v_reqs s) (v_msgs s) (v_bools s) (v_tasks s) (v_listener s).
Definition set_objects (s : mgr3) q m b :=
  mkMgr3 (v_usm s) (v_proc s) (v_clock s) (v_gen s) (v_made s) (v_engine s) (v_state s) (v_next s) (v_heap s) (v_unsent s) (v_refs s)
    q m b (v_tasks s) (v_listener s).
Definition set_threads (s : mgr3) t l :=
  mkMgr3 (v_usm s) (v_proc s) (v_clock s) (v_gen s) (v_made s) (v_engine s) (v_state s) (v_next s) (v_heap s) (v_unsent s) (v_refs s)
    (v_reqs s) (v_msgs s) (v_bools s) t l.

Definition set_req3 (s : mgr3) (r : nat) (q : req3) : mgr3 :=
  set_objects s (put (v_reqs s) r q) (v_msgs s) (v_bools s).
Definition set_listener (s : mgr3) (l : listener) : mgr3 := set_threads s (v_tasks s) l.
Definition q_set_engine (q : req3) e :=
  mkReq3 e (q_pdu q) (q_user q) (q_level q) (q_event q) (q_exception q) (q_response q) (q_sched q) (q_sync q) (q_alive q).
Definition q_set_result (q : req3) ev x m :=
  mkReq3 (q_engine q) (q_pdu q) (q_user q) (q_level q) ev x m (q_sched q) (q_sync q) (q_alive q).
Definition q_set_sched (q : req3) c :=
  mkReq3 (q_engine q) (q_pdu q) (q_user q) (q_level q) (q_event q) (q_exception q) (q_response q) c (q_sync q) (q_alive q).
Definition q_set_sync (q : req3) b :=
  mkReq3 (q_engine q) (q_pdu q) (q_user q) (q_level q) (q_event q) (q_exception q) (q_response q) (q_sched q) b (q_alive q).
Definition q_set_dead (q : req3) :=
  mkReq3 (q_engine q) (q_pdu q) (q_user q) (q_level q) (q_event q) (q_exception q) (q_response q) (q_sched q) (q_sync q) false.

(** What happens, as seen from outside.  [WSent]: the arguments of
    dispatcher.sendPdu() and the bytes sent; [h] is the message's number.
    [WFailed]: sending [r] raised; [h] if a message was made. *)
Inductive log3 :=
| WSent (r h : nat) (w : why3) (now : Z) (p : pdu) (engineID user : bytes) (level : seclevel) (wire : bytes)
| WFailed (r : nat) (h : option nat) (w : why3) (e : exc)
| WPushed (h : nat) (m : v3msg)                             (* push(m) was called *)
| WReport (r : nat) (x : report) (vb : varbind) (auth : bool) (* processException *)
| WResponse (r : nat) (m : v3msg)                           (* processResponse, accepted by the manager *)
| WBlocked (r : nat) (limit : Z)                            (* about to call event.wait(limit) *)
| WOutcome (r : nat) (o : outcome3).                        (* wait() is over *)

Inductive event3 :=
| VCall (p : pdu) (user : bytes) (level : seclevel) (timeout period : Z)  (* sendRequest() *)
| VWait (r : nat)                                                         (* wait() *)
| VStep (n : nat)                                                         (* the n-th task runs *)
| VReceive (datagram : bytes)                                             (* the listener gets it *)
| VListen                                                                 (* the listener runs *)
| VDie (r : nat)                                                          (* garbage collection *)
| VUsers (op : user_op)                             (* addUser(), or others use the same USM *)
(* Other managers of the Engine use the same message processor: one of them sends
   a message (dispatcher.py:71-87), or is done with its message [h] (268-272). *)
| VOther (p : pdu) (engineID user : bytes) (level : seclevel)
| VOtherDone (h : nat).

(** key=lambda r: r.nextRefresh (658), of a live request; ComparableWeakRef.__lt__ *)
Definition live_key3 (q : req3) : option Z := if q_alive q then Some (sc_next (q_sched q)) else None.
Definition getw (l : list weakref) (r : nat) : weakref := nth r l (wr_new 0).
Definition ref_lt3 (reqs : list req3) (refs : list weakref) (a b : nat) : bool * list weakref :=
  let '(r, w1, w2) := wr_lt (getw refs a) (live_key3 (get3 reqs a)) (getw refs b) (live_key3 (get3 reqs b)) in
  (r, put (put refs a w1) b w2).

(** 675-678 *)
Definition updateState (s : mgr3) : mgr3 :=
  match v_next s with Some n => set_state s n None | None => s end.
Definition assign_next (s : mgr3) (n : option mstate) : mgr3 :=
  match n with Some n => set_state s (v_state s) (Some n) | None => s end.
(** self.lock is held *)
Definition locked3 (s : mgr3) : bool :=
  match v_listener s with LDrain _ _ _ => true | _ => false end
  || existsb (fun t => match t with SPoking _ _ _ => true | _ => false end) (v_tasks s).
Definition message_alive (s : mgr3) (h : nat) : bool :=
  let g := getm (v_msgs s) h in g_open g && q_alive (get3 (v_reqs s) (g_req g)).

Section Manager3.
  Context (C : crypto) (R : Z) (rnd : nat -> nat -> Z) (clk : nat -> Z) (fmt : v3msg -> bool) (ns : pystr).

  (** time.time() *)
  Definition tick3 (s : mgr3) : Z * mgr3 := (clk (v_clock s), set_io s (v_usm s) (v_proc s) (S (v_clock s))).
  Definition set_users (s : mgr3) (u : registry) : mgr3 :=
    set_io s (mkUsm (us_time (v_usm s)) u) (v_proc s) (v_clock s).

  (** * Engine IDs *)
  (** 577-584 *)
  Definition registerRemoteEngine (s : mgr3) (e : bytes) : mgr3 * res unit :=
    let '(u, x) := ur_assign C (rnd 2) (us_users (v_usm s)) e ns in
    (set_users s u, do ok <- x; if (ok : bool) then Ok tt else Raise DiscoveryError).
  (** 586-587 *)
  Definition unregisterRemoteEngine (s : mgr3) (e : bytes) : mgr3 * res unit :=
    let '(u, x) := ur_release (us_users (v_usm s)) e ns in
    (set_users s u, do _ <- x; Ok tt).
  (** 315-319, 504-508: register the new one, unregister the old one. *)
  Definition switch_engine (s : mgr3) (old new : option bytes) : mgr3 * res unit :=
    let '(s, x) := match new with Some e => registerRemoteEngine s e | None => (s, Ok tt) end in
    match x with
    | Raise e => (s, Raise e)
    | Ok _ => match old with Some e => unregisterRemoteEngine s e | None => (s, Ok tt) end
    end.
  (** Request.engineID = new (311-321) *)
  Definition request_engine (s : mgr3) (r : nat) (new : option bytes) : mgr3 * res unit :=
    let old := q_engine (get3 (v_reqs s) r) in
    if opt_eqb zlist_eqb new old then (s, Ok tt)
    else match switch_engine s old new with
         | (s, Raise e) => (s, Raise e)
         | (s, Ok _) => (set_req3 s r (q_set_engine (get3 (v_reqs s) r) new), Ok tt)
         end.
  (** manager.engineID = new (500-510) *)
  Definition manager_engine (s : mgr3) (new : option bytes) : mgr3 * res unit :=
    if opt_eqb zlist_eqb new (v_engine s) then (s, Ok tt)
    else match switch_engine s (v_engine s) new with
         | (s, Raise e) => (s, Raise e)
         | (s, Ok _) => (set_engine s new, Ok tt)
         end.

  (** * Sending *)
  (** 382-386: a new message; manager.sendPdu (622-638), dispatcher.sendPdu
      (dispatcher.py:71-87: the message is prepared, then channel.send(), that is
      sendto() of transport/udp.py:79-80, which may raise). *)
  Definition transmit (s : mgr3) (r : nat) (w : why3) (now : Z) (p : pdu) (e user : bytes) (level : seclevel)
    : mgr3 * list log3 * res unit :=
    let h := length (v_msgs s) in
    let '(ts, s) := tick3 s in
    let '(o, x) := v3_prepareOutgoing C R (rnd 0) (v_usm s) (v_proc s) p h e user level (Some USM) [] ts in
    let s := set_io s (s3_usm o) (s3_proc o) (v_clock s) in
    let s := set_objects s (v_reqs s) (v_msgs s ++ [mkMsg3 r (q_sync (get3 (v_reqs s) r)) (s3_callback o) true true]) (v_bools s) in
    match x with
    | Ok wire =>
      if refused rnd (v_clock s) then (s, [WFailed r (Some h) w OSError], Raise OSError)
      else (s, [WSent r h w now p e user level wire], Ok tt)
    | Raise x => (s, [WFailed r (Some h) w x], Raise x)
    end.
  (** 370, 374: GetRequestPDU() *)
  Definition discovery_pdu : pdu := mkPDU GetRequestPDU 0 0 0 [].
  (** reallySend (368-386) *)
  Definition reallySend3 (s : mgr3) (r : nat) (w : why3) (now : Z) (engineID : option bytes)
    : mgr3 * list log3 * res unit :=
    let q := get3 (v_reqs s) r in
    match engineID with
    | None =>
      match q_engine q with
      | None => transmit s r w now discovery_pdu [] [] noAuthNoPriv
      | Some e => transmit s r w now (q_pdu q) e (q_user q) (q_level q)
      end
    | Some e =>
      match request_engine s r (Some e) with
      | (s, Raise x) => (s, [WFailed r None w x], Raise x)
      | (s, Ok _) => transmit s r w now (q_pdu q) e (q_user q) (q_level q)
      end
    end.
  (** send (407-410) *)
  Definition send3 (s : mgr3) (r : nat) (w : why3) (engineID : option bytes) : mgr3 * list log3 * res unit :=
    let '(now, s) := tick3 s in
    let q := get3 (v_reqs s) r in
    reallySend3 (set_req3 s r (q_set_sched q (sched_send (q_sched q) now))) r w now engineID.

  (** close (335-339; 268-272). *)
  Fixpoint close_messages (r : nat) (c : cache_st entry3) (l : list msg3) : cache_st entry3 * list msg3 :=
    match l with
    | [] => (c, [])
    | g :: l' =>
      if Nat.eqb (g_req g) r && g_open g then
        let c := match g_cb g with Some id => uncache c id | None => c end in
        let '(c, l') := close_messages r c l' in
        (c, mkMsg3 (g_req g) (g_sync g) None false (g_own g) :: l')
      else let '(c, l') := close_messages r c l' in (c, g :: l')
    end.
  Definition close3 (s : mgr3) (r : nat) : mgr3 * res unit :=
    let '(c, l) := close_messages r (p3_cache (v_proc s)) (v_msgs s) in
    let s := set_io s (v_usm s) (with_cache3 (v_proc s) c) (v_clock s) in
    let s := set_objects s (v_reqs s) l (v_bools s) in
    request_engine s r None.

  (** * The heap *)
  Definition push3 (s : mgr3) (r : nat) : mgr3 :=
    let '(w, h) := heappush (ref_lt3 (v_reqs s)) (v_refs s) (v_heap s) r in set_queue s h (v_unsent s) w.
  Definition heapify3 (s : mgr3) : mgr3 :=
    let '(w, h) := heapify (ref_lt3 (v_reqs s)) (v_refs s) (v_heap s) in set_queue s h (v_unsent s) w.
  (** None: IndexError *)
  Definition pop3 (s : mgr3) : option mgr3 :=
    match heappop (ref_lt3 (v_reqs s)) (v_refs s) (v_heap s) with
    | None => None
    | Some (w, h) => Some (set_queue s h (v_unsent s) w)
    end.
  Definition replace3 (s : mgr3) (r : nat) : option mgr3 :=
    match heapreplace (ref_lt3 (v_reqs s)) (v_refs s) (v_heap s) r with
    | None => None
    | Some (w, h) => Some (set_queue s h (v_unsent s) w)
    end.

  (** * Steps of the tasks: the new state, what the task becomes, the log *)
  (** 661-666, and 537-543 (poke): state.onRequest, then (if true) send, push,
      updateState.  The boolean says whether it was sent. *)
  Definition request_locked (s : mgr3) (r : nat) (w : why3) : mgr3 * list log3 * res bool :=
    let '(nx, now) := onRequest (v_state s) (sl_auth (q_level (get3 (v_reqs s) r))) in
    let s := assign_next s nx in
    if now then
      match send3 s r w (v_engine s) with
      | (s, l, Raise e) => (s, l, Raise e)
      | (s, l, Ok _) => (updateState (push3 s r), l, Ok true)
      end
    else (s, [], Ok false).
  (** 667-668, 545 *)
  Definition queue3 (s : mgr3) (r : nat) : mgr3 := set_queue s (v_heap s) (v_unsent s ++ [r]) (v_refs s).

  (** 562-564: heapq.heappop(self.active); continue *)
  Definition refresh_pop (s : mgr3) (r : nat) : mgr3 * list task3 * list log3 :=
    match pop3 s with
    | None => (s, [SClose r (VRaised IndexError)], [])
    | Some s => (s, [SRefresh r], [])
    end.
  (** 552-568: one turn of the loop of refresh(), called by wait() of [r];
      request.refresh() is 388-405. *)
  Definition refresh3 (s : mgr3) (r : nat) : mgr3 * list task3 * list log3 :=
    match v_heap s with
    | [] => (s, [SPoke r], [])
    | root :: _ =>
      let p := get3 (v_reqs s) root in
      if negb (q_alive p) then refresh_pop s r
      else if q_event p then refresh_pop s r
      else
        let '(now, s) := tick3 s in
        match sched_refresh (q_sched p) now with
        | Raise e => (s, [SClose r (VRaised e)], [])
        | Ok RFinished => refresh_pop s r
        | Ok (RLater wait) => (s, [SBlock r wait], [WBlocked r wait])
        | Ok (RResend c) =>
          match reallySend3 (set_req3 s root (q_set_sched p c)) root ByRefresh now None with
          | (s, l, Raise e) => (s, [SClose r (VRaised e)], l)
          | (s, l, Ok _) =>
            match replace3 s root with
            | None => (s, [SClose r (VRaised IndexError)], l)
            | Some s => (s, [SRefresh r], l)
            end
          end
        end
    end.
  (** One turn of the loop of poke() (532-547). *)
  Definition poke3 (s : mgr3) (r : nat) (unsent : list nat) (active : bool) : mgr3 * list task3 * list log3 :=
    match unsent with
    | [] => if active then (s, [SRefresh r], []) else (s, [SBlock r 0], [WBlocked r 0])
    | q :: rest =>
      if q_alive (get3 (v_reqs s) q) then
        match request_locked s q ByPoke with
        | (s, l, Raise e) => (s, [SClose r (VRaised e)], l)
        | (s, l, Ok true) => (s, [SPoking r rest true], l)
        | (s, l, Ok false) => (queue3 s q, [SPoking r rest active], l)
        end
      else (s, [SPoking r rest active], [])
    end.
  (** 429-445 *)
  Definition end3 (q : req3) : outcome3 :=
    match q_event q, q_response q with
    | true, Some m =>
      match v3_scoped m with
      | None => VRaised AssertionError
      | Some sc =>
        let p := sp_pdu sc in
        if pdu_a p =? 0 then VReturned (pdu_vbs p)
        else VErrorResponse (pdu_a p) (pdu_b p) (error_cause (pdu_b p) (q_pdu q))
      end
    | _, _ =>
      match q_exception q with
      | Some (x, vb) => VReport x vb
      | None => VRaised Timeout
      end
    end.

  Definition task3_step (s : mgr3) (t : task3) : mgr3 * list task3 * list log3 :=
    let q := get3 (v_reqs s) (task_req3 t) in
    match t with
    | SSend r =>
      if locked3 s then (s, [t], [])
      else
        match request_locked s r ByCall with
        | (s, l, Raise _) => (s, [], l)
        | (s, l, Ok true) => (s, [], l)
        | (s, l, Ok false) => (queue3 s r, [], l)
        end
    | SLoop r =>
      let '(now, s) := tick3 s in
      if sched_expired (q_sched q) now then (s, [SEnd r], []) else (s, [SRefresh r], [])
    | SRefresh r => refresh3 s r
    | SPoke r =>
      (* 526-531 *)
      if locked3 s then (s, [t], [])
      else
        let s := updateState (assign_next s (onInactive (v_state s))) in
        (set_queue s (v_heap s) [] (v_refs s), [SPoking r (v_unsent s) false], [])
    | SPoking r unsent active => poke3 s r unsent active
    | SBlock r limit =>
      (* True if the event is set, False when the time is over. *)
      if q_event q then (s, [SEnd r], []) else (s, [SLoop r], [])
    | SEnd r => (s, [SClose r (end3 q)], [])
    | SClose r o =>
      match close3 s r with
      | (s, Raise e) => (s, [], [WOutcome r (VRaised e)])
      | (s, Ok _) => (s, [], [WOutcome r o])
      end
    end.

  (** * Steps of the listener.  What push() raises is ignored (dispatcher.py:63-69). *)
  (** 238-266.  The request of a message may be dead (ReferenceError). *)
  Definition push_step (s : mgr3) (h : nat) (m : v3msg) : mgr3 * list log3 :=
    let idle := set_listener s LIdle in
    let g := getm (v_msgs s) h in
    let r := g_req g in
    let q := get3 (v_reqs s) r in
    match v3_scoped m, v3_engineID m with
    | Some sc, Some e =>
      if negb (q_alive q) then (idle, [WPushed h m])
      else if pducls_eqb (pdu_cls (sp_pdu sc)) ReportPDU then
        match pdu_vbs (sp_pdu sc) with
        | [] => (idle, [WPushed h m])
        | vb :: _ =>
          match report_kind (vb_name vb) with
          | RUnknownEngineID =>
            (* 346-348 *)
            if opt_bytes_eqb e (q_engine q) then (idle, [WPushed h m])
            else (set_listener s (LReport r e ByUnknownEngine), [WPushed h m])
          | RNotInTimeWindow =>
            if nth (g_sync g) (v_bools s) true then (idle, [WPushed h m])
            else (set_listener s (LReport r e ByNotInTime), [WPushed h m])
          | RException x =>
            if fmt m then
              (* 350-356 *)
              let auth := fl_auth (h_flags (v3_header m)) in
              let q :=
                if auth then (if q_event q then q else q_set_result q true (Some (x, vb)) (q_response q))
                else match q_exception q with
                     | None => q_set_result q (q_event q) (Some (x, vb)) (q_response q)
                     | Some _ => q
                     end in
              (set_req3 idle r q, [WPushed h m; WReport r x vb auth])
            else (idle, [WPushed h m])
          end
        end
      else (set_listener s (LRespond r m), [WPushed h m])
    | _, _ => (idle, [WPushed h m])
    end.
  (** 606 done: 343 for processNotInTimeWindow, the end otherwise. *)
  Definition reported_done (r : nat) (w : why3) : listener :=
    match w with ByNotInTime => LSync r | _ => LIdle end.
  Definition listen3 (s : mgr3) : mgr3 * list log3 :=
    match v_listener s with
    | LIdle => (s, [])
    | LPush h m => push_step s h m
    | LReport r e w =>
      (* 590-599 *)
      if locked3 s then (s, [])
      else
        match onReport (v_state s) (v_engine s) e with
        | Raise _ => (set_listener s LIdle, [])
        | Ok (nx, sendAll) =>
          match send3 (assign_next s nx) r w (Some e) with
          | (s, l, Raise _) => (set_listener s LIdle, l)
          | (s, l, Ok _) =>
            let s := heapify3 s in
            if sendAll then (set_listener (updateState s) (LDrain r e w), l)
            else (set_listener s (reported_done r w), l)
          end
        end
    | LDrain r e w =>
      (* 599-606 *)
      match v_unsent s with
      | [] => (set_listener s (reported_done r w), [])
      | q :: rest =>
        let s := set_queue s (v_heap s) rest (v_refs s) in
        if q_alive (get3 (v_reqs s) q) then
          match send3 s q ByDrain (Some e) with
          | (s, l, Raise _) => (set_listener s LIdle, l)
          | (s, l, Ok _) => (push3 s q, l)
          end
        else (s, [])
      end
    | LSync r =>
      (* 343-344 *)
      let q := get3 (v_reqs s) r in
      (set_listener
        (set_objects s (put (v_reqs s) r (q_set_sync q (length (v_bools s)))) (v_msgs s)
           (put (v_bools s) (q_sync q) true ++ [false])) LIdle, [])
    | LRespond r m =>
      (* 612-620 *)
      if locked3 s then (s, [])
      else
        match v3_engineID m with
        | None => (set_listener s LIdle, [])
        | Some e =>
          match onResponse (v_state s) (v_engine s) e (fl_auth (h_flags (v3_header m))) with
          | Raise _ => (set_listener s LIdle, [])
          | Ok (nx, false) => (set_listener (assign_next s nx) (LStore r m), [])
          | Ok (nx, true) =>
            match manager_engine (assign_next s nx) (Some e) with
            | (s, Raise _) => (set_listener s LIdle, [])
            | (s, Ok _) => (set_listener (updateState s) (LStore r m), [])
            end
          end
        end
    | LStore r m =>
      (* 363-365 *)
      let q := get3 (v_reqs s) r in
      (set_listener (if q_event q then s else set_req3 s r (q_set_result q true (q_exception q) (Some m))) LIdle, [WResponse r m])
    end.
  (** The request that a method being run by the listener belongs to. *)
  Definition listener_req (l : listener) : option nat :=
    match l with
    | LIdle | LPush _ _ => None
    | LReport r _ _ | LDrain r _ _ | LSync r | LRespond r _ | LStore r _ => Some r
    end.

  (** 512-522 *)
  Definition newGenerator (n : nat) : numgen := numgen_init 32 true (rnd 1 n).
  Definition generateRequestID (s : mgr3) : Z * mgr3 :=
    let '(id, g) := numgen_next (v_gen s) in
    if id =? 0 then
      let '(id, g) := numgen_next (newGenerator (v_made s)) in (id, set_ids s g (S (v_made s)))
    else (id, set_ids s g (v_made s)).

  Definition pending3 (s : mgr3) (r : nat) : bool :=
    existsb (fun t => match t with SSend r' => Nat.eqb r' r | _ => false end) (v_tasks s).
  Definition add_task3 (s : mgr3) (t : task3) : mgr3 := set_threads s (v_tasks s ++ [t]) (v_listener s).
  (** An event that is not possible in a state changes nothing. *)
  Definition m3_step (s : mgr3) (x : event3) : mgr3 * list log3 :=
    match x with
    | VCall p user level timeout period =>
      (* 656-658; Request.__init__ (283-301) *)
      let '(id, s) := generateRequestID s in
      let '(now, s) := tick3 s in
      let c := sched_new now timeout period in
      let q := mkReq3 None (set_requestID p id) user level false None None c (length (v_bools s)) true in
      let r := length (v_reqs s) in
      let s := set_objects s (v_reqs s ++ [q]) (v_msgs s) (v_bools s ++ [false]) in
      let s := set_queue s (v_heap s) (v_unsent s) (v_refs s ++ [wr_new (sc_next c)]) in
      (add_task3 s (SSend r), [])
    | VWait r =>
      if q_alive (get3 (v_reqs s) r) && negb (pending3 s r) then (add_task3 s (SLoop r), []) else (s, [])
    | VStep n =>
      match nth_error (v_tasks s) n with
      | None => (s, [])
      | Some t =>
        let '(s', new, l) := task3_step s t in
        (set_threads s' (firstn n (v_tasks s) ++ new ++ skipn (S n) (v_tasks s)) (v_listener s'), l)
      end
    | VReceive datagram =>
      match v_listener s with
      | LIdle =>
        let '(ts, s) := tick3 s in
        let '(u, x) := v3_prepareDataElements C R (message_alive s) (v_usm s) (v_proc s) datagram ts in
        let s := set_io s u (v_proc s) (v_clock s) in
        match x with
        | Ok (m, h) => (set_listener s (LPush h m), [])
        | Raise _ => (s, [])
        end
      | _ => (s, [])
      end
    | VListen => listen3 s
    | VDie r =>
      (* nobody refers to it any more; __del__ (303-304), whose exceptions are ignored *)
      let q := get3 (v_reqs s) r in
      if negb (q_alive q) || existsb (fun t => Nat.eqb (task_req3 t) r) (v_tasks s)
         || match listener_req (v_listener s) with Some r' => Nat.eqb r' r | None => false end then (s, [])
      else (fst (close3 (set_req3 s r (q_set_dead q)) r), [])
    | VUsers op => (set_users s (fst (user_step C (rnd 2) (us_users (v_usm s)) op)), [])
    | VOther p e user level =>
      (* Which of its requests it belongs to is of no interest here.  What is
         received in answer does to the security module what it does in VReceive;
         then it is the other manager's. *)
      let '(ts, s) := tick3 s in
      let o := fst (v3_prepareOutgoing C R (rnd 0) (v_usm s) (v_proc s) p (length (v_msgs s)) e user level (Some USM) [] ts) in
      let s := set_io s (s3_usm o) (s3_proc o) (v_clock s) in
      (set_objects s (v_reqs s) (v_msgs s ++ [mkMsg3 0 0 (s3_callback o) false false]) (v_bools s), [])
    | VOtherDone h =>
      let g := getm (v_msgs s) h in
      match g_own g, g_cb g with
      | false, Some id =>
        let s := set_io s (v_usm s) (with_cache3 (v_proc s) (uncache (p3_cache (v_proc s)) id)) (v_clock s) in
        (set_objects s (v_reqs s) (put (v_msgs s) h no_msg3) (v_bools s), [])
      | _, _ => (s, [])
      end
    end.

  (** SNMPv3UsmManager.__init__ (450-490), with a security module that may have
      been used before, and a new message processor with this module. *)
  Definition mgr3_new (u : usm) (maxSize : Z) (engineID : option bytes) : mgr3 * res unit :=
    let s := mkMgr3 u (addSecurityModuleIfNeeded (proc3_new (rnd 0) maxSize) USM true) 0 (newGenerator 0) 1
               None Inactive None [] [] [] [] [] [] [] LIdle in
    match engineID with
    | None => (s, Ok tt)
    | Some _ =>
      let '(s, x) := manager_engine s engineID in (set_state s Unsynchronized None, x)
    end.
  (** __del__ (492-493), when nobody refers to the manager any more. *)
  Definition mgr3_del (s : mgr3) : mgr3 * res unit := manager_engine s None.
  (** The state and the log (newest first) after a list of events. *)
  Definition m3_next (sl : mgr3 * list log3) (x : event3) : mgr3 * list log3 :=
    let '(s, l) := sl in let '(s', l') := m3_step s x in (s', rev l' ++ l).
  Definition m3_run (s0 : mgr3) (evs : list event3) : mgr3 * list log3 := fold_left m3_next evs (s0, []).
End Manager3.
