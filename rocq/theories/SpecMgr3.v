(** SpecMgr3.v -- the vocabulary in which the properties of the SNMPv3 manager
    are stated: histories, requests, and what can be read off the log. *)
From Verif Require Export ManagerV3.

(** * Histories *)
(** What a history depends on: cryptography, ticks per second, random numbers,
    clock readings, which reports can be formatted, and the arguments of the
    constructor (namespace, the state of the security module, largest message,
    engineID). *)
Record world := mkWorld {
  w_crypto : crypto; w_ticks : Z; w_rnd : nat -> nat -> Z; w_clk : nat -> Z; w_fmt : v3msg -> bool;
  w_namespace : pystr; w_usm : usm; w_size : Z; w_engine : option bytes
}.
Definition new3 (W : world) : mgr3 * res unit := mgr3_new (w_crypto W) (w_rnd W) (w_namespace W) (w_usm W) (w_size W) (w_engine W).
Definition step3 (W : world) : mgr3 -> event3 -> mgr3 * list log3 :=
  m3_step (w_crypto W) (w_ticks W) (w_rnd W) (w_clk W) (w_fmt W) (w_namespace W).
Definition run3 (W : world) (evs : list event3) : mgr3 * list log3 :=
  m3_run (w_crypto W) (w_ticks W) (w_rnd W) (w_clk W) (w_fmt W) (w_namespace W) (fst (new3 W)) evs.
(** The constructor does not raise, and the events [evs] lead to the state [s]
    and the log [l] (newest first). *)
Definition history (W : world) (evs : list event3) (s : mgr3) (l : list log3) : Prop :=
  snd (new3 W) = Ok tt /\ run3 W evs = (s, l).

(** A request in state [s]. *)
Definition request3 (s : mgr3) (r : nat) : req3 := get3 (v_reqs s) r.
Definition expiration3 (s : mgr3) (r : nat) : Z := sc_expiration (q_sched (request3 s r)).
Definition next_refresh3 (s : mgr3) (r : nat) : Z := sc_next (q_sched (request3 s r)).
Definition period3 (s : mgr3) (r : nat) : Z := sc_period (q_sched (request3 s r)).
Definition alive3 (s : mgr3) (r : nat) : Prop := q_alive (request3 s r) = true.
Definition answered3 (s : mgr3) (r : nat) : Prop := q_event (request3 s r) = true.
Definition made3' (s : mgr3) (r : nat) : Prop := (r < length (v_reqs s))%nat.
(** The clock reading of the step from [s]. *)
Definition reading3 (W : world) (s : mgr3) : Z := w_clk W (v_clock s).
Definition has_expired3 (W : world) (s : mgr3) (r : nat) : Prop :=
  exists i, (i < v_clock s)%nat /\ expiration3 s r <= w_clk W i.
(** The security level with which [m] was received. *)
Definition level_of (m : v3msg) : seclevel := fl_level (h_flags (v3_header m)).
Definition at_least (a b : seclevel) : Prop :=
  (sl_auth b = true -> sl_auth a = true) /\ (sl_priv b = true -> sl_priv a = true).
(** Levels that exist: no privacy without authentication (levels.py:7-19, C19). *)
Definition level_ok (a : seclevel) : Prop := sl_priv a = true -> sl_auth a = true.


(** The calls of sendRequest() in order: the n-th makes the request [n]. *)
Record call3 := mkCall3 { c_pdu : pdu; c_user : bytes; c_level : seclevel; c_timeout : Z; c_period : Z }.
Definition call_of (x : event3) : list call3 :=
  match x with VCall p user level timeout period => [mkCall3 p user level timeout period] | _ => [] end.
Definition calls (evs : list event3) : list call3 := flat_map call_of evs.

(** An attempt to send [r]. *)
Definition tries (r : nat) (y : log3) : Prop :=
  match y with WSent r' _ _ _ _ _ _ _ _ | WFailed r' _ _ _ => r' = r | _ => False end.

(** * Where the requests are *)
(** Active (in the heap), queued unsent, or in the hands of a thread that is in
    sendRequest() or poke(). *)
Definition pend (t : task3) : list nat := match t with SSend r => [r] | SPoking _ l _ => l | _ => [] end.
Definition queued (s : mgr3) : list nat := v_heap s ++ v_unsent s ++ flat_map pend (v_tasks s).
Definition poke_rest (t : task3) : list nat := match t with SPoking _ l _ => l | _ => [] end.
(** The requests that wait for discovery, in order. *)
Definition line (s : mgr3) : list nat := v_unsent s ++ flat_map poke_rest (v_tasks s).
Definition send_req (t : task3) : list nat := match t with SSend r => [r] | _ => [] end.
(** The requests whose call of sendRequest() waits for the lock. *)
Definition calling (s : mgr3) : list nat := flat_map send_req (v_tasks s).
(** The requests sent first of all, newest first. *)
Definition first_of (y : log3) : list nat :=
  match y with WSent r _ ByCall _ _ _ _ _ _ | WSent r _ ByPoke _ _ _ _ _ _ | WSent r _ ByDrain _ _ _ _ _ _ => [r] | _ => [] end.
Definition firsts (l : list log3) : list nat := flat_map first_of l.
Definition drain_of (y : log3) : list nat := match y with WSent r _ ByDrain _ _ _ _ _ _ => [r] | _ => [] end.
Definition drained (l : list log3) : list nat := flat_map drain_of l.

(** * What decides a request *)
Definition decisive (r : nat) (y : log3) : bool :=
  match y with WResponse r' _ => Nat.eqb r' r | WReport r' _ _ true => Nat.eqb r' r | _ => false end.
Definition hearsay (r : nat) (y : log3) : bool := match y with WReport r' _ _ false => Nat.eqb r' r | _ => false end.
Definition answer3 (request : pdu) (m : v3msg) : outcome3 :=
  match v3_scoped m with
  | None => VRaised AssertionError
  | Some sc =>
    if pdu_a (sp_pdu sc) =? 0 then VReturned (pdu_vbs (sp_pdu sc))
    else VErrorResponse (pdu_a (sp_pdu sc)) (pdu_b (sp_pdu sc)) (error_cause (pdu_b (sp_pdu sc)) request)
  end.
(** The first response or authenticated report decides; else the first report;
    else Timeout.  [l]: newest first. *)
Definition verdict (request : pdu) (r : nat) (l : list log3) : outcome3 :=
  match find (decisive r) (rev l) with
  | Some (WResponse _ m) => answer3 request m
  | Some (WReport _ x vb _) => VReport x vb
  | _ =>
    match find (hearsay r) (rev l) with
    | Some (WReport _ x vb _) => VReport x vb
    | _ => VRaised Timeout
    end
  end.

(** * Reports about the time window *)
Definition for_time (w : why3) : bool := match w with ByNotInTime => true | _ => false end.
(** Transmissions of [r] because of notInTimeWindows reports; all others
    (including those that failed after the message was made); failures in the
    loop of onReport(). *)
Definition time_sent (r : nat) (y : log3) : bool := match y with WSent r' _ w _ _ _ _ _ _ => Nat.eqb r' r && for_time w | _ => false end.
Definition other_made (r : nat) (y : log3) : bool :=
  match y with
  | WSent r' _ w _ _ _ _ _ _ => Nat.eqb r' r && negb (for_time w)
  | WFailed r' (Some _) w _ => Nat.eqb r' r && negb (for_time w)
  | _ => false
  end.
Definition other_sent (r : nat) (y : log3) : bool :=
  match y with WSent r' _ w _ _ _ _ _ _ => Nat.eqb r' r && negb (for_time w) | _ => false end.
Definition message_failed (r : nat) (y : log3) : bool :=
  match y with WFailed r' (Some _) w _ => Nat.eqb r' r && negb (for_time w) | _ => false end.
Definition drain_failed (y : log3) : bool := match y with WFailed _ _ ByDrain _ => true | _ => false end.
Definition count (f : log3 -> bool) (l : list log3) : nat := length (filter f l).
