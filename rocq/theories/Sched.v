(** Sched.v -- the retransmission schedule of a request, the same in
    snmp/manager/v1.py:26-100, v2c.py:26-100 and v3.py:281-411 (definitions only).

    Times are integers (ticks of a clock of any resolution) instead of floats:
    no rounding. *)
From Verif Require Export Utils.

(** v1.py:36-38: expiration, _nextRefresh, period. *)
Record sched := mkSched { sc_expiration : Z; sc_next : Z; sc_period : Z }.
(** v1.py:26,36-38; v3.py:283,299-301 *)
Definition sched_new (now timeout period : Z) : sched := mkSched (now + timeout) (now + timeout) period.
(** v1.py:44-46, v3.py:323-325 *)
Definition sched_expired (s : sched) (now : Z) : bool := sc_expiration s <=? now.
(** v1.py:52-54, v3.py:331-333 *)
Definition set_next (s : sched) (value : Z) : sched :=
  mkSched (sc_expiration s) (Z.min (sc_expiration s) value) (sc_period s).
(** v1.py:97-99, v3.py:407-409, what precedes reallySend(). *)
Definition sched_send (s : sched) (now : Z) : sched := set_next s (now + sc_period s).

(** v1.py:82-95, v3.py:392-405, after the test of event: return None, return
    timeToNextRefresh, or (with the new schedule) reallySend() and return 0.0.
    math.ceil(-t / period) is - (t / period), with division rounding down. *)
Inductive refreshed := RFinished | RLater (wait : Z) | RResend (s : sched).
Definition sched_refresh (s : sched) (now : Z) : res refreshed :=
  let timeToNextRefresh := sc_next s - now in
  if timeToNextRefresh <=? 0 then
    if sc_expiration s <=? now then Ok RFinished
    else if sc_period s =? 0 then Raise ZeroDivisionError
    else
      let periodsElapsed := - (timeToNextRefresh / sc_period s) in
      Ok (RResend (set_next s (sc_next s + periodsElapsed * sc_period s)))
  else Ok (RLater timeToNextRefresh).
