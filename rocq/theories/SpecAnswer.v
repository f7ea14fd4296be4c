(** SpecAnswer.v -- the vocabulary of C69: what it means to answer a message. *)
From Verif Require Export SpecUse SpecMsg.

(** [m] is the answer [answer] to the message [wire], which was sent to the engine
    [e] in the name of [user] at the security level [level] (RFC 3412 7.2). *)
Definition responds (wire e user : bytes) (level : seclevel) (m : v3msg) (answer : pdu) : Prop :=
  (exists mw, v3_decode (ABytes wire) = Ok mw /\ h_id (v3_header m) = h_id (v3_header mw)) /\
  v3_scoped m = Some (mkScoped e [] answer) /\ pdu_cls answer = ResponsePDU /\
  v3_engineID m = Some e /\ v3_name m = Some user /\ at_least (level_of m) level.
(** The security module takes the datagram [d] for [m]. *)
Definition takes (W : world) (s : mgr3) (d : bytes) (m : v3msg) : Prop :=
  exists m0, v3_decode (ABytes d) = Ok m0 /\ h_securityModel (v3_header m0) = USM /\
    snd (usm_processIncoming (w_crypto W) (w_ticks W) (v_usm s) m0 (reading3 W s)) = Ok m.
(** What wait() does with the answer. *)
Definition given (request answer : pdu) : outcome3 :=
  if pdu_a answer =? 0 then VReturned (pdu_vbs answer)
  else VErrorResponse (pdu_a answer) (pdu_b answer) (error_cause (pdu_b answer) request).

(** The task [n] sleeps in wait() of the request [r], nobody has the lock, and the
    listener waits for a datagram; the request has not been answered, and no
    earlier wait() for it is over. *)
Definition waits (s : mgr3) (l : list log3) (n r : nat) : Prop :=
  (exists limit, nth_error (v_tasks s) n = Some (SBlock r limit)) /\ locked3 s = false /\ v_listener s = LIdle /\
  ~ answered3 s r /\ forall o, ~ In (WOutcome r o) l.
(** Then [d] arrives, and the listener and that task run. *)
Definition arrival (d : bytes) (n : nat) : list event3 := [VReceive d; VListen; VListen; VListen; VStep n; VStep n; VStep n].
(** No more than one thread is in sendRequest() or wait() at a time (as the
    documentation asks for); and the clock does not run backwards. *)
Definition one_thread (W : world) (evs : list event3) : Prop :=
  forall before later, evs = before ++ later -> (length (v_tasks (fst (run3 W before))) <= 1)%nat.
Definition forwards (W : world) : Prop := forall i j, (i <= j)%nat -> w_clk W i <= w_clk W j.
(** * Agents *)
(** The agent [A] secures the answer to the message [wire], with its own security
    module, in the name of the user that asked, and at the same level; [size] is
    the largest message that it takes itself. *)
Definition answers_with (C : crypto) (A : agent) (wire e user : bytes) (level : seclevel) (answer : pdu) (size : Z) (d : bytes) : Prop :=
  exists mw, v3_decode (ABytes wire) = Ok mw /\
    snd (usm_prepareOutgoing C (a_ticks A) (agent_usm C A)
      (mkV3 (mkHeader (h_id (v3_header mw)) size (mkFlags level false) USM) (Some (mkScoped e [] answer)) None (ABytes []) None None) e user (a_now A)) = Ok d.
(** The manager, when it next reads the clock, finds the agent's time in its window. *)
Definition manager_in_time (W : world) (s : mgr3) (A : agent) (e : bytes) : Prop :=
  exists th, us_time (v_usm s) = time_after (w_ticks W) th /\
    let '(boots, time) := getEngineTime (a_ticks A) (us_time (agent_usm (w_crypto W) A)) e (a_now A) in in_window (w_ticks W) th e boots time (reading3 W s).
