(** SpecFail.v -- the vocabulary of C80: requests that can be sent, and engines
    whose clocks can be. *)
From Verif Require Import SpecMsg.
From Verif Require Export SpecUse.

(** The credentials are enough for the security level. *)
Definition supports (c : credentials) (level : seclevel) : Prop :=
  (sl_auth level = true -> cr_authProtocol c <> None) /\ (sl_priv level = true -> cr_privProtocol c <> None).
(** A PDU that can be encoded, whatever its request ID is, to a reasonable size. *)
Definition fits (p : pdu) : Prop :=
  pdu_ok p /\ forall id, int32 id -> exists b, pdu_encode (set_requestID p id) = Ok b /\ zlen b <= 60000.
(** A call that says what to send: after the events [before]; the user has been
    added, with credentials that are enough. *)
Definition call_good (W : world) (before : list event3) (x : event3) : Prop :=
  match x with
  | VCall p user level timeout period =>
    0 < period /\ fits p /\ SpecMsg.level_ok level /\ bytes_ok user /\ zlen user <= 1000 /\
    (sl_auth level = true -> exists c, user_added W before user c /\ supports c level)
  | _ => True
  end.
Definition calls_good (W : world) (evs : list event3) : Prop :=
  forall before x after, evs = before ++ x :: after -> call_good W before x.
(** The engines that the manager or a request has taken for the peer. *)
Definition held (s : mgr3) (e : bytes) : Prop := v_engine s = Some e \/ exists r, q_engine (request3 s r) = Some e.
(** What RFC 3414 (2.2) allows as snmpEngineBoots and snmpEngineTime. *)
Definition engine_clock (bt : Z * Z) : Prop := 0 <= fst bt <= 2147483647 /\ 0 <= snd bt <= 2147483647.
(** In every step, the clock of such an engine, as the manager would send it, has
    values that exist, and the engine ID is an octet string of reasonable length. *)
Definition engines_good (W : world) (evs : list event3) : Prop :=
  forall before x after e, evs = before ++ x :: after -> held (fst (run3 W before)) e ->
  bytes_ok e /\ zlen e <= 1000 /\ engine_clock (sending_time W (fst (run3 W before)) e).
(** The operating system has refused a datagram. *)
Definition was_refused (W : world) : Prop := exists i, refused (w_rnd W) i = true.
(** At some time, five or more messages were outstanding. *)
Definition five_outstanding (W : world) (evs : list event3) : Prop :=
  exists before after, evs = before ++ after /\ (5 <= length (ca_out (p3_cache (v_proc (fst (run3 W before))))))%nat.
