(** SpecUse.v -- the vocabulary of C67 to C69: the users configured in the
    manager's namespace, and what is known of the world. *)
From Verif Require Export SpecUsm SpecProc SpecReg.

(** The security module is in a state that its own operations lead to; the random
    numbers are what the random number generator returns. *)
Record world_ok (W : world) : Prop := mkWorldOk {
  wo_usm : exists h, Forall usm_op_ok h /\ w_usm W = usm_after (w_crypto W) (w_ticks W) (w_rnd W 2) h;
  wo_messages : draws_ok gen_v3 (w_rnd W 0);
  wo_requests : draws_ok gen_v1 (w_rnd W 1)
}.
(** addUser() is called with security levels that exist. *)
Definition event_ok (x : event3) : Prop := match x with VUsers op => op_ok op | _ => True end.

(** In the course of the events, addUser() has been called for the user [n] in the
    manager's namespace, did not raise, and the protocols and secrets given are
    those of [c]. *)
Definition user_added (W : world) (evs : list event3) (n : bytes) (c : credentials) : Prop :=
  exists before after ap asec pp ps sec d dsl,
    let op := OpAddUser n ap asec pp ps sec d dsl (w_namespace W) in
    evs = before ++ VUsers op :: after /\
    snd (user_step (w_crypto W) (w_rnd W 2) (us_users (v_usm (fst (run3 W before)))) op) = Ok true /\
    spec_credentials (w_crypto W) ap asec pp ps sec c.

(** The discovery message: RFC 3414 section 4. *)
Definition is_discovery (d : pdu) (e user : bytes) (level : seclevel) : Prop :=
  d = mkPDU GetRequestPDU 0 0 0 [] /\ e = [] /\ user = [] /\ level = noAuthNoPriv.

(** * Agents *)
(** A peer with its own security module: ticks per second of its clock, its random
    numbers, what it has done so far, and the time. *)
Record agent := mkAgent { a_ticks : Z; a_rnd : nat -> Z; a_ops : list usm_op; a_now : Z }.
Definition agent_ok (A : agent) : Prop := 0 < a_ticks A /\ Forall usm_op_ok (a_ops A).
Definition agent_usm (C : crypto) (A : agent) : usm := usm_after C (a_ticks A) (a_rnd A) (a_ops A).
(** It has the keys made of the credentials [c] for the user [n], for the engine [e]. *)
Definition knows (C : crypto) (A : agent) (e n : bytes) (c : credentials) : Prop :=
  exists l, getCredentials (us_users (agent_usm C A)) e n = Ok l /\ localised_to C c e l.
(** A message of engine [e] with these boots and time is in its time window. *)
Definition in_time (C : crypto) (A : agent) (e : bytes) (bt : Z * Z) : Prop :=
  exists th, us_time (agent_usm C A) = time_after (a_ticks A) th /\ in_window (a_ticks A) th e (fst bt) (snd bt) (a_now A).
(** It accepts the datagram [w], and what it gets is [m]. *)
Definition accepts (C : crypto) (A : agent) (w : bytes) (m : v3msg) : Prop :=
  exists m0, v3_decode (ABytes w) = Ok m0 /\ snd (usm_processIncoming C (a_ticks A) (agent_usm C A) m0 (a_now A)) = Ok m.
(** The time that the manager's message of the step from [s] carries. *)
Definition sending_time (W : world) (s : mgr3) (e : bytes) : Z * Z :=
  getEngineTime (w_ticks W) (us_time (v_usm s)) e (w_clk W (S (v_clock s))).

(** * Where keys come from *)
(** The world is as it is after the operations [h0] of the security module. *)
Definition world_after (W : world) (h0 : list usm_op) : Prop :=
  Forall usm_op_ok h0 /\ w_usm W = usm_after (w_crypto W) (w_ticks W) (w_rnd W 2) h0 /\
  draws_ok gen_v3 (w_rnd W 0) /\ draws_ok gen_v1 (w_rnd W 1).
(** What the users of the security module have done: before the manager was made,
    or in the course of the events. *)
Definition performed (h0 : list usm_op) (evs : list event3) (op : user_op) : Prop := In (UUser op) h0 \/ In (VUsers op) evs.
(** [key] is the authentication key of the user [n] for the engine [e] (RFC 3414
    2.6), made of a password that was given to addUser(), in the namespace of the
    manager or in one in which somebody else registered the engine. *)
Definition key_of (W : world) (h0 : list usm_op) (evs : list event3) (e n : bytes) (alg : authalg) (key : bytes) : Prop :=
  exists ns asec pp ps sec d dsl msg,
    (ns = w_namespace W \/ performed h0 evs (OpRegister e ns)) /\
    performed h0 evs (OpAddUser n (Some alg) asec pp ps sec d dsl ns) /\
    is_stretched (effective asec sec) msg /\
    key = c_hash (w_crypto W) alg (c_hash (w_crypto W) alg msg ++ e ++ c_hash (w_crypto W) alg msg).

(** The manager knows the engine: it was given the engine ID, or a response was
    accepted, signed, or before any signed response arrived.  [l]: its log. *)
Definition is_response (m : v3msg) : Prop := exists sc, v3_scoped m = Some sc /\ pdu_cls (sp_pdu sc) <> ReportPDU.
Definition knows_engine (W : world) (l : list log3) : Prop :=
  w_engine W <> None \/
  exists r m, In (WResponse r m) l /\
    (sl_auth (level_of m) = true \/ forall h m', In (WPushed h m') l -> is_response m' -> sl_auth (level_of m') = false).
