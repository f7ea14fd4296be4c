(** SpecSync.v -- the vocabulary of C83: the time in messages. *)
From Verif Require Export SpecUse SpecAnswer.

(** The clock when the message of the step from [s] is secured. *)
Definition sent_reading (W : world) (s : mgr3) : Z := w_clk W (Datatypes.S (v_clock s)).
(** The datagram is a message from (or to) the engine [e], authenticated or not,
    with these boots and time (msgAuthoritativeEngineBoots and -Time). *)
Definition says (d : bytes) (auth : bool) (e : bytes) (boots time : Z) : Prop :=
  exists m sp, v3_decode (ABytes d) = Ok m /\ fl_auth (h_flags (v3_header m)) = auth /\
    params_decode (v3_params m) = Ok sp /\ up_engineID sp = e /\ up_boots sp = boots /\ up_time sp = time.
(** That is news: [ts] is the clock.  If it is authenticated, it is later than what
    is known from authenticated messages; if not, no authenticated message of that
    engine has been processed. *)
Definition news (R : Z) (u : usm) (auth : bool) (e : bytes) (boots time ts : Z) : Prop :=
  exists th, us_time u = time_after R th /\
    if auth then auth_seen th e -> ~ notion_le (boots, time) (getEngineTime R (time_after R th) e ts)
    else ~ auth_seen th e.
(** The events [evs] lead to a state in which the listener waits; then it receives
    [d], and is still busy with it after the events [mid] (and all the time). *)
Definition busy_with (W : world) (evs : list event3) (d : bytes) (mid : list event3) : Prop :=
  v_listener (fst (run3 W evs)) = LIdle /\
  forall done rest, mid = done ++ rest -> v_listener (fst (run3 W (evs ++ VReceive d :: done))) <> LIdle.
(** RFC 3414 3.2 step 7a: the engine that the message was for, whose boots and time
    are [mine], finds the message (boots, time) in its time window. *)
Definition timely (mine : Z * Z) (boots time : Z) : Prop :=
  fst mine <> 2147483647 /\ boots = fst mine /\ Z.abs (time - snd mine) <= 150.
(** The report usmStatsNotInTimeWindows. *)
Definition not_in_time (m : v3msg) : Prop :=
  exists sc vb vbs, v3_scoped m = Some sc /\ pdu_cls (sp_pdu sc) = ReportPDU /\ pdu_vbs (sp_pdu sc) = vb :: vbs /\ vb_name vb = usmStats ++ [2; 0].
