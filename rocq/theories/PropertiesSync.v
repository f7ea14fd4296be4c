(** PropertiesSync.v -- C83: one report is enough to get in time with the agent. *)
From Verif Require Import PropertiesUsm PropertiesMsg PropertiesProc PropertiesMgr PrfMgr3i PropertiesMgr3 PropertiesReg PropertiesUse PrfHear PrfHear2 PrfMgr3e PrfMgr3d PropertiesHear PrfAnswer PropertiesAnswer PrfUse PrfUse2.
From Verif Require Import PrfMgr3 PrfMgr3a PrfMgr3c PrfMgr3h PrfTime PrfShare PropertiesShare PrfSync2 PrfSync SpecSync SpecAnswer SpecUse SpecReg PrfOpen2 PrfAnswer.

(** A datagram [d] of the engine [e] arrives that says something new of its boots
    and time.  Until the listener is done with it, whatever is sent to that engine
    with authentication, by whichever thread, for whatever request, has these boots, and this time
    plus the whole seconds that have passed since. *)
Theorem C83_time : forall W evs d mid s0 l0 s l x s' l' r h w now p e user level wire auth b t,
  world_ok W -> crypto_ok (w_crypto W) -> 484 <= w_size W <= 2147483647 -> 0 < w_ticks W ->
  Forall event_ok (evs ++ VReceive d :: mid ++ [x]) ->
  history W evs s0 l0 -> busy_with W evs d mid -> history W (evs ++ VReceive d :: mid) s l ->
  says d auth e b t -> 0 <= b <= 2147483647 -> 0 <= t -> news (w_ticks W) (v_usm s0) auth e b t (reading3 W s0) ->
  step3 W s x = (s', l') -> In (WSent r h w now p e user level wire) l' ->
  pdu_ok p -> octets_ok e -> octets_ok user -> SpecMsg.level_ok level -> sl_auth level = true ->
  reading3 W s0 <= sent_reading W s ->
  says wire true e b (t + (sent_reading W s - reading3 W s0) / w_ticks W).
Proof.
  intros W evs d mid s0 l0 s l x s' l' r h w now p e user level wire auth b t OK CO SZ TK EV [_ E0] BU [_ E] SA B T NE ST IN PO EO UO LO A FW.
  assert (EV1 : Forall event_ok ((evs ++ VReceive d :: mid) ++ [x])) by (now rewrite <- app_assoc).
  destruct (step_time W OK _ s l x s' l' EV1 E ST) as [_ WT]. apply WT in IN as (u & id & ST1 & ID & P). clear WT.
  apply Forall_app in EV1 as [EV1 _]. pose proof (busy_time W OK evs d mid EV1 BU) as BT. rewrite E in BT. cbn [fst] in BT.
  destruct BU as [L BU]. rewrite E0 in L. cbn [fst] in L. specialize (BU [] mid eq_refl).
  destruct (step3 W s0 (VReceive d)) as [s1 l1] eqn:R1.
  assert (E1 : run3 W (evs ++ [VReceive d]) = (s1, rev l1 ++ l0)).
  { unfold run3. rewrite m3_run_snoc. fold (run3 W evs). rewrite E0. unfold step3 in R1. rewrite R1. reflexivity. }
  rewrite E1 in BU, BT. cbn [fst] in BU, BT.
  pose proof (received_time W evs d s0 l0 s1 l1 auth e b t E0 R1 L BU SA) as RT.
  apply (carried W s u id p e user level wire (sent_reading W s)) in P; auto.
  assert (X : exists fl, dict_get zlist_eqb (us_time (v_usm s)) e = Some (mkET fl b (reading3 W s0 - t * w_ticks W))).
  { rewrite BT. destruct NE as (th & UT & N). rewrite UT in RT. destruct auth.
    - exists true. rewrite <- (auth_entry (w_ticks W) th e b t (reading3 W s0) TK ltac:(lia) N). now rewrite RT.
    - exists false. rewrite RT. apply hint_entry; [lia|exact N]. }
  destruct X as (fl & X). rewrite (local_some (w_ticks W) _ e (sent_reading W s) _ X) in P. cbn [fst snd et_boots] in P.
  replace (t + (sent_reading W s - reading3 W s0) / w_ticks W) with (et_time (w_ticks W) (mkET fl b (reading3 W s0 - t * w_ticks W)) (sent_reading W s)); [exact P|].
  unfold et_time. cbn [et_latestBootTime]. rewrite <- passed by lia. f_equal. lia.
Qed.
Print Assumptions C83_time.
(** So an engine that says what time it is finds the message in its time window, if
    it gets it when 150 seconds more or less have passed on its own clock. *)
Theorem C83_timely : forall W evs d mid s0 l0 s l x s' l' r h w now p e user level wire auth b t mine,
  world_ok W -> crypto_ok (w_crypto W) -> 484 <= w_size W <= 2147483647 -> 0 < w_ticks W ->
  Forall event_ok (evs ++ VReceive d :: mid ++ [x]) ->
  history W evs s0 l0 -> busy_with W evs d mid -> history W (evs ++ VReceive d :: mid) s l ->
  says d auth e b t -> 0 <= b < 2147483647 -> 0 <= t -> news (w_ticks W) (v_usm s0) auth e b t (reading3 W s0) ->
  step3 W s x = (s', l') -> In (WSent r h w now p e user level wire) l' ->
  pdu_ok p -> octets_ok e -> octets_ok user -> SpecMsg.level_ok level -> sl_auth level = true ->
  reading3 W s0 <= sent_reading W s -> Z.abs (mine - (t + (sent_reading W s - reading3 W s0) / w_ticks W)) <= 150 ->
  exists b' t', says wire true e b' t' /\ timely (b, mine) b' t'.
Proof.
  intros W evs d mid s0 l0 s l x s' l' r h w now p e user level wire auth b t mine OK CO SZ TK EV H0 BU H SA B T NE ST IN PO EO UO LO A FW N.
  eexists _, _. split; [eapply C83_time; eauto; lia|]. split; cbn [fst snd]; [lia|]. split; [reflexivity|]. lia.
Qed.
Print Assumptions C83_timely.
(** If it is authenticated, but no news, the boots are the same, and the time is no
    more than 150 seconds (and the rounding) ahead of it. *)
Theorem C83_window : forall W evs d mid s0 l0 s l x s' l' r h w now p e user level wire b t,
  world_ok W -> crypto_ok (w_crypto W) -> 484 <= w_size W <= 2147483647 -> 0 < w_ticks W ->
  Forall event_ok (evs ++ VReceive d :: mid ++ [x]) ->
  history W evs s0 l0 -> busy_with W evs d mid -> history W (evs ++ VReceive d :: mid) s l ->
  says d true e b t -> 0 <= b <= 2147483647 -> 0 <= t ->
  step3 W s x = (s', l') -> In (WSent r h w now p e user level wire) l' ->
  pdu_ok p -> octets_ok e -> octets_ok user -> SpecMsg.level_ok level -> sl_auth level = true ->
  reading3 W s0 <= sent_reading W s ->
  exists t', says wire true e b t' /\
    let expected := t + (sent_reading W s - reading3 W s0) / w_ticks W in expected - 1 <= t' <= expected + 151.
Proof.
  intros W evs d mid s0 l0 s l x s' l' r h w now p e user level wire b t OK CO SZ TK EV [_ E0] BU [_ E] SA B T ST IN PO EO UO LO A FW.
  assert (EV1 : Forall event_ok ((evs ++ VReceive d :: mid) ++ [x])) by (now rewrite <- app_assoc).
  destruct (step_time W OK _ s l x s' l' EV1 E ST) as [_ WT]. apply WT in IN as (u & id & ST1 & ID & P). clear WT.
  apply Forall_app in EV1 as [EV1 _]. pose proof (busy_time W OK evs d mid EV1 BU) as BT. rewrite E in BT. cbn [fst] in BT.
  destruct BU as [L BU]. rewrite E0 in L. cbn [fst] in L. specialize (BU [] mid eq_refl).
  destruct (step3 W s0 (VReceive d)) as [s1 l1] eqn:R1.
  assert (E1 : run3 W (evs ++ [VReceive d]) = (s1, rev l1 ++ l0)).
  { unfold run3. rewrite m3_run_snoc. fold (run3 W evs). rewrite E0. unfold step3 in R1. rewrite R1. reflexivity. }
  rewrite E1 in BU, BT. cbn [fst] in BU, BT.
  pose proof (received_time W evs d s0 l0 s1 l1 true e b t E0 R1 L BU SA) as RT. cbv beta iota in RT.
  apply (carried W s u id p e user level wire (sent_reading W s)) in P; auto.
  apply Forall_app in EV1 as [EV0 _]. destruct (run_good W OK evs EV0 s0 l0 E0) as [_ G0]. destruct (g_usm _ _ _ G0) as (uh & UF & UE).
  destruct (usm_split (w_crypto W) (w_ticks W) (w_rnd W 2) uh UF) as (th & _ & _ & UT & _). rewrite <- UE in UT.
  pose proof (timeliness (w_ticks W) th e b t (reading3 W s0) TK ltac:(lia)) as TL. cbv zeta in TL. rewrite UT in RT. rewrite RT in TL. cbn [fst snd] in TL.
  destruct TL as (T1 & T2 & T3). assert (T3' := proj1 T3 eq_refl). clear T3. destruct T3' as (B1 & B2 & B3).
  assert (X : exists y, dict_get zlist_eqb (us_time (v_usm s1)) e = Some y).
  { pose proof (update_get (w_ticks W) (time_after (w_ticks W) th) e b t (reading3 W s0) e) as U. rewrite RT, (proj2 (zlist_eqb_eq e e) eq_refl) in U. cbn [fst] in U. eauto. }
  destruct X as (y & X). rewrite (local_some (w_ticks W) _ e _ _ X) in T1, T2, B1, B2, B3. cbn [fst snd] in B1, B2, B3.
  assert (LO1 : t <= et_time (w_ticks W) y (reading3 W s0)).
  { destruct (seen_dec (w_ticks W) th e) as [S|S].
    - specialize (T1 S). unfold later in T1. destruct (notion_leb _ _) eqn:NB; [injection T1 as T1 T1'; lia|].
      rewrite <- T1 in NB. unfold notion_leb in NB. cbn [fst snd] in NB. rewrite <- B1, Z.ltb_irrefl, Z.eqb_refl in NB. cbn [orb andb] in NB. apply Z.leb_gt in NB. lia.
    - specialize (T2 S). injection T2 as _ T2. lia. }
  rewrite BT, (local_some (w_ticks W) _ e _ _ X) in P. cbn [fst snd] in P. rewrite <- B1 in P.
  eexists. split; [exact P|]. cbv zeta.
  pose proof (passed_near (w_ticks W) (reading3 W s0 - et_latestBootTime y) (sent_reading W s - reading3 W s0) _ TK ltac:(lia) eq_refl) as PN.
  unfold et_time in *. replace (reading3 W s0 - et_latestBootTime y + (sent_reading W s - reading3 W s0)) with (sent_reading W s - et_latestBootTime y) in PN by lia. lia.
Qed.
Print Assumptions C83_window.
(** The datagram [d] arrives when the listener waits, and nobody has the lock; it
    is the report notInTimeWindows of the engine [e], in answer to the message [h]
    of the request [r], and the first that is acted on for [r]. *)
Definition told (W : world) (evs : list event3) (s : mgr3) (l : list log3) (d : bytes) (r h : nat) (e : bytes) : Prop :=
  v_listener s = LIdle /\ locked3 s = false /\
  (exists w now p e0 user level wire, In (WSent r h w now p e0 user level wire) l) /\
  (exists m, v_listener (fst (run3 W (evs ++ [VReceive d]))) = LPush h m /\ not_in_time m /\ v3_engineID m = Some e) /\
  forall h' now p e0 user level wire, ~ In (WSent r h' ByNotInTime now p e0 user level wire) l.
Lemma told_run W evs s l d r h e s1 l1 : world_ok W -> Forall event_ok evs -> history W evs s l -> told W evs s l d r h e ->
  history W (evs ++ [VReceive d; VListen]) s1 l1 ->
  exists sr m0 m, step3 W s (VReceive d) = (sr, []) /\ v_listener sr = LPush h m /\ v3_decode (ABytes d) = Ok m0 /\
    snd (usm_processIncoming (w_crypto W) (w_ticks W) (v_usm s) m0 (reading3 W s)) = Ok m /\ v3_engineID m = Some e /\
    v_listener s1 = LReport r e ByNotInTime /\ locked3 s1 = false /\ v_reqs s1 = v_reqs s /\ v_state s1 = v_state s.
Proof.
  intros OK EV HI (L & LK & (w & now & p & e0 & user & level & wire & IN) & (m & LP & (sc & vb & vbs & SC & CL & VB & NM) & EI) & FIRST) [NW1 RUN1].
  pose proof HI as [NW RUN]. pose proof (history_new _ _ _ _ HI) as (s0 & NEW & RUN0).
  pose proof (base_run _ _ _ _ _ _ _ _ _ _ (base_start _ _ _ _ _ _ _ _ NEW) RUN0) as [I _].
  pose proof (fresh_run _ _ _ _ _ _ _ _ _ _ _ _ _ _ NEW RUN0) as FI.
  destruct (open_run W OK evs EV s l RUN) as [O1 O2 O3]. destruct (O2 _ _ _ _ _ _ _ _ _ IN) as (HL & (HR & HW) & _). clear O1 O2 O3.
  destruct (step3 W s (VReceive d)) as [sr lr] eqn:S1. pose proof (run3_next _ _ _ _ _ _ _ RUN S1) as R1. rewrite R1 in LP. cbn [fst] in LP.
  unfold step3 in S1. cbn [m3_step] in S1. rewrite L in S1. cbn [tick3] in S1.
  destruct (v3_prepareDataElements _ _ _ _ _ _ _) as [u [[m1 h1]|ex]] eqn:P; injection S1 as <- <-; [|exfalso; cbn in LP; congruence].
  cbn in LP. injection LP as -> ->. pose proof P as P0. apply C27_delivered in P0 as (m0 & _ & en & DE & PI & _ & HE & AL & _). subst h. cbn [v_usm set_io] in PI.
  unfold message_alive in AL. cbn [v_msgs v_reqs set_io] in AL. apply andb_prop in AL as [OP AL]. rewrite HR in AL.
  set (sr := set_listener _ _) in *. exists sr, m0, m. split; [reflexivity|]. split; [reflexivity|]. split; [exact DE|]. split; [unfold reading3; now rewrite PI|]. split; [exact EI|].
  change (evs ++ [VReceive d; VListen]) with (evs ++ ([VReceive d] ++ [VListen])) in RUN1. rewrite app_assoc in RUN1.
  assert (S2 : step3 W sr VListen = (set_listener sr (LReport r e ByNotInTime), [WPushed (e3_handle en) m])).
  { unfold step3. cbn [m3_step]. unfold listen3. change (v_listener sr) with (LPush (e3_handle en) m). unfold push_step. rewrite SC, EI.
    change (v_msgs sr) with (v_msgs s). change (v_reqs sr) with (v_reqs s). change (v_bools sr) with (v_bools s). rewrite HR, AL. cbn [negb]. rewrite CL. cbn [pducls_eqb]. rewrite VB.
    assert (RK : report_kind (vb_name vb) = RNotInTimeWindow) by (rewrite NM; reflexivity). rewrite RK.
    destruct (nth (g_sync (getm (v_msgs s) (e3_handle en))) (v_bools s) true) eqn:B; [|reflexivity]. exfalso.
    assert (GM : In (getm (v_msgs s) (e3_handle en)) (mine s)) by (apply in_msgs; exists (e3_handle en); split; [exact HL|]; split; [reflexivity|exact HW]).
    destruct (f_msg _ _ FI _ GM B) as (y & Y & T). rewrite HR in T. destruct y as [r' h' w' n' p' e' u' lv wr| | | | | |]; try discriminate T. cbn in T. apply andb_prop in T as [T1 T2]. apply Nat.eqb_eq in T1. subst r'. destruct w'; try discriminate T2. exact (FIRST _ _ _ _ _ _ _ Y). }
  pose proof (run3_next _ _ _ _ _ _ _ R1 S2) as R2. rewrite R2 in RUN1. injection RUN1 as <- _.
  split; [reflexivity|]. split; [|split; reflexivity]. unfold locked3 in *. cbn. rewrite L in LK. exact LK.
Qed.
(** Then the request is sent to that engine at once (or that fails), unless the
    manager believes that nothing was sent.  No other thread has to do anything. *)
Theorem C83_resent : forall W evs s l d r h e s1 l1,
  world_ok W -> Forall event_ok evs -> history W evs s l -> told W evs s l d r h e ->
  v_state s <> Inactive -> v_state s <> Unsynchronized ->
  history W (evs ++ [VReceive d; VListen]) s1 l1 ->
  let q := request3 s r in let sent := snd (step3 W s1 VListen) in
  exists h', (exists now wire, sent = [WSent r h' ByNotInTime now (q_pdu q) e (q_user q) (q_level q) wire]) \/
    exists o ex, sent = [WFailed r o ByNotInTime ex].
Proof.
  intros W evs s l d r h e s1 l1 OK EV HI TO ST1 ST2 H1. destruct (told_run W evs s l d r h e s1 l1 OK EV HI TO H1) as (_ & _ & _ & _ & _ & _ & _ & _ & LI & LK & RQ & ST).
  cbv zeta. unfold step3. cbn [m3_step]. unfold listen3. rewrite LI, LK, ST.
  destruct (onReport (v_state s) (v_engine s1) e) as [[nx all]|ex] eqn:OR.
  2:{ exfalso. destruct (v_state s); cbn in OR; try contradiction; try discriminate OR. destruct (opt_bytes_eqb _ _); discriminate OR. }
  destruct (send3 _ _ _ _ _ _ _ _ _) as [[s2 l2] y] eqn:SE. apply send3_spec in SE.
  assert (X : exists h', (exists now wire, l2 = [WSent r h' ByNotInTime now (q_pdu (request3 s r)) e (q_user (request3 s r)) (q_level (request3 s r)) wire]) \/
    exists o ex, l2 = [WFailed r o ByNotInTime ex]).
  { assert (Q : forall c, let z := get3 (v_reqs (readied (w_clk W) (assign_next c nx) r)) r in v_reqs c = v_reqs s ->
      q_pdu z = q_pdu (request3 s r) /\ q_user z = q_user (request3 s r) /\ q_level z = q_level (request3 s r)).
    { intros c z E. assert (V : v_reqs (assign_next c nx) = v_reqs s) by (rewrite <- E; destruct nx; reflexivity). unfold z, readied, request3. cbn [v_reqs set_req3 set_objects]. unfold ticked. cbn [v_reqs set_io]. rewrite V.
      rewrite get3_put. destruct (_ && _)%bool eqn:B; [|auto]. repeat split. }
    specialize (Q s1 RQ). cbv zeta in Q. destruct Q as (Q1 & Q2 & Q3).
    inversion SE; subst; [exists 0%nat; right; eauto|]. cbn [target] in *. match goal with X : target _ _ = _ |- _ => unfold target in X; injection X as <- <- <- <- end.
    match goal with X : (exists wire, _) \/ _ |- _ => destruct X as [(wire & _ & ->)|(ex & _ & ->)] end; [|exists 0%nat; right; eauto].
    eexists. left. eexists _, _. unfold q. rewrite Q1, Q2, Q3. reflexivity. }
  destruct y as [[]|ex]; [destruct all|]; exact X.
Qed.
Print Assumptions C83_resent.
Lemma incoming_engine C R u m ts m' : snd (usm_processIncoming C R u m ts) = Ok m' ->
  exists sp, params_decode (v3_params m) = Ok sp /\ v3_engineID m' = Some (up_engineID sp).
Proof.
  unfold usm_processIncoming. destruct (params_decode _) as [sp|]; [|discriminate]. cbv zeta. cbn [v3_header v3_encrypted]. intros H. exists sp. split; [reflexivity|].
  destruct (negb (fl_auth _)); [injection H as <-; reflexivity|]. destruct (getCredentials _ _ _) as [l|x]; [|destruct x; discriminate H].
  destruct (lc_auth l) as [[alg key]|]; [|discriminate H]. destruct (_ && _); [discriminate H|]. destruct (negb _); [discriminate H|].
  destruct (up_index sp); [|discriminate H]. destruct (up_whole sp); [|discriminate H]. destruct (negb _); [discriminate H|].
  destruct (updateAndVerify _ _ _ _ _ _) as [t ok]. destruct (negb ok); [discriminate H|]. destruct (fl_priv _); [|injection H as <-; reflexivity].
  cbn [snd] in H. destruct (reraise _ _ _) as [y|] eqn:Y; [|discriminate H]. injection H as <-.
  unfold reraise in Y. destruct (lc_priv l); [|destruct (is_ValueError _); discriminate Y]. destruct (v3_encrypted m); [|destruct (is_ValueError _); discriminate Y].
  destruct (priv_decrypt _ _ _ _ _ _) as [x|x]; cbn [bind] in Y; [|destruct (is_ValueError x); discriminate Y].
  unfold v3_set_plaintext in Y. destruct (scoped_decode _) as [sc|x2]; cbn [bind] in Y; [|destruct (is_ValueError x2); discriminate Y]. injection Y as <-. reflexivity.
Qed.
(** All together: the report says something new of the time, and the request is to
    be authenticated; then what is sent at once has that time (and so is in the
    time window of the engine, as in C83_timely). *)
Theorem C83_heals : forall W evs s l d r h e s1 l1 auth e' b t,
  world_ok W -> crypto_ok (w_crypto W) -> 484 <= w_size W <= 2147483647 -> 0 < w_ticks W ->
  Forall event_ok evs -> history W evs s l -> told W evs s l d r h e ->
  v_state s <> Inactive -> v_state s <> Unsynchronized ->
  says d auth e' b t -> 0 <= b <= 2147483647 -> 0 <= t -> news (w_ticks W) (v_usm s) auth e' b t (reading3 W s) ->
  history W (evs ++ [VReceive d; VListen]) s1 l1 ->
  let q := request3 s r in
  pdu_ok (q_pdu q) -> octets_ok e -> octets_ok (q_user q) -> SpecMsg.level_ok (q_level q) -> sl_auth (q_level q) = true ->
  reading3 W s <= sent_reading W s1 ->
  let sent := snd (step3 W s1 VListen) in
  (exists h' now wire, sent = [WSent r h' ByNotInTime now (q_pdu q) e (q_user q) (q_level q) wire] /\
     says wire true e b (t + (sent_reading W s1 - reading3 W s) / w_ticks W)) \/
  exists o ex, sent = [WFailed r o ByNotInTime ex].
Proof.
  intros W evs s l d r h e s1 l1 auth e' b t OK CO SZ TK EV HI TO ST1 ST2 SA B T NE H1 q PO EO UO LO A FW sent.
  destruct (C83_resent W evs s l d r h e s1 l1 OK EV HI TO ST1 ST2 H1) as (h' & [(now & wire & E)|(o & ex & E)]); [left|right; eauto].
  exists h', now, wire. split; [exact E|].
  destruct (told_run W evs s l d r h e s1 l1 OK EV HI TO H1) as (sr & m0 & m & S1 & LP & DE & PI & EI & LI & _).
  assert (EE : e' = e).
  { destruct SA as (m1 & sp1 & D1 & _ & P1 & E1 & _). rewrite DE in D1. injection D1 as <-. destruct (incoming_engine _ _ _ _ _ _ PI) as (sp & P2 & E2). rewrite P1 in P2. injection P2 as <-. congruence. }
  subst e'. destruct (step3 W s1 VListen) as [s2 l2] eqn:S2. cbn [snd] in E.
  change (evs ++ [VReceive d; VListen]) with (evs ++ VReceive d :: [VListen]) in H1.
  eapply (C83_time W evs d [VListen] s l s1 l1 VListen s2 l2 r h' ByNotInTime now (q_pdu q) e (q_user q) (q_level q) wire auth b t); auto.
  - apply Forall_app. split; [exact EV|]. repeat constructor.
  - destruct HI as [_ RUN]. split; [rewrite RUN; exact (proj1 TO)|]. pose proof (run3_next _ _ _ _ _ _ _ RUN S1) as R1.
    intros [|x done] rest X.
    + rewrite R1. cbn [fst]. rewrite LP. intros K. discriminate K.
    + injection X as <- X. destruct done; [|discriminate X]. destruct H1 as [_ R2]. rewrite R2. cbn [fst]. rewrite LI. intros K. discriminate K.
  - subst l2. left. reflexivity.
Qed.
Print Assumptions C83_heals.
(** An authNoPriv request, made at 0; the agent has rebooted (or was never heard
    of).  At 9, its report says that it is at boots 5, time 77; that is processed
    at 12, and what is sent says 80. *)
Definition ex_sync : world := ex_world [0; 0; 0; 9; 12] (Some ex_engine).
Definition ex_telling : bytes := ex_note 13 ex_engine ex_user (ex_report 2).
Definition ex_sent_pdu : pdu := set_requestID ex_pdu 13.
Example C83_example : let W := ex_sync in let evs := ex_call authNoPriv 100 3 in let d := ex_telling in let s := fst (run3 W evs) in let l := snd (run3 W evs) in
  let s1 := fst (run3 W (evs ++ [VReceive d; VListen])) in
  snd (new3 W) = Ok tt /\ told W evs s l d 0 0 ex_engine /\ v_state s <> Inactive /\ v_state s <> Unsynchronized /\
  says d false ex_engine 5 77 /\ news (w_ticks W) (v_usm s) false ex_engine 5 77 (reading3 W s) /\ reading3 W s = 9 /\ sent_reading W s1 = 12 /\
  sl_auth (q_level (request3 s 0)) = true /\
  exists wire, snd (step3 W s1 VListen) = [WSent 0 1 ByNotInTime 12 ex_sent_pdu ex_engine ex_user authNoPriv wire] /\ says wire true ex_engine 5 80.
Proof.
  cbv zeta. split; [vm_compute; reflexivity|]. split.
  { split; [vm_compute; reflexivity|]. split; [vm_compute; reflexivity|]. split; [vm_compute; do 7 eexists; left; reflexivity|].
    split; [eexists; split; [vm_compute; reflexivity|]; split; [do 3 eexists; vm_compute; repeat split|vm_compute; reflexivity]|].
    vm_compute. intros h' now p e0 user level wire [K|[]]. discriminate K. }
  split; [vm_compute; intros K; discriminate K|]. split; [vm_compute; intros K; discriminate K|].
  split; [do 2 eexists; split; [vm_compute; reflexivity|]; split; [vm_compute; reflexivity|]; split; [vm_compute; reflexivity|]; vm_compute; repeat split|].
  split; [exists []; split; [vm_compute; reflexivity|]; intros (b & m & ts & [])|].
  split; [vm_compute; reflexivity|]. split; [vm_compute; reflexivity|]. split; [vm_compute; reflexivity|].
  eexists. split; [vm_compute; reflexivity|].
  do 2 eexists. split; [vm_compute; reflexivity|]. split; [vm_compute; reflexivity|]. split; [vm_compute; reflexivity|]. vm_compute. repeat split.
Qed.
(** An authenticated one is a case of C83_window. *)
Example C83_window_example : let W := ex_sync in let evs := ex_call authNoPriv 100 3 in let d := ex_signed 13 ex_engine (ex_report 2) in
  busy_with W evs d [VListen] /\ says d true ex_engine 5 77 /\
  exists wire, snd (step3 W (fst (run3 W (evs ++ [VReceive d; VListen]))) VListen) = [WSent 0 1 ByNotInTime 12 ex_sent_pdu ex_engine ex_user authNoPriv wire] /\ says wire true ex_engine 5 80.
Proof.
  cbv zeta. split; [|split].
  - split; [vm_compute; reflexivity|]. intros [|x [|y done]] rest E; [vm_compute; intros K; discriminate K| |destruct done; discriminate E].
    injection E as <- _. vm_compute. intros K. discriminate K.
  - do 2 eexists. split; [vm_compute; reflexivity|]. split; [vm_compute; reflexivity|]. split; [vm_compute; reflexivity|]. vm_compute. repeat split.
  - eexists. split; [vm_compute; reflexivity|].
    do 2 eexists. split; [vm_compute; reflexivity|]. split; [vm_compute; reflexivity|]. split; [vm_compute; reflexivity|]. vm_compute. repeat split.
Qed.
(** One thread at a time, as documented, and the request is neither answered nor
    expired: then the manager does not believe that.  ([in_sequence]: C69.) *)
Lemma sequence_state W evs s l r h w now p e user level wire :
  history W evs s l -> in_sequence W evs s l r -> In (WSent r h w now p e user level wire) l -> q_alive (request3 s r) = true -> ~ answered3 s r -> q_engine (request3 s r) <> None ->
  v_state s <> Inactive /\ v_state s <> Unsynchronized.
Proof.
  intros HI (OT & FW & TM & RS & NF) IN AL NA QE. destruct (history_new _ _ _ _ HI) as (s0 & NEW & RUN0).
  destruct (w_engine W) as [eng|] eqn:WE.
  - assert (NEV : q_event (get3 (v_reqs s) r) = false) by (unfold answered3, request3 in NA; destruct (q_event _); [now destruct NA|reflexivity]).
    assert (CFG : PrfMgr3b.configured s0).
    { apply start_fields in NEW as (_ & _ & _ & _ & _ & _ & _ & _ & NX & _ & _ & _ & ST). split; [left; exact ST|]. intros x K. rewrite NX in K. discriminate K. }
    pose proof (PrfMgr3b.configured_run _ _ _ _ _ _ _ _ _ _ CFG RUN0) as [ST _].
    assert (NU : v_state s <> Unsynchronized).
    { eapply (PrfSeq3.not_forgotten _ _ _ _ _ _ _ _ _ _ _ _ _ _ _ _ _ _ _ _ _ _ _ NEW RUN0 NF); [|exact IN|exact AL|exact NEV|].
      - intros before later E. specialize (OT before later E). unfold run3 in OT. unfold new3 in OT. rewrite WE, NEW in OT. exact OT.
      - intros (i & I1 & I2). specialize (FW i (v_clock s) ltac:(lia)). unfold expiration3, request3, reading3 in TM. lia. }
    split; [|exact NU]. destruct ST as [ST|[ST|ST]]; rewrite ST; intros K; discriminate K.
  - destruct (PrfState.discovery_run _ _ _ _ _ _ _ _ _ _ _ _ _ NEW RUN0 (RS eq_refl)) as [(_ & _ & _ & NW & _)|[[S|S] _]].
    + unfold request3 in QE. rewrite (NW r) in QE. now destruct QE.
    + rewrite S. split; intros K; discriminate K.
    + rewrite S. split; intros K; discriminate K.
Qed.
Theorem C83_sequential : forall W evs s l d r h e s1 l1 auth e' b t,
  world_ok W -> crypto_ok (w_crypto W) -> 484 <= w_size W <= 2147483647 -> 0 < w_ticks W ->
  Forall event_ok evs -> history W evs s l -> told W evs s l d r h e ->
  in_sequence W evs s l r -> ~ answered3 s r -> q_engine (request3 s r) <> None ->
  says d auth e' b t -> 0 <= b <= 2147483647 -> 0 <= t -> news (w_ticks W) (v_usm s) auth e' b t (reading3 W s) ->
  history W (evs ++ [VReceive d; VListen]) s1 l1 ->
  let q := request3 s r in
  pdu_ok (q_pdu q) -> octets_ok e -> octets_ok (q_user q) -> SpecMsg.level_ok (q_level q) -> sl_auth (q_level q) = true ->
  let sent := snd (step3 W s1 VListen) in
  (exists h' now wire, sent = [WSent r h' ByNotInTime now (q_pdu q) e (q_user q) (q_level q) wire] /\
     says wire true e b (t + (sent_reading W s1 - reading3 W s) / w_ticks W)) \/
  exists o ex, sent = [WFailed r o ByNotInTime ex].
Proof.
  intros W evs s l d r h e s1 l1 auth e' b t OK CO SZ TK EV HI TO SQ NA QE SA B T NE H1 q PO EO UO LO A sent.
  pose proof TO as (_ & _ & (w & now & p & e0 & user & level & wire & IN) & _).
  destruct (told_run W evs s l d r h e s1 l1 OK EV HI TO H1) as (sr & m0 & m & S1 & LP & _ & _ & _ & _ & _ & RQ & _).
  assert (AL : q_alive (request3 s r) = true).
  { destruct (PrfOpen2.open_run W OK evs EV s l (proj2 HI)) as [_ O2 _]. destruct (O2 _ _ _ _ _ _ _ _ _ IN) as (_ & (HR & _) & _).
    unfold step3 in S1. cbn [m3_step] in S1. rewrite (proj1 TO) in S1. cbn [tick3] in S1. destruct (v3_prepareDataElements _ _ _ _ _ _ _) as [u [[m1 h1]|ex]] eqn:P; injection S1 as <-.
    - cbn in LP. injection LP as -> ->. apply C27_delivered in P as (_ & _ & en & _ & _ & _ & HE & AL & _). subst h. unfold message_alive in AL. cbn [v_msgs v_reqs set_io] in AL.
      apply andb_prop in AL as [_ AL]. rewrite HR in AL. exact AL.
    - exfalso. pose proof (proj1 TO) as L. cbn in LP. congruence. }
  destruct (sequence_state W evs s l r h w now p e0 user level wire HI SQ IN AL NA QE) as [ST1 ST2].
  eapply (C83_heals W evs s l d r h e s1 l1 auth e' b t); eauto.
  destruct SQ as (_ & FW & _). unfold reading3, sent_reading. apply FW.
  assert (K : (v_clock s <= v_clock s1)%nat); [|lia].
  destruct (history_new _ _ _ _ HI) as (s0 & NEW & RUN0). destruct H1 as [_ R1]. pose proof (run3_next _ _ _ _ _ _ _ (proj2 HI) S1) as R0.
  change (evs ++ [VReceive d; VListen]) with (evs ++ ([VReceive d] ++ [VListen])) in R1. rewrite app_assoc in R1. destruct (step3 W sr VListen) as [s2 l2] eqn:S2.
  pose proof (run3_next _ _ _ _ _ _ _ R0 S2) as R2. rewrite R2 in R1. injection R1 as -> _.
  pose proof (base_run _ _ _ _ _ _ _ _ _ _ (base_start _ _ _ _ _ _ _ _ NEW) RUN0) as [I _].
  unfold step3 in S1, S2. apply m3_step_spec in S1, S2. destruct (step_spec _ _ _ _ _ _ _ _ _ I S1) as (I1 & (K1 & _) & _). destruct (step_spec _ _ _ _ _ _ _ _ _ I1 S2) as (_ & (K2 & _) & _).
  exact (Nat.le_trans _ _ _ K1 K2).
Qed.
Print Assumptions C83_sequential.
Example C83_sequential_example : let W := ex_sync in let evs := ex_call authNoPriv 100 3 in let s := fst (run3 W evs) in let l := snd (run3 W evs) in
  in_sequence W evs s l 0 /\ ~ answered3 s 0 /\ q_engine (request3 s 0) <> None.
Proof.
  cbv zeta. split; [|split; vm_compute; intros K; discriminate K]. split; [|split; [|split; [vm_compute; reflexivity|split; [intros K; discriminate K|]]]].
  - intros before later E. assert (before = firstn (length before) (ex_call authNoPriv 100 3)) as -> by (rewrite E, firstn_app, Nat.sub_diag, firstn_all, app_nil_r; reflexivity).
    generalize (length before). clear. intros n. do 3 (destruct n as [|n]; [vm_compute; lia|]). vm_compute. lia.
  - intros i j L. cbn [ex_sync ex_world w_clk]. unfold ex_clk.
    do 5 (destruct i as [|i]; [do 6 (destruct j as [|j]; [cbn; lia|]); cbn; destruct j; cbn; lia|]). do 5 (destruct j as [|j]; [lia|]). cbn. destruct i, j; cbn; lia.
  - intros h w e. vm_compute. intros [K|[]]. discriminate K.
Qed.
