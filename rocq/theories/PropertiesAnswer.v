(** PropertiesAnswer.v -- C69: an honest agent's answer is what wait() of an SNMPv3
    request gives. *)
From Verif Require Import PrfAnswer PrfState PrfSeq3 PropertiesHear.
From Verif Require Import SpecAnswer.

Lemma nth_step W s n t s1 new l1 : nth_error (v_tasks s) n = Some t -> task3_step (w_crypto W) (w_ticks W) (w_rnd W) (w_clk W) (w_namespace W) s t = (s1, new, l1) ->
  step3 W s (VStep n) = (set_threads s1 (firstn n (v_tasks s) ++ new ++ skipn (S n) (v_tasks s)) (v_listener s1), l1).
Proof. intros N T. unfold step3. cbn [m3_step]. rewrite N, T. reflexivity. Qed.
Lemma nth_new {A} (l : list A) n t x : nth_error l n = Some t -> nth_error (firstn n l ++ [x] ++ skipn (S n) l) n = Some x.
Proof.
  intros H. assert (L : length (firstn n l) = n) by (apply firstn_length_le; apply Nat.lt_le_incl, nth_error_Some; congruence).
  rewrite nth_error_app2, L, Nat.sub_diag by lia. reflexivity.
Qed.
Lemma nth_set s n t s1 x : nth_error (v_tasks s) n = Some t -> nth_error (v_tasks (set_threads s1 (firstn n (v_tasks s) ++ [x] ++ skipn (S n) (v_tasks s)) (v_listener s1))) n = Some x.
Proof. apply nth_new. Qed.
(** Those who register engines do nothing meanwhile. *)
Lemma fair_next W evs x : (forall op, x <> VUsers op) -> others_fair W evs -> others_fair W (evs ++ [x]).
Proof.
  intros NU F before after e H. destruct after as [|a after _] using rev_ind.
  - rewrite app_nil_r in H. subst before. unfold others. rewrite (others_snoc W evs _ []).
    assert (Z0 : forall s, changed W s x e = 0) by (intros s; destruct x as [| | | | | |op| |]; try reflexivity; now destruct (NU op)).
    rewrite Z0. pose proof (F evs [] e (eq_sym (app_nil_r _))) as P. unfold others in P. lia.
  - rewrite app_assoc in H. apply app_inj_tail in H as [-> _]. apply (F before after). reflexivity.
Qed.
(** The listener takes the datagram, and hands the answer to the request. *)
Section Arrival.
  Context (W : world) (s : mgr3) (r h : nat) (m : v3msg) (e : bytes) (sc : scopedpdu).
  Context (L : v_listener s = LPush h m) (Q : g_req (getm (v_msgs s) h) = r) (AL : q_alive (get3 (v_reqs s) r) = true).
  Context (SC : v3_scoped m = Some sc) (CL : pdu_cls (sp_pdu sc) = ResponsePDU) (EI : v3_engineID m = Some e).
  Definition quietly (a b : mgr3) : Prop := v_reqs b = v_reqs a /\ v_tasks b = v_tasks a.
  Lemma push_arrives : exists s1 l1, step3 W s VListen = (s1, l1) /\ quietly s s1 /\ v_listener s1 = LRespond r m /\ v_state s1 = v_state s /\ v_usm s1 = v_usm s /\ v_engine s1 = v_engine s.
  Proof.
    unfold step3. cbn [m3_step]. unfold listen3. rewrite L. unfold push_step. rewrite SC, EI, Q, AL. cbn [negb].
    rewrite CL. cbn [pducls_eqb]. eexists _, _. split; [reflexivity|]. repeat split.
  Qed.
End Arrival.
Lemma update_quietly s : quietly s (updateState s).
Proof. unfold updateState. destruct (v_next s); split; reflexivity. Qed.
Lemma respond_arrives W s o r m e : v_listener s = LRespond r m -> locked3 s = false -> v3_engineID m = Some e ->
  bal (w_namespace W) o s -> (forall e, 0 <= o e) -> 0 < registered (us_users (v_usm s)) (w_namespace W) e ->
  v_state s <> Inactive /\ v_state s <> Unsynchronized /\ v_state s <> WaitForDiscovery ->
  exists s1, step3 W s VListen = (s1, []) /\ quietly s s1 /\ v_listener s1 = LStore r m.
Proof.
  intros L LO EI B O RE (ST1 & ST2 & ST3). unfold step3. cbn [m3_step]. unfold listen3. rewrite L, LO, EI.
  destruct (onResponse (v_state s) (v_engine s) e (fl_auth (h_flags (v3_header m)))) as [[nx tr]|ex] eqn:OR.
  2:{ exfalso. destruct (v_state s); cbn in OR; try congruence; destruct (_ || _); discriminate. }
  destruct tr.
  - assert (AS : forall x, bal (w_namespace W) o (assign_next s x) /\ us_users (v_usm (assign_next s x)) = us_users (v_usm s)) by (intros [x|]; split; [exact B|reflexivity|exact B|reflexivity]).
    destruct (manager_engine _ _ _ _ _) as [s1 y] eqn:E. pose proof E as E0. destruct (AS nx) as [AS1 AS2].
    apply (manager_engine_again _ _ _ o) in E; [|exact AS1|exact O|rewrite AS2; exact RE]. subst y.
    apply (manager_engine_spec (w_crypto W) (w_rnd W) (w_namespace W)) in E0 as (u & [(ex & X & _)|(_ & ->)]); [discriminate|]. eexists. split; [reflexivity|].
    split; [|reflexivity]. unfold quietly. cbn [set_listener set_threads v_reqs v_tasks].
    rewrite (proj1 (update_quietly _)), (proj2 (update_quietly _)). destruct nx; split; reflexivity.
  - eexists. split; [reflexivity|]. split; [|reflexivity]. unfold quietly. cbn [set_listener set_threads v_reqs v_tasks].
    destruct nx; split; reflexivity.
Qed.
Lemma store_arrives W s r m : v_listener s = LStore r m -> q_event (get3 (v_reqs s) r) = false -> (r < length (v_reqs s))%nat ->
  exists s1, step3 W s VListen = (s1, [WResponse r m]) /\ v_tasks s1 = v_tasks s /\ q_event (get3 (v_reqs s1) r) = true /\ q_response (get3 (v_reqs s1) r) = Some m /\
    q_pdu (get3 (v_reqs s1) r) = q_pdu (get3 (v_reqs s) r).
Proof.
  intros L EV LT. unfold step3. cbn [m3_step]. unfold listen3. rewrite L, EV. eexists. split; [reflexivity|]. cbn [v_tasks set_listener set_threads set_req3 set_objects v_reqs].
  split; [reflexivity|]. rewrite get3_put_same by exact LT. repeat split.
Qed.

(** * C69 *)
Definition C69_when (P : world -> list event3 -> mgr3 -> list log3 -> nat -> Prop) : Prop := forall W evs s l n r h w now p e user level wire d m answer,
  world_ok W -> crypto_ok (w_crypto W) -> 484 <= w_size W <= 2147483647 -> Forall event_ok evs -> others_fair W evs -> history W evs s l -> P W evs s l r ->
  (* a message was sent for [r], not the discovery message *)
  In (WSent r h w now p e user level wire) l -> is_Confirmed (pdu_cls p) = true -> pdu_ok p -> octets_ok e -> octets_ok user -> SpecMsg.level_ok level ->
  e <> [] -> q_engine (request3 s r) = Some e ->
  waits s l n r ->
  (* the answer arrives *)
  takes W s d m -> responds wire e user level m answer ->
  exists s' l', run3 W (evs ++ arrival d n) = (s', WOutcome r (given p answer) :: l').
Definition C69_statement : Prop := C69_when (fun _ _ _ _ _ => True).
(** In every state but those in which the manager believes that nothing, or only
    the discovery message, was sent. *)
Theorem C69_answered_partial : C69_when (fun W evs s l r => v_state s <> Inactive /\ v_state s <> Unsynchronized /\ v_state s <> WaitForDiscovery).
Proof.
  intros W evs s l n r h w now p e user level wire d m answer OK CO SZ EV OF HI ST IN CF PO EO UO LO NE QE ((lim & TN) & LK & LI & NA & NO)
    (m0 & D0 & MO & PI) ((mw & DW & ID) & SC & CL & EI & NM & AT).
  pose proof HI as [NW RUN]. pose proof (history_new _ _ _ _ HI) as (s0 & NEW & RUN0).
  pose proof (base_run _ _ _ _ _ _ _ _ _ _ (base_start _ _ _ _ _ _ _ _ NEW) RUN0) as [I _].
  assert (AL : q_alive (get3 (v_reqs s) r) = true) by (apply (i3_tasks s I (SBlock r lim)); eapply nth_error_In; exact TN).
  pose proof (get3_alive_lt _ _ AL) as LT.
  assert (NEV : q_event (get3 (v_reqs s) r) = false) by (unfold answered3, request3 in NA; destruct (q_event _); [now destruct NA|reflexivity]).
  destruct (open_run W OK evs EV s l RUN) as [O1 O2 O3].
  destruct (O2 _ _ _ _ _ _ _ _ _ IN) as (HL & (HR & HW) & HS). pose proof (O3 r h AL NO HL HW HR) as HO.
  destruct (HS CF HO) as (id & CB & CE & SE). clear HS.
  destruct (secured_decodes W id p e user level wire CO SZ PO EO UO LO SE) as (mw' & DW' & IDW). assert (mw' = mw) by congruence. subst mw'.
  (* the PDU is that of the request *)
  pose proof (known_run _ _ _ _ _ _ _ _ _ _ _ _ _ NEW RUN0) as KN. destruct (k_sent _ _ _ KN _ _ _ _ _ _ _ _ _ IN) as (_ & SA).
  assert (PQ : p = q_pdu (get3 (v_reqs s) r)) by (destruct SA as [(_ & E0 & _)|(E0 & _)]; [contradiction|exact E0]). clear SA KN.
  (* it arrives *)
  set (s1 := set_listener (set_io s (fst (usm_processIncoming (w_crypto W) (w_ticks W) (v_usm s) m0 (reading3 W s))) (v_proc s) (S (v_clock s))) (LPush h m)).
  assert (S1 : step3 W s (VReceive d) = (s1, [])).
  { unfold step3. cbn [m3_step]. rewrite LI. cbn [tick3].
    assert (PD : v3_prepareDataElements (w_crypto W) (w_ticks W) (message_alive s) (v_usm s) (v_proc s) d (reading3 W s)
      = (fst (usm_processIncoming (w_crypto W) (w_ticks W) (v_usm s) m0 (reading3 W s)), Ok (m, h))).
    { change h with (e3_handle (mkE3 e [] h user USM level)). apply (C27_not_lost _ _ _ _ _ _ _ m0 _ m (mkScoped e [] answer)).
      - exact D0.
      - pose proof (modules_run W evs s l RUN) as HM. unfold has_module in HM. apply existsb_exists in HM as (x & X1 & X2). apply Z.eqb_eq in X2. rewrite MO. congruence.
      - destruct (usm_processIncoming _ _ _ _ _) as [u y]. cbn [fst snd] in *. congruence.
      - unfold retrieve. rewrite ID, IDW, CE. reflexivity.
      - unfold message_alive. cbn [e3_handle]. rewrite HO, HR, AL. reflexivity.
      - exact LO.
      - split; [exact SC|]. split; [left; exact CL|]. split; [exact NM|]. split; [reflexivity|]. intros _. split; [destruct AT as [AT1 AT2]; split; [exact AT1|intros _; exact AT2]|]. split; [exact EI|reflexivity]. }
    change (message_alive _) with (message_alive s). cbn [v_usm v_proc v_clock set_io]. unfold reading3 in PD. rewrite PD. reflexivity. }
  destruct (PropertiesReg.balance_run W evs (PropertiesUse.used W OK) OF s l RUN) as [_ [B DO]].
  assert (O : forall e, 0 <= others W evs e) by (intros e'; apply (OF evs []); now rewrite app_nil_r).
  assert (RE : 0 < registered (us_users (v_usm s)) (w_namespace W) e) by (apply (holder_registered (w_namespace W) (others W evs) s r e); [split; [exact B|exact DO]|exact O|exact QE]).
  assert (US : us_users (v_usm s1) = us_users (v_usm s)).
  { cbn [s1 v_usm set_listener set_threads set_io]. destruct (usm_processIncoming _ _ _ _ _) as [u y] eqn:UE. cbn [fst]. unfold usm_processIncoming in UE.
    repeat match type of UE with context [match ?x with _ => _ end] => destruct x end; injection UE as <- _; reflexivity. }
  assert (F1 : v_listener s1 = LPush h m /\ v_reqs s1 = v_reqs s /\ v_msgs s1 = v_msgs s /\ v_tasks s1 = v_tasks s /\ v_state s1 = v_state s /\ v_engine s1 = v_engine s) by (repeat split).
  clearbody s1. destruct F1 as (LI1 & RQ1 & MS1 & TK1 & ST1 & EN1).
  destruct (push_arrives W s1 r h m e (mkScoped e [] answer)) as (s2 & l2 & S2 & [RQ2 TK2] & LI2 & ST2 & US2 & EN2); [exact LI1|now rewrite MS1|now rewrite RQ1|exact SC|exact CL|exact EI|].
  rewrite RQ1 in RQ2. rewrite TK1 in TK2. rewrite ST1 in ST2. rewrite EN1 in EN2.
  assert (LK2 : locked3 s2 = false). { unfold locked3 in *. rewrite LI2, TK2. rewrite LI in LK. exact LK. }
  assert (B2 : bal (w_namespace W) (others W evs) s2).
  { destruct B as [BA BB]. unfold bal, holders. rewrite US2, US, EN2, RQ2. split; [exact BA|exact BB]. }
  destruct (respond_arrives W s2 (others W evs) r m e LI2 LK2 EI B2 O) as (s3 & S3 & [RQ3 TK3] & LI3); [rewrite US2, US; exact RE|rewrite ST2; exact ST|].
  rewrite RQ2 in RQ3. rewrite TK2 in TK3.
  destruct (store_arrives W s3 r m LI3) as (s4 & S4 & TK4 & EV4 & RS4 & PD4); [now rewrite RQ3|now rewrite RQ3|].
  rewrite TK3 in TK4. rewrite RQ3, <- PQ in PD4.
  (* and wait() ends *)
  assert (N4 : nth_error (v_tasks s4) n = Some (SBlock r lim)) by (rewrite TK4; exact TN).
  assert (T4 : task3_step (w_crypto W) (w_ticks W) (w_rnd W) (w_clk W) (w_namespace W) s4 (SBlock r lim) = (s4, [SEnd r], [])).
  { cbn [task3_step task_req3]. rewrite EV4. reflexivity. }
  pose proof (nth_step W s4 n _ _ _ _ N4 T4) as S5. pose proof (nth_set s4 n _ s4 (SEnd r) N4) as N5.
  set (s5 := set_threads s4 _ _) in *. assert (RQ5 : v_reqs s5 = v_reqs s4) by reflexivity. clearbody s5.
  assert (E5 : end3 (get3 (v_reqs s5) r) = given p answer).
  { rewrite RQ5. unfold end3, given. rewrite EV4, RS4, SC, PD4. reflexivity. }
  assert (T5 : task3_step (w_crypto W) (w_ticks W) (w_rnd W) (w_clk W) (w_namespace W) s5 (SEnd r) = (s5, [SClose r (given p answer)], [])).
  { cbn [task3_step task_req3]. now rewrite E5. }
  pose proof (nth_step W s5 n _ _ _ _ N5 T5) as S6. pose proof (nth_set s5 n _ s5 (SClose r (given p answer)) N5) as N6.
  set (s6 := set_threads s5 _ _) in *. clearbody s6.
  pose proof (run3_next _ _ _ _ _ _ _ RUN S1) as R1. pose proof (run3_next _ _ _ _ _ _ _ R1 S2) as R2. pose proof (run3_next _ _ _ _ _ _ _ R2 S3) as R3.
  pose proof (run3_next _ _ _ _ _ _ _ R3 S4) as R4. pose proof (run3_next _ _ _ _ _ _ _ R4 S5) as R5. pose proof (run3_next _ _ _ _ _ _ _ R5 S6) as R6.
  assert (OF6 : others_fair W ((((((evs ++ [VReceive d]) ++ [VListen]) ++ [VListen]) ++ [VListen]) ++ [VStep n]) ++ [VStep n])).
  { do 6 (apply fair_next; [intros op; discriminate|]). exact OF. }
  destruct (C66_close W _ _ _ n r (given p answer) (PropertiesUse.used W OK) OF6 (conj NW R6) N6) as [S7 _].
  destruct (step3 W s6 (VStep n)) as [s7 l7] eqn:E7. cbn [snd] in S7. subst l7. pose proof (run3_next _ _ _ _ _ _ _ R6 E7) as R7.
  rewrite <- !app_assoc in R7. cbn [app rev] in R7. unfold arrival. eexists _, _. exact R7.
Qed.
Print Assumptions C69_answered_partial.
(** Every message that was to be sent at once because of a report could be sent
    (others may have been refused). *)
Definition reports_served (l : list log3) : Prop := forall q h w e, In (WFailed q h w e) l -> w <> ByUnknownEngine /\ w <> ByNotInTime.
(** The manager was not given the engine ID, and every report could be served. *)
Theorem C69_discovered_partial : C69_when (fun W evs s l r => w_engine W = None /\ reports_served l).
Proof.
  intros W evs s l n r h w now p e user level wire d m answer OK CO SZ EV OF HI [NE UF] IN CF PO EO UO LO NN QE WA TA RE.
  eapply C69_answered_partial; eauto. destruct (history_new _ _ _ _ HI) as (s0 & NEW & RUN0). rewrite NE in NEW.
  destruct (discovery_run _ _ _ _ _ _ _ _ _ _ _ _ _ NEW RUN0 UF) as [(_ & _ & _ & NW & _)|[[S|S] _]].
  - unfold request3 in QE. rewrite (NW r) in QE. discriminate.
  - rewrite S. repeat split; discriminate.
  - rewrite S. repeat split; discriminate.
Qed.
Print Assumptions C69_discovered_partial.
(** The manager has got an authenticated response before. *)
Theorem C69_established_partial : C69_when (fun W evs s l r => exists r' m, In (WResponse r' m) l /\ sl_auth (level_of m) = true).
Proof.
  intros W evs s l n r h w now p e user level wire d m answer OK CO SZ EV OF HI (r0 & m0 & I0 & A0) IN CF PO EO UO LO NN QE WA TA RE.
  eapply C69_answered_partial; eauto. destruct (history_new _ _ _ _ HI) as (s0 & NEW & RUN0).
  destruct (secured_run _ _ _ _ _ _ _ _ _ _ (secured_start _ _ _ _ _ _ _ _ NEW) RUN0) as [_ S]. rewrite S; [repeat split; discriminate|].
  exists r0, m0. split; [now left|exact A0].
Qed.
Print Assumptions C69_established_partial.

(** One thread, as documented, and the answer arrives in time.  The first message
    for [r] could be sent, and, if the manager was not given the engine ID, so
    could every message that was to be sent because of a report; all others may
    have been refused. *)
Definition in_sequence (W : world) (evs : list event3) (s : mgr3) (l : list log3) (r : nat) : Prop :=
  one_thread W evs /\ forwards W /\ reading3 W s < expiration3 s r /\ (w_engine W = None -> reports_served l) /\
  forall h w e, In (WFailed r h w e) l -> w <> ByCall /\ w <> ByPoke /\ w <> ByDrain.
Theorem C69_sequential_partial : C69_when in_sequence.
Proof.
  intros W evs s l n r h w now p e user level wire d m answer OK CO SZ EV OF HI (OT & FW & TM & RS & NF) IN CF PO EO UO LO NE QE WA TA RE.
  destruct (w_engine W) as [eng|] eqn:WE; [|apply (C69_discovered_partial W evs s l n r h w now p e user level wire d m answer); auto].
  eapply (C69_answered_partial W evs s l n r h w now p e user level wire d m answer); eauto.
  pose proof HI as [NW RUN]. pose proof (history_new _ _ _ _ HI) as (s0 & NEW & RUN0).
  pose proof (base_run _ _ _ _ _ _ _ _ _ _ (base_start _ _ _ _ _ _ _ _ NEW) RUN0) as [I _].
  destruct WA as ((lim & TN) & _ & _ & NA & _).
  assert (AL : q_alive (get3 (v_reqs s) r) = true) by (apply (i3_tasks s I (SBlock r lim)); eapply nth_error_In; exact TN).
  assert (NEV : q_event (get3 (v_reqs s) r) = false) by (unfold answered3, request3 in NA; destruct (q_event _); [now destruct NA|reflexivity]).
  assert (CFG : configured s0).
  { apply start_fields in NEW as (_ & _ & _ & _ & _ & _ & _ & _ & NX & _ & _ & _ & ST). rewrite WE in ST. split; [left; exact ST|]. intros x K. rewrite NX in K. discriminate K. }
  pose proof (configured_run _ _ _ _ _ _ _ _ _ _ CFG RUN0) as [ST _].
  assert (NU : v_state s <> Unsynchronized).
  { eapply (not_forgotten _ _ _ _ _ _ _ _ _ _ _ _ _ _ _ _ _ _ _ _ _ _ _ NEW RUN0 NF); [|exact IN|exact AL|exact NEV|].
    - intros before later E. specialize (OT before later E). unfold run3 in OT. unfold new3 in OT. rewrite NEW in OT. exact OT.
    - intros (i & I1 & I2). specialize (FW i (v_clock s) ltac:(lia)). unfold expiration3, request3, reading3 in TM. lia. }
  destruct ST as [ST|[ST|ST]]; rewrite ST in *; [contradiction|repeat split; discriminate..].
Qed.
Print Assumptions C69_sequential_partial.
(** * With an agent *)
(** The same, all the way: an agent whose security module has the same user with
    the same passwords secures the answer, and its clock is in the manager's
    window (neither is needed without authentication). *)
Definition C69_agent_when (P : world -> list event3 -> mgr3 -> list log3 -> nat -> Prop) : Prop := forall W evs s l n r h w now p e user level wire A c answer size d,
  world_ok W -> crypto_ok (w_crypto W) -> 0 < w_ticks W -> 484 <= w_size W <= 2147483647 -> Forall event_ok evs -> others_fair W evs -> history W evs s l -> P W evs s l r ->
  In (WSent r h w now p e user level wire) l -> is_Confirmed (pdu_cls p) = true -> pdu_ok p -> octets_ok e -> octets_ok user -> SpecMsg.level_ok level ->
  e <> [] -> q_engine (request3 s r) = Some e ->
  waits s l n r ->
  agent_ok A -> pdu_cls answer = ResponsePDU -> pdu_ok answer -> 484 <= size <= 2147483647 ->
  answers_with (w_crypto W) A wire e user level answer size d ->
  (sl_auth level = true -> user_added W evs user c /\ knows (w_crypto W) A e user c /\ manager_in_time W s A e) ->
  exists received s' l', same_pdu answer received /\ run3 W (evs ++ arrival d n) = (s', WOutcome r (given p received) :: l').
Lemma wire_id W evs s l r h w now p e user level wire mw : world_ok W -> crypto_ok (w_crypto W) -> 484 <= w_size W <= 2147483647 -> Forall event_ok evs -> run3 W evs = (s, l) ->
  In (WSent r h w now p e user level wire) l -> is_Confirmed (pdu_cls p) = true -> g_open (getm (v_msgs s) h) = true ->
  pdu_ok p -> octets_ok e -> octets_ok user -> SpecMsg.level_ok level -> v3_decode (ABytes wire) = Ok mw -> 0 <= h_id (v3_header mw) <= 2147483647.
Proof.
  intros OK CO SZ EV RUN IN CF HO PO EO UO LO DW. destruct (open_run W OK evs EV s l RUN) as [_ O2 _]. destruct (O2 _ _ _ _ _ _ _ _ _ IN) as (_ & _ & HS).
  destruct (HS CF HO) as (id & _ & _ & SE). destruct (secured_decodes W id p e user level wire CO SZ PO EO UO LO SE) as (mw' & DW' & IDW).
  assert (mw' = mw) by congruence. subst mw'. rewrite IDW. apply SE.
Qed.
Lemma agent_answers P : C69_when P -> C69_agent_when P.
Proof.
  intros T W evs s l n r h w now p e user level wire A c answer size d OK CO TK SZ EV OF HI PP IN CF PO EO UO LO NE QE WA [TKA AF] CL AO ZO (mw & DW & OUT) AG.
  pose proof HI as [NW RUN]. pose proof (ok_hash _ CO) as HC. destruct (run_good W OK evs EV s l RUN) as [I3 G].
  (* the message is open *)
  assert (ID : 0 <= h_id (v3_header mw) <= 2147483647).
  { pose proof WA as ((lim & TN) & _ & _ & _ & NO).
    assert (AL : q_alive (get3 (v_reqs s) r) = true) by (apply (i3_tasks s I3 (SBlock r lim)); eapply nth_error_In; exact TN).
    destruct (open_run W OK evs EV s l RUN) as [_ O2 O3]. destruct (O2 _ _ _ _ _ _ _ _ _ IN) as (HL & [HR HW] & _).
    eapply wire_id; eauto. }
  destruct G as [(uh & UF & UE) _ _ _ _].
  destruct (PropertiesReg.balance_run W evs (PropertiesUse.used W OK) OF s l RUN) as [_ BB].
  assert (O : forall e, 0 <= others W evs e) by (intros e'; apply (OF evs []); now rewrite app_nil_r).
  assert (RE : 0 < registered (us_users (v_usm s)) (w_namespace W) e) by (apply (holder_registered (w_namespace W) (others W evs) s r e); [exact BB|exact O|exact QE]).
  assert (CR : exists l1 l2 th, us_time (v_usm s) = time_after (w_ticks W) th /\
      (sl_auth level = true -> getCredentials (us_users (agent_usm (w_crypto W) A)) e user = Ok l1 /\ localised_to (w_crypto W) c e l1 /\
        getCredentials (us_users (v_usm s)) e user = Ok l2 /\ localised_to (w_crypto W) c e l2) /\
      (sl_auth level = true -> let '(boots, time) := getEngineTime (a_ticks A) (us_time (agent_usm (w_crypto W) A)) e (a_now A) in
        in_window (w_ticks W) th e boots time (reading3 W s))).
  { destruct (sl_auth level) eqn:AU.
    - destruct (AG eq_refl) as (AD & (l1 & K1 & K2) & (th & T1 & T2)).
      destruct (added_run W OK HC evs user c s l EV AD RUN) as (cf & EC & [RU CFG]).
      destruct (cfg_credentials (w_crypto W) (w_ticks W) (w_rnd W 2) HC (v_usm s) (w_namespace W) e user cf RU RE CFG) as (l2 & K3 & K4). rewrite EC in K4.
      exists l1, l2, th. split; [exact T1|]. split; [intros _; auto|intros _; exact T2].
    - destruct (usm_split (w_crypto W) (w_ticks W) (w_rnd W 2) uh UF) as (th & _ & _ & TE & _).
      exists (mkLocalized None None), (mkLocalized None None), th. split; [rewrite UE; exact TE|]. split; intros Z; discriminate Z. }
  destruct CR as (l1 & l2 & th & TM & CR & TI). rewrite UE in *.
  destruct (C53_end_to_end (w_crypto W) (a_ticks A) (a_rnd A) (a_ops A) (w_ticks W) (w_rnd W 2) uh th
    (mkV3 (mkHeader (h_id (v3_header mw)) size (mkFlags level false) USM) (Some (mkScoped e [] answer)) None (ABytes []) None None) (mkScoped e [] answer)
    e user (a_now A) (reading3 W s) d c l1 l2) as (m2 & m3 & sc & D1 & D2 & D3 & D4 & D5 & D6 & D7); auto.
  { split; [exact ID|]. split; [exact ZO|]. split; [exact LO|reflexivity]. }
  { split; [exact EO|]. split; [split; [apply Forall_nil|vm_compute; discriminate]|exact AO]. }
  destruct sc as [ce cn received]. destruct D7 as (DE & DN & DP). cbn [sp_contextEngineID sp_contextName sp_pdu] in DE, DN, DP. subst ce cn.
  exists received. destruct (T W evs s l n r h w now p e user level wire d m3 received OK CO SZ EV OF HI PP IN CF PO EO UO LO NE QE WA) as (s' & l' & RUN').
  - exists m2. split; [exact D1|]. split; [|rewrite UE; exact D2].
    destruct (prepared_of (w_crypto W) (a_ticks A) (a_rnd A) (a_ops A) (mkV3 (mkHeader (h_id (v3_header mw)) size (mkFlags level false) USM) (Some (mkScoped e [] answer)) None (ABytes []) None None)
      (mkScoped e [] answer) e user (a_now A) d) as (m2' & _ & _ & _ & _ & _ & _ & D & HH & _); auto.
    { split; [exact ID|]. split; [exact ZO|]. split; [exact LO|reflexivity]. }
    { split; [exact EO|]. split; [split; [apply Forall_nil|vm_compute; discriminate]|exact AO]. }
    assert (m2' = m2) by congruence. subst m2'. rewrite HH. reflexivity.
  - split; [exists mw; split; [exact DW|rewrite D3; reflexivity]|]. split; [exact D6|]. split; [destruct DP as [-> _]; exact CL|]. split; [exact D4|]. split; [exact D5|].
    unfold level_of. rewrite D3. cbn. split; auto.
  - exists s', l'. split; [exact DP|exact RUN'].
Qed.
Theorem C69_agent_discovered_partial : C69_agent_when (fun W evs s l r => w_engine W = None /\ reports_served l).
Proof. apply agent_answers, C69_discovered_partial. Qed.
Print Assumptions C69_agent_discovered_partial.
Theorem C69_agent_established_partial : C69_agent_when (fun W evs s l r => exists r' m, In (WResponse r' m) l /\ sl_auth (level_of m) = true).
Proof. apply agent_answers, C69_established_partial. Qed.
Print Assumptions C69_agent_established_partial.
Theorem C69_agent_sequential_partial : C69_agent_when in_sequence.
Proof. apply agent_answers, C69_sequential_partial. Qed.
Print Assumptions C69_agent_sequential_partial.

(** What was sent last for [r]. *)
Definition last_sent (l : list log3) (r : nat) : log3 :=
  match find (fun x => match x with WSent r' _ _ _ _ _ _ _ _ => Nat.eqb r r' | _ => false end) l with Some x => x | None => WBlocked 0 0 end.
Definition sent_wire (x : log3) : bytes := match x with WSent _ _ _ _ _ _ _ _ wire => wire | _ => [] end.
Definition sent_pdu (x : log3) : pdu := match x with WSent _ _ _ _ p _ _ _ _ => p | _ => ex_pdu end.
Definition ex_none : v3msg := mkV3 (mkHeader 0 0 (mkFlags noAuthNoPriv false) 0) None None (ABytes []) None None.
Definition decoded3 (d : bytes) : v3msg := match v3_decode (ABytes d) with Ok m => m | Raise _ => ex_none end.
Definition taken (W : world) (s : mgr3) (d : bytes) : v3msg :=
  match snd (usm_processIncoming (w_crypto W) (w_ticks W) (v_usm s) (decoded3 d) (reading3 W s)) with Ok m => m | Raise _ => ex_none end.
Lemma ex_world_ok readings engine : world_ok (ex_world readings engine).
Proof. destruct (ex_world_after readings engine) as (H1 & H2 & H3 & H4). split; [exists ex_history; split; [exact H1|exact H2]|exact H3|exact H4]. Qed.
Definition no_users (evs : list event3) : bool := forallb (fun x => match x with VUsers _ => false | _ => true end) evs.
Lemma no_users_ok W evs : world_ok W -> no_users evs = true -> Forall event_ok evs /\ others_fair W evs.
Proof.
  intros OK H. unfold no_users in H. rewrite forallb_forall in H. split.
  - apply Forall_forall. intros x I. apply H in I. destruct x; try exact Logic.I. discriminate.
  - apply others_keep_fair; [now apply PropertiesUse.used|]. intros e ns I. apply H in I. discriminate.
Qed.
Lemma ex_pdu_ok id : -2147483648 <= id <= 2147483647 -> pdu_ok (mkPDU (pdu_cls ex_pdu) id (pdu_a ex_pdu) (pdu_b ex_pdu) (pdu_vbs ex_pdu)).
Proof. intros H. split; [|exact ex_vbs_ok]. unfold pdu_fields_ok, int32. cbn. repeat split; try apply H; vm_compute; discriminate. Qed.
(** Request 0 times out in wait(); before that thread takes the lock to find out
    whether to go on (poke()), another thread sends request 1, without
    authentication.  Then the manager forgets that it has sent anything: when the
    answer arrives, it is thrown away (SNMPLibraryBug in the listener). *)
Definition ex_racing : list event3 := ex_call noAuthNoPriv 5 10 ++ [VWait 0; VStep 0; VStep 0; VStep 0] ++
  [VCall ex_pdu ex_user noAuthNoPriv 100 100; VStep 1; VStep 0; VStep 0; VWait 1; VStep 1; VStep 1].
Definition ex_racing_answer : bytes := ex_note 26 ex_engine ex_user (ex_reply3 26).
Theorem C69_refuted : ~ C69_statement.
Proof.
  intros H. set (W := ex_world [0; 0; 0; 0; 20] (Some ex_engine)). set (sl := run3 W ex_racing).
  set (x := last_sent (snd sl) 1). set (m := taken W (fst sl) ex_racing_answer).
  assert (N : snd (new3 W) = Ok tt) by (vm_compute; reflexivity).
  destruct (no_users_ok W ex_racing (ex_world_ok _ _) eq_refl) as [EO OF].
  assert (X : In (WSent 1 1 ByCall 20 (sent_pdu x) ex_engine ex_user noAuthNoPriv (sent_wire x)) (snd sl)) by (vm_compute; right; right; left; reflexivity).
  assert (PO : pdu_ok (sent_pdu x)).
  { assert (E : sent_pdu x = mkPDU (pdu_cls ex_pdu) 26 (pdu_a ex_pdu) (pdu_b ex_pdu) (pdu_vbs ex_pdu)) by (vm_compute; reflexivity). rewrite E. apply ex_pdu_ok. lia. }
  assert (QE : q_engine (request3 (fst sl) 1) = Some ex_engine) by (vm_compute; reflexivity).
  assert (WA : waits (fst sl) (snd sl) 1 1).
  { split; [exists 100; vm_compute; reflexivity|]. split; [vm_compute; reflexivity|]. split; [vm_compute; reflexivity|].
    split; [vm_compute; discriminate|].
    assert (Q : forallb (fun y => match y with WOutcome _ _ => false | _ => true end) (snd sl) = true) by (vm_compute; reflexivity).
    clear - Q. rewrite forallb_forall in Q. intros o K. apply Q in K. clear - K. discriminate K. }
  assert (TA : takes W (fst sl) ex_racing_answer m) by (exists (decoded3 ex_racing_answer); split; [vm_compute; reflexivity|]; split; [vm_compute; reflexivity|vm_compute; reflexivity]).
  assert (RE : responds (sent_wire x) ex_engine ex_user noAuthNoPriv m (ex_reply3 26)).
  { split; [exists (decoded3 (sent_wire x)); split; vm_compute; reflexivity|]. repeat (split; [vm_compute; reflexivity|]). split; intros K; discriminate K. }
  assert (OE : octets_ok ex_engine) by (split; [repeat constructor; vm_compute; discriminate|vm_compute; discriminate]).
  assert (OU : octets_ok ex_user) by (split; [repeat constructor; vm_compute; discriminate|vm_compute; discriminate]).
  assert (CF : is_Confirmed (pdu_cls (sent_pdu x)) = true) by (vm_compute; reflexivity).
  assert (LO : SpecMsg.level_ok noAuthNoPriv) by (intros K; discriminate K).
  assert (NE : ex_engine <> []) by (intros K; discriminate K).
  assert (SZ : 484 <= w_size W <= 2147483647) by (cbn; lia).
  destruct (H W ex_racing (fst sl) (snd sl) 1%nat 1%nat 1%nat ByCall 20 (sent_pdu x) ex_engine ex_user noAuthNoPriv (sent_wire x) ex_racing_answer m (ex_reply3 26)
    (ex_world_ok _ _) (toy_ok OpenSSL) SZ EO OF (conj N (surjective_pairing sl)) Logic.I X CF PO OE OU LO NE QE WA TA RE) as (s' & l' & R).
  assert (Q : match snd (run3 W (ex_racing ++ arrival ex_racing_answer 1)) with WOutcome _ _ :: _ => false | _ => true end = true) by (vm_compute; reflexivity).
  rewrite R in Q. clear - Q. cbn in Q. discriminate Q.
Qed.
Print Assumptions C69_refuted.
(** The hypotheses are met: discovery, then the request with authentication, and
    a signed answer while the user sleeps in wait(). *)
Definition ex_sleeping : list event3 := ex_call authNoPriv 10 3 ++ ex_discovered ++ [VWait 0] ++ ex_steps 2.
Definition ex_awaited : bytes := ex_signed 26 ex_engine (ex_reply3 13).
Definition C69_hypotheses (W : world) (evs : list event3) (P : world -> list event3 -> mgr3 -> list log3 -> nat -> Prop) (r h : nat) (d : bytes) (answer : pdu) : Prop :=
  exists s l w now p wire m,
  world_ok W /\ crypto_ok (w_crypto W) /\ 484 <= w_size W <= 2147483647 /\ Forall event_ok evs /\ others_fair W evs /\ history W evs s l /\ P W evs s l r /\
  In (WSent r h w now p ex_engine ex_user authNoPriv wire) l /\ is_Confirmed (pdu_cls p) = true /\ pdu_ok p /\ octets_ok ex_engine /\ octets_ok ex_user /\ SpecMsg.level_ok authNoPriv /\
  ex_engine <> [] /\ q_engine (request3 s r) = Some ex_engine /\ waits s l 0 r /\ takes W s d m /\ responds wire ex_engine ex_user authNoPriv m answer /\
  given p answer = VReturned ex_vbs /\ ex_vbs <> [].
Definition why_of (x : log3) : why3 := match x with WSent _ _ w _ _ _ _ _ _ => w | _ => ByCall end.
Definition when_of (x : log3) : Z := match x with WSent _ _ _ now _ _ _ _ _ => now | _ => 0 end.
Lemma ex_meets W evs (P : world -> list event3 -> mgr3 -> list log3 -> nat -> Prop) r h d id answer readings engine : let sl := run3 W evs in let x := last_sent (snd sl) r in
  W = ex_world readings engine -> no_users evs = true -> snd (new3 W) = Ok tt -> P W evs (fst sl) (snd sl) r ->
  x = WSent r h (why_of x) (when_of x) (mkPDU (pdu_cls ex_pdu) id (pdu_a ex_pdu) (pdu_b ex_pdu) (pdu_vbs ex_pdu)) ex_engine ex_user authNoPriv (sent_wire x) ->
  -2147483648 <= id <= 2147483647 -> q_engine (request3 (fst sl) r) = Some ex_engine ->
  waits (fst sl) (snd sl) 0 r -> takes W (fst sl) d (taken W (fst sl) d) -> responds (sent_wire x) ex_engine ex_user authNoPriv (taken W (fst sl) d) answer ->
  pdu_a answer = 0 -> pdu_vbs answer = ex_vbs -> C69_hypotheses W evs P r h d answer.
Proof.
  intros sl x EW NU N PP X ID QE WA TA RE A0 AV. subst W. destruct (no_users_ok _ evs (ex_world_ok readings engine) NU) as [EO OF].
  exists (fst sl), (snd sl), (why_of x), (when_of x), (mkPDU (pdu_cls ex_pdu) id (pdu_a ex_pdu) (pdu_b ex_pdu) (pdu_vbs ex_pdu)), (sent_wire x), (taken (ex_world readings engine) (fst sl) d).
  split; [apply ex_world_ok|]. split; [exact (toy_ok OpenSSL)|]. split; [cbn; lia|]. split; [exact EO|]. split; [exact OF|].
  split; [exact (conj N (surjective_pairing sl))|]. split; [exact PP|].
  split.
  { revert X. unfold x at 1, last_sent. destruct (find _ _) as [y|] eqn:F; intros Y; [|discriminate Y]. apply find_some in F as [F _]. rewrite Y in F. exact F. }
  split; [reflexivity|]. split; [apply ex_pdu_ok; exact ID|].
  split; [split; [repeat constructor; vm_compute; discriminate|vm_compute; discriminate]|].
  split; [split; [repeat constructor; vm_compute; discriminate|vm_compute; discriminate]|].
  split; [intros K; discriminate K|]. split; [intros K; discriminate K|]. split; [exact QE|]. split; [exact WA|]. split; [exact TA|]. split; [exact RE|].
  split; [unfold given; rewrite A0, AV; reflexivity|]. intros K. discriminate K.
Qed.
Lemma ex_waits s l r lim : nth_error (v_tasks s) 0 = Some (SBlock r lim) -> locked3 s = false -> v_listener s = LIdle -> q_event (request3 s r) = false ->
  forallb (fun y => match y with WOutcome _ _ => false | _ => true end) l = true -> waits s l 0 r.
Proof.
  intros H1 H2 H3 H4 Q. split; [exists lim; exact H1|]. split; [exact H2|]. split; [exact H3|]. split; [unfold answered3; rewrite H4; discriminate|].
  rewrite forallb_forall in Q. intros o K. apply Q in K. discriminate K.
Qed.
Lemma ex_takes W s d : v3_decode (ABytes d) = Ok (decoded3 d) -> h_securityModel (v3_header (decoded3 d)) = USM ->
  snd (usm_processIncoming (w_crypto W) (w_ticks W) (v_usm s) (decoded3 d) (reading3 W s)) = Ok (taken W s d) -> takes W s d (taken W s d).
Proof. intros A B D. exists (decoded3 d). auto. Qed.
Lemma ex_responds wire m answer : v3_decode (ABytes wire) = Ok (decoded3 wire) -> h_id (v3_header m) = h_id (v3_header (decoded3 wire)) ->
  v3_scoped m = Some (mkScoped ex_engine [] answer) -> pdu_cls answer = ResponsePDU -> v3_engineID m = Some ex_engine -> v3_name m = Some ex_user -> sl_auth (level_of m) = true ->
  responds wire ex_engine ex_user authNoPriv m answer.
Proof. intros. split; [eauto|]. do 4 (split; [assumption|]). split; [auto|intros K; discriminate K]. Qed.
Example C69_discovered_example :
  C69_hypotheses (ex_world [0] None) ex_sleeping (fun W evs s l r => w_engine W = None /\ reports_served l) 0 1 ex_awaited (ex_reply3 13).
Proof.
  apply (ex_meets _ _ _ _ _ _ 13 _ [0] None); [reflexivity|reflexivity|vm_compute; reflexivity| |vm_compute; reflexivity|lia|vm_compute; reflexivity| | | |reflexivity|reflexivity].
  - split; [reflexivity|].
    assert (Q : forallb (fun y => match y with WFailed _ _ _ _ => false | _ => true end) (snd (run3 (ex_world [0] None) ex_sleeping)) = true) by (vm_compute; reflexivity).
    rewrite forallb_forall in Q. intros r h w e K. apply Q in K. clear - K. discriminate K.
  - eapply ex_waits; vm_compute; reflexivity.
  - apply ex_takes; vm_compute; reflexivity.
  - apply ex_responds; vm_compute; reflexivity.
Qed.
Definition ex_sleeping2 : list event3 := ex_call authNoPriv 10 3 ++ ex_discovered ++ [VReceive ex_awaited; VListen; VListen; VListen] ++
  ex_call authNoPriv 10 3 ++ [VWait 1] ++ ex_steps 3.
Definition ex_awaited2 : bytes := ex_signed 39 ex_engine (ex_reply3 26).
Example C69_established_example :
  C69_hypotheses (ex_world [0] None) ex_sleeping2 (fun W evs s l r => exists r' m, In (WResponse r' m) l /\ sl_auth (level_of m) = true) 1 2 ex_awaited2 (ex_reply3 26).
Proof.
  apply (ex_meets _ _ _ _ _ _ 26 _ [0] None); [reflexivity|reflexivity|vm_compute; reflexivity| |vm_compute; reflexivity|lia|vm_compute; reflexivity| | | |reflexivity|reflexivity].
  - assert (Q : existsb (fun y => match y with WResponse r m => sl_auth (level_of m) | _ => false end) (snd (run3 (ex_world [0] None) ex_sleeping2)) = true) by (vm_compute; reflexivity).
    apply existsb_exists in Q as (y & I & Y). destruct y; try discriminate Y. eexists _, _. split; [exact I|exact Y].
  - eapply ex_waits; vm_compute; reflexivity.
  - apply ex_takes; vm_compute; reflexivity.
  - apply ex_responds; vm_compute; reflexivity.
Qed.
(** The engine ID was given, and one thread sends and waits. *)
Lemma alone_all W evs : forallb (fun k => Nat.leb (length (v_tasks (fst (run3 W (firstn k evs))))) 1) (seq 0 (S (length evs))) = true -> one_thread W evs.
Proof.
  intros Q before later E. rewrite forallb_forall in Q. assert (K : In (length before) (seq 0 (S (length evs)))) by (apply in_seq; rewrite E, app_length; lia).
  apply Q in K. rewrite E, firstn_app, Nat.sub_diag, firstn_O, firstn_all, app_nil_r in K. now apply Nat.leb_le.
Qed.
Definition ex_sleeping3 : list event3 := ex_call authNoPriv 10 3 ++ [VWait 0] ++ ex_steps 2.
Definition ex_awaited3 : bytes := ex_signed 13 ex_engine (ex_reply3 13).
Example C69_sequential_example :
  C69_hypotheses (ex_world [0] (Some ex_engine)) ex_sleeping3 in_sequence 0 0 ex_awaited3 (ex_reply3 13).
Proof.
  apply (ex_meets _ _ _ _ _ _ 13 _ [0] (Some ex_engine)); [reflexivity|reflexivity|vm_compute; reflexivity| |vm_compute; reflexivity|lia|vm_compute; reflexivity| | | |reflexivity|reflexivity].
  - split; [apply alone_all; vm_compute; reflexivity|]. split; [intros i j _; cbn; destruct i as [|[|i]], j as [|[|j]]; cbn; lia|]. split; [vm_compute; reflexivity|].
    split; [intros K; discriminate K|].
    assert (Q : forallb (fun y => match y with WFailed _ _ _ _ => false | _ => true end) (snd (run3 (ex_world [0] (Some ex_engine)) ex_sleeping3)) = true) by (vm_compute; reflexivity).
    rewrite forallb_forall in Q. intros h w e K. apply Q in K. clear - K. discriminate K.
  - eapply ex_waits; vm_compute; reflexivity.
  - apply ex_takes; vm_compute; reflexivity.
  - apply ex_responds; vm_compute; reflexivity.
Qed.
(** With an agent, and privacy. *)
Definition ex_asked3 : list event3 := VUsers ex_add :: ex_call authPriv 10 3 ++ ex_discovered ++ [VWait 0] ++ ex_steps 2.
Definition ex_answered_with (wire : bytes) : bytes :=
  match snd (usm_prepareOutgoing (toy OpenSSL) 1 (agent_usm (toy OpenSSL) ex_agent)
      (mkV3 (mkHeader (h_id (v3_header (decoded3 wire))) 1500 (mkFlags authPriv false) USM) (Some (mkScoped ex_engine [] (ex_reply3 13))) None (ABytes []) None None) ex_engine ex_user 1000) with
  | Ok d => d | Raise _ => [] end.
Example C69_agent_example : let W := ex_user_world in let evs := ex_asked3 in exists s l w now p wire c d,
  world_ok W /\ crypto_ok (w_crypto W) /\ 0 < w_ticks W /\ 484 <= w_size W <= 2147483647 /\ Forall event_ok evs /\ others_fair W evs /\ history W evs s l /\
  (w_engine W = None /\ reports_served l) /\
  In (WSent 0 1 w now p ex_engine ex_user authPriv wire) l /\ is_Confirmed (pdu_cls p) = true /\ pdu_ok p /\ octets_ok ex_engine /\ octets_ok ex_user /\ SpecMsg.level_ok authPriv /\
  ex_engine <> [] /\ q_engine (request3 s 0) = Some ex_engine /\ waits s l 0 0 /\
  agent_ok ex_agent /\ pdu_cls (ex_reply3 13) = ResponsePDU /\ pdu_ok (ex_reply3 13) /\
  answers_with (w_crypto W) ex_agent wire ex_engine ex_user authPriv (ex_reply3 13) 1500 d /\
  user_added W evs ex_user c /\ knows (w_crypto W) ex_agent ex_engine ex_user c /\ manager_in_time W s ex_agent ex_engine.
Proof.
  cbv zeta. set (W := ex_user_world). set (sl := run3 W ex_asked3). set (x := last_sent (snd sl) 0). destruct ex_cred as [c SC].
  assert (N : snd (new3 W) = Ok tt) by (vm_compute; reflexivity).
  assert (WO : world_ok W) by (constructor; [exists []; split; [constructor|reflexivity]| |]; intros k; cbn; lia).
  exists (fst sl), (snd sl), (why_of x), (when_of x), (sent_pdu x), (sent_wire x), c, (ex_answered_with (sent_wire x)).
  split; [exact WO|]. split; [exact (toy_ok OpenSSL)|]. split; [cbn; lia|]. split; [cbn; lia|]. split; [repeat constructor|].
  split.
  { apply others_keep_fair; [now apply PropertiesUse.used|]. intros e ns H. unfold ex_asked3 in H. cbn in H. repeat (destruct H as [H|H]; [discriminate H|]). exact H. }
  split; [exact (conj N (surjective_pairing sl))|].
  split.
  { split; [reflexivity|]. assert (Q : forallb (fun y => match y with WFailed _ _ _ _ => false | _ => true end) (snd sl) = true) by (vm_compute; reflexivity).
    rewrite forallb_forall in Q. intros r h w e K. apply Q in K. clear - K. discriminate K. }
  split; [vm_compute; auto 10|]. split; [vm_compute; reflexivity|].
  split.
  { assert (E : sent_pdu x = mkPDU (pdu_cls ex_pdu) 13 (pdu_a ex_pdu) (pdu_b ex_pdu) (pdu_vbs ex_pdu)) by (vm_compute; reflexivity). rewrite E. apply ex_pdu_ok. lia. }
  split; [split; [repeat constructor; vm_compute; discriminate|vm_compute; discriminate]|].
  split; [split; [repeat constructor; vm_compute; discriminate|vm_compute; discriminate]|].
  split; [intros _; reflexivity|]. split; [intros K; discriminate K|]. split; [vm_compute; reflexivity|].
  split; [eapply ex_waits; vm_compute; reflexivity|].
  split; [split; [cbn; lia|repeat constructor]|]. split; [reflexivity|].
  split.
  { split; [|exact ex_vbs_ok]. unfold pdu_fields_ok, int32. cbn. repeat split; vm_compute; discriminate. }
  split; [exists (decoded3 (sent_wire x)); split; vm_compute; reflexivity|].
  split.
  { exists [], (ex_call authPriv 10 3 ++ ex_discovered ++ [VWait 0] ++ ex_steps 2), (Some HmacSha), None, (Some AesCfb128), None, ex_secret, false, None. split; [reflexivity|]. split; [vm_compute; reflexivity|exact SC]. }
  split; [now apply ex_agent_knows|].
  exists [Unauthenticated ex_engine 5 77 0]. split; [vm_compute; reflexivity|].
  assert (E : getEngineTime (a_ticks ex_agent) (us_time (agent_usm (w_crypto W) ex_agent)) ex_engine (a_now ex_agent) = (0, 0)) by (vm_compute; reflexivity).
  rewrite E. split; [lia|]. intros (b & m & ts & [K|[]]). discriminate K.
Qed.
