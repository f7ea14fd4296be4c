(** PropertiesCold.v -- C85: a request is answered although the engine was not known. *)
From Verif Require Import PropertiesUsm PropertiesMsg PropertiesProc PropertiesMgr PrfApi PrfMgr3i PropertiesMgr3 PropertiesReg SpecApi Api3 PropertiesUse PrfHear PrfHear2 PrfMgr3e PrfMgr3d PropertiesHear PrfAnswer PropertiesAnswer PrfUse PrfUse2 PrfSeq4.
From Verif Require Import SpecFail PrfFail1 PrfFail2 PropertiesFail PrfMgr3 PrfMgr3a PrfMgr3c PrfMgr3h PrfTime PrfShare PropertiesShare PrfSync2 PrfSync SpecSync SpecAnswer SpecUse SpecReg PrfOpen2 PrfAnswer PropertiesSync SpecHeal SpecCold SpecApi PropertiesHeal.
Notation calls := SpecMgr3.calls.

(** The datagram [d] arrives when the listener waits, and nobody has the lock; it
    is the report unknownEngineIDs of the engine [e], in answer to the message [h]
    of the request [r], which is not for that engine. *)
Definition found (W : world) (evs : list event3) (s : mgr3) (l : list log3) (d : bytes) (r h : nat) (e : bytes) : Prop :=
  v_listener s = LIdle /\ locked3 s = false /\
  (exists w now p e0 user level wire, In (WSent r h w now p e0 user level wire) l) /\
  (exists m, v_listener (fst (run3 W (evs ++ [VReceive d]))) = LPush h m /\ unknown_engine m /\ v3_engineID m = Some e) /\
  q_engine (request3 s r) <> Some e.
Lemma found_run W evs s l d r h e s1 l1 : world_ok W -> Forall event_ok evs -> history W evs s l -> found W evs s l d r h e ->
  history W (evs ++ [VReceive d; VListen]) s1 l1 ->
  exists sr m0 m, step3 W s (VReceive d) = (sr, []) /\ v_listener sr = LPush h m /\ v3_decode (ABytes d) = Ok m0 /\
    snd (usm_processIncoming (w_crypto W) (w_ticks W) (v_usm s) m0 (reading3 W s)) = Ok m /\ v3_engineID m = Some e /\
    v_listener s1 = LReport r e ByUnknownEngine /\ locked3 s1 = false /\ v_reqs s1 = v_reqs s /\ v_state s1 = v_state s /\ q_alive (request3 s r) = true.
Proof.
  intros OK EV HI (L & LK & (w & now & p & e0 & user & level & wire & IN) & (m & LP & (sc & vb & vbs & SC & CL & VB & NM) & EI) & OTHER) [NW1 RUN1].
  pose proof HI as [NW RUN]. pose proof (history_new _ _ _ _ HI) as (s0 & NEW & RUN0).
  destruct (open_run W OK evs EV s l RUN) as [O1 O2 O3]. destruct (O2 _ _ _ _ _ _ _ _ _ IN) as (HL & (HR & HW) & _). clear O1 O2 O3.
  destruct (step3 W s (VReceive d)) as [sr lr] eqn:S1. pose proof (run3_next _ _ _ _ _ _ _ RUN S1) as R1. rewrite R1 in LP. cbn [fst] in LP.
  unfold step3 in S1. cbn [m3_step] in S1. rewrite L in S1. cbn [tick3] in S1.
  destruct (v3_prepareDataElements _ _ _ _ _ _ _) as [u [[m1 h1]|ex]] eqn:P; injection S1 as <- <-; [|exfalso; cbn in LP; congruence].
  cbn in LP. injection LP as -> ->. pose proof P as P0. apply C27_delivered in P0 as (m0 & _ & en & DE & PI & _ & HE & AL & _). subst h. cbn [v_usm set_io] in PI.
  unfold message_alive in AL. cbn [v_msgs v_reqs set_io] in AL. apply andb_prop in AL as [OP AL]. rewrite HR in AL.
  set (sr := set_listener _ _) in *. exists sr, m0, m. split; [reflexivity|]. split; [reflexivity|]. split; [exact DE|]. split; [unfold reading3; now rewrite PI|]. split; [exact EI|].
  change (evs ++ [VReceive d; VListen]) with (evs ++ ([VReceive d] ++ [VListen])) in RUN1. rewrite app_assoc in RUN1.
  assert (S2 : step3 W sr VListen = (set_listener sr (LReport r e ByUnknownEngine), [WPushed (e3_handle en) m])).
  { unfold step3. cbn [m3_step]. unfold listen3. change (v_listener sr) with (LPush (e3_handle en) m). unfold push_step. rewrite SC, EI.
    change (v_msgs sr) with (v_msgs s). change (v_reqs sr) with (v_reqs s). change (v_bools sr) with (v_bools s). rewrite HR, AL. cbn [negb]. rewrite CL. cbn [pducls_eqb]. rewrite VB.
    assert (RK : report_kind (vb_name vb) = RUnknownEngineID) by (rewrite NM; reflexivity). rewrite RK.
    unfold request3 in OTHER. destruct (opt_bytes_eqb e (q_engine (get3 (v_reqs s) r))) eqn:B; [|reflexivity].
    exfalso. apply OTHER. unfold opt_bytes_eqb in B. destruct (q_engine _) as [x|]; [|discriminate B]. apply zlist_eqb_eq in B. now subst x. }
  pose proof (run3_next _ _ _ _ _ _ _ R1 S2) as R2. rewrite R2 in RUN1. injection RUN1 as <- _.
  split; [reflexivity|]. split; [|split; [reflexivity|split; [reflexivity|exact AL]]]. unfold locked3 in *. cbn. rewrite L in LK. exact LK.
Qed.
(** One thread at a time: the manager has not forgotten that it sent something. *)
Lemma sequence_started W evs s l r h w now p e user level wire :
  history W evs s l -> in_sequence W evs s l r -> In (WSent r h w now p e user level wire) l -> q_alive (request3 s r) = true -> ~ answered3 s r ->
  v_state s <> Inactive /\ v_state s <> Unsynchronized.
Proof.
  intros HI SQ IN AL NA. destruct (w_engine W) as [eng|] eqn:WE.
  - pose proof SQ as (OT & FW & TM & RS & NF). destruct (history_new _ _ _ _ HI) as (s0 & NEW & RUN0). rewrite WE in NEW.
    assert (NEV : q_event (get3 (v_reqs s) r) = false) by (unfold answered3, request3 in NA; destruct (q_event _); [now destruct NA|reflexivity]).
    assert (CFG : PrfMgr3b.configured s0).
    { apply start_fields in NEW as (_ & _ & _ & _ & _ & _ & _ & _ & NX & _ & _ & _ & ST). split; [left; exact ST|]. intros x K. rewrite NX in K. discriminate K. }
    pose proof (PrfMgr3b.configured_run _ _ _ _ _ _ _ _ _ _ CFG RUN0) as [ST _].
    assert (NU : v_state s <> Unsynchronized).
    { eapply (PrfSeq3.not_forgotten _ _ _ _ _ _ _ _ _ _ _ _ _ _ _ _ _ _ _ _ _ _ _ NEW RUN0 NF); [|exact IN|exact AL|exact NEV|].
      - intros before later E. specialize (OT before later E). unfold run3 in OT. unfold new3 in OT. rewrite WE, NEW in OT. exact OT.
      - intros (i & I1 & I2). specialize (FW i (v_clock s) ltac:(lia)). unfold expiration3, request3, reading3 in TM. lia. }
    split; [|exact NU]. destruct ST as [ST|[ST|ST]]; rewrite ST; intros K; discriminate K.
  - pose proof SQ as (OT & FW & TM & RS & NF). destruct (history_new _ _ _ _ HI) as (s0 & NEW & RUN0). rewrite WE in NEW.
    assert (NEV : q_event (get3 (v_reqs s) r) = false) by (unfold answered3, request3 in NA; destruct (q_event _); [now destruct NA|reflexivity]).
    assert (NU : v_state s <> Inactive).
    { eapply (PrfSeq4.not_forgotten0 _ _ _ _ _ _ _ _ _ _ _ _ _ _ _ _ _ _ _ _ _ _ _ NEW RUN0 NF); [|exact IN|exact AL|exact NEV|].
      - intros before later E. specialize (OT before later E). unfold run3 in OT. unfold new3 in OT. rewrite WE, NEW in OT. exact OT.
      - intros (i & I1 & I2). specialize (FW i (v_clock s) ltac:(lia)). unfold expiration3, request3, reading3 in TM. lia. }
    split; [exact NU|].
    destruct (PrfState.discovery_run _ _ _ _ _ _ _ _ _ _ _ _ _ NEW RUN0 (RS WE)) as [([S|S] & _)|[[S|S] _]]; rewrite S; intros K; discriminate K.
Qed.
(** Then the request is sent to that engine at once (or that fails). *)
Theorem C85_resent : forall W evs s l d r h e s1 l1,
  world_ok W -> Forall event_ok evs -> history W evs s l -> found W evs s l d r h e ->
  v_state s <> Inactive -> v_state s <> Unsynchronized ->
  history W (evs ++ [VReceive d; VListen]) s1 l1 ->
  let q := request3 s r in let after := fst (step3 W s1 VListen) in let sent := snd (step3 W s1 VListen) in
  exists h', (exists now wire, sent = [WSent r h' ByUnknownEngine now (q_pdu q) e (q_user q) (q_level q) wire] /\ q_engine (request3 after r) = Some e) \/
    exists o ex, sent = [WFailed r o ByUnknownEngine ex].
Proof.
  intros W evs s l d r h e s1 l1 OK EV HI TO ST1 ST2 H1. destruct (found_run W evs s l d r h e s1 l1 OK EV HI TO H1) as (_ & _ & _ & _ & _ & _ & _ & _ & LI & LK & RQ & ST & AL).
  assert (LT : (r < length (v_reqs s1))%nat).
  { rewrite RQ. apply get3_alive_lt. exact AL. }
  cbv zeta. unfold step3. cbn [m3_step]. unfold listen3. rewrite LI, LK, ST.
  destruct (onReport (v_state s) (v_engine s1) e) as [[nx all]|ex] eqn:OR.
  2:{ exfalso. destruct (v_state s); cbn in OR; try contradiction; try discriminate OR. destruct (opt_bytes_eqb _ _); discriminate OR. }
  destruct (send3 _ _ _ _ _ _ _ _ _) as [[s2 l2] y] eqn:SE. apply send3_spec in SE.
  assert (X : exists h', (exists now wire, y = Ok tt /\ l2 = [WSent r h' ByUnknownEngine now (q_pdu (request3 s r)) e (q_user (request3 s r)) (q_level (request3 s r)) wire] /\ q_engine (request3 s2 r) = Some e) \/
    exists o ex, y = Raise ex /\ l2 = [WFailed r o ByUnknownEngine ex]).
  { assert (Q : forall c, let z := get3 (v_reqs (readied (w_clk W) (assign_next c nx) r)) r in v_reqs c = v_reqs s ->
      q_pdu z = q_pdu (request3 s r) /\ q_user z = q_user (request3 s r) /\ q_level z = q_level (request3 s r)).
    { intros c z E. assert (V : v_reqs (assign_next c nx) = v_reqs s) by (rewrite <- E; destruct nx; reflexivity). unfold z, readied, request3. cbn [v_reqs set_req3 set_objects]. unfold ticked. cbn [v_reqs set_io]. rewrite V.
      rewrite get3_put. destruct (_ && _)%bool eqn:B; [|auto]. repeat split. }
    specialize (Q s1 RQ). cbv zeta in Q. destruct Q as (Q1 & Q2 & Q3).
    inversion SE; subst; [exists 0%nat; right; eauto|]. cbn [target] in *. match goal with X : target _ _ = _ |- _ => unfold target in X; injection X as <- <- <- <- end.
    match goal with X : (exists wire, _) \/ _ |- _ => destruct X as [(wire & -> & ->)|(ex & -> & ->)] end; [|exists 0%nat; right; eauto].
    eexists. left. eexists _, _. split; [reflexivity|]. split; [unfold q; rewrite Q1, Q2, Q3; reflexivity|].
    unfold request3. cbn [v_reqs set_objects]. rewrite get3_put_same; [reflexivity|].
    unfold readied. cbn [v_reqs set_req3 set_objects ticked set_io]. rewrite put_length. destruct nx; exact LT. }
  destruct X as (h' & [(now & wire & -> & -> & X)|(o & ex & -> & ->)]); exists h'; [left|right; exists o, ex; destruct all; reflexivity].
  exists now, wire. destruct (update_calm s2) as (_ & _ & U). destruct (heapify_calm s2) as (_ & _ & U').
  unfold request3 in *. destruct all; cbn [fst snd v_reqs set_listener set_threads]; rewrite ?U, ?U'; auto.
Qed.
(** What the datagram [d] of the engine [e] told the manager, and the agent's clock:
    needed for authenticated messages only. *)
Definition news_of (W : world) (evs : list event3) (s : mgr3) (d : bytes) (e u : bytes) (auth : bool) (b t : Z) (c : credentials) : Prop :=
  says d auth e b t /\ 0 <= b < 2147483647 /\ 0 <= t /\ news (w_ticks W) (v_usm s) auth e b t (reading3 W s) /\ user_added W evs u c.
Lemma cold_delivered W du dl q p level user timeout period x before after evs d mid s0 l0 s l y s' l' h w now pd e u lv wire auth b t A c :
  world_ok W -> crypto_ok (w_crypto W) -> 484 <= w_size W <= 2147483647 -> 0 < w_ticks W ->
  Forall event_ok (evs ++ VReceive d :: mid) -> others_fair W (evs ++ VReceive d :: mid) ->
  SpecApi.asks q p -> pdu_ok (numbered p 0) -> names_valid p ->
  api3 du dl q level user timeout period = Ok x -> evs ++ VReceive d :: mid = before ++ x :: after ->
  history W evs s0 l0 -> busy_with W evs d mid -> history W (evs ++ VReceive d :: mid) s l ->
  step3 W s y = (s', l') -> In (WSent (length (calls before)) h w now pd e u lv wire) l' -> e <> [] ->
  octets_ok e -> octets_ok u -> SpecMsg.level_ok lv -> reading3 W s0 <= sent_reading W s -> agent_ok A ->
  (sl_auth lv = true -> news_of W (evs ++ VReceive d :: mid) s0 d e u auth b t c /\ knows (w_crypto W) A e u c /\ in_step W A e b t (reading3 W s0) (sent_reading W s)) ->
  exists id m sc, id <> 0 /\ int32 id /\ accepts (w_crypto W) A wire m /\
    u = (match user with Some u => u | None => du end) /\ lv = (match level with Some l => l | None => dl end) /\
    level_of m = lv /\ v3_engineID m = Some e /\ v3_name m = Some u /\
    v3_scoped m = Some sc /\ same_scoped (mkScoped e [] (numbered p id)) sc.
Proof.
  intros OK CO SZ TK EV OF AS PO N X EQ H0 BU H ST IN E0 EO UO LO FW AO AG.
  assert (TT : sl_auth lv = true -> user_added W (before ++ x :: after) u c /\ knows (w_crypto W) A e u c /\ in_time (w_crypto W) A e (sending_time W s e)).
  { intros AU. destruct (AG AU) as ((SA & B & T & NE & AD) & KN & [IS1 IS2]).
    pose proof (told_time W evs d mid s0 l0 s l auth e b t (sent_reading W s) OK TK EV H0 BU H SA ltac:(lia) T NE FW) as TT.
    split; [rewrite <- EQ; exact AD|]. split; [exact KN|].
    destruct AO as [AT AF]. destruct (usm_split (w_crypto W) (a_ticks A) (a_rnd A) (a_ops A) AF) as (th & _ & _ & TE & _). exists th. split; [exact TE|].
    unfold sending_time. fold (sent_reading W s). rewrite TT. cbn [fst snd]. split; [lia|]. intros _.
    unfold own_time in IS1, IS2. unfold agent_usm in *. rewrite TE in IS1, IS2. destruct (getEngineTime _ _ _ _) as [lb lt]. cbn [fst snd] in IS1, IS2. right. split; [exact IS1|lia]. }
  rewrite EQ in *.
  eapply (C67_delivered W du dl q p level user timeout period x before after s l y s' l' h w now pd e u lv wire A c); eauto.
  intros (_ & K & _). contradiction.
Qed.
Lemma cold_answered W evs d mid y s0 l0 s l n r h w now p e user level wire auth b t A c answer size d2 :
  world_ok W -> crypto_ok (w_crypto W) -> 0 < w_ticks W -> 484 <= w_size W <= 2147483647 ->
  let told := evs ++ VReceive d :: mid ++ [y] in
  Forall event_ok told -> others_fair W told ->
  history W evs s0 l0 -> busy_with W evs d mid -> history W told s l ->
  in_sequence W told s l r -> In (WSent r h w now p e user level wire) l -> is_Confirmed (pdu_cls p) = true ->
  pdu_ok p -> octets_ok e -> octets_ok user -> SpecMsg.level_ok level -> e <> [] -> q_engine (request3 s r) = Some e -> waits s l n r ->
  agent_ok A -> pdu_cls answer = ResponsePDU -> pdu_ok answer -> 484 <= size <= 2147483647 ->
  answers_with (w_crypto W) A wire e user level answer size d2 -> reading3 W s0 <= reading3 W s ->
  (sl_auth level = true -> news_of W told s0 d e user auth b t c /\ knows (w_crypto W) A e user c /\ in_step W A e b t (reading3 W s0) (reading3 W s)) ->
  exists received s' l', same_pdu answer received /\ run3 W (told ++ arrival d2 n) = (s', WOutcome r (given p received) :: l').
Proof.
  intros OK CO TK SZ told EV OF H0 BU H SQ IN CF PO EO UO LO E0 QE WA AO CL ANO ZO AW FW AG.
  eapply (C69_agent_sequential_partial W told s l n r h w now p e user level wire A c answer size d2); eauto.
  intros AU. destruct (AG AU) as ((SA & B & T & NE & AD) & KN & [IS1 IS2]). split; [exact AD|]. split; [exact KN|].
  assert (EVS : told = (evs ++ VReceive d :: mid) ++ [y]) by (unfold told; now rewrite <- app_assoc).
  pose proof EV as EV1. rewrite EVS in EV1. apply Forall_app in EV1 as [EV1 EVY].
  destruct (run3 W (evs ++ VReceive d :: mid)) as [sm lm] eqn:EM.
  assert (HM : history W (evs ++ VReceive d :: mid) sm lm) by (split; [exact (proj1 H)|exact EM]).
  assert (TT : us_time (v_usm s) = us_time (v_usm sm)).
  { destruct (step3 W sm y) as [s' l'] eqn:ST. assert (EV2 : Forall event_ok ((evs ++ VReceive d :: mid) ++ [y])) by (rewrite <- EVS; exact EV).
    pose proof (run3_next _ _ _ _ _ _ _ EM ST) as R2. rewrite <- EVS in R2. destruct H as [_ RUN]. rewrite RUN in R2. injection R2 as <- _.
    destruct (step_time W OK _ sm lm y s l' EV2 EM ST) as [X _]. apply X. intros d' _. destruct BU as [_ BU].
    specialize (BU mid [] (eq_sym (app_nil_r mid))). rewrite EM in BU. exact BU. }
  destruct (run_good W OK told EV s l (proj2 H)) as [_ G]. destruct G as [(uh & UF & UE) _ _ _ _].
  destruct (usm_split (w_crypto W) (w_ticks W) (w_rnd W 2) uh UF) as (th & _ & _ & TE & _). exists th. split; [rewrite UE; exact TE|].
  pose proof (told_time W evs d mid s0 l0 sm lm auth e b t (reading3 W s) OK TK EV1 H0 BU HM SA ltac:(lia) T NE FW) as X.
  rewrite <- TT, UE, TE in X. unfold own_time in IS1, IS2. destruct (getEngineTime (a_ticks A) _ _ _) as [lb lt]. cbn [fst snd] in IS1, IS2.
  split; [lia|]. intros _. rewrite X. right. split; [congruence|]. lia.
Qed.
(** A request of one thread, that sleeps in wait(), is not for the engine of the
    agent (the engine was not known); the report says so.  Then it is sent at once,
    to that engine, and the agent gets what was asked for; the listener is soon
    done; and if the agent's answer arrives then, it is what wait() gives. *)
Theorem C85_discovers : forall W default_user default_level q p level user timeout period x before after s l n d h e auth b t c s1 l1,
  world_ok W -> crypto_ok (w_crypto W) -> 484 <= w_size W <= 2147483647 -> 0 < w_ticks W ->
  let evs := before ++ x :: after in let r := length (calls before) in
  Forall event_ok evs -> others_fair W evs -> SpecApi.asks q p -> pdu_ok (numbered p 0) -> names_valid p ->
  api3 default_user default_level q level user timeout period = Ok x ->
  history W evs s l -> waits s l n r -> found W evs s l d r h e -> in_sequence W evs s l r -> e <> [] ->
  let u := match user with Some u => u | None => default_user end in let lv := match level with Some l => l | None => default_level end in
  octets_ok e -> octets_ok u -> SpecMsg.level_ok lv ->
  history W (evs ++ [VReceive d; VListen]) s1 l1 ->
  (exists o ex, snd (step3 W s1 VListen) = [WFailed r o ByUnknownEngine ex]) \/
  exists h' now pd wire, snd (step3 W s1 VListen) = [WSent r h' ByUnknownEngine now pd e u lv wire] /\
    (forall A, agent_ok A -> (sl_auth lv = true -> news_of W evs s d e u auth b t c /\ knows (w_crypto W) A e u c /\ in_step W A e b t (reading3 W s) (sent_reading W s1)) ->
      exists id m sc, id <> 0 /\ int32 id /\ accepts (w_crypto W) A wire m /\ level_of m = lv /\ v3_engineID m = Some e /\ v3_name m = Some u /\
        v3_scoped m = Some sc /\ same_scoped (mkScoped e [] (numbered p id)) sc) /\
    exists k s2 l2, let done := evs ++ VReceive d :: VListen :: VListen :: repeat VListen k in history W done s2 l2 /\ waits s2 l2 n r /\ q_engine (request3 s2 r) = Some e /\
      forall A answer size d2, in_sequence W done s2 l2 r -> agent_ok A ->
        (sl_auth lv = true -> news_of W evs s d e u auth b t c /\ knows (w_crypto W) A e u c /\ in_step W A e b t (reading3 W s) (reading3 W s2)) ->
        pdu_cls answer = ResponsePDU -> pdu_ok answer -> 484 <= size <= 2147483647 -> answers_with (w_crypto W) A wire e u lv answer size d2 ->
        exists received s' l', same_pdu answer received /\ run3 W (done ++ arrival d2 n) = (s', WOutcome r (given pd received) :: l').
Proof.
  intros W du dl q p level user timeout period x before after s l n d h e auth b t c s1 l1 OK CO SZ TK evs r EV OF AS PO NV X HI WA TO SQ E0 u lv EO UO LO H1.
  pose proof WA as ((lim & TN) & LK & LI & NA & NW).
  pose proof TO as (_ & _ & (w0 & now0 & p0 & e0 & user0 & level0 & wire0 & IN0) & _).
  destruct (found_run W evs s l d r h e s1 l1 OK EV HI TO H1) as (sr & m0 & m & S1 & LP & DE & PI & EI & LI1 & LK1 & RQ1 & ST1 & AL).
  destruct (sequence_started W evs s l r h w0 now0 p0 e0 user0 level0 wire0 HI SQ IN0 AL NA) as [NI NU].
  destruct (step3 W s1 VListen) as [sx lx] eqn:SX.
  pose proof (C85_resent W evs s l d r h e s1 l1 OK EV HI TO NI NU H1) as RS. cbv zeta in RS. rewrite SX in RS. cbn [fst snd] in RS |- *.
  destruct RS as (h' & [(now & wire & EL & QX)|(o & ex & EL)]); [right|left; eauto].
  (* what was asked for *)
  set (pd := q_pdu (request3 s r)) in *. exists h', now, pd, wire.
  pose proof H1 as [N1 R1].
  assert (RX : run3 W (evs ++ [VReceive d; VListen; VListen]) = (sx, rev lx ++ l1)).
  { pose proof (run3_next _ _ _ _ _ _ _ R1 SX) as Y. rewrite <- app_assoc in Y. exact Y. }
  assert (HX : history W (evs ++ [VReceive d; VListen; VListen]) sx (rev lx ++ l1)) by (split; assumption).
  assert (INX : In (WSent r h' ByUnknownEngine now pd e (q_user (request3 s r)) (q_level (request3 s r)) wire) (rev lx ++ l1)) by (apply in_or_app; left; rewrite EL; now left).
  assert (EVX : Forall event_ok (evs ++ [VReceive d; VListen; VListen])) by (apply Forall_app; split; [exact EV|repeat constructor]).
  assert (SENT : ~ is_discovery pd e (q_user (request3 s r)) (q_level (request3 s r))) by (intros (_ & K & _); contradiction).
  assert (ID : exists id, id <> 0 /\ int32 id /\ pd = numbered p id /\ q_user (request3 s r) = u /\ q_level (request3 s r) = lv).
  { assert (EQ : evs ++ [VReceive d; VListen; VListen] = before ++ x :: (after ++ [VReceive d; VListen; VListen])) by (unfold evs; now rewrite <- app_assoc).
    rewrite EQ in HX, EVX.
    destruct (C67_sent W du dl q p level user timeout period x before _ sx _ h' _ now pd e _ _ wire OK EVX AS NV X HX INX) as [K|K]; [contradiction|exact K]. }
  destruct ID as (id & I0 & I32 & EP & EU & ELV). rewrite EU, ELV in *. split; [exact EL|].
  (* the listener is busy *)
  destruct HI as [NW0 RUN]. pose proof (run3_next _ _ _ _ _ _ _ RUN S1) as RR. cbn [rev app] in RR.
  assert (BU : busy_with W evs d [VListen]).
  { split; [rewrite RUN; exact LI|]. intros [|z zs] rest Z.
    - rewrite RR. cbn [fst]. rewrite LP. intros K. discriminate K.
    - injection Z as <- Z. destruct zs; [|discriminate Z]. rewrite R1. cbn [fst]. rewrite LI1. intros K. discriminate K. }
  assert (OFL : forall k, others_fair W (evs ++ VReceive d :: VListen :: repeat VListen k)).
  { intros k. apply fair_silent; [exact OF|]. cbn. induction k; [reflexivity|exact IHk]. }
  assert (ADL : forall rest, news_of W evs s d e u auth b t c -> news_of W (evs ++ rest) s d e u auth b t c).
  { intros rest NEWS. destruct NEWS as (Y1 & Y2 & Y3 & Y4 & bf & af & ap & asec & pp & ps & sec & dd & dsl & AD1 & AD2). split; [exact Y1|]. split; [exact Y2|]. split; [exact Y3|]. split; [exact Y4|].
    exists bf, (af ++ rest), ap, asec, pp, ps, sec, dd, dsl. split; [rewrite AD1, <- app_assoc; reflexivity|exact AD2]. }
  assert (CLK : (v_clock s <= v_clock s1)%nat) by (exact (clock_ahead W evs _ s l s1 l1 (conj NW0 RUN) R1)).
  assert (FW : reading3 W s <= sent_reading W s1) by (destruct SQ as (_ & FW & _); apply FW; lia).
  split.
  { intros A AO KN.
    assert (KN' : forall rest, sl_auth lv = true -> news_of W (evs ++ rest) s d e u auth b t c /\ knows (w_crypto W) A e u c /\ in_step W A e b t (reading3 W s) (sent_reading W s1)).
    { intros rest AU. destruct (KN AU) as [Z1 Z2]. split; [now apply ADL|exact Z2]. }
    destruct (cold_delivered W du dl q p level user timeout period x before (after ++ [VReceive d; VListen]) evs d [VListen] s l s1 l1 VListen sx lx h' ByUnknownEngine now pd e u lv wire auth b t A c)
      as (id' & m' & sc & K1 & K2 & K3 & _ & _ & K4); auto.
    - apply Forall_app. split; [exact EV|repeat constructor].
    - apply (OFL 0%nat).
    - unfold evs. now rewrite <- app_assoc.
    - split; assumption.
    - rewrite EL. now left.
    - exists id', m', sc. split; [exact K1|]. split; [exact K2|]. split; [exact K3|exact K4]. }
  (* the rest *)
  assert (PK1 : poked s1 = false) by (unfold locked3 in LK1; rewrite LI1 in LK1; exact LK1).
  destruct (calm_step (w_crypto W) (w_ticks W) (w_rnd W) (w_clk W) (w_fmt W) (w_namespace W) e s1 sx lx) as ((C1 & C2 & C3 & C4) & _); [rewrite LI1; unfold calm; eauto|exact PK1|exact SX|].
  assert (PKX : poked sx = false) by (unfold poked in *; rewrite C2; exact PK1).
  destruct (becomes_idle W e _ _ _ _ RX C1 PKX (Nat.le_refl _)) as (k & s2 & l2 & D1 & D2 & D3 & D4 & D5 & D6).
  exists k, s2, (l2 ++ rev lx ++ l1). cbv zeta.
  assert (DN : (evs ++ [VReceive d; VListen; VListen]) ++ repeat VListen k = evs ++ VReceive d :: VListen :: VListen :: repeat VListen k) by (now rewrite <- app_assoc).
  rewrite DN in D1.
  destruct (step3 W sr VListen) as [s1' l1'] eqn:S2. pose proof (run3_next _ _ _ _ _ _ _ RR S2) as R2. rewrite <- app_assoc in R2. cbn [app] in R2.
  assert (E2 : s1' = s1 /\ l1 = rev l1' ++ l) by (rewrite R2 in R1; injection R1 as <- <-; auto). destruct E2 as [-> EL1]. clear R2.
  unfold step3 in S2. cbn [m3_step] in S2. apply listen_outcome in S2 as [TS NO1].
  assert (TSR : v_tasks sr = v_tasks s).
  { unfold step3 in S1. cbn [m3_step] in S1. rewrite LI in S1. cbn [tick3] in S1. destruct (v3_prepareDataElements _ _ _ _ _ _ _) as [uu [[m1 h1]|ex1]]; injection S1 as <-; reflexivity. }
  split; [split; [exact NW0|exact D1]|].
  assert (WA2 : waits s2 (l2 ++ rev lx ++ l1) n r).
  { split; [exists lim; rewrite D4, C2, TS, TSR; exact TN|]. split; [|split; [exact D2|split]].
    - unfold locked3. rewrite D2. cbn [orb]. unfold poked in PKX. rewrite D4. exact PKX.
    - unfold answered3, request3 in *. destruct (D6 r) as [-> _]. destruct (C4 r) as [-> _]. rewrite RQ1. exact NA.
    - intros o K. rewrite EL1 in K. repeat (apply in_app_or in K as [K|K]).
      + exact (D5 _ _ K). + apply in_rev in K. exact (C3 _ _ K). + apply in_rev in K. exact (NO1 _ _ K). + exact (NW _ K). }
  split; [exact WA2|].
  assert (QE2 : q_engine (request3 s2 r) = Some e) by (unfold request3; destruct (D6 r) as [_ X2]; apply X2; exact QX).
  split; [exact QE2|].
  intros A answer size d2 SQ2 AO KN CL ANO ZO AW.
  assert (KN' : forall rest, sl_auth lv = true -> news_of W (evs ++ rest) s d e u auth b t c /\ knows (w_crypto W) A e u c /\ in_step W A e b t (reading3 W s) (reading3 W s2)).
  { intros rest AU. destruct (KN AU) as [Z1 Z2]. split; [now apply ADL|exact Z2]. }
  set (mid := VListen :: repeat VListen k).
  assert (ME : mid ++ [VListen] = VListen :: VListen :: repeat VListen k) by (unfold mid; cbn [app]; now rewrite <- repeat_cons).
  assert (EVD : Forall event_ok (evs ++ VReceive d :: VListen :: VListen :: repeat VListen k)).
  { apply Forall_app. split; [exact EV|]. repeat constructor. apply Forall_forall. intros z Z. apply repeat_spec in Z. subst z. exact Logic.I. }
  assert (BU2 : busy_with W evs d mid).
  { split; [rewrite RUN; exact LI|]. intros [|z zs] rest Z; [rewrite RR; cbn [fst]; rewrite LP; intros K; discriminate K|]. unfold mid in Z. injection Z as <- Z.
    assert (ZR : zs = repeat VListen (length zs) /\ (length zs <= k)%nat).
    { assert (LZ : (length zs <= k)%nat) by (rewrite <- (repeat_length VListen k), Z, app_length; lia). split; [|exact LZ].
      clear - Z. revert k Z. induction zs as [|z zs IH]; intros [|k] Z; [reflexivity|reflexivity|discriminate Z|]. cbn in Z. injection Z as <- Z. cbn. f_equal. exact (IH _ Z). }
    destruct ZR as [ZR LZ]. rewrite ZR. clear ZR Z. destruct (length zs) as [|j].
    - cbn [repeat]. rewrite R1. cbn [fst]. rewrite LI1. intros K. discriminate K.
    - specialize (D3 j LZ). rewrite <- app_assoc in D3. exact D3. }
  rewrite <- ME in *.
  destruct (cold_answered W evs d mid VListen s l s2 (l2 ++ rev lx ++ l1) n r h' ByUnknownEngine now pd e u lv wire auth b t A c answer size d2) as (received & s' & l' & K1 & K2); auto.
  - rewrite ME. exact (OFL (S k)).
  - split; assumption.
  - split; assumption.
  - rewrite EL. apply in_or_app. right. now left.
  - rewrite EP. change (pdu_cls (numbered p id)) with (pdu_cls p). destruct q; cbn [SpecApi.asks] in AS; destruct AS as (-> & _); reflexivity.
  - rewrite EP. now apply numbered_ok.
  - destruct SQ as (_ & FWD & _). apply FWD. exact (clock_ahead W evs _ s l s2 _ (conj NW0 RUN) D1).
  - exists received, s', l'. split; [exact K1|]. rewrite ME in K2. exact K2.
Qed.
(** * When it is sent *)
(** No other manager has the engine [e] in another namespace. *)
Definition one_namespace (W : world) (s : mgr3) (e : bytes) : Prop :=
  forall ns, ns <> w_namespace W -> registered (us_users (v_usm s)) ns e = 0.
Lemma addUsers_total C rnd e : hash_ok C -> forall l n r, exists x, re_addUsers C rnd n r e l = Ok x.
Proof.
  intros H. induction l as [|[name u] l IH]; intros n r; cbn [re_addUsers]; [eauto|].
  unfold re_addUser. destruct (PrfUsers.localize_ok C rnd n (uc_credentials u) e H) as (lc & n' & -> & _). cbn [bind]. apply IH.
Qed.
Lemma assign_first C rnd u ns e : hash_ok C -> PrfReg.reg_ok u -> (forall ns', ns' <> ns -> registered u ns' e = 0) -> snd (ur_assign C rnd u e ns) = Ok true.
Proof.
  intros H [_ RO] ON. unfold ur_assign, registered in *. destruct (dict_get zlist_eqb (ur_engines u) e) as [r|] eqn:G.
  - unfold re_assign. destruct (zlist_eqb ns (re_namespace r)) eqn:E; [reflexivity|]. exfalso.
    specialize (ON (re_namespace r)). rewrite PrfBase.zlist_eqb_refl in ON. specialize (RO _ _ G).
    assert (N : re_namespace r <> ns) by (intros K; rewrite K, PrfBase.zlist_eqb_refl in E; discriminate E). specialize (ON N). lia.
  - unfold RemoteEngine. edestruct (addUsers_total C rnd e H) as [[r n] ->]. reflexivity.
Qed.
Lemma request_first C rnd ns o s r e s' x : hash_ok C -> PrfReg2.bal ns o s -> (forall e, 0 <= o e) ->
  (forall ns', ns' <> ns -> registered (us_users (v_usm s)) ns' e = 0) ->
  request_engine C rnd ns s r (Some e) = (s', x) -> x = Ok tt /\ v_proc s' = v_proc s /\ v_clock s' = v_clock s.
Proof.
  intros HC [RO B] O ON. unfold request_engine. set (old := q_engine (get3 (v_reqs s) r)).
  destruct (opt_eqb zlist_eqb _ old); [intros H; injection H as <- <-; auto|].
  assert (HO : forall d, SpecReg.holds d old <= heldby (v_reqs s) d) by (intros d; apply heldby_get).
  unfold switch_engine, registerRemoteEngine. pose proof (assign_first C (rnd 2%nat) (us_users (v_usm s)) ns e HC RO ON) as A.
  destruct (ur_assign _ _ _ e ns) as [u1 y] eqn:E. cbn [snd] in A. subst y.
  destruct (assign_reg C (rnd 2%nat) ns _ _ _ _ _ RO E) as [K1 K2]. cbn [bind]. destruct old as [d|] eqn:OLD.
  - unfold unregisterRemoteEngine. cbn [v_usm set_users set_io us_users]. destruct (ur_release u1 d ns) as [u2 y] eqn:E2.
    assert (P : 0 < registered u1 ns d).
    { rewrite K2, B, holders_eq. pose proof (HO d) as X. rewrite holds_self in X. pose proof (holds_nonneg d (v_engine s)). pose proof (holds_nonneg d (Some e)). specialize (O d).
      destruct (zlist_eqb ns ns); lia. }
    destruct (release_ok ns _ _ _ _ K1 P E2) as (_ & [b ->] & _). cbn [bind]. intros H. injection H as <- <-. auto.
  - intros H. injection H as <- <-. auto.
Qed.
(** It is not sent only if the system has refused a datagram, or five or more
    messages are outstanding, if it is a message that can be made. *)
Theorem C85_made : forall W default_user default_level q p level user timeout period x before after s l n d h e auth b t c s1 l1 o ex,
  world_ok W -> crypto_ok (w_crypto W) -> 484 <= w_size W <= 2147483647 -> 0 < w_ticks W ->
  let evs := before ++ x :: after in let r := length (calls before) in
  Forall event_ok evs -> others_fair W evs -> SpecApi.asks q p -> fits (numbered p 0) -> names_valid p ->
  api3 default_user default_level q level user timeout period = Ok x ->
  history W evs s l -> waits s l n r -> found W evs s l d r h e -> in_sequence W evs s l r -> one_namespace W s1 e ->
  let u := match user with Some u => u | None => default_user end in let lv := match level with Some l => l | None => default_level end in
  bytes_ok e -> zlen e <= 1000 -> bytes_ok u -> zlen u <= 1000 -> SpecMsg.level_ok lv ->
  history W (evs ++ [VReceive d; VListen]) s1 l1 ->
  (sl_auth lv = true -> news_of W evs s d e u auth b t c /\ supports c lv /\ t + (sent_reading W s1 - reading3 W s) / w_ticks W <= 2147483647) ->
  snd (step3 W s1 VListen) = [WFailed r o ByUnknownEngine ex] ->
  (ex = OSError /\ was_refused W) \/ (ex = CacheError /\ five_outstanding W (evs ++ [VReceive d; VListen])).
Proof.
  intros W du dl q p level user timeout period x before after s l n d h e auth b t c s1 l1 o ex OK CO SZ TK evs r EV OF AS [PO PS] NV X HI WA TO SQ ON u lv EO EL UO UL LO H1 AG F.
  pose proof WA as ((lim & TN) & LK & LI & NA & NW). pose proof (ok_hash _ CO) as HC.
  pose proof TO as (_ & _ & (w0 & now0 & p0 & e0 & user0 & level0 & wire0 & IN0) & _).
  destruct (found_run W evs s l d r h e s1 l1 OK EV HI TO H1) as (sr & m0 & m & S1 & LP & DE & PI & EI & LI1 & LK1 & RQ1 & ST1 & AL).
  destruct (sequence_started W evs s l r h w0 now0 p0 e0 user0 level0 wire0 HI SQ IN0 AL NA) as [NI NU].
  destruct (history_new _ _ _ _ HI) as (z & NEW & RUN0).
  pose proof HI as [NW0 RUN]. pose proof H1 as [_ R1]. pose proof (run3_next _ _ _ _ _ _ _ RUN S1) as RR. cbn [rev app] in RR.
  assert (EV1 : Forall event_ok (evs ++ [VReceive d; VListen])) by (apply Forall_app; split; [exact EV|repeat constructor]).
  assert (BU : busy_with W evs d [VListen]).
  { split; [rewrite RUN; exact LI|]. intros [|y zs] rest Z.
    - rewrite RR. cbn [fst]. rewrite LP. intros K. discriminate K.
    - injection Z as <- Z. destruct zs; [|discriminate Z]. rewrite R1. cbn [fst]. rewrite LI1. intros K. discriminate K. }
  pose proof (clock_ahead W evs _ s l s1 l1 HI R1) as CLK.
  assert (FW : reading3 W s <= sent_reading W s1) by (destruct SQ as (_ & FW & _); apply FW; lia).
  assert (OF1 : others_fair W (evs ++ [VReceive d; VListen])) by (apply fair_silent; [exact OF|reflexivity]).
  destruct (PropertiesReg.balance_run W _ (PropertiesUse.used W OK) OF1 s1 l1 R1) as [_ BB].
  assert (OO : forall e, 0 <= others W (evs ++ [VReceive d; VListen]) e) by (intros e'; apply (OF1 _ []); now rewrite app_nil_r).
  (* what was asked for *)
  pose proof (calls_run _ _ _ _ _ _ _ _ _ _ _ _ _ _ NEW RUN0) as [CL CC].
  destruct (run_good W OK evs EV s l RUN) as [_ G]. destruct (run_good W OK _ EV1 s1 l1 R1) as [_ G1].
  assert (LT : (r < length (v_reqs s))%nat) by (apply get3_alive_lt; exact AL).
  assert (XC : exists v, x = VCall v u lv timeout period /\ numbered v 0 = numbered p 0).
  { pose proof (C67_call du dl q p level user timeout period AS NV) as Y. rewrite X in Y. injection Y as Y. exists (numbered p 0). split; [exact Y|reflexivity]. }
  destruct XC as (v & -> & VP).
  assert (NTH : nth_error (SpecMgr3.calls evs) r = Some (mkCall3 v u lv timeout period)).
  { unfold evs, r, SpecMgr3.calls. rewrite flat_map_app. rewrite nth_error_app2 by apply Nat.le_refl. rewrite Nat.sub_diag. reflexivity. }
  destruct (CC _ _ NTH) as (B1 & B2 & B3 & B4). cbn [c_pdu c_user c_level] in B1, B2, B3.
  destruct (g_reqs _ _ _ G _ LT) as [IDR IR].
  assert (I32 : int32 (pdu_requestID (q_pdu (get3 (v_reqs s) r)))) by (unfold id_in_range, gen_v1 in IR; unfold int32; cbn in IR; lia).
  set (id := pdu_requestID (q_pdu (get3 (v_reqs s) r))) in *.
  assert (PD : q_pdu (get3 (v_reqs s) r) = numbered p id).
  { rewrite B1. unfold numbered, set_requestID in *. injection VP as -> -> -> ->. reflexivity. }
  destruct (PS id I32) as (bs & PE & PL). change (set_requestID (numbered p 0) id) with (numbered p id) in PE.
  (* the step *)
  unfold step3 in F. cbn [m3_step] in F. unfold listen3 in F. rewrite LI1, LK1, ST1 in F.
  destruct (onReport (v_state s) (v_engine s1) e) as [[nx all]|exx] eqn:OR; [|discriminate F].
  destruct (send3 _ _ _ _ _ _ _ _ _) as [[s2 l2] y] eqn:SE.
  assert (Y : l2 = [WFailed r o ByUnknownEngine ex]) by (destruct y as [[]|e']; [destruct all|]; exact F). clear F. subst l2.
  unfold send3 in SE. cbn [tick3] in SE. unfold reallySend3 in SE.
  assert (AN : v_reqs (assign_next s1 nx) = v_reqs s /\ v_clock (assign_next s1 nx) = v_clock s1 /\ v_proc (assign_next s1 nx) = v_proc s1 /\ v_usm (assign_next s1 nx) = v_usm s1) by (rewrite <- RQ1; destruct nx; auto).
  destruct AN as (A1 & A2 & A3 & A4).
  match type of SE with context [set_req3 ?a r ?b] => set (s3 := set_req3 a r b) in * end.
  assert (GR : get3 (v_reqs s3) r = q_set_sched (get3 (v_reqs s) r) (sched_send (q_sched (get3 (v_reqs s) r)) (w_clk W (v_clock s1)))).
  { unfold s3. cbn [v_reqs set_req3 set_objects set_io]. rewrite get3_put_same; rewrite A1; [|exact LT]. now rewrite A2. }
  assert (Q3 : q_pdu (get3 (v_reqs s3) r) = numbered p id /\ q_user (get3 (v_reqs s3) r) = u /\ q_level (get3 (v_reqs s3) r) = lv).
  { rewrite GR. split; [exact PD|]. split; [exact B2|exact B3]. }
  destruct Q3 as (Q2 & Q4 & Q5). rewrite Q2, Q4, Q5 in SE.
  assert (P3 : v_proc s3 = v_proc s1) by exact A3. assert (U3 : v_usm s3 = v_usm s1) by exact A4. assert (C3 : v_clock s3 = Datatypes.S (v_clock s1)) by (unfold s3; cbn; now rewrite A2).
  assert (B3' : PrfReg2.bal (w_namespace W) (others W (evs ++ [VReceive d; VListen])) s3).
  { eapply keepR_bal; [|exact (proj1 BB)]. unfold s3. eapply keepR_trans; [apply keepR_assign|]. eapply keepR_trans; [|apply keepR_put; reflexivity]. now apply keepR_eq. }
  destruct (request_engine _ _ _ _ _ _) as [s4 z4] eqn:RE.
  destruct (request_first (w_crypto W) (w_rnd W) (w_namespace W) (others W (evs ++ [VReceive d; VListen])) s3 r e s4 z4 HC B3' OO ltac:(rewrite U3; exact ON) RE) as (-> & P4 & C4).
  assert (LT3 : (r < length (v_reqs s3))%nat) by (unfold s3; cbn [v_reqs set_req3 set_objects set_io]; rewrite put_length, A1; exact LT).
  destruct (PrfReg2.request_engine_bal (w_crypto W) (w_rnd W) (w_namespace W) (others W (evs ++ [VReceive d; VListen])) s3 r (Some e) s4 (Ok tt) B3' OO (or_intror LT3) RE) as (B4' & _ & _ & _ & _ & _ & QE4).
  destruct y as [[]|ex'].
  { exfalso. clear - SE. unfold transmit in SE. repeat match type of SE with context [match ?z with _ => _ end] => destruct z end; discriminate SE. }
  assert (EX : ex' = ex).
  { clear - SE. unfold transmit in SE. repeat match type of SE with context [match ?z with _ => _ end] => destruct z end; try discriminate SE; congruence. }
  subst ex'.
  apply (PrfFail2.transmit_raises) with (size := w_size W) in SE; rewrite ?P4, ?P3.
  2:{ apply OK. } 2:{ apply (g_cache _ _ _ G1). } 2:{ apply (g_size _ _ _ G1). } 2:{ exact (PrfAnswer.modules_run W _ s1 l1 R1). }
  rewrite P4, P3 in SE.
  destruct SE as [[-> SE]|[[-> SE]|(mid & MI & SE)]].
  - left. split; [reflexivity|exact SE].
  - right. split; [reflexivity|]. exists (evs ++ [VReceive d; VListen]), []. split; [now rewrite app_nil_r|]. rewrite R1. cbn [fst]. exact SE.
  - exfalso. rewrite C4, C3 in SE. fold (sent_reading W s1) in SE.
    assert (POI : pdu_ok (numbered p id)) by (now apply numbered_ok).
    destruct (usm_makes (w_crypto W) (w_ticks W) (w_size W) CO SZ (v_usm s4) mid lv (numbered p id) e u (sent_reading W s1) bs MI LO POI PE PL EO EL UO UL) as (wr & K).
    + intros AU. destruct (AG AU) as ((SA & B & T & NE & AD) & SU & TM).
      assert (AD1 : user_added W (evs ++ [VReceive d; VListen]) u c) by (now apply PrfFail2.added_later).
      destruct (added_run W OK HC _ u c s1 l1 EV1 AD1 R1) as (cf & EC & WU).
      pose (P := fun us : usm => with_user W u cf us /\ us_time us = us_time (v_usm s1)).
      assert (G3 : good (w_size W) P s3) by (destruct G1 as [G11 G12 G13 G14 G15]; unfold s3; apply put_good; [reflexivity|]; apply tick_good; apply assign_good; constructor; auto; split; auto).
      assert (G4 : good (w_size W) P s4).
      { eapply request_engine_good; [|exact G3|exact RE]. intros us op O [V1 V2]. apply reg_op_ok in O. split; [now apply with_op|exact V2]. }
      destruct (g_usm _ _ _ G4) as [[RU CFG] TI]. rewrite TI.
      pose proof (told_time W evs d [VListen] s l s1 l1 auth e b t (sent_reading W s1) OK TK EV1 HI BU H1 SA ltac:(lia) T NE FW) as TT.
      split; [rewrite TT; split; cbn [fst snd]; [lia|]; split; [|lia]; pose proof (Z.div_pos (sent_reading W s1 - reading3 W s) (w_ticks W) ltac:(lia) TK); lia|].
      assert (RG : 0 < registered (us_users (v_usm s4)) (w_namespace W) e).
      { assert (B3d : BD (w_namespace W) (others W (evs ++ [VReceive d; VListen])) s3).
        { eapply keepR_BD; [|exact BB]. unfold s3. eapply keepR_trans; [apply keepR_assign|]. eapply keepR_trans; [|apply keepR_put; reflexivity]. now apply keepR_eq. }
        assert (AL3 : q_alive (get3 (v_reqs s3) r) = true) by (rewrite GR; exact AL).
        pose proof (request_engine_BD (w_crypto W) (w_rnd W) (w_namespace W) (others W (evs ++ [VReceive d; VListen])) s3 r e s4 (Ok tt) B3d OO AL3 RE) as B4d.
        eapply holder_registered; [exact B4d|exact OO|exact QE4]. }
      destruct (cfg_credentials (w_crypto W) (w_ticks W) (w_rnd W 2) HC (v_usm s4) (w_namespace W) e u cf RU RG CFG) as (lc & K3 & K4). rewrite EC in K4.
      destruct (PrfFail2.supports_keys W c lv e lc HC SU AU K4) as (a & K5 & K6). exists lc, a. auto.
    + rewrite K in SE. discriminate SE.
Qed.
(** * The hypotheses are met *)
(** The same request of the same agent as in C84, which is at boots 5, time 77; but
    the engine ID is not given.  The report arrives at 2, and the request is sent at 4. *)
Definition ex_cold : world := mkWorld (toy OpenSSL) 1 ex_draws (ex_clk [0; 0; 0; 0; 0; 2; 4]) (fun _ => true) [] (mkUsm [] registry0) 65507 None.
Definition ex_cold_evs : list event3 := ex_before ++ ex_get_call :: ex_ahead.
Definition ex_found : bytes := ex_note 13 ex_engine [] (ex_report 4).
Lemma ex_cold_sequence evs : forallb (fun k => Nat.leb (length (v_tasks (fst (run3 ex_cold (firstn k evs))))) 1) (seq 0 (S (length evs))) = true ->
  let s := fst (run3 ex_cold evs) in let l := snd (run3 ex_cold evs) in
  reading3 ex_cold s < expiration3 s 0 -> forallb (fun y => match y with WFailed _ _ _ _ => false | _ => true end) l = true -> in_sequence ex_cold evs s l 0.
Proof.
  intros Q s l T N. rewrite forallb_forall in N. assert (NF : forall r h w e, ~ In (WFailed r h w e) l) by (intros r h w e K; apply N in K; clear - K; discriminate K).
  split; [now apply alone_all|]. split; [exact ex_slow_forwards|]. split; [exact T|]. split; [|intros h w e K; destruct (NF _ _ _ _ K)].
  intros _ r h w e K. destruct (NF _ _ _ _ K).
Qed.
Example C85_example : let W := ex_cold in let evs := ex_cold_evs in let s := fst (run3 W evs) in let l := snd (run3 W evs) in let d := ex_found in
  let s1 := fst (run3 W (evs ++ [VReceive d; VListen])) in let A := ex_running in exists c,
  world_ok W /\ crypto_ok (w_crypto W) /\ 484 <= w_size W <= 2147483647 /\ 0 < w_ticks W /\ Forall event_ok evs /\ others_fair W evs /\ SpecApi.asks ex_get ex_gotten /\
  pdu_ok (numbered ex_gotten 0) /\ names_valid ex_gotten /\ api3 [] noAuthNoPriv ex_get (Some authPriv) (Some ex_user) 10 3 = Ok ex_get_call /\
  history W evs s l /\ waits s l 0 0 /\ found W evs s l d 0 0 ex_engine /\ in_sequence W evs s l 0 /\ ex_engine <> [] /\ q_engine (request3 s 0) = None /\
  octets_ok ex_engine /\ octets_ok ex_user /\ SpecMsg.level_ok authPriv /\ news_of W evs s d ex_engine ex_user false 5 77 c /\
  agent_ok A /\ knows (w_crypto W) A ex_engine ex_user c /\ reading3 W s = 2 /\ sent_reading W s1 = 4 /\ own_time (w_crypto W) A ex_engine = (5, 79) /\
  exists h' now pd wire, snd (step3 W s1 VListen) = [WSent 0 h' ByUnknownEngine now pd ex_engine ex_user authPriv wire] /\
    let done := evs ++ VReceive d :: VListen :: VListen :: repeat VListen 1 in let s2 := fst (run3 W done) in let l2 := snd (run3 W done) in
    in_sequence W done s2 l2 0 /\ reading3 W s2 = 4 /\ pdu_cls (ex_reply3 13) = ResponsePDU /\ pdu_ok (ex_reply3 13) /\
    answers_with (w_crypto W) A wire ex_engine ex_user authPriv (ex_reply3 13) 1500 (ex_answering wire) /\
    exists s' l' r, run3 W (done ++ arrival (ex_answering wire) 0) = (s', WOutcome 0 (VReturned r) :: l') /\ Forall2 same_vb ex_vbs r.
Proof.
  cbv zeta. destruct ex_cred as [c SC]. exists c.
  assert (WO : world_ok ex_cold) by (constructor; [exists []; split; [constructor|reflexivity]| |]; intros k; cbn; lia).
  split; [exact WO|]. split; [exact (toy_ok OpenSSL)|]. split; [cbn; lia|]. split; [cbn; lia|]. split; [repeat constructor|]. split.
  { apply others_keep_fair; [now apply PropertiesUse.used|]. intros e ns H. unfold ex_cold_evs in H. cbn in H. repeat (destruct H as [H|H]; [discriminate H|]). exact H. }
  split.
  { split; [reflexivity|]. split; [reflexivity|]. split; [reflexivity|]. constructor; [|constructor; [|constructor]].
    - split; [|reflexivity]. left. apply (dotted_dot [49] 1 [51;46;54] [3;6]); [apply (ex_digit 49); lia|]. apply (dotted_dot [51] 3 [54] [6]); [apply (ex_digit 51); lia|]. apply dotted_last, (ex_digit 54); lia.
    - split; reflexivity. }
  split; [exact (proj1 ex_fits)|]. split; [repeat constructor|]. split; [reflexivity|].
  split; [split; [vm_compute; reflexivity|apply surjective_pairing]|]. split; [eapply ex_waits; vm_compute; reflexivity|]. split.
  { split; [vm_compute; reflexivity|]. split; [vm_compute; reflexivity|]. split; [vm_compute; do 7 eexists; right; left; reflexivity|].
    split; [eexists; split; [vm_compute; reflexivity|]; split; [do 3 eexists; vm_compute; repeat split|vm_compute; reflexivity]|].
    vm_compute. discriminate. }
  split; [apply ex_cold_sequence; [vm_compute; reflexivity|vm_compute; reflexivity|vm_compute; reflexivity]|].
  split; [intros K; discriminate K|]. split; [vm_compute; reflexivity|].
  split; [split; [repeat constructor; vm_compute; discriminate|vm_compute; discriminate]|].
  split; [split; [repeat constructor; vm_compute; discriminate|vm_compute; discriminate]|].
  split; [intros _; reflexivity|]. split.
  { split; [do 2 eexists; split; [vm_compute; reflexivity|]; split; [vm_compute; reflexivity|]; split; [vm_compute; reflexivity|]; vm_compute; repeat split|].
    split; [lia|]. split; [lia|].
    split; [exists []; split; [vm_compute; reflexivity|]; intros (b & m & ts & [])|].
    exists [], (ex_get_call :: ex_ahead), (Some HmacSha), None, (Some AesCfb128), None, ex_secret, false, None; split; [reflexivity|]; split; [vm_compute; reflexivity|exact SC]. }
  split; [split; [cbn; lia|repeat constructor]|]. split; [now apply ex_running_knows|].
  split; [vm_compute; reflexivity|]. split; [vm_compute; reflexivity|]. split; [vm_compute; reflexivity|].
  eexists. eexists. eexists. eexists. split; [vm_compute; reflexivity|].
  split; [apply ex_cold_sequence; [vm_compute; reflexivity|vm_compute; reflexivity|vm_compute; reflexivity]|].
  split; [vm_compute; reflexivity|]. split; [reflexivity|]. split.
  { split; [|exact ex_vbs_ok]. unfold pdu_fields_ok, int32. cbn. repeat split; vm_compute; discriminate. }
  split; [eexists; split; vm_compute; reflexivity|].
  eexists. eexists. eexists. split; [vm_compute; reflexivity|]. vm_compute. repeat constructor.
Qed.
(** The same, but the system refuses the second datagram: the message for the
    engine is not sent. *)
Definition ex_refuses (k i : nat) : Z := match k, i with 3%nat, 8%nat => 1 | 3%nat, _ => 0 | _, _ => 7 end.
Definition ex_unsent : world := mkWorld (toy OpenSSL) 1 ex_refuses (ex_clk [0; 0; 0; 0; 0; 2; 4]) (fun _ => true) [] (mkUsm [] registry0) 65507 None.
Example C85_made_example : let W := ex_unsent in let evs := ex_cold_evs in let s := fst (run3 W evs) in let l := snd (run3 W evs) in let d := ex_found in
  let s1 := fst (run3 W (evs ++ [VReceive d; VListen])) in exists c,
  world_ok W /\ others_fair W evs /\ fits (numbered ex_gotten 0) /\ history W evs s l /\ waits s l 0 0 /\ found W evs s l d 0 0 ex_engine /\ in_sequence W evs s l 0 /\
  one_namespace W s1 ex_engine /\ news_of W evs s d ex_engine ex_user false 5 77 c /\ supports c authPriv /\ 77 + (sent_reading W s1 - reading3 W s) / w_ticks W = 79 /\
  snd (step3 W s1 VListen) = [WFailed 0 (Some 1%nat) ByUnknownEngine OSError].
Proof.
  cbv zeta. destruct ex_cred as [c SC]. exists c.
  split; [constructor; [exists []; split; [constructor|reflexivity]| |]; intros k; cbn; lia|]. split.
  { apply others_keep_fair; [apply PropertiesUse.used; constructor; [exists []; split; [constructor|reflexivity]| |]; intros k; cbn; lia|]. intros e ns H. unfold ex_cold_evs in H. cbn in H. repeat (destruct H as [H|H]; [discriminate H|]). exact H. }
  split; [exact ex_fits|]. split; [split; [vm_compute; reflexivity|apply surjective_pairing]|]. split; [eapply ex_waits; vm_compute; reflexivity|]. split.
  { split; [vm_compute; reflexivity|]. split; [vm_compute; reflexivity|]. split; [vm_compute; do 7 eexists; right; left; reflexivity|].
    split; [eexists; split; [vm_compute; reflexivity|]; split; [do 3 eexists; vm_compute; repeat split|vm_compute; reflexivity]|].
    vm_compute. discriminate. }
  split.
  { split; [apply alone_all; vm_compute; reflexivity|]. split; [exact ex_slow_forwards|]. split; [vm_compute; reflexivity|]. split.
    - intros _ r h w e K. exfalso. revert K. vm_compute. intros K. repeat (destruct K as [K|K]; [discriminate K|]). exact K.
    - intros h w e K. exfalso. revert K. vm_compute. intros K. repeat (destruct K as [K|K]; [discriminate K|]). exact K. }
  split; [intros ns N; vm_compute; reflexivity|]. split.
  { split; [do 2 eexists; split; [vm_compute; reflexivity|]; split; [vm_compute; reflexivity|]; split; [vm_compute; reflexivity|]; vm_compute; repeat split|].
    split; [lia|]. split; [lia|].
    split; [exists []; split; [vm_compute; reflexivity|]; intros (b & m & ts & [])|].
    exists [], (ex_get_call :: ex_ahead), (Some HmacSha), None, (Some AesCfb128), None, ex_secret, false, None; split; [reflexivity|]; split; [vm_compute; reflexivity|exact SC]. }
  split; [destruct SC as (_ & K1 & _ & _ & K2 & _); split; intros _ Z; [rewrite K1 in Z|rewrite K2 in Z]; discriminate Z|].
  split; vm_compute; reflexivity.
Qed.
Print Assumptions C85_resent.
Print Assumptions C85_discovers.
Print Assumptions C85_made.
