(** PropertiesHeal.v -- C84: a request that was out of time is answered after all. *)
From Verif Require Import PropertiesUsm PropertiesMsg PropertiesProc PropertiesMgr PrfApi PrfMgr3i PropertiesMgr3 PropertiesReg SpecApi Api3 PropertiesUse PrfHear PrfHear2 PrfMgr3e PrfMgr3d PropertiesHear PrfAnswer PropertiesAnswer PrfUse PrfUse2.
From Verif Require Import SpecFail PrfFail1 PrfFail2 PropertiesFail PrfMgr3 PrfMgr3a PrfMgr3c PrfMgr3h PrfTime PrfShare PropertiesShare PrfSync2 PrfSync SpecSync SpecAnswer SpecUse SpecReg PrfOpen2 PrfAnswer PropertiesSync SpecHeal SpecApi.
(** Calls of sendRequest() of the v3 manager. *)
Notation calls := SpecMgr3.calls.

(** What the manager takes for the clock of [e] after it was told. *)
Lemma told_time W evs d mid s0 l0 s l auth e b t ts :
  world_ok W -> 0 < w_ticks W -> Forall event_ok (evs ++ VReceive d :: mid) ->
  history W evs s0 l0 -> busy_with W evs d mid -> history W (evs ++ VReceive d :: mid) s l ->
  says d auth e b t -> 0 <= b <= 2147483647 -> 0 <= t -> news (w_ticks W) (v_usm s0) auth e b t (reading3 W s0) ->
  reading3 W s0 <= ts -> getEngineTime (w_ticks W) (us_time (v_usm s)) e ts = (b, t + (ts - reading3 W s0) / w_ticks W).
Proof.
  intros OK TK EV1 [_ E0] BU [_ E] SA B T NE FW.
  pose proof (busy_time W OK evs d mid EV1 BU) as BT. rewrite E in BT. cbn [fst] in BT.
  destruct BU as [L BU]. rewrite E0 in L. cbn [fst] in L. specialize (BU [] mid eq_refl).
  destruct (step3 W s0 (VReceive d)) as [s1 l1] eqn:R1.
  assert (E1 : run3 W (evs ++ [VReceive d]) = (s1, rev l1 ++ l0)).
  { unfold run3. rewrite m3_run_snoc. fold (run3 W evs). rewrite E0. unfold step3 in R1. rewrite R1. reflexivity. }
  rewrite E1 in BU, BT. cbn [fst] in BU, BT.
  pose proof (received_time W evs d s0 l0 s1 l1 auth e b t E0 R1 L BU SA) as RT.
  assert (X : exists fl, dict_get zlist_eqb (us_time (v_usm s)) e = Some (mkET fl b (reading3 W s0 - t * w_ticks W))).
  { rewrite BT. destruct NE as (th & UT & N). rewrite UT in RT. destruct auth.
    - exists true. rewrite <- (auth_entry (w_ticks W) th e b t (reading3 W s0) TK ltac:(lia) N). now rewrite RT.
    - exists false. rewrite RT. apply hint_entry; [lia|exact N]. }
  destruct X as (fl & X). rewrite (local_some (w_ticks W) _ e ts _ X). cbn [et_boots]. f_equal.
  unfold et_time. cbn [et_latestBootTime]. rewrite <- passed by lia. f_equal. lia.
Qed.
(** * The agent gets the request *)
(** A datagram of the engine [e] says something new of its boots and time.  Until
    the listener is done with it, every message of every request sent to that
    engine with authentication is accepted by the agent, if its clock is as it
    was told; and what it gets is what was asked for. *)
Theorem C84_delivered : forall W default_user default_level q p level user timeout period x before after evs d mid s0 l0 s l y s' l' h w now pd e u lv wire auth b t A c,
  world_ok W -> crypto_ok (w_crypto W) -> 484 <= w_size W <= 2147483647 -> 0 < w_ticks W ->
  Forall event_ok (evs ++ VReceive d :: mid) -> others_fair W (evs ++ VReceive d :: mid) ->
  SpecApi.asks q p -> pdu_ok (numbered p 0) -> names_valid p ->
  api3 default_user default_level q level user timeout period = Ok x -> evs ++ VReceive d :: mid = before ++ x :: after ->
  history W evs s0 l0 -> busy_with W evs d mid -> history W (evs ++ VReceive d :: mid) s l ->
  says d auth e b t -> 0 <= b < 2147483647 -> 0 <= t -> news (w_ticks W) (v_usm s0) auth e b t (reading3 W s0) ->
  step3 W s y = (s', l') -> In (WSent (length (calls before)) h w now pd e u lv wire) l' ->
  octets_ok e -> octets_ok u -> SpecMsg.level_ok lv -> sl_auth lv = true -> reading3 W s0 <= sent_reading W s ->
  agent_ok A -> user_added W (evs ++ VReceive d :: mid) u c -> knows (w_crypto W) A e u c ->
  in_step W A e b t (reading3 W s0) (sent_reading W s) ->
  exists id m sc, id <> 0 /\ int32 id /\ accepts (w_crypto W) A wire m /\
    u = (match user with Some u => u | None => default_user end) /\ lv = (match level with Some l => l | None => default_level end) /\
    level_of m = lv /\ v3_engineID m = Some e /\ v3_name m = Some u /\
    v3_scoped m = Some sc /\ same_scoped (mkScoped e [] (numbered p id)) sc.
Proof.
  intros W du dl q p level user timeout period x before after evs d mid s0 l0 s l y s' l' h w now pd e u lv wire auth b t A c OK CO SZ TK EV OF AS PO N X EQ H0 BU H SA B T NE ST IN EO UO LO AU FW AO AD KN [IS1 IS2].
  pose proof (told_time W evs d mid s0 l0 s l auth e b t (sent_reading W s) OK TK EV H0 BU H SA ltac:(lia) T NE FW) as TT.
  rewrite EQ in *.
  eapply (C67_delivered W du dl q p level user timeout period x before after s l y s' l' h w now pd e u lv wire A c); eauto.
  - intros (_ & _ & _ & E). rewrite E in AU. discriminate AU.
  - intros _. split; [exact AD|]. split; [exact KN|].
    destruct AO as [AT AF]. destruct (usm_split (w_crypto W) (a_ticks A) (a_rnd A) (a_ops A) AF) as (th & _ & _ & TE & _). exists th. split; [exact TE|].
    unfold sending_time. fold (sent_reading W s). rewrite TT. cbn [fst snd]. split; [lia|]. intros _.
    unfold own_time in IS1, IS2. unfold agent_usm in *. rewrite TE in IS1, IS2. destruct (getEngineTime _ _ _ _) as [lb lt]. cbn [fst snd] in IS1, IS2. right. split; [exact IS1|lia].
Qed.
Print Assumptions C84_delivered.
(** * Its answer is what wait() gives *)
(** When the listener is done with that datagram, the answer of the agent to any
    message of the request is what wait() gives (one thread at a time: C69). *)
Theorem C84_answered : forall W evs d mid y s0 l0 s l n r h w now p e user level wire auth b t A c answer size d2,
  world_ok W -> crypto_ok (w_crypto W) -> 0 < w_ticks W -> 484 <= w_size W <= 2147483647 ->
  let told := evs ++ VReceive d :: mid ++ [y] in
  Forall event_ok told -> others_fair W told ->
  history W evs s0 l0 -> busy_with W evs d mid -> history W told s l ->
  says d auth e b t -> 0 <= b < 2147483647 -> 0 <= t -> news (w_ticks W) (v_usm s0) auth e b t (reading3 W s0) ->
  in_sequence W told s l r -> In (WSent r h w now p e user level wire) l -> is_Confirmed (pdu_cls p) = true ->
  pdu_ok p -> octets_ok e -> octets_ok user -> SpecMsg.level_ok level -> e <> [] -> q_engine (request3 s r) = Some e -> waits s l n r ->
  agent_ok A -> pdu_cls answer = ResponsePDU -> pdu_ok answer -> 484 <= size <= 2147483647 ->
  answers_with (w_crypto W) A wire e user level answer size d2 -> user_added W told user c -> knows (w_crypto W) A e user c ->
  reading3 W s0 <= reading3 W s -> in_step W A e b t (reading3 W s0) (reading3 W s) ->
  exists received s' l', same_pdu answer received /\ run3 W (told ++ arrival d2 n) = (s', WOutcome r (given p received) :: l').
Proof.
  intros W evs d mid y s0 l0 s l n r h w now p e user level wire auth b t A c answer size d2 OK CO TK SZ told EV OF H0 BU H SA B T NE SQ IN CF PO EO UO LO E0 QE WA AO CL ANO ZO AW AD KN FW [IS1 IS2].
  eapply (C69_agent_sequential_partial W told s l n r h w now p e user level wire A c answer size d2); eauto.
  intros _. split; [exact AD|]. split; [exact KN|].
  assert (EVS : told = (evs ++ VReceive d :: mid) ++ [y]) by (unfold told; now rewrite <- app_assoc).
  pose proof EV as EV1. rewrite EVS in EV1. apply Forall_app in EV1 as [EV1 EVY].
  destruct (run3 W (evs ++ VReceive d :: mid)) as [sm lm] eqn:EM.
  assert (HM : history W (evs ++ VReceive d :: mid) sm lm) by (split; [exact (proj1 H)|exact EM]).
  assert (TT : us_time (v_usm s) = us_time (v_usm sm)).
  { destruct (step3 W sm y) as [s' l'] eqn:ST. assert (EV2 : Forall event_ok ((evs ++ VReceive d :: mid) ++ [y])) by (rewrite <- EVS; exact EV).
    pose proof (run3_next _ _ _ _ _ _ _ EM ST) as R2. rewrite <- EVS in R2. destruct H as [_ RUN]. rewrite RUN in R2. injection R2 as <- _.
    destruct (step_time W OK _ sm lm y s l' EV2 EM ST) as [X _]. apply X. intros d' _. destruct BU as [_ BU].
    specialize (BU mid [] (eq_sym (app_nil_r mid))). rewrite EM in BU. exact BU. }
  destruct (run_good W OK told EV s l (proj2 H)) as [_ G]. destruct G as [(uh & UF & UE) _ _ _ _].
  destruct (usm_split (w_crypto W) (w_ticks W) (w_rnd W 2) uh UF) as (th & _ & _ & TE & _). exists th. split; [rewrite UE; exact TE|].
  pose proof (told_time W evs d mid s0 l0 sm lm auth e b t (reading3 W s) OK TK EV1 H0 BU HM SA ltac:(lia) T NE FW) as X.
  rewrite <- TT, UE, TE in X. unfold own_time in IS1, IS2. destruct (getEngineTime (a_ticks A) _ _ _) as [lb lt]. cbn [fst snd] in IS1, IS2.
  split; [lia|]. intros _. rewrite X. right. split; [congruence|]. lia.
Qed.
Print Assumptions C84_answered.
(** * All of it *)
(** The listener, when it works on a report of the engine [e]. *)
Definition calm (e : bytes) (l : listener) : Prop :=
  l = LIdle \/ (exists r w, l = LReport r e w) \/ (exists r w, l = LDrain r e w) \/ exists r, l = LSync r.
Definition rest_of (s : mgr3) : nat :=
  match v_listener s with LIdle => 0 | LSync _ => 1 | LDrain _ _ _ => 2 + length (v_unsent s) | _ => 3 + length (v_unsent s) end.
Section Calm.
  Context (C : crypto) (R : Z) (rnd : nat -> nat -> Z) (clk : nat -> Z) (fmt : v3msg -> bool) (ns : pystr).
  Lemma sends_calm s r w now e s1 l x : sends s r w now (Some e) s1 l x ->
    v_unsent s1 = v_unsent s /\ v_listener s1 = v_listener s /\ v_tasks s1 = v_tasks s /\ (forall r o, ~ In (WOutcome r o) l) /\
    (forall q, q_event (get3 (v_reqs s1) q) = q_event (get3 (v_reqs s) q) /\ (q_engine (get3 (v_reqs s) q) = Some e -> q_engine (get3 (v_reqs s1) q) = Some e)).
  Proof.
    intros H. inversion H; subst.
    - split; [reflexivity|]. split; [reflexivity|]. split; [reflexivity|]. split; [intros ? ? [K|[]]; discriminate K|auto].
    - split; [reflexivity|]. split; [reflexivity|]. split; [reflexivity|]. split.
      { intros r1 o1 K. match goal with X : (exists wire, _) \/ _ |- _ => destruct X as [(? & _ & ->)|(? & _ & ->)] end; destruct K as [K|[]]; discriminate K. }
      intros z. cbn [v_reqs set_objects set_io]. rewrite get3_put. destruct (_ && _)%bool eqn:B; [|auto]. apply andb_prop in B as [B _]. apply Nat.eqb_eq in B. subst z. subst q. split; [reflexivity|]. intros E. reflexivity.
  Qed.
  Lemma readied_calm s nx r : let z := readied clk (assign_next s nx) r in
    v_unsent z = v_unsent s /\ v_listener z = v_listener s /\ v_tasks z = v_tasks s /\
    (forall q, q_event (get3 (v_reqs z) q) = q_event (get3 (v_reqs s) q) /\ q_engine (get3 (v_reqs z) q) = q_engine (get3 (v_reqs s) q)).
  Proof.
    assert (N : v_unsent (assign_next s nx) = v_unsent s /\ v_listener (assign_next s nx) = v_listener s /\ v_tasks (assign_next s nx) = v_tasks s /\ v_reqs (assign_next s nx) = v_reqs s) by (destruct nx; auto).
    destruct N as (N1 & N2 & N3 & N4). cbv zeta. split; [exact N1|]. split; [exact N2|]. split; [exact N3|]. intros q. unfold readied. cbn [v_reqs set_req3 set_objects ticked set_io]. rewrite get3_put, N4.
    destruct (_ && _)%bool eqn:B; [|auto]. apply andb_prop in B as [B _]. apply Nat.eqb_eq in B. subst q. auto.
  Qed.
  Definition poked (s : mgr3) : bool := existsb (fun t => match t with SPoking _ _ _ => true | _ => false end) (v_tasks s).
  Definition keeps (e : bytes) (s s' : mgr3) (l : list log3) : Prop :=
    calm e (v_listener s') /\ v_tasks s' = v_tasks s /\ (forall r o, ~ In (WOutcome r o) l) /\
    (forall q, q_event (get3 (v_reqs s') q) = q_event (get3 (v_reqs s) q) /\ (q_engine (get3 (v_reqs s) q) = Some e -> q_engine (get3 (v_reqs s') q) = Some e)).
  Lemma update_calm s : let z := updateState (heapify3 s) in v_unsent z = v_unsent s /\ v_tasks z = v_tasks s /\ v_reqs z = v_reqs s.
  Proof. cbv zeta. unfold updateState, heapify3. destruct (heapify _ _ _). cbn. destruct (v_next s); auto. Qed.
  Lemma heapify_calm s : let z := heapify3 s in v_unsent z = v_unsent s /\ v_tasks z = v_tasks s /\ v_reqs z = v_reqs s.
  Proof. cbv zeta. unfold heapify3. destruct (heapify _ _ _). auto. Qed.
  Lemma push_calm s q : let z := push3 s q in v_unsent z = v_unsent s /\ v_tasks z = v_tasks s /\ v_reqs z = v_reqs s /\ v_listener z = v_listener s.
  Proof. cbv zeta. unfold push3. destruct (heappush _ _ _ _). auto. Qed.
  Lemma done_calm e r w : calm e (reported_done r w).
  Proof. destruct w; cbn; unfold calm; eauto 6. Qed.
  Lemma calm_step e s s' l : calm e (v_listener s) -> poked s = false -> listen3 C R rnd clk fmt ns s = (s', l) ->
    keeps e s s' l /\ (v_listener s <> LIdle -> (rest_of s' < rest_of s)%nat).
  Proof.
    intros CA PK. assert (NO : forall r o, ~ In (WOutcome r o) []) by (intros ? ? []).
    destruct CA as [L|[(r & w & L)|[(r & w & L)|(r & L)]]]; unfold listen3, keeps, rest_of; rewrite L.
    - intros H. injection H as <- <-. rewrite L. split; [unfold calm; auto 8|]. intros X. now destruct X.
    - assert (LK : locked3 s = false) by (unfold locked3; rewrite L; exact PK). rewrite LK.
      destruct (onReport _ _ _) as [[nx b]|ex]; [|intros H; injection H as <- <-; cbn; split; [unfold calm; auto 8|intros _; lia]].
      destruct (send3 _ _ _ _ _ _ _ _ _) as [[s1 l1] y] eqn:S. apply send3_spec in S. pose proof (readied_calm s nx r) as (A1 & A2 & A3 & A4).
      apply sends_calm in S as (B1 & B2 & B3 & B4 & B5). rewrite A1 in B1. rewrite A3 in B3.
      assert (B6 : forall q, q_event (get3 (v_reqs s1) q) = q_event (get3 (v_reqs s) q) /\ (q_engine (get3 (v_reqs s) q) = Some e -> q_engine (get3 (v_reqs s1) q) = Some e)).
      { intros q. destruct (A4 q) as [<- <-]. apply B5. }
      destruct y as [[]|ex]; [|intros H; injection H as <- <-; cbn; split; [unfold calm; auto 8|intros _; lia]].
      destruct b; intros H; injection H as <- <-; cbn [v_listener v_tasks v_reqs v_unsent set_listener set_threads].
      + destruct (update_calm s1) as (U1 & U2 & U3). rewrite U1, U2, U3, B1. split; [|intros _; cbn; lia]. split; [unfold calm; eauto 8|]. auto.
      + destruct (heapify_calm s1) as (U1 & U2 & U3). rewrite U1, U2, U3, B1. split; [split; [apply done_calm|]; auto|]. intros _. destruct w; cbn; lia.
    - destruct (v_unsent s) as [|q rest] eqn:U.
      { intros H. injection H as <- <-. cbn [v_listener v_tasks v_reqs v_unsent set_listener set_threads]. split; [split; [apply done_calm|]; auto|]. intros _. destruct w; cbn; lia. }
      cbv zeta. cbn [v_reqs set_queue]. destruct (q_alive _); [|intros H; injection H as <- <-; cbn [v_listener v_tasks v_reqs v_unsent set_queue]; rewrite L; split; [split; [unfold calm; eauto 8|]; auto|intros _; cbn; lia]].
      destruct (send3 _ _ _ _ _ _ _ _ _) as [[s1 l1] y] eqn:S. apply send3_spec in S. pose proof (readied_calm (set_queue s (v_heap s) rest (v_refs s)) None q) as (A1 & A2 & A3 & A4).
      cbn [assign_next v_unsent v_listener v_tasks v_reqs set_queue] in A1, A2, A3, A4.
      apply sends_calm in S as (B1 & B2 & B3 & B4 & B5). rewrite A1 in B1. rewrite A3 in B3. rewrite A2, L in B2.
      assert (B6 : forall q, q_event (get3 (v_reqs s1) q) = q_event (get3 (v_reqs s) q) /\ (q_engine (get3 (v_reqs s) q) = Some e -> q_engine (get3 (v_reqs s1) q) = Some e)).
      { intros z. destruct (A4 z) as [<- <-]. apply B5. }
      destruct y as [[]|ex]; intros H; injection H as <- <-.
      + destruct (push_calm s1 q) as (U1 & U2 & U3 & U4). rewrite U1, U2, U3, U4, B1, B2. split; [split; [unfold calm; eauto 8|]; auto|]. intros _. cbn. lia.
      + cbn [v_listener v_tasks v_reqs v_unsent set_listener set_threads]. split; [split; [unfold calm; auto|]; auto|]. intros _. cbn. lia.
    - intros H. injection H as <- <-. cbn [v_listener v_tasks v_reqs v_unsent set_listener set_threads set_objects]. split; [|intros _; lia].
      split; [unfold calm; auto|]. split; [reflexivity|]. split; [auto|]. intros q. rewrite get3_put. destruct (_ && _)%bool eqn:B; [|auto]. apply andb_prop in B as [B _]. apply Nat.eqb_eq in B. subst q. auto.
  Qed.
End Calm.
Section Idle.
  Context (W : world).
  Notation listen := (listen3 (w_crypto W) (w_ticks W) (w_rnd W) (w_clk W) (w_fmt W) (w_namespace W)).
  Lemma listen_outcome s s' l : listen s = (s', l) -> v_tasks s' = v_tasks s /\ forall r o, ~ In (WOutcome r o) l.
  Proof.
    intros H. apply listen3_spec in H. split; [exact (lstep_tasks _ _ _ _ H)|]. intros r o K.
    inversion H; subst; cbn in K;
      try (match goal with X : sends _ _ _ _ _ _ _ _ |- _ => apply sends_calm in X as (_ & _ & _ & X & _); exact (X _ _ K) end);
      repeat (destruct K as [K|K]; [discriminate K|]); exact K.
  Qed.
  Lemma becomes_idle e : forall n evs s l, run3 W evs = (s, l) -> calm e (v_listener s) -> poked s = false -> (rest_of s <= n)%nat ->
    exists k s2 l2, run3 W (evs ++ repeat VListen k) = (s2, l2 ++ l) /\ v_listener s2 = LIdle /\
      (forall j, (j < k)%nat -> v_listener (fst (run3 W (evs ++ repeat VListen j))) <> LIdle) /\
      v_tasks s2 = v_tasks s /\ (forall r o, ~ In (WOutcome r o) l2) /\
      (forall q, q_event (get3 (v_reqs s2) q) = q_event (get3 (v_reqs s) q) /\ (q_engine (get3 (v_reqs s) q) = Some e -> q_engine (get3 (v_reqs s2) q) = Some e)).
  Proof.
    induction n as [|n IH]; intros evs s l RUN CA PK LE.
    - exists 0%nat, s, []. cbn [repeat]. rewrite app_nil_r. split; [exact RUN|]. split.
      { unfold rest_of in LE. destruct (v_listener s); try reflexivity; lia. }
      split; [intros j J; lia|]. split; [reflexivity|]. split; [intros r o []|auto].
    - assert (DI : v_listener s = LIdle \/ v_listener s <> LIdle) by (destruct (v_listener s); [left; reflexivity|right; discriminate..]). destruct DI as [LI|NI].
      { exists 0%nat, s, []. cbn [repeat]. rewrite app_nil_r. split; [exact RUN|]. split; [exact LI|]. split; [intros j J; lia|]. split; [reflexivity|]. split; [intros r o []|auto]. }
        destruct (listen s) as [s1 l1] eqn:S1;
        destruct (calm_step (w_crypto W) (w_ticks W) (w_rnd W) (w_clk W) (w_fmt W) (w_namespace W) e s s1 l1 CA PK S1) as ((C1 & C2 & C3 & C4) & DEC); specialize (DEC NI);
        assert (R1 : run3 W (evs ++ [VListen]) = (s1, rev l1 ++ l)) by (apply (run3_next _ _ _ _ _ _ _ RUN); exact S1);
        assert (P1 : poked s1 = false) by (unfold poked in *; rewrite C2; exact PK);
        destruct (IH _ _ _ R1 C1 P1 ltac:(lia)) as (k & s2 & l2 & D1 & D2 & D3 & D4 & D5 & D6);
        exists (S k), s2, (l2 ++ rev l1); cbn [repeat]; rewrite <- app_assoc in D1; cbn [app] in D1; rewrite <- app_assoc;
        (split; [exact D1|]); (split; [exact D2|]); (split; [intros [|j] J; [cbn [repeat]; rewrite app_nil_r, RUN; exact NI|];
          specialize (D3 j ltac:(lia)); rewrite <- app_assoc in D3; exact D3|]); (split; [congruence|]);
        (split; [intros r o K; apply in_app_or in K as [K|K]; [exact (D5 _ _ K)|apply in_rev in K; exact (C3 _ _ K)]|]);
        intros q; destruct (D6 q) as [Q1 Q2]; destruct (C4 q) as [Q3 Q4]; split; [congruence|auto].
  Qed.
  (** The clock is not read backwards. *)
  Lemma clock_ahead evs tail s l s' l' : history W evs s l -> run3 W (evs ++ tail) = (s', l') -> (v_clock s <= v_clock s')%nat.
  Proof.
    intros HI. revert s' l'. induction tail as [|x tail IH] using rev_ind; intros s' l' E.
    - rewrite app_nil_r in E. rewrite (proj2 HI) in E. injection E as -> _. apply Nat.le_refl.
    - destruct (run3 W (evs ++ tail)) as [s1 l1] eqn:E1. specialize (IH _ _ eq_refl). destruct (step3 W s1 x) as [s2 l2] eqn:S2.
      pose proof (run3_next _ _ _ _ _ _ _ E1 S2) as R2. rewrite <- app_assoc, E in R2. injection R2 as -> _.
      assert (H1 : history W (evs ++ tail) s1 l1) by (split; [exact (proj1 HI)|exact E1]).
      destruct (history_new _ _ _ _ H1) as (s0 & NEW & RUN0).
      pose proof (base_run _ _ _ _ _ _ _ _ _ _ (base_start _ _ _ _ _ _ _ _ NEW) RUN0) as [I _].
      unfold step3 in S2. apply m3_step_spec in S2. destruct (step_spec _ _ _ _ _ _ _ _ _ I S2) as (_ & (K & _) & _). exact (Nat.le_trans _ _ _ IH K).
  Qed.
  (** The listener does not release engines for others. *)
  Definition silent (x : event3) : bool := match x with VUsers _ => false | _ => true end.
  Lemma others_silent tail e : forallb silent tail = true -> forall evs s, others_from W s (evs ++ tail) e = others_from W s evs e.
  Proof.
    intros T evs. induction evs as [|y evs IH]; intros s; cbn [app others_from]; [|now rewrite IH].
    revert s. induction tail as [|z tail IH]; intros s; [reflexivity|]. cbn in T. apply andb_prop in T as [T1 T2]. cbn [others_from]. rewrite (IH T2). destruct z; try reflexivity. discriminate T1.
  Qed.
  Lemma fair_silent evs tail : others_fair W evs -> forallb silent tail = true -> others_fair W (evs ++ tail).
  Proof.
    intros F T b a e E. apply app_eq_app in E as (m & [[E1 E2]|[E1 E2]]).
    - exact (F b m e E1).
    - rewrite E1. unfold others. rewrite others_silent; [apply (F evs [] e); now rewrite app_nil_r|].
      rewrite E2, forallb_app in T. now apply andb_prop in T.
  Qed.
End Idle.
(** A request is out of time, and the report says so.  Then it is sent again at
    once; the agent gets what was asked for; the listener is soon done; and if
    the agent's answer to that message arrives then, it is what wait() gives. *)
Theorem C84_heals : forall W default_user default_level q p level user timeout period x before after s l n d h e auth b t c s1 l1,
  world_ok W -> crypto_ok (w_crypto W) -> 484 <= w_size W <= 2147483647 -> 0 < w_ticks W ->
  let evs := before ++ x :: after in let r := length (calls before) in
  Forall event_ok evs -> others_fair W evs -> SpecApi.asks q p -> pdu_ok (numbered p 0) -> names_valid p ->
  api3 default_user default_level q level user timeout period = Ok x ->
  history W evs s l -> waits s l n r -> told W evs s l d r h e -> in_sequence W evs s l r -> e <> [] -> q_engine (request3 s r) = Some e ->
  says d auth e b t -> 0 <= b < 2147483647 -> 0 <= t -> news (w_ticks W) (v_usm s) auth e b t (reading3 W s) ->
  let u := match user with Some u => u | None => default_user end in let lv := match level with Some l => l | None => default_level end in
  octets_ok e -> octets_ok u -> SpecMsg.level_ok lv -> sl_auth lv = true -> user_added W evs u c ->
  history W (evs ++ [VReceive d; VListen]) s1 l1 ->
  (exists o ex, snd (step3 W s1 VListen) = [WFailed r o ByNotInTime ex]) \/
  exists h' now pd wire, snd (step3 W s1 VListen) = [WSent r h' ByNotInTime now pd e u lv wire] /\
    (forall A, agent_ok A -> knows (w_crypto W) A e u c -> in_step W A e b t (reading3 W s) (sent_reading W s1) ->
      exists id m sc, id <> 0 /\ int32 id /\ accepts (w_crypto W) A wire m /\ level_of m = lv /\ v3_engineID m = Some e /\ v3_name m = Some u /\
        v3_scoped m = Some sc /\ same_scoped (mkScoped e [] (numbered p id)) sc) /\
    exists k s2 l2, let done := evs ++ VReceive d :: VListen :: VListen :: repeat VListen k in history W done s2 l2 /\ waits s2 l2 n r /\
      forall A answer size d2, in_sequence W done s2 l2 r -> agent_ok A -> knows (w_crypto W) A e u c -> in_step W A e b t (reading3 W s) (reading3 W s2) ->
        pdu_cls answer = ResponsePDU -> pdu_ok answer -> 484 <= size <= 2147483647 -> answers_with (w_crypto W) A wire e u lv answer size d2 ->
        exists received s' l', same_pdu answer received /\ run3 W (done ++ arrival d2 n) = (s', WOutcome r (given pd received) :: l').
Proof.
  intros W du dl q p level user timeout period x before after s l n d h e auth b t c s1 l1 OK CO SZ TK evs r EV OF AS PO NV X HI WA TO SQ E0 QE SA B T NE u lv EO UO LO AU AD H1.
  pose proof WA as ((lim & TN) & LK & LI & NA & NW).
  pose proof TO as (_ & _ & (w0 & now0 & p0 & e0 & user0 & level0 & wire0 & IN0) & _).
  destruct (told_run W evs s l d r h e s1 l1 OK EV HI TO H1) as (sr & m0 & m & S1 & LP & DE & PI & EI & LI1 & LK1 & RQ1 & ST1).
  assert (AL : q_alive (request3 s r) = true).
  { destruct (history_new _ _ _ _ HI) as (z & NEW & RUN0). pose proof (base_run _ _ _ _ _ _ _ _ _ _ (base_start _ _ _ _ _ _ _ _ NEW) RUN0) as [I _].
    apply (i3_tasks s I (SBlock r lim)). eapply nth_error_In. exact TN. }
  destruct (sequence_state W evs s l r h w0 now0 p0 e0 user0 level0 wire0 HI SQ IN0 AL NA ltac:(rewrite QE; intros K; discriminate K)) as [NI NU].
  destruct (step3 W s1 VListen) as [sx lx] eqn:SX.
  pose proof (C83_resent W evs s l d r h e s1 l1 OK EV HI TO NI NU H1) as RS. cbv zeta in RS. rewrite SX in RS. cbn [snd] in RS |- *.
  destruct RS as (h' & [(now & wire & EL)|(o & ex & EL)]); [right|left; eauto].
  (* what was asked for *)
  set (pd := q_pdu (request3 s r)) in *. exists h', now, pd, wire.
  pose proof H1 as [N1 R1].
  assert (RX : run3 W (evs ++ [VReceive d; VListen; VListen]) = (sx, rev lx ++ l1)).
  { pose proof (run3_next _ _ _ _ _ _ _ R1 SX) as Y. rewrite <- app_assoc in Y. exact Y. }
  assert (HX : history W (evs ++ [VReceive d; VListen; VListen]) sx (rev lx ++ l1)) by (split; assumption).
  assert (INX : In (WSent r h' ByNotInTime now pd e (q_user (request3 s r)) (q_level (request3 s r)) wire) (rev lx ++ l1)) by (apply in_or_app; left; rewrite EL; now left).
  assert (EVX : Forall event_ok (evs ++ [VReceive d; VListen; VListen])) by (apply Forall_app; split; [exact EV|repeat constructor]).
  assert (SENT : ~ is_discovery pd e (q_user (request3 s r)) (q_level (request3 s r))) by (intros (_ & K & _); contradiction).
  assert (ID : exists id, id <> 0 /\ int32 id /\ pd = numbered p id /\ q_user (request3 s r) = u /\ q_level (request3 s r) = lv).
  { assert (EQ : evs ++ [VReceive d; VListen; VListen] = before ++ x :: (after ++ [VReceive d; VListen; VListen])) by (unfold evs; now rewrite <- app_assoc).
    rewrite EQ in HX, EVX.
    destruct (C67_sent W du dl q p level user timeout period x before _ sx _ h' _ now pd e _ _ wire OK EVX AS NV X HX INX) as [K|K]; [contradiction|exact K]. }
  destruct ID as (id & I0 & I32 & EP & EU & ELV). rewrite EU, ELV in *. split; [exact EL|].
  (* the listener is busy *)
  destruct HI as [NW0 RUN]. pose proof (run3_next _ _ _ _ _ _ _ RUN S1) as RR. cbn [rev app] in RR.
  assert (BU : busy_with W evs d [VListen]).
  { split; [rewrite RUN; exact LI|]. intros [|z zs] rest Z.
    - rewrite RR. cbn [fst]. rewrite LP. intros K. discriminate K.
    - injection Z as <- Z. destruct zs; [|discriminate Z]. rewrite R1. cbn [fst]. rewrite LI1. intros K. discriminate K. }
  assert (EV1 : Forall event_ok (evs ++ VReceive d :: [VListen])) by (apply Forall_app; split; [exact EV|repeat constructor]).
  assert (OFL : forall k, others_fair W (evs ++ VReceive d :: VListen :: repeat VListen k)).
  { intros k. apply fair_silent; [exact OF|]. cbn. induction k; [reflexivity|exact IHk]. }
  assert (ADL : forall rest, user_added W (evs ++ rest) u c).
  { intros rest. destruct AD as (bf & af & ap & asec & pp & ps & sec & dd & dsl & AD1 & AD2). exists bf, (af ++ rest), ap, asec, pp, ps, sec, dd, dsl. split; [rewrite AD1, <- app_assoc; reflexivity|exact AD2]. }
  assert (CLK : (v_clock s <= v_clock s1)%nat) by (exact (clock_ahead W evs _ s l s1 l1 (conj NW0 RUN) R1)).
  assert (FW : reading3 W s <= sent_reading W s1) by (destruct SQ as (_ & FW & _); apply FW; lia).
  split.
  { intros A AO KN IS.
    destruct (C84_delivered W du dl q p level user timeout period x before (after ++ [VReceive d; VListen]) evs d [VListen] s l s1 l1 VListen sx lx h' ByNotInTime now pd e u lv wire auth b t A c)
      as (id' & m' & sc & K1 & K2 & K3 & _ & _ & K4); auto.
    - apply (OFL 0%nat).
    - unfold evs. now rewrite <- app_assoc.
    - split; assumption.
    - rewrite EL. now left.
    - exists id', m', sc. split; [exact K1|]. split; [exact K2|]. split; [exact K3|exact K4]. }
  (* the rest *)
  assert (PK1 : poked s1 = false) by (unfold locked3 in LK1; rewrite LI1 in LK1; exact LK1).
  destruct (calm_step (w_crypto W) (w_ticks W) (w_rnd W) (w_clk W) (w_fmt W) (w_namespace W) e s1 sx lx) as ((C1 & C2 & C3 & C4) & _); [rewrite LI1; unfold calm; eauto|exact PK1|exact SX|].
  assert (PKX : poked sx = false) by (unfold poked in *; rewrite C2; exact PK1).
  destruct (becomes_idle W e _ _ _ _ RX C1 PKX (Nat.le_refl _)) as (k & s2 & l2 & D1 & D2 & D3 & D4 & D5 & D6).
  exists k, s2, (l2 ++ rev lx ++ l1). cbv zeta.
  assert (DN : (evs ++ [VReceive d; VListen; VListen]) ++ repeat VListen k = evs ++ VReceive d :: VListen :: VListen :: repeat VListen k) by (now rewrite <- app_assoc).
  rewrite DN in D1.
  destruct (step3 W sr VListen) as [s1' l1'] eqn:S2. pose proof (run3_next _ _ _ _ _ _ _ RR S2) as R2. rewrite <- app_assoc in R2. cbn [app] in R2.
  assert (E2 : s1' = s1 /\ l1 = rev l1' ++ l) by (rewrite R2 in R1; injection R1 as <- <-; auto). destruct E2 as [-> EL1]. clear R2.
  unfold step3 in S2. cbn [m3_step] in S2. apply listen_outcome in S2 as [TS NO1].
  assert (TSR : v_tasks sr = v_tasks s).
  { unfold step3 in S1. cbn [m3_step] in S1. rewrite LI in S1. cbn [tick3] in S1. destruct (v3_prepareDataElements _ _ _ _ _ _ _) as [uu [[m1 h1]|ex1]]; injection S1 as <-; reflexivity. }
  split; [split; [exact NW0|exact D1]|].
  assert (WA2 : waits s2 (l2 ++ rev lx ++ l1) n r).
  { split; [exists lim; rewrite D4, C2, TS, TSR; exact TN|]. split; [|split; [exact D2|split]].
    - unfold locked3. rewrite D2. cbn [orb]. unfold poked in PKX. rewrite D4. exact PKX.
    - unfold answered3, request3 in *. destruct (D6 r) as [-> _]. destruct (C4 r) as [-> _]. rewrite RQ1. exact NA.
    - intros o K. rewrite EL1 in K. repeat (apply in_app_or in K as [K|K]).
      + exact (D5 _ _ K). + apply in_rev in K. exact (C3 _ _ K). + apply in_rev in K. exact (NO1 _ _ K). + exact (NW _ K). }
  split; [exact WA2|].
  intros A answer size d2 SQ2 AO KN IS CL ANO ZO AW.
  set (mid := VListen :: repeat VListen k).
  assert (ME : mid ++ [VListen] = VListen :: VListen :: repeat VListen k) by (unfold mid; cbn [app]; now rewrite <- repeat_cons).
  assert (EVD : Forall event_ok (evs ++ VReceive d :: VListen :: VListen :: repeat VListen k)).
  { apply Forall_app. split; [exact EV|]. repeat constructor. apply Forall_forall. intros z Z. apply repeat_spec in Z. subst z. exact Logic.I. }
  assert (BU2 : busy_with W evs d mid).
  { split; [rewrite RUN; exact LI|]. intros [|z zs] rest Z; [rewrite RR; cbn [fst]; rewrite LP; intros K; discriminate K|]. unfold mid in Z. injection Z as <- Z.
    assert (ZR : zs = repeat VListen (length zs) /\ (length zs <= k)%nat).
    { assert (LZ : (length zs <= k)%nat) by (rewrite <- (repeat_length VListen k), Z, app_length; lia). split; [|exact LZ].
      clear - Z. revert k Z. induction zs as [|z zs IH]; intros [|k] Z; [reflexivity|reflexivity|discriminate Z|]. cbn in Z. injection Z as <- Z. cbn. f_equal. exact (IH _ Z). }
    destruct ZR as [ZR LZ]. rewrite ZR. clear ZR Z. destruct (length zs) as [|j].
    - cbn [repeat]. rewrite R1. cbn [fst]. rewrite LI1. intros K. discriminate K.
    - specialize (D3 j LZ). rewrite <- app_assoc in D3. exact D3. }
  assert (W2 : waits s2 (l2 ++ rev lx ++ l1) n r) by exact WA2.
  rewrite <- ME in *.
  destruct (C84_answered W evs d mid VListen s l s2 (l2 ++ rev lx ++ l1) n r h' ByNotInTime now pd e u lv wire auth b t A c answer size d2) as (received & s' & l' & K1 & K2); auto.
  - rewrite ME. exact (OFL (S k)).
  - split; assumption.
  - split; assumption.
  - rewrite EL. apply in_or_app. right. now left.
  - rewrite EP. change (pdu_cls (numbered p id)) with (pdu_cls p). destruct q; cbn [SpecApi.asks] in AS; destruct AS as (-> & _); reflexivity.
  - rewrite EP. now apply numbered_ok.
  - unfold request3. destruct (D6 r) as [_ X2]. apply X2. destruct (C4 r) as [_ X3]. apply X3. rewrite RQ1. exact QE.
  - destruct SQ as (_ & FWD & _). apply FWD. exact (clock_ahead W evs _ s l s2 _ (conj NW0 RUN) D1).
  - exists received, s', l'. split; [exact K1|]. rewrite ME in K2. exact K2.
Qed.
Print Assumptions C84_heals.
(** It is not sent only if the system has refused a datagram, or five or more
    messages are outstanding, if it is a message that can be made. *)
Theorem C84_made : forall W default_user default_level q p level user timeout period x before after s l n d h e auth b t c s1 l1 o ex,
  world_ok W -> crypto_ok (w_crypto W) -> 484 <= w_size W <= 2147483647 -> 0 < w_ticks W ->
  let evs := before ++ x :: after in let r := length (calls before) in
  Forall event_ok evs -> others_fair W evs -> SpecApi.asks q p -> fits (numbered p 0) -> names_valid p ->
  api3 default_user default_level q level user timeout period = Ok x ->
  history W evs s l -> waits s l n r -> told W evs s l d r h e -> in_sequence W evs s l r -> e <> [] -> q_engine (request3 s r) = Some e ->
  says d auth e b t -> 0 <= b <= 2147483647 -> 0 <= t -> news (w_ticks W) (v_usm s) auth e b t (reading3 W s) ->
  let u := match user with Some u => u | None => default_user end in let lv := match level with Some l => l | None => default_level end in
  bytes_ok e -> zlen e <= 1000 -> bytes_ok u -> zlen u <= 1000 -> SpecMsg.level_ok lv -> user_added W evs u c -> supports c lv ->
  history W (evs ++ [VReceive d; VListen]) s1 l1 -> t + (sent_reading W s1 - reading3 W s) / w_ticks W <= 2147483647 ->
  snd (step3 W s1 VListen) = [WFailed r o ByNotInTime ex] ->
  (ex = OSError /\ was_refused W) \/ (ex = CacheError /\ five_outstanding W (evs ++ [VReceive d; VListen])).
Proof.
  intros W du dl q p level user timeout period x before after s l n d h e auth b t c s1 l1 o ex OK CO SZ TK evs r EV OF AS [PO PS] NV X HI WA TO SQ E0 QE SA B T NE u lv EO EL UO UL LO AD SU H1 TM F.
  pose proof WA as ((lim & TN) & LK & LI & NA & NW). pose proof (ok_hash _ CO) as HC.
  pose proof TO as (_ & _ & (w0 & now0 & p0 & e0 & user0 & level0 & wire0 & IN0) & _).
  destruct (told_run W evs s l d r h e s1 l1 OK EV HI TO H1) as (sr & m0 & m & S1 & LP & DE & PI & EI & LI1 & LK1 & RQ1 & ST1).
  destruct (history_new _ _ _ _ HI) as (z & NEW & RUN0). pose proof (base_run _ _ _ _ _ _ _ _ _ _ (base_start _ _ _ _ _ _ _ _ NEW) RUN0) as [I0 _].
  assert (AL : q_alive (request3 s r) = true) by (apply (i3_tasks s I0 (SBlock r lim)); eapply nth_error_In; exact TN).
  destruct (sequence_state W evs s l r h w0 now0 p0 e0 user0 level0 wire0 HI SQ IN0 AL NA ltac:(rewrite QE; intros K; discriminate K)) as [NI NU].
  pose proof HI as [NW0 RUN]. pose proof H1 as [_ R1]. pose proof (run3_next _ _ _ _ _ _ _ RUN S1) as RR. cbn [rev app] in RR.
  assert (EV1 : Forall event_ok (evs ++ [VReceive d; VListen])) by (apply Forall_app; split; [exact EV|repeat constructor]).
  assert (BU : busy_with W evs d [VListen]).
  { split; [rewrite RUN; exact LI|]. intros [|y zs] rest Z.
    - rewrite RR. cbn [fst]. rewrite LP. intros K. discriminate K.
    - injection Z as <- Z. destruct zs; [|discriminate Z]. rewrite R1. cbn [fst]. rewrite LI1. intros K. discriminate K. }
  pose proof (clock_ahead W evs _ s l s1 l1 HI R1) as CLK.
  assert (FW : reading3 W s <= sent_reading W s1) by (destruct SQ as (_ & FW & _); apply FW; lia).
  pose proof (told_time W evs d [VListen] s l s1 l1 auth e b t (sent_reading W s1) OK TK EV1 HI BU H1 SA B T NE FW) as TT.
  (* what was asked for *)
  pose proof (calls_run _ _ _ _ _ _ _ _ _ _ _ _ _ _ NEW RUN0) as [CL CC].
  destruct (run_good W OK evs EV s l RUN) as [_ G]. destruct (run_good W OK _ EV1 s1 l1 R1) as [_ G1].
  assert (LT : (r < length (v_reqs s))%nat) by (apply get3_alive_lt; exact AL).
  assert (XC : exists v, x = VCall v u lv timeout period /\ numbered v 0 = numbered p 0).
  { pose proof (C67_call du dl q p level user timeout period AS NV) as Y. rewrite X in Y. injection Y as Y. exists (numbered p 0). split; [exact Y|reflexivity]. }
  destruct XC as (v & -> & VP).
  assert (NTH : nth_error (SpecMgr3.calls evs) r = Some (mkCall3 v u lv timeout period)).
  { unfold evs, r, SpecMgr3.calls. rewrite flat_map_app. rewrite nth_error_app2 by apply Nat.le_refl. rewrite Nat.sub_diag. reflexivity. }
  destruct (CC _ _ NTH) as (B1 & B2 & B3 & B4). cbn [c_pdu c_user c_level] in B1, B2, B3.
  destruct (g_reqs _ _ _ G _ LT) as [IDR IR].
  assert (I32 : int32 (pdu_requestID (q_pdu (get3 (v_reqs s) r)))) by (unfold id_in_range, gen_v1 in IR; unfold int32; cbn in IR; lia).
  set (id := pdu_requestID (q_pdu (get3 (v_reqs s) r))) in *.
  assert (PD : q_pdu (get3 (v_reqs s) r) = numbered p id).
  { rewrite B1. unfold numbered, set_requestID in *. injection VP as -> -> -> ->. reflexivity. }
  destruct (PS id I32) as (bs & PE & PL). change (set_requestID (numbered p 0) id) with (numbered p id) in PE.
  (* the step *)
  unfold step3 in F. cbn [m3_step] in F. unfold listen3 in F. rewrite LI1, LK1, ST1 in F.
  destruct (onReport (v_state s) (v_engine s1) e) as [[nx all]|exx] eqn:OR; [|discriminate F].
  destruct (send3 _ _ _ _ _ _ _ _ _) as [[s2 l2] y] eqn:SE.
  assert (Y : l2 = [WFailed r o ByNotInTime ex]) by (destruct y as [[]|e']; [destruct all|]; exact F). clear F. subst l2.
  unfold send3 in SE. cbn [tick3] in SE. unfold reallySend3, request_engine in SE.
  assert (AN : v_reqs (assign_next s1 nx) = v_reqs s /\ v_clock (assign_next s1 nx) = v_clock s1 /\ v_proc (assign_next s1 nx) = v_proc s1 /\ v_usm (assign_next s1 nx) = v_usm s1) by (rewrite <- RQ1; destruct nx; auto).
  destruct AN as (A1 & A2 & A3 & A4).
  match type of SE with context [set_req3 ?a r ?b] => set (s3 := set_req3 a r b) in * end.
  assert (GR : get3 (v_reqs s3) r = q_set_sched (get3 (v_reqs s) r) (sched_send (q_sched (get3 (v_reqs s) r)) (w_clk W (v_clock s1)))).
  { unfold s3. cbn [v_reqs set_req3 set_objects set_io]. rewrite get3_put_same; rewrite A1; [|exact LT]. now rewrite A2. }
  assert (Q3 : q_engine (get3 (v_reqs s3) r) = Some e /\ q_pdu (get3 (v_reqs s3) r) = numbered p id /\ q_user (get3 (v_reqs s3) r) = u /\ q_level (get3 (v_reqs s3) r) = lv).
  { rewrite GR. split; [exact QE|]. split; [exact PD|]. split; [exact B2|exact B3]. }
  destruct Q3 as (Q1 & Q2 & Q4 & Q5). rewrite Q1, Q2, Q4, Q5 in SE. cbn [opt_eqb] in SE. rewrite (proj2 (zlist_eqb_eq e e) eq_refl) in SE.
  destruct y as [[]|ex'].
  { exfalso. clear - SE. unfold transmit in SE. repeat match type of SE with context [match ?z with _ => _ end] => destruct z end; discriminate SE. }
  assert (EX : ex' = ex).
  { clear - SE. unfold transmit in SE. repeat match type of SE with context [match ?z with _ => _ end] => destruct z end; try discriminate SE; congruence. }
  subst ex'.
  assert (P3 : v_proc s3 = v_proc s1) by exact A3. assert (U3 : v_usm s3 = v_usm s1) by exact A4. assert (C3 : v_clock s3 = Datatypes.S (v_clock s1)) by (unfold s3; cbn; now rewrite A2).
  apply (PrfFail2.transmit_raises) with (size := w_size W) in SE; rewrite ?P3.
  2:{ apply OK. } 2:{ apply (g_cache _ _ _ G1). } 2:{ apply (g_size _ _ _ G1). } 2:{ exact (PrfAnswer.modules_run W _ s1 l1 R1). }
  destruct SE as [[-> SE]|[[-> SE]|(mid & MI & SE)]].
  - left. split; [reflexivity|exact SE].
  - right. split; [reflexivity|]. exists (evs ++ [VReceive d; VListen]), []. split; [now rewrite app_nil_r|]. rewrite R1. cbn [fst]. rewrite <- P3. exact SE.
  - exfalso. rewrite U3, C3 in SE. fold (sent_reading W s1) in SE.
    assert (POI : pdu_ok (numbered p id)) by (now apply numbered_ok).
    destruct (usm_makes (w_crypto W) (w_ticks W) (w_size W) CO SZ (v_usm s1) mid lv (numbered p id) e u (sent_reading W s1) bs MI LO POI PE PL EO EL UO UL) as (wr & K).
    + intros AU. split; [rewrite TT; split; cbn [fst snd]; [lia|]; split; [|lia]; pose proof (Z.div_pos (sent_reading W s1 - reading3 W s) (w_ticks W) ltac:(lia) TK); lia|].
      assert (OF1 : others_fair W (evs ++ [VReceive d; VListen])) by (apply fair_silent; [exact OF|reflexivity]).
      destruct (PropertiesReg.balance_run W _ (PropertiesUse.used W OK) OF1 s1 l1 R1) as [_ BB].
      assert (OO : forall e, 0 <= others W (evs ++ [VReceive d; VListen]) e) by (intros e'; apply (OF1 _ []); now rewrite app_nil_r).
      assert (RE : 0 < registered (us_users (v_usm s1)) (w_namespace W) e).
      { apply (holder_registered (w_namespace W) (others W (evs ++ [VReceive d; VListen])) s1 r e); [exact BB|exact OO|]. rewrite RQ1. exact QE. }
      assert (AD1 : user_added W (evs ++ [VReceive d; VListen]) u c).
      { destruct AD as (bf & af & ap & asec & pp & ps & sec & dd & dsl & AD1 & AD2). exists bf, (af ++ [VReceive d; VListen]), ap, asec, pp, ps, sec, dd, dsl. split; [rewrite AD1, <- app_assoc; reflexivity|exact AD2]. }
      destruct (added_run W OK HC _ u c s1 l1 EV1 AD1 R1) as (cf & EC & [RU CFG]).
      destruct (cfg_credentials (w_crypto W) (w_ticks W) (w_rnd W 2) HC (v_usm s1) (w_namespace W) e u cf RU RE CFG) as (l2 & K3 & K4). rewrite EC in K4.
      destruct (PrfFail2.supports_keys W c lv e l2 HC SU AU K4) as (a & K5 & K6). exists l2, a. auto.
    + rewrite K in SE. discriminate SE.
Qed.
Print Assumptions C84_made.
(** * The hypotheses are met *)
(** get("1.3.6", OID(1, 3, 2)) with authentication and privacy, engine ID given;
    the agent is at boots 5, time 77 (the manager does not know that).  Its report
    arrives at 2, the request is sent again at 4, and says 79; the agent is at 79. *)
Definition ex_slow : world := mkWorld (toy OpenSSL) 1 ex_draws (ex_clk [0; 0; 0; 0; 0; 2; 4]) (fun _ => true) [] (mkUsm [] registry0) 65507 (Some ex_engine).
Definition ex_ahead : list event3 := [VStep 0; VWait 0; VStep 0; VStep 0].
Definition ex_slow_evs : list event3 := ex_before ++ ex_get_call :: ex_ahead.
Definition ex_told_now : v3msg :=
  mkV3 (mkHeader 1 1500 (mkFlags noAuthNoPriv false) USM) None None
    (ABytes match params_encode (UsmSecurityParameters ex_engine 5 77 [] (ABytes []) []) with Ok p => p | Raise _ => [] end) None None.
Definition ex_running : agent := mkAgent 1 (fun n => Z.of_nat n) (map UUser [ex_add; OpRegister ex_engine []] ++ [UReceive ex_told_now 1000]) 1002.
Lemma ex_running_knows c : spec_credentials (toy OpenSSL) (Some HmacSha) None (Some AesCfb128) None ex_secret c -> knows (toy OpenSSL) ex_running ex_engine ex_user c.
Proof.
  intros SC. destruct (ex_agent_knows c SC) as (l & G & L). exists l. split; [|exact L]. rewrite <- G.
  assert (E : us_users (agent_usm (toy OpenSSL) ex_running) = us_users (agent_usm (toy OpenSSL) ex_agent)) by (vm_compute; reflexivity). now rewrite E.
Qed.
Definition ex_answering (wire : bytes) : bytes :=
  match snd (usm_prepareOutgoing (toy OpenSSL) 1 (agent_usm (toy OpenSSL) ex_running)
      (mkV3 (mkHeader (h_id (v3_header (decoded3 wire))) 1500 (mkFlags authPriv false) USM) (Some (mkScoped ex_engine [] (ex_reply3 13))) None (ABytes []) None None) ex_engine ex_user 1002) with
  | Ok d => d | Raise _ => [] end.
Lemma ex_slow_forwards : forwards ex_slow.
Proof.
  intros i j L. cbn [ex_slow w_clk]. unfold ex_clk.
  do 7 (destruct i as [|i]; [do 8 (destruct j as [|j]; [cbn; lia|]); cbn; destruct j; cbn; lia|]). do 7 (destruct j as [|j]; [lia|]). cbn. destruct i, j; cbn; lia.
Qed.
Lemma ex_in_sequence evs : forallb (fun k => Nat.leb (length (v_tasks (fst (run3 ex_slow (firstn k evs))))) 1) (seq 0 (S (length evs))) = true ->
  let s := fst (run3 ex_slow evs) in let l := snd (run3 ex_slow evs) in
  reading3 ex_slow s < expiration3 s 0 -> forallb (fun y => match y with WFailed _ _ _ _ => false | _ => true end) l = true -> in_sequence ex_slow evs s l 0.
Proof.
  intros Q s l T N. split; [now apply alone_all|]. split; [exact ex_slow_forwards|]. split; [exact T|]. split; [intros K; discriminate K|].
  rewrite forallb_forall in N. intros h w e K. apply N in K. clear - K. discriminate K.
Qed.
Example C84_example : let W := ex_slow in let evs := ex_slow_evs in let s := fst (run3 W evs) in let l := snd (run3 W evs) in let d := ex_telling in
  let s1 := fst (run3 W (evs ++ [VReceive d; VListen])) in let A := ex_running in exists c,
  world_ok W /\ crypto_ok (w_crypto W) /\ 484 <= w_size W <= 2147483647 /\ 0 < w_ticks W /\ Forall event_ok evs /\ others_fair W evs /\ SpecApi.asks ex_get ex_gotten /\
  pdu_ok (numbered ex_gotten 0) /\ fits (numbered ex_gotten 0) /\ names_valid ex_gotten /\ api3 [] noAuthNoPriv ex_get (Some authPriv) (Some ex_user) 10 3 = Ok ex_get_call /\
  history W evs s l /\ waits s l 0 0 /\ told W evs s l d 0 0 ex_engine /\ in_sequence W evs s l 0 /\ ex_engine <> [] /\ q_engine (request3 s 0) = Some ex_engine /\
  says d false ex_engine 5 77 /\ news (w_ticks W) (v_usm s) false ex_engine 5 77 (reading3 W s) /\
  octets_ok ex_engine /\ octets_ok ex_user /\ zlen ex_engine <= 1000 /\ zlen ex_user <= 1000 /\ SpecMsg.level_ok authPriv /\ user_added W evs ex_user c /\ supports c authPriv /\
  agent_ok A /\ knows (w_crypto W) A ex_engine ex_user c /\ reading3 W s = 2 /\ sent_reading W s1 = 4 /\ own_time (w_crypto W) A ex_engine = (5, 79) /\
  exists now pd wire, snd (step3 W s1 VListen) = [WSent 0 1 ByNotInTime now pd ex_engine ex_user authPriv wire] /\
    let done := evs ++ VReceive d :: VListen :: VListen :: repeat VListen 2 in let s2 := fst (run3 W done) in let l2 := snd (run3 W done) in
    in_sequence W done s2 l2 0 /\ reading3 W s2 = 4 /\ pdu_cls (ex_reply3 13) = ResponsePDU /\ pdu_ok (ex_reply3 13) /\
    answers_with (w_crypto W) A wire ex_engine ex_user authPriv (ex_reply3 13) 1500 (ex_answering wire) /\
    exists s' l' r, run3 W (done ++ arrival (ex_answering wire) 0) = (s', WOutcome 0 (VReturned r) :: l') /\ Forall2 same_vb ex_vbs r.
Proof.
  cbv zeta. destruct ex_cred as [c SC]. exists c.
  assert (WO : world_ok ex_slow) by (constructor; [exists []; split; [constructor|reflexivity]| |]; intros k; cbn; lia).
  split; [exact WO|]. split; [exact (toy_ok OpenSSL)|]. split; [cbn; lia|]. split; [cbn; lia|]. split; [repeat constructor|]. split.
  { apply others_keep_fair; [now apply PropertiesUse.used|]. intros e ns H. unfold ex_slow_evs in H. cbn in H. repeat (destruct H as [H|H]; [discriminate H|]). exact H. }
  split.
  { split; [reflexivity|]. split; [reflexivity|]. split; [reflexivity|]. constructor; [|constructor; [|constructor]].
    - split; [|reflexivity]. left. apply (dotted_dot [49] 1 [51;46;54] [3;6]); [apply (ex_digit 49); lia|]. apply (dotted_dot [51] 3 [54] [6]); [apply (ex_digit 51); lia|]. apply dotted_last, (ex_digit 54); lia.
    - split; reflexivity. }
  split; [exact (proj1 ex_fits)|]. split; [exact ex_fits|]. split; [repeat constructor|]. split; [reflexivity|].
  split; [split; [vm_compute; reflexivity|apply surjective_pairing]|]. split; [eapply ex_waits; vm_compute; reflexivity|]. split.
  { split; [vm_compute; reflexivity|]. split; [vm_compute; reflexivity|]. split; [vm_compute; do 7 eexists; right; left; reflexivity|].
    split; [eexists; split; [vm_compute; reflexivity|]; split; [do 3 eexists; vm_compute; repeat split|vm_compute; reflexivity]|].
    vm_compute. intros h' now p e0 user level wire K. repeat (destruct K as [K|K]; [discriminate K|]). exact K. }
  split; [apply ex_in_sequence; [vm_compute; reflexivity|vm_compute; reflexivity|vm_compute; reflexivity]|].
  split; [intros K; discriminate K|]. split; [vm_compute; reflexivity|].
  split; [do 2 eexists; split; [vm_compute; reflexivity|]; split; [vm_compute; reflexivity|]; split; [vm_compute; reflexivity|]; vm_compute; repeat split|].
  split; [exists []; split; [vm_compute; reflexivity|]; intros (b & m & ts & [])|].
  split; [split; [repeat constructor; vm_compute; discriminate|vm_compute; discriminate]|].
  split; [split; [repeat constructor; vm_compute; discriminate|vm_compute; discriminate]|].
  split; [vm_compute; discriminate|]. split; [vm_compute; discriminate|]. split; [intros _; reflexivity|].
  split; [exists [], (ex_get_call :: ex_ahead), (Some HmacSha), None, (Some AesCfb128), None, ex_secret, false, None; split; [reflexivity|]; split; [vm_compute; reflexivity|exact SC]|].
  split; [destruct SC as (_ & S1 & _ & _ & S2 & _); split; intros _ Z; [rewrite S1 in Z|rewrite S2 in Z]; discriminate Z|].
  split; [split; [cbn; lia|repeat constructor]|]. split; [now apply ex_running_knows|].
  split; [vm_compute; reflexivity|]. split; [vm_compute; reflexivity|]. split; [vm_compute; reflexivity|].
  eexists. eexists. eexists. split; [vm_compute; reflexivity|].
  split; [apply ex_in_sequence; [vm_compute; reflexivity|vm_compute; reflexivity|vm_compute; reflexivity]|].
  split; [vm_compute; reflexivity|]. split; [reflexivity|]. split.
  { split; [|exact ex_vbs_ok]. unfold pdu_fields_ok, int32. cbn. repeat split; vm_compute; discriminate. }
  split; [eexists; split; vm_compute; reflexivity|].
  eexists. eexists. eexists. split; [vm_compute; reflexivity|]. vm_compute. repeat constructor.
Qed.
