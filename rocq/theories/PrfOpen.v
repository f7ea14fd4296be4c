(** PrfOpen.v -- the v3 manager: the messages of a request stay open, with their
    IDs, until the request is closed. *)
From Verif Require Export PrfUse2 PrfMgr3e.

(** Logs without transmissions and without outcomes. *)
Definition dull (y : log3) : bool := match y with WSent _ _ _ _ _ _ _ _ _ | WOutcome _ _ => false | _ => true end.

Section Open.
  Context (C : crypto) (R : Z) (rnd : nat -> nat -> Z) (clk : nat -> Z) (fmt : v3msg -> bool) (ns : pystr).
  Context (ev : option event3).
  (** [u'] is [u] after registrations in the manager's namespace. *)
  Definition regs (u u' : usm) : Prop :=
    forall P : usm -> Prop, (forall v op, reg_op ns op -> P v -> P (mkUsm (us_time v) (fst (user_step C (rnd 2) (us_users v) op)))) -> P u -> P u'.
  Lemma regs_refl u : regs u u.
  Proof. intros P _ H. exact H. Qed.
  Lemma switch_regs s old new s' x : switch_engine C rnd ns s old new = (s', x) -> regs (v_usm s) (v_usm s') /\ exists u, s' = set_users s u.
  Proof.
    unfold switch_engine.
    assert (S0 : exists u, s = set_users s u) by (exists (us_users (v_usm s)); destruct s as [[? ?]]; reflexivity).
    assert (REL : forall s1, regs (v_usm s) (v_usm s1) -> (exists u, s1 = set_users s u) ->
      match old with Some e => unregisterRemoteEngine ns s1 e | None => (s1, Ok tt) end = (s', x) -> regs (v_usm s) (v_usm s') /\ exists u, s' = set_users s u).
    { intros s1 G1 [u E1]. destruct old as [e|]; [|intros H; injection H as <- _; eauto]. unfold unregisterRemoteEngine.
      destruct (ur_release _ _ _) as [u2 y] eqn:E. intros H. injection H as <- _. split; [|exists u2; now rewrite E1].
      intros P PR PU. cbn [v_usm set_users set_io]. replace u2 with (fst (user_step C (rnd 2) (us_users (v_usm s1)) (OpRelease e ns))) by (cbn [user_step]; now rewrite E).
      apply PR; [exists e; auto|]. now apply G1. }
    destruct new as [e|]; [|apply REL; [apply regs_refl|exact S0]]. unfold registerRemoteEngine. destruct (ur_assign _ _ _ _ _) as [u2 y] eqn:E.
    assert (G2 : regs (v_usm s) (v_usm (set_users s u2))).
    { intros P PR PU. cbn [v_usm set_users set_io]. replace u2 with (fst (user_step C (rnd 2) (us_users (v_usm s)) (OpRegister e ns))) by (cbn [user_step]; now rewrite E).
      apply PR; [exists e; auto|exact PU]. }
    destruct (bind y _); [apply REL; eauto|intros H; injection H as <- _; eauto].
  Qed.
  Lemma request_engine_regs s r new s' x : request_engine C rnd ns s r new = (s', x) ->
    regs (v_usm s) (v_usm s') /\ v_msgs s' = v_msgs s /\ v_proc s' = v_proc s.
  Proof.
    unfold request_engine. destruct (opt_eqb _ _ _); [intros H; injection H as <- _; split; [apply regs_refl|auto]|].
    destruct (switch_engine _ _ _ _ _ _) as [s1 y] eqn:E. apply switch_regs in E as [G [u ->]].
    destruct y; intros H; injection H as <- _; (split; [exact G|split; reflexivity]).
  Qed.
  Lemma manager_engine_pool s new s' x : manager_engine C rnd ns s new = (s', x) -> v_msgs s' = v_msgs s /\ v_proc s' = v_proc s.
  Proof.
    unfold manager_engine. destruct (opt_eqb _ _ _); [intros H; injection H as <- _; auto|].
    destruct (switch_engine _ _ _ _ _ _) as [s1 y] eqn:E. apply switch_regs in E as [G [u ->]].
    destruct y; intros H; injection H as <- _; auto.
  Qed.

  Inductive cstep (s s' : mgr3) (l : list log3) : Prop :=
  | CQuiet : v_msgs s' = v_msgs s -> v_proc s' = v_proc s -> (forall y, In y l -> dull y = true) -> cstep s s' l
  | CClose r c m : close_messages r (p3_cache (v_proc s)) (v_msgs s) = (c, m) -> v_msgs s' = m -> v_proc s' = with_cache3 (v_proc s) c ->
      (exists o, l = [WOutcome r o]) \/ (l = [] /\ q_alive (get3 (v_reqs s') r) = false) -> cstep s s' l
  | CSend s1 s2 r w now p e user level x : transmit C R rnd clk s1 r w now p e user level = (s2, l, x) ->
      v_msgs s1 = v_msgs s -> v_proc s1 = v_proc s -> regs (v_usm s) (v_usm s1) ->
      v_msgs s' = v_msgs s2 -> v_proc s' = v_proc s2 -> cstep s s' l
  | COther p e user level ts : ev = Some (VOther p e user level) ->
      let o := fst (v3_prepareOutgoing C R (rnd 0) (v_usm s) (v_proc s) p (length (v_msgs s)) e user level (Some USM) [] ts) in
      v_msgs s' = v_msgs s ++ [mkMsg3 0 0 (s3_callback o) false false] -> v_proc s' = s3_proc o -> l = [] -> cstep s s' l
  | CDone h id : ev = Some (VOtherDone h) -> g_own (getm (v_msgs s) h) = false -> g_cb (getm (v_msgs s) h) = Some id ->
      v_msgs s' = put (v_msgs s) h no_msg3 -> v_proc s' = with_cache3 (v_proc s) (uncache (p3_cache (v_proc s)) id) -> l = [] -> cstep s s' l.
  Definition pool (a b : mgr3) : Prop := v_msgs b = v_msgs a /\ v_proc b = v_proc a.
  Lemma cstep_after s s1 s' l : cstep s s1 l -> pool s1 s' -> v_reqs s' = v_reqs s1 -> cstep s s' l.
  Proof.
    intros H [M P] Q. destruct H as [A B D|r c m A B D E|s2 s3 r w now p e user level x A B D E F G|p e user level ts XE o A B D|h id XE A B D E F].
    - apply CQuiet; [congruence|congruence|exact D].
    - apply (CClose s s' l r c m); [exact A|congruence|congruence|]. now rewrite Q.
    - apply (CSend s s' l s2 s3 r w now p e user level x); auto; congruence.
    - apply (COther s s' l p e user level ts); [exact XE|now rewrite M|now rewrite P|exact D].
    - apply (CDone s s' l h id); auto; congruence.
  Qed.
  Lemma cstep_before s0 s s' l : pool s0 s -> v_usm s = v_usm s0 -> cstep s s' l -> cstep s0 s' l.
  Proof.
    intros [M P] U H. destruct H as [A B D|r c m A B D E|s2 s3 r w now p e user level x A B D E F G|p e user level ts XE o A B D|h id XE A B D E F].
    - apply CQuiet; [congruence|congruence|exact D].
    - rewrite M, P in A. apply (CClose s0 s' l r c m); [exact A|exact B|congruence|exact E].
    - rewrite U in E. apply (CSend s0 s' l s2 s3 r w now p e user level x); auto; congruence.
    - subst o. rewrite M, P, U in A. rewrite M, P, U in B. apply (COther s0 s' l p e user level ts); auto.
    - rewrite M in A, B, D. rewrite P in E. apply (CDone s0 s' l h id); auto.
  Qed.
  Lemma cstep_quiet s s' : pool s s' -> cstep s s' [].
  Proof. intros [A B]. apply CQuiet; [exact A|exact B|]. intros y []. Qed.

  Lemma reallySend_c s r w now eng s' l x : reallySend3 C R rnd clk ns s r w now eng = (s', l, x) -> cstep s s' l.
  Proof.
    unfold reallySend3. destruct eng as [e|].
    - destruct (request_engine _ _ _ _ _ _) as [s1 y] eqn:E. apply request_engine_regs in E as (G & M & P).
      destruct y; intros H.
      + now apply (CSend s s' l s1 s' r w now _ _ _ _ x H).
      + injection H as <- <- _. apply CQuiet; [exact M|exact P|]. intros y [<-|[]]. reflexivity.
    - destruct (q_engine _) as [e|]; intros H; (apply (CSend s s' l s s' r w now _ _ _ _ x H); [reflexivity|reflexivity|apply regs_refl|reflexivity|reflexivity]).
  Qed.
  Lemma send_c s r w eng s' l x : send3 C R rnd clk ns s r w eng = (s', l, x) -> cstep s s' l.
  Proof. unfold send3. cbn [tick3]. intros H. apply reallySend_c in H. eapply cstep_before; [| |exact H]; [split; reflexivity|reflexivity]. Qed.
  Lemma assign_pool s nx : pool s (assign_next s nx) /\ v_usm (assign_next s nx) = v_usm s /\ v_reqs (assign_next s nx) = v_reqs s.
  Proof. destruct nx; repeat split. Qed.
  Lemma update_pool s : pool s (updateState s) /\ v_reqs (updateState s) = v_reqs s.
  Proof. unfold updateState. destruct (v_next s); repeat split. Qed.
  Lemma push_pool s r : pool s (push3 s r) /\ v_reqs (push3 s r) = v_reqs s.
  Proof. destruct (push3_fields s r) as (A & B & D & _). repeat split; assumption. Qed.
  Lemma heapify_pool s : pool s (heapify3 s) /\ v_reqs (heapify3 s) = v_reqs s.
  Proof. destruct (heapify3_fields s) as (A & B & D & _). repeat split; assumption. Qed.
  Lemma pop_pool s s' : pop3 s = Some s' -> pool s s' /\ v_reqs s' = v_reqs s.
  Proof. unfold pop3. destruct (heappop _ _ _) as [[w h]|]; [|discriminate]. intros H. injection H as <-. repeat split. Qed.
  Lemma replace_pool s r s' : replace3 s r = Some s' -> pool s s' /\ v_reqs s' = v_reqs s.
  Proof. unfold replace3. destruct (heapreplace _ _ _ _) as [[w h]|]; [|discriminate]. intros H. injection H as <-. repeat split. Qed.
  Lemma request_locked_c s r w s' l x : request_locked C R rnd clk ns s r w = (s', l, x) -> cstep s s' l.
  Proof.
    unfold request_locked. destruct (onRequest _ _) as [nx now]. destruct (assign_pool s nx) as (AP & AU & AR).
    destruct now; [|intros H; injection H as <- <- _; now apply cstep_quiet].
    destruct (send3 _ _ _ _ _ _ _ _ _) as [[s1 l1] y] eqn:E. apply send_c, (cstep_before s _ _ _ AP AU) in E.
    destruct y; intros H; injection H as <- <- _; [|exact E].
    apply (cstep_after _ s1); [exact E| |].
    - destruct (update_pool (push3 s1 r)) as [[U1 U2] _], (push_pool s1 r) as [[P1 P2] _]. split; congruence.
    - destruct (update_pool (push3 s1 r)) as [_ U], (push_pool s1 r) as [_ P]. congruence.
  Qed.
  Lemma refresh_pop_c s r s' new l : refresh_pop s r = (s', new, l) -> pool s s' /\ l = [].
  Proof.
    unfold refresh_pop. destruct (pop3 s) as [s1|] eqn:E; intros H; injection H as <- _ <-; (split; [|reflexivity]); [now apply pop_pool|split; reflexivity].
  Qed.
  Lemma refresh_c s r s' new l : refresh3 C R rnd clk ns s r = (s', new, l) -> cstep s s' l.
  Proof.
    unfold refresh3. destruct (v_heap s) as [|root rest]; [intros H; injection H as <- _ <-; apply cstep_quiet; split; reflexivity|].
    assert (POP : forall s0, pool s s0 -> refresh_pop s0 r = (s', new, l) -> cstep s s' l).
    { intros s0 [A B] H. apply refresh_pop_c in H as [[D E] ->]. apply cstep_quiet. split; congruence. }
    destruct (negb _); [apply POP; split; reflexivity|]. destruct (q_event _); [apply POP; split; reflexivity|]. cbn [tick3].
    destruct (sched_refresh _ _) as [[|wt|c]|ex].
    - apply POP. split; reflexivity.
    - intros H; injection H as <- _ <-. apply CQuiet; [reflexivity|reflexivity|]. intros y [<-|[]]. reflexivity.
    - destruct (reallySend3 _ _ _ _ _ _ _ _ _ _) as [[s1 l1] y] eqn:E. apply reallySend_c in E. apply (cstep_before s) in E; [|split; reflexivity|reflexivity].
      destruct y; [|intros H; injection H as <- _ <-; exact E].
      destruct (replace3 s1 root) eqn:RP; intros H; injection H as <- _ <-; [|exact E]. apply replace_pool in RP as [RP RQ]. now apply (cstep_after _ s1).
    - intros H; injection H as <- _ <-. apply cstep_quiet. split; reflexivity.
  Qed.
  Lemma poke_c s r unsent active s' new l : poke3 C R rnd clk ns s r unsent active = (s', new, l) -> cstep s s' l.
  Proof.
    unfold poke3. destruct unsent as [|q rest].
    { destruct active; intros H; injection H as <- _ <-; (apply CQuiet; [reflexivity|reflexivity|]); [intros y []|intros y [<-|[]]; reflexivity]. }
    destruct (q_alive _); [|intros H; injection H as <- _ <-; apply cstep_quiet; split; reflexivity].
    destruct (request_locked _ _ _ _ _ _ _ _) as [[s1 l1] y] eqn:E. apply request_locked_c in E.
    destruct y as [[]|]; intros H; injection H as <- _ <-; [exact E| |exact E]. apply (cstep_after _ s1); [exact E|split; reflexivity|reflexivity].
  Qed.
  Lemma close_c s r s' x : close3 C rnd ns s r = (s', x) -> exists c m,
    close_messages r (p3_cache (v_proc s)) (v_msgs s) = (c, m) /\ v_msgs s' = m /\ v_proc s' = with_cache3 (v_proc s) c.
  Proof.
    unfold close3. destruct (close_messages _ _ _) as [c m] eqn:E. intros H. apply request_engine_regs in H as (_ & M & P). exists c, m. rewrite M, P. auto.
  Qed.
  Lemma task_c s t s' new l : task3_step C R rnd clk ns s t = (s', new, l) -> cstep s s' l.
  Proof.
    assert (Q : forall s1, pool s s1 -> cstep s s1 []) by apply cstep_quiet.
    destruct t; cbn [task3_step]; cbv zeta; cbn [tick3].
    - destruct (locked3 s); [intros H; injection H as <- _ <-; apply Q; split; reflexivity|].
      destruct (request_locked _ _ _ _ _ _ _ _) as [[s1 l1] y] eqn:E. apply request_locked_c in E.
      destruct y as [[]|]; intros H; injection H as <- _ <-; [exact E| |exact E]. apply (cstep_after _ s1); [exact E|split; reflexivity|reflexivity].
    - destruct (sched_expired _ _); intros H; injection H as <- _ <-; apply Q; split; reflexivity.
    - apply refresh_c.
    - destruct (locked3 s); intros H; injection H as <- _ <-; apply Q; [split; reflexivity|].
      destruct (assign_pool s (onInactive (v_state s))) as ([A B] & _), (update_pool (assign_next s (onInactive (v_state s)))) as [[A' B'] _].
      split; cbn; congruence.
    - apply poke_c.
    - destruct (q_event _); intros H; injection H as <- _ <-; apply Q; split; reflexivity.
    - intros H; injection H as <- _ <-; apply Q; split; reflexivity.
    - destruct (close3 _ _ _ _ _) as [s1 y] eqn:E. apply close_c in E as (c & m & E1 & E2 & E3).
      destruct y; intros H; injection H as <- _ <-; apply (CClose _ _ _ r c m); eauto.
  Qed.
  Lemma listener_pool s li : pool s (set_listener s li) /\ v_reqs (set_listener s li) = v_reqs s.
  Proof. repeat split. Qed.
  Lemma push_step_c s h m s' l : push_step fmt s h m = (s', l) -> cstep s s' l.
  Proof.
    intros H. assert (X : pool s s' /\ forall y, In y l -> dull y = true).
    { revert H. unfold push_step. cbv zeta.
      repeat match goal with |- context [match ?x with _ => _ end] => destruct x end;
        intros H; injection H as <- <-; (split; [split; reflexivity|]); intros y D; cbn [In] in D; repeat (destruct D as [<-|D]; [reflexivity|]); destruct D. }
    destruct X as [[A B] D]. now apply CQuiet.
  Qed.
  Lemma listen_c s s' l : listen3 C R rnd clk fmt ns s = (s', l) -> cstep s s' l.
  Proof.
    assert (Q : forall s1, pool s s1 -> cstep s s1 []) by apply cstep_quiet.
    unfold listen3. destruct (v_listener s) as [|h m|r e w|r e w|r|r m|r m].
    - intros H; injection H as <- <-. apply Q. split; reflexivity.
    - apply push_step_c.
    - destruct (locked3 s); [intros H; injection H as <- <-; apply Q; split; reflexivity|].
      destruct (onReport _ _ _) as [[nx sendAll]|ex]; [|intros H; injection H as <- <-; apply Q; split; reflexivity].
      destruct (send3 _ _ _ _ _ _ _ _ _) as [[s1 l1] y] eqn:E. destruct (assign_pool s nx) as (AP & AU & AR). apply send_c, (cstep_before s _ _ _ AP AU) in E.
      destruct (heapify_pool s1) as [[H1 H2] H3], (update_pool (heapify3 s1)) as [[U1 U2] U3].
      destruct y; [|intros H; injection H as <- <-; apply (cstep_after _ s1); [exact E|split; reflexivity|reflexivity]].
      destruct sendAll; intros H; injection H as <- <-; apply (cstep_after _ s1); [exact E|split; cbn [v_msgs v_proc set_listener set_threads]; congruence|cbn [v_reqs set_listener set_threads]; congruence|exact E|split; cbn [v_msgs v_proc set_listener set_threads]; congruence|cbn [v_reqs set_listener set_threads]; congruence].
    - destruct (v_unsent s) as [|q rest]; [intros H; injection H as <- <-; apply Q; split; reflexivity|].
      destruct (q_alive _); [|intros H; injection H as <- <-; apply Q; split; reflexivity].
      destruct (send3 _ _ _ _ _ _ _ _ _) as [[s1 l1] y] eqn:E. apply send_c in E. apply (cstep_before s) in E; [|split; reflexivity|reflexivity].
      destruct (push_pool s1 q) as [P1 P2].
      destruct y; intros H; injection H as <- <-; apply (cstep_after _ s1); [exact E|exact P1|exact P2|exact E|split; reflexivity|reflexivity].
    - intros H; injection H as <- <-. apply Q. split; reflexivity.
    - destruct (locked3 s); [intros H; injection H as <- <-; apply Q; split; reflexivity|].
      destruct (v3_engineID m) as [e|]; [|intros H; injection H as <- <-; apply Q; split; reflexivity].
      destruct (onResponse _ _ _ _) as [[nx []]|ex].
      + destruct (manager_engine _ _ _ _ _) as [s1 y] eqn:E. apply manager_engine_pool in E as [E1 E2]. destruct (assign_pool s nx) as ([A1 A2] & _).
        destruct (update_pool s1) as [[U1 U2] _].
        destruct y; intros H; injection H as <- <-; apply Q; split; cbn [v_msgs v_proc set_listener set_threads]; congruence.
      + intros H; injection H as <- <-. apply Q. destruct (assign_pool s nx) as ([A1 A2] & _). split; cbn [v_msgs v_proc set_listener set_threads]; congruence.
      + intros H; injection H as <- <-. apply Q. split; reflexivity.
    - intros H; injection H as <- <-. apply CQuiet; [destruct (q_event _); reflexivity|destruct (q_event _); reflexivity|]. intros y [<-|[]]. reflexivity.
  Qed.
  Lemma step_c s x s' l : ev = Some x -> m3_step C R rnd clk fmt ns s x = (s', l) -> cstep s s' l.
  Proof.
    intros EV.
    destruct x as [p user level timeout period|r|n|d| |r|op|p e user level|h]; cbn [m3_step].
    - destruct (generateRequestID rnd s) as [id s1] eqn:E. cbn [tick3]. intros H; injection H as <- <-. apply cstep_quiet.
      unfold generateRequestID in E. destruct (numgen_next (v_gen s)) as [i g]. destruct (i =? 0); [destruct (numgen_next _) as [j g']|]; injection E as <- <-; split; reflexivity.
    - destruct (_ && _); intros H; injection H as <- <-; apply cstep_quiet; split; reflexivity.
    - destruct (nth_error _ _) as [t|]; [|intros H; injection H as <- <-; apply cstep_quiet; split; reflexivity].
      destruct (task3_step _ _ _ _ _ _ _) as [[s1 new] l1] eqn:E. apply task_c in E. intros H; injection H as <- <-. apply (cstep_after _ s1); [exact E|split; reflexivity|reflexivity].
    - destruct (v_listener s); cbn [tick3]; try (intros H; injection H as <- <-; apply cstep_quiet; split; reflexivity).
      destruct (v3_prepareDataElements _ _ _ _ _ _ _) as [u [[m h]|e]]; intros H; injection H as <- <-; apply cstep_quiet; split; reflexivity.
    - apply listen_c.
    - cbv zeta. destruct (negb (q_alive (get3 (v_reqs s) r))) eqn:A; cbn [orb]; [intros H; injection H as <- <-; apply cstep_quiet; split; reflexivity|].
      destruct (_ || _); [intros H; injection H as <- <-; apply cstep_quiet; split; reflexivity|].
      destruct (close3 _ _ _ _ _) as [s1 y] eqn:E. pose proof E as E0. apply close_c in E as (c & m & E1 & E2 & E3). cbn [fst]. intros H; injection H as <- <-.
      apply (CClose _ _ _ r c m); [exact E1|exact E2|exact E3|]. right. split; [reflexivity|].
      apply close3_spec in E0 as (u & p & q' & m' & -> & Q & _). cbn [v_reqs set_objects set_io].
      assert (LT : (r < length (v_reqs s))%nat) by (apply get3_alive_lt; now destruct (q_alive _)).
      rewrite get3_put_same by (rewrite ?put_length; cbn; rewrite put_length; exact LT).
      cbn [v_reqs set_req3 set_objects] in Q. rewrite get3_put_same in Q by exact LT. destruct Q as [-> | ->]; reflexivity.
    - intros H; injection H as <- <-. apply cstep_quiet. split; reflexivity.
    - cbn [tick3 v_usm v_proc v_msgs set_io]. intros H; injection H as <- <-. apply (COther _ _ _ p e user level (clk (v_clock s))); [exact EV|reflexivity..].
    - destruct (g_own _) eqn:O; [intros H; injection H as <- <-; apply cstep_quiet; split; reflexivity|].
      destruct (g_cb _) as [id|] eqn:B; intros H; injection H as <- <-; [|apply cstep_quiet; split; reflexivity].
      apply (CDone _ _ _ h id); auto.
  Qed.
  (** ** The IDs of open messages *)
  Context (size : Z) (H0 : draws_ok gen_v3 (rnd 0)).
  Lemma transmit_made s r w now p e user level s' l x : gen_at gen_v3 (ca_gen (p3_cache (v_proc s))) -> p3_maxSize (v_proc s) = size ->
    transmit C R rnd clk s r w now p e user level = (s', l, x) ->
    exists sy cb, v_msgs s' = v_msgs s ++ [mkMsg3 r sy cb true true] /\
      match cb with
      | None => ca_out (p3_cache (v_proc s')) = ca_out (p3_cache (v_proc s))
      | Some id => dict_get Z.eqb (ca_out (p3_cache (v_proc s))) id = None /\
          ca_out (p3_cache (v_proc s')) = dict_set Z.eqb (ca_out (p3_cache (v_proc s))) id (mkE3 e [] (length (v_msgs s)) user USM level)
      end /\
      forall y, In y l -> match y with
        | WSent r' h' w' now' p' e' user' level' wire => r' = r /\ h' = length (v_msgs s) /\ p' = p /\ e' = e /\ user' = user /\ level' = level /\
            (is_Confirmed (pdu_cls p) = true -> exists id, cb = Some id /\ 0 <= id <= 2147483647 /\
              snd (usm_prepareOutgoing C R (v_usm s) (outgoing size id level p e) e user (clk (v_clock s))) = Ok wire)
        | WOutcome _ _ => False
        | _ => True
        end.
  Proof.
    intros GC GS. unfold transmit. cbn [tick3 v_usm v_proc set_io]. destruct (v3_prepareOutgoing _ _ _ _ _ _ _ _ _ _ _ _ _) as [o y] eqn:E.
    set (sy := q_sync _). intros H.
    assert (S' : v_msgs s' = v_msgs s ++ [mkMsg3 r sy (s3_callback o) true true] /\ v_proc s' = s3_proc o /\
      (forall z, In z l -> match z with WSent r' h' w' now' p' e' user' level' wire => r' = r /\ h' = length (v_msgs s) /\ p' = p /\ e' = e /\ user' = user /\ level' = level /\ y = Ok wire | WOutcome _ _ => False | _ => True end)).
    { destruct y as [wire|ex]; [destruct (refused rnd _)|]; injection H as <- <- _; (split; [reflexivity|split; [reflexivity|]]); intros z [<-|[]]; [exact Logic.I|repeat split|exact Logic.I]. }
    clear H. destruct S' as (SM & SP & SL). exists sy, (s3_callback o). split; [exact SM|]. rewrite SP. clear SM SP sy.
    unfold v3_prepareOutgoing in E. destruct (has_module (v_proc s) USM) eqn:HM; cbn [negb] in E.
    2:{ injection E as <- <-. cbn [s3_callback s3_proc]. split; [reflexivity|]. intros z I. apply SL in I. destruct z; auto. destruct I as (_ & _ & _ & _ & _ & _ & I). discriminate. }
    destruct (is_Confirmed (pdu_cls p)) eqn:CF.
    - destruct (cache _ _ _ _) as [c [id|ex]] eqn:CE.
      + apply (loop_ok gen_v3 (rnd 0) ltac:(cbn; lia) H0) in CE as (_ & RG & NG & CO & _); [|exact GC].
        cbn [p3_maxSize with_cache3] in E. rewrite GS in E. replace (is_Confirmed (pdu_cls p)) with true in E by auto.
        destruct (usm_prepareOutgoing _ _ _ _ _ _ _) as [u wr] eqn:UE. injection E as <- <-. cbn [s3_callback s3_proc with_cache3 p3_cache].
        split; [split; [exact NG|exact CO]|]. intros z I. apply SL in I. destruct z as [r' h' w' now' p' e' user' level' wire| | | | | |]; try exact I.
        destruct I as (I1 & I2 & I3 & I4 & I5 & I6 & I7). split; [exact I1|]. split; [exact I2|]. split; [exact I3|]. split; [exact I4|]. split; [exact I5|]. split; [exact I6|].
        intros _. exists id. split; [reflexivity|]. split; [unfold id_in_range in RG; cbn in RG; lia|]. unfold outgoing. rewrite CF, UE. exact I7.
      + injection E as <- <-. cbn [s3_callback s3_proc with_cache3 p3_cache].
        split; [exact (cache_loop_out _ _ _ _ _ _ _ CE)|]. intros z I. apply SL in I. destruct z; auto. destruct I as (_ & _ & _ & _ & _ & _ & I). discriminate.
    - destruct (numgen_next _) as [id g]. destruct (usm_prepareOutgoing _ _ _ _ _ _ _) as [u wr]. injection E as <- <-. cbn [s3_callback s3_proc with_cache3 p3_cache ca_out].
      split; [reflexivity|]. intros z I. apply SL in I. destruct z; auto. destruct I as (I1 & I2 & I3 & I4 & I5 & I6 & I7). repeat (split; [assumption|]). intros; discriminate.
  Qed.
  Lemma outgoing_made u pr p h e user level ts : gen_at gen_v3 (ca_gen (p3_cache pr)) ->
    let o := fst (v3_prepareOutgoing C R (rnd 0) u pr p h e user level (Some USM) [] ts) in
    match s3_callback o with
    | None => ca_out (p3_cache (s3_proc o)) = ca_out (p3_cache pr)
    | Some id => dict_get Z.eqb (ca_out (p3_cache pr)) id = None /\
        ca_out (p3_cache (s3_proc o)) = dict_set Z.eqb (ca_out (p3_cache pr)) id (mkE3 e [] h user USM level)
    end.
  Proof.
    intros GC. cbv zeta. destruct (v3_prepareOutgoing _ _ _ _ _ _ _ _ _ _ _ _ _) as [o y] eqn:E. cbn [fst].
    unfold v3_prepareOutgoing in E. destruct (has_module pr USM) eqn:HM; cbn [negb] in E; [|injection E as <- <-; reflexivity].
    destruct (is_Confirmed (pdu_cls p)) eqn:CF.
    - destruct (cache _ _ _ _) as [c [id|ex]] eqn:CE.
      + apply (loop_ok gen_v3 (rnd 0) ltac:(cbn; lia) H0) in CE as (_ & RG & NG & CO & _); [|exact GC].
        destruct (usm_prepareOutgoing _ _ _ _ _ _ _) as [u1 wr] eqn:UE. injection E as <- <-. cbn [s3_callback s3_proc with_cache3 p3_cache]. auto.
      + injection E as <- <-. cbn [s3_callback s3_proc with_cache3 p3_cache]. exact (cache_loop_out _ _ _ _ _ _ _ CE).
    - destruct (numgen_next _) as [id g]. destruct (usm_prepareOutgoing _ _ _ _ _ _ _) as [u1 wr]. injection E as <- <-. reflexivity.
  Qed.
  Lemma closed_closed r l : forall c c' l' h, close_messages r c l = (c', l') -> g_open (getm l h) = false -> getm l' h = getm l h.
  Proof.
    induction l as [|g l IH]; intros c c' l' h; cbn [close_messages]; [intros H; injection H as <- <-; reflexivity|].
    destruct (Nat.eqb (g_req g) r && g_open g) eqn:B; destruct (close_messages r _ l) as [c1 l1] eqn:E; intros H; injection H as <- <-; destruct h as [|h].
    - intros O. apply andb_true_iff in B as [_ B]. change (g_open g = false) in O. congruence.
    - apply (IH _ _ _ h E).
    - reflexivity.
    - apply (IH _ _ _ h E).
  Qed.
  Lemma closed_own r l : forall c c' l', close_messages r c l = (c', l') -> forall h, g_own (getm l' h) = g_own (getm l h).
  Proof.
    induction l as [|g l IH]; intros c c' l'; cbn [close_messages]; [intros H; injection H as <- <-; reflexivity|].
    destruct (Nat.eqb (g_req g) r && g_open g) eqn:B; destruct (close_messages r _ l) as [c1 l1] eqn:E; intros H; injection H as <- <-; intros [|h]; try reflexivity; apply (IH _ _ _ E).
  Qed.
  Lemma closed_messages r l : forall c c' l', close_messages r c l = (c', l') ->
    length l' = length l /\
    (forall h, g_req (getm l' h) = g_req (getm l h)) /\
    (forall h, g_req (getm l h) <> r -> getm l' h = getm l h) /\
    (forall h, g_open (getm l' h) = true -> getm l' h = getm l h /\ g_req (getm l h) <> r) /\
    (forall id, (forall h, (h < length l)%nat -> g_req (getm l h) = r -> g_open (getm l h) = true -> g_cb (getm l h) <> Some id) ->
       dict_get Z.eqb (ca_out c') id = dict_get Z.eqb (ca_out c) id).
  Proof.
    induction l as [|g l IH]; intros c c' l'; cbn [close_messages]; [intros H; injection H as <- <-; split; [reflexivity|]; split; [reflexivity|]; split; [reflexivity|]; split; [|reflexivity]; intros [|h]; discriminate|].
    destruct (Nat.eqb (g_req g) r && g_open g) eqn:B.
    - destruct (close_messages r _ l) as [c1 l1] eqn:E. apply IH in E as (E1 & E2 & E3 & E4 & E5). intros H. injection H as <- <-.
      apply andb_true_iff in B as [B1 B2]. apply Nat.eqb_eq in B1.
      split; [cbn; now rewrite E1|]. split; [intros [|h]; [reflexivity|apply E2]|].
      split; [intros [|h] N; [destruct N; exact B1|now apply E3]|]. split; [intros [|h] O; [discriminate|now apply E4]|].
      intros id N. rewrite E5.
      + destruct (g_cb g) as [i|] eqn:CB; [|reflexivity]. unfold uncache. cbn [ca_out]. apply zget_del_other. intros ->. apply (N 0%nat); [cbn; lia|exact B1|exact B2|exact CB].
      + intros h LT Q O. apply (N (Datatypes.S h)); [cbn; lia|exact Q|exact O].
    - destruct (close_messages r c l) as [c1 l1] eqn:E. apply IH in E as (E1 & E2 & E3 & E4 & E5). intros H. injection H as <- <-.
      split; [cbn; now rewrite E1|]. split; [intros [|h]; [reflexivity|apply E2]|].
      split; [intros [|h] N; [reflexivity|now apply E3]|].
      split; [intros [|h] O; [split; [reflexivity|]; intros Q; change (g_open g = true) in O; change (g_req g = r) in Q; rewrite O, Q, Nat.eqb_refl in B; discriminate|now apply E4]|].
      intros id N. apply E5. intros h LT Q O. apply (N (Datatypes.S h)); [cbn; lia|exact Q|exact O].
  Qed.
End Open.
