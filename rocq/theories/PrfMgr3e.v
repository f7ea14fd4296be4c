(** PrfMgr3e.v -- the SNMPv3 manager: the outcome of wait(). *)
From Verif Require Export PrfMgr3d.
From Coq Require Import Permutation.

Lemma end3_verdict l r q : found l r q -> end3 q = verdict (q_pdu q) r l.
Proof.
  unfold found, verdict, end3, answer3. destruct (find (decisive r) (rev l)) as [y|].
  - destruct y; try contradiction.
    + intros (-> & -> & ->). reflexivity.
    + intros (-> & ->). reflexivity.
  - intros (-> & _ & ->). destruct (find (hearsay r) (rev l)) as [y|] eqn:F; [|reflexivity].
    apply find_some in F as [_ F]. destruct y; try discriminate. reflexivity.
Qed.

Section Outcomes.
  Context (C : crypto) (R : Z) (rnd : nat -> nat -> Z) (clk : nat -> Z) (fmt : v3msg -> bool) (ns : pystr).
  Notation m3_run := (m3_run C R rnd clk fmt ns).
  Notation vstep := (vstep C R rnd clk ns).
  Notation tstep := (tstep C rnd clk ns).
  Notation lstep := (lstep clk).

  Lemma found_run u maxSize cfg s0 y evs s l : mgr3_new C rnd ns u maxSize cfg = (s0, y) -> m3_run s0 evs = (s, l) -> found_inv s l.
  Proof.
    intros H0 E. revert evs s l E. apply (history_ind C R rnd clk fmt ns s0 (fun _ s l => found_inv s l)); [eapply base_start; eauto| |].
    - apply start_fields in H0 as (_ & _ & _ & H4 & _). split; [intros y' []|]. rewrite H4. cbn. intros r L. lia.
    - intros evs s l x s' l' _ [B _] K ST. eapply found_step; eauto.
  Qed.

  (** ** Tasks *)
  Lemma sends_tasks s r w now eng s1 l x : sends s r w now eng s1 l x -> v_tasks s1 = v_tasks s.
  Proof. intros H. inversion H; reflexivity. Qed.
  Lemma assign_tasks s nx : v_tasks (assign_next s nx) = v_tasks s.
  Proof. destruct nx; reflexivity. Qed.
  Lemma update_tasks s : v_tasks (updateState s) = v_tasks s.
  Proof. unfold updateState. destruct (v_next s); reflexivity. Qed.
  Lemma lstep_tasks s s' l : lstep s s' l -> v_tasks s' = v_tasks s.
  Proof.
    intros H. inversion H; subst; try reflexivity.
    - apply sends_tasks in H3. cbn in *. now rewrite assign_tasks in H3.
    - apply sends_tasks in H3. cbn in H3. rewrite assign_tasks in H3. destruct b; cbn; rewrite ?update_tasks; unfold heapify3; destruct (heapify _ _ _); exact H3.
    - apply sends_tasks in H3. exact H3.
    - apply sends_tasks in H3. unfold push3. destruct (heappush _ _ _ _). exact H3.
    - cbn. apply assign_tasks.
    - cbn. rewrite update_tasks. cbn. apply assign_tasks.
    - destruct (q_event q); reflexivity.
  Qed.
  Lemma step_task s x s' l' t' : vstep s x s' l' -> In t' (v_tasks s') ->
    In t' (v_tasks s) \/ (exists r, t' = SSend r \/ t' = SLoop r) \/
    (exists t s1 new, In t (v_tasks s) /\ tstep s t s1 new l' /\ In t' new /\ v_reqs s' = v_reqs s1 /\ v_clock s' = v_clock s1).
  Proof.
    intros ST B. inversion ST; subst; auto.
    - cbn in B. apply in_app_or in B as [B|[<-|[]]]; [auto|right; left; eauto].
    - cbn in B. apply in_app_or in B as [B|[<-|[]]]; [auto|right; left; eauto].
    - cbn in B. apply in_app_or in B as [B|B]; [left; rewrite H; apply in_or_app; auto|]. apply in_app_or in B as [B|B].
      + right. right. exists t, s1, new. split; [rewrite H; apply in_elt|]. auto.
      + left. rewrite H. apply in_or_app. right. now right.
    - left. apply lstep_tasks in H. congruence.
    - left. destruct H0 as (u & p & q & m & -> & _). exact B.
    - left. destruct H0 as (u & p & q & m & -> & _). exact B.
  Qed.
  Definition seen_expired (s : mgr3) (r : nat) : Prop :=
    exists i, (i < v_clock s)%nat /\ sc_expiration (q_sched (get3 (v_reqs s) r)) <= clk i.
  Lemma seen_evo s s' r : evo3 s s' -> (r < length (v_reqs s))%nat -> seen_expired s r -> seen_expired s' r.
  Proof. intros (E1 & _ & E3 & _) L (i & I1 & I2). exists i. split; [lia|]. destruct (E3 r L) as (_ & _ & _ & -> & _). exact I2. Qed.
  Definition concluded (s : mgr3) (l : list log3) (r : nat) (o : outcome3) : Prop :=
    (exists e, o = VRaised e /\ (e = ZeroDivisionError \/ exists q h w, In (WFailed q h w e) l)) \/
    (exists l1 l2, l = l1 ++ l2 /\ o = verdict (q_pdu (get3 (v_reqs s) r)) r l2 /\ (find (decisive r) (rev l2) = None -> seen_expired s r)).
  Record outcome_inv (s : mgr3) (l : list log3) : Prop := {
    o_end : forall r, In (SEnd r) (v_tasks s) -> q_event (get3 (v_reqs s) r) = true \/ seen_expired s r;
    o_close : forall r o, In (SClose r o) (v_tasks s) -> concluded s l r o;
    o_out : forall r o, In (WOutcome r o) l -> (r < length (v_reqs s))%nat /\ (concluded s l r o \/ o = VRaised SNMPLibraryBug \/ o = VRaised AssertionError)
  }.
  Lemma concluded_evo s s' l l' r o : evo3 s s' -> (r < length (v_reqs s))%nat -> concluded s l r o -> concluded s' (rev l' ++ l) r o.
  Proof.
    intros EV L [(e & -> & H)|(l1 & l2 & -> & -> & H)].
    - left. exists e. split; [auto|]. destruct H as [->|(q & h & w & H)]; [auto|]. right. exists q, h, w. apply in_log. auto.
    - right. exists (rev l' ++ l1), l2. rewrite app_assoc. split; [auto|]. split; [|intros F; eapply seen_evo; eauto].
      destruct EV as (_ & _ & E & _). now destruct (E r L) as (-> & _).
  Qed.
  Lemma sends_raise s r w now eng s1 l e : sends s r w now eng s1 l (Raise e) -> exists h, In (WFailed r h w e) l.
  Proof.
    intros H. inversion H; subst; [exists None; now left|].
    match goal with X : _ \/ _ |- _ => destruct X as [(? & X & _)|(ex & X & ->)]; [discriminate|injection X as ->] end. exists (Some h). now left.
  Qed.
  Lemma asks_raise s r w s1 l e : asks clk s r w s1 l (Raise e) -> exists h, In (WFailed r h w e) l.
  Proof. intros H. inversion H; subst. eapply sends_raise; eauto. Qed.
  Lemma close3_raise s r s1 e : close3 C rnd ns s r = (s1, Raise e) -> e = SNMPLibraryBug \/ e = AssertionError.
  Proof.
    unfold close3. destruct (close_messages _ _ _) as [c l0]. unfold request_engine. cbv zeta.
    destruct (opt_eqb _ _ _); [discriminate|]. unfold switch_engine. destruct (q_engine _) as [old|].
    - unfold unregisterRemoteEngine. destruct (ur_release _ _ _) as [u [b|x]] eqn:E; cbn [bind]; [discriminate|]. intros H. injection H as _ ->.
      unfold ur_release in E. destruct (dict_get _ _ _); [|injection E as _ <-; auto]. unfold re_release in E. destruct (zlist_eqb _ _); [destruct (_ <=? 0)|]; [injection E as _ <-; auto| |]; destruct (_ =? 0); discriminate.
    - discriminate.
  Qed.
  Lemma log_outcome s x s' l' r o : vstep s x s' l' -> In (WOutcome r o) l' ->
    exists o', In (SClose r o') (v_tasks s) /\ (o = o' \/ o = VRaised SNMPLibraryBug \/ o = VRaised AssertionError).
  Proof.
    intros ST B.
    assert (S : forall s r0 w now eng s1 l x, sends s r0 w now eng s1 l x -> ~ In (WOutcome r o) l).
    { intros s2 r0 w now eng s3 l2 x0 X. inversion X; subst; [intros [|[]]; discriminate|].
      match goal with Y : _ \/ _ |- _ => destruct Y as [(? & _ & ->)|(? & _ & ->)] end; intros [|[]]; discriminate. }
    assert (A : forall r0 w s1 l y, asks clk s r0 w s1 l y -> ~ In (WOutcome r o) l).
    { intros r0 w s2 l2 y [nx O|nx s3 l3 e O X|nx s3 l3 O X]; [intros []| |]; eapply S; eauto. }
    inversion ST; subst; try solve [destruct B].
    - inversion H0; subst; try solve [destruct B as [B|[]]; discriminate]; try solve [destruct B]; try solve [exfalso; eapply A; eauto]; try solve [exfalso; eapply S; eauto].
      destruct B as [B|[]]. injection B as <- <-. exists o0. split; [rewrite H; apply in_elt|]. destruct x as [u|e]; [auto|]. apply close3_raise in H1 as [->| ->]; auto.
    - exfalso. inversion H; subst; try solve [destruct B]; try solve [destruct B as [B|[]]; discriminate]; try solve [eapply S; eauto].
      destruct B as [B|[B|[]]]; discriminate.
  Qed.
  Lemma outcome_step s x s' l l' : base s -> found_inv s l -> outcome_inv s l -> vstep s x s' l' -> outcome_inv s' (rev l' ++ l).
  Proof.
    intros [I W] [_ F] K ST. pose proof (step_spec _ _ _ _ _ _ _ _ _ I ST) as (I' & EV & _).
    assert (LT : forall t, In t (v_tasks s) -> (task_req3 t < length (v_reqs s))%nat) by (intros t T; apply get3_alive_lt, (i3_tasks s I t T)).
    constructor.
    - intros r B. destruct (step_task _ _ _ _ _ ST B) as [T|[(r0 & [T|T])|(t & s1 & new & T & TS & N & E1 & E2)]]; try discriminate.
      + destruct (o_end _ _ K r T) as [X|X]; [left|right; eapply seen_evo; eauto; exact (LT _ T)].
        destruct EV as (_ & _ & EV & _). destruct (EV r (LT _ T)) as (_ & _ & _ & _ & _ & _ & Q). auto.
      + rewrite E1. inversion TS; subst; repeat (destruct N as [N|N]; [try discriminate|]); try contradiction; try (injection N as ->); try (destruct H as (r0 & [X|X]); congruence).
        * right. exists (v_clock s). split; [rewrite E2; cbn; lia|]. rewrite E1. assumption.
        * left. assumption.
    - intros r o B. destruct (step_task _ _ _ _ _ ST B) as [T|[(r0 & [T|T])|(t & s1 & new & T & TS & N & E1 & E2)]]; try discriminate.
      + eapply concluded_evo; eauto. exact (LT _ T). apply (o_close _ _ K _ _ T).
      + assert (RAISE : forall e, o = VRaised e -> (e = ZeroDivisionError \/ exists q h w, In (WFailed q h w e) l') -> concluded s' (rev l' ++ l) r o).
        { intros e -> [->|(q & h & w & X)]; left; eexists; split; eauto. right. exists q, h, w. apply in_log. auto. }
        inversion TS; subst; repeat (destruct N as [N|N]; [try discriminate|]); try contradiction; try (destruct H as (r0 & [X|X]); congruence); injection N; intros; subst.
        * eapply RAISE; eauto.
        * match goal with X : sends _ _ _ _ _ _ _ _ |- _ => apply sends_raise in X as [h X] end. eapply RAISE; eauto.
        * match goal with X : asks _ _ _ _ _ _ _ |- _ => apply asks_raise in X as [h X] end. eapply RAISE; eauto.
        * right. exists [], l. split; [auto|]. rewrite E1. split; [apply end3_verdict, F; exact (LT _ T)|]. intros FN.
          destruct (o_end _ _ K r T) as [X|X]; [|eapply seen_evo; eauto; exact (LT _ T)].
          specialize (F r (LT _ T)). unfold found in F. rewrite FN in F. destruct F as [F _]. congruence.
    - intros r o B. apply in_log in B as [B|B].
      + destruct (log_outcome _ _ _ _ _ _ ST B) as (o' & T & X). pose proof (LT _ T) as L. cbn in L. split; [destruct EV as (_ & EL & _); lia|].
        destruct X as [<-|X]; [|auto]. left. eapply concluded_evo; eauto. apply (o_close _ _ K _ _ T).
      + destruct (o_out _ _ K _ _ B) as [L X]. split; [destruct EV as (_ & EL & _); lia|]. destruct X as [X|X]; [|auto]. left. eapply concluded_evo; eauto.
  Qed.
  Lemma outcome_run u maxSize cfg s0 y evs s l : mgr3_new C rnd ns u maxSize cfg = (s0, y) -> m3_run s0 evs = (s, l) -> outcome_inv s l.
  Proof.
    intros H0 E. enough (found_inv s l /\ outcome_inv s l) by tauto. revert evs s l E. apply (history_ind C R rnd clk fmt ns s0 (fun _ s l => found_inv s l /\ outcome_inv s l)); [eapply base_start; eauto| |].
    - split; [apply (found_run u maxSize cfg s0 y []); auto|]. apply start_fields in H0 as (_ & _ & _ & _ & _ & _ & H7 & _). constructor; try rewrite H7; cbn; intros; contradiction.
    - intros evs s l x s' l' _ B [F K] ST. split; [eapply found_step; eauto; apply B|eapply outcome_step; eauto].
  Qed.
End Outcomes.
