(** PrfMgr1c.v -- the SNMPv1/SNMPv2c manager: consequences for whole histories. *)
From Verif Require Export PrfMgr1b.
From Coq Require Import Permutation.

Definition waiting1 (t : task1) : bool :=
  match t with TSend _ | TPush _ _ => false | _ => true end.

Section Mgr1c.
  Context (V : v12) (rnd : nat -> Z) (clk : nat -> Z).
  Notation m1_step := (m1_step V rnd clk). Notation task1_step := (task1_step V rnd clk).
  Notation inv1 := (inv1 V clk). Notation m1_run := (m1_run V rnd clk).

  Lemma run_length net s n s' l' : run_task V rnd clk net s n = (s', l') -> length (m1_reqs s') = length (m1_reqs s).
  Proof.
    intros E. unfold run_task in E.
    destruct (nth_error (m1_tasks s) n) as [t|] eqn:NE; [|injection E as <- <-; auto].
    destruct (task1_step net s t) as [[s1 new] l1] eqn:TS. injection E as <- <-. cbn [m1_reqs m1_clock].
    assert (POP : forall s2 r, pop1 s2 r = (s1, new, l1) -> length (m1_reqs s1) = length (m1_reqs s2)).
    { intros s2 r. unfold pop1. destruct (m1_heap s2) as [|a h]; [cbn; intros Y; injection Y as <- <- <-; auto|].
      destruct (heappop ref_lt1 (m1_reqs s2) (a :: h)) as [[lq h']|] eqn:P; intros Y; injection Y as <- <- <-; [|auto].
      apply (pop1_spec _ _ _ _ _ P). }
    assert (RS : forall net s2 r q s3 w, reallySend1 V rnd net s2 r q = (s3, w) -> length (m1_reqs s3) = length (m1_reqs s2)).
    { intros net0 s2 r q s3 w. unfold reallySend1. destruct (v12_prepareOutgoing _ _ _ _ _ _ _) as [o w']. intros Y. injection Y as <- <-. cbn. now rewrite put_length. }
    destruct t as [r1|r1 m|r1|r1|r1|r1 limit|r1|r1 p]; unfold ManagerV1.task1_step in TS; cbn [task_req] in *.
    + destruct (heappush ref_lt1 (m1_reqs s) (m1_heap s) r1) as [lq h'] eqn:HPE. destruct (push1 _ _ _ _ _ HPE) as ((LL & _) & _).
      cbn [tick1] in TS. destruct (reallySend1 V rnd _ _ _ _) as [s3 w] eqn:R. injection TS as <- <- <-. apply RS in R. cbn in R. lia.
    + injection TS as <- <- <-. cbn. now rewrite put_length.
    + cbn [tick1] in TS. destruct (sched_expired _ _); injection TS as <- <- <-; auto.
    + destruct (m1_heap s) eqn:HP; injection TS as <- <- <-; auto.
    + unfold locked1 in TS. destruct (m1_heap s) as [|root hp] eqn:HP; [injection TS as <- <- <-; auto|].
      destruct (rq_alive (get1 (m1_reqs s) root)) eqn:AR; cbn [negb] in TS; [|apply POP in TS; auto].
      destruct (rq_response (get1 (m1_reqs s) root)) as [m0|] eqn:RR; [apply POP in TS; auto|].
      cbn [tick1] in TS. destruct (sched_refresh _ _) as [[|w|c]|e].
      * apply POP in TS. auto.
      * injection TS as <- <- <-. auto.
      * destruct (reallySend1 V rnd _ _ _ _) as [s3 w] eqn:R. destruct w as [b|e].
        -- assert (H3 : m1_heap s3 = root :: hp) by (unfold reallySend1 in R; destruct (v12_prepareOutgoing _ _ _ _ _ _ _); injection R as <- _; cbn; auto).
           apply RS in R. cbn in R. rewrite H3 in TS. destruct (heapreplace ref_lt1 (m1_reqs s3) (root :: hp) root) as [[lq h']|] eqn:HR; [|discriminate].
           injection TS as <- <- <-. destruct (replace1 _ _ _ _ _ _ HR) as ((LL & _) & _). cbn. lia.
        -- injection TS as <- <- <-. apply RS in R. auto.
      * injection TS as <- <- <-. auto.
    + destruct (rq_response (get1 (m1_reqs s) r1)) as [m|]; [|destruct limit]; injection TS as <- <- <-; auto.
    + destruct (rq_response (get1 (m1_reqs s) r1)) as [m|]; injection TS as <- <- <-; auto.
    + unfold close1 in TS. destruct (rq_cb (get1 (m1_reqs s) r1)); injection TS as <- <- <-; cbn; rewrite ?put_length; auto.
  Qed.
  (** Requests are made by MCall and MOther only. *)
  Lemma step_new evs s l x s' l' : inv1 evs s l -> m1_step s x = (s', l') ->
    length (m1_reqs s') = length (m1_reqs s) \/
    exists p community timeout period, (x = MCall p community timeout period \/ x = MOther p community) /\ l' = [] /\ length (m1_reqs s') = S (length (m1_reqs s)) /\
      sched_of s' (length (m1_reqs s)) = mkSched (clk (m1_clock s) + timeout) (clk (m1_clock s) + timeout) period.
  Proof.
    intros I E. destruct x as [p community timeout period|r0|d|r0|n|n|p community] eqn:X;
      [..|right; exists p, community, 0, 1; apply other_spec in E as (q' & -> & RQ & _ & _ & _ & SC & _); split; [auto|]; split; [auto|];
          unfold sched_of; rewrite RQ, app_length, get1_app, Nat.eqb_refl, SC; cbn; split; [lia|reflexivity]].
    - right. exists p, community, timeout, period. cbn [ManagerV1.m1_step] in E. cbn [tick1] in E. injection E as <- <-. split; [auto|]. split; [auto|].
      unfold sched_of. cbn [add_task m1_reqs]. rewrite app_length, get1_app, Nat.eqb_refl. cbn. split; [lia|auto].
    - left. cbn [ManagerV1.m1_step] in E. destruct (alive1 s r0 && negb _); injection E as <- <-; auto.
    - left. cbn [ManagerV1.m1_step] in E. destruct (v12_prepareDataElements V (alive1 s) (m1_cache s) d) as [c [[m h]|e]]; injection E as <- <-; auto.
    - left. cbn [ManagerV1.m1_step] in E. cbv zeta in E. destruct (negb _ || _); [injection E as <- <-; auto|]. unfold close1 in E. cbn [rq_cb] in E.
      destruct (rq_cb _); injection E as <- <-; cbn; rewrite ?put_length; auto.
    - left. eapply run_length; exact E.
    - left. eapply run_length; exact E.
  Qed.

  (** Over a step: expiration and period stay, next <= expiration. *)
  Lemma step_fixed evs s l x s' l' r : inv1 evs s l -> m1_step s x = (s', l') -> (r < length (m1_reqs s))%nat ->
    sc_expiration (sched_of s' r) = sc_expiration (sched_of s r) /\ sc_period (sched_of s' r) = sc_period (sched_of s r) /\
    (sc_next (sched_of s r) <= sc_expiration (sched_of s r) -> sc_next (sched_of s' r) <= sc_expiration (sched_of s' r)).
  Proof.
    intros I E LR. destruct (step_sched V rnd clk _ _ _ _ _ _ I E r LR) as [(-> & _)|[(n & w & _ & _ & _ & ->)|(n & o & w & _ & _ & _ & _ & SR & _)]].
    - auto.
    - unfold sched_send, set_next. cbn. repeat split. lia.
    - revert SR. unfold sched_refresh. destruct (_ <=? 0); [|discriminate]. destruct (_ <=? _); [discriminate|]. destruct (_ =? 0); [discriminate|].
      intros X. injection X as <-. unfold set_next. cbn. repeat split. lia.
  Qed.
  Lemma next_le_expiration evs s l r : m1_run evs = (s, l) -> (r < length (m1_reqs s))%nat ->
    sc_next (sched_of s r) <= sc_expiration (sched_of s r).
  Proof.
    revert s l. induction evs as [|x evs IH] using rev_ind; intros s l E LR; [injection E as <- <-; cbn in LR; lia|].
    rewrite m1_run_snoc in E. destruct (m1_run evs) as [s0 l0] eqn:R0. destruct (m1_step s0 x) as [s1 l1] eqn:ST. injection E as <- <-.
    pose proof (inv1_run _ _ _ _ _ _ R0) as I. destruct (step_new _ _ _ _ _ _ I ST) as [LE|(p & cm & t & pe & _ & _ & LE & SC)].
    - rewrite LE in LR. apply (step_fixed _ _ _ _ _ _ r I ST LR). eapply IH; eauto.
    - destruct (Nat.eq_dec r (length (m1_reqs s0))) as [->|N]; [rewrite SC; cbn; lia|].
      assert (LR' : (r < length (m1_reqs s0))%nat) by lia. apply (step_fixed _ _ _ _ _ _ r I ST LR'). eapply IH; eauto.
  Qed.
  (** Nothing is sent again at or after the expiration. *)
  Lemma resent_before evs s l r now w : m1_run evs = (s, l) -> In (LSent r now true w) l ->
    (r < length (m1_reqs s))%nat /\ now < sc_expiration (sched_of s r).
  Proof.
    revert s l. induction evs as [|x evs IH] using rev_ind; intros s l E B; [injection E as <- <-; destruct B|].
    rewrite m1_run_snoc in E. destruct (m1_run evs) as [s0 l0] eqn:R0. destruct (m1_step s0 x) as [s1 l1] eqn:ST. injection E as <- <-.
    pose proof (inv1_run _ _ _ _ _ _ R0) as I.
    pose proof (inv1_next _ _ _ _ _ _ _ _ _ I ST) as I1. destruct (i_sent _ _ _ _ _ I1 _ _ _ _ B) as [LR _]. split; [auto|].
    apply in_app_iff in B as [B|B].
    - apply in_rev in B. assert (LR0 : (r < length (m1_reqs s0))%nat).
      { destruct (step_new _ _ _ _ _ _ I ST) as [LE|(p & cm & t & pe & _ & -> & LE & SC)]; [lia|]. destruct B. }
      destruct (step_fixed _ _ _ _ _ _ r I ST LR0) as (-> & _ & _).
      destruct (step_sched V rnd clk _ _ _ _ _ _ I ST r LR0) as [(_ & N)|[(n & w' & _ & _ & -> & _)|(n & o & w' & _ & _ & _ & _ & SR & ->)]].
      + exfalso. apply (N _ B). reflexivity.
      + destruct B as [B|[]]. unfold sent_log in B. destruct w'; discriminate.
      + assert (now = clk (m1_clock s0)) as ->.
        { destruct B as [B|B]; [unfold sent_log in B; destruct w'; [injection B as <-; auto|discriminate]|]. destruct w'; [destruct B|]. destruct B as [B|[]]; discriminate. }
        revert SR. unfold sched_refresh. destruct (_ <=? 0); [|discriminate]. destruct (Z.leb_spec (sc_expiration (sched_of s0 r)) (clk (m1_clock s0))); [discriminate|]. auto.
    - destruct (IH _ _ eq_refl B) as [L0 X]. destruct (step_fixed _ _ _ _ _ _ r I ST L0) as (-> & _ & _). auto.
  Qed.

  (** A request that is waited for has been sent. *)
  Lemma new_waiting net s t s' new l' : task1_step net s t = (s', new, l') -> forall t', In t' new -> waiting1 t' = true /\ waiting1 t = true /\ task_req t' = task_req t.
  Proof.
    intros TS t'. assert (POP : forall s2 r, pop1 s2 r = (s', new, l') -> In t' new -> t' = TRefresh r).
    { intros s2 r. unfold pop1. destruct (heappop _ _ _); intros X; injection X as <- <- <-; [|contradiction]. intros [<-|[]]. auto. }
    destruct t as [r1|r1 m|r1|r1|r1|r1 limit|r1|r1 p]; unfold ManagerV1.task1_step in TS; cbn [task_req waiting1] in *.
    - destruct (heappush _ _ _ _) as [lq h']. cbn [tick1] in TS. destruct (reallySend1 _ _ _ _ _ _) as [s3 w]. injection TS as <- <- <-. contradiction.
    - injection TS as <- <- <-. contradiction.
    - cbn [tick1] in TS. destruct (sched_expired _ _); injection TS as <- <- <-; (intros [<-|[]]; auto).
    - destruct (m1_heap s); injection TS as <- <- <-; (intros [<-|[]]; auto).
    - unfold locked1 in TS. destruct (m1_heap s) as [|root hp]; [injection TS as <- <- <-; contradiction|].
      destruct (negb _); [intros H; rewrite (POP _ _ TS H); auto|]. destruct (rq_response _); [intros H; rewrite (POP _ _ TS H); auto|].
      cbn [tick1] in TS. destruct (sched_refresh _ _) as [[|w|c]|e].
      + intros H; rewrite (POP _ _ TS H); auto.
      + injection TS as <- <- <-. intros [<-|[]]; auto.
      + destruct (reallySend1 _ _ _ _ _ _) as [s3 w]. destruct w as [b|e]; [|injection TS as <- <- <-; contradiction].
        destruct (heapreplace _ _ _ _); injection TS as <- <- <-; [intros [<-|[]]; auto|contradiction].
      + injection TS as <- <- <-. contradiction.
    - destruct (rq_response _); [|destruct limit]; injection TS as <- <- <-; (intros [<-|[]]; auto).
    - destruct (rq_response _); injection TS as <- <- <-; [intros [<-|[]]; auto|contradiction].
    - destruct (close1 _ _ _) as [s3 [u|e]]; injection TS as <- <- <-; contradiction.
  Qed.
  Lemma waited_sent evs s l t : m1_run evs = (s, l) -> In t (m1_tasks s) -> waiting1 t = true -> ~ In (task_req t) (pending1 (m1_tasks s)).
  Proof.
    revert s l t. induction evs as [|x evs IH] using rev_ind; intros s l t E B W; [injection E as <- <-; destruct B|].
    rewrite m1_run_snoc in E. destruct (m1_run evs) as [s0 l0] eqn:R0. destruct (m1_step s0 x) as [s1 l1] eqn:ST. injection E as <- <-.
    pose proof (inv1_run _ _ _ _ _ _ R0) as I. specialize (IH s0 l0). pose proof (fun t => IH t eq_refl) as IH'. clear IH. rename IH' into IH.
    assert (RUN : forall net n, run_task V rnd clk net s0 n = (s1, l1) -> ~ In (task_req t) (pending1 (m1_tasks s1))).
    2:{
    destruct x as [p community timeout period|r0|d|r0|n|n|p community];
      [..|apply other_spec in ST as (q' & _ & _ & _ & RT & _); rewrite RT in *; auto]; cbn [ManagerV1.m1_step] in ST; [..|eauto|eauto].
    - cbn [tick1] in ST. injection ST as <- <-. cbn [add_task m1_tasks m1_reqs] in *. rewrite pending1_app, in_app_iff.
      apply in_app_iff in B as [B|[<-|[]]]; [|discriminate]. intros [X|[X|[]]]; [now apply (IH t)|].
      apply (i_tasks _ _ _ _ _ I) in B as [B _]. lia.
    - destruct (alive1 s0 r0); cbn [andb] in ST; [|injection ST as <- <-; auto].
      destruct (existsb _ (m1_tasks s0)) eqn:EX; cbn [negb] in ST; injection ST as <- <-; [auto|].
      cbn [add_task m1_tasks] in *. rewrite pending1_app, in_app_iff. apply in_app_iff in B as [B|[<-|[]]]; intros [X|[]]; [now apply (IH t)|].
      rewrite <- not_true_iff_false in EX. apply EX. apply existsb_exists. unfold pending1 in X. apply in_flat_map in X as (t' & X1 & X2).
      exists t'. split; [auto|]. destruct t'; try contradiction. destruct X2 as [X2|[]]. cbn in X2. subst. apply Nat.eqb_refl.
    - destruct (v12_prepareDataElements V (alive1 s0) (m1_cache s0) d) as [c [[m h]|e]]; injection ST as <- <-; cbn [add_task with_cache1 m1_tasks] in *; [|auto].
      rewrite pending1_app, in_app_iff. apply in_app_iff in B as [B|[<-|[]]]; [|discriminate]. intros [X|[]]. now apply (IH t).
    - cbv zeta in ST. destruct (negb _ || _); [injection ST as <- <-; auto|]. unfold close1 in ST. cbn [rq_cb] in ST.
      destruct (rq_cb _); injection ST as <- <-; cbn [set_req with_cache1 m1_tasks fst] in *; auto. }
    - clear ST. intros net n ST. unfold run_task in ST. destruct (nth_error (m1_tasks s0) n) as [t0|] eqn:NE; [|injection ST as <- <-; auto].
      destruct (task1_step net s0 t0) as [[s2 new] l2] eqn:TS. injection ST as <- <-. cbn [m1_tasks] in *.
      pose proof (new_waiting _ _ _ _ _ _ TS) as NW.
      assert (PD : incl (pending1 (firstn n (m1_tasks s0) ++ new ++ skipn (S n) (m1_tasks s0))) (pending1 (m1_tasks s0))).
      { eapply pending_step; eauto. intros t' r Ht ->. now apply NW in Ht as [Ht _]. }
      intros X. apply PD in X. rewrite !in_app_iff in B. destruct B as [B|[B|B]].
      + apply (IH t); auto. rewrite (split_nth _ _ _ NE), in_app_iff. auto.
      + destruct (NW _ B) as (_ & W0 & EQ). rewrite EQ in X. apply (IH t0); auto. eapply nth_error_In; eauto.
      + apply (IH t); auto. rewrite (split_nth _ _ _ NE), in_app_iff. right. now right.
  Qed.

  (** Without datagrams nothing is answered. *)
  Lemma task_pushed net s t s' new l' r m : task1_step net s t = (s', new, l') -> In (LPushed r m) l' -> t = TPush r m.
  Proof.
    intros TS B. assert (POP : forall s2 r, pop1 s2 r = (s', new, l') -> False).
    { intros s2 r0. unfold pop1. destruct (heappop _ _ _); intros X; injection X as <- <- <-; [destruct B|destruct B as [B|[]]; discriminate]. }
    destruct t as [r1|r1 m1|r1|r1|r1|r1 limit|r1|r1 p]; unfold ManagerV1.task1_step in TS; cbn [task_req] in *.
    - destruct (heappush _ _ _ _) as [lq h']. cbn [tick1] in TS. destruct (reallySend1 _ _ _ _ _ _) as [s3 w]. injection TS as <- <- <-.
      destruct B as [B|[]]. unfold sent_log in B. destruct w; discriminate.
    - injection TS as <- <- <-. destruct B as [B|[]]. now injection B as -> ->.
    - cbn [tick1] in TS. destruct (sched_expired _ _); injection TS as <- <- <-; destruct B.
    - destruct (m1_heap s); injection TS as <- <- <-; [|destruct B]. destruct B as [B|[]]; discriminate.
    - unfold locked1 in TS. destruct (m1_heap s) as [|root hp]; [injection TS as <- <- <-; destruct B as [B|[]]; discriminate|].
      destruct (negb _); [destruct (POP _ _ TS)|]. destruct (rq_response _); [destruct (POP _ _ TS)|].
      cbn [tick1] in TS. destruct (sched_refresh _ _) as [[|w|c]|e].
      + destruct (POP _ _ TS).
      + injection TS as <- <- <-. destruct B as [B|[]]; discriminate.
      + destruct (reallySend1 _ _ _ _ _ _) as [s3 w]. destruct w as [b|e]; [|injection TS as <- <- <-; destruct B as [B|[B|[]]]; discriminate].
        destruct (heapreplace _ _ _ _); injection TS as <- <- <-; (destruct B as [B|[]]; discriminate).
      + injection TS as <- <- <-. destruct B as [B|[]]; discriminate.
    - destruct (rq_response _); [|destruct limit]; injection TS as <- <- <-; destruct B.
    - destruct (rq_response _); injection TS as <- <- <-; [destruct B|]. destruct B as [B|[]]; discriminate.
    - destruct (close1 _ _ _) as [s3 [u|e]]; injection TS as <- <- <-; (destruct B as [B|[]]; discriminate).
  Qed.
  Definition silent (x : event1) : Prop := match x with MReceive _ => False | _ => True end.
  Lemma no_push evs s l : Forall silent evs -> m1_run evs = (s, l) ->
    (forall r m, ~ In (TPush r m) (m1_tasks s)) /\ (forall r m, ~ In (LPushed r m) l).
  Proof.
    revert s l. induction evs as [|x evs IH] using rev_ind; intros s l F E; [injection E as <- <-; cbn; auto|].
    apply Forall_app in F as [F1 F2]. inversion F2 as [|? ? FX _]; subst.
    rewrite m1_run_snoc in E. destruct (m1_run evs) as [s0 l0] eqn:R0. destruct (m1_step s0 x) as [s1 l1] eqn:ST. injection E as <- <-.
    destruct (IH _ _ F1 eq_refl) as [IH1 IH2].
    assert (G : (forall r m, ~ In (TPush r m) (m1_tasks s1)) /\ (forall r m, ~ In (LPushed r m) l1)).
    { assert (RUN : forall net n, run_task V rnd clk net s0 n = (s1, l1) -> (forall r m, ~ In (TPush r m) (m1_tasks s1)) /\ (forall r m, ~ In (LPushed r m) l1)).
      2:{ 
      destruct x as [p community timeout period|r0|d|r0|n|n|p community];
        [..|apply other_spec in ST as (q' & -> & _ & _ & RT & _); rewrite RT in *; auto]; cbn [ManagerV1.m1_step] in ST; [..|eauto|eauto].
      - cbn [tick1] in ST. injection ST as <- <-. cbn [add_task m1_tasks]. split; [|auto]. intros r m X. apply in_app_iff in X as [X|[X|[]]]; [|discriminate]. now apply IH1 in X.
      - destruct (alive1 s0 r0 && negb _); injection ST as <- <-; cbn [add_task m1_tasks]; (split; [|auto]); [|auto].
        intros r m X. apply in_app_iff in X as [X|[X|[]]]; [|discriminate]. now apply IH1 in X.
      - contradiction.
      - cbv zeta in ST. destruct (negb _ || _); [injection ST as <- <-; auto|]. unfold close1 in ST. cbn [rq_cb] in ST.
        destruct (rq_cb _); injection ST as <- <-; cbn [set_req with_cache1 m1_tasks fst]; auto. }
      - clear ST. intros net n ST. unfold run_task in ST. destruct (nth_error (m1_tasks s0) n) as [t0|] eqn:NE; [|injection ST as <- <-; auto].
        destruct (task1_step net s0 t0) as [[s2 new] l2] eqn:TS. injection ST as <- <-. cbn [m1_tasks]. split.
        + intros r m X. rewrite !in_app_iff in X. destruct X as [X|[X|X]].
          * apply (IH1 r m). rewrite (split_nth _ _ _ NE), in_app_iff. auto.
          * apply (new_waiting _ _ _ _ _ _ TS) in X as [X _]. discriminate.
          * apply (IH1 r m). rewrite (split_nth _ _ _ NE), in_app_iff. right. now right.
        + intros r m X. apply (task_pushed _ _ _ _ _ _ _ _ TS) in X as ->. apply (IH1 r m). eapply nth_error_In; eauto. }
    destruct G as [G1 G2]. split; [auto|]. intros r m X. apply in_app_iff in X as [X|X]; [apply in_rev in X; now apply G2 in X|now apply IH2 in X].
  Qed.
  Lemma unanswered evs s l r : Forall silent evs -> m1_run evs = (s, l) -> rq_response (get1 (m1_reqs s) r) = None.
  Proof.
    intros F E. destruct (rq_response (get1 (m1_reqs s) r)) as [m|] eqn:R; [|auto]. exfalso.
    apply (i_response _ _ _ _ _ (inv1_run _ _ _ _ _ _ E)) in R. now apply (proj2 (no_push _ _ _ F E)) in R.
  Qed.
  Lemma stuck evs evs' r : Forall silent (evs ++ evs') -> In (TBlock r None) (m1_tasks (fst (m1_run evs))) ->
    In (TBlock r None) (m1_tasks (fst (m1_run (evs ++ evs')))).
  Proof.
    intros F B. induction evs' as [|x evs' IH] using rev_ind; [now rewrite app_nil_r|].
    rewrite app_assoc in F. apply Forall_app in F as [F1 F2]. specialize (IH F1). inversion F2 as [|? ? FX _]; subst.
    rewrite app_assoc, m1_run_snoc. pose proof (unanswered (evs ++ evs')) as UN. destruct (m1_run (evs ++ evs')) as [s0 l0] eqn:R0. cbn [fst] in IH.
    destruct (m1_step s0 x) as [s1 l1] eqn:ST. cbn [fst].
    assert (RUN : forall net n, run_task V rnd clk net s0 n = (s1, l1) -> In (TBlock r None) (m1_tasks s1)).
    2:{
    destruct x as [p community timeout period|r0|d|r0|n|n|p community];
      [..|apply other_spec in ST as (q' & _ & _ & _ & RT & _); rewrite RT in *; auto]; cbn [ManagerV1.m1_step] in ST; [..|eauto|eauto].
    - cbn [tick1] in ST. injection ST as <- <-. cbn [add_task m1_tasks]. apply in_app_iff. auto.
    - destruct (alive1 s0 r0 && negb _); injection ST as <- <-; cbn [add_task m1_tasks]; [apply in_app_iff|]; auto.
    - contradiction.
    - cbv zeta in ST. destruct (negb _ || _); [injection ST as <- <-; auto|]. unfold close1 in ST. cbn [rq_cb] in ST.
      destruct (rq_cb _); injection ST as <- <-; cbn [set_req with_cache1 m1_tasks fst]; auto. }
    - clear ST. intros net n ST. unfold run_task in ST. destruct (nth_error (m1_tasks s0) n) as [t0|] eqn:NE; [|injection ST as <- <-; auto].
      destruct (task1_step net s0 t0) as [[s2 new] l2] eqn:TS. injection ST as <- <-. cbn [m1_tasks].
      rewrite (split_nth _ _ _ NE), in_app_iff in IH. rewrite !in_app_iff. destruct IH as [X|[X|X]]; auto. subst t0.
      unfold ManagerV1.task1_step in TS. cbn [task_req] in TS. rewrite (UN _ _ r F1 eq_refl) in TS. injection TS as <- <- <-. right. left. now left.
  Qed.
End Mgr1c.
