(** PrfMgr3g.v -- the SNMPv3 manager: no request is lost; the order of the heap. *)
From Verif Require Export PrfMgr3f.
From Coq Require Import Permutation.

Section Cover.
  Context (C : crypto) (R : Z) (rnd : nat -> nat -> Z) (clk : nat -> Z) (fmt : v3msg -> bool) (ns : pystr).
  Notation m3_run := (m3_run C R rnd clk fmt ns).
  Notation vstep := (vstep C R rnd clk ns).
  Notation tstep := (tstep C rnd clk ns).
  Notation lstep := (lstep clk).

  Lemma step_made s x s' l' : inv3 s -> vstep s x s' l' -> length (v_reqs s') <> length (v_reqs s) ->
    exists p user level timeout period id g n, x = VCall p user level timeout period /\ s' = made3 clk s id g n p user level timeout period /\ l' = [].
  Proof.
    intros I ST LL. inversion ST; subst; try (cbn in LL; congruence); [do 8 eexists; repeat split| | | |].
    - exfalso. assert (TI : In t (v_tasks s)) by (rewrite H; apply in_elt). apply (tstep_spec _ _ _ _ _ _ _ _ _ I TI) in H0 as ((_ & K & _) & _). cbn in LL. congruence.
    - exfalso. apply (lstep_spec _ _ _ _ I) in H as ((_ & K & _) & _). congruence.
    - exfalso. apply keeps_closed in H0 as (_ & K & _). cbn in K. rewrite put_length in K. congruence.
    - exfalso. destruct H0 as (u & p & q & m & -> & _). now apply LL.
  Qed.
  Definition failed_out (l : list log3) (r : nat) : Prop :=
    exists q h w e, In (WFailed q h w e) l /\ (q = r /\ (w = ByCall \/ w = ByDrain) \/ w = ByPoke).
  Definition covered (s : mgr3) (l : list log3) (r : nat) : Prop :=
    In r (queued s) \/ q_alive (get3 (v_reqs s) r) = false \/ q_event (get3 (v_reqs s) r) = true \/ seen_expired clk s r \/ failed_out l r.
  Lemma covered_run u maxSize cfg s0 y evs s l r : mgr3_new C rnd ns u maxSize cfg = (s0, y) -> m3_run s0 evs = (s, l) ->
    (r < length (v_reqs s))%nat -> covered s l r.
  Proof.
    intros H0 E. revert evs s l E r. apply (history_ind C R rnd clk fmt ns s0 (fun _ s l => forall r, (r < length (v_reqs s))%nat -> covered s l r)); [eapply base_start; eauto| |].
    - apply start_fields in H0 as (_ & _ & _ & -> & _). cbn. intros r L. lia.
    - intros evs s l x s' l' _ [I W] K ST r L'.
      pose proof (step_spec _ _ _ _ _ _ _ _ _ I ST) as (I' & EV & new & lost & P & EX & LN & N).
      destruct (le_lt_dec (length (v_reqs s)) r) as [G|L].
      + destruct (step_made _ _ _ _ I ST ltac:(lia)) as (p & user & level & timeout & period & id & g & n & -> & -> & ->).
        left. unfold queued. cbn in L' |- *. rewrite app_length in L'. cbn in L'. rewrite flat_map_app. cbn. rewrite !in_app_iff. right. right. right. left. lia.
      + destruct EV as (CK & EL & EQ & _). destruct (EQ r L) as (_ & _ & _ & XP & _ & AL & EVT).
        assert (FO : failed_out l r -> failed_out (rev l' ++ l) r) by (intros (q & h & w & e & A & A'); exists q, h, w, e; split; [apply in_log; auto|auto]).
        assert (SE : (exists i, (i < v_clock s')%nat /\ sc_expiration (q_sched (get3 (v_reqs s) r)) <= clk i) -> seen_expired clk s' r) by (intros (i & I1 & I2); exists i; rewrite XP; auto).
        assert (DEAD : q_alive (get3 (v_reqs s) r) = false -> q_alive (get3 (v_reqs s') r) = false) by (intros D; destruct (q_alive (get3 (v_reqs s') r)); auto; rewrite AL in D; auto).
        unfold covered. destruct (K r L) as [X|[X|[X|[(i & I1 & I2)|X]]]]; auto 8.
        * assert (X' : In r (queued s ++ new)) by (apply in_or_app; auto). apply (Permutation_in _ P), in_app_or in X' as [X'|X']; [|auto].
          destruct (EX r X') as [A|[A|[A|(q & h & w & e & A & A')]]]; auto 8.
          right. right. right. right. exists q, h, w, e. split; [apply in_log; auto|auto].
        * right. right. right. left. apply SE. exists i. split; [lia|auto].
  Qed.

  (** ** The heap *)
  Definition sorted3 (s : mgr3) : Prop := ordered3 (v_reqs s) (v_refs s) (v_heap s) /\ fresh_heap (v_reqs s) (v_refs s) (v_heap s).
  Definition spoils (w : why3) : bool := match w with ByRefresh | ByUnknownEngine | ByNotInTime => true | _ => false end.
  (** The same heap, and the requests in it are due at the same time and alive. *)
  Lemma sorted3_ext s s' : sorted3 s -> v_heap s' = v_heap s ->
    (forall r, In r (v_heap s) -> getw (v_refs s') r = getw (v_refs s) r) ->
    (forall r, In r (v_heap s) -> live_key3 (get3 (v_reqs s') r) = live_key3 (get3 (v_reqs s) r)) -> sorted3 s'.
  Proof.
    intros [O F] EH ER EK.
    assert (K : forall r, In r (v_heap s) -> ekey3 (v_reqs s') (v_refs s') r = ekey3 (v_reqs s) (v_refs s) r) by (intros r B; unfold ekey3; now rewrite EK, ER).
    split.
    - unfold ordered3, heap_ordered, ordered_from, ord in *. rewrite EH. intros j J0 PJ p c HP HC. rewrite !K; [now apply (O j J0 PJ)|eapply nth_error_In; eauto..].
    - unfold fresh_heap, all_fresh in *. rewrite EH. intros L. specialize (F L). rewrite Forall_forall in *. intros r B. unfold fresh3. rewrite K, ER by auto. now apply F.
  Qed.
  Lemma sorted3_die s s' r0 : sorted3 s -> v_heap s' = v_heap s -> v_refs s' = v_refs s ->
    (forall r, live_key3 (get3 (v_reqs s') r) = if Nat.eqb r r0 then None else live_key3 (get3 (v_reqs s) r)) -> sorted3 s'.
  Proof.
    intros [O F] EH ER EK.
    destruct (le_lt_dec 2 (length (v_heap s))) as [L|L].
    - pose proof (F L) as FF. rewrite Forall_forall in FF.
      assert (K : forall r, In r (v_heap s) -> ekey3 (v_reqs s') (v_refs s') r = ekey3 (v_reqs s) (v_refs s) r).
      { intros r B. unfold ekey3 at 1. rewrite EK, ER. destruct (Nat.eqb r r0); [apply (FF r B)|reflexivity]. }
      split.
      + unfold ordered3, heap_ordered, ordered_from, ord in *. rewrite EH. intros j J0 PJ p c HP HC. rewrite !K; [now apply (O j J0 PJ)|eapply nth_error_In; eauto..].
      + unfold fresh_heap, all_fresh. rewrite EH. intros _. apply Forall_forall. intros r B. unfold fresh3. rewrite K, ER by auto. now apply FF.
    - split.
      + unfold ordered3, heap_ordered, ordered_from, ord. rewrite EH. intros j J0 PJ p c HP HC. exfalso.
        assert (nth_error (v_heap s) j <> None) as X by congruence. apply nth_error_Some in X. assert (j = 0%nat) as -> by lia. cbn in *. lia.
      + unfold fresh_heap, all_fresh. rewrite EH. intros Y. lia.
  Qed.
  Lemma sends_keys s r w now eng s1 l x : sends s r w now eng s1 l x ->
    v_heap s1 = v_heap s /\ v_refs s1 = v_refs s /\ length (v_reqs s1) = length (v_reqs s) /\
    (forall q, live_key3 (get3 (v_reqs s1) q) = live_key3 (get3 (v_reqs s) q)).
  Proof.
    intros H. inversion H; subst; cbn; auto. rewrite put_length. split; [auto|]. split; [auto|]. split; [auto|]. intros q0. rewrite get3_put. destruct (_ && _)%bool eqn:X; [|auto]. apply andb_prop in X as [X _]. apply Nat.eqb_eq in X as <-. reflexivity.
  Qed.
  (** [s1]: [s] with the schedule of [r] changed and more. *)
  Definition rekeyed (s s1 : mgr3) (r : nat) : Prop :=
    v_heap s1 = v_heap s /\ v_refs s1 = v_refs s /\ length (v_reqs s1) = length (v_reqs s) /\
    (forall q, q <> r -> live_key3 (get3 (v_reqs s1) q) = live_key3 (get3 (v_reqs s) q)).
  Lemma readied_rekeyed s s0 r w now eng s1 l x : v_heap s0 = v_heap s -> v_refs s0 = v_refs s -> v_reqs s0 = v_reqs s ->
    sends (readied clk s0 r) r w now eng s1 l x -> rekeyed s s1 r.
  Proof.
    intros E1 E2 E3 H. apply sends_keys in H as (H1 & H2 & H3 & H4). cbn in *. rewrite put_length in H3. split; [congruence|]. split; [congruence|]. split; [congruence|].
    intros q N. rewrite H4. rewrite get3_put_other by auto. now rewrite E3.
  Qed.
  Lemma resched_rekeyed s r c w now eng s1 l x : sends (rescheduled s r c) r w now eng s1 l x -> rekeyed s s1 r.
  Proof.
    intros H. apply sends_keys in H as (H1 & H2 & H3 & H4). cbn in *. rewrite put_length in H3. split; [auto|]. split; [auto|]. split; [auto|].
    intros q N. rewrite H4. now rewrite get3_put_other by auto.
  Qed.
  Lemma rekeyed_sorted s s1 r : sorted3 s -> rekeyed s s1 r -> ~ In r (v_heap s) -> sorted3 s1.
  Proof. intros S (E1 & E2 & _ & E4) N. eapply sorted3_ext; eauto; intros q B; [now rewrite E2|]. apply E4. intros ->. contradiction. Qed.
  Lemma push_sorted s r : length (v_refs s) = length (v_reqs s) -> sorted3 s -> sorted3 (push3 s r).
  Proof.
    intros L [O F]. unfold push3. destruct (heappush _ _ _ _) as [w h] eqn:E. destruct (push3_ok _ _ _ _ _ _ L E) as (_ & _ & _ & X). destruct (X O) as [O' F']. split; cbn; auto.
  Qed.
  Lemma heapify_sorted s : length (v_refs s) = length (v_reqs s) -> sorted3 (heapify3 s).
  Proof. intros L. unfold heapify3. destruct (heapify _ _ _) as [w h] eqn:E. destruct (heapify3_ok _ _ _ _ _ L E) as (_ & _ & _ & O & F). split; cbn; auto. Qed.
  Lemma sorted3_same s s' : v_heap s' = v_heap s -> v_refs s' = v_refs s -> v_reqs s' = v_reqs s -> sorted3 s -> sorted3 s'.
  Proof. unfold sorted3. now intros -> -> ->. Qed.
  Lemma update_same s : v_heap (updateState s) = v_heap s /\ v_refs (updateState s) = v_refs s /\ v_reqs (updateState s) = v_reqs s.
  Proof. unfold updateState. destruct (v_next s); auto. Qed.
  Lemma assign_same s nx : v_heap (assign_next s nx) = v_heap s /\ v_refs (assign_next s nx) = v_refs s /\ v_reqs (assign_next s nx) = v_reqs s.
  Proof. destruct nx; auto. Qed.
  Lemma keeps_keys_put s r q r' : live_key3 q = live_key3 (get3 (v_reqs s) r) -> live_key3 (get3 (put (v_reqs s) r q) r') = live_key3 (get3 (v_reqs s) r').
  Proof. intros E. rewrite get3_put. destruct (_ && _)%bool eqn:X; [|auto]. apply andb_prop in X as [X _]. apply Nat.eqb_eq in X as <-. auto. Qed.

  Lemma asks_sorted s r w s1 l x : inv3 s -> sorted3 s -> ~ In r (v_heap s) -> asks clk s r w s1 l x -> sorted3 s1.
  Proof.
    intros I S N [nx O|nx s2 l2 e O H|nx s2 l2 O H]; [auto| |]; destruct (assign_same s nx) as (A1 & A2 & A3); pose proof (readied_rekeyed s _ _ _ _ _ _ _ _ A1 A2 A3 H) as K.
    - eapply rekeyed_sorted; eauto.
    - destruct (update_same (push3 s2 r)) as (U1 & U2 & U3). apply (sorted3_same _ _ U1 U2 U3). apply push_sorted; [|eapply rekeyed_sorted; eauto].
      destruct K as (_ & -> & -> & _). apply (i3_refs s I).
  Qed.
  Lemma sorted_step s x s' l' : base s -> sorted3 s -> vstep s x s' l' -> (forall r h w e, In (WFailed r h w e) l' -> spoils w = false) -> sorted3 s'.
  Proof.
    intros [I W] S ST OKS. pose proof (i3_refs s I) as LR. pose proof (i3_nodup s I) as ND. unfold queued in ND.
    assert (DISJ : forall r, In r (v_unsent s ++ flat_map pend (v_tasks s)) -> ~ In r (v_heap s)).
    { intros r A B. eapply nodup_app_disj; eauto. }
    assert (LTH : forall r, In r (v_heap s) -> (r < length (v_reqs s))%nat) by (intros r P; apply (i3_lt s I); apply in_or_app; auto).
    inversion ST; subst; try exact S.
    - (* VCall *) eapply sorted3_ext; eauto.
      + intros r B. apply LTH in B. cbn. unfold getw. apply app_nth1. lia.
      + intros r B. apply LTH in B. cbn. rewrite get3_app. destruct (Nat.eqb_spec r (length (v_reqs s))); [lia|auto].
    - (* a task *)
      assert (IN : forall r, In r (pend t) -> ~ In r (v_heap s)).
      { intros r B. apply DISJ. apply in_or_app. right. rewrite H, flat_map_app. apply in_or_app. right. cbn. apply in_or_app. auto. }
      apply (sorted3_same s1); try reflexivity.
      inversion H0; subst; try exact S.
      + eapply asks_sorted; eauto. apply IN. now left.
      + (* TDrop *) match goal with X : heappop _ _ _ = Some _ |- _ => rename X into HP end.
        destruct (pop3_ok _ _ _ _ _ _ LR HP) as (_ & _ & _ & Q). destruct S as [O F]. rewrite H1 in O, F. destruct (Q O) as [O' F'].
        match goal with X : dropped _ _ _ _ |- _ => destruct X as [[-> _]|[-> _]] end; split; cbn; auto.
      + exfalso. match goal with X : sends _ _ _ _ _ _ _ _ |- _ => apply sends_raise in X as [h X]; apply OKS in X; discriminate end.
      + (* TResent *) match goal with X : sends _ _ _ _ _ ?z _ _ |- _ => rename z into s2; pose proof (resched_rekeyed _ _ _ _ _ _ _ _ _ X) as (K1 & K2 & K3 & K4) end.
        match goal with X : heapreplace _ _ _ _ = Some _ |- _ => rename X into HP end. destruct S as [O F]. rewrite H1 in O, F.
        assert (L1 : length (v_refs s) = length (v_reqs s2)) by congruence.
        assert (KK : forall r', r' <> root -> ekey3 (v_reqs s2) (v_refs s) r' = ekey3 (v_reqs s) (v_refs s) r') by (intros r' N; unfold ekey3; now rewrite K4).
        assert (NR : ~ In root t0) by (rewrite H1 in ND; cbn in ND; inversion ND; subst; intros B; match goal with Y : ~ In root _ |- _ => apply Y end; apply in_or_app; auto).
        destruct (replace3_ok _ _ _ _ _ _ _ L1 O KK NR HP) as [O' F']. split; cbn; auto.
      + (* TPoke *) destruct (assign_same s (onInactive (v_state s))) as (A1 & A2 & A3). destruct (update_same (assign_next s (onInactive (v_state s)))) as (U1 & U2 & U3).
        apply (sorted3_same s); cbn; congruence.
      + eapply asks_sorted; eauto. apply IN. now left.
      + eapply asks_sorted; eauto. apply IN. now left.
      + (* TClosed *) match goal with X : close3 _ _ _ _ _ = _ |- _ => apply close3_spec in X as (u & p & q & m & -> & Q & _) end.
        eapply sorted3_ext; eauto. intros r' _. cbn. apply keeps_keys_put. destruct Q as [->| ->]; reflexivity.
    - (* the listener *)
      inversion H; subst; try exact S.
      + (* LException *) eapply sorted3_ext; eauto. intros r' _. cbn. apply keeps_keys_put. unfold stored. fold r q. destruct auth; [destruct (q_event q)|destruct (q_exception q)]; reflexivity.
      + exfalso. match goal with X : sends _ _ _ _ _ _ _ _ |- _ => apply sends_raise in X as [h X]; apply OKS in X end. destruct (W r e w (or_introl H0)) as [->| ->]; discriminate.
      + destruct (assign_same s nx) as (A1 & A2 & A3). pose proof (readied_rekeyed s _ _ _ _ _ _ _ _ A1 A2 A3 H3) as (K1 & K2 & K3 & _).
        assert (HS : sorted3 (heapify3 s1)) by (apply heapify_sorted; congruence).
        destruct b; cbn; [|apply (sorted3_same (heapify3 s1)); auto]. destruct (update_same (heapify3 s1)) as (U1 & U2 & U3). apply (sorted3_same (heapify3 s1)); auto.
      + assert (K : rekeyed s s1 q) by (eapply readied_rekeyed; [| | |exact H3]; reflexivity).
        apply (sorted3_same s1); try reflexivity. eapply rekeyed_sorted; eauto. apply DISJ. rewrite H1. now left.
      + assert (K : rekeyed s s1 q) by (eapply readied_rekeyed; [| | |exact H3]; reflexivity).
        apply push_sorted; [destruct K as (_ & -> & -> & _); auto|]. eapply rekeyed_sorted; eauto. apply DISJ. rewrite H1. now left.
      + eapply sorted3_ext; eauto. intros r' _. cbn. now apply keeps_keys_put.
      + destruct (assign_same s nx) as (A1 & A2 & A3). apply (sorted3_same s); cbn; auto.
      + destruct (assign_same s nx) as (A1 & A2 & A3). match goal with |- sorted3 (set_listener (updateState ?z) _) => destruct (update_same z) as (U1 & U2 & U3); apply (sorted3_same s) end; cbn in *; congruence.
      + destruct (q_event q); [exact S|]. eapply sorted3_ext; eauto. intros r' _. cbn. now apply keeps_keys_put.
    - (* death *) destruct H0 as (u & p & q & m & -> & Q & _). eapply (sorted3_die s _ r); eauto. intros r'. cbn in *. rewrite get3_put. rewrite put_length.
      destruct (Nat.eqb_spec r r') as [<-|N]; cbn [andb].
      + rewrite Nat.eqb_refl. destruct (Nat.ltb_spec r (length (v_reqs s))) as [L|L]; [|rewrite get3_out by (rewrite put_length; auto); reflexivity].
        rewrite get3_put_same in Q by auto. destruct Q as [->| ->]; reflexivity.
      + destruct (Nat.eqb_spec r' r); [congruence|]. now rewrite get3_put_other by auto.
    - destruct H0 as (u & p & q & m & -> & _). exact S.
  Qed.
  Lemma sorted_run u maxSize cfg s0 y evs s l : mgr3_new C rnd ns u maxSize cfg = (s0, y) -> m3_run s0 evs = (s, l) ->
    (forall r h w e, In (WFailed r h w e) l -> spoils w = false) -> sorted3 s.
  Proof.
    intros H0 E. revert evs s l E. apply (history_ind C R rnd clk fmt ns s0 (fun _ s l => (forall r h w e, In (WFailed r h w e) l -> spoils w = false) -> sorted3 s)); [eapply base_start; eauto| |].
    - apply start_fields in H0 as (H1 & _). intros _. split; [|intros L; rewrite H1 in L; cbn in L; lia]. unfold ordered3, heap_ordered, ordered_from, ord. rewrite H1. intros j _ _ p c _ X. destruct j; discriminate.
    - intros evs s l x s' l' _ B K ST OKS. eapply sorted_step; eauto.
      + apply K. intros r h w e X. apply (OKS r h w e). apply in_log. auto.
      + intros r h w e X. apply (OKS r h w e). apply in_log. auto.
  Qed.
End Cover.
