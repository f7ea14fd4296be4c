(** PrfMgr3i.v -- the SNMPv3 manager: requests and calls, schedules (C40, C46). *)
From Verif Require Export PrfMgr1b PrfMgr3h.
From Coq Require Import Permutation.

Section Schedules.
  Context (C : crypto) (R : Z) (rnd : nat -> nat -> Z) (clk : nat -> Z) (fmt : v3msg -> bool) (ns : pystr).
  Notation m3_run := (m3_run C R rnd clk fmt ns).
  Notation vstep := (vstep C R rnd clk ns).

  (** The request made by a call. *)
  Definition made_by (q : req3) (c : call3) : Prop :=
    q_pdu q = set_requestID (c_pdu c) (pdu_requestID (q_pdu q)) /\ q_user q = c_user c /\ q_level q = c_level c /\
    sc_period (q_sched q) = c_period c.
  Definition calls_inv (evs : list event3) (s : mgr3) : Prop :=
    length (v_reqs s) = length (calls evs) /\ forall r c, nth_error (calls evs) r = Some c -> made_by (get3 (v_reqs s) r) c.
  Lemma calls_snoc evs x : calls (evs ++ [x]) = calls evs ++ call_of x.
  Proof. unfold calls. rewrite flat_map_app. cbn. now rewrite app_nil_r. Qed.
  Lemma vcall_made s p user level timeout period s' l : vstep s (VCall p user level timeout period) s' l -> length (v_reqs s') = S (length (v_reqs s)) \/ s' = s.
  Proof. intros H. inversion H; subst; [auto| |match goal with X : others_event _ |- _ => destruct X end]. left. cbn. rewrite app_length. cbn. lia. Qed.
  Lemma calls_step evs s x s' l' : calls_inv evs s -> inv3 s -> m3_step C R rnd clk fmt ns s x = (s', l') -> calls_inv (evs ++ [x]) s'.
  Proof.
    intros [L N] I ST. pose proof (m3_step_spec _ _ _ _ _ _ _ _ _ _ ST) as V. pose proof (step_spec _ _ _ _ _ _ _ _ _ I V) as (I' & EV & _).
    destruct EV as (_ & EL & EQ & _).
    assert (OLD : forall r c, nth_error (calls evs) r = Some c -> made_by (get3 (v_reqs s') r) c).
    { intros r c H. assert (LT : (r < length (v_reqs s))%nat) by (rewrite L; apply nth_error_Some; congruence).
      destruct (N _ _ H) as (A1 & A2 & A3 & A4). destruct (EQ r LT) as (B1 & B2 & B3 & B4 & B5 & _). unfold made_by. rewrite B1, B2, B3, B5. auto. }
    destruct (Nat.eq_dec (length (v_reqs s')) (length (v_reqs s))) as [E|E].
    - assert (NC : call_of x = []).
      { destruct x; auto. cbn [m3_step] in ST. unfold generateRequestID in ST. destruct (numgen_next (v_gen s)) as [i g]. exfalso.
        destruct (i =? 0).
        - destruct (numgen_next _) as [i2 g2]. cbn in ST. injection ST as <- _. cbn in E. rewrite app_length in E. cbn in E. lia.
        - cbn in ST. injection ST as <- _. cbn in E. rewrite app_length in E. cbn in E. lia. }
      split; rewrite calls_snoc, NC, app_nil_r; [congruence|auto].
    - destruct (step_made _ _ _ _ _ _ _ _ _ I V E) as (p & user & level & timeout & period & id & g & n & -> & -> & ->).
      split; rewrite calls_snoc; cbn [call_of].
      + cbn. rewrite !app_length. cbn. lia.
      + intros r c H. destruct (le_lt_dec (length (calls evs)) r) as [G|G].
        * rewrite nth_error_app2 in H by auto. destruct (r - length (calls evs))%nat eqn:D; [|destruct n0; discriminate]. injection H as <-.
          assert (r = length (v_reqs s)) as -> by lia. cbn [made3 v_reqs]. rewrite get3_app, Nat.eqb_refl. repeat split.
        * rewrite nth_error_app1 in H by auto. auto.
  Qed.
  Lemma calls_run u maxSize cfg s0 y evs s l : mgr3_new C rnd ns u maxSize cfg = (s0, y) -> m3_run s0 evs = (s, l) -> calls_inv evs s.
  Proof.
    intros H0. revert s l. induction evs as [|x evs IH] using rev_ind; intros s l E.
    - cbn in E. injection E as <- <-. apply start_fields in H0 as (_ & _ & _ & H4 & _). split; [now rewrite H4|]. intros [|r] c H; discriminate.
    - pose proof (base_start _ _ _ _ _ _ _ _ H0) as B. rewrite m3_run_snoc in E. destruct (m3_run s0 evs) as [s1 l1] eqn:E1. destruct (m3_step _ _ _ _ _ _ s1 x) as [s2 l2] eqn:ST.
      injection E as <- <-. eapply calls_step; eauto. now destruct (base_run _ _ _ _ _ _ _ _ _ _ B E1).
  Qed.

  (** What a step does to the schedule of [r]. *)
  Lemma step_sched3 s x s' l' r : base s -> vstep s x s' l' -> (r < length (v_reqs s))%nat ->
    (q_sched (get3 (v_reqs s') r) = q_sched (get3 (v_reqs s) r) /\
     (forall y, In y l' -> match y with WSent r' _ _ _ _ _ _ _ _ | WFailed r' _ _ _ => r' <> r | _ => True end)) \/
    (exists y w, l' = [y] /\
      ((exists h d e user lev wire, y = WSent r h w (clk (v_clock s)) d e user lev wire) \/ (exists h e, y = WFailed r h w e)) /\
      if (match w with ByRefresh => true | _ => false end) then
        q_alive (get3 (v_reqs s) r) = true /\ q_event (get3 (v_reqs s) r) = false /\ 
        sched_refresh (q_sched (get3 (v_reqs s) r)) (clk (v_clock s)) = Ok (RResend (q_sched (get3 (v_reqs s') r)))
      else q_sched (get3 (v_reqs s') r) = sched_send (q_sched (get3 (v_reqs s) r)) (clk (v_clock s))).
  Proof.
    intros [I W] ST LR. destruct (step_class _ _ _ _ _ _ _ _ _ I W ST) as [SS|QS].
    - destruct SS as [r0 w sc eng s1 s2 y SB R1 M1 P1 B1 C1 R2 M2 P2 B2 AL CASE]. rewrite R2.
      destruct (sent_by_reqs _ _ _ _ _ _ _ _ _ SB) as [e' ->]. rewrite R1, get3_put.
      pose proof (sent_by_log _ _ _ _ _ _ _ _ _ SB) as LG.
      destruct (Nat.eqb_spec r0 r) as [->|N]; cbn [andb].
      + apply Nat.ltb_lt in LR. rewrite LR. right. cbn [q_set_engine q_set_sched q_sched].
        assert (LY : exists z, l' = [z] /\ ((exists h d e user lev wire, z = WSent r h w (clk (v_clock s)) d e user lev wire) \/ (exists h e, z = WFailed r h w e))).
        { destruct LG as [(_ & h & d & e & user & lev & wire & ->)|(ex & h & _ & ->)]; eexists; split; [reflexivity|left; eauto 10|reflexivity|right; eauto]. }
        destruct LY as (z & -> & LY). exists z, w. split; [auto|]. split; [auto|].
        destruct w; cbn; [destruct CASE as (_ & -> & _)|destruct CASE as (_ & -> & _)|destruct CASE as (-> & _)|destruct CASE as (_ & Q & Q' & _); auto|destruct CASE as (-> & _)|destruct CASE as (-> & _)]; reflexivity.
      + left. split; [auto|]. intros z B. destruct LG as [(_ & h & d & e & user & lev & wire & ->)|(ex & h & _ & ->)]; destruct B as [<-|[]]; auto.
    - left. destruct (qs_reqs _ _ _ _ _ QS r LR) as [-> _]. split; [auto|]. intros z B. apply (qs_log _ _ _ _ _ QS) in B. destruct z; auto; discriminate.
  Qed.
  Lemma next_le_run u maxSize cfg s0 y evs s l r : mgr3_new C rnd ns u maxSize cfg = (s0, y) -> m3_run s0 evs = (s, l) ->
    (r < length (v_reqs s))%nat -> sc_next (q_sched (get3 (v_reqs s) r)) <= sc_expiration (q_sched (get3 (v_reqs s) r)).
  Proof.
    intros H0 E. revert r. revert evs s l E.
    apply (history_ind C R rnd clk fmt ns s0 (fun _ s _ => forall r, (r < length (v_reqs s))%nat -> sc_next (q_sched (get3 (v_reqs s) r)) <= sc_expiration (q_sched (get3 (v_reqs s) r)))).
    - eapply base_start; eauto.
    - apply start_fields in H0 as (_ & _ & _ & H4 & _). rewrite H4. cbn. intros; lia.
    - intros evs s l x s' l' _ B IH ST r LR. destruct (le_lt_dec (length (v_reqs s)) r) as [G|LT].
      + destruct B as [I W]. assert (NE : length (v_reqs s') <> length (v_reqs s)) by lia.
        destruct (step_made _ _ _ _ _ _ _ _ _ I ST NE) as (p & user & level & timeout & period & id & g & n & -> & -> & ->). cbn [made3 v_reqs] in *.
        rewrite app_length in LR. cbn in LR. assert (r = length (v_reqs s)) as -> by lia. rewrite get3_app, Nat.eqb_refl. cbn. lia.
      + destruct (step_sched3 _ _ _ _ _ B ST LT) as [(-> & _)|(z & w & _ & _ & Q)]; [auto|]. destruct w; cbn in Q;
        try (rewrite Q; unfold sched_send, set_next; cbn; lia).
        destruct Q as (_ & _ & Q). unfold sched_refresh in Q. destruct (_ <=? 0); [|discriminate]. destruct (_ <=? _); [discriminate|]. destruct (_ =? 0); [discriminate|]. injection Q as <-. cbn. lia.
  Qed.
  Lemma in_firsts l r : In r (firsts l) <-> exists h w now d e user lev wire, In (WSent r h w now d e user lev wire) l /\ (w = ByCall \/ w = ByPoke \/ w = ByDrain).
  Proof.
    unfold firsts. rewrite in_flat_map. split.
    - intros (y & B & H). destruct y; cbn in H; try contradiction. destruct w; cbn in H; try contradiction; destruct H as [->|[]]; do 8 eexists; split; eauto.
    - intros (h & w & now & d & e & user & lev & wire & B & H). eexists. split; [exact B|]. cbn. destruct H as [->|[->| ->]]; left; auto.
  Qed.
  Lemma sends_blocked s r w now eng s1 l x r' w' : sends s r w now eng s1 l x -> ~ In (WBlocked r' w') l.
  Proof.
    intros H B. inversion H; subst; [destruct B as [B|[]]; discriminate|].
    match goal with X : _ \/ _ |- _ => destruct X as [(? & _ & ->)|(? & _ & ->)] end; destruct B as [B|[]]; discriminate.
  Qed.
  Lemma asks_blocked s r w s1 l x r' w' : asks clk s r w s1 l x -> ~ In (WBlocked r' w') l.
  Proof. intros H. inversion H; subst; [intros []|eapply sends_blocked; eauto|eapply sends_blocked; eauto]. Qed.
  (** Why a thread blocks. *)
  Lemma blocked_step s x s' l' r w : vstep s x s' l' -> In (WBlocked r w) l' ->
    w = 0 \/ exists root t, v_heap s = root :: t /\ q_alive (get3 (v_reqs s) root) = true /\ w = sc_next (q_sched (get3 (v_reqs s) root)) - clk (v_clock s).
  Proof.
    intros ST B. inversion ST; subst; try contradiction.
    - match goal with T : tstep _ _ _ _ _ _ _ _ _ |- _ => inversion T; subst; try contradiction end;
      try (match goal with S : sends _ _ _ _ _ _ _ _ |- _ => apply sends_blocked with (r' := r) (w' := w) in S; contradiction end);
      try (match goal with S : asks _ _ _ _ _ _ _ |- _ => apply asks_blocked with (r' := r) (w' := w) in S; contradiction end).
      + destruct B as [B|[]]. injection B as -> ->. right. exists root, t0. split; [auto|]. split; [auto|].
        match goal with Q : sched_refresh _ _ = _ |- _ => unfold sched_refresh in Q; destruct (_ <=? 0); [destruct (_ <=? _); [discriminate|destruct (_ =? 0); discriminate]|]; injection Q as <- end. reflexivity.
      + destruct B as [B|[]]. injection B as -> <-. auto.
      + destruct B as [B|[]]. discriminate.
    - exfalso. match goal with T : lstep _ _ _ _ |- _ => inversion T; subst; try contradiction; try (destruct B as [B|[]]; discriminate); try (destruct B as [B|[B|[]]]; discriminate) end;
      try (match goal with S : sends _ _ _ _ _ _ _ _ |- _ => apply sends_blocked with (r' := r) (w' := w) in S; contradiction end).
  Qed.
  Lemma blocked_alive s x s' l' r w : inv3 s -> vstep s x s' l' -> In (WBlocked r w) l' -> q_alive (get3 (v_reqs s) r) = true.
  Proof.
    intros I ST B. inversion ST; subst; try contradiction.
    - match goal with T : tstep _ _ _ _ _ _ _ _ _, V : v_tasks s = _ |- _ => pose proof (i3_tasks s I t ltac:(rewrite V; apply in_or_app; right; left; reflexivity)) as AL; inversion T; subst; try contradiction end;
      try (match goal with S : sends _ _ _ _ _ _ _ _ |- _ => apply sends_blocked with (r' := r) (w' := w) in S; contradiction end);
      try (match goal with S : asks _ _ _ _ _ _ _ |- _ => apply asks_blocked with (r' := r) (w' := w) in S; contradiction end);
      destruct B as [B|[]]; try discriminate; injection B; intros; subst; exact AL.
    - exfalso. match goal with T : lstep _ _ _ _ |- _ => inversion T; subst; try contradiction; try (destruct B as [B|[]]; discriminate); try (destruct B as [B|[B|[]]]; discriminate) end;
      try (match goal with S : sends _ _ _ _ _ _ _ _ |- _ => apply sends_blocked with (r' := r) (w' := w) in S; contradiction end).
  Qed.
End Schedules.
Lemma below_dec (clk : nat -> Z) (b : Z) n : (exists i, (i < n)%nat /\ b <= clk i) \/ ~ (exists i, (i < n)%nat /\ b <= clk i).
Proof.
  induction n as [|n [(i & L & H)|N]]; [right; intros (i & L & _); lia|left; exists i; split; [lia|auto]|].
  destruct (Z.le_gt_cases b (clk n)) as [H|H]; [left; exists n; split; [lia|auto]|]. right. intros (i & L & H').
  destruct (Nat.eq_dec i n) as [->|D]; [lia|]. apply N. exists i. split; [lia|auto].
Qed.
