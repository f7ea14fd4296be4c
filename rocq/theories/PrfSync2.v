(** PrfSync2.v -- the first report notInTimeWindows for a request is not ignored. *)
From Verif Require Export PrfSync.
From Verif Require Import PrfMgr3 PrfMgr3a PrfMgr3c PrfMgr3d PrfMgr3h.
Section Fresh.
  Context (C : crypto) (R : Z) (rnd : nat -> nat -> Z) (clk : nat -> Z) (fmt : v3msg -> bool) (ns : pystr).
  Notation vstep := (PrfMgr3a.vstep C R rnd clk ns).
  Definition again (l : list log3) (r : nat) : Prop := exists y, In y l /\ time_sent r y = true.
  Record fresh_inv (s : mgr3) (l : list log3) : Prop := {
    f_own : forall g r, In g (mine s) -> (r < length (v_reqs s))%nat -> g_sync g = q_sync (get3 (v_reqs s) r) -> g_req g = r;
    f_inj : forall r r', (r < length (v_reqs s))%nat -> (r' < length (v_reqs s))%nat -> q_sync (get3 (v_reqs s) r) = q_sync (get3 (v_reqs s) r') -> r = r';
    f_req : forall r, (r < length (v_reqs s))%nat -> nth (q_sync (get3 (v_reqs s) r)) (v_bools s) true = false;
    f_msg : forall g, In g (mine s) -> nth (g_sync g) (v_bools s) true = true -> again l (g_req g);
    f_busy : forall r, (exists e, v_listener s = LDrain r e ByNotInTime) \/ v_listener s = LSync r -> again l r
  }.
  Lemma again_more l l' r : again l r -> again (rev l' ++ l) r.
  Proof. intros (y & Y & T). exists y. split; [apply in_or_app; now right|exact T]. Qed.
  Lemma fresh_start u maxSize cfg s0 y : mgr3_new C rnd ns u maxSize cfg = (s0, y) -> fresh_inv s0 [].
  Proof.
    intros H0. apply start_fields in H0 as (_ & _ & _ & H4 & H5 & H6 & _ & H8 & _).
    constructor; unfold mine; rewrite ?H4, ?H5, ?H6, ?H8; cbn; try contradiction; try (intros; lia). intros r [(e & X)|X]; discriminate.
  Qed.
  Lemma sends_says s r w now eng s1 l x : sends s r w now eng s1 l x -> exists y, In y l /\ sends_something y = true.
  Proof.
    intros H. inversion H; subst; [eexists; split; [left; reflexivity|reflexivity]|].
    match goal with X : (exists wire, _) \/ _ |- _ => destruct X as [(wire & _ & ->)|(ex & _ & ->)] end; (eexists; split; [left; reflexivity|reflexivity]).
  Qed.
  Lemma from_report s x s' l r e w : vstep s x s' l -> v_listener s = LReport r e w ->
    v_listener s' = LReport r e w \/ v_listener s' = LIdle \/ exists y, In y l /\ sends_something y = true.
  Proof.
    intros ST L. inversion ST; subst; auto; try congruence.
    - left. cbn. rewrite (tstep_listener _ _ _ _ _ _ _ _ _ H0). exact L.
    - inversion H; subst; auto; try congruence.
      right. right. eapply sends_says; eassumption.
    - left. destruct H0 as (u & p & q & m & -> & _). exact L.
    - left. destruct H0 as (u & p & q & m & -> & _). exact L.
  Qed.
  Lemma fresh_step s x s' l l' : base s -> time_inv s l -> fresh_inv s l -> vstep s x s' l' -> fresh_inv s' (rev l' ++ l).
  Proof.
    intros [I W] [T1 T2 T3 T4 T5 _] [F1 F2 F3 F4 F5] ST. pose proof (step_spec _ _ _ _ _ _ _ _ _ I ST) as (I' & EV & _).
    assert (LM := step_listener _ _ _ _ _ _ _ _ _ ST).
    assert (GR : forall g, In g (mine s) -> (g_req g < length (v_reqs s))%nat).
    { intros g G. apply in_msgs in G as (h & H & <- & O). apply (proj1 (i3_msgs s I)); assumption. }
    destruct (step_class _ _ _ _ _ _ _ _ _ I W ST) as [SS|QS].
    - destruct SS as [r w sc eng s1 s2 y SB R1 M1 P1 B1 C1 R2 M2 P2 B2 AL CASE]. pose proof (get3_alive_lt _ _ AL) as LT.
      assert (QS : forall q, q_sync (get3 (v_reqs s') q) = q_sync (get3 (v_reqs s) q)).
      { intros q0. rewrite R2. destruct (sent_by_reqs _ _ _ _ _ _ _ _ _ SB) as [e' ->]. rewrite R1, get3_put. destruct (_ && _)%bool eqn:X; [|auto].
        apply andb_prop in X as [X _]. apply Nat.eqb_eq in X as <-. reflexivity. }
      assert (LR : length (v_reqs s') = length (v_reqs s)) by (rewrite R2; destruct (sent_by_reqs _ _ _ _ _ _ _ _ _ SB) as [e' ->]; now rewrite put_length, R1).
      assert (BB : v_bools s' = v_bools s).
      { rewrite B2, <- B1. now destruct (sent_by_frame _ _ _ _ _ _ _ _ _ SB) as (_ & _ & _ & _ & _ & _ & _ & _ & -> & _). }
      destruct (sent_by_msgs _ _ _ _ _ _ _ _ _ SB) as (extra & MX & GX0).
      assert (GX : forall g, In g extra -> g_req g = r /\ g_sync g = q_sync (get3 (v_reqs s1) r)) by (intros g G; destruct (GX0 g G) as (? & ? & _); auto).
      assert (GO : forall g, In g extra -> g_own g = true) by (intros g G; apply (GX0 g G)). rewrite M1, <- M2 in MX. rewrite R1 in GX.
      assert (MF : mine s' = mine s ++ extra).
      { unfold mine. rewrite MX, filter_app. f_equal. clear - GO. induction extra as [|g l IH]; [reflexivity|]. cbn. rewrite (GO g (or_introl eq_refl)). f_equal. apply IH. intros g' G'. apply GO. now right. }
      constructor.
      + intros g r0. rewrite MF, LR, QS. intros G L E. apply in_app_or in G as [G|G]; [auto|]. apply GX in G as [G1 G2]. rewrite G1. apply F2; [exact LT|exact L|congruence].
      + intros r0 r1. rewrite LR, !QS. apply F2.
      + intros r0. rewrite LR, QS, BB. apply F3.
      + intros g. rewrite MF, BB. intros G E. apply in_app_or in G as [G|G]; [apply again_more; auto|]. apply GX in G as [_ G2]. rewrite G2, F3 in E by exact LT. discriminate E.
      + intros r0 H.
        assert (SAME : v_listener s' = v_listener s -> again (rev l' ++ l) r0) by (intros E; rewrite E in H; apply again_more, F5, H).
        destruct w.
        * destruct CASE as (_ & _ & _ & _ & E). auto.
        * destruct CASE as (_ & _ & _ & _ & E). auto.
        * destruct CASE as (_ & _ & r1 & e0 & w0 & rest & E & _ & _ & _ & E'). destruct y as [u|ex].
          -- apply SAME. congruence.
          -- rewrite E' in H. destruct H as [(e & H)|H]; discriminate H.
        * destruct CASE as (_ & _ & _ & _ & _ & E). auto.
        * destruct CASE as (_ & _ & e & E & _ & E1 & E2). destruct y as [u|ex].
          -- destruct u. exfalso. destruct (E2 eq_refl) as [X|X]; rewrite X in H; cbn in H; destruct H as [(e' & H)|H]; discriminate H.
          -- rewrite E1 in H. destruct H as [(e' & H)|H]; discriminate H.
        * destruct CASE as (_ & _ & e & E & _ & E1 & E2). destruct y as [u|ex].
          -- assert (r0 = r). { destruct u. destruct (E2 eq_refl) as [X|X]; rewrite X in H; cbn in H; destruct H as [(e' & H)|H]; congruence. } subst r0.
             destruct (sent_by_log _ _ _ _ _ _ _ _ _ SB) as [(_ & h & d & e' & user & lev & wire & ->)|(ex & h & X & _)]; [|discriminate X].
             eexists. split; [apply in_or_app; left; now left|]. cbn. now rewrite Nat.eqb_refl.
          -- rewrite E1 in H. destruct H as [(e' & H)|H]; discriminate H.
    - assert (MB := fun g => msgs_back s s' g EV (match qs_msgs _ _ _ _ _ QS with or_introl e => or_introl e | or_intror (conj _ o) => or_intror o end)).
      assert (NEW : forall r, (r < length (v_reqs s'))%nat -> (r < length (v_reqs s))%nat \/ (r = length (v_reqs s) /\ (q_sync (get3 (v_reqs s') r) = length (v_bools s)) /\ exists p u le t pe, x = VCall p u le t pe)).
      { intros r L. destruct (qs_new _ _ _ _ _ QS) as [E|(p & user & level & timeout & period & id & -> & E)]; [left; lia|].
        rewrite E, app_length in L. cbn in L. destruct (Nat.eq_dec r (length (v_reqs s))) as [->|]; [right|left; lia]. split; [auto|]. rewrite E, get3_app, Nat.eqb_refl. cbn. split; [auto|]. eauto 8. }
      assert (BUSY : forall r, (exists e, v_listener s' = LDrain r e ByNotInTime) \/ v_listener s' = LSync r -> again (rev l' ++ l) r).
      { intros r H. assert (NL : forall r e, v_listener s = LReport r e ByNotInTime -> v_listener s' = LReport r e ByNotInTime \/ v_listener s' = LIdle).
        { intros r1 e1 L1. destruct (from_report _ _ _ _ _ _ _ ST L1) as [X|[X|(y & Y & X)]]; auto. rewrite (qs_log _ _ _ _ _ QS y Y) in X. discriminate X. }
        inversion LM as [N E|E|d u h m L0 L1 L2 E|h m e0 w0 vb L0 L1 L2 L3 g L4 E|h m e0 sc L0 L1 L2 L3 L4 E|r0 e0 w0 L0 E|r0 e0 w0 L0 E|r0 m L0 E]; rewrite <- E in H.
        - apply again_more, F5. exact H.
        - destruct H as [(e & H)|H]; discriminate H.
        - destruct H as [(e & H)|H]; discriminate H.
        - destruct H as [(e & H)|H]; discriminate H.
        - destruct H as [(e & H)|H]; discriminate H.
        - exfalso. destruct H as [(e & H)|H]; [|discriminate H]. injection H as <- <- ->. destruct (NL _ _ L0) as [X|X]; rewrite X in E; discriminate E.
        - destruct w0; try (destruct H as [(e & H)|H]; discriminate H). cbn in H. destruct H as [(e & H)|H]; [discriminate H|]. injection H as <-.
          destruct L0 as [L0|L0]; [exfalso; destruct (NL _ _ L0) as [X|X]; rewrite X in E; discriminate E|]. apply again_more, F5. left. eauto.
        - destruct H as [(e & H)|H]; discriminate H. }
      destruct (qs_sync _ _ _ _ _ QS) as [[EB ES]|[(EB & EC & ES)|(r0 & L0 & L1 & EB & ES)]].
      + assert (LS : length (v_reqs s') = length (v_reqs s)).
        { destruct (qs_new _ _ _ _ _ QS) as [E|(p & user & level & timeout & period & id & -> & E)]; [exact E|]. exfalso.
          inversion ST; subst; [apply (f_equal (@length req3)) in E; rewrite app_length in E; cbn in E; lia| |match goal with X : others_event _ |- _ => destruct X end].
          cbn in EB. apply (f_equal (@length bool)) in EB. rewrite app_length in EB. cbn in EB. lia. }
        constructor; auto; rewrite ?LS.
        * intros g r G L E. destruct (MB g G) as (g0 & G0 & E1 & E2). rewrite E1. apply F1; [exact G0|exact L|]. rewrite <- E2, E. apply ES, L.
        * intros r r' L L' E. rewrite !ES in E by assumption. apply F2; assumption.
        * intros r L. rewrite EB, ES by exact L. apply F3, L.
        * intros g G E. destruct (MB g G) as (g0 & G0 & E1 & E2). rewrite E1. apply again_more, F4; [exact G0|]. rewrite <- E2, <- EB. exact E.
      + assert (LN : length (v_bools s') = Datatypes.S (length (v_bools s))) by (rewrite EB, app_length; cbn; lia).
        constructor; auto.
        * intros g r G L E. destruct (MB g G) as (g0 & G0 & E1 & E2). specialize (T1 g0 G0). destruct (NEW r L) as [L2|(-> & X & _)]; [|lia].
          rewrite E1. apply F1; [exact G0|exact L2|]. rewrite <- E2, E. apply ES, L2.
        * intros r r' L L' E. destruct (NEW r L) as [L2|(-> & X & _)], (NEW r' L') as [L2'|(-> & X' & _)]; [rewrite !ES in E by assumption; apply F2; assumption| | |reflexivity].
          -- rewrite ES, X' in E by exact L2. specialize (T2 r L2). lia.
          -- rewrite X, ES in E by exact L2'. specialize (T2 r' L2'). lia.
        * intros r L. rewrite EB. destruct (NEW r L) as [L2|(-> & X & _)].
          -- rewrite ES by exact L2. rewrite app_nth1 by auto. apply F3, L2.
          -- rewrite X, app_nth2, Nat.sub_diag by lia. reflexivity.
        * intros g G E. destruct (MB g G) as (g0 & G0 & E1 & E2). rewrite E1. apply again_more, F4; [exact G0|]. rewrite E2, EB, app_nth1 in E by auto. exact E.
      + assert (LN : length (v_bools s') = Datatypes.S (length (v_bools s))) by (rewrite EB, app_length, put_length; cbn; lia).
        assert (R0 : (r0 < length (v_reqs s))%nat).
        { assert (A : armed s r0 = true) by (apply T4; auto). apply armed_iff in A as (g & G & <- & _). auto. }
        assert (NBL : forall i, (i < length (v_bools s))%nat -> nth i (v_bools s') true = if Nat.eqb (q_sync (get3 (v_reqs s) r0)) i then true else nth i (v_bools s) true).
        { intros i L. rewrite EB, app_nth1 by (now rewrite put_length). destruct (Nat.eqb_spec (q_sync (get3 (v_reqs s) r0)) i) as [->|N].
          - apply nth_error_nth. now apply put_same.
          - apply nth_error_nth. rewrite put_other by auto. now apply nth_error_nth'. }
        assert (LS : forall r, (r < length (v_reqs s'))%nat -> (r < length (v_reqs s))%nat).
        { intros r L. destruct (NEW r L) as [L2|(_ & _ & p & u & le & t & pe & ->)]; [exact L2|]. exfalso. inversion ST; subst; try congruence; try (match goal with X : others_event _ |- _ => destruct X end).
          cbn in L1. congruence. }
        constructor; auto.
        * intros g r G L E. apply LS in L. destruct (MB g G) as (g0 & G0 & E1 & E2). pose proof (T1 g0 G0) as T. rewrite ES in E by exact L.
          destruct (Nat.eqb_spec r r0) as [->|N]; [lia|]. rewrite E1. apply F1; [exact G0|exact L|congruence].
        * intros r r' L L' E. apply LS in L, L'. pose proof (T2 r L) as B1. pose proof (T2 r' L') as B2. rewrite !ES in E by assumption.
          destruct (Nat.eqb_spec r r0) as [->|N], (Nat.eqb_spec r' r0) as [->|N']; [reflexivity|lia|lia|apply F2; assumption].
        * intros r L. apply LS in L. rewrite ES by exact L. destruct (Nat.eqb_spec r r0) as [->|N].
          -- rewrite EB, app_nth2; rewrite put_length, ?Nat.sub_diag; [reflexivity|lia].
          -- rewrite NBL by auto. destruct (Nat.eqb_spec (q_sync (get3 (v_reqs s) r0)) (q_sync (get3 (v_reqs s) r))) as [X|X]; [|apply F3, L].
             exfalso. apply N. apply F2; auto.
        * intros g G E. destruct (MB g G) as (g0 & G0 & E1 & E2). rewrite E1. apply again_more. rewrite E2, NBL in E by auto.
          destruct (Nat.eqb_spec (q_sync (get3 (v_reqs s) r0)) (g_sync g0)) as [X|X]; [|apply F4; auto].
          rewrite (F1 g0 r0 G0 R0 (eq_sym X)). apply F5. right. exact L0.
  Qed.
  Lemma fresh_run u maxSize cfg s0 y evs s l : mgr3_new C rnd ns u maxSize cfg = (s0, y) -> m3_run C R rnd clk fmt ns s0 evs = (s, l) -> fresh_inv s l.
  Proof.
    intros H0 E. enough (time_inv s l /\ fresh_inv s l) by tauto. revert evs s l E.
    apply (history_ind C R rnd clk fmt ns s0 (fun _ s l => time_inv s l /\ fresh_inv s l)); [eapply base_start; eauto|split; [eapply time_start; eauto|eapply fresh_start; eauto]|].
    intros evs s l x s' l' _ B [K1 K2] ST. split; [eapply time_step; eauto|eapply fresh_step; eauto].
  Qed.
End Fresh.
