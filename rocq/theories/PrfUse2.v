(** PrfUse2.v -- the v3 manager and the security module, in every history. *)
From Verif Require Import PrfUsers.
From Verif Require Export SpecUse PrfUse.

(** The user [n] of the namespace [ns]. *)
Definition configured (u : registry) (ns : pystr) (n : bytes) : option userconfig :=
  dict_get zlist_eqb (cfg_users (cfg_of u ns)) n.

Section Cfg.
  Context (C : crypto) (R : Z) (rnd : nat -> Z) (HC : hash_ok C).
  Lemma reach_inv u : reach C R rnd u -> exists s, Inv C (us_users u) s /\ cfg_wf s.
  Proof.
    intros (h & F & ->). destruct (usm_split C R rnd h F) as (th & uh & FO & _ & ->).
    destruct (creds_of_run C rnd uh HC FO) as (s & _ & I & W). eauto.
  Qed.
  Lemma reach_reg u : reach C R rnd u -> reg_ok (us_users u).
  Proof.
    intros H. apply reach_inv in H as (s & I & _). split; [exact (i_keys _ _ _ I)|].
    intros e r E. apply (i_some _ _ _ I e r E).
  Qed.
  Lemma spec_cfg s op s' x ns n cf : spec_step C s op s' x -> sp_cfg s ns n = Some cf -> sp_cfg s' ns n = Some cf.
  Proof.
    intros ST E. inversion ST; subst; auto.
    - cbn [sp_cfg]. unfold upd2. destruct (zlist_eqb ns ns0 && zlist_eqb n n0)%bool eqn:B; [|exact E].
      apply Bool.andb_true_iff in B as [B1 B2]. apply PrfDict.zlist_eqb_eq in B1, B2. subst ns0 n0.
      destruct H1 as [H1|[H1 _]]; [congruence|]. rewrite <- H1. exact E.
    - destruct (live_elsewhere _ _ _); exact E.
  Qed.
  Lemma step_cfg u op ns n cf : reach C R rnd u -> op_ok op -> configured (us_users u) ns n = Some cf ->
    configured (fst (user_step C rnd (us_users u) op)) ns n = Some cf.
  Proof.
    intros H O E. apply reach_inv in H as (s & I & W). destruct (step_refines C rnd _ s op HC O I W) as (s' & ST & I' & _).
    unfold configured in *. rewrite (i_cfg _ _ _ I) in E. rewrite (i_cfg _ _ _ I'). eapply spec_cfg; eauto.
  Qed.
  Lemma added_cfg u n ap asec pp ps sec d dsl ns c : reach C R rnd u ->
    let op := OpAddUser n ap asec pp ps sec d dsl ns in op_ok op ->
    snd (user_step C rnd (us_users u) op) = Ok true -> spec_credentials C ap asec pp ps sec c ->
    exists cf, configured (fst (user_step C rnd (us_users u) op)) ns n = Some cf /\ uc_credentials cf = c.
  Proof.
    intros H op O E SC. apply reach_inv in H as (s & I & W). destruct (step_refines C rnd _ s op HC O I W) as (s' & ST & I' & _).
    rewrite E in ST. unfold configured. rewrite (i_cfg _ _ _ I'). unfold op in ST. inversion ST; subst.
    cbn [sp_cfg]. unfold upd2. rewrite !PrfBase.zlist_eqb_refl. cbn [andb]. eexists. split; [reflexivity|]. cbn. eapply spec_credentials_unique; eauto.
  Qed.
  Lemma cfg_credentials u ns e n cf : reach C R rnd u -> 0 < registered (us_users u) ns e -> configured (us_users u) ns n = Some cf ->
    exists l, getCredentials (us_users u) e n = Ok l /\ localised_to C (uc_credentials cf) e l.
  Proof.
    intros H RG E. apply reach_inv in H as (s & I & W). unfold registered in RG. unfold configured in E. rewrite (i_cfg _ _ _ I) in E.
    destruct (dict_get zlist_eqb (ur_engines (us_users u)) e) as [r|] eqn:D; [|lia].
    destruct (zlist_eqb (re_namespace r) ns) eqn:N; [|lia]. apply PrfDict.zlist_eqb_eq in N. subst ns.
    pose proof (i_users _ _ _ I e r D n) as U. unfold getCredentials. rewrite D.
    destruct (dict_get zlist_eqb (re_users r) n) as [l|]; [|congruence]. destruct U as (cf' & E' & L). rewrite E in E'. injection E' as <-. eauto.
  Qed.
End Cfg.

Section World.
  Context (W : world).
  Notation C := (w_crypto W).
  Notation R := (w_ticks W).
  Notation reachW := (reach C R (w_rnd W 2)).
  Notation goodW := (good (w_size W) reachW).
  Context (OK : world_ok W).
  Lemma reach_send u m e n ts : reachW u -> reachW (fst (usm_prepareOutgoing C R u m e n ts)).
  Proof. intros H. exact (reach_step C R (w_rnd W 2) u (USend m e n ts) H Logic.I). Qed.
  Lemma reach_op u op : op_ok op -> reachW u -> reachW (mkUsm (us_time u) (fst (user_step C (w_rnd W 2) (us_users u) op))).
  Proof. intros O H. exact (reach_step C R (w_rnd W 2) u (UUser op) H O). Qed.
  Lemma reg_op_ok ns op : reg_op ns op -> op_ok op.
  Proof. intros (e & [->| ->]); exact Logic.I. Qed.
  Lemma not_fair s : fairly (w_namespace W) false s.
  Proof. intros H. discriminate H. Qed.
  Lemma run_good evs : Forall event_ok evs -> forall s l, run3 W evs = (s, l) -> inv3 s /\ goodW s.
  Proof.
    destruct OK as [(h & F & U) D0 D1]. induction evs as [|x evs IH] using rev_ind; intros EV s l E.
    - injection E as <- <-. unfold new3. destruct (mgr3_new _ _ _ _ _ _) as [s0 x] eqn:N. cbn [fst]. split; [eapply inv3_start; exact N|].
      eapply (start_good C (w_rnd W) (w_namespace W) (w_size W) D0 D1 reachW); [|exists h; split; [exact F|exact U]|exact N].
      intros; apply reach_op; [eapply reg_op_ok; eauto|auto].
    - apply Forall_app in EV as [EV EX]. inversion EX; subst.
      unfold run3 in E. rewrite m3_run_snoc in E. fold (run3 W evs) in E. destruct (run3 W evs) as [s1 l1] eqn:R1.
      destruct (m3_step _ _ _ _ _ _ _ _) as [s2 l2] eqn:M. injection E as <- <-. destruct (IH EV s1 l1 eq_refl) as [I G].
      split; [eapply step_spec; [exact I|]; eapply m3_step_spec; exact M|].
      eapply (step_good C R (w_rnd W) (w_clk W) (w_fmt W) (w_namespace W) (w_size W) D0 D1 reachW reach_send) in M as [M _]; [|intros; apply reach_op; [eapply reg_op_ok; eauto|auto]|exact I|exact G|apply not_fair].
      apply M. destruct x; try exact Logic.I.
      + intros al u y. apply incoming_reach. apply (g_usm _ _ _ G).
      + apply reach_op; [exact H1|apply (g_usm _ _ _ G)].
  Qed.
  (** What is configured stays. *)
  Context (HC : hash_ok C).
  Definition with_user (n : bytes) (cf : userconfig) (u : usm) : Prop := reachW u /\ configured (us_users u) (w_namespace W) n = Some cf.
  Lemma with_send n cf u m e n' ts : with_user n cf u -> with_user n cf (fst (usm_prepareOutgoing C R u m e n' ts)).
  Proof.
    intros [H K]. split; [now apply reach_send|]. destruct (prepare_state C R u m e n' ts) as [_ [X|(data & b & t & X)]]; rewrite X; [exact K|].
    rewrite (encrypt_step_rnd C (fun _ => 0) (w_rnd W 2)). eapply step_cfg; [exact HC|exact H|exact Logic.I|exact K].
  Qed.
  Lemma with_op n cf u op : op_ok op -> with_user n cf u -> with_user n cf (mkUsm (us_time u) (fst (user_step C (w_rnd W 2) (us_users u) op))).
  Proof. intros O [H K]. split; [now apply reach_op|]. eapply step_cfg; eauto. Qed.
  Lemma run_cfg n cf before evs : Forall event_ok (before ++ evs) -> forall s0 l0, run3 W before = (s0, l0) -> with_user n cf (v_usm s0) ->
    forall s l, run3 W (before ++ evs) = (s, l) -> with_user n cf (v_usm s).
  Proof.
    intros EV s0 l0 E0 K0. induction evs as [|x evs IH] using rev_ind; intros s l E.
    - rewrite app_nil_r in E. rewrite E0 in E. injection E as <- <-. exact K0.
    - rewrite app_assoc in E, EV. assert (EV' := EV). apply Forall_app in EV' as [EV1 EX]. inversion EX; subst.
      unfold run3 in E. rewrite m3_run_snoc in E. fold (run3 W (before ++ evs)) in E. destruct (run3 W (before ++ evs)) as [s1 l1] eqn:R1.
      destruct (m3_step _ _ _ _ _ _ _ _) as [s2 l2] eqn:M. injection E as <- <-. specialize (IH EV1 s1 l1 eq_refl).
      destruct (run_good _ EV1 s1 l1 R1) as [I G]. destruct OK as [_ D0 D1].
      assert (G' : good (w_size W) (with_user n cf) s1) by (destruct G as [G1 G2 G3 G4 G5]; constructor; auto).
      eapply (step_good C R (w_rnd W) (w_clk W) (w_fmt W) (w_namespace W) (w_size W) D0 D1 (with_user n cf)) in M as [M _];
        [|intros; now apply with_send|intros; apply with_op; [eapply reg_op_ok; eauto|auto]|exact I|exact G'|apply not_fair].
      apply (g_usm (w_size W) (with_user n cf)), M. destruct x; try exact Logic.I.
      + intros al u y EQ. split; [eapply incoming_reach; [|exact EQ]; apply (g_usm _ _ _ G)|]. apply incoming_keep in EQ. rewrite EQ. apply IH.
      + apply with_op; [exact H1|exact IH].
  Qed.
  Lemma added_run evs n c s l : Forall event_ok evs -> user_added W evs n c -> run3 W evs = (s, l) ->
    exists cf, uc_credentials cf = c /\ with_user n cf (v_usm s).
  Proof.
    intros EV (before & after & ap & asec & pp & ps & sec & d & dsl & E & OKR & SC) RUN.
    set (op := OpAddUser n ap asec pp ps sec d dsl (w_namespace W)) in *. subst evs.
    assert (EB : Forall event_ok before) by (apply Forall_app in EV; tauto).
    assert (OO : op_ok op) by (apply Forall_app in EV as [_ EV]; inversion EV; subst; exact H1).
    destruct (run3 W before) as [s1 l1] eqn:R1. cbn [fst] in OKR. destruct (run_good _ EB s1 l1 R1) as [I G].
    destruct (added_cfg C R (w_rnd W 2) HC (v_usm s1) n ap asec pp ps sec d dsl (w_namespace W) c (g_usm _ _ _ G) OO OKR SC) as (cf & K & EC).
    exists cf. split; [exact EC|]. change (before ++ VUsers op :: after) with (before ++ [VUsers op] ++ after) in *. rewrite app_assoc in EV, RUN.
    destruct (run3 W (before ++ [VUsers op])) as [s2 l2] eqn:R2. eapply (run_cfg n cf (before ++ [VUsers op]) after EV s2 l2 R2); [|exact RUN].
    unfold run3 in R2. rewrite m3_run_snoc in R2. fold (run3 W before) in R2. rewrite R1 in R2. cbn [ManagerV3.m3_step] in R2. apply (f_equal fst) in R2. cbn [fst] in R2. rewrite <- R2.
    cbn [v_usm set_users set_io]. split; [apply reach_op; [exact OO|apply (g_usm _ _ _ G)]|exact K].
  Qed.
End World.
