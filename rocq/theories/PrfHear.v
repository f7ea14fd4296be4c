(** PrfHear.v -- where what the v3 manager hears comes from: which datagram, and
    which addUser() the keys that verified it come from. *)
From Verif Require Import PrfUsers PrfMgr3d.
From Verif Require Export SpecUse PrfUse PrfUse2.

(** [m] is what was made of a datagram. *)
Definition heard (W : world) (evs : list event3) (h : nat) (m : v3msg) : Prop :=
  exists before d after s l u, evs = before ++ VReceive d :: after /\ run3 W before = (s, l) /\
    v3_prepareDataElements (w_crypto W) (w_ticks W) (message_alive s) (v_usm s) (v_proc s) d (w_clk W (v_clock s)) = (u, Ok (m, h)).

Section Hear.
  Context (C : crypto) (R : Z) (rnd : nat -> nat -> Z) (clk : nat -> Z) (ns : pystr).
  Lemma listener_push s x s' l' h m : vstep C R rnd clk ns s x s' l' -> v_listener s' = LPush h m ->
    v_listener s = LPush h m \/ exists d u, x = VReceive d /\
      v3_prepareDataElements C R (message_alive s) (v_usm s) (v_proc s) d (clk (v_clock s)) = (u, Ok (m, h)).
  Proof.
    intros ST L. destruct x as [p user level timeout period|r|n|d| |r|op|p e user level|h1].
    4:{ inversion ST; subst; [now left| |left; exact L|match goal with X : others_event _ |- _ => destruct X end]. right. cbn in L. injection L as <- <-. eauto. }
    all: left; pose proof (step_listener _ _ _ _ _ _ _ _ _ ST) as LM.
    all: inversion LM as [N E|E|d0 u h0 m0 L0 L1 L2 E|h0 m0 e0 w0 vb L0 L1 L2 L3 g L4 E|h0 m0 e0 sc L0 L1 L2 L3 L4 E|r0 e0 w0 L0 E|r0 e0 w0 L0 E|r0 m0 L0 E]; rewrite L in E;
      [exact E|discriminate E| |discriminate E|discriminate E|discriminate E|destruct w0; discriminate E|discriminate E].
    all: exfalso; clear - ST L L0.
    - inversion ST; subst; try (match goal with X : others_event _ |- _ => destruct X end); cbn in L; congruence.
    - inversion ST; subst; try (match goal with X : others_event _ |- _ => destruct X end); cbn in L; congruence.
    - inversion ST; subst; [congruence| |match goal with X : others_event _ |- _ => destruct X end]. cbn in L. rewrite (tstep_listener _ _ _ _ _ _ _ _ _ H1) in L. congruence.
    - inversion ST; subst; [congruence| |match goal with X : others_event _ |- _ => destruct X end]. inversion H; subst; congruence.
    - inversion ST; subst; [congruence| |match goal with X : others_event _ |- _ => destruct X end]. destruct H1 as (u & p & q & m' & -> & _). cbn in L. congruence.
    - inversion ST; subst; [congruence| |match goal with X : others_event _ |- _ => destruct X end]. cbn in L. congruence.
    - inversion ST; subst; [congruence|]. match goal with X : outside _ _ |- _ => destruct X as (u & p1 & q & m' & -> & _) end. cbn in L. congruence.
    - inversion ST; subst; [congruence|]. match goal with X : outside _ _ |- _ => destruct X as (u & p1 & q & m' & -> & _) end. cbn in L. congruence.
  Qed.
End Hear.

Lemma heard_more W evs x h m : heard W evs h m -> heard W (evs ++ [x]) h m.
Proof. intros (b & d & a & s & l & u & -> & H). exists b, d, (a ++ [x]), s, l, u. split; [rewrite <- app_assoc; reflexivity|exact H]. Qed.
Lemma heard_run W evs s l : history W evs s l ->
  (forall h m, v_listener s = LPush h m -> heard W evs h m) /\ (forall h m, In (WPushed h m) l -> heard W evs h m).
Proof.
  intros [N H]. revert s l H. induction evs as [|x evs IH] using rev_ind; intros s l H.
  - unfold run3 in H. cbn in H. injection H as <- <-. split; [|intros h m []]. intros h m L. exfalso. revert L.
    assert (v_listener (fst (new3 W)) = LIdle) as ->; [|discriminate].
    unfold new3 in *. destruct (mgr3_new _ _ _ _ _ _) as [s0 y] eqn:E. cbn in N |- *. subst y.
    now apply start_fields in E.
  - unfold run3 in H. rewrite m3_run_snoc in H. fold (run3 W evs) in H. destruct (run3 W evs) as [s1 l1] eqn:R1.
    destruct (m3_step _ _ _ _ _ _ _ _) as [s2 l2] eqn:M. injection H as <- <-. destruct (IH s1 l1 eq_refl) as [A B]. apply m3_step_spec in M. split.
    + intros h m L. destruct (listener_push _ _ _ _ _ _ _ _ _ _ _ M L) as [L1|(d & u & -> & E)]; [now apply heard_more, A|].
      exists evs, d, [], s1, l1, u. auto.
    + intros h m K. apply in_app_or in K as [K|K]; [|now apply heard_more, B]. apply in_rev in K.
      apply heard_more, A. now apply (pushed_listener _ _ _ _ _ _ _ _ _ _ _ M K).
Qed.

(** * Where the keys come from *)
(** [known]: the operations on users that are known of. *)
Section Origin.
  Context (C : crypto) (R : Z) (rnd : nat -> Z) (HC : hash_ok C) (known : user_op -> Prop).
  Definition telling (op : user_op) : Prop := match op with OpAddUser _ _ _ _ _ _ _ _ _ | OpRegister _ _ => known op | _ => True end.
  Definition told (u : usm) : Prop := exists h, Forall usm_op_ok h /\ u = usm_after C R rnd h /\ forall op, In (UUser op) h -> telling op.
  Lemma told_reach u : told u -> reach C R rnd u.
  Proof. intros (h & F & E & _). exists h. auto. Qed.
  Lemma told_step u op : told u -> usm_op_ok op -> (forall o, op = UUser o -> telling o) -> told (usm_step C R rnd u op).
  Proof.
    intros (h & F & E & K) O T. exists (h ++ [op]). split; [apply Forall_app; auto|]. split.
    - unfold usm_after in *. rewrite fold_left_app. cbn [fold_left]. now rewrite <- E.
    - intros o I. apply in_app_or in I as [I|[I|[]]]; auto.
  Qed.
  Lemma told_incoming alive u p d ts u' x : told u -> v3_prepareDataElements C R alive u p d ts = (u', x) -> told u'.
  Proof.
    intros G. unfold v3_prepareDataElements. destruct (v3_decode _) as [m|ex]; [|intros H; injection H as <- _; exact G].
    destruct (has_module _ _); [|intros H; injection H as <- _; exact G].
    assert (X : told (usm_step C R rnd u (UReceive m ts))) by (apply told_step; [exact G|exact Logic.I|discriminate]). cbn [usm_step] in X.
    destruct (usm_processIncoming _ _ _ _ _) as [u1 [m1|ex]]; intros H; injection H as <- _; exact X.
  Qed.
  (** The abstract state of the registry has only what was added. *)
  Lemma spec_origin s h s' rs : spec_run C s h s' rs ->
    (forall ns n cf, sp_cfg s' ns n = Some cf -> sp_cfg s ns n = Some cf \/
       exists ap asec pp ps sec d dsl, In (OpAddUser n ap asec pp ps sec d dsl ns) h /\ spec_credentials C ap asec pp ps sec (uc_credentials cf)) /\
    (forall e ns, In (e, ns) (sp_live s') -> In (e, ns) (sp_live s) \/ In (OpRegister e ns) h).
  Proof.
    induction 1 as [s|s op s1 r h s2 rs ST RU [IH1 IH2]]; [split; auto|].
    assert (X : (forall ns n cf, sp_cfg s1 ns n = Some cf -> sp_cfg s ns n = Some cf \/
       exists ap asec pp ps sec d dsl, op = OpAddUser n ap asec pp ps sec d dsl ns /\ spec_credentials C ap asec pp ps sec (uc_credentials cf)) /\
      (forall e ns, In (e, ns) (sp_live s1) -> In (e, ns) (sp_live s) \/ op = OpRegister e ns)).
    { destruct ST; try solve [split; auto].
      - split; [|auto]. cbn. intros ns' n' cf. unfold upd2. destruct (zlist_eqb ns' ns && zlist_eqb n' n) eqn:B; [|auto].
        apply andb_true_iff in B as [B1 B2]. apply PrfDict.zlist_eqb_eq in B1, B2. subst. intros H3. injection H3 as <-. right. cbn. exists ap, asec, pp, ps, sec, d, dsl. auto.
      - destruct (live_elsewhere s e ns); [split; auto|]. split; [auto|]. cbn. intros e' ns' [H|H]; [injection H as <- <-|]; auto.
      - split; [auto|]. cbn. intros e' ns' H. left. clear - H. induction (sp_live s) as [|y l IH]; [destruct H|]. cbn in H. destruct (pair_eqb _ _); [now right|].
        destruct H as [H|H]; [now left|right; auto]. }
    destruct X as [X1 X2]. split.
    - intros ns n cf H. destruct (IH1 _ _ _ H) as [H1|(ap & asec & pp & ps & sec & d & dsl & I & S)].
      + destruct (X1 _ _ _ H1) as [H2|(ap & asec & pp & ps & sec & d & dsl & -> & S)]; [auto|]. right. exists ap, asec, pp, ps, sec, d, dsl. split; [now left|exact S].
      + right. exists ap, asec, pp, ps, sec, d, dsl. split; [now right|exact S].
    - intros e ns H. destruct (IH2 _ _ H) as [H1|H1]; [|right; now right]. destruct (X2 _ _ H1) as [H2|H2]; [auto|right; now left].
  Qed.
  Lemma told_users u : told u -> exists uh, Forall op_ok uh /\ us_users u = fst (user_run C rnd registry0 uh) /\ forall op, In op uh -> telling op.
  Proof.
    intros (h & F & -> & K). induction h as [|op h IH] using rev_ind; [exists []; repeat split; [constructor|intros op []]|].
    apply Forall_app in F as [F Fo]. inversion Fo as [|? ? O _]; subst.
    destruct (IH F) as (uh & FO & U & T); [intros o I; apply K, in_or_app; auto|].
    unfold usm_after in *. rewrite fold_left_app. cbn [fold_left]. set (s := fold_left _ h _) in *.
    destruct op as [o|m e n ts|m ts]; cbn [usm_step].
    - exists (uh ++ [o]). split; [apply Forall_app; auto|]. split; [cbn; now rewrite user_run_snoc, <- U|].
      intros op I. apply in_app_or in I as [I|[I|[]]]; [auto|subst op]. apply K, in_or_app. right. now left.
    - destruct (prepare_state C R s m e n ts) as (T1 & [U1|(data & b & t & U1)]); [exists uh; rewrite U1; auto|].
      exists (uh ++ [OpEncrypt e n data b t]). split; [apply Forall_app; split; auto; repeat constructor|].
      split; [rewrite U1, user_run_snoc, <- U; now rewrite (encrypt_step_rnd C _ rnd)|].
      intros op I. apply in_app_or in I as [I|[I|[]]]; [auto|subst op]. exact Logic.I.
    - destruct (process_state C R s m ts) as (U1 & _). exists uh. rewrite U1. auto.
  Qed.
  (** Every key was given to addUser(), in the namespace in which the engine was registered. *)
  Lemma told_key u e n l : told u -> getCredentials (us_users u) e n = Ok l ->
    exists ns ap asec pp ps sec d dsl c, known (OpRegister e ns) /\ known (OpAddUser n ap asec pp ps sec d dsl ns) /\
      spec_credentials C ap asec pp ps sec c /\ localised_to C c e l.
  Proof.
    intros T G. destruct (told_users u T) as (uh & F & U & K). rewrite U in G.
    destruct (lookup_spec C rnd uh HC F) as (s & SR & L & _). destruct (spec_origin _ _ _ _ SR) as [O1 O2].
    destruct (L e n) as (A & B & _). destruct (live_engine s e) eqn:LE.
    2:{ rewrite (proj2 A eq_refl) in G. discriminate. }
    unfold live_engine in LE. apply existsb_exists in LE as ([e' ns] & LI & EQ). cbn in EQ. apply PrfDict.zlist_eqb_eq in EQ as ->.
    specialize (B ns LI). destruct (sp_cfg s ns n) as [cf|] eqn:CF; [|congruence]. destruct B as (l' & G' & LO). rewrite G in G'. injection G' as <-.
    destruct (O2 _ _ LI) as [[]|RE]. destruct (O1 _ _ _ CF) as [X|(ap & asec & pp & ps & sec & d & dsl & I & S)]; [discriminate|].
    exists ns, ap, asec, pp, ps, sec, d, dsl, (uc_credentials cf). split; [exact (K _ RE)|]. split; [exact (K _ I)|]. auto.
  Qed.
End Origin.

(** * In every history *)
Section World.
  Context (W : world) (h0 : list usm_op) (F0 : Forall usm_op_ok h0) (U0 : w_usm W = usm_after (w_crypto W) (w_ticks W) (w_rnd W 2) h0).
  Context (D0 : draws_ok gen_v3 (w_rnd W 0)) (D1 : draws_ok gen_v1 (w_rnd W 1)).
  (** The manager itself registers engines in its own namespace. *)
  Definition op_known (all : list event3) (op : user_op) : Prop := performed h0 all op \/ exists e, op = OpRegister e (w_namespace W).
  Notation toldW all := (told (w_crypto W) (w_ticks W) (w_rnd W 2) (op_known all)).
  Lemma world_is_ok : world_ok W.
  Proof. constructor; auto. exists h0. auto. Qed.
  Lemma told_send all u m e n ts : toldW all u -> toldW all (fst (usm_prepareOutgoing (w_crypto W) (w_ticks W) u m e n ts)).
  Proof. intros H. apply (told_step _ _ _ _ u (USend m e n ts) H Logic.I). discriminate. Qed.
  Lemma told_reg all u op : reg_op (w_namespace W) op -> toldW all u -> toldW all (mkUsm (us_time u) (fst (user_step (w_crypto W) (w_rnd W 2) (us_users u) op))).
  Proof.
    intros O H. apply (told_step _ _ _ _ u (UUser op) H); [exact (reg_op_ok _ _ O)|]. intros o E. injection E as <-.
    destruct O as [e [->| ->]]; [right; eauto|exact Logic.I].
  Qed.
  Lemma told_run all evs : Forall event_ok evs -> (forall x, In x evs -> In x all) -> forall s l, run3 W evs = (s, l) -> toldW all (v_usm s).
  Proof.
    induction evs as [|x evs IH] using rev_ind; intros EV SUB s l E.
    - injection E as <- <-. unfold new3. destruct (mgr3_new _ _ _ _ _ _) as [s0 x] eqn:N. cbn [fst].
      apply (g_usm (w_size W) (toldW all)). eapply (start_good (w_crypto W) (w_rnd W) (w_namespace W) (w_size W) D0 D1 (toldW all)); [|exists h0|exact N].
      + intros; now apply told_reg.
      + split; [exact F0|]. split; [exact U0|]. intros op I. destruct op; try exact Logic.I; left; now left.
    - apply Forall_app in EV as [EV EX]. inversion EX; subst.
      unfold run3 in E. rewrite m3_run_snoc in E. fold (run3 W evs) in E. destruct (run3 W evs) as [s1 l1] eqn:R1.
      destruct (m3_step _ _ _ _ _ _ _ _) as [s2 l2] eqn:M. injection E as <- <-.
      assert (T := IH EV ltac:(intros; apply SUB, in_or_app; auto) s1 l1 eq_refl).
      destruct (run_good W world_is_ok evs EV s1 l1 R1) as [I G].
      assert (G' : good (w_size W) (toldW all) s1) by (destruct G as [G1 G2 G3 G4 G5]; constructor; auto).
      eapply (step_good (w_crypto W) (w_ticks W) (w_rnd W) (w_clk W) (w_fmt W) (w_namespace W) (w_size W) D0 D1 (toldW all)) in M as [M _];
        [|intros; now apply told_send|intros; now apply told_reg|exact I|exact G'|apply not_fair].
      apply (g_usm (w_size W) (toldW all)), M. destruct x; try exact Logic.I.
      + intros al u y. now apply told_incoming.
      + apply (told_step _ _ _ _ (v_usm s1) (UUser op) T); [exact H1|]. intros o E. injection E as <-.
        destruct op; try exact Logic.I; left; right; apply SUB, in_or_app; right; now left.
  Qed.
End World.
