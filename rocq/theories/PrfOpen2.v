(** PrfOpen2.v -- open messages in every history of the v3 manager. *)
From Verif Require Export PrfOpen.

Section OpenWorld.
  Context (W : world).
  Notation C := (w_crypto W).
  Notation R := (w_ticks W).
  Notation reachW := (reach C R (w_rnd W 2)).
  Context (OK : world_ok W).
  (** The message with the ID [id] secured_as as [wire]. *)
  Definition secured_as (id : Z) (p : pdu) (e user : bytes) (level : seclevel) (wire : bytes) : Prop :=
    0 <= id <= 2147483647 /\ exists u ts, reachW u /\ snd (usm_prepareOutgoing C R u (outgoing (w_size W) id level p e) e user ts) = Ok wire.
  Record open_inv (s : mgr3) (l : list log3) : Prop := {
    on_cb : forall h id, g_open (getm (v_msgs s) h) = true \/ g_own (getm (v_msgs s) h) = false -> g_cb (getm (v_msgs s) h) = Some id ->
      exists e, dict_get Z.eqb (ca_out (p3_cache (v_proc s))) id = Some e /\ e3_handle e = h;
    on_sent : forall r h w now p e user level wire, In (WSent r h w now p e user level wire) l ->
      (h < length (v_msgs s))%nat /\ (g_req (getm (v_msgs s) h) = r /\ g_own (getm (v_msgs s) h) = true) /\
      (is_Confirmed (pdu_cls p) = true -> g_open (getm (v_msgs s) h) = true ->
       exists id, g_cb (getm (v_msgs s) h) = Some id /\ dict_get Z.eqb (ca_out (p3_cache (v_proc s))) id = Some (mkE3 e [] h user USM level) /\
         secured_as id p e user level wire);
    on_open : forall r h, q_alive (get3 (v_reqs s) r) = true -> (forall o, ~ In (WOutcome r o) l) ->
      (h < length (v_msgs s))%nat -> g_own (getm (v_msgs s) h) = true -> g_req (getm (v_msgs s) h) = r -> g_open (getm (v_msgs s) h) = true
  }.
  Lemma dull_sent l y : (forall y, In y l -> dull y = true) -> In y l -> dull y = false -> False.
  Proof. intros H I D. rewrite (H _ I) in D. discriminate. Qed.
  Lemma open_step s l s' l' : inv3 s -> good (w_size W) reachW s -> evo3 s s' -> open_inv s l ->
    (exists ev, cstep C R (w_rnd W) (w_clk W) (w_namespace W) ev s s' l') -> open_inv s' (rev l' ++ l).
  Proof.
    intros I G EV [O1 O2 O3] [ev H].
    assert (AL : forall r h, (h < length (v_msgs s))%nat -> g_own (getm (v_msgs s) h) = true -> g_req (getm (v_msgs s) h) = r -> q_alive (get3 (v_reqs s') r) = true -> q_alive (get3 (v_reqs s) r) = true).
    { intros r h LT OW <- A. destruct EV as (_ & _ & EV & _). apply (EV _ (proj1 (i3_msgs s I) h LT OW)). exact A. }
    destruct H as [M P D|r c m E M P L|s1 s2 r w now p e user level y T M P RG M' P'|p e user level ts XE o M P L|h id XE OW CB M P L].
    - (* nothing happens to the messages *)
      constructor.
      + rewrite M, P. exact O1.
      + rewrite M, P. intros r h w now p e user level wire IN. apply in_log in IN as [IN|IN]; [destruct (dull_sent _ _ D IN eq_refl)|]. exact (O2 _ _ _ _ _ _ _ _ _ IN).
      + rewrite M. intros r h A N LT OW Q. apply (O3 r h); [exact (AL r h LT OW Q A)| |exact LT|exact OW|exact Q]. intros o IN. apply (N o). apply in_log. auto.
    - (* a request is closed *)
      pose proof (fun h => closed_closed _ _ _ _ _ h E) as E0. pose proof (closed_own _ _ _ _ _ E) as E6. apply closed_messages in E as (E1 & E2 & E3 & E4 & E5).
      assert (NOPEN : forall h, g_own (getm (v_msgs s) h) = false -> g_open (getm (v_msgs s) h) = false).
      { intros h OW. destruct (le_lt_dec (length (v_msgs s)) h) as [GE|LT]; [unfold getm; rewrite nth_overflow by exact GE; reflexivity|].
        apply (proj1 (proj2 (i3_msgs s I)) h LT OW). }
      assert (KEEP : forall h id, g_open (getm m h) = true \/ g_own (getm (v_msgs s) h) = false -> g_cb (getm (v_msgs s) h) = Some id ->
        dict_get Z.eqb (ca_out c) id = dict_get Z.eqb (ca_out (p3_cache (v_proc s))) id).
      { intros h id OP CB. assert (LV : (g_open (getm (v_msgs s) h) = true /\ g_req (getm (v_msgs s) h) <> r) \/ g_own (getm (v_msgs s) h) = false).
        { destruct OP as [OP|OP]; [left|now right]. destruct (E4 _ OP) as [EQ NR]. rewrite EQ in OP. auto. }
        destruct (O1 h id ltac:(intuition) CB) as (en & DG & EH). apply E5. intros h' LT Q OP' CB'.
        destruct (O1 h' id (or_introl OP') CB') as (en' & DG' & EH'). assert (h' = h) as -> by congruence. destruct LV as [[_ NR]|OW]; [now apply NR|]. apply NOPEN in OW. congruence. }
      subst m. constructor; rewrite ?P; cbn [with_cache3 p3_cache].
      + intros h id OP CB. destruct OP as [OP|OW].
        * destruct (E4 _ OP) as [EQ NR]. rewrite EQ in CB. rewrite (KEEP h id (or_introl OP) CB). apply O1; [left; now rewrite <- EQ|exact CB].
        * rewrite E6 in OW. rewrite (E0 _ (NOPEN _ OW)) in CB. rewrite (KEEP h id (or_intror OW) CB). apply O1; auto.
      + intros r1 h w now p e user level wire IN. apply in_log in IN as [IN|IN]; [destruct L as [(o & ->)|(-> & _)]; [destruct IN as [IN|[]]; discriminate|destruct IN]|].
        destruct (O2 _ _ _ _ _ _ _ _ _ IN) as (X1 & X2 & X3). rewrite E1, E2, E6. split; [exact X1|]. split; [exact X2|].
        intros CF OP. destruct (E4 _ OP) as [EQ NR]. rewrite EQ in *. destruct (X3 CF OP) as (id & Y1 & Y2 & Y3). exists id. split; [exact Y1|]. split; [|exact Y3].
        rewrite (KEEP h id); [exact Y2|left; now rewrite EQ|exact Y1].
      + intros r1 h A N LT OW Q. rewrite E2 in Q. rewrite E1 in LT. rewrite E6 in OW. destruct (Nat.eq_dec r1 r) as [-> |NE].
        * exfalso. destruct L as [(o & ->)|(-> & D)]; [|congruence]. apply (N o). apply in_log. left. now left.
        * rewrite E3 by congruence. apply (O3 r1 h); [exact (AL r1 h LT OW Q A)| |exact LT|exact OW|exact Q]. intros o IN. apply (N o). apply in_log. auto.
    - (* a message is sent *)
      rewrite <- P in O1, O2. assert (GC : gen_at gen_v3 (ca_gen (p3_cache (v_proc s1)))) by (rewrite P; apply (g_cache _ _ _ G)).
      assert (GS : p3_maxSize (v_proc s1) = w_size W) by (rewrite P; apply (g_size _ _ _ G)).
      apply (transmit_made C R (w_rnd W) (w_clk W) (w_size W) (wo_messages W OK)) in T as (sy & cb & TM & TC & TL); [|exact GC|exact GS].
      rewrite M in TM, TC, TL. set (N := length (v_msgs s)) in *.
      assert (RU : reachW (v_usm s1)).
      { apply RG; [|apply (g_usm _ _ _ G)]. intros v op RO. apply reach_op. eapply reg_op_ok; exact RO. }
      assert (OLD : forall h, (h < N)%nat -> getm (v_msgs s ++ [mkMsg3 r sy cb true true]) h = getm (v_msgs s) h).
      { intros h LT. rewrite getm_app. fold N. destruct (Nat.eqb_spec h N); [lia|reflexivity]. }
      assert (NEW : getm (v_msgs s ++ [mkMsg3 r sy cb true true]) N = mkMsg3 r sy cb true true) by (rewrite getm_app; fold N; now rewrite Nat.eqb_refl).
      assert (OUT : forall h, (N < h)%nat -> g_open (getm (v_msgs s ++ [mkMsg3 r sy cb true true]) h) = false).
      { intros h LT. unfold getm. rewrite nth_overflow; [reflexivity|]. rewrite app_length. cbn. fold N. lia. }
      assert (KEEP : forall id en, dict_get Z.eqb (ca_out (p3_cache (v_proc s1))) id = Some en -> dict_get Z.eqb (ca_out (p3_cache (v_proc s2))) id = Some en).
      { intros id en DG. destruct cb as [i|]; [|now rewrite TC]. destruct TC as [TC1 TC2]. rewrite TC2. rewrite zget_set. destruct (Z.eqb_spec id i) as [-> |]; [congruence|exact DG]. }
      constructor; rewrite ?M', ?P', ?TM.
      + intros h id OP CB. destruct (Nat.lt_trichotomy h N) as [LT|[-> |LT]].
        * rewrite OLD in OP, CB by exact LT. destruct (O1 h id OP CB) as (en & DG & EH). exists en. split; [now apply KEEP|exact EH].
        * rewrite NEW in CB. cbn [g_cb] in CB. subst cb. destruct TC as [TC1 TC2]. rewrite TC2, zget_set, Z.eqb_refl. eexists. split; [reflexivity|reflexivity].
        * unfold getm in CB. rewrite nth_overflow in CB by (rewrite app_length; cbn; fold N; lia). discriminate CB.
      + intros r1 h w1 now1 p1 e1 user1 level1 wire IN. rewrite app_length. cbn [length]. fold N. apply in_log in IN as [IN|IN].
        * apply TL in IN as (-> & -> & -> & -> & -> & -> & X). split; [lia|]. rewrite NEW. cbn [g_req g_open g_cb g_own]. split; [auto|]. intros CF _.
          destruct (X CF) as (id & -> & RI & UE). exists id. split; [reflexivity|]. destruct TC as [TC1 TC2]. rewrite TC2, zget_set, Z.eqb_refl. split; [reflexivity|].
          split; [exact RI|]. exists (v_usm s1), (w_clk W (v_clock s1)). split; [exact RU|exact UE].
        * destruct (O2 _ _ _ _ _ _ _ _ _ IN) as (X1 & X2 & X3). rewrite OLD by exact X1. split; [fold N in X1; lia|]. split; [exact X2|].
          intros CF OP. destruct (X3 CF OP) as (id & Y1 & Y2 & Y3). exists id. split; [exact Y1|]. split; [now apply KEEP|exact Y3].
      + intros r1 h A NO LT OW Q. destruct (Nat.lt_trichotomy h N) as [LTN|[-> |GT]].
        * rewrite OLD in Q, OW |- * by exact LTN. apply (O3 r1 h); [exact (AL r1 h LTN OW Q A)| |exact LTN|exact OW|exact Q]. intros o IN. apply (NO o). apply in_log. auto.
        * now rewrite NEW.
        * rewrite app_length in LT. cbn in LT. fold N in LT. lia.
    - (* another manager sends *)
      subst l'. cbn [rev app]. pose proof (outgoing_made C R (w_rnd W) (wo_messages W OK) (v_usm s) (v_proc s) p (length (v_msgs s)) e user level ts (g_cache _ _ _ G)) as TC.
      cbv zeta in TC. fold o in TC. clearbody o. rewrite <- P in TC. set (cb := s3_callback o) in *. clearbody cb. clear P o. set (N := length (v_msgs s)) in *.
      assert (OLD : forall h, (h < N)%nat -> getm (v_msgs s ++ [mkMsg3 0 0 cb false false]) h = getm (v_msgs s) h).
      { intros h LT. rewrite getm_app. fold N. destruct (Nat.eqb_spec h N); [lia|reflexivity]. }
      assert (NEW : getm (v_msgs s ++ [mkMsg3 0 0 cb false false]) N = mkMsg3 0 0 cb false false) by (rewrite getm_app; fold N; now rewrite Nat.eqb_refl).
      assert (KEEP : forall id en, dict_get Z.eqb (ca_out (p3_cache (v_proc s))) id = Some en -> dict_get Z.eqb (ca_out (p3_cache (v_proc s'))) id = Some en).
      { intros id en DG. destruct cb as [i|]; [|now rewrite TC]. destruct TC as [TC1 TC2]. rewrite TC2. rewrite zget_set. destruct (Z.eqb_spec id i) as [-> |]; [congruence|exact DG]. }
      constructor; rewrite ?M.
      + intros h id OP CB. destruct (Nat.lt_trichotomy h N) as [LT|[-> |LT]].
        * rewrite OLD in OP, CB by exact LT. destruct (O1 h id OP CB) as (en & DG & EH). exists en. split; [now apply KEEP|exact EH].
        * rewrite NEW in CB. cbn [g_cb] in CB. subst cb. destruct TC as [TC1 TC2]. rewrite TC2, zget_set, Z.eqb_refl. eexists. split; reflexivity.
        * unfold getm in CB. rewrite nth_overflow in CB by (rewrite app_length; cbn; fold N; lia). discriminate CB.
      + intros r1 h w1 now1 p1 e1 user1 level1 wire IN. rewrite app_length. cbn [length]. fold N.
        destruct (O2 _ _ _ _ _ _ _ _ _ IN) as (X1 & X2 & X3). rewrite OLD by exact X1. split; [fold N in X1; lia|]. split; [exact X2|].
        intros CF OP. destruct (X3 CF OP) as (id & Y1 & Y2 & Y3). exists id. split; [exact Y1|]. split; [now apply KEEP|exact Y3].
      + intros r1 h A NO LT OW Q. destruct (Nat.lt_trichotomy h N) as [LTN|[-> |GT]].
        * rewrite OLD in Q, OW |- * by exact LTN. apply (O3 r1 h); [exact (AL r1 h LTN OW Q A)|exact NO|exact LTN|exact OW|exact Q].
        * rewrite NEW in OW. discriminate OW.
        * rewrite app_length in LT. cbn in LT. fold N in LT. lia.
    - (* another manager is done *)
      subst l'. cbn [rev app].
      assert (OTHER : forall h', g_open (getm (v_msgs s') h') = true \/ g_own (getm (v_msgs s') h') = true \/ (exists i, g_cb (getm (v_msgs s') h') = Some i) ->
        getm (v_msgs s') h' = getm (v_msgs s) h' /\ h' <> h).
      { intros h' K. rewrite M, getm_put in K |- *. destruct (Nat.eqb_spec h h') as [EH|NE]; [subst h'|cbn [andb] in K |- *; auto].
        destruct (Nat.ltb_spec h (length (v_msgs s))) as [LT|GE]; cbn [andb] in K |- *; [destruct K as [K|[K|(i & K)]]; discriminate K|].
        exfalso. unfold getm in CB. rewrite nth_overflow in CB by exact GE. discriminate CB. }
      assert (GO : forall i, i <> id -> dict_get Z.eqb (ca_out (p3_cache (v_proc s'))) i = dict_get Z.eqb (ca_out (p3_cache (v_proc s))) i).
      { intros i NE. rewrite P. cbn [with_cache3 p3_cache uncache ca_out]. now apply zget_del_other. }
      destruct (O1 h id (or_intror OW) CB) as (en0 & DG0 & EH0).
      assert (OLDI : forall h', g_own (getm (v_msgs s') h') = true -> getm (v_msgs s') h' = getm (v_msgs s) h') by (intros h' K; apply OTHER; auto).
      constructor.
      + intros h' i OP CB'. destruct (OTHER h' ltac:(eauto)) as [EQ NE]. rewrite EQ in OP, CB'. destruct (O1 h' i OP CB') as (en & DG & EH). exists en. split; [|exact EH].
        rewrite GO; [exact DG|]. intros ->. congruence.
      + intros r1 h' w1 now1 p1 e1 user1 level1 wire IN. destruct (O2 _ _ _ _ _ _ _ _ _ IN) as (X1 & [X2 X4] & X3).
        assert (EQ : getm (v_msgs s') h' = getm (v_msgs s) h').
        { rewrite M, getm_put. destruct (Nat.eqb_spec h h') as [<-|NE]; [congruence|reflexivity]. }
        rewrite EQ, M, put_length. split; [exact X1|]. split; [auto|]. intros CF OP. destruct (X3 CF OP) as (i & Y1 & Y2 & Y3). exists i. split; [exact Y1|]. split; [|exact Y3].
        rewrite GO; [exact Y2|]. intros ->. rewrite DG0 in Y2. injection Y2 as ->. cbn in EH0. congruence.
      + intros r1 h' A NO LT OW' Q. rewrite M, put_length in LT. pose proof OW' as OW2. rewrite (OLDI h' OW') in OW2, Q |- *. apply (O3 r1 h'); [exact (AL r1 h' LT OW2 Q A)|exact NO|exact LT|exact OW2|exact Q].
  Qed.
  Lemma open_run evs : Forall event_ok evs -> forall s l, run3 W evs = (s, l) -> open_inv s l.
  Proof.
    induction evs as [|x evs IH] using rev_ind; intros F s l H.
    - assert (E : v_msgs s = [] /\ l = []).
      { unfold run3 in H. cbn in H. injection H as <- <-. split; [|reflexivity]. unfold new3, mgr3_new. destruct (w_engine W) as [e|]; [|reflexivity].
        destruct (manager_engine _ _ _ _ _) as [s1 y] eqn:E. apply manager_engine_pool in E as [E _]. cbn [fst set_state v_msgs]. exact E. }
      destruct E as [EM ->]. constructor; rewrite ?EM; [intros [|h]; discriminate|intros ? ? ? ? ? ? ? ? ? []|cbn; lia].
    - apply Forall_app in F as [F1 _]. unfold run3 in H. rewrite m3_run_snoc in H.
      destruct (m3_run _ _ _ _ _ _ _ evs) as [s1 l1] eqn:R1. destruct (m3_step _ _ _ _ _ _ s1 x) as [s2 l2] eqn:S1. injection H as <- <-.
      destruct (run_good W OK evs F1 s1 l1 R1) as [I G]. eapply open_step; [exact I|exact G| |exact (IH F1 _ _ R1)|exact (ex_intro _ (Some x) (step_c _ _ _ _ _ _ _ _ _ _ _ eq_refl S1))].
      apply m3_step_spec in S1. destruct (step_spec _ _ _ _ _ _ _ _ _ I S1) as (_ & EV & _). exact EV.
  Qed.
End OpenWorld.
