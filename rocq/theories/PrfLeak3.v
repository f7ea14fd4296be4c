(** PrfLeak3.v -- the SNMPv3 manager: every outstanding message ID belongs to an
    open message of a request that somebody still refers to. *)
From Verif Require Export PrfOpen2 PrfMgr3d PrfMgr3c.

Lemma closed_gone r l : forall c c' l', NoDup (keys (ca_out c)) -> close_messages r c l = (c', l') ->
  NoDup (keys (ca_out c')) /\
  forall id e, dict_get Z.eqb (ca_out c') id = Some e -> dict_get Z.eqb (ca_out c) id = Some e /\
    forall h, (h < length l)%nat -> g_req (getm l h) = r -> g_open (getm l h) = true -> g_cb (getm l h) <> Some id.
Proof.
  induction l as [|g l IH]; intros c c' l' ND; cbn [close_messages].
  - intros H. injection H as <- <-. split; [exact ND|]. intros id e G. split; [exact G|]. cbn. lia.
  - destruct (Nat.eqb (g_req g) r && g_open g) eqn:B.
    + set (c0 := match g_cb g with Some id => uncache c id | None => c end) in *. destruct (close_messages r c0 l) as [c1 l1] eqn:E.
      intros H. injection H as <- <-. assert (ND0 : NoDup (keys (ca_out c0))) by (unfold c0; destruct (g_cb g); [apply znodup_del, ND|exact ND]).
      destruct (IH _ _ _ ND0 E) as [ND1 K]. split; [exact ND1|]. intros id e G. destruct (K id e G) as [G0 N]. unfold c0 in G0. destruct (g_cb g) as [i|] eqn:CB.
      * cbn [uncache ca_out] in G0. destruct (Z.eq_dec id i) as [->|NE]; [rewrite zget_del_same in G0 by exact ND; discriminate G0|].
        rewrite zget_del_other in G0 by auto. split; [exact G0|]. intros [|h] LT Q O; [change (g_cb g <> Some id); congruence|]. apply N; [cbn in LT; lia|exact Q|exact O].
      * split; [exact G0|]. intros [|h] LT Q O; [change (g_cb g <> Some id); congruence|]. apply N; [cbn in LT; lia|exact Q|exact O].
    + destruct (close_messages r c l) as [c1 l1] eqn:E. intros H. injection H as <- <-. destruct (IH _ _ _ ND E) as [ND1 K]. split; [exact ND1|].
      intros id e G. destruct (K id e G) as [G0 N]. split; [exact G0|]. intros [|h] LT Q O.
      * change (g_req g = r) in Q. change (g_open g = true) in O. rewrite Q, O, Nat.eqb_refl in B. discriminate B.
      * apply N; [cbn in LT; lia|exact Q|exact O].
Qed.

Section LeakWorld.
  Context (W : world) (OK : world_ok W).
  Notation C := (w_crypto W).
  Notation R := (w_ticks W).
  Notation reachW := (reach C R (w_rnd W 2)).
  Notation out s := (ca_out (p3_cache (v_proc s))).
  Record own3 (s : mgr3) : Prop := {
    ow_keys : NoDup (keys (out s));
    ow_out : forall id e, dict_get Z.eqb (out s) id = Some e -> (e3_handle e < length (v_msgs s))%nat /\
      g_cb (getm (v_msgs s) (e3_handle e)) = Some id /\ (g_open (getm (v_msgs s) (e3_handle e)) = true \/ g_own (getm (v_msgs s) (e3_handle e)) = false);
    ow_live : forall h, (h < length (v_msgs s))%nat -> g_open (getm (v_msgs s) h) = true -> q_alive (get3 (v_reqs s) (g_req (getm (v_msgs s) h))) = true
  }.
  Lemma alive_kept s x s' l r : inv3 s -> vstep C R (w_rnd W) (w_clk W) (w_namespace W) s x s' l -> x <> VDie r ->
    q_alive (get3 (v_reqs s) r) = true -> q_alive (get3 (v_reqs s') r) = true.
  Proof.
    intros I ST ND A. inversion ST; subst; try exact A.
    - cbn. rewrite get3_app. destruct (Nat.eqb r _); [reflexivity|exact A].
    - match goal with T : tstep _ _ _ _ s t s1 new l |- _ => apply tstep_spec in T as ((_ & _ & _ & K & _) & _) end; [|exact I|rewrite H; apply in_or_app; right; now left].
      cbn [v_reqs set_threads]. now rewrite K.
    - match goal with T : lstep _ s s' l |- _ => apply lstep_spec in T as ((_ & _ & _ & K & _) & _) end; [|exact I]. now rewrite K.
    - assert (NR : r0 <> r) by (intros ->; now apply ND). apply keeps_closed in H0 as (_ & _ & _ & K & _). rewrite K. cbn. now rewrite get3_put_other by auto.
    - destruct H0 as (u & p & c & m & -> & _). exact A.
  Qed.
  (** What close() does. *)
  Lemma own_close s s' r c m : close_messages r (p3_cache (v_proc s)) (v_msgs s) = (c, m) -> v_msgs s' = m -> v_proc s' = with_cache3 (v_proc s) c ->
    inv3 s -> own3 s -> (forall q, q <> r -> q_alive (get3 (v_reqs s) q) = true -> q_alive (get3 (v_reqs s') q) = true) ->
    own3 s' /\ forall id e, dict_get Z.eqb (out s') id = Some e -> g_own (getm (v_msgs s') (e3_handle e)) = true -> g_req (getm (v_msgs s') (e3_handle e)) <> r.
  Proof.
    intros E M P I [O1 O2 O3] AL. pose proof (closed_gone _ _ _ _ _ O1 E) as [ND K]. pose proof (fun h => closed_closed _ _ _ _ _ h E) as E0. pose proof (closed_own _ _ _ _ _ E) as E6. apply closed_messages in E as (E1 & E2 & E3 & E4 & E5).
    assert (X : forall id e, dict_get Z.eqb (ca_out c) id = Some e -> (e3_handle e < length (v_msgs s))%nat /\ g_cb (getm (v_msgs s) (e3_handle e)) = Some id /\
      ((g_open (getm (v_msgs s) (e3_handle e)) = true /\ g_req (getm (v_msgs s) (e3_handle e)) <> r) \/ g_own (getm (v_msgs s) (e3_handle e)) = false)).
    { intros id e G. destruct (K id e G) as [G0 N]. destruct (O2 id e G0) as (A1 & A2 & A3). split; [exact A1|]. split; [exact A2|]. destruct A3 as [A3|A3]; [left|now right].
      split; [exact A3|]. intros Q. exact (N _ A1 Q A3 A2). }
    subst m. split.
    - constructor; rewrite ?P; cbn [with_cache3 p3_cache].
      + exact ND.
      + intros id e G. destruct (X id e G) as (A1 & A2 & A3). rewrite E1. split; [exact A1|]. destruct A3 as [[A3 A4]|A3]; [rewrite E3 by exact A4; auto|].
        rewrite E0 by (apply (proj1 (proj2 (i3_msgs s I)) _ A1 A3)). auto.
      + intros h LT OP. destruct (E4 _ OP) as [EQ NR]. rewrite EQ. apply AL; [exact NR|]. rewrite E1 in LT. apply O3; [exact LT|]. now rewrite <- EQ.
    - rewrite P. cbn [with_cache3 p3_cache]. intros id e G OW. destruct (X id e G) as (A1 & A2 & [[A3 A4]|A3]); [rewrite E2; exact A4|]. rewrite E6 in OW. congruence.
  Qed.
  Lemma own_step s x s' l : PrfMgr3d.base s -> good (w_size W) reachW s -> own3 s -> m3_step C R (w_rnd W) (w_clk W) (w_fmt W) (w_namespace W) s x = (s', l) ->
    own3 s' /\ forall r o, In (WOutcome r o) l -> forall id e, dict_get Z.eqb (out s') id = Some e -> g_own (getm (v_msgs s') (e3_handle e)) = true -> g_req (getm (v_msgs s') (e3_handle e)) <> r.
  Proof.
    intros [I WO] G O E.
    assert (ST := m3_step_spec _ _ _ _ _ _ _ _ _ _ E).
    destruct (match x with VDie _ => true | _ => false end) eqn:DX.
    - destruct x as [| | | | |r| | |]; try discriminate DX. clear DX. cbn [m3_step] in E.
      destruct (negb _ || _ || _); [injection E as <- <-; split; [exact O|intros r0 o []]|]. destruct (close3 _ _ _ _ r) as [s1 y] eqn:CL. injection E as <- <-. cbn [fst].
      apply close_c in CL as (c & m & E & M & P). cbn [set_req3 set_objects v_proc v_msgs] in E, M, P.
      destruct (own_close s s1 r c m E M P I O) as [O' N]; [|split; [exact O'|intros r0 o []]].
      intros q NE A. eapply alive_kept; [exact I|exact ST| |exact A]. intros K. injection K as K. auto.
    - assert (AL : forall q, q_alive (get3 (v_reqs s) q) = true -> q_alive (get3 (v_reqs s') q) = true).
      { intros q A. eapply alive_kept; [exact I|exact ST| |exact A]. intros ->. discriminate DX. }
      destruct (step_c _ _ _ _ _ _ _ _ _ _ _ eq_refl E) as [M P D|r c m CL M P L|s1 s2 r w now p e user level y T M P RG M' P'|p e user level ts XE o M P L|h id XE OW CB M P L].
      + split; [|intros r o IN; apply D in IN; discriminate IN]. destruct O as [O1 O2 O3]. constructor; rewrite ?M, ?P; auto.
      + destruct (own_close s s' r c m CL M P I O ltac:(auto)) as [O' N]. split; [exact O'|]. intros r0 o IN.
        destruct L as [(o0 & ->)|(-> & _)]; [|destruct IN]. destruct IN as [IN|[]]. injection IN as <- <-. exact N.
      + assert (GC : gen_at gen_v3 (ca_gen (p3_cache (v_proc s1)))) by (rewrite P; apply (g_cache _ _ _ G)).
        assert (GS : p3_maxSize (v_proc s1) = w_size W) by (rewrite P; apply (g_size _ _ _ G)).
        pose proof (transmit_spec _ _ _ _ _ _ _ _ _ _ _ _ _ _ _ T) as (u0 & p0 & cb0 & _ & _ & LOG).
        assert (RA : q_alive (get3 (v_reqs s) r) = true).
        { destruct (step_class _ _ _ _ _ _ _ _ _ I WO ST) as [SS|QS].
          - destruct SS as [r1 w1 sc eng s3 s4 y1 SB _ _ _ _ _ _ _ _ _ A _]. apply sent_by_log in SB. replace r with r1; [exact A|].
            destruct LOG as [(wire & _ & ->)|(ex & _ & ->)]; destruct SB as [(_ & h & d & e1 & us & lv & wi & K)|(ex1 & h & _ & K)]; injection K; congruence.
          - exfalso. destruct LOG as [(wire & _ & ->)|(ex & _ & ->)]; pose proof (qs_log _ _ _ _ _ QS _ (or_introl eq_refl)) as K; discriminate K. }
        assert (NO : forall r0 o, ~ In (WOutcome r0 o) l) by (intros r0 o IN; destruct LOG as [(wire & _ & ->)|(ex & _ & ->)]; destruct IN as [IN|[]]; discriminate IN).
        clear LOG. split; [|intros r0 o IN; destruct (NO _ _ IN)].
        apply (transmit_made C R (w_rnd W) (w_clk W) (w_size W) (wo_messages W OK)) in T as (sy & cb & TM & TC & _); [|exact GC|exact GS].
        rewrite M in TM, TC. rewrite P in TC. set (N := length (v_msgs s)) in *. destruct O as [O1 O2 O3].
        assert (OLD : forall h, (h < N)%nat -> getm (v_msgs s ++ [mkMsg3 r sy cb true true]) h = getm (v_msgs s) h).
        { intros h LT. rewrite getm_app. fold N. destruct (Nat.eqb_spec h N); [lia|reflexivity]. }
        assert (NEW : getm (v_msgs s ++ [mkMsg3 r sy cb true true]) N = mkMsg3 r sy cb true true) by (rewrite getm_app; fold N; now rewrite Nat.eqb_refl).
        assert (LEN : length (v_msgs s ++ [mkMsg3 r sy cb true true]) = Datatypes.S N) by (rewrite app_length; cbn; fold N; lia).
        constructor; rewrite ?M', ?P', ?TM.
        * destruct cb as [i|]; [destruct TC as [_ TC]; rewrite TC; apply znodup_set, O1|rewrite TC; exact O1].
        * intros id en. assert (OLDE : dict_get Z.eqb (out s) id = Some en -> (e3_handle en < length (v_msgs s ++ [mkMsg3 r sy cb true true]))%nat /\
            g_cb (getm (v_msgs s ++ [mkMsg3 r sy cb true true]) (e3_handle en)) = Some id /\ (g_open (getm (v_msgs s ++ [mkMsg3 r sy cb true true]) (e3_handle en)) = true \/ g_own (getm (v_msgs s ++ [mkMsg3 r sy cb true true]) (e3_handle en)) = false)).
          { intros DG. destruct (O2 id en DG) as (A1 & A2 & A3). rewrite OLD, LEN by exact A1. fold N in A1. split; [lia|auto]. }
          destruct cb as [i|]; [|rewrite TC; exact OLDE]. destruct TC as [_ TC]. rewrite TC, zget_set. destruct (Z.eqb_spec id i) as [->|NE]; [|exact OLDE].
          intros K. injection K as <-. cbn [e3_handle]. rewrite NEW, LEN. split; [lia|auto].
        * intros h LT OP. rewrite LEN in LT. destruct (Nat.eq_dec h N) as [->|NE].
          -- rewrite NEW. cbn [g_req]. now apply AL.
          -- rewrite OLD in OP |- * by lia. apply AL, O3; [fold N; lia|exact OP].
      + subst l. split; [|intros r o0 []]. destruct O as [O1 O2 O3].
        pose proof (outgoing_made C R (w_rnd W) (wo_messages W OK) (v_usm s) (v_proc s) p (length (v_msgs s)) e user level ts (g_cache _ _ _ G)) as TC.
        cbv zeta in TC. fold o in TC. clearbody o. rewrite <- P in TC. set (cb := s3_callback o) in *. clearbody cb. clear P o. set (N := length (v_msgs s)) in *.
        assert (OLD : forall h, (h < N)%nat -> getm (v_msgs s ++ [mkMsg3 0 0 cb false false]) h = getm (v_msgs s) h).
        { intros h LT. rewrite getm_app. fold N. destruct (Nat.eqb_spec h N); [lia|reflexivity]. }
        assert (NEW : getm (v_msgs s ++ [mkMsg3 0 0 cb false false]) N = mkMsg3 0 0 cb false false) by (rewrite getm_app; fold N; now rewrite Nat.eqb_refl).
        assert (LEN : length (v_msgs s ++ [mkMsg3 0 0 cb false false]) = Datatypes.S N) by (rewrite app_length; cbn; fold N; lia).
        constructor; rewrite ?M.
        * destruct cb as [i|]; [destruct TC as [_ TC]; rewrite TC; apply znodup_set, O1|rewrite TC; exact O1].
        * intros id en. assert (OLDE : dict_get Z.eqb (out s) id = Some en -> (e3_handle en < length (v_msgs s ++ [mkMsg3 0 0 cb false false]))%nat /\
            g_cb (getm (v_msgs s ++ [mkMsg3 0 0 cb false false]) (e3_handle en)) = Some id /\
            (g_open (getm (v_msgs s ++ [mkMsg3 0 0 cb false false]) (e3_handle en)) = true \/ g_own (getm (v_msgs s ++ [mkMsg3 0 0 cb false false]) (e3_handle en)) = false)).
          { intros DG. destruct (O2 id en DG) as (A1 & A2 & A3). rewrite OLD, LEN by exact A1. fold N in A1. split; [lia|auto]. }
          destruct cb as [i|]; [|rewrite TC; exact OLDE]. destruct TC as [_ TC]. rewrite TC, zget_set. destruct (Z.eqb_spec id i) as [->|NE]; [|exact OLDE].
          intros K. injection K as <-. cbn [e3_handle]. fold N. rewrite NEW, LEN. split; [lia|auto].
        * intros h LT OP. rewrite LEN in LT. destruct (Nat.eq_dec h N) as [->|NE].
          -- rewrite NEW in OP. discriminate OP.
          -- rewrite OLD in OP |- * by lia. apply AL, O3; [fold N; lia|exact OP].
      + subst l. split; [|intros r o0 []]. destruct O as [O1 O2 O3].
        assert (LT0 : (h < length (v_msgs s))%nat).
        { destruct (Nat.lt_ge_cases h (length (v_msgs s))) as [LT|GE]; [exact LT|]. unfold getm in CB. rewrite nth_overflow in CB by exact GE. discriminate CB. }
        constructor; rewrite ?P; cbn [with_cache3 p3_cache uncache ca_out].
        * now apply znodup_del.
        * intros i en DG. destruct (Z.eqb_spec i id) as [->|NE]; [rewrite zget_del_same in DG by exact O1; discriminate DG|].
          rewrite zget_del_other in DG by auto. destruct (O2 i en DG) as (A1 & A2 & A3). rewrite M, put_length. split; [exact A1|].
          rewrite getm_put. destruct (Nat.eqb_spec h (e3_handle en)) as [EH|NH]; [rewrite <- EH in A2; congruence|]. cbn [andb]. auto.
        * intros h' LT OP. rewrite M in *. rewrite put_length in LT. rewrite getm_put in *. destruct (_ && _)%bool; [discriminate OP|]. apply AL, O3; assumption.
  Qed.
  Lemma all_own evs : forall s l, run3 W evs = (s, l) -> (forall p e user level, ~ In (VOther p e user level) evs) ->
    forall h, (h < length (v_msgs s))%nat -> g_own (getm (v_msgs s) h) = true.
  Proof.
    induction evs as [|x evs IH] using rev_ind; intros s l H NO h LT.
    - unfold run3 in H. cbn in H. injection H as <- <-. destruct (new3 W) as [s0 y] eqn:N. unfold new3 in N.
      destruct (start_fields _ _ _ _ _ _ _ _ N) as (_ & _ & _ & _ & M & _). cbn [fst] in LT. rewrite M in LT. cbn in LT. lia.
    - unfold run3 in H. rewrite m3_run_snoc in H.
      destruct (m3_run _ _ _ _ _ _ _ evs) as [s1 l1] eqn:R1. destruct (m3_step _ _ _ _ _ _ s1 x) as [s2 l2] eqn:S1. injection H as <- <-.
      assert (K : forall h, (h < length (v_msgs s1))%nat -> g_own (getm (v_msgs s1) h) = true).
      { apply (IH s1 l1 R1). intros p e user level IN. apply (NO p e user level), in_or_app. auto. }
      assert (B : PrfMgr3d.base s1) by (eapply PrfMgr3d.base_run; [|exact R1]; destruct (new3 W) as [s0 y] eqn:N; eapply PrfMgr3d.base_start; exact N).
      destruct B as [I WO]. assert (ST := m3_step_spec _ _ _ _ _ _ _ _ _ _ S1).
      pose proof (step_spec _ _ _ _ _ _ _ _ _ I ST) as (_ & (_ & _ & _ & ML & MQ) & _).
      destruct (Nat.lt_ge_cases h (length (v_msgs s1))) as [LO|GE]; [destruct (MQ h LO) as (_ & _ & -> & _); now apply K|].
      destruct (step_class _ _ _ _ _ _ _ _ _ I WO ST) as [[r w sc eng s3 s4 y1 SB E1 E2 E3 E4 E5 F1 F2 F3 F4 AL D]|Q].
      + destruct (sent_by_msgs _ _ _ _ _ _ _ _ _ SB) as (extra & M & X). rewrite F2, M, E2 in *.
        unfold getm. rewrite app_nth2 by exact GE. apply (X (nth (h - length (v_msgs s1)) extra no_msg3)). apply nth_In. rewrite app_length in LT. lia.
      + destruct (qs_msgs _ _ _ _ _ Q) as [M|[OE M]]; [lia|]. clear M. exfalso. destruct x; try destruct OE; [apply (NO p engineID user level), in_or_app; right; now left|].
        cbn [m3_step] in S1. destruct (g_own (getm (v_msgs s1) h0)); [injection S1 as <- _; lia|].
        destruct (g_cb (getm (v_msgs s1) h0)); injection S1 as <- _; [|lia]. cbn [v_msgs set_objects] in LT. rewrite put_length in LT. lia.
  Qed.
  Lemma own_run evs : Forall event_ok evs -> forall s l, run3 W evs = (s, l) -> own3 s.
  Proof.
    induction evs as [|x evs IH] using rev_ind; intros F s l H.
    - unfold run3 in H. cbn in H. injection H as <- <-. destruct (new3 W) as [s0 y] eqn:N. unfold new3 in N.
      destruct (start_fields _ _ _ _ _ _ _ _ N) as (_ & _ & _ & _ & M & _ & _ & _ & _ & _ & CO & _). cbn [fst].
      constructor; rewrite ?M, ?CO; [constructor|intros id e K; discriminate K|cbn; lia].
    - apply Forall_app in F as [F1 _]. unfold run3 in H. rewrite m3_run_snoc in H.
      destruct (m3_run _ _ _ _ _ _ _ evs) as [s1 l1] eqn:R1. destruct (m3_step _ _ _ _ _ _ s1 x) as [s2 l2] eqn:S1. injection H as <- <-.
      destruct (run_good W OK evs F1 s1 l1 R1) as [I G]. refine (proj1 (own_step s1 x s2 l2 _ G (IH F1 _ _ R1) S1)).
      eapply PrfMgr3d.base_run; [|exact R1]. destruct (new3 W) as [s0 y] eqn:N. eapply PrfMgr3d.base_start. exact N.
  Qed.
End LeakWorld.
