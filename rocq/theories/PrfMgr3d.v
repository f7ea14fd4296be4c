(** PrfMgr3d.v -- the SNMPv3 manager: what the messages in its log have to do
    with each other. *)
From Verif Require Export PrfMgr3c.
From Coq Require Import Permutation.

Section Traces.
  Context (C : crypto) (R : Z) (rnd : nat -> nat -> Z) (clk : nat -> Z) (fmt : v3msg -> bool) (ns : pystr).
  Notation m3_run := (m3_run C R rnd clk fmt ns).
  Notation vstep := (vstep C R rnd clk ns).
  Notation tstep := (tstep C rnd clk ns).
  Notation lstep := (lstep clk).
  Notation send_step := (send_step clk).
  Notation quiet_step := (quiet_step clk).

  Definition base (s : mgr3) : Prop := inv3 s /\ why_ok s.
  Lemma base_step s x s' l : base s -> vstep s x s' l -> base s'.
  Proof. intros [I W] ST. split; [now apply (step_spec _ _ _ _ _ _ _ _ _ I ST)|eapply why_step; eauto]. Qed.
  Lemma base_start u maxSize engineID s0 x : mgr3_new C rnd ns u maxSize engineID = (s0, x) -> base s0.
  Proof.
    intros H. split; [eapply inv3_start; eauto|]. apply start_fields in H as (_ & _ & _ & _ & _ & _ & _ & H8 & _). intros r e w [X|X]; congruence.
  Qed.
  Lemma base_run s0 evs s l : base s0 -> m3_run s0 evs = (s, l) -> base s.
  Proof. intros I E. revert evs s l E. apply (run_ind C R rnd clk fmt ns s0 (fun _ s l => base s)); [auto|]. intros evs s l x s' l' _ I' ST. eapply base_step; eauto. Qed.
  (** Induction over the histories of a manager, with what is known so far. *)
  Lemma history_ind s0 (P : list event3 -> mgr3 -> list log3 -> Prop) : base s0 -> P [] s0 [] ->
    (forall evs s l x s' l', m3_run s0 evs = (s, l) -> base s -> P evs s l -> vstep s x s' l' -> P (evs ++ [x]) s' (rev l' ++ l)) ->
    forall evs s l, m3_run s0 evs = (s, l) -> P evs s l.
  Proof.
    intros B0 P0 PS evs s l E. enough (base s /\ P evs s l) by tauto. revert evs s l E. apply (run_ind C R rnd clk fmt ns s0 (fun evs s l => base s /\ P evs s l)); [auto|].
    intros evs s l x s' l' E [B PE] ST. split; [eapply base_step; eauto|]. eapply PS; eauto.
  Qed.
  Lemma in_log (y : log3) l' l : In y (rev l' ++ l) <-> In y l' \/ In y l.
  Proof. rewrite in_app_iff, <- in_rev. tauto. Qed.

  (** ** The listener *)
  Inductive lmoves (s : mgr3) (l : list log3) : listener -> Prop :=
  | MoSame : (forall h m, ~ In (WPushed h m) l) -> lmoves s l (v_listener s)
  | MoIdle : lmoves s l LIdle
  | MoPush d u h m : v_listener s = LIdle -> l = [] ->
      v3_prepareDataElements C R (message_alive s) (v_usm s) (v_proc s) d (clk (v_clock s)) = (u, Ok (m, h)) -> lmoves s l (LPush h m)
  | MoReport h m e w vb : v_listener s = LPush h m -> In (WPushed h m) l -> v3_engineID m = Some e -> report_of m vb ->
      let g := getm (v_msgs s) h in
      (w = ByUnknownEngine /\ report_kind (vb_name vb) = RUnknownEngineID /\ q_engine (get3 (v_reqs s) (g_req g)) <> Some e) \/
      (w = ByNotInTime /\ report_kind (vb_name vb) = RNotInTimeWindow /\ nth (g_sync g) (v_bools s) true = false) ->
      lmoves s l (LReport (g_req g) e w)
  | MoRespond h m e sc : v_listener s = LPush h m -> In (WPushed h m) l -> v3_engineID m = Some e -> v3_scoped m = Some sc -> pdu_cls (sp_pdu sc) <> ReportPDU ->
      lmoves s l (LRespond (g_req (getm (v_msgs s) h)) m)
  | MoDrain r e w : v_listener s = LReport r e w -> lmoves s l (LDrain r e w)
  | MoDone r e w : v_listener s = LReport r e w \/ v_listener s = LDrain r e w -> lmoves s l (reported_done r w)
  | MoStore r m : v_listener s = LRespond r m -> lmoves s l (LStore r m).
  Lemma sends_pushed s r w now eng s1 l x h m : sends s r w now eng s1 l x -> ~ In (WPushed h m) l.
  Proof. intros H. inversion H; subst; [intros [|[]]; discriminate|]. destruct H3 as [(? & _ & ->)|(? & _ & ->)]; intros [|[]]; discriminate. Qed.
  Lemma pushed_listener s x s' l' h m : vstep s x s' l' -> In (WPushed h m) l' -> v_listener s = LPush h m /\ v_listener s' <> LPush h m.
  Proof.
    intros ST B.
    assert (S := fun s r w now eng s1 l x => sends_pushed s r w now eng s1 l x h m).
    assert (A : forall r0 w s1 l y, asks clk s r0 w s1 l y -> ~ In (WPushed h m) l).
    { intros r0 w s2 l y [nx O|nx s3 l2 e O H|nx s3 l2 O H]; [intros []| |]; eapply S; eauto. }
    inversion ST; subst; try solve [destruct B].
    - exfalso. inversion H0; subst; try solve [destruct B as [B|[]]; discriminate]; try solve [destruct B]; try solve [eapply A; eauto]; eapply S; eauto.
    - inversion H; subst; try solve [destruct B]; try solve [destruct B as [B|[]]; discriminate]; try solve [exfalso; eapply S; eauto].
      + destruct B as [B|[]]. injection B as <- <-. split; [auto|discriminate].
      + destruct B as [B|[]]. injection B as <- <-. split; [auto|discriminate].
      + destruct B as [B|[B|[]]]; [injection B as <- <-|discriminate]. split; [auto|discriminate].
      + destruct B as [B|[]]. injection B as <- <-. split; [auto|discriminate].
  Qed.
  Lemma step_listener s x s' l' : vstep s x s' l' -> lmoves s l' (v_listener s').
  Proof.
    intros ST. assert (NP : v_listener s' = v_listener s -> forall h m, ~ In (WPushed h m) l').
    { intros E h m B. destruct (pushed_listener _ _ _ _ _ _ ST B) as [X Y]. congruence. }
    assert (SAME : v_listener s' = v_listener s -> lmoves s l' (v_listener s')) by (intros E; rewrite E; apply MoSame; auto).
    inversion ST; subst; try (apply SAME; reflexivity).
    - apply SAME. cbn. eapply tstep_listener; eauto.
    - eapply MoPush; eauto.
    - inversion H; subst; try (apply SAME; reflexivity); try apply MoIdle.
      + eapply MoReport; eauto. now left.
      + eapply MoRespond; eauto. now left.
      + destruct b; cbn; [now apply MoDrain|eapply MoDone; eauto].
      + eapply MoDone; eauto.
      + apply SAME. match goal with |- context [push3 ?z q] => destruct (push3_fields z q) as (_ & _ & _ & _ & _ & ->) end. inversion H3; subst; reflexivity.
      + now apply MoStore.
      + now apply MoStore.
    - apply SAME. destruct H0 as (u & p & q & m & -> & _). reflexivity.
    - apply SAME. destruct H0 as (u & p & q & m & -> & _). reflexivity.
  Qed.

  (** ** C46 *)
  Definition known (cfg : option bytes) (l : list log3) (e : bytes) : Prop :=
    cfg = Some e \/ exists h m, In (WPushed h m) l /\ v3_engineID m = Some e.
  Definition sent_as (q : req3) (cfg : option bytes) (l : list log3) (d : pdu) (e user : bytes) (lev : seclevel) : Prop :=
    (d = discovery_pdu /\ e = [] /\ user = [] /\ lev = noAuthNoPriv) \/
    (d = q_pdu q /\ user = q_user q /\ lev = q_level q /\ known cfg l e).
  Record known_inv (cfg : option bytes) (s : mgr3) (l : list log3) : Prop := {
    k_mgr : forall e, v_engine s = Some e -> known cfg l e;
    k_req : forall r e, (r < length (v_reqs s))%nat -> q_engine (get3 (v_reqs s) r) = Some e -> known cfg l e;
    k_lis : forall r e w, v_listener s = LReport r e w \/ v_listener s = LDrain r e w -> known cfg l e;
    k_res : forall r m, v_listener s = LRespond r m \/ v_listener s = LStore r m -> exists h, In (WPushed h m) l;
    k_sent : forall r h w now d e user lev wire, In (WSent r h w now d e user lev wire) l ->
      (r < length (v_reqs s))%nat /\ sent_as (get3 (v_reqs s) r) cfg l d e user lev
  }.
  Lemma known_more cfg l l' e : known cfg l e -> known cfg (rev l' ++ l) e.
  Proof. intros [H|(h & m & H1 & H2)]; [left; auto|right]. exists h, m. split; [apply in_log; auto|auto]. Qed.
  Lemma known_step cfg s x s' l l' : base s -> known_inv cfg s l -> vstep s x s' l' -> known_inv cfg s' (rev l' ++ l).
  Proof.
    intros [I W] K ST. pose proof (step_spec _ _ _ _ _ _ _ _ _ I ST) as (I' & EV & _). destruct EV as (_ & EL & EV & _).
    assert (MORE := known_more cfg l l').
    assert (LM := step_listener _ _ _ _ ST).
    assert (KE : forall e, v_engine s' = Some e -> known cfg (rev l' ++ l) e).
    { intros e E. destruct (engine_eq_dec (v_engine s') (v_engine s)) as [X|X]; [apply MORE, (k_mgr _ _ _ K); congruence|].
      destruct (engine_change _ _ _ _ _ _ _ _ _ ST X) as (r & m & LI & E' & _). destruct (k_res _ _ _ K r m ltac:(auto)) as [h B]. right. exists h, m. split; [apply in_log; auto|congruence]. }
    assert (KL : forall r e w, v_listener s' = LReport r e w \/ v_listener s' = LDrain r e w -> known cfg (rev l' ++ l) e).
    { intros r e w H. inversion LM as [N E|E|d u h m L0 L1 L2 E|h m e0 w0 vb L0 L1 L2 L3 g L4 E|h m e0 sc L0 L1 L2 L3 L4 E|r0 e0 w0 L0 E|r0 e0 w0 L0 E|r0 m L0 E]; rewrite <- E in H.
      - rewrite E in *. apply MORE. rewrite <- E in H. apply (k_lis _ _ _ K r e w H).
      - destruct H; discriminate.
      - destruct H; discriminate.
      - destruct H as [H|H]; [|discriminate]. injection H as _ <- _. right. exists h, m. split; [apply in_log; auto|auto].
      - destruct H; discriminate.
      - destruct H as [H|H]; [discriminate|]. injection H as <- <- <-. apply MORE, (k_lis _ _ _ K r0 e0 w0). auto.
      - destruct w0; destruct H; discriminate.
      - destruct H; discriminate. }
    assert (KR : forall r m, v_listener s' = LRespond r m \/ v_listener s' = LStore r m -> exists h, In (WPushed h m) (rev l' ++ l)).
    { assert (OLD : forall r m, v_listener s = LRespond r m \/ v_listener s = LStore r m -> exists h, In (WPushed h m) (rev l' ++ l)).
      { intros r m H. destruct (k_res _ _ _ K r m H) as [h B]. exists h. apply in_log. auto. }
      intros r m H. inversion LM as [N E|E|d u h m0 L0 L1 L2 E|h m0 e0 w0 vb L0 L1 L2 L3 g L4 E|h m0 e0 sc L0 L1 L2 L3 L4 E|r0 e0 w0 L0 E|r0 e0 w0 L0 E|r0 m0 L0 E]; rewrite <- E in H; try (destruct H; discriminate).
      - now apply (OLD r m).
      - destruct H as [H|H]; [|discriminate]. injection H as _ <-. exists h. apply in_log. auto.
      - destruct w0; destruct H; discriminate.
      - destruct H as [H|H]; [discriminate|]. injection H as <- <-. apply (OLD r0). auto. }
    assert (OLDSENT : forall r h w now d e user lev wire, In (WSent r h w now d e user lev wire) l ->
      (r < length (v_reqs s'))%nat /\ sent_as (get3 (v_reqs s') r) cfg (rev l' ++ l) d e user lev).
    { intros r h w now d e user lev wire B. destruct (k_sent _ _ _ K _ _ _ _ _ _ _ _ _ B) as [L S]. split; [lia|]. destruct (EV r L) as (E1 & E2 & E3 & _).
      destruct S as [S|(S1 & S2 & S3 & S4)]; [left; auto|right]. rewrite E1, E2, E3. auto. }
    destruct (step_class _ _ _ _ _ _ _ _ _ I W ST) as [SS|QS].
    - destruct SS as [r w sc eng s1 s2 y SB R1 M1 P1 B1 C1 R2 M2 P2 B2 AL CASE].
      assert (KENG : forall e, eng = Some e -> known cfg l e).
      { intros e ->. destruct w.
        - destruct CASE as (X & _). apply (k_mgr _ _ _ K). auto.
        - destruct CASE as (X & _). apply (k_mgr _ _ _ K). auto.
        - destruct CASE as (_ & _ & r0 & e0 & w0 & rest & X & Y & _). injection Y as <-. apply (k_lis _ _ _ K r0 e w0). auto.
        - destruct CASE as (X & _). discriminate.
        - destruct CASE as (_ & _ & e0 & X & Y & _). injection Y as <-. apply (k_lis _ _ _ K _ _ _ (or_introl X)).
        - destruct CASE as (_ & _ & e0 & X & Y & _). injection Y as <-. apply (k_lis _ _ _ K _ _ _ (or_introl X)). }
      pose proof (get3_alive_lt _ _ AL) as LT.
      assert (KAFTER : forall e, engine_after eng (get3 (v_reqs s) r) = Some e -> known cfg l e).
      { intros e X. destruct eng as [e1|]; cbn in X; [apply KENG; congruence|]. now apply (k_req _ _ _ K r). }
      constructor; auto.
      + intros r' e L E. rewrite R2 in L, E. inversion SB; subst; cbn in L, E; unfold q in E; rewrite put_length, R1 in L; rewrite get3_put, R1 in E;
          (destruct (_ && _)%bool; [|apply MORE; now apply (k_req _ _ _ K r')]); cbn in E; apply MORE; [now apply (k_req _ _ _ K r)|now apply KAFTER].
      + intros r' h' w' now' d' e' user' lev' wire' B. apply in_log in B as [B|B]; [|eapply OLDSENT; eauto].
        inversion SB; subst; [destruct B as [B|[]]; discriminate|].
        destruct H2 as [(wire & -> & ->)|(ex & -> & ->)]; [|destruct B as [B|[]]; discriminate]. destruct B as [B|[]]. injection B as <- <- <- <- <- <- <- <- <-.
        split; [lia|]. destruct (EV r LT) as (E1 & E2 & E3 & _). unfold target in H. fold q in H. unfold q in H. rewrite R1 in H.
        destruct (engine_after eng (get3 (v_reqs s) r)) as [e1|] eqn:EA; injection H as <- <- <- <-.
        * right. rewrite E1, E2, E3. split; [auto|]. split; [auto|]. split; [auto|]. now apply MORE, KAFTER.
        * left. auto.
    - constructor; auto.
      + intros r e L E. destruct (qs_new _ _ _ _ _ QS) as [N|(p & user & level & timeout & period & id & -> & N)].
        * rewrite N in L. destruct (qs_reqs _ _ _ _ _ QS r L) as [_ [Q|Q]]; [apply MORE; apply (k_req _ _ _ K r); congruence|congruence].
        * rewrite N in L, E. rewrite get3_app in E. destruct (Nat.eqb_spec r (length (v_reqs s))); [discriminate|]. rewrite app_length in L. cbn in L.
          apply MORE. apply (k_req _ _ _ K r); [lia|auto].
      + intros r' h' w' now' d' e' user' lev' wire' B. apply in_log in B as [B|B]; [|eapply OLDSENT; eauto].
        apply (qs_log _ _ _ _ _ QS) in B. discriminate.
  Qed.
  Lemma known_run u maxSize cfg s0 evs s l : mgr3_new C rnd ns u maxSize cfg = (s0, Ok tt) -> m3_run s0 evs = (s, l) -> known_inv cfg s l.
  Proof.
    intros H0 E. revert evs s l E. apply (history_ind s0 (fun _ s l => known_inv cfg s l)); [eapply base_start; eauto| |].
    - apply start_fields in H0 as (_ & _ & _ & H4 & _ & _ & _ & H8 & _ & _ & _ & H12 & _). specialize (H12 eq_refl).
      constructor; rewrite ?H4, ?H8, ?H12; cbn; try (intros; lia); try contradiction; try (intros r m [X|X]; discriminate); try (intros r e w [X|X]; discriminate).
      intros e ->. now left.
    - intros evs s l x s' l' _ B K ST. eapply known_step; eauto.
  Qed.

  (** ** Messages received and the requests they answer *)
  Definition entry_ok (s : mgr3) (e : entry3) : Prop :=
    (e3_handle e < length (v_msgs s))%nat /\ g_own (getm (v_msgs s) (e3_handle e)) = true /\
    let q := get3 (v_reqs s) (g_req (getm (v_msgs s) (e3_handle e))) in
    (e3_engineID e = [] /\ e3_name e = [] /\ e3_level e = noAuthNoPriv) \/ (e3_name e = q_user q /\ e3_level e = q_level q).
  Definition matched (s : mgr3) (h : nat) (m : v3msg) : Prop :=
    exists sc e, v3_scoped m = Some sc /\ is_Response (pdu_cls (sp_pdu sc)) = true /\ v3_mismatch e m sc = false /\ entry_ok s e /\ e3_handle e = h.
  Definition answers (s : mgr3) (l : list log3) (r : nat) (m : v3msg) : Prop :=
    exists h sc, In (WPushed h m) l /\ g_req (getm (v_msgs s) h) = r /\ v3_scoped m = Some sc /\ pdu_cls (sp_pdu sc) <> ReportPDU.
  Record match_inv (s : mgr3) (l : list log3) : Prop := {
    m_cache : forall x, In x (ca_out (p3_cache (v_proc s))) -> g_open (getm (v_msgs s) (e3_handle (snd x))) = true -> entry_ok s (snd x);
    m_push : forall h m, v_listener s = LPush h m -> matched s h m;
    m_pushed : forall h m, In (WPushed h m) l -> matched s h m;
    m_listener : forall r m, v_listener s = LRespond r m \/ v_listener s = LStore r m -> answers s l r m;
    m_response : forall r m, In (WResponse r m) l -> answers s l r m
  }.
  Lemma entry_ok_evo s s' e : msgs_ok s -> evo3 s s' -> entry_ok s e -> entry_ok s' e.
  Proof.
    intros M (_ & E2 & E3 & E4 & E5) (L & M1 & H). split; [lia|]. cbv zeta in H |- *. destruct (E5 _ L) as (-> & _ & -> & _). split; [exact M1|]. apply M in M1; [|exact L]. destruct (E3 _ M1) as (_ & -> & -> & _). exact H.
  Qed.
  Lemma open_evo s s' e : msgs_ok s -> evo3 s s' -> In e (ca_out (p3_cache (v_proc s))) -> g_open (getm (v_msgs s') (e3_handle (snd e))) = true -> g_open (getm (v_msgs s) (e3_handle (snd e))) = true.
  Proof. intros (_ & _ & M) (_ & _ & _ & _ & E) IN. apply M in IN. now apply E. Qed.
  Lemma matched_evo s s' h m : msgs_ok s -> evo3 s s' -> matched s h m -> matched s' h m.
  Proof. intros M E (sc & e & H1 & H2 & H3 & H4 & H5). exists sc, e. split; [exact H1|]. split; [exact H2|]. split; [exact H3|]. split; [eapply entry_ok_evo; eauto|exact H5]. Qed.
  Lemma match_step s x s' l l' : base s -> match_inv s l -> vstep s x s' l' -> match_inv s' (rev l' ++ l).
  Proof.
    intros [I W] K ST. pose proof (step_spec _ _ _ _ _ _ _ _ _ I ST) as (I' & EV & _). assert (LM := step_listener _ _ _ _ ST).
    assert (MO := i3_msgs s I).
    assert (PU : forall h m, In (WPushed h m) (rev l' ++ l) -> matched s h m).
    { intros h m B. apply in_log in B as [B|B]; [|now apply (m_pushed _ _ K)]. apply (m_push _ _ K). now apply (pushed_listener _ _ _ _ _ _ ST B). }
    assert (AN : forall r m, answers s l r m -> answers s' (rev l' ++ l) r m).
    { intros r m (h & sc & H1 & H2 & H3 & H4). exists h, sc. split; [apply in_log; auto|]. split; [|auto].
      destruct (m_pushed _ _ K _ _ H1) as (_ & e & _ & _ & _ & (L & _) & EH). destruct EV as (_ & _ & _ & _ & EV). rewrite EH in L. now rewrite (proj1 (EV h L)). }
    assert (OLDL : forall r m, v_listener s = LRespond r m \/ v_listener s = LStore r m -> answers s' (rev l' ++ l) r m) by (intros r m H; apply AN, (m_listener _ _ K r m H)).
    constructor.
    - intros e B OP. assert (OLDE : In e (ca_out (p3_cache (v_proc s))) -> entry_ok s' (snd e)) by (intros IN; eapply entry_ok_evo; eauto; apply (m_cache _ _ K e IN); eapply open_evo; eauto).
      destruct (step_class _ _ _ _ _ _ _ _ _ I W ST) as [SS|QS].
      + destruct SS as [r w sc eng s1 s2 y SB R1 M1 P1 B1 C1 R2 M2 P2 B2 AL CASE]. rewrite P2 in B. inversion SB; subst; cbn in B; [rewrite P1 in B; now apply OLDE|].
        destruct H1 as (_ & _ & CA). destruct cb as [id|]; [destruct CA as [_ CA]|]; rewrite CA, P1 in B.
        * apply dict_set_in in B as [->|B]; [|now apply OLDE]. unfold entry_ok. cbn [snd e3_handle e3_name e3_level e3_engineID].
          rewrite M2. cbn [v_msgs set_objects set_io]. rewrite app_length, M1. split; [unfold h; rewrite M1; cbn; lia|].
          rewrite getm_app. replace (Nat.eqb h (length (v_msgs s))) with true by (symmetry; apply Nat.eqb_eq; unfold h; now rewrite M1). cbn [g_req g_own].
          destruct EV as (_ & EL & EV & _). pose proof (get3_alive_lt _ _ AL) as ALT. split; [reflexivity|]. destruct (EV r ALT) as (_ & -> & -> & _).
          unfold q in H. rewrite R1 in H. unfold target in H. destruct (engine_after eng (get3 (v_reqs s) r)); injection H; intros; subst; auto.
        * now apply OLDE.
      + destruct (qs_cache _ _ _ _ _ QS _ B) as [IN|[_ X]]; [now apply OLDE|congruence].
    - intros h m H. eapply matched_evo; eauto.
      inversion LM as [N E|E|d u h0 m0 L0 L1 L2 E|h0 m0 e0 w0 vb L0 L1 L2 L3 g L4 E|h0 m0 e0 sc L0 L1 L2 L3 L4 E|r0 e0 w0 L0 E|r0 e0 w0 L0 E|r0 m0 L0 E]; rewrite <- E in H; try discriminate.
      + now apply (m_push _ _ K).
      + injection H as <- <-. destruct (received_handle _ _ _ _ _ _ _ _ L2) as (sc & id & e & H1 & H2 & H3 & H4 & HA & H5). exists sc, e. split; [exact H1|]. split; [exact H2|]. split; [exact H5|]. split; [apply (m_cache _ _ K (id, e) H3); cbn; rewrite H4; now apply alive_open|congruence].
      + destruct w0; discriminate.
    - intros h m B. eapply matched_evo; eauto.
    - intros r m H. inversion LM as [N E|E|d u h0 m0 L0 L1 L2 E|h0 m0 e0 w0 vb L0 L1 L2 L3 g L4 E|h0 m0 e0 sc L0 L1 L2 L3 L4 E|r0 e0 w0 L0 E|r0 e0 w0 L0 E|r0 m0 L0 E]; rewrite <- E in H; try (destruct H; discriminate).
      + now apply OLDL.
      + destruct H as [H|H]; [|discriminate]. injection H as <- <-. exists h0, sc. split; [apply in_log; auto|]. split; [|auto].
        destruct EV as (_ & _ & _ & _ & EV). pose proof (i3_push s I _ _ L0) as [L _]. now rewrite (proj1 (EV h0 L)).
      + destruct w0; destruct H; discriminate.
      + destruct H as [H|H]; [discriminate|]. injection H as <- <-. apply OLDL. auto.
    - intros r m B. apply in_log in B as [B|B]; [|apply AN, (m_response _ _ K _ _ B)]. apply OLDL. right. now apply (log_response _ _ _ _ _ _ _ _ _ _ _ ST B).
  Qed.
  Lemma match_run u maxSize cfg s0 y evs s l : mgr3_new C rnd ns u maxSize cfg = (s0, y) -> m3_run s0 evs = (s, l) -> match_inv s l.
  Proof.
    intros H0 E. revert evs s l E. apply (history_ind s0 (fun _ s l => match_inv s l)); [eapply base_start; eauto| |].
    - apply start_fields in H0 as (_ & _ & _ & _ & _ & _ & _ & H8 & _ & _ & H11 & _).
      constructor; rewrite ?H8, ?H11; cbn; try contradiction; try discriminate; intros r m [X|X]; discriminate.
    - intros evs s l x s' l' _ B K ST. eapply match_step; eauto.
  Qed.

  (** ** What wait() finds *)
  Definition found (l : list log3) (r : nat) (q : req3) : Prop :=
    match find (decisive r) (rev l) with
    | Some (WResponse _ m) => q_event q = true /\ q_response q = Some m
    | Some (WReport _ x vb _) => q_event q = true /\ q_response q = None /\ q_exception q = Some (x, vb)
    | Some _ => False
    | None => q_event q = false /\ q_response q = None /\
        q_exception q = match find (hearsay r) (rev l) with Some (WReport _ x vb _) => Some (x, vb) | _ => None end
    end.
  Definition results (q : req3) := (q_event q, q_exception q, q_response q).
  Definition no_news (r : nat) (l : list log3) : Prop := forall y, In y l -> decisive r y = false /\ hearsay r y = false.
  Lemma step_results s x s' l' r : inv3 s -> vstep s x s' l' -> (r < length (v_reqs s))%nat ->
    (results (get3 (v_reqs s') r) = results (get3 (v_reqs s) r) /\ no_news r l') \/
    (exists h m rp vb auth, l' = [WPushed h m; WReport r rp vb auth] /\ results (get3 (v_reqs s') r) = results (stored (get3 (v_reqs s) r) rp vb auth)) \/
    (exists m, l' = [WResponse r m] /\ results (get3 (v_reqs s') r) = if q_event (get3 (v_reqs s) r) then results (get3 (v_reqs s) r) else (true, q_exception (get3 (v_reqs s) r), Some m)).
  Proof.
    intros I ST L.
    assert (PUT : forall l r0 q, results q = results (get3 l r0) -> results (get3 (put l r0 q) r) = results (get3 l r)).
    { intros l r0 q E. rewrite get3_put. destruct (_ && _)%bool eqn:X; auto. apply andb_prop in X as [X _]. now apply Nat.eqb_eq in X as <-. }
    assert (SEND : forall s r0 w now eng s1 l0 x0, sends s r0 w now eng s1 l0 x0 -> results (get3 (v_reqs s1) r) = results (get3 (v_reqs s) r) /\ no_news r l0).
    { intros s1 r0 w now eng s2 l0 x0 H. inversion H; subst; cbn.
      - split; [auto|]. intros y [<-|[]]; auto.
      - split; [now apply PUT|]. destruct H3 as [(? & _ & ->)|(? & _ & ->)]; intros y [<-|[]]; auto. }
    assert (READY : forall s0 r0, results (get3 (v_reqs (readied clk s0 r0)) r) = results (get3 (v_reqs s0) r)) by (intros s0 r0; cbn; now apply PUT).
    assert (RES : forall s0 r0 c, results (get3 (v_reqs (rescheduled s0 r0 c)) r) = results (get3 (v_reqs s0) r)) by (intros s0 r0 c; cbn; now apply PUT).
    assert (ASN : forall s0 nx, v_reqs (assign_next s0 nx) = v_reqs s0) by (intros s0 []; reflexivity).
    assert (UPD : forall s0, v_reqs (updateState s0) = v_reqs s0) by (intros s0; unfold updateState; destruct (v_next s0); reflexivity).
    assert (NN : no_news r []) by (intros y []).
    assert (ASKS : forall r0 w s1 l1 y, asks clk s r0 w s1 l1 y -> results (get3 (v_reqs s1) r) = results (get3 (v_reqs s) r) /\ no_news r l1).
    { intros r0 w s1 l1 y [nx O|nx s2 l2 e O H|nx s2 l2 O H]; [auto| |]; apply SEND in H as [H1 H2]; rewrite READY, ASN in H1; [auto|].
      rewrite UPD. destruct (push3_fields s2 r0) as (-> & _). auto. }
    assert (CLOSED : forall s0 r0 s1, closed s0 r0 s1 -> results (get3 (v_reqs s1) r) = results (get3 (v_reqs s0) r)).
    { intros s0 r0 s1 (u & p & q & m & -> & Q & _). cbn. apply PUT. destruct Q as [->| ->]; reflexivity. }
    inversion ST; subst; try solve [left; split; [reflexivity|exact NN]].
    - left. cbn. rewrite get3_app. destruct (Nat.eqb_spec r (length (v_reqs s))); [lia|auto].
    - left. inversion H0; subst; try solve [split; [reflexivity|exact NN]]; try solve [split; [reflexivity|intros y [<-|[]]; auto]]; try solve [match goal with X : asks _ _ _ _ _ _ _ |- _ => exact (ASKS _ _ _ _ _ X) end].
      + match goal with X : dropped _ _ _ _ |- _ => destruct X as [[-> _]|[-> _]] end; split; [reflexivity|exact NN|reflexivity|exact NN].
      + match goal with X : sends _ _ _ _ _ _ _ _ |- _ => apply SEND in X; now rewrite RES in X end.
      + match goal with X : sends _ _ _ _ _ _ _ _ |- _ => apply SEND in X; now rewrite RES in X end.
      + cbn. rewrite UPD, ASN. auto.
      + apply close3_spec in H1. split; [now apply CLOSED in H1|]. intros y [<-|[]]; auto.
    - inversion H; subst; try solve [left; split; [reflexivity|exact NN]]; try solve [left; split; [reflexivity|intros y [<-|[]]; auto]].
      + destruct (Nat.eq_dec r0 r) as [E|N]; [subst r0|].
        * right. left. exists h, m, x, vb, auth. subst r. split; [reflexivity|]. cbn. rewrite get3_put_same by auto. reflexivity.
        * left. split; [cbn; now rewrite get3_put_other by auto|]. intros y [<-|[<-|[]]]; cbn; auto. apply Nat.eqb_neq in N. destruct auth; rewrite N; auto.
      + left. apply SEND in H3. now rewrite READY, ASN in H3.
      + left. apply SEND in H3. rewrite READY, ASN in H3. destruct b; cbn; rewrite ?UPD; match goal with |- context [heapify3 ?z] => destruct (heapify3_fields z) as (-> & _) end; auto.
      + left. apply SEND in H3. now rewrite READY in H3.
      + left. apply SEND in H3. rewrite READY in H3. match goal with |- context [push3 ?z q] => destruct (push3_fields z q) as (-> & _) end. exact H3.
      + left. split; [cbn; now apply PUT|exact NN].
      + left. split; [cbn; now rewrite ASN|exact NN].
      + left. split; [cbn; rewrite UPD; cbn; now rewrite ASN|exact NN].
      + destruct (Nat.eq_dec r0 r) as [E|N].
        * subst r0. right. right. exists m. split; [auto|]. fold q. destruct (q_event q) eqn:EV; cbn; [reflexivity|]. now rewrite get3_put_same.
        * left. split; [destruct (q_event q); cbn; [auto|now rewrite get3_put_other by auto]|]. intros y [<-|[]]. cbn. apply Nat.eqb_neq in N. rewrite N. auto.
    - left. split; [|exact NN]. apply CLOSED in H0. rewrite H0. cbn. now apply PUT.
    - left. split; [|exact NN]. destruct H0 as (u & p & q & m & -> & _). reflexivity.
  Qed.
  Lemma find_none_app {A} (f : A -> bool) l1 l2 : find f (l1 ++ l2) = match find f l1 with Some a => Some a | None => find f l2 end.
  Proof. induction l1 as [|a l1 IH]; cbn; [auto|]. destruct (f a); auto. Qed.
  Lemma find_no {A} (f : A -> bool) l : (forall y, In y l -> f y = false) -> find f l = None.
  Proof. induction l as [|a l IH]; cbn; [auto|]. intros H. rewrite (H a) by auto. auto. Qed.
  Lemma found_results l r q q' : results q' = results q -> found l r q -> found l r q'.
  Proof. intros E. injection E as E1 E2 E3. unfold found. rewrite E1, E2, E3. auto. Qed.
  (** The requests named in the log exist. *)
  Definition named (s : mgr3) (l : list log3) : Prop :=
    forall y, In y l -> match y with WReport r _ _ _ | WResponse r _ => (r < length (v_reqs s))%nat | _ => True end.
  Definition found_inv (s : mgr3) (l : list log3) : Prop :=
    named s l /\ forall r, (r < length (v_reqs s))%nat -> found l r (get3 (v_reqs s) r).
  Lemma named_step s x s' l l' : inv3 s -> named s l -> vstep s x s' l' -> named s' (rev l' ++ l).
  Proof.
    intros I NM ST. pose proof (step_spec _ _ _ _ _ _ _ _ _ I ST) as (_ & EV & _). destruct EV as (_ & EL & _). intros y B. apply in_log in B as [B|B].
    - destruct y as [| | |r rp vb auth|r m| |]; auto.
      + inversion ST; subst; try solve [destruct B].
        * exfalso. assert (S : forall s r0 w now eng s1 l x, sends s r0 w now eng s1 l x -> ~ In (WReport r rp vb auth) l).
          { intros s2 r0 w now eng s3 l2 x0 X. inversion X; subst; [intros [|[]]; discriminate|]. destruct H4 as [(? & _ & ->)|(? & _ & ->)]; intros [|[]]; discriminate. }
          assert (A : forall r0 w s1 l y, asks clk s r0 w s1 l y -> ~ In (WReport r rp vb auth) l).
          { intros r0 w s2 l2 y [nx O|nx s3 l3 e O X|nx s3 l3 O X]; [intros []| |]; eapply S; eauto. }
          inversion H0; subst; try solve [destruct B as [B|[]]; discriminate]; try solve [destruct B]; try solve [eapply A; eauto]; eapply S; eauto.
        * assert (S : forall s r0 w now eng s1 l x, sends s r0 w now eng s1 l x -> ~ In (WReport r rp vb auth) l).
          { intros s2 r0 w now eng s3 l2 x0 X. inversion X; subst; [intros [|[]]; discriminate|]. destruct H3 as [(? & _ & ->)|(? & _ & ->)]; intros [|[]]; discriminate. }
          inversion H; subst; try solve [destruct B]; try solve [destruct B as [B|[]]; discriminate]; try solve [exfalso; eapply S; eauto].
          destruct B as [B|[B|[]]]; [discriminate|]. injection B as <- _ _ _. apply (Nat.lt_le_trans _ (length (v_reqs s))); [apply get3_alive_lt; assumption|exact EL].
      + destruct (log_response _ _ _ _ _ _ _ _ _ _ _ ST B) as [X _]. assert (A : q_alive (get3 (v_reqs s) r) = true) by (apply (i3_listener s I); now rewrite X). apply get3_alive_lt in A. lia.
    - specialize (NM y B). destruct y; auto; lia.
  Qed.
  Lemma found_step s x s' l l' : inv3 s -> found_inv s l -> vstep s x s' l' -> found_inv s' (rev l' ++ l).
  Proof.
    intros I [NM F] ST. split; [eapply named_step; eauto|]. intros r L'.
    pose proof (step_spec _ _ _ _ _ _ _ _ _ I ST) as (I' & EV & new & lost & _ & _ & LN & N).
    destruct (le_lt_dec (length (v_reqs s)) r) as [G|L].
    - (* new *) assert (E : exists p user level timeout period id g n, s' = made3 clk s id g n p user level timeout period /\ l' = [] /\ r = length (v_reqs s)).
      { destruct N as [->| ->]; cbn in LN; [lia|]. assert (LL : length (v_reqs s') <> length (v_reqs s)) by lia. clear -ST LL G L' LN I.
        inversion ST; subst; try (cbn in LL; congruence); [do 8 eexists; repeat split; lia| | | |].
        - exfalso. assert (TI : In t (v_tasks s)) by (rewrite H; apply in_elt). apply (tstep_spec _ _ _ _ _ _ _ _ _ I TI) in H0 as ((_ & K & _) & _). cbn in LL. congruence.
        - exfalso. apply (lstep_spec _ _ _ _ I) in H as ((_ & K & _) & _). congruence.
        - exfalso. apply keeps_closed in H0 as (_ & K & _). cbn in K. rewrite put_length in K. congruence.
        - exfalso. destruct H0 as (u & p & q & m & -> & _). now apply LL. }
      destruct E as (p & user & level & timeout & period & id & g & n & -> & -> & ->). cbn [rev app].
      assert (NO : forall y, In y (rev l) -> decisive (length (v_reqs s)) y = false /\ hearsay (length (v_reqs s)) y = false).
      { intros y B. apply in_rev in B. specialize (NM y B). destruct y as [| | |r rp vb [|]|r m| |]; cbn; auto; split; try reflexivity; apply Nat.eqb_neq; lia. }
      unfold found. rewrite !find_no by (intros y B; apply (NO y B)). cbn. rewrite get3_app, Nat.eqb_refl. auto.
    - specialize (F r L). destruct (step_results _ _ _ _ r I ST L) as [[E NN]|[(h & m & rp & vb & auth & -> & E)|(m & -> & E)]].
      + assert (FF : found (rev l' ++ l) r (get3 (v_reqs s) r)); [|eapply found_results; eauto].
        unfold found in *. rewrite rev_app_distr, rev_involutive, !find_none_app.
        rewrite (find_no (decisive r) l') by (intros y B; apply (NN y B)). rewrite (find_no (hearsay r) l') by (intros y B; apply (NN y B)).
        destruct (find (decisive r) (rev l)); [auto|]. destruct (find (hearsay r) (rev l)); auto.
      + injection E as E1 E2 E3. unfold found in *. cbn [rev app]. rewrite <- app_assoc. cbn [app]. 
        cbn [rev]. rewrite !find_none_app. rewrite E1, E2, E3. clear E1 E2 E3.
        destruct (find (decisive r) (rev l)) as [y|].
        * unfold stored. destruct y; auto; destruct F as [F1 F]; [destruct F as [F2 F3]|]; destruct auth; rewrite ?F1, ?F3; auto. destruct (q_exception _); auto.
        * destruct F as (F1 & F2 & F3). cbn [find decisive hearsay]. destruct auth; rewrite ?Nat.eqb_refl; unfold stored; rewrite ?F1; cbn; auto.
          rewrite F3. destruct (find (hearsay r) (rev l)) as [y|] eqn:FH; cbn; auto. apply find_some in FH as [_ FH]. destruct y as [| | |? ? ? []| | |]; try discriminate. cbn. auto.
      + unfold found in *. cbn [rev app]. rewrite !find_none_app.
        destruct (find (decisive r) (rev l)) as [y|].
        * assert (Q : q_event (get3 (v_reqs s) r) = true) by (destruct y; tauto). rewrite Q in E. injection E as E1 E2 E3. rewrite E1, E2, E3. exact F.
        * destruct F as (F1 & F2 & F3). rewrite F1 in E. injection E as E1 E2 E3. cbn [find decisive hearsay]. rewrite Nat.eqb_refl. auto.
  Qed.
End Traces.
