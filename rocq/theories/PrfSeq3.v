(** PrfSeq3.v -- the SNMPv3 manager in the hands of one thread: it does not forget
    that it has sent something. *)
From Verif Require Import PropertiesUsm PropertiesMsg PropertiesProc PropertiesMgr PrfMgr3i PropertiesMgr3.
From Verif Require Export PrfState PrfMgr3g.
From Coq Require Import Permutation.

Section Sequential.
  Context (C : crypto) (R : Z) (rnd : nat -> nat -> Z) (clk : nat -> Z) (fmt : v3msg -> bool) (ns : pystr).
  Notation m3_run := (m3_run C R rnd clk fmt ns).
  Notation vstep := (vstep C R rnd clk ns).
  Notation tstep := (tstep C rnd clk ns).
  Notation lstep := (lstep clk).

  (** ** Who pushes onto the heap *)
  Lemma update_heap s : v_heap (updateState s) = v_heap s.
  Proof. destruct (update_fields s) as (st & n & ->). reflexivity. Qed.
  Lemma assign_heap s nx : v_heap (assign_next s nx) = v_heap s.
  Proof. destruct (assign_fields s nx) as (n & ->). reflexivity. Qed.
  Lemma sends_heap s r w now eng s1 l x : sends s r w now eng s1 l x -> v_heap s1 = v_heap s /\ v_refs s1 = v_refs s /\ length (v_reqs s1) = length (v_reqs s).
  Proof. intros H. destruct H; cbn; rewrite ?put_length; auto. Qed.
  Lemma sends_first s r w now eng s1 l x : sends s r w now eng s1 l x -> x = Ok tt -> w = ByCall \/ w = ByPoke \/ w = ByDrain -> firsts l = [r].
  Proof. intros H -> D. apply sends_queue in H as (_ & _ & F & _). destruct D as [->|[->| ->]]; exact F. Qed.
  Lemma push_heap s r : length (v_refs s) = length (v_reqs s) -> Permutation (r :: v_heap s) (v_heap (push3 s r)).
  Proof. intros L. destruct (push3_spec s r L) as (w & h & -> & _ & P). exact P. Qed.
  Lemma heapify_heap s : length (v_refs s) = length (v_reqs s) -> Permutation (v_heap s) (v_heap (heapify3 s)).
  Proof. intros L. destruct (heapify3_spec s L) as (w & h & -> & _ & P). exact P. Qed.

  Definition subheap (s s' : mgr3) : Prop := forall r, In r (v_heap s') -> In r (v_heap s).
  Inductive heap_step (s s' : mgr3) (l : list log3) : Prop :=
  | HSub : subheap s s' -> heap_step s s' l
  | HPush r : firsts l = [r] -> Permutation (r :: v_heap s) (v_heap s') ->
      (exists nx, onRequest (v_state s) (sl_auth (q_level (get3 (v_reqs s) r))) = (nx, true) /\ v_state s' = after (v_state s) (assigned nx (v_next s)) /\
        exists t, In t (v_tasks s) /\ (forall r, t <> SPoke r)) \/
      (exists r0 e w, v_listener s = LDrain r0 e w) -> heap_step s s' l.

  Lemma asks_heap s r w s1 l y : inv3 s -> (w = ByCall \/ w = ByPoke) -> asks clk s r w s1 l y ->
    match y with
    | Ok true => firsts l = [r] /\ Permutation (r :: v_heap s) (v_heap s1) /\
        exists nx, onRequest (v_state s) (sl_auth (q_level (get3 (v_reqs s) r))) = (nx, true) /\ v_state s1 = after (v_state s) (assigned nx (v_next s))
    | _ => v_heap s1 = v_heap s
    end.
  Proof.
    intros I D H. destruct H as [nx E|nx s1 l e E S|nx s1 l E S].
    - reflexivity.
    - apply sends_heap in S as (-> & _). unfold readied. cbn. apply assign_heap.
    - split; [eapply sends_first; eauto; destruct D as [->| ->]; auto|]. 
      pose proof (sends_moves _ _ _ _ _ _ _ _ _ S) as (_ & ST & NX). pose proof (sends_heap _ _ _ _ _ _ _ _ S) as (HH & HR & HL).
      split.
      + rewrite update_heap. replace (v_heap s) with (v_heap s1).
        * apply push_heap. rewrite HR, HL. unfold readied. cbn. rewrite put_length.
          destruct (assign_same s nx) as (_ & -> & ->). apply I.
        * rewrite HH. unfold readied. cbn. apply assign_heap.
      + exists nx. split; [exact E|]. destruct (update_eq (push3 s1 r)) as (_ & -> & _). destruct (push3_states s1 r) as (_ & -> & ->). now rewrite ST, NX.
  Qed.
  Lemma closed_heap s r s' : closed s r s' -> v_heap s' = v_heap s.
  Proof. intros (u & p & q & m & -> & _). reflexivity. Qed.
  Lemma sub_same s s' : v_heap s' = v_heap s -> subheap s s'.
  Proof. intros E r. now rewrite E. Qed.
  Lemma sub_perm s s' : Permutation (v_heap s) (v_heap s') -> subheap s s'.
  Proof. intros P r. apply Permutation_in. now symmetry. Qed.
  Lemma tstep_heap s t s1 new l : inv3 s -> In t (v_tasks s) -> tstep s t s1 new l -> heap_step s s1 l.
  Proof.
    intros I IN H. destruct H;
      try (apply HSub; apply sub_same; reflexivity);
      try match goal with H : asks _ _ _ _ _ _ _ |- _ => apply (asks_heap _ _ _ _ _ _ I) in H; [|auto; fail] end.
    - destruct y as [[|]|]; [|congruence|]; cbn in H0.
      + destruct H0 as (F & P & nx & O & ST). apply (HPush _ _ _ _ F P). left. exists nx. split; [exact O|]. split; [exact ST|]. exists (SSend r). split; [exact IN|discriminate].
      + apply HSub. now apply sub_same.
    - apply HSub. apply pop3_ok in H1 as (_ & _ & P & _); [|apply I]. intros x. cbn. rewrite H. intros X. right. eapply Permutation_in; [symmetry|]; eauto.
    - apply HSub. apply sub_same. now apply sends_heap in H3 as (-> & _).
    - apply HSub. pose proof (sends_heap _ _ _ _ _ _ _ _ H3) as (_ & HR & HL). unfold rescheduled in HR, HL. cbn in HR, HL. rewrite put_length in HL.
      apply replace3_perm in H4 as (_ & _ & P); [|rewrite HL; apply I]. intros x. cbn. rewrite H. intros X. eapply Permutation_in; [symmetry|]; eauto.
    - cbn in H0. apply HSub. now apply sub_same.
    - destruct H0 as (F & P & nx & O & ST). apply (HPush _ _ _ _ F P). left. exists nx. split; [exact O|]. split; [exact ST|]. eexists. split; [exact IN|discriminate].
    - apply HSub. apply sub_same. eapply closed_heap, close3_spec; eauto.
  Qed.
  Lemma lstep_heap s s1 l : inv3 s -> lstep s s1 l -> heap_step s s1 l.
  Proof.
    intros I H. destruct H; try (apply HSub; apply sub_same; reflexivity).
    - apply HSub, sub_same. cbn. apply sends_heap in H2 as (-> & _). unfold readied. cbn. apply assign_heap.
    - apply HSub, sub_perm. pose proof (sends_heap _ _ _ _ _ _ _ _ H2) as (HH & HR & HL).
      assert (A : Permutation (v_heap s) (v_heap (heapify3 s1))).
      { replace (v_heap s) with (v_heap s1) by (rewrite HH; unfold readied; cbn; apply assign_heap).
        apply heapify_heap. rewrite HR, HL. unfold readied. cbn. rewrite put_length. destruct (assign_same s nx) as (_ & -> & ->). apply I. }
      destruct b; cbn; rewrite ?update_heap; exact A.
    - apply HSub, sub_same. cbn. now apply sends_heap in H2 as (-> & _).
    - pose proof (sends_heap _ _ _ _ _ _ _ _ H2) as (HH & HR & HL). cbn in HH, HR, HL. rewrite put_length in HL.
      apply (HPush _ _ _ q); [eapply sends_first; eauto| |right; eauto].
      rewrite <- HH. apply push_heap. rewrite HR, HL. apply I.
    - apply HSub, sub_same. destruct (assign_fields s nx) as (n & ->). reflexivity.
    - apply HSub, sub_same. destruct (assign_fields s nx) as (n & ->). cbn. now rewrite update_heap.
    - apply HSub, sub_same. subst q. destruct (q_event (get3 (v_reqs s) r)); reflexivity.
  Qed.
  Lemma step_heap s x s' l : inv3 s -> vstep s x s' l -> heap_step s s' l.
  Proof.
    intros I H. destruct H; try (apply HSub; apply sub_same; reflexivity).
    - assert (IN : In t (v_tasks s)) by (rewrite H; apply in_elt). destruct (tstep_heap _ _ _ _ _ I IN H0) as [S|r0 F P D].
      + now apply HSub.
      + apply (HPush _ _ _ r0); auto.
    - now apply lstep_heap.
    - apply HSub, sub_same. now apply closed_heap in H0.
    - apply HSub, sub_same. destruct H0 as (u & p & c & m & -> & _). reflexivity.
  Qed.

  (** ** Whatever was sent was sent for a first time *)
  (** The first message for [r] could be sent, if that was tried. *)
  Definition launched (l : list log3) (r : nat) : Prop := forall h w e, In (WFailed r h w e) l -> w <> ByCall /\ w <> ByPoke /\ w <> ByDrain.
  Lemma launched_app a b r : launched (rev a ++ b) r -> launched a r /\ launched b r.
  Proof. intros H. split; intros h w e K; apply (H h w e), in_or_app; [left; now apply -> in_rev|now right]. Qed.
  Record sent_inv (s : mgr3) (l : list log3) : Prop := {
    si_heap : forall r, launched l r -> In r (v_heap s) -> In r (firsts l);
    si_msgs : forall h, launched l (g_req (getm (v_msgs s) h)) -> (h < length (v_msgs s))%nat -> g_own (getm (v_msgs s) h) = true -> In (g_req (getm (v_msgs s) h)) (firsts l);
    si_report : forall r e w, launched l r -> v_listener s = LReport r e w -> In r (firsts l);
    si_sent : forall r h w now d e user lev wire, launched l r -> In (WSent r h w now d e user lev wire) l -> In r (firsts l)
  }.
  Lemma firsts_more l l' r : In r (firsts l) -> In r (firsts (rev l' ++ l)).
  Proof. intros H. rewrite firsts_app. apply in_or_app. now right. Qed.
  Lemma firsts_new l l' r : In r (firsts l') -> In r (firsts (rev l' ++ l)).
  Proof. unfold firsts. rewrite flat_map_app, in_app_iff. intros H. left. apply in_flat_map in H as (y & A & B). apply in_flat_map. exists y. split; [now apply in_rev in A|exact B]. Qed.
  Lemma sent_step s x s' l l' : base s -> sent_inv s l -> vstep s x s' l' -> sent_inv s' (rev l' ++ l).
  Proof.
    intros [I W] K ST.
    assert (NEW : (exists r, (forall h, (h < length (v_msgs s'))%nat -> (h < length (v_msgs s))%nat \/ g_req (getm (v_msgs s') h) = r) /\
        (forall r' h w now d e user lev wire, In (WSent r' h w now d e user lev wire) l' -> r' = r) /\ (launched (rev l' ++ l) r -> In r (firsts (rev l' ++ l)))) \/
      ((length (v_msgs s') = length (v_msgs s) \/ outside s s') /\ forall r' h w now d e user lev wire, ~ In (WSent r' h w now d e user lev wire) l')).
    { destruct (step_class _ _ _ _ _ _ _ _ _ I W ST) as [[r w sc eng s1 s2 y SB E1 E2 E3 E4 E5 F1 F2 F3 F4 AL D]|Q].
      - left. exists r. split; [|split].
        + intros h L. rewrite F2. destruct (sent_by_msgs _ _ _ _ _ _ _ _ _ SB) as (extra & M & X). rewrite M in *. rewrite E2 in *.
          destruct (le_lt_dec (length (v_msgs s)) h) as [G|G]; [right|left; exact G]. rewrite F2 in L.
          unfold getm. rewrite app_nth2 by exact G. apply (X (nth (h - length (v_msgs s)) extra no_msg3)). apply nth_In. rewrite app_length in L. lia.
        + intros r' h w' now d e user lev wire IN. apply sent_by_log in SB as [(_ & h0 & d0 & e0 & u0 & lev0 & w0 & ->)|(ex & h0 & _ & ->)]; destruct IN as [IN|[]]; congruence.
        + intros LA. pose proof LA as LA'. apply launched_app in LA' as [LN LO].
          assert (FI : w = ByCall \/ w = ByPoke \/ w = ByDrain -> In r (firsts l')).
          { intros WW. apply sent_by_log in SB as [(-> & h0 & d0 & e0 & u0 & lev0 & w0 & ->)|(ex & h0 & _ & ->)].
            - destruct WW as [->|[->| ->]]; now left.
            - exfalso. destruct (LN h0 w ex (or_introl eq_refl)) as (N1 & N2 & N3). destruct WW as [?|[?|?]]; contradiction. }
          destruct w; [apply firsts_new, FI; auto..| | |].
          * destruct D as (_ & _ & _ & (t & H) & _). apply firsts_more, (si_heap _ _ K _ LO). rewrite H. now left.
          * destruct D as (_ & _ & e & L & _). now apply firsts_more, (si_report _ _ K _ _ _ LO L).
          * destruct D as (_ & _ & e & L & _). now apply firsts_more, (si_report _ _ K _ _ _ LO L).
      - right. split; [destruct (qs_msgs _ _ _ _ _ Q) as [M|[_ M]]; auto|]. intros r' h w now d e user lev wire IN. apply (qs_log _ _ _ _ _ Q) in IN. discriminate. }
    pose proof (step_spec _ _ _ _ _ _ _ _ _ I ST) as (_ & (_ & _ & _ & ML & MQ) & _).
    constructor.
    - intros r LA IN. pose proof LA as LA'. apply launched_app in LA' as [_ LO]. destruct (step_heap _ _ _ _ I ST) as [S|r0 F P _]; [now apply firsts_more, (si_heap _ _ K), S|].
      pose proof (Permutation_in r (Permutation_sym P) IN) as X. destruct X as [Q|X]; [apply firsts_new; rewrite F, Q; now left|now apply firsts_more, (si_heap _ _ K)].
    - intros h LA L OW. assert (G : (h < length (v_msgs s))%nat -> In (g_req (getm (v_msgs s') h)) (firsts (rev l' ++ l))).
      { intros G. apply launched_app in LA as [_ LO]. destruct (MQ h G) as (MQ1 & _ & MQ2 & _). rewrite MQ1 in *. rewrite MQ2 in OW. now apply firsts_more, (si_msgs _ _ K). }
      destruct NEW as [(r & M & _ & F)|[[M|M] _]]; [|apply G; lia|destruct (le_lt_dec (length (v_msgs s)) h) as [A|A]; [|now apply G]; destruct M as (u & p & c & m & -> & _ & _ & _ & _ & M & _); destruct (M h A) as (_ & _ & M3 & _); cbn [v_msgs set_objects] in OW; congruence]. destruct (M h L) as [A|A]; [auto|rewrite A in *; auto].
    - intros r e w LA L. pose proof (step_listener _ _ _ _ _ _ _ _ _ ST) as LM. rewrite L in LM. apply firsts_more. apply launched_app in LA as [_ LO].
      remember (LReport r e w) as lis. destruct LM; try discriminate.
      + eapply (si_report _ _ K); [exact LO|]. now rewrite Heqlis in *.
      + injection Heqlis as <- _ _. apply (si_msgs _ _ K); [exact LO| |]; eapply (i3_push _ I); eauto.
      + unfold reported_done in Heqlis. destruct w0; discriminate.
    - intros r h w now d e user lev wire LA IN. apply in_log in IN as [IN|IN].
      + destruct NEW as [(r0 & _ & M & F)|[_ M]]; [|exfalso; eapply M; eauto]. rewrite (M _ _ _ _ _ _ _ _ _ IN) in *. auto.
      + apply launched_app in LA as [_ LO]. now apply firsts_more, (si_sent _ _ K _ _ _ _ _ _ _ _ _ LO IN).
  Qed.
  Lemma sent_run u maxSize cfg s0 y evs s l : mgr3_new C rnd ns u maxSize cfg = (s0, y) -> m3_run s0 evs = (s, l) -> sent_inv s l.
  Proof.
    intros H0 E. revert evs s l E. apply (history_ind C R rnd clk fmt ns s0 (fun _ s l => sent_inv s l)); [eapply base_start; eauto| |].
    - apply start_fields in H0 as (A & _ & _ & _ & B & _ & _ & D & _). constructor; rewrite ?A, ?B, ?D; cbn; try lia; try discriminate; intros; contradiction.
    - intros evs s l x s' l' _ B K ST. eapply sent_step; eauto.
  Qed.

  (** ** What the state says about the heap *)
  (** No more than one thread is in sendRequest() or wait(). *)
  Definition alone (s : mgr3) : Prop := (length (v_tasks s) <= 1)%nat.
  Record seq_inv (s : mgr3) : Prop := {
    se_state : v_state s = Unsynchronized -> v_heap s = [];
    se_next : v_next s <> Some Unsynchronized;
    se_poke : forall r, In (SPoke r) (v_tasks s) -> v_heap s = [] \/ late s;
    se_drain : forall r e w, v_listener s = LDrain r e w -> late s
  }.
  (** Only poke() goes back to Unsynchronized. *)
  Definition unsynced (s s' : mgr3) : Prop :=
    (v_next s <> Some Unsynchronized -> v_next s' <> Some Unsynchronized) /\
    (v_state s' = Unsynchronized -> v_state s = Unsynchronized \/ v_next s = Some Unsynchronized).
  Lemma unsynced_same s s' : v_state s' = v_state s -> v_next s' = v_next s -> unsynced s s'.
  Proof. intros A B. unfold unsynced. rewrite A, B. auto. Qed.
  Definition forward (nx : option mstate) : Prop := nx <> Some Unsynchronized.
  Lemma request_forward st auth nx b : onRequest st auth = (nx, b) -> forward nx.
  Proof. unfold forward. destruct st; cbn; intros E; injection E as <- _; discriminate. Qed.
  Lemma report_forward st mine e nx b : onReport st mine e = Ok (nx, b) -> forward nx.
  Proof. unfold forward. destruct st; cbn; try discriminate; try (destruct (opt_bytes_eqb e mine)); intros E; injection E as <- _; discriminate. Qed.
  Lemma response_forward st mine e auth nx b : onResponse st mine e auth = Ok (nx, b) -> forward nx.
  Proof.
    unfold forward. destruct st; cbn; try discriminate; try (destruct (auth || opt_bytes_eqb e mine)); try destruct auth; intros E; injection E as <- _; discriminate.
  Qed.
  Lemma unsynced_assigned s s' nx : forward nx -> v_state s' = v_state s -> v_next s' = assigned nx (v_next s) -> unsynced s s'.
  Proof. intros F A B. unfold unsynced, forward in *. rewrite A, B. split; [|auto]. destruct nx; cbn; auto. Qed.
  Lemma unsynced_after s s' nx : forward nx -> v_state s' = after (v_state s) (assigned nx (v_next s)) -> v_next s' = None -> unsynced s s'.
  Proof.
    intros F A B. unfold unsynced, forward in *. rewrite A, B. split; [discriminate|]. destruct nx as [n|]; cbn.
    - intros ->. congruence.
    - destruct (v_next s) as [n|]; cbn; [intros ->; auto|auto].
  Qed.
  Lemma asks_unsynced s r w s1 l y : asks clk s r w s1 l y -> unsynced s s1.
  Proof.
    intros H. destruct H as [nx E|nx s1 l e E S|nx s1 l E S].
    - now apply unsynced_same.
    - apply sends_moves in S as (_ & ST & NX). eapply unsynced_assigned; eauto. eapply request_forward; eauto.
    - apply sends_moves in S as (_ & ST & NX). destruct (update_eq (push3 s1 r)) as (_ & A & B). destruct (push3_states s1 r) as (_ & A' & B').
      eapply unsynced_after; [eapply request_forward; eauto| |exact B]. now rewrite A, A', B', ST, NX.
  Qed.
  Lemma tstep_unsynced s t s1 new l : tstep s t s1 new l -> unsynced s s1 \/
    (exists r, t = SPoke r /\ v_heap s1 = v_heap s /\ v_next s1 = None /\ v_state s = Synchronizing).
  Proof.
    intros H. destruct H; try (left; now apply unsynced_same); try (left; eapply asks_unsynced; eassumption).
    - left. destruct H0 as [(-> & _)|(-> & _)]; now apply unsynced_same.
    - left. apply sends_states in H3 as (_ & A & B). now apply unsynced_same.
    - left. apply sends_states in H3 as (_ & A & B). now apply unsynced_same.
    - destruct (update_eq (assign_next s (onInactive (v_state s)))) as (_ & A & B). destruct (assign_eq s (onInactive (v_state s))) as (_ & A' & B').
      destruct (v_state s) eqn:E; [left..| |left|left]; try (eapply (unsynced_after _ _ (onInactive (v_state s))); [rewrite E; discriminate| |exact B]; cbn [v_state set_queue]; rewrite A, A', B', E; reflexivity).
      right. exists r. cbn. auto.
    - left. apply close3_spec in H as (u & p & q & m & -> & _). now apply unsynced_same.
  Qed.
  Lemma lstep_unsynced s s1 l : lstep s s1 l -> unsynced s s1.
  Proof.
    intros H. destruct H; try (now apply unsynced_same).
    - apply sends_moves in H2 as (_ & A & B). eapply unsynced_assigned; eauto. eapply report_forward; eauto.
    - apply sends_moves in H2 as (_ & A & B). destruct (heapify3_states s1) as (_ & C1 & C2). destruct b.
      + destruct (update_eq (heapify3 s1)) as (_ & D1 & D2). eapply unsynced_after; [eapply report_forward; eauto| |exact D2]. cbn. now rewrite D1, C1, C2, A, B.
      + eapply unsynced_assigned; [eapply report_forward; eauto|cbn; congruence|cbn; congruence].
    - apply sends_states in H2 as (_ & A & B). now apply unsynced_same.
    - apply sends_states in H2 as (_ & A & B). destruct (push3_states s1 q) as (_ & C1 & C2). apply unsynced_same; [now rewrite C1, A|now rewrite C2, B].
    - destruct (assign_eq s nx) as (_ & A & B). eapply unsynced_assigned; [eapply response_forward; eauto|exact A|exact B].
    - destruct (assign_eq s nx) as (_ & A & B).
      destruct (update_eq (set_engine (set_io (assign_next s nx) u (v_proc s) (v_clock s)) (Some e))) as (_ & D1 & D2).
      eapply unsynced_after; [eapply response_forward; eauto| |exact D2]. cbn [v_state set_listener set_threads]. rewrite D1. cbn. now rewrite A, B.
    - subst q. destruct (q_event (get3 (v_reqs s) r)); now apply unsynced_same.
  Qed.
  Lemma step_unsynced s x s' l : vstep s x s' l -> unsynced s s' \/
    (exists r, In (SPoke r) (v_tasks s) /\ v_heap s' = v_heap s /\ v_next s' = None /\ v_state s = Synchronizing).
  Proof.
    intros H. destruct H; try (left; now apply unsynced_same).
    - destruct (tstep_unsynced _ _ _ _ _ H0) as [A|(r & -> & A & B & D)]; [left; exact A|]. right. exists r. split; [rewrite H; apply in_elt|auto].
    - left. now apply lstep_unsynced in H.
    - left. destruct H0 as (u & p & q & m & -> & _). now apply unsynced_same.
    - left. destruct H0 as (u & p & q & m & -> & _). now apply unsynced_same.
  Qed.
  (** poke() is about to be called: the heap is empty. *)
  Lemma step_poke s x s' l r : vstep s x s' l -> In (SPoke r) (v_tasks s') -> In (SPoke r) (v_tasks s) \/ v_heap s' = [].
  Proof.
    intros H IN. destruct H; try (left; exact IN).
    - left. cbn in IN. apply in_app_or in IN as [IN|[IN|[]]]; [exact IN|discriminate].
    - left. cbn in IN. apply in_app_or in IN as [IN|[IN|[]]]; [exact IN|discriminate].
    - cbn in IN. rewrite H. apply in_app_or in IN as [IN|IN]; [left; apply in_or_app; now left|].
      apply in_app_or in IN as [IN|IN]; [|left; apply in_or_app; right; now right].
      destruct H0; try (destruct IN as [IN|[]]; discriminate); try contradiction.
      + destruct IN as [IN|[]]. left. rewrite IN. apply in_elt.
      + right. exact H0.
    - left. apply lstep_tasks in H. congruence.
    - left. destruct H0 as (u & p & q & m & -> & _). exact IN.
    - left. destruct H0 as (u & p & q & m & -> & _). exact IN.
  Qed.
  (** The loop of onReport() begins. *)
  Lemma step_drain s x s' l r e w : vstep s x s' l -> v_listener s' = LDrain r e w -> v_listener s = LDrain r e w \/ late s'.
  Proof.
    intros H L. destruct H; try (left; exact L); try discriminate.
    - left. cbn in L. now rewrite (tstep_listener _ _ _ _ _ _ _ _ _ H0) in L.
    - destruct H; try (left; exact L); try (cbn in L; discriminate).
      + destruct b.
        * right. apply sends_moves in H2 as (_ & A & B). destruct (heapify3_states s1) as (_ & C1 & C2). destruct (update_eq (heapify3 s1)) as (_ & D1 & D2).
          split; [|left; exact D2]. cbn [v_state set_listener set_threads]. rewrite D1, C1, C2, A, B.
          destruct (v_state s); cbn in H1; try discriminate; [injection H1 as <-; cbn; auto|].
          destruct (opt_bytes_eqb e0 (v_engine s)); [injection H1 as <-; cbn; auto|discriminate].
        * cbn in L. unfold reported_done in L. destruct w0; discriminate.
      + cbn in L. unfold reported_done in L. destruct w0; discriminate.
      + left. destruct (push3_fields s1 q) as (_ & _ & _ & _ & _ & E). rewrite E in L. now rewrite (sends_listener _ _ _ _ _ _ _ _ H2) in L.
    - left. destruct H0 as (u & p & q & m & -> & _). exact L.
    - left. destruct H0 as (u & p & q & m & -> & _). exact L.
  Qed.
  Lemma late_not s : late s -> v_state s <> Unsynchronized.
  Proof. intros ([->| ->] & _); discriminate. Qed.
  Lemma sub_nil s s' : subheap s s' -> v_heap s = [] -> v_heap s' = [].
  Proof. intros S E. destruct (v_heap s') as [|r h] eqn:Q; [reflexivity|]. exfalso. specialize (S r). rewrite Q, E in S. now apply S; left. Qed.
  Lemma seq_step s x s' l : base s -> alone s -> seq_inv s -> vstep s x s' l -> seq_inv s'.
  Proof.
    intros [I W] AL K ST. pose proof (late_step _ _ _ _ _ _ _ _ _ ST) as LS.
    assert (DR : forall r e w, v_listener s' = LDrain r e w -> late s').
    { intros r e w L. destruct (step_drain _ _ _ _ _ _ _ ST L) as [A|A]; [|exact A]. apply LS. eapply (se_drain _ K); eauto. }
    assert (NX : v_next s' <> Some Unsynchronized).
    { destruct (step_unsynced _ _ _ _ ST) as [[A _]|(r & _ & _ & A & _)]; [apply A, K|rewrite A; discriminate]. }
    constructor; [|exact NX| |exact DR].
    - intros E. destruct (step_heap _ _ _ _ I ST) as [S|r0 F P [(nx & O & SA & t & _)|(r1 & e & w & L)]].
      + eapply sub_nil; [exact S|]. destruct (step_unsynced _ _ _ _ ST) as [[_ A]|(r & IN & _ & _ & A)].
        * destruct (A E) as [B|B]; [now apply K|]. now apply (se_next _ K) in B.
        * destruct (se_poke _ K _ IN) as [B|([B|B] & _)]; [exact B|congruence..].
      + exfalso. rewrite SA in E. unfold after, assigned in E. destruct (v_state s) eqn:Q; cbn in O; injection O as <-; cbn in E; try discriminate;
          destruct (v_next s) eqn:N; try discriminate; pose proof (se_next _ K); congruence.
      + exfalso. apply (late_not s'); [|exact E]. apply LS. eapply (se_drain _ K); eauto.
    - intros r IN. destruct (step_poke _ _ _ _ _ ST IN) as [B|B]; [|now left].
      destruct (step_heap _ _ _ _ I ST) as [S|r0 F P [(nx & O & SA & t & T1 & T2)|(r1 & e & w & L)]].
      + destruct (se_poke _ K _ B) as [A|A]; [left; eapply sub_nil; eauto|right; auto].
      + exfalso. unfold alone in AL. destruct (v_tasks s) as [|a [|b tl]]; cbn in AL; [contradiction| |lia].
        destruct B as [->|[]]. destruct T1 as [<-|[]]. now apply (T2 r).
      + right. apply LS. eapply (se_drain _ K); eauto.
  Qed.
  Definition one_thread (s0 : mgr3) (evs : list event3) : Prop := forall before later, evs = before ++ later -> alone (fst (m3_run s0 before)).
  Lemma seq_run u maxSize cfg s0 y evs s l : mgr3_new C rnd ns u maxSize cfg = (s0, y) -> m3_run s0 evs = (s, l) -> one_thread s0 evs -> seq_inv s.
  Proof.
    intros H0 E. revert evs s l E. apply (history_ind C R rnd clk fmt ns s0 (fun evs s l => one_thread s0 evs -> seq_inv s)); [eapply base_start; eauto| |].
    - intros _. apply start_fields in H0 as (A & _ & _ & _ & _ & _ & T & D & N & _). constructor; rewrite ?A, ?T, ?D, ?N; auto; discriminate.
    - intros evs s l x s' l' E B K ST O. eapply seq_step; [exact B| | |exact ST].
      + specialize (O evs [x] eq_refl). now rewrite E in O.
      + apply K. intros a b Q. apply (O a (b ++ [x])). now rewrite Q, app_assoc.
  Qed.
  (** ** What was sent for a first time stays in the heap *)
  Definition settled (s s' : mgr3) (r : nat) : Prop :=
    q_alive (get3 (v_reqs s) r) = false \/ q_event (get3 (v_reqs s) r) = true \/
    (sc_expiration (q_sched (get3 (v_reqs s) r)) <= clk (v_clock s) /\ (v_clock s < v_clock s')%nat).
  Definition holds_on (s s' : mgr3) (l : list log3) : Prop :=
    (forall r, In r (v_heap s) -> In r (v_heap s') \/ settled s s' r) /\ (forall r, In r (firsts l) -> In r (v_heap s')).
  Lemma holds_same s s' l : v_heap s' = v_heap s -> firsts l = [] -> holds_on s s' l.
  Proof. intros E F. split; intros r; [rewrite E; auto|rewrite F; contradiction]. Qed.
  Lemma holds_perm s s' l : Permutation (v_heap s) (v_heap s') -> firsts l = [] -> holds_on s s' l.
  Proof. intros P F. split; intros r; [intros X; left; eapply Permutation_in; eauto|rewrite F; contradiction]. Qed.
  Lemma holds_push s s' l r : Permutation (r :: v_heap s) (v_heap s') -> firsts l = [r] -> holds_on s s' l.
  Proof. intros P F. split; intros q; [intros X; left; eapply Permutation_in; [exact P|now right]|rewrite F; intros [<-|[]]; eapply Permutation_in; [exact P|now left]]. Qed.
  Lemma sends_quiet s r w now eng s1 l x : sends s r w now eng s1 l x -> w = ByRefresh \/ w = ByUnknownEngine \/ w = ByNotInTime \/ (exists e, x = Raise e) -> firsts l = [].
  Proof.
    intros H D. apply sends_queue in H as (_ & _ & H). destruct x as [[]|ex]; [|apply H].
    destruct H as [H _]. rewrite H. destruct D as [->|[->|[->|(e & D)]]]; [reflexivity..|discriminate].
  Qed.
  Lemma asks_holds s r w s1 l y : inv3 s -> (w = ByCall \/ w = ByPoke) -> asks clk s r w s1 l y -> holds_on s s1 l.
  Proof.
    intros I D H. pose proof (asks_heap _ _ _ _ _ _ I D H) as A. destruct y as [[|]|e].
    - destruct A as (F & P & _). eapply holds_push; eauto.
    - apply holds_same; [exact A|]. inversion H; reflexivity.
    - apply holds_same; [exact A|]. inversion H; subst. eapply sends_quiet; eauto.
  Qed.
  Lemma tstep_holds s t s1 new l : inv3 s -> tstep s t s1 new l -> holds_on s s1 l.
  Proof.
    intros I H. destruct H; try (apply holds_same; reflexivity); try (match goal with K : asks _ _ _ _ _ _ _ |- _ => apply (asks_holds _ _ _ _ _ _ I) in K; [exact K|auto] end).
    - (* TDrop *) apply pop3_ok in H1 as (_ & _ & P & _); [|apply I]. split; [|contradiction]. intros q. rewrite H. intros [<-|Q].
      + right. destruct H0 as [(-> & [D|D])|(-> & D)]; [now left|right; now left|right; right; cbn; split; [exact D|lia]].
      + left. cbn. eapply Permutation_in; eauto.
    - apply holds_same; [now apply sends_heap in H3 as (-> & _)|eapply sends_quiet; eauto].
    - pose proof (sends_heap _ _ _ _ _ _ _ _ H3) as (_ & HR & HL). unfold rescheduled in HR, HL. cbn in HR, HL. rewrite put_length in HL.
      apply replace3_perm in H4 as (_ & _ & P); [|rewrite HL; apply I]. apply holds_perm; [cbn; now rewrite H|eapply sends_quiet; eauto].
    - apply holds_same; [|reflexivity]. eapply closed_heap, close3_spec; eauto.
  Qed.
  Lemma lstep_holds s s1 l : inv3 s -> why_ok s -> lstep s s1 l -> holds_on s s1 l.
  Proof.
    intros I W H. destruct H; try (apply holds_same; reflexivity).
    - apply holds_same; [cbn; apply sends_heap in H2 as (-> & _); unfold readied; cbn; apply assign_heap|eapply sends_quiet; eauto].
    - pose proof (sends_heap _ _ _ _ _ _ _ _ H2) as (HH & HR & HL).
      assert (A : Permutation (v_heap s) (v_heap (heapify3 s1))).
      { replace (v_heap s) with (v_heap s1) by (rewrite HH; unfold readied; cbn; apply assign_heap).
        apply heapify_heap. rewrite HR, HL. unfold readied. cbn. rewrite put_length. destruct (assign_same s nx) as (_ & -> & ->). apply I. }
      apply holds_perm; [destruct b; cbn; rewrite ?update_heap; exact A|]. eapply sends_quiet; [exact H2|]. destruct (W r e w (or_introl H)) as [->| ->]; auto.
    - apply holds_same; [cbn; now apply sends_heap in H2 as (-> & _)|eapply sends_quiet; eauto].
    - pose proof (sends_heap _ _ _ _ _ _ _ _ H2) as (HH & HR & HL). cbn in HH, HR, HL. rewrite put_length in HL.
      apply (holds_push _ _ _ q); [|eapply sends_first; eauto]. rewrite <- HH. apply push_heap. rewrite HR, HL. apply I.
    - apply holds_same; [|reflexivity]. destruct (assign_fields s nx) as (n & ->). reflexivity.
    - apply holds_same; [|reflexivity]. destruct (assign_fields s nx) as (n & ->). cbn. now rewrite update_heap.
    - apply holds_same; [|reflexivity]. subst q. destruct (q_event (get3 (v_reqs s) r)); reflexivity.
  Qed.
  Lemma step_holds s x s' l : base s -> vstep s x s' l -> holds_on s s' l.
  Proof.
    intros [I W] H. destruct H; try (apply holds_same; reflexivity).
    - exact (tstep_holds _ _ _ _ _ I H0).
    - now apply lstep_holds.
    - apply holds_same; [now apply closed_heap in H0|reflexivity].
    - apply holds_same; [|reflexivity]. destruct H0 as (u & p & c & m & -> & _). reflexivity.
  Qed.
  Lemma held_run u maxSize cfg s0 y evs s l r : mgr3_new C rnd ns u maxSize cfg = (s0, y) -> m3_run s0 evs = (s, l) -> In r (firsts l) ->
    In r (v_heap s) \/ q_alive (get3 (v_reqs s) r) = false \/ q_event (get3 (v_reqs s) r) = true \/ seen_expired clk s r.
  Proof.
    intros H0 E. revert evs s l E r. apply (history_ind C R rnd clk fmt ns s0 (fun _ s l => forall r, In r (firsts l) ->
      In r (v_heap s) \/ q_alive (get3 (v_reqs s) r) = false \/ q_event (get3 (v_reqs s) r) = true \/ seen_expired clk s r)); [eapply base_start; eauto| |].
    - intros r [].
    - intros evs s l x s' l' E B K ST r IN. pose proof (step_holds _ _ _ _ B ST) as [HO HN]. destruct B as [I W].
      rewrite firsts_app in IN. apply in_app_or in IN as [IN|IN].
      { left. apply HN. revert IN. unfold firsts. rewrite !in_flat_map. intros (y0 & A & A'). exists y0. split; [now apply in_rev|exact A']. }
      pose proof (step_spec _ _ _ _ _ _ _ _ _ I ST) as (I' & EV & _).
      destruct (once_run C R rnd clk fmt ns _ _ _ _ _ _ _ _ H0 E) as [_ LT]. specialize (LT r ltac:(apply in_or_app; now left)).
      pose proof (seen_evo clk _ _ r EV LT) as SE. destruct EV as (CK & EL & EQ & _). destruct (EQ r LT) as (_ & _ & _ & XP & _ & AL & EVT).
      assert (DEAD : q_alive (get3 (v_reqs s) r) = false -> q_alive (get3 (v_reqs s') r) = false) by (intros D; destruct (q_alive (get3 (v_reqs s') r)); auto; rewrite AL in D; auto).
      destruct (K r IN) as [X|[X|[X|X]]]; [|auto..].
      destruct (HO r X) as [Y|[Y|[Y|[Y1 Y2]]]]; [auto..|]. right. right. right. exists (v_clock s). split; [exact Y2|now rewrite XP].
  Qed.
  (** ** Nothing is forgotten *)
  Lemma not_forgotten u maxSize cfg s0 y evs s l r h w now d e user lev wire : mgr3_new C rnd ns u maxSize cfg = (s0, y) -> m3_run s0 evs = (s, l) ->
    launched l r -> one_thread s0 evs -> In (WSent r h w now d e user lev wire) l -> q_alive (get3 (v_reqs s) r) = true -> q_event (get3 (v_reqs s) r) = false -> ~ seen_expired clk s r ->
    v_state s <> Unsynchronized.
  Proof.
    intros H0 E LA O IN AL EV NE U.
    pose proof (sent_run _ _ _ _ _ _ _ _ H0 E) as SI. pose proof (seq_run _ _ _ _ _ _ _ _ H0 E O) as SE.
    apply (si_sent _ _ SI _ _ _ _ _ _ _ _ _ LA) in IN. destruct (held_run _ _ _ _ _ _ _ _ _ H0 E IN) as [A|[A|[A|A]]]; [|congruence|congruence|contradiction].
    rewrite (se_state _ SE U) in A. exact A.
  Qed.
End Sequential.
