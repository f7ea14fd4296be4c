(** PrfSeq4.v -- as PrfSeq3.v: a manager that was not given the engine ID, in the
    hands of one thread, does not forget that it has asked for it. *)
From Verif Require Import PropertiesUsm PropertiesMsg PropertiesProc PropertiesMgr PrfMgr3i PropertiesMgr3.
From Verif Require Export PrfSeq3.
From Coq Require Import Permutation.

Section Sequential.
  Context (C : crypto) (R : Z) (rnd : nat -> nat -> Z) (clk : nat -> Z) (fmt : v3msg -> bool) (ns : pystr).
  Notation m3_run := (m3_run C R rnd clk fmt ns).
  Notation vstep := (vstep C R rnd clk ns).
  Notation tstep := (tstep C rnd clk ns).
  Notation lstep := (lstep clk).
  (** ** What the state says about the heap *)
  Record seq_inv0 (s : mgr3) : Prop := {
    se_state0 : v_state s = Inactive -> v_heap s = [];
    se_next0 : v_next s <> Some Inactive;
    se_poke0 : forall r, In (SPoke r) (v_tasks s) -> v_heap s = [] \/ late s;
    se_drain0 : forall r e w, v_listener s = LDrain r e w -> late s
  }.
  (** Only poke() goes back to Inactive. *)
  Definition unsynced0 (s s' : mgr3) : Prop :=
    (v_next s <> Some Inactive -> v_next s' <> Some Inactive) /\
    (v_state s' = Inactive -> v_state s = Inactive \/ v_next s = Some Inactive).
  Lemma unsynced_same0 s s' : v_state s' = v_state s -> v_next s' = v_next s -> unsynced0 s s'.
  Proof. intros A B. unfold unsynced0. rewrite A, B. auto. Qed.
  Definition forward0 (nx : option mstate) : Prop := nx <> Some Inactive.
  Lemma request_forward0 st auth nx b : onRequest st auth = (nx, b) -> forward0 nx.
  Proof. unfold forward0. destruct st; cbn; intros E; injection E as <- _; discriminate. Qed.
  Lemma report_forward0 st mine e nx b : onReport st mine e = Ok (nx, b) -> forward0 nx.
  Proof. unfold forward0. destruct st; cbn; try discriminate; try (destruct (opt_bytes_eqb e mine)); intros E; injection E as <- _; discriminate. Qed.
  Lemma response_forward0 st mine e auth nx b : onResponse st mine e auth = Ok (nx, b) -> forward0 nx.
  Proof.
    unfold forward0. destruct st; cbn; try discriminate; try (destruct (auth || opt_bytes_eqb e mine)); try destruct auth; intros E; injection E as <- _; discriminate.
  Qed.
  Lemma unsynced_assigned0 s s' nx : forward0 nx -> v_state s' = v_state s -> v_next s' = assigned nx (v_next s) -> unsynced0 s s'.
  Proof. intros F A B. unfold unsynced0, forward0 in *. rewrite A, B. split; [|auto]. destruct nx; cbn; auto. Qed.
  Lemma unsynced_after0 s s' nx : forward0 nx -> v_state s' = after (v_state s) (assigned nx (v_next s)) -> v_next s' = None -> unsynced0 s s'.
  Proof.
    intros F A B. unfold unsynced0, forward0 in *. rewrite A, B. split; [discriminate|]. destruct nx as [n|]; cbn.
    - intros ->. congruence.
    - destruct (v_next s) as [n|]; cbn; [intros ->; auto|auto].
  Qed.
  Lemma asks_unsynced0 s r w s1 l y : asks clk s r w s1 l y -> unsynced0 s s1.
  Proof.
    intros H. destruct H as [nx E|nx s1 l e E S|nx s1 l E S].
    - now apply unsynced_same0.
    - apply sends_moves in S as (_ & ST & NX). eapply unsynced_assigned0; eauto. eapply request_forward0; eauto.
    - apply sends_moves in S as (_ & ST & NX). destruct (update_eq (push3 s1 r)) as (_ & A & B). destruct (push3_states s1 r) as (_ & A' & B').
      eapply unsynced_after0; [eapply request_forward0; eauto| |exact B]. now rewrite A, A', B', ST, NX.
  Qed.
  Lemma tstep_unsynced0 s t s1 new l : tstep s t s1 new l -> unsynced0 s s1 \/
    (exists r, t = SPoke r /\ v_heap s1 = v_heap s /\ v_next s1 = None /\ v_state s = WaitForDiscovery).
  Proof.
    intros H. destruct H; try (left; now apply unsynced_same0); try (left; eapply asks_unsynced0; eassumption).
    - left. destruct H0 as [(-> & _)|(-> & _)]; now apply unsynced_same0.
    - left. apply sends_states in H3 as (_ & A & B). now apply unsynced_same0.
    - left. apply sends_states in H3 as (_ & A & B). now apply unsynced_same0.
    - destruct (update_eq (assign_next s (onInactive (v_state s)))) as (_ & A & B). destruct (assign_eq s (onInactive (v_state s))) as (_ & A' & B').
      destruct (v_state s) eqn:E; [left..| |left|left|left]; try (eapply (unsynced_after0 _ _ (onInactive (v_state s))); [rewrite E; discriminate| |exact B]; cbn [v_state set_queue]; rewrite A, A', B', E; reflexivity).
      right. exists r. cbn. auto.
    - left. apply close3_spec in H as (u & p & q & m & -> & _). now apply unsynced_same0.
  Qed.
  Lemma lstep_unsynced0 s s1 l : lstep s s1 l -> unsynced0 s s1.
  Proof.
    intros H. destruct H; try (now apply unsynced_same0).
    - apply sends_moves in H2 as (_ & A & B). eapply unsynced_assigned0; eauto. eapply report_forward0; eauto.
    - apply sends_moves in H2 as (_ & A & B). destruct (heapify3_states s1) as (_ & C1 & C2). destruct b.
      + destruct (update_eq (heapify3 s1)) as (_ & D1 & D2). eapply unsynced_after0; [eapply report_forward0; eauto| |exact D2]. cbn. now rewrite D1, C1, C2, A, B.
      + eapply unsynced_assigned0; [eapply report_forward0; eauto|cbn; congruence|cbn; congruence].
    - apply sends_states in H2 as (_ & A & B). now apply unsynced_same0.
    - apply sends_states in H2 as (_ & A & B). destruct (push3_states s1 q) as (_ & C1 & C2). apply unsynced_same0; [now rewrite C1, A|now rewrite C2, B].
    - destruct (assign_eq s nx) as (_ & A & B). eapply unsynced_assigned0; [eapply response_forward0; eauto|exact A|exact B].
    - destruct (assign_eq s nx) as (_ & A & B).
      destruct (update_eq (set_engine (set_io (assign_next s nx) u (v_proc s) (v_clock s)) (Some e))) as (_ & D1 & D2).
      eapply unsynced_after0; [eapply response_forward0; eauto| |exact D2]. cbn [v_state set_listener set_threads]. rewrite D1. cbn. now rewrite A, B.
    - subst q. destruct (q_event (get3 (v_reqs s) r)); now apply unsynced_same0.
  Qed.
  Lemma step_unsynced0 s x s' l : vstep s x s' l -> unsynced0 s s' \/
    (exists r, In (SPoke r) (v_tasks s) /\ v_heap s' = v_heap s /\ v_next s' = None /\ v_state s = WaitForDiscovery).
  Proof.
    intros H. destruct H; try (left; now apply unsynced_same0).
    - destruct (tstep_unsynced0 _ _ _ _ _ H0) as [A|(r & -> & A & B & D)]; [left; exact A|]. right. exists r. split; [rewrite H; apply in_elt|auto].
    - left. now apply lstep_unsynced0 in H.
    - left. destruct H0 as (u & p & q & m & -> & _). now apply unsynced_same0.
    - left. destruct H0 as (u & p & q & m & -> & _). now apply unsynced_same0.
  Qed.
  (** poke() is about to be called: the heap is empty. *)
  Lemma step_poke0 s x s' l r : vstep s x s' l -> In (SPoke r) (v_tasks s') -> In (SPoke r) (v_tasks s) \/ v_heap s' = [].
  Proof.
    intros H IN. destruct H; try (left; exact IN).
    - left. cbn in IN. apply in_app_or in IN as [IN|[IN|[]]]; [exact IN|discriminate].
    - left. cbn in IN. apply in_app_or in IN as [IN|[IN|[]]]; [exact IN|discriminate].
    - cbn in IN. rewrite H. apply in_app_or in IN as [IN|IN]; [left; apply in_or_app; now left|].
      apply in_app_or in IN as [IN|IN]; [|left; apply in_or_app; right; now right].
      destruct H0; try (destruct IN as [IN|[]]; discriminate); try contradiction.
      + destruct IN as [IN|[]]. left. rewrite IN. apply in_elt.
      + right. exact H0.
    - left. apply lstep_tasks in H. congruence.
    - left. destruct H0 as (u & p & q & m & -> & _). exact IN.
    - left. destruct H0 as (u & p & q & m & -> & _). exact IN.
  Qed.
  (** The loop of onReport() begins. *)
  Lemma step_drain0 s x s' l r e w : vstep s x s' l -> v_listener s' = LDrain r e w -> v_listener s = LDrain r e w \/ late s'.
  Proof.
    intros H L. destruct H; try (left; exact L); try discriminate.
    - left. cbn in L. now rewrite (tstep_listener _ _ _ _ _ _ _ _ _ H0) in L.
    - destruct H; try (left; exact L); try (cbn in L; discriminate).
      + destruct b.
        * right. apply sends_moves in H2 as (_ & A & B). destruct (heapify3_states s1) as (_ & C1 & C2). destruct (update_eq (heapify3 s1)) as (_ & D1 & D2).
          split; [|left; exact D2]. cbn [v_state set_listener set_threads]. rewrite D1, C1, C2, A, B.
          destruct (v_state s); cbn in H1; try discriminate; [injection H1 as <-; cbn; auto|].
          destruct (opt_bytes_eqb e0 (v_engine s)); [injection H1 as <-; cbn; auto|discriminate].
        * cbn in L. unfold reported_done in L. destruct w0; discriminate.
      + cbn in L. unfold reported_done in L. destruct w0; discriminate.
      + left. destruct (push3_fields s1 q) as (_ & _ & _ & _ & _ & E). rewrite E in L. now rewrite (sends_listener _ _ _ _ _ _ _ _ H2) in L.
    - left. destruct H0 as (u & p & q & m & -> & _). exact L.
    - left. destruct H0 as (u & p & q & m & -> & _). exact L.
  Qed.
  Lemma late_not0 s : late s -> v_state s <> Inactive.
  Proof. intros ([->| ->] & _); discriminate. Qed.
  Lemma sub_nil0 s s' : subheap s s' -> v_heap s = [] -> v_heap s' = [].
  Proof. intros S E. destruct (v_heap s') as [|r h] eqn:Q; [reflexivity|]. exfalso. specialize (S r). rewrite Q, E in S. now apply S; left. Qed.
  Lemma seq_step0 s x s' l : base s -> alone s -> seq_inv0 s -> vstep s x s' l -> seq_inv0 s'.
  Proof.
    intros [I W] AL K ST. pose proof (late_step _ _ _ _ _ _ _ _ _ ST) as LS.
    assert (DR : forall r e w, v_listener s' = LDrain r e w -> late s').
    { intros r e w L. destruct (step_drain0 _ _ _ _ _ _ _ ST L) as [A|A]; [|exact A]. apply LS. eapply (se_drain0 _ K); eauto. }
    assert (NX : v_next s' <> Some Inactive).
    { destruct (step_unsynced0 _ _ _ _ ST) as [[A _]|(r & _ & _ & A & _)]; [apply A, K|rewrite A; discriminate]. }
    constructor; [|exact NX| |exact DR].
    - intros E. destruct (step_heap C R rnd clk ns _ _ _ _ I ST) as [S|r0 F P [(nx & O & SA & t & _)|(r1 & e & w & L)]].
      + eapply sub_nil0; [exact S|]. destruct (step_unsynced0 _ _ _ _ ST) as [[_ A]|(r & IN & _ & _ & A)].
        * destruct (A E) as [B|B]; [now apply K|]. now apply (se_next0 _ K) in B.
        * destruct (se_poke0 _ K _ IN) as [B|([B|B] & _)]; [exact B|congruence..].
      + exfalso. rewrite SA in E. unfold after, assigned in E. destruct (v_state s) eqn:Q; cbn in O; injection O as <-; cbn in E; try discriminate;
          destruct (v_next s) eqn:N; try discriminate; pose proof (se_next0 _ K); congruence.
      + exfalso. apply (late_not0 s'); [|exact E]. apply LS. eapply (se_drain0 _ K); eauto.
    - intros r IN. destruct (step_poke0 _ _ _ _ _ ST IN) as [B|B]; [|now left].
      destruct (step_heap C R rnd clk ns _ _ _ _ I ST) as [S|r0 F P [(nx & O & SA & t & T1 & T2)|(r1 & e & w & L)]].
      + destruct (se_poke0 _ K _ B) as [A|A]; [left; eapply sub_nil0; eauto|right; auto].
      + exfalso. unfold alone in AL. destruct (v_tasks s) as [|a [|b tl]]; cbn in AL; [contradiction| |lia].
        destruct B as [->|[]]. destruct T1 as [<-|[]]. now apply (T2 r).
      + right. apply LS. eapply (se_drain0 _ K); eauto.
  Qed.
  Lemma seq_run0 u maxSize cfg s0 y evs s l : mgr3_new C rnd ns u maxSize cfg = (s0, y) -> m3_run s0 evs = (s, l) -> one_thread C R rnd clk fmt ns s0 evs -> seq_inv0 s.
  Proof.
    intros H0 E. revert evs s l E. apply (history_ind C R rnd clk fmt ns s0 (fun evs s l => one_thread C R rnd clk fmt ns s0 evs -> seq_inv0 s)); [eapply base_start; eauto| |].
    - intros _. apply start_fields in H0 as (A & _ & _ & _ & _ & _ & T & D & N & _). constructor; rewrite ?A, ?T, ?D, ?N; auto; discriminate.
    - intros evs s l x s' l' E B K ST O. eapply seq_step0; [exact B| | |exact ST].
      + specialize (O evs [x] eq_refl). now rewrite E in O.
      + apply K. intros a b Q. apply (O a (b ++ [x])). now rewrite Q, app_assoc.
  Qed.
  (** ** Nothing is forgotten *)
  Lemma not_forgotten0 u maxSize cfg s0 y evs s l r h w now d e user lev wire : mgr3_new C rnd ns u maxSize cfg = (s0, y) -> m3_run s0 evs = (s, l) ->
    launched l r -> one_thread C R rnd clk fmt ns s0 evs -> In (WSent r h w now d e user lev wire) l -> q_alive (get3 (v_reqs s) r) = true -> q_event (get3 (v_reqs s) r) = false -> ~ seen_expired clk s r ->
    v_state s <> Inactive.
  Proof.
    intros H0 E LA O IN AL EV NE U.
    pose proof (sent_run C R rnd clk fmt ns _ _ _ _ _ _ _ _ H0 E) as SI. pose proof (seq_run0 _ _ _ _ _ _ _ _ H0 E O) as SE.
    apply (si_sent _ _ SI _ _ _ _ _ _ _ _ _ LA) in IN. destruct (held_run C R rnd clk fmt ns _ _ _ _ _ _ _ _ _ H0 E IN) as [A|[A|[A|A]]]; [|congruence|congruence|contradiction].
    rewrite (se_state0 _ SE U) in A. exact A.
  Qed.
End Sequential.
