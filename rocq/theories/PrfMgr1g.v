(** PrfMgr1g.v -- the SNMPv1/SNMPv2c manager used by one waiting thread at a time:
    wait() raises nothing but Timeout and ErrorResponse, and OSError if the
    network may fail. *)
From Verif Require Export PrfMgr1f PrfNet.
From Coq Require Import Permutation.

Lemma heappop_some {A S} (lt : S -> A -> A -> bool * S) s (a : A) h : exists x, heappop lt s (a :: h) = Some x.
Proof.
  unfold heappop. destruct (rev (a :: h)) as [|b r] eqn:E.
  - apply (f_equal (@length A)) in E. rewrite rev_length in E. discriminate.
  - destruct (rev r); eauto.
Qed.
Definition wcount (ts : list task1) : nat := length (filter waiting1 ts).
Lemma wcount_app a b : wcount (a ++ b) = (wcount a + wcount b)%nat.
Proof. unfold wcount. now rewrite filter_app, app_length. Qed.
Lemma wcount_in ts t : In t ts -> waiting1 t = true -> (1 <= wcount ts)%nat.
Proof.
  intros I W. unfold wcount. assert (In t (filter waiting1 ts)) by (apply filter_In; auto). destruct (filter waiting1 ts); [easy|cbn; lia].
Qed.
Lemma wcount_none ts : (forall t, In t ts -> waiting1 t = false) -> wcount ts = 0%nat.
Proof.
  unfold wcount. induction ts as [|t ts IH]; intros H; [auto|]. cbn [filter]. rewrite (H t (or_introl eq_refl)). apply IH. intros t' I. apply H. now right.
Qed.

Lemma wcount_one t : wcount [t] = if waiting1 t then 1%nat else 0%nat.
Proof. unfold wcount. cbn. destruct (waiting1 t); reflexivity. Qed.
Lemma wcount_le ts : (wcount ts <= length ts)%nat.
Proof. unfold wcount. induction ts as [|t ts IH]; cbn; [lia|]. destruct (waiting1 t); cbn; lia. Qed.

Section Seq1.
  Context (V : v12) (rnd : nat -> Z) (clk : nat -> Z) (HR : draws_ok gen_v1 rnd) (F : bool).
  Notation m1_step := (m1_step V rnd clk). Notation m1_run := (m1_run V rnd clk). Notation task1_step := (task1_step V rnd clk).
  Notation inv1 := (inv1 V clk).

  Definition failed_send (l : list log1) : Prop := exists q e, In (LSendFailed q e) l /\ ~ (F = true /\ e = OSError).
  Definition polite_step (s : mgr1) (l : list log1) (x : event1) : Prop :=
    match x with
    | MCall p _ _ period => pdu_requestID p = 0 /\ 0 < period
    | MWait r => (forall t, In t (m1_tasks s) -> waiting1 t = false) /\ (forall o, ~ In (LOutcome r o) l) /\ exists t again w, In (LSent r t again w) l
    | MFail n => F = true /\ forall q, nth_error (m1_tasks s) n = Some (TSend q) -> ~ failed_send (snd (m1_step s x))
    | MOther p _ => pdu_requestID p = 0
    | MStep n => forall q, nth_error (m1_tasks s) n = Some (TSend q) -> ~ failed_send (snd (m1_step s x))
    | _ => True
    end.
  Definition polite (evs : list event1) : Prop :=
    forall before x after, evs = before ++ x :: after -> polite_step (fst (m1_run before)) (snd (m1_run before)) x.
  Lemma polite_app a b : polite (a ++ b) -> polite a.
  Proof. intros P before x after ->. apply (P before x (after ++ b)). now rewrite <- app_assoc. Qed.

  Definition ready (s : mgr1) (r : nat) : Prop :=
    pdu_requestID (rq_pdu (get1 (m1_reqs s) r)) <> 0 /\ exists w, wire1 V (get1 (m1_reqs s) r) = Ok w.
  Definition allowed (e : exc) : Prop := e = Timeout \/ (F = true /\ e = OSError).
  Record seq1 (s : mgr1) (l : list log1) : Prop := mkSeq1 {
    q_ready : forall r, In r (m1_heap s) -> ready s r;
    q_waited : forall t, In t (m1_tasks s) -> waiting1 t = true -> ready s (task_req t);
    q_period : forall r, (r < length (m1_reqs s))%nat -> 0 < sc_period (sched_of s r);
    q_one : (wcount (m1_tasks s) <= 1)%nat;
    q_locked : forall r, In (TLocked r) (m1_tasks s) -> m1_heap s <> [];
    q_going : forall t, In t (m1_tasks s) -> waiting1 t = true -> forall o, ~ In (LOutcome (task_req t) o) l;
    q_failed : ~ failed_send l;
    q_raised : forall r e, In (LOutcome r (ORaised e)) l -> allowed e
  }.

  Lemma task_heap net s t s1 new l1 : task1_step net s t = (s1, new, l1) -> forall r, In r (m1_heap s1) -> In r (m1_heap s) \/ t = TSend r.
  Proof.
    intros TS r.
    assert (RS : forall s2 r q s3 w, reallySend1 V rnd net s2 r q = (s3, w) -> m1_heap s3 = m1_heap s2).
    { intros s2 r0 q s3 w. unfold ManagerV1.reallySend1. destruct (v12_prepareOutgoing _ _ _ _ _ _ _) as [o w']. intros Y. injection Y as <- <-. reflexivity. }
    assert (POP : forall s2 r0, m1_heap s2 = m1_heap s -> pop1 s2 r0 = (s1, new, l1) -> In r (m1_heap s1) -> In r (m1_heap s) \/ t = TSend r).
    { intros s2 r0 H. unfold pop1. destruct (m1_heap s2) as [|a h] eqn:MH.
      - cbn [heappop]. intros X. injection X as <- <- <-. rewrite MH. intros [].
      - destruct (heappop ref_lt1 (m1_reqs s2) (a :: h)) as [[lq h']|] eqn:HP; intros X; injection X as <- <- <-.
        + cbn [with_heap1 m1_heap snd]. intros IN. left. destruct (pop1_spec _ _ _ _ _ HP) as (_ & P & _). rewrite <- H. right. now apply (Permutation_in _ (Permutation_sym P)).
        + rewrite MH, <- H. auto. }
    destruct t as [r1|r1 m|r1|r1|r1|r1 limit|r1|r1 p]; unfold ManagerV1.task1_step in TS; cbn [task_req waiting1] in *.
    - destruct (heappush ref_lt1 (m1_reqs s) (m1_heap s) r1) as [lq h'] eqn:HP. cbn [tick1] in TS.
      destruct (reallySend1 _ _ _ _ _ _) as [s3 w] eqn:R. injection TS as <- <- <-. apply RS in R. cbn [with_heap1 m1_heap fst snd] in R. rewrite R.
      destruct (push1 _ _ _ _ _ HP) as (_ & P & _). intros IN. apply (Permutation_in _ (Permutation_sym P)) in IN. destruct IN as [->|IN]; auto.
    - injection TS as <- <- <-. auto.
    - cbn [tick1] in TS. destruct (sched_expired _ _); injection TS as <- <- <-; auto.
    - destruct (m1_heap s) eqn:MH; injection TS as <- <- <-; rewrite MH; auto.
    - unfold locked1 in TS. destruct (m1_heap s) as [|root hp] eqn:MH; [injection TS as <- <- <-; rewrite MH; auto|].
      destruct (negb _); [eauto|]. destruct (rq_response _); [eauto|]. cbn [tick1] in TS. destruct (sched_refresh _ _) as [[|w|c]|e].
      + eapply POP; [|exact TS]. exact MH.
      + injection TS as <- <- <-. cbn [m1_heap]. rewrite MH. auto.
      + destruct (reallySend1 _ _ _ _ _ _) as [s3 w] eqn:R. apply RS in R. cbn [m1_heap] in R. rewrite MH in R. destruct w as [b|e].
        * rewrite R in TS. destruct (heapreplace ref_lt1 (m1_reqs s3) (root :: hp) root) as [[lq h']|] eqn:HP; injection TS as <- <- <-.
          -- cbn [with_heap1 m1_heap snd]. destruct (replace1 _ _ _ _ _ _ HP) as (_ & P). intros IN. left. now apply (Permutation_in _ (Permutation_sym P)) in IN.
          -- rewrite R. auto.
        * injection TS as <- <- <-. rewrite R. auto.
      + injection TS as <- <- <-. cbn [m1_heap]. rewrite MH. auto.
    - destruct (rq_response _); [|destruct limit]; injection TS as <- <- <-; auto.
    - destruct (rq_response _); injection TS as <- <- <-; auto.
    - unfold close1 in TS. destruct (rq_cb _); injection TS as <- <- <-; auto.
  Qed.
  (** A request that can be sent again stays one. *)
  Lemma ready_step evs s l x s' l' r : inv1 evs s l -> m1_step s x = (s', l') -> (r < length (m1_reqs s))%nat -> ready s r -> ready s' r.
  Proof.
    intros I E LR [A B]. cut (rq_community (get1 (m1_reqs s') r) = rq_community (get1 (m1_reqs s) r) /\ rq_pdu (get1 (m1_reqs s') r) = rq_pdu (get1 (m1_reqs s) r)).
    { intros [X Y]. unfold ready, wire1 in *. rewrite X, Y. auto. }
    assert (VW : forall q q', vw q = vw q' -> rq_community q = rq_community q' /\ rq_pdu q = rq_pdu q') by (unfold vw; intros q q' X; injection X; auto).
    assert (PO : forall c p h cb cm o w, v12_prepareOutgoing V rnd c p h cb cm = (o, w) -> pdu_requestID p <> 0 -> s1_pdu o = p).
    { intros c p h cb cm o w. unfold v12_prepareOutgoing. destruct (Z.eqb_spec (pdu_requestID p) 0); [easy|]. intros X _. injection X as <- <-. reflexivity. }
    destruct (step_change V rnd clk _ _ _ _ _ _ I E) as [? ? H|? ? ? ? ? ? ? ? H|r0 o w q L0 AL P ? H [? H2]|r0 a q L0 CB ? ? H [? H2]|r0 q L0 CB ? H [? H2]|? ? ? ? ? ? H|p cm sm o w ? ? ? ? HM ? ? ? [? H2]].
    - now apply VW.
    - apply VW, H. lia.
    - destruct (Nat.eq_dec r r0) as [->|N]; [|now apply VW, H2]. unfold vw in H. injection H as Hx Hy _ _. rewrite Hx, Hy. split; [reflexivity|]. eapply PO; eauto.
    - destruct (Nat.eq_dec r r0) as [->|N]; [|now apply VW, H2]. unfold vw in H. injection H as Hx Hy _ _. rewrite Hx, Hy. auto.
    - destruct (Nat.eq_dec r r0) as [->|N]; [|now apply VW, H2]. unfold vw in H. injection H as Hx Hy _ _. rewrite Hx, Hy. auto.
    - now apply VW.
    - apply VW. rewrite H2, HM by lia. reflexivity.
  Qed.
  (** What a step of a task does to tasks, heap and outcomes. *)
  Lemma task_seq net s t s1 new l1 : task1_step net s t = (s1, new, l1) ->
    (length new <= (if waiting1 t then 1 else 0))%nat /\ (forall t', In t' new -> waiting1 t' = true /\ task_req t' = task_req t) /\
    (new = [] \/ forall r o, ~ In (LOutcome r o) l1) /\
    (forall r o, In (LOutcome r o) l1 -> r = task_req t /\ waiting1 t = true) /\
    (forall r, In (TLocked r) new -> m1_heap s1 <> []) /\
    (waiting1 t = false -> m1_heap s <> [] -> m1_heap s1 <> []) /\ (forall r, In r (m1_heap s1) -> In r (m1_heap s) \/ t = TSend r).
  Proof.
    intros TS. assert (NW : forall t', In t' new -> waiting1 t' = true /\ task_req t' = task_req t).
    { intros t' H. destruct (new_waiting _ _ _ _ _ _ _ _ _ TS t' H) as (A & _ & B). auto. }
    assert (POP : forall s2 r, pop1 s2 r = (s1, new, l1) -> (length new <= 1)%nat /\ (new = [] \/ forall r o, ~ In (LOutcome r o) l1) /\
      (forall r' o, In (LOutcome r' o) l1 -> r' = r) /\ (forall r', In (TLocked r') new -> m1_heap s1 <> [])).
    { intros s2 r. unfold pop1. destruct (heappop _ _ _); intros X; injection X as <- <- <-.
      - split; [cbn; lia|]. split; [right; intros ? ? []|]. split; [intros ? ? []|]. intros r' [X|[]]. discriminate.
      - split; [cbn; lia|]. split; [now left|]. split; [intros r' o [X|[]]; congruence|]. intros r' []. }
    assert (RS : forall s2 r q s3 w, reallySend1 V rnd net s2 r q = (s3, w) -> m1_heap s3 = m1_heap s2).
    { intros s2 r q s3 w. unfold ManagerV1.reallySend1. destruct (v12_prepareOutgoing _ _ _ _ _ _ _) as [o w']. intros Y. injection Y as <- <-. reflexivity. }
    cut ((length new <= (if waiting1 t then 1 else 0))%nat /\ (new = [] \/ forall r o, ~ In (LOutcome r o) l1) /\
      (forall r o, In (LOutcome r o) l1 -> r = task_req t /\ waiting1 t = true) /\
      (forall r, In (TLocked r) new -> m1_heap s1 <> []) /\ (waiting1 t = false -> m1_heap s <> [] -> m1_heap s1 <> [])).
    { intros (A & B & C & D & E). split; [exact A|]. split; [exact NW|]. split; [exact B|]. split; [exact C|]. split; [exact D|]. split; [exact E|].
      exact (task_heap _ _ _ _ _ _ TS). }
    clear NW. destruct t as [r1|r1 m|r1|r1|r1|r1 limit|r1|r1 p]; unfold ManagerV1.task1_step in TS; cbn [task_req waiting1] in *.
    - destruct (heappush ref_lt1 (m1_reqs s) (m1_heap s) r1) as [lq h'] eqn:HP. cbn [tick1] in TS.
      destruct (reallySend1 _ _ _ _ _ _) as [s3 w] eqn:R. injection TS as <- <- <-. apply RS in R. cbn [with_heap1 m1_heap fst snd] in R.
      split; [cbn; lia|]. split; [now left|]. split; [intros r o [X|[]]; unfold sent_log in X; destruct w; discriminate|]. split; [intros r []|].
      intros _ _. rewrite R. destruct (push1 _ _ _ _ _ HP) as (_ & P & _). intros ->. apply Permutation_length in P. discriminate.
    - injection TS as <- <- <-. split; [cbn; lia|]. split; [now left|]. split; [intros r o [X|[]]; discriminate|]. split; [intros r []|]. auto.
    - cbn [tick1] in TS. destruct (sched_expired _ _); injection TS as <- <- <-; (split; [cbn; lia|]; split; [right; intros ? ? []|]; split; [intros ? ? []|]; split; [intros r [X|[]]; discriminate|discriminate]).
    - destruct (m1_heap s) as [|a h] eqn:MH; injection TS as <- <- <-.
      + split; [cbn; lia|]. split; [right; intros ? ? [X|[]]; discriminate|]. split; [intros ? ? [X|[]]; discriminate|]. split; [intros r [X|[]]; discriminate|discriminate].
      + split; [cbn; lia|]. split; [right; intros ? ? []|]. split; [intros ? ? []|]. split; [intros r _; rewrite MH; discriminate|discriminate].
    - assert (POP' : forall s2, pop1 s2 r1 = (s1, new, l1) -> (length new <= 1)%nat /\ (new = [] \/ forall r o, ~ In (LOutcome r o) l1) /\
        (forall r o, In (LOutcome r o) l1 -> r = r1 /\ true = true) /\ (forall r, In (TLocked r) new -> m1_heap s1 <> []) /\ (true = false -> m1_heap s <> [] -> m1_heap s1 <> [])).
      { intros s2 X. apply POP in X as (A & B & C & D). split; [auto|]. split; [auto|]. split; [intros; split; eauto|]. split; [auto|discriminate]. }
      assert (OUT : forall e, s1 = s1 -> new = [] -> (forall r o, In (LOutcome r o) l1 -> o = ORaised e /\ r = r1) -> (length new <= 1)%nat /\ (new = [] \/ forall r o, ~ In (LOutcome r o) l1) /\
        (forall r o, In (LOutcome r o) l1 -> r = r1 /\ true = true) /\ (forall r, In (TLocked r) new -> m1_heap s1 <> []) /\ (true = false -> m1_heap s <> [] -> m1_heap s1 <> [])).
      { intros e _ -> H. split; [cbn; lia|]. split; [auto|]. split; [intros r o X; apply H in X as [_ X]; auto|]. split; [intros r []|discriminate]. }
      unfold locked1 in TS. destruct (m1_heap s) as [|root hp] eqn:MH.
      { injection TS as <- <- <-. apply (OUT IndexError); auto. intros r o [X|[]]; injection X as <- <-; auto. }
      destruct (negb _); [eauto|]. destruct (rq_response _); [eauto|]. cbn [tick1] in TS. destruct (sched_refresh _ _) as [[|w|c]|e].
      + eauto.
      + injection TS as <- <- <-. split; [cbn; lia|]. split; [right; intros ? ? [X|[]]; discriminate|]. split; [intros ? ? [X|[]]; discriminate|]. split; [intros r [X|[]]; discriminate|discriminate].
      + destruct (reallySend1 _ _ _ _ _ _) as [s3 w]. destruct w as [b|e].
        * destruct (heapreplace _ _ _ _); injection TS as <- <- <-.
          -- split; [cbn; lia|]. split; [right; intros ? ? [X|[]]; discriminate|]. split; [intros ? ? [X|[]]; discriminate|]. split; [intros r [X|[]]; discriminate|discriminate].
          -- apply (OUT IndexError); auto. intros r o [X|[]]; injection X as <- <-; auto.
        * injection TS as <- <- <-. apply (OUT e); auto. intros r o [X|[X|[]]]; [discriminate|injection X as <- <-; auto].
      + injection TS as <- <- <-. apply (OUT e); auto. intros r o [X|[]]; injection X as <- <-; auto.
    - destruct (rq_response _); [|destruct limit]; injection TS as <- <- <-; (split; [cbn; lia|]; split; [right; intros ? ? []|]; split; [intros ? ? []|]; split; [intros r [X|[]]; discriminate|discriminate]).
    - destruct (rq_response _); injection TS as <- <- <-.
      + split; [cbn; lia|]. split; [right; intros ? ? []|]. split; [intros ? ? []|]. split; [intros r [X|[]]; discriminate|discriminate].
      + split; [cbn; lia|]. split; [now left|]. split; [intros r o [X|[]]; injection X as <- <-; auto|]. split; [intros r []|discriminate].
    - destruct (close1 _ _ _) as [s3 [u|e]]; injection TS as <- <- <-; (split; [cbn; lia|]; split; [now left|]; split; [intros r o [X|[]]; injection X as <- <-; auto|]; split; [intros r []|discriminate]).
  Qed.
  (** What a waiting task can raise, and that nothing fails to be sent again. *)
  Lemma task_raises net evs s l t s1 new l1 : (net = false -> F = true) -> m1_run evs = (s, l) -> inv1 evs s l -> open1 evs s l -> keep1 evs s -> seq1 s l ->
    (forall r p c, nth_error (calls evs) r = Some (p, c) -> pdu_requestID p = 0) ->
    In t (m1_tasks s) -> waiting1 t = true -> task1_step net s t = (s1, new, l1) ->
    ~ failed_send l1 /\ forall r e, In (LOutcome r (ORaised e)) l1 -> allowed e.
  Proof.
    intros NET RUN I O K Q FRESH IN W TS. pose proof (i_tasks _ _ _ _ _ I _ IN) as (LT & AL & TO).
    assert (OPEN : rq_cb (get1 (m1_reqs s) (task_req t)) = true).
    { destruct (q_waited _ _ Q t IN W) as (A & _).
      destruct (nth_error (calls evs) (task_req t)) as [[p c]|] eqn:NE; [|apply nth_error_None in NE; rewrite (k_count _ _ K) in NE; lia].
      eapply O; eauto. eapply q_going; eauto. }
    assert (POP : forall s2 r, m1_heap s2 <> [] -> pop1 s2 r = (s1, new, l1) -> l1 = []).
    { intros s2 r H. unfold pop1. destruct (m1_heap s2) as [|a h]; [easy|]. destruct (heappop_some ref_lt1 (m1_reqs s2) a h) as [x ->]. intros X. injection X as <- <- <-. auto. }
    assert (NIL : l1 = [] -> ~ failed_send l1 /\ forall r e, In (LOutcome r (ORaised e)) l1 -> allowed e).
    { intros ->. split; [intros (q & e' & [] & _)|intros r e []]. }
    destruct t as [r1|r1 m|r1|r1|r1|r1 limit|r1|r1 p]; try discriminate W; unfold ManagerV1.task1_step in TS; cbn [task_req] in *.
    - cbn [tick1] in TS. destruct (sched_expired _ _); injection TS as <- <- <-; auto.
    - destruct (m1_heap s); injection TS as <- <- <-; [|auto]. split; [intros (q & e' & [H|[]] & _); discriminate|intros r e [H|[]]; discriminate].
    - pose proof (q_locked _ _ Q r1 IN) as HN. unfold locked1 in TS. destruct (m1_heap s) as [|root hp] eqn:MH; [easy|].
      assert (HN' : m1_heap s <> []) by (rewrite MH; discriminate).
      destruct (negb (rq_alive (get1 (m1_reqs s) root))) eqn:AR; [apply NIL; eapply POP; [|exact TS]; auto|].
      destruct (rq_response (get1 (m1_reqs s) root)); [apply NIL; eapply POP; [|exact TS]; auto|].
      cbn [tick1] in TS.
      assert (LRO : (root < length (m1_reqs s))%nat) by (apply (i_heap _ _ _ _ _ I); rewrite MH; now left).
      destruct (q_ready _ _ Q root) as (ID & w0 & W0); [rewrite MH; now left|].
      pose proof (q_period _ _ Q root LRO) as PP. unfold sched_of in PP.
      destruct (sched_refresh (rq_sched (get1 (m1_reqs s) root)) (clk (m1_clock s))) as [[|w|c]|e] eqn:SR.
      + apply NIL. eapply POP; [|exact TS]. auto.
      + injection TS as <- <- <-. split; [intros (q & e' & [H|[]] & _); discriminate|intros r e [H|[]]; discriminate].
      + unfold ManagerV1.reallySend1, v12_prepareOutgoing in TS. cbn [with_sched1 rq_pdu rq_community rq_cb] in TS.
        destruct (pdu_requestID (rq_pdu (get1 (m1_reqs s) root)) =? 0) eqn:Z0; [lia|]. cbn [s1_pdu s1_cache] in TS.
        unfold wire1 in W0. rewrite W0 in TS. cbn [bind] in TS. destruct net.
        2:{ specialize (NET eq_refl). injection TS as <- <- <-. split.
            - intros (q & e' & [H|[H|[]]] & N); [injection H as <- <-; tauto|discriminate].
            - intros r e [H|[H|[]]]; [discriminate|injection H as <- <-; right; auto]. }
        cbn [m1_heap set_req with_cache1] in TS. rewrite MH in TS.
        cbn [heapreplace] in TS. injection TS as <- <- <-. split; [intros (q & e' & [H|[]] & _); discriminate|intros r e [H|[]]; discriminate].
      + exfalso. unfold sched_refresh in SR. destruct (_ <=? 0); [|discriminate]. destruct (_ <=? _); [discriminate|].
        destruct (Z.eqb_spec (sc_period (rq_sched (get1 (m1_reqs s) root))) 0); [lia|discriminate].
    - destruct (rq_response _); [|destruct limit]; injection TS as <- <- <-; auto.
    - destruct (rq_response (get1 (m1_reqs s) r1)); [|easy]. injection TS as <- <- <-. auto.
    - unfold close1 in TS. rewrite OPEN in TS. injection TS as <- <- <-. split; [intros (q & e' & [H|[]] & _); discriminate|].
      intros r e [H|[]]. left. destruct p as [p|]; [destruct (pdu_a p =? 0)|]; congruence.
  Qed.
  Lemma seq1_new : seq1 (mgr1_new rnd) [].
  Proof.
    constructor.
    - intros r [].
    - intros t [].
    - intros r L. cbn in L. lia.
    - cbn. lia.
    - intros r [].
    - intros t [].
    - intros (q & e & [] & _).
    - intros r e [].
  Qed.
  Lemma log_split {A} (a b : list A) x : In x (rev a ++ b) <-> In x a \/ In x b.
  Proof. rewrite in_app_iff, <- in_rev. reflexivity. Qed.
  (** Nothing but the tasks changes, and no outcome is logged. *)
  Lemma seq1_light s l s' : seq1 s l -> (forall r, (r < length (m1_reqs s))%nat -> ready s r -> ready s' r) -> (forall r, In r (m1_heap s) -> (r < length (m1_reqs s))%nat) ->
    (forall t, In t (m1_tasks s) -> (task_req t < length (m1_reqs s))%nat) ->
    (forall r, (r < length (m1_reqs s'))%nat -> 0 < sc_period (sched_of s' r)) ->
    m1_heap s' = m1_heap s -> (wcount (m1_tasks s') <= 1)%nat ->
    (forall t, In t (m1_tasks s') -> In t (m1_tasks s) \/ (waiting1 t = true -> (forall r, t <> TLocked r) /\ ready s' (task_req t) /\ forall o, ~ In (LOutcome (task_req t) o) l)) -> seq1 s' l.
  Proof.
    intros [A B C D E G K G'] R HL TL S H W T. constructor; auto.
    - intros r IN. rewrite H in IN. auto.
    - intros t IN WT. destruct (T _ IN) as [X|X]; [auto|]. now apply X.
    - intros r IN. rewrite H. destruct (T _ IN) as [X|X]; [eauto|]. exfalso. destruct (X eq_refl) as [X1 _]. now apply (X1 r).
    - intros t IN WT. destruct (T _ IN) as [X|X]; [eauto|]. now apply X.
  Qed.
  Lemma seq1_task net evs s l x n s' l' : m1_run evs = (s, l) -> seq1 s l -> (net = false -> F = true) -> m1_step s x = (s', l') -> run_task V rnd clk net s n = (s', l') ->
    runs1 x n ->
    (forall q, nth_error (m1_tasks s) n = Some (TSend q) -> ~ failed_send l') ->
    (forall r p c, nth_error (calls evs) r = Some (p, c) -> pdu_requestID p = 0) -> seq1 s' (rev l' ++ l).
  Proof.
    intros RUN Q NET STEP E RU P FRESH. pose proof (inv1_run _ _ _ _ _ _ RUN) as I. pose proof (keep1_run _ _ _ HR _ _ _ RUN) as K. pose proof (open1_run _ _ _ HR _ _ _ RUN) as O.
    unfold run_task in E. destruct (nth_error (m1_tasks s) n) as [t|] eqn:NE; [|injection E as <- <-; auto].
    destruct (task1_step net s t) as [[s1 new] l1] eqn:TS. injection E as <- <-.
    pose proof (nth_error_In _ _ NE) as IN. pose proof (PrfMgr1.split_nth _ _ _ NE) as SP.
    destruct (task_seq _ _ _ _ _ _ TS) as (N1 & N2 & N3 & N4 & N5 & N6 & N7).
    assert (NF : ~ failed_send l1 /\ forall r e, In (LOutcome r (ORaised e)) l1 -> allowed e).
    { destruct (waiting1 t) eqn:W; [eapply task_raises; eauto|]. split.
      - destruct t as [r1|r1 m|r1|r1|r1|r1 limit|r1|r1 p]; try discriminate W.
        + exact (P _ eq_refl).
        + unfold ManagerV1.task1_step in TS. cbn [task_req] in TS. injection TS as <- <- <-. intros (q & e & [X|[]] & _); discriminate.
      - intros r e X. now apply N4 in X as [_ X]. }
    destruct NF as [NF1 NF2].
    assert (OTHER : forall t', In t' (firstn n (m1_tasks s)) \/ In t' (skipn (S n) (m1_tasks s)) -> In t' (m1_tasks s)).
    { intros t' [X|X]; rewrite SP, in_app_iff; [auto|right; now right]. }
    assert (ALONE : forall t', In t' (firstn n (m1_tasks s)) \/ In t' (skipn (S n) (m1_tasks s)) -> waiting1 t' = true -> waiting1 t = false).
    { intros t' X W'. destruct (waiting1 t) eqn:W; [|auto]. exfalso. pose proof (q_one _ _ Q) as ONE. rewrite SP in ONE.
      rewrite wcount_app in ONE. change (t :: skipn (S n) (m1_tasks s)) with ([t] ++ skipn (S n) (m1_tasks s)) in ONE. rewrite wcount_app in ONE.
      rewrite wcount_one, W in ONE.
      destruct X as [X|X]; pose proof (wcount_in _ _ X W'); lia. }
    pose proof (step_new V rnd clk _ _ _ _ _ _ I STEP) as LEN.
    assert (LEN' : length (m1_reqs s1) = length (m1_reqs s)).
    { destruct LEN as [L|(? & ? & ? & ? & [L|L] & _)]; [exact L|exfalso; destruct RU as [RU|RU]; rewrite RU in L; discriminate L..]. }
    assert (READY : forall r, (r < length (m1_reqs s))%nat -> ready s r -> ready (mkMgr1 (m1_cache s1) (m1_reqs s1) (m1_heap s1) (firstn n (m1_tasks s) ++ new ++ skipn (S n) (m1_tasks s)) (m1_clock s1)) r)
      by (intros r; apply (ready_step _ _ _ _ _ _ r I STEP)).
    constructor; cbn [m1_tasks m1_heap m1_reqs].
    + intros r HIN. destruct (N7 r HIN) as [X| ->]; [apply READY; [now apply (i_heap _ _ _ _ _ I)|now apply (q_ready _ _ Q)]|].
      (* it was sent just now *)
      pose proof (i_tasks _ _ _ _ _ I _ IN) as (LT & _). cbn [task_req] in LT.
      unfold ManagerV1.task1_step in TS. cbn [task_req] in TS. destruct (heappush ref_lt1 (m1_reqs s) (m1_heap s) r) as [lq h'] eqn:HP. cbn [tick1] in TS.
      destruct (reallySend1 _ _ _ _ _ _) as [s3 w] eqn:RS. injection TS as <- <- <-. destruct (push1 _ _ _ _ _ HP) as (SB & _ & _).
      assert (CB : rq_cb (get1 (m1_reqs s) r) = true -> pdu_requestID (rq_pdu (get1 (m1_reqs s) r)) <> 0) by (intros X; apply (i_cb _ _ _ _ _ I r X)).
      destruct (sbr_get _ _ r SB) as (w2 & GE).
      destruct (reallySend1_spec V rnd clk _ _ _ _ _ _ RS) as (q' & Q1 & _ & _ & _ & _ & _ & _ & _ & _ & Q10 & _).
      { cbn [with_sched1 rq_cb rq_pdu with_heap1 m1_reqs fst]. rewrite GE. cbn [with_ref1 rq_cb rq_pdu]. exact CB. }
      assert (NW : w <> Raise CacheError).
      { intros ->. apply NF1. exists r, CacheError. split; [now left|]. intros [_ X]. discriminate. }
      destruct (Q10 NW) as (ID & WW). unfold ready. cbn [m1_reqs]. rewrite Q1. cbn [with_heap1 m1_reqs fst].
      rewrite get1_put_same by (destruct SB as [-> _]; exact LT). split; [exact ID|].
      destruct (wire1 V q') as [b|e] eqn:WR; [eauto|]. exfalso. apply NF1. cbn [bind] in WW. rewrite WW. exists r, e. split; [now left|]. intros [_ ->].
      unfold wire1 in WR. now apply quiet_message in WR.
    + intros t' X W'. rewrite !in_app_iff in X.
      assert (Z : In t' new \/ (In t' (firstn n (m1_tasks s)) \/ In t' (skipn (S n) (m1_tasks s)))) by tauto. clear X. destruct Z as [Z|Z].
      * destruct (N2 _ Z) as [_ TR]. rewrite TR. assert (W : waiting1 t = true). { destruct (waiting1 t); [auto|]. destruct new; [easy|cbn in N1; lia]. }
        apply READY; [apply (i_tasks _ _ _ _ _ I _ IN)|now apply (q_waited _ _ Q)].
      * apply OTHER in Z. apply READY; [apply (i_tasks _ _ _ _ _ I _ Z)|now apply (q_waited _ _ Q)].
    + intros r LR. rewrite LEN' in LR. destruct (step_fixed V rnd clk _ _ _ _ _ _ r I STEP LR) as (_ & PX & _). unfold sched_of in *. cbn [m1_reqs] in PX. cbn [m1_reqs]. rewrite PX. now apply (q_period _ _ Q).
    + pose proof (q_one _ _ Q) as ONE. rewrite SP in ONE. rewrite wcount_app in *. change (t :: skipn (S n) (m1_tasks s)) with ([t] ++ skipn (S n) (m1_tasks s)) in ONE. rewrite wcount_app in *.
      cbn [skipn] in ONE. rewrite wcount_one in ONE. pose proof (wcount_le new). destruct (waiting1 t); lia.
    + intros r X. rewrite !in_app_iff in X. assert (Y : In (TLocked r) new \/ (In (TLocked r) (firstn n (m1_tasks s)) \/ In (TLocked r) (skipn (S n) (m1_tasks s)))) by tauto.
      destruct Y as [Y|Y]; [eauto|]. apply N6; [eapply ALONE; eauto|]. apply (q_locked _ _ Q r). auto.
    + intros t' X W' o Y. rewrite !in_app_iff in X. apply log_split in Y.
      assert (Z : In t' new \/ (In t' (firstn n (m1_tasks s)) \/ In t' (skipn (S n) (m1_tasks s)))) by tauto. clear X. destruct Z as [Z|Z].
      * destruct Y as [Y|Y]; [destruct N3 as [->|N3]; [easy|now apply N3 in Y]|]. destruct (N2 _ Z) as [_ TR]. rewrite TR in Y.
        assert (W : waiting1 t = true). { destruct (waiting1 t); [auto|]. destruct new; [easy|cbn in N1; lia]. }
        exact (q_going _ _ Q t IN W o Y).
      * destruct Y as [Y|Y]; [apply N4 in Y as [_ Y]; rewrite (ALONE _ Z W') in Y; discriminate|]. exact (q_going _ _ Q t' (OTHER _ Z) W' o Y).
    + intros (q & e & X & N). apply log_split in X as [X|X]; [apply NF1; exists q, e; auto|apply (q_failed _ _ Q); exists q, e; auto].
    + intros r e X. apply log_split in X as [X|X]; [eauto|exact (q_raised _ _ Q _ _ X)].
  Qed.
  Lemma seq1_step evs s l x s' l' : m1_run evs = (s, l) -> seq1 s l -> polite_step s l x ->
    (forall r p c, nth_error (calls evs) r = Some (p, c) -> pdu_requestID p = 0) ->
    m1_step s x = (s', l') -> seq1 s' (rev l' ++ l).
  Proof.
    intros RUN Q P FRESH E. pose proof (inv1_run _ _ _ _ _ _ RUN) as I. pose proof E as STEP.
    assert (HL : forall r, In r (m1_heap s) -> (r < length (m1_reqs s))%nat) by apply (i_heap _ _ _ _ _ I).
    assert (TL : forall t, In t (m1_tasks s) -> (task_req t < length (m1_reqs s))%nat) by (intros t IN; apply (i_tasks _ _ _ _ _ I _ IN)).
    assert (READY : forall r, (r < length (m1_reqs s))%nat -> ready s r -> ready s' r) by (intros r; apply (ready_step _ _ _ _ _ _ r I STEP)).
    assert (PER : (length (m1_reqs s') = length (m1_reqs s) \/ length (m1_reqs s') = S (length (m1_reqs s)) /\ 0 < sc_period (sched_of s' (length (m1_reqs s)))) ->
      forall r, (r < length (m1_reqs s'))%nat -> 0 < sc_period (sched_of s' r)).
    { intros LE r LR. destruct (le_lt_dec (length (m1_reqs s)) r) as [L|L].
      - destruct LE as [LE|[LE X]]; [lia|]. assert (r = length (m1_reqs s)) as -> by lia. exact X.
      - destruct (step_fixed V rnd clk _ _ _ _ _ _ r I STEP L) as (_ & -> & _). now apply (q_period _ _ Q). }
    assert (OLD : forall x0, x = x0 -> (match x0 with MCall _ _ _ _ | MOther _ _ => False | _ => True end) -> length (m1_reqs s') = length (m1_reqs s)).
    { intros x0 -> NC. destruct (step_new V rnd clk _ _ _ _ _ _ I STEP) as [L|(? & ? & ? & ? & [L|L] & _)]; [exact L|rewrite L in NC; contradiction..]. }
    destruct x as [p community timeout period|r0|d|r0|n|n|p community]; cbn [ManagerV1.m1_step polite_step] in E, P.
    - destruct P as [P1 P2]. cbn [tick1] in E. injection E as <- <-. cbn [rev app]. apply (seq1_light s); auto; cbn [add_task m1_tasks m1_heap m1_reqs].
      + apply PER. right. unfold sched_of. cbn [add_task m1_reqs]. rewrite app_length, get1_app, Nat.eqb_refl. cbn. split; [lia|auto].
      + rewrite wcount_app. cbn. pose proof (q_one _ _ Q). lia.
      + intros t IN. apply in_app_iff in IN as [IN|[<-|[]]]; [auto|]. right. discriminate.
    - destruct P as (P1 & P2 & P3). specialize (OLD _ eq_refl Logic.I). destruct (alive1 s r0 && _); injection E as <- <-; [|auto]. cbn [rev app].
      apply (seq1_light s); auto; cbn [add_task m1_tasks].
      + rewrite wcount_app, (wcount_none (m1_tasks s)) by auto. cbn. lia.
      + intros t IN. apply in_app_iff in IN as [IN|[<-|[]]]; [auto|]. right. intros _. split; [discriminate|]. split; [|exact P2].
        destruct P3 as (x1 & x2 & x3 & P3). destruct (i_sent _ _ _ _ _ I _ _ _ _ P3) as (LR & A & B). apply READY; [exact LR|]. split; eauto.
    - specialize (OLD _ eq_refl Logic.I). destruct (v12_prepareDataElements V (alive1 s) (m1_cache s) d) as [c [[m h]|e]]; injection E as <- <-; cbn [rev app]; apply (seq1_light s); auto; cbn [add_task with_cache1 m1_tasks]; try apply (q_one _ _ Q).
      + rewrite wcount_app. cbn. pose proof (q_one _ _ Q). lia.
      + intros t IN. apply in_app_iff in IN as [IN|[<-|[]]]; [auto|]. right. discriminate.
    - specialize (OLD _ eq_refl Logic.I). assert (SAME : l' = [] /\ m1_heap s' = m1_heap s /\ m1_tasks s' = m1_tasks s).
      { cbv zeta in E. destruct (negb _ || _); [injection E as <- <-; auto|]. unfold close1 in E. cbn [rq_cb] in E. destruct (rq_cb _); injection E as <- <-; auto. }
      destruct SAME as (-> & S3 & S4). cbn [rev app]. apply (seq1_light s); auto; rewrite S4; auto. apply (q_one _ _ Q).
    - eapply (seq1_task true evs s l (MStep n) n); eauto; [discriminate|now left|]. intros q NE. specialize (P q NE). now rewrite E in P.
    - destruct P as [P1 P2]. eapply (seq1_task false evs s l (MFail n) n); eauto; [now right|]. intros q NE. specialize (P2 q NE). now rewrite E in P2.
    - apply other_spec in STEP as (q' & -> & RQ & HP & TK & _ & SC & _). cbn [rev app]. apply (seq1_light s); auto.
      + apply PER. right. unfold sched_of. rewrite RQ, app_length, get1_app, Nat.eqb_refl, SC. cbn. split; lia.
      + rewrite TK. apply (q_one _ _ Q).
      + rewrite TK. auto.
  Qed.
  Lemma polite_fresh evs : polite evs -> forall r p c, nth_error (calls evs) r = Some (p, c) -> pdu_requestID p = 0.
  Proof.
    induction evs as [|x evs IH] using rev_ind; intros P r p c NE; [destruct r; discriminate|].
    rewrite calls_app in NE. destruct (le_lt_dec (length (calls evs)) r) as [L|L].
    - rewrite nth_error_app2 in NE by auto. destruct x as [p0 c0 t0 pr0| | | | | |p0 c0]; cbn [calls] in NE; try (destruct (r - length (calls evs))%nat; discriminate).
      all: destruct (r - length (calls evs))%nat as [|k]; [|destruct k; discriminate]; injection NE as -> ->; apply (P evs _ [] eq_refl).
    - rewrite nth_error_app1 in NE by auto. eapply IH; [|exact NE]. now apply polite_app in P.
  Qed.
  Theorem seq1_run evs s l : polite evs -> m1_run evs = (s, l) -> seq1 s l.
  Proof.
    revert s l. induction evs as [|x evs IH] using rev_ind; intros s l P E.
    - cbn in E. injection E as <- <-. apply seq1_new.
    - rewrite m1_run_snoc in E. destruct (m1_run evs) as [s0 l0] eqn:R0. destruct (m1_step s0 x) as [s1 l1] eqn:ST. injection E as <- <-.
      pose proof (polite_app _ _ P) as P0. eapply seq1_step; [exact R0|now apply IH| |now apply polite_fresh|exact ST].
      specialize (P evs x [] eq_refl). now rewrite R0 in P.
  Qed.
End Seq1.
