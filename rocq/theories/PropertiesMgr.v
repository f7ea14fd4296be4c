(** PropertiesMgr.v -- C26, C40-C44 of the SNMPv1/SNMPv2c manager.
    The histories are those of ManagerV1.v: any calls of sendRequest() and
    wait() by any threads, any datagrams, any garbage collection, any
    interleaving, any clock readings [clk], any random numbers [rnd]. *)
From Verif Require Import PrfMgr1c PropertiesMsg.

(** A request in state [s]. *)
Definition the_request (s : mgr1) (r : nat) : req1 := get1 (m1_reqs s) r.
Definition expiration (s : mgr1) (r : nat) : Z := sc_expiration (rq_sched (the_request s r)).
Definition next_refresh (s : mgr1) (r : nat) : Z := sc_next (rq_sched (the_request s r)).
Definition period (s : mgr1) (r : nat) : Z := sc_period (rq_sched (the_request s r)).
Definition alive (s : mgr1) (r : nat) : Prop := rq_alive (the_request s r) = true.
Definition answered (s : mgr1) (r : nat) : Prop := rq_response (the_request s r) <> None.
Definition made (s : mgr1) (r : nat) : Prop := (r < length (m1_reqs s))%nat.
(** sendRequest() has sent it. *)
Definition was_sent (s : mgr1) (r : nat) : Prop := made s r /\ ~ In (TSend r) (m1_tasks s).
(** The clock reading of the step from [s]. *)
Definition reading (clk : nat -> Z) (s : mgr1) : Z := clk (m1_clock s).
(** Some clock reading so far was past the expiration. *)
Definition has_expired (clk : nat -> Z) (s : mgr1) (r : nat) : Prop :=
  exists i, (i < m1_clock s)%nat /\ expiration s r <= clk i.

(** * C26 *)
Theorem C26_manager : forall V rnd clk evs s l r t1 a1 w1 t2 a2 w2,
  m1_run V rnd clk evs = (s, l) ->
  In (LSent r t1 a1 w1) l -> In (LSent r t2 a2 w2) l -> w1 = w2.
Proof.
  intros V rnd clk evs s l r t1 a1 w1 t2 a2 w2 E A B. pose proof (inv1_run _ _ _ _ _ _ E) as I.
  destruct (i_sent _ _ _ _ _ I _ _ _ _ A) as (_ & _ & X). destruct (i_sent _ _ _ _ _ I _ _ _ _ B) as (_ & _ & Y). congruence.
Qed.
Print Assumptions C26_manager.

(** * C40 *)
(** sendRequest(): the expiration is [timeout] from now. *)
Theorem C40_made : forall V rnd clk evs s l p community timeout per s' l',
  m1_run V rnd clk evs = (s, l) -> m1_step V rnd clk s (MCall p community timeout per) = (s', l') ->
  made s' (length (m1_reqs s)) /\ expiration s' (length (m1_reqs s)) = reading clk s + timeout /\
  period s' (length (m1_reqs s)) = per.
Proof.
  intros V rnd clk evs s l p community timeout per s' l' E ST. pose proof (inv1_run _ _ _ _ _ _ E) as I.
  cbn [m1_step tick1] in ST. injection ST as <- <-. unfold made, expiration, period, the_request. cbn [add_task m1_reqs].
  rewrite app_length, get1_app, Nat.eqb_refl. cbn. split; [lia|auto].
Qed.
Print Assumptions C40_made.
Theorem C40_schedule : forall V rnd clk evs s l x s' l' r,
  m1_run V rnd clk evs = (s, l) -> m1_step V rnd clk s x = (s', l') -> made s r -> 0 < period s r ->
  let now := reading clk s in
  (** a first transmission *)
  (forall t w, In (LSent r t false w) l' ->
     t = now /\ next_refresh s' r = Z.min (expiration s r) (now + period s r)) /\
  (** a retransmission *)
  (forall t w, In (LSent r t true w) l' ->
     t = now /\ alive s r /\ ~ answered s r /\ next_refresh s r <= now < expiration s r /\
     exists k, 0 <= k /\ now <= next_refresh s r + k * period s r < now + period s r /\
       next_refresh s' r = Z.min (expiration s r) (next_refresh s r + k * period s r)) /\
  (** nothing else touches the schedule *)
  ((forall y, In y l' -> ~ sends1 r y) -> next_refresh s' r = next_refresh s r) /\
  expiration s' r = expiration s r /\ period s' r = period s r /\ next_refresh s' r <= expiration s' r.
Proof.
  intros V rnd clk evs s l x s' l' r E ST LR P now. pose proof (inv1_run _ _ _ _ _ _ E) as I.
  destruct (step_fixed V rnd clk _ _ _ _ _ _ r I ST LR) as (F1 & F2 & F3). specialize (F3 (next_le_expiration _ _ _ _ _ _ _ E LR)).
  assert (REST : forall A B C : Prop, A -> B -> C -> A /\ B /\ C /\ expiration s' r = expiration s r /\ period s' r = period s r /\ next_refresh s' r <= expiration s' r) by (unfold expiration, period, next_refresh; auto 7).
  unfold made, period, next_refresh, expiration, alive, answered, the_request, reading in *. fold (sched_of s r) in *. fold (sched_of s' r) in *. 
  destruct (step_sched V rnd clk _ _ _ _ _ _ I ST r LR) as [(S & N)|[(n & w' & _ & _ & -> & S)|(n & o & w' & _ & _ & A & Q & SR & ->)]]; apply REST.
  - intros t w B. exfalso. now apply (N _ B).
  - intros t w B. exfalso. now apply (N _ B).
  - intros _. now rewrite S.
  - intros t w [B|[]]. unfold sent_log in B. destruct w'; [|discriminate]. injection B as <- _. rewrite S. auto.
  - intros t w [B|[]]. unfold sent_log in B. destruct w'; discriminate.
  - intros B. exfalso. apply (B (sent_log r (clk (m1_clock s)) false w')); [now left|]. unfold sent_log. destruct w'; reflexivity.
  - intros t w [B|B]; [unfold sent_log in B; destruct w'; discriminate|]. destruct w'; [destruct B|]. destruct B as [B|[]]; discriminate.
  - intros t w B. assert (t = clk (m1_clock s)) as ->.
    { destruct B as [B|B]; [unfold sent_log in B; destruct w'; [injection B as <-; auto|discriminate]|]. destruct w'; [destruct B|]. destruct B as [B|[]]; discriminate. }
    apply sched_resend_iff in SR; [|exact P]. destruct SR as (R1 & R2 & k & K0 & K1 & K2 & K3). rewrite K3. split; [auto|]. split; [auto|].
    split; [rewrite Q; auto|]. split; [auto|]. exists k. unfold set_next. cbn. auto.
  - intros B. exfalso. apply (B (sent_log r (clk (m1_clock s)) true w')); [now left|]. unfold sent_log. destruct w'; reflexivity.
Qed.
Print Assumptions C40_schedule.
(** Over a whole history nothing is retransmitted at or after the expiration. *)
Theorem C40_expired : forall V rnd clk evs s l r t w, m1_run V rnd clk evs = (s, l) ->
  In (LSent r t true w) l -> t < expiration s r.
Proof. intros V rnd clk evs s l r t w E B. now apply (resent_before V rnd clk evs s l r t w). Qed.
Print Assumptions C40_expired.

(** A history with a retransmission: made at 0 with timeout 10 and period 3, sent
    at 0 (next refresh 3), waited for; at 5 the refresh is due (next refresh 6). *)
Definition ex_pdu : pdu := mkPDU GetRequestPDU 0 0 0 ex_vbs.
Definition ex_clk (l : list Z) (i : nat) : Z := nth i l (last l 0).
Definition ex_rnd (i : nat) : Z := 7.
Definition ex_start (timeout period : Z) : list event1 := [MCall ex_pdu [112] timeout period; MStep 0; MWait 0; MStep 0; MStep 0].
Example C40_example : let s := fst (m1_run proc_v2c ex_rnd (ex_clk [0; 0; 0; 5]) (ex_start 10 3)) in
  let '(s', l') := m1_step proc_v2c ex_rnd (ex_clk [0; 0; 0; 5]) s (MStep 0) in
  made s 0 /\ next_refresh s 0 = 3 /\ next_refresh s' 0 = 6 /\ expiration s' 0 = 10 /\ exists w, l' = [LSent 0 5 true w] /\ w <> [].
Proof. vm_compute. split; [lia|]. repeat split. eexists. split; [reflexivity|discriminate]. Qed.

(** * C41 *)
Definition C41_statement : Prop := forall V rnd clk evs s l x s' l' r t w,
  m1_run V rnd clk evs = (s, l) -> m1_step V rnd clk s x = (s', l') -> made s r -> 0 < period s r ->
  In (LSent r t true w) l' -> t < next_refresh s' r.
(** At the very moment that a refresh is due, the next one is due at once. *)
Theorem C41_refuted : ~ C41_statement.
Proof.
  intros H. set (clk := ex_clk [0; 0; 0; 3]). set (sl := m1_run proc_v2c ex_rnd clk (ex_start 10 3)).
  set (sl' := m1_step proc_v2c ex_rnd clk (fst sl) (MStep 0)).
  assert (X : exists w, In (LSent 0 3 true w) (snd sl')) by (vm_compute; eexists; left; reflexivity). destruct X as [w X].
  assert (M : made (fst sl) 0) by (vm_compute; lia). assert (P : 0 < period (fst sl) 0) by (vm_compute; reflexivity).
  pose proof (H _ _ _ _ _ _ _ _ _ 0%nat 3 w (surjective_pairing sl) (surjective_pairing sl') M P X) as Y. vm_compute in Y. discriminate.
Qed.
Print Assumptions C41_refuted.
(** Exactly when it is not: the time since the refresh was due is no multiple of
    the period. *)
Theorem C41_strict_partial : forall V rnd clk evs s l x s' l' r t w,
  m1_run V rnd clk evs = (s, l) -> m1_step V rnd clk s x = (s', l') -> made s r -> 0 < period s r ->
  In (LSent r t true w) l' ->
  t <= next_refresh s' r /\ (t < next_refresh s' r <-> (t - next_refresh s r) mod period s r <> 0).
Proof.
  intros V rnd clk evs s l x s' l' r t w E ST LR P B.
  destruct (C40_schedule _ _ _ _ _ _ _ _ _ _ E ST LR P) as (_ & C & _). destruct (C _ _ B) as (-> & _ & _ & [X1 X2] & k & K0 & [K1 K2] & ->).
  set (now := reading clk s) in *. set (nx := next_refresh s r) in *. set (p := period s r) in *. set (ex := expiration s r) in *.
  split; [lia|]. split.
  - intros L M. apply Z.mod_divide in M as [j M]; [|lia].
    assert (k = j \/ k <= j - 1 \/ j + 1 <= k) as [->|[K|K]] by lia; nia.
  - intros N. enough (nx + k * p <> now) by lia. intros EQ. apply N. replace (now - nx) with (k * p) by lia. apply Z.mod_mul. lia.
Qed.
Print Assumptions C41_strict_partial.
Definition is_sent (x : log1) : bool := match x with LSent _ _ _ _ => true | _ => false end.
(** As long as the clock does not move, it is sent again and again. *)
Definition ex_stuck (i : nat) : Z := match i with O | 1%nat | 2%nat => 0 | _ => 3 end.
Theorem C41_burst_refuted : forall n,
  length (filter is_sent (snd (m1_run proc_v2c ex_rnd ex_stuck (ex_start 10 3 ++ concat (repeat [MStep 0; MStep 0] n))))) = S n.
Proof.
  assert (X : exists c q, forall n, exists l,
     m1_run proc_v2c ex_rnd ex_stuck (ex_start 10 3 ++ concat (repeat [MStep 0; MStep 0] n)) =
     (mkMgr1 c [q] [0%nat] [TLocked 0] (3 + n), l) /\ length (filter is_sent l) = S n).
  2:{ destruct X as (c & q & X). intros n. destruct (X n) as (l & -> & Y). exact Y. }
  do 2 eexists. induction n as [|n IH].
  - eexists. split; [vm_compute; reflexivity|]. reflexivity.
  - destruct IH as (l & IH & L).
    assert (EQ : ex_start 10 3 ++ concat (repeat [MStep 0; MStep 0] (S n)) = ((ex_start 10 3 ++ concat (repeat [MStep 0; MStep 0] n)) ++ [MStep 0]) ++ [MStep 0]).
    { rewrite <- !app_assoc. f_equal. clear. induction n as [|n IH]; [reflexivity|]. cbn [repeat concat app] in *. rewrite <- IH. reflexivity. }
    rewrite EQ, !m1_run_snoc, IH. eexists. split.
    + vm_compute. reflexivity.
    + cbn [rev app filter is_sent length]. now rewrite L.
Qed.
Print Assumptions C41_burst_refuted.

(** * C42 *)
Definition C42_statement : Prop := forall V rnd clk evs s l x s' l' r limit,
  m1_run V rnd clk evs = (s, l) -> m1_step V rnd clk s x = (s', l') ->
  In (LBlocked r limit) l' -> ~ answered s r ->
  exists w, limit = Some w /\ w <= expiration s r - reading clk s.
(** The expiration falls between the reading in wait() (9) and the one in
    refresh() (10): the request leaves the heap, the heap is empty, and wait()
    blocks without a limit. *)
Definition ex_gap : list Z := [0; 0; 9; 10].
Definition ex_hung : list event1 := ex_start 10 20 ++ [MStep 0; MStep 0].
Theorem C42_refuted : ~ C42_statement.
Proof.
  intros H. set (clk := ex_clk ex_gap). set (sl := m1_run proc_v1 ex_rnd clk (ex_start 10 20 ++ [MStep 0])).
  set (sl' := m1_step proc_v1 ex_rnd clk (fst sl) (MStep 0)).
  assert (X : In (LBlocked 0 None) (snd sl')) by (vm_compute; left; reflexivity).
  assert (A : ~ answered (fst sl) 0) by (vm_compute; intros N; apply N; reflexivity).
  destruct (H _ _ _ _ _ _ _ _ _ 0%nat None (surjective_pairing sl) (surjective_pairing sl') X A) as (w & Y & _). discriminate.
Qed.
Print Assumptions C42_refuted.
(** And it blocks for ever: whatever happens next, short of another datagram,
    that call of wait() is never over. *)
Theorem C42_hang_refuted : forall evs, Forall silent evs ->
  let '(s, l) := m1_run proc_v1 ex_rnd (ex_clk ex_gap) (ex_hung ++ evs) in
  In (TBlock 0 None) (m1_tasks s) /\ ~ answered s 0.
Proof.
  intros evs F. assert (F' : Forall silent (ex_hung ++ evs)) by (apply Forall_app; split; [vm_compute; repeat constructor|auto]).
  pose proof (stuck proc_v1 ex_rnd (ex_clk ex_gap) ex_hung evs 0 F' ltac:(vm_compute; left; reflexivity)) as X.
  destruct (m1_run proc_v1 ex_rnd (ex_clk ex_gap) (ex_hung ++ evs)) as [s l] eqn:E. split; [exact X|].
  unfold answered, the_request. now rewrite (unanswered _ _ _ _ _ _ 0 F' E).
Qed.
Print Assumptions C42_hang_refuted.
(** In every history: without a limit it blocks only in that case (or if the
    response is there already, so that it does not block). *)
Theorem C42_unlimited_partial : forall V rnd clk evs s l x s' l' r,
  m1_run V rnd clk evs = (s, l) -> m1_step V rnd clk s x = (s', l') ->
  In (LBlocked r None) l' -> answered s r \/ has_expired clk s r.
Proof.
  intros V rnd clk evs s l x s' l' r E ST B. pose proof (inv1_run _ _ _ _ _ _ E) as I.
  destruct (step_blocked V rnd clk _ _ _ _ _ _ ST B) as (n & _ & _ & _ & _ & [(T & HP & _)|(_ & root & hp & _ & _ & _ & _ & X & _)]); [|discriminate].
  pose proof (nth_error_In _ _ T) as TI. pose proof (i_tasks _ _ _ _ _ I _ TI) as (LR & AL & _). cbn [task_req] in *.
  pose proof (waited_sent _ _ _ _ _ _ _ E TI eq_refl) as NP. cbn [task_req] in NP.
  destruct (i_cover _ _ _ _ _ I r LR) as [X|[X|[X|[X|X]]]]; [contradiction|rewrite HP in X; destruct X|congruence|left; exact X|right; exact X].
Qed.
Print Assumptions C42_unlimited_partial.
(** With one period for all requests, a clock that does not go back, and no
    request abandoned or failed to be sent: the limit is right unless the
    expiration was noticed already. *)
Theorem C42_limit_partial : forall V rnd clk P evs s l x s' l' r w, 0 < P -> (forall i, clk i <= clk (S i)) ->
  Forall (uniform_event P) evs -> m1_run V rnd clk evs = (s, l) -> (forall q e, ~ In (LSendFailed q e) l) ->
  m1_step V rnd clk s x = (s', l') -> In (LBlocked r (Some w)) l' ->
  answered s r \/ has_expired clk s r \/ w <= expiration s r - reading clk s.
Proof.
  intros V rnd clk P evs s l x s' l' r w P0 MON F E NF ST B. pose proof (inv1_run _ _ _ _ _ _ E) as I.
  pose proof (unif_run V rnd clk P evs s l P0 MON F E NF) as [U1 U2 U3 U4].
  destruct (step_blocked V rnd clk _ _ _ _ _ _ ST B) as (n & _ & _ & _ & _ & [(_ & _ & X & _)|(T & root & hp & HP & AR & RR & W0 & W & _)]); [discriminate|].
  injection W as ->.
  pose proof (nth_error_In _ _ T) as TI. pose proof (i_tasks _ _ _ _ _ I _ TI) as (LR & AL & _). cbn [task_req] in *.
  pose proof (waited_sent _ _ _ _ _ _ _ E TI eq_refl) as NP. cbn [task_req] in NP.
  destruct (i_cover _ _ _ _ _ I r LR) as [X|[X|[X|[X|X]]]]; [contradiction| |congruence|left; exact X|right; left; exact X].
  right. right. pose proof (next_le_expiration _ _ _ _ _ _ _ E LR) as NE. unfold expiration, the_request, reading. fold (sched_of s r).
  rewrite HP in U2, X. pose proof (heap_min _ _ _ _ U2 X) as M. rewrite !ekey1_alive in M; [|auto..]. fold (sched_of s root) (sched_of s r) in M. lia.
Qed.
Print Assumptions C42_limit_partial.
(** Whenever wait() looks at the clock at or after the expiration, it raises
    Timeout as its next step (unless the request was closed before). *)
Theorem C42_timeout_partial : forall V rnd clk s n r s1 l1, nth_error (m1_tasks s) n = Some (TLoop r) ->
  expiration s r <= reading clk s -> m1_step V rnd clk s (MStep n) = (s1, l1) ->
  nth_error (m1_tasks s1) n = Some (TClose r None) /\
  forall s2 s3 l3 n', nth_error (m1_tasks s2) n' = Some (TClose r None) -> rq_cb (the_request s2 r) = true ->
    m1_step V rnd clk s2 (MStep n') = (s3, l3) -> l3 = [LOutcome r (ORaised Timeout)].
Proof.
  intros V rnd clk s n r s1 l1 T X ST. cbn [m1_step] in ST. unfold run_task in ST. rewrite T in ST. cbn [task1_step tick1 task_req] in ST.
  unfold expiration, the_request, reading in X. unfold sched_expired in ST. apply Z.leb_le in X. rewrite X in ST. injection ST as <- <-. cbn [m1_tasks]. split.
  - assert (L : length (firstn n (m1_tasks s)) = n) by (apply firstn_length_le; apply Nat.lt_le_incl, nth_error_Some; congruence).
    rewrite nth_error_app2, L, Nat.sub_diag by lia. reflexivity.
  - intros s2 s3 l3 n' T2 CB ST2. cbn [m1_step] in ST2. unfold run_task in ST2. rewrite T2 in ST2. cbn [task1_step task_req] in ST2. unfold close1 in ST2.
    unfold the_request in CB. rewrite CB in ST2. now injection ST2 as <- <-.
Qed.
Print Assumptions C42_timeout_partial.
(** The hypotheses are met: the second request waits, limited by the first. *)
Definition ex_two : list event1 :=
  [MCall ex_pdu [112] 10 3; MStep 0; MCall ex_pdu [112] 4 3; MStep 0; MWait 1; MStep 0; MStep 0].
Example C42_example : let '(s, l) := m1_run proc_v1 ex_rnd (ex_clk [0; 0; 1; 1; 2; 2]) ex_two in
  Forall (uniform_event 3) ex_two /\ (forall q e, ~ In (LSendFailed q e) l) /\
  let '(s', l') := m1_step proc_v1 ex_rnd (ex_clk [0; 0; 1; 1; 2; 2]) s (MStep 0) in
  l' = [LBlocked 1 (Some 1)] /\ ~ answered s 1 /\ expiration s 1 = 5 /\ next_refresh s 0 = 3 /\ next_refresh s 1 = 4.
Proof. vm_compute. split; [repeat constructor|]. split; [intuition discriminate|]. repeat split. auto. Qed.

(** * C43, v1/v2c *)
Definition C43_statement : Prop := forall V rnd clk evs s l x s' l' r w q,
  m1_run V rnd clk evs = (s, l) -> m1_step V rnd clk s x = (s', l') ->
  In (LBlocked r (Some w)) l' ->
  was_sent s q -> alive s q -> ~ answered s q -> reading clk s < expiration s q -> ~ has_expired clk s q ->
  w <= next_refresh s q - reading clk s.
(** The first request: timeout 10, period 10; the second: timeout 100, period 1. *)
Definition ex_mixed : list event1 :=
  [MCall ex_pdu [112] 10 10; MStep 0; MCall ex_pdu [112] 100 1; MStep 0; MWait 0; MStep 0; MStep 0].
Theorem C43_refuted : ~ C43_statement.
Proof.
  intros H. set (clk := ex_clk [0]). set (sl := m1_run proc_v1 ex_rnd clk ex_mixed).
  set (sl' := m1_step proc_v1 ex_rnd clk (fst sl) (MStep 0)).
  assert (X : In (LBlocked 0 (Some 10)) (snd sl')) by (vm_compute; left; reflexivity).
  assert (A : was_sent (fst sl) 1 /\ alive (fst sl) 1 /\ ~ answered (fst sl) 1 /\ reading clk (fst sl) < expiration (fst sl) 1).
  { clear H X. vm_compute. repeat split; auto. intuition discriminate. }
  destruct A as (A1 & A2 & A3 & A4).
  assert (A5 : ~ has_expired clk (fst sl) 1).
  { intros (i & _ & Y). change (expiration (fst sl) 1) with 100 in Y. unfold clk, ex_clk in Y. destruct i as [|[|i]]; cbn in Y; lia. }
  pose proof (H _ _ _ _ _ _ _ _ _ 0%nat 10 1%nat (surjective_pairing sl) (surjective_pairing sl') X A1 A2 A3 A4 A5) as Y.
  vm_compute in Y. exact (Y eq_refl).
Qed.
Print Assumptions C43_refuted.
(** In every history, if it is the only one that is alive and unanswered, the
    wait is exactly the time left. *)
Theorem C43_single_partial : forall V rnd clk evs s l x s' l' r w q,
  m1_run V rnd clk evs = (s, l) -> m1_step V rnd clk s x = (s', l') -> In (LBlocked r (Some w)) l' ->
  (forall q', made s q' -> alive s q' -> ~ answered s q' -> reading clk s < expiration s q' -> q' = q) ->
  w = next_refresh s q - reading clk s /\ 0 < w.
Proof.
  intros V rnd clk evs s l x s' l' r w q E ST B O. pose proof (inv1_run _ _ _ _ _ _ E) as I.
  destruct (step_blocked V rnd clk _ _ _ _ _ _ ST B) as (n & _ & _ & _ & _ & [(_ & _ & X & _)|(T & root & hp & HP & AR & RR & W0 & W & _)]); [discriminate|].
  injection W as ->. assert (LR : made s root) by (apply (i_heap _ _ _ _ _ I); rewrite HP; now left).
  assert (root = q) as ->.
  { apply O; [exact LR|exact AR| |].
    - unfold answered, the_request. rewrite RR. auto.
    - pose proof (next_le_expiration _ _ _ _ _ _ _ E LR). unfold reading, expiration, the_request. fold (sched_of s root). lia. }
  split; [reflexivity|exact W0].
Qed.
Print Assumptions C43_single_partial.
Theorem C43_uniform_partial : forall V rnd clk P evs s l x s' l' r w q, 0 < P -> (forall i, clk i <= clk (S i)) ->
  Forall (uniform_event P) evs -> m1_run V rnd clk evs = (s, l) -> (forall q e, ~ In (LSendFailed q e) l) ->
  m1_step V rnd clk s x = (s', l') -> In (LBlocked r (Some w)) l' ->
  was_sent s q -> alive s q -> ~ answered s q -> reading clk s < expiration s q ->
  w <= next_refresh s q - reading clk s.
Proof.
  intros V rnd clk P evs s l x s' l' r w q P0 MON F E NF ST B (LQ & NP) AL NA NX. pose proof (inv1_run _ _ _ _ _ _ E) as I.
  pose proof (unif_run V rnd clk P evs s l P0 MON F E NF) as [U1 U2 U3 U4].
  destruct (step_blocked V rnd clk _ _ _ _ _ _ ST B) as (n & _ & _ & _ & _ & [(_ & _ & X & _)|(T & root & hp & HP & AR & RR & W0 & W & _)]); [discriminate|].
  injection W as ->. unfold next_refresh, reading, the_request in *. fold (sched_of s q).
  destruct (i_cover _ _ _ _ _ I q LQ) as [X|[X|[X|[X|(i & X1 & X2)]]]].
  - exfalso. apply NP. unfold pending1 in X. apply in_flat_map in X as (t & T1 & T2). destruct t; try contradiction. destruct T2 as [<-|[]]. auto.
  - rewrite HP in U2, X. pose proof (heap_min _ _ _ _ U2 X) as M. rewrite !ekey1_alive in M; [|exact AL|auto]. fold (sched_of s root) (sched_of s q) in M. lia.
  - unfold alive, the_request in AL. congruence.
  - contradiction.
  - exfalso. assert (CM : forall j k, (j <= k)%nat -> clk j <= clk k) by (induction 1; [lia|]; specialize (MON m); lia).
    specialize (CM i (m1_clock s) ltac:(lia)). unfold expiration, the_request in NX. lia.
Qed.
Print Assumptions C43_uniform_partial.
(** C42_example meets the hypotheses, with [r] = 1 and [q] = 0 or 1. *)
Example C43_example : let s := fst (m1_run proc_v1 ex_rnd (ex_clk [0; 0; 1; 1; 2; 2]) ex_two) in
  was_sent s 0 /\ alive s 0 /\ ~ answered s 0 /\ reading (ex_clk [0; 0; 1; 1; 2; 2]) s = 2 /\ expiration s 0 = 10 /\ was_sent s 1 /\ alive s 1 /\ ~ answered s 1.
Proof. vm_compute. repeat split; auto; intuition discriminate. Qed.

(** * C44, v1/v2c *)
(** [m] was received as an answer to [r]: some datagram decodes to it, it is a
    Response with the ID and the community of [r]. *)
Definition received_for (V : v12) (evs : list event1) (s : mgr1) (r : nat) (m : message) : Prop :=
  exists d, In (MReceive d) evs /\ message_decode (vp_types V) (ABytes d) = Ok m /\ pdu_cls (m_pdu m) = ResponsePDU /\
    pdu_requestID (m_pdu m) = pdu_requestID (rq_pdu (the_request s r)) /\ m_community m = rq_community (the_request s r).
Definition C44_statement : Prop := forall V rnd clk evs s l r,
  m1_run V rnd clk evs = (s, l) -> In (LOutcome r (ORaised Timeout)) l -> forall m, ~ In (LPushed r m) l.
(** The response comes at 5, wait() is called at 11: Timeout all the same. *)
Definition ex_reply (status : Z) : bytes :=
  match message_encode (mkMessage SNMPv2c [112] (mkPDU ResponsePDU 13 status 0 ex_vbs)) with Ok b => b | Raise _ => [] end.
Definition ex_late : list event1 :=
  [MCall ex_pdu [112] 10 20; MStep 0; MReceive (ex_reply 0); MStep 0; MWait 0; MStep 0; MStep 0].
Theorem C44_refuted : ~ C44_statement.
Proof.
  intros H. set (clk := ex_clk [0; 0; 11]). set (sl := m1_run proc_v2c ex_rnd clk ex_late).
  assert (X : In (LOutcome 0 (ORaised Timeout)) (snd sl)) by (vm_compute; left; reflexivity).
  assert (Y : exists m, In (LPushed 0 m) (snd sl)) by (vm_compute; eexists; right; left; reflexivity). destruct Y as [m Y].
  exact (H _ _ _ _ _ _ _ (surjective_pairing sl) X m Y).
Qed.
Print Assumptions C44_refuted.
(** In every history: what wait() returns or raises, and where it comes from. *)
Theorem C44_outcome_partial : forall V rnd clk evs s l r o, m1_run V rnd clk evs = (s, l) -> In (LOutcome r o) l ->
  match o with
  | OReturned vbs => exists m, In (LPushed r m) l /\ received_for V evs s r m /\ pdu_a (m_pdu m) = 0 /\ vbs = pdu_vbs (m_pdu m)
  | OErrorResponse status index cause => exists m, In (LPushed r m) l /\ received_for V evs s r m /\
      status = pdu_a (m_pdu m) /\ status <> 0 /\ index = pdu_b (m_pdu m) /\ cause = error_cause index (rq_pdu (the_request s r))
  | ORaised Timeout => has_expired clk s r
  | ORaised e => e = AssertionError \/ e = IndexError \/ e = ZeroDivisionError \/ exists q, In (LSendFailed q e) l
  end.
Proof.
  intros V rnd clk evs s l r o E B. pose proof (inv1_run _ _ _ _ _ _ E) as I. destruct (i_outcome _ _ _ _ _ I _ _ B) as [LR O].
  assert (P : forall m, In (LPushed r m) l -> received_for V evs s r m) by (intros m Hm; apply (i_pushed _ _ _ _ _ I) in Hm as (_ & _ & X); exact X).
  destruct o as [vbs|st i c|e]; cbn [outcome_ok] in O.
  - destruct O as (m & A & X & <-). exists m. auto.
  - destruct O as (m & A & <- & N & <- & _ & ->). exists m. auto 8.
  - destruct O as [(-> & X)|[->|[->|[->|(N & q & X)]]]]; auto. destruct e; eauto 6. congruence.
Qed.
Print Assumptions C44_outcome_partial.
(** Once the response is there, a thread that is blocked in wait() needs no
    more than its own three steps. *)
Theorem C44_delivered_partial : forall V rnd clk s n r lim m s1 l1 s2 l2 s3 l3,
  nth_error (m1_tasks s) n = Some (TBlock r lim) -> made s r ->
  rq_response (the_request s r) = Some m -> rq_cb (the_request s r) = true ->
  m1_step V rnd clk s (MStep n) = (s1, l1) -> m1_step V rnd clk s1 (MStep n) = (s2, l2) -> m1_step V rnd clk s2 (MStep n) = (s3, l3) ->
  l1 ++ l2 ++ l3 = [LOutcome r (if pdu_a (m_pdu m) =? 0 then OReturned (pdu_vbs (m_pdu m))
    else OErrorResponse (pdu_a (m_pdu m)) (pdu_b (m_pdu m)) (error_cause (pdu_b (m_pdu m)) (rq_pdu (the_request s r))))].
Proof.
  intros V rnd clk s n r lim m s1 l1 s2 l2 s3 l3 T LR RM CB S1 S2 S3. unfold the_request in *.
  assert (L : length (firstn n (m1_tasks s)) = n) by (apply firstn_length_le; apply Nat.lt_le_incl, nth_error_Some; congruence).
  cbn [m1_step] in S1, S2, S3. unfold run_task in S1, S2, S3. rewrite T in S1. cbn [task1_step task_req] in S1. rewrite RM in S1.
  set (pre := firstn n (m1_tasks s)) in *. set (post := skipn (S n) (m1_tasks s)) in *. clearbody pre post. injection S1 as <- <-.
  assert (NT : forall t', nth_error (pre ++ t' :: post) n = Some t') by (intros t'; rewrite nth_error_app2, L, Nat.sub_diag by lia; reflexivity).
  cbn [m1_tasks app] in S2. rewrite NT in S2. cbn [task1_step task_req m1_reqs m1_tasks] in S2. rewrite RM in S2.
  assert (F1 : forall t', firstn n (pre ++ t' :: post) = pre) by (intros t'; rewrite firstn_app, L, Nat.sub_diag, <- L, firstn_all; cbn; apply app_nil_r).
  assert (F2 : forall t', skipn (S n) (pre ++ t' :: post) = post) by (intros t'; rewrite skipn_app, L, skipn_all2 by lia; replace (S n - n)%nat with 1%nat by lia; reflexivity).
  rewrite F1, F2 in S2. injection S2 as <- <-.
  cbn [m1_tasks app] in S3. rewrite NT in S3. cbn [task1_step task_req m1_reqs m1_tasks] in S3. rewrite F1, F2 in S3.
  unfold close1 in S3. rewrite CB in S3. injection S3 as <- <-. cbn [app]. reflexivity.
Qed.
Print Assumptions C44_delivered_partial.
Definition ex_wait (status : Z) : list event1 :=
  ex_start 10 20 ++ [MStep 0; MReceive (ex_reply status); MStep 1].
Example C44_example : let '(s, l) := m1_run proc_v2c ex_rnd (ex_clk [0]) (ex_wait 0) in
  nth_error (m1_tasks s) 0 = Some (TBlock 0 (Some 10)) /\ made s 0 /\ rq_response (the_request s 0) <> None /\ rq_cb (the_request s 0) = true /\
  snd (m1_run proc_v2c ex_rnd (ex_clk [0]) (ex_wait 0 ++ [MStep 0; MStep 0; MStep 0])) = LOutcome 0 (OReturned ex_vbs) :: l /\
  exists l', snd (m1_run proc_v2c ex_rnd (ex_clk [0]) (ex_wait 5 ++ [MStep 0; MStep 0; MStep 0])) = LOutcome 0 (OErrorResponse 5 0 (Ok (CauseRequest (mkPDU GetRequestPDU 13 0 0 ex_vbs)))) :: l'.
Proof. vm_compute. repeat split; auto; try discriminate. eexists. reflexivity. Qed.
