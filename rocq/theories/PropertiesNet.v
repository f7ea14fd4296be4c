(** PropertiesNet.v -- C75 and C76, SNMPv1/SNMPv2c: what happens when the system
    refuses to send, and managers that share the message processor of an Engine. *)
From Verif Require Import PropertiesMsg PropertiesProc PropertiesMgr PrfMgr1g PropertiesWait.

(** * C75 *)
(** sendRequest(): the system refuses the datagram [w] that would have been sent.
    It raises OSError; everything else is as if [w] had been sent. *)
Theorem C75_first : forall V rnd clk s n q s' t w,
  nth_error (m1_tasks s) n = Some (TSend q) -> m1_step V rnd clk s (MStep n) = (s', [LSent q t false w]) ->
  m1_step V rnd clk s (MFail n) = (s', [LSendFailed q OSError]).
Proof.
  intros V rnd clk s n q s' t w NT. cbn [m1_step]. unfold run_task. rewrite NT. cbn [task1_step].
  destruct (heappush _ _ _ _) as [lq h']. cbn [tick1]. unfold reallySend1. destruct (v12_prepareOutgoing _ _ _ _ _ _ _) as [o x].
  intros E. injection E as <- E. destruct x as [b|e]; cbn [bind sent_log] in *; [reflexivity|discriminate].
Qed.
Print Assumptions C75_first.
(** wait(): the system refuses to send the request [root] again.  OSError is
    raised; [root] has the same next refresh as if it had been sent, and the
    order in which the requests are looked at is not changed. *)
Theorem C75_again : forall V rnd clk evs s l n r root s' t w,
  m1_run V rnd clk evs = (s, l) -> nth_error (m1_tasks s) n = Some (TLocked r) ->
  m1_step V rnd clk s (MStep n) = (s', [LSent root t true w]) ->
  exists s'', m1_step V rnd clk s (MFail n) = (s'', [LSendFailed root OSError; LOutcome r (ORaised OSError)]) /\
    m1_heap s'' = m1_heap s /\
    (forall q, next_refresh s'' q = next_refresh s' q /\ rq_cb (the_request s'' q) = rq_cb (the_request s' q)) /\
    m1_cache s'' = m1_cache s' /\ m1_tasks s'' = firstn n (m1_tasks s) ++ skipn (S n) (m1_tasks s).
Proof.
  intros V rnd clk evs s l n r root s' t w RUN NT. pose proof (inv1_run _ _ _ _ _ _ RUN) as I. cbn [m1_step]. unfold run_task. rewrite NT. cbn [task1_step task_req]. unfold locked1.
  assert (POP : forall s2 a b c, pop1 s2 r = (a, b, c) -> c = [LSent root t true w] -> False).
  { intros s2 a b c. unfold pop1. destruct (heappop _ _ _); intros X; injection X as <- <- <-; discriminate. }
  destruct (m1_heap s) as [|a hp] eqn:MH; [discriminate|].
  destruct (negb _).
  { destruct (pop1 s r) as [[x y] z] eqn:P. intros E. exfalso. injection E as _ E. exact (POP _ _ _ _ P E). }
  destruct (rq_response _).
  { destruct (pop1 s r) as [[x y] z] eqn:P. intros E. exfalso. injection E as _ E. exact (POP _ _ _ _ P E). }
  cbn [tick1]. destruct (sched_refresh _ _) as [[|lim|c]|e]; try discriminate.
  { destruct (pop1 _ r) as [[x y] z] eqn:P. intros E. exfalso. injection E as _ E. exact (POP _ _ _ _ P E). }
  unfold reallySend1. destruct (v12_prepareOutgoing _ _ _ _ _ _ _) as [o x]. cbn [set_req with_cache1 m1_reqs m1_heap m1_cache m1_tasks m1_clock].
  destruct x as [b|e]; cbn [bind]; [|discriminate]. rewrite MH.
  set (lq := put _ _ _). destruct (heapreplace ref_lt1 lq (a :: hp) a) as [[lq' h']|] eqn:HP; [|discriminate].
  intros E. injection E as <- <- _ _. eexists. split; [reflexivity|]. cbn [m1_heap with_heap1 m1_reqs m1_cache fst m1_tasks app]. split; [auto|]. split; [|auto].
  intros q. unfold next_refresh, the_request. cbn [m1_reqs]. destruct (replace1 _ _ _ _ _ _ HP) as (SB & _). destruct (sbr_get _ _ q SB) as (w2 & ->). auto.
Qed.
Print Assumptions C75_again.
(** Where nothing would have been sent, it makes no difference. *)
Theorem C75_otherwise : forall V rnd clk s n s' l', m1_step V rnd clk s (MStep n) = (s', l') ->
  (forall q t again w, ~ In (LSent q t again w) l') -> m1_step V rnd clk s (MFail n) = (s', l').
Proof.
  intros V rnd clk s n s' l'. cbn [m1_step]. unfold run_task. destruct (nth_error (m1_tasks s) n) as [t|]; [|auto].
  destruct t as [r1|r1 m|r1|r1|r1|r1 limit|r1|r1 p]; cbn [task1_step]; auto.
  - destruct (heappush _ _ _ _) as [lq h']. cbn [tick1]. unfold reallySend1. destruct (v12_prepareOutgoing _ _ _ _ _ _ _) as [o x].
    destruct x as [b|e]; cbn [bind sent_log]; [|auto]. intros E N. injection E as <- <-. exfalso. eapply N. now left.
  - unfold locked1. destruct (m1_heap s) as [|a hp] eqn:MH; [auto|]. destruct (negb _); [auto|]. destruct (rq_response _); [auto|].
    cbn [tick1]. destruct (sched_refresh _ _) as [[|lim|c]|e]; auto. unfold reallySend1. destruct (v12_prepareOutgoing _ _ _ _ _ _ _) as [o x].
    destruct x as [b|e]; cbn [bind]; [|auto]. cbn [m1_heap set_req with_cache1]. rewrite MH. cbn [heapreplace].
    intros E N. injection E as <- <-. exfalso. eapply N. now left.
Qed.
Print Assumptions C75_otherwise.
(** In every history: a refusal is told to the caller whose call it was, and to
    nobody else. *)
Theorem C75_reported : forall V rnd clk evs s l x s' l' q,
  m1_run V rnd clk evs = (s, l) -> m1_step V rnd clk s x = (s', l') -> In (LSendFailed q OSError) l' ->
  exists n, x = MFail n /\
    (nth_error (m1_tasks s) n = Some (TSend q) /\ l' = [LSendFailed q OSError] \/
     exists r, nth_error (m1_tasks s) n = Some (TLocked r) /\ l' = [LSendFailed q OSError; LOutcome r (ORaised OSError)]).
Proof.
  intros V rnd clk evs s l x s' l' q RUN E IN. pose proof (inv1_run _ _ _ _ _ _ RUN) as I.
  assert (PO : forall net s2 r0 q0 s3, reallySend1 V rnd net s2 r0 q0 = (s3, Raise OSError) -> net = false).
  { intros net s2 r0 q0 s3. unfold reallySend1, v12_prepareOutgoing. destruct net; [|auto].
    assert (Q : forall m, (do b <- message_encode m; Ok b) <> Raise OSError).
    { intros m. pose proof (quiet_message m) as X. destruct (message_encode m) as [b|e]; cbn [bind]; congruence. }
    destruct (_ =? 0).
    - destruct (cache _ _ _ _) as [c [id|e]] eqn:CE.
      + destruct (negb _); intros Y; injection Y as _ Y; [now apply Q in Y|discriminate].
      + intros Y. injection Y as _ Y. cbn [bind] in Y. unfold cache in CE. apply loop_fail_iff in CE. destruct CE as (CE & _). congruence.
    - intros Y. injection Y as _ Y. now apply Q in Y. }
  assert (RUNS : forall net n, run_task V rnd clk net s n = (s', l') -> net = false /\
    (nth_error (m1_tasks s) n = Some (TSend q) /\ l' = [LSendFailed q OSError] \/
     exists r, nth_error (m1_tasks s) n = Some (TLocked r) /\ l' = [LSendFailed q OSError; LOutcome r (ORaised OSError)])).
  { intros net n. unfold run_task. destruct (nth_error (m1_tasks s) n) as [t|] eqn:NE; [|intros Y; injection Y as <- <-; destruct IN].
    destruct (task1_step V rnd clk net s t) as [[s1 new] l1] eqn:TS. intros Y. injection Y as _ <-.
    assert (POP : forall s2 r0, pop1 s2 r0 = (s1, new, l1) -> False).
    { intros s2 r0. unfold pop1. destruct (heappop _ _ _); intros X; injection X as <- <- <-; [destruct IN|destruct IN as [IN|[]]; discriminate]. }
    destruct t as [r1|r1 m|r1|r1|r1|r1 limit|r1|r1 p]; cbn [task1_step task_req] in TS.
    - destruct (heappush _ _ _ _) as [lq h']. cbn [tick1] in TS. destruct (reallySend1 _ _ _ _ _ _) as [s3 w] eqn:RS. injection TS as <- <- <-.
      destruct IN as [IN|[]]. destruct w as [b|e]; cbn [sent_log] in *; [discriminate|]. injection IN as -> ->. split; [now apply PO in RS|]. left. auto.
    - injection TS as <- <- <-. destruct IN as [IN|[]]; discriminate.
    - cbn [tick1] in TS. destruct (sched_expired _ _); injection TS as <- <- <-; destruct IN.
    - destruct (m1_heap s); injection TS as <- <- <-; [destruct IN as [IN|[]]; discriminate|destruct IN].
    - unfold locked1 in TS. destruct (m1_heap s) as [|root hp]; [injection TS as <- <- <-; destruct IN as [IN|[]]; discriminate|].
      destruct (negb _); [now apply POP in TS|]. destruct (rq_response _); [now apply POP in TS|]. cbn [tick1] in TS. destruct (sched_refresh _ _) as [[|w|c]|e].
      + now apply POP in TS.
      + injection TS as <- <- <-. destruct IN as [IN|[]]; discriminate.
      + destruct (reallySend1 _ _ _ _ _ _) as [s3 w] eqn:RS. destruct w as [b|e].
        * destruct (heapreplace _ _ _ _); injection TS as <- <- <-; destruct IN as [IN|[]]; discriminate.
        * injection TS as <- <- <-. destruct IN as [IN|[IN|[]]]; [|discriminate]. injection IN as -> ->. split; [now apply PO in RS|]. right. exists r1. auto.
      + injection TS as <- <- <-. destruct IN as [IN|[]]; discriminate.
    - destruct (rq_response _); [|destruct limit]; injection TS as <- <- <-; destruct IN.
    - destruct (rq_response _); injection TS as <- <- <-; [destruct IN|destruct IN as [IN|[]]; discriminate].
    - destruct (close1 _ _ _) as [s3 [u|e]]; injection TS as <- <- <-; destruct IN as [IN|[]]; discriminate. }
  destruct x as [p c t per|r|d|r|n|n|p c]; cbn [m1_step] in E.
  - cbn [tick1] in E. injection E as <- <-. destruct IN.
  - destruct (alive1 s r && _); injection E as <- <-; destruct IN.
  - destruct (v12_prepareDataElements _ _ _ _) as [c [[m h]|e]]; injection E as <- <-; destruct IN.
  - destruct (negb _ || _); injection E as <- <-; destruct IN.
  - destruct (RUNS true n E) as (X & _). discriminate.
  - exists n. split; [auto|]. now destruct (RUNS false n E).
  - cbn [tick1] in E. injection E as <- <-. destruct IN.
Qed.
Print Assumptions C75_reported.

(** The claims that do not hold.  wait() raises OSError only if it is its own
    request that could not be sent: *)
Definition C75_own_statement : Prop := forall V rnd clk evs s l r, draws_ok gen_v1 rnd -> regular_calls evs -> m1_run V rnd clk evs = (s, l) ->
  In (LOutcome r (ORaised OSError)) l -> In (LSendFailed r OSError) l.
(** Request 0 (period 20) and request 1 (period 20), both sent; a thread waits for
    request 1 when it is time to send request 0 again, and the system refuses. *)
Definition ex_shared_wait : list event1 :=
  [MCall ex_pdu [112] 100 20; MStep 0; MCall ex_pdu [112] 100 20; MStep 0; MWait 1; MStep 0; MStep 0; MFail 0].
Definition ex_clk75 : nat -> Z := ex_clk [0; 0; 5; 5; 21; 21].
Lemma ex_shared_regular : regular_calls ex_shared_wait.
Proof.
  apply ex_regular64; intros p c; [intros t per|]; unfold ex_shared_wait; cbn [app In]; intros I;
    repeat (destruct I as [I|I]; [first [discriminate I|injection I; intros; subst; auto]|]); destruct I.
Qed.
Theorem C75_own_refuted : ~ C75_own_statement.
Proof.
  intros H. set (sl := m1_run proc_v2c ex_rnd ex_clk75 ex_shared_wait).
  assert (X : In (LOutcome 1 (ORaised OSError)) (snd sl)) by (vm_compute; left; reflexivity).
  assert (N : existsb (fun x => match x with LSendFailed 1 _ => true | _ => false end) (snd sl) = false) by (vm_compute; reflexivity).
  specialize (H _ _ _ _ _ _ _ ex_rnd_ok ex_shared_regular (surjective_pairing sl) X).
  rewrite (proj2 (existsb_exists _ _)) in N; [clear - N; discriminate N|]. exists (LSendFailed 1 OSError). split; [exact H|reflexivity].
Qed.
Print Assumptions C75_own_refuted.
(** After a refusal the order in which requests are looked at is wrong: what C43
    says for equal periods fails.  Request 1 is to be sent again at 25, but the
    thread blocks until 40. *)
Definition C75_order_statement : Prop := forall V rnd clk P evs s l x s' l' r w q, 0 < P -> (forall i, clk i <= clk (S i)) ->
  Forall (uniform_event P) evs -> m1_run V rnd clk evs = (s, l) -> (forall q e, In (LSendFailed q e) l -> e = OSError) ->
  m1_step V rnd clk s x = (s', l') -> In (LBlocked r (Some w)) l' ->
  was_sent s q -> alive s q -> ~ answered s q -> reading clk s < expiration s q ->
  w <= next_refresh s q - reading clk s.
Lemma ex_clk75_mono i : ex_clk75 i <= ex_clk75 (S i).
Proof. unfold ex_clk75, ex_clk. do 6 (destruct i as [|i]; [cbn; lia|]). cbn [nth last]. destruct i; lia. Qed.
Definition ex_later : list event1 := ex_shared_wait ++ [MWait 1; MStep 0; MStep 0].
Theorem C75_order_refuted : ~ C75_order_statement.
Proof.
  intros H. set (sl := m1_run proc_v2c ex_rnd ex_clk75 ex_later). set (sl' := m1_step proc_v2c ex_rnd ex_clk75 (fst sl) (MStep 0)).
  assert (X : In (LBlocked 1 (Some 19)) (snd sl')) by (vm_compute; left; reflexivity).
  assert (U : Forall (uniform_event 20) ex_later).
  { unfold ex_later, ex_shared_wait. cbn [app]. repeat (apply Forall_cons; [first [reflexivity|exact Logic.I]|]). apply Forall_nil. }
  assert (N : forallb (fun x => match x with LSendFailed _ e => exc_eqb e OSError | _ => true end) (snd sl) = true) by (vm_compute; reflexivity).
  assert (N' : forall q e, In (LSendFailed q e) (snd sl) -> e = OSError).
  { intros q e IN. apply (proj1 (forallb_forall _ _) N) in IN. clear - IN. unfold exc_eqb in IN. destruct (exc_eq_dec e OSError); [assumption|discriminate IN]. }
  assert (A : was_sent (fst sl) 1 /\ alive (fst sl) 1 /\ ~ answered (fst sl) 1 /\ reading ex_clk75 (fst sl) < expiration (fst sl) 1).
  { clear H X N N'. vm_compute. repeat split; auto. intuition discriminate. }
  destruct A as (A1 & A2 & A3 & A4).
  pose proof (H _ _ _ 20 _ _ _ _ _ _ 1%nat 19 1%nat eq_refl ex_clk75_mono U (surjective_pairing sl) N' (surjective_pairing sl') X A1 A2 A3 A4) as Y.
  vm_compute in Y. exact (Y eq_refl).
Qed.
Print Assumptions C75_order_refuted.
(** The hypotheses of C75_first and C75_again are met; and after OSError the
    request is still open: wait() may be called again, and returns the answer. *)
Example C75_example :
  (let s := fst (m1_run proc_v2c ex_rnd ex_clk75 (firstn 1 ex_shared_wait)) in
   nth_error (m1_tasks s) 0 = Some (TSend 0) /\ exists s' w, m1_step proc_v2c ex_rnd ex_clk75 s (MStep 0) = (s', [LSent 0 0 false w])) /\
  (let s := fst (m1_run proc_v2c ex_rnd ex_clk75 (firstn 7 ex_shared_wait)) in
   nth_error (m1_tasks s) 0 = Some (TLocked 1) /\ exists s' w, m1_step proc_v2c ex_rnd ex_clk75 s (MStep 0) = (s', [LSent 0 21 true w])) /\
  exists m l, snd (m1_run proc_v2c ex_rnd ex_clk75 (ex_later ++ [MStep 0; MReceive (ex_answer 26); MStep 1; MStep 0; MStep 0; MStep 0])) =
    LOutcome 1 (OReturned ex_vbs) :: LPushed 1 m :: LBlocked 1 (Some 19) :: LOutcome 1 (ORaised OSError) :: LSendFailed 0 OSError :: l.
Proof.
  split; [|split].
  - split; [vm_compute; reflexivity|]. do 2 eexists. vm_compute. reflexivity.
  - split; [vm_compute; reflexivity|]. do 2 eexists. vm_compute. reflexivity.
  - do 2 eexists. vm_compute. reflexivity.
Qed.

(** * C76 *)
(** A request -- of this manager or of another one that shares the message
    processor -- that has been sent and not closed. *)
Definition is_open (s : mgr1) (r : nat) : Prop := rq_cb (the_request s r) = true.
(** [d] is an answer to [r]. *)
Definition an_answer (V : v12) (s : mgr1) (r : nat) (d : bytes) (m : message) : Prop :=
  message_decode (vp_types V) (ABytes d) = Ok m /\ pdu_cls (m_pdu m) = ResponsePDU /\
  pdu_requestID (m_pdu m) = pdu_requestID (rq_pdu (the_request s r)) /\ m_community m = rq_community (the_request s r).
(** In every history every open request gets its answers, and no other. *)
Theorem C76_answers : forall V rnd clk evs s l r d m, draws_ok gen_v1 rnd -> m1_run V rnd clk evs = (s, l) -> is_open s r ->
  (v12_prepareDataElements V (alive1 s) (m1_cache s) d = (m1_cache s, Ok (m, r)) <-> an_answer V s r d m).
Proof.
  intros V rnd clk evs s l r d m HR E O. pose proof (keep1_run _ _ _ HR _ _ _ E) as K. unfold is_open, the_request in O.
  pose proof (k_held _ _ K r O) as H.
  assert (AL : alive1 s r = true). { unfold alive1. destruct (rq_alive (get1 (m1_reqs s) r)) eqn:A; [auto|]. rewrite (k_dead _ _ K r A) in O. discriminate. }
  split.
  - intros P. destruct (proj1 (C25_exact _ _ _ _ _ _ _) P) as (_ & D & C & e & R & HE & _ & EC). split; [exact D|]. split; [exact C|].
    unfold retrieve in R. destruct (dict_get Z.eqb (ca_out (m1_cache s)) (pdu_requestID (m_pdu m))) as [e'|] eqn:G; [|discriminate]. injection R as ->.
    pose proof (inv1_run _ _ _ _ _ _ E) as I. destruct (i_cache _ _ _ _ _ I (pdu_requestID (m_pdu m)) e) as (_ & _ & X & Y); [apply zget_in; exact G|].
    unfold the_request. subst r. rewrite X, Y. auto.
  - intros (D & C & ID & CO). apply C25_exact. split; [auto|]. split; [auto|]. split; [auto|]. unfold the_request in *. exists (mkE1 r (rq_community (get1 (m1_reqs s) r))).
    unfold retrieve. rewrite ID, H. auto.
Qed.
Print Assumptions C76_answers.
(** Open requests have different request IDs, whichever manager they are of. *)
Theorem C76_distinct : forall V rnd clk evs s l r1 r2, draws_ok gen_v1 rnd -> m1_run V rnd clk evs = (s, l) -> is_open s r1 -> is_open s r2 ->
  pdu_requestID (rq_pdu (the_request s r1)) = pdu_requestID (rq_pdu (the_request s r2)) -> r1 = r2.
Proof.
  intros V rnd clk evs s l r1 r2 HR E O1 O2 ID. pose proof (keep1_run _ _ _ HR _ _ _ E) as K. unfold is_open, the_request in *.
  pose proof (k_held _ _ K r1 O1) as H1. pose proof (k_held _ _ K r2 O2) as H2. rewrite ID in H1. rewrite H1 in H2. now injection H2 as ->.
Qed.
Print Assumptions C76_distinct.
(** A request stays open, with its ID and its community, until wait() for it is
    over or it is collected: nothing that happens to other requests, no datagram
    and no other manager can close it. *)
Theorem C76_open : forall V rnd clk evs s l x s' l' r, m1_run V rnd clk evs = (s, l) -> m1_step V rnd clk s x = (s', l') -> is_open s r ->
  is_open s' r /\ rq_pdu (the_request s' r) = rq_pdu (the_request s r) /\ rq_community (the_request s' r) = rq_community (the_request s r) \/
  ~ alive s' r \/ exists o, In (LOutcome r o) l'.
Proof.
  intros V rnd clk evs s l x s' l' r RUN E O. pose proof (inv1_run _ _ _ _ _ _ RUN) as I. unfold is_open, the_request in *.
  assert (LR : (r < length (m1_reqs s))%nat).
  { destruct (le_lt_dec (length (m1_reqs s)) r) as [L|L]; [|auto]. rewrite get1_out in O by auto. discriminate. }
  pose proof (i_cb _ _ _ _ _ I r O) as ID.
  assert (SAME : vw (get1 (m1_reqs s') r) = vw (get1 (m1_reqs s) r) -> rq_cb (get1 (m1_reqs s') r) = true /\ rq_pdu (get1 (m1_reqs s') r) = rq_pdu (get1 (m1_reqs s) r) /\
    rq_community (get1 (m1_reqs s') r) = rq_community (get1 (m1_reqs s) r)).
  { unfold vw. intros X. injection X as X1 X2 X3 X4. rewrite X3. auto. }
  destruct (step_change V rnd clk _ _ _ _ _ _ I E) as [? ? H|? ? ? ? ? ? ? ? H|r0 o w q L0 AL P ? H [? H2]|r0 a q L0 CB WHY ? H [? H2]|r0 q L0 CB ? H [? H2]|? ? ? ? ? ? H|p cm sm o w ? ? ? ? HM ? ? ? [? H2]].
  - left. now apply SAME.
  - left. apply SAME, H. lia.
  - left. destruct (Nat.eq_dec r r0) as [->|N]; [|now apply SAME, H2]. unfold v12_prepareOutgoing in P. subst q.
    destruct (Z.eqb_spec (pdu_requestID (rq_pdu (get1 (m1_reqs s) r0))) 0); [easy|]. injection P as <- <-. unfold vw in H. injection H as Hx Hy Hz _. rewrite Hz, O. auto.
  - destruct (Nat.eq_dec r r0) as [->|N]; [|left; now apply SAME, H2]. right. destruct WHY as [->|(n & p & RU & NT)]; [|right; eapply close_logs; eauto].
    left. unfold vw in H. injection H as _ _ _ HD. unfold alive, the_request. rewrite HD. discriminate.
  - left. destruct (Nat.eq_dec r r0) as [->|N]; [|now apply SAME, H2]. unfold q in CB. congruence.
  - left. now apply SAME.
  - left. apply SAME. rewrite H2, HM by lia. reflexivity.
Qed.
Print Assumptions C76_open.
(** Another manager that sends a request disturbs nothing. *)
Theorem C76_other : forall V rnd clk s p community s' l', m1_step V rnd clk s (MOther p community) = (s', l') ->
  l' = [] /\ m1_heap s' = m1_heap s /\ m1_tasks s' = m1_tasks s /\ forall r, made s r -> made s' r /\ the_request s' r = the_request s r.
Proof.
  intros V rnd clk s p community s' l' E. destruct (other_spec V rnd clk _ _ _ _ _ E) as (q' & -> & RQ & HP & TK & _).
  split; [auto|]. split; [auto|]. split; [auto|]. intros r M. unfold made, the_request in *. rewrite RQ, app_length. split; [cbn; lia|]. now apply get1_old.
Qed.
Print Assumptions C76_other.
(** Non-trivial instance: a request of each of two managers, both open, both
    with the answer at hand. *)
Example C76_example : let evs := [MCall ex_pdu [112] 100 20; MStep 0; MOther ex_pdu [112]] in
  let s := fst (m1_run proc_v2c ex_rnd (ex_clk [0]) evs) in
  is_open s 0 /\ is_open s 1 /\ pdu_requestID (rq_pdu (the_request s 0)) = 13 /\ pdu_requestID (rq_pdu (the_request s 1)) = 26 /\
  exists m, an_answer proc_v2c s 1 (ex_answer 26) m.
Proof. vm_compute. do 4 (split; [reflexivity|]). eexists. repeat split. Qed.
