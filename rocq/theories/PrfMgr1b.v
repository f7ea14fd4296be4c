(** PrfMgr1b.v -- the SNMPv1/SNMPv2c manager: schedules, waits, heap order. *)
From Verif Require Export PrfMgr1.
From Coq Require Import Permutation.

Definition sched_of (s : mgr1) (r : nat) : sched := rq_sched (get1 (m1_reqs s) r).
Definition sends1 (r : nat) (x : log1) : Prop :=
  match x with LSent r' _ _ _ | LSendFailed r' _ => r' = r | _ => False end.

Lemma sched_resend_iff c now c' : 0 < sc_period c ->
  sched_refresh c now = Ok (RResend c') <->
  sc_next c <= now /\ now < sc_expiration c /\
  exists k, 0 <= k /\ now <= sc_next c + k * sc_period c /\ sc_next c + k * sc_period c < now + sc_period c /\
    c' = set_next c (sc_next c + k * sc_period c).
Proof.
  intros P. unfold sched_refresh. set (t := sc_next c - now).
  destruct (Z.leb_spec t 0) as [T|T]; [|split; [discriminate|intros (A & _); lia]].
  destruct (Z.leb_spec (sc_expiration c) now) as [X|X]; [split; [discriminate|intros (_ & A & _); lia]|].
  destruct (Z.eqb_spec (sc_period c) 0) as [Z0|Z0]; [lia|].
  pose proof (Z.div_mod t (sc_period c) Z0) as D. pose proof (Z.mod_pos_bound t (sc_period c) P) as M.
  assert (0 <= - (t / sc_period c)) by (assert (t / sc_period c < 1) by (apply Z.div_lt_upper_bound; lia); lia).
  split.
  - intros E. injection E as <-. split; [lia|]. split; [lia|]. exists (- (t / sc_period c)). split; [auto|].
    split; [nia|]. split; [nia|]. auto.
  - intros (_ & _ & k & K0 & K1 & K2 & ->). do 3 f_equal. f_equal.
    assert (- k = t / sc_period c); [|lia]. apply (Z.div_unique t (sc_period c) (- k) (t + k * sc_period c)); lia.
Qed.

(** The event lets task [n] run. *)
Definition runs1 (x : event1) (n : nat) : Prop := x = MStep n \/ x = MFail n.

Section Mgr1b.
  Context (V : v12) (rnd : nat -> Z) (clk : nat -> Z).
  Notation m1_step := (m1_step V rnd clk). Notation task1_step := (task1_step V rnd clk).
  Notation reallySend1 := (reallySend1 V rnd). Notation inv1 := (inv1 V clk).

  Lemma m1_run_snoc evs x : m1_run V rnd clk (evs ++ [x]) =
    let '(s, l) := m1_run V rnd clk evs in let '(s', l') := m1_step s x in (s', rev l' ++ l).
  Proof. unfold m1_run. rewrite fold_left_app. cbn [fold_left]. destruct (fold_left _ evs _) as [s l]. reflexivity. Qed.

  Lemma sbr_sched l l' r : sbr l l' -> rq_sched (get1 l' r) = rq_sched (get1 l r).
  Proof. intros S. destruct (sbr_get _ _ r S) as [w ->]. reflexivity. Qed.
  Lemma pop1_sched s r s' new l' r' : pop1 s r = (s', new, l') ->
    (forall q, rq_sched (get1 (m1_reqs s') q) = rq_sched (get1 (m1_reqs s) q)) /\ (forall x, In x l' -> ~ sends1 r' x).
  Proof.
    unfold pop1. destruct (m1_heap s) as [|a t].
    - cbn [heappop]. intros X. injection X as <- <- <-. split; [auto|]. intros x [<-|[]] [].
    - destruct (heappop ref_lt1 (m1_reqs s) (a :: t)) as [[lq h]|] eqn:P; intros X; injection X as <- <- <-.
      + destruct (pop1_spec _ _ _ _ _ P) as (SB & _). split; [|contradiction]. intros q. now apply sbr_sched.
      + split; [auto|]. intros x [<-|[]] [].
  Qed.

  (** A request of another manager. *)
  Lemma other_spec s p community s' l' : m1_step s (MOther p community) = (s', l') ->
    exists q', l' = [] /\ m1_reqs s' = m1_reqs s ++ [q'] /\ m1_heap s' = m1_heap s /\ m1_tasks s' = m1_tasks s /\ m1_clock s' = S (m1_clock s) /\
      rq_sched q' = sched_new (clk (m1_clock s)) 0 1 /\ rq_response q' = None /\ rq_alive q' = true /\ rq_community q' = community.
  Proof.
    cbn [ManagerV1.m1_step tick1 m1_cache m1_reqs m1_heap m1_tasks m1_clock]. set (q := mkReq1 _ _ _ _ _ _ _). set (s0 := mkMgr1 _ _ _ _ _).
    destruct (reallySend1 true s0 (length (m1_reqs s)) q) as [s1 w] eqn:RS. cbn [fst]. intros E. injection E as <- <-.
    destruct (reallySend1_spec V rnd clk _ _ _ _ _ _ RS) as (q' & Q1 & Q2 & Q3 & Q4 & Q5 & Q6 & Q7 & Q8 & Q9 & _); [discriminate|].
    exists q'. split; [auto|]. split; [|cbn in *; rewrite Q2, Q3, Q4, Q5, Q6, Q7, Q9; auto 8].
    rewrite Q1. cbn [s0 m1_reqs]. clear. induction (m1_reqs s) as [|a l IH]; [reflexivity|]. cbn [length app put]. now rewrite IH.
  Qed.
  Lemma get1_old l q r : (r < length l)%nat -> get1 (l ++ [q]) r = get1 l r.
  Proof. intros H. rewrite get1_app. destruct (Nat.eqb_spec r (length l)); [lia|auto]. Qed.

  (** What one step does to the schedule of a request. *)
  Lemma run_sched net evs s l n s' l' : inv1 evs s l -> run_task V rnd clk net s n = (s', l') -> forall r, (r < length (m1_reqs s))%nat ->
    (sched_of s' r = sched_of s r /\ forall y, In y l' -> ~ sends1 r y) \/
    (exists w, nth_error (m1_tasks s) n = Some (TSend r) /\
       l' = [sent_log r (clk (m1_clock s)) false w] /\ sched_of s' r = sched_send (sched_of s r) (clk (m1_clock s))) \/
    (exists o w, nth_error (m1_tasks s) n = Some (TLocked o) /\
       rq_alive (get1 (m1_reqs s) r) = true /\ rq_response (get1 (m1_reqs s) r) = None /\
       sched_refresh (sched_of s r) (clk (m1_clock s)) = Ok (RResend (sched_of s' r)) /\
       l' = sent_log r (clk (m1_clock s)) true w :: match w with Ok _ => [] | Raise e => [LOutcome o (ORaised e)] end).
  Proof.
    intros I E r LR. unfold run_task in E.
    destruct (nth_error (m1_tasks s) n) as [t|] eqn:NE; [|injection E as <- <-; left; split; [auto|contradiction]].
    destruct (task1_step net s t) as [[s1 new] l1] eqn:TS. injection E as <- <-. unfold sched_of. cbn [m1_reqs].
    pose proof (i_tasks _ _ _ _ _ I _ (nth_error_In _ _ NE)) as TOK. apply task_ok_req in TOK as [LT AL].
    destruct t as [r1|r1 m|r1|r1|r1|r1 limit|r1|r1 p]; unfold ManagerV1.task1_step in TS; cbn [task_req] in *.
    + destruct (heappush ref_lt1 (m1_reqs s) (m1_heap s) r1) as [lq h'] eqn:HPE. destruct (push1 _ _ _ _ _ HPE) as (SB & PM & _).
      cbn [with_heap1 tick1 fst snd m1_cache m1_reqs m1_heap m1_tasks m1_clock] in TS.
      set (now := clk (m1_clock s)) in *. set (s2 := mkMgr1 (m1_cache s) lq h' (m1_tasks s) (S (m1_clock s))) in *.
      destruct (reallySend1 net s2 r1 _) as [s3 w] eqn:RS. injection TS as <- <- <-.
      assert (LL : length lq = length (m1_reqs s)) by apply SB.
      destruct (reallySend1_spec V rnd clk _ _ _ _ _ _ RS) as (q' & Q1 & Q2 & Q3 & Q4 & Q5 & Q6 & _).
      { destruct (sbr_get _ _ r1 SB) as [w0 Q0]. rewrite Q0. apply (i_cb _ _ _ _ _ I). }
      cbn [s2 m1_reqs] in Q1. rewrite Q1. destruct (Nat.eq_dec r1 r) as [<-|N].
      * right. left. exists w. split; [auto|]. split; [auto|]. rewrite get1_put_same by lia. rewrite Q6. cbn [with_sched1 rq_sched].
        now rewrite (sbr_sched _ _ _ SB).
      * left. rewrite get1_put_other by auto. rewrite (sbr_sched _ _ _ SB). split; [auto|]. intros y [<-|[]]. unfold sent_log. destruct w; cbn; congruence.
    + injection TS as <- <- <-. left. cbn [set_req m1_reqs]. split; [|intros y [<-|[]] []].
      destruct (Nat.eq_dec r1 r) as [<-|N]; [now rewrite get1_put_same by auto|now rewrite get1_put_other by auto].
    + cbn [tick1] in TS. left. destruct (sched_expired _ _); injection TS as <- <- <-; (split; [auto|contradiction]).
    + left. destruct (m1_heap s); injection TS as <- <- <-; (split; [auto|]); [intros y [<-|[]] []|contradiction].
    + unfold locked1 in TS. destruct (m1_heap s) as [|root hp] eqn:HP.
      { injection TS as <- <- <-. left. split; [auto|]. intros y [<-|[]] []. }
      destruct (rq_alive (get1 (m1_reqs s) root)) eqn:AR; cbn [negb] in TS; [|destruct (pop1_sched _ _ _ _ _ r TS) as [PA PB]; left; split; [apply PA|exact PB]].
      destruct (rq_response (get1 (m1_reqs s) root)) as [m0|] eqn:RR; [destruct (pop1_sched _ _ _ _ _ r TS) as [PA PB]; left; split; [apply PA|exact PB]|].
      cbn [tick1] in TS. set (now := clk (m1_clock s)) in *. set (s2 := mkMgr1 (m1_cache s) _ _ (m1_tasks s) (S (m1_clock s))) in *.
      destruct (sched_refresh (rq_sched (get1 (m1_reqs s) root)) now) as [[|w|c]|e] eqn:SR.
      * destruct (pop1_sched _ _ _ _ _ r TS) as [PA PB]; left; split; [apply PA|exact PB].
      * injection TS as <- <- <-. left. split; [auto|]. intros y [<-|[]] [].
      * destruct (reallySend1 net s2 root _) as [s3 w] eqn:RS.
        assert (LRO : (root < length (m1_reqs s))%nat) by (apply (i_heap _ _ _ _ _ I); rewrite HP; now left).
        destruct (reallySend1_spec V rnd clk _ _ _ _ _ _ RS) as (q' & Q1 & Q2 & Q3 & Q4 & Q5 & Q6 & _).
        { apply (i_cb _ _ _ _ _ I). }
        change (m1_reqs s2) with (m1_reqs s) in Q1. change (rq_sched (with_sched1 (get1 (m1_reqs s) root) c)) with c in Q6.
        assert (FIN : (forall q, rq_sched (get1 (m1_reqs s1) q) = rq_sched (get1 (m1_reqs s3) q)) /\
                      l1 = sent_log root now true w :: match w with Ok _ => [] | Raise e => [LOutcome r1 (ORaised e)] end).
        { destruct w as [b|e].
          - rewrite Q2 in TS. change (m1_heap s2) with (m1_heap s) in TS. rewrite HP in TS. destruct (heapreplace ref_lt1 (m1_reqs s3) (root :: hp) root) as [[lq h']|] eqn:HR; [|discriminate].
            injection TS as <- <- <-. destruct (replace1 _ _ _ _ _ _ HR) as [SB PM]. split; [|auto]. intros q. now apply sbr_sched.
          - injection TS as <- <- <-. auto. }
        destruct FIN as [A ->]. rewrite A, Q1. destruct (Nat.eq_dec root r) as [<-|N].
        -- right. right. exists r1, w. rewrite get1_put_same by auto. rewrite Q6. auto 6.
        -- left. rewrite get1_put_other by auto. split; [auto|]. intros y [<-|Y]; [unfold sent_log; destruct w; cbn; auto|].
           destruct w; [destruct Y|]. destruct Y as [<-|[]]. cbn. auto.
      * injection TS as <- <- <-. left. split; [auto|]. intros y [<-|[]] [].
    + left. destruct (rq_response (get1 (m1_reqs s) r1)) as [m|]; [|destruct limit]; injection TS as <- <- <-; (split; [auto|contradiction]).
    + left. destruct (rq_response (get1 (m1_reqs s) r1)) as [m|]; injection TS as <- <- <-; (split; [auto|]); [contradiction|intros y [<-|[]] []].
    + left. unfold close1 in TS. destruct (rq_cb (get1 (m1_reqs s) r1)); injection TS as <- <- <-; cbn [set_req with_cache1 m1_reqs]; (split; [|intros y [<-|[]] []]); [|auto].
      destruct (Nat.eq_dec r1 r) as [<-|N]; [now rewrite get1_put_same by auto|now rewrite get1_put_other by auto].
  Qed.
  Lemma step_sched evs s l x s' l' : inv1 evs s l -> m1_step s x = (s', l') -> forall r, (r < length (m1_reqs s))%nat ->
    (sched_of s' r = sched_of s r /\ forall y, In y l' -> ~ sends1 r y) \/
    (exists n w, runs1 x n /\ nth_error (m1_tasks s) n = Some (TSend r) /\
       l' = [sent_log r (clk (m1_clock s)) false w] /\ sched_of s' r = sched_send (sched_of s r) (clk (m1_clock s))) \/
    (exists n o w, runs1 x n /\ nth_error (m1_tasks s) n = Some (TLocked o) /\
       rq_alive (get1 (m1_reqs s) r) = true /\ rq_response (get1 (m1_reqs s) r) = None /\
       sched_refresh (sched_of s r) (clk (m1_clock s)) = Ok (RResend (sched_of s' r)) /\
       l' = sent_log r (clk (m1_clock s)) true w :: match w with Ok _ => [] | Raise e => [LOutcome o (ORaised e)] end).
  Proof.
    intros I E r LR.
    assert (NIL : l' = [] -> forall y, In y l' -> ~ sends1 r y) by (intros -> y []).
    destruct x as [p community timeout period|r0|d|r0|n|n|p community];
      [..|apply other_spec in E as (q' & -> & RQ & _); left; split; [unfold sched_of; now rewrite RQ, get1_old|contradiction]]; cbn [ManagerV1.m1_step] in E.
    - cbn [tick1 m1_cache m1_reqs m1_heap m1_tasks m1_clock] in E. injection E as <- <-. left. split; [|contradiction].
      unfold sched_of. cbn [add_task m1_reqs]. rewrite get1_app. destruct (Nat.eqb_spec r (length (m1_reqs s))); [lia|auto].
    - left. destruct (alive1 s r0 && negb _); injection E as <- <-; (split; [reflexivity|contradiction]).
    - left. destruct (v12_prepareDataElements V (alive1 s) (m1_cache s) d) as [c [[m h]|e]]; injection E as <- <-; (split; [reflexivity|contradiction]).
    - left. cbv zeta in E. destruct (negb _ || _); [injection E as <- <-; split; [auto|contradiction]|].
      unfold close1 in E. cbn [rq_cb] in E. unfold sched_of. set (q := get1 (m1_reqs s) r0) in *.
      destruct (rq_cb q); injection E as <- <-; (split; [|contradiction]); cbn [fst set_req with_cache1 m1_reqs]; rewrite ?put_put;
        (destruct (Nat.eq_dec r0 r) as [<-|N]; [rewrite get1_put_same by auto; reflexivity|now rewrite get1_put_other by auto]).
    - destruct (run_sched _ _ _ _ _ _ _ I E r LR) as [X|[(w & X)|(o & w & X)]]; [auto|right; left; exists n, w|right; right; exists n, o, w]; (split; [now left|auto]).
    - destruct (run_sched _ _ _ _ _ _ _ I E r LR) as [X|[(w & X)|(o & w & X)]]; [auto|right; left; exists n, w|right; right; exists n, o, w]; (split; [now right|auto]).
  Qed.

  (** When a thread blocks. *)
  Lemma run_blocked net s n s' l' o lim : run_task V rnd clk net s n = (s', l') -> In (LBlocked o lim) l' ->
    l' = [LBlocked o lim] /\ m1_reqs s' = m1_reqs s /\ m1_heap s' = m1_heap s /\
      ((nth_error (m1_tasks s) n = Some (TRefresh o) /\ m1_heap s = [] /\ lim = None /\ m1_clock s' = m1_clock s) \/
       (nth_error (m1_tasks s) n = Some (TLocked o) /\ exists root hp, m1_heap s = root :: hp /\
        rq_alive (get1 (m1_reqs s) root) = true /\ rq_response (get1 (m1_reqs s) root) = None /\
        0 < sc_next (sched_of s root) - clk (m1_clock s) /\
        lim = Some (sc_next (sched_of s root) - clk (m1_clock s)) /\ m1_clock s' = S (m1_clock s))).
  Proof.
    intros E B. unfold run_task in E.
    destruct (nth_error (m1_tasks s) n) as [t|] eqn:NE; [|injection E as <- <-; destruct B].
    destruct (task1_step net s t) as [[s1 new] l1] eqn:TS. injection E as <- <-. cbn [m1_reqs m1_heap m1_clock]. 
    assert (POP : forall s2 r, pop1 s2 r = (s1, new, l1) -> False).
    { intros s2 r. unfold pop1. destruct (heappop _ _ _); intros X; injection X as <- <- <-; [destruct B|]. destruct B as [B|[]]; discriminate. }
    destruct t as [r1|r1 m|r1|r1|r1|r1 limit|r1|r1 p]; unfold ManagerV1.task1_step in TS; cbn [task_req] in *.
    + destruct (heappush _ _ _ _) as [lq h']. cbn [tick1] in TS. destruct (reallySend1 _ _ _ _) as [s3 w]. injection TS as <- <- <-.
      destruct B as [B|[]]. unfold sent_log in B. destruct w; discriminate.
    + injection TS as <- <- <-. destruct B as [B|[]]; discriminate.
    + cbn [tick1] in TS. destruct (sched_expired _ _); injection TS as <- <- <-; destruct B.
    + destruct (m1_heap s) eqn:HP; injection TS as <- <- <-; [|destruct B]. destruct B as [B|[]]. injection B as -> <-. auto 8.
    + unfold locked1 in TS. destruct (m1_heap s) as [|root hp] eqn:HP.
      { injection TS as <- <- <-. destruct B as [B|[]]; discriminate. }
      destruct (rq_alive (get1 (m1_reqs s) root)) eqn:AR; cbn [negb] in TS; [|destruct (POP _ _ TS)].
      destruct (rq_response (get1 (m1_reqs s) root)) as [m0|] eqn:RR; [destruct (POP _ _ TS)|].
      cbn [tick1] in TS. set (now := clk (m1_clock s)) in *.
      destruct (sched_refresh (rq_sched (get1 (m1_reqs s) root)) now) as [[|w|c]|e] eqn:SR.
      * destruct (POP _ _ TS).
      * injection TS as <- <- <-. destruct B as [B|[]]. injection B as -> <-. split; [auto|]. split; [auto|]. split; [cbn; auto|]. right. split; [auto|].
        exists root, hp. unfold sched_refresh in SR. destruct (Z.leb_spec (sc_next (rq_sched (get1 (m1_reqs s) root)) - now) 0) as [X|X].
        { destruct (_ <=? now); [discriminate|]. destruct (_ =? 0); discriminate. }
        injection SR as <-. unfold sched_of. auto 8.
      * destruct (reallySend1 _ _ _ _) as [s3 w]. destruct w as [b|e].
        -- destruct (heapreplace _ _ _ _); injection TS as <- <- <-; (destruct B as [B|[]]; discriminate).
        -- injection TS as <- <- <-. destruct B as [B|[B|[]]]; discriminate.
      * injection TS as <- <- <-. destruct B as [B|[]]; discriminate.
    + destruct (rq_response (get1 (m1_reqs s) r1)) as [m|]; [|destruct limit]; injection TS as <- <- <-; destruct B.
    + destruct (rq_response (get1 (m1_reqs s) r1)) as [m|]; injection TS as <- <- <-; [destruct B|]. destruct B as [B|[]]; discriminate.
    + unfold close1 in TS. destruct (rq_cb (get1 (m1_reqs s) r1)); injection TS as <- <- <-; (destruct B as [B|[]]; discriminate).
  Qed.
  Lemma step_blocked s x s' l' o lim : m1_step s x = (s', l') -> In (LBlocked o lim) l' ->
    exists n, runs1 x n /\ l' = [LBlocked o lim] /\ m1_reqs s' = m1_reqs s /\ m1_heap s' = m1_heap s /\
      ((nth_error (m1_tasks s) n = Some (TRefresh o) /\ m1_heap s = [] /\ lim = None /\ m1_clock s' = m1_clock s) \/
       (nth_error (m1_tasks s) n = Some (TLocked o) /\ exists root hp, m1_heap s = root :: hp /\
        rq_alive (get1 (m1_reqs s) root) = true /\ rq_response (get1 (m1_reqs s) root) = None /\
        0 < sc_next (sched_of s root) - clk (m1_clock s) /\
        lim = Some (sc_next (sched_of s root) - clk (m1_clock s)) /\ m1_clock s' = S (m1_clock s))).
  Proof.
    intros E B. destruct x as [p community timeout period|r0|d|r0|n|n|p community];
      [..|apply other_spec in E as (q' & -> & _); destruct B]; cbn [ManagerV1.m1_step] in E.
    - cbn [tick1] in E. injection E as <- <-. destruct B.
    - destruct (alive1 s r0 && negb _); injection E as <- <-; destruct B.
    - destruct (v12_prepareDataElements V (alive1 s) (m1_cache s) d) as [c [[m h]|e]]; injection E as <- <-; destruct B.
    - cbv zeta in E. destruct (negb _ || _); [injection E as <- <-; destruct B|]. injection E as <- <-. destruct B.
    - exists n. split; [now left|]. eapply run_blocked; eauto.
    - exists n. split; [now right|]. eapply run_blocked; eauto.
  Qed.

  (** * Requests that all have the same period *)
  Definition uniform_event (P : Z) (x : event1) : Prop :=
    match x with MCall _ _ _ period => period = P | MDie _ => False | _ => True end.
  Record unif (P : Z) (s : mgr1) : Prop := mkUnif {
    u_req : forall r, In r (m1_heap s ++ pending1 (m1_tasks s)) -> sc_period (sched_of s r) = P /\ rq_alive (get1 (m1_reqs s) r) = true;
    u_order : ordered1 (m1_reqs s) (m1_heap s);
    u_key : forall r, In r (m1_heap s) -> sc_next (sched_of s r) <= clk (m1_clock s) + P;
    u_pending : forall r, In r (pending1 (m1_tasks s)) -> sc_next (sched_of s r) = sc_expiration (sched_of s r)
  }.
  Lemma ekey1_alive l r : rq_alive (get1 l r) = true -> ekey1 l r = sc_next (rq_sched (get1 l r)).
  Proof. intros A. unfold ekey1, live_key1. now rewrite A. Qed.
  Lemma ordered1_ext l l' h : (forall r, In r h -> ekey1 l' r = ekey1 l r) -> ordered1 l h -> ordered1 l' h.
  Proof. intros X O j J0 PJ p c HP HC. rewrite !X by (eapply nth_error_In; eauto). now apply (O j). Qed.

  (** A step that leaves the heap and the schedules alone. *)
  Lemma unif_light P s s' : unif P s -> (forall i, clk i <= clk (S i)) ->
    (forall r, In r (m1_heap s) -> (r < length (m1_reqs s))%nat) -> (forall r, In r (pending1 (m1_tasks s)) -> (r < length (m1_reqs s))%nat) ->
    length (m1_reqs s') = length (m1_reqs s) ->
    (forall r, (r < length (m1_reqs s))%nat -> sched_of s' r = sched_of s r /\ rq_alive (get1 (m1_reqs s') r) = rq_alive (get1 (m1_reqs s) r)) ->
    m1_heap s' = m1_heap s -> (m1_clock s' = m1_clock s \/ m1_clock s' = S (m1_clock s)) ->
    incl (pending1 (m1_tasks s')) (pending1 (m1_tasks s)) -> unif P s'.
  Proof.
    intros [U1 U2 U3 U4] MON IH IP LL G HP CL PD. constructor.
    - intros r Hr. rewrite HP in Hr.
      assert (X : In r (m1_heap s ++ pending1 (m1_tasks s))) by (apply in_app_iff in Hr as [Hr|Hr]; apply in_app_iff; auto).
      destruct (G r) as [-> ->]; [apply in_app_iff in X as [X|X]; auto|auto].
    - rewrite HP. eapply ordered1_ext; [|exact U2]. intros r Hr. destruct (G r (IH r Hr)) as [A B]. unfold sched_of in A.
      assert (X : In r (m1_heap s ++ pending1 (m1_tasks s))) by (apply in_app_iff; auto).
      rewrite !ekey1_alive; [now rewrite A|now apply U1|rewrite B; now apply U1].
    - intros r Hr. rewrite HP in Hr. destruct (G r (IH r Hr)) as [-> _]. specialize (U3 r Hr). destruct CL as [->| ->]; [auto|]. specialize (MON (m1_clock s)). lia.
    - intros r Hr. apply PD in Hr. destruct (G r (IP r Hr)) as [-> _]. auto.
  Qed.
  Lemma pending_bound evs s l r : inv1 evs s l -> In r (pending1 (m1_tasks s)) -> (r < length (m1_reqs s))%nat.
  Proof.
    intros I H. unfold pending1 in H. apply in_flat_map in H as (t & T1 & T2). apply (i_tasks _ _ _ _ _ I) in T1 as (T1 & _).
    destruct t; try contradiction. destruct T2 as [<-|[]]. exact T1.
  Qed.
  Lemma pending_step (ts : list task1) n t new : nth_error ts n = Some t -> (forall t' r, In t' new -> t' <> TSend r) ->
    incl (pending1 (firstn n ts ++ new ++ skipn (S n) ts)) (pending1 ts).
  Proof.
    intros E N r. rewrite !pending1_app, (pending1_no new) by auto. cbn [app]. intros H. rewrite (split_nth _ _ _ E).
    change (t :: skipn (S n) ts) with ([t] ++ skipn (S n) ts). rewrite !pending1_app, !in_app_iff. apply in_app_iff in H. tauto.
  Qed.

  Lemma unif_run_task net P evs s l n s' l' : 0 < P -> (forall i, clk i <= clk (S i)) -> inv1 evs s l -> unif P s ->
    run_task V rnd clk net s n = (s', l') -> (forall r e, ~ In (LSendFailed r e) l') -> unif P s'.
  Proof.
    intros P0 MON I U E NF. unfold run_task in E.
    pose proof (i_heap _ _ _ _ _ I) as IH. assert (IP : forall r, In r (pending1 (m1_tasks s)) -> (r < length (m1_reqs s))%nat) by (intros; eapply pending_bound; eauto).
    assert (NDH : NoDup (m1_heap s)) by (eapply nodup_app_l; apply (i_nodup _ _ _ _ _ I)).
    destruct (nth_error (m1_tasks s) n) as [t|] eqn:NE; [|injection E as <- <-; auto].
    destruct (task1_step net s t) as [[s1 new] l1] eqn:TS. injection E as <- <-.
    pose proof (i_tasks _ _ _ _ _ I _ (nth_error_In _ _ NE)) as TOK. apply task_ok_req in TOK as [LT AL].
    assert (LIGHT : (forall r, (r < length (m1_reqs s))%nat -> sched_of s1 r = sched_of s r /\ rq_alive (get1 (m1_reqs s1) r) = rq_alive (get1 (m1_reqs s) r)) ->
      length (m1_reqs s1) = length (m1_reqs s) -> m1_heap s1 = m1_heap s -> (m1_clock s1 = m1_clock s \/ m1_clock s1 = S (m1_clock s)) ->
      (forall t' r, In t' new -> t' <> TSend r) ->
      unif P (mkMgr1 (m1_cache s1) (m1_reqs s1) (m1_heap s1) (firstn n (m1_tasks s) ++ new ++ skipn (S n) (m1_tasks s)) (m1_clock s1))).
    { intros A B C D F. eapply unif_light; eauto. cbn [m1_tasks]. eapply pending_step; eauto. }
    assert (POP : forall s2 r, m1_reqs s2 = m1_reqs s -> m1_heap s2 = m1_heap s -> (m1_clock s2 = m1_clock s \/ m1_clock s2 = S (m1_clock s)) ->
      pop1 s2 r = (s1, new, l1) ->
      unif P (mkMgr1 (m1_cache s1) (m1_reqs s1) (m1_heap s1) (firstn n (m1_tasks s) ++ new ++ skipn (S n) (m1_tasks s)) (m1_clock s1))).
    { intros s2 r A B C PE. unfold pop1 in PE. rewrite A, B in PE. destruct (m1_heap s) as [|a h] eqn:HP.
      { cbn [heappop] in PE. injection PE as <- <- <-. apply LIGHT; auto; unfold sched_of; try rewrite A; auto. }
      destruct (heappop ref_lt1 (m1_reqs s) (a :: h)) as [[lq h']|] eqn:HPP; [|now apply heappop_some in HPP].
      injection PE as <- <- <-. destruct (pop1_spec _ _ _ _ _ HPP) as (SB & PM & O).
      assert (LL : length lq = length (m1_reqs s)) by apply SB.
      assert (MON' : clk (m1_clock s) <= clk (m1_clock s2)) by (destruct C as [->| ->]; [lia|apply MON]).
      destruct U as [U1 U2 U3 U4]. constructor; unfold sched_of in *; cbn [with_heap1 m1_reqs m1_heap m1_tasks m1_clock fst snd] in *.
      - intros q Hq. destruct (sbr_get _ _ q SB) as [w ->]. apply U1. rewrite HP. apply in_app_iff in Hq as [Hq|Hq]; apply in_app_iff.
        + left. right. now apply (Permutation_in _ (Permutation_sym PM)).
        + right. eapply pending_step; eauto. intros t' q' [<-|[]]; congruence.
      - apply O. now rewrite HP in U2.
      - intros q Hq. destruct (sbr_get _ _ q SB) as [w ->]. cbn [with_ref1 rq_sched].
        assert (In q (m1_heap s)) as X by (rewrite HP; right; now apply (Permutation_in _ (Permutation_sym PM))). specialize (U3 q X). lia.
      - intros q Hq. destruct (sbr_get _ _ q SB) as [w ->]. apply U4. eapply pending_step; eauto. intros t' q' [<-|[]]; congruence. }
    destruct t as [r1|r1 m|r1|r1|r1|r1 limit|r1|r1 p]; unfold ManagerV1.task1_step in TS; cbn [task_req] in *.
    + (* TSend *)
      destruct (heappush ref_lt1 (m1_reqs s) (m1_heap s) r1) as [lq h'] eqn:HPE. destruct (push1 _ _ _ _ _ HPE) as (SB & PM & O).
      cbn [with_heap1 tick1 fst snd m1_cache m1_reqs m1_heap m1_tasks m1_clock] in TS.
      set (now := clk (m1_clock s)) in *. set (s2 := mkMgr1 (m1_cache s) lq h' (m1_tasks s) (S (m1_clock s))) in *.
      destruct (reallySend1 net s2 r1 _) as [s3 w] eqn:RS. injection TS as <- <- <-.
      assert (LL : length lq = length (m1_reqs s)) by apply SB.
      destruct (reallySend1_spec V rnd clk _ _ _ _ _ _ RS) as (q' & Q1 & Q2 & Q3 & Q4 & Q5 & Q6 & Q7 & Q8 & Q9 & _).
      { destruct (sbr_get _ _ r1 SB) as [w0 Q0]. rewrite Q0. apply (i_cb _ _ _ _ _ I). }
      cbn [s2 m1_reqs m1_heap m1_clock with_sched1 rq_alive rq_sched] in Q1, Q2, Q4, Q6, Q9. rewrite (sbr_sched _ _ _ SB) in Q6.
      assert (Q9' : rq_alive q' = true) by (rewrite Q9; destruct (sbr_get _ _ r1 SB) as [w0 ->]; exact AL).
      destruct U as [U1 U2 U3 U4]. unfold sched_of in *.
      assert (PEND : In r1 (pending1 (m1_tasks s))).
      { unfold pending1. apply in_flat_map. exists (TSend r1). split; [eapply nth_error_In; eauto|now left]. }
      pose proof (U4 _ PEND) as NX. destruct (U1 r1 (in_or_app _ _ _ (or_intror PEND))) as [PR _].
      assert (NXT : sc_next (rq_sched q') = Z.min (sc_expiration (rq_sched (get1 (m1_reqs s) r1))) (now + P)) by (rewrite Q6; unfold sched_send, set_next; cbn [sc_next]; now rewrite PR).
      assert (NIH : ~ In r1 (m1_heap s)) by (intros X; apply (nodup_app_disj _ _ _ (i_nodup _ _ _ _ _ I) X PEND)).
      assert (Gr : get1 (m1_reqs s3) r1 = q') by (rewrite Q1; apply get1_put_same; lia).
      assert (Go : forall r, r <> r1 -> exists w, get1 (m1_reqs s3) r = with_ref1 (get1 (m1_reqs s) r) w).
      { intros r N. rewrite Q1, get1_put_other by auto. apply (sbr_get _ _ r SB). }
      assert (K0 : forall r, In r (m1_heap s ++ pending1 (m1_tasks s)) -> ekey1 lq r = sc_next (rq_sched (get1 (m1_reqs s) r))).
      { intros r Hr. destruct SB as [_ SB]. rewrite (proj1 (SB r)). apply ekey1_alive, U1, Hr. }
      assert (K1 : forall r, In r (m1_heap s ++ pending1 (m1_tasks s)) -> r <> r1 -> ekey1 (m1_reqs s3) r = ekey1 lq r).
      { intros r Hr N. destruct (Go r N) as [w' G]. rewrite ekey1_alive; [|rewrite G; now apply U1]. rewrite G. symmetry. now apply K0. }
      assert (K2 : ekey1 (m1_reqs s3) r1 = Z.min (ekey1 lq r1) (now + P)).
      { rewrite ekey1_alive by now rewrite Gr. rewrite Gr, NXT, K0, NX by (auto using in_or_app). auto. }
      assert (HIN : forall r, In r h' -> In r (m1_heap s ++ pending1 (m1_tasks s)) /\ (r = r1 \/ ekey1 lq r <= now + P)).
      { intros r Hr. apply (Permutation_in _ (Permutation_sym PM)) in Hr as [<-|Hr]; [auto using in_or_app|]. split; [auto using in_or_app|]. right. rewrite K0 by (auto using in_or_app). now apply U3. }
      constructor; unfold sched_of; cbn [m1_reqs m1_heap m1_tasks m1_clock].
      * intros r Hr. destruct (Nat.eq_dec r r1) as [->|N]; [rewrite Gr; split; [rewrite Q6; exact PR|auto]|]. destruct (Go r N) as [w' ->]. apply U1. rewrite Q2 in Hr.
          apply in_app_iff in Hr as [Hr|Hr]; [now apply HIN|]. apply in_app_iff. right. eapply pending_step; eauto. contradiction.
      * rewrite Q2. specialize (O U2). intros j J0 PJ pa c HPa HC. specialize (O j J0 PJ pa c HPa HC).
        destruct (HIN pa (nth_error_In _ _ HPa)) as [La Ka]. destruct (HIN c (nth_error_In _ _ HC)) as [Lc Kc].
        destruct (Nat.eq_dec pa r1) as [->|N1], (Nat.eq_dec c r1) as [->|N2]; rewrite ?K2, ?K1 by auto; try lia.
      * intros r Hr. rewrite Q2 in Hr. rewrite Q4. specialize (MON (m1_clock s)). destruct (Nat.eq_dec r r1) as [->|N].
        -- rewrite Gr, NXT. fold now in MON. lia.
        -- destruct (Go r N) as [w' ->]. cbn [with_ref1 rq_sched]. destruct (HIN r Hr) as [X [X2|X2]]; [congruence|]. rewrite K0 in X2 by auto. fold now in MON. lia.
      * intros r Hr. assert (r <> r1) as N.
        { intros ->. assert (PD : Permutation (pending1 (m1_tasks s)) (r1 :: pending1 (firstn n (m1_tasks s) ++ [] ++ skipn (S n) (m1_tasks s)))).
          { rewrite (split_nth _ _ _ NE) at 1. change (TSend r1 :: skipn (S n) (m1_tasks s)) with ([TSend r1] ++ skipn (S n) (m1_tasks s)).
            rewrite !pending1_app. cbn [pending1 flat_map app]. symmetry. apply Permutation_middle. }
          pose proof (nodup_app_r _ _ (i_nodup _ _ _ _ _ I)) as ND. apply (Permutation_NoDup PD) in ND. inversion ND; auto. }
        destruct (Go r N) as [w' ->]. apply U4. eapply pending_step; eauto. contradiction.
    + (* TPush *)
      injection TS as <- <- <-. apply LIGHT; auto; unfold sched_of; cbn [set_req m1_reqs]; try apply put_length; try contradiction.
      intros r Hr. destruct (Nat.eq_dec r1 r) as [<-|N]; [now rewrite get1_put_same by auto|now rewrite get1_put_other by auto].
    + cbn [tick1] in TS. destruct (sched_expired _ _); injection TS as <- <- <-; apply LIGHT; auto; intros t' q' [<-|[]]; congruence.
    + destruct (m1_heap s) eqn:HP; injection TS as <- <- <-; apply LIGHT; auto; intros t' q' [<-|[]]; congruence.
    + (* TLocked *)
      unfold locked1 in TS. destruct (m1_heap s) as [|root hp] eqn:HP.
      { injection TS as <- <- <-. apply LIGHT; auto; contradiction. }
      destruct (rq_alive (get1 (m1_reqs s) root)) eqn:AR; cbn [negb] in TS; [|eapply (POP s); eauto].
      destruct (rq_response (get1 (m1_reqs s) root)) as [m0|] eqn:RR; [eapply (POP s); eauto|].
      cbn [tick1] in TS. set (now := clk (m1_clock s)) in *. set (s2 := mkMgr1 (m1_cache s) _ _ (m1_tasks s) (S (m1_clock s))) in *.
      destruct (sched_refresh (rq_sched (get1 (m1_reqs s) root)) now) as [[|w|c]|e] eqn:SR.
      * eapply (POP s2); eauto.
      * injection TS as <- <- <-. apply LIGHT; auto. intros t' q' [<-|[]]; congruence.
      * destruct (reallySend1 net s2 root _) as [s3 w] eqn:RS.
        assert (LRO : (root < length (m1_reqs s))%nat) by (apply IH; now left).
        destruct (reallySend1_spec V rnd clk _ _ _ _ _ _ RS) as (q' & Q1 & Q2 & Q3 & Q4 & Q5 & Q6 & Q7 & Q8 & Q9 & _).
        { apply (i_cb _ _ _ _ _ I). }
        change (m1_reqs s2) with (m1_reqs s) in Q1. change (rq_sched (with_sched1 (get1 (m1_reqs s) root) c)) with c in Q6.
        change (rq_alive q' = rq_alive (get1 (m1_reqs s) root)) in Q9. change (m1_heap s2) with (m1_heap s) in Q2. change (m1_clock s2) with (S (m1_clock s)) in Q4.
        destruct w as [b|e].
        2:{ exfalso. injection TS as <- <- <-. apply (NF root e). now left. }
        rewrite Q2, HP in TS. destruct (heapreplace ref_lt1 (m1_reqs s3) (root :: hp) root) as [[lq h']|] eqn:HR; [|discriminate].
        injection TS as <- <- <-. destruct (replace1 _ _ _ _ _ _ HR) as [SB PM].
        destruct U as [U1 U2 U3 U4]. rewrite HP in U2, U3. unfold sched_of in *.
        destruct (U1 root) as [PR _]; [rewrite HP; now left|]. apply sched_resend_iff in SR; [|lia]. destruct SR as (R1 & R2 & k & R3 & R4 & R5 & ->). rewrite PR in R4, R5.
        assert (Go : forall r, r <> root -> get1 (m1_reqs s3) r = get1 (m1_reqs s) r) by (intros r N; rewrite Q1; apply get1_put_other; auto).
        assert (Gr : get1 (m1_reqs s3) root = q') by (rewrite Q1; apply get1_put_same; lia).
        assert (LL : length lq = length (m1_reqs s)) by (destruct SB as [SB _]; rewrite SB, Q1; apply put_length).
        constructor; unfold sched_of; cbn [with_heap1 m1_reqs m1_heap m1_tasks m1_clock fst snd].
        -- intros r Hr. destruct (sbr_get _ _ r SB) as [wr ->]. cbn [with_ref1 rq_sched rq_alive]. destruct (Nat.eq_dec r root) as [->|N].
           ++ rewrite Gr. split; [rewrite Q6; exact PR|congruence].
           ++ rewrite (Go r N). apply U1. rewrite HP. apply in_app_iff in Hr as [Hr|Hr]; apply in_app_iff;
                [left; now apply (Permutation_in _ (Permutation_sym PM))|right; eapply pending_step; eauto; intros t' q0 [<-|[]]; congruence].
        -- eapply (replace1_ordered (m1_reqs s)); [exact U2| |now inversion NDH|exact HR].
           intros r N. unfold ekey1. now rewrite (Go r N).
        -- intros r Hr. rewrite Q4. specialize (MON (m1_clock s)). fold now in MON. destruct (sbr_get _ _ r SB) as [wr ->]. cbn [with_ref1 rq_sched].
           destruct (Nat.eq_dec r root) as [->|N].
           ++ rewrite Gr, Q6. unfold set_next. cbn [sc_next]. rewrite PR. lia.
           ++ rewrite (Go r N). assert (X : In r (root :: hp)) by (now apply (Permutation_in _ (Permutation_sym PM))). specialize (U3 r X). fold now in U3. lia.
        -- intros r Hr. assert (X : In r (pending1 (m1_tasks s))) by (eapply pending_step; eauto; intros t' q0 [<-|[]]; congruence).
           destruct (sbr_get _ _ r SB) as [wr ->]. cbn [with_ref1 rq_sched]. rewrite (Go r); [now apply U4|].
           intros ->. apply (nodup_app_disj _ _ root (i_nodup _ _ _ _ _ I)); [rewrite HP; now left|auto].
      * injection TS as <- <- <-. apply LIGHT; auto; contradiction.
    + destruct (rq_response (get1 (m1_reqs s) r1)) as [m|]; [|destruct limit]; injection TS as <- <- <-; apply LIGHT; auto; intros t' q' [<-|[]]; congruence.
    + destruct (rq_response (get1 (m1_reqs s) r1)) as [m|]; injection TS as <- <- <-; apply LIGHT; auto; try contradiction; intros t' q' [<-|[]]; congruence.
    + unfold close1 in TS. destruct (rq_cb (get1 (m1_reqs s) r1)); injection TS as <- <- <-; apply LIGHT; auto; unfold sched_of; cbn [set_req with_cache1 m1_reqs]; try apply put_length; try contradiction.
      intros r Hr. destruct (Nat.eq_dec r1 r) as [<-|N]; [now rewrite get1_put_same by auto|now rewrite get1_put_other by auto].
  Qed.
  Lemma unif_next P evs s l x s' l' : 0 < P -> (forall i, clk i <= clk (S i)) -> inv1 evs s l -> unif P s -> uniform_event P x ->
    m1_step s x = (s', l') -> (forall r e, ~ In (LSendFailed r e) l') -> unif P s'.
  Proof.
    intros P0 MON I U UX E NF.
    pose proof (i_heap _ _ _ _ _ I) as IH. assert (IP : forall r, In r (pending1 (m1_tasks s)) -> (r < length (m1_reqs s))%nat) by (intros; eapply pending_bound; eauto).
    assert (NDH : NoDup (m1_heap s)) by (eapply nodup_app_l; apply (i_nodup _ _ _ _ _ I)).
    destruct x as [p community timeout period|r0|d|r0|n|n|p community];
      [..|apply other_spec in E as (q' & -> & RQ & RH & RT & RC & _)]; cbn [ManagerV1.m1_step uniform_event] in *.
    - cbn [tick1 m1_cache m1_reqs m1_heap m1_tasks m1_clock] in E. injection E as <- <-. subst period. set (q := mkReq1 _ _ _ _ _ _ _).
      assert (G : forall r, (r < length (m1_reqs s))%nat -> get1 (m1_reqs s ++ [q]) r = get1 (m1_reqs s) r).
      { intros r Hr. rewrite get1_app. destruct (Nat.eqb_spec r (length (m1_reqs s))); [lia|auto]. }
      destruct U as [U1 U2 U3 U4]. constructor; unfold sched_of; cbn [add_task m1_reqs m1_heap m1_tasks m1_clock].
      + intros r Hr. rewrite get1_app. destruct (Nat.eqb_spec r (length (m1_reqs s))) as [|NQ]; [auto|]. apply U1.
        rewrite pending1_app, app_assoc in Hr. apply in_app_iff in Hr as [Hr|[Hr|[]]]; [auto|congruence].
      + eapply ordered1_ext; [|exact U2]. intros r Hr. unfold ekey1. now rewrite G by auto.
      + intros r Hr. rewrite G by auto. specialize (U3 r Hr). specialize (MON (m1_clock s)). unfold sched_of in U3. lia.
      + intros r. rewrite pending1_app, in_app_iff. intros [Hr|[<-|[]]]; [rewrite G by auto; now apply U4|].
        rewrite get1_app, Nat.eqb_refl. reflexivity.
    - destruct (alive1 s r0 && negb _); injection E as <- <-; [|auto]. eapply unif_light; eauto; cbn [add_task m1_tasks].
      rewrite pending1_app. cbn. rewrite app_nil_r. apply incl_refl.
    - destruct (v12_prepareDataElements V (alive1 s) (m1_cache s) d) as [c [[m h]|e]]; injection E as <- <-; eapply unif_light; eauto; cbn [add_task with_cache1 m1_tasks]; try apply incl_refl.
      rewrite pending1_app. cbn. rewrite app_nil_r. apply incl_refl.
    - contradiction.
    - eapply unif_run_task; eauto.
    - eapply unif_run_task; eauto.
    - assert (IA : forall r, In r (m1_heap s ++ pending1 (m1_tasks s)) -> (r < length (m1_reqs s))%nat) by (intros r Hr; apply in_app_iff in Hr as [Hr|Hr]; auto).
      destruct U as [U1 U2 U3 U4]. constructor; unfold sched_of in *; rewrite ?RQ, ?RH, ?RT, ?RC.
      + intros r Hr. rewrite get1_old by auto. auto.
      + eapply ordered1_ext; [|exact U2]. intros r Hr. unfold ekey1. now rewrite get1_old by auto.
      + intros r Hr. rewrite get1_old by auto. specialize (U3 r Hr). specialize (MON (m1_clock s)). lia.
      + intros r Hr. rewrite get1_old by auto. auto.
  Qed.

  Lemma unif_run P evs s l : 0 < P -> (forall i, clk i <= clk (S i)) -> Forall (uniform_event P) evs ->
    m1_run V rnd clk evs = (s, l) -> (forall r e, ~ In (LSendFailed r e) l) -> unif P s.
  Proof.
    intros P0 MON. revert s l. induction evs as [|x evs IH] using rev_ind; intros s l F E NF.
    - injection E as <- <-. constructor; cbn; try contradiction; try (intros; lia). intros j J0 PJ pa c HP HC. destruct j; discriminate.
    - apply Forall_app in F as [F1 F2]. inversion F2 as [|? ? FX _]; subst. rewrite m1_run_snoc in E.
      destruct (m1_run V rnd clk evs) as [s0 l0] eqn:R. destruct (m1_step s0 x) as [s1 l1] eqn:ST. injection E as <- <-.
      assert (NF0 : forall r e, ~ In (LSendFailed r e) l0) by (intros r e X; apply (NF r e), in_app_iff; auto).
      assert (NF1 : forall r e, ~ In (LSendFailed r e) l1) by (intros r e X; apply (NF r e), in_app_iff; left; now apply in_rev in X).
      eapply unif_next; eauto. eapply inv1_run; eauto.
  Qed.
End Mgr1b.
