(** PropertiesNet3.v -- C77, SNMPv3: the system refuses to send a datagram. *)
From Verif Require Import PropertiesUsm PropertiesMsg PropertiesProc PropertiesMgr PrfMgr3i PropertiesMgr3 PropertiesReg PropertiesUse PrfHear PrfHear2 PrfMgr3e PrfMgr3d PropertiesHear PropertiesAnswer.
From Verif Require Import PrfMgr3 PrfMgr3a PrfMgr3c PrfNet3 PrfLost3 SpecAnswer SpecUse SpecReg.

(** The world [W] with a network that refuses nothing. *)
Definition accepting (W : world) : world :=
  mkWorld (w_crypto W) (w_ticks W) (fun k i => match k with 3%nat => 0 | _ => w_rnd W k i end) (w_clk W) (w_fmt W) (w_namespace W) (w_usm W) (w_size W) (w_engine W).
(** The messages, what answers are matched with, the security module, the
    requests with their schedules and results, the engine ID and the next request
    ID are the same in both states. *)
Definition same_books (a b : mgr3) : Prop :=
  v_usm a = v_usm b /\ v_proc a = v_proc b /\ v_clock a = v_clock b /\ v_gen a = v_gen b /\ v_made a = v_made b /\ v_engine a = v_engine b /\
  v_reqs a = v_reqs b /\ v_msgs a = v_msgs b /\ v_bools a = v_bools b.

(** * C77 *)
(** Every step, in any state: the network refuses nothing, or it refuses the one
    datagram [wire] that would have been sent; then OSError is raised there, and
    the books are as if it had been sent. *)
Theorem C77_as_sent : forall W s x,
  step3 W s x = step3 (accepting W) s x \/
  exists r h w now p e user level wire,
    snd (step3 W s x) = [WFailed r (Some h) w OSError] /\ snd (step3 (accepting W) s x) = [WSent r h w now p e user level wire] /\
    same_books (fst (step3 W s x)) (fst (step3 (accepting W) s x)).
Proof.
  intros W s x. pose proof (step_cmp (w_crypto W) (w_ticks W) (w_rnd W) (w_clk W) (w_fmt W) (w_namespace W) s x) as H.
  change (m3_step (w_crypto W) (w_ticks W) (unrefused (w_rnd W)) (w_clk W) (w_fmt W) (w_namespace W)) with (step3 (accepting W)) in H.
  change (m3_step (w_crypto W) (w_ticks W) (w_rnd W) (w_clk W) (w_fmt W) (w_namespace W)) with (step3 W) in H.
  destruct (step3 W s x) as [s1 l1]. destruct (step3 (accepting W) s x) as [s0 l0]. cbn [fst snd].
  destruct H as [H|(r & h & w & now & p & e & user & lev & wire & _ & L1 & L0 & S)]; [left; exact H|right].
  exists r, h, w, now, p, e, user, lev, wire. split; [exact L1|]. split; [exact L0|]. exact S.
Qed.
Print Assumptions C77_as_sent.

(** An attempt to send that failed, whatever was raised: it was made by
    sendRequest(), which ends (with that exception); or by the wait() of some
    request [r], perhaps another one: it closes [r] and raises that exception; or
    by the listener: no thread of the user notices, and no result changes. *)
Theorem C77_told : forall W evs s l x s' l' q h w e,
  used_before W -> others_fair W (evs ++ [x]) -> history W evs s l -> step3 W s x = (s', l') -> In (WFailed q h w e) l' -> l' = [WFailed q h w e] /\
  ((exists n, x = VStep n /\ nth_error (v_tasks s) n = Some (SSend q) /\ w = ByCall /\
      v_tasks s' = firstn n (v_tasks s) ++ skipn (S n) (v_tasks s)) \/
   (exists n t r, x = VStep n /\ nth_error (v_tasks s) n = Some t /\ (t = SRefresh r /\ w = ByRefresh \/ exists u b, t = SPoking r u b /\ w = ByPoke) /\
      snd (step3 W s' (VStep n)) = [WOutcome r (VRaised e)]) \/
   (x = VListen /\ (w = ByUnknownEngine \/ w = ByNotInTime \/ w = ByDrain) /\ v_tasks s' = v_tasks s /\
      forall r, q_event (request3 s' r) = q_event (request3 s r) /\ q_exception (request3 s' r) = q_exception (request3 s r) /\
                q_response (request3 s' r) = q_response (request3 s r))).
Proof.
  intros W evs s l x s' l' q h w e U F H ST IN.
  pose proof (history_new _ _ _ _ H) as (s0 & NEW & RUN). pose proof (PrfMgr3d.base_run _ _ _ _ _ _ _ _ _ _ (PrfMgr3d.base_start _ _ _ _ _ _ _ _ NEW) RUN) as [_ WO].
  pose proof (m3_step_spec _ _ _ _ _ _ _ _ _ _ ST) as VS.
  destruct (failed_step _ _ _ _ _ _ _ _ _ _ _ _ _ WO VS IN) as (L & [A|[B|D]]); (split; [exact L|]).
  - left. exact A.
  - right. left. destruct B as (n & t & r & E & N & T & TS). exists n, t, r. split; [exact E|]. split; [exact N|]. split; [exact T|].
    assert (H' : history W (evs ++ [x]) s' (rev l' ++ l)).
    { destruct H as [H0 H1]. split; [exact H0|]. unfold run3 in *. rewrite m3_run_snoc, H1. change (m3_step _ _ _ _ _ _ s x) with (step3 W s x). rewrite ST. reflexivity. }
    apply (C66_close W (evs ++ [x]) s' (rev l' ++ l) n r (VRaised e) U F H').
    assert (LN : length (firstn n (v_tasks s)) = n) by (apply firstn_length_le; apply Nat.lt_le_incl, nth_error_Some; congruence).
    rewrite TS. pose proof (nth_mid (firstn n (v_tasks s)) (skipn (S n) (v_tasks s)) (SClose r (VRaised e))) as Y. rewrite LN in Y. exact Y.
  - right. right. exact D.
Qed.
Print Assumptions C77_told.

(** OSError in the log of attempts is always a refusal: nothing else that is done
    to send raises it. *)
Theorem C77_refusal : forall W s x q h w, In (WFailed q h w OSError) (snd (step3 W s x)) ->
  exists now p e user level wire m, h = Some m /\ snd (step3 (accepting W) s x) = [WSent q m w now p e user level wire].
Proof.
  intros W s x q h w IN. destruct (C77_as_sent W s x) as [E|(r & h' & w' & now & p & e & user & level & wire & L1 & L0 & _)].
  - exfalso. rewrite E in IN. revert IN. apply accepted_step. intros i. reflexivity.
  - rewrite L1 in IN. destruct IN as [IN|[]]. injection IN as -> <- ->. exists now, p, e, user, level, wire, h'. split; [reflexivity|exact L0].
Qed.
Print Assumptions C77_refusal.

(** Without one, no wait() raises OSError. *)
Theorem C77_only : forall W evs s l r, history W evs s l -> In (WOutcome r (VRaised OSError)) l ->
  exists q h w, In (WFailed q h w OSError) l.
Proof.
  intros W evs s l r H K. destruct (C44_v3_cases_partial _ _ _ _ _ _ H K) as [E|[E|[E|E]]]; [discriminate E..|exact E].
Qed.
Print Assumptions C77_only.

(** * Examples, and what is lost *)
(** The world [W] whose network refuses what is sent when the clock has been read
    [i] times, for the [i] of a list. *)
Definition refusing (W : world) (l : list nat) : world :=
  mkWorld (w_crypto W) (w_ticks W) (fun k i => match k with 3%nat => if existsb (Nat.eqb i) l then 1 else 0 | _ => w_rnd W k i end) (w_clk W) (w_fmt W) (w_namespace W) (w_usm W) (w_size W) (w_engine W).
Lemma refusing_ok l readings engine : world_ok (refusing (ex_world readings engine) l).
Proof. destruct (ex_world_after readings engine) as (H1 & H2 & H3 & H4). split; [exists ex_history; split; [exact H1|exact H2]|exact H3|exact H4]. Qed.
(** wait() of request 0 sends request 0 again and this is refused; the next step
    of its thread raises OSError.  The first case: sendRequest(). *)
Definition ex_resend : list event3 := ex_call authNoPriv 100 3 ++ [VWait 0; VStep 0].
Definition ex_resending : world := refusing (ex_world [0; 0; 0; 5] (Some ex_engine)) [6%nat].
Example C77_told_example : let s := fst (run3 ex_resending ex_resend) in
  snd (new3 ex_resending) = Ok tt /\ others_fair ex_resending (ex_resend ++ [VStep 0]) /\ used_before ex_resending /\
  snd (step3 ex_resending s (VStep 0)) = [WFailed 0 (Some 1%nat) ByRefresh OSError] /\ v_heap s = [0%nat].
Proof.
  destruct (no_users_ok ex_resending (ex_resend ++ [VStep 0]) (refusing_ok _ _ _) eq_refl) as [_ OF]. pose proof (PropertiesUse.used ex_resending (refusing_ok _ _ _)) as U.
  cbv zeta. split; [vm_compute; reflexivity|]. split; [exact OF|]. split; [exact U|]. split; vm_compute; reflexivity.
Qed.
Example C77_as_sent_example : let W := refusing (ex_world [0] (Some ex_engine)) [3%nat] in
  let s := fst (run3 W [VCall ex_pdu ex_user authNoPriv 10 3]) in
  snd (step3 W s (VStep 0)) = [WFailed 0 (Some 0%nat) ByCall OSError] /\ exists now p e user level wire, snd (step3 (accepting W) s (VStep 0)) = [WSent 0 0 ByCall now p e user level wire].
Proof. vm_compute. split; [reflexivity|]. repeat eexists. Qed.
Example C77_only_example : let W := refusing (ex_world [0; 0; 0; 5] (Some ex_engine)) [6%nat] in
  exists s l, history W (ex_resend ++ [VStep 0; VStep 0]) s l /\ In (WOutcome 0 (VRaised OSError)) l.
Proof.
  cbv zeta. set (W := refusing _ _). set (sl := run3 W (ex_resend ++ [VStep 0; VStep 0])). exists (fst sl), (snd sl).
  split; [split; [vm_compute; reflexivity|exact (surjective_pairing sl)]|]. vm_compute. left. reflexivity.
Qed.

(** C69 for a program that uses one thread, in time, when all that went wrong is
    that the system refused datagrams that were not the first of their request. *)
Definition only_refused (W : world) (evs : list event3) (s : mgr3) (l : list log3) (r : nat) : Prop :=
  one_thread W evs /\ forwards W /\ reading3 W s < expiration3 s r /\
  forall q h w e, In (WFailed q h w e) l -> e = OSError /\ w <> ByCall /\ w <> ByPoke /\ w <> ByDrain.
Definition C77_statement : Prop := C69_when only_refused.
(** The report with the engine ID arrives; what the listener sends then is
    refused.  wait() sends the request again later, the answer arrives and is
    thrown away: the manager still waits for discovery. *)
Definition ex_unlucky : list event3 := ex_call noAuthNoPriv 100 3 ++ ex_discovered ++ [VWait 0] ++ ex_steps 3.
Lemma ex_forwards engine l : forwards (refusing (ex_world [0; 0; 0; 0; 0; 0; 5] engine) l).
Proof.
  assert (V : forall i, ex_clk [0; 0; 0; 0; 0; 0; 5] i = if (i <? 6)%nat then 0 else 5) by (intros i; do 7 (destruct i as [|i]; [reflexivity|]); destruct i; reflexivity).
  intros i j L. cbn [refusing ex_world w_clk]. rewrite !V. destruct (Nat.ltb_spec i 6), (Nat.ltb_spec j 6); lia.
Qed.
Definition ex_unlucky_answer : bytes := ex_note 39 ex_engine ex_user (ex_reply3 13).
Theorem C77_refuted : ~ C77_statement.
Proof.
  intros H. set (W := refusing (ex_world [0; 0; 0; 0; 0; 0; 5] None) [6%nat]). set (sl := run3 W ex_unlucky).
  set (x := last_sent (snd sl) 0). set (m := taken W (fst sl) ex_unlucky_answer).
  assert (N : snd (new3 W) = Ok tt) by (vm_compute; reflexivity).
  assert (OKW : world_ok W) by apply refusing_ok.
  destruct (no_users_ok W ex_unlucky OKW eq_refl) as [EO OF].
  assert (X : In (WSent 0 2 ByRefresh 5 (sent_pdu x) ex_engine ex_user noAuthNoPriv (sent_wire x)) (snd sl)) by (vm_compute; right; left; reflexivity).
  assert (PO : pdu_ok (sent_pdu x)).
  { assert (E : sent_pdu x = mkPDU (pdu_cls ex_pdu) 13 (pdu_a ex_pdu) (pdu_b ex_pdu) (pdu_vbs ex_pdu)) by (vm_compute; reflexivity). rewrite E. apply ex_pdu_ok. lia. }
  assert (QE : q_engine (request3 (fst sl) 0) = Some ex_engine) by (vm_compute; reflexivity).
  assert (WA : waits (fst sl) (snd sl) 0 0).
  { apply (ex_waits _ _ _ 1); vm_compute; reflexivity. }
  assert (TA : takes W (fst sl) ex_unlucky_answer m) by (exists (decoded3 ex_unlucky_answer); split; [vm_compute; reflexivity|]; split; [vm_compute; reflexivity|vm_compute; reflexivity]).
  assert (RE : responds (sent_wire x) ex_engine ex_user noAuthNoPriv m (ex_reply3 13)).
  { split; [exists (decoded3 (sent_wire x)); split; vm_compute; reflexivity|]. repeat (split; [vm_compute; reflexivity|]). split; intros K; discriminate K. }
  assert (OE : octets_ok ex_engine) by (split; [repeat constructor; vm_compute; discriminate|vm_compute; discriminate]).
  assert (OU : octets_ok ex_user) by (split; [repeat constructor; vm_compute; discriminate|vm_compute; discriminate]).
  assert (CF : is_Confirmed (pdu_cls (sent_pdu x)) = true) by (vm_compute; reflexivity).
  assert (LO : SpecMsg.level_ok noAuthNoPriv) by (intros K; discriminate K).
  assert (NE : ex_engine <> []) by (intros K; discriminate K).
  assert (SZ : 484 <= w_size W <= 2147483647) by (cbn; lia).
  assert (PP : only_refused W ex_unlucky (fst sl) (snd sl) 0).
  { split; [apply alone_all; vm_compute; reflexivity|]. split; [apply ex_forwards|]. split; [vm_compute; reflexivity|].
    assert (Q : forallb (fun y => match y with WFailed _ _ ByUnknownEngine OSError => true | WFailed _ _ _ _ => false | _ => true end) (snd sl) = true) by (vm_compute; reflexivity).
    clear - Q. rewrite forallb_forall in Q. intros q h w e K. apply Q in K. clear - K. destruct w, e; try discriminate K. split; [reflexivity|]. repeat split; discriminate. }
  destruct (H W ex_unlucky (fst sl) (snd sl) 0%nat 0%nat 2%nat ByRefresh 5 (sent_pdu x) ex_engine ex_user noAuthNoPriv (sent_wire x) ex_unlucky_answer m (ex_reply3 13)
    OKW (toy_ok OpenSSL) SZ EO OF (conj N (surjective_pairing sl)) PP X CF PO OE OU LO NE QE WA TA RE) as (s' & l' & R).
  assert (Q : match snd (run3 W (ex_unlucky ++ arrival ex_unlucky_answer 0)) with WOutcome _ _ :: _ => false | _ => true end = true) by (vm_compute; reflexivity).
  rewrite R in Q. clear - Q. cbn in Q. discriminate Q.
Qed.
Print Assumptions C77_refuted.

(** A request none of whose datagrams was refused is not lost. *)
Definition C77_others_statement : Prop := forall W evs s l r,
  history W evs s l -> made3' s r -> alive3 s r -> ~ answered3 s r -> ~ has_expired3 W s r ->
  (forall q h w e, In (WFailed q h w e) l -> e = OSError /\ q <> r) ->
  active3 s r \/ waiting3 s r.
(** Requests 1 and 2 wait for the discovery that request 0 has started, and that is
    not answered.  wait() of request 1 starts it again, the datagram is refused:
    with request 1, request 2 is forgotten too; its own wait() will only time out. *)
Definition ex_forgotten : list event3 := [VCall ex_pdu ex_user authNoPriv 5 100; VStep 0; VCall ex_pdu ex_user authNoPriv 100 100; VStep 0; VCall ex_pdu ex_user authNoPriv 100 100; VStep 0; VWait 1] ++ ex_steps 5.
Definition ex_forgetting : world := refusing (ex_world [0; 0; 0; 0; 0; 50] None) [9%nat].
Theorem C77_others_refuted : ~ C77_others_statement.
Proof.
  intros H. set (W := ex_forgetting). set (sl := run3 W ex_forgotten).
  assert (N : snd (new3 W) = Ok tt) by (vm_compute; reflexivity).
  assert (A : made3' (fst sl) 2 /\ alive3 (fst sl) 2 /\ ~ answered3 (fst sl) 2 /\ expiration3 (fst sl) 2 = 100) by (clear H; vm_compute; repeat split; try discriminate; lia).
  destruct A as (A1 & A2 & A3 & A4).
  assert (A5 : ~ has_expired3 W (fst sl) 2).
  { intros (i & _ & Y). rewrite A4 in Y. assert (V : w_clk W i = if (i <? 5)%nat then 0 else 50) by (do 6 (destruct i as [|i]; [reflexivity|]); destruct i; reflexivity).
    rewrite V in Y. clear - Y. destruct (i <? 5)%nat; lia. }
  assert (A6 : forall q h w e, In (WFailed q h w e) (snd sl) -> e = OSError /\ q <> 2%nat).
  { assert (Q : forallb (fun y => match y with WFailed 1 _ _ OSError => true | WFailed _ _ _ _ => false | _ => true end) (snd sl) = true) by (vm_compute; reflexivity).
    clear - Q. rewrite forallb_forall in Q. intros q h w e K. apply Q in K. clear - K. destruct q as [|[|q]]; [discriminate K| |discriminate K]. destruct e; try discriminate K. split; [reflexivity|discriminate]. }
  assert (A7 : ~ (active3 (fst sl) 2 \/ waiting3 (fst sl) 2)) by (clear; vm_compute; intros [[]|[]]).
  exact (A7 (H W _ _ _ _ (conj N (surjective_pairing sl)) A1 A2 A3 A5 A6)).
Qed.
Print Assumptions C77_others_refuted.
(** And such a request, if it was never sent, is lost for good: nothing is ever
    sent for it, nothing is ever received for it, wait() can only raise. *)
Theorem C77_lost : forall W evs s l r later s' l', history W evs s l -> made3' s r ->
  ~ active3 s r -> ~ waiting3 s r -> (forall y, In y l -> ~ tries r y) -> history W (evs ++ later) s' l' ->
  (forall y, In y l' -> ~ tries r y) /\ forall o, In (WOutcome r o) l' -> exists e, o = VRaised e.
Proof.
  intros W evs s l r later s' l' H M NA NW NT H'.
  pose proof (history_new _ _ _ _ H) as (s0 & NEW & RUN). pose proof (PrfMgr3d.base_run _ _ _ _ _ _ _ _ _ _ (PrfMgr3d.base_start _ _ _ _ _ _ _ _ NEW) RUN) as B.
  pose proof (logged_run _ _ _ _ _ _ _ _ _ _ _ _ _ _ NEW RUN) as LG.
  assert (G : gone r s).
  { apply (logged_gone r s l LG M); [|exact NT]. unfold queued. rewrite in_app_iff. intros [K|K]; [exact (NA K)|exact (NW K)]. }
  pose proof (history_new _ _ _ _ H') as (s0' & NEW' & RUN'). assert (s0' = s0) by congruence. subst s0'.
  destruct (gone_after _ _ _ _ _ _ _ _ _ _ _ later (PrfMgr3d.base_start _ _ _ _ _ _ _ _ NEW) RUN G _ _ RUN') as (_ & l2 & -> & N2).
  assert (NN : forall y, In y (l2 ++ l) -> ~ touches r y).
  { intros y IN T. apply in_app_or in IN as [IN|IN]; [exact (N2 y IN T)|]. destruct (lg_log _ _ LG r y IN T) as (z & Z1 & Z2). exact (NT z Z1 Z2). }
  split; [intros y IN T; apply (NN y IN); left; exact T|]. intros o IN. pose proof (C44_v3_cases_partial _ _ _ _ _ _ H' IN) as K.
  destruct o as [vbs|status index cause|x vb|e].
  - exfalso. destruct K as (m & sc & K & _). apply (NN _ K). right. reflexivity.
  - exfalso. destruct K as (m & sc & K & _). apply (NN _ K). right. reflexivity.
  - exfalso. destruct K as (auth & K & _). apply (NN _ K). right. reflexivity.
  - exists e. reflexivity.
Qed.
Print Assumptions C77_lost.
Example C77_lost_example : let W := ex_forgetting in exists s l, history W ex_forgotten s l /\ made3' s 2 /\ ~ active3 s 2 /\ ~ waiting3 s 2 /\ forall y, In y l -> ~ tries 2 y.
Proof.
  cbv zeta. set (sl := run3 ex_forgetting ex_forgotten). exists (fst sl), (snd sl). split; [split; [vm_compute; reflexivity|exact (surjective_pairing sl)]|].
  split; [vm_compute; lia|]. split; [vm_compute; intros []|]. split; [vm_compute; intros []|].
  assert (Q : forallb (fun y => match y with WFailed 2 _ _ _ | WSent 2 _ _ _ _ _ _ _ _ => false | _ => true end) (snd sl) = true) by (vm_compute; reflexivity).
  clear - Q. rewrite forallb_forall in Q. intros y K T. apply Q in K. clear - K T. destruct y; cbn in T; try (destruct T; fail); subst r; discriminate K.
Qed.
