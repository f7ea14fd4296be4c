(** PrfMgr3c.v -- the SNMPv3 manager: every step sends one message, or none. *)
From Verif Require Export PrfMgr3b.
From Coq Require Import Permutation.

Definition sends_something (y : log3) : bool :=
  match y with WSent _ _ _ _ _ _ _ _ _ | WFailed _ _ _ _ => true | _ => false end.

Section Classes.
  Context (C : crypto) (R : Z) (rnd : nat -> nat -> Z) (clk : nat -> Z) (fmt : v3msg -> bool) (ns : pystr).
  Notation m3_run := (m3_run C R rnd clk fmt ns).
  Notation vstep := (vstep C R rnd clk ns).
  Notation tstep := (tstep C rnd clk ns).
  Notation lstep := (lstep clk).

  Definition restarted (s : mgr3) (r : nat) : sched := sched_send (q_sched (get3 (v_reqs s) r)) (clk (v_clock s)).
  Inductive send_step (s : mgr3) (x : event3) (s' : mgr3) (l : list log3) : Prop :=
  | SendStep r w sc eng s1 s2 y :
      sent_by s1 r w sc (clk (v_clock s)) eng s2 l y ->
      v_reqs s1 = v_reqs s -> v_msgs s1 = v_msgs s -> v_proc s1 = v_proc s -> v_bools s1 = v_bools s -> v_clock s1 = v_clock s ->
      v_reqs s' = v_reqs s2 -> v_msgs s' = v_msgs s2 -> v_proc s' = v_proc s2 -> v_bools s' = v_bools s2 ->
      q_alive (get3 (v_reqs s) r) = true ->
      match w with
      | ByCall => eng = v_engine s /\ sc = restarted s r /\ In (SSend r) (v_tasks s) /\ (exists n, x = VStep n) /\ v_listener s' = v_listener s
      | ByPoke => eng = v_engine s /\ sc = restarted s r /\ (exists r0 rest b, In (SPoking r0 (r :: rest) b) (v_tasks s)) /\ (exists n, x = VStep n) /\ v_listener s' = v_listener s
      | ByRefresh => eng = None /\ sched_refresh (q_sched (get3 (v_reqs s) r)) (clk (v_clock s)) = Ok (RResend sc) /\
          q_event (get3 (v_reqs s) r) = false /\ (exists t, v_heap s = r :: t) /\ (exists n, x = VStep n) /\ v_listener s' = v_listener s
      | ByDrain => sc = restarted s r /\ x = VListen /\ exists r0 e w0 rest, v_listener s = LDrain r0 e w0 /\ eng = Some e /\ v_unsent s = r :: rest /\ v_unsent s' = rest /\
          v_listener s' = (if (match y with Ok _ => true | Raise _ => false end) then LDrain r0 e w0 else LIdle)
      | ByUnknownEngine | ByNotInTime => sc = restarted s r /\ x = VListen /\ exists e, v_listener s = LReport r e w /\ eng = Some e /\
          (v_listener s' = match y with Raise _ => LIdle | Ok _ => v_listener s' end) /\
          (y = Ok tt -> v_listener s' = LDrain r e w \/ v_listener s' = reported_done r w)
      end ->
      send_step s x s' l.
  (** The rest. *)
  Definition quiet_req (q q' : req3) : Prop :=
    q_sched q' = q_sched q /\ (q_engine q' = q_engine q \/ q_engine q' = None).
  Record quiet_step (s : mgr3) (x : event3) (s' : mgr3) (l : list log3) : Prop := {
    qs_log : forall y, In y l -> sends_something y = false;
    qs_reqs : forall r, (r < length (v_reqs s))%nat -> quiet_req (get3 (v_reqs s) r) (get3 (v_reqs s') r);
    qs_new : length (v_reqs s') = length (v_reqs s) \/
      (exists p user level timeout period id, x = VCall p user level timeout period /\
         v_reqs s' = v_reqs s ++ [mkReq3 None (set_requestID p id) user level false None None (sched_new (clk (v_clock s)) timeout period) (length (v_bools s)) true]);
    qs_msgs : length (v_msgs s') = length (v_msgs s) \/ (others_event x /\ outside s s');
    qs_cache : forall e, In e (ca_out (p3_cache (v_proc s'))) -> In e (ca_out (p3_cache (v_proc s))) \/
      ((length (v_msgs s) <= e3_handle (snd e) < length (v_msgs s'))%nat /\ g_open (getm (v_msgs s') (e3_handle (snd e))) = false);
    qs_sync : (v_bools s' = v_bools s /\ forall r, (r < length (v_reqs s))%nat -> q_sync (get3 (v_reqs s') r) = q_sync (get3 (v_reqs s) r)) \/
      (v_bools s' = v_bools s ++ [false] /\ (exists p user level timeout period, x = VCall p user level timeout period) /\
         forall r, (r < length (v_reqs s))%nat -> q_sync (get3 (v_reqs s') r) = q_sync (get3 (v_reqs s) r)) \/
      (exists r, v_listener s = LSync r /\ v_listener s' = LIdle /\ v_bools s' = put (v_bools s) (q_sync (get3 (v_reqs s) r)) true ++ [false] /\
         forall q, (q < length (v_reqs s))%nat -> q_sync (get3 (v_reqs s') q) = if Nat.eqb q r then length (v_bools s) else q_sync (get3 (v_reqs s) q))
  }.
  Lemma quiet_same s x s' l : v_reqs s' = v_reqs s -> v_msgs s' = v_msgs s -> v_bools s' = v_bools s ->
    (forall e, In e (ca_out (p3_cache (v_proc s'))) -> In e (ca_out (p3_cache (v_proc s)))) ->
    (forall y, In y l -> sends_something y = false) -> quiet_step s x s' l.
  Proof.
    intros E1 E2 E3 E4 E5. constructor; rewrite ?E1, ?E2; auto. intros r _. split; auto.
  Qed.
  Lemma quiet_put s x s' l r q : v_reqs s' = put (v_reqs s) r q -> quiet_req (get3 (v_reqs s) r) q -> q_sync q = q_sync (get3 (v_reqs s) r) ->
    length (v_msgs s') = length (v_msgs s) -> v_bools s' = v_bools s ->
    (forall e, In e (ca_out (p3_cache (v_proc s'))) -> In e (ca_out (p3_cache (v_proc s)))) ->
    (forall y, In y l -> sends_something y = false) -> quiet_step s x s' l.
  Proof.
    intros E1 Q1 Q2 E2 E3 E4 E5. constructor; auto.
    - intros r' _. rewrite E1, get3_put. destruct (_ && _)%bool eqn:X; [|split; auto]. apply andb_prop in X as [X _]. now apply Nat.eqb_eq in X as <-.
    - left. now rewrite E1, put_length.
    - left. split; [auto|]. intros r' _. rewrite E1, get3_put. destruct (_ && _)%bool eqn:X; auto. apply andb_prop in X as [X _]. now apply Nat.eqb_eq in X as <-.
  Qed.
  Lemma push3_fields s r : v_reqs (push3 s r) = v_reqs s /\ v_msgs (push3 s r) = v_msgs s /\ v_proc (push3 s r) = v_proc s /\ v_bools (push3 s r) = v_bools s /\
    v_unsent (push3 s r) = v_unsent s /\ v_listener (push3 s r) = v_listener s.
  Proof. unfold push3. destruct (heappush _ _ _ _). cbn. auto 7. Qed.
  Lemma heapify3_fields s : v_reqs (heapify3 s) = v_reqs s /\ v_msgs (heapify3 s) = v_msgs s /\ v_proc (heapify3 s) = v_proc s /\ v_bools (heapify3 s) = v_bools s /\
    v_unsent (heapify3 s) = v_unsent s /\ v_listener (heapify3 s) = v_listener s.
  Proof. unfold heapify3. destruct (heapify _ _ _). cbn. auto 7. Qed.
  Definition why_ok (s : mgr3) : Prop :=
    forall r e w, v_listener s = LReport r e w \/ v_listener s = LDrain r e w -> w = ByUnknownEngine \/ w = ByNotInTime.
  Lemma why_step s x s' l : why_ok s -> vstep s x s' l -> why_ok s'.
  Proof.
    intros W ST. assert (RD : forall r w r' e w', reported_done r w = LReport r' e w' \/ reported_done r w = LDrain r' e w' -> False) by (intros r [] r' e w'; cbn; intuition discriminate).
    inversion ST; subst; try exact W; try (intros r e w [X|X]; discriminate X).
    - intros r e w X. cbn in X. rewrite (tstep_listener _ _ _ _ _ _ _ _ _ H0) in X. now apply (W r e w).
    - inversion H; subst; try exact W; intros r' e' w' X; cbn in X; try (exfalso; intuition discriminate).
      + match goal with Q : _ = ByUnknownEngine /\ _ \/ _ |- _ => destruct Q as [(-> & _)|(-> & _)] end; (destruct X as [X|X]; [injection X as <- <- <-; auto|discriminate]).
      + destruct b; cbn in X; [|now apply RD in X]. destruct X as [X|X]; [discriminate|]. injection X as <- <- <-. apply (W r e w). auto.
      + now apply RD in X.
      + match type of X with context [push3 ?z q] => destruct (push3_fields z q) as (_ & _ & _ & _ & _ & G6) end. rewrite G6 in X.
        assert (LI : v_listener s1 = v_listener s) by (inversion H3; subst; reflexivity). rewrite LI in X. now apply (W r' e').
    - destruct H0 as (u & p & q & m & -> & _). exact W.
    - destruct H0 as (u & p & q & m & -> & _). exact W.
  Qed.
  Lemma step_class s x s' l : inv3 s -> why_ok s -> vstep s x s' l -> send_step s x s' l \/ quiet_step s x s' l.
  Proof.
    intros I W3 ST.
    assert (NL : forall y, In y ([] : list log3) -> sends_something y = false) by (intros y []).
    assert (ASKS : forall r w s1 l1 y n tasks, asks clk s r w s1 l1 y -> y <> Ok false -> q_alive (get3 (v_reqs s) r) = true -> x = VStep n ->
        (w = ByCall /\ In (SSend r) (v_tasks s) \/ w = ByPoke /\ exists r0 rest b, In (SPoking r0 (r :: rest) b) (v_tasks s)) ->
        send_step s x (set_threads s1 tasks (v_listener s1)) l1).
    { intros r w s1 l1 y n tasks A NF AL -> W. pose proof (get3_alive_lt _ _ AL) as LT. destruct A as [nx O|nx s2 l2 e O H|nx s2 l2 O H]; [congruence| |];
        destruct (assign_fields s nx) as [n' EN]; rewrite EN in H; apply readied_sent_by in H; try exact LT;
        destruct (sent_by_frame _ _ _ _ _ _ _ _ _ H) as (_ & _ & _ & _ & F5 & _).
      - apply (SendStep _ _ _ _ r w _ _ _ _ _ H); auto. destruct W as [[-> W]|[-> W]]; cbn; eauto 10.
      - destruct (update_fields (push3 s2 r)) as (st & n2 & ->). destruct (push3_fields s2 r) as (G1 & G2 & G3 & G4 & G5 & G6).
        apply (SendStep _ _ _ _ r w _ _ _ _ _ H); auto. destruct W as [[-> W]|[-> W]]; cbn; rewrite G6, F5; eauto 10. }
    inversion ST; subst.
    - right. apply quiet_same; auto.
    - right. constructor; cbn; auto.
      + intros r L. rewrite get3_app. destruct (Nat.eqb_spec r (length (v_reqs s))); [lia|]. split; auto.
      + right. eauto 10.
      + right. left. split; [auto|]. split; [eauto 7|]. intros r L. rewrite get3_app. destruct (Nat.eqb_spec r (length (v_reqs s))); [lia|auto].
    - right. apply quiet_same; auto.
    - assert (TI : In t (v_tasks s)) by (rewrite H; apply in_elt). pose proof (i3_tasks s I t TI) as AL.
      inversion H0; subst; try solve [right; apply quiet_same; auto; now intros y [<-|[]]].
      + left. eapply ASKS; eauto.
      + right. destruct H2 as [[-> _]|[-> _]]; apply quiet_same; auto.
      + left. assert (AR := H2). pose proof (get3_alive_lt _ _ AR) as LT. apply sends_sent_by in H5; [|exact LT]. destruct (sent_by_frame _ _ _ _ _ _ _ _ _ H5) as (_ & _ & _ & _ & F5 & _).
        apply (SendStep _ _ _ _ root ByRefresh _ _ _ _ _ H5); auto. cbn. fold q. eauto 10.
      + left. assert (AR := H2). pose proof (get3_alive_lt _ _ AR) as LT. apply sends_sent_by in H5; [|exact LT]. destruct (sent_by_frame _ _ _ _ _ _ _ _ _ H5) as (_ & _ & _ & _ & F5 & _).
        apply (SendStep _ _ _ _ root ByRefresh _ _ _ _ _ H5); auto. cbn. fold q. eauto 10.
      + right. cbn. destruct (assign_fields s (onInactive (v_state s))) as [n ->]. destruct (update_fields (set_state s (v_state s) n)) as (st & n' & ->). apply quiet_same; auto.
      + left. eapply ASKS; eauto; [discriminate|]. right. eauto.
      + left. eapply ASKS; eauto; [discriminate|]. right. eauto.
      + right. apply close3_spec in H1 as (u & p & q' & m' & -> & Q & L & _ & CA & _).
        eapply quiet_put; cbn; try reflexivity; auto; [destruct Q as [->| ->]; split; auto|destruct Q as [->| ->]; auto|]. intros y [<-|[]]. reflexivity.
    - right. apply quiet_same; auto.
    - right. apply quiet_same; auto.
    - assert (LIS := i3_listener s I).
      assert (LG1 : forall y, (exists h m, In y [WPushed h m]) -> sends_something y = false) by (intros y (h & m & [<-|[]]); reflexivity).
      inversion H; subst; try solve [right; apply quiet_same; auto; intros y Y; apply LG1; eauto].
      + right. eapply quiet_put; cbn; try reflexivity; auto.
        * unfold stored, quiet_req. destruct auth, (q_event q), (q_exception q); cbn; auto.
        * unfold stored. fold q. destruct auth, (q_event q), (q_exception q); cbn; auto.
        * intros y [<-|[<-|[]]]; reflexivity.
      + (* LReportFailed *) left. assert (AL : q_alive (get3 (v_reqs s) r) = true) by (apply LIS; now rewrite H0). pose proof (get3_alive_lt _ _ AL) as LT.
        destruct (assign_fields s nx) as [n EN]. rewrite EN in H3. apply readied_sent_by in H3; [|exact LT].
        apply (SendStep _ _ _ _ r w _ _ _ _ _ H3); auto.
        assert (W : w = ByUnknownEngine \/ w = ByNotInTime) by (apply (W3 r e); auto).
        destruct W as [-> | ->]; (split; [reflexivity|]); (split; [reflexivity|]); exists e; cbn; repeat split; auto; discriminate.
      + (* LReportSent *) left. assert (AL : q_alive (get3 (v_reqs s) r) = true) by (apply LIS; now rewrite H0). pose proof (get3_alive_lt _ _ AL) as LT.
        destruct (assign_fields s nx) as [n EN]. rewrite EN in H3. apply readied_sent_by in H3; [|exact LT].
        match goal with |- context [heapify3 ?z] => destruct (heapify3_fields z) as (G1 & G2 & G3 & G4 & G5 & G6); destruct (update_fields (heapify3 z)) as (st & n' & ->) end.
        assert (W : w = ByUnknownEngine \/ w = ByNotInTime) by (apply (W3 r e); auto).
        apply (SendStep _ _ _ _ r w _ _ _ _ _ H3); auto; try (destruct b; auto; fail).
        destruct W as [-> | ->]; (split; [reflexivity|]); (split; [reflexivity|]); exists e; (split; [auto|]); (split; [auto|]); split; destruct b; auto.
      + (* LDrainFailed *) left. pose proof (get3_alive_lt _ _ H2) as LT. apply readied_sent_by in H3; [|exact LT].
        destruct (sent_by_frame _ _ _ _ _ _ _ _ _ H3) as (_ & F2 & _ & _ & F5 & _).
        apply (SendStep _ _ _ _ q ByDrain _ _ _ _ _ H3); auto. split; [reflexivity|]. split; [reflexivity|]. exists r, e, w, rest. repeat split; auto.
      + (* LDrainSent *) left. pose proof (get3_alive_lt _ _ H2) as LT. apply readied_sent_by in H3; [|exact LT].
        destruct (sent_by_frame _ _ _ _ _ _ _ _ _ H3) as (_ & F2 & _ & _ & F5 & _). match goal with |- context [push3 ?z q] => destruct (push3_fields z q) as (G1 & G2 & G3 & G4 & G5 & G6) end.
        apply (SendStep _ _ _ _ q ByDrain _ _ _ _ _ H3); auto. split; [reflexivity|]. split; [reflexivity|]. exists r, e, w, rest. rewrite G5, G6, F2, F5. cbn. repeat split; auto.
      + (* LSynced *) right. assert (LT : (r < length (v_reqs s))%nat) by (apply get3_alive_lt, LIS; now rewrite H0). constructor; cbn; auto.
        * intros r' _. rewrite get3_put. destruct (_ && _)%bool eqn:X; [|split; auto]. apply andb_prop in X as [X _]. apply Nat.eqb_eq in X as <-. split; auto.
        * left. apply put_length.
        * right. right. exists r. split; [auto|]. split; [auto|]. split; [auto|]. intros q L. rewrite get3_put, (Nat.eqb_sym r q). destruct (Nat.eqb_spec q r) as [->|]; cbn [andb]; [|auto].
          destruct (Nat.ltb_spec r (length (v_reqs s))); [auto|lia].
      + right. destruct (assign_fields s nx) as [n ->]. apply quiet_same; auto.
      + right. destruct (assign_fields s nx) as [n ->]. match goal with |- context [updateState ?y] => destruct (update_fields y) as (st & n' & ->) end. apply quiet_same; auto.
      + right. destruct (q_event q).
        * apply quiet_same; auto. now intros y [<-|[]].
        * eapply quiet_put; cbn; try reflexivity; auto; [split; auto|now intros y [<-|[]]].
    - right. destruct H0 as (u & p & q' & m' & -> & Q & L & _ & CA & _). cbn in *. rewrite put_put. pose proof H as [U1 U2].
      assert (G : quiet_req (get3 (v_reqs s) r) (get3 (put (v_reqs s) r (q_set_dead (get3 (v_reqs s) r))) r) /\ q_sync (get3 (put (v_reqs s) r (q_set_dead (get3 (v_reqs s) r))) r) = q_sync (get3 (v_reqs s) r)).
      { rewrite get3_put. destruct (_ && _)%bool; split; split; auto. }
      eapply quiet_put; cbn; try reflexivity; auto.
      + destruct Q as [->| ->]; [apply G|]. destruct G as [[G1 G2] _]. split; [exact G1|right; reflexivity].
      + destruct Q as [->| ->]; apply G.
    - right. apply quiet_same; auto.
    - right. pose proof H0 as (u & p & c & m & E & _ & _ & LM & _ & N & CA). rewrite E. constructor; cbn; auto.
      + intros r _. split; auto.
      + right. split; [exact H|]. now rewrite <- E.
      + intros e X. destruct (CA e X) as [Y|Y]; [auto|]. right. split; [exact Y|]. now apply N.
  Qed.
End Classes.
