(** PrfMgr1d.v -- the SNMPv1/SNMPv2c manager: the IDs of its requests. *)
From Verif Require Export PrfMgr1c.

(** What the processor and the callbacks see of a request. *)
Definition vw (q : req1) := (rq_community q, rq_pdu q, rq_cb q, rq_alive q).

Section View1.
  Context (V : v12) (rnd : nat -> Z) (clk : nat -> Z).
  Notation m1_step := (m1_step V rnd clk). Notation task1_step := (task1_step V rnd clk).
  Notation reallySend1 := (reallySend1 V rnd).

  Definition same_others (s s' : mgr1) (r : nat) : Prop :=
    length (m1_reqs s') = length (m1_reqs s) /\ forall r', r' <> r -> vw (get1 (m1_reqs s') r') = vw (get1 (m1_reqs s) r').
  Inductive change1 (s s' : mgr1) (x : event1) : Prop :=
  | ch_none : m1_cache s' = m1_cache s -> length (m1_reqs s') = length (m1_reqs s) ->
      (forall r, vw (get1 (m1_reqs s') r) = vw (get1 (m1_reqs s) r)) -> change1 s s' x
  | ch_new : forall p community timeout period, x = MCall p community timeout period -> m1_cache s' = m1_cache s ->
      length (m1_reqs s') = S (length (m1_reqs s)) ->
      vw (get1 (m1_reqs s') (length (m1_reqs s))) = (community, p, false, true) ->
      (forall r, r <> length (m1_reqs s) -> vw (get1 (m1_reqs s') r) = vw (get1 (m1_reqs s) r)) -> change1 s s' x
  | ch_send : forall r o w, let q := get1 (m1_reqs s) r in (r < length (m1_reqs s))%nat -> rq_alive q = true ->
      v12_prepareOutgoing V rnd (m1_cache s) (rq_pdu q) r (negb (rq_cb q)) (rq_community q) = (o, w) ->
      m1_cache s' = s1_cache o ->
      vw (get1 (m1_reqs s') r) = (rq_community q, s1_pdu o, rq_cb q || match s1_callback o with Some _ => true | None => false end, rq_alive q) ->
      same_others s s' r -> change1 s s' x
  | ch_close : forall r a, let q := get1 (m1_reqs s) r in (r < length (m1_reqs s))%nat -> rq_cb q = true ->
      (a = false \/ exists n p, runs1 x n /\ nth_error (m1_tasks s) n = Some (TClose r p)) ->
      m1_cache s' = uncache (m1_cache s) (pdu_requestID (rq_pdu q)) ->
      vw (get1 (m1_reqs s') r) = (rq_community q, rq_pdu q, false, a) -> same_others s s' r -> change1 s s' x
  | ch_die : forall r, let q := get1 (m1_reqs s) r in (r < length (m1_reqs s))%nat -> rq_cb q = false -> m1_cache s' = m1_cache s ->
      vw (get1 (m1_reqs s') r) = (rq_community q, rq_pdu q, false, false) -> same_others s s' r -> change1 s s' x
  | ch_late : forall id e, dict_get Z.eqb (ca_out (m1_cache s)) id = Some e -> rq_alive (get1 (m1_reqs s) (e1_handle e)) = false ->
      m1_cache s' = uncache (m1_cache s) id -> length (m1_reqs s') = length (m1_reqs s) ->
      (forall r, vw (get1 (m1_reqs s') r) = vw (get1 (m1_reqs s) r)) -> change1 s s' x
  | ch_other : forall p community sm o w, x = MOther p community -> m1_cache sm = m1_cache s ->
      length (m1_reqs sm) = S (length (m1_reqs s)) ->
      vw (get1 (m1_reqs sm) (length (m1_reqs s))) = (community, p, false, true) ->
      (forall r, r <> length (m1_reqs s) -> vw (get1 (m1_reqs sm) r) = vw (get1 (m1_reqs s) r)) ->
      v12_prepareOutgoing V rnd (m1_cache sm) p (length (m1_reqs s)) true community = (o, w) ->
      m1_cache s' = s1_cache o ->
      vw (get1 (m1_reqs s') (length (m1_reqs s))) = (community, s1_pdu o, match s1_callback o with Some _ => true | None => false end, true) ->
      same_others sm s' (length (m1_reqs s)) -> change1 s s' x.

  Lemma sbr_vw l l' r : sbr l l' -> vw (get1 l' r) = vw (get1 l r).
  Proof. intros S. destruct (sbr_get _ _ r S) as [w ->]. reflexivity. Qed.
  Lemma vw_put s r q : m1_reqs s = m1_reqs s -> forall r', r' <> r -> vw (get1 (put (m1_reqs s) r q) r') = vw (get1 (m1_reqs s) r').
  Proof. intros _ r' N. now rewrite get1_put_other by auto. Qed.
  (** reallySend1 on a request that is the stored one but for its schedule. *)
  Lemma send_change net s0 s r q s1 w x : m1_cache s = m1_cache s0 -> length (m1_reqs s) = length (m1_reqs s0) ->
    (forall r', vw (get1 (m1_reqs s) r') = vw (get1 (m1_reqs s0) r')) -> (r < length (m1_reqs s0))%nat -> rq_alive (get1 (m1_reqs s0) r) = true -> vw q = vw (get1 (m1_reqs s0) r) ->
    reallySend1 net s r q = (s1, w) -> forall s', m1_cache s' = m1_cache s1 -> sbr (m1_reqs s1) (m1_reqs s') -> change1 s0 s' x.
  Proof.
    intros C L VW R QA Q E s' C' SB. unfold ManagerV1.reallySend1 in E.
    destruct (v12_prepareOutgoing V rnd (m1_cache s) (rq_pdu q) r (negb (rq_cb q)) (rq_community q)) as [o w'] eqn:PO. injection E as <- <-.
    injection Q as Q1 Q2 Q3 Q4. rewrite C, Q1, Q2, Q3 in PO.
    apply (ch_send _ _ _ r o w'); [auto|auto|exact PO| | |].
    - exact C'.
    - rewrite (sbr_vw _ _ _ SB). cbn [set_req with_cache1 m1_reqs]. rewrite get1_put_same by lia. unfold vw. cbn. congruence.
    - split.
      + destruct SB as [-> _]. cbn [set_req with_cache1 m1_reqs]. rewrite put_length. auto.
      + intros r' N. rewrite (sbr_vw _ _ _ SB). cbn [set_req with_cache1 m1_reqs]. rewrite get1_put_other by auto. auto.
  Qed.
  Lemma pop_change s0 s r s' new l x : m1_cache s = m1_cache s0 -> m1_reqs s = m1_reqs s0 ->
    pop1 s r = (s', new, l) -> change1 s0 s' x.
  Proof.
    intros C R E. unfold pop1 in E. destruct (m1_heap s) as [|a t]; [cbn in E; injection E as <- <- <-; apply ch_none; congruence|].
    destruct (heappop ref_lt1 (m1_reqs s) (a :: t)) as [[lq h]|] eqn:P; injection E as <- <- <-; [|apply ch_none; congruence].
    destruct (pop1_spec _ _ _ _ _ P) as (SB & _). rewrite R in SB. apply ch_none; cbn [with_heap1 m1_cache m1_reqs fst]; [auto|apply SB|].
    intros. now apply sbr_vw.
  Qed.
  Lemma task_change net s t s' new l x : (task_req t < length (m1_reqs s))%nat -> rq_alive (get1 (m1_reqs s) (task_req t)) = true -> (forall r, In r (m1_heap s) -> (r < length (m1_reqs s))%nat) ->
    (exists n, runs1 x n /\ nth_error (m1_tasks s) n = Some t) ->
    task1_step net s t = (s', new, l) -> change1 s s' x.
  Proof.
    intros LT TA HP TT E. assert (SAME : forall s1, m1_cache s1 = m1_cache s -> m1_reqs s1 = m1_reqs s -> change1 s s1 x).
    { intros s1 A B. apply ch_none; congruence. }
    destruct t as [r|r m|r|r|r|r limit|r|r p]; unfold ManagerV1.task1_step in E; cbn [task_req] in *.
    - destruct (heappush ref_lt1 (m1_reqs s) (m1_heap s) r) as [lq h] eqn:P. destruct (push1 _ _ _ _ _ P) as (SB & _).
      cbn [tick1 with_heap1 m1_cache m1_reqs m1_heap m1_tasks m1_clock fst snd] in E.
      match type of E with (let '(_, _) := reallySend1 _ ?s1 ?r ?q in _) = _ => destruct (reallySend1 net s1 r q) as [s2 w] eqn:RS end. injection E as <- <- <-.
      eapply (send_change net s _ r _ s2 w x _ _ _ _ _ _ RS); [reflexivity|apply sbr_refl].
      Unshelve. + reflexivity. + apply SB. + intros r'. now apply sbr_vw. + auto. + auto. + cbn [m1_reqs]. now rewrite <- (sbr_vw _ _ _ SB).
    - injection E as <- <- <-. apply ch_none; cbn [set_req m1_cache m1_reqs]; [auto|apply put_length|]. intros r'.
      destruct (Nat.eq_dec r r') as [<-|N]; [now rewrite get1_put_same by auto|now rewrite get1_put_other by auto].
    - cbn [tick1] in E. destruct (sched_expired _ _); injection E as <- <- <-; apply SAME; reflexivity.
    - destruct (m1_heap s); injection E as <- <- <-; apply SAME; reflexivity.
    - unfold locked1 in E. destruct (m1_heap s) as [|root hp] eqn:MH; [injection E as <- <- <-; apply SAME; reflexivity|].
      destruct (negb (rq_alive (get1 (m1_reqs s) root))) eqn:AR; [eapply pop_change; [| |exact E]; reflexivity|].
      destruct (rq_response (get1 (m1_reqs s) root)); [eapply pop_change; [| |exact E]; reflexivity|].
      cbn [tick1] in E. destruct (sched_refresh _ _) as [[|w|c]|e].
      + eapply pop_change; [| |exact E]; reflexivity.
      + injection E as <- <- <-. apply SAME; reflexivity.
      + match type of E with (let '(_, _) := reallySend1 _ ?s1 ?r ?q in _) = _ => destruct (reallySend1 net s1 r q) as [s2 w] eqn:RS end.
        assert (LRO : (root < length (m1_reqs s))%nat) by (apply HP; now left).
        assert (SC : forall s', m1_cache s' = m1_cache s2 -> sbr (m1_reqs s2) (m1_reqs s') -> change1 s s' x).
        { eapply (send_change net s _ root _ s2 w x _ _ _ LRO _ _ RS). Unshelve. - reflexivity. - reflexivity. - reflexivity. - now apply negb_false_iff. - reflexivity. }
        destruct w as [b|e]; [|injection E as <- <- <-; apply SC; [reflexivity|apply sbr_refl]].
        destruct (m1_heap s2) as [|a t] eqn:H2; [cbn in E; injection E as <- <- <-; apply SC; [reflexivity|apply sbr_refl]|].
        destruct (heapreplace ref_lt1 (m1_reqs s2) (a :: t) root) as [[lq h]|] eqn:HR; injection E as <- <- <-; apply SC; try reflexivity; [|apply sbr_refl].
        apply (replace1 _ _ _ _ _ _ HR).
      + injection E as <- <- <-. apply SAME; reflexivity.
    - destruct (rq_response _); [|destruct limit]; injection E as <- <- <-; apply SAME; reflexivity.
    - destruct (rq_response _); injection E as <- <- <-; apply SAME; reflexivity.
    - unfold close1 in E. destruct (rq_cb (get1 (m1_reqs s) r)) eqn:CB; injection E as <- <- <-; [|apply SAME; reflexivity].
      apply (ch_close _ _ _ r (rq_alive (get1 (m1_reqs s) r))); cbn [set_req with_cache1 m1_cache m1_reqs]; auto.
      + right. destruct TT as (n & T1 & T2). eauto.
      + now rewrite get1_put_same by auto.
      + split; [apply put_length|]. intros r' N. cbn [set_req with_cache1 m1_reqs]. now rewrite get1_put_other by auto.
  Qed.
  Lemma step_change evs s l x s' l' : inv1 V clk evs s l -> m1_step s x = (s', l') -> change1 s s' x.
  Proof.
    intros I E. assert (SAME : forall s1, m1_cache s1 = m1_cache s -> m1_reqs s1 = m1_reqs s -> change1 s s1 x).
    { intros s1 A B. apply ch_none; congruence. }
    assert (RUN : forall net n, runs1 x n -> run_task V rnd clk net s n = (s', l') -> change1 s s' x).
    { clear E. intros net n RU E. unfold run_task in E.
      destruct (nth_error (m1_tasks s) n) as [t|] eqn:NE; [|injection E as <- <-; apply SAME; reflexivity].
      destruct (task1_step net s t) as [[s1 new] l1] eqn:TS. injection E as <- <-.
      assert (LT : (task_req t < length (m1_reqs s))%nat) by (apply (i_tasks _ _ _ _ _ I); eapply nth_error_In; eauto).
      assert (TA : rq_alive (get1 (m1_reqs s) (task_req t)) = true) by (apply (i_tasks _ _ _ _ _ I); eapply nth_error_In; eauto).
      pose proof (task_change _ _ _ _ _ _ x LT TA (i_heap _ _ _ _ _ I) (ex_intro _ n (conj RU NE)) TS) as X.
      inversion X; [eapply ch_none|eapply ch_new|eapply ch_send|eapply ch_close|eapply ch_die|eapply ch_late|eapply ch_other]; eauto. }
    destruct x as [p community timeout period|r|d|r|n|n|p community]; cbn [ManagerV1.m1_step] in E.
    - cbn [tick1] in E. injection E as <- <-. eapply ch_new; [reflexivity|reflexivity| | |]; cbn [add_task m1_reqs].
      + rewrite app_length. cbn. lia.
      + now rewrite get1_app, Nat.eqb_refl.
      + intros r N. rewrite get1_app. apply Nat.eqb_neq in N. now rewrite N.
    - destruct (alive1 s r && _); injection E as <- <-; apply SAME; reflexivity.
    - destruct (v12_prepareDataElements V (alive1 s) (m1_cache s) d) as [c [[m h]|e]] eqn:PD; injection E as <- <-.
      + apply v12_incoming in PD as (-> & _). apply SAME; reflexivity.
      + revert PD. unfold v12_prepareDataElements. destruct (message_decode _ _) as [m|]; [|intros X; injection X as <- <-; apply SAME; reflexivity].
        destruct (is_ResponsePDU _); [|intros X; injection X as <- <-; apply SAME; reflexivity].
        unfold retrieve. destruct (dict_get Z.eqb (ca_out (m1_cache s)) (pdu_requestID (m_pdu m))) as [en|] eqn:DG; [|intros X; injection X as <- <-; apply SAME; reflexivity].
        destruct (alive1 s (e1_handle en)) eqn:AL; cbn [negb].
        * destruct (negb _); [intros X; injection X as <- <-; apply SAME; reflexivity|discriminate].
        * intros X. injection X as <- <-. eapply ch_late; [exact DG|exact AL|reflexivity|reflexivity|reflexivity].
    - cbv zeta in E. destruct (negb (rq_alive (get1 (m1_reqs s) r)) || existsb (fun t => Nat.eqb (task_req t) r) (m1_tasks s)) eqn:G; [injection E as <- <-; apply SAME; reflexivity|].
      apply orb_false_iff in G as [G1 G2]. apply negb_false_iff in G1.
      assert (LR : (r < length (m1_reqs s))%nat).
      { destruct (le_lt_dec (length (m1_reqs s)) r) as [L|L]; [|auto]. rewrite get1_out in G1 by auto. discriminate. }
      cbn [rq_cb] in E. destruct (rq_cb (get1 (m1_reqs s) r)) eqn:CB; injection E as <- <-.
      + unfold close1. cbn [rq_cb]. cbn [fst]. eapply (ch_close _ _ _ r false); cbn [set_req with_cache1 m1_cache m1_reqs]; auto.
        * rewrite put_put. now rewrite get1_put_same by auto.
        * split; cbn [set_req with_cache1 m1_reqs]; rewrite put_put; [apply put_length|]. intros r' N. now rewrite get1_put_other by auto.
      + eapply (ch_die _ _ _ r); cbn [set_req with_cache1 m1_cache m1_reqs]; auto.
        * now rewrite get1_put_same by auto.
        * split; cbn [set_req with_cache1 m1_reqs]; [apply put_length|]. intros r' N. now rewrite get1_put_other by auto.
    - apply (RUN true n); [now left|exact E].
    - apply (RUN false n); [now right|exact E].
    - clear RUN SAME. cbn [tick1 m1_cache m1_reqs m1_heap m1_tasks m1_clock] in E. unfold ManagerV1.reallySend1 in E.
      cbn [rq_community rq_pdu rq_cb rq_response rq_sched rq_ref rq_alive m1_cache m1_reqs m1_heap m1_tasks m1_clock negb orb] in E.
      destruct (v12_prepareOutgoing V rnd (m1_cache s) p (length (m1_reqs s)) true community) as [o w] eqn:PO. cbn [fst] in E. injection E as <- <-.
      set (q := mkReq1 community p _ _ _ _ _). set (sm := mkMgr1 _ _ _ _ _).
      eapply (ch_other _ _ _ p community sm o w); [reflexivity|reflexivity|..]; cbn [sm m1_cache m1_reqs set_req with_cache1].
      + rewrite app_length. cbn. lia.
      + now rewrite get1_app, Nat.eqb_refl.
      + intros r N. rewrite get1_app. apply Nat.eqb_neq in N. now rewrite N.
      + exact PO.
      + reflexivity.
      + rewrite get1_put_same by (rewrite app_length; cbn; lia). reflexivity.
      + split; cbn [sm m1_cache m1_reqs set_req with_cache1]; [apply put_length|]. intros r' N. now rewrite get1_put_other by auto.
  Qed.
End View1.
