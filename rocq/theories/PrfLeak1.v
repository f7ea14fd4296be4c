(** PrfLeak1.v -- the SNMPv1/SNMPv2c manager: every outstanding ID belongs to an
    open request, and wait() that is over has given its ID back. *)
From Verif Require Export PrfMgr1f PrfTimeout.

(** wait() is over: it returned, raised ErrorResponse or raised Timeout. *)
Definition over1 (o : outcome1) : bool :=
  match o with OReturned _ | OErrorResponse _ _ _ | ORaised Timeout => true | _ => false end.

Section Leak1.
  Context (V : v12) (rnd : nat -> Z) (clk : nat -> Z) (HR : draws_ok gen_v1 rnd).
  Notation m1_step := (m1_step V rnd clk). Notation m1_run := (m1_run V rnd clk).
  Notation ID q := (pdu_requestID (rq_pdu q)).

  Definition owned1 (s : mgr1) : Prop := forall id e, dict_get Z.eqb (ca_out (m1_cache s)) id = Some e ->
    rq_cb (get1 (m1_reqs s) (e1_handle e)) = true /\ ID (get1 (m1_reqs s) (e1_handle e)) = id.
  Definition nodup1 (s : mgr1) : Prop := NoDup (keys (ca_out (m1_cache s))).
  Lemma owned1_step evs s l x s' : inv1 V clk evs s l -> keep1 evs s -> nodup1 s -> owned1 s -> change1 V rnd s s' x -> owned1 s'.
  Proof.
    intros I K ND O CH. pose proof (k_gen _ _ K) as K1.
    assert (LT : forall id e, dict_get Z.eqb (ca_out (m1_cache s)) id = Some e -> (e1_handle e < length (m1_reqs s))%nat).
    { intros id e G. apply (i_cache _ _ _ _ _ I id e). now apply zget_in. }
    assert (SAME : (forall r, (r < length (m1_reqs s))%nat -> vw (get1 (m1_reqs s') r) = vw (get1 (m1_reqs s) r)) ->
      (forall id e, dict_get Z.eqb (ca_out (m1_cache s')) id = Some e -> dict_get Z.eqb (ca_out (m1_cache s)) id = Some e) -> owned1 s').
    { intros VW D id e G. apply D in G. destruct (O _ _ G) as [A B]. destruct (vw_inj _ _ (VW _ (LT _ _ G))) as (_ & -> & -> & _). auto. }
    destruct CH as [C L VW|p community t pr -> C L NW OTH|r o w q LR QA PO C VW SO|r a q LR CB _ C VW SO|r q LR CB C VW SO|id e DG AL C L VW|p community sm o w -> C L NW OTH PO C' VW SO].
    - apply SAME; [auto|]. intros id e. now rewrite C.
    - apply SAME; [intros r Hr; apply OTH; lia|]. intros id e. now rewrite C.
    - unfold v12_prepareOutgoing in PO. destruct (Z.eqb_spec (ID q) 0) as [Z0|Z0].
      2:{ injection PO as <- _. cbn [s1_cache s1_pdu s1_callback] in *. rewrite orb_false_r in VW. apply SAME; [|intros id e; now rewrite C].
          intros r' _. destruct (Nat.eq_dec r' r) as [->|N]; [exact VW|apply SO, N]. }
      assert (CB : rq_cb q = false) by (destruct (rq_cb q) eqn:CB; [exfalso; apply (i_cb _ _ _ _ _ I r CB); exact Z0|auto]).
      destruct (cache gen_v1 rnd (m1_cache s) (mkE1 r (rq_community q))) as [c [id|e]] eqn:CE; unfold cache in CE.
      + destruct (loop_ok gen_v1 rnd ltac:(cbn; lia) HR _ _ _ _ _ K1 CE) as (N & R & FREE & OUT & G).
        rewrite CB in PO. cbn [negb] in PO. injection PO as <- _. cbn [s1_cache s1_pdu s1_callback orb] in *. rewrite orb_true_r in VW.
        intros id' e' G'. rewrite C, OUT in G'. destruct (Z.eq_dec id' id) as [->|NE].
        * rewrite zget_set_same in G'. injection G' as <-. cbn [e1_handle]. unfold vw in VW. injection VW as _ V2 V3 _. rewrite V2, V3. auto.
        * rewrite zget_set_other in G' by auto. destruct (O _ _ G') as [A B]. assert (NR : e1_handle e' <> r) by (intros EQ; rewrite EQ in A; fold q in A; congruence).
          destruct (vw_inj _ _ (proj2 SO _ NR)) as (_ & -> & -> & _). auto.
      + pose proof (cache_loop_out _ _ _ _ _ _ _ CE) as OUT. injection PO as <- _. cbn [s1_cache s1_pdu s1_callback] in *. rewrite orb_false_r in VW.
        apply SAME; [|intros id e'; now rewrite C, OUT]. intros r' _. destruct (Nat.eq_dec r' r) as [->|N]; [exact VW|apply SO, N].
    - intros id e G. rewrite C in G. cbn [uncache ca_out] in G. destruct (Z.eq_dec id (ID q)) as [->|NE].
      + rewrite zget_del_same in G by exact ND. discriminate G.
      + rewrite zget_del_other in G by auto. destruct (O _ _ G) as [A B]. assert (NR : e1_handle e <> r) by (intros EQ; rewrite EQ in B; fold q in B; congruence).
        destruct (vw_inj _ _ (proj2 SO _ NR)) as (_ & -> & -> & _). auto.
    - intros id e G. rewrite C in G. destruct (O _ _ G) as [A B]. assert (NR : e1_handle e <> r) by (intros EQ; rewrite EQ in A; fold q in A; congruence).
      destruct (vw_inj _ _ (proj2 SO _ NR)) as (_ & -> & -> & _). auto.
    - apply SAME; [auto|]. intros id' e' G. rewrite C in G. cbn [uncache ca_out] in G. destruct (Z.eq_dec id' id) as [->|NE]; [rewrite zget_del_same in G by exact ND; discriminate G|].
      now rewrite zget_del_other in G by auto.
    - assert (OLD : forall e, (e1_handle e < length (m1_reqs s))%nat -> vw (get1 (m1_reqs s') (e1_handle e)) = vw (get1 (m1_reqs s) (e1_handle e))).
      { intros e LE. destruct SO as [_ SO]. rewrite SO by lia. apply OTH. lia. }
      assert (KEEP : forall id e, dict_get Z.eqb (ca_out (m1_cache s)) id = Some e -> rq_cb (get1 (m1_reqs s') (e1_handle e)) = true /\ ID (get1 (m1_reqs s') (e1_handle e)) = id).
      { intros id e G. destruct (O _ _ G) as [A B]. destruct (vw_inj _ _ (OLD e (LT _ _ G))) as (_ & -> & -> & _). auto. }
      unfold v12_prepareOutgoing in PO. rewrite C in PO. destruct (pdu_requestID p =? 0).
      2:{ injection PO as <- _. cbn [s1_cache] in C'. intros id e. rewrite C'. apply KEEP. }
      destruct (cache gen_v1 rnd (m1_cache s) (mkE1 (length (m1_reqs s)) community)) as [c [id|e]] eqn:CE; unfold cache in CE.
      + destruct (loop_ok gen_v1 rnd ltac:(cbn; lia) HR _ _ _ _ _ K1 CE) as (N & R & FREE & OUT & G).
        injection PO as <- _. cbn [s1_cache s1_pdu s1_callback] in *. intros id' e' G'. rewrite C', OUT in G'. destruct (Z.eq_dec id' id) as [->|NE].
        * rewrite zget_set_same in G'. injection G' as <-. cbn [e1_handle]. unfold vw in VW. injection VW as _ V2 V3 _. rewrite V2, V3. auto.
        * rewrite zget_set_other in G' by auto. auto.
      + pose proof (cache_loop_out _ _ _ _ _ _ _ CE) as OUT. injection PO as <- _. cbn [s1_cache] in C'. intros id e'. rewrite C', OUT. apply KEEP.
  Qed.
  Lemma nodup_loop j (c : cache_st entry1) e c' w : NoDup (keys (ca_out c)) -> cache_loop gen_v1 rnd j c e = (c', w) -> NoDup (keys (ca_out c')).
  Proof.
    revert c. induction j as [|j IH]; intros c ND E; cbn [cache_loop] in E; [injection E as <- _; exact ND|].
    unfold cache_attempt in E. destruct (numgen_next (ca_gen c)) as [i g]. destruct (i =? 0); [apply IH in E; [exact E|exact ND]|].
    destruct (dict_mem _ _ _); [apply IH in E; [exact E|exact ND]|]. injection E as <- _. cbn [ca_out]. apply znodup_set, ND.
  Qed.
  Lemma nodup_prepare c p h f community o w : NoDup (keys (ca_out c)) -> v12_prepareOutgoing V rnd c p h f community = (o, w) -> NoDup (keys (ca_out (s1_cache o))).
  Proof.
    intros ND E. unfold v12_prepareOutgoing in E. destruct (pdu_requestID p =? 0).
    - destruct (cache gen_v1 rnd c (mkE1 h community)) as [c1 [id|e]] eqn:CE; unfold cache in CE; apply nodup_loop in CE; auto; [destruct f|]; injection E as <- _; exact CE.
    - injection E as <- _. exact ND.
  Qed.
  Lemma nodup1_step s x s' : nodup1 s -> change1 V rnd s s' x -> nodup1 s'.
  Proof.
    unfold nodup1. intros ND CH.
    destruct CH as [C L VW|p community t pr -> C L NW OTH|r o w q LR QA PO C VW SO|r a q LR CB _ C VW SO|r q LR CB C VW SO|id e DG AL C L VW|p community sm o w -> C L NW OTH PO C' VW SO]; try (rewrite C; exact ND).
    - rewrite C. eapply nodup_prepare; eauto.
    - rewrite C. apply znodup_del, ND.
    - rewrite C. apply znodup_del, ND.
    - rewrite C'. eapply nodup_prepare; [|exact PO]. rewrite C. exact ND.
  Qed.
  (** The request was closed. *)
  Definition closed1 (s : mgr1) (r : nat) : Prop := (r < length (m1_reqs s))%nat /\ rq_cb (get1 (m1_reqs s) r) = false /\ ID (get1 (m1_reqs s) r) <> 0.
  Lemma closed1_step s x s' r : closed1 s r -> change1 V rnd s s' x -> closed1 s' r.
  Proof.
    intros (LR & CB & N0) CH.
    assert (SAME : (length (m1_reqs s) <= length (m1_reqs s'))%nat -> vw (get1 (m1_reqs s') r) = vw (get1 (m1_reqs s) r) -> closed1 s' r).
    { intros L VW. destruct (vw_inj _ _ VW) as (_ & V2 & V3 & _). split; [lia|]. rewrite V2, V3. auto. }
    destruct CH as [C L VW|p community t pr -> C L NW OTH|r0 o w q LR0 QA PO C VW SO|r0 a q LR0 CB0 _ C VW SO|r0 q LR0 CB0 C VW SO|id e DG AL C L VW|p community sm o w -> C L NW OTH PO C' VW SO].
    - apply SAME; [lia|auto].
    - apply SAME; [lia|apply OTH; lia].
    - destruct (Nat.eq_dec r r0) as [->|N]; [|apply SAME; [destruct SO; lia|apply SO, N]]. apply SAME; [destruct SO; lia|].
      unfold v12_prepareOutgoing in PO. destruct (Z.eqb_spec (ID q) 0) as [Z0|Z0]; [easy|]. injection PO as <- _. cbn in VW. rewrite orb_false_r in VW. exact VW.
    - destruct (Nat.eq_dec r r0) as [->|N]; [|apply SAME; [destruct SO; lia|apply SO, N]]. subst q. congruence.
    - destruct (Nat.eq_dec r r0) as [->|N]; [|apply SAME; [destruct SO; lia|apply SO, N]]. destruct SO as [L _]. unfold vw in VW. injection VW as _ V2 V3 _.
      split; [lia|]. rewrite V2, V3. auto.
    - apply SAME; [lia|auto].
    - destruct SO as [L2 SO]. apply SAME; [lia|]. rewrite SO by lia. apply OTH. lia.
  Qed.
  Lemma prepare_timely c p h f community o : v12_prepareOutgoing V rnd c p h f community <> (o, Raise Timeout).
  Proof.
    unfold v12_prepareOutgoing. destruct (pdu_requestID p =? 0).
    - destruct (cache gen_v1 rnd c (mkE1 h community)) as [c1 [id|e]] eqn:CE.
      + destruct f; [|discriminate]. intros E. injection E as _ E. exact (timely_message _ E).
      + intros E. injection E as _ ->. unfold cache in CE. clear - CE. revert c CE. generalize 10%nat as j.
        induction j as [|j IH]; intros c CE; cbn [cache_loop] in CE; [discriminate|].
        destruct (cache_attempt gen_v1 rnd c (mkE1 h community)) as [[i|] c2]; [discriminate|]. eapply IH; eauto.
    - intros E. injection E as _ E. exact (timely_message _ E).
  Qed.
  Lemma over_closes evs s l x s' l' r o : inv1 V clk evs s l -> m1_step s x = (s', l') -> In (LOutcome r o) l' -> over1 o = true -> closed1 s' r.
  Proof.
    intros I E IN OV.
    assert (NONE : forall y, In y l' -> y <> LOutcome r o -> True) by auto. clear NONE.
    assert (RUN : forall net n, runs1 x n -> run_task V rnd clk net s n = (s', l') -> closed1 s' r).
    2:{ destruct x as [p c t pr|r0|d|r0|n|n|p c]; cbn [ManagerV1.m1_step] in E; try (eapply RUN; [now left + now right|exact E]).
        - destruct (tick1 clk s) as [now s1]. injection E as _ <-. destruct IN.
        - destruct (_ && _); injection E as _ <-; destruct IN.
        - destruct (v12_prepareDataElements V (alive1 s) (m1_cache s) d) as [c [[m h]|e]]; injection E as _ <-; destruct IN.
        - destruct (_ || _); injection E as _ <-; destruct IN.
        - destruct (tick1 clk s) as [now s1]. injection E as _ <-. destruct IN. }
    intros net n RU RT. unfold run_task in RT. destruct (nth_error (m1_tasks s) n) as [t|] eqn:T; [|injection RT as _ <-; destruct IN].
    destruct (task1_step V rnd clk net s t) as [[s1 new] l1] eqn:TS. injection RT as <- <-.
    assert (X : closed1 s1 r); [|destruct X as (X1 & X2 & X3); split; [exact X1|]; split; [exact X2|exact X3]].
    assert (SEND : forall s2 r2 q2 s3 w, reallySend1 V rnd net s2 r2 q2 = (s3, w) -> w <> Raise Timeout).
    { intros s2 r2 q2 s3 w RS. unfold reallySend1 in RS. destruct (v12_prepareOutgoing _ _ _ _ _ _ _) as [o2 w2] eqn:PO. injection RS as _ <-.
      destruct w2 as [b|e]; cbn [bind]; [destruct net; discriminate|]. intros K. injection K as ->. exact (prepare_timely _ _ _ _ _ _ PO). }
    destruct t as [r0|r0 m|r0|r0|r0|r0 lim|r0|r0 p]; cbn [ManagerV1.task1_step task_req] in TS.
    - destruct (tick1 clk _) as [now s2]. destruct (reallySend1 _ _ _ _ _ _) as [s3 w]. injection TS as _ _ <-. destruct IN as [IN|[]]. destruct w; discriminate IN.
    - injection TS as _ _ <-. destruct IN as [IN|[]]. discriminate IN.
    - destruct (tick1 clk s) as [now s2]. destruct (sched_expired _ _); injection TS as _ _ <-; destruct IN.
    - destruct (m1_heap s); injection TS as _ _ <-; [destruct IN as [IN|[]]; discriminate IN|destruct IN].
    - unfold locked1 in TS. assert (POP : forall s2, pop1 s2 r0 = (s1, new, l1) -> closed1 s1 r).
      { intros s2 P. unfold pop1 in P. destruct (heappop _ _ _); injection P as _ _ <-; [destruct IN|]. destruct IN as [IN|[]]. injection IN as _ <-. discriminate OV. }
      destruct (m1_heap s) as [|root hp]; [injection TS as _ _ <-; destruct IN as [IN|[]]; injection IN as _ <-; discriminate OV|].
      destruct (negb _); [eapply POP; exact TS|]. destruct (rq_response _); [eapply POP; exact TS|]. destruct (tick1 clk s) as [now s2].
      destruct (sched_refresh (rq_sched (get1 (m1_reqs s) root)) now) as [[| |]|e] eqn:SR.
      + eapply POP; exact TS.
      + injection TS as _ _ <-. destruct IN as [IN|[]]; discriminate IN.
      + destruct (reallySend1 _ _ _ _ _ _) as [s3 w] eqn:RS. destruct w as [b|e].
        * destruct (heapreplace _ _ _ _); injection TS as _ _ <-; destruct IN as [IN|[]]; [discriminate IN|]. injection IN as _ <-. discriminate OV.
        * injection TS as _ _ <-. destruct IN as [IN|[IN|[]]]; [discriminate IN|]. injection IN as _ <-. cbn [over1] in OV. destruct e; try discriminate OV. exfalso. exact (SEND _ _ _ _ _ RS eq_refl).
      + injection TS as _ _ <-. destruct IN as [IN|[]]. injection IN as _ <-. exfalso. cbn [over1] in OV. unfold sched_refresh in SR.
        destruct (_ <=? 0); [|discriminate SR]. destruct (_ <=? now); [discriminate SR|]. destruct (_ =? 0); [injection SR as <-; discriminate OV|discriminate SR].
    - destruct (rq_response _), lim; injection TS as _ _ <-; destruct IN.
    - destruct (rq_response _); injection TS as _ _ <-; [destruct IN|]. destruct IN as [IN|[]]. injection IN as _ <-. discriminate OV.
    - destruct (close1 s r0 (get1 (m1_reqs s) r0)) as [s2 [u|e]] eqn:CL.
      + injection TS as <- _ <-. destruct IN as [IN|[]]. injection IN as <- _. unfold close1 in CL. destruct (rq_cb (get1 (m1_reqs s) r0)) eqn:CB; [|discriminate CL].
        injection CL as <- _. assert (LR : (r0 < length (m1_reqs s))%nat).
        { destruct (le_lt_dec (length (m1_reqs s)) r0) as [L|L]; [|auto]. rewrite get1_out in CB by auto. discriminate CB. }
        unfold closed1, set_req. cbn [m1_reqs]. cbn [with_cache1 m1_reqs]. rewrite put_length. split; [lia|]. rewrite get1_put_same by lia. cbn [rq_cb rq_pdu]. split; [reflexivity|].
        exact (i_cb _ _ _ _ _ I r0 CB).
      + injection TS as _ _ <-. destruct IN as [IN|[]]. injection IN as _ <-. unfold close1 in CL. destruct (rq_cb _); [discriminate CL|]. injection CL as _ <-. discriminate OV.
  Qed.
  Lemma leak1_run evs s l : m1_run evs = (s, l) -> nodup1 s /\ owned1 s /\ forall r o, In (LOutcome r o) l -> over1 o = true -> closed1 s r.
  Proof.
    revert s l. induction evs as [|x evs IH] using rev_ind; unfold ManagerV1.m1_run; intros s l E.
    - injection E as <- <-. split; [constructor|]; split; [intros id e G; discriminate G|intros r o []].
    - rewrite fold_left_app in E. cbn [fold_left] in E. destruct (fold_left _ evs _) as [s0 l0] eqn:E0.
      unfold m1_next in E. destruct (m1_step s0 x) as [s1 l1] eqn:ST. injection E as <- <-. destruct (IH s0 l0 E0) as (ND & O & CL).
      pose proof (inv1_run V rnd clk evs s0 l0 E0) as I. pose proof (keep1_run V rnd clk HR evs s0 l0 E0) as K. pose proof (step_change V rnd clk _ _ _ _ _ _ I ST) as CH.
      split; [eapply nodup1_step; eauto|]; split; [eapply owned1_step; eauto|]. intros r o IN OV. apply in_app_or in IN as [IN|IN].
      + rewrite <- in_rev in IN. eapply over_closes; eauto.
      + eapply closed1_step; eauto.
  Qed.
End Leak1.
