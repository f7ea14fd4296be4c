(** PrfMgr1f.v -- the SNMPv1/SNMPv2c manager: a request that was sent stays open
    until it is abandoned or a wait() is over, and an answer gets through. *)
From Verif Require Export PrfMgr1e.

Section Open1.
  Context (V : v12) (rnd : nat -> Z) (clk : nat -> Z) (HR : draws_ok gen_v1 rnd).
  Notation m1_step := (m1_step V rnd clk). Notation m1_run := (m1_run V rnd clk).

  (** The ID was given by the processor, and the request is not closed. *)
  Definition open1 (evs : list event1) (s : mgr1) (l : list log1) : Prop :=
    forall r p community, nth_error (calls evs) r = Some (p, community) -> pdu_requestID p = 0 ->
    pdu_requestID (rq_pdu (get1 (m1_reqs s) r)) <> 0 -> rq_alive (get1 (m1_reqs s) r) = true ->
    (forall o, ~ In (LOutcome r o) l) -> rq_cb (get1 (m1_reqs s) r) = true.
  Lemma close_logs s x n r p s' l' : nth_error (m1_tasks s) n = Some (TClose r p) -> runs1 x n -> m1_step s x = (s', l') ->
    exists o, In (LOutcome r o) l'.
  Proof.
    intros T RU E. destruct RU as [-> | ->]; cbn [ManagerV1.m1_step] in E; unfold run_task in E; rewrite T in E; cbn [ManagerV1.task1_step task_req] in E;
      (destruct (close1 s r (get1 (m1_reqs s) r)) as [s1 [u|e]]; injection E as <- <-; eexists; left; reflexivity).
  Qed.
  Lemma open1_step evs s l x s' l' : inv1 V clk evs s l -> keep1 evs s -> open1 evs s l -> m1_step s x = (s', l') ->
    open1 (evs ++ [x]) s' (rev l' ++ l).
  Proof.
    intros I K O E r p community NE ID0 ID AL NO.
    assert (NOl : forall o, ~ In (LOutcome r o) l) by (intros o H; apply (NO o), in_or_app; auto).
    assert (NOl' : forall o, ~ In (LOutcome r o) l') by (intros o H; apply (NO o), in_or_app; left; now rewrite <- in_rev).
    (* the request was there before, or is new *)
    destruct (nth_error (calls evs) r) as [[p0 c0]|] eqn:OLD.
    2:{ apply nth_error_None in OLD.
      assert (NC : exists p1 c1, makes x p1 c1).
      { destruct x as [p1 c1 t pr|?|?|?|?|?|p1 c1]; [exists p1, c1; left; eauto|..|exists p1, c1; now right];
          exfalso; rewrite calls_step in NE by (intros ? ? [(? & ? & ?)|?]; discriminate); apply nth_error_None in OLD; congruence. }
      destruct NC as (p1 & c1 & M). rewrite (calls_made _ _ _ _ M) in NE.
      assert (R : r = length (calls evs)).
      { assert (r < length (calls evs ++ [(p1, c1)]))%nat by (apply nth_error_Some; congruence).
        rewrite app_length in *. cbn in *. lia. }
      subst r. rewrite nth_error_app2, Nat.sub_diag in NE by lia. cbn in NE. injection NE as -> ->.
      rewrite (k_count _ _ K) in *. destruct M as [(t & pr & ->)| ->].
      - exfalso. cbn [ManagerV1.m1_step tick1] in E. injection E as <- <-. cbn [add_task m1_reqs] in ID.
        rewrite get1_app, Nat.eqb_refl in ID. cbn in ID. congruence.
      - pose proof (step_calls _ _ _ _ _ _ _ _ _ (or_intror eq_refl) E) as LL.
        pose proof (step_change _ _ _ _ _ _ _ _ _ I E) as CH.
        destruct CH as [C L VW|p1 c1 t pr X C L NW OTH|r1 o w q LR1 QA PO C VW SO|r1 a q LR1 CB CL C VW SO|r1 q LR1 CB C VW SO|id e DG AL1 C L VW|p1 c1 sm o w X C L NW OTH PO C' VW SO];
          try discriminate X; try (exfalso; lia); try (destruct SO; exfalso; lia).
        injection X as <- <-. unfold vw in VW. injection VW as V1 V2 V3 V4. rewrite V3. rewrite V2 in ID.
        unfold v12_prepareOutgoing in PO. rewrite ID0 in PO. cbn [Z.eqb] in PO.
        destruct (cache _ _ _ _) as [c' [id|e]]; injection PO as <- <-; cbn [s1_pdu s1_callback] in *; [reflexivity|congruence]. }
    assert (P0 : p0 = p /\ c0 = community).
    { rewrite calls_app, nth_error_app1 in NE by (apply nth_error_Some; congruence). rewrite OLD in NE. injection NE as -> ->. auto. }
    destruct P0 as [-> ->].
    assert (LR : (r < length (m1_reqs s))%nat).
    { rewrite <- (k_count _ _ K). apply nth_error_Some. congruence. }
    assert (KEEP : vw (get1 (m1_reqs s') r) = vw (get1 (m1_reqs s) r) -> rq_cb (get1 (m1_reqs s') r) = true).
    { intros VW. destruct (vw_inj _ _ VW) as (A1 & A2 & A3 & A4). rewrite A3. rewrite A2 in ID. rewrite A4 in AL. eapply O; eauto. }
    pose proof (step_change _ _ _ _ _ _ _ _ _ I E) as CH.
    destruct CH as [C L VW|p1 c1 t pr -> C L NW OTH|r1 o w q LR1 QA PO C VW SO|r1 a q LR1 CB CL C VW SO|r1 q LR1 CB C VW SO|id e DG AL1 C L VW|p1 c1 sm o w -> C L NW OTH PO C' VW SO].
    - auto.
    - apply KEEP, OTH. lia.
    - destruct (Nat.eq_dec r r1) as [<-|N]; [|now apply KEEP, SO]. unfold vw in VW. injection VW as V1 V2 V3 V4. rewrite V3. rewrite V2 in ID.
      change q with (get1 (m1_reqs s) r) in *. clear q.
      unfold v12_prepareOutgoing in PO. destruct (pdu_requestID (rq_pdu (get1 (m1_reqs s) r)) =? 0) eqn:Z0.
      + destruct (rq_cb (get1 (m1_reqs s) r)) eqn:CB; [reflexivity|].
        destruct (cache _ _ _ _) as [c [id|e]]; cbn [negb] in PO; injection PO as <- <-; cbn [s1_pdu s1_callback] in *; [reflexivity|lia].
      + injection PO as <- <-. cbn [s1_pdu s1_callback] in *. rewrite (O _ _ _ OLD ID0); auto.
    - destruct (Nat.eq_dec r r1) as [<-|N]; [|now apply KEEP, SO]. unfold vw in VW. injection VW as V1 V2 V3 V4. exfalso.
      destruct CL as [->|(n & pp & RU & T)]; [congruence|]. destruct (close_logs _ _ _ _ _ _ _ T RU E) as [o H]. exact (NOl' o H).
    - destruct (Nat.eq_dec r r1) as [<-|N]; [|now apply KEEP, SO]. unfold vw in VW. injection VW as V1 V2 V3 V4. congruence.
    - auto.
    - apply KEEP. destruct SO as [_ SO]. rewrite SO by lia. apply OTH. lia.
  Qed.
  Lemma open1_run evs s l : m1_run evs = (s, l) -> open1 evs s l.
  Proof.
    revert s l. induction evs as [|x evs IH] using rev_ind; intros s l E.
    - cbn in E. injection E as <- <-. intros r p c H. destruct r; discriminate.
    - unfold ManagerV1.m1_run in E. rewrite fold_left_app in E. cbn [fold_left] in E.
      destruct (fold_left (m1_next V rnd clk) evs (mgr1_new rnd, [])) as [s0 l0] eqn:E0. unfold m1_next in E.
      destruct (m1_step s0 x) as [s1 l1] eqn:E1. injection E as <- <-.
      eapply open1_step; [| |apply IH; exact E0|exact E1].
      + eapply inv1_run; exact E0.
      + eapply keep1_run; [exact HR|exact E0].
  Qed.
End Open1.
