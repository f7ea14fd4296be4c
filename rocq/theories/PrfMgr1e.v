(** PrfMgr1e.v -- the SNMPv1/SNMPv2c manager: requests keep what was asked for,
    and hold their ID until they are closed. *)
From Verif Require Export PrfMgr1d SpecApi.

Lemma calls_app a b : calls (a ++ b) = calls a ++ calls b.
Proof. induction a as [|x a IH]; [reflexivity|]. destruct x; cbn [app calls]; rewrite IH; reflexivity. Qed.
Lemma loop_gen {E} G rnd (H1 : 1 <= gs_bits G) (HR : draws_ok G rnd) j (c : cache_st E) e : gen_at G (ca_gen c) ->
  gen_at G (ca_gen (fst (cache_loop G rnd j c e))).
Proof.
  revert c; induction j as [|j IH]; intros c H; cbn [cache_loop]; [exact H|].
  pose proof (attempt_gen G rnd HR c e H) as X. destruct (cache_attempt G rnd c e) as [[i|] c1]; cbn [snd fst] in *; auto.
Qed.

(** The PDU [d] is [p] with an ID. *)
Definition with_id (p d : pdu) : Prop :=
  d = p \/ (pdu_requestID p = 0 /\ exists id, id <> 0 /\ id_in_range gen_v1 id /\ d = set_requestID p id).
Record keep1 (evs : list event1) (s : mgr1) : Prop := mkKeep1 {
  k_gen : gen_at gen_v1 (ca_gen (m1_cache s));
  k_held : forall r, rq_cb (get1 (m1_reqs s) r) = true ->
    dict_get Z.eqb (ca_out (m1_cache s)) (pdu_requestID (rq_pdu (get1 (m1_reqs s) r))) = Some (mkE1 r (rq_community (get1 (m1_reqs s) r)));
  k_dead : forall r, rq_alive (get1 (m1_reqs s) r) = false -> rq_cb (get1 (m1_reqs s) r) = false;
  k_count : length (calls evs) = length (m1_reqs s);
  k_asked : forall r p community, nth_error (calls evs) r = Some (p, community) ->
    rq_community (get1 (m1_reqs s) r) = community /\ with_id p (rq_pdu (get1 (m1_reqs s) r))
}.

Section Keep1.
  Context (V : v12) (rnd : nat -> Z) (clk : nat -> Z) (HR : draws_ok gen_v1 rnd).

  Lemma keep1_new : keep1 [] (mgr1_new rnd).
  Proof.
    constructor; cbn; try reflexivity.
    - apply gen_at_init. apply HR.
    - intros [|r]; discriminate.
    - intros [|r]; reflexivity.
    - intros [|r]; discriminate.
  Qed.
  Lemma vw_inj q q' : vw q = vw q' -> rq_community q = rq_community q' /\ rq_pdu q = rq_pdu q' /\ rq_cb q = rq_cb q' /\ rq_alive q = rq_alive q'.
  Proof. intros H. injection H. auto. Qed.
  (** The event makes a request. *)
  Definition makes (x : event1) (p : pdu) (c : bytes) : Prop := (exists t pr, x = MCall p c t pr) \/ x = MOther p c.
  Lemma calls_step evs x : (forall p c, ~ makes x p c) -> calls (evs ++ [x]) = calls evs.
  Proof.
    intros N. rewrite calls_app. destruct x; cbn [calls]; rewrite ?app_nil_r; auto; exfalso; eapply N; [left; do 2 eexists; reflexivity|right; reflexivity].
  Qed.
  Lemma calls_made evs x p c : makes x p c -> calls (evs ++ [x]) = calls evs ++ [(p, c)].
  Proof. intros M. rewrite calls_app. destruct M as [(t & pr & ->)| ->]; reflexivity. Qed.
  Lemma keep1_calls evs evs' s : calls evs' = calls evs -> keep1 evs s -> keep1 evs' s.
  Proof. intros C [K1 K2 K3 K4 K5]. constructor; auto; rewrite C; auto. Qed.
  Lemma held_other s r r' c : (forall r, rq_cb (get1 (m1_reqs s) r) = true ->
      dict_get Z.eqb (ca_out (m1_cache s)) (pdu_requestID (rq_pdu (get1 (m1_reqs s) r))) = Some (mkE1 r (rq_community (get1 (m1_reqs s) r)))) ->
    rq_cb (get1 (m1_reqs s) r) = true -> rq_cb (get1 (m1_reqs s) r') = true -> r <> r' -> c = m1_cache s ->
    dict_get Z.eqb (ca_out (uncache c (pdu_requestID (rq_pdu (get1 (m1_reqs s) r))))) (pdu_requestID (rq_pdu (get1 (m1_reqs s) r'))) =
    Some (mkE1 r' (rq_community (get1 (m1_reqs s) r'))).
  Proof.
    intros H A B N ->. unfold uncache. cbn [ca_out]. pose proof (H _ A) as HA. pose proof (H _ B) as HB.
    rewrite zget_del_other; [exact HB|]. intros EQ. rewrite EQ in HB. rewrite HB in HA. injection HA as HA. congruence.
  Qed.
  Lemma with_id_again p d id : with_id p d -> pdu_requestID d = 0 -> id <> 0 -> id_in_range gen_v1 id -> with_id p (set_requestID d id).
  Proof.
    intros [->|(P0 & i & N & _ & ->)] D0 N' R; [right; split; [auto|]; exists id; auto|]. cbn in D0. congruence.
  Qed.
  Lemma keep1_quiet evs s x s' : (forall r, rq_cb (get1 (m1_reqs s) r) = true -> pdu_requestID (rq_pdu (get1 (m1_reqs s) r)) <> 0) ->
    keep1 evs s -> change1 V rnd s s' x -> length (m1_reqs s') = length (m1_reqs s) -> keep1 evs s'.
  Proof.
    intros I K CH NC. pose proof K as [K1 K2 K3 K4 K5].
    (* nothing but the cache changes *)
    assert (SAME : length (m1_reqs s') = length (m1_reqs s) -> (forall r, vw (get1 (m1_reqs s') r) = vw (get1 (m1_reqs s) r)) ->
      ca_gen (m1_cache s') = ca_gen (m1_cache s) ->
      (forall r, rq_cb (get1 (m1_reqs s) r) = true ->
         dict_get Z.eqb (ca_out (m1_cache s')) (pdu_requestID (rq_pdu (get1 (m1_reqs s) r))) =
         dict_get Z.eqb (ca_out (m1_cache s)) (pdu_requestID (rq_pdu (get1 (m1_reqs s) r)))) -> keep1 evs s').
    { intros L VW G D. constructor.
      - now rewrite G.
      - intros r. destruct (vw_inj _ _ (VW r)) as (-> & -> & -> & _). intros H. rewrite D by auto. auto.
      - intros r. destruct (vw_inj _ _ (VW r)) as (_ & _ & -> & ->). auto.
      - lia.
      - intros r p c. destruct (vw_inj _ _ (VW r)) as (-> & -> & _). auto. }
    (* one request changes *)
    assert (ONE : forall r q, (r < length (m1_reqs s))%nat -> vw (get1 (m1_reqs s') r) = vw q -> same_others s s' r ->
      gen_at gen_v1 (ca_gen (m1_cache s')) ->
      (rq_cb q = true -> dict_get Z.eqb (ca_out (m1_cache s')) (pdu_requestID (rq_pdu q)) = Some (mkE1 r (rq_community q))) ->
      (rq_alive q = false -> rq_cb q = false) -> rq_community q = rq_community (get1 (m1_reqs s) r) ->
      (forall p, with_id p (rq_pdu (get1 (m1_reqs s) r)) -> with_id p (rq_pdu q)) ->
      (forall r', r' <> r -> rq_cb (get1 (m1_reqs s) r') = true ->
         dict_get Z.eqb (ca_out (m1_cache s')) (pdu_requestID (rq_pdu (get1 (m1_reqs s) r'))) =
         dict_get Z.eqb (ca_out (m1_cache s)) (pdu_requestID (rq_pdu (get1 (m1_reqs s) r')))) -> keep1 evs s').
    { intros r q LR Q [L SO] G H A C W O.
      destruct (vw_inj _ _ Q) as (Q1 & Q2 & Q3 & Q4). constructor.
      - exact G.
      - intros r'. destruct (Nat.eq_dec r' r) as [->|N]; [rewrite Q1, Q2, Q3; auto|].
        destruct (vw_inj _ _ (SO r' N)) as (-> & -> & -> & _). intros B. rewrite O by auto. auto.
      - intros r'. destruct (Nat.eq_dec r' r) as [->|N]; [rewrite Q3, Q4; auto|]. destruct (vw_inj _ _ (SO r' N)) as (_ & _ & -> & ->). auto.
      - lia.
      - intros r' p c. intros NE. destruct (K5 _ _ _ NE) as [A1 A2].
        destruct (Nat.eq_dec r' r) as [->|N]; [rewrite Q1, Q2, C; auto|]. destruct (vw_inj _ _ (SO r' N)) as (-> & -> & _). auto. }
    destruct CH as [C L VW|p community t pr -> C L NW OTH|r o w q LR QA PO C VW SO|r a q LR CB _ C VW SO|r q LR CB C VW SO|id e DG AL C L VW|p community sm o w -> C L NW OTH PO C' VW SO]; [|lia|..|destruct SO; lia].
    - apply SAME; auto; now rewrite C.
    - (* send *)
      unfold v12_prepareOutgoing in PO. destruct (Z.eqb_spec (pdu_requestID (rq_pdu q)) 0) as [Z0|Z0].
      2:{ injection PO as <- _. cbn [s1_cache s1_pdu s1_callback] in *. rewrite orb_false_r in VW.
          apply (ONE r q); auto; [now rewrite C|rewrite C; apply K2|apply K3|now rewrite C]. }
      destruct (cache gen_v1 rnd (m1_cache s) (mkE1 r (rq_community q))) as [c [id|e]] eqn:CE; unfold cache in CE.
      + destruct (loop_ok gen_v1 rnd ltac:(cbn; lia) HR _ _ _ _ _ K1 CE) as (N & R & FREE & OUT & G).
        assert (CB : rq_cb q = false).
        { destruct (rq_cb q) eqn:CB; [|auto]. exfalso. apply (I r CB). exact Z0. }
        rewrite CB in PO. cbn [negb] in PO. injection PO as <- _.  cbn [s1_cache s1_pdu s1_callback orb] in *.
        apply (ONE r (mkReq1 (rq_community q) (set_requestID (rq_pdu q) id) (rq_cb q || true) (rq_response q) (rq_sched q) (rq_ref q) (rq_alive q))); auto;
          cbn [rq_community rq_pdu rq_cb rq_alive].
        * now rewrite C.
        * intros _. rewrite C, OUT. apply zget_set_same.
        * intros A. exfalso. congruence.
        * intros p W. apply with_id_again; auto.
        * intros r' N' CB'. rewrite C, OUT. apply zget_set_other. intros EQ. specialize (K2 _ CB'). rewrite EQ in K2. congruence.
      + pose proof (cache_loop_out _ _ _ _ _ _ _ CE) as OUT. pose proof (loop_gen gen_v1 rnd ltac:(cbn; lia) HR 10 (m1_cache s) (mkE1 r (rq_community q)) K1) as G. rewrite CE in G. cbn [fst] in G.
        injection PO as <- _. cbn [s1_cache s1_pdu s1_callback] in *. rewrite orb_false_r in VW.
        apply (ONE r q); auto; [now rewrite C|rewrite C, OUT; apply K2|apply K3|now rewrite C, OUT].
    - apply (ONE r (mkReq1 (rq_community q) (rq_pdu q) false (rq_response q) (rq_sched q) (rq_ref q) a)); auto; cbn [rq_community rq_pdu rq_cb rq_alive].
      + now rewrite C.
      + discriminate.
      + intros r' N CB'. rewrite C. transitivity (Some (mkE1 r' (rq_community (get1 (m1_reqs s) r')))); [apply held_other; auto|symmetry; auto].
    - apply (ONE r (mkReq1 (rq_community q) (rq_pdu q) false (rq_response q) (rq_sched q) (rq_ref q) false)); auto; cbn [rq_community rq_pdu rq_cb rq_alive].
      + now rewrite C.
      + discriminate.
      + now rewrite C.
    - apply SAME; auto; rewrite C; [reflexivity|]. intros r CB. cbn [uncache ca_out]. apply zget_del_other. intros EQ.
      specialize (K2 _ CB). rewrite EQ, DG in K2. injection K2 as ->. cbn [e1_handle] in AL. apply K3 in AL. congruence.
  Qed.
  Lemma keep1_add evs s evs' p community s' : calls evs' = calls evs ++ [(p, community)] -> keep1 evs s -> m1_cache s' = m1_cache s ->
    length (m1_reqs s') = S (length (m1_reqs s)) ->
    vw (get1 (m1_reqs s') (length (m1_reqs s))) = (community, p, false, true) ->
    (forall r, r <> length (m1_reqs s) -> vw (get1 (m1_reqs s') r) = vw (get1 (m1_reqs s) r)) -> keep1 evs' s'.
  Proof.
    intros CA [K1 K2 K3 K4 K5] C L NW OTH.
    constructor.
    + now rewrite C.
    + intros r. destruct (Nat.eq_dec r (length (m1_reqs s))) as [->|N].
      * unfold vw in NW. injection NW as _ _ -> _. discriminate.
      * destruct (vw_inj _ _ (OTH r N)) as (-> & -> & -> & _). rewrite C. auto.
    + intros r. destruct (Nat.eq_dec r (length (m1_reqs s))) as [->|N].
      * unfold vw in NW. injection NW as _ _ -> _. auto.
      * destruct (vw_inj _ _ (OTH r N)) as (_ & _ & -> & ->). auto.
    + rewrite CA, app_length, L. cbn. lia.
    + intros r p' c'. rewrite CA. destruct (Nat.eq_dec r (length (m1_reqs s))) as [->|N].
      * rewrite nth_error_app2 by lia. rewrite K4, Nat.sub_diag. cbn. intros X. injection X as <- <-.
        unfold vw in NW. injection NW as -> -> _ _. split; [auto|now left].
      * intros X. destruct (vw_inj _ _ (OTH r N)) as (-> & -> & _). apply K5.
        destruct (le_lt_dec (length (calls evs)) r) as [G|G]; [|now rewrite nth_error_app1 in X by auto].
        exfalso. rewrite nth_error_app2 in X by auto. replace (r - length (calls evs))%nat with (S (r - length (calls evs) - 1)) in X by lia.
        cbn in X. destruct (r - length (calls evs) - 1)%nat; discriminate.
  Qed.
  Lemma keep1_step evs s l x s' : inv1 V clk evs s l -> keep1 evs s -> change1 V rnd s s' x ->
    (forall p c, makes x p c -> length (m1_reqs s') = S (length (m1_reqs s))) -> keep1 (evs ++ [x]) s'.
  Proof.
    intros I K CH NC. pose proof CH as CH0.
    assert (QUIET : length (m1_reqs s') = length (m1_reqs s) -> keep1 (evs ++ [x]) s').
    { intros L. eapply keep1_calls; [|eapply keep1_quiet; [apply (i_cb _ _ _ _ _ I)|exact K|exact CH0|exact L]].
      apply calls_step. intros p c M. specialize (NC _ _ M). lia. }
    destruct CH as [C L VW|p community t pr -> C L NW OTH|r o w q LR QA PO C VW SO|r a q LR CB _ C VW SO|r q LR CB C VW SO|id e DG AL C L VW|p community sm o w -> C L NW OTH PO C' VW SO];
      try (apply QUIET; first [exact L|apply SO]).
    - eapply keep1_add; eauto. apply calls_made. left. eauto.
    - assert (KM : keep1 (evs ++ [MOther p community]) sm) by (eapply keep1_add; eauto; apply calls_made; now right).
      pose proof (f_equal (fun v => snd (fst v)) NW) as CB. pose proof (f_equal snd NW) as AL. pose proof (f_equal (fun v => snd (fst (fst v))) NW) as PP.
      pose proof (f_equal (fun v => fst (fst (fst v))) NW) as PC. cbn in CB, AL, PP, PC.
      eapply (keep1_quiet _ sm (MOther p community)); [|exact KM| |apply SO].
      + intros r. destruct (Nat.eq_dec r (length (m1_reqs s))) as [->|N]; [congruence|].
        destruct (vw_inj _ _ (OTH r N)) as (_ & -> & -> & _). apply (i_cb _ _ _ _ _ I).
      + eapply (ch_send _ _ _ _ _ (length (m1_reqs s)) o w); [lia|exact AL| |exact C'| |exact SO].
        * rewrite CB, PP, PC. exact PO.
        * rewrite CB, PC, AL. exact VW.
  Qed.
  Lemma step_calls s x p c s' l' : makes x p c -> m1_step V rnd clk s x = (s', l') -> length (m1_reqs s') = S (length (m1_reqs s)).
  Proof.
    intros [(t & pr & ->)| ->].
    - cbn [m1_step tick1]. intros E. injection E as <- <-. cbn [add_task m1_reqs]. rewrite app_length. cbn. lia.
    - intros E. apply other_spec in E as (q' & _ & -> & _). rewrite app_length. cbn. lia.
  Qed.
  Theorem keep1_run evs s l : m1_run V rnd clk evs = (s, l) -> keep1 evs s.
  Proof.
    revert s l. induction evs as [|x evs IH] using rev_ind; unfold m1_run; intros s l E.
    - injection E as <- <-. apply keep1_new.
    - rewrite fold_left_app in E. cbn [fold_left] in E. destruct (fold_left _ evs _) as [s0 l0] eqn:E0.
      unfold m1_next in E. destruct (m1_step V rnd clk s0 x) as [s1 l1] eqn:ST. injection E as <- <-.
      pose proof (inv1_run V rnd clk evs s0 l0 E0) as I. eapply keep1_step; [exact I|eapply IH; exact E0|eapply step_change; eauto|].
      intros p c M. eapply step_calls; [exact M|exact ST].
  Qed.
End Keep1.
