(** PrfSync.v -- the time that the messages of the v3 manager carry. *)
From Verif Require Import PrfDict PrfTime PrfMsg PrfUsmProps PrfMsgProps.
From Verif Require Export PrfUse2 SpecSync.
Lemma incoming_time C R u m ts u' m' sp : usm_processIncoming C R u m ts = (u', Ok m') -> params_decode (v3_params m) = Ok sp ->
  if fl_auth (h_flags (v3_header m)) then updateAndVerify R (us_time u) (up_engineID sp) (up_boots sp) (up_time sp) ts = (us_time u', true)
  else us_time u' = tk_hint R (us_time u) (up_engineID sp) (up_boots sp) (up_time sp) ts.
Proof.
  intros H PD. unfold usm_processIncoming in H. rewrite PD in H. cbv zeta in H. cbn [v3_header] in H.
  destruct (fl_auth (h_flags (v3_header m))); cbn [negb] in H; [|injection H as <- _; reflexivity].
  destruct (getCredentials _ _ _) as [user|ex]; [|destruct ex; discriminate H].
  destruct (lc_auth user) as [[alg key]|]; [|discriminate H]. destruct (_ && _); [discriminate H|].
  destruct (negb _); [discriminate H|]. destruct (up_index sp); [|discriminate H]. destruct (up_whole sp); [|discriminate H].
  destruct (negb _); [discriminate H|]. destruct (updateAndVerify _ _ _ _ _ _) as [t ok]. destruct ok; cbn [negb] in H; [|discriminate H].
  destruct (fl_priv _); injection H as <- _; reflexivity.
Qed.
(** The entry after news. *)
Lemma auth_entry R th e b t ts : 0 < R -> b <= 2147483647 -> (auth_seen th e -> ~ notion_le (b, t) (getEngineTime R (time_after R th) e ts)) ->
  tget (fst (updateAndVerify R (time_after R th) e b t ts)) e = Some (mkET true b (ts - t * R)).
Proof.
  intros HR B N. assert (CB : clamp_boots b = b) by (unfold clamp_boots, MAX_ENGINE_BOOTS; lia).
  rewrite update_get, (proj2 (zlist_eqb_eq e e) eq_refl). f_equal. destruct (tget (time_after R th) e) as [x|] eqn:G; cbn [entry_step].
  - unfold et_update. destruct (et_authenticated x) eqn:A; [|rewrite CB; reflexivity].
    assert (S : auth_seen th e) by (apply (time_flag R); exists x; auto). apply N in S. rewrite (local_some R _ e ts x G) in S. unfold notion_le in S. cbn [fst snd] in S.
    destruct (Z.eqb_spec b (et_boots x)) as [EB|NE].
    + destruct (Z.ltb_spec (et_time R x ts) t) as [L|L]; [rewrite EB; reflexivity|]. exfalso. apply S. right. split; [exact EB|exact L].
    + destruct (Z.ltb_spec (et_boots x) b) as [L|L]; [rewrite CB; reflexivity|]. exfalso. apply S. left. lia.
  - unfold EngineTime. rewrite CB. reflexivity.
Qed.
Lemma hint_entry R th e b t ts : b <= 2147483647 -> ~ auth_seen th e ->
  tget (tk_hint R (time_after R th) e b t ts) e = Some (mkET false b (ts - t * R)).
Proof.
  intros B N. assert (CB : clamp_boots b = b) by (unfold clamp_boots, MAX_ENGINE_BOOTS; lia).
  rewrite hint_get, (proj2 (zlist_eqb_eq e e) eq_refl). f_equal. destruct (tget (time_after R th) e) as [x|] eqn:G; cbn [entry_step].
  - unfold et_hint. destruct (et_authenticated x) eqn:A; [|rewrite CB; reflexivity]. exfalso. apply N. apply (time_flag R). exists x. auto.
  - unfold EngineTime. rewrite CB. reflexivity.
Qed.
Lemma seen_dec (R : Z) th e : auth_seen th e \/ ~ auth_seen th e.
Proof.
  destruct (time_flag R th e) as [F1 F2]. destruct (tget (time_after R th) e) as [x|] eqn:G.
  - destruct (et_authenticated x) eqn:A; [left; apply F2; eauto|]. right. intros S. destruct (F1 S) as (y & Gy & Ay). congruence.
  - right. intros S. destruct (F1 S) as (y & Gy & Ay). congruence.
Qed.
(** The time that passes. *)
Lemma passed R t d : 0 < R -> 0 <= t -> 0 <= d -> Z.quot (t * R + d) R = t + d / R.
Proof. intros HR T D. assert (N : 0 <= t * R) by (apply Z.mul_nonneg_nonneg; lia). rewrite Z.quot_div_nonneg by lia. apply Z.div_add_l. lia. Qed.
Lemma passed_near R a d q : 0 < R -> 0 <= d -> q = Z.quot a R -> 0 <= q -> q + d / R - 1 <= Z.quot (a + d) R <= q + d / R + 1.
Proof.
  intros HR D -> Q.
  assert (E1 : d = R * (d / R) + d mod R) by (apply Z.div_mod; lia). pose proof (Z.mod_pos_bound d R HR) as B1. set (k := d / R) in *. set (x := d mod R) in *. clearbody k x.
  pose proof (Z.quot_rem' a R) as E2. set (q := Z.quot a R) in *.
  assert (B2 : (0 <= a -> 0 <= Z.rem a R < R) /\ (a < 0 -> - R < Z.rem a R <= 0)).
  { split; intros A; [apply Z.rem_bound_pos; assumption|]. pose proof (Z.rem_bound_pos (- a) R ltac:(lia) HR) as X. rewrite Z.rem_opp_l in X by lia. lia. }
  set (y := Z.rem a R) in *. clearbody q y.
  pose proof (Z.quot_rem' (a + d) R) as E3. set (p := Z.quot (a + d) R) in *.
  assert (B3 : (0 <= a + d -> 0 <= Z.rem (a + d) R < R) /\ (a + d < 0 -> - R < Z.rem (a + d) R <= 0)).
  { split; intros A; [apply Z.rem_bound_pos; assumption|]. pose proof (Z.rem_bound_pos (- (a + d)) R ltac:(lia) HR) as X. rewrite Z.rem_opp_l in X by lia. lia. }
  set (z := Z.rem (a + d) R) in *. clearbody p z.
  assert (E : R * (p - q - k) = x + y - z) by lia. set (m := p - q - k) in *. assert (p = q + k + m) by lia. clearbody m.
  assert (X : - (2 * R) < x + y - z < 2 * R) by lia. assert (- 2 < m < 2) by nia. lia.
Qed.

Section SyncWorld.
  Context (W : world) (OK : world_ok W).
  Notation C := (w_crypto W).
  Notation R := (w_ticks W).
  Notation reachW := (reach C R (w_rnd W 2)).
  (** The security module, but for what it knows of engines' time. *)
  Definition same_time (s : mgr3) (u : usm) : Prop := reachW u /\ us_time u = us_time (v_usm s).
  Lemma step_time evs s l x s' l' : Forall event_ok (evs ++ [x]) -> run3 W evs = (s, l) -> step3 W s x = (s', l') ->
    ((forall d, x = VReceive d -> v_listener s <> LIdle) -> us_time (v_usm s') = us_time (v_usm s)) /\
    forall r h w now p e user level wire, In (WSent r h w now p e user level wire) l' ->
      exists u id, same_time s u /\ 0 <= id <= 2147483647 /\
        snd (usm_prepareOutgoing C R u (outgoing (w_size W) id level p e) e user (sent_reading W s)) = Ok wire.
  Proof.
    intros EV RUN ST. apply Forall_app in EV as [EV EX]. inversion EX as [|? ? EX1 _]; subst.
    destruct (run_good W OK evs EV s l RUN) as [I G].
    assert (G' : good (w_size W) (same_time s) s) by (destruct G as [G1 G2 G3 G4 G5]; constructor; auto; split; auto).
    destruct OK as [_ D0 D1]. pose proof ST as ST0. unfold step3 in ST.
    eapply (step_good C R (w_rnd W) (w_clk W) (w_fmt W) (w_namespace W) (w_size W) D0 D1 (same_time s)) in ST as [GC WS]; [| | |exact I|exact G'|apply (not_fair W)].
    - split.
      + intros NR. destruct x as [p user level timeout period|r|n|d| |r|op|p e user level|h];
          try (exact (proj2 (g_usm _ _ _ (GC Logic.I)))).
        * specialize (NR d eq_refl). unfold step3 in ST0. cbn [m3_step] in ST0. destruct (v_listener s); try contradiction; injection ST0 as <- _; reflexivity.
        * apply g_usm in GC; [apply GC|]. cbn. split; [apply (reach_op W); [exact EX1|apply (g_usm _ _ _ G)]|reflexivity].
      + intros r h w now p e user level wire IN. rewrite Forall_forall in WS. apply WS in IN. cbn in IN. destruct IN as (u & id & A & B & D & _). exists u, id. auto.
    - intros u m e n ts (A & B). split; [exact (reach_step _ _ _ u (USend m e n ts) A Logic.I)|].
      destruct (prepare_state C R u m e n ts) as [X _]. now rewrite X.
    - intros u op O (A & B). apply reg_op_ok in O. split; [exact (reach_step _ _ _ u (UUser op) A O)|exact B].
  Qed.
  (** While the listener is busy, nothing is learnt of time. *)
  Lemma busy_time evs d mid : Forall event_ok (evs ++ VReceive d :: mid) -> busy_with W evs d mid ->
    us_time (v_usm (fst (run3 W (evs ++ VReceive d :: mid)))) = us_time (v_usm (fst (run3 W (evs ++ [VReceive d])))).
  Proof.
    intros EV [_ B]. revert EV B. induction mid as [|x mid IH] using rev_ind; intros EV B; [reflexivity|].
    replace (evs ++ VReceive d :: mid ++ [x]) with ((evs ++ VReceive d :: mid) ++ [x]) in * by now rewrite <- app_assoc.
    assert (EV1 : Forall event_ok (evs ++ VReceive d :: mid)) by (apply Forall_app in EV; tauto).
    rewrite <- IH; [|exact EV1|].
    2:{ intros done rest ->. apply (B done (rest ++ [x])). now rewrite app_assoc. }
    specialize (B mid [x] eq_refl). destruct (run3 W (evs ++ VReceive d :: mid)) as [s l] eqn:E. cbn [fst] in *.
    unfold run3. rewrite m3_run_snoc. fold (run3 W (evs ++ VReceive d :: mid)). rewrite E.
    destruct (m3_step _ _ _ _ _ _ s x) as [s' l'] eqn:ST. cbn [fst].
    apply (step_time (evs ++ VReceive d :: mid) s l x s' l' EV E ST). intros d' _. exact B.
  Qed.
  Lemma received_time evs d s0 l0 s1 l1 auth e b t : run3 W evs = (s0, l0) -> step3 W s0 (VReceive d) = (s1, l1) ->
    v_listener s0 = LIdle -> v_listener s1 <> LIdle -> says d auth e b t ->
    if auth then updateAndVerify R (us_time (v_usm s0)) e b t (reading3 W s0) = (us_time (v_usm s1), true)
    else us_time (v_usm s1) = tk_hint R (us_time (v_usm s0)) e b t (reading3 W s0).
  Proof.
    intros E ST L L' (m & sp & DE & A & PD & <- & <- & <-). unfold step3 in ST. cbn [m3_step] in ST. rewrite L in ST. cbn [tick3] in ST.
    destruct (v3_prepareDataElements _ _ _ _ _ _ _) as [u [[m0 h0]|ex]] eqn:P; injection ST as <- _; [|exfalso; apply L'; exact L].
    cbn [set_listener set_io v_usm]. unfold v3_prepareDataElements in P. rewrite DE in P. destruct (has_module _ _); [|discriminate P].
    destruct (usm_processIncoming _ _ _ _ _) as [u1 [m2|]] eqn:PI; [|discriminate P]. injection P as -> _. apply incoming_time with (sp := sp) in PI; [|exact PD].
    rewrite A in PI. exact PI.
  Qed.
  (** What a message carries. *)
  Lemma carried s u id p e user level wire ts : crypto_ok C -> 484 <= w_size W <= 2147483647 -> same_time s u -> 0 <= id <= 2147483647 ->
    pdu_ok p -> octets_ok e -> octets_ok user -> SpecMsg.level_ok level -> sl_auth level = true ->
    snd (usm_prepareOutgoing C R u (outgoing (w_size W) id level p e) e user ts) = Ok wire ->
    says wire true e (fst (getEngineTime R (us_time (v_usm s)) e ts)) (snd (getEngineTime R (us_time (v_usm s)) e ts)).
  Proof.
    intros CO SZ [(h & F & ->) UT] ID PO EO UO LO A P.
    destruct (outgoing_signed C R (w_rnd W 2) h (outgoing (w_size W) id level p e) (mkScoped e [] p) e user ts wire) as (l & alg & key & pre & mac & post & m0 & m2 & sp & _ & _ & _ & _ & _ & _ & D1 & D2 & D3 & D4 & _ & _ & _ & D5); auto.
    - split; [exact ID|]. split; [exact SZ|]. split; [exact LO|reflexivity].
    - split; [exact EO|]. split; [split; [apply Forall_nil|vm_compute; discriminate]|exact PO].
    - rewrite UT in D5. rewrite <- D5. exists m2, sp. cbn [fst snd]. split; [exact D1|]. split; [rewrite D2; exact A|]. auto.
  Qed.
End SyncWorld.
