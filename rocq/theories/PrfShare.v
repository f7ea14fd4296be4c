(** PrfShare.v -- the v3 manager: the table of outstanding messages while several
    managers of an Engine use it. *)
From Verif Require Export PrfOpen2 PrfLeak3 PrfMgr3d.
Lemma processed_header C R u m ts m' : snd (usm_processIncoming C R u m ts) = Ok m' -> v3_header m' = v3_header m.
Proof.
  unfold usm_processIncoming. destruct (params_decode _) as [sp|]; [|discriminate].
  cbv zeta. cbn [v3_header]. destruct (fl_auth _); cbn [negb]; [|cbn [snd]; now intros [= <-]].
  destruct (getCredentials _ _ _) as [user|ex]; [|destruct ex; discriminate].
  destruct (lc_auth user) as [[alg key]|]; [|discriminate]. destruct (_ && _); [discriminate|].
  destruct (negb _); [discriminate|]. destruct (up_index sp); [|discriminate]. destruct (up_whole sp); [|discriminate].
  destruct (negb _); [discriminate|]. destruct (updateAndVerify _ _ _ _ _ _) as [t ok]. destruct (negb ok); [discriminate|].
  destruct (fl_priv _); [|cbn [snd]; now intros [= <-]]. cbn [snd].
  destruct (lc_priv user); [|discriminate]. cbn [v3_encrypted]. destruct (v3_encrypted m); [|discriminate].
  destruct (priv_decrypt _ _ _ _ _ _) as [pt|ex]; cbn [bind]; [|cbn [reraise]; destruct (is_ValueError ex); discriminate].
  unfold v3_set_plaintext. destruct (scoped_decode (ABytes pt) true) as [x|ex]; cbn [bind reraise]; [now intros [= <-]|destruct (is_ValueError ex); discriminate].
Qed.
Lemma outgoing_time C R rnd u p d h e n lv md cx ts : us_time (s3_usm (fst (v3_prepareOutgoing C R rnd u p d h e n lv md cx ts))) = us_time u.
Proof.
  unfold v3_prepareOutgoing. destruct (match md with Some m => Some m | None => p3_default p end) as [m|]; [|reflexivity].
  destruct (negb _); [reflexivity|]. cbv zeta.
  destruct (if is_Confirmed (pdu_cls d) then _ else _) as [[p1 cb] [id|ex]]; [|reflexivity].
  destruct (usm_prepareOutgoing C R u _ e n ts) as [u1 w] eqn:E. cbn [fst s3_usm]. apply (f_equal fst) in E. cbn [fst] in E. subst u1.
  unfold usm_prepareOutgoing. cbv zeta. destruct (fl_auth _); [|reflexivity].
  destruct (getCredentials _ _ _) as [user|]; [|reflexivity]. destruct (lc_auth user) as [[alg key]|]; [|reflexivity].
  destruct (getEngineTime _ _ _ _) as [bt t]. destruct (fl_priv _); [|reflexivity]. destruct (lc_priv user); [|reflexivity].
  destruct (v3_scoped _); [|reflexivity]. destruct (scoped_encode _); [|reflexivity]. destruct (priv_encrypt _ _ _ _ _) as [pv r]. reflexivity.
Qed.
Section ShareWorld.
  Context (W : world) (OK : world_ok W).
  Notation tab s := (ca_out (p3_cache (v_proc s))).
  (** A message that stays open, or another manager is not done with, keeps its
      ID and its entry in the table. *)
  Lemma kept evs s l x s' l' h id : Forall event_ok evs -> run3 W evs = (s, l) -> step3 W s x = (s', l') ->
    g_cb (getm (v_msgs s) h) = Some id ->
    (g_open (getm (v_msgs s) h) = true /\ g_open (getm (v_msgs s') h) = true) \/ (g_own (getm (v_msgs s) h) = false /\ x <> VOtherDone h) ->
    getm (v_msgs s') h = getm (v_msgs s) h /\ dict_get Z.eqb (tab s') id = dict_get Z.eqb (tab s) id.
  Proof.
    intros F E ST CB K. destruct (run_good W OK evs F s l E) as [I G]. destruct (open_run W OK evs F s l E) as [O1 _ _].
    assert (LT : (h < length (v_msgs s))%nat).
    { destruct (le_lt_dec (length (v_msgs s)) h) as [GE|]; [|assumption]. unfold getm in CB. rewrite nth_overflow in CB by exact GE. discriminate CB. }
    assert (MINE : g_open (getm (v_msgs s) h) = true \/ g_own (getm (v_msgs s) h) = false) by tauto.
    destruct (O1 h id MINE CB) as (en & DG & EH).
    assert (NOPEN : forall k, g_own (getm (v_msgs s) k) = false -> g_open (getm (v_msgs s) k) = false).
    { intros k OW. destruct (le_lt_dec (length (v_msgs s)) k) as [GE|LK]; [unfold getm; rewrite nth_overflow by exact GE; reflexivity|].
      apply (proj1 (proj2 (i3_msgs s I)) k LK OW). }
    unfold step3 in ST. destruct (step_c _ _ _ _ _ _ (Some x) _ _ _ _ eq_refl ST) as [M P D|r c m CL M P L|s1 s2 r w now p e user level y T M P RG M' P'|p e user level ts XE o M P L|h0 id0 XE OW CB0 M P L].
    - rewrite M, P. auto.
    - pose proof (closed_closed _ _ _ _ _ h CL) as E0. apply closed_messages in CL as (E1 & E2 & E3 & E4 & E5). subst m.
      assert (S : getm (v_msgs s') h = getm (v_msgs s) h).
      { destruct K as [[_ K]|[K _]]; [apply (E4 _ K)|]. apply E0, NOPEN, K. }
      split; [exact S|]. rewrite P. cbn [with_cache3 p3_cache]. apply E5. intros k LK Q OP CBK.
      destruct (O1 k id (or_introl OP) CBK) as (en' & DG' & EK). assert (k = h) as -> by congruence.
      destruct K as [[_ K]|[K _]]; [|apply NOPEN in K; congruence]. destruct (E4 _ K) as [_ NR]. contradiction.
    - assert (GC : gen_at gen_v3 (ca_gen (p3_cache (v_proc s1)))) by (rewrite P; apply (g_cache _ _ _ G)).
      assert (GS : p3_maxSize (v_proc s1) = w_size W) by (rewrite P; apply (g_size _ _ _ G)).
      apply (transmit_made (w_crypto W) (w_ticks W) (w_rnd W) (w_clk W) (w_size W) (wo_messages W OK)) in T as (sy & cb & TM & TC & _); [|exact GC|exact GS].
      rewrite M', P', TM, M, getm_app. destruct (Nat.eqb_spec h (length (v_msgs s))) as [->|_]; [lia|]. split; [reflexivity|].
      destruct cb as [i|]; [|now rewrite TC, P]. destruct TC as [TC1 TC2]. rewrite P in TC1. rewrite TC2, P, zget_set. destruct (Z.eqb_spec id i) as [->|]; [congruence|reflexivity].
    - pose proof (outgoing_made (w_crypto W) (w_ticks W) (w_rnd W) (wo_messages W OK) (v_usm s) (v_proc s) p (length (v_msgs s)) e user level ts (g_cache _ _ _ G)) as TC.
      cbv zeta in TC. fold o in TC. rewrite M, P, getm_app. destruct (Nat.eqb_spec h (length (v_msgs s))) as [->|_]; [lia|]. split; [reflexivity|].
      destruct (s3_callback o) as [i|]; [|now rewrite TC]. destruct TC as [TC1 TC2]. rewrite TC2, zget_set. destruct (Z.eqb_spec id i) as [->|]; [congruence|reflexivity].
    - injection XE as ->. assert (NE : h0 <> h).
      { intros ->. destruct K as [[K _]|[_ K]]; [apply NOPEN in OW; congruence|now apply K]. }
      rewrite M, P, getm_put. cbn [with_cache3 p3_cache uncache ca_out]. destruct (Nat.eqb_spec h0 h) as [EH'|_]; [contradiction|]. split; [reflexivity|].
      apply zget_del_other. intros <-. destruct (O1 h0 id (or_intror OW) CB0) as (en' & DG' & EK). apply NE. congruence.
  Qed.
  (** What the listener takes is the message with this ID. *)
  Lemma taken_id evs s l d s' l' h m : Forall event_ok evs -> run3 W evs = (s, l) -> step3 W s (VReceive d) = (s', l') ->
    v_listener s = LIdle -> v_listener s' = LPush h m ->
    v_msgs s' = v_msgs s /\ g_cb (getm (v_msgs s) h) = Some (h_id (v3_header m)) /\ g_open (getm (v_msgs s) h) = true /\
    exists e, dict_get Z.eqb (tab s) (h_id (v3_header m)) = Some e /\ e3_handle e = h.
  Proof.
    intros F E ST L L'. destruct (own_run W OK evs F s l E) as [_ O2 _]. unfold step3 in ST. cbn [m3_step] in ST. rewrite L in ST. cbn [tick3] in ST.
    destruct (v3_prepareDataElements _ _ _ _ _ _ _) as [u [[m0 h0]|ex]] eqn:PD; injection ST as <- _; [|cbn [set_io v_listener] in L'; rewrite L in L'; discriminate L'].
    cbn [set_listener v_listener] in L'. injection L' as -> ->. cbn [set_listener set_io v_msgs]. split; [reflexivity|].
    unfold v3_prepareDataElements in PD. destruct (v3_decode _) as [m1|]; [|discriminate PD]. destruct (has_module _ _); [|discriminate PD].
    destruct (usm_processIncoming _ _ _ _ _) as [u1 [m2|]]; [|discriminate PD]. injection PD as _ PD. unfold v3_match in PD.
    destruct (v3_scoped m2); [|discriminate PD]. destruct (is_Response _); [|discriminate PD].
    unfold retrieve in PD. destruct (dict_get Z.eqb _ _) as [en|] eqn:DG; [|discriminate PD].
    destruct (message_alive _ _) eqn:AL; cbn [negb] in PD; [|discriminate PD]. destruct (v3_mismatch _ _ _); [discriminate PD|]. injection PD as -> <-.
    cbn [set_io v_proc] in DG. change (message_alive s (e3_handle en) = true) in AL. unfold message_alive in AL. apply andb_true_iff in AL as [AL _].
    split; [apply (O2 _ _ DG)|]. split; [exact AL|]. exists en. auto.
  Qed.
End ShareWorld.
