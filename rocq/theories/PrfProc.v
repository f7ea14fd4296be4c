(** PrfProc.v -- proofs for C25-C27, C39. *)
From Verif Require Export PrfCache PrfProcConc PrfUsmProps PrfMsgDec Dispatcher.

Lemma level_least l m : (sl_priv m = true -> sl_auth m = true) -> sl_ltb l m = false <-> level_at_least l m.
Proof. destruct l as [[] []], m as [[] []]; unfold level_at_least; cbn; intuition congruence. Qed.
Lemma level_least_1 l m : sl_ltb l m = false -> level_at_least l m.
Proof. destruct l as [[] []], m as [[] []]; unfold level_at_least; cbn; intuition congruence. Qed.
Lemma opt_bytes_eq a b : opt_bytes_eqb a b = true <-> b = Some a.
Proof.
  unfold opt_bytes_eqb. destruct b as [b|]; [|split; discriminate]. rewrite zlist_eqb_eq. split; congruence.
Qed.

(** * v1/v2c *)
Lemma v12_incoming V alive c data c' m h :
  v12_prepareDataElements V alive c data = (c', Ok (m, h)) <->
  c' = c /\ message_decode (vp_types V) (ABytes data) = Ok m /\ pdu_cls (m_pdu m) = ResponsePDU /\
  exists e, retrieve c (pdu_requestID (m_pdu m)) = Ok e /\ h = e1_handle e /\ alive h = true /\
    e1_community e = m_community m.
Proof.
  unfold v12_prepareDataElements. destruct (message_decode _ _) as [m0|x]; [|split; [discriminate|intros (_ & X & _); discriminate]].
  destruct (is_ResponsePDU (m_pdu m0)) eqn:R.
  2:{ split; [discriminate|]. intros (_ & X & C & _). injection X as ->. unfold is_ResponsePDU in R. rewrite C in R. discriminate. }
  apply eqb_same_cls in R. destruct (retrieve c _) as [e|x] eqn:G.
  2:{ split; [discriminate|]. intros (_ & X & _ & e & Y & _). injection X as ->. congruence. }
  destruct (alive (e1_handle e)) eqn:A; cbn [negb].
  2:{ split; [discriminate|]. intros (_ & X & _ & e' & Y & -> & Z & _). injection X as ->. rewrite G in Y. injection Y as ->. congruence. }
  destruct (zlist_eqb (e1_community e) (m_community m0)) eqn:Q; cbn [negb].
  - apply zlist_eqb_eq in Q. split.
    + intros X. injection X as <- <- <-. repeat split; auto. exists e. auto.
    + intros (-> & X & _ & e' & Y & -> & _). injection X as ->. rewrite G in Y. injection Y as ->. reflexivity.
  - split; [discriminate|]. intros (_ & X & _ & e' & Y & _ & _ & Z). injection X as ->. rewrite G in Y. injection Y as ->.
    apply zlist_eqb_eq in Z. congruence.
Qed.
Lemma v12_incoming_raise V alive c data c' x : bytes_ok data ->
  v12_prepareDataElements V alive c data = (c', Raise x) ->
  (is_IncomingMessageError x = true \/ x = UnsupportedFeature) /\
  (c' = c \/ exists m e, message_decode (vp_types V) (ABytes data) = Ok m /\
     retrieve c (pdu_requestID (m_pdu m)) = Ok e /\ alive (e1_handle e) = false /\ c' = uncache c (pdu_requestID (m_pdu m))).
Proof.
  intros B. unfold v12_prepareDataElements. destruct (message_decode _ _) as [m0|y] eqn:D.
  2:{ intros X. injection X as <- <-. split; [left|auto]. exact (message_decode_raises _ (ABytes data) I B y D). }
  destruct (is_ResponsePDU (m_pdu m0)); [|intros X; injection X as <- <-; split; [auto|auto]].
  destruct (retrieve c _) as [e|y] eqn:G; [|intros X; injection X as <- <-; split; [auto|auto]].
  destruct (alive (e1_handle e)) eqn:A; cbn [negb].
  - destruct (zlist_eqb _ _); cbn [negb]; intros X; [discriminate|injection X as <- <-; split; [auto|auto]].
  - intros X. injection X as <- <-. split; [auto|]. right. exists m0, e. auto.
Qed.
Lemma cache_nonzero {E} G rnd (c : cache_st E) e c' id : cache G rnd c e = (c', Ok id) -> id <> 0.
Proof.
  unfold cache. generalize 10%nat. intros n. revert c; induction n as [|n IH]; intros c; cbn [cache_loop]; [discriminate|].
  pose proof (attempt_cases G rnd c e) as X. destruct (cache_attempt G rnd c e) as [[i|] c1]; [|apply IH].
  intros Y. injection Y as <- <-. tauto.
Qed.
Lemma v12_resend V rnd c p h f community s w f' c' :
  v12_prepareOutgoing V rnd c p h f community = (s, Ok w) ->
  v12_prepareOutgoing V rnd c' (s1_pdu s) h f' community = (mkSent1 c' (s1_pdu s) None, Ok w).
Proof.
  unfold v12_prepareOutgoing at 1. destruct (Z.eqb_spec (pdu_requestID p) 0) as [Z0|NZ].
  - destruct (cache gen_v1 rnd c _) as [c1 [id|x]] eqn:CA; [|discriminate]. destruct f; [|discriminate].
    intros X. injection X as <- E. cbn [s1_pdu]. apply cache_nonzero in CA. unfold v12_prepareOutgoing.
    assert (Q : (pdu_requestID (set_requestID p id) =? 0) = false) by (apply Z.eqb_neq; exact CA). now rewrite Q, E.
  - intros X. injection X as <- E. cbn [s1_pdu]. unfold v12_prepareOutgoing. apply Z.eqb_neq in NZ. now rewrite NZ, E.
Qed.

(** * v3 *)
Lemma v3_match_ok alive p m m' h : v3_match alive p m = Ok (m', h) ->
  m' = m /\ exists s e, v3_scoped m = Some s /\ (pdu_cls (sp_pdu s) = ResponsePDU \/ pdu_cls (sp_pdu s) = ReportPDU) /\
    retrieve (p3_cache p) (h_id (v3_header m)) = Ok e /\ h = e3_handle e /\ alive h = true /\
    v3_mismatch e m s = false.
Proof.
  unfold v3_match. destruct (v3_scoped m) as [s|]; [|discriminate].
  destruct (is_Response (pdu_cls (sp_pdu s))) eqn:R; [|discriminate].
  destruct (retrieve _ _) as [e|] eqn:G; [|discriminate]. destruct (alive (e3_handle e)) eqn:A; [|discriminate].
  cbn [negb]. destruct (v3_mismatch e m s) eqn:MM; [discriminate|]. intros X. injection X as <- <-.
  split; [auto|]. exists s, e. repeat split; auto. destruct (pdu_cls (sp_pdu s)); try discriminate; auto.
Qed.
Lemma v3_match_raises alive p m : v3_scoped m <> None -> raises_only (fun x => is_IncomingMessageError x = true \/ x = UnsupportedFeature) (v3_match alive p m).
Proof.
  intros N x. unfold v3_match. destruct (v3_scoped m) as [s|]; [|congruence].
  destruct (is_Response _); [|intros X; injection X as <-; auto].
  destruct (retrieve _ _) as [e|]; [|intros X; injection X as <-; auto].
  destruct (alive _); cbn [negb]; [|intros X; injection X as <-; auto].
  destruct (v3_mismatch _ _ _); intros X; [injection X as <-; auto|discriminate].
Qed.
(** The comparisons, in words. *)
Lemma v3_match_fields e m s : (sl_priv (e3_level e) = true -> sl_auth (e3_level e) = true) -> v3_mismatch e m s = false <->
  v3_name m = Some (e3_name e) /\ sp_contextName s = e3_context e /\
  (pdu_cls (sp_pdu s) <> ReportPDU ->
     level_at_least (fl_level (h_flags (v3_header m))) (e3_level e) /\
     v3_engineID m = Some (e3_engineID e) /\ sp_contextEngineID s = e3_engineID e).
Proof.
  intros WL. unfold v3_mismatch. rewrite <- level_least by exact WL. rewrite <- (opt_bytes_eq (e3_name e)), <- (opt_bytes_eq (e3_engineID e)).
  assert (Q : zlist_eqb (e3_context e) (sp_contextName s) = true <-> sp_contextName s = e3_context e) by (rewrite zlist_eqb_eq; split; congruence).
  assert (Q2 : zlist_eqb (e3_engineID e) (sp_contextEngineID s) = true <-> sp_contextEngineID s = e3_engineID e) by (rewrite zlist_eqb_eq; split; congruence).
  rewrite <- Q, <- Q2. clear Q Q2.
  assert (RP : is_Internal (pdu_cls (sp_pdu s)) = false <-> pdu_cls (sp_pdu s) <> ReportPDU) by (destruct (pdu_cls (sp_pdu s)); cbn; split; congruence).
  rewrite <- RP. clear RP.
  destruct (is_Internal _), (sl_ltb _ _), (opt_bytes_eqb (e3_engineID e) _), (opt_bytes_eqb (e3_name e) _),
    (zlist_eqb (e3_engineID e) _), (zlist_eqb (e3_context e) _); cbn; intuition congruence.
Qed.
Lemma v3_match_fields_1 e m s : v3_mismatch e m s = false ->
  v3_name m = Some (e3_name e) /\ sp_contextName s = e3_context e /\
  (pdu_cls (sp_pdu s) <> ReportPDU ->
     level_at_least (fl_level (h_flags (v3_header m))) (e3_level e) /\
     v3_engineID m = Some (e3_engineID e) /\ sp_contextEngineID s = e3_engineID e).
Proof.
  unfold v3_mismatch. rewrite !orb_false_iff, !andb_false_iff, !negb_false_iff.
  rewrite !opt_bytes_eq, !zlist_eqb_eq. intros ((((A & B) & C) & D) & F).
  split; [auto|]. split; [auto|]. intros N.
  assert (RP : is_Internal (pdu_cls (sp_pdu s)) = false) by (destruct (pdu_cls (sp_pdu s)); cbn; congruence).
  rewrite RP in *. intuition (auto using level_least_1; congruence).
Qed.

(** * Dispatcher.hear() *)
Lemma prepare_no_div C R rnd h alive d v p data ts : crypto_ok C -> Forall usm_op_ok h -> d_usm d = usm_after C R rnd h ->
  bytes_ok data -> snd (prepareDataElements C R alive d v p data ts) <> Raise Diverges.
Proof.
  intros CO F U B. unfold prepareDataElements. destruct p as [V c|p].
  - destruct (v12_prepareDataElements V alive c data) as [c' [x|x]] eqn:E; cbn; [discriminate|].
    destruct (v12_incoming_raise _ _ _ _ _ _ B E) as [X _]. intros Y; injection Y as ->. destruct X; discriminate.
  - unfold v3_prepareDataElements. destruct (v3_decode (ABytes data)) as [m|x] eqn:D.
    2:{ cbn. intros Y; injection Y as ->. apply (v3_decode_raises (ABytes data) I B) in D. discriminate. }
    destruct (has_module p _); [|discriminate].
    pose proof (incoming_raises C R rnd h data m ts CO F B D) as X. cbv zeta in X. rewrite <- U in X.
    destruct (usm_processIncoming C R (d_usm d) m ts) as [u [m'|x]]; cbn [snd] in *.
    + unfold v3_match. destruct (v3_scoped m') as [s|]; [|discriminate]. destruct (is_Response _); [|discriminate].
      destruct (retrieve _ _); [|discriminate]. destruct (negb _); [discriminate|]. destruct (v3_mismatch _ _ _); discriminate.
    + cbn. intros Y. injection Y as ->. destruct (X _ eq_refl) as [Y|[Y _]]; discriminate.
Qed.

(** * A receive or a cache() that nothing interferes with *)
Section Seq.
  Context {E I M : Type} (K : proto E I M) (rnd : nat -> Z).
  Lemma step_last (s : conc E M) ts t : cs_tasks s = ts ++ [t] ->
    conc_step K rnd s (EStep (length ts)) =
    let '(c, cb, started, new, l) := task_step (I := I) K rnd s t in (mkConc c (ts ++ new) started cb (cs_dead s), l).
  Proof.
    intros T. cbn [conc_step]. rewrite T. rewrite nth_error_app2, Nat.sub_diag by lia. cbn [nth_error].
    destruct (task_step K rnd s t) as [[[[c cb] st] new] l].
    rewrite firstn_app, Nat.sub_diag, firstn_all. cbn [firstn]. rewrite app_nil_r.
    rewrite skipn_all2 by (rewrite app_length; cbn; lia). now rewrite app_nil_r.
  Qed.
  Lemma step_none (s : conc E M) n : n = length (cs_tasks s) -> conc_step K rnd s (EStep n) = (s, []).
  Proof. intros ->. cbn [conc_step]. now rewrite (proj2 (nth_error_None _ _)) by lia. Qed.
  Lemma fold_step x xs (s : conc E M) l s' l' : conc_step K rnd s x = (s', l') ->
    fold_left (conc_next K rnd) (x :: xs) (s, l) = fold_left (conc_next K rnd) xs (s', l' ++ l).
  Proof. intros Q. cbn [fold_left conc_next]. now rewrite Q. Qed.
  Lemma fold_none xs (s : conc E M) l : Forall (fun x => x = EStep (length (cs_tasks s))) xs ->
    fold_left (conc_next K rnd) xs (s, l) = (s, l).
  Proof.
    induction 1 as [|x xs -> H IH]; [reflexivity|]. rewrite (fold_step _ _ _ _ s []) by now apply step_none. exact IH.
  Qed.
  Lemma fold_last n xs c ts t st cb dead l c' new st' cb' l' : n = length ts ->
    task_step K rnd (mkConc c (ts ++ [t]) st cb dead) t = (c', cb', st', new, l') ->
    fold_left (conc_next K rnd) (EStep n :: xs) (mkConc c (ts ++ [t]) st cb dead, l) =
    fold_left (conc_next K rnd) xs (mkConc c' (ts ++ new) st' cb' dead, l' ++ l).
  Proof. intros -> T. apply fold_step. rewrite (step_last (mkConc c (ts ++ [t]) st cb dead) ts t eq_refl), T. reflexivity. Qed.
End Seq.
Lemma receive_alone V rnd s data :
  let n := length (cs_tasks s) in
  let after := fold_left (conc_next (K12 V) rnd) [EReceive data; EStep n; EStep n; EStep n; EStep n] (s, []) in
  let seq := v12_prepareDataElements V (fun h => negb (mem h (cs_dead s))) (cs_cache s) data in
  cs_cache (fst after) = fst seq /\ cs_tasks (fst after) = cs_tasks s /\
  forall m h, snd seq = Ok (m, h) <-> exists e, h = e1_handle e /\ In (LDeliver e m) (snd after).
Proof.
  intros n after seq. subst after seq. destruct s as [c ts st cb dead]. cbn [cs_tasks cs_cache cs_dead] in *. subst n.
  unfold v12_prepareDataElements.
  assert (RR : forall x l m h, (forall e x, ~ In (@LDeliver entry1 bytes message e x) l) ->
     (@Raise (message * nat) x = Ok (m, h) <-> exists e, h = e1_handle e /\ In (LDeliver e m) l)).
  { intros x l m h N. split; [discriminate|]. intros (e & _ & X). destruct (N _ _ X). }
  rewrite (fold_step (K12 V) rnd _ _ _ _ (mkConc c (ts ++ match v12_parse V data with Some m => [TRetrieve m] | None => [] end) st cb dead) [LReceive data])
    by reflexivity.
  unfold v12_parse.
  destruct (message_decode (vp_types V) (ABytes data)) as [m|x].
  2:{ rewrite app_nil_r, fold_none by (repeat constructor). cbn [fst snd cs_cache cs_tasks app].
      split; [auto|]. split; [auto|]. intros; apply RR. intros e0 x0 [X|[]]; discriminate. }
  destruct (is_ResponsePDU (m_pdu m)).
  2:{ rewrite app_nil_r, fold_none by (repeat constructor). cbn [fst snd cs_cache cs_tasks app].
      split; [auto|]. split; [auto|]. intros; apply RR. intros e0 x0 [X|[]]; discriminate. }
  destruct (retrieve c (pdu_requestID (m_pdu m))) as [e|x] eqn:G.
  2:{ rewrite (fold_last (K12 V) rnd _ _ c ts (TRetrieve m) st cb dead _ c [] st cb [LReject m] eq_refl)
        by (cbn; rewrite G; reflexivity).
      rewrite app_nil_r, fold_none by (repeat constructor). cbn [fst snd cs_cache cs_tasks app].
      split; [auto|]. split; [auto|]. intros; apply RR. intros e0 x0 [X|[X|[]]]; discriminate. }
  rewrite (fold_last (K12 V) rnd _ _ c ts (TRetrieve m) st cb dead _ c [TDeref e m] st cb [LFound e m] eq_refl)
    by (cbn; rewrite G; reflexivity).
  destruct (mem (e1_handle e) dead) eqn:D; cbn [negb].
  - rewrite (fold_last (K12 V) rnd _ _ c ts (TDeref e m) st cb dead _ c [TDrop (pdu_requestID (m_pdu m))] st cb [LReject m] eq_refl)
      by (cbn [task_step]; change (k_handle (K12 V) e) with (e1_handle e); cbn [cs_dead]; rewrite D; reflexivity).
    rewrite (fold_last (K12 V) rnd _ _ c ts (TDrop (pdu_requestID (m_pdu m))) st cb dead _ (uncache c (pdu_requestID (m_pdu m))) [] st cb [LDropped (pdu_requestID (m_pdu m))] eq_refl eq_refl).
    rewrite app_nil_r, fold_none by (repeat constructor). cbn [fst snd cs_cache cs_tasks app].
    split; [auto|]. split; [auto|]. intros; apply RR. intros e0 x0 [X|[X|[X|[X|[]]]]]; discriminate.
  - rewrite (fold_last (K12 V) rnd _ _ c ts (TDeref e m) st cb dead _ c [TCheck e m] st cb [] eq_refl)
      by (cbn [task_step]; change (k_handle (K12 V) e) with (e1_handle e); cbn [cs_dead]; rewrite D; reflexivity).
    rewrite (fold_last (K12 V) rnd _ _ c ts (TCheck e m) st cb dead _ c [] st cb [if zlist_eqb (e1_community e) (m_community m) then LDeliver e m else LReject m] eq_refl eq_refl).
    rewrite app_nil_r, fold_none by (repeat constructor).
    destruct (zlist_eqb (e1_community e) (m_community m)); cbn [negb fst snd cs_cache cs_tasks app].
    + split; [auto|]. split; [auto|]. intros m' h. split.
      * intros X. injection X as <- <-. exists e. split; [auto|left; reflexivity].
      * intros (e' & -> & [X|[X|[X|[]]]]); try discriminate. injection X as <- <-. reflexivity.
    + split; [auto|]. split; [auto|]. intros; apply RR. intros e0 x0 [X|[X|[X|[]]]]; discriminate.
Qed.
