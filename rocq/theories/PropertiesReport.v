(** PropertiesReport.v -- C70: which reports make wait() raise, and when. *)
From Verif Require Import PropertiesUsm PropertiesMsg PropertiesProc PropertiesMgr PrfMgr3i PropertiesMgr3 PropertiesReg PropertiesUse PrfHear PrfHear2 PrfMgr3e PrfMgr3d PropertiesHear PropertiesAnswer.
From Verif Require Import SpecUse SpecReg.

(** The report [x], with the variable binding [vb], comes from the datagram [d],
    received after [before]. *)
Definition reported_by (W : world) (before : list event3) (d : bytes) (m0 m : v3msg) (x : report) (vb : varbind) : Prop :=
  let s := fst (run3 W before) in
  v3_decode (ABytes d) = Ok m0 /\ snd (usm_processIncoming (w_crypto W) (w_ticks W) (v_usm s) m0 (w_clk W (v_clock s))) = Ok m /\
  exists sc vbs, v3_scoped m = Some sc /\ pdu_cls (sp_pdu sc) = ReportPDU /\ pdu_vbs (sp_pdu sc) = vb :: vbs /\ report_kind (vb_name vb) = RException x.

(** * C70 *)
(** A report makes wait() raise before the expiration only if it is [good]. *)
Definition C70_when (good : world -> list usm_op -> list log3 -> nat -> call3 -> list event3 -> bytes -> v3msg -> v3msg -> Prop) : Prop :=
  forall W h0 evs s l r c x vb,
  world_after W h0 -> crypto_ok (w_crypto W) -> 0 < w_ticks W -> Forall event_ok evs -> (forall d, In (VReceive d) evs -> bytes_ok d) ->
  history W evs s l -> nth_error (calls evs) r = Some c -> In (WOutcome r (VReport x vb)) l ->
  has_expired3 W s r \/
  exists before d after m0 m, evs = before ++ VReceive d :: after /\ reported_by W before d m0 m x vb /\ good W h0 l r c before d m0 m.
(** It is secured at the level of the request, or a higher one. *)
Definition C70_level_statement : Prop := C70_when (fun W h0 l r c before d m0 m => at_least (level_of m) (c_level c)).
(** It is signed, with the key of a user at the engine to which the request was sent. *)
Definition C70_engine_statement : Prop := C70_when (fun W h0 l r c before d m0 m =>
  exists e n, vouched W h0 before d m0 e n /\ exists h w now p user level wire, In (WSent r h w now p e user level wire) l).

(** Reports in the log are of messages received. *)
Lemma step_report C R rnd clk ns s x s' l' r y vb a : vstep C R rnd clk ns s x s' l' -> In (WReport r y vb a) l' ->
  exists h m, In (WPushed h m) l' /\ g_req (getm (v_msgs s) h) = r /\ v_listener s = LPush h m /\ report_of m vb /\ report_kind (vb_name vb) = RException y /\ fl_auth (h_flags (v3_header m)) = a.
Proof.
  assert (SN : forall s r0 w now eng s1 l x, sends s r0 w now eng s1 l x -> ~ In (WReport r y vb a) l).
  { intros s0 r0 w now eng s1 l0 x0 S IN. destruct S as [u ex E|u p c cb d e user lev l0 x0 q h0 T L CA [(wire & _ & ->)|(ex & _ & ->)]]; destruct IN as [IN|[]]; discriminate. }
  assert (AS : forall s r0 w s1 l x, asks clk s r0 w s1 l x -> ~ In (WReport r y vb a) l) by (intros s0 r0 w s1 l0 x0 A; destruct A; [intros []|eapply SN; eauto..]).
  intros H IN. destruct H as [ | | |pre t post s1 new l E T| | |s' l LS| | |]; try contradiction.
  - exfalso. destruct T; try contradiction; try (now apply AS in IN || (eapply AS; eauto)); try (eapply SN; eauto; fail); try (destruct IN as [IN|[]]; discriminate).
  - destruct LS; try contradiction; try (exfalso; eapply SN; eauto; fail); try (destruct IN as [IN|[]]; discriminate).
    destruct IN as [IN|[IN|[]]]; [discriminate|]. injection IN as <- <- <- <-. exists h, m. split; [now left|]. auto.
Qed.
Lemma report_run W evs s l : history W evs s l -> forall r y vb a, In (WReport r y vb a) l ->
  exists h m, In (WPushed h m) l /\ (h < length (v_msgs s))%nat /\ g_req (getm (v_msgs s) h) = r /\ report_of m vb /\ report_kind (vb_name vb) = RException y /\ fl_auth (h_flags (v3_header m)) = a.
Proof.
  intros HI. apply history_new in HI as (s0 & NEW & RUN). revert evs s l RUN.
  apply (history_ind (w_crypto W) (w_ticks W) (w_rnd W) (w_clk W) (w_fmt W) (w_namespace W) s0 (fun _ s l => forall r y vb a, In (WReport r y vb a) l ->
    exists h m, In (WPushed h m) l /\ (h < length (v_msgs s))%nat /\ g_req (getm (v_msgs s) h) = r /\ report_of m vb /\ report_kind (vb_name vb) = RException y /\ fl_auth (h_flags (v3_header m)) = a)).
  - eapply base_start; eauto.
  - intros r y vb a [].
  - intros evs s l x s' l' _ [I _] K ST r y vb a IN. pose proof (step_spec _ _ _ _ _ _ _ _ _ I ST) as (_ & (_ & _ & _ & ML & MQ) & _).
    apply in_log in IN as [IN|IN].
    + destruct (step_report _ _ _ _ _ _ _ _ _ _ _ _ _ ST IN) as (h & m & P & G & L & D). destruct (i3_push _ I _ _ L) as [LT _]. exists h, m.
      split; [apply in_log; now left|]. split; [lia|]. split; [now rewrite (proj1 (MQ h LT))|exact D].
    + destruct (K _ _ _ _ IN) as (h & m & P & LT & G & D). exists h, m. split; [apply in_log; now right|]. split; [lia|]. split; [now rewrite (proj1 (MQ h LT))|exact D].
Qed.

(** In every history: it was signed, with a key of the user (or of a user without
    a name: the report may answer the discovery message). *)
Theorem C70_signed_partial : C70_when (fun W h0 l r c before d m0 m =>
  sl_auth (level_of m) = true /\ exists e n, v3_engineID m = Some e /\ v3_name m = Some n /\ (n = c_user c \/ n = []) /\ vouched W h0 before d m0 e n).
Proof.
  intros W h0 evs s l r c x vb WA CO TK EV BY HI NE OUT.
  destruct (C44_v3_cases_partial W evs s l r _ HI OUT) as ([|] & RP & XP); [|left; now apply XP]. right.
  destruct (report_run W evs s l HI r x vb true RP) as (h & m & PU & LT & G & (sc & vbs & S1 & S2 & S3) & KI & FA).
  destruct (history_new W _ s l HI) as (s0 & NEW & RUN).
  pose proof (calls_run _ _ _ _ _ _ _ _ _ _ _ _ _ _ NEW RUN) as [_ CC]. destruct (CC _ _ NE) as (_ & B2 & _).
  pose proof (match_run _ _ _ _ _ _ _ _ _ _ _ _ _ _ NEW RUN) as [_ _ MP _ _].
  destruct (MP h m PU) as (sc1 & e1 & T1 & _ & MM & (_ & _ & EO) & EH). rewrite S1 in T1. injection T1 as <-. cbv zeta in EO. rewrite EH, G in EO. rewrite B2 in EO.
  assert (NM : v3_name m = Some (e3_name e1)).
  { unfold v3_mismatch in MM. apply orb_false_iff in MM as [MM _]. apply orb_false_iff in MM as [MM _]. apply orb_false_iff in MM as [_ MM]. apply negb_false_iff in MM. now apply opt_bytes_eqb_eq in MM. }
  destruct (vouch_any W h0 evs s l h m (e3_name e1) WA CO TK EV BY HI PU) as (before & d & after & m0 & EQ & DE & IN & VO).
  destruct VO as (e & E1 & E2); [exact FA|exact NM|].
  exists before, d, after, m0, m. split; [exact EQ|]. split; [split; [exact DE|]; split; [exact IN|]; exists sc, vbs; auto|]. split; [exact FA|].
  exists e, (e3_name e1). split; [exact E1|]. split; [exact NM|]. split; [|exact E2]. destruct EO as [(_ & -> & _)|(-> & _)]; auto.
Qed.
Print Assumptions C70_signed_partial.

(** Of a request made when the manager knew the engine: with a key of the user.
    [ev]: the step in which wait() raises for the first time. *)
Theorem C70_known : forall W h0 evs1 evs2 s1 l1 evs s l ev s' l' r c x vb,
  history W evs1 s1 l1 -> knows_engine W l1 -> evs = evs1 ++ evs2 -> (length (calls evs1) <= r)%nat ->
  world_after W h0 -> crypto_ok (w_crypto W) -> 0 < w_ticks W -> Forall event_ok evs -> (forall d, In (VReceive d) evs -> bytes_ok d) ->
  history W evs s l -> step3 W s ev = (s', l') -> nth_error (calls evs) r = Some c ->
  In (WOutcome r (VReport x vb)) l' -> (forall o, ~ In (WOutcome r o) l) ->
  has_expired3 W s r \/
  exists before d after m0 m e, evs = before ++ VReceive d :: after /\ reported_by W before d m0 m x vb /\
    sl_auth (level_of m) = true /\ v3_engineID m = Some e /\ v3_name m = Some (c_user c) /\ vouched W h0 before d m0 e (c_user c).
Proof.
  intros W h0 evs1 evs2 s1 l1 evs s l ev s' l' r c x vb HI1 KN EE GE WA CO TK EV BY HI ST NE OUT FIRST.
  destruct (history_new W _ s l HI) as (s0 & NEW & RUN).
  pose proof (calls_run _ _ _ _ _ _ _ _ _ _ _ _ _ _ NEW RUN) as [CL CC]. destruct (CC _ _ NE) as (_ & B2 & B3 & _). fold (request3 s r) in B2, B3.
  pose proof (outcome_run _ _ _ _ _ _ _ _ _ _ _ _ _ _ NEW RUN) as [_ OC _].
  destruct (base_run _ _ _ _ _ _ _ _ _ _ (base_start _ _ _ _ _ _ _ _ NEW) RUN) as [I _].
  assert (PL : plain (length (calls evs1)) s l).
  { destruct (history_new W _ s1 l1 HI1) as (s0' & NEW' & RUN1). rewrite NEW in NEW'. injection NEW' as <-. rewrite EE in RUN.
    pose proof (calls_run _ _ _ _ _ _ _ _ _ _ _ _ _ _ NEW RUN1) as [CL1 _]. rewrite <- CL1. exact (plain_since _ _ _ _ _ _ _ _ _ _ _ _ _ _ _ _ _ NEW RUN1 (known W _ _ _ HI1 KN) RUN). }
  unfold step3 in ST. apply m3_step_spec in ST. destruct (log_outcome _ _ _ _ _ _ _ _ _ _ _ ST OUT) as (o' & TI & [<-|[X|X]]); try discriminate.
  pose proof (i3_tasks _ I _ TI) as AL. cbn in AL.
  destruct (OC _ _ TI) as [(e & X & _)|(la & l2 & EL & V & XP)]; [discriminate|].
  unfold verdict in V. destruct (find (decisive r) (rev l2)) as [y|] eqn:F.
  2:{ left. exact (XP eq_refl). }
  apply find_some in F as [F D]. apply in_rev in F. destruct y; cbn in D; try discriminate.
  2:{ exfalso. unfold answer3 in V. destruct (v3_scoped m); [destruct (_ =? 0)|]; discriminate. }
  destruct auth; [|discriminate]. apply Nat.eqb_eq in D as ->. injection V as <- <-. right.
  destruct (report_run W evs s l HI r x vb true) as (h & m & PU & LT & G & (sc & vbs & S1 & S2 & S3) & KI & FA); [rewrite EL; apply in_or_app; auto|].
  destruct (p_pushed _ _ _ PL _ _ PU) as (_ & _ & [OV|FT]).
  { exfalso. rewrite G in OV. destruct OV as [OV|[[o OV]|OV]]; [lia|now apply (FIRST o)|congruence]. }
  destruct FT as (sc2 & e & T2 & MM & (LH & _ & N1 & N2) & EH). rewrite S1 in T2. injection T2 as <-. rewrite EH, G in N1. fold (request3 s r) in N1. rewrite B2 in N1.
  assert (NM : v3_name m = Some (c_user c)).
  { unfold v3_mismatch in MM. apply orb_false_iff in MM as [MM _]. apply orb_false_iff in MM as [MM _]. apply orb_false_iff in MM as [_ MM]. apply negb_false_iff in MM. apply opt_bytes_eqb_eq in MM. congruence. }
  destruct (vouch_any W h0 evs s l h m (c_user c) WA CO TK EV BY HI PU) as (before & d & after & m0 & EQ & DE & IN & VO).
  destruct VO as (e' & E1 & E2); [exact FA|exact NM|].
  exists before, d, after, m0, m, e'. split; [exact EQ|]. split; [split; [exact DE|]; split; [exact IN|]; exists sc, vbs; auto|]. auto.
Qed.
Print Assumptions C70_known.
Theorem C70_configured : forall W h0 e0 evs s l ev s' l' r c x vb,
  w_engine W = Some e0 ->
  world_after W h0 -> crypto_ok (w_crypto W) -> 0 < w_ticks W -> Forall event_ok evs -> (forall d, In (VReceive d) evs -> bytes_ok d) ->
  history W evs s l -> step3 W s ev = (s', l') -> nth_error (calls evs) r = Some c ->
  In (WOutcome r (VReport x vb)) l' -> (forall o, ~ In (WOutcome r o) l) ->
  has_expired3 W s r \/
  exists before d after m0 m e, evs = before ++ VReceive d :: after /\ reported_by W before d m0 m x vb /\
    sl_auth (level_of m) = true /\ v3_engineID m = Some e /\ v3_name m = Some (c_user c) /\ vouched W h0 before d m0 e (c_user c).
Proof.
  intros W h0 e0 evs s l ev s' l' r c x vb CFG WA CO TK EV BY HI. apply (C70_known W h0 [] evs (fst (new3 W)) [] evs s l ev s' l' r c x vb); auto.
  - destruct HI as [N _]. split; [exact N|reflexivity].
  - left. rewrite CFG. discriminate.
  - cbn. lia.
Qed.
Print Assumptions C70_configured.

(** ** At the expiration *)
Lemma find_last {A} (f : A -> bool) l1 l2 : find f (l1 ++ l2) = match find f l1 with Some y => Some y | None => find f l2 end.
Proof. induction l1 as [|x l1 IH]; [reflexivity|]. cbn [app find]. now destruct (f x). Qed.
Lemma find_oldest {A} (f : A -> bool) l y : find f (rev l) = Some y -> exists l1 l2, l = l1 ++ y :: l2 /\ f y = true /\ forall z, In z l2 -> f z = false.
Proof.
  induction l as [|x l IH]; cbn [rev]; [discriminate|]. rewrite find_last. destruct (find f (rev l)) as [z|] eqn:F.
  - intros H. injection H as ->. destruct (IH eq_refl) as (l1 & l2 & -> & Y & Z). exists (x :: l1), l2. auto.
  - cbn [find]. destruct (f x) eqn:X; [|discriminate]. intros H. injection H as <-. exists [], l. split; [reflexivity|]. split; [exact X|].
    intros z I. apply in_rev in I. exact (find_none _ _ F _ I).
Qed.
(** wait() is about to end without a response: it raises what was first reported,
    if anything was, and Timeout otherwise.  [l]: newest first. *)
Theorem C70_expired : forall W evs s l n r, used_before W -> others_fair W evs -> history W evs s l ->
  nth_error (v_tasks s) n = Some (SEnd r) -> (forall m, ~ In (WResponse r m) l) ->
  exists s' o, run3 W (evs ++ [VStep n; VStep n]) = (s', WOutcome r o :: l) /\
    match o with
    | VReport x vb => exists a l1 l2, l = l1 ++ WReport r x vb a :: l2 /\ forall y vb', ~ In (WReport r y vb' a) l2
    | VRaised Timeout => forall x vb a, ~ In (WReport r x vb a) l
    | _ => False
    end.
Proof.
  intros W evs s l n r U F HI N NR. destruct (history_new W _ s l HI) as (s0 & NEW & RUN).
  pose proof (found_run _ _ _ _ _ _ _ _ _ _ _ _ _ _ NEW RUN) as [_ FO].
  destruct (base_run _ _ _ _ _ _ _ _ _ _ (base_start _ _ _ _ _ _ _ _ NEW) RUN) as [I _].
  pose proof (i3_tasks _ I _ (nth_error_In _ _ N)) as LT. cbn in LT. specialize (FO r (get3_alive_lt _ _ LT)). pose proof (end3_verdict _ _ _ FO) as EV.
  set (o := end3 (get3 (v_reqs s) r)) in *.
  assert (S1 : task3_step (w_crypto W) (w_ticks W) (w_rnd W) (w_clk W) (w_namespace W) s (SEnd r) = (s, [SClose r o], [])) by reflexivity.
  pose proof (nth_step _ _ _ _ _ _ _ N S1) as ST. pose proof (nth_set s n _ s (SClose r o) N) as N2. cbn [app] in ST, N2.
  set (s1 := set_threads s _ _) in *.
  assert (H1 : history W (evs ++ [VStep n]) s1 l).
  { destruct HI as [H0 H1]. split; [exact H0|]. unfold run3 in *. rewrite m3_run_snoc, H1. fold (step3 W s (VStep n)). rewrite ST. reflexivity. }
  assert (F1 : others_fair W (evs ++ [VStep n])) by (apply fair_next; [intros op X; discriminate X|exact F]).
  destruct (C66_close W _ s1 l n r o U F1 H1 N2) as [C1 _].
  exists (fst (step3 W s1 (VStep n))), o. split.
  - replace (evs ++ [VStep n; VStep n]) with ((evs ++ [VStep n]) ++ [VStep n]) by now rewrite <- app_assoc.
    destruct H1 as [_ H1]. unfold run3 in *. rewrite m3_run_snoc, H1. fold (step3 W s1 (VStep n)). destruct (step3 W s1 (VStep n)) as [s2 l2]. cbn [fst snd] in *. rewrite C1. reflexivity.
  - rewrite EV. unfold verdict. destruct (find (decisive r) (rev l)) as [y|] eqn:FD.
    + apply find_oldest in FD as (l1 & l2 & EL & D & FI). destruct y; cbn in D; try discriminate.
      * destruct auth; [|discriminate]. apply Nat.eqb_eq in D as ->. exists true, l1, l2. split; [exact EL|]. intros y vb' K. apply FI in K. cbn in K. rewrite Nat.eqb_refl in K. discriminate.
      * apply Nat.eqb_eq in D as ->. exfalso. apply (NR m). rewrite EL. apply in_or_app. right. left. reflexivity.
    + destruct (find (hearsay r) (rev l)) as [y|] eqn:FH.
      * apply find_oldest in FH as (l1 & l2 & EL & D & FI). destruct y; cbn in D; try discriminate.
        destruct auth; [discriminate|]. apply Nat.eqb_eq in D as ->. exists false, l1, l2. split; [exact EL|]. intros y vb' K. apply FI in K. cbn in K. rewrite Nat.eqb_refl in K. discriminate.
      * intros x vb a K. apply in_rev in K. destruct a; [pose proof (find_none _ _ FD _ K) as Q|pose proof (find_none _ _ FH _ K) as Q]; cbn in Q; rewrite Nat.eqb_refl in Q; discriminate.
Qed.
Print Assumptions C70_expired.

(** ** Not the level of the request *)
(** The request is encrypted, and the report signed but not encrypted. *)
Definition ex_weaker : list event3 := VUsers ex_add :: ex_call authPriv 10 3 ++ ex_discovered ++
  [VReceive (ex_signed 26 ex_engine (ex_report 3)); VListen; VWait 0] ++ ex_steps 8.
Lemma ex_user_after : world_after ex_user_world [].
Proof. split; [constructor|]. split; [reflexivity|]. split; intros k; cbn; lia. Qed.
(** No clock reading of the examples is past the expiration. *)
Lemma never_expired W s r : (forall i, w_clk W i = 0) -> expiration3 s r = 10 -> ~ has_expired3 W s r.
Proof. intros C E (i & _ & H). rewrite C, E in H. lia. Qed.
Lemma ex_clock i : ex_clk [0] i = 0.
Proof. unfold ex_clk. cbn [last]. destruct i as [|[|i]]; reflexivity. Qed.
Definition ex_told : varbind := mkVarBind (usmStats ++ [3; 0]) (PInt Counter32 1).
Definition unencrypted (x : event3) : bool :=
  match x with VReceive d => match v3_decode (ABytes d) with Ok m => negb (fl_priv (h_flags (v3_header m))) | Raise _ => true end | _ => true end.
Lemma header_kept C R s m0 now m : snd (usm_processIncoming C R s m0 now) = Ok m -> fl_priv (h_flags (v3_header m0)) = false -> v3_header m = v3_header m0.
Proof.
  intros IN PV. unfold usm_processIncoming in IN. destruct (params_decode _) as [sp|ex]; [|discriminate]. cbn [v3_header] in IN. cbv zeta in IN. rewrite PV in IN. cbn [andb] in IN.
  destruct (negb _) in IN; [injection IN as <-; reflexivity|]. destruct (getCredentials _ _ _) as [u|ex] in IN; [|destruct ex; discriminate].
  destruct (lc_auth u) as [[alg key]|] in IN; [|discriminate]. destruct (negb _) in IN; [discriminate|].
  destruct (up_index sp) in IN; [|discriminate]. destruct (up_whole sp) in IN; [|discriminate]. destruct (negb _) in IN; [discriminate|].
  destruct (updateAndVerify _ _ _ _ _ _) as [t ok] in IN. destruct ok in IN; cbn [negb] in IN; [|discriminate]. injection IN as <-. reflexivity.
Qed.
Theorem C70_level_refuted : ~ C70_level_statement.
Proof.
  intros H. set (W := ex_user_world). set (sl := run3 W ex_weaker).
  assert (N : snd (new3 W) = Ok tt) by (vm_compute; reflexivity).
  assert (X : In (WOutcome 0 (VReport UnknownUserNameReport ex_told)) (snd sl)) by (vm_compute; left; reflexivity).
  assert (E : Forall event_ok ex_weaker) by (repeat constructor).
  assert (B : received_octets ex_weaker = true) by (vm_compute; reflexivity).
  assert (K : nth_error (calls ex_weaker) 0 = Some (mkCall3 ex_pdu ex_user authPriv 10 3)) by reflexivity.
  assert (Q : forallb unencrypted ex_weaker = true) by (vm_compute; reflexivity).
  assert (T : 0 < w_ticks W) by (cbn; lia).
  assert (P : expiration3 (fst sl) 0 = 10) by (vm_compute; reflexivity).
  destruct (H W [] ex_weaker (fst sl) (snd sl) 0%nat _ _ ex_told ex_user_after (toy_ok OpenSSL) T E (all_octets _ B) (conj N (surjective_pairing sl)) K X)
    as [XP|(before & d & after & m0 & m & EV & (DE & IN & _) & (_ & AL))].
  - exact (never_expired W _ _ ex_clock P XP).
  - clear H X P sl. rewrite forallb_forall in Q. assert (I : In (VReceive d) ex_weaker) by (rewrite EV; apply in_or_app; right; left; reflexivity).
    apply Q in I. cbn [unencrypted] in I. rewrite DE in I. apply negb_true_iff in I. specialize (AL eq_refl).
    unfold level_of in AL. rewrite (header_kept _ _ _ _ _ _ IN I) in AL. unfold fl_priv in I. congruence.
Qed.
Print Assumptions C70_level_refuted.

(** ** Nor the engine *)
(** The report comes from another engine, for which the user has a key. *)
Definition ex_other : bytes := [128;0;0;0;9].
Definition ex_elsewhere : list event3 := VUsers (OpRegister ex_other []) :: ex_call authNoPriv 10 3 ++
  [VReceive (ex_signed 13 ex_other (ex_report 3)); VListen; VWait 0] ++ ex_steps 8.
Definition not_from (e : bytes) (x : event3) : bool :=
  match x with VReceive d => match v3_decode (ABytes d) with Ok m => match params_decode (v3_params m) with Ok sp => negb (zlist_eqb (up_engineID sp) e) | Raise _ => true end | Raise _ => true end | _ => true end.
Definition sent_to (e : bytes) (y : log3) : bool := match y with WSent _ _ _ _ _ e' _ _ _ => zlist_eqb e' e | _ => true end.
Theorem C70_engine_refuted : ~ C70_engine_statement.
Proof.
  intros H. set (W := ex_world [0] (Some ex_engine)). set (sl := run3 W ex_elsewhere).
  assert (N : snd (new3 W) = Ok tt) by (vm_compute; reflexivity).
  assert (X : In (WOutcome 0 (VReport UnknownUserNameReport ex_told)) (snd sl)) by (vm_compute; left; reflexivity).
  assert (E : Forall event_ok ex_elsewhere) by (repeat constructor).
  assert (B : received_octets ex_elsewhere = true) by (vm_compute; reflexivity).
  assert (K : nth_error (calls ex_elsewhere) 0 = Some (mkCall3 ex_pdu ex_user authNoPriv 10 3)) by reflexivity.
  assert (Q : forallb (not_from ex_engine) ex_elsewhere = true) by (vm_compute; reflexivity).
  assert (SE : forallb (sent_to ex_engine) (snd sl) = true) by (vm_compute; reflexivity).
  assert (T : 0 < w_ticks W) by (cbn; lia).
  assert (P : expiration3 (fst sl) 0 = 10) by (vm_compute; reflexivity).
  destruct (H W ex_history ex_elsewhere (fst sl) (snd sl) 0%nat _ _ ex_told (ex_world_after [0] (Some ex_engine)) (toy_ok OpenSSL) T E (all_octets _ B) (conj N (surjective_pairing sl)) K X)
    as [XP|(before & d & after & m0 & m & EV & (DE & _) & e & n & (sp & _ & _ & _ & _ & _ & PD & EI & _) & h & w & now & p & user & level & wire & S)].
  - exact (never_expired W _ _ ex_clock P XP).
  - clear H X P. rewrite forallb_forall in SE. apply SE in S. clear SE sl. cbn [sent_to] in S. apply PrfDict.zlist_eqb_eq in S.
    rewrite forallb_forall in Q. assert (I : In (VReceive d) ex_elsewhere) by (rewrite EV; apply in_or_app; right; left; reflexivity).
    apply Q in I. cbn [not_from] in I. rewrite DE, PD, EI, S, PrfBase.zlist_eqb_refl in I. clear - I. discriminate I.
Qed.
Print Assumptions C70_engine_refuted.

(** ** Examples *)
(** The report is signed, and wait() ends early. *)
Example C70_signed_example : let W := ex_user_world in exists s l,
  world_after W [] /\ crypto_ok (w_crypto W) /\ 0 < w_ticks W /\ Forall event_ok ex_weaker /\ (forall d, In (VReceive d) ex_weaker -> bytes_ok d) /\
  history W ex_weaker s l /\ nth_error (calls ex_weaker) 0 = Some (mkCall3 ex_pdu ex_user authPriv 10 3) /\
  In (WOutcome 0 (VReport UnknownUserNameReport ex_told)) l /\ ~ has_expired3 W s 0.
Proof.
  cbv zeta. set (W := ex_user_world). set (sl := run3 W ex_weaker).
  assert (N : snd (new3 W) = Ok tt) by (vm_compute; reflexivity).
  assert (X : In (WOutcome 0 (VReport UnknownUserNameReport ex_told)) (snd sl)) by (vm_compute; left; reflexivity).
  assert (B : received_octets ex_weaker = true) by (vm_compute; reflexivity).
  assert (P : expiration3 (fst sl) 0 = 10) by (vm_compute; reflexivity).
  exists (fst sl), (snd sl). split; [exact ex_user_after|]. split; [exact (toy_ok OpenSSL)|]. split; [cbn; lia|].
  split; [repeat constructor|]. split; [exact (all_octets _ B)|]. split; [exact (conj N (surjective_pairing sl))|]. split; [reflexivity|]. split; [exact X|].
  exact (never_expired W _ _ ex_clock P).
Qed.
(** The report is not signed: wait() sees the expiration first. *)
Definition ex_hearsay : list event3 := ex_call authNoPriv 10 3 ++
  [VReceive (ex_note 13 ex_engine ex_user (ex_report 3)); VListen; VWait 0] ++ ex_steps 1.
Example C70_expired_example : let W := ex_world [0;0;0;0;20] (Some ex_engine) in exists s l,
  used_before W /\ others_fair W ex_hearsay /\ history W ex_hearsay s l /\ nth_error (v_tasks s) 0 = Some (SEnd 0) /\
  (forall m, ~ In (WResponse 0 m) l) /\ In (WReport 0 UnknownUserNameReport ex_told false) l.
Proof.
  cbv zeta. set (W := ex_world [0;0;0;0;20] (Some ex_engine)). set (sl := run3 W ex_hearsay).
  assert (U : used_before W).
  { exists (toy OpenSSL), (fun _ => 7), [OpAddUser ex_user (Some HmacSha) None None None ex_secret false None []]. vm_compute. reflexivity. }
  assert (N : snd (new3 W) = Ok tt) by (vm_compute; reflexivity).
  assert (F : others_fair W ex_hearsay).
  { apply others_keep_fair; [exact U|]. intros e ns H. vm_compute in H. repeat (destruct H as [H|H]; [discriminate H|]). destruct H. }
  assert (T : nth_error (v_tasks (fst sl)) 0 = Some (SEnd 0)) by (vm_compute; reflexivity).
  assert (Q : forallb (fun y => match y with WResponse _ _ => false | _ => true end) (snd sl) = true) by (vm_compute; reflexivity).
  assert (R : In (WReport 0 UnknownUserNameReport ex_told false) (snd sl)) by (vm_compute; left; reflexivity).
  exists (fst sl), (snd sl). split; [exact U|]. split; [exact F|]. split; [exact (conj N (surjective_pairing sl))|]. split; [exact T|]. split; [|exact R].
  intros m I. rewrite forallb_forall in Q. apply Q in I. clear - I. discriminate I.
Qed.
(** With the engine ID configured. *)
Definition ex_refused : list event3 := ex_call authNoPriv 10 3 ++
  [VReceive (ex_signed 13 ex_engine (ex_report 3)); VListen; VWait 0] ++ ex_steps 7.
Example C70_configured_example : let W := ex_world [0] (Some ex_engine) in exists s l s' l',
  world_after W ex_history /\ crypto_ok (w_crypto W) /\ 0 < w_ticks W /\ Forall event_ok ex_refused /\ (forall d, In (VReceive d) ex_refused -> bytes_ok d) /\
  history W ex_refused s l /\ step3 W s (VStep 0) = (s', l') /\ nth_error (calls ex_refused) 0 = Some (mkCall3 ex_pdu ex_user authNoPriv 10 3) /\
  In (WOutcome 0 (VReport UnknownUserNameReport ex_told)) l' /\ (forall o, ~ In (WOutcome 0 o) l) /\ ~ has_expired3 W s 0.
Proof.
  cbv zeta. set (W := ex_world [0] (Some ex_engine)). set (sl := run3 W ex_refused). set (sl' := step3 W (fst sl) (VStep 0)).
  assert (N : snd (new3 W) = Ok tt) by (vm_compute; reflexivity).
  assert (X : In (WOutcome 0 (VReport UnknownUserNameReport ex_told)) (snd sl')) by (vm_compute; left; reflexivity).
  assert (B : received_octets ex_refused = true) by (vm_compute; reflexivity).
  assert (Q : forallb (fun y => match y with WOutcome _ _ => false | _ => true end) (snd sl) = true) by (vm_compute; reflexivity).
  assert (P : expiration3 (fst sl) 0 = 10) by (vm_compute; reflexivity).
  exists (fst sl), (snd sl), (fst sl'), (snd sl'). split; [apply ex_world_after|]. split; [exact (toy_ok OpenSSL)|]. split; [cbn; lia|].
  split; [repeat constructor|]. split; [exact (all_octets _ B)|]. split; [exact (conj N (surjective_pairing sl))|]. split; [exact (surjective_pairing sl')|].
  split; [reflexivity|]. split; [exact X|]. split; [|exact (never_expired W _ _ ex_clock P)]. clear - Q. rewrite forallb_forall in Q. intros o K. apply Q in K. clear - K. discriminate K.
Qed.
