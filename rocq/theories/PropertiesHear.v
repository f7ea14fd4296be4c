(** PropertiesHear.v -- C68: where the answer to an authenticated request comes
    from. *)
From Verif Require Import PropertiesUsm PropertiesMsg PropertiesProc PropertiesMgr PrfMgr3i PropertiesMgr3 PrfHear PrfHear2 PrfMgr3e PrfMgr3d.
From Verif Require Import SpecUse.

Lemma prepared C R alive u p d ts u' m h : v3_prepareDataElements C R alive u p d ts = (u', Ok (m, h)) ->
  exists m0, v3_decode (ABytes d) = Ok m0 /\ snd (usm_processIncoming C R u m0 ts) = Ok m.
Proof.
  unfold v3_prepareDataElements. destruct (v3_decode _) as [m0|ex]; [|discriminate]. destruct (has_module _ _); [|discriminate]. intros H. exists m0. split; [reflexivity|].
  destruct (usm_processIncoming _ _ _ _ _) as [u1 [m1|ex]]; [|discriminate]. injection H as _ H. unfold v3_match in H.
  cbn. f_equal. repeat match type of H with context [match ?x with _ => _ end] => destruct x; try discriminate end; injection H; congruence.
Qed.

(** [d] is signed with a key of the user [n], and its time is in the window. *)
Definition vouched (W : world) (h0 : list usm_op) (before : list event3) (d : bytes) (m0 : v3msg) (e n : bytes) : Prop :=
  let s := fst (run3 W before) in
  exists sp alg key pre post th, params_decode (v3_params m0) = Ok sp /\ up_engineID sp = e /\ up_userName sp = n /\
    key_of W h0 before e n alg key /\ signed_at (w_crypto W) alg key d pre (up_signature sp) post /\
    us_time (v_usm s) = time_after (w_ticks W) th /\ in_window (w_ticks W) th e (up_boots sp) (up_time sp) (w_clk W (v_clock s)).
(** The bindings [vbs] come from the datagram [d], received after [before]. *)
Definition carried (W : world) (before : list event3) (d : bytes) (m0 m : v3msg) (vbs : list varbind) : Prop :=
  let s := fst (run3 W before) in
  v3_decode (ABytes d) = Ok m0 /\ snd (usm_processIncoming (w_crypto W) (w_ticks W) (v_usm s) m0 (w_clk W (v_clock s))) = Ok m /\
  exists sc, v3_scoped m = Some sc /\ pdu_cls (sp_pdu sc) = ResponsePDU /\ pdu_vbs (sp_pdu sc) = vbs.

(** * C68 *)
Definition C68_statement : Prop := forall W h0 evs s l r c vbs,
  world_after W h0 -> crypto_ok (w_crypto W) -> 0 < w_ticks W -> Forall event_ok evs -> (forall d, In (VReceive d) evs -> bytes_ok d) ->
  history W evs s l -> nth_error (calls evs) r = Some c -> level_ok (c_level c) -> sl_auth (c_level c) = true ->
  In (WOutcome r (VReturned vbs)) l ->
  exists before d after m0 m e, evs = before ++ VReceive d :: after /\ carried W before d m0 m vbs /\
    at_least (level_of m) (c_level c) /\ v3_engineID m = Some e /\ v3_name m = Some (c_user c) /\ vouched W h0 before d m0 e (c_user c).
(** An authenticated message that was received. *)
Lemma vouch_any W h0 evs s l h m n : world_after W h0 -> crypto_ok (w_crypto W) -> 0 < w_ticks W -> Forall event_ok evs -> (forall d, In (VReceive d) evs -> bytes_ok d) ->
  history W evs s l -> In (WPushed h m) l ->
  exists before d after m0, evs = before ++ VReceive d :: after /\
    v3_decode (ABytes d) = Ok m0 /\ snd (usm_processIncoming (w_crypto W) (w_ticks W) (v_usm (fst (run3 W before))) m0 (w_clk W (v_clock (fst (run3 W before))))) = Ok m /\
    (sl_auth (level_of m) = true -> v3_name m = Some n -> exists e, v3_engineID m = Some e /\ vouched W h0 before d m0 e n).
Proof.
  intros (F0 & U0 & D0 & D1) CO TK EV BY HI PU.
  destruct (heard_run W evs s l HI) as [_ HE]. destruct (HE h m PU) as (before & d & after & s1 & l1 & u & -> & R1 & PR).
  apply prepared in PR as (m0 & DE & IN). exists before, d, after, m0. split; [reflexivity|].
  split; [exact DE|]. rewrite R1. cbn [fst]. split; [exact IN|].
  intros AL NA.
  assert (EB : Forall event_ok before) by (apply Forall_app in EV; tauto).
  pose proof (told_run W h0 F0 U0 D0 D1 before before EB (fun x H => H) s1 l1 R1) as T.
  assert (TR := told_reach _ _ _ _ _ T). destruct TR as (hh & FH & UH). rewrite UH in IN.
  assert (BD : bytes_ok d) by (apply BY, in_or_app; right; now left).
  assert (FA : fl_auth (h_flags (v3_header m0)) = true).
  { destruct (fl_auth (h_flags (v3_header m0))) eqn:FA; [reflexivity|]. exfalso.
    unfold usm_processIncoming in IN. destruct (params_decode _) as [sp|ex]; [|discriminate]. cbn [v3_header] in IN. rewrite FA in IN. injection IN as <-.
    unfold level_of in AL. cbn [v3_header] in AL. unfold fl_auth in FA. congruence. }
  destruct (C36_authenticated (w_crypto W) (w_ticks W) (w_rnd W 2) hh d m0 (w_clk W (v_clock s1)) m TK CO FH BD DE IN FA) as (sp & lc & alg & key & pre & post & th & P1 & P2 & P3 & P4 & P5 & P6 & P7 & P8 & P9 & P10 & P11).
  rewrite P4 in NA. injection NA as NA.
  exists (up_engineID sp). split; [exact P3|]. unfold vouched. rewrite R1. cbn [fst].
  exists sp, alg, key, pre, post, th. split; [exact P1|]. split; [reflexivity|]. split; [exact NA|]. split; [|split; [exact P8|rewrite <- UH in P10; auto]].
  rewrite <- UH in P5. destruct (told_key _ _ _ (ok_hash _ CO) _ _ _ _ _ T P5) as (ns & ap & asec & pp & ps & sec & df & dsl & cr & K1 & K2 & K3 & K4).
  unfold localised_to in K4. destruct K3 as (_ & AP & K3). rewrite AP in K4. destruct ap as [a|]; [|destruct K4 as [K4 _]; congruence].
  destruct K4 as [K4 _]. rewrite P6 in K4. injection K4 as -> ->. destruct K3 as (_ & (msg & ST & KE) & _).
  exists ns, asec, pp, ps, sec, df, dsl, msg. rewrite NA in K2.
  split; [destruct K1 as [K1|(e' & K1)]; [right; exact K1|left; congruence]|]. split; [destruct K2 as [K2|(e' & K2)]; [exact K2|discriminate]|].
  split; [exact ST|]. now rewrite KE.
Qed.
Lemma vouch W h0 evs s l h m n vbs sc : world_after W h0 -> crypto_ok (w_crypto W) -> 0 < w_ticks W -> Forall event_ok evs -> (forall d, In (VReceive d) evs -> bytes_ok d) ->
  history W evs s l -> In (WPushed h m) l -> v3_scoped m = Some sc -> pdu_cls (sp_pdu sc) = ResponsePDU -> pdu_vbs (sp_pdu sc) = vbs ->
  exists before d after m0, evs = before ++ VReceive d :: after /\ carried W before d m0 m vbs /\
    (sl_auth (level_of m) = true -> v3_name m = Some n -> exists e, v3_engineID m = Some e /\ vouched W h0 before d m0 e n).
Proof.
  intros WA CO TK EV BY HI PU SC CLS VB. destruct (vouch_any W h0 evs s l h m n WA CO TK EV BY HI PU) as (before & d & after & m0 & EQ & DE & IN & VO).
  exists before, d, after, m0. split; [exact EQ|]. split; [|exact VO]. split; [exact DE|]. split; [exact IN|]. exists sc. auto.
Qed.
(** In every history, the one exception is a message with no engine ID and no
    user name (C28_refuted). *)
Theorem C68_signed_partial : forall W h0 evs s l r c vbs,
  world_after W h0 -> crypto_ok (w_crypto W) -> 0 < w_ticks W -> Forall event_ok evs -> (forall d, In (VReceive d) evs -> bytes_ok d) ->
  history W evs s l -> nth_error (calls evs) r = Some c -> level_ok (c_level c) -> sl_auth (c_level c) = true ->
  In (WOutcome r (VReturned vbs)) l ->
  exists before d after m0 m, evs = before ++ VReceive d :: after /\ carried W before d m0 m vbs /\
    ((exists e, at_least (level_of m) (c_level c) /\ v3_engineID m = Some e /\ v3_name m = Some (c_user c) /\ vouched W h0 before d m0 e (c_user c)) \/
     (v3_engineID m = Some [] /\ v3_name m = Some [])).
Proof.
  intros W h0 evs s l r c vbs WA CO TK EV BY HI NE LO AU OUT.
  destruct (history_new W _ s l HI) as (s0 & NEW & RUN).
  pose proof (calls_run _ _ _ _ _ _ _ _ _ _ _ _ _ _ NEW RUN) as [CL CC]. destruct (CC _ _ NE) as (_ & B2 & B3 & _). fold (request3 s r) in B2, B3.
  rewrite <- B3 in LO. destruct (C28_level_partial W evs s l r vbs HI LO OUT) as (h & m & sc & PU & SC & VB & CLS & LV). rewrite B2, B3 in LV.
  destruct (vouch W h0 evs s l h m (c_user c) vbs sc WA CO TK EV BY HI PU SC CLS VB) as (before & d & after & m0 & EQ & CA & VO).
  exists before, d, after, m0, m. split; [exact EQ|]. split; [exact CA|].
  destruct LV as [[AL NA]|X]; [left|right; exact X]. destruct VO as (e & E1 & E2); [now apply AL|exact NA|]. exists e. auto.
Qed.
Print Assumptions C68_signed_partial.
(** A request made when the manager knows the engine: there is no exception, when
    wait() returns for the first time. *)
Lemma known W evs s l : history W evs s l -> knows_engine W l -> v_engine s <> None.
Proof.
  intros HI KN. destruct (history_new W _ s l HI) as (s0 & NEW & RUN).
  assert (ST : forall e0, w_engine W = Some e0 -> v_engine s <> None).
  { intros e0 CFG. rewrite CFG in NEW. exact (p_mgr _ _ _ (plain_run _ _ _ _ _ _ _ _ _ _ _ _ _ NEW RUN)). }
  pose proof (knows_run _ _ _ _ _ _ _ _ _ _ _ _ _ NEW RUN) as K. destruct KN as [KN|(r & m & IN & KN)].
  - destruct (w_engine W) as [e0|]; [now apply (ST e0)|now destruct KN].
  - destruct KN as [A|N]; [exact (kn_signed _ _ K r m (or_introl IN) A)|].
    destruct (kn_other _ _ K r m (or_introl IN)) as [X|(h & m' & sc & P & A & S & D)]; [exact X|]. exfalso. specialize (N h m' P (ex_intro _ sc (conj S D))).
    unfold level_of in N. unfold authentic, fl_auth in A. congruence.
Qed.
Theorem C68_known : forall W h0 evs1 evs2 s1 l1 evs s l x s' l' r c vbs,
  history W evs1 s1 l1 -> knows_engine W l1 -> evs = evs1 ++ evs2 -> (length (calls evs1) <= r)%nat ->
  world_after W h0 -> crypto_ok (w_crypto W) -> 0 < w_ticks W -> Forall event_ok evs -> (forall d, In (VReceive d) evs -> bytes_ok d) ->
  history W evs s l -> step3 W s x = (s', l') -> nth_error (calls evs) r = Some c -> level_ok (c_level c) -> sl_auth (c_level c) = true ->
  In (WOutcome r (VReturned vbs)) l' -> (forall o, ~ In (WOutcome r o) l) ->
  exists before d after m0 m e, evs = before ++ VReceive d :: after /\ carried W before d m0 m vbs /\
    at_least (level_of m) (c_level c) /\ v3_engineID m = Some e /\ v3_name m = Some (c_user c) /\ vouched W h0 before d m0 e (c_user c).
Proof.
  intros W h0 evs1 evs2 s1 l1 evs s l x s' l' r c vbs HI1 KN EE GE WA CO TK EV BY HI ST NE LO AU OUT FIRST.
  destruct (history_new W _ s l HI) as (s0 & NEW & RUN).
  pose proof (calls_run _ _ _ _ _ _ _ _ _ _ _ _ _ _ NEW RUN) as [CL CC]. destruct (CC _ _ NE) as (_ & B2 & B3 & _). fold (request3 s r) in B2, B3.
  pose proof (outcome_run _ _ _ _ _ _ _ _ _ _ _ _ _ _ NEW RUN) as [_ OC _]. pose proof (match_run _ _ _ _ _ _ _ _ _ _ _ _ _ _ NEW RUN) as [_ _ MP _ MR].
  destruct (base_run _ _ _ _ _ _ _ _ _ _ (base_start _ _ _ _ _ _ _ _ NEW) RUN) as [I _].
  assert (PL : plain (length (calls evs1)) s l).
  { destruct (history_new W _ s1 l1 HI1) as (s0' & NEW' & RUN1). rewrite NEW in NEW'. injection NEW' as <-. rewrite EE in RUN.
    pose proof (calls_run _ _ _ _ _ _ _ _ _ _ _ _ _ _ NEW RUN1) as [CL1 _]. rewrite <- CL1. exact (plain_since _ _ _ _ _ _ _ _ _ _ _ _ _ _ _ _ _ NEW RUN1 (known W _ _ _ HI1 KN) RUN). }
  unfold step3 in ST. apply m3_step_spec in ST. destruct (log_outcome _ _ _ _ _ _ _ _ _ _ _ ST OUT) as (o' & TI & [<-|[X|X]]); try discriminate.
  pose proof (i3_tasks _ I _ TI) as AL. cbn in AL.
  destruct (OC _ _ TI) as [(e & X & _)|(la & l2 & EL & V & _)]; [discriminate|].
  unfold verdict in V. destruct (find (decisive r) (rev l2)) as [y|] eqn:F.
  2:{ destruct (find (hearsay r) (rev l2)) as [[]|]; discriminate. }
  apply find_some in F as [F D]. apply in_rev in F. destruct y; cbn in D; try discriminate. apply Nat.eqb_eq in D as ->.
  destruct (MR r m) as (h & sc & P & G & S & K); [rewrite EL; apply in_or_app; auto|].
  unfold answer3 in V. rewrite S in V. destruct (pdu_a (sp_pdu sc) =? 0); [|discriminate]. injection V as ->.
  destruct (p_pushed _ _ _ PL _ _ P) as (_ & _ & [OV|FT]).
  { exfalso. rewrite G in OV. destruct OV as [OV|[[o OV]|OV]]; [lia|now apply (FIRST o)|congruence]. }
  destruct (MP h m P) as (sc1 & e1 & S1 & IR & _). rewrite S in S1. injection S1 as <-.
  assert (CLS : pdu_cls (sp_pdu sc) = ResponsePDU) by (destruct (pdu_cls (sp_pdu sc)); try discriminate; auto; contradiction).
  destruct FT as (sc2 & e & S2 & MM & (LH & _ & N1 & N2) & EH). rewrite S in S2. injection S2 as <-. rewrite EH, G in N1, N2. fold (request3 s r) in N1, N2. rewrite B2 in N1. rewrite B3 in N2.
  unfold v3_mismatch in MM. rewrite CLS in MM. cbn [is_Internal negb andb] in MM.
  apply orb_false_iff in MM as [MM _]. apply orb_false_iff in MM as [MM _]. apply orb_false_iff in MM as [MM M3].
  apply orb_false_iff in MM as [M1 M2]. apply negb_false_iff in M2, M3. apply opt_bytes_eqb_eq in M2, M3. rewrite N1 in M3.
  assert (AT : at_least (level_of m) (c_level c)).
  { rewrite N2 in M1. unfold at_least, level_of in *. unfold sl_ltb in M1. set (a := fl_level _) in *. set (b := c_level c) in *. clear - M1 LO.
    unfold level_ok in LO. destruct (sl_auth a), (sl_auth b), (sl_priv a), (sl_priv b); cbn in *; try discriminate; auto; specialize (LO eq_refl); discriminate. }
  destruct (vouch W h0 evs s l h m (c_user c) (pdu_vbs (sp_pdu sc)) sc WA CO TK EV BY HI P S CLS eq_refl) as (before & d & after & m0 & EQ & CA & VO).
  destruct VO as (e' & E1 & E2); [now apply AT|exact M3|]. exists before, d, after, m0, m, e'. auto 7.
Qed.
Print Assumptions C68_known.
(** A manager that was given the engine ID. *)
Theorem C68_configured : forall W h0 e0 evs s l x s' l' r c vbs,
  w_engine W = Some e0 ->
  world_after W h0 -> crypto_ok (w_crypto W) -> 0 < w_ticks W -> Forall event_ok evs -> (forall d, In (VReceive d) evs -> bytes_ok d) ->
  history W evs s l -> step3 W s x = (s', l') -> nth_error (calls evs) r = Some c -> level_ok (c_level c) -> sl_auth (c_level c) = true ->
  In (WOutcome r (VReturned vbs)) l' -> (forall o, ~ In (WOutcome r o) l) ->
  exists before d after m0 m e, evs = before ++ VReceive d :: after /\ carried W before d m0 m vbs /\
    at_least (level_of m) (c_level c) /\ v3_engineID m = Some e /\ v3_name m = Some (c_user c) /\ vouched W h0 before d m0 e (c_user c).
Proof.
  intros W h0 e0 evs s l x s' l' r c vbs CFG WA CO TK EV BY HI. apply (C68_known W h0 [] evs (fst (new3 W)) [] evs s l x s' l' r c vbs); auto.
  - destruct HI as [N _]. split; [exact N|reflexivity].
  - left. rewrite CFG. discriminate.
  - cbn. lia.
Qed.
Print Assumptions C68_configured.

(** The world of the examples. *)
Definition ex_history : list usm_op := [UUser (OpAddUser ex_user (Some HmacSha) None None None ex_secret false None [])].
Lemma ex_world_after readings engine : world_after (ex_world readings engine) ex_history.
Proof. split; [repeat constructor|]. split; [vm_compute; reflexivity|]. split; intros k; cbn; lia. Qed.
Definition octet (x : Z) : bool := (0 <=? x) && (x <=? 255).
Lemma octets l : forallb octet l = true -> bytes_ok l.
Proof. intros H. rewrite forallb_forall in H. apply Forall_forall. intros x I. apply H in I. unfold octet in I. apply andb_true_iff in I as [I1 I2]. apply Z.leb_le in I1, I2. split; [exact I1|lia]. Qed.
Definition received_octets (evs : list event3) : bool := forallb (fun x => match x with VReceive d => forallb octet d | _ => true end) evs.
Lemma all_octets evs : received_octets evs = true -> forall d, In (VReceive d) evs -> bytes_ok d.
Proof. intros H d I. unfold received_octets in H. rewrite forallb_forall in H. apply octets. exact (H _ I). Qed.
Theorem C68_refuted : ~ C68_statement.
Proof.
  intros H. set (W := ex_world [0] None). set (sl := run3 W ex_spoofed).
  assert (N : snd (new3 W) = Ok tt) by (vm_compute; reflexivity).
  assert (X : exists vbs, In (WOutcome 0 (VReturned vbs)) (snd sl)) by (vm_compute; eexists; left; reflexivity). destruct X as [vbs X].
  assert (E : Forall event_ok ex_spoofed) by (repeat constructor).
  assert (B : received_octets ex_spoofed = true) by (vm_compute; reflexivity).
  assert (K : nth_error (calls ex_spoofed) 0 = Some (mkCall3 ex_pdu ex_user authNoPriv 10 3)) by reflexivity.
  assert (Q : forallb (fun x => match x with VReceive d => match v3_decode (ABytes d) with Ok m => negb (fl_auth (h_flags (v3_header m))) | Raise _ => true end | _ => true end) ex_spoofed = true) by (vm_compute; reflexivity).
  assert (T : 0 < w_ticks W) by (cbn; lia).
  destruct (H W ex_history ex_spoofed (fst sl) (snd sl) 0%nat _ vbs (ex_world_after [0] None) (toy_ok OpenSSL) T E (all_octets _ B) (conj N (surjective_pairing sl)) K
    (fun A => eq_refl) eq_refl X) as (before & d & after & m0 & m & e & EV & (DE & IN & _) & (AL & _) & _).
  clear H X sl. rewrite forallb_forall in Q. assert (I : In (VReceive d) ex_spoofed) by (rewrite EV; apply in_or_app; right; left; reflexivity).
  apply Q in I. rewrite DE in I. apply negb_true_iff in I. specialize (AL eq_refl).
  unfold usm_processIncoming in IN. destruct (params_decode _) as [sp|ex]; [|discriminate]. cbn [v3_header] in IN. rewrite I in IN. cbn [negb snd] in IN. apply (f_equal (fun x => match x with Ok y => y | Raise _ => m end)) in IN. cbv beta iota in IN. rewrite <- IN in AL. unfold level_of in AL. cbn [v3_header] in AL. unfold fl_auth in I. congruence.
Qed.
Print Assumptions C68_refuted.
(** The hypotheses are met: discovery, the request, a signed response. *)
Definition ex_answered3 : list event3 := ex_call authNoPriv 10 3 ++ ex_discovered ++
  [VReceive (ex_signed 26 ex_engine (ex_reply3 13)); VListen; VListen; VListen; VWait 0] ++ ex_steps 8.
Example C68_example : let W := ex_world [0] None in exists s l vbs,
  world_after W ex_history /\ crypto_ok (w_crypto W) /\ 0 < w_ticks W /\ Forall event_ok ex_answered3 /\ (forall d, In (VReceive d) ex_answered3 -> bytes_ok d) /\
  history W ex_answered3 s l /\ nth_error (calls ex_answered3) 0 = Some (mkCall3 ex_pdu ex_user authNoPriv 10 3) /\
  In (WOutcome 0 (VReturned vbs)) l /\ vbs <> [].
Proof.
  cbv zeta. set (W := ex_world [0] None). set (sl := run3 W ex_answered3).
  assert (N : snd (new3 W) = Ok tt) by (vm_compute; reflexivity).
  assert (X : In (WOutcome 0 (VReturned ex_vbs)) (snd sl)) by (vm_compute; left; reflexivity).
  assert (B : received_octets ex_answered3 = true) by (vm_compute; reflexivity).
  exists (fst sl), (snd sl), ex_vbs. split; [apply ex_world_after|]. split; [exact (toy_ok OpenSSL)|]. split; [cbn; lia|].
  split; [repeat constructor|]. split; [exact (all_octets _ B)|]. split; [exact (conj N (surjective_pairing sl))|]. split; [reflexivity|]. split; [exact X|]. clear. discriminate.
Qed.
(** With the engine ID configured. *)
Definition ex_configured : list event3 := ex_call authNoPriv 10 3 ++
  [VReceive (ex_signed 13 ex_engine (ex_reply3 13)); VListen; VListen; VListen; VWait 0] ++ ex_steps 7.
Example C68_configured_example : let W := ex_world [0] (Some ex_engine) in exists s l s' l',
  world_after W ex_history /\ crypto_ok (w_crypto W) /\ 0 < w_ticks W /\ Forall event_ok ex_configured /\ (forall d, In (VReceive d) ex_configured -> bytes_ok d) /\
  history W ex_configured s l /\ step3 W s (VStep 0) = (s', l') /\ nth_error (calls ex_configured) 0 = Some (mkCall3 ex_pdu ex_user authNoPriv 10 3) /\
  In (WOutcome 0 (VReturned ex_vbs)) l' /\ (forall o, ~ In (WOutcome 0 o) l) /\ ex_vbs <> [].
Proof.
  cbv zeta. set (W := ex_world [0] (Some ex_engine)). set (sl := run3 W ex_configured). set (sl' := step3 W (fst sl) (VStep 0)).
  assert (N : snd (new3 W) = Ok tt) by (vm_compute; reflexivity).
  assert (X : In (WOutcome 0 (VReturned ex_vbs)) (snd sl')) by (vm_compute; left; reflexivity).
  assert (B : received_octets ex_configured = true) by (vm_compute; reflexivity).
  assert (Q : forallb (fun y => match y with WOutcome _ _ => false | _ => true end) (snd sl) = true) by (vm_compute; reflexivity).
  exists (fst sl), (snd sl), (fst sl'), (snd sl'). split; [apply ex_world_after|]. split; [exact (toy_ok OpenSSL)|]. split; [cbn; lia|].
  split; [repeat constructor|]. split; [exact (all_octets _ B)|]. split; [exact (conj N (surjective_pairing sl))|]. split; [exact (surjective_pairing sl')|].
  split; [reflexivity|]. split; [exact X|]. split; [|clear; discriminate]. clear - Q. rewrite forallb_forall in Q. intros o K. apply Q in K. clear - K. discriminate K.
Qed.
