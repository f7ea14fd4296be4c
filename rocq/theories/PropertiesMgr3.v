(** PropertiesMgr3.v -- C28, C40, C43, C44, C46-C49 of the SNMPv3 manager.
    The histories are those of ManagerV3.v: any calls of sendRequest() and wait()
    by any threads, any datagrams, any garbage collection, any use of the same
    security module by others, any interleaving of all these. *)
From Verif Require Import PropertiesUsm PropertiesMsg PropertiesProc PropertiesMgr PrfMgr3i.
From Coq Require Import Sorted.

Lemma history_new W evs s l : history W evs s l -> exists s0,
  mgr3_new (w_crypto W) (w_rnd W) (w_namespace W) (w_usm W) (w_size W) (w_engine W) = (s0, Ok tt) /\
  m3_run (w_crypto W) (w_ticks W) (w_rnd W) (w_clk W) (w_fmt W) (w_namespace W) s0 evs = (s, l).
Proof. intros [A B]. exists (fst (new3 W)). split; [|exact B]. unfold new3 in *. rewrite <- A. apply surjective_pairing. Qed.

(** ** What is used in the examples: one user (authentication only), the clock
    given as a list of readings; every random number is 7, every datagram is
    taken by the operating system. *)
Definition ex_draws (k i : nat) : Z := match k with 3%nat => 0 | _ => 7 end.
Definition ex_registry : registry := Eval vm_compute in
  fst (user_step (toy OpenSSL) (fun _ => 7) registry0 (OpAddUser ex_user (Some HmacSha) None None None ex_secret false None [])).
Definition ex_world (readings : list Z) (engine : option bytes) : world :=
  mkWorld (toy OpenSSL) 1 ex_draws (ex_clk readings) (fun _ => true) [] (mkUsm [] ex_registry) 65507 engine.
(** An unauthenticated message. *)
Definition ex_note (id : Z) (engine user : bytes) (p : pdu) : bytes :=
  match v3_encode (mkV3 (mkHeader id 65507 (mkFlags noAuthNoPriv false) USM) (Some (mkScoped engine [] p)) None
     (ABytes match params_encode (UsmSecurityParameters engine 5 77 user (ABytes []) []) with Ok b => b | Raise _ => [] end) None None) with
  | Ok b => b | Raise _ => [] end.
(** A message of the user, authenticated, from [engine]. *)
Definition ex_signed (id : Z) (engine : bytes) (p : pdu) : bytes :=
  let hint := mkV3 (mkHeader 1 1500 (mkFlags noAuthNoPriv false) USM) None None
    (ABytes match params_encode (UsmSecurityParameters engine 5 77 [] (ABytes []) []) with Ok p => p | Raise _ => [] end) None None in
  let agent := fst (usm_processIncoming (toy OpenSSL) 1
    (mkUsm [] (fst (user_step (toy OpenSSL) (fun _ => 7) ex_registry (OpRegister engine [])))) hint 0) in
  match snd (usm_prepareOutgoing (toy OpenSSL) 1 agent
    (mkV3 (mkHeader id 65507 (mkFlags authNoPriv false) USM) (Some (mkScoped engine [] p)) None (ABytes []) None None) engine ex_user 0) with
  | Ok b => b | Raise _ => [] end.
Definition ex_report (n : Z) : pdu := mkPDU ReportPDU 0 0 0 [mkVarBind (usmStats ++ [n; 0]) (PInt Counter32 1)].
Definition ex_reply3 (id : Z) : pdu := mkPDU ResponsePDU id 0 0 ex_vbs.
(** sendRequest() without an engine ID; the discovery message has the ID 13. *)
Definition ex_call (level : seclevel) (timeout period : Z) : list event3 := [VCall ex_pdu ex_user level timeout period; VStep 0].
(** The report unknownEngineIDs for it; the request is sent, with ID 26. *)
Definition ex_discovered : list event3 := [VReceive (ex_note 13 ex_engine [] (ex_report 4)); VListen; VListen; VListen].
Definition ex_steps (n : nat) : list event3 := repeat (VStep 0) n.

(** * C28 *)
Definition C28_statement : Prop := forall W evs s l r vbs,
  history W evs s l -> level_ok (q_level (request3 s r)) -> In (WOutcome r (VReturned vbs)) l ->
  exists h m sc, In (WPushed h m) l /\ v3_scoped m = Some sc /\ pdu_vbs (sp_pdu sc) = vbs /\
    at_least (level_of m) (q_level (request3 s r)).
(** A response to the discovery message, sent by anybody: no authentication, no
    user name, no engine ID.  The request was made with authNoPriv. *)
Definition ex_spoofed : list event3 := ex_call authNoPriv 10 3 ++ ex_discovered ++
  [VReceive (ex_note 13 [] [] (ex_reply3 13)); VListen; VListen; VListen; VWait 0] ++ ex_steps 8.
Theorem C28_refuted : ~ C28_statement.
Proof.
  intros H. set (W := ex_world [0] None). set (sl := run3 W ex_spoofed).
  assert (N : snd (new3 W) = Ok tt) by (vm_compute; reflexivity).
  assert (L : level_ok (q_level (request3 (fst sl) 0))) by (vm_compute; auto).
  assert (X : exists vbs, In (WOutcome 0 (VReturned vbs)) (snd sl)) by (vm_compute; eexists; left; reflexivity). destruct X as [vbs X].
  assert (Y : sl_auth (q_level (request3 (fst sl) 0)) = true) by (vm_compute; reflexivity).
  assert (Z : forall h m, In (WPushed h m) (snd sl) -> sl_auth (level_of m) = false).
  { clear H X L N. intros h m B. assert (Q : forallb (fun y => match y with WPushed _ m => negb (sl_auth (level_of m)) | _ => true end) (snd sl) = true) by (vm_compute; reflexivity).
    rewrite forallb_forall in Q. apply Q in B. now apply negb_true_iff in B. }
  destruct (H W _ _ _ 0%nat vbs (conj N (surjective_pairing sl)) L X) as (h & m & sc & B & _ & _ & A & _).
  apply Z in B. rewrite A in B by exact Y. discriminate.
Qed.
Print Assumptions C28_refuted.
(** In every history, that is the only exception: a message with no engine ID
    and no user name (an answer to a discovery message). *)
Theorem C28_level_partial : forall W evs s l r vbs,
  history W evs s l -> level_ok (q_level (request3 s r)) -> In (WOutcome r (VReturned vbs)) l ->
  exists h m sc, In (WPushed h m) l /\ v3_scoped m = Some sc /\ pdu_vbs (sp_pdu sc) = vbs /\ pdu_cls (sp_pdu sc) = ResponsePDU /\
    ((at_least (level_of m) (q_level (request3 s r)) /\ v3_name m = Some (q_user (request3 s r))) \/
     (v3_engineID m = Some [] /\ v3_name m = Some [])).
Proof.
  intros W evs s l r vbs H LV O. apply history_new in H as (s0 & N & E).
  pose proof (outcome_run _ _ _ _ _ _ _ _ _ _ _ _ _ _ N E) as [_ _ OI]. pose proof (match_run _ _ _ _ _ _ _ _ _ _ _ _ _ _ N E) as [_ _ MP _ MR].
  destruct (OI _ _ O) as (LR & [[(e & X & _)|(l1 & l2 & EL & V & _)]|[X|X]]); try discriminate.
  unfold verdict in V. destruct (find (decisive r) (rev l2)) as [y|] eqn:F.
  2:{ destruct (find (hearsay r) (rev l2)) as [[]|]; discriminate. }
  apply find_some in F as [F D]. apply in_rev in F. destruct y; cbn in D; try discriminate. apply Nat.eqb_eq in D as ->.
  destruct (MR r m) as (h & sc & P & G & S & K); [rewrite EL; apply in_or_app; auto|].
  unfold answer3 in V. rewrite S in V. destruct (pdu_a (sp_pdu sc) =? 0); [|discriminate]. injection V as ->.
  destruct (MP h m P) as (sc' & e & S' & IR & MM & (LH & _ & EK) & <-). rewrite S in S'. injection S' as <-. rewrite G in EK. fold (request3 s r) in EK.
  assert (CL : pdu_cls (sp_pdu sc) = ResponsePDU) by (destruct (pdu_cls (sp_pdu sc)); try discriminate; auto; contradiction).
  exists (e3_handle e), m, sc. split; [auto|]. split; [auto|]. split; [auto|]. split; [auto|].
  unfold v3_mismatch in MM. rewrite CL in MM. cbn [is_Internal negb andb] in MM.
  apply orb_false_iff in MM as [MM _]. apply orb_false_iff in MM as [MM _]. apply orb_false_iff in MM as [MM M3].
  apply orb_false_iff in MM as [M1 M2]. apply negb_false_iff in M2, M3. apply opt_bytes_eqb_eq in M2, M3.
  destruct EK as [(E1 & E2 & E3)|(E1 & E2)].
  - right. rewrite E1 in M2. rewrite E2 in M3. auto.
  - left. rewrite E1 in M3. split; [|auto]. rewrite E2 in M1. unfold at_least, level_of in *. unfold sl_ltb in M1. set (a := fl_level _) in *. set (b := q_level _) in *.
    unfold level_ok in LV. destruct (sl_auth a) eqn:A1, (sl_auth b) eqn:B1, (sl_priv a) eqn:A2, (sl_priv b) eqn:B2; cbn in *; try discriminate; auto.
Qed.
Print Assumptions C28_level_partial.

(** * C49 *)
Theorem C49_authenticated : forall W evs s l x s' l' r m,
  history W evs s l -> step3 W s x = (s', l') ->
  In (WResponse r m) l -> sl_auth (level_of m) = true ->
  v_engine s' <> v_engine s ->
  exists h m' e, In (WPushed h m') l /\ sl_auth (level_of m') = true /\ v3_engineID m' = Some e /\ v_engine s' = Some e.
Proof.
  intros W evs s l x s' l' r m H ST B A D. apply history_new in H as (s0 & N & E). apply m3_step_spec in ST.
  destruct (engine_change _ _ _ _ _ _ _ _ _ ST D) as (r' & m' & L & V & (e & V') & Q).
  pose proof (secured_run _ _ _ _ _ _ _ _ _ _ (secured_start _ _ _ _ _ _ _ _ N) E) as [_ S]. rewrite S in Q by eauto.
  destruct Q as [Q|Q]; [|discriminate]. destruct (k_res _ _ _ (known_run _ _ _ _ _ _ _ _ _ _ _ _ _ N E) r' m') as [h P]; [auto|].
  exists h, m', e. rewrite V. auto.
Qed.
Print Assumptions C49_authenticated.
Theorem C49_configured : forall W evs s l x s' l' e0, w_engine W = Some e0 ->
  history W evs s l -> step3 W s x = (s', l') -> v_engine s' <> v_engine s ->
  exists h m' e, In (WPushed h m') l /\ sl_auth (level_of m') = true /\ v3_engineID m' = Some e /\ v_engine s' = Some e.
Proof.
  intros W evs s l x s' l' e0 C0 H ST D. apply history_new in H as (s0 & N & E). apply m3_step_spec in ST.
  destruct (engine_change _ _ _ _ _ _ _ _ _ ST D) as (r' & m' & L & V & (e & V') & Q).
  assert (K : configured s0).
  { unfold mgr3_new in N. rewrite C0 in N. destruct (manager_engine _ _ _ _ _) as [s1 y]. injection N as <- ->. split; [left; reflexivity|discriminate]. }
  destruct (configured_run _ _ _ _ _ _ _ _ _ _ K E) as [[S|[S|S]] _]; rewrite S in Q; (destruct Q as [Q|Q]; [|discriminate]);
  (destruct (k_res _ _ _ (known_run _ _ _ _ _ _ _ _ _ _ _ _ _ N E) r' m') as [h P]; [auto|]); exists h, m', e; rewrite V; auto.
Qed.
Print Assumptions C49_configured.
(** The engine ID changes after an authenticated response: the peer at the
    second request says unknownEngineIDs and answers from there. *)
Definition ex_authenticated : list event3 := ex_call authNoPriv 10 3 ++ [VReceive (ex_signed 13 ex_engine (ex_reply3 13)); VListen; VListen; VListen].
Definition ex_moved : list event3 := ex_authenticated ++ ex_call authNoPriv 10 3 ++
  [VReceive (ex_note 26 [9] ex_user (ex_report 4)); VListen; VListen; VReceive (ex_signed 39 [9] (ex_reply3 26)); VListen].
Example C49_example : let W := ex_world [0] (Some ex_engine) in let '(s, l) := run3 W ex_moved in
  snd (new3 W) = Ok tt /\ (exists m, In (WResponse 0 m) l /\ sl_auth (level_of m) = true) /\
  v_engine s = Some ex_engine /\ v_engine (fst (step3 W s VListen)) = Some [9].
Proof. vm_compute. split; [auto|]. split; [|auto]. eexists. split; [do 4 right; left; reflexivity|reflexivity]. Qed.

(** * C46 *)
Definition C46_statement : Prop := forall W evs s l r h w now p e user level wire,
  history W evs s l -> w_engine W <> Some [] -> In (WSent r h w now p e user level wire) l ->
  e = [] -> pdu_cls p = GetRequestPDU /\ pdu_vbs p = [] /\ user = [] /\ level = noAuthNoPriv.
(** The report unknownEngineIDs, with an empty engine ID. *)
Definition ex_empty : list event3 := ex_call noAuthNoPriv 10 3 ++ [VReceive (ex_note 13 [] [] (ex_report 4)); VListen; VListen].
Theorem C46_refuted : ~ C46_statement.
Proof.
  intros H. set (W := ex_world [0] None). set (sl := run3 W ex_empty).
  assert (N : snd (new3 W) = Ok tt) by (vm_compute; reflexivity).
  assert (X : exists p wire, In (WSent 0 1 ByUnknownEngine 0 p [] ex_user noAuthNoPriv wire) (snd sl)) by (vm_compute; do 2 eexists; left; reflexivity).
  destruct X as (p & wire & X).
  destruct (H W ex_empty _ _ _ _ _ _ _ _ _ _ _ (conj N (surjective_pairing sl)) ltac:(discriminate) X eq_refl) as (_ & _ & U & _). discriminate.
Qed.
Print Assumptions C46_refuted.
(** In every history, a message is either such a discovery message, or it has
    the PDU (but for the ID), user name and security level given to the call of
    sendRequest() that it belongs to, and goes to an engine ID that is the
    configured one or one found in a message from the peer. *)
Theorem C46_sent_partial : forall W evs s l r h w now p e user level wire,
  history W evs s l -> In (WSent r h w now p e user level wire) l ->
  (e = [] /\ pdu_cls p = GetRequestPDU /\ pdu_vbs p = [] /\ user = [] /\ level = noAuthNoPriv) \/
  (exists c, nth_error (calls evs) r = Some c /\ p = set_requestID (c_pdu c) (pdu_requestID p) /\ user = c_user c /\ level = c_level c /\
    (w_engine W = Some e \/ exists h' m, In (WPushed h' m) l /\ v3_engineID m = Some e)).
Proof.
  intros W evs s l r h w now p e user level wire H B. apply history_new in H as (s0 & N & E).
  destruct (k_sent _ _ _ (known_run _ _ _ _ _ _ _ _ _ _ _ _ _ N E) _ _ _ _ _ _ _ _ _ B) as (LR & [(-> & -> & -> & ->)|(-> & -> & -> & K)]); [left; auto|right].
  destruct (calls_run _ _ _ _ _ _ _ _ _ _ _ _ _ _ N E) as [L Q]. rewrite L in LR. apply nth_error_Some in LR. destruct (nth_error (calls evs) r) as [c|] eqn:X; [|contradiction].
  destruct (Q _ _ X) as (Q1 & Q2 & Q3 & _). exists c. split; [auto|]. split; [exact Q1|]. split; [auto|]. split; [auto|]. exact K.
Qed.
Print Assumptions C46_sent_partial.
(** So with a non-empty configured engine ID and messages from the peer with
    non-empty engine IDs only, the statement holds. *)
Theorem C46_nonempty_partial : forall W evs s l r h w now p e user level wire,
  history W evs s l -> w_engine W <> Some [] -> (forall h' m, In (WPushed h' m) l -> v3_engineID m <> Some []) ->
  In (WSent r h w now p e user level wire) l ->
  e = [] -> pdu_cls p = GetRequestPDU /\ pdu_vbs p = [] /\ user = [] /\ level = noAuthNoPriv.
Proof.
  intros W evs s l r h w now p e user level wire H NE NP B ->. destruct (C46_sent_partial _ _ _ _ _ _ _ _ _ _ _ _ _ H B) as [(_ & X)|(c & _ & _ & _ & _ & [X|(h' & m & P & X)])]; [auto|contradiction|].
  exfalso. exact (NP _ _ P X).
Qed.
Print Assumptions C46_nonempty_partial.
Example C46_example : let W := ex_world [0] None in let '(s, l) := run3 W (ex_call authNoPriv 10 3 ++ ex_discovered) in
  (forall h m, In (WPushed h m) l -> v3_engineID m <> Some []) /\
  exists p wire, In (WSent 0 1 ByUnknownEngine 0 p ex_engine ex_user authNoPriv wire) l /\ pdu_vbs p = ex_vbs.
Proof. vm_compute. split; [|do 2 eexists; split; [left; reflexivity|reflexivity]]. intros h m [X|[X|[X|[]]]]; inversion X. discriminate. Qed.

(** * C40, v3 *)
Theorem C40_v3_made : forall W evs s l p user level timeout period s' l',
  history W evs s l -> step3 W s (VCall p user level timeout period) = (s', l') ->
  let r := length (v_reqs s) in
  made3' s' r /\ expiration3 s' r = reading3 W s + timeout /\ period3 s' r = period.
Proof.
  intros W evs s l p user level timeout period s' l' H ST r. unfold step3 in ST. cbn [m3_step] in ST. unfold generateRequestID in ST.
  destruct (numgen_next (v_gen s)) as [i g]. unfold made3', expiration3, period3, request3, r.
  destruct (i =? 0); [destruct (numgen_next _) as [i2 g2]|]; cbn in ST; injection ST as <- _; cbn [add_task3 set_threads v_reqs set_queue set_objects];
  rewrite app_length, get3_app, Nat.eqb_refl; cbn; (split; [lia|auto]).
Qed.
Print Assumptions C40_v3_made.
(** [w]: why it is sent.  Only refresh() looks at the schedule. *)
Theorem C40_v3_schedule : forall W evs s l x s' l' r,
  history W evs s l -> step3 W s x = (s', l') -> made3' s r -> 0 < period3 s r ->
  let now := reading3 W s in
  (forall h t p e user level wire, In (WSent r h ByRefresh t p e user level wire) l' ->
     t = now /\ alive3 s r /\ ~ answered3 s r /\ next_refresh3 s r <= now < expiration3 s r /\
     exists k, 0 <= k /\ now <= next_refresh3 s r + k * period3 s r < now + period3 s r /\
       next_refresh3 s' r = Z.min (expiration3 s r) (next_refresh3 s r + k * period3 s r)) /\
  (forall h w t p e user level wire, In (WSent r h w t p e user level wire) l' -> w <> ByRefresh ->
     t = now /\ next_refresh3 s' r = Z.min (expiration3 s r) (now + period3 s r)) /\
  ((forall y, In y l' -> ~ tries r y) -> next_refresh3 s' r = next_refresh3 s r) /\
  expiration3 s' r = expiration3 s r /\ period3 s' r = period3 s r /\ next_refresh3 s' r <= expiration3 s' r.
Proof.
  intros W evs s l x s' l' r H ST LR P now. pose proof H as H'. apply history_new in H as (s0 & N & E). apply m3_step_spec in ST.
  pose proof (base_run _ _ _ _ _ _ _ _ _ _ (base_start _ _ _ _ _ _ _ _ N) E) as B. pose proof (proj1 B) as I.
  pose proof (step_spec _ _ _ _ _ _ _ _ _ I ST) as (_ & (_ & EL & EQ & _) & _). destruct (EQ r LR) as (_ & _ & _ & F1 & F2 & _).
  assert (NX : next_refresh3 s' r <= expiration3 s' r).
  { pose proof (next_le_run _ _ _ _ _ _ _ _ _ _ _ _ _ _ r N E LR) as X. destruct (step_sched3 _ _ _ _ _ _ _ _ _ _ B ST LR) as [(Q & _)|(z & w & _ & _ & Q)]; unfold next_refresh3, expiration3, request3.
    - rewrite Q. auto.
    - destruct w; cbn in Q; try (rewrite Q; unfold sched_send, set_next; cbn; lia). destruct Q as (_ & _ & Q). apply sched_resend_iff in Q as (_ & _ & k & _ & _ & _ & ->); [|exact P]. unfold set_next. cbn. lia. }
  assert (REST : forall A B C : Prop, A -> B -> C -> A /\ B /\ C /\ expiration3 s' r = expiration3 s r /\ period3 s' r = period3 s r /\ next_refresh3 s' r <= expiration3 s' r) by (unfold expiration3, period3 in *; auto 7).
  unfold made3', next_refresh3, alive3, answered3, expiration3, period3, request3, reading3 in *. fold now. clear F1 F2 NX.
  destruct (step_sched3 _ _ _ _ _ _ _ _ _ _ B ST LR) as [(Q & X)|(z & w & -> & Y & Q)]; apply REST; clear REST.
  - intros h t p e user level wire Z. apply X in Z. contradiction.
  - intros h w t p e user level wire Z. apply X in Z. contradiction.
  - intros _. now rewrite Q.
  - intros h t p e user level wire [Z|[]]. rewrite Z in Y. destruct Y as [(h' & d & e' & u' & lev & wi & Y)|(h' & e' & Y)]; [|discriminate]. injection Y; intros; subst. cbn in Q.
    destruct Q as (Q1 & Q2 & Q3). apply sched_resend_iff in Q3 as (R1 & R2 & k & K0 & K1 & K2 & K3); [|exact P]. rewrite K3. split; [auto|]. split; [auto|]. split; [congruence|]. split; [auto|].
    exists k. unfold set_next. cbn. auto.
  - intros h w' t p e user level wire [Z|[]] NR. rewrite Z in Y. destruct Y as [(h' & d & e' & u' & lev & wi & Y)|(h' & e' & Y)]; [|discriminate]. injection Y; intros; subst.
    destruct w; try contradiction; cbn in Q; rewrite Q; auto.
  - intros T. exfalso. apply (T z); [now left|]. destruct Y as [(h' & d & e' & u' & lev & wi & ->)|(h' & e' & ->)]; reflexivity.
Qed.
Print Assumptions C40_v3_schedule.
(** A report makes it send after the expiration, too. *)
Definition C40_v3_statement : Prop := forall W evs s l r h w t p e user level wire,
  history W evs s l -> In (WSent r h w t p e user level wire) l -> (h > 0)%nat -> t < expiration3 s r.
Theorem C40_v3_refuted : ~ C40_v3_statement.
Proof.
  intros H. set (W := ex_world [0; 0; 0; 20] None). set (sl := run3 W (ex_call noAuthNoPriv 10 3 ++ ex_discovered)).
  assert (N : snd (new3 W) = Ok tt) by (vm_compute; reflexivity).
  assert (X : exists p wire, In (WSent 0 1 ByUnknownEngine 20 p ex_engine ex_user noAuthNoPriv wire) (snd sl)) by (vm_compute; do 2 eexists; left; reflexivity).
  destruct X as (p & wire & X). assert (Y : expiration3 (fst sl) 0 = 10) by (vm_compute; reflexivity).
  pose proof (H W _ _ _ _ _ _ _ _ _ _ _ _ (conj N (surjective_pairing sl)) X ltac:(lia)) as Z. rewrite Y in Z. discriminate.
Qed.
Print Assumptions C40_v3_refuted.
(** A refresh: made and sent at 0 with timeout 10 and period 3, refreshed at 5. *)
Example C40_v3_example : let W := ex_world [0; 0; 0; 0; 5] None in let s := fst (run3 W (ex_call noAuthNoPriv 10 3 ++ [VWait 0; VStep 0])) in
  let '(s', l') := step3 W s (VStep 0) in
  made3' s 0 /\ next_refresh3 s 0 = 3 /\ next_refresh3 s' 0 = 6 /\ expiration3 s' 0 = 10 /\ exists h p e u v w, l' = [WSent 0 h ByRefresh 5 p e u v w].
Proof. vm_compute. split; [lia|]. repeat split. do 6 eexists. reflexivity. Qed.

(** * C43, v3 *)
(** Sent for the first time: by sendRequest(), by poke(), or when the engine was
    discovered. *)
Definition was_sent3 (l : list log3) (q : nat) : Prop :=
  exists h w t p e user level wire, In (WSent q h w t p e user level wire) l /\ (w = ByCall \/ w = ByPoke \/ w = ByDrain).
Definition C43_v3_statement : Prop := forall W evs s l x s' l' r w q,
  history W evs s l -> step3 W s x = (s', l') -> In (WBlocked r w) l' ->
  was_sent3 l q -> alive3 s q -> ~ answered3 s q -> ~ has_expired3 W s q -> reading3 W s < expiration3 s q ->
  w <= 0 \/ w <= next_refresh3 s q - reading3 W s.
(** Two requests, refreshed every 3 and every 4.  At 2, a report for the first
    names an engine ID that belongs to another namespace: the request is not
    sent, but its next refresh is at 5 now, and it is still first in the heap. *)
Definition ex_disorder : list event3 := ex_call noAuthNoPriv 100 3 ++ ex_call noAuthNoPriv 100 4 ++
  [VUsers (OpAddUser [99] None None None None [] false None [1]); VUsers (OpRegister [9] [1]);
   VReceive (ex_note 13 [9] ex_user (ex_report 4)); VListen; VListen; VWait 0; VStep 0].
Theorem C43_v3_refuted : ~ C43_v3_statement.
Proof.
  intros H. set (W := ex_world [0; 0; 0; 0; 0; 0; 2; 2; 3] (Some ex_engine)). set (sl := run3 W ex_disorder). set (sl' := step3 W (fst sl) (VStep 0)).
  assert (N : snd (new3 W) = Ok tt) by (vm_compute; reflexivity).
  assert (X : In (WBlocked 0 2) (snd sl')) by (vm_compute; left; reflexivity).
  assert (S : was_sent3 (snd sl) 1).
  { clear H X. vm_compute. do 8 eexists. split; [do 2 right; left; reflexivity|]. left. reflexivity. }
  assert (A : alive3 (fst sl) 1 /\ ~ answered3 (fst sl) 1 /\ reading3 W (fst sl) = 3 /\ expiration3 (fst sl) 1 = 100 /\ next_refresh3 (fst sl) 1 = 4).
  { clear H X S. vm_compute. repeat split. discriminate. }
  destruct A as (A1 & A2 & A3 & A4 & A5).
  assert (A6 : ~ has_expired3 W (fst sl) 1).
  { intros (i & _ & Y). rewrite A4 in Y. cbn [W ex_world w_clk] in Y. unfold ex_clk in Y. clear - Y. do 9 (destruct i as [|i]; [cbn in Y; lia|]). cbn in Y. destruct i; cbn in Y; lia. }
  pose proof (H W _ _ _ _ _ _ 0%nat 2 1%nat (conj N (surjective_pairing sl)) (surjective_pairing sl') X S A1 A2 A6) as Y. rewrite A3, A4, A5 in Y. destruct Y; lia.
Qed.
Print Assumptions C43_v3_refuted.
(** In any history with any timeouts and periods: the statement holds if no
    attempt to resend has failed (sendRequest() itself may have failed, for
    other requests). *)
Theorem C43_v3_partial : forall W evs s l x s' l' r w q,
  history W evs s l -> (forall q' h w e, In (WFailed q' h w e) l -> q' <> q /\ (w = ByCall \/ w = ByDrain)) ->
  step3 W s x = (s', l') -> In (WBlocked r w) l' ->
  was_sent3 l q -> alive3 s q -> ~ answered3 s q -> ~ has_expired3 W s q ->
  w = 0 \/ w <= next_refresh3 s q - reading3 W s.
Proof.
  intros W evs s l x s' l' r w q H NF ST B SE A Q X. apply history_new in H as (s0 & N & E). apply m3_step_spec in ST.
  pose proof (base_run _ _ _ _ _ _ _ _ _ _ (base_start _ _ _ _ _ _ _ _ N) E) as [I _].
  assert (SO : sorted3 s).
  { eapply sorted_run; eauto. intros r0 h w0 e Y. destruct (NF _ _ _ _ Y) as [_ [->| ->]]; reflexivity. }
  assert (K : In q (firsts l)) by (apply in_firsts; exact SE).
  pose proof (once_run _ _ _ _ _ _ _ _ _ _ _ _ _ _ N E) as [ND LT].
  assert (QH : In q (v_heap s)).
  { assert (LQ : (q < length (v_reqs s))%nat) by (apply LT, in_or_app; auto).
    destruct (covered_run _ _ _ _ _ _ _ _ _ _ _ _ _ _ q N E LQ) as [Y|[Y|[Y|[Y|(q' & h & w' & e & Y & Z)]]]].
    - apply in_app_or in Y as [Y|Y]; [auto|exfalso]. apply (nodup_app_disj _ _ _ ND K). apply in_app_or in Y as [Y|Y].
      + apply in_or_app. left. apply in_or_app. auto.
      + apply in_flat_map in Y as (t & T & Y). destruct t; cbn in Y; try contradiction.
        * apply in_or_app. right. apply in_flat_map. exists (SSend r0). auto.
        * apply in_or_app. left. apply in_or_app. right. apply in_flat_map. exists (SPoking r0 unsent active). auto.
    - unfold alive3, request3 in A. congruence.
    - contradiction.
    - contradiction.
    - exfalso. apply NF in Y as [Y1 Y2]. destruct Z as [[Z _]|Z]; [contradiction|]. rewrite Z in Y2. destruct Y2; discriminate. }
  destruct (blocked_step _ _ _ _ _ _ _ _ _ _ _ ST B) as [->|(root & t & HP & AR & W0)]; [auto|right].
  destruct SO as [SO _]. rewrite HP in SO, QH. pose proof (heap_min _ _ _ _ SO QH) as M.
  unfold ekey3, live_key3 in M. rewrite AR in M. unfold alive3, request3 in A. rewrite A in M. unfold next_refresh3, request3, reading3. lia.
Qed.
Print Assumptions C43_v3_partial.
(** C43_v3_refuted without the report, waiting for the second request: the
    first one limits the wait. *)
Example C43_v3_example : let W := ex_world [0; 0; 0; 0; 0; 0; 2] (Some ex_engine) in
  let '(s, l) := run3 W (ex_call noAuthNoPriv 100 3 ++ ex_call noAuthNoPriv 100 4 ++ [VWait 1; VStep 0]) in
  (forall q' h w e, ~ In (WFailed q' h w e) l) /\ snd (step3 W s (VStep 0)) = [WBlocked 1 1] /\
  was_sent3 l 0 /\ was_sent3 l 1 /\ alive3 s 0 /\ ~ answered3 s 0 /\ next_refresh3 s 0 = 3 /\ next_refresh3 s 1 = 4 /\ reading3 W s = 2.
Proof.
  vm_compute. split; [intros q h w e [X|[X|[]]]; discriminate|]. split; [auto|].
  split; [do 8 eexists; split; [right; left; reflexivity|auto]|]. split; [do 8 eexists; split; [left; reflexivity|auto]|]. repeat split; discriminate.
Qed.

(** * C56 *)
Definition C56_statement : Prop := forall W evs s l x s' l' r w,
  history W evs s l -> step3 W s x = (s', l') -> In (WBlocked r w) l' -> ~ answered3 s r ->
  w <= 0 \/ w <= expiration3 s r - reading3 W s.
(** While the first request waits for discovery (refreshed after 100), the second
    one, with a timeout of 5, is queued unsent.  wait() for it sleeps for 100. *)
Definition ex_asleep : list event3 := ex_call noAuthNoPriv 100 100 ++ ex_call noAuthNoPriv 5 1 ++ [VWait 1; VStep 0].
Theorem C56_refuted : ~ C56_statement.
Proof.
  intros H. set (W := ex_world [0] None). set (sl := run3 W ex_asleep). set (sl' := step3 W (fst sl) (VStep 0)).
  assert (N : snd (new3 W) = Ok tt) by (vm_compute; reflexivity).
  assert (X : In (WBlocked 1 100) (snd sl')) by (vm_compute; left; reflexivity).
  assert (A : ~ answered3 (fst sl) 1 /\ reading3 W (fst sl) = 0 /\ expiration3 (fst sl) 1 = 5) by (clear H X; vm_compute; repeat split; discriminate).
  destruct A as (A1 & A2 & A3). pose proof (H W _ _ _ _ _ _ 1%nat 100 (conj N (surjective_pairing sl)) (surjective_pairing sl') X A1) as Y. rewrite A2, A3 in Y. lia.
Qed.
Print Assumptions C56_refuted.
(** Once it has been sent, and if no attempt to resend has failed: the limit is
    right (or the expiration has been noticed). *)
Theorem C56_sent_partial : forall W evs s l x s' l' r w,
  history W evs s l -> (forall q h w e, In (WFailed q h w e) l -> q <> r /\ (w = ByCall \/ w = ByDrain)) ->
  step3 W s x = (s', l') -> In (WBlocked r w) l' -> was_sent3 l r ->
  answered3 s r \/ has_expired3 W s r \/ w = 0 \/ w <= expiration3 s r - reading3 W s.
Proof.
  intros W evs s l x s' l' r w H NF ST B SE. pose proof H as H'. apply history_new in H as (s0 & N & E).
  destruct (q_event (request3 s r)) eqn:Q; [left; exact Q|right]. destruct (below_dec (w_clk W) (expiration3 s r) (v_clock s)) as [X|X]; [auto|right].
  pose proof ST as ST'. apply m3_step_spec in ST.
  pose proof (base_run _ _ _ _ _ _ _ _ _ _ (base_start _ _ _ _ _ _ _ _ N) E) as [I _].
  assert (A : alive3 s r) by (eapply blocked_alive; eauto).
  destruct (C43_v3_partial _ _ _ _ _ _ _ _ _ r H' NF ST' B SE A) as [->|L]; [unfold answered3; congruence|exact X|auto|right].
  assert (LR : (r < length (v_reqs s))%nat) by (apply get3_alive_lt; exact A).
  pose proof (next_le_run _ _ _ _ _ _ _ _ _ _ _ _ _ _ r N E LR) as NL. unfold expiration3, next_refresh3, request3 in *. lia.
Qed.
Print Assumptions C56_sent_partial.
(** C43_v3_example meets the hypotheses, also with a timeout of 5. *)
Example C56_example : let W := ex_world [0; 0; 0; 0; 0; 0; 2] (Some ex_engine) in
  let '(s, l) := run3 W (ex_call noAuthNoPriv 100 3 ++ ex_call noAuthNoPriv 5 4 ++ [VWait 1; VStep 0]) in
  was_sent3 l 1 /\ snd (step3 W s (VStep 0)) = [WBlocked 1 1] /\ expiration3 s 1 = 5 /\ next_refresh3 s 0 = 3 /\ next_refresh3 s 1 = 4 /\ ~ answered3 s 1.
Proof. vm_compute. split; [do 8 eexists; split; [left; reflexivity|auto]|]. repeat split; discriminate. Qed.

(** * C44, v3 *)
Definition C44_v3_statement : Prop := forall W evs s l r,
  history W evs s l -> In (WOutcome r (VRaised Timeout)) l -> forall m, ~ In (WResponse r m) l.
(** The loop of wait() sees the expiration at 10; then the response comes, but
    the outcome is settled. *)
Definition ex_settled : list event3 := ex_call noAuthNoPriv 10 3 ++ [VWait 0] ++ ex_steps 2 ++
  [VReceive (ex_note 13 ex_engine ex_user (ex_reply3 13)); VListen; VListen; VListen] ++ ex_steps 1.
Theorem C44_v3_refuted : ~ C44_v3_statement.
Proof.
  intros H. set (W := ex_world [0; 0; 0; 10] (Some ex_engine)). set (sl := run3 W ex_settled).
  assert (N : snd (new3 W) = Ok tt) by (vm_compute; reflexivity).
  assert (X : In (WOutcome 0 (VRaised Timeout)) (snd sl)) by (vm_compute; left; reflexivity).
  assert (Y : exists m, In (WResponse 0 m) (snd sl)) by (vm_compute; eexists; right; left; reflexivity). destruct Y as [m Y].
  exact (H W _ _ _ 0%nat (conj N (surjective_pairing sl)) X m Y).
Qed.
Print Assumptions C44_v3_refuted.
(** In every history: what wait() returns or raises is decided by what was
    delivered up to some moment [l2] (see [verdict]); if nothing decisive was
    delivered until then, the expiration had been seen.  Otherwise it raises what
    sending raised, or ZeroDivisionError (period 0), or what close() raised. *)
Theorem C44_v3_outcome_partial : forall W evs s l r o, history W evs s l -> In (WOutcome r o) l ->
  (exists l1 l2, l = l1 ++ l2 /\ o = verdict (q_pdu (request3 s r)) r l2 /\ (find (decisive r) (rev l2) = None -> has_expired3 W s r)) \/
  (exists e, o = VRaised e /\ (e = ZeroDivisionError \/ e = SNMPLibraryBug \/ e = AssertionError \/ exists q h w, In (WFailed q h w e) l)).
Proof.
  intros W evs s l r o H B. apply history_new in H as (s0 & N & E).
  destruct (o_out _ _ _ (outcome_run _ _ _ _ _ _ _ _ _ _ _ _ _ _ N E) _ _ B) as (_ & [[(e & -> & X)|X]|[->| ->]]); [right|left; exact X|right; eauto|right; eauto 6].
  exists e. split; [auto|]. destruct X; auto.
Qed.
Print Assumptions C44_v3_outcome_partial.
(** The same, case by case. *)
Theorem C44_v3_cases_partial : forall W evs s l r o, history W evs s l -> In (WOutcome r o) l ->
  match o with
  | VReturned vbs => exists m sc, In (WResponse r m) l /\ v3_scoped m = Some sc /\ pdu_a (sp_pdu sc) = 0 /\ vbs = pdu_vbs (sp_pdu sc)
  | VErrorResponse status index cause => exists m sc, In (WResponse r m) l /\ v3_scoped m = Some sc /\ status = pdu_a (sp_pdu sc) /\ status <> 0 /\
      index = pdu_b (sp_pdu sc) /\ cause = error_cause index (q_pdu (request3 s r))
  | VReport x vb => exists auth, In (WReport r x vb auth) l /\ (auth = false -> has_expired3 W s r)
  | VRaised Timeout => has_expired3 W s r \/ exists q h w, In (WFailed q h w Timeout) l
  | VRaised e => e = ZeroDivisionError \/ e = SNMPLibraryBug \/ e = AssertionError \/ exists q h w, In (WFailed q h w e) l
  end.
Proof.
  intros W evs s l r o H B. destruct (C44_v3_outcome_partial _ _ _ _ _ _ H B) as [(l1 & l2 & EL & -> & X)|(e & -> & X)].
  2:{ destruct e; auto. right. destruct X as [X|[X|[X|X]]]; try discriminate. exact X. }
  assert (SUB : forall y, In y (rev l2) -> In y l) by (intros y Y; apply in_rev in Y; rewrite EL; apply in_or_app; auto).
  unfold verdict. destruct (find (decisive r) (rev l2)) as [y|] eqn:F.
  - apply find_some in F as [F D]. apply SUB in F. destruct y; cbn in D; try discriminate.
    + destruct auth; [|discriminate]. apply Nat.eqb_eq in D as ->. exists true. split; [auto|discriminate].
    + apply Nat.eqb_eq in D as ->. unfold answer3. destruct (v3_scoped m) as [sc|] eqn:SC; [|auto].
      destruct (pdu_a (sp_pdu sc) =? 0) eqn:Z.
      * apply Z.eqb_eq in Z. exists m, sc. auto.
      * apply Z.eqb_neq in Z. exists m, sc. repeat split; auto.
  - specialize (X eq_refl). destruct (find (hearsay r) (rev l2)) as [y|] eqn:F2; [|auto]. apply find_some in F2 as [F2 D]. apply SUB in F2. destruct y; cbn in D; try discriminate.
    destruct auth; [discriminate|]. apply Nat.eqb_eq in D as ->. exists false. auto.
Qed.
Print Assumptions C44_v3_cases_partial.
(** A thread that is blocked in wait() when the event is set needs no more than
    its own three steps; the first delivered response or authenticated report is
    what it gets. *)
Theorem C44_v3_delivered_partial : forall W evs s l n r lim s1 l1 s2 l2 s3 l3,
  history W evs s l -> nth_error (v_tasks s) n = Some (SBlock r lim) -> answered3 s r ->
  step3 W s (VStep n) = (s1, l1) -> step3 W s1 (VStep n) = (s2, l2) -> step3 W s2 (VStep n) = (s3, l3) ->
  (l3 = [WOutcome r (verdict (q_pdu (request3 s r)) r l)] \/ l3 = [WOutcome r (VRaised SNMPLibraryBug)] \/ l3 = [WOutcome r (VRaised AssertionError)]) /\
  find (decisive r) (rev l) <> None.
Proof.
  intros W evs s l n r lim s1 l1 s2 l2 s3 l3 H T A S1 S2 S3. apply history_new in H as (s0 & N & E).
  pose proof (base_run _ _ _ _ _ _ _ _ _ _ (base_start _ _ _ _ _ _ _ _ N) E) as [I _].
  assert (AL : q_alive (get3 (v_reqs s) r) = true) by (apply (i3_tasks s I (SBlock r lim)); eapply nth_error_In; eauto).
  pose proof (get3_alive_lt _ _ AL) as LT. destruct (found_run _ _ _ _ _ _ _ _ _ _ _ _ _ _ N E) as [_ FD]. specialize (FD r LT).
  assert (LEN : length (firstn n (v_tasks s)) = n) by (apply firstn_length_le; apply Nat.lt_le_incl, nth_error_Some; congruence).
  unfold step3 in S1. cbn [m3_step] in S1. rewrite T in S1. cbn [task3_step task_req3] in S1. unfold answered3, request3 in A. rewrite A in S1. injection S1 as <- <-.
  assert (NT : forall a (t : task3) b, length a = n -> nth_error (a ++ t :: b) n = Some t) by (intros a t b L; rewrite nth_error_app2, L, Nat.sub_diag by lia; reflexivity).
  unfold step3 in S2. cbn [m3_step v_tasks set_threads] in S2. rewrite NT in S2 by exact LEN. cbn [task3_step task_req3 v_reqs set_threads] in S2. injection S2 as <- <-.
  unfold step3 in S3. cbn [m3_step v_tasks set_threads] in S3. rewrite NT in S3.
  2:{ rewrite firstn_app, LEN, Nat.sub_diag, firstn_O, app_nil_r, firstn_firstn, Nat.min_id. exact LEN. }
  cbn [task3_step] in S3. rewrite (end3_verdict _ _ _ FD) in S3. fold (request3 s r) in S3. split.
  - destruct (close3 _ _ _ _ _) as [s4 x] eqn:CL. destruct x as [[]|e]; injection S3 as _ <-; [auto|]. apply close3_raise in CL as [->| ->]; auto.
  - intros F. unfold found in FD. rewrite F in FD. destruct FD as [FD _]. congruence.
Qed.
Print Assumptions C44_v3_delivered_partial.
(** A response, then an authenticated report; and an unauthenticated report
    before both. *)
Definition ex_reports : list event3 := ex_call authNoPriv 10 3 ++
  [VReceive (ex_note 13 ex_engine ex_user (ex_report 3)); VListen; VReceive (ex_signed 13 ex_engine (ex_reply3 13)); VListen; VListen; VListen;
   VReceive (ex_signed 13 ex_engine (ex_report 6)); VListen; VWait 0] ++ ex_steps 5.
Example C44_v3_example : let W := ex_world [0] (Some ex_engine) in let '(s, l) := run3 W ex_reports in
  nth_error (v_tasks s) 0 = Some (SBlock 0 0) /\ answered3 s 0 /\
  verdict (q_pdu (request3 s 0)) 0 l = VReturned ex_vbs /\ (exists vb, In (WReport 0 UnknownUserNameReport vb false) l) /\
  (exists vb, In (WReport 0 DecryptionErrorReport vb true) l).
Proof. vm_compute. split; [auto|]. split; [auto|]. split; [auto|]. split; eexists; [do 5 right; left; reflexivity|do 1 right; left; reflexivity]. Qed.

(** * C47 *)
(** Active (scheduled for retransmission), or queued unsent (or being sent for
    the first time at this moment). *)
Definition active3 (s : mgr3) (r : nat) : Prop := In r (v_heap s).
Definition waiting3 (s : mgr3) (r : nat) : Prop := In r (v_unsent s ++ flat_map pend (v_tasks s)).
Definition failed3 (l : list log3) (r : nat) : Prop := exists h w e, In (WFailed r h w e) l.
Definition C47_statement : Prop := forall W evs s l r,
  history W evs s l -> made3' s r -> alive3 s r -> ~ answered3 s r -> ~ has_expired3 W s r ->
  (forall h e, ~ In (WFailed r h ByCall e) l) ->
  active3 s r \/ waiting3 s r.
(** sendRequest() accepts the second request (authentication for an unknown user)
    while the first waits for discovery.  When the engine is discovered, sending it
    raises in the listener thread; nobody hears of it. *)
Definition ex_lost : list event3 := ex_call noAuthNoPriv 100 3 ++ [VCall ex_pdu [99] authNoPriv 100 3; VStep 0] ++ ex_discovered.
Theorem C47_refuted : ~ C47_statement.
Proof.
  intros H. set (W := ex_world [0] None). set (sl := run3 W ex_lost).
  assert (N : snd (new3 W) = Ok tt) by (vm_compute; reflexivity).
  assert (A : made3' (fst sl) 1 /\ alive3 (fst sl) 1 /\ ~ answered3 (fst sl) 1 /\ expiration3 (fst sl) 1 = 100) by (clear H; vm_compute; repeat split; try discriminate; lia).
  destruct A as (A1 & A2 & A3 & A4).
  assert (A5 : ~ has_expired3 W (fst sl) 1).
  { intros (i & _ & Y). rewrite A4 in Y. cbn [W ex_world w_clk] in Y. unfold ex_clk in Y. clear - Y. destruct i as [|i]; cbn in Y; [lia|]. destruct i; cbn in Y; lia. }
  assert (A6 : forall h e, ~ In (WFailed 1 h ByCall e) (snd sl)) by (clear; vm_compute; intros h e [X|[X|[X|[X|[]]]]]; discriminate).
  assert (A7 : ~ (active3 (fst sl) 1 \/ waiting3 (fst sl) 1)) by (clear; vm_compute; intros [[X|[]]|[]]; discriminate).
  exact (A7 (H W _ _ _ _ (conj N (surjective_pairing sl)) A1 A2 A3 A5 A6)).
Qed.
Print Assumptions C47_refuted.
(** In every history: a live unanswered request that has not been seen to
    expire is active or waiting, unless sending it failed, or poke() failed. *)
Theorem C47_covered_partial : forall W evs s l r,
  history W evs s l -> made3' s r -> alive3 s r -> ~ answered3 s r -> ~ has_expired3 W s r ->
  active3 s r \/ waiting3 s r \/ (exists h e, In (WFailed r h ByCall e) l \/ In (WFailed r h ByDrain e) l) \/ (exists q h e, In (WFailed q h ByPoke e) l).
Proof.
  intros W evs s l r H M A Q X. apply history_new in H as (s0 & N & E).
  destruct (covered_run _ _ _ _ _ _ _ _ _ _ _ _ _ _ r N E M) as [Y|[Y|[Y|[Y|(q & h & w & e & Y & Z)]]]].
  - apply in_app_or in Y as [Y|Y]; [left; exact Y|right; left; exact Y].
  - unfold alive3, request3 in A. congruence.
  - contradiction.
  - contradiction.
  - right. right. destruct Z as [[-> [->| ->]]| ->]; eauto 7.
Qed.
Print Assumptions C47_covered_partial.
(** Never both, and never twice. *)
Theorem C47_never_both : forall W evs s l, history W evs s l ->
  NoDup (v_heap s ++ v_unsent s ++ flat_map pend (v_tasks s)) /\ forall r, active3 s r -> ~ waiting3 s r.
Proof.
  intros W evs s l H. apply history_new in H as (s0 & N & E). pose proof (base_run _ _ _ _ _ _ _ _ _ _ (base_start _ _ _ _ _ _ _ _ N) E) as [I _].
  pose proof (i3_nodup s I) as ND. split; [exact ND|]. intros r A B. exact (nodup_app_disj _ _ _ ND A B).
Qed.
Print Assumptions C47_never_both.
(** A request is sent for the first time at most once, and not while it waits. *)
Theorem C47_once : forall W evs s l, history W evs s l ->
  NoDup (firsts l) /\ forall r, was_sent3 l r -> ~ waiting3 s r.
Proof.
  intros W evs s l H. apply history_new in H as (s0 & N & E). pose proof (once_run _ _ _ _ _ _ _ _ _ _ _ _ _ _ N E) as [ND _].
  split; [eapply nodup_app_l; eauto|]. intros r A B. apply in_firsts in A. apply (nodup_app_disj _ _ _ ND A). apply in_app_or in B as [B|B].
  - apply in_or_app. left. apply in_or_app. auto.
  - apply in_flat_map in B as (t & T & B). destruct t; cbn in B; try contradiction.
    + apply in_or_app. right. apply in_flat_map. exists (SSend r0). auto.
    + apply in_or_app. left. apply in_or_app. right. apply in_flat_map. exists (SPoking r0 unsent active). auto.
Qed.
Print Assumptions C47_once.
(** When the engine is discovered the queued requests are sent in the order in
    which they were made, if no two calls of sendRequest() overlap. *)
Theorem C47_order : forall W evs s l,
  history W evs s l -> (forall evs1 evs2, evs = evs1 ++ evs2 -> (length (calling (fst (run3 W evs1))) <= 1)%nat) ->
  StronglySorted lt (rev (drained l) ++ v_unsent s).
Proof.
  intros W evs s l H O. pose proof H as [H1 _]. apply history_new in H as (s0 & N & E).
  assert (fst (new3 W) = s0) as <- by (unfold new3; now rewrite N).
  pose proof (order_run _ _ _ _ _ _ _ _ _ _ _ _ _ _ N E O) as [SS _]. unfold line in SS. rewrite !app_assoc in SS. rewrite <- app_assoc in SS.
  assert (L : forall a b : list nat, StronglySorted lt (a ++ b) -> StronglySorted lt a).
  { clear. induction a as [|x a IH]; intros b S; [constructor|]. cbn in S. inversion S; subst. constructor; [eauto|]. apply Forall_app in H2. tauto. }
  eapply L; eauto.
Qed.
Print Assumptions C47_order.
Example C47_example : let W := ex_world [0] None in
  let evs := ex_call noAuthNoPriv 100 3 ++ ex_call noAuthNoPriv 100 3 ++ ex_call noAuthNoPriv 100 3 ++ ex_discovered ++ [VListen; VListen] in
  let '(s, l) := run3 W evs in
  (forall evs1 evs2, evs = evs1 ++ evs2 -> (length (calling (fst (run3 W evs1))) <= 1)%nat) /\
  v_unsent (fst (run3 W (firstn 6 evs))) = [1; 2]%nat /\ rev (drained l) = [1; 2]%nat /\ v_unsent s = [] /\ active3 s 2.
Proof.
  cbv zeta. set (W := ex_world [0] None). set (evs := _ ++ _).
  assert (V : v_unsent (fst (run3 W (firstn 6 evs))) = [1; 2]%nat /\ rev (drained (snd (run3 W evs))) = [1; 2]%nat /\
    v_unsent (fst (run3 W evs)) = [] /\ active3 (fst (run3 W evs)) 2) by (vm_compute; auto 8).
  assert (U : forall e1 e2, evs = e1 ++ e2 -> (length (calling (fst (run3 W e1))) <= 1)%nat).
  { clear V. intros e1 e2 E. assert (e1 = firstn (length e1) evs) as -> by (rewrite E, firstn_app, Nat.sub_diag, firstn_all, app_nil_r; reflexivity).
    generalize (length e1). clear. intros n. do 13 (destruct n as [|n]; [vm_compute; lia|]). vm_compute. lia. }
  destruct (run3 W evs) as [s l]. exact (conj U V).
Qed.

(** * C48 *)
(** [sent_for w r]: transmissions of [r] for the reason [w], or for others. *)
Definition C48_statement : Prop := forall W evs s l r, history W evs s l ->
  (count (time_sent r) l <= count (other_sent r) l)%nat.
(** The second request (unknown user) waits for the first one to be answered.
    The report notInTimeWindows, which is not authenticated, makes the first be
    sent again; sending the second raises, and the report is not marked as dealt
    with: the same report has the same effect once more. *)
Definition ex_again : list event3 := [VReceive (ex_note 13 ex_engine ex_user (ex_report 2)); VListen; VListen; VListen].
Definition ex_storm : list event3 := ex_call authNoPriv 100 3 ++ [VCall ex_pdu [99] authNoPriv 100 3; VStep 0] ++ ex_again ++ ex_again.
Theorem C48_refuted : ~ C48_statement.
Proof.
  intros H. set (W := ex_world [0] (Some ex_engine)). set (sl := run3 W ex_storm).
  assert (N : snd (new3 W) = Ok tt) by (vm_compute; reflexivity).
  pose proof (H W _ _ _ 0%nat (conj N (surjective_pairing sl))) as X. clear H. vm_compute in X. lia.
Qed.
Print Assumptions C48_refuted.
(** In every history: apart from messages that could not be sent, the
    retransmissions because of such reports are at most as many as the others. *)
Theorem C48_bound_partial : forall W evs s l r, history W evs s l ->
  (count (time_sent r) l <= count (other_sent r) l + count (message_failed r) l + count drain_failed l)%nat.
Proof.
  intros W evs s l r H. apply history_new in H as (s0 & N & E). pose proof (time_bound _ _ _ _ _ _ _ _ _ _ _ _ _ _ r N E) as T.
  enough (count (other_made r) l <= count (other_sent r) l + count (message_failed r) l)%nat by lia. clear. unfold count.
  induction l as [|y l IH]; cbn [filter]; [auto|]. destruct y; cbn; try exact IH.
  - destruct (_ && _)%bool; cbn; lia.
  - repeat match goal with |- context[if ?b then _ else _] => destruct b; cbn end; lia.
Qed.
Print Assumptions C48_bound_partial.
(** Without failures, the statement. *)
Theorem C48_no_failure_partial : forall W evs s l r, history W evs s l -> (forall q h w e, ~ In (WFailed q h w e) l) ->
  (count (time_sent r) l <= count (other_sent r) l)%nat.
Proof.
  intros W evs s l r H NF. pose proof (C48_bound_partial _ _ _ _ r H) as B.
  assert (Z : forall f, (forall y, match y with WFailed _ _ _ _ => False | _ => True end -> f y = false) -> count f l = 0%nat).
  { intros f F. unfold count. rewrite filter_none; [auto|]. intros y Y. apply F. destruct y; auto. exact (NF _ _ _ _ Y). }
  rewrite (Z (message_failed r)), (Z drain_failed) in B; [lia| |]; intros []; cbn; tauto.
Qed.
Print Assumptions C48_no_failure_partial.
(** The same report three times: one retransmission. *)
Example C48_example : let W := ex_world [0] (Some ex_engine) in let '(s, l) := run3 W (ex_call authNoPriv 100 3 ++ ex_again ++ ex_again ++ ex_again) in
  (forall q h w e, ~ In (WFailed q h w e) l) /\ count (time_sent 0) l = 1%nat /\ count (other_sent 0) l = 1%nat.
Proof. vm_compute. split; [|auto]. intros q h w e X. repeat (destruct X as [X|X]; [discriminate|]). exact X. Qed.
