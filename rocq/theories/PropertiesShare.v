(** PropertiesShare.v -- C82: SNMPv3 managers that share an Engine do not take each
    other's answers. *)
From Verif Require Import PropertiesUsm PropertiesMsg PropertiesProc PropertiesMgr PrfMgr3i PropertiesMgr3 PropertiesReg PropertiesUse PrfHear PrfHear2 PrfMgr3e PrfMgr3d PropertiesHear PrfAnswer PropertiesAnswer PrfUse PrfUse2.
From Verif Require Import PrfMgr3 PrfMgr3a PrfMgr3c PrfLost3 PrfLeak3 PrfShare SpecAnswer SpecUse SpecReg.

(** The manager of the model is one of several managers of an Engine, which use the
    same message processor and security module.  The messages that any of them
    makes are numbered in turn.  The message [h] is one of this manager: *)
Definition mine (s : mgr3) (h : nat) : Prop := (h < length (v_msgs s))%nat /\ g_own (getm (v_msgs s) h) = true.
(** one of another manager: *)
Definition foreign (s : mgr3) (h : nat) : Prop := (h < length (v_msgs s))%nat /\ g_own (getm (v_msgs s) h) = false.
(** It has got the message ID [id], and its manager may still get an answer: its
    request is not over, or the other manager has not said that it is done. *)
Definition outstanding (s : mgr3) (h : nat) (id : Z) : Prop :=
  g_cb (getm (v_msgs s) h) = Some id /\ ((mine s h /\ g_open (getm (v_msgs s) h) = true) \/ foreign s h).
(** What the message processor remembers under the ID. *)
Definition remembered (s : mgr3) (id : Z) : option entry3 := dict_get Z.eqb (ca_out (p3_cache (v_proc s))) id.

Lemma out_lt s h id : g_cb (getm (v_msgs s) h) = Some id -> (h < length (v_msgs s))%nat.
Proof. intros CB. destruct (le_lt_dec (length (v_msgs s)) h) as [GE|]; [|assumption]. unfold getm in CB. rewrite nth_overflow in CB by exact GE. discriminate CB. Qed.
Lemma out_or s h id : outstanding s h id -> g_open (getm (v_msgs s) h) = true \/ g_own (getm (v_msgs s) h) = false.
Proof. intros [_ [[_ A]|[_ A]]]; auto. Qed.

(** Two outstanding messages, of whatever managers, have different IDs, and each is
    remembered under its own. *)
Theorem C82_distinct : forall W evs s l h h' id, world_ok W -> Forall event_ok evs -> history W evs s l ->
  outstanding s h id -> (outstanding s h' id -> h = h') /\ exists e, remembered s id = Some e /\ e3_handle e = h.
Proof.
  intros W evs s l h h' id OK F [_ E] A. destruct (open_run W OK evs F s l E) as [O _ _].
  destruct (O h id (out_or _ _ _ A) (proj1 A)) as (e & D & H). split; [|exists e; auto].
  intros B. destruct (O h' id (out_or _ _ _ B) (proj1 B)) as (e' & D' & H'). congruence.
Qed.
Print Assumptions C82_distinct.

(** A message received is handed to this manager for the message of its own that
    has the ID of the message received and is outstanding. *)
Theorem C82_taken : forall W evs s l d s' l' h m, world_ok W -> Forall event_ok evs -> history W evs s l ->
  step3 W s (VReceive d) = (s', l') -> v_listener s = LIdle -> v_listener s' = LPush h m ->
  mine s h /\ outstanding s h (h_id (v3_header m)).
Proof.
  intros W evs s l d s' l' h m OK F [_ E] ST L L'. destruct (taken_id W OK evs s l d s' l' h m F E ST L L') as (_ & CB & OP & _).
  destruct (run_good W OK evs F s l E) as [I _]. pose proof (out_lt _ _ _ CB) as LT.
  assert (OW : g_own (getm (v_msgs s) h) = true).
  { destruct (g_own (getm (v_msgs s) h)) eqn:OW; [reflexivity|]. assert (N : g_open (getm (v_msgs s) h) = false) by apply (proj1 (proj2 (i3_msgs s I)) h LT OW). congruence. }
  split; [split; assumption|]. split; [exact CB|]. left. split; [split; assumption|exact OP].
Qed.
Print Assumptions C82_taken.
(** So an answer to a message of another manager is not: whatever is received with
    the ID of such a message, this manager does not hear of it. *)
Theorem C82_not_taken : forall W evs s l d s' l' h id, world_ok W -> Forall event_ok evs -> history W evs s l ->
  foreign s h -> outstanding s h id ->
  step3 W s (VReceive d) = (s', l') -> v_listener s = LIdle ->
  (forall m, v3_decode (ABytes d) = Ok m -> h_id (v3_header m) = id) -> l' = [] /\ v_listener s' = LIdle.
Proof.
  intros W evs s l d s' l' h id OK F HI FO OU ST L ID. pose proof ST as ST0. unfold step3 in ST. cbn [m3_step] in ST. rewrite L in ST. cbn [tick3] in ST.
  destruct (v3_prepareDataElements _ _ _ _ _ _ _) as [u [[m h0]|ex]] eqn:PD; injection ST as <- <-; [|split; [reflexivity|exact L]].
  exfalso. destruct (C82_taken W evs s l d _ _ h0 m OK F HI ST0 L eq_refl) as [[_ OW] OU'].
  assert (EI : h_id (v3_header m) = id).
  { unfold v3_prepareDataElements in PD. destruct (v3_decode (ABytes d)) as [m1|] eqn:DE; [|discriminate PD]. destruct (has_module _ _); [|discriminate PD].
    destruct (usm_processIncoming _ _ _ _ _) as [u1 [m2|]] eqn:PI; [|discriminate PD]. injection PD as _ PD.
    assert (m2 = m) as ->.
    { unfold v3_match in PD. destruct (v3_scoped m2); [|discriminate PD]. destruct (is_Response _); [|discriminate PD]. destruct (retrieve _ _); [|discriminate PD].
      destruct (negb _); [discriminate PD|]. destruct (v3_mismatch _ _ _); [discriminate PD|]. now injection PD. }
    rewrite <- (ID m1 eq_refl). apply (f_equal snd) in PI. cbn [snd] in PI. apply processed_header in PI. now rewrite PI. }
  rewrite EI in OU'. destruct (C82_distinct W evs s l h h0 id OK F HI OU) as [D _]. apply D in OU' as <-. destruct FO as [_ FO]. congruence.
Qed.
Print Assumptions C82_not_taken.

(** Whatever this manager gets, calls a request's answer, or takes as a report, came
    for a message of its own, that it sent, or tried to send, for a request. *)
Theorem C82_own : forall W evs s l h m, history W evs s l -> In (WPushed h m) l ->
  mine s h /\ exists y, In y l /\ tries (g_req (getm (v_msgs s) h)) y.
Proof.
  intros W evs s l h m HI IN. destruct (history_new W _ s l HI) as (s0 & NEW & RUN).
  pose proof (match_run _ _ _ _ _ _ _ _ _ _ _ _ _ _ NEW RUN) as [_ _ MP _ _].
  destruct (MP h m IN) as (sc & e & _ & _ & _ & (LT & OW & _) & <-). split; [split; assumption|].
  pose proof (logged_run _ _ _ _ _ _ _ _ _ _ _ _ _ _ NEW RUN) as [LM _ _]. apply LM; assumption.
Qed.
Print Assumptions C82_own.

(** When another manager sends a message, or is done with one, nothing happens in
    this manager: *)
Definition same_manager (a b : mgr3) : Prop :=
  v_reqs b = v_reqs a /\ v_bools b = v_bools a /\ v_heap b = v_heap a /\ v_unsent b = v_unsent a /\ v_refs b = v_refs a /\
  v_engine b = v_engine a /\ v_state b = v_state a /\ v_next b = v_next a /\ v_gen b = v_gen a /\ v_tasks b = v_tasks a /\ v_listener b = v_listener a /\
  us_time (v_usm b) = us_time (v_usm a).
(** its requests, its threads and its view of the engine are the same, and so are
    its messages and what is remembered of those that are outstanding. *)
Theorem C82_undisturbed : forall W evs s l x s' l', world_ok W -> Forall event_ok evs -> history W evs s l ->
  (exists p e user level, x = VOther p e user level) \/ (exists h, x = VOtherDone h) ->
  step3 W s x = (s', l') ->
  l' = [] /\ same_manager s s' /\ forall h, mine s h -> getm (v_msgs s') h = getm (v_msgs s) h /\ forall id, outstanding s h id -> remembered s' id = remembered s id.
Proof.
  intros W evs s l x s' l' OK F [HN E] X ST.
  assert (A : l' = [] /\ same_manager s s' /\ (forall h, mine s h -> getm (v_msgs s') h = getm (v_msgs s) h)).
  { destruct X as [(p & e & user & level & ->)|(h0 & ->)]; unfold step3 in ST; cbn [m3_step] in ST.
    - cbn [tick3 v_usm v_proc v_msgs v_reqs v_bools v_clock set_io] in ST. set (o := fst (v3_prepareOutgoing _ _ _ _ _ _ _ _ _ _ _ _ _)) in *.
      assert (UT : us_time (s3_usm o) = us_time (v_usm s)) by (unfold o; apply outgoing_time). clearbody o. injection ST as <- <-.
      split; [reflexivity|]. split; [repeat split; exact UT|]. intros h [LT _]. cbn [set_objects v_msgs]. rewrite getm_app. destruct (Nat.eqb_spec h (length (v_msgs s))) as [->|_]; [lia|reflexivity].
    - destruct (g_own (getm (v_msgs s) h0)) eqn:OW; [injection ST as <- <-; repeat split|]. destruct (g_cb (getm (v_msgs s) h0)) as [id|]; injection ST as <- <-; [|repeat split].
      split; [reflexivity|]. split; [repeat split|]. intros h [LT OH]. cbn [set_objects set_io v_msgs]. rewrite getm_put. destruct (Nat.eqb_spec h0 h) as [->|_]; [congruence|reflexivity]. }
  destruct A as (A1 & A2 & A3). split; [exact A1|]. split; [exact A2|]. intros h M. split; [exact (A3 h M)|]. intros id [CB OU].
  apply (kept W OK evs s l x s' l' h id F E ST CB). left. destruct OU as [[_ OP]|[_ N]]; [|destruct M as [_ M]; congruence]. rewrite (A3 h M). auto.
Qed.
Print Assumptions C82_undisturbed.
(** And it does not disturb them: whatever happens here, the messages of another
    manager stay outstanding, with their IDs and what is remembered of them, until
    that manager is done with them. *)
Theorem C82_undisturbing : forall W evs s l x s' l' h id, world_ok W -> Forall event_ok evs -> history W evs s l ->
  step3 W s x = (s', l') -> foreign s h -> outstanding s h id -> x <> VOtherDone h ->
  foreign s' h /\ outstanding s' h id /\ remembered s' id = remembered s id.
Proof.
  intros W evs s l x s' l' h id OK F [_ E] ST [LT OW] [CB _] NX.
  destruct (kept W OK evs s l x s' l' h id F E ST CB (or_intror (conj OW NX))) as [G D].
  assert (FO : foreign s' h) by (split; [apply (out_lt s' h id); now rewrite G|now rewrite G]).
  split; [exact FO|]. split; [|exact D]. split; [now rewrite G|now right].
Qed.
Print Assumptions C82_undisturbing.
(** In particular, a message of this manager that expects an answer is remembered,
    with its user and level, as long as its request is not over and somebody refers
    to it, whatever the others do. *)
Theorem C82_open : forall W evs s l r h w now p e user level wire, world_ok W -> Forall event_ok evs -> history W evs s l ->
  In (WSent r h w now p e user level wire) l -> is_Confirmed (pdu_cls p) = true ->
  alive3 s r -> (forall o, ~ In (WOutcome r o) l) ->
  exists id, outstanding s h id /\ mine s h /\ remembered s id = Some (mkE3 e [] h user USM level).
Proof.
  intros W evs s l r h w now p e user level wire OK F [_ E] IN CF AL NO. destruct (open_run W OK evs F s l E) as [_ O2 O3].
  destruct (O2 _ _ _ _ _ _ _ _ _ IN) as (LT & (Q & OW) & X). pose proof (O3 r h AL NO LT OW Q) as OP. destruct (X CF OP) as (id & CB & D & _).
  exists id. split; [|split; [split; assumption|exact D]]. split; [exact CB|]. left. split; [split; assumption|exact OP].
Qed.
Print Assumptions C82_open.

(** Two managers with requests outstanding, for the same engine and user.  The message of the other one
    (handle 2) has the ID 39; an answer with that ID does not reach this one.  The answer
    to its own message (handle 1, ID 26) does, whether or not the other manager is
    done by then. *)
Definition ex_both : list event3 := ex_call noAuthNoPriv 10 3 ++ ex_discovered ++ [VOther ex_pdu ex_engine ex_user noAuthNoPriv].
Example C82_example : let W := ex_world [0] None in
  world_ok W /\ Forall event_ok ex_both /\ snd (new3 W) = Ok tt /\
  let s := fst (run3 W ex_both) in
  mine s 1 /\ outstanding s 1 26 /\ foreign s 2 /\ outstanding s 2 39 /\ v_listener s = LIdle /\
  (exists p wire, In (WSent 0 1 ByUnknownEngine 0 p ex_engine ex_user noAuthNoPriv wire) (snd (run3 W ex_both)) /\ is_Confirmed (pdu_cls p) = true) /\ alive3 s 0 /\
  (exists m, v3_decode (ABytes (ex_note 39 ex_engine ex_user (ex_reply3 13))) = Ok m /\ h_id (v3_header m) = 39) /\
  v_listener (fst (step3 W s (VReceive (ex_note 39 ex_engine ex_user (ex_reply3 13))))) = LIdle /\
  (exists m, v_listener (fst (step3 W s (VReceive (ex_note 26 ex_engine ex_user (ex_reply3 13))))) = LPush 1 m) /\
  let s' := fst (step3 W s (VOtherDone 2)) in
  remembered s' 39 = None /\ remembered s' 26 = remembered s 26 /\
  (exists m, v_listener (fst (step3 W s' (VReceive (ex_note 26 ex_engine ex_user (ex_reply3 13))))) = LPush 1 m).
Proof.
  cbv zeta. split; [apply ex_world_ok|]. split; [apply (no_users_ok (ex_world [0] None)); [apply ex_world_ok|reflexivity]|]. split; [vm_compute; reflexivity|].
  split; [split; [vm_compute; lia|vm_compute; reflexivity]|].
  split; [split; [vm_compute; reflexivity|left; split; [split; [vm_compute; lia|vm_compute; reflexivity]|vm_compute; reflexivity]]|].
  split; [split; [vm_compute; lia|vm_compute; reflexivity]|].
  split; [split; [vm_compute; reflexivity|right; split; [vm_compute; lia|vm_compute; reflexivity]]|].
  split; [vm_compute; reflexivity|].
  split; [vm_compute; eexists _, _; split; [left; reflexivity|reflexivity]|]. split; [vm_compute; reflexivity|].
  split; [vm_compute; eexists; split; reflexivity|].
  split; [vm_compute; reflexivity|]. split; [vm_compute; eexists; reflexivity|]. split; [vm_compute; reflexivity|]. split; [vm_compute; reflexivity|].
  vm_compute; eexists; reflexivity.
Qed.
