(** PropertiesOnce.v -- C71: an engine is discovered once. *)
From Verif Require Import PropertiesUsm PropertiesMsg PropertiesProc PropertiesMgr PrfMgr3i PropertiesMgr3 PropertiesReg PropertiesUse PrfHear PrfHear2 PrfMgr3e PrfMgr3d PropertiesHear PropertiesAnswer.
From Verif Require Import SpecUse SpecReg.

(** * C71 *)
(** Every message that is sent for a request made when the manager knows the
    engine, until its wait() is over, is the request itself: it has the PDU asked
    for (but for the request ID), the user and the security level.  It is never a
    discovery message. *)
Theorem C71_once : forall W evs1 evs2 s1 l1 s l x s' l' r c h w now p e u lv wire,
  history W evs1 s1 l1 -> knows_engine W l1 -> (length (calls evs1) <= r)%nat ->
  history W (evs1 ++ evs2) s l -> step3 W s x = (s', l') -> nth_error (calls (evs1 ++ evs2)) r = Some c ->
  In (WSent r h w now p e u lv wire) l' -> (forall o, ~ In (WOutcome r o) l) ->
  p = set_requestID (c_pdu c) (pdu_requestID p) /\ u = c_user c /\ lv = c_level c.
Proof.
  intros W evs1 evs2 s1 l1 s l x s' l' r c h w now p e u lv wire HI1 KN GE HI ST NE IN FIRST.
  destruct (history_new W _ s l HI) as (s0 & NEW & RUN).
  pose proof (calls_run _ _ _ _ _ _ _ _ _ _ _ _ _ _ NEW RUN) as [CL CC]. destruct (CC _ _ NE) as (B1 & B2 & B3 & _).
  pose proof (base_run _ _ _ _ _ _ _ _ _ _ (base_start _ _ _ _ _ _ _ _ NEW) RUN) as B.
  assert (PL : plain (length (calls evs1)) s l).
  { destruct (history_new W _ s1 l1 HI1) as (s0' & NEW' & RUN1). rewrite NEW in NEW'. injection NEW' as <-.
    pose proof (calls_run _ _ _ _ _ _ _ _ _ _ _ _ _ _ NEW RUN1) as [CL1 _]. rewrite <- CL1. exact (plain_since _ _ _ _ _ _ _ _ _ _ _ _ _ _ _ _ _ NEW RUN1 (known W _ _ _ HI1 KN) RUN). }
  unfold step3 in ST. apply m3_step_spec in ST.
  destruct (plain_sent _ _ _ _ _ _ _ _ _ _ _ _ _ _ _ _ _ _ _ _ B PL ST IN) as [O|(-> & -> & ->)].
  - exfalso. destruct O as [O|[[o O]|O]]; [lia|now apply (FIRST o)|].
    destruct B as [I WO]. destruct (step_class _ _ _ _ _ _ _ _ _ I WO ST) as [SS|QS]; [|apply (qs_log _ _ _ _ _ QS) in IN; discriminate].
    destruct SS as [r1 w1 sc eng s2 s3 y SB _ _ _ _ _ _ _ _ _ AL _]. inversion SB; subst; [destruct IN as [IN|[]]; discriminate|].
    destruct H2 as [(wi & _ & EQ)|(ex & _ & EQ)]; rewrite EQ in IN; destruct IN as [IN|[]]; [|discriminate]. injection IN. intros; subst. congruence.
  - split; [|split; [exact B2|exact B3]]. exact B1.
Qed.
Print Assumptions C71_once.
(** The hypotheses are met: discovery, a request without security and its answer,
    and a second request, which is sent at once. *)
Definition ex_first : list event3 := ex_call noAuthNoPriv 10 3 ++ ex_discovered ++
  [VReceive (ex_note 26 ex_engine ex_user (ex_reply3 13)); VListen; VListen; VListen; VWait 0] ++ ex_steps 8.
Definition ex_second : list event3 := [VCall ex_pdu ex_user noAuthNoPriv 10 3].
Definition no_signed (y : log3) : bool := match y with WPushed _ m => negb (sl_auth (level_of m)) | _ => true end.
Definition unended (r : nat) (y : log3) : bool := match y with WOutcome r' _ => negb (Nat.eqb r' r) | _ => true end.
Definition accepted (y : log3) : bool := match y with WResponse _ _ => true | _ => false end.
Lemma knows_plain W l : existsb accepted l = true -> forallb no_signed l = true -> knows_engine W l.
Proof.
  intros A N. right. apply existsb_exists in A as (y & I & A). destruct y; try discriminate. exists r, m. split; [exact I|]. right.
  intros h m' P _. rewrite forallb_forall in N. apply N in P. cbn in P. now apply negb_true_iff in P.
Qed.
Lemma ended_not r l : forallb (unended r) l = true -> forall o, ~ In (WOutcome r o) l.
Proof. intros H o I. rewrite forallb_forall in H. apply H in I. cbn in I. rewrite Nat.eqb_refl in I. discriminate. Qed.
Example C71_example : let W := ex_world [0] None in exists s1 l1 s l s' l' h w now p e u lv wire,
  history W ex_first s1 l1 /\ knows_engine W l1 /\ length (calls ex_first) = 1%nat /\ history W (ex_first ++ ex_second) s l /\ step3 W s (VStep 0) = (s', l') /\
  nth_error (calls (ex_first ++ ex_second)) 1 = Some (mkCall3 ex_pdu ex_user noAuthNoPriv 10 3) /\
  In (WSent 1 h w now p e u lv wire) l' /\ (forall o, ~ In (WOutcome 1 o) l) /\ e = ex_engine.
Proof.
  cbv zeta. set (W := ex_world [0] None). set (a := run3 W ex_first). set (b := run3 W (ex_first ++ ex_second)). set (d := step3 W (fst b) (VStep 0)).
  assert (N : snd (new3 W) = Ok tt) by (vm_compute; reflexivity).
  assert (K1 : existsb accepted (snd a) = true) by (vm_compute; reflexivity).
  assert (K2 : forallb no_signed (snd a) = true) by (vm_compute; reflexivity).
  assert (S : exists h w now p e u lv wire, In (WSent 1 h w now p e u lv wire) (snd d) /\ e = ex_engine) by (vm_compute; do 8 eexists; split; [left; reflexivity|reflexivity]).
  assert (Q : forallb (unended 1) (snd b) = true) by (vm_compute; reflexivity).
  destruct S as (h & w & now & p & e & u & lv & wire & S & E).
  exists (fst a), (snd a), (fst b), (snd b), (fst d), (snd d), h, w, now, p, e, u, lv, wire.
  split; [exact (conj N (surjective_pairing a))|]. split; [exact (knows_plain W _ K1 K2)|]. split; [reflexivity|].
  split; [exact (conj N (surjective_pairing b))|]. split; [exact (surjective_pairing d)|]. split; [reflexivity|]. split; [exact S|]. split; [exact (ended_not 1 _ Q)|exact E].
Qed.
(** C68_known, C70_known: a first request, discovered and answered; a second one,
    answered by a response, or a report. *)
Definition ex_opened : list event3 := ex_answered3 ++ ex_steps 1.
Definition ex_next (p : pdu) (n : nat) : list event3 := ex_call authNoPriv 10 3 ++
  [VReceive (ex_signed 39 ex_engine p); VListen; VListen; VListen; VWait 1] ++ ex_steps n.
Lemma knows_signed W l : existsb (fun y => match y with WResponse _ m => sl_auth (level_of m) | _ => false end) l = true -> knows_engine W l.
Proof. intros A. right. apply existsb_exists in A as (y & I & A). destruct y; try discriminate. exists r, m. split; [exact I|]. now left. Qed.
Example C68_known_example : let W := ex_world [0] None in let evs := ex_opened ++ ex_next (ex_reply3 20) 7 in exists s1 l1 s l s' l',
  history W ex_opened s1 l1 /\ knows_engine W l1 /\ (length (calls ex_opened) <= 1)%nat /\
  world_after W ex_history /\ crypto_ok (w_crypto W) /\ 0 < w_ticks W /\ Forall event_ok evs /\ (forall d, In (VReceive d) evs -> bytes_ok d) /\
  history W evs s l /\ step3 W s (VStep 0) = (s', l') /\ nth_error (calls evs) 1 = Some (mkCall3 ex_pdu ex_user authNoPriv 10 3) /\
  In (WOutcome 1 (VReturned ex_vbs)) l' /\ (forall o, ~ In (WOutcome 1 o) l).
Proof.
  cbv zeta. set (W := ex_world [0] None). set (evs := ex_opened ++ ex_next (ex_reply3 20) 7). set (a := run3 W ex_opened). set (b := run3 W evs). set (d := step3 W (fst b) (VStep 0)).
  assert (N : snd (new3 W) = Ok tt) by (vm_compute; reflexivity).
  assert (K : existsb (fun y => match y with WResponse _ m => sl_auth (level_of m) | _ => false end) (snd a) = true) by (vm_compute; reflexivity).
  assert (X : In (WOutcome 1 (VReturned ex_vbs)) (snd d)) by (vm_compute; left; reflexivity).
  assert (E : Forall event_ok evs) by (repeat constructor).
  assert (B : received_octets evs = true) by (vm_compute; reflexivity).
  assert (Q : forallb (unended 1) (snd b) = true) by (vm_compute; reflexivity).
  assert (L : (length (calls ex_opened) <= 1)%nat) by (vm_compute; apply le_n).
  exists (fst a), (snd a), (fst b), (snd b), (fst d), (snd d).
  split; [exact (conj N (surjective_pairing a))|]. split; [exact (knows_signed W _ K)|]. split; [exact L|]. split; [apply ex_world_after|]. split; [exact (toy_ok OpenSSL)|]. split; [cbn; lia|].
  split; [exact E|]. split; [exact (all_octets _ B)|]. split; [exact (conj N (surjective_pairing b))|]. split; [exact (surjective_pairing d)|]. split; [reflexivity|]. split; [exact X|].
  exact (ended_not 1 _ Q).
Qed.
Example C70_known_example : let W := ex_world [0] None in let evs := ex_opened ++ ex_next (ex_report 3) 7 in exists s1 l1 s l s' l' x vb,
  history W ex_opened s1 l1 /\ knows_engine W l1 /\ (length (calls ex_opened) <= 1)%nat /\
  world_after W ex_history /\ crypto_ok (w_crypto W) /\ 0 < w_ticks W /\ Forall event_ok evs /\ (forall d, In (VReceive d) evs -> bytes_ok d) /\
  history W evs s l /\ step3 W s (VStep 0) = (s', l') /\ nth_error (calls evs) 1 = Some (mkCall3 ex_pdu ex_user authNoPriv 10 3) /\
  In (WOutcome 1 (VReport x vb)) l' /\ (forall o, ~ In (WOutcome 1 o) l).
Proof.
  cbv zeta. set (W := ex_world [0] None). set (evs := ex_opened ++ ex_next (ex_report 3) 7). set (a := run3 W ex_opened). set (b := run3 W evs). set (d := step3 W (fst b) (VStep 0)).
  assert (N : snd (new3 W) = Ok tt) by (vm_compute; reflexivity).
  assert (K : existsb (fun y => match y with WResponse _ m => sl_auth (level_of m) | _ => false end) (snd a) = true) by (vm_compute; reflexivity).
  assert (X : exists x vb, In (WOutcome 1 (VReport x vb)) (snd d)) by (vm_compute; do 2 eexists; left; reflexivity). destruct X as (x & vb & X).
  assert (E : Forall event_ok evs) by (repeat constructor).
  assert (B : received_octets evs = true) by (vm_compute; reflexivity).
  assert (Q : forallb (unended 1) (snd b) = true) by (vm_compute; reflexivity).
  assert (L : (length (calls ex_opened) <= 1)%nat) by (vm_compute; apply le_n).
  exists (fst a), (snd a), (fst b), (snd b), (fst d), (snd d), x, vb.
  split; [exact (conj N (surjective_pairing a))|]. split; [exact (knows_signed W _ K)|]. split; [exact L|]. split; [apply ex_world_after|]. split; [exact (toy_ok OpenSSL)|]. split; [cbn; lia|].
  split; [exact E|]. split; [exact (all_octets _ B)|]. split; [exact (conj N (surjective_pairing b))|]. split; [exact (surjective_pairing d)|]. split; [reflexivity|]. split; [exact X|].
  exact (ended_not 1 _ Q).
Qed.
