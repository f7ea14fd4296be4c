(** PropertiesFail.v -- C80: what wait() of an SNMPv3 request may raise. *)
From Verif Require Import PrfMsgProps PropertiesUsm PropertiesMsg PropertiesProc PropertiesMgr PrfMgr3i PropertiesMgr3 PropertiesReg PropertiesUse PrfHear PrfHear2 PrfMgr3e PrfMgr3d PropertiesHear PrfAnswer PropertiesAnswer PrfUse PrfUse2 PrfFail1 PrfFail2.
From Verif Require Import SpecUse SpecReg SpecFail.

(** * C80 *)
(** In every history: if every call names a user that has been added with
    credentials that are enough for its security level, and asks for something
    that can be encoded, then wait() of no request raises anything but Timeout
    (and the exceptions for an error response and for a report, which are other
    outcomes); except OSError, if the system has refused a datagram, and
    CacheError, if five or more messages were outstanding. *)
Definition C80_statement : Prop := forall W evs s l r e,
  world_ok W -> crypto_ok (w_crypto W) -> 484 <= w_size W <= 2147483647 -> Forall event_ok evs -> others_fair W evs ->
  calls_good W evs -> history W evs s l -> In (WOutcome r (VRaised e)) l ->
  e = Timeout \/ (e = OSError /\ was_refused W) \/ (e = CacheError /\ five_outstanding W evs).

(** What is missing: the engine IDs and clocks heard from the network must be such
    that they can be sent.  They are taken from messages that need not be
    authenticated. *)
Theorem C80_partial : forall W evs s l r e,
  world_ok W -> crypto_ok (w_crypto W) -> 484 <= w_size W <= 2147483647 -> Forall event_ok evs -> others_fair W evs ->
  calls_good W evs -> engines_good W evs -> history W evs s l -> In (WOutcome r (VRaised e)) l ->
  e = Timeout \/ (e = OSError /\ was_refused W) \/ (e = CacheError /\ five_outstanding W evs).
Proof.
  intros W evs s l r e OK CO SZ EV OF CG EG H O.
  exact (proj2 (allowed_run W OK CO SZ evs EV OF CG EG s l H) r e O).
Qed.
Print Assumptions C80_partial.

(** * Examples *)
(** addUser(), a request, discovery by a report (not authenticated) with the time
    [t], and wait(). *)
Definition ex_timed (t : Z) : bytes :=
  match v3_encode (mkV3 (mkHeader 13 65507 (mkFlags noAuthNoPriv false) USM) (Some (mkScoped ex_engine [] (ex_report 4))) None
     (ABytes match params_encode (UsmSecurityParameters ex_engine 5 t [] (ABytes []) []) with Ok b => b | Raise _ => [] end) None None) with
  | Ok b => b | Raise _ => [] end.
Definition ex_world80 : world := mkWorld (toy OpenSSL) 1 ex_draws (ex_clk [0;0;0;0;0;0;4;4;4;4;101]) (fun _ => true) [] (mkUsm [] registry0) 65507 None.
Definition ex_rest80 (t : Z) : list event3 := [VStep 0; VReceive (ex_timed t); VListen; VListen; VListen; VListen; VWait 0] ++ ex_steps 8.
Definition ex_evs80 (t : Z) : list event3 := VUsers ex_add :: VCall ex_gotten ex_user authPriv 100 3 :: ex_rest80 t.
Lemma ex_fits : fits ex_gotten.
Proof.
  assert (PO : pdu_ok ex_gotten).
  { split; [unfold pdu_fields_ok, int32; vm_compute; intuition discriminate|]. constructor; [|constructor; [|constructor]].
    all: split; [reflexivity|]; split; [split; [cbn; lia|reflexivity]|]; split; [exact Logic.I|exact Logic.I]. } split; [exact PO|]. intros id I. destruct (pdu_encode_size (set_requestID ex_gotten id)) as (b & E & L).
  - exact (renumbered_ok _ _ I PO).
  - vm_compute. reflexivity.
  - exists b. split; [exact E|]. etransitivity; [exact L|]. vm_compute. discriminate.
Qed.
Lemma ex_world80_ok : world_ok ex_world80.
Proof. constructor; [exists []; split; [constructor|reflexivity]| |]; intros k; cbn; lia. Qed.
Lemma ex_call_good : call_good ex_world80 [VUsers ex_add] (VCall ex_gotten ex_user authPriv 100 3).
Proof.
  cbn [call_good]. split; [lia|]. split; [exact ex_fits|]. split; [intros _; reflexivity|]. split; [repeat constructor; vm_compute; discriminate|]. split; [vm_compute; discriminate|].
  intros _. destruct ex_cred as [c SC]. exists c. split.
  - exists [], [], (Some HmacSha), None, (Some AesCfb128), None, ex_secret, false, None. split; [reflexivity|]. split; [vm_compute; reflexivity|exact SC].
  - destruct SC as (_ & S1 & _ & _ & S2 & _). split; intros _ Z; [rewrite S1 in Z|rewrite S2 in Z]; discriminate Z.
Qed.
(** Nothing else in the list is a call. *)
Definition no_call (x : event3) : bool := match x with VCall _ _ _ _ _ => false | _ => true end.
Lemma calls_good_two W a b rest : no_call a = true -> call_good W [a] b -> forallb no_call rest = true -> calls_good W (a :: b :: rest).
Proof.
  intros A B N before x after E. assert (X : forall y, no_call y = true -> call_good W before y) by (intros [] K; [discriminate K|..]; exact Logic.I).
  destruct before as [|a' before]; injection E as E1 E; [subst; now apply X|]. destruct before as [|b' before]; injection E as E2 E; [now subst|].
  apply X. rewrite forallb_forall in N. apply N. rewrite E. apply in_elt.
Qed.
(** The engine IDs held, and what the manager would send. *)
Definition engines_in (s : mgr3) : list bytes := flat_map (fun o => match o with Some e => [e] | None => [] end) (v_engine s :: map q_engine (v_reqs s)).
Definition byte (b : Z) : bool := (0 <=? b) && (b <=? 255).
Definition engine_check (W : world) (s : mgr3) (e : bytes) : bool :=
  let '(b, t) := sending_time W s e in
  forallb byte e && (zlen e <=? 1000) && (0 <=? b) && (b <=? 2147483647) && (0 <=? t) && (t <=? 2147483647).
Lemma held_in s e : held s e -> In e (engines_in s).
Proof.
  unfold engines_in. intros H. apply in_flat_map. exists (Some e). split; [|now left]. destruct H as [H|[r H]]; [left; auto|right].
  apply in_map_iff. exists (request3 s r). split; [exact H|]. unfold request3, get3 in *. apply nth_In.
  destruct (Nat.lt_ge_cases r (length (v_reqs s))) as [L|L]; [exact L|]. rewrite nth_overflow in H by exact L. discriminate H.
Qed.
Lemma engines_by W evs :
  forallb (fun n => let s := fst (run3 W (firstn n evs)) in forallb (engine_check W s) (engines_in s)) (seq 0 (length evs)) = true -> engines_good W evs.
Proof.
  intros F before x after e E H. rewrite forallb_forall in F. specialize (F (length before)).
  assert (FN : firstn (length before) evs = before) by (rewrite E, firstn_app, firstn_all, Nat.sub_diag; cbn; apply app_nil_r).
  rewrite FN in F. assert (L : In (length before) (seq 0 (length evs))) by (apply in_seq; rewrite E, app_length; cbn; lia).
  specialize (F L). cbv zeta in F. rewrite forallb_forall in F. specialize (F e (held_in _ _ H)). unfold engine_check in F. unfold engine_clock.
  destruct (sending_time _ _ _) as [b t]. rewrite !andb_true_iff, !Z.leb_le in F. destruct F as (((((F1 & F2) & F3) & F4) & F5) & F6).
  split; [|cbn [fst snd]; lia]. apply Forall_forall. rewrite forallb_forall in F1. intros z Z. specialize (F1 z Z). unfold byte in F1. rewrite andb_true_iff, !Z.leb_le in F1. lia.
Qed.
Lemma ex_calls t : calls_good ex_world80 (ex_evs80 t).
Proof. apply calls_good_two; [reflexivity|exact ex_call_good|reflexivity]. Qed.
Lemma ex_fair80 t : Forall event_ok (ex_evs80 t) /\ others_fair ex_world80 (ex_evs80 t).
Proof.
  split; [repeat constructor|]. apply others_keep_fair; [exact (PropertiesUse.used _ ex_world80_ok)|]. intros e ns H. unfold ex_evs80, ex_rest80, ex_steps in H. cbn [app repeat In] in H.
  repeat (destruct H as [H|H]; [discriminate H|]). exact H.
Qed.
Definition shown (y : log3) : log3 := match y with WPushed _ _ | WBlocked _ _ => WBlocked 0 0 | y => y end.
Lemma shown_in (l : list log3) y : (match y with WPushed _ _ | WBlocked _ _ => False | _ => True end) -> In y (map shown l) -> In y l.
Proof. intros Y I. apply in_map_iff in I as (z & Z & I). destruct z; cbn in Z; subst y; try contradiction Y; exact I. Qed.
(** The hypotheses of C80_partial are met: the agent's clock says 77; the request
    is sent, and sent again, and wait() raises Timeout. *)
Example C80_example : let W := ex_world80 in let evs := ex_evs80 77 in
  world_ok W /\ crypto_ok (w_crypto W) /\ 484 <= w_size W <= 2147483647 /\ Forall event_ok evs /\ others_fair W evs /\ calls_good W evs /\ engines_good W evs /\
  exists s l, history W evs s l /\ In (WOutcome 0 (VRaised Timeout)) l /\
    exists d d' now wire wire', In (WSent 0 1 ByUnknownEngine 0 d ex_engine ex_user authPriv wire) l /\ In (WSent 0 2 ByRefresh now d' ex_engine ex_user authPriv wire') l.
Proof.
  cbv zeta. split; [exact ex_world80_ok|]. split; [exact (toy_ok OpenSSL)|]. split; [cbn; lia|]. split; [apply ex_fair80|]. split; [apply ex_fair80|].
  split; [apply ex_calls|]. split; [apply engines_by; vm_compute; reflexivity|].
  set (sl := run3 ex_world80 (ex_evs80 77)). exists (fst sl), (snd sl). split; [split; [reflexivity|apply surjective_pairing]|].
  assert (X : exists d d' now w w' pre, map shown (snd sl) =
    WOutcome 0 (VRaised Timeout) :: pre ++ [WSent 0 2 ByRefresh now d' ex_engine ex_user authPriv w'; WSent 0 1 ByUnknownEngine 0 d ex_engine ex_user authPriv w; WBlocked 0 0; WSent 0 0 ByCall 0 discovery_pdu [] [] noAuthNoPriv (match snd sl with l => match last l (WBlocked 0 0) with WSent _ _ _ _ _ _ _ _ wr => wr | _ => [] end end)]).
  { do 5 eexists. exists [WBlocked 0 0]. vm_compute. reflexivity. }
  destruct X as (d & d' & now & w & w' & pre & X).
  pose proof (shown_in (snd sl)) as IN.
  rewrite X in IN. split; [apply IN; [exact Logic.I|left; reflexivity]|]. exists d, d', now, w, w'.
  split; apply IN; try exact Logic.I; right; apply in_or_app; right; [right; left|left]; reflexivity.
Qed.
(** The property is false: with 2147483647 (an authentic clock may say that, and
    anybody can send the report), 4 seconds later the request cannot be sent
    again, and wait() raises ValueError. *)
Theorem C80_refuted : ~ C80_statement.
Proof.
  intros H. set (sl := run3 ex_world80 (ex_evs80 2147483647)).
  assert (X : In (WOutcome 0 (VRaised ValueError)) (snd sl)) by (vm_compute; left; reflexivity).
  destruct (ex_fair80 2147483647) as [EV OF].
  destruct (H ex_world80 (ex_evs80 2147483647) (fst sl) (snd sl) 0%nat ValueError ex_world80_ok (toy_ok OpenSSL) ltac:(cbn; lia) EV OF (ex_calls _)) as [K|[[K _]|[K _]]];
    [split; [reflexivity|apply surjective_pairing]|exact X|discriminate K|discriminate K|discriminate K].
Qed.
Print Assumptions C80_refuted.

(** * Other requests *)
(** Only the call that [r] was made by. *)
Definition own_call_good (W : world) (evs : list event3) (r : nat) : Prop :=
  forall before x after, evs = before ++ x :: after -> length (calls before) = r -> call_good W before x.
(** It is not enough that the request itself can be sent. *)
Definition C80_own_statement : Prop := forall W evs s l r e,
  world_ok W -> crypto_ok (w_crypto W) -> 484 <= w_size W <= 2147483647 -> Forall event_ok evs -> others_fair W evs ->
  own_call_good W evs r -> engines_good W evs -> history W evs s l -> In (WOutcome r (VRaised e)) l ->
  e = Timeout \/ (e = OSError /\ was_refused W) \/ (e = CacheError /\ five_outstanding W evs).
(** A request of a user that was never added, then one that can be sent; both get
    the engine ID from a report.  wait() of the second sends the first again. *)
Definition ex_both : list event3 :=
  [VUsers ex_add; VCall ex_gotten [1] authPriv 100 3; VCall ex_gotten ex_user authPriv 100 3; VStep 0; VStep 0;
   VReceive (ex_timed 77); VListen; VListen; VListen; VWait 1] ++ ex_steps 4.
Theorem C80_own_refuted : ~ C80_own_statement.
Proof.
  intros H. set (sl := run3 ex_world80 ex_both).
  assert (X : exists e, In (WOutcome 1 (VRaised e)) (snd sl) /\ e <> Timeout /\ e <> OSError /\ e <> CacheError).
  { eexists. split; [vm_compute; left; reflexivity|]. split; [discriminate|]. split; discriminate. }
  destruct X as (e & X & N1 & N2 & N3).
  assert (EG : engines_good ex_world80 ex_both) by (apply engines_by; vm_compute; reflexivity).
  assert (EV : Forall event_ok ex_both) by (repeat constructor).
  assert (OF : others_fair ex_world80 ex_both).
  { apply others_keep_fair; [exact (PropertiesUse.used _ ex_world80_ok)|]. intros e' ns K. unfold ex_both, ex_steps in K. cbn [app repeat In] in K. repeat (destruct K as [K|K]; [discriminate K|]). exact K. }
  assert (OC : own_call_good ex_world80 ex_both 1).
  { intros before x after E L. unfold ex_both in E. cbn [app] in E.
    destruct before as [|b1 before]; injection E as E1 E; [discriminate L|]. subst b1.
    destruct before as [|b2 before]; injection E as E2 E; [discriminate L|]. subst b2.
    destruct before as [|b3 before]; injection E as E3 E.
    - subst x. destruct ex_call_good as (G1 & G2 & G3 & G4 & G5 & G6). cbn [call_good]. repeat (split; [assumption|]). intros A. destruct (G6 A) as (c & G & S). exists c. split; [|exact S].
      change (user_added ex_world80 ([VUsers ex_add] ++ [VCall ex_gotten [1] authPriv 100 3]) ex_user c). apply added_later. exact G.
    - subst b3. cbn [SpecMgr3.calls flat_map call_of app length] in L. discriminate L. }
  destruct (H ex_world80 ex_both (fst sl) (snd sl) 1%nat e ex_world80_ok (toy_ok OpenSSL) ltac:(cbn; lia) EV OF OC EG) as [K|[[K _]|[K _]]];
    [split; [reflexivity|apply surjective_pairing]|exact X|contradiction|contradiction|contradiction].
Qed.
Print Assumptions C80_own_refuted.
