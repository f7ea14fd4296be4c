(** PropertiesUse.v -- C67 and C68: the request methods of the SNMPv3 manager,
    from the call to the agent, and where the answers come from. *)
From Verif Require Import PrfMsgProps PropertiesUsm PropertiesMsg PropertiesProc PropertiesMgr PrfApi PrfMgr3i PropertiesReg SpecApi Api3 PrfUse2.
From Verif Require Import SpecUse SpecApi.
(** Calls of sendRequest() of the v3 manager. *)
Notation calls := SpecMgr3.calls.

Section Sent.
  Context (W : world).
  Lemma used : world_ok W -> used_before W.
  Proof.
    intros [(h & F & U) _ _]. destruct (usm_split (w_crypto W) (w_ticks W) (w_rnd W 2) h F) as (th & uh & _ & _ & E).
    exists (w_crypto W), (w_rnd W 2), uh. now rewrite U, E.
  Qed.
  (** The state in which the security module is asked to secure a message. *)
  Definition still (s : mgr3) (u : usm) : Prop :=
    reach (w_crypto W) (w_ticks W) (w_rnd W 2) u /\ us_time u = us_time (v_usm s) /\
    forall n cf, configured (us_users (v_usm s)) (w_namespace W) n = Some cf -> configured (us_users u) (w_namespace W) n = Some cf.
  Lemma step_sent evs s l x s' l' : world_ok W -> hash_ok (w_crypto W) -> Forall event_ok evs -> others_fair W evs -> run3 W evs = (s, l) -> step3 W s x = (s', l') ->
    Forall (wire_ok (w_crypto W) (w_ticks W) (w_clk W) (w_namespace W) (w_size W) (still s) true (S (v_clock s))) l'.
  Proof.
    intros OK HC EV OF RUN ST. destruct (run_good W OK evs EV s l RUN) as [I G].
    assert (F : fairly (w_namespace W) true s).
    { intros _. exists (others W evs). split; [intros e; apply (OF evs []); now rewrite app_nil_r|].
      apply (balance_run W evs (used OK) OF s l RUN). }
    assert (G' : good (w_size W) (still s) s) by (destruct G as [G1 G2 G3 G4 G5]; constructor; auto; split; auto).
    destruct OK as [_ D0 D1].
    unfold step3 in ST. eapply (step_good (w_crypto W) (w_ticks W) (w_rnd W) (w_clk W) (w_fmt W) (w_namespace W) (w_size W) D0 D1 (still s)) in ST as [_ ST];
      [exact ST| | |exact I|exact G'|exact F].
    - intros u m e n ts (A & B & K). split; [|split].
      + exact (reach_step _ _ _ u (USend m e n ts) A Logic.I).
      + destruct (prepare_state (w_crypto W) (w_ticks W) u m e n ts) as [X _]. now rewrite X.
      + intros n' cf E. eapply with_send; [exact HC|]. split; [exact A|now apply K].
    - intros u op O (A & B & K). apply reg_op_ok in O. split; [|split].
      + exact (reach_step _ _ _ u (UUser op) A O).
      + exact B.
      + intros n' cf E. eapply with_op; [exact HC|exact O|]. split; [exact A|now apply K].
  Qed.
End Sent.

(** * C67: what a call asks for is what the agent gets *)
(** The arguments are taken as what they mean. *)
Theorem C67_call : forall default_user default_level q p level user timeout period, asks q p -> names_valid p ->
  api3 default_user default_level q level user timeout period =
  Ok (VCall (numbered p 0) (match user with Some u => u | None => default_user end)
        (match level with Some l => l | None => default_level end) timeout period).
Proof. intros du dl q p level user timeout period A N. unfold api3. now rewrite (asks_pdu q p A N). Qed.
Print Assumptions C67_call.

(** In every history, every message sent for the request (again or not) is the
    discovery message, or has the PDU asked for with a request ID that is not
    zero, the user and the security level asked for. *)
Theorem C67_sent : forall W default_user default_level q p level user timeout period x before after s l h w now d e u lv wire,
  world_ok W -> Forall event_ok (before ++ x :: after) -> SpecApi.asks q p -> names_valid p ->
  api3 default_user default_level q level user timeout period = Ok x ->
  history W (before ++ x :: after) s l -> In (WSent (length (calls before)) h w now d e u lv wire) l ->
  is_discovery d e u lv \/
  exists id, id <> 0 /\ int32 id /\ d = numbered p id /\
    u = (match user with Some u => u | None => default_user end) /\ lv = (match level with Some l => l | None => default_level end).
Proof.
  intros W du dl q p level user timeout period x before after s l h w now d e u lv wire OK EV A N X [H0 H] S.
  rewrite (C67_call _ _ _ _ _ _ _ _ A N) in X. injection X as <-.
  destruct (run_good W OK _ EV s l H) as [I G].
  destruct (history_new W _ s l (conj H0 H)) as (s0 & NEW & RUN).
  pose proof (known_run _ _ _ _ _ _ _ _ _ _ _ _ _ NEW RUN) as K. destruct (k_sent _ _ _ K _ _ _ _ _ _ _ _ _ S) as [L SA].
  pose proof (calls_run _ _ _ _ _ _ _ _ _ _ _ _ _ _ NEW RUN) as [CL CC].
  destruct SA as [SA|(-> & -> & -> & _)]; [left; exact SA|right].
  set (u := match user with Some u => u | None => du end) in *. set (lv := match level with Some l => l | None => dl end) in *.
  assert (NE : nth_error (calls (before ++ VCall (numbered p 0) u lv timeout period :: after)) (length (calls before)) = Some (mkCall3 (numbered p 0) u lv timeout period)).
  { unfold SpecMgr3.calls. rewrite flat_map_app, nth_error_app2, Nat.sub_diag by lia. reflexivity. }
  destruct (CC _ _ NE) as (B1 & B2 & B3 & _). cbn in B1, B2, B3.
  destruct (g_reqs _ _ _ G _ L) as [ID IR]. set (id := pdu_requestID (q_pdu (get3 (v_reqs s) (length (calls before))))) in *.
  exists id. split; [exact ID|]. split; [unfold id_in_range, gen_v1 in IR; unfold int32; cbn in IR; lia|]. split; [exact B1|]. auto.
Qed.
Print Assumptions C67_sent.

Lemma numbered_ok p id : int32 id -> pdu_ok (numbered p 0) -> pdu_ok (numbered p id).
Proof. intros I [A B]. split; [|exact B]. unfold pdu_fields_ok in *. cbn in *. tauto. Qed.
(** And the agent gets it: one that has the same credentials for the user as were
    given to addUser(), and accepts the time in the message (both are only needed
    for authentication). *)
Theorem C67_delivered : forall W default_user default_level q p level user timeout period x before after s l y s' l' h w now d e u lv wire A c,
  world_ok W -> crypto_ok (w_crypto W) -> 484 <= w_size W <= 2147483647 ->
  let evs := before ++ x :: after in
  Forall event_ok evs -> others_fair W evs -> SpecApi.asks q p -> pdu_ok (numbered p 0) -> names_valid p ->
  api3 default_user default_level q level user timeout period = Ok x ->
  history W evs s l -> step3 W s y = (s', l') -> In (WSent (length (calls before)) h w now d e u lv wire) l' ->
  ~ is_discovery d e u lv -> octets_ok e -> octets_ok u -> SpecMsg.level_ok lv -> agent_ok A ->
  (sl_auth lv = true -> user_added W evs u c /\ knows (w_crypto W) A e u c /\ in_time (w_crypto W) A e (sending_time W s e)) ->
  exists id m sc, id <> 0 /\ int32 id /\ accepts (w_crypto W) A wire m /\
    u = (match user with Some u => u | None => default_user end) /\ lv = (match level with Some l => l | None => default_level end) /\
    level_of m = lv /\ v3_engineID m = Some e /\ v3_name m = Some u /\
    v3_scoped m = Some sc /\ same_scoped (mkScoped e [] (numbered p id)) sc.
Proof.
  intros W du dl q p level user timeout period x before after s l y s' l' h w now d e u lv wire A c OK CO SZ evs EV OF AS PO N X [H0 H] ST S ND EO UO LO [TK AF] AG.
  pose proof (ok_hash _ CO) as HC.
  assert (S2 : exists l2, history W (evs ++ [y]) s' l2 /\ In (WSent (length (calls before)) h w now d e u lv wire) l2).
  { exists (rev l' ++ l). split; [|apply in_or_app; left; now apply -> in_rev]. split; [exact H0|]. unfold run3. rewrite m3_run_snoc. fold (run3 W evs). rewrite H.
    unfold step3 in ST. rewrite ST. reflexivity. }
  destruct S2 as (l2 & H2 & IN2).
  pose proof (step_sent W evs s l y s' l' OK HC EV OF H ST) as WF. rewrite Forall_forall in WF. specialize (WF _ S). cbn in WF.
  destruct WF as (us & mid & (RU & UT & UC) & MID & PO2 & [DI|[ID RG]]); [contradiction|].
  assert (EY : event_ok y).
  { destruct y; try exact Logic.I. exfalso. unfold step3 in ST. cbn [ManagerV3.m3_step] in ST. apply (f_equal snd) in ST. cbn [snd] in ST. rewrite <- ST in S. destruct S. }
  assert (EV2 : Forall event_ok (before ++ x :: (after ++ [y]))).
  { change (x :: after ++ [y]) with ((x :: after) ++ [y]). rewrite app_assoc. apply Forall_app. auto. }
  assert (H2' : history W (before ++ x :: (after ++ [y])) s' l2).
  { change (x :: after ++ [y]) with ((x :: after) ++ [y]). rewrite app_assoc. exact H2. }
  destruct (C67_sent W du dl q p level user timeout period x before (after ++ [y]) s' l2 h w now d e u lv wire OK EV2 AS N X H2' IN2) as [DI|(id & I0 & I32 & ED & EU & EL)]; [contradiction|].
  destruct RU as (uh & UF & UE). subst us.
  assert (SO : scoped_ok (mkScoped e [] d)).
  { split; [exact EO|]. split; [split; [apply Forall_nil|vm_compute; discriminate]|]. cbn [sp_pdu]. rewrite ED. now apply numbered_ok. }
  set (su := usm_after (w_crypto W) (w_ticks W) (w_rnd W 2) uh) in *.
  assert (CR : exists l1 l2' th2, us_time (agent_usm (w_crypto W) A) = time_after (a_ticks A) th2 /\
      (sl_auth lv = true -> getCredentials (us_users su) e u = Ok l1 /\ localised_to (w_crypto W) c e l1 /\
        getCredentials (us_users (agent_usm (w_crypto W) A)) e u = Ok l2' /\ localised_to (w_crypto W) c e l2') /\
      (sl_auth lv = true -> let '(boots, time) := getEngineTime (w_ticks W) (us_time su) e (w_clk W (Datatypes.S (v_clock s))) in
        in_window (a_ticks A) th2 e boots time (a_now A))).
  { destruct (sl_auth lv) eqn:AU.
    - destruct (AG eq_refl) as (AD & (l2' & K1 & K2) & (th2 & T1 & T2)).
      destruct (added_run W OK HC evs u c s l EV AD H) as (cf & EC & [_ CF]). apply UC in CF.
      destruct (cfg_credentials (w_crypto W) (w_ticks W) (w_rnd W 2) HC su (w_namespace W) e u cf) as (l1 & K3 & K4).
      { exists uh. split; [exact UF|reflexivity]. } { now apply RG. } { exact CF. }
      exists l1, l2', th2. split; [exact T1|]. rewrite EC in K4. split; [intros _; auto|]. intros _.
      unfold sending_time in T2. rewrite <- UT in T2. destruct (getEngineTime _ _ _ _) as [bo ti]. exact T2.
    - destruct (usm_split (w_crypto W) (a_ticks A) (a_rnd A) (a_ops A) AF) as (th & _ & _ & T & _).
      exists (mkLocalized None None), (mkLocalized None None), th. split; [exact T|]. split; intros Z; discriminate Z. }
  destruct CR as (l1 & l3 & th2 & T & CR & TI).
  destruct (C53_end_to_end (w_crypto W) (w_ticks W) (w_rnd W 2) uh (a_ticks A) (a_rnd A) (a_ops A) th2
    (outgoing (w_size W) mid lv d e) (mkScoped e [] d) e u (w_clk W (Datatypes.S (v_clock s))) (a_now A) wire c l1 l3) as (m2 & m3 & sc & D1 & D2 & D3 & D4 & D5 & D6 & D7); auto.
  { split; [exact MID|]. split; [exact SZ|]. split; [exact LO|reflexivity]. }
  exists id, m3, sc. split; [exact I0|]. split; [exact I32|]. split; [exists m2; auto|]. split; [exact EU|]. split; [exact EL|].
  split; [unfold level_of; rewrite D3; reflexivity|]. split; [exact D4|]. split; [exact D5|]. split; [exact D6|]. rewrite ED in D7. exact D7.
Qed.
Print Assumptions C67_delivered.

(** The hypotheses are met: get("1.3.6", OID(1, 3, 2)) by a user with
    authentication and privacy; discovery, then the request. *)
Definition ex_add : user_op := OpAddUser ex_user (Some HmacSha) None (Some AesCfb128) None ex_secret false None [].
Definition ex_user_world : world := mkWorld (toy OpenSSL) 1 ex_draws (ex_clk [0]) (fun _ => true) [] (mkUsm [] registry0) 65507 None.
Definition ex_get : request := Get [VName (NText [49;46;51;46;54]); VName (NOid [1;3;2])].
Definition ex_gotten : pdu := mkPDU GetRequestPDU 0 0 0 [mkVarBind [1;3;6] (PNull NULL); mkVarBind [1;3;2] (PNull NULL)].
Definition ex_get_call : event3 := VCall ex_gotten ex_user authPriv 10 3.
Definition ex_before : list event3 := [VUsers ex_add].
Definition ex_after : list event3 := [VStep 0; VReceive (ex_note 13 ex_engine [] (ex_report 4)); VListen].
Definition ex_agent : agent := mkAgent 1 (fun n => Z.of_nat n) (map UUser [ex_add; OpRegister ex_engine []]) 1000.
Lemma ex_cred : exists c, spec_credentials (toy OpenSSL) (Some HmacSha) None (Some AesCfb128) None ex_secret c.
Proof. destruct (PrfUsers.Credentials_good (toy OpenSSL) (Some HmacSha) None (Some AesCfb128) None ex_secret) as (c & _ & S); [vm_compute; reflexivity|]. eauto. Qed.
Lemma ex_agent_knows c : spec_credentials (toy OpenSSL) (Some HmacSha) None (Some AesCfb128) None ex_secret c -> knows (toy OpenSSL) ex_agent ex_engine ex_user c.
Proof.
  intros SC. set (C := toy OpenSSL) in *. set (rnd := fun n => Z.of_nat n). assert (HC : hash_ok C) by apply toy_ok.
  assert (R0 : reach C 1 rnd (mkUsm [] registry0)) by (exists []; split; [constructor|reflexivity]).
  destruct (added_cfg C 1 rnd HC (mkUsm [] registry0) ex_user (Some HmacSha) None (Some AesCfb128) None ex_secret false None [] c R0 Logic.I) as (cf & K & EC); [vm_compute; reflexivity|exact SC|].
  set (u1 := mkUsm [] (fst (user_step C rnd registry0 ex_add))).
  assert (R1 : reach C 1 rnd u1) by exact (reach_step C 1 rnd _ (UUser ex_add) R0 Logic.I).
  pose proof (reach_step C 1 rnd _ (UUser (OpRegister ex_engine [])) R1 Logic.I) as R2.
  destruct (cfg_credentials C 1 rnd HC _ [] ex_engine ex_user cf R2) as (l & G & L).
  - vm_compute. reflexivity.
  - apply (step_cfg C 1 rnd HC u1 (OpRegister ex_engine []) [] ex_user cf R1 Logic.I K).
  - exists l. rewrite <- EC. split; [exact G|exact L].
Qed.
Lemma ex_sends : exists d wire, snd (step3 ex_user_world (fst (run3 ex_user_world (ex_before ++ ex_get_call :: ex_after))) VListen) =
    [WSent 0 1 ByUnknownEngine 0 d ex_engine ex_user authPriv wire].
Proof. eexists. eexists. vm_compute. reflexivity. Qed.
Lemma ex_sending : sending_time ex_user_world (fst (run3 ex_user_world (ex_before ++ ex_get_call :: ex_after))) ex_engine = (5, 77).
Proof. vm_compute. reflexivity. Qed.
Lemma ex_digit c : 48 <= c <= 57 -> numeral [c] (c - 48).
Proof. intros H. split; [discriminate|]. split; [auto|]. cbn. lia. Qed.
Example C67_example : let W := ex_user_world in let evs := ex_before ++ ex_get_call :: ex_after in
  exists s l s' l' d wire c,
  world_ok W /\ crypto_ok (w_crypto W) /\ 484 <= w_size W <= 2147483647 /\ Forall event_ok evs /\ others_fair W evs /\
  SpecApi.asks ex_get ex_gotten /\ pdu_ok (numbered ex_gotten 0) /\ names_valid ex_gotten /\
  api3 [] noAuthNoPriv ex_get (Some authPriv) (Some ex_user) 10 3 = Ok ex_get_call /\
  history W evs s l /\ step3 W s VListen = (s', l') /\ In (WSent (length (calls ex_before)) 1 ByUnknownEngine 0 d ex_engine ex_user authPriv wire) l' /\
  octets_ok ex_engine /\ octets_ok ex_user /\ agent_ok ex_agent /\ user_added W evs ex_user c /\ knows (w_crypto W) ex_agent ex_engine ex_user c /\
  in_time (w_crypto W) ex_agent ex_engine (sending_time W s ex_engine).
Proof.
  cbv zeta. destruct ex_cred as [c SC]. destruct ex_sends as (d & wire & SE).
  pose proof ex_sending as TI. set (evs := ex_before ++ ex_get_call :: ex_after) in *.
  assert (WO : world_ok ex_user_world).
  { constructor; [exists []; split; [constructor|reflexivity]| |]; intros k; cbn; lia. }
  destruct (run3 ex_user_world evs) as [s l] eqn:RUN. cbn [fst] in SE, TI.
  destruct (step3 ex_user_world s VListen) as [s' l'] eqn:ST. cbn [snd] in SE.
  exists s, l, s', l', d, wire, c. split; [exact WO|]. split; [apply toy_ok|]. split; [cbn; lia|].
  split; [repeat constructor|]. split.
  { apply others_keep_fair; [now apply used|]. intros e ns H. unfold evs in H. cbn in H. repeat (destruct H as [H|H]; [discriminate H|]). exact H. }
  split.
  { split; [reflexivity|]. split; [reflexivity|]. split; [reflexivity|]. constructor; [|constructor; [|constructor]].
    - split; [|reflexivity]. left. apply (dotted_dot [49] 1 [51;46;54] [3;6]); [apply (ex_digit 49); lia|]. apply (dotted_dot [51] 3 [54] [6]); [apply (ex_digit 51); lia|]. apply dotted_last, (ex_digit 54); lia.
    - split; reflexivity. }
  split.
  { split; [unfold pdu_fields_ok, int32; vm_compute; intuition discriminate|]. constructor; [|constructor; [|constructor]].
    all: split; [reflexivity|]; split; [split; [cbn; lia|reflexivity]|]; split; [exact Logic.I|exact Logic.I]. }
  split; [repeat constructor|]. split; [reflexivity|].
  split; [split; [reflexivity|exact RUN]|]. split; [exact ST|]. split; [rewrite SE; left; reflexivity|].
  split; [split; [repeat constructor; vm_compute; discriminate|vm_compute; discriminate]|].
  split; [split; [repeat constructor; vm_compute; discriminate|vm_compute; discriminate]|].
  split; [split; [cbn; lia|repeat constructor]|].
  split.
  { exists [], (ex_get_call :: ex_after), (Some HmacSha), None, (Some AesCfb128), None, ex_secret, false, None. split; [reflexivity|]. split; [vm_compute; reflexivity|exact SC]. }
  split; [now apply ex_agent_knows|]. rewrite TI. exists []. split; [vm_compute; reflexivity|]. split; [cbn; lia|]. intros (b & m & ts & []).
Qed.
