(** PropertiesApi.v -- C62 and C63: the request methods of the SNMPv1 and SNMPv2c
    managers, from the call to the wire and from the wire to the result. *)
From Verif Require Import PrfMsgProps PropertiesMsg PropertiesProc PropertiesMgr PropertiesWire PrfWire3 PrfApi PrfMgr1f PrfAgree.

(** * C62: what a call asks for is what is sent *)
(** The arguments are taken as what they mean. *)
Theorem C62_call : forall default q p community timeout period, asks q p -> names_valid p ->
  api1 default q community timeout period =
  Ok (MCall (numbered p 0) (match community with Some c => c | None => default end) timeout period).
Proof. intros default q p community timeout period A N. unfold api1. now rewrite (asks_pdu q p A N). Qed.
Print Assumptions C62_call.
(** In every history, every datagram sent for the request (again or not) is the
    message with the PDU asked for, the community asked for, and a request ID
    that is not zero. *)
Theorem C62_sent : forall V rnd clk default q p community timeout period x before after s l t again w,
  draws_ok gen_v1 rnd -> asks q p -> names_valid p -> api1 default q community timeout period = Ok x ->
  m1_run V rnd clk (before ++ x :: after) = (s, l) -> In (LSent (length (calls before)) t again w) l ->
  exists id, id <> 0 /\ int32 id /\
    message_encode (mkMessage (vp_version V) (match community with Some c => c | None => default end) (numbered p id)) = Ok w.
Proof.
  intros V rnd clk default q p community timeout period x before after s l t again w HR A N C E S.
  rewrite (C62_call _ _ _ _ _ _ A N) in C. injection C as <-.
  pose proof (inv1_run _ _ _ _ _ _ E) as I. pose proof (keep1_run _ _ _ HR _ _ _ E) as K.
  destruct (i_sent _ _ _ _ _ I _ _ _ _ S) as (_ & ID & W).
  assert (NE : nth_error (calls (before ++ MCall (numbered p 0) match community with Some c => c | None => default end timeout period :: after)) (length (calls before)) =
    Some (numbered p 0, match community with Some c => c | None => default end)).
  { rewrite calls_app, nth_error_app2, Nat.sub_diag by lia. reflexivity. }
  destruct (k_asked _ _ K _ _ _ NE) as (CC & WI). unfold wire1 in W. rewrite CC in W.
  destruct WI as [WI|(_ & id & I0 & IR & WI)].
  - rewrite WI in ID. cbn in ID. easy.
  - exists id. split; [auto|]. split.
    + unfold id_in_range, gen_v1 in IR. unfold int32. cbn in IR. lia.
    + rewrite WI in W. exact W.
Qed.
Print Assumptions C62_sent.
(** On the wire, if the OIDs are those that the code encodes faithfully (C07). *)
Theorem C62_wire_partial : forall V rnd clk default q p community timeout period x before after s l t again w,
  draws_ok gen_v1 rnd -> asks q p -> api1 default q community timeout period = Ok x ->
  let c := match community with Some c => c | None => default end in
  message_ok v2_pdus (mkMessage (vp_version V) c (numbered p 0)) ->
  m1_run V rnd clk (before ++ x :: after) = (s, l) -> In (LSent (length (calls before)) t again w) l ->
  exists id, id <> 0 /\ int32 id /\ message_wire true w (mkMessage (vp_version V) c (numbered p id)).
Proof.
  intros V rnd clk default q p community timeout period x before after s l t again w HR A C c M E S.
  assert (N : names_valid p).
  { destruct M as (_ & _ & (_ & F) & _). unfold names_valid. cbn in F. eapply Forall_impl; [|exact F]. intros v (B & _). exact B. }
  destruct (C62_sent _ _ _ _ _ _ _ _ _ _ _ _ _ _ _ _ _ HR A N C E S) as (id & I0 & IR & W).
  exists id. split; [auto|]. split; [auto|]. apply (C60_message_partial v2_pdus); [|exact W].
  destruct M as (M1 & M2 & (M3 & M4) & M5). split; [auto|]. split; [auto|]. split; [|exact M5]. split; [|exact M4].
  destruct M3 as (F1 & F2 & F3 & F4). split; [exact IR|]. cbn in *. auto.
Qed.
Print Assumptions C62_wire_partial.
(** A name that is no object identifier: ValueError, and sendRequest() is not
    called. *)
Theorem C62_error : forall default q community timeout period e,
  api1 default q community timeout period = Raise e -> e = ValueError.
Proof.
  intros default q community timeout period e. unfold api1. destruct (request_pdu q) eqn:E; cbn [bind]; [discriminate|].
  intros X; injection X as <-. now apply request_raises in E.
Qed.
Print Assumptions C62_error.
Definition mentions (s : pystr) (q : request) : Prop :=
  match q with
  | Get oids | GetNext oids | GetBulk oids _ _ => In (VName (NText s)) oids
  | Set_ varbinds => exists v, In (NText s, v) varbinds
  end.
(** Not a digit, a dot, white space, a sign or an underscore. *)
Definition no_oid_character (c : Z) : Prop :=
  ~ (48 <= c <= 57) /\ ~ (9 <= c <= 13) /\ ~ (28 <= c <= 32) /\ c <> 43 /\ c <> 45 /\ c <> 46 /\ c <> 95.
Theorem C62_rejected : forall default q community timeout period s c,
  mentions s q -> In c s -> no_oid_character c -> api1 default q community timeout period = Raise ValueError.
Proof.
  intros default q community timeout period s c M IN O. unfold api1.
  assert (P : oid_parse OID s = Raise ValueError) by (now apply (parse_odd OID s c)).
  assert (R : exists e, request_pdu q = Raise e).
  { destruct q as [o|o|o n m|v]; cbn [mentions request_pdu] in *; unfold new_PDU, new_BulkPDU, VarBindList.
    1-3: destruct (map_res_raise (fun a => match a with VName n => VarBind n None | VVarBind v => Ok v end) o (VName (NText s)) M) as (e & ->);
      [unfold VarBind; rewrite P; cbn; eauto|cbn; eauto].
    destruct M as (x & M). destruct (map_res_raise (fun nv => VarBind (fst nv) (snd nv)) v (NText s, x) M) as (e & ->); [|cbn; eauto].
    cbn [fst snd]. unfold VarBind. rewrite P. cbn. eauto. }
  destruct R as (e & R). rewrite R. cbn [bind]. f_equal. now apply request_raises in R.
Qed.
Print Assumptions C62_rejected.

(** Non-trivial instance: getBulk("1.3.6", OID(1, 3, 2), nonRepeaters=1,
    maxRepetitions=5) without a community, between other events. *)
Definition ex_query : request := GetBulk [VName (NText [49;46;51;46;54]); VName (NOid [1;3;2])] 1 5.
Definition ex_asked : pdu := mkPDU GetBulkRequestPDU 0 1 5 [mkVarBind [1;3;6] (PNull NULL); mkVarBind [1;3;2] (PNull NULL)].
Definition ex_event : event1 := MCall ex_asked [112] 10 20.
Definition ex_query_sent : bytes :=
  match message_encode (mkMessage SNMPv2c [112] (numbered ex_asked 13)) with Ok b => b | Raise _ => [] end.
Lemma ex_numeral c : 48 <= c <= 57 -> numeral [c] (c - 48).
Proof. intros H. split; [discriminate|]. split; [auto|]. cbn. lia. Qed.
Example C62_example : asks ex_query ex_asked /\ names_valid ex_asked /\ api1 [112] ex_query None 10 20 = Ok ex_event /\
  message_ok v2_pdus (mkMessage SNMPv2c [112] (numbered ex_asked 0)) /\ draws_ok gen_v1 ex_rnd /\
  exists s, m1_run proc_v2c ex_rnd (ex_clk [0]) ([MReceive []; ex_event] ++ [MStep 0]) = (s, [LSent 0 0 false ex_query_sent]) /\ ex_query_sent <> [].
Proof.
  split; [|split; [|split; [|split; [|split]]]].
  - split; [reflexivity|]. split; [reflexivity|]. split; [reflexivity|]. constructor; [|constructor; [|constructor]].
    + split; [|reflexivity]. left. apply (dotted_dot [49] 1 [51;46;54] [3;6]); [apply (ex_numeral 49); lia|].
      apply (dotted_dot [51] 3 [54] [6]); [apply (ex_numeral 51); lia|]. apply dotted_last, (ex_numeral 54); lia.
    + split; reflexivity.
  - repeat constructor.
  - reflexivity.
  - split; [now right|]. split; [split; [cbn [m_community]; constructor; [lia|constructor]|vm_compute; discriminate]|]. split.
    + split; [unfold pdu_fields_ok, int32; cbn; lia|]. constructor; [|constructor; [|constructor]].
      all: split; [reflexivity|]; split; [split; [cbn; lia|reflexivity]|]; split; [exact Logic.I|exact Logic.I].
    + cbn. tauto.
  - intros k. unfold ex_rnd, gen_v1. cbn. lia.
  - eexists. split; [vm_compute; reflexivity|vm_compute; discriminate].
Qed.

(** * C63: what the agent answers is what wait() returns *)
(** The agent has read the request in [w] and answers with the message [reply],
    the datagram [d] (in any form that the standards allow). *)
Definition answers (types : list pducls) (w d : bytes) (reply : message) : Prop :=
  exists strict0 strict request, bytes_ok w /\ message_wire strict0 w request /\ message_wf v2_pdus request /\
    bytes_ok d /\ message_wire strict d reply /\ message_wf types reply /\ pdu_cls (m_pdu reply) = ResponsePDU /\
    pdu_requestID (m_pdu reply) = pdu_requestID (m_pdu request) /\ m_community reply = m_community request.
(** What wait() makes of it. *)
Definition result (sent : pdu) (reply : pdu) : outcome1 :=
  if pdu_a reply =? 0 then OReturned (pdu_vbs reply)
  else OErrorResponse (pdu_a reply) (pdu_b reply) (error_cause (pdu_b reply) sent).
(** In every history: a request was made by one of the methods and sent, no wait()
    for it is over, and a thread is blocked in wait().  The answer arrives; the
    listener hands it over; that thread continues. *)
Theorem C63_answered : forall V types rnd clk default q p community timeout period x before after s l t again w n lim d reply,
  vp_types V = pdu_types types -> draws_ok gen_v1 rnd -> asks q p -> names_valid p -> api1 default q community timeout period = Ok x ->
  let r := length (calls before) in
  let c := match community with Some c => c | None => default end in
  let evs := before ++ x :: after in
  m1_run V rnd clk evs = (s, l) -> In (LSent r t again w) l -> (forall o, ~ In (LOutcome r o) l) ->
  nth_error (m1_tasks s) n = Some (TBlock r lim) -> answers types w d reply ->
  exists id, id <> 0 /\
    snd (m1_run V rnd clk (evs ++ [MReceive d; MStep (length (m1_tasks s)); MStep n; MStep n; MStep n])) =
    LOutcome r (result (numbered p id) (m_pdu reply)) :: LPushed r reply :: l.
Proof.
  intros V types rnd clk default q p community timeout period x before after s l t again w n lim d reply HT HR A N C r c evs E S NO T ANS.
  destruct ANS as (strict0 & strict & req & WB & RW & RF & DB & DW & DF & DR & DI & DC).
  pose proof (inv1_run _ _ _ _ _ _ E) as I. pose proof (keep1_run _ _ _ HR _ _ _ E) as K. pose proof (open1_run _ _ _ HR _ _ _ E) as O.
  destruct (i_sent _ _ _ _ _ I _ _ _ _ S) as (LR & ID & W).
  rewrite (C62_call _ _ _ _ _ _ A N) in C. injection C as <-.
  assert (NE : nth_error (calls evs) r = Some (numbered p 0, c)).
  { unfold evs, r. rewrite calls_app, nth_error_app2, Nat.sub_diag by lia. reflexivity. }
  destruct (k_asked _ _ K _ _ _ NE) as (CC & WI). unfold wire1 in W. rewrite CC in W.
  assert (exists id, id <> 0 /\ int32 id /\ rq_pdu (get1 (m1_reqs s) r) = numbered p id) as (id & I0 & IR & RP).
  { destruct WI as [WI|(_ & id & I0 & IR & WI)]; [rewrite WI in ID; cbn in ID; easy|]. exists id. split; [auto|]. split; [|exact WI].
    unfold id_in_range, gen_v1 in IR. unfold int32. cbn in IR. lia. }
  exists id. split; [auto|]. rewrite RP in W.
  (* the agent has read our ID and our community *)
  assert (RD : pdu_requestID (m_pdu req) = id /\ m_community req = c).
  { destruct (C61_message strict0 v2_pdus req w WB RW RF) as (D3 & _).
    destruct (message_agrees _ _ _ _ W WB D3) as (_ & D4 & D5). auto. }
  destruct RD as (RD1 & RD2).
  destruct (C61_message strict types reply d DB DW DF) as (DD & _).
  (* the request is open *)
  assert (AL : rq_alive (get1 (m1_reqs s) r) = true) by (apply (i_tasks _ _ _ _ _ I _ (nth_error_In _ _ T))).
  assert (CB : rq_cb (get1 (m1_reqs s) r) = true) by (eapply O; eauto).
  pose proof (k_held _ _ K r CB) as H. rewrite RP, CC in H. cbn [numbered pdu_requestID] in H.
  assert (PD : v12_prepareDataElements V (alive1 s) (m1_cache s) d = (m1_cache s, Ok (reply, r))).
  { apply C25_exact. split; [auto|]. rewrite HT. split; [exact DD|]. split; [exact DR|]. exists (mkE1 r c).
    split; [unfold retrieve; rewrite DI, RD1, H; reflexivity|]. split; [reflexivity|]. split; [exact AL|]. cbn. now rewrite DC, RD2. }
  unfold ManagerV1.m1_run in E |- *. rewrite fold_left_app, E. cbn [fold_left]. unfold m1_next at 5. cbn [m1_step]. rewrite PD. cbn [rev app].
  set (s1 := add_task (with_cache1 s (m1_cache s)) (TPush r reply)).
  assert (T1 : nth_error (m1_tasks s1) (length (m1_tasks s)) = Some (TPush r reply)).
  { cbn [s1 add_task with_cache1 m1_tasks]. rewrite nth_error_app2, Nat.sub_diag by lia. reflexivity. }
  unfold m1_next at 4. cbn [m1_step]. unfold run_task at 1. rewrite T1. cbn [task1_step task_req rev app].
  set (s2 := mkMgr1 _ _ _ _ _). 
  assert (TS2 : m1_tasks s2 = m1_tasks s).
  { cbn [s2 m1_tasks s1 add_task with_cache1]. rewrite firstn_app, Nat.sub_diag, firstn_all. cbn [firstn]. rewrite skipn_all2 by (rewrite app_length; cbn; lia).
    rewrite !app_nil_r. reflexivity. }
  assert (R2 : get1 (m1_reqs s2) r = mkReq1 (rq_community (get1 (m1_reqs s) r)) (rq_pdu (get1 (m1_reqs s) r)) true (Some reply) (rq_sched (get1 (m1_reqs s) r)) (rq_ref (get1 (m1_reqs s) r)) (rq_alive (get1 (m1_reqs s) r))).
  { cbn [s2 m1_reqs set_req s1 add_task with_cache1]. rewrite get1_put_same by auto. now rewrite CB. }
  rewrite <- TS2 in T.
  unfold m1_next. destruct (m1_step V rnd clk s2 (MStep n)) as [s3 l3] eqn:S3. destruct (m1_step V rnd clk s3 (MStep n)) as [s4 l4] eqn:S4.
  destruct (m1_step V rnd clk s4 (MStep n)) as [s5 l5] eqn:S5.
  assert (LL : l3 ++ l4 ++ l5 = [LOutcome r (result (numbered p id) (m_pdu reply))]).
  { assert (RS : rq_response (the_request s2 r) = Some reply) by (unfold the_request; now rewrite R2).
    assert (RC : rq_cb (the_request s2 r) = true) by (unfold the_request; now rewrite R2).
    assert (MD : made s2 r) by (unfold made; cbn [s2 m1_reqs set_req s1 add_task with_cache1]; rewrite put_length; auto).
    rewrite (C44_delivered_partial V rnd clk s2 n r lim reply s3 l3 s4 l4 s5 l5 T MD RS RC S3 S4 S5).
    unfold the_request. rewrite R2. cbn [rq_pdu]. rewrite RP. reflexivity. }
  cbn [snd]. rewrite (app_assoc (rev l4)), <- rev_app_distr, (app_assoc (rev l5)), <- rev_app_distr, <- app_assoc, LL. reflexivity.
Qed.
Print Assumptions C63_answered.
(** The hypotheses are met: the request of C62_example (with ID 7), waited for;
    the agent's answer has the unusual form of C61_example. *)
Definition ex_rnd7 (i : nat) : Z := 4.
Definition ex_event7 : event1 := MCall ex_asked [99] 10 20.
Definition ex_waiting : list event1 := [MStep 0; MWait 0; MStep 0; MStep 0; MStep 0].
Definition ex_sent7 : bytes := match message_encode (mkMessage SNMPv2c [99] (numbered ex_asked 7)) with Ok b => b | Raise _ => [] end.
Lemma ex_asked_ok id : int32 id -> message_ok v2_pdus (mkMessage SNMPv2c [99] (numbered ex_asked id)).
Proof.
  intros IR. split; [now right|]. split; [split; [cbn [m_community]; constructor; [lia|constructor]|vm_compute; discriminate]|]. split.
  + split; [unfold pdu_fields_ok; cbn; unfold int32 in *; lia|]. constructor; [|constructor; [|constructor]].
    all: split; [reflexivity|]; split; [split; [cbn; lia|reflexivity]|]; split; [exact Logic.I|exact Logic.I].
  + cbn. tauto.
Qed.
Example C63_example : asks ex_query ex_asked /\ names_valid ex_asked /\ api1 [99] ex_query None 10 20 = Ok ex_event7 /\ draws_ok gen_v1 ex_rnd7 /\
  vp_types proc_v2c = pdu_types v2_pdus /\
  (exists s l, m1_run proc_v2c ex_rnd7 (ex_clk [0]) ([] ++ ex_event7 :: ex_waiting) = (s, l) /\
    l = [LBlocked 0 (Some 10); LSent 0 0 false ex_sent7] /\ m1_tasks s = [TBlock 0 (Some 10)]) /\
  answers v2_pdus ex_sent7 ex_loose ex_loose_message.
Proof.
  split; [exact (proj1 C62_example)|]. split; [exact (proj1 (proj2 C62_example))|]. split; [reflexivity|]. split; [intros k; unfold ex_rnd7, gen_v1; cbn; lia|].
  split; [exact (proj2 C16_types)|]. split.
  - eexists. eexists. split; [vm_compute; reflexivity|]. split; vm_compute; reflexivity.
  - destruct C61_example as (B & W & F & _). exists true, false, (mkMessage SNMPv2c [99] (numbered ex_asked 7)).
    split; [unfold ex_sent7; vm_compute; repeat constructor; discriminate|].
    split; [apply (C60_message_partial v2_pdus); [apply ex_asked_ok; unfold int32; lia|vm_compute; reflexivity]|].
    split.
    + destruct (ex_asked_ok 7) as (M1 & M2 & (M3 & M4) & M5); [unfold int32; lia|]. split; [auto|]. split; [auto|]. split; [auto|]. split; [auto|].
      constructor; [|constructor; [|constructor]]. all: split; [reflexivity|]; split; [exact Logic.I|]; cbn; auto.
    + split; [exact B|]. split; [exact W|]. split; [exact F|]. repeat split.
Qed.
