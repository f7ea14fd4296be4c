(** PropertiesProc.v -- C23-C27, C39: allocation of IDs, matching of
    responses, dispatching.  Vocabulary: SpecProc.v, ProcConc.v. *)
From Verif Require Import PrfProc PrfProcRace PropertiesMsg PropertiesUsm.

(** * C23 *)
Theorem C23_v3 : forall rnd evs, draws_ok gen_v3 rnd ->
  let cache := cs_cache (fst (conc_run K3 rnd evs)) in let l := snd (conc_run K3 rnd evs) in
  (forall e id, outstanding K3 l e id -> 0 < id < 2 ^ 31 /\ retrieve cache id = Ok e) /\
  (forall e1 e2 id, outstanding K3 l e1 id -> outstanding K3 l e2 id -> e1 = e2).
Proof.
  intros rnd evs HR cache l.
  assert (HG : 4 <= gs_bits (k_gen K3)) by (cbn; lia).
  pose proof (base_run K3 rnd HG HR evs) as B.
  pose proof (rf_run K3 rnd HG HR evs (v3_race_free K3 rnd HG HR evs eq_refl)) as F. fold cache l in B, F.
  split.
  - intros e id O. pose proof (rf_out _ _ _ F e id O) as G. fold cache in G.
    destruct (b_out _ _ _ B id e G) as (N & Rg & _). cbn in Rg. unfold id_in_range in Rg. cbn in Rg.
    split; [change (2 ^ 31) with 2147483648 in *; lia|]. unfold retrieve. now rewrite G.
  - intros e1 e2 id O1 O2. pose proof (rf_out _ _ _ F _ _ O1). pose proof (rf_out _ _ _ F _ _ O2). congruence.
Qed.
Print Assumptions C23_v3.
(** SNMPv1/SNMPv2c: provided no ID comes around again (after 2^32 numbers) while
    a thread that is about to remove its previous use is still at it. *)
Theorem C23_v12_partial : forall V rnd evs, draws_ok gen_v1 rnd ->
  race_free (K12 V) rnd (conc0 (K12 V) rnd, []) evs ->
  let cache := cs_cache (fst (conc_run (K12 V) rnd evs)) in let l := snd (conc_run (K12 V) rnd evs) in
  (forall e id, outstanding (K12 V) l e id -> id <> 0 /\ - 2 ^ 31 <= id < 2 ^ 31 /\ retrieve cache id = Ok e) /\
  (forall e1 e2 id, outstanding (K12 V) l e1 id -> outstanding (K12 V) l e2 id -> e1 = e2).
Proof.
  intros V rnd evs HR RF cache l.
  assert (HG : 4 <= gs_bits (k_gen (K12 V))) by (cbn; lia).
  pose proof (base_run (K12 V) rnd HG HR evs) as B.
  pose proof (rf_run (K12 V) rnd HG HR evs RF) as F. fold cache l in B, F.
  split.
  - intros e id O. pose proof (rf_out _ _ _ F e id O) as G. fold cache in G.
    destruct (b_out _ _ _ B id e G) as (N & Rg & _). unfold id_in_range in Rg. cbn in Rg.
    split; [exact N|]. split; [exact Rg|]. unfold retrieve. now rewrite G.
  - intros e1 e2 id O1 O2. pose proof (rf_out _ _ _ F _ _ O1). pose proof (rf_out _ _ _ F _ _ O2). congruence.
Qed.
Print Assumptions C23_v12_partial.
(** Without that proviso it fails: after 2^32 numbers a listener thread that found
    the previous holder of the ID dead removes the entry of its new holder. *)
Definition ex_answer (version : Z) : bytes := [48;19;2;1;version;4;1;112;162;11;2;1;1;2;1;0;2;1;0;48;0].
Theorem C23_v12_refuted : forall V, V = proc_v1 \/ V = proc_v2c ->
  exists rnd evs e id, draws_ok gen_v1 rnd /\ outstanding (K12 V) (snd (conc_run (K12 V) rnd evs)) e id /\
    retrieve (cs_cache (fst (conc_run (K12 V) rnd evs))) id = Raise KeyError.
Proof.
  intros V [-> | ->].
  - destruct (v12_parse proc_v1 (ex_answer 0)) as [m|] eqn:P; [|vm_compute in P; discriminate].
    apply (race proc_v1 m (ex_answer 0) P). vm_compute in P. injection P as <-. reflexivity.
  - destruct (v12_parse proc_v2c (ex_answer 1)) as [m|] eqn:P; [|vm_compute in P; discriminate].
    apply (race proc_v2c m (ex_answer 1) P). vm_compute in P. injection P as <-. reflexivity.
Qed.
Print Assumptions C23_v12_refuted.
(** Two requests that are outstanding at once, then one of them. *)
Example C23_example : let rnd := fun _ => 7 in
  let a := mkE1 0 [112] in let b := mkE1 1 [112] in
  let evs := [EStart a; EStart b; EStep 1; EStep 0; EStep 0; EStep 0] in
  let evs' := evs ++ [EClose 0; EStep 0] in
  let l := snd (conc_run (K12 proc_v1) rnd evs) in let l' := snd (conc_run (K12 proc_v1) rnd evs') in
  draws_ok gen_v1 rnd /\ race_free (K12 proc_v1) rnd (conc0 (K12 proc_v1) rnd, []) evs' /\
  (exists i j, outstanding (K12 proc_v1) l a i /\ outstanding (K12 proc_v1) l b j /\ i <> j) /\
  (exists j, outstanding (K12 proc_v1) l' b j) /\ ~ (exists i, outstanding (K12 proc_v1) l' a i) /\
  keys (ca_out (cs_cache (fst (conc_run (K12 proc_v1) rnd evs')))) <> [].
Proof.
  cbv zeta. split; [intros k; cbn; lia|]. split.
  - cbn [app race_free]. vm_compute.
    repeat (split; [intros e id X; repeat (destruct X as [X|X]; [first [discriminate|injection X as <- <-; reflexivity]|]); destruct X|]).
    exact I.
  - split; [|split; [|split]].
    + do 2 eexists. vm_compute. split; [left; reflexivity|].
      split; [right; split; [discriminate|]; split; [discriminate|]; left; reflexivity|discriminate].
    + eexists. vm_compute. do 3 (right; split; [discriminate|]; split; [discriminate|]). left. reflexivity.
    + intros [i X]. vm_compute in X. intuition discriminate.
    + vm_compute. discriminate.
Qed.

(** * C24 *)
(** [gen_at]: any position of the generator. *)
Theorem C24_succeeds : forall (E : Type) G rnd (c : cache_st E) e, G = gen_v1 \/ G = gen_v3 -> draws_ok G rnd ->
  gen_at G (ca_gen c) -> (length (ca_out c) <= 4)%nat ->
  exists id c', cache G rnd c e = (c', Ok id) /\ id <> 0 /\ id_in_range G id /\
    retrieve c id = Raise KeyError /\ retrieve c' id = Ok e /\
    (forall i, i <> id -> retrieve c' i = retrieve c i) /\ gen_at G (ca_gen c').
Proof.
  intros E G rnd c e HG HR GA L. assert (B : 4 <= gs_bits G) by (destruct HG as [-> | ->]; cbn; lia).
  destruct (cache_succeeds G rnd B HR c e GA L) as (id & c' & H). exists id, c'. split; [exact H|].
  destruct (loop_ok G rnd B HR 10 c e c' id GA H) as (N & R & F & O & GA'). split; [exact N|]. split; [exact R|].
  unfold retrieve. rewrite F, O. split; [reflexivity|]. split; [now rewrite zget_set_same|].
  split; [|exact GA']. intros i Hi. now rewrite zget_set_other by auto.
Qed.
Print Assumptions C24_succeeds.
Theorem C24_fails : forall (E : Type) G rnd (c : cache_st E) e c' x, cache G rnd c e = (c', Raise x) <->
  x = CacheError /\ attempts_fail G rnd e 10 c c'.
Proof. intros. apply loop_fail_iff. Qed.
Print Assumptions C24_fails.
Theorem C24_failure_changes_nothing : forall (E : Type) G rnd (c : cache_st E) e c' x, cache G rnd c e = (c', Raise x) ->
  ca_out c' = ca_out c.
Proof. intros E G rnd c e c' x H. apply loop_fail_iff in H as [_ H]. exact (attempts_fail_out _ _ _ _ _ _ H). Qed.
Print Assumptions C24_failure_changes_nothing.
(** The bound is tight: with five outstanding requests it can fail. *)
Definition ex_gen : numgen := mkGen (-5) (2 ^ 32) 1 (2 ^ 31 - 1).
Lemma ex_gen_at : gen_at gen_v1 ex_gen.
Proof.
  destruct (Z_of_nat_complete (2 ^ 32 - 5)) as [k Hk]; [discriminate|]. exists 1, k. split; [cbn; lia|].
  assert (P : 1 <= 1 <= 2 ^ (32 - 1)) by (cbn; lia).
  destruct (numgen_inv 32 true 1 k ltac:(lia) P) as (A & B & D & L & q & Q). cbn [gen_v1 gs_bits gs_signed].
  unfold lo_of, hi_of in *. cbn in A, B, D, L. rewrite <- Hk in Q.
  change (2 ^ 32) with 4294967296 in *. assert (q = 1) as -> by lia.
  destruct (numgen_after (numgen_init 32 true 1) k) as [p r s w]. cbn [ng_range ng_step ng_wrap ng_previous] in *.
  subst r s w. unfold ex_gen. change (2 ^ 32) with 4294967296. f_equal; lia.
Qed.
Example C24_example : let out := map (fun i => (i, mkE1 0 [])) [-1;-2;-3;-4;-5] in
  let rnd := fun _ : nat => 2 ^ 31 in
  draws_ok gen_v1 rnd /\ gen_at gen_v1 ex_gen /\
  snd (cache gen_v1 rnd (mkCache ex_gen 1 (firstn 4 out)) (mkE1 9 [])) = Ok (-5) /\
  snd (cache gen_v1 rnd (mkCache ex_gen 1 out) (mkE1 9 [])) = Raise CacheError.
Proof.
  cbv zeta. split; [intros k; cbn; lia|]. split; [exact ex_gen_at|]. split; vm_compute; reflexivity.
Qed.

(** * C25 *)
(** [looked_up]: the message arrived, and its request ID was looked up while the
    request held it.  What is handed over is what the datagram decodes to. *)
Theorem C25_history : forall V rnd evs after e m before, draws_ok gen_v1 rnd ->
  snd (conc_run (K12 V) rnd evs) = after ++ LDeliver e m :: before ->
  exists datagram, message_decode (vp_types V) (ABytes datagram) = Ok m /\
    pdu_cls (m_pdu m) = ResponsePDU /\ m_community m = e1_community e /\
    looked_up (K12 V) before e m (pdu_requestID (m_pdu m)) datagram /\ ~ In (LDie (e1_handle e)) before.
Proof.
  intros V rnd evs after e m before HR H.
  assert (HG : 4 <= gs_bits (k_gen (K12 V))) by (cbn; lia).
  destruct (b_deliver _ _ _ (base_run (K12 V) rnd HG HR evs) _ _ _ _ H) as ((mid & pre & -> & (i & RI & PI) & AL & NU) & AC & ND).
  exists i. cbn [K12 k_parse k_accept k_id] in *. unfold v12_parse in PI.
  destruct (message_decode (vp_types V) (ABytes i)) as [m'|] eqn:D; [|discriminate].
  destruct (is_ResponsePDU (m_pdu m')) eqn:R; [|discriminate]. injection PI as ->. apply zlist_eqb_eq in AC.
  split; [auto|]. split; [now apply eqb_same_cls|]. split; [auto|]. split; [|exact ND]. exists mid, pre. auto.
Qed.
Print Assumptions C25_history.
(** Without interference from other threads: exactly which datagrams are handed
    over, to whom, and what is changed. *)
Theorem C25_exact : forall V alive c datagram c' m h,
  v12_prepareDataElements V alive c datagram = (c', Ok (m, h)) <->
  c' = c /\ message_decode (vp_types V) (ABytes datagram) = Ok m /\ pdu_cls (m_pdu m) = ResponsePDU /\
  exists e, retrieve c (pdu_requestID (m_pdu m)) = Ok e /\ h = e1_handle e /\ alive h = true /\
    e1_community e = m_community m.
Proof. exact v12_incoming. Qed.
Print Assumptions C25_exact.
Theorem C25_rejected : forall V alive c datagram c' x, bytes_ok datagram ->
  v12_prepareDataElements V alive c datagram = (c', Raise x) ->
  (is_IncomingMessageError x = true \/ x = UnsupportedFeature) /\
  (c' = c \/ exists m e, message_decode (vp_types V) (ABytes datagram) = Ok m /\
     retrieve c (pdu_requestID (m_pdu m)) = Ok e /\ alive (e1_handle e) = false /\ c' = uncache c (pdu_requestID (m_pdu m))).
Proof. exact v12_incoming_raise. Qed.
Print Assumptions C25_rejected.
(** The two descriptions agree. *)
Theorem C25_receive_alone : forall V rnd s datagram,
  let n := length (cs_tasks s) in
  let after := fold_left (conc_next (K12 V) rnd) [EReceive datagram; EStep n; EStep n; EStep n; EStep n] (s, []) in
  let seq := v12_prepareDataElements V (fun h => negb (mem h (cs_dead s))) (cs_cache s) datagram in
  cs_cache (fst after) = fst seq /\ cs_tasks (fst after) = cs_tasks s /\
  forall m h, snd seq = Ok (m, h) <-> exists e, h = e1_handle e /\ In (LDeliver e m) (snd after).
Proof. exact receive_alone. Qed.
Print Assumptions C25_receive_alone.
(** A response that is delivered, one with another community, one that is late,
    and one that is delivered although close() ran after it was looked up. *)
Definition ex_sent : list (event entry1 bytes) := [EStart (mkE1 5 [112]); EStep 0; EStep 0].
Definition ex_delivered (evs : list (event entry1 bytes)) : bool :=
  existsb (fun x => match x with LDeliver _ _ => true | _ => false end) (snd (conc_run (K12 proc_v1) (fun _ => 1) evs)).
Example C25_example : draws_ok gen_v1 (fun _ => 1) /\
  ex_delivered (ex_sent ++ [EReceive (ex_answer 0); EStep 0; EStep 0; EStep 0]) = true /\
  ex_delivered ([EStart (mkE1 5 [113]); EStep 0; EStep 0] ++ [EReceive (ex_answer 0); EStep 0; EStep 0; EStep 0]) = false /\
  ex_delivered (ex_sent ++ [EClose 5; EStep 0; EReceive (ex_answer 0); EStep 0; EStep 0; EStep 0]) = false /\
  ex_delivered (ex_sent ++ [EReceive (ex_answer 0); EStep 0; EClose 5; EStep 1; EStep 0; EStep 0]) = true.
Proof. split; [intros k; cbn; lia|]. vm_compute. auto. Qed.

(** * C26 *)
(** Whatever happened to the processor in between ([c'], [free']): the same
    bytes, no new ID, no change to the cache, no callback. *)
Theorem C26_resend : forall V rnd c p handle free community s w free' c',
  v12_prepareOutgoing V rnd c p handle free community = (s, Ok w) ->
  v12_prepareOutgoing V rnd c' (s1_pdu s) handle free' community = (mkSent1 c' (s1_pdu s) None, Ok w).
Proof. exact v12_resend. Qed.
Print Assumptions C26_resend.
Example C26_example : exists s w, v12_prepareOutgoing proc_v2c (fun _ => 9) (cache_new gen_v1 (fun _ => 9) 0)
  (mkPDU GetRequestPDU 0 0 0 ex_vbs) 3 true [112] = (s, Ok w) /\ s1_callback s = Some 17 /\ w <> [] /\
  ca_out (s1_cache s) = [(17, mkE1 3 [112])].
Proof. do 2 eexists. split; [vm_compute; reflexivity|]. vm_compute. repeat split. discriminate. Qed.

(** * C27 *)
Definition answers (e : entry3) (m : v3msg) (s : scopedpdu) : Prop :=
  v3_scoped m = Some s /\ (pdu_cls (sp_pdu s) = ResponsePDU \/ pdu_cls (sp_pdu s) = ReportPDU) /\
  v3_name m = Some (e3_name e) /\ sp_contextName s = e3_context e /\
  (pdu_cls (sp_pdu s) <> ReportPDU ->
     level_at_least (fl_level (h_flags (v3_header m))) (e3_level e) /\
     v3_engineID m = Some (e3_engineID e) /\ sp_contextEngineID s = e3_engineID e).
Theorem C27_delivered : forall C R alive u p datagram ts u' m' h,
  v3_prepareDataElements C R alive u p datagram ts = (u', Ok (m', h)) ->
  exists m s e, v3_decode (ABytes datagram) = Ok m /\ usm_processIncoming C R u m ts = (u', Ok m') /\
    retrieve (p3_cache p) (h_id (v3_header m')) = Ok e /\ h = e3_handle e /\ alive h = true /\ answers e m' s.
Proof.
  intros C R alive u p datagram ts u' m' h. unfold v3_prepareDataElements.
  destruct (v3_decode (ABytes datagram)) as [m|]; [|discriminate]. destruct (has_module p _); [|discriminate].
  destruct (usm_processIncoming C R u m ts) as [u1 [m1|]] eqn:PI; [|discriminate]. intros H. injection H as <- H.
  apply v3_match_ok in H as (-> & s & e & S & CL & G & A & AL & MM). exists m, s, e. rewrite PI.
  do 5 (split; [auto|]). split; [exact S|]. split; [exact CL|]. now apply v3_match_fields_1.
Qed.
Print Assumptions C27_delivered.
(** Conversely, whatever answers an outstanding request message is handed over. *)
Theorem C27_not_lost : forall C R alive u p datagram ts m u' m' s e,
  v3_decode (ABytes datagram) = Ok m -> In (h_securityModel (v3_header m)) (p3_modules p) ->
  usm_processIncoming C R u m ts = (u', Ok m') -> retrieve (p3_cache p) (h_id (v3_header m')) = Ok e ->
  alive (e3_handle e) = true -> (sl_priv (e3_level e) = true -> sl_auth (e3_level e) = true) -> answers e m' s ->
  v3_prepareDataElements C R alive u p datagram ts = (u', Ok (m', e3_handle e)).
Proof.
  intros C R alive u p datagram ts m u' m' s e D HM PI G A WL (S & CL & F). unfold v3_prepareDataElements. rewrite D.
  assert (HM' : has_module p (h_securityModel (v3_header m)) = true).
  { apply existsb_exists. eexists. split; [exact HM|]. apply Z.eqb_refl. }
  rewrite HM', PI. f_equal. unfold v3_match. rewrite S.
  assert (RC : is_Response (pdu_cls (sp_pdu s)) = true) by (destruct CL as [-> | ->]; reflexivity).
  apply (v3_match_fields e m' s WL) in F. now rewrite RC, G, A, F.
Qed.
Print Assumptions C27_not_lost.
(** Under every interleaving: [m] is a message as the security module left it. *)
Theorem C27_history : forall rnd evs after e m s before, draws_ok gen_v3 rnd ->
  snd (conc_run K3 rnd evs) = after ++ LDeliver e (m, s) :: before ->
  answers e m s /\ looked_up K3 before e (m, s) (h_id (v3_header m)) m /\ ~ In (LDie (e3_handle e)) before.
Proof.
  intros rnd evs after e m s before HR H.
  assert (HG : 4 <= gs_bits (k_gen K3)) by (cbn; lia).
  destruct (b_deliver _ _ _ (base_run K3 rnd HG HR evs) _ _ _ _ H) as ((mid & pre & -> & (i & RI & PI) & AL & NU) & AC & ND).
  cbn [K3 k_parse k_accept k_id fst snd] in *. unfold v3_parse in PI.
  destruct (v3_scoped i) as [s'|] eqn:S; [|discriminate].
  destruct (is_Response (pdu_cls (sp_pdu s'))) eqn:RC; [|discriminate]. injection PI as -> ->.
  apply negb_true_iff, v3_match_fields_1 in AC. split; [|split; [|exact ND]].
  - split; [exact S|]. split; [|exact AC]. destruct (pdu_cls (sp_pdu s)); try discriminate; auto.
  - exists mid, pre. auto.
Qed.
Print Assumptions C27_history.
(** An authenticated response to an authenticated request message, a Report for
    the same message, and a response of too low a level. *)
Definition ex_e3 := mkE3 [1] [] 4 [98] USM authNoPriv.
Definition ex_m3 (l : seclevel) (c : pducls) : v3msg :=
  mkV3 (mkHeader 1 65507 (mkFlags l false) USM) (Some (mkScoped [1] [] (mkPDU c 5 0 0 []))) None (ABytes []) (Some [1]) (Some [98]).
Definition ex_delivered3 (m : v3msg) : bool :=
  existsb (fun x => match x with LDeliver _ _ => true | _ => false end)
    (snd (conc_run K3 (fun _ => 1) [EStart ex_e3; EStep 0; EStep 0; EReceive m; EStep 0; EStep 0; EStep 0])).
Example C27_example : draws_ok gen_v3 (fun _ => 1) /\
  ex_delivered3 (ex_m3 authNoPriv ResponsePDU) = true /\ ex_delivered3 (ex_m3 noAuthNoPriv ReportPDU) = true /\
  ex_delivered3 (ex_m3 noAuthNoPriv ResponsePDU) = false /\ ex_delivered3 (ex_m3 authNoPriv GetRequestPDU) = false.
Proof. split; [intros k; cbn; lia|]. vm_compute. auto. Qed.
(** The same through Dispatcher-level bytes: an unauthenticated response. *)
Definition ex_p3 : proc3 := addSecurityModuleIfNeeded
  (with_cache3 (proc3_new (fun _ => 1) 65507)
     (fst (cache gen_v3 (fun _ => 1) (cache_new gen_v3 (fun _ => 1) 0) (mkE3 [1] [] 4 [98] USM noAuthNoPriv)))) USM false.
Definition ex_wire3 : bytes :=
  [48;59;2;1;3;48;14;2;1;1;2;3;0;255;227;4;1;0;2;1;3;4;18;48;16;4;1;1;2;1;0;2;1;0;4;1;98;4;0;4;0;48;18;4;1;1;4;0;162;11;2;1;5;2;1;0;2;1;0;48;0].
Example C27_wire_example : exists u' m', v3_prepareDataElements (toy OpenSSL) 1 (fun _ => true) (mkUsm [] registry0) ex_p3 ex_wire3 0
  = (u', Ok (m', 4%nat)).
Proof. do 2 eexists. vm_compute. reflexivity. Qed.

(** * C39 *)
(** [push] stands for whatever handle.push() does. *)
Theorem C39_hear : forall C R rnd h alive push d datagram ts,
  crypto_ok C -> Forall usm_op_ok h -> d_usm d = usm_after C R rnd h -> bytes_ok datagram ->
  (forall d hd m, snd (push d hd m) <> Raise Diverges) ->
  let '(d', got, r) := hear C R alive push d datagram ts in
  r = Ok tt /\
  (forall hd m, got = Some (hd, m) -> exists v p d1,
     version_decode (ABytes datagram) = Ok v /\ dict_get Z.eqb (d_procs d) v = Some p /\
     prepareDataElements C R alive d v p datagram ts = (d1, Ok (m, hd)) /\ d' = fst (push d1 hd m)) /\
  (got = None -> d' = d \/ exists v p x,
     version_decode (ABytes datagram) = Ok v /\ dict_get Z.eqb (d_procs d) v = Some p /\
     prepareDataElements C R alive d v p datagram ts = (d', Raise x)) /\
  ((forall v, version_decode (ABytes datagram) = Ok v -> dict_get Z.eqb (d_procs d) v = None) -> d' = d /\ got = None).
Proof.
  intros C R rnd h alive push d datagram ts CO F U B PU. unfold hear, hear_try.
  assert (CT : forall r, r <> Raise Diverges -> catch is_Exception (Ok tt) (catch is_AssertionError (Ok tt) r) = Ok tt).
  { intros [[]|x] N; [reflexivity|]. cbn. destruct (is_AssertionError x); [reflexivity|]. cbn. destruct x; congruence || reflexivity. }
  destruct (version_decode (ABytes datagram)) as [v|x] eqn:V.
  - destruct (dict_get Z.eqb (d_procs d) v) as [p|] eqn:G.
    + pose proof (prepare_no_div C R rnd h alive d v p datagram ts CO F U B) as ND.
      destruct (prepareDataElements C R alive d v p datagram ts) as [d1 [[m hd]|x]] eqn:P; cbn [snd] in ND.
      * pose proof (PU d1 hd m) as PN. destruct (push d1 hd m) as [d2 r] eqn:PE. cbn [snd] in PN.
        split; [apply CT; destruct r as [[]|y]; cbn; [discriminate|destruct (is_IncomingMessageError y); congruence]|].
        split; [intros hd' m' X; injection X as <- <-; exists v, p, d1; rewrite PE; auto|].
        split; [discriminate|]. intros X. specialize (X v eq_refl). congruence.
      * split; [apply CT; cbn; destruct (is_IncomingMessageError x); congruence|].
        split; [discriminate|]. split; [intros _; right; exists v, p, x; auto|].
        intros X. specialize (X v eq_refl). congruence.
    + cbn. split; [auto|]. split; [discriminate|]. auto.
  - apply (version_decode_raises (ABytes datagram) I B) in V. destruct x; try discriminate V; cbn; (split; [auto|split; [discriminate|auto]]).
Qed.
Print Assumptions C39_hear.
(** The processor that is used is the one whose VERSION is the datagram's. *)
Theorem C39_version : forall ps v p,
  dict_get Z.eqb (d_procs (fold_left addMessageProcessor ps (mkDisp [] (mkUsm [] registry0)))) v = Some p ->
  In p ps /\ proc_version p = v.
Proof.
  intros ps v p. assert (X : forall d, (forall v p, dict_get Z.eqb (d_procs d) v = Some p -> proc_version p = v) ->
    dict_get Z.eqb (d_procs (fold_left addMessageProcessor ps d)) v = Some p ->
    (dict_get Z.eqb (d_procs d) v = Some p \/ In p ps) /\ proc_version p = v).
  { induction ps as [|q ps IH]; intros d W; cbn [fold_left]; [intros G; split; [auto|now apply W]|].
    intros G. apply IH in G as [[G|G] G'].
    - split; [|auto]. unfold addMessageProcessor in G. cbn [d_procs] in G. rewrite zget_set in G.
      destruct (v =? proc_version q); [injection G as ->; right; left; auto|left; auto].
    - split; [right; right; auto|auto].
    - intros v' p' G1. unfold addMessageProcessor in G1. cbn [d_procs] in G1. rewrite zget_set in G1.
      destruct (Z.eqb_spec v' (proc_version q)); [injection G1 as ->; auto|now apply W]. }
  intros G. apply X in G as [[G|G] G']; [discriminate|auto|]. discriminate.
Qed.
Print Assumptions C39_version.
Definition ex_disp : disp := mkDisp (d_procs (fold_left addMessageProcessor
  [P12 proc_v1 (fst (cache gen_v1 (fun _ => 1) (cache_new gen_v1 (fun _ => 1) 0) (mkE1 5 [112]))); P3 ex_p3]
  (mkDisp [] (mkUsm [] registry0)))) (usm_after (toy OpenSSL) 1 (fun _ => 0) []).
Definition ex_push : disp -> nat -> heard -> disp * res unit := fun d _ _ => (d, Raise IndexError).
Definition ex_got (datagram : bytes) : option nat :=
  let '(_, got, _) := hear (toy OpenSSL) 1 (fun _ => true) ex_push ex_disp datagram 0 in option_map fst got.
Example C39_example : ex_got (ex_answer 0) = Some 5%nat /\ ex_got ex_wire3 = Some 4%nat /\
  ex_got (ex_answer 1) = None /\ ex_got [48;3;2;1;9] = None /\ ex_got [1;2;3] = None /\
  (forall d hd m, snd (ex_push d hd m) <> Raise Diverges).
Proof. split; [vm_compute; reflexivity|]. split; [vm_compute; reflexivity|]. repeat split; try (vm_compute; reflexivity). discriminate. Qed.
