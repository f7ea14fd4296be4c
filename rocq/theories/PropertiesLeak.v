(** PropertiesLeak.v -- C79: what the library remembers of requests is released. *)
From Verif Require Import PropertiesUsm PropertiesMsg PropertiesProc PropertiesMgr PrfMgr3i PropertiesMgr3 PropertiesReg PropertiesUse PrfHear PrfHear2 PrfMgr3e PrfMgr3d PropertiesHear PrfAnswer PropertiesAnswer PrfUse PrfUse2.
From Verif Require Import PrfMgr3 PrfMgr3a PrfMgr3c PrfLeak1 PrfLeak3 PrfLeakC SpecAnswer SpecUse SpecReg.

(** * SNMPv1 and SNMPv2c *)
(** The number of requests that somebody still refers to. *)
Definition live1 (s : mgr1) : nat := length (filter rq_alive (m1_reqs s)).
(** Every outstanding ID belongs to a request that somebody still refers to, and
    no two belong to the same one: there are at most as many as such requests. *)
Theorem C79_v12_live : forall V rnd clk evs s l, draws_ok gen_v1 rnd -> m1_run V rnd clk evs = (s, l) ->
  (forall id e, In (id, e) (ca_out (m1_cache s)) -> rq_alive (get1 (m1_reqs s) (e1_handle e)) = true) /\
  (forall id e id' e', In (id, e) (ca_out (m1_cache s)) -> In (id', e') (ca_out (m1_cache s)) -> e1_handle e = e1_handle e' -> id = id') /\
  (length (ca_out (m1_cache s)) <= live1 s)%nat.
Proof.
  intros V rnd clk evs s l HR E. destruct (leak1_run V rnd clk HR evs s l E) as (ND & OW & _). pose proof (keep1_run V rnd clk HR evs s l E) as K.
  assert (X : forall id e, In (id, e) (ca_out (m1_cache s)) -> rq_alive (get1 (m1_reqs s) (e1_handle e)) = true /\ pdu_requestID (rq_pdu (get1 (m1_reqs s) (e1_handle e))) = id).
  { intros id e IN. destruct (OW id e) as [A B]; [apply (g_in_get Z.eqb Z.eqb_eq); [exact ND|exact IN]|]. split; [|exact B].
    destruct (rq_alive _) eqn:AL; [reflexivity|]. apply (k_dead _ _ K) in AL. congruence. }
  split; [intros id e IN; apply (X _ _ IN)|].
  assert (Y : forall id e id' e', In (id, e) (ca_out (m1_cache s)) -> In (id', e') (ca_out (m1_cache s)) -> e1_handle e = e1_handle e' -> id = id').
  { intros id e id' e' A B Q. apply X in A as [_ A]. apply X in B as [_ B]. rewrite Q in A. congruence. }
  split; [exact Y|]. unfold live1.
  assert (L : length (filter rq_alive (m1_reqs s)) = length (filter (fun r => rq_alive (get1 (m1_reqs s) r)) (seq 0 (length (m1_reqs s))))).
  { assert (G : forall (q : list req1) k, length (filter rq_alive q) = length (filter (fun r => rq_alive (nth (r - k) q (nth 0 [] (get1 [] 0)))) (seq k (length q)))).
    { induction q as [|a q IH]; intros k; [reflexivity|]. cbn [length seq filter]. rewrite Nat.sub_diag. cbn [nth].
      assert (Z : length (filter rq_alive q) = length (filter (fun r => rq_alive (nth (r - k) (a :: q) (nth 0 [] (get1 [] 0)))) (seq (Datatypes.S k) (length q)))).
      { rewrite (IH (Datatypes.S k)). f_equal. apply filter_ext_in. intros r IN. apply in_seq in IN. replace (r - k)%nat with (Datatypes.S (r - Datatypes.S k)) by lia. reflexivity. }
      destruct (rq_alive a); cbn [length]; now rewrite Z. }
    rewrite (G (m1_reqs s) 0%nat). f_equal. apply filter_ext_in. intros r IN. rewrite Nat.sub_0_r. reflexivity. }
  rewrite L, <- (map_length (fun p => e1_handle (snd p))). apply NoDup_incl_length.
  - clear - ND Y. unfold nodup1 in ND. induction (ca_out (m1_cache s)) as [|[id e] t IH]; [constructor|]. cbn [map fst snd] in *. inversion ND; subst. constructor.
    + intros IN. apply in_map_iff in IN as ([id' e'] & Q & IN). cbn in Q. apply H1. assert (Z : id = id') by (eapply Y; [now left|right; exact IN|now symmetry]). subst id'. apply (in_map fst) in IN. exact IN.
    + apply IH; [exact H2|]. intros i1 e1 i2 e2 A B. apply Y; now right.
  - intros r IN. apply in_map_iff in IN as ([id e] & <- & IN). apply X in IN as [A _]. cbn. apply filter_In. split; [|exact A]. apply in_seq. split; [lia|].
    destruct (le_lt_dec (length (m1_reqs s)) (e1_handle e)) as [G|G]; [|lia]. rewrite get1_out in A by exact G. discriminate A.
Qed.
Print Assumptions C79_v12_live.
(** Once wait() has returned, or raised ErrorResponse or Timeout, the ID of the
    request is never outstanding again. *)
Theorem C79_v12_over : forall V rnd clk evs more s l s' l' r o, draws_ok gen_v1 rnd ->
  m1_run V rnd clk evs = (s, l) -> In (LOutcome r o) l -> over1 o = true -> m1_run V rnd clk (evs ++ more) = (s', l') ->
  forall id e, In (id, e) (ca_out (m1_cache s')) -> e1_handle e <> r.
Proof.
  intros V rnd clk evs more s l s' l' r o HR E IN OV E' id e IN' Q.
  assert (INl : In (LOutcome r o) l').
  { revert evs s l E IN E'. induction more as [|x more IH]; intros evs s l E IN E'; [rewrite app_nil_r in E'; congruence|].
    destruct (m1_run V rnd clk (evs ++ [x])) as [s1 l1] eqn:E1. change (x :: more) with ([x] ++ more) in E'. rewrite app_assoc in E'. eapply IH; [exact E1| |exact E'].
    unfold m1_run in E1. rewrite fold_left_app in E1. cbn [fold_left] in E1. change (fold_left (m1_next V rnd clk) evs (mgr1_new rnd, [])) with (m1_run V rnd clk evs) in E1. rewrite E in E1.
    unfold m1_next in E1. destruct (m1_step V rnd clk s x) as [s2 l2]. injection E1 as _ <-. apply in_or_app. auto. }
  destruct (leak1_run V rnd clk HR _ _ _ E') as (ND & OW & CL). destruct (CL r o INl OV) as (_ & CB & _).
  destruct (OW id e) as [A _]; [apply (g_in_get Z.eqb Z.eqb_eq); [exact ND|exact IN']|]. rewrite Q in A. congruence.
Qed.
Print Assumptions C79_v12_over.
Example C79_v12_example : let sl := m1_run proc_v2c ex_rnd (ex_clk [0; 0; 20]) [MCall ex_pdu [112] 10 3; MStep 0; MWait 0] in
  let sl' := m1_run proc_v2c ex_rnd (ex_clk [0; 0; 20]) ([MCall ex_pdu [112] 10 3; MStep 0; MWait 0] ++ [MStep 0; MStep 0]) in
  length (ca_out (m1_cache (fst sl))) = 1%nat /\ In (LOutcome 0 (ORaised Timeout)) (snd sl') /\ ca_out (m1_cache (fst sl')) = [] /\ rq_alive (get1 (m1_reqs (fst sl')) 0) = true.
Proof. vm_compute. repeat split; auto. Qed.

(** * SNMPv3 *)
(** The request that the message ID [id] was allocated for. *)
Definition owner3 (s : mgr3) (e : entry3) : nat := g_req (getm (v_msgs s) (e3_handle e)).
(** It was allocated for another manager of the Engine. *)
Definition others3 (s : mgr3) (e : entry3) : Prop := g_own (getm (v_msgs s) (e3_handle e)) = false.
(** Every outstanding message ID belongs to a message of another manager, or of a
    request that somebody still refers to; no two belong to the same message.  In
    particular, when nobody refers to any request, and no other manager has sent
    a message, no ID is outstanding. *)
Theorem C79_v3_live : forall W evs s l, world_ok W -> Forall event_ok evs -> history W evs s l ->
  (forall id e, In (id, e) (ca_out (p3_cache (v_proc s))) -> alive3 s (owner3 s e) \/ others3 s e) /\
  (forall id e id' e', In (id, e) (ca_out (p3_cache (v_proc s))) -> In (id', e') (ca_out (p3_cache (v_proc s))) -> e3_handle e = e3_handle e' -> id = id') /\
  ((forall r, ~ alive3 s r) -> (forall p e user level, ~ In (VOther p e user level) evs) -> ca_out (p3_cache (v_proc s)) = []).
Proof.
  intros W evs s l OK F [_ E]. destruct (own_run W OK evs F s l E) as [O1 O2 O3].
  assert (X : forall id e, In (id, e) (ca_out (p3_cache (v_proc s))) -> ((alive3 s (owner3 s e) \/ others3 s e) /\ g_cb (getm (v_msgs s) (e3_handle e)) = Some id) /\ (e3_handle e < length (v_msgs s))%nat).
  { intros id e IN. destruct (O2 id e) as (A & B & D); [apply (g_in_get Z.eqb Z.eqb_eq); [exact O1|exact IN]|]. split; [|exact A]. split; [|exact B]. unfold alive3, owner3, request3, others3. destruct D as [D|D]; auto. }
  split; [intros id e IN; apply (X _ _ IN)|]. split.
  - intros id e id' e' A B Q. apply X in A as [[_ A] _]. apply X in B as [[_ B] _]. rewrite Q in A. congruence.
  - intros N NO. pose proof (all_own W evs s l E NO) as AO. destruct (ca_out (p3_cache (v_proc s))) as [|[id e] t]; [reflexivity|]. exfalso.
    destruct (X id e) as [[[A|A] _] LT]; [now left|exact (N _ A)|]. unfold others3 in A. rewrite (AO _ LT) in A. discriminate A.
Qed.
Print Assumptions C79_v3_live.
(** When wait() ends, however it ends, none is left of this request. *)
Theorem C79_v3_over : forall W evs s l x s' l' r o, world_ok W -> Forall event_ok evs -> history W evs s l ->
  step3 W s x = (s', l') -> In (WOutcome r o) l' ->
  forall id e, In (id, e) (ca_out (p3_cache (v_proc s'))) -> owner3 s' e <> r \/ others3 s' e.
Proof.
  intros W evs s l x s' l' r o OK F [_ E] ST IN id e IN'. destruct (run_good W OK evs F s l E) as [I G].
  assert (B : PrfMgr3d.base s) by (eapply PrfMgr3d.base_run; [|exact E]; destruct (new3 W) as [s0 y] eqn:N; eapply PrfMgr3d.base_start; exact N).
  destruct (own_step W OK s x s' l' B G (own_run W OK evs F s l E) ST) as [[O1 _ _] N].
  unfold others3. destruct (g_own (getm (v_msgs s') (e3_handle e))) eqn:OW; [left|now right].
  apply (N r o IN id e); [|exact OW]. apply (g_in_get Z.eqb Z.eqb_eq); [exact O1|exact IN'].
Qed.
Print Assumptions C79_v3_over.
(** Another manager that is done with a message releases its ID, and that of no
    other message. *)
Theorem C79_v3_others : forall W evs s l h s' l', world_ok W -> Forall event_ok evs -> history W evs s l ->
  step3 W s (VOtherDone h) = (s', l') ->
  forall id e, In (id, e) (ca_out (p3_cache (v_proc s'))) <-> In (id, e) (ca_out (p3_cache (v_proc s))) /\ (e3_handle e <> h \/ ~ others3 s e).
Proof.
  intros W evs s l h s' l' OK F [_ E] ST id e. destruct (own_run W OK evs F s l E) as [O1 O2 _]. unfold step3 in ST. cbn [m3_step] in ST.
  assert (G : forall id e, In (id, e) (ca_out (p3_cache (v_proc s))) -> g_cb (getm (v_msgs s) (e3_handle e)) = Some id).
  { intros i en IN. apply (O2 i en). apply (g_in_get Z.eqb Z.eqb_eq); [exact O1|exact IN]. }
  unfold others3. destruct (g_own (getm (v_msgs s) h)) eqn:OW.
  - injection ST as <- _. split; [|now intros [H _]]. intros H. split; [exact H|]. destruct (Nat.eq_dec (e3_handle e) h) as [->|N]; [right; congruence|now left].
  - destruct (g_cb (getm (v_msgs s) h)) as [i|] eqn:CB; injection ST as <- _; cbn [v_proc set_objects set_io with_cache3 p3_cache uncache ca_out].
    + assert (OD := znodup_del _ i O1). split.
      * intros H. apply (g_in_get Z.eqb Z.eqb_eq) in H; [|exact OD]. destruct (Z.eqb_spec id i) as [->|N]; [rewrite zget_del_same in H by exact O1; discriminate H|].
        rewrite zget_del_other in H by auto. apply (g_get_in Z.eqb Z.eqb_eq) in H. split; [exact H|]. left. intros Q. apply G in H. rewrite Q, CB in H. injection H as H. auto.
      * intros [H N]. assert (NE : id <> i).
        { intros ->. assert (HH : e3_handle e = h); [|destruct N as [N|N]; [auto|]; apply N; now rewrite HH].
          destruct (open_run W OK evs F s l E) as [OC _ _]. destruct (OC h i (or_intror OW) CB) as (e0 & D0 & <-).
          apply (g_in_get Z.eqb Z.eqb_eq) in H; [|exact O1]. rewrite H in D0. injection D0 as ->. reflexivity. }
        apply (g_in_get Z.eqb Z.eqb_eq) in H; [|exact O1]. apply (g_get_in Z.eqb Z.eqb_eq). rewrite zget_del_other by auto. exact H.
    + split; [|now intros [H _]]. intros H. split; [exact H|]. left. intros Q. apply G in H. rewrite Q, CB in H. discriminate H.
Qed.
Print Assumptions C79_v3_others.
(** A request that is sent (message ID 13), answered with a report (a second
    message, ID 26), and given up: both IDs are outstanding, then none. *)
Example C79_v3_example : let W := ex_world [0; 0; 0; 0; 0; 0; 0; 0; 20] None in
  let evs := ex_call authNoPriv 5 3 ++ ex_discovered ++ [VWait 0] in
  world_ok W /\ Forall event_ok evs /\ snd (new3 W) = Ok tt /\
  map fst (ca_out (p3_cache (v_proc (fst (run3 W evs))))) = [13; 26] /\
  let evs' := evs ++ [VStep 0; VStep 0; VStep 0; VStep 0; VStep 0; VStep 0] in
  (exists o, In (WOutcome 0 o) (snd (run3 W evs'))) /\ ca_out (p3_cache (v_proc (fst (run3 W evs')))) = [] /\ alive3 (fst (run3 W evs')) 0.
Proof.
  cbv zeta. split; [apply ex_world_ok|]. split; [apply (no_users_ok (ex_world [0; 0; 0; 0; 0; 0; 0; 0; 20] None)); [apply ex_world_ok|reflexivity]|]. vm_compute.
  repeat split; auto. eexists. left. reflexivity.
Qed.
(** But "for ever", as for SNMPv1, it is not: as long as somebody refers to the
    request, another thread may retransmit it.  See C79_v3_live. *)

(** * close() while another thread is sending *)
(** When all messages are out of their sets, nobody refers to them any more and no
    thread is busy, the processor remembers no message. *)
Definition C79_statement : Prop := forall rnd evs, draws_ok gen_v3 rnd -> quiet (lk_run rnd evs) ->
  (forall h, In h (lk_made (lk_run rnd evs)) -> In h (cs_dead (lk_proc (lk_run rnd evs)))) -> table (lk_run rnd evs) = [].
(** It is so if messages are closed after they were sent. *)
Theorem C79_close_partial : forall rnd evs, draws_ok gen_v3 rnd -> in_turn rnd evs -> quiet (lk_run rnd evs) -> table (lk_run rnd evs) = [].
Proof. intros rnd evs HR. now apply quiet_empty. Qed.
Print Assumptions C79_close_partial.
(** What a message looks like. *)
Definition ex_sent (h : nat) : entry3 := mkE3 ex_engine [] h ex_user USM noAuthNoPriv.
(** reallySend() has added the message; before it calls sendPdu(), close() pops the
    message and calls its close(), which does nothing, because there is no callback
    yet.  Then the message is sent. *)
Definition ex_early : list lk_event := [KAdd 0; KPop 0; KClose 0; KSend (ex_sent 0); KStep 0; KStep 0; KDie 0].
(** The message ID stays in the table, whatever happens afterwards. *)
Theorem C79_refuted : ~ C79_statement /\
  forall more, exists id e, dict_get Z.eqb (table (lk_run (ex_draws 0) (ex_early ++ more))) id = Some e /\ e3_handle e = 0%nat.
Proof.
  assert (HR : draws_ok gen_v3 (ex_draws 0)) by (apply (wo_messages (ex_world [] None)), ex_world_ok).
  split.
  - intros H. specialize (H (ex_draws 0) ex_early HR).
    assert (Q : quiet (lk_run (ex_draws 0) ex_early)) by (vm_compute; auto).
    assert (D : forall h, In h (lk_made (lk_run (ex_draws 0) ex_early)) -> In h (cs_dead (lk_proc (lk_run (ex_draws 0) ex_early)))) by (vm_compute; auto).
    specialize (H Q D). vm_compute in H. discriminate H.
  - intros more. exists 13. apply lost_for_ever; [exact HR|]. vm_compute. repeat split; auto.
Qed.
Print Assumptions C79_refuted.
Example C79_close_example : let evs := [KAdd 0; KSend (ex_sent 0); KStep 0; KStep 0; KPop 0; KClose 0; KStep 0] in
  in_turn (ex_draws 0) evs /\ quiet (lk_run (ex_draws 0) evs) /\ map fst (table (lk_run (ex_draws 0) (firstn 4 evs))) = [13].
Proof.
  cbv zeta. split; [|vm_compute; auto]. intros pre h post E.
  assert (P : pre = [KAdd 0; KSend (ex_sent 0); KStep 0; KStep 0; KPop 0] /\ post = [KStep 0]).
  { do 5 (destruct pre as [|? pre]; [discriminate E|cbn [app] in E; injection E as <- E]). destruct pre as [|y pre]; [injection E as _ <-; auto|].
    cbn [app] in E. injection E as <- E. destruct pre as [|z pre]; [discriminate E|]. cbn [app] in E. injection E as <- E. destruct pre; discriminate E. }
  destruct P as [-> ->]. split.
  - intros [(e & n & IN & _)|(id & IN)]; vm_compute in IN; destruct IN.
  - intros e [K|[]]. discriminate K.
Qed.

(** * The time table of the security module *)
(** An unauthenticated report, that answers nothing, from the engine [e]. *)
Definition unsolicited (e : bytes) : bytes := ex_note 0 e [] (mkPDU ReportPDU 0 0 0 []).
Lemma unsolicited_decodes a b c d e f g h : exists m sp, v3_decode (ABytes (unsolicited [a;b;c;d;e;f;g;h])) = Ok m /\
  h_securityModel (v3_header m) = USM /\ fl_auth (h_flags (v3_header m)) = false /\
  params_decode (v3_params m) = Ok sp /\ up_engineID sp = [a;b;c;d;e;f;g;h] /\ up_boots sp = 5 /\ up_time sp = 77.
Proof. vm_compute. eexists. eexists. split; [reflexivity|]. split; [reflexivity|]. split; [reflexivity|]. split; [reflexivity|]. auto. Qed.
Lemma unsolicited_hint C R a b c d e f g h alive u p ts : has_module p USM = true ->
  fst (v3_prepareDataElements C R alive u p (unsolicited [a;b;c;d;e;f;g;h]) ts) = mkUsm (tk_hint R (us_time u) [a;b;c;d;e;f;g;h] 5 77 ts) (us_users u).
Proof.
  intros M. destruct (unsolicited_decodes a b c d e f g h) as (m & sp & D & E1 & E2 & E3 & E4 & E5 & E6). set (n := unsolicited _) in *. clearbody n.
  unfold v3_prepareDataElements. rewrite D, E1, M. unfold usm_processIncoming. rewrite E3. cbn [v3_header]. rewrite E2. cbn [negb fst]. now rewrite E4, E5, E6.
Qed.
(** The engine ID with the number [i]: eight octets. *)
Definition engine_no (i : Z) : bytes :=
  let i1 := i / 256 in let i2 := i1 / 256 in let i3 := i2 / 256 in let i4 := i3 / 256 in let i5 := i4 / 256 in let i6 := i5 / 256 in let i7 := i6 / 256 in
  [i7 mod 256; i6 mod 256; i5 mod 256; i4 mod 256; i3 mod 256; i2 mod 256; i1 mod 256; i mod 256].
Lemma engine_no_ok i : bytes_ok (engine_no i) /\ zlen (engine_no i) = 8.
Proof. split; [|reflexivity]. unfold bytes_ok, engine_no. repeat constructor; apply Z.mod_pos_bound; lia. Qed.
Lemma engine_no_inj i j : 0 <= i < 2 ^ 64 -> 0 <= j < 2 ^ 64 -> engine_no i = engine_no j -> i = j.
Proof.
  intros I J E.
  assert (V : forall x, 0 <= x < 2 ^ 64 -> x = fold_left (fun a d => a * 256 + d) (engine_no x) 0).
  { intros x X. unfold engine_no. cbn [fold_left]. set (x1 := x / 256). set (x2 := x1 / 256). set (x3 := x2 / 256). set (x4 := x3 / 256). set (x5 := x4 / 256). set (x6 := x5 / 256). set (x7 := x6 / 256).
    pose proof (Z.div_mod x 256). pose proof (Z.div_mod x1 256). pose proof (Z.div_mod x2 256). pose proof (Z.div_mod x3 256). pose proof (Z.div_mod x4 256). pose proof (Z.div_mod x5 256). pose proof (Z.div_mod x6 256).
    assert (S7 : x7 mod 256 = x7).
    { apply Z.mod_small. unfold x7, x6, x5, x4, x3, x2, x1. rewrite !Z.div_div by lia. split; [apply Z.div_pos; lia|]. apply Z.div_lt_upper_bound; [lia|]. change (2 ^ 64) with 18446744073709551616 in X. lia. }
    lia. }
  rewrite (V i I), (V j J), E. reflexivity.
Qed.
Lemma dict_set_length {A} (d : dict bytes A) k v : dict_get zlist_eqb d k = None -> length (dict_set zlist_eqb d k v) = Datatypes.S (length d).
Proof. induction d as [|[k' v'] d IH]; cbn; [reflexivity|]. destruct (zlist_eqb k k'); [discriminate|]. intros G. cbn. now rewrite IH. Qed.
Lemma dict_set_same {A} (d : dict bytes A) k v w : dict_get zlist_eqb d k = Some w -> length (dict_set zlist_eqb d k v) = length d.
Proof. induction d as [|[k' v'] d IH]; cbn; [discriminate|]. destruct (zlist_eqb k k'); [reflexivity|]. intros G. cbn. now rewrite IH. Qed.
Lemma hint_grows R t e b tm ts : dict_get zlist_eqb t e = None -> length (tk_hint R t e b tm ts) = Datatypes.S (length t) /\
  forall e', e' <> e -> dict_get zlist_eqb (tk_hint R t e b tm ts) e' = dict_get zlist_eqb t e'.
Proof.
  intros G. unfold tk_hint, assertEntry. rewrite G. split.
  - erewrite dict_set_same; [now apply dict_set_length|]. apply get_set_same.
  - intros e' N. rewrite !get_set_other by auto. reflexivity.
Qed.
Lemma manager_engine_time C rnd ns s new s1 z : manager_engine C rnd ns s new = (s1, z) -> us_time (v_usm s) = [] -> us_time (v_usm s1) = [].
Proof.
  unfold manager_engine. destruct (opt_eqb _ _ _); [intros H T; injection H as <- _; exact T|].
  destruct (switch_engine _ _ _ _ _ _) as [s2 y] eqn:E. apply switch_regs in E as [_ [u ->]].
  destruct y; intros H T; injection H as <- _; exact T.
Qed.
Definition knows (e : bytes) (u : usm) : Prop := dict_get zlist_eqb (us_time u) e <> None.
Lemma set_knows e e' v (t : timekeeper) : dict_get zlist_eqb t e <> None -> dict_get zlist_eqb (dict_set zlist_eqb t e' v) e <> None.
Proof. intros K. rewrite PrfDict.get_set. destruct (zlist_eqb e e'); [intros X; discriminate X|exact K]. Qed.
Lemma incoming_knows C R alive u p d ts u' x e : v3_prepareDataElements C R alive u p d ts = (u', x) -> knows e u -> knows e u'.
Proof.
  assert (AE : forall t b m a, dict_get zlist_eqb t e <> None -> forall i, dict_get zlist_eqb (fst (assertEntry R t i b m ts a)) e <> None).
  { intros t b m a K i. unfold assertEntry. destruct (dict_get zlist_eqb t i); [exact K|]. cbn [fst]. now apply set_knows. }
  unfold v3_prepareDataElements. destruct (v3_decode _) as [m|ex]; [|intros H K; injection H as <- _; exact K].
  destruct (has_module _ _); [|intros H K; injection H as <- _; exact K]. intros H K.
  assert (X : knows e (fst (usm_processIncoming C R u m ts))).
  { clear H. unfold usm_processIncoming. destruct (params_decode _) as [sp|]; [|exact K].
    destruct (negb (fl_auth _)).
    { unfold knows. cbn [fst us_time]. unfold tk_hint. pose proof (AE (us_time u) (up_boots sp) (up_time sp) false K (up_engineID sp)) as A.
      destruct (assertEntry _ _ _ _ _ _ _) as [t y]. now apply set_knows. }
    destruct (getCredentials _ _ _) as [us|g]; [|destruct g; exact K]. destruct (lc_auth us) as [[alg key]|]; [|exact K].
    destruct (_ && _)%bool; [exact K|]. cbv zeta. destruct (negb (zlen _ =? _)); [exact K|]. destruct (up_index sp); [|exact K]. destruct (up_whole sp); [|exact K].
    destruct (negb (zlist_eqb _ _)); [exact K|].
    destruct (updateAndVerify _ _ _ _ _ _) as [t ok] eqn:UV.
    assert (KT : dict_get zlist_eqb t e <> None).
    { unfold updateAndVerify in UV. pose proof (AE (us_time u) (up_boots sp) (up_time sp) true K (up_engineID sp)) as A.
      destruct (assertEntry _ _ _ _ _ _ _) as [t1 y]. injection UV as <- _. now apply set_knows. }
    destruct (negb ok); [exact KT|]. destruct (fl_priv _); exact KT. }
  destruct (usm_processIncoming _ _ _ _ _) as [u1 [m1|ex]]; injection H as <- _; exact X.
Qed.
(** Nothing removes an engine from the table. *)
Theorem C79_time_kept : forall W before after s l s' l', world_ok W -> Forall event_ok (before ++ after) ->
  history W before s l -> history W (before ++ after) s' l' ->
  forall e, dict_get zlist_eqb (us_time (v_usm s)) e <> None -> dict_get zlist_eqb (us_time (v_usm s')) e <> None.
Proof.
  intros W before after s0 l0 s l OK EV [_ E0] [_ E] e K0. revert s l E. induction after as [|x evs IH] using rev_ind; intros s l E.
  - rewrite app_nil_r in E. rewrite E0 in E. injection E as <- <-. exact K0.
  - rewrite app_assoc in E, EV. assert (EV' := EV). apply Forall_app in EV' as [EV1 EX].
    unfold run3 in E. rewrite m3_run_snoc in E. fold (run3 W (before ++ evs)) in E. destruct (run3 W (before ++ evs)) as [s1 l1] eqn:R1.
    destruct (m3_step _ _ _ _ _ _ _ _) as [s2 l2] eqn:M. injection E as <- <-. specialize (IH EV1 s1 l1 eq_refl).
    destruct (run_good W OK _ EV1 s1 l1 R1) as [I G]. destruct OK as [_ D0 D1].
    assert (G' : good (w_size W) (knows e) s1) by (destruct G as [G1 G2 G3 G4 G5]; constructor; auto).
    eapply (step_good (w_crypto W) (w_ticks W) (w_rnd W) (w_clk W) (w_fmt W) (w_namespace W) (w_size W) D0 D1 (knows e)) in M as [M _].
    + apply (g_usm (w_size W) (knows e)), M. destruct x; try exact Logic.I; [|exact IH].
      intros al u y EQ. eapply incoming_knows; [exact EQ|exact IH].
    + intros u m e' n ts K. unfold knows. destruct (prepare_state (w_crypto W) (w_ticks W) u m e' n ts) as [T _]. rewrite T. exact K.
    + intros u op _ K. exact K.
    + exact I.
    + exact G'.
    + apply not_fair.
Qed.
Print Assumptions C79_time_kept.
(** With a new manager that nobody uses, [n] datagrams make the security module
    remember [n] engines (and nothing in the library removes an entry, C79_time_kept).  Each datagram
    is a few dozen octets long and unauthenticated; anyone can send it. *)
Theorem C79_time_refuted : forall W n, snd (new3 W) = Ok tt -> us_time (w_usm W) = [] -> Z.of_nat n <= 2 ^ 64 ->
  exists ds, length ds = n /\ Forall (fun d => zlen d <= 100 /\ exists i, d = unsolicited (engine_no i)) ds /\
    forall s l, history W (map VReceive ds) s l -> calls (map VReceive ds) = [] /\ l = [] /\ length (us_time (v_usm s)) = n.
Proof.
  intros W n _ T0 N. exists (map (fun i => unsolicited (engine_no (Z.of_nat i))) (seq 0 n)). split; [now rewrite map_length, seq_length|]. split.
  { apply Forall_forall. intros d IN. apply in_map_iff in IN as (i & <- & _). split; [|eauto].
    assert (X : forall a b c d e f g h, zlen (unsolicited [a;b;c;d;e;f;g;h]) <= 100) by (intros; vm_compute; discriminate). apply X. }
  intros s l [_ E]. split; [|].
  { clear. induction (seq 0 n) as [|i t IH]; [reflexivity|exact IH]. }
  enough (X : forall k, (k <= n)%nat -> forall s l, run3 W (map VReceive (map (fun i => unsolicited (engine_no (Z.of_nat i))) (seq 0 k))) = (s, l) ->
    l = [] /\ v_listener s = LIdle /\ ca_out (p3_cache (v_proc s)) = [] /\ length (us_time (v_usm s)) = k /\
    forall i, (k <= i < n)%nat -> dict_get zlist_eqb (us_time (v_usm s)) (engine_no (Z.of_nat i)) = None).
  { destruct (X n (le_n n) s l E) as (A & _ & _ & B & _). auto. }
  clear s l E. induction k as [|k IH]; intros LE s l E.
  - unfold run3 in E. cbn in E. injection E as <- <-. destruct (new3 W) as [s0 y] eqn:NW. unfold new3 in NW.
    destruct (start_fields _ _ _ _ _ _ _ _ NW) as (_ & _ & _ & _ & _ & _ & _ & LI & _ & _ & CO & _). cbn [fst].
    assert (TT : us_time (v_usm s0) = []).
    { unfold mgr3_new in NW. destruct (w_engine W) as [e|].
      - destruct (manager_engine _ _ _ _ _) as [s1 z] eqn:ME. injection NW as <- _. cbn [set_state v_usm]. eapply manager_engine_time; [exact ME|]. exact T0.
      - injection NW as <- _. exact T0. }
    rewrite TT. repeat split; auto.
  - rewrite seq_S, !map_app in E. cbn [map Nat.add] in E. rewrite run3_app in E. destruct (run3 W _) as [s1 l1] eqn:R1.
    destruct (IH ltac:(lia) s1 l1 eq_refl) as (-> & LI & CO & LEN & FR). destruct (step3 W s1 _) as [s2 l2] eqn:ST. injection E as <- <-.
    pose proof (modules_run W _ _ _ R1) as MO. unfold step3 in ST. cbn [m3_step] in ST. rewrite LI in ST. unfold tick3 in ST. cbn [v_usm v_proc set_io v_clock] in ST.
    set (d := unsolicited (engine_no (Z.of_nat k))) in *.
    assert (H : forall alive u p ts, has_module p USM = true -> fst (v3_prepareDataElements (w_crypto W) (w_ticks W) alive u p d ts) = mkUsm (tk_hint (w_ticks W) (us_time u) (engine_no (Z.of_nat k)) 5 77 ts) (us_users u)).
    { intros. unfold d, engine_no. now apply unsolicited_hint. }
    clearbody d. destruct (v3_prepareDataElements _ _ _ _ _ _ _) as [u x] eqn:PD. pose proof (H (message_alive (set_io s1 (v_usm s1) (v_proc s1) (Datatypes.S (v_clock s1)))) (v_usm s1) (v_proc s1) (w_clk W (v_clock s1)) MO) as U.
    rewrite PD in U. cbn [fst] in U.
    assert (X : exists ex, x = Raise ex).
    { unfold v3_prepareDataElements in PD. destruct (v3_decode _) as [m|e]; [|injection PD as _ <-; eauto]. destruct (has_module _ _); [|injection PD as _ <-; eauto].
      destruct (usm_processIncoming _ _ _ _ _) as [u1 [m1|e1]]; injection PD as _ <-; [|eauto]. unfold v3_match. destruct (v3_scoped m1); [|eauto]. destruct (is_Response _); [|eauto].
      unfold retrieve. rewrite CO. cbn. eauto. }
    destruct X as [ex ->]. injection ST as <- <-. split; [reflexivity|]. cbn [v_listener set_io v_proc v_usm]. split; [exact LI|]. split; [exact CO|]. subst u. cbn [us_time].
    destruct (hint_grows (w_ticks W) (us_time (v_usm s1)) (engine_no (Z.of_nat k)) 5 77 (w_clk W (v_clock s1)) (FR k ltac:(lia))) as [G1 G2].
    split; [etransitivity; [exact G1|exact (f_equal Datatypes.S LEN)]|]. intros i I. rewrite G2; [apply FR; lia|]. intros K. apply engine_no_inj in K; lia.
Qed.
Print Assumptions C79_time_refuted.
Example C79_time_example : let W := ex_world [] None in snd (new3 W) = Ok tt /\ us_time (w_usm W) = [].
Proof. split; reflexivity. Qed.
