(** PrfFail2.v -- what sending can raise, and what wait() can (C80). *)
From Verif Require Import PrfMsgProps PropertiesUsm PropertiesMsg PropertiesProc PropertiesMgr PrfMgr3i PropertiesMgr3 PropertiesReg PropertiesUse PrfHear PrfHear2 PrfMgr3e PrfMgr3d PropertiesHear PrfAnswer PrfUse PrfUse2 PrfFail1.
From Verif Require Import PrfMgr3 PrfMgr3a PrfMgr3c SpecUse SpecReg SpecFail.

Lemma renumbered_ok p id : int32 id -> pdu_ok p -> pdu_ok (set_requestID p id).
Proof. intros I [A B]. split; [|exact B]. unfold pdu_fields_ok in *. cbn in *. tauto. Qed.
Section Fails.
  Context (C : crypto) (R : Z) (rnd : nat -> nat -> Z) (clk : nat -> Z) (fmt : v3msg -> bool) (ns : pystr) (size : Z).
  Context (H0 : draws_ok gen_v3 (rnd 0)).
  (** A message that is not sent: the system refuses it, there is no message ID,
      or the security module cannot make it. *)
  Lemma transmit_raises s r w now p e user level s' l x : gen_at gen_v3 (ca_gen (p3_cache (v_proc s))) -> p3_maxSize (v_proc s) = size ->
    has_module (v_proc s) USM = true -> transmit C R rnd clk s r w now p e user level = (s', l, Raise x) ->
    (x = OSError /\ exists i, refused rnd i = true) \/
    (x = CacheError /\ (5 <= length (ca_out (p3_cache (v_proc s))))%nat) \/
    (exists id, 0 <= id <= 2147483647 /\ snd (usm_prepareOutgoing C R (v_usm s) (outgoing size id level p e) e user (clk (v_clock s))) = Raise x).
  Proof.
    intros GC GS HM. unfold transmit. cbn [tick3 v_usm v_proc set_io]. destruct (v3_prepareOutgoing _ _ _ _ _ _ _ _ _ _ _ _ _) as [o y] eqn:E.
    unfold v3_prepareOutgoing in E. rewrite HM in E. cbn [negb] in E.
    assert (CA : forall (p1 : proc3) cb (z : res Z), (if is_Confirmed (pdu_cls p)
         then match cache gen_v3 (rnd 0%nat) (p3_cache (v_proc s)) (mkE3 e [] (length (v_msgs s)) user USM level) with
              | (c, Ok id) => (with_cache3 (v_proc s) c, Some id, Ok id) | (c, Raise e0) => (with_cache3 (v_proc s) c, None, Raise e0) end
         else let '(id, g) := numgen_next (ca_gen (p3_cache (v_proc s))) in
              (with_cache3 (v_proc s) (mkCache g (ca_made (p3_cache (v_proc s))) (ca_out (p3_cache (v_proc s)))), None, Ok id)) = (p1, cb, z) ->
         p3_maxSize p1 = size /\ match z with Ok id => 0 <= id <= 2147483647 | Raise x0 => x0 = CacheError /\ (5 <= length (ca_out (p3_cache (v_proc s))))%nat end).
    { intros p1 cb z. destruct (is_Confirmed _).
      - destruct (cache _ _ _ _) as [c [id|ex]] eqn:CE; intros H; injection H as <- _ <-; cbn [p3_cache p3_maxSize with_cache3].
        + apply (loop_ok gen_v3 (rnd 0%nat) ltac:(cbn; lia) H0) in CE as (_ & RG & _ & _ & GA); [|exact GC].
          split; [exact GS|]. unfold id_in_range in RG. cbn in RG. lia.
        + split; [exact GS|]. split.
          * clear - CE. unfold cache in CE. revert CE. generalize (p3_cache (v_proc s)). generalize 10%nat.
            induction n as [|n IH]; intros c0 CE; cbn [cache_loop] in CE; [now injection CE as _ <-|].
            destruct (cache_attempt _ _ _ _) as [[i|] c1]; [discriminate CE|]. eapply IH; exact CE.
          * destruct (Nat.le_gt_cases (length (ca_out (p3_cache (v_proc s)))) 4) as [L|L]; [|lia].
            destruct (cache_succeeds gen_v3 (rnd 0%nat) ltac:(cbn; lia) H0 (p3_cache (v_proc s)) (mkE3 e [] (length (v_msgs s)) user USM level) GC L) as (i & c' & K).
            rewrite K in CE. discriminate CE.
      - destruct (numgen_next _) as [id g] eqn:NE. intros H. injection H as <- _ <-. cbn [p3_cache p3_maxSize with_cache3 ca_gen].
        pose proof (gen_at_range gen_v3 ltac:(cbn; lia) _ GC) as GR. rewrite NE in GR. cbn in GR.
        split; [exact GS|]. unfold id_in_range in GR. cbn in GR. lia. }
    destruct (if is_Confirmed (pdu_cls p) then _ else _) as [[p1 cb] z] eqn:CE. destruct (CA _ _ _ eq_refl) as (CA2 & CA3). clear CA CE.
    destruct z as [id|ex].
    2:{ injection E as <- <-. intros H. injection H as _ _ <-. right. left. exact CA3. }
    rewrite CA2 in E. fold (outgoing size id level p e) in E.
    destruct (usm_prepareOutgoing _ _ _ _ _ _ _) as [u wr] eqn:UE. injection E as <- <-.
    destruct wr as [wire|ex].
    - destruct (refused rnd _) eqn:RF; intros H; [|discriminate H]. injection H as _ _ <-. left. split; [reflexivity|]. eexists. exact RF.
    - intros H. injection H as _ _ <-. right. right. exists id. split; [exact CA3|]. now rewrite UE.
  Qed.
  (** A request takes the manager's engine: this does not fail. *)
  Lemma request_engine_ok o s r e s' x : bal ns o s -> (forall e, 0 <= o e) -> v_engine s = Some e ->
    request_engine C rnd ns s r (Some e) = (s', x) -> x = Ok tt /\ v_proc s' = v_proc s /\ v_clock s' = v_clock s.
  Proof.
    intros [RO B] O VE. unfold request_engine. set (old := q_engine (get3 (v_reqs s) r)).
    destruct (opt_eqb zlist_eqb _ old); [intros H; injection H as <- <-; auto|].
    assert (HO : forall d, holds d old <= heldby (v_reqs s) d) by (intros d; apply heldby_get).
    assert (RG : 0 < registered (us_users (v_usm s)) ns e).
    { rewrite B, holders_eq, VE, holds_self. specialize (O e). pose proof (heldby_nonneg (v_reqs s) e). lia. }
    unfold switch_engine, registerRemoteEngine. destruct (ur_assign _ _ _ e ns) as [u1 y] eqn:E.
    destruct (assign_reg C (rnd 2%nat) ns _ _ _ _ _ RO E) as [K1 K2].
    assert (Y : y = Ok true).
    { clear - E RG. unfold ur_assign in E. unfold registered in RG. destruct (dict_get zlist_eqb _ e) as [re|]; [|lia].
      destruct (zlist_eqb (re_namespace re) ns) eqn:Z; [|lia]. apply PrfDict.zlist_eqb_eq in Z. unfold re_assign in E. rewrite Z, PrfBase.zlist_eqb_refl in E. injection E as _ <-. reflexivity. }
    subst y. cbn [bind]. destruct old as [d|] eqn:OLD.
    - unfold unregisterRemoteEngine. cbn [v_usm set_users set_io us_users]. destruct (ur_release u1 d ns) as [u2 y] eqn:E2.
      assert (P : 0 < registered u1 ns d).
      { rewrite K2, B, holders_eq. pose proof (HO d) as X. rewrite holds_self in X. pose proof (holds_nonneg d (v_engine s)). pose proof (holds_nonneg d (Some e)). specialize (O d).
        destruct (zlist_eqb ns ns); lia. }
      destruct (release_ok ns _ _ _ _ K1 P E2) as (_ & [b ->] & _). cbn [bind]. intros H. injection H as <- <-. auto.
    - intros H. injection H as <- <-. auto.
  Qed.
  (** Which steps end with an exception. *)
  Lemma refresh_raises s r s' new l r' e : refresh3 C R rnd clk ns s r = (s', new, l) -> In (SClose r' (VRaised e)) new ->
    exists root t, v_heap s = root :: t /\
    (sc_period (q_sched (get3 (v_reqs s) root)) = 0 \/
     exists c s1, q_alive (get3 (v_reqs s) root) = true /\
       reallySend3 C R rnd clk ns (rescheduled s root c) root ByRefresh (clk (v_clock s)) None = (s1, l, Raise e)).
  Proof.
    unfold refresh3. destruct (v_heap s) as [|root t] eqn:HP.
    { intros H. injection H as _ <- _. intros [H|[]]. discriminate H. }
    assert (POP : forall s0, v_heap s0 = root :: t -> refresh_pop s0 r = (s', new, l) -> ~ In (SClose r' (VRaised e)) new).
    { intros s0 E. unfold refresh_pop, pop3. rewrite E. destruct (heappop _ _ _) as [[w h]|] eqn:P.
      - intros H. injection H as _ <- _. intros [H|[]]. discriminate H.
      - now apply PrfHeap.heappop_some in P. }
    intros H N. exists root, t. split; [reflexivity|]. destruct (negb _) eqn:AL; [exfalso; exact (POP s HP H N)|].
    destruct (q_event _) eqn:EV; [exfalso; exact (POP s HP H N)|]. cbn [tick3] in H. apply negb_false_iff in AL.
    destruct (sched_refresh _ _) as [[|wt|c]|ex] eqn:SR.
    - exfalso. exact (POP (set_io s (v_usm s) (v_proc s) (Datatypes.S (v_clock s))) HP H N).
    - injection H as _ <- _. destruct N as [N|[]]. discriminate N.
    - destruct (reallySend3 _ _ _ _ _ _ _ _ _ _) as [[s1 l1] [[]|ex]] eqn:RS.
      + destruct (replace3 s1 root) as [s2|] eqn:RP; injection H as _ <- _; destruct N as [N|[]]; [discriminate N|]. exfalso.
        unfold replace3 in RP. apply PrfMgr3.reallySend_spec in RS. assert (HS : v_heap s1 = root :: t) by (inversion RS; subst; exact HP).
        rewrite HS in RP. destruct (heapreplace _ _ _ _) as [[w h]|] eqn:P; [discriminate RP|]. cbn in P. discriminate P.
      + injection H as _ <- <-. destruct N as [N|[]]. injection N as _ <-. right. exists c, s1. split; [exact AL|exact RS].
    - left. unfold sched_refresh in SR. destruct (_ <=? 0); [|discriminate SR]. destruct (_ <=? _); [discriminate SR|]. destruct (Z.eqb_spec (sc_period (q_sched (get3 (v_reqs s) root))) 0); [assumption|discriminate SR].
  Qed.
  Lemma poke_raises s r unsent active s' new l r' e : poke3 C R rnd clk ns s r unsent active = (s', new, l) -> In (SClose r' (VRaised e)) new ->
    exists q rest nx s1, unsent = q :: rest /\ q_alive (get3 (v_reqs s) q) = true /\
      send3 C R rnd clk ns (assign_next s nx) q ByPoke (v_engine s) = (s1, l, Raise e).
  Proof.
    unfold poke3. destruct unsent as [|q rest].
    { destruct active; intros H; injection H as _ <- _; intros [H|[]]; discriminate H. }
    destruct (q_alive _) eqn:AL; [|intros H; injection H as _ <- _; intros [H|[]]; discriminate H].
    unfold request_locked. destruct (onRequest _ _) as [nx [|]].
    - assert (VE : v_engine (assign_next s nx) = v_engine s) by (destruct nx; reflexivity). rewrite VE.
      destruct (send3 _ _ _ _ _ _ _ _ _) as [[s1 l1] [[]|ex]] eqn:SE; intros H; injection H as _ <- <-; intros [H|[]]; [discriminate H|]. injection H as _ <-.
      exists q, rest, nx, s1. split; [reflexivity|]. split; [exact AL|exact SE].
    - intros H; injection H as _ <- _; intros [H|[]]; discriminate H.
  Qed.
  Lemma task_raises s t s' new l r e : task3_step C R rnd clk ns s t = (s', new, l) -> In (SClose r (VRaised e)) new ->
    (exists r0, t = SRefresh r0 /\ refresh3 C R rnd clk ns s r0 = (s', new, l)) \/
    (exists r0 unsent active, t = SPoking r0 unsent active /\ poke3 C R rnd clk ns s r0 unsent active = (s', new, l)) \/
    (t = SEnd r /\ end3 (get3 (v_reqs s) r) = VRaised e).
  Proof.
    destruct t as [r0|r0|r0|r0|r0 un ac|r0 lim|r0|r0 o]; cbn [task3_step task_req3]; intros H N.
    - destruct (locked3 s); [injection H as _ <- _; destruct N as [N|[]]; discriminate N|].
      destruct (request_locked _ _ _ _ _ _ _ _) as [[s1 l1] [[|]|ex]]; injection H as _ <- _; destruct N.
    - destruct (tick3 _ _) as [now s1]. destruct (sched_expired _ _); injection H as _ <- _; destruct N as [N|[]]; discriminate N.
    - left. exists r0. auto.
    - destruct (locked3 s); injection H as _ <- _; destruct N as [N|[]]; discriminate N.
    - right. left. exists r0, un, ac. auto.
    - destruct (q_event _); injection H as _ <- _; destruct N as [N|[]]; discriminate N.
    - right. right. injection H as _ <- _. destruct N as [N|[]]. injection N as -> N. auto.
    - destruct (close3 _ _ _ _ _) as [s1 [u|ex]]; injection H as _ <- _; destruct N.
  Qed.
  (** Where a task comes from. *)
  Lemma step_raises s x s' l r e : m3_step C R rnd clk fmt ns s x = (s', l) -> In (SClose r (VRaised e)) (v_tasks s') ->
    In (SClose r (VRaised e)) (v_tasks s) \/
    exists n t s1 new, x = VStep n /\ nth_error (v_tasks s) n = Some t /\ task3_step C R rnd clk ns s t = (s1, new, l) /\ In (SClose r (VRaised e)) new.
  Proof.
    intros ST B. destruct x as [p u lv ti pe|q|n|d| |q|op|p en u lv|h].
    3:{ cbn [m3_step] in ST. destruct (nth_error (v_tasks s) n) as [t|] eqn:NE; [|injection ST as <- _; auto].
        destruct (task3_step _ _ _ _ _ _ _) as [[s1 new] l1] eqn:T. injection ST as <- <-. cbn [v_tasks set_threads] in B.
        apply in_app_or in B as [B|B]; [left; rewrite <- (firstn_skipn n); apply in_or_app; auto|]. apply in_app_or in B as [B|B].
        - right. exists n, t, s1, new. auto.
        - left. rewrite <- (firstn_skipn (S n)). apply in_or_app. auto. }
    all: left; pose proof (m3_step_spec _ _ _ _ _ _ _ _ _ _ ST) as V; inversion V; subst; try (match goal with X : others_event _ |- _ => destruct X; fail end); try exact B.
    - cbn in B. apply in_app_or in B as [B|[B|[]]]; [exact B|discriminate B].
    - cbn in B. apply in_app_or in B as [B|[B|[]]]; [exact B|discriminate B].
    - match goal with X : _ |- _ => apply PrfMgr3e.lstep_tasks in X; rewrite <- X; exact B end.
    - match goal with X : _ |- _ => destruct X as (u0 & p0 & q0 & m0 & -> & _); exact B end.
    - match goal with X : _ |- _ => destruct X as (u0 & p0 & q0 & m0 & -> & _); exact B end.
    - match goal with X : _ |- _ => destruct X as (u0 & p0 & q0 & m0 & -> & _); exact B end.
  Qed.
End Fails.

(** * In every history *)
Section World.
  Context (W : world) (OK : world_ok W) (CO : crypto_ok (w_crypto W)) (SZ : 484 <= w_size W <= 2147483647).
  Notation C := (w_crypto W).
  Notation R := (w_ticks W).
  Notation ns := (w_namespace W).
  Definition allowed (evs : list event3) (e : exc) : Prop :=
    e = Timeout \/ (e = OSError /\ was_refused W) \/ (e = CacheError /\ five_outstanding W evs).
  Lemma calls_in evs r c : nth_error (SpecMgr3.calls evs) r = Some c ->
    exists before after, evs = before ++ VCall (c_pdu c) (c_user c) (c_level c) (c_timeout c) (c_period c) :: after.
  Proof.
    intros N. apply nth_error_In in N. unfold SpecMgr3.calls in N. apply in_flat_map in N as (x & X & N). destruct x; try contradiction N. destruct N as [<-|[]].
    apply in_split in X as (b & a & ->). exists b, a. reflexivity.
  Qed.
  Lemma added_later before after n c : user_added W before n c -> user_added W (before ++ after) n c.
  Proof. intros (b & a & ap & asec & pp & ps & sec & d & dsl & H). exists b, (a ++ after), ap, asec, pp, ps, sec, d, dsl. cbv zeta in H |- *. destruct H as (-> & H). split; [now rewrite <- app_assoc|exact H]. Qed.
  Lemma supports_keys c level e l : hash_ok C -> supports c level -> sl_auth level = true -> localised_to C c e l ->
    exists a, lc_auth l = Some a /\ (sl_priv level = true -> exists pv, lc_priv l = Some pv /\ priv_ok pv).
  Proof.
    intros HC [S1 S2] AU L. pose proof L as L'. unfold localised_to in L. specialize (S1 AU). destruct (cr_authProtocol c) as [a|]; [|contradiction].
    destruct L as [L1 L2]. eexists. split; [exact L1|]. intros PR. specialize (S2 PR). destruct (cr_privProtocol c) as [q|]; [|contradiction].
    destruct L2 as (salt & _ & L2). eexists. split; [exact L2|]. eapply localised_priv_ok; [exact HC|exact L'|exact L2].
  Qed.
  Section Send.
    Context (evs : list event3) (s0 : mgr3) (l0 : list log3) (RUN : history W evs s0 l0) (y : event3).
    Context (EV : Forall event_ok evs) (OF : others_fair W evs) (CG : calls_good W evs) (EG : engines_good W (evs ++ [y])).
    (** What is sent for a request can be sent. *)
    Lemma request_good r : (r < length (v_reqs s0))%nat -> let q := get3 (v_reqs s0) r in
      0 < sc_period (q_sched q) /\ pdu_ok (q_pdu q) /\ (exists b, pdu_encode (q_pdu q) = Ok b /\ zlen b <= 60000) /\ SpecMsg.level_ok (q_level q) /\
      bytes_ok (q_user q) /\ zlen (q_user q) <= 1000 /\ (sl_auth (q_level q) = true -> exists c, user_added W evs (q_user q) c /\ supports c (q_level q)).
    Proof.
      intros L q. destruct (history_new W _ s0 l0 RUN) as (s & NEW & RN). pose proof (calls_run _ _ _ _ _ _ _ _ _ _ _ _ _ _ NEW RN) as [CL CC].
      destruct (nth_error (SpecMgr3.calls evs) r) as [c|] eqn:N; [|apply nth_error_None in N; lia].
      destruct (CC _ _ N) as (B1 & B2 & B3 & B4). fold q in B1, B2, B3, B4. destruct (calls_in _ _ _ N) as (b & a & E).
      specialize (CG _ _ _ E). cbn [call_good] in CG. destruct CG as (G1 & (G2 & G3) & G4 & G5 & G6 & G7).
      destruct RUN as [_ RN']. destruct (run_good W OK evs EV s0 l0 RN') as [_ G]. destruct (g_reqs _ _ _ G _ L) as [ID IR]. fold q in ID, IR.
      assert (I32 : int32 (pdu_requestID (q_pdu q))) by (unfold id_in_range, gen_v1 in IR; unfold int32; cbn in IR; lia).
      rewrite B4, B3, B2. split; [exact G1|]. split; [rewrite B1; exact (renumbered_ok _ _ I32 G2)|]. split; [rewrite B1; exact (G3 _ I32)|]. split; [exact G4|].
      split; [exact G5|]. split; [exact G6|]. intros AU. destruct (G7 AU) as (cr & AD & SU). exists cr. split; [|exact SU]. rewrite E. now apply added_later.
    Qed.
    Lemma fair0 e : 0 <= others W evs e.
    Proof. apply (OF evs []). now rewrite app_nil_r. Qed.
    Lemma balance0 : BD ns (others W evs) s0.
    Proof. destruct RUN as [_ RN]. exact (proj2 (PropertiesReg.balance_run W evs (PropertiesUse.used W OK) OF s0 l0 RN)). Qed.
    Lemma run0 : run3 W evs = (s0, l0).
    Proof. exact (proj2 RUN). Qed.
    (** The state [s] in which a message is made, in a step from [s0]. *)
    Record near (s : mgr3) : Prop := {
      n_good : good (w_size W) (still W s0) s; n_proc : v_proc s = v_proc s0; n_clock : v_clock s = S (v_clock s0);
      n_bal : BD ns (others W evs) s }.
    Lemma near_transmit s r w now e s' l x : near s -> (r < length (v_reqs s0))%nat -> let q := get3 (v_reqs s0) r in
      held s0 e -> 0 < registered (us_users (v_usm s)) ns e ->
      transmit C R (w_rnd W) (w_clk W) s r w now (q_pdu q) e (q_user q) (q_level q) = (s', l, Raise x) -> allowed evs x.
    Proof.
      intros [G NP NC B] L q HE RG T. destruct (request_good r L) as (_ & P1 & (b & P2 & P3) & P4 & P5 & P6 & P7). fold q in P1, P2, P3, P4, P5, P6, P7.
      assert (HC : hash_ok C) by apply CO.
      apply transmit_raises with (size := w_size W) in T.
      2:{ apply OK. } 2:{ apply (g_cache _ _ _ G). } 2:{ apply (g_size _ _ _ G). } 2:{ rewrite NP. exact (modules_run W evs s0 l0 run0). }
      destruct T as [[-> T]|[[-> T]|(id & ID & T)]].
      - right. left. split; [reflexivity|]. exact T.
      - right. right. split; [reflexivity|]. exists evs, []. split; [now rewrite app_nil_r|]. rewrite run0. cbn [fst]. rewrite <- NP. exact T.
      - exfalso. destruct (EG evs y [] e) as (E1 & E2 & E3); [reflexivity|now rewrite run0|]. rewrite run0 in E3. cbn [fst] in E3.
        destruct (g_usm _ _ _ G) as (S1 & S2 & S3).
        destruct (usm_makes C R (w_size W) CO SZ (v_usm s) id (q_level q) (q_pdu q) e (q_user q) (w_clk W (v_clock s)) b ID P4 P1 P2 P3 E1 E2 P5 P6) as (wr & K).
        + intros AU. split; [unfold sending_time in E3; rewrite S2, NC; exact E3|].
          destruct (P7 AU) as (c & AD & SU). destruct (added_run W OK HC evs _ c s0 l0 EV AD run0) as (cf & EC & [_ CF]). apply S3 in CF.
          destruct (cfg_credentials C R (w_rnd W 2) HC (v_usm s) ns e _ cf S1 RG CF) as (lc & K1 & K2). rewrite EC in K2.
          destruct (supports_keys c _ e lc HC SU AU K2) as (a & K3 & K4). exists lc, a. auto.
        + rewrite K in T. discriminate T.
    Qed.
    Lemma near_discovery s r w now s' l x : near s ->
      transmit C R (w_rnd W) (w_clk W) s r w now discovery_pdu [] [] noAuthNoPriv = (s', l, Raise x) -> allowed evs x.
    Proof.
      intros [G NP NC B] T.
      apply transmit_raises with (size := w_size W) in T.
      2:{ apply OK. } 2:{ apply (g_cache _ _ _ G). } 2:{ apply (g_size _ _ _ G). } 2:{ rewrite NP. exact (modules_run W evs s0 l0 run0). }
      destruct T as [[-> T]|[[-> T]|(id & ID & T)]].
      - right. left. split; [reflexivity|]. exact T.
      - right. right. split; [reflexivity|]. exists evs, []. split; [now rewrite app_nil_r|]. rewrite run0. cbn [fst]. rewrite <- NP. exact T.
      - exfalso. assert (PE : exists b, pdu_encode discovery_pdu = Ok b /\ zlen b <= 60000) by (eexists; split; [vm_compute; reflexivity|vm_compute; discriminate]).
        destruct PE as (b & PE & PL).
        destruct (usm_makes C R (w_size W) CO SZ (v_usm s) id noAuthNoPriv discovery_pdu [] [] (w_clk W (v_clock s)) b) as (wr & K); try assumption.
        + intros Z; discriminate Z.
        + split; [repeat split; vm_compute; easy|constructor].
        + constructor. + vm_compute. discriminate. + constructor. + vm_compute. discriminate. + intros Z; discriminate Z.
        + rewrite K in T. discriminate T.
    Qed.
    Lemma near_send s r w now eng s' l x : near s -> (r < length (v_reqs s0))%nat -> q_alive (get3 (v_reqs s) r) = true ->
      q_pdu (get3 (v_reqs s) r) = q_pdu (get3 (v_reqs s0) r) -> q_user (get3 (v_reqs s) r) = q_user (get3 (v_reqs s0) r) -> q_level (get3 (v_reqs s) r) = q_level (get3 (v_reqs s0) r) ->
      q_engine (get3 (v_reqs s) r) = q_engine (get3 (v_reqs s0) r) -> v_engine s = v_engine s0 -> (eng = None \/ eng = v_engine s0) ->
      reallySend3 C R (w_rnd W) (w_clk W) ns s r w now eng = (s', l, Raise x) -> allowed evs x.
    Proof.
      intros N L AL Q1 Q2 Q3 Q4 VE EN RS. unfold reallySend3 in RS. rewrite Q1, Q2, Q3, Q4 in RS. pose proof N as [G NP NC B].
      assert (HC : hash_ok C) by apply CO.
      destruct eng as [e|].
      - destruct EN as [EN|EN]; [discriminate EN|]. symmetry in EN.
        destruct (request_engine _ _ _ _ _ _) as [s1 z] eqn:RE.
        destruct (request_engine_ok C (w_rnd W) ns (others W evs) s r e s1 z (proj1 B) fair0 ltac:(congruence) RE) as (-> & NP1 & NC1).
        assert (G1 : good (w_size W) (still W s0) s1).
        { eapply request_engine_good; [|exact G|exact RE]. intros u op O (A & A2 & K). apply reg_op_ok in O. split; [|split].
          - exact (reach_step _ _ _ u (UUser op) A O).
          - exact A2.
          - intros n' cf E. eapply with_op; [exact HC|exact O|]. split; [exact A|now apply K]. }
        pose proof (request_engine_BD C (w_rnd W) ns (others W evs) s r e s1 (Ok tt) B fair0 AL RE) as B1.
        assert (N1 : near s1) by (constructor; [exact G1|congruence|congruence|exact B1]).
        assert (QE : q_engine (get3 (v_reqs s1) r) = Some e).
        { apply (request_engine_bal C (w_rnd W) ns (others W evs)) in RE as (_ & _ & _ & _ & _ & _ & K); [exact K|exact (proj1 B)|exact fair0|].
          right. now apply get3_alive_lt. }
        eapply near_transmit; [exact N1|exact L| | |exact RS].
        + left. exact EN.
        + eapply holder_registered; [exact B1|exact fair0|exact QE].
      - destruct (q_engine (get3 (v_reqs s0) r)) as [e|] eqn:QE.
        + eapply near_transmit; [exact N|exact L| | |exact RS].
          * right. exists r. exact QE.
          * eapply holder_registered; [exact B|exact fair0|exact Q4].
        + eapply near_discovery; [exact N|exact RS].
    Qed.
    (** What becomes the result of a wait() in one step. *)
    Lemma near_step x s' l' r e : step3 W s0 x = (s', l') -> In (SClose r (VRaised e)) (v_tasks s') ->
      In (SClose r (VRaised e)) (v_tasks s0) \/ allowed evs e.
    Proof.
      intros ST B. destruct (step_raises _ _ _ _ _ _ _ _ _ _ _ _ ST B) as [K|(n & t & s1 & new & -> & NE & TS & N)]; [left; exact K|right].
      destruct (run_good W OK evs EV s0 l0 run0) as [I G].
      assert (G' : good (w_size W) (still W s0) s0) by (destruct G as [G1 G2 G3 G4 G5]; constructor; auto; split; auto).
      destruct (task_raises _ _ _ _ _ _ _ _ _ _ _ _ TS N) as [(r0 & -> & RF)|[(r0 & un & ac & -> & PK)|[-> EN]]].
      - destruct (refresh_raises _ _ _ _ _ _ _ _ _ _ _ _ RF N) as (root & h & HP & K).
        assert (L : (root < length (v_reqs s0))%nat) by (apply (i3_lt _ I); unfold queued; rewrite HP; apply in_or_app; left; left; reflexivity).
        destruct K as [K|(c & s2 & AL & K)].
        { exfalso. destruct (request_good root L) as (P & _). lia. }
        assert (GP : get3 (v_reqs (rescheduled s0 root c)) root = q_set_sched (get3 (v_reqs s0) root) c).
        { unfold rescheduled. cbn [v_reqs set_req3 set_objects ticked set_io]. now apply get3_put_same. }
        eapply near_send with (s := rescheduled s0 root c); [|exact L| | | | | | |left; reflexivity|exact K]; rewrite ?GP; try reflexivity; [|exact AL].
        constructor; [|reflexivity|reflexivity|].
        + unfold rescheduled. apply put_good; [reflexivity|]. now apply tick_good.
        + eapply keepR_BD; [|exact balance0]. eapply keepR_trans; [|apply keepR_put; reflexivity]. apply keepR_eq; reflexivity.
      - destruct (poke_raises _ _ _ _ _ _ _ _ _ _ _ _ _ _ PK N) as (q & rest & nx & s2 & -> & AL & K). unfold send3 in K. cbn [tick3] in K.
        assert (RQ : v_reqs (assign_next s0 nx) = v_reqs s0) by (destruct nx; reflexivity).
        assert (L : (q < length (v_reqs s0))%nat) by now apply get3_alive_lt.
        eapply near_send with (r := q); [|exact L| | | | | | |right; reflexivity|exact K].
        2-6: cbn [v_reqs set_req3 set_objects set_io]; rewrite RQ, get3_put_same by exact L; first [reflexivity|exact AL].
        2: destruct nx; reflexivity.
        constructor; [| | |].
        + apply put_good; [reflexivity|]. apply tick_good. now apply assign_good.
        + destruct nx; reflexivity.
        + destruct nx; reflexivity.
        + eapply keepR_BD; [|exact balance0]. eapply keepR_trans; [apply keepR_assign|]. eapply keepR_trans; [|apply keepR_put; reflexivity]. apply keepR_eq; reflexivity.
      - left. assert (L : (r < length (v_reqs s0))%nat) by (apply nth_error_In, (i3_tasks _ I) in NE; now apply get3_alive_lt).
        destruct (history_new W _ s0 l0 RUN) as (sn & NEW & RN).
        destruct (found_run _ _ _ _ _ _ _ _ _ _ _ _ _ _ NEW RN) as [_ F]. specialize (F r L).
        pose proof (match_run _ _ _ _ _ _ _ _ _ _ _ _ _ _ NEW RN) as M.
        rewrite (end3_verdict l0 r _ F) in EN. unfold verdict in EN.
        destruct (find (decisive r) (rev l0)) as [z|] eqn:FD.
        + apply find_some in FD as [FI FD]. rewrite <- in_rev in FI. destruct z as [| | |a1 a2 a3 a4|a1 a2| |]; try discriminate FD; try discriminate EN.
          destruct (m_response _ _ M _ _ FI) as (hh & sc & _ & _ & SC & _). unfold answer3 in EN. rewrite SC in EN. destruct (_ =? 0); discriminate EN.
        + destruct (find (hearsay r) (rev l0)) as [z|]; [destruct z; try discriminate EN|]; injection EN as <-; reflexivity.
    Qed.
    Lemma outcome_of x s' l' r o : step3 W s0 x = (s', l') -> In (WOutcome r o) l' -> In (SClose r o) (v_tasks s0).
    Proof.
      intros ST B. unfold step3 in ST.
      assert (X : exists n o', x = VStep n /\ nth_error (v_tasks s0) n = Some (SClose r o')).
      { pose proof (m3_step_spec _ _ _ _ _ _ _ _ _ _ ST) as V.
        assert (S : forall s r0 w now eng s1 l x, sends s r0 w now eng s1 l x -> ~ In (WOutcome r o) l).
        { intros s2 r0 w now eng s3 l2 x0 X. inversion X; subst; [intros [|[]]; discriminate|].
          match goal with Y : _ \/ _ |- _ => destruct Y as [(? & _ & ->)|(? & _ & ->)] end; intros [|[]]; discriminate. }
        assert (A : forall r0 w s1 l y, asks (w_clk W) s0 r0 w s1 l y -> ~ In (WOutcome r o) l).
        { intros r0 w s2 l2 y0 [nx O|nx s3 l3 e O X|nx s3 l3 O X]; [intros []| |]; eapply S; eauto. }
        inversion V; subst; try solve [destruct B].
        - match goal with X : tstep _ _ _ _ _ _ _ _ _ |- _ => rename X into T end.
          inversion T; subst; try solve [destruct B as [B|[]]; discriminate]; try solve [destruct B]; try solve [exfalso; eapply A; eauto]; try solve [exfalso; eapply S; eauto].
          destruct B as [B|[]]. injection B as <- _. eexists. exists o0. split; [reflexivity|].
          match goal with X : v_tasks s0 = _ |- _ => rewrite X end. rewrite nth_error_app2, Nat.sub_diag by lia. reflexivity.
        - exfalso. match goal with X : lstep _ _ _ _ |- _ => rename X into T end.
          inversion T; subst; try solve [destruct B]; try solve [destruct B as [B|[]]; discriminate]; try solve [eapply S; eauto].
          destruct B as [B|[B|[]]]; discriminate. }
      destruct X as (n & o' & -> & N). destruct (C66_close W evs s0 l0 n r o' (PropertiesUse.used W OK) OF RUN N) as [K _].
      unfold step3 in K. rewrite ST in K. cbn [snd] in K. subst l'. destruct B as [B|[]]. injection B as <-. now apply nth_error_In in N.
    Qed.
  End Send.
  Lemma allowed_later a b e : allowed a e -> allowed (a ++ b) e.
  Proof.
    intros [H|[H|[H (x & y & -> & K)]]]; [left; exact H|right; left; exact H|right; right]. split; [exact H|]. exists x, (y ++ b). split; [now rewrite app_assoc|exact K].
  Qed.
  Lemma allowed_run evs : Forall event_ok evs -> others_fair W evs -> calls_good W evs -> engines_good W evs -> forall s l, history W evs s l ->
    (forall r e, In (SClose r (VRaised e)) (v_tasks s) -> allowed evs e) /\ (forall r e, In (WOutcome r (VRaised e)) l -> allowed evs e).
  Proof.
    induction evs as [|x evs IH] using rev_ind; intros EV OF CG EG s l H.
    - destruct (history_new W _ s l H) as (sn & NEW & RN). cbn in RN. injection RN as <- <-. apply start_fields in NEW as (_ & _ & _ & _ & _ & _ & H7 & _).
      rewrite H7. split; intros r e [].
    - apply Forall_app in EV as [EV EX]. assert (OF0 : others_fair W evs) by (intros b a e ->; apply (OF b (a ++ [x])); now rewrite app_assoc).
      assert (CG0 : calls_good W evs) by (intros b y a ->; apply (CG b y (a ++ [x])); now rewrite <- app_assoc).
      assert (EG0 : engines_good W evs) by (intros b y a e ->; apply (EG b y (a ++ [x]) e); now rewrite <- app_assoc).
      destruct H as [HN HR]. rewrite run3_app in HR. destruct (run3 W evs) as [s1 l1] eqn:R1. destruct (step3 W s1 x) as [s2 l2] eqn:ST. injection HR as <- <-.
      assert (H1 : history W evs s1 l1) by (split; [exact HN|exact R1]).
      destruct (IH EV OF0 CG0 EG0 s1 l1 H1) as [A B]. split.
      + intros r e K. apply allowed_later. destruct (near_step evs s1 l1 H1 x EV OF0 CG0 EG x s2 l2 r e ST K) as [K'|K']; [exact (A r e K')|exact K'].
      + intros r e K. apply allowed_later. apply in_log in K as [K|K]; [|exact (B r e K)].
        apply (A r e). exact (outcome_of evs s1 l1 H1 OF0 x s2 l2 r _ ST K).
  Qed.
End World.
