(** PrfUse.v -- the v3 manager as a user of the security module: the module's
    state is always one its own operations lead to, and what is sent is what the
    module made of the request. *)
From Verif Require Export SpecUsm SpecProc PrfCache PrfUsmProps.
From Verif Require Export PrfReg2 SpecReg.

Definition id_ok (i : Z) : Prop := i <> 0 /\ id_in_range gen_v1 i.
(** What the security module can have become. *)
Section Reach.
  Context (C : crypto) (R : Z) (rnd : nat -> Z).
  Definition reach (u : usm) : Prop := exists h, Forall usm_op_ok h /\ u = usm_after C R rnd h.
  Lemma reach_step u op : reach u -> usm_op_ok op -> reach (usm_step C R rnd u op).
  Proof.
    intros (h & F & ->) O. exists (h ++ [op]). split; [apply Forall_app; auto|]. unfold usm_after. rewrite fold_left_app. reflexivity.
  Qed.
  Lemma incoming_reach alive u p d ts u' x : reach u -> v3_prepareDataElements C R alive u p d ts = (u', x) -> reach u'.
  Proof.
    intros G. unfold v3_prepareDataElements. destruct (v3_decode _) as [m|ex]; [|intros H; injection H as <- _; exact G].
    destruct (has_module _ _); [|intros H; injection H as <- _; exact G].
    pose proof (reach_step u (UReceive m ts) G Logic.I) as X. cbn [usm_step] in X.
    destruct (usm_processIncoming _ _ _ _ _) as [u1 [m1|ex]]; intros H; injection H as <- _; exact X.
  Qed.
End Reach.

(** [P]: what is known of the security module while the manager sends and
    registers. *)
Section Use.
  Context (C : crypto) (R : Z) (rnd : nat -> nat -> Z) (clk : nat -> Z) (fmt : v3msg -> bool) (ns : pystr) (size : Z).
  Context (H0 : draws_ok gen_v3 (rnd 0)) (H1 : draws_ok gen_v1 (rnd 1)).
  Context (P : usm -> Prop).
  Context (PSend : forall u m e n ts, P u -> P (fst (usm_prepareOutgoing C R u m e n ts))).
  Definition reg_op (op : user_op) : Prop := exists e, op = OpRegister e ns \/ op = OpRelease e ns.
  Context (PReg : forall u op, reg_op op -> P u -> P (mkUsm (us_time u) (fst (user_step C (rnd 2) (us_users u) op)))).

  Record good (s : mgr3) : Prop := {
    g_usm : P (v_usm s);
    g_cache : gen_at gen_v3 (ca_gen (p3_cache (v_proc s)));
    g_size : p3_maxSize (v_proc s) = size;
    g_ids : gen_at gen_v1 (v_gen s);
    g_reqs : forall r, (r < length (v_reqs s))%nat -> id_ok (pdu_requestID (q_pdu (get3 (v_reqs s) r)))
  }.
  Definition keepG (s s' : mgr3) : Prop :=
    ca_gen (p3_cache (v_proc s')) = ca_gen (p3_cache (v_proc s)) /\ p3_maxSize (v_proc s') = p3_maxSize (v_proc s) /\
    v_gen s' = v_gen s /\ map q_pdu (v_reqs s') = map q_pdu (v_reqs s).
  Lemma keepG_refl s : keepG s s.
  Proof. unfold keepG. auto. Qed.
  Lemma keepG_trans a b c : keepG a b -> keepG b c -> keepG a c.
  Proof. intros (A1 & A2 & A3 & A4) (B1 & B2 & B3 & B4). unfold keepG. repeat split; congruence. Qed.
  Lemma get3_pdu l l' r : map q_pdu l' = map q_pdu l -> q_pdu (get3 l' r) = q_pdu (get3 l r).
  Proof. intros H. unfold get3. rewrite <- !(map_nth q_pdu). now rewrite H. Qed.
  Lemma keepG_good s s' : P (v_usm s') -> keepG s s' -> good s -> good s'.
  Proof.
    intros U (K1 & K2 & K3 & K4) [G1 G2 G3 G4 G5]. constructor; try congruence; auto. intros r L.
    rewrite (get3_pdu _ _ _ K4). apply G5. rewrite <- (map_length q_pdu), <- K4, map_length. exact L.
  Qed.
  Lemma same_good s s' : v_usm s' = v_usm s -> keepG s s' -> good s -> good s'.
  Proof. intros E K G. eapply keepG_good; [rewrite E; apply (g_usm s G)|exact K|exact G]. Qed.
  Lemma eq_good s s' : v_usm s' = v_usm s -> v_proc s' = v_proc s -> v_gen s' = v_gen s -> v_reqs s' = v_reqs s -> good s -> good s'.
  Proof. intros E1 E2 E3 E4. apply same_good; [exact E1|]. unfold keepG. now rewrite E2, E3, E4. Qed.
  Lemma put_pdu l r q : q_pdu q = q_pdu (get3 l r) -> map q_pdu (put l r q) = map q_pdu l.
  Proof.
    revert r. induction l as [|x l IH]; intros [|r] H; cbn; auto.
    - cbn in H. now rewrite H.
    - f_equal. apply IH. exact H.
  Qed.
  Lemma put_good s r q : q_pdu q = q_pdu (get3 (v_reqs s) r) -> good s -> good (set_req3 s r q).
  Proof. intros E. apply same_good; [reflexivity|]. unfold keepG. cbn. now rewrite put_pdu. Qed.
  Lemma assign_good s nx : good s -> good (assign_next s nx).
  Proof. destruct nx; [now apply eq_good|auto]. Qed.
  Lemma update_good s : good s -> good (updateState s).
  Proof. unfold updateState. destruct (v_next s); [now apply eq_good|auto]. Qed.
  Lemma push_good s r : good s -> good (push3 s r).
  Proof. unfold push3. destruct (heappush _ _ _ _) as [w h]. now apply eq_good. Qed.
  Lemma heapify_good s : good s -> good (heapify3 s).
  Proof. unfold heapify3. destruct (heapify _ _ _) as [w h]. now apply eq_good. Qed.
  Lemma pop_good s s' : pop3 s = Some s' -> good s -> good s'.
  Proof. unfold pop3. destruct (heappop _ _ _) as [[w h]|]; [|discriminate]. intros H. injection H as <-. now apply eq_good. Qed.
  Lemma replace_good s r s' : replace3 s r = Some s' -> good s -> good s'.
  Proof. unfold replace3. destruct (heapreplace _ _ _ _) as [[w h]|]; [|discriminate]. intros H. injection H as <-. now apply eq_good. Qed.
  Lemma listener_good s li : good s -> good (set_listener s li).
  Proof. now apply eq_good. Qed.
  Lemma tick_good s : good s -> good (set_io s (v_usm s) (v_proc s) (S (v_clock s))).
  Proof. now apply eq_good. Qed.

  (** Engine IDs. *)
  Lemma users_good s u op : reg_op op -> u = fst (user_step C (rnd 2) (us_users (v_usm s)) op) -> good s -> good (set_users s u).
  Proof. intros O E G. apply (keepG_good s); [|unfold keepG; auto|exact G]. cbn [v_usm set_users set_io]. rewrite E. apply PReg; [exact O|apply (g_usm s G)]. Qed.
  Lemma switch_good s old new s' x : good s -> switch_engine C rnd ns s old new = (s', x) -> good s' /\ exists u, s' = set_users s u.
  Proof.
    intros G. unfold switch_engine.
    assert (S0 : exists u, s = set_users s u) by (exists (us_users (v_usm s)); destruct s as [[? ?]]; reflexivity).
    assert (REL : forall s1, good s1 -> (exists u, s1 = set_users s u) ->
      match old with Some e => unregisterRemoteEngine ns s1 e | None => (s1, Ok tt) end = (s', x) -> good s' /\ exists u, s' = set_users s u).
    { intros s1 G1 [u E1]. destruct old as [e|]; [|intros H; injection H as <- _; eauto]. unfold unregisterRemoteEngine.
      destruct (ur_release _ _ _) as [u2 y] eqn:E. intros H. injection H as <- _. split; [|exists u2; now rewrite E1].
      apply (users_good s1 u2 (OpRelease e ns)); [exists e; auto| |exact G1]. cbn [user_step]. now rewrite E. }
    destruct new as [e|]; [|now apply REL]. unfold registerRemoteEngine. destruct (ur_assign _ _ _ _ _) as [u2 y] eqn:E.
    assert (G2 : good (set_users s u2)).
    { apply (users_good s u2 (OpRegister e ns)); [exists e; auto| |exact G]. cbn [user_step]. now rewrite E. }
    destruct (bind y _); [apply REL; eauto|intros H; injection H as <- _; eauto].
  Qed.
  Lemma request_engine_good s r new s' x : good s -> request_engine C rnd ns s r new = (s', x) -> good s'.
  Proof.
    intros G. unfold request_engine. destruct (opt_eqb _ _ _); [intros H; injection H as <- _; exact G|].
    destruct (switch_engine _ _ _ _ _ _) as [s1 y] eqn:E. apply switch_good in E as [G1 _]; [|exact G].
    destruct y; intros H; injection H as <- _; [|exact G1]. apply put_good; [reflexivity|exact G1].
  Qed.
  Lemma manager_engine_good s new s' x : good s -> manager_engine C rnd ns s new = (s', x) -> good s'.
  Proof.
    intros G. unfold manager_engine. destruct (opt_eqb _ _ _); [intros H; injection H as <- _; exact G|].
    destruct (switch_engine _ _ _ _ _ _) as [s1 y] eqn:E. apply switch_good in E as [G1 _]; [|exact G].
    destruct y; intros H; injection H as <- _; [|exact G1]. now apply (eq_good s1).
  Qed.

  (** Sending.  [outgoing]: what the security module is asked to secure. *)
  Definition outgoing (id : Z) (level : seclevel) (p : pdu) (e : bytes) : v3msg :=
    mkV3 (mkHeader id size (mkFlags level (is_Confirmed (pdu_cls p))) USM) (Some (mkScoped e [] p)) None (ABytes []) None None.
  Definition fairly (b : bool) (s : mgr3) : Prop := b = true -> exists o, (forall e, 0 <= o e) /\ BD ns o s.
  Definition wire_ok (b : bool) (k : nat) (y : log3) : Prop :=
    match y with
    | WSent r h w now p e user level wire =>
      exists u id, P u /\ 0 <= id <= 2147483647 /\ snd (usm_prepareOutgoing C R u (outgoing id level p e) e user (clk k)) = Ok wire /\
        ((p = discovery_pdu /\ e = [] /\ user = [] /\ level = noAuthNoPriv) \/
         (id_ok (pdu_requestID p) /\ (b = true -> 0 < registered (us_users u) ns e)))
    | _ => True
    end.
  Lemma holder_registered o s r e : BD ns o s -> (forall e, 0 <= o e) -> q_engine (get3 (v_reqs s) r) = Some e -> 0 < registered (us_users (v_usm s)) ns e.
  Proof.
    intros [[_ B] _] O Q. rewrite B, holders_eq. pose proof (heldby_get (v_reqs s) r e) as X. rewrite Q, holds_self in X.
    pose proof (holds_nonneg e (v_engine s)). specialize (O e). lia.
  Qed.
  Lemma cached_good s p e user level h : good s -> forall (p1 : proc3) cb (z : res Z), (if is_Confirmed (pdu_cls p)
         then match cache gen_v3 (rnd 0) (p3_cache (v_proc s)) (mkE3 e [] h user USM level) with
              | (c, Ok id) => (with_cache3 (v_proc s) c, Some id, Ok id) | (c, Raise e0) => (with_cache3 (v_proc s) c, None, Raise e0) end
         else let '(id, g) := numgen_next (ca_gen (p3_cache (v_proc s))) in
              (with_cache3 (v_proc s) (mkCache g (ca_made (p3_cache (v_proc s))) (ca_out (p3_cache (v_proc s)))), None, Ok id)) = (p1, cb, z) ->
         gen_at gen_v3 (ca_gen (p3_cache p1)) /\ p3_maxSize p1 = size /\ match z with Ok id => 0 <= id <= 2147483647 | Raise _ => True end.
  Proof.
    intros G. intros p1 cb z. pose proof (g_cache s G) as GC. destruct (is_Confirmed _).
      - destruct (cache _ _ _ _) as [c [id|ex]] eqn:CE; intros H; injection H as <- _ <-; cbn [p3_cache p3_maxSize with_cache3].
        + apply (loop_ok gen_v3 (rnd 0) ltac:(cbn; lia) H0) in CE as (_ & RG & _ & _ & GA); [|exact GC].
          split; [exact GA|]. split; [apply (g_size s G)|]. unfold id_in_range in RG. cbn in RG. lia.
        + split; [|split; [apply (g_size s G)|exact Logic.I]].
          clear - CE GC H0. unfold cache in CE. revert CE GC. generalize (p3_cache (v_proc s)). generalize 10%nat. 
          induction n as [|n IH]; intros c0 CE GC; cbn [cache_loop] in CE; [injection CE as <- _; exact GC|].
          pose proof (attempt_gen gen_v3 (rnd 0) H0 c0 (mkE3 e [] h user USM level) GC) as GA.
          destruct (cache_attempt _ _ _ _) as [[i|] c1]; [discriminate|]. eapply IH; [exact CE|exact GA].
      - destruct (numgen_next _) as [id g] eqn:NE. intros H. injection H as <- _ <-. cbn [p3_cache p3_maxSize with_cache3 ca_gen].
        pose proof (gen_at_next gen_v3 _ GC) as GN. pose proof (gen_at_range gen_v3 ltac:(cbn; lia) _ GC) as GR. rewrite NE in GN, GR. cbn in GN, GR.
        split; [exact GN|]. split; [apply (g_size s G)|]. unfold id_in_range in GR. cbn in GR. lia.
  Qed.
  Lemma outgoing_good s p h e user level ts o y : good s -> v3_prepareOutgoing C R (rnd 0%nat) (v_usm s) (v_proc s) p h e user level (Some USM) [] ts = (o, y) ->
    P (s3_usm o) /\ gen_at gen_v3 (ca_gen (p3_cache (s3_proc o))) /\ p3_maxSize (s3_proc o) = size.
  Proof.
    intros G E. unfold v3_prepareOutgoing in E. destruct (has_module (v_proc s) USM) eqn:HM; cbn [negb] in E.
    2:{ injection E as <- <-. split; [apply (g_usm s G)|]. split; [apply (g_cache s G)|apply (g_size s G)]. }
    pose proof (cached_good s p e user level h G) as CA.
    destruct (if is_Confirmed (pdu_cls p) then _ else _) as [[p1 cb] z] eqn:CE. destruct (CA _ _ _ eq_refl) as (CA1 & CA2 & CA3). clear CA CE.
    destruct z as [id|ex].
    2:{ injection E as <- <-. split; [apply (g_usm s G)|]. auto. }
    match type of E with context [usm_prepareOutgoing C R ?a ?b ?c ?d ?f] => pose proof (PSend a b c d f (g_usm s G)) as X; destruct (usm_prepareOutgoing C R a b c d f) as [u wr] eqn:UE end.
    injection E as <- <-. split; [exact X|auto].
  Qed.
  Lemma transmit_good b k s r w now p e user level s' l x : good s -> k = v_clock s ->
    ((p = discovery_pdu /\ e = [] /\ user = [] /\ level = noAuthNoPriv) \/
     (id_ok (pdu_requestID p) /\ (b = true -> 0 < registered (us_users (v_usm s)) ns e))) ->
    transmit C R rnd clk s r w now p e user level = (s', l, x) -> good s' /\ Forall (wire_ok b k) l.
  Proof.
    intros G KS D. subst k. unfold transmit. cbn [tick3 v_usm v_proc set_io]. destruct (v3_prepareOutgoing _ _ _ _ _ _ _ _ _ _ _ _ _) as [o y] eqn:E.
    unfold v3_prepareOutgoing in E. destruct (has_module (v_proc s) USM) eqn:HM; cbn [negb] in E.
    2:{ injection E as <- <-. intros H. injection H as <- <- _. split; [now apply (eq_good s)|]. constructor; [exact Logic.I|constructor]. }
    pose proof (cached_good s p e user level (length (v_msgs s)) G) as CA.
    destruct (if is_Confirmed (pdu_cls p) then _ else _) as [[p1 cb] z] eqn:CE. destruct (CA _ _ _ eq_refl) as (CA1 & CA2 & CA3). clear CA CE.
    assert (FIN : forall u wl, P u -> good (set_objects (set_io s u p1 (S (v_clock s))) (v_reqs s) wl (v_bools s))).
    { intros u wl RU. destruct G as [G1 G2 G3 G4 G5]. constructor; auto. }
    destruct z as [id|ex].
    2:{ injection E as <- <-. intros H. injection H as <- <- _. split; [apply FIN, (g_usm s G)|]. constructor; [exact Logic.I|constructor]. }
    rewrite CA2 in E. fold (outgoing id level p e) in E.
    destruct (usm_prepareOutgoing _ _ _ _ _ _ _) as [u wr] eqn:UE. injection E as <- <-.
    assert (RU : P u) by (pose proof (PSend (v_usm s) (outgoing id level p e) e user (clk (v_clock s)) (g_usm s G)) as X; now rewrite UE in X).
    destruct wr as [wire|ex]; [destruct (refused rnd _)|]; intros H; injection H as <- <- _; (split; [apply FIN, RU|]); constructor; try constructor; try exact Logic.I.
    exists (v_usm s), id. split; [apply (g_usm s G)|]. split; [exact CA3|]. split; [now rewrite UE|exact D].
  Qed.

  Lemma fairly_by b s s' : (forall o, (forall e, 0 <= o e) -> BD ns o s -> BD ns o s') -> fairly b s -> fairly b s'.
  Proof. intros H F B. destruct (F B) as (o & O & X). exists o. split; [exact O|]. now apply H. Qed.
  Lemma fairly_keep b s s' : keepR s s' -> fairly b s -> fairly b s'.
  Proof. intros K. apply fairly_by. intros o _. intros X; eapply keepR_BD; [exact K|exact X]. Qed.
  Notation alive s r := (q_alive (get3 (v_reqs s) r) = true).
  Lemma req_ids s r : good s -> alive s r -> id_ok (pdu_requestID (q_pdu (get3 (v_reqs s) r))).
  Proof. intros G A. apply (g_reqs s G). now apply get3_alive_lt. Qed.
  Lemma request_engine_clock s r new s' x : request_engine C rnd ns s r new = (s', x) -> v_clock s' = v_clock s.
  Proof. intros H. apply request_engine_spec in H as (u & [(ex & _ & ->)|(_ & ->)]); reflexivity. Qed.
  Lemma reallySend_good b k s r w now eng s' l x : good s -> k = v_clock s -> fairly b s -> alive s r ->
    reallySend3 C R rnd clk ns s r w now eng = (s', l, x) -> good s' /\ Forall (wire_ok b k) l.
  Proof.
    intros G KS F A. pose proof (req_ids s r G A) as ID. unfold reallySend3. destruct eng as [e|].
    - destruct (request_engine C rnd ns s r (Some e)) as [s1 [[]|ex]] eqn:E.
      + pose proof (request_engine_good _ _ _ _ _ G E) as G1. intros H. eapply transmit_good; [exact G1| | |exact H]; [rewrite KS; symmetry; apply (request_engine_clock _ _ _ _ _ E)|].
        right. split; [exact ID|]. intros ->. destruct (F eq_refl) as (o & O & [B D]).
        pose proof (request_engine_BD C rnd ns o s r e s1 (Ok tt) (conj B D) O A E) as B1.
        apply (request_engine_bal C rnd ns o) in E as (_ & _ & _ & _ & _ & _ & Q); [|exact B|exact O|right; now apply get3_alive_lt].
        eapply holder_registered; [exact B1|exact O|exact Q].
      + pose proof (request_engine_good _ _ _ _ _ G E) as G1. intros H. injection H as <- <- _. split; [exact G1|]. constructor; [exact Logic.I|constructor].
    - destruct (q_engine _) as [e|] eqn:Q; intros H; (eapply transmit_good; [exact G|exact KS| |exact H]).
      + right. split; [exact ID|]. intros ->. destruct (F eq_refl) as (o & O & B). eapply holder_registered; eauto.
      + left. auto.
  Qed.
  Lemma send_good b s r w eng s' l x : good s -> fairly b s -> alive s r ->
    send3 C R rnd clk ns s r w eng = (s', l, x) -> good s' /\ Forall (wire_ok b (S (v_clock s))) l.
  Proof.
    intros G F A. unfold send3. cbn [tick3]. intros H. eapply reallySend_good; [| | | |exact H].
    - apply put_good; [reflexivity|]. now apply tick_good.
    - reflexivity.
    - eapply fairly_keep; [|exact F]. eapply keepR_trans; [apply (tick_keep clk s)|]. apply keepR_put. reflexivity.
    - cbn [v_reqs set_req3 set_objects set_io]. rewrite get3_put_same; [exact A|]. now apply get3_alive_lt.
  Qed.
  Lemma close_messages_gen r c l : ca_gen (fst (close_messages r c l)) = ca_gen c.
  Proof.
    revert c. induction l as [|g l IH]; intros c; cbn [close_messages]; [reflexivity|].
    destruct (_ && _)%bool.
    - destruct (close_messages r _ l) as [c' l'] eqn:E. cbn. rewrite (f_equal fst (eq_sym E)) || idtac.
      specialize (IH (match g_cb g with Some id => uncache c id | None => c end)). rewrite E in IH. cbn in IH. rewrite IH. destruct (g_cb g); reflexivity.
    - destruct (close_messages r c l) as [c' l'] eqn:E. specialize (IH c). rewrite E in IH. exact IH.
  Qed.
  Lemma close_good s r s' x : good s -> close3 C rnd ns s r = (s', x) -> good s'.
  Proof.
    intros G. unfold close3. pose proof (close_messages_gen r (p3_cache (v_proc s)) (v_msgs s)) as K.
    destruct (close_messages _ _ _) as [c l]. cbn [fst] in K. intros H. eapply request_engine_good; [|exact H].
    eapply same_good; [| |exact G]; [reflexivity|]. split; [exact K|]. repeat split.
  Qed.
  Lemma request_locked_good b s r w s' l x : good s -> fairly b s -> alive s r ->
    request_locked C R rnd clk ns s r w = (s', l, x) -> good s' /\ Forall (wire_ok b (S (v_clock s))) l.
  Proof.
    intros G F A. unfold request_locked. destruct (onRequest _ _) as [nx now].
    pose proof (assign_good s nx G) as G1. pose proof (fairly_keep b _ _ (keepR_assign s nx) F) as F1.
    assert (A1 : alive (assign_next s nx) r) by (destruct nx; exact A).
    destruct now; [|intros H; injection H as <- <- _; split; [exact G1|constructor]].
    destruct (send3 _ _ _ _ _ _ _ _ _) as [[s1 l1] y] eqn:E. apply (send_good b) in E as [G2 W2]; [|exact G1|exact F1|exact A1].
    replace (v_clock (assign_next s nx)) with (v_clock s) in W2 by (destruct nx; reflexivity).
    destruct y; intros H; injection H as <- <- _; (split; [|exact W2]); [apply update_good, push_good, G2|exact G2].
  Qed.
  Lemma refresh_pop_good s r s' new l : good s -> refresh_pop s r = (s', new, l) -> good s' /\ l = [].
  Proof. intros G. unfold refresh_pop. destruct (pop3 s) eqn:E; intros H; injection H as <- _ <-; (split; [|reflexivity]); [eapply pop_good; eauto|exact G]. Qed.
  Lemma refresh_good b s r s' new l : good s -> fairly b s -> refresh3 C R rnd clk ns s r = (s', new, l) -> good s' /\ Forall (wire_ok b (S (v_clock s))) l.
  Proof.
    intros G F. unfold refresh3. destruct (v_heap s) as [|root rest]; [intros H; injection H as <- _ <-; split; [exact G|constructor]|].
    assert (POP : forall s0, good s0 -> refresh_pop s0 r = (s', new, l) -> good s' /\ Forall (wire_ok b (S (v_clock s))) l).
    { intros s0 G0 H. apply refresh_pop_good in H as [H ->]; [|exact G0]. split; [exact H|constructor]. }
    destruct (q_alive (get3 (v_reqs s) root)) eqn:A; cbn [negb]; [|now apply POP].
    destruct (q_event _); [now apply POP|]. cbn [tick3].
    pose proof (tick_good s G) as GT. pose proof (fairly_keep b _ _ (tick_keep clk s) F) as FT. cbn [tick3 snd] in FT.
    destruct (sched_refresh _ _) as [[|wt|c]|ex].
    - now apply POP.
    - intros H; injection H as <- _ <-. split; [exact GT|]. constructor; [exact Logic.I|constructor].
    - destruct (reallySend3 _ _ _ _ _ _ _ _ _ _) as [[s1 l1] y] eqn:E. apply (reallySend_good b (S (v_clock s))) in E as [G1 W1].
      2:{ apply put_good; [reflexivity|exact GT]. }
      2:{ reflexivity. }
      2:{ eapply fairly_keep; [|exact FT]. apply keepR_put. reflexivity. }
      2:{ cbn [v_reqs set_req3 set_objects set_io]. rewrite get3_put_same; [exact A|]. now apply get3_alive_lt. }
      destruct y; [|intros H; injection H as <- _ <-; split; [exact G1|exact W1]].
      destruct (replace3 s1 root) eqn:RP; intros H; injection H as <- _ <-; (split; [|exact W1]); [eapply replace_good; eauto|exact G1].
    - intros H; injection H as <- _ <-. split; [exact GT|constructor].
  Qed.
  Lemma poke_good b s r unsent active s' new l : good s -> fairly b s -> poke3 C R rnd clk ns s r unsent active = (s', new, l) -> good s' /\ Forall (wire_ok b (S (v_clock s))) l.
  Proof.
    intros G F. unfold poke3. destruct unsent as [|q rest].
    { destruct active; intros H; injection H as <- _ <-; (split; [exact G|]); constructor; try exact Logic.I; constructor. }
    destruct (q_alive _) eqn:A; [|intros H; injection H as <- _ <-; split; [exact G|constructor]].
    destruct (request_locked _ _ _ _ _ _ _ _) as [[s1 l1] y] eqn:E. apply (request_locked_good b) in E as [G1 W1]; [|exact G|exact F|exact A].
    destruct y as [[]|]; intros H; injection H as <- _ <-; (split; [|exact W1]); [exact G1| |exact G1].
    now apply (eq_good s1).
  Qed.
  Lemma task_good b s t s' new l : good s -> fairly b s -> alive s (task_req3 t) -> task3_step C R rnd clk ns s t = (s', new, l) ->
    good s' /\ Forall (wire_ok b (S (v_clock s))) l.
  Proof.
    intros G F A. destruct t as [r|r|r|r|r unsent active|r limit|r|r out]; cbn [ManagerV3.task3_step task_req3] in *.
    - destruct (locked3 s); [intros H; injection H as <- _ <-; split; [exact G|constructor]|].
      destruct (request_locked _ _ _ _ _ _ _ _) as [[s1 l1] y] eqn:E. apply (request_locked_good b) in E as [G1 W1]; [|exact G|exact F|exact A].
      destruct y as [[]|]; intros H; injection H as <- _ <-; (split; [|exact W1]); [exact G1| |exact G1]. now apply (eq_good s1).
    - cbn [tick3]. pose proof (tick_good s G) as GT. destruct (sched_expired _ _); intros H; injection H as <- _ <-; (split; [exact GT|constructor]).
    - now apply refresh_good.
    - destruct (locked3 s); intros H; injection H as <- _ <-; (split; [|constructor]); [exact G|].
      eapply eq_good; [| | | |apply update_good, (assign_good s (onInactive (v_state s))), G]; reflexivity.
    - now apply poke_good.
    - destruct (q_event _); intros H; injection H as <- _ <-; (split; [exact G|constructor]).
    - intros H; injection H as <- _ <-. split; [exact G|constructor].
    - destruct (close3 _ _ _ _ _) as [s1 y] eqn:E. apply close_good in E; [|exact G].
      destruct y; intros H; injection H as <- _ <-; (split; [exact E|]); constructor; try exact Logic.I; constructor.
  Qed.
  Lemma push_step_good b s h m s' l : good s -> push_step fmt s h m = (s', l) -> good s' /\ Forall (wire_ok b (S (v_clock s))) l.
  Proof.
    intros G. unfold push_step. intros H.
    repeat match type of H with
    | context [match ?x with _ => _ end] => match x with
        | q_exception _ => fail 1 | q_event _ => fail 1 | fl_auth _ => fail 1 | _ => destruct x end
    | context [if ?x then _ else _] => match x with
        | q_exception _ => fail 1 | q_event _ => fail 1 | fl_auth _ => fail 1 | _ => destruct x end
    end; injection H as <- <-; (split; [|repeat (constructor; try exact Logic.I)]); try (apply listener_good, G).
    apply put_good; [|apply listener_good, G]. cbn [v_reqs set_listener set_threads].
    destruct (fl_auth _); [destruct (q_event _)|destruct (q_exception _)]; reflexivity.
  Qed.
  Lemma listen_good b s s' l : inv3 s -> good s -> fairly b s -> listen3 C R rnd clk fmt ns s = (s', l) -> good s' /\ Forall (wire_ok b (S (v_clock s))) l.
  Proof.
    intros I G F. assert (LIS := i3_listener s I). unfold listen3. destruct (v_listener s) as [|h m|r e w|r e w|r|r m|r m] eqn:V.
    - intros H; injection H as <- <-. split; [exact G|constructor].
    - now apply push_step_good.
    - destruct (locked3 s); [intros H; injection H as <- <-; split; [exact G|constructor]|].
      destruct (onReport _ _ _) as [[nx sendAll]|ex]; [|intros H; injection H as <- <-; split; [apply listener_good, G|constructor]].
      destruct (send3 _ _ _ _ _ _ _ _ _) as [[s1 l1] y] eqn:E. apply (send_good b) in E as [G1 W1].
      2:{ apply assign_good, G. }
      2:{ eapply fairly_keep; [apply keepR_assign|exact F]. }
      2:{ destruct nx; apply LIS; reflexivity. }
      replace (v_clock (assign_next s nx)) with (v_clock s) in W1 by (destruct nx; reflexivity).
      destruct y; [|intros H; injection H as <- <-; split; [apply listener_good, G1|exact W1]].
      destruct sendAll; intros H; injection H as <- <-; (split; [|exact W1]).
      + apply listener_good, update_good, heapify_good, G1.
      + apply listener_good, heapify_good, G1.
    - destruct (v_unsent s) as [|q rest]; [intros H; injection H as <- <-; split; [apply listener_good, G|constructor]|].
      assert (GQ : good (set_queue s (v_heap s) rest (v_refs s))) by now apply (eq_good s).
      assert (FQ : fairly b (set_queue s (v_heap s) rest (v_refs s))) by (eapply fairly_keep; [|exact F]; now apply keepR_eq).
      destruct (q_alive _) eqn:A; [|intros H; injection H as <- <-; split; [exact GQ|constructor]].
      destruct (send3 _ _ _ _ _ _ _ _ _) as [[s1 l1] y] eqn:E. apply (send_good b) in E as [G1 W1]; [|exact GQ|exact FQ|exact A].
      destruct y; intros H; injection H as <- <-; (split; [|exact W1]); [apply push_good, G1|apply listener_good, G1].
    - intros H; injection H as <- <-. split; [|constructor]. apply listener_good. eapply same_good; [| |exact G]; [reflexivity|].
      split; [reflexivity|]. split; [reflexivity|]. split; [reflexivity|]. cbn. apply put_pdu. reflexivity.
    - destruct (locked3 s); [intros H; injection H as <- <-; split; [exact G|constructor]|].
      destruct (v3_engineID m) as [e|]; [|intros H; injection H as <- <-; split; [apply listener_good, G|constructor]].
      destruct (onResponse _ _ _ _) as [[nx []]|ex].
      + destruct (manager_engine _ _ _ _ _) as [s1 y] eqn:E. apply manager_engine_good in E; [|apply assign_good, G].
        destruct y; intros H; injection H as <- <-; (split; [|constructor]); [apply listener_good, update_good, E|apply listener_good, E].
      + intros H; injection H as <- <-. split; [|constructor]. apply listener_good, assign_good, G.
      + intros H; injection H as <- <-. split; [|constructor]. apply listener_good, G.
    - intros H; injection H as <- <-. split; [|repeat (constructor; try exact Logic.I)]. apply listener_good. destruct (q_event _); [exact G|]. now apply put_good.
  Qed.

  Lemma new_id n : id_ok (fst (numgen_next (newGenerator rnd n))) /\ gen_at gen_v1 (snd (numgen_next (newGenerator rnd n))).
  Proof.
    assert (GI : gen_at gen_v1 (newGenerator rnd n)) by (apply (gen_at_init gen_v1); apply H1).
    split; [|now apply gen_at_next]. split; [|now apply gen_at_range; [cbn; lia|]].
    pose proof (H1 n) as D. cbn [gs_bits gen_v1] in D. change (2 ^ (32 - 1)) with 2147483648 in D.
    unfold newGenerator, numgen_init, numgen_next. cbn [ng_previous ng_step ng_wrap ng_range fst]. change (Z.shiftl (Z.shiftl 1 (32 - 1)) 1) with 4294967296.
    destruct (_ <? _); lia.
  Qed.
  Lemma generate_good s id s' : good s -> generateRequestID rnd s = (id, s') ->
    good s' /\ id_ok id /\ v_reqs s' = v_reqs s.
  Proof.
    intros G. unfold generateRequestID. pose proof (gen_at_next gen_v1 _ (g_ids s G)) as GN.
    pose proof (gen_at_range gen_v1 ltac:(cbn; lia) _ (g_ids s G)) as GR.
    destruct (numgen_next (v_gen s)) as [i g]. cbn [fst snd] in GN, GR. destruct (Z.eqb_spec i 0) as [E|E].
    - pose proof (new_id (v_made s)) as [NI NG]. destruct (numgen_next (newGenerator _ _)) as [i' g']. cbn [fst snd] in NI, NG.
      intros H. injection H as <- <-. split; [|split; [exact NI|reflexivity]]. destruct G as [G1 G2 G3 G4 G5]. constructor; auto.
    - intros H. injection H as <- <-. split; [|split; [split; [exact E|exact GR]|reflexivity]]. destruct G as [G1 G2 G3 G4 G5]. constructor; auto.
  Qed.
  Lemma set_requestID_id p id : pdu_requestID (set_requestID p id) = id.
  Proof. reflexivity. Qed.
  (** The other events: a datagram, and other uses of the security module. *)
  Definition closed (s : mgr3) (x : event3) : Prop :=
    match x with
    | VUsers op => P (mkUsm (us_time (v_usm s)) (fst (user_step C (rnd 2) (us_users (v_usm s)) op)))
    | VReceive d => forall alive u y, v3_prepareDataElements C R alive (v_usm s) (v_proc s) d (clk (v_clock s)) = (u, y) -> P u
    | _ => True
    end.
  Lemma step_good b s x s' l : inv3 s -> good s -> fairly b s -> m3_step C R rnd clk fmt ns s x = (s', l) ->
    (closed s x -> good s') /\ Forall (wire_ok b (S (v_clock s))) l.
  Proof.
    intros I G F. destruct x as [p user level timeout period|r|n|d| |r|op|p e user level|h]; cbn [ManagerV3.m3_step].
    - destruct (generateRequestID rnd s) as [id s0] eqn:E. apply generate_good in E as (G0 & ID & RQ); [|exact G]. cbn [tick3]. intros H. injection H as <- <-.
      split; [intros _|constructor]. destruct G0 as [G1 G2 G3 G4 G5]. constructor; auto.
      intros r L. cbn [v_reqs add_task3 set_threads set_queue set_objects set_io] in *. rewrite get3_app. rewrite app_length in L. cbn in L.
      destruct (Nat.eqb_spec r (length (v_reqs s0))) as [->|N]; [cbn [q_pdu]; rewrite set_requestID_id; exact ID|]. apply G5. lia.
    - destruct (_ && _)%bool; intros H; injection H as <- <-; (split; [intros _|constructor]); [|exact G]. now apply (eq_good s).
    - destruct (nth_error (v_tasks s) n) as [t|] eqn:N; [|intros H; injection H as <- <-; split; [intros _; exact G|constructor]].
      destruct (task3_step _ _ _ _ _ _ _) as [[s1 new] l1] eqn:T. apply (task_good b) in T as [G1 W1]; [|exact G|exact F|].
      2:{ apply (i3_tasks s I). eapply nth_error_In; eauto. }
      intros H. injection H as <- <-. split; [intros _|exact W1]. now apply (eq_good s1).
    - destruct (v_listener s); try (intros H; injection H as <- <-; split; [intros _; exact G|constructor]).
      cbn [tick3]. destruct (v3_prepareDataElements _ _ _ _ _ _ _) as [u y] eqn:E.
      destruct y as [[m h]|ex]; intros H; injection H as <- <-; (split; [intros X; apply X in E|constructor]); destruct G as [G1 G2 G3 G4 G5]; constructor; auto.
    - intros H. destruct (listen_good b s s' l I G F H). auto.
    - destruct (_ || _)%bool; [intros H; injection H as <- <-; split; [intros _; exact G|constructor]|].
      destruct (close3 _ _ _ _ _) as [s1 y] eqn:E. apply close_good in E; [|apply put_good; [reflexivity|exact G]].
      intros H. injection H as <- <-. split; [intros _; exact E|constructor].
    - intros H. injection H as <- <-. split; [intros X|constructor]. apply (keepG_good s); [exact X|unfold keepG; auto|exact G].
    - cbn [tick3 v_usm v_proc v_msgs set_io]. destruct (v3_prepareOutgoing _ _ _ _ _ _ _ _ _ _ _ _ _) as [o y] eqn:E. intros H. injection H as <- <-.
      apply outgoing_good in E as (E1 & E2 & E3); [|exact G]. split; [intros _|constructor]. destruct G as [G1 G2 G3 G4 G5]. constructor; auto.
    - destruct (g_own _); [intros H; injection H as <- <-; split; [intros _; exact G|constructor]|].
      destruct (g_cb _); intros H; injection H as <- <-; (split; [intros _|constructor]); [|exact G]. destruct G as [G1 G2 G3 G4 G5]. constructor; auto.
  Qed.
  Lemma start_good u engineID s0 x : P u -> mgr3_new C rnd ns u size engineID = (s0, x) -> good s0.
  Proof.
    intros RU. unfold mgr3_new. match goal with |- context [manager_engine _ _ _ ?a _] => set (s := a) end.
    assert (G0 : good s).
    { constructor; auto.
      - cbn. apply (gen_at_init gen_v3). apply H0.
      - cbn. apply (gen_at_init gen_v1). apply H1.
      - intros r L. cbn in L. lia. }
    destruct engineID as [e|]; [|intros H; injection H as <- _; exact G0].
    destruct (manager_engine _ _ _ _ _) as [s1 y] eqn:E. apply manager_engine_good in E; [|exact G0]. intros H. injection H as <- _. now apply (eq_good s1).
  Qed.
End Use.
