(** PrfMgr3a.v -- the SNMPv3 manager: invariants of all its histories. *)
From Verif Require Export PrfMgr3.
From Coq Require Import Permutation.

(** * Lists *)
Lemma put_put {A} (l : list A) r a b : put (put l r a) r b = put l r b.
Proof. revert r. induction l as [|x l IH]; intros [|r]; cbn; auto. now rewrite IH. Qed.
Lemma perm_cnt (l l' : list nat) : Permutation l l' <-> forall x, count_occ Nat.eq_dec l x = count_occ Nat.eq_dec l' x.
Proof. apply Permutation_count_occ. Qed.
Lemma cnt_cons a (l : list nat) x : count_occ Nat.eq_dec (a :: l) x = (count_occ Nat.eq_dec [a] x + count_occ Nat.eq_dec l x)%nat.
Proof. cbn. destruct (Nat.eq_dec a x); auto. Qed.
Ltac pcnt :=
  repeat match goal with H : Permutation _ _ |- _ => rewrite perm_cnt in H end;
  rewrite perm_cnt; let x := fresh "x" in intros x;
  repeat match goal with H : forall y, count_occ _ _ y = _ |- _ => specialize (H x) end;
  repeat match goal with
  | H : context [count_occ _ (_ ++ _) _] |- _ => rewrite count_occ_app in H
  | |- context [count_occ _ (_ ++ _) _] => rewrite count_occ_app
  | H : context [count_occ _ (?a :: ?l) _] |- _ => lazymatch l with nil => fail | _ => rewrite (cnt_cons a l) in H end
  | |- context [count_occ _ (?a :: ?l) _] => lazymatch l with nil => fail | _ => rewrite (cnt_cons a l) end
  end; cbn [count_occ] in *; lia.

(** * What never changes, or changes in one direction *)
Definition evolves3 (q q' : req3) : Prop :=
  q_pdu q' = q_pdu q /\ q_user q' = q_user q /\ q_level q' = q_level q /\
  sc_expiration (q_sched q') = sc_expiration (q_sched q) /\ sc_period (q_sched q') = sc_period (q_sched q) /\
  (q_alive q' = true -> q_alive q = true) /\ (q_event q = true -> q_event q' = true).
Lemma evolves3_refl q : evolves3 q q.
Proof. unfold evolves3. auto 8. Qed.
Lemma evolves3_trans a b c : evolves3 a b -> evolves3 b c -> evolves3 a c.
Proof. unfold evolves3. intros (?&?&?&?&?&?&?) (?&?&?&?&?&?&?). repeat split; try congruence; auto. Qed.
Definition evo3 (s s' : mgr3) : Prop :=
  (v_clock s <= v_clock s')%nat /\ (length (v_reqs s) <= length (v_reqs s'))%nat /\
  (forall r, (r < length (v_reqs s))%nat -> evolves3 (get3 (v_reqs s) r) (get3 (v_reqs s') r)) /\
  (length (v_msgs s) <= length (v_msgs s'))%nat /\
  (forall h, (h < length (v_msgs s))%nat -> g_req (getm (v_msgs s') h) = g_req (getm (v_msgs s) h) /\ g_sync (getm (v_msgs s') h) = g_sync (getm (v_msgs s) h) /\
    g_own (getm (v_msgs s') h) = g_own (getm (v_msgs s) h) /\ (g_open (getm (v_msgs s') h) = true -> g_open (getm (v_msgs s) h) = true)).
Lemma evo3_refl s : evo3 s s.
Proof. unfold evo3. repeat split; auto using evolves3_refl. Qed.
Lemma evo3_trans a b c : evo3 a b -> evo3 b c -> evo3 a c.
Proof.
  intros (A1 & A2 & A3 & A4 & A5) (B1 & B2 & B3 & B4 & B5). split; [lia|]. split; [lia|]. split; [|split; [lia|]].
  - intros r L. eapply evolves3_trans; [apply A3; lia|apply B3; lia].
  - intros h L. destruct (A5 h L) as (X & Y & V & Z), (B5 h ltac:(lia)) as (X' & Y' & V' & Z'). split; [congruence|]. split; [congruence|]. split; [congruence|auto].
Qed.
Lemma evo3_put s s' r q extra : v_reqs s' = put (v_reqs s) r q -> evolves3 (get3 (v_reqs s) r) q -> (v_clock s <= v_clock s')%nat ->
  v_msgs s' = v_msgs s ++ extra -> evo3 s s'.
Proof.
  intros E1 E2 E3 E4. split; [auto|]. rewrite E1, put_length, E4, app_length. split; [lia|]. split; [|split; [lia|]].
  - intros r' L. rewrite get3_put. destruct (_ && _)%bool eqn:X; [|apply evolves3_refl]. apply andb_prop in X as [X _]. apply Nat.eqb_eq in X as <-. exact E2.
  - intros h L. unfold getm. rewrite app_nth1 by auto. auto.
Qed.
Lemma evo3_same s s' : v_reqs s' = v_reqs s -> v_msgs s' = v_msgs s -> (v_clock s <= v_clock s')%nat -> evo3 s s'.
Proof. intros E1 E2 E3. split; [auto|]. rewrite E1, E2. repeat split; auto using evolves3_refl. Qed.

(** * Sending, in one go *)
Section Sent.
  Context (clk : nat -> Z).
  (** [r] is sent with the new schedule [sc]. *)
  Inductive sent_by (s : mgr3) (r : nat) (w : why3) (sc : sched) (now : Z) (eng : option bytes) : mgr3 -> list log3 -> res unit -> Prop :=
  | SentRefused u ex : eng <> None ->
      let q := get3 (v_reqs s) r in
      sent_by s r w sc now eng
        (set_objects (set_io s u (v_proc s) (S (v_clock s))) (put (v_reqs s) r (q_set_sched q sc)) (v_msgs s) (v_bools s))
        [WFailed r None w ex] (Raise ex)
  | SentMade u p c cb d e user lev l x :
      let q := get3 (v_reqs s) r in
      let h := length (v_msgs s) in
      target eng q = (d, e, user, lev) -> (v_clock s < c)%nat ->
      cached3 (v_proc s) p cb (mkE3 e [] h user USM lev) ->
      (exists wire, x = Ok tt /\ l = [WSent r h w now d e user lev wire]) \/ (exists ex, x = Raise ex /\ l = [WFailed r (Some h) w ex]) ->
      sent_by s r w sc now eng
        (set_objects (set_io s u p c) (put (v_reqs s) r (q_set_engine (q_set_sched q sc) (engine_after eng q)))
           (v_msgs s ++ [mkMsg3 r (q_sync q) cb true true]) (v_bools s)) l x.
  Lemma sends_sent_by s r w sc now eng s' l x : (r < length (v_reqs s))%nat ->
    sends (rescheduled s r sc) r w now eng s' l x -> sent_by s r w sc now eng s' l x.
  Proof.
    intros L. assert (G : get3 (v_reqs (rescheduled s r sc)) r = q_set_sched (get3 (v_reqs s) r) sc) by (cbn; now apply get3_put_same).
    intros H. inversion H; subst.
    - pose proof (SentRefused s r w sc now eng u ex) as X. apply X. auto.
    - unfold q, h in *. clear H. rewrite G in H0 |- *. cbn [v_proc v_clock v_msgs rescheduled set_req3 set_objects ticked set_io] in *.
      assert (T : target eng (get3 (v_reqs s) r) = (d, e, user, lev)) by exact H0.
      pose proof (SentMade s r w sc now eng u p c cb d e user lev l x T ltac:(lia) H2 H3) as X.
      cbn [v_reqs v_bools rescheduled set_req3 set_objects ticked set_io]. rewrite put_put. exact X.
  Qed.
  Lemma readied_sent_by s r w now eng s' l x : (r < length (v_reqs s))%nat ->
    sends (readied clk s r) r w now eng s' l x -> sent_by s r w (sched_send (q_sched (get3 (v_reqs s) r)) (clk (v_clock s))) now eng s' l x.
  Proof. intros L H. apply sends_sent_by; auto. Qed.
  (** The parts that are not touched. *)
  Lemma sent_by_frame s r w sc now eng s' l x : sent_by s r w sc now eng s' l x ->
    v_heap s' = v_heap s /\ v_unsent s' = v_unsent s /\ v_refs s' = v_refs s /\ v_tasks s' = v_tasks s /\ v_listener s' = v_listener s /\
    v_state s' = v_state s /\ v_next s' = v_next s /\ v_engine s' = v_engine s /\ v_bools s' = v_bools s /\
    (v_clock s < v_clock s')%nat.
  Proof. intros H. inversion H; subst; cbn; repeat split; lia. Qed.
  Lemma sent_by_reqs s r w sc now eng s' l x : sent_by s r w sc now eng s' l x ->
    exists e', v_reqs s' = put (v_reqs s) r (q_set_engine (q_set_sched (get3 (v_reqs s) r) sc) e').
  Proof. intros H. inversion H; subst; cbn; [exists (q_engine (get3 (v_reqs s) r))|eexists; reflexivity]. destruct (get3 _ _); reflexivity. Qed.
  Lemma sent_by_msgs s r w sc now eng s' l x : sent_by s r w sc now eng s' l x ->
    exists extra, v_msgs s' = v_msgs s ++ extra /\ forall g, In g extra -> g_req g = r /\ g_sync g = q_sync (get3 (v_reqs s) r) /\ g_own g = true.
  Proof. intros H. inversion H; subst; cbn; [exists []; rewrite app_nil_r; split; [auto|intros g []]|]. eexists. split; [reflexivity|]. intros g [<-|[]]. auto. Qed.
  Lemma sent_by_log s r w sc now eng s' l x : sent_by s r w sc now eng s' l x ->
    (x = Ok tt /\ exists h d e user lev wire, l = [WSent r h w now d e user lev wire]) \/ (exists ex h, x = Raise ex /\ l = [WFailed r h w ex]).
  Proof.
    intros H. inversion H; subst; [right; eauto|]. match goal with Q : _ \/ _ |- _ => destruct Q as [(wire & -> & ->)|(ex & -> & ->)] end; [left|right]; eauto 10.
  Qed.
  Lemma sent_by_evo s r w sc now eng s' l x : sc_expiration sc = sc_expiration (q_sched (get3 (v_reqs s) r)) -> sc_period sc = sc_period (q_sched (get3 (v_reqs s) r)) ->
    sent_by s r w sc now eng s' l x -> evo3 s s'.
  Proof.
    intros E1 E2 H. destruct (sent_by_reqs _ _ _ _ _ _ _ _ _ H) as [e' E]. destruct (sent_by_msgs _ _ _ _ _ _ _ _ _ H) as (extra & M & _).
    eapply evo3_put; eauto; [|destruct (sent_by_frame _ _ _ _ _ _ _ _ _ H) as (_&_&_&_&_&_&_&_&_&X); lia].
    unfold evolves3. destruct (get3 (v_reqs s) r); cbn in *. auto 8.
  Qed.
  Lemma sched_send_fixed c now : sc_expiration (sched_send c now) = sc_expiration c /\ sc_period (sched_send c now) = sc_period c.
  Proof. split; reflexivity. Qed.
  Lemma sched_resend_fixed c now c' : sched_refresh c now = Ok (RResend c') -> sc_expiration c' = sc_expiration c /\ sc_period c' = sc_period c.
  Proof. unfold sched_refresh. destruct (_ <=? 0); [|discriminate]. destruct (_ <=? _); [discriminate|]. destruct (_ =? 0); [discriminate|]. intros H. injection H as <-. split; reflexivity. Qed.
End Sent.

(** * Closing *)
Lemma close_messages_spec r l c c' l' : close_messages r c l = (c', l') ->
  length l' = length l /\ (forall x, In x (ca_out c') -> In x (ca_out c)) /\
  forall h, g_req (getm l' h) = g_req (getm l h) /\ g_sync (getm l' h) = g_sync (getm l h) /\ g_own (getm l' h) = g_own (getm l h) /\ (g_open (getm l' h) = true -> g_open (getm l h) = true).
Proof.
  revert c c' l'. induction l as [|g l IH]; intros c c' l'; cbn [close_messages]; [intros H; injection H as <- <-; auto 10|].
  destruct (_ && _)%bool.
  - destruct (close_messages r _ l) as [c1 l1] eqn:E. intros H. injection H as <- <-. apply IH in E as (L & S & G). split; [cbn; lia|]. split.
    + intros x X. apply S in X. destruct (g_cb g); auto. cbn in X. eapply dict_del_in; eauto.
    + intros [|h]; [split; [reflexivity|split; [reflexivity|split; [reflexivity|intros K; discriminate K]]]|apply G].
  - destruct (close_messages r _ l) as [c1 l1] eqn:E. intros H. injection H as <- <-. apply IH in E as (L & S & G). split; [cbn; lia|]. split; [auto|].
    intros [|h]; [auto|apply G].
Qed.

Section History.
  Context (C : crypto) (R : Z) (rnd : nat -> nat -> Z) (clk : nat -> Z) (fmt : v3msg -> bool) (ns : pystr).
  Notation m3_step := (m3_step C R rnd clk fmt ns).
  Notation m3_run := (m3_run C R rnd clk fmt ns).
  Notation tstep := (tstep C rnd clk ns).
  Notation lstep := (lstep clk).
  Notation close3 := (close3 C rnd ns).

  (** close(): [u], [p]: what becomes of the security module and the processor. *)
  Definition closed (s : mgr3) (r : nat) (s' : mgr3) : Prop :=
    exists u p q' m', s' = set_objects (set_io s u p (v_clock s)) (put (v_reqs s) r q') m' (v_bools s) /\
      (q' = get3 (v_reqs s) r \/ q' = q_set_engine (get3 (v_reqs s) r) None) /\
      length m' = length (v_msgs s) /\
      p3_modules p = p3_modules (v_proc s) /\ (forall x, In x (ca_out (p3_cache p)) -> In x (ca_out (p3_cache (v_proc s)))) /\
      forall h, g_req (getm m' h) = g_req (getm (v_msgs s) h) /\ g_sync (getm m' h) = g_sync (getm (v_msgs s) h) /\
        g_own (getm m' h) = g_own (getm (v_msgs s) h) /\ (g_open (getm m' h) = true -> g_open (getm (v_msgs s) h) = true).
  Lemma close3_spec s r s' x : close3 s r = (s', x) -> closed s r s'.
  Proof.
    unfold ManagerV3.close3. destruct (close_messages _ _ _) as [c l] eqn:E. apply close_messages_spec in E as (L & S & G).
    intros H. apply request_engine_spec in H as (u & [(ex & -> & ->)|(-> & ->)]).
    - exists u, (with_cache3 (v_proc s) c), (get3 (v_reqs s) r), l. rewrite put3_self. split; [reflexivity|]. auto 7.
    - exists u, (with_cache3 (v_proc s) c), (q_set_engine (get3 (v_reqs s) r) None), l. split; [reflexivity|]. auto 7.
  Qed.
  Lemma closed_evo s r s' : closed s r s' -> evo3 s s'.
  Proof.
    intros (u & p & q' & m' & -> & Q & L & _ & _ & G). unfold evo3. cbn. rewrite put_length, L. split; [auto|]. split; [auto|]. split; [|split; [auto|]].
    - intros r' _. rewrite get3_put. destruct (_ && _)%bool eqn:X; [|apply evolves3_refl]. apply andb_prop in X as [X _]. apply Nat.eqb_eq in X as <-.
      destruct Q as [->| ->]; [apply evolves3_refl|]. unfold evolves3. destruct (get3 _ _); cbn; auto 8.
    - intros h _. apply G.
  Qed.

  (** The new request of sendRequest(). *)
  Definition made3 (s : mgr3) (id : Z) (g : numgen) (n : nat) (p : pdu) (user : bytes) (level : seclevel) (timeout period : Z) : mgr3 :=
    let c := sched_new (clk (v_clock s)) timeout period in
    let q := mkReq3 None (set_requestID p id) user level false None None c (length (v_bools s)) true in
    mkMgr3 (v_usm s) (v_proc s) (S (v_clock s)) g n (v_engine s) (v_state s) (v_next s) (v_heap s) (v_unsent s)
      (v_refs s ++ [wr_new (sc_next c)]) (v_reqs s ++ [q]) (v_msgs s) (v_bools s ++ [false]) (v_tasks s ++ [SSend (length (v_reqs s))]) (v_listener s).
  (** Nobody refers to [r] any more. *)
  Definition unused (s : mgr3) (r : nat) : Prop :=
    (forall t, In t (v_tasks s) -> task_req3 t <> r) /\ listener_req (v_listener s) <> Some r.
  (** Other managers use the security module and the processor. *)
  Definition outside (s s' : mgr3) : Prop :=
    exists u p c m, s' = set_objects (set_io s u p c) (v_reqs s) m (v_bools s) /\ (v_clock s <= c)%nat /\
      p3_modules p = p3_modules (v_proc s) /\ (length (v_msgs s) <= length m)%nat /\
      (forall h, (h < length (v_msgs s))%nat -> getm m h = getm (v_msgs s) h \/ (g_own (getm (v_msgs s) h) = false /\ getm m h = no_msg3)) /\
      (forall h, (length (v_msgs s) <= h)%nat -> g_req (getm m h) = 0%nat /\ g_sync (getm m h) = 0%nat /\ g_own (getm m h) = false /\ g_open (getm m h) = false) /\
      (forall x, In x (ca_out (p3_cache p)) -> In x (ca_out (p3_cache (v_proc s))) \/ (length (v_msgs s) <= e3_handle (snd x) < length m)%nat).
  Definition others_event (x : event3) : Prop := match x with VOther _ _ _ _ | VOtherDone _ => True | _ => False end.
  Inductive vstep (s : mgr3) : event3 -> mgr3 -> list log3 -> Prop :=
  | VSNothing x : vstep s x s []
  | VSCall p user level timeout period id g n : vstep s (VCall p user level timeout period) (made3 s id g n p user level timeout period) []
  | VSWait r : q_alive (get3 (v_reqs s) r) = true -> ~ In (SSend r) (v_tasks s) -> vstep s (VWait r) (add_task3 s (SLoop r)) []
  | VSTask pre t post s1 new l : v_tasks s = pre ++ t :: post -> tstep s t s1 new l ->
      vstep s (VStep (length pre)) (set_threads s1 (pre ++ new ++ post) (v_listener s1)) l
  | VSHeard d u m h : v_listener s = LIdle ->
      v3_prepareDataElements C R (message_alive s) (v_usm s) (v_proc s) d (clk (v_clock s)) = (u, Ok (m, h)) ->
      vstep s (VReceive d) (set_listener (set_io s u (v_proc s) (S (v_clock s))) (LPush h m)) []
  | VSDropped d u : v_listener s = LIdle -> vstep s (VReceive d) (set_io s u (v_proc s) (S (v_clock s))) []
  | VSListen s' l : lstep s s' l -> vstep s VListen s' l
  | VSDie r s' : unused s r -> closed (set_req3 s r (q_set_dead (get3 (v_reqs s) r))) r s' -> vstep s (VDie r) s' []
  | VSUsers op u : vstep s (VUsers op) (set_io s u (v_proc s) (v_clock s)) []
  | VSOthers x s' : others_event x -> outside s s' -> vstep s x s' [].
  Lemma m3_step_spec s x s' l : m3_step s x = (s', l) -> vstep s x s' l.
  Proof.
    destruct x as [p user level timeout period|r|n|d| |r|op|p e user level|h]; cbn [ManagerV3.m3_step].
    - destruct (generateRequestID rnd s) as [id s0] eqn:G. unfold generateRequestID in G.
      assert (S0 : exists g n, s0 = set_ids s g n).
      { destruct (numgen_next (v_gen s)) as [i g]. destruct (i =? 0); [|injection G as <- <-; eauto].
        destruct (numgen_next (newGenerator rnd (v_made s))) as [i' g']. injection G as <- <-; eauto. }
      destruct S0 as (g & n & ->). intros H. injection H as <- <-. pose proof (VSCall s p user level timeout period id g n) as X. exact X.
    - destruct (q_alive _) eqn:A; cbn [andb]; [|intros H; injection H as <- <-; constructor].
      destruct (pending3 s r) eqn:P; cbn [negb]; intros H; injection H as <- <-; [constructor|]. apply VSWait; [auto|].
      intros I. unfold pending3 in P. assert (Y : existsb (fun t => match t with SSend r' => Nat.eqb r' r | _ => false end) (v_tasks s) = true).
      { apply existsb_exists. exists (SSend r). split; [auto|]. apply Nat.eqb_refl. }
      congruence.
    - destruct (nth_error (v_tasks s) n) as [t|] eqn:N; [|intros H; injection H as <- <-; constructor].
      pose proof (split_nth _ _ _ N) as S1.
      assert (S3 : length (firstn n (v_tasks s)) = n) by (apply firstn_length_le; apply Nat.lt_le_incl, nth_error_Some; congruence).
      destruct (task3_step _ _ _ _ _ _ _) as [[s1 new] l1] eqn:T. apply task3_step_spec in T. intros H. injection H as <- <-.
      pose proof (VSTask s (firstn n (v_tasks s)) t (skipn (S n) (v_tasks s)) s1 new l1 S1 T) as X. rewrite S3 in X. exact X.
    - destruct (v_listener s) eqn:V; try (intros H; injection H as <- <-; constructor).
      cbn [tick3]. match goal with |- context [v3_prepareDataElements C R ?a ?b ?c ?d ?e] => destruct (v3_prepareDataElements C R a b c d e) as [u [[m h]|ex]] eqn:E end; intros H; injection H as <- <-.
      + pose proof (VSHeard s d u m h V E) as X. exact X.
      + pose proof (VSDropped s d u V) as X. exact X.
    - intros H. constructor. eapply listen3_spec; eauto.
    - destruct (q_alive (get3 (v_reqs s) r)); cbn [negb orb]; [|intros H; injection H as <- <-; constructor].
      destruct (existsb _ _) eqn:X; cbn [orb]; [intros H; injection H as <- <-; constructor|].
      destruct (match listener_req (v_listener s) with Some r' => (r' =? r)%nat | None => false end) eqn:Y; [intros H; injection H as <- <-; constructor|].
      destruct (close3 _ _) as [s1 y] eqn:E. intros H. injection H as <- <-. apply close3_spec in E. apply VSDie; [|exact E]. split.
      + intros t T EQ. assert (existsb (fun t => (task_req3 t =? r)%nat) (v_tasks s) = true); [|congruence].
        apply existsb_exists. exists t. split; [auto|]. now apply Nat.eqb_eq.
      + intros EQ. rewrite EQ, Nat.eqb_refl in Y. discriminate.
    - intros H. injection H as <- <-. pose proof (VSUsers s op) as X. apply X.
    - cbn [tick3]. match goal with |- context [v3_prepareOutgoing ?a ?b ?c ?d ?e0 ?f ?g ?h ?i ?j ?k ?l ?m] => destruct (v3_prepareOutgoing a b c d e0 f g h i j k l m) as [o y] eqn:E end.
      apply outgoing3 in E. intros H. injection H as <- <-. apply VSOthers; [exact Logic.I|]. cbn [fst v_msgs v_reqs v_bools v_clock v_proc set_io] in *.
      exists (s3_usm o), (s3_proc o), (S (v_clock s)), (v_msgs s ++ [mkMsg3 0 0 (s3_callback o) false false]). split; [reflexivity|]. split; [lia|].
      destruct E as (E1 & _ & E2). split; [exact E1|]. rewrite app_length. cbn [length]. split; [lia|]. split; [|split].
      + intros h L. unfold getm. rewrite app_nth1 by auto. auto.
      + intros h L. rewrite getm_app. destruct (Nat.eqb_spec h (length (v_msgs s))); [auto|]. unfold getm. rewrite nth_overflow by lia. auto.
      + intros x X. destruct (s3_callback o) as [id|]; [destruct E2 as [_ E2]; rewrite E2 in X; apply dict_set_in in X as [->|X]; [right; cbn; lia|auto]|]. rewrite E2 in X. auto.
    - destruct (g_own (getm (v_msgs s) h)) eqn:O; [intros H; injection H as <- <-; constructor|]. destruct (g_cb (getm (v_msgs s) h)) as [id|] eqn:CB; intros H; injection H as <- <-; [|constructor].
      apply VSOthers; [exact Logic.I|]. exists (v_usm s), (with_cache3 (v_proc s) (uncache (p3_cache (v_proc s)) id)), (v_clock s), (put (v_msgs s) h no_msg3).
      split; [reflexivity|]. split; [auto|]. split; [reflexivity|]. rewrite put_length. split; [auto|]. split; [|split].
      + intros k L. rewrite getm_put. destruct (_ && _)%bool eqn:X; [|auto]. apply andb_prop in X as [X _]. apply Nat.eqb_eq in X as <-. auto.
      + intros k L. rewrite getm_put. destruct (_ && _)%bool eqn:X; [apply andb_prop in X as [X Y]; apply Nat.ltb_lt in Y; apply Nat.eqb_eq in X; lia|]. unfold getm. rewrite nth_overflow by lia. auto.
      + intros x X. left. cbn in X. eapply dict_del_in; eauto.
  Qed.
  Lemma m3_run_snoc s0 evs x : m3_run s0 (evs ++ [x]) = let '(s, l) := m3_run s0 evs in let '(s', l') := m3_step s x in (s', rev l' ++ l).
  Proof. unfold ManagerV3.m3_run. rewrite fold_left_app. cbn. destruct (fold_left _ _ _) as [s l]. reflexivity. Qed.
  (** Induction over histories. *)
  Lemma run_ind s0 (P : list event3 -> mgr3 -> list log3 -> Prop) : P [] s0 [] ->
    (forall evs s l x s' l', m3_run s0 evs = (s, l) -> P evs s l -> vstep s x s' l' -> P (evs ++ [x]) s' (rev l' ++ l)) ->
    forall evs s l, m3_run s0 evs = (s, l) -> P evs s l.
  Proof.
    intros P0 PS. induction evs as [|x evs IH] using rev_ind; intros s l E; [injection E as <- <-; exact P0|].
    rewrite m3_run_snoc in E. destruct (m3_run s0 evs) as [s1 l1] eqn:E1. destruct (m3_step s1 x) as [s2 l2] eqn:E2. injection E as <- <-.
    apply (PS evs s1); auto. now apply m3_step_spec.
  Qed.

  (** ** Structure *)
  Definition poking (t : task3) : bool := match t with SPoking _ _ _ => true | _ => false end.
  Definition draining (s : mgr3) : nat := match v_listener s with LDrain _ _ _ => 1 | _ => 0 end.
  Definition msgs_ok (s : mgr3) : Prop :=
    (forall h, (h < length (v_msgs s))%nat -> g_own (getm (v_msgs s) h) = true -> (g_req (getm (v_msgs s) h) < length (v_reqs s))%nat) /\
    (forall h, (h < length (v_msgs s))%nat -> g_own (getm (v_msgs s) h) = false -> g_req (getm (v_msgs s) h) = 0%nat /\ g_sync (getm (v_msgs s) h) = 0%nat /\ g_open (getm (v_msgs s) h) = false) /\
    (forall x, In x (ca_out (p3_cache (v_proc s))) -> (e3_handle (snd x) < length (v_msgs s))%nat).
  Record inv3 (s : mgr3) : Prop := {
    i3_refs : length (v_refs s) = length (v_reqs s);
    i3_nodup : NoDup (queued s);
    i3_lt : forall r, In r (queued s) -> (r < length (v_reqs s))%nat;
    i3_msgs : msgs_ok s;
    i3_push : forall h m, v_listener s = LPush h m -> (h < length (v_msgs s))%nat /\ g_own (getm (v_msgs s) h) = true;
    i3_tasks : forall t, In t (v_tasks s) -> q_alive (get3 (v_reqs s) (task_req3 t)) = true;
    i3_listener : forall r, listener_req (v_listener s) = Some r -> q_alive (get3 (v_reqs s) r) = true;
    i3_lock : (length (filter poking (v_tasks s)) + draining s <= 1)%nat
  }.
  (** Why a request may leave heap and queue. *)
  Definition excused (s s' : mgr3) (l : list log3) (r : nat) : Prop :=
    q_alive (get3 (v_reqs s) r) = false \/ q_event (get3 (v_reqs s) r) = true \/
    (exists i, (i < v_clock s')%nat /\ sc_expiration (q_sched (get3 (v_reqs s) r)) <= clk i) \/
    (exists q h w e, In (WFailed q h w e) l /\ (q = r /\ (w = ByCall \/ w = ByDrain) \/ w = ByPoke)).

  (** What the steps of tasks and of the listener have in common. *)
  Definition keeps (s s1 : mgr3) : Prop :=
    evo3 s s1 /\ length (v_reqs s1) = length (v_reqs s) /\ length (v_refs s1) = length (v_refs s) /\
    (forall r, q_alive (get3 (v_reqs s1) r) = q_alive (get3 (v_reqs s) r)) /\ (msgs_ok s -> msgs_ok s1).
  Lemma keeps_refl s : keeps s s.
  Proof. unfold keeps. split; [apply evo3_refl|auto]. Qed.
  Lemma keeps_trans a b c : keeps a b -> keeps b c -> keeps a c.
  Proof.
    intros (A1 & A2 & A3 & A4 & A5) (B1 & B2 & B3 & B4 & B5). split; [eapply evo3_trans; eauto|]. split; [congruence|]. split; [congruence|].
    split; [|auto]. intros r. now rewrite B4.
  Qed.
  Lemma keeps_same s s1 : v_reqs s1 = v_reqs s -> v_msgs s1 = v_msgs s -> p3_cache (v_proc s1) = p3_cache (v_proc s) ->
    length (v_refs s1) = length (v_refs s) -> (v_clock s <= v_clock s1)%nat -> keeps s s1.
  Proof.
    intros E1 E2 E3 E4 E5. split; [now apply evo3_same|]. rewrite E1. split; [auto|]. split; [auto|]. split; [auto|]. unfold msgs_ok. now rewrite E1, E2, E3.
  Qed.
  Lemma keeps_put s s1 r q : v_reqs s1 = put (v_reqs s) r q -> evolves3 (get3 (v_reqs s) r) q -> q_alive q = q_alive (get3 (v_reqs s) r) ->
    v_msgs s1 = v_msgs s -> v_proc s1 = v_proc s -> length (v_refs s1) = length (v_refs s) -> (v_clock s <= v_clock s1)%nat -> keeps s s1.
  Proof.
    intros E1 E2 E3 E4 E5 E6 E7. split; [eapply (evo3_put _ _ _ _ []); eauto; now rewrite app_nil_r|]. rewrite E1, put_length. split; [auto|]. split; [auto|]. split.
    - intros r'. rewrite get3_put. destruct (_ && _)%bool eqn:X; auto. apply andb_prop in X as [X _]. now apply Nat.eqb_eq in X as <-.
    - unfold msgs_ok. now rewrite E1, E4, E5, put_length.
  Qed.
  Lemma keeps_sent s r w sc now eng s1 l x : (r < length (v_reqs s))%nat ->
    sc_expiration sc = sc_expiration (q_sched (get3 (v_reqs s) r)) -> sc_period sc = sc_period (q_sched (get3 (v_reqs s) r)) ->
    sent_by s r w sc now eng s1 l x -> keeps s s1.
  Proof.
    intros LR E1 E2 S. split; [eapply sent_by_evo; eauto|]. destruct (sent_by_reqs _ _ _ _ _ _ _ _ _ S) as [e' ER]. rewrite ER, put_length. split; [auto|].
    split; [inversion S; reflexivity|]. split.
    - intros r'. rewrite get3_put. destruct (_ && _)%bool eqn:X; auto. apply andb_prop in X as [X _]. now apply Nat.eqb_eq in X as <-.
    - intros (M1 & M0 & M2). unfold msgs_ok. rewrite ER, put_length. inversion S; subst; cbn [v_msgs v_proc set_objects set_io]; [auto|]. split; [|split].
      + intros k K. rewrite getm_app. destruct (Nat.eqb_spec k (length (v_msgs s))); [intros _; exact LR|]. apply M1. rewrite app_length in K. cbn in K. lia.
      + intros k K. rewrite getm_app in *. destruct (Nat.eqb_spec k (length (v_msgs s))); [discriminate|]. apply M0. rewrite app_length in K. cbn in K. lia.
      + intros y Y. rewrite app_length. cbn [length]. destruct H1 as (_ & _ & CA). destruct cb as [id|].
        * destruct CA as [_ CA]. rewrite CA in Y. apply dict_set_in in Y as [->|Y]; [cbn; lia|]. apply M2 in Y. lia.
        * rewrite CA in Y. apply M2 in Y. lia.
  Qed.
  Lemma keeps_closed s r s1 : closed s r s1 -> keeps s s1.
  Proof.
    intros H. pose proof (closed_evo _ _ _ H) as E. destruct H as (u & p & q' & m' & -> & Q & L & _ & CA & G). split; [auto|]. cbn. rewrite put_length. split; [auto|]. split; [auto|]. split.
    - intros r'. rewrite get3_put. destruct (_ && _)%bool eqn:X; auto. apply andb_prop in X as [X _]. apply Nat.eqb_eq in X as <-. destruct Q as [->| ->]; reflexivity.
    - intros (M1 & M0 & M2). unfold msgs_ok. cbn. rewrite put_length, L. split; [|split; [|intros y Y; apply M2, CA, Y]]; intros h Hh; destruct (G h) as (G1 & G2 & G3 & G4); rewrite G1, G3; [auto|]. rewrite G2. intros O. destruct (M0 h Hh O) as (N1 & N2 & N3). split; [auto|]. split; [auto|]. destruct (g_open (getm m' h)); [|auto]. rewrite N3 in G4. symmetry. now apply G4.
  Qed.
  Lemma assign_fields s nx : exists n, assign_next s nx = set_state s (v_state s) n.
  Proof. destruct nx; cbn; [eauto|]. exists (v_next s). destruct s; reflexivity. Qed.
  Lemma update_fields s : exists st n, updateState s = set_state s st n.
  Proof. unfold updateState. destruct (v_next s) eqn:E; [eauto|]. exists (v_state s), (v_next s). destruct s; reflexivity. Qed.
  Lemma push3_spec s r : length (v_refs s) = length (v_reqs s) -> exists w h, push3 s r = set_queue s h (v_unsent s) w /\
    length w = length (v_reqs s) /\ Permutation (r :: v_heap s) h.
  Proof.
    intros L. unfold push3. destruct (heappush _ _ _ _) as [w h] eqn:E. apply push3_ok in E as (L' & _ & P & _); auto. exists w, h. auto.
  Qed.
  Lemma heapify3_spec s : length (v_refs s) = length (v_reqs s) -> exists w h, heapify3 s = set_queue s h (v_unsent s) w /\
    length w = length (v_reqs s) /\ Permutation (v_heap s) h.
  Proof.
    intros L. unfold heapify3. destruct (heapify _ _ _) as [w h] eqn:E. apply heapify3_ok in E as (L' & _ & P & _); auto. exists w, h. auto.
  Qed.

  (** The part of the state that a task or the listener works on. *)
  Definition same_threads (s s1 : mgr3) : Prop := v_tasks s1 = v_tasks s /\ v_listener s1 = v_listener s.
  Lemma asks_spec s r w s1 l y : length (v_refs s) = length (v_reqs s) -> (r < length (v_reqs s))%nat -> asks clk s r w s1 l y ->
    keeps s s1 /\ same_threads s s1 /\ v_unsent s1 = v_unsent s /\
    match y with
    | Ok true => Permutation (r :: v_heap s) (v_heap s1)
    | Ok false => s1 = s /\ l = []
    | Raise e => v_heap s1 = v_heap s /\ exists h, l = [WFailed r h w e]
    end.
  Proof.
    intros LR LT A. destruct A as [nx O|nx s2 l e O H0|nx s2 l O H0].
    - split; [apply keeps_refl|]. repeat split.
    - destruct (assign_fields s nx) as [n EN]. rewrite EN in H0. apply readied_sent_by in H0; [|exact LT].
      pose proof (sent_by_frame _ _ _ _ _ _ _ _ _ H0) as (F1 & F2 & F3 & F4 & F5 & _).
      split; [eapply keeps_trans; [apply (keeps_same s (set_state s (v_state s) n)); auto|eapply keeps_sent; [| | |exact H0]; auto]|].
      split; [split; [exact F4|exact F5]|]. split; [exact F2|]. split; [exact F1|].
      destruct (sent_by_log _ _ _ _ _ _ _ _ _ H0) as [(X & _)|(ex & h & X & ->)]; [discriminate|]. injection X as <-. eauto.
    - destruct (assign_fields s nx) as [n EN]. rewrite EN in H0. apply readied_sent_by in H0; [|exact LT].
      pose proof (sent_by_frame _ _ _ _ _ _ _ _ _ H0) as (F1 & F2 & F3 & F4 & F5 & _).
      assert (K : keeps s s2) by (eapply keeps_trans; [apply (keeps_same s (set_state s (v_state s) n)); auto|eapply keeps_sent; [| | |exact H0]; auto]).
      assert (LR1 : length (v_refs s2) = length (v_reqs s2)) by (destruct K as (_ & K1 & K2 & _); congruence).
      destruct (push3_spec s2 r LR1) as (w' & h' & -> & L' & P). destruct (update_fields (set_queue s2 h' (v_unsent s2) w')) as (st & n' & ->).
      split; [eapply keeps_trans; [exact K|]; apply keeps_same; auto; cbn; congruence|]. split; [split; [exact F4|exact F5]|]. split; [exact F2|].
      rewrite F1 in P. exact P.
  Qed.
  Lemma tstep_spec s t s1 new l : inv3 s -> In t (v_tasks s) -> tstep s t s1 new l ->
    keeps s s1 /\ same_threads s s1 /\ (forall t', In t' new -> task_req3 t' = task_req3 t) /\
    (length (filter poking new) <= length (filter poking [t]) \/ (locked3 s = false /\ length (filter poking new) <= 1))%nat /\
    exists lost, Permutation (v_heap s ++ v_unsent s ++ pend t) (lost ++ v_heap s1 ++ v_unsent s1 ++ flat_map pend new) /\
      forall r, In r lost -> excused s s1 l r.
  Proof.
    intros I TI T.
    assert (SAME : forall new, keeps s s -> (forall t', In t' new -> task_req3 t' = task_req3 t) -> (length (filter poking new) <= length (filter poking [t]))%nat -> flat_map pend new = pend t ->
      keeps s s /\ same_threads s s /\ (forall t', In t' new -> task_req3 t' = task_req3 t) /\
      (length (filter poking new) <= length (filter poking [t]) \/ (locked3 s = false /\ length (filter poking new) <= 1))%nat /\
      exists lost, Permutation (v_heap s ++ v_unsent s ++ pend t) (lost ++ v_heap s ++ v_unsent s ++ flat_map pend new) /\ (forall r, In r lost -> excused s s l r)).
    { intros nw K T1 T2 T3. split; [auto|]. split; [split; auto|]. split; [auto|]. split; [auto|]. exists []. rewrite T3. split; [reflexivity|intros r []]. }
    assert (LTQ : forall r, In r (pend t) -> (r < length (v_reqs s))%nat).
    { intros r P. apply (i3_lt s I). apply in_or_app. right. apply in_or_app. right. apply in_flat_map. eauto. }
    assert (LTH : forall r, In r (v_heap s) -> (r < length (v_reqs s))%nat) by (intros r P; apply (i3_lt s I); apply in_or_app; auto).
    assert (TICK : forall new, (forall t', In t' new -> task_req3 t' = task_req3 t) -> (length (filter poking new) <= length (filter poking [t]))%nat -> flat_map pend new = pend t ->
      keeps s (ticked s) /\ same_threads s (ticked s) /\ (forall t', In t' new -> task_req3 t' = task_req3 t) /\
      (length (filter poking new) <= length (filter poking [t]) \/ (locked3 s = false /\ length (filter poking new) <= 1))%nat /\
      exists lost, Permutation (v_heap s ++ v_unsent s ++ pend t) (lost ++ v_heap (ticked s) ++ v_unsent (ticked s) ++ flat_map pend new) /\ (forall r, In r lost -> excused s (ticked s) l r)).
    { intros nw T1 T2 T3. split; [apply keeps_same; auto; cbn; lia|]. split; [split; auto|]. split; [auto|]. split; [auto|]. exists []. rewrite T3. split; [reflexivity|intros r []]. }
    inversion T; subst; try solve [apply SAME; cbn; auto using keeps_refl; now intros t' [<-|[]]]; try solve [apply TICK; cbn; auto; now intros t' [<-|[]]].
    - (* TSpin *) apply SAME; cbn [flat_map]; auto using keeps_refl; [now intros t' [<-|[]]|apply app_nil_r].
    - (* TCalled *) apply asks_spec in H0 as (K & ST & U & HP); [|apply (i3_refs s I)|apply LTQ; now left].
      split; [auto|]. split; [auto|]. split; [intros t' []|]. split; [left; cbn; lia|]. cbn [pend flat_map]. rewrite U. destruct y as [[|]|e]; [|congruence|].
      + cbv iota beta in HP. exists []. split; [pcnt|intros q []].
      + destruct HP as [-> [h ->]]. exists [r]. split; [pcnt|]. intros q [<-|[]]. right. right. right. do 4 eexists. split; [left; reflexivity|auto].
    - (* TQueued *) split; [apply keeps_same; auto|]. split; [split; auto|]. split; [intros t' []|]. split; [left; cbn; lia|]. cbn. exists []. split; [pcnt|intros q []].
    - (* TDrop *) destruct (pop3_ok _ _ _ _ _ _ (i3_refs s I) H1) as (L' & _ & P & _).
      assert (K : v_reqs s0 = v_reqs s /\ v_msgs s0 = v_msgs s /\ v_proc s0 = v_proc s /\ (v_clock s <= v_clock s0)%nat /\ same_threads s s0) by (destruct H0 as [[-> _]|[-> _]]; cbn; repeat split; auto).
      destruct K as (K1 & K2 & K3 & K4 & K5 & K6). split; [apply keeps_same; cbn; auto; [now rewrite K3|now rewrite L', (i3_refs s I)]|]. split; [split; auto|]. split; [now intros t' [<-|[]]|]. split; [left; cbn; lia|].
      exists [root]. cbn. rewrite H. split; [pcnt|]. intros q [<-|[]]. destruct H0 as [[-> [A|A]]|[-> A]]; [left; auto|right; left; auto|]. right. right. left. exists (v_clock s). cbn. split; [lia|auto].
    - (* TUnsent *) apply sends_sent_by in H3; [|apply LTH; rewrite H; now left]. pose proof (sent_by_frame _ _ _ _ _ _ _ _ _ H3) as (F1 & F2 & F3 & F4 & F5 & _).
      destruct (sched_resend_fixed _ _ _ H2) as [X1 X2]. split; [eapply keeps_sent; [| | |exact H3]; auto; apply LTH; rewrite H; now left|]. split; [split; auto|]. split; [now intros t' [<-|[]]|]. split; [left; cbn; lia|].
      exists []. cbn. rewrite F1, F2. split; [reflexivity|intros q' []].
    - (* TResent *) apply sends_sent_by in H3; [|apply LTH; rewrite H; now left]. pose proof (sent_by_frame _ _ _ _ _ _ _ _ _ H3) as (F1 & F2 & F3 & F4 & F5 & _).
      destruct (sched_resend_fixed _ _ _ H2) as [X1 X2]. assert (K : keeps s s0) by (eapply keeps_sent; [| | |exact H3]; auto; apply LTH; rewrite H; now left).
      assert (LR : length (v_refs s) = length (v_reqs s0)) by (destruct K as (_ & K & _); rewrite K; apply (i3_refs s I)).
      destruct (replace3_perm _ _ _ _ _ _ _ LR H4) as (L' & _ & P). split; [eapply keeps_trans; [exact K|]; apply keeps_same; cbn; auto; congruence|]. split; [split; cbn; auto|]. split; [now intros t' [<-|[]]|]. split; [left; cbn; lia|].
      exists []. cbn. rewrite H. split; [pcnt|intros q' []].
    - (* TPoke *) destruct (assign_fields s (onInactive (v_state s))) as [n ->]. destruct (update_fields (set_state s (v_state s) n)) as (st & n' & ->).
      split; [apply keeps_same; auto|]. split; [split; auto|]. split; [now intros t' [<-|[]]|]. split; [right; cbn; auto|]. exists []. cbn. rewrite !app_nil_r. split; [reflexivity|intros q' []].
    - (* TPokeDead *) split; [apply keeps_refl|]. split; [split; auto|]. split; [now intros t' [<-|[]]|]. split; [left; cbn; lia|]. exists [q]. cbn. rewrite app_nil_r. split; [pcnt|]. intros q' [<-|[]]. left. auto.
    - (* TPokeFailed *) apply asks_spec in H0 as (K & ST & U & HP & h & ->); [|apply (i3_refs s I)|apply LTQ; now left].
      split; [auto|]. split; [auto|]. split; [now intros t' [<-|[]]|]. split; [left; cbn; lia|]. cbn. rewrite U, HP. exists (q :: rest). split; [pcnt|]. intros q' _. right. right. right. do 4 eexists. split; [left; reflexivity|auto].
    - (* TPokeSent *) apply asks_spec in H0 as (K & ST & U & HP); [|apply (i3_refs s I)|apply LTQ; now left].
      split; [auto|]. split; [auto|]. split; [now intros t' [<-|[]]|]. split; [left; cbn; lia|]. cbn. rewrite U. exists []. rewrite app_nil_r. split; [pcnt|intros q' []].
    - (* TPokeLater *) split; [apply keeps_same; auto|]. split; [split; auto|]. split; [now intros t' [<-|[]]|]. split; [left; cbn; lia|]. cbn. exists []. rewrite app_nil_r. split; [pcnt|intros q' []].
    - (* TClosed *) apply close3_spec in H. split; [eapply keeps_closed; eauto|]. destruct H as (u & p & q' & m' & -> & _). split; [split; auto|]. split; [intros t' []|]. split; [left; cbn; lia|]. cbn. exists []. split; [reflexivity|intros q []].
  Qed.
  Lemma lstep_spec s s1 l : inv3 s -> lstep s s1 l ->
    keeps s s1 /\ v_tasks s1 = v_tasks s /\
    (forall r, listener_req (v_listener s1) = Some r -> q_alive (get3 (v_reqs s) r) = true) /\
    (forall h m, v_listener s1 = LPush h m -> v_listener s = LPush h m) /\
    (draining s1 <= draining s \/ locked3 s = false)%nat /\
    exists lost, Permutation (v_heap s ++ v_unsent s) (lost ++ v_heap s1 ++ v_unsent s1) /\ forall r, In r lost -> excused s s1 l r.
  Proof.
    intros I ST.
    assert (SAME : forall s1, v_heap s1 = v_heap s -> v_unsent s1 = v_unsent s -> exists lost, Permutation (v_heap s ++ v_unsent s) (lost ++ v_heap s1 ++ v_unsent s1) /\ forall r, In r lost -> excused s s1 l r).
    { intros s2 -> ->. exists []. split; [reflexivity|intros r []]. }
    assert (LIS := i3_listener s I).
    assert (LL : forall r, listener_req (v_listener s) = Some r -> (r < length (v_reqs s))%nat) by (intros r Hr; now apply get3_alive_lt, LIS).
    assert (LU : forall r, In r (v_unsent s) -> (r < length (v_reqs s))%nat) by (intros r Hr; apply (i3_lt s I), in_or_app; right; apply in_or_app; auto).
    assert (RD : forall r w q, listener_req (reported_done r w) = Some q -> r = q) by (intros r [] q; cbn; congruence).
    assert (RP : forall r w h m, reported_done r w <> LPush h m) by (intros r [] h m; cbn; congruence).
    assert (KR : keeps s s) by apply keeps_refl.
    inversion ST; subst.
    - split; [auto|]. repeat split; auto.
    - split; [apply keeps_same; auto|]. split; [auto|]. split; [cbn; congruence|]. split; [cbn; congruence|]. split; [left; cbn; lia|]. now apply SAME.
    - split; [apply keeps_same; auto|]. split; [auto|]. split; [cbn; intros q0 Q0; injection Q0 as <-; assumption|]. split; [cbn; congruence|]. split; [left; cbn; lia|]. now apply SAME.
    - assert (SQ : evolves3 q (stored q x vb auth) /\ q_alive (stored q x vb auth) = q_alive q).
      { clear. unfold stored, evolves3. destruct auth, (q_event q) eqn:E1, (q_exception q) eqn:E2; cbn; rewrite ?E1; auto 10. }
      split; [apply (keeps_put _ _ r (stored q x vb auth)); auto; apply SQ|].
      split; [auto|]. split; [cbn; congruence|]. split; [cbn; congruence|]. split; [left; cbn; lia|]. now apply SAME.
    - split; [apply keeps_same; auto|]. split; [auto|]. split; [cbn; intros q0 Q0; injection Q0 as <-; assumption|]. split; [cbn; congruence|]. split; [left; cbn; lia|]. now apply SAME.
    - split; [apply keeps_same; auto|]. split; [auto|]. split; [cbn; congruence|]. split; [cbn; congruence|]. split; [left; cbn; lia|]. now apply SAME.
    - (* LReportFailed *)
      assert (LT : (r < length (v_reqs s))%nat) by (apply LL; now rewrite H). destruct (assign_fields s nx) as [n EN]. rewrite EN in H2. apply readied_sent_by in H2; [|exact LT].
      pose proof (sent_by_frame _ _ _ _ _ _ _ _ _ H2) as (F1 & F2 & F3 & F4 & F5 & _).
      split; [eapply keeps_trans; [apply (keeps_same s (set_state s (v_state s) n)); auto|eapply keeps_trans; [eapply keeps_sent; [| | |exact H2]; auto|apply keeps_same; auto]]|].
      split; [exact F4|]. split; [cbn; congruence|]. split; [cbn; congruence|]. split; [left; cbn; lia|]. apply SAME; cbn; [rewrite F1|rewrite F2]; reflexivity.
    - (* LReportSent *)
      assert (LT : (r < length (v_reqs s))%nat) by (apply LL; now rewrite H). destruct (assign_fields s nx) as [n EN]. rewrite EN in H2. apply readied_sent_by in H2; [|exact LT].
      pose proof (sent_by_frame _ _ _ _ _ _ _ _ _ H2) as (F1 & F2 & F3 & F4 & F5 & _).
      assert (K : keeps s s0) by (eapply keeps_trans; [apply (keeps_same s (set_state s (v_state s) n)); auto|eapply keeps_sent; [| | |exact H2]; auto]).
      assert (LR1 : length (v_refs s0) = length (v_reqs s0)) by (destruct K as (_ & K1 & K2 & _); rewrite K1, K2; apply (i3_refs s I)).
      destruct (heapify3_spec s0 LR1) as (w' & h' & -> & L' & P).
      destruct (update_fields (set_queue s0 h' (v_unsent s0) w')) as (st & n' & ->).
      split; [eapply keeps_trans; [exact K|]; destruct b; apply keeps_same; auto; cbn; congruence|]. split; [destruct b; exact F4|].
      split; [destruct b; cbn; [intros q Q; apply LIS; rewrite H; exact Q|intros q Q; apply RD in Q as <-; apply LIS; now rewrite H]|].
      split; [destruct b; cbn; [congruence|intros h0 m X; now apply RP in X]|]. split; [auto|].
      exists []. destruct b; cbn; rewrite F2; cbn; rewrite F1 in P; cbn in P; (split; [pcnt|intros q []]).
    - split; [apply keeps_same; auto|]. split; [auto|]. split; [cbn; intros q Q; apply RD in Q as <-; apply LIS; now rewrite H|]. split; [cbn; intros h0 m X; now apply RP in X|].
      split; [left; unfold draining; rewrite H; cbn; destruct w; cbn; lia|]. now apply SAME.
    - split; [apply keeps_same; auto|]. split; [auto|]. split; [cbn; auto|]. split; [cbn; congruence|]. split; [left; apply le_n|]. cbn. exists [q]. rewrite H0. split; [pcnt|]. intros q' [<-|[]]. left. auto.
    - (* LDrainFailed *)
      assert (LT : (q < length (v_reqs s))%nat) by (apply LU; rewrite H0; now left). apply readied_sent_by in H2; [|exact LT].
      pose proof (sent_by_frame _ _ _ _ _ _ _ _ _ H2) as (F1 & F2 & F3 & F4 & F5 & _).
      split; [eapply keeps_trans; [apply (keeps_same s (set_queue s (v_heap s) rest (v_refs s))); auto|eapply keeps_trans; [eapply keeps_sent; [| | |exact H2]; auto|apply keeps_same; auto]]|].
      split; [exact F4|]. split; [cbn; congruence|]. split; [cbn; congruence|]. split; [left; cbn; lia|].
      exists [q]. cbn. rewrite F1, F2, H0. cbn. split; [pcnt|]. intros q' [<-|[]]. right. right. right.
      destruct (sent_by_log _ _ _ _ _ _ _ _ _ H2) as [(X & _)|(ex' & h & X & ->)]; [discriminate|]. do 4 eexists. split; [left; reflexivity|auto].
    - (* LDrainSent *)
      assert (LT : (q < length (v_reqs s))%nat) by (apply LU; rewrite H0; now left). apply readied_sent_by in H2; [|exact LT].
      pose proof (sent_by_frame _ _ _ _ _ _ _ _ _ H2) as (F1 & F2 & F3 & F4 & F5 & _).
      assert (K : keeps s s0) by (eapply keeps_trans; [apply (keeps_same s (set_queue s (v_heap s) rest (v_refs s))); auto|eapply keeps_sent; [| | |exact H2]; auto]).
      assert (LR1 : length (v_refs s0) = length (v_reqs s0)) by (destruct K as (_ & K1 & K2 & _); rewrite K1, K2; apply (i3_refs s I)).
      destruct (push3_spec s0 q LR1) as (w' & h' & -> & L' & P).
      split; [eapply keeps_trans; [exact K|]; apply keeps_same; auto; cbn; congruence|].
      split; [exact F4|]. cbn. rewrite F5. cbn. split; [exact LIS|]. split; [auto|]. split; [left; unfold draining; cbn; rewrite F5; cbn; lia|].
      exists []. rewrite F2, H0. cbn. rewrite F1 in P. cbn in P. split; [pcnt|intros q' []].
    - split; [eapply keeps_trans; [eapply (keeps_put s (set_req3 s r (q_set_sync (get3 (v_reqs s) r) (length (v_bools s))))); cbn; try reflexivity; unfold evolves3; cbn; auto 8|apply keeps_same; auto]|].
      split; [auto|]. split; [cbn; congruence|]. split; [cbn; congruence|]. split; [left; cbn; lia|]. now apply SAME.
    - split; [apply keeps_same; auto|]. split; [auto|]. split; [cbn; congruence|]. split; [cbn; congruence|]. split; [left; cbn; lia|]. now apply SAME.
    - split; [apply keeps_same; auto|]. split; [auto|]. split; [cbn; intros q Q; apply LIS; rewrite H; exact Q|]. split; [cbn; congruence|]. split; [left; cbn; lia|]. now apply SAME.
    - destruct (assign_fields s nx) as [n ->]. split; [apply keeps_same; auto|]. split; [auto|]. split; [cbn; congruence|]. split; [cbn; congruence|]. split; [left; cbn; lia|]. now apply SAME.
    - destruct (assign_fields s nx) as [n ->]. match goal with |- context [updateState ?x] => destruct (update_fields x) as (st & n' & ->) end.
      split; [apply keeps_same; auto|]. split; [auto|]. split; [cbn; intros q Q; apply LIS; rewrite H; exact Q|]. split; [cbn; congruence|]. split; [left; cbn; lia|]. now apply SAME.
    - assert (K : keeps s (if q_event q then s else set_req3 s r (q_set_result q true (q_exception q) (Some m)))).
      { destruct (q_event q) eqn:E; [auto|]. eapply keeps_put; cbn; try reflexivity; unfold evolves3; cbn; auto 8. }
      split; [eapply keeps_trans; [exact K|]; apply keeps_same; auto|]. split; [destruct (q_event q); auto|]. split; [cbn; congruence|]. split; [cbn; congruence|]. split; [left; cbn; lia|].
      apply SAME; destruct (q_event q); auto.
  Qed.

  Lemma locked3_false s : locked3 s = false -> draining s = 0%nat /\ length (filter poking (v_tasks s)) = 0%nat.
  Proof.
    unfold locked3. intros H. apply orb_false_iff in H as [H1 H2]. split; [unfold draining; destruct (v_listener s); congruence|].
    change (existsb poking (v_tasks s) = false) in H2. induction (v_tasks s) as [|t ts IH]; [auto|]. cbn in H2 |- *. apply orb_false_iff in H2 as [X Y]. rewrite X. auto.
  Qed.
  Lemma received_handle s d u m h : v3_prepareDataElements C R (message_alive s) (v_usm s) (v_proc s) d (clk (v_clock s)) = (u, Ok (m, h)) ->
    exists sc id e, v3_scoped m = Some sc /\ is_Response (pdu_cls (sp_pdu sc)) = true /\ In (id, e) (ca_out (p3_cache (v_proc s))) /\ e3_handle e = h /\
      message_alive s h = true /\ v3_mismatch e m sc = false.
  Proof.
    unfold v3_prepareDataElements. destruct (v3_decode _) as [m0|x]; [|discriminate]. destruct (has_module _ _); [|discriminate].
    destruct (usm_processIncoming C R _ _ _) as [u1 [m1|x]]; [|discriminate]. intros H. injection H as -> H. unfold v3_match in H.
    destruct (v3_scoped m1) as [sc|] eqn:SC; [|discriminate]. destruct (is_Response _) eqn:IR; [|discriminate].
    destruct (retrieve _ _) as [e|] eqn:RT; [|discriminate]. destruct (message_alive s (e3_handle e)) eqn:A; cbn [negb] in H; [|discriminate].
    destruct (v3_mismatch e m1 sc) eqn:MM; [discriminate|]. injection H as <- <-. exists sc, (h_id (v3_header m1)), e. split; [auto|]. split; [auto|]. split; [|auto].
    unfold retrieve in RT. destruct (dict_get _ _ _) eqn:G; [|discriminate]. injection RT as ->. now apply zget_in in G.
  Qed.

  Lemma alive_open s h : message_alive s h = true -> g_open (getm (v_msgs s) h) = true.
  Proof. unfold message_alive. intros H. now apply andb_prop in H. Qed.
  Lemma alive_own s h : msgs_ok s -> (h < length (v_msgs s))%nat -> message_alive s h = true -> (h < length (v_msgs s))%nat /\ g_own (getm (v_msgs s) h) = true.
  Proof.
    intros (_ & M & _) L A. split; [exact L|]. apply alive_open in A. destruct (g_own _) eqn:O; [auto|]. destruct (M h L O) as (_ & _ & X). congruence.
  Qed.
  Lemma outside_evo s s' : msgs_ok s -> outside s s' -> evo3 s s'.
  Proof.
    intros (_ & M & _) (u & p & c & m & -> & L & _ & LM & G & _). split; [exact L|]. split; [auto|]. split; [intros r _; apply evolves3_refl|]. split; [exact LM|].
    cbn. intros h Hh. destruct (G h Hh) as [->|[O ->]]; [auto|]. destruct (M h Hh O) as (-> & -> & ->). rewrite O. auto.
  Qed.
  Lemma outside_msgs s s' : outside s s' -> msgs_ok s -> msgs_ok s'.
  Proof.
    intros (u & p & c & m & -> & L & _ & LM & G & N & CA) (M1 & M0 & M2). unfold msgs_ok. cbn. split; [|split].
    - intros h _ O. destruct (le_lt_dec (length (v_msgs s)) h) as [K|K]; [destruct (N h K) as (_ & _ & X & _); congruence|]. destruct (G h K) as [E|[_ E]]; rewrite E in *; [auto|discriminate].
    - intros h _ O. destruct (le_lt_dec (length (v_msgs s)) h) as [K|K]; [destruct (N h K) as (? & ? & ? & ?); auto|]. destruct (G h K) as [E|[_ E]]; rewrite E in *; [auto|auto].
    - intros x X. destruct (CA x X) as [Y|Y]; [|lia]. apply M2 in Y. lia.
  Qed.
  (** One step: invariants, and where the requests go. *)
  Lemma step_spec s x s' l : inv3 s -> vstep s x s' l ->
    inv3 s' /\ evo3 s s' /\ exists new lost, Permutation (queued s ++ new) (lost ++ queued s') /\ (forall r, In r lost -> excused s s' l r) /\
      length (v_reqs s') = (length new + length (v_reqs s))%nat /\ (new = [] \/ new = [length (v_reqs s)]).
  Proof.
    intros I ST.
    (* the structural part, from the permutation *)
    assert (MK : forall new lost, Permutation (queued s ++ new) (lost ++ queued s') -> length (v_reqs s') = (length new + length (v_reqs s))%nat -> (new = [] \/ new = [length (v_reqs s)]) ->
       NoDup (queued s') /\ forall r, In r (queued s') -> (r < length (v_reqs s'))%nat).
    { intros new lost P LN N. assert (ND : NoDup (queued s ++ new)).
      { apply nodup_app_intro; [apply (i3_nodup s I)|destruct N as [->| ->]; repeat constructor; auto|]. intros r A B. apply (i3_lt s I) in A. destruct N as [->| ->]; [destruct B|destruct B as [<-|[]]; lia]. }
      split; [apply (Permutation_NoDup P) in ND; now apply nodup_app_r in ND|]. intros r A.
      assert (B : In r (queued s ++ new)) by (eapply Permutation_in; [symmetry; exact P|apply in_or_app; auto]).
      apply in_app_or in B as [B|B]; [apply (i3_lt s I) in B; lia|]. destruct N as [->| ->]; [destruct B|destruct B as [<-|[]]; cbn in LN; lia]. }
    assert (SAME : Permutation (queued s ++ []) ([] ++ queued s)) by (rewrite app_nil_r; reflexivity).
    inversion ST; subst.
    - split; [auto|]. split; [apply evo3_refl|]. exists [], []. split; [exact SAME|]. split; [intros r []|auto].
    - (* VSCall *)
      assert (P : Permutation (queued s ++ [length (v_reqs s)]) ([] ++ queued (made3 s id g n p user level timeout period))).
      { unfold queued. cbn. rewrite flat_map_app. cbn. pcnt. }
      assert (EV : evo3 s (made3 s id g n p user level timeout period)).
      { unfold evo3. cbn. rewrite app_length. repeat split; try lia; auto; rewrite get3_app; destruct (Nat.eqb_spec r (length (v_reqs s))); try lia; auto using evolves3_refl. }
      destruct (MK _ _ P ltac:(cbn; rewrite app_length; cbn; lia) ltac:(auto)) as [ND LT].
      assert (AL : forall r, q_alive (get3 (v_reqs s) r) = true -> q_alive (get3 (v_reqs s ++ [mkReq3 None (set_requestID p id) user level false None None (sched_new (clk (v_clock s)) timeout period) (length (v_bools s)) true]) r) = true).
      { intros r A. rewrite get3_app. destruct (Nat.eqb r _); auto. }
      split; [|split; [exact EV|]].
      + constructor; [cbn; rewrite !app_length, (i3_refs s I); reflexivity|exact ND|exact LT| | | | |].
        * destruct (i3_msgs s I) as (M1 & M0 & M2). split; [|split; [|exact M2]]; cbn; [|auto]. intros h Hh O; rewrite app_length; apply (M1 h Hh) in O; lia.
        * exact (i3_push s I).
        * cbn. intros t T. apply in_app_or in T as [T|[<-|[]]]; [apply AL, (i3_tasks s I t T)|]. cbn [task_req3]. rewrite get3_app, Nat.eqb_refl. reflexivity.
        * cbn. intros r Hr. apply AL, (i3_listener s I r Hr).
        * cbn. rewrite filter_app. cbn. rewrite app_nil_r. apply (i3_lock s I).
      + exists [length (v_reqs s)], []. split; [exact P|]. split; [intros r []|]. split; [cbn; rewrite app_length; cbn; lia|auto].
    - (* VSWait *)
      assert (P : Permutation (queued s ++ []) ([] ++ queued (add_task3 s (SLoop r)))).
      { unfold queued. cbn. rewrite flat_map_app. cbn. rewrite !app_nil_r. reflexivity. }
      destruct (MK _ _ P ltac:(auto) ltac:(auto)) as [ND LT]. split; [|split; [now apply evo3_same|exists [], []; split; [exact P|split; [intros r' []|auto]]]].
      constructor; auto; try apply I.
      + cbn. intros t T. apply in_app_or in T as [T|[<-|[]]]; [apply (i3_tasks s I t T)|]. exact H.
      + cbn. rewrite filter_app. cbn. rewrite app_nil_r. apply (i3_lock s I).
    - (* VSTask *)
      assert (TI : In t (v_tasks s)) by (rewrite H; apply in_elt).
      destruct (tstep_spec _ _ _ _ _ I TI H0) as (K & [ST1 ST2] & TR & LK & lost & P & EX).
      assert (P' : Permutation (queued s ++ []) (lost ++ queued (set_threads s1 (pre ++ new ++ post) (v_listener s1)))).
      { unfold queued. cbn. rewrite H, !flat_map_app. cbn [flat_map]. rewrite app_nil_r. clear - P. pcnt. }
      assert (KL := K). destruct KL as (EV & K1 & K2 & K3 & K4).
      destruct (MK _ _ P' K1 ltac:(auto)) as [ND LT]. split; [|split; [exact EV|exists [], lost; split; [exact P'|split; [exact EX|auto]]]].
      constructor; [cbn; rewrite K2, K1; apply (i3_refs s I)|exact ND|exact LT|exact (K4 (i3_msgs s I))| | | |]; cbn [v_listener set_threads v_msgs v_tasks v_reqs].
      + intros h m Hm. rewrite ST2 in Hm. apply (i3_push s I) in Hm as [Hm Hq]. destruct EV as (_ & _ & _ & EV & EG). destruct (EG h Hm) as (_ & _ & -> & _). split; [lia|auto].
      + intros t' T. rewrite K3. apply in_app_or in T as [T|T]; [apply (i3_tasks s I); rewrite H; apply in_or_app; auto|]. apply in_app_or in T as [T|T].
        * rewrite (TR t' T). apply (i3_tasks s I t TI).
        * apply (i3_tasks s I); rewrite H; apply in_or_app; right; right; auto.
      + intros r Hr. rewrite ST2 in Hr. rewrite K3. apply (i3_listener s I r Hr).
      + pose proof (i3_lock s I) as LO. unfold draining. cbn [v_listener set_threads]. rewrite ST2. fold (draining s). rewrite !filter_app, !app_length.
        destruct LK as [LK|[LF LK]].
        * rewrite H in LO. rewrite filter_app, app_length in LO. change (t :: post) with ([t] ++ post) in LO. rewrite filter_app, app_length in LO. lia.
        * apply locked3_false in LF as [F1 F2]. rewrite F1 in *. rewrite H, filter_app, app_length in F2. cbn [filter] in F2. destruct (poking t); cbn in F2; lia.
    - (* VSHeard *)
      destruct (received_handle _ _ _ _ _ H0) as (sc & id & e & _ & _ & IN & EH & MA & _). apply (i3_msgs s I) in IN. cbn in IN. rewrite EH in IN. assert (OP := alive_own _ _ (i3_msgs s I) IN MA).
      split; [|split; [apply evo3_same; auto; cbn; lia|exists [], []; split; [exact SAME|split; [intros r []|auto]]]].
      constructor; try apply I; cbn; [now intros h0 m0 X; injection X as <- <-|discriminate|].
      pose proof (i3_lock s I) as LO. unfold draining in *. rewrite H in LO. cbn. lia.
    - split; [|split; [apply evo3_same; auto; cbn; lia|exists [], []; split; [exact SAME|split; [intros r []|auto]]]]. constructor; apply I.
    - (* VSListen *)
      destruct (lstep_spec _ _ _ I H) as (K & ST1 & LI & LP & LK & lost & P & EX).
      assert (P' : Permutation (queued s ++ []) (lost ++ queued s')) by (unfold queued; rewrite ST1, app_nil_r; clear - P; pcnt).
      assert (KL := K). destruct KL as (EV & K1 & K2 & K3 & K4).
      destruct (MK _ _ P' K1 ltac:(auto)) as [ND LT]. split; [|split; [exact EV|exists [], lost; split; [exact P'|split; [exact EX|auto]]]].
      constructor; [rewrite K2, K1; apply (i3_refs s I)|exact ND|exact LT|exact (K4 (i3_msgs s I))| | | |].
      + intros h m Hm. apply LP, (i3_push s I) in Hm as [Hm Hq]. destruct EV as (_ & _ & _ & EV & EG). destruct (EG h Hm) as (_ & _ & -> & _). split; [lia|auto].
      + intros t T. rewrite K3. rewrite ST1 in T. apply (i3_tasks s I t T).
      + intros r Hr. rewrite K3. now apply LI.
      + rewrite ST1. pose proof (i3_lock s I) as LO. destruct LK as [LK|LF]; [lia|]. apply locked3_false in LF as [_ ->]. unfold draining. destruct (v_listener s'); lia.
    - (* VSDie *)
      set (s0 := set_req3 s r (q_set_dead (get3 (v_reqs s) r))) in *.
      assert (E0 : evo3 s s0) by (eapply (evo3_put s s0 r _ []); [reflexivity|unfold evolves3; cbn; repeat split; auto; discriminate|auto|now rewrite app_nil_r]).
      pose proof (keeps_closed _ _ _ H0) as (EV & K1 & K2 & K3 & K4). pose proof H0 as (u & p & q' & m' & E & _).
      assert (Q : queued s' = queued s) by (rewrite E; reflexivity).
      assert (LQ : length (v_reqs s') = length (v_reqs s)) by (rewrite K1; cbn; apply put_length).
      assert (V : v_tasks s' = v_tasks s /\ v_listener s' = v_listener s /\ v_refs s' = v_refs s) by (rewrite E; auto). destruct V as (V1 & V2 & V3).
      assert (AL : forall q, q <> r -> q_alive (get3 (v_reqs s') q) = q_alive (get3 (v_reqs s) q)) by (intros q NE; rewrite K3; cbn; now rewrite get3_put_other by auto).
      destruct H as [U1 U2].
      split; [|split; [eapply evo3_trans; eauto|exists [], []; rewrite Q; split; [exact SAME|split; [intros r' []|auto]]]].
      constructor; [rewrite LQ, V3; apply I|rewrite Q; apply I|rewrite Q, LQ; apply I| | | | |].
      + apply K4. destruct (i3_msgs s I) as (M1 & M0 & M2). split; [|split; [|exact M2]]; cbn; intros h Hh; rewrite ?put_length; auto.
      + intros h m Hm. rewrite V2 in Hm. apply (i3_push s I) in Hm as [Hm Hq]. destruct EV as (_ & _ & _ & EV & EG). cbn in EV, EG. destruct (EG h Hm) as (_ & _ & -> & _). split; [lia|auto].
      + rewrite V1. intros t T. rewrite AL by (now apply U1). apply (i3_tasks s I t T).
      + rewrite V2. intros q Hq. rewrite AL by congruence. apply (i3_listener s I q Hq).
      + unfold draining. rewrite V1, V2. apply (i3_lock s I).
    - split; [|split; [now apply evo3_same|exists [], []; split; [exact SAME|split; [intros r []|auto]]]]. constructor; apply I.
    - split; [|split; [now apply (outside_evo _ _ (i3_msgs s I))|exists [], []; destruct H0 as (u & p & c & m & -> & _); split; [exact SAME|split; [intros r []|auto]]]].
      pose proof (outside_msgs _ _ H0 (i3_msgs s I)) as MO. pose proof (outside_evo _ _ (i3_msgs s I) H0) as (_ & _ & _ & EV & EG). destruct H0 as (u & p & c & m & -> & _).
      constructor; try apply I; [exact MO|]. intros h m' Hm. apply (i3_push s I) in Hm as [Hm Hq]. cbn in EV, EG |- *. destruct (EG h Hm) as (_ & _ & -> & _). split; [lia|auto].
  Qed.

  (** The start. *)
  Lemma start_fields u maxSize engineID s0 x : mgr3_new C rnd ns u maxSize engineID = (s0, x) ->
    v_heap s0 = [] /\ v_unsent s0 = [] /\ v_refs s0 = [] /\ v_reqs s0 = [] /\ v_msgs s0 = [] /\ v_bools s0 = [] /\ v_tasks s0 = [] /\ v_listener s0 = LIdle /\
    v_next s0 = None /\ v_clock s0 = 0%nat /\ ca_out (p3_cache (v_proc s0)) = [] /\
    (x = Ok tt -> v_engine s0 = engineID) /\
    v_state s0 = match engineID with None => Inactive | Some _ => Unsynchronized end.
  Proof.
    unfold mgr3_new. destruct engineID as [e|].
    - destruct (manager_engine _ _ _ _ _) as [s1 y] eqn:E. apply manager_engine_spec in E as (u' & [(ex & -> & ->)|(-> & ->)]); intros H; injection H as <- <-; cbn; repeat split; auto; discriminate.
    - intros H. injection H as <- <-. cbn. repeat split; auto.
  Qed.
  Lemma inv3_start u maxSize engineID s0 x : mgr3_new C rnd ns u maxSize engineID = (s0, x) -> inv3 s0.
  Proof.
    intros H. apply start_fields in H as (H1 & H2 & H3 & H4 & H5 & H6 & H7 & H8 & H9 & H10 & H11 & _).
    constructor; unfold queued, msgs_ok, draining; rewrite ?H1, ?H2, ?H3, ?H4, ?H5, ?H7, ?H8, ?H11; cbn; try discriminate; auto; try contradiction; [constructor|].
    split; [intros h Hh; lia|]. split; [intros h Hh; lia|contradiction].
  Qed.
  Lemma inv3_run s0 evs s l : inv3 s0 -> m3_run s0 evs = (s, l) -> inv3 s.
  Proof. intros I E. revert evs s l E. apply (run_ind s0 (fun _ s _ => inv3 s)); [auto|]. intros evs s l x s' l' _ I' ST. now apply (step_spec _ _ _ _ I' ST). Qed.
End History.
