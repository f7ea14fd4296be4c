(** PrfNet3.v -- SNMPv3: nothing that is done before a datagram is handed to the
    system raises OSError; refused datagrams compared with sent ones. *)
From Verif Require Import PrfNet PrfMgr3 PrfMgr3a PrfMgr3c PrfMgr3d SpecMgr3.

(** * Encoding, encryption, registration do not raise OSError *)
Lemma quiet_reraise {A} (P : exc -> bool) e (x : res A) : e <> OSError -> quiet x -> quiet (reraise P e x).
Proof. intros E X. destruct x as [a|y]; cbn [reraise]; [discriminate|]. destruct (P y); [intros K; apply E; congruence|exact X]. Qed.
Lemma quiet_index {A} (l : list A) i : quiet (py_index l i).
Proof. unfold py_index. repeat (destruct (_ : bool) in |- *); try discriminate; destruct (nth_error _ _) in |- *; discriminate. Qed.
Lemma quiet_deref s : quiet (sb_dereference s).
Proof.
  unfold sb_dereference, sb_getitem. repeat match goal with |- quiet (if ?b then _ else _) => destruct b | |- quiet (bind _ _) => apply quiet_bind; [|intros] end;
  first [discriminate|apply quiet_index].
Qed.
Lemma quiet_deref' s : quiet (reraise (exc_eqb IndexError) ParseError (sb_dereference s)).
Proof. apply quiet_reraise; [discriminate|apply quiet_deref]. Qed.
Lemma quiet_tag_decode_loop n : forall a b d, quiet (tag_decode_loop n a b d).
Proof. induction n as [|n IH]; intros a b d; cbn [tag_decode_loop]; destruct (_ =? _); try discriminate. apply quiet_bind; [apply quiet_deref'|intros; apply IH]. Qed.
Lemma quiet_length_decode_loop n : forall a d, quiet (decode_length_loop n a d).
Proof. induction n as [|n IH]; intros a d; cbn [decode_length_loop]; [discriminate|]. apply quiet_bind; [apply quiet_deref'|intros; apply IH]. Qed.
Lemma quiet_decode d t b c : quiet (ber_decode d t b c).
Proof.
  unfold ber_decode. apply quiet_bind.
  - unfold tag_decode. apply quiet_bind; [apply quiet_deref'|]. intros x. apply quiet_bind; [destruct (_ =? _); [apply quiet_tag_decode_loop|discriminate]|].
    intros [k y]. apply quiet_bind; [unfold tag_class; destruct (_ && _)%bool; discriminate|discriminate].
  - intros [k x]. destruct (match t with Some _ => _ | None => _ end); [discriminate|]. apply quiet_bind.
    + unfold decode_length. apply quiet_bind; [apply quiet_deref'|]. intros y. destruct (negb _); [apply quiet_length_decode_loop|discriminate].
    + intros [n y]. destruct (sb_split y n) as [u v]. apply quiet_bind; [unfold sb_len; destruct (_ <? _); discriminate|].
      intros m. destruct (_ <? _); [discriminate|]. destruct (_ && _)%bool; discriminate.
Qed.
Lemma quiet_parameters w : quiet (findSecurityParameters w).
Proof. unfold findSecurityParameters. repeat (apply quiet_bind; [apply quiet_decode|intros [[? ?] ?]]). discriminate. Qed.
Lemma quiet_signature w : quiet (findSignature w).
Proof. unfold findSignature. repeat (apply quiet_bind; [apply quiet_decode|intros [[? ?] ?]]). discriminate. Qed.
Lemma quiet_scoped s : quiet (scoped_encode s).
Proof.
  unfold scoped_encode. apply quiet_bind; [|intros; apply quiet_ber]. unfold scoped_serialize. apply quiet_join.
  do 2 (apply Forall_cons; [apply quiet_octets|]). apply Forall_cons; [apply quiet_pdu|apply Forall_nil].
Qed.
Lemma quiet_header h : quiet (header_encode h).
Proof.
  unfold header_encode. apply quiet_bind; [|intros; apply quiet_ber]. unfold header_serialize. apply quiet_join.
  do 2 (apply Forall_cons; [apply quiet_int|]). apply Forall_cons; [unfold flags_encode; apply quiet_bind; [apply quiet_bytes|intros; apply quiet_ber]|].
  apply Forall_cons; [apply quiet_int|apply Forall_nil].
Qed.
Lemma quiet_v3 m : quiet (v3_encode m).
Proof.
  unfold v3_encode. apply quiet_bind; [|intros; apply quiet_ber]. unfold v3_serialize. apply quiet_join.
  apply Forall_cons; [apply quiet_int|]. apply Forall_cons; [apply quiet_header|]. apply Forall_cons; [apply quiet_octets|]. apply Forall_cons; [|apply Forall_nil].
  destruct (fl_priv _); [destruct (v3_encrypted m); [apply quiet_octets|discriminate]|destruct (v3_scoped m); [apply quiet_scoped|discriminate]].
Qed.
Lemma quiet_params p : quiet (params_encode p).
Proof.
  unfold params_encode. apply quiet_bind; [|intros; apply quiet_ber]. unfold params_serialize. apply quiet_join.
  apply Forall_cons; [apply quiet_octets|]. do 2 (apply Forall_cons; [apply quiet_int|]). do 3 (apply Forall_cons; [apply quiet_octets|]). apply Forall_nil.
Qed.
Lemma quiet_unsigned n v : quiet (to_bytes_unsigned n v).
Proof. unfold to_bytes_unsigned. destruct (_ && _)%bool; discriminate. Qed.
Lemma quiet_iv C n iv : quiet (library_iv C n iv).
Proof. unfold library_iv. destruct (c_backend C); try discriminate. destruct (_ =? _); discriminate. Qed.
Lemma quiet_encrypt C p d b t : quiet (snd (priv_encrypt C p d b t)).
Proof.
  unfold priv_encrypt. destruct (pv_alg p); cbn [snd].
  - apply quiet_bind; [apply quiet_unsigned|]. intros salt. apply quiet_bind; [|intros; apply quiet_bind; [apply quiet_iv|discriminate]].
    unfold packIV. destruct (negb _); [discriminate|]. do 2 (apply quiet_bind; [apply quiet_unsigned|intros]). discriminate.
  - do 2 (apply quiet_bind; [apply quiet_unsigned|intros]). apply quiet_bind; [apply quiet_iv|discriminate].
Qed.
Lemma quiet_new d : quiet (octets_new OctetString d).
Proof. cbn [octets_new]. destruct (_ <? _); discriminate. Qed.
Lemma quiet_usm C R s m e n t : quiet (snd (usm_prepareOutgoing C R s m e n t)).
Proof.
  unfold usm_prepareOutgoing. match goal with |- quiet (snd (let '(s, x) := ?t in _)) => assert (X : quiet (snd t)); [|destruct t as [s1 x]] end.
  - destruct (fl_auth _); [|discriminate]. unfold getCredentials. destruct (dict_get zlist_eqb (ur_engines _) e) as [r|]; [|discriminate].
    destruct (dict_get zlist_eqb (re_users r) n) as [u|]; [|discriminate]. destruct (lc_auth u) as [[alg key]|]; [|discriminate].
    destruct (getEngineTime _ _ _ _) as [b tm]. destruct (fl_priv _); [|discriminate]. destruct (lc_priv u) as [pv|]; [|discriminate].
    destruct (v3_scoped m) as [sc|]; [|discriminate]. pose proof (quiet_scoped sc) as Q. destruct (scoped_encode sc) as [pt|y]; [|intros K; cbn [snd] in K; apply Q; congruence].
    pose proof (quiet_encrypt C pv pt b tm) as E. destruct (priv_encrypt _ _ _ _ _) as [pv' r']. cbn [snd] in E |- *.
    apply quiet_bind; [exact E|]. intros [c salt]. apply quiet_bind; [apply quiet_new|discriminate].
  - cbn [snd] in X |- *. apply quiet_bind; [exact X|]. intros [[[[[m' b] tm] pad] salt] ua]. apply quiet_bind; [apply quiet_params|]. intros sp.
    apply quiet_bind; [apply quiet_new|]. intros _. apply quiet_bind; [apply quiet_v3|]. intros w. destruct ua as [[alg key]|]; [|discriminate].
    apply quiet_bind; [apply quiet_parameters|]. intros p. apply quiet_bind; [apply quiet_signature|]. intros [b0|loc]; discriminate.
Qed.
Lemma quiet_cache {E} G rnd c (e : E) : quiet (snd (cache G rnd c e)).
Proof.
  unfold cache. generalize 10%nat. intros k. revert c. induction k as [|k IH]; intros c; cbn [cache_loop]; [discriminate|].
  destruct (cache_attempt _ _ _ _) as [[id|] c']; [discriminate|apply IH].
Qed.
Lemma quiet_outgoing C R rnd u p d h e n lv m cn t : quiet (snd (v3_prepareOutgoing C R rnd u p d h e n lv m cn t)).
Proof.
  unfold v3_prepareOutgoing. destruct (match m with Some _ => _ | None => _ end) as [m'|]; [|discriminate]. destruct (negb _); [discriminate|].
  destruct (is_Confirmed _).
  - pose proof (quiet_cache gen_v3 rnd (p3_cache p) (mkE3 e cn h n m' lv)) as Q. destruct (cache _ _ _ _) as [c [id|y]]; cbn [snd] in Q; [|cbn [snd]; intros K; apply Q; congruence].
    match goal with |- context [usm_prepareOutgoing C R u ?m e n t] => pose proof (quiet_usm C R u m e n t) as E; destruct (usm_prepareOutgoing C R u m e n t) as [u' w] end. exact E.
  - destruct (numgen_next _) as [id g].
    match goal with |- context [usm_prepareOutgoing C R u ?m e n t] => pose proof (quiet_usm C R u m e n t) as E; destruct (usm_prepareOutgoing C R u m e n t) as [u' w] end. exact E.
Qed.
Lemma quiet_localize C rnd n c e : quiet (cr_localize C rnd n c e).
Proof.
  unfold cr_localize, priv_new. repeat match goal with |- quiet (match ?x with _ => _ end) => destruct x | |- quiet (bind _ _) => apply quiet_bind; [|intros] | |- quiet (if ?b then _ else _) => destruct b end; discriminate.
Qed.
Lemma quiet_addUsers C rnd l : forall n r e, quiet (re_addUsers C rnd n r e l).
Proof.
  induction l as [|[name u] l IH]; intros n r e; cbn [re_addUsers]; [discriminate|]. apply quiet_bind; [|intros [r' n']; apply IH].
  unfold re_addUser. apply quiet_bind; [apply quiet_localize|intros [x k]; discriminate].
Qed.
Lemma quiet_assign C rnd u e ns : quiet (snd (ur_assign C rnd u e ns)).
Proof.
  unfold ur_assign. destruct (dict_get zlist_eqb (ur_engines u) e) as [r|].
  - destruct (re_assign r ns). discriminate.
  - pose proof (quiet_addUsers C rnd (match dict_get zlist_eqb (ur_namespaces u) ns with Some c => ns_users c | None => [] end) (ur_draws u) (mkRemote 1 ns []) e) as Q.
    unfold RemoteEngine. destruct (re_addUsers _ _ _ _ _ _) as [[r n]|y]; cbn [snd]; [discriminate|]. intros K. apply Q. congruence.
Qed.
Lemma quiet_release u e ns : quiet (snd (ur_release u e ns)).
Proof.
  unfold ur_release, re_release. destruct (dict_get zlist_eqb (ur_engines u) e) as [r|]; [|discriminate].
  destruct (zlist_eqb _ _); [destruct (_ <=? _); [discriminate|]|]; destruct (_ =? _); discriminate.
Qed.

(** * A refused datagram and a sent one *)
(** The same random numbers, with a network that refuses nothing. *)
Definition unrefused (rnd : nat -> nat -> Z) : nat -> nat -> Z := fun k i => match k with 3%nat => 0 | _ => rnd k i end.
(** Everything but the schedule, the queues, the state of discovery and the
    threads. *)
Definition same_objects (a b : mgr3) : Prop :=
  v_usm a = v_usm b /\ v_proc a = v_proc b /\ v_clock a = v_clock b /\ v_gen a = v_gen b /\ v_made a = v_made b /\ v_engine a = v_engine b /\
  v_reqs a = v_reqs b /\ v_msgs a = v_msgs b /\ v_bools a = v_bools b.
Lemma same_objects_refl a : same_objects a a.
Proof. unfold same_objects. repeat split. Qed.

Section Compare.
  Context (C : crypto) (R : Z) (rnd : nat -> nat -> Z) (clk : nat -> Z) (fmt : v3msg -> bool) (ns : pystr).
  Notation rnd0 := (unrefused rnd).

  (** The two runs of a step that tries to send: the same, or the datagram is
      refused in the first. *)
  Lemma transmit_cmp s r w now p e user lev :
    let x := transmit C R rnd clk s r w now p e user lev in let y := transmit C R rnd0 clk s r w now p e user lev in
    x = y \/ exists s1 h wire, refused rnd (v_clock s1) = true /\ x = (s1, [WFailed r (Some h) w OSError], Raise OSError) /\ y = (s1, [WSent r h w now p e user lev wire], Ok tt).
  Proof.
    cbv zeta. unfold transmit. cbn [tick3 v_usm v_proc set_io]. change (rnd0 0%nat) with (rnd 0%nat).
    destruct (v3_prepareOutgoing _ _ _ _ _ _ _ _ _ _ _ _ _) as [o [wire|ex]]; [|left; reflexivity].
    change (refused rnd0 ?i) with false. cbv iota.
    match goal with |- context [refused rnd ?i] => destruct (refused rnd i) eqn:RF end; [|left; reflexivity].
    right. eexists. eexists. eexists. split; [|split; reflexivity]. exact RF.
  Qed.
  Lemma reallySend_cmp s r w now eng :
    let x := reallySend3 C R rnd clk ns s r w now eng in let y := reallySend3 C R rnd0 clk ns s r w now eng in
    x = y \/ exists s1 h p e user lev wire, refused rnd (v_clock s1) = true /\ x = (s1, [WFailed r (Some h) w OSError], Raise OSError) /\ y = (s1, [WSent r h w now p e user lev wire], Ok tt).
  Proof.
    cbv zeta. unfold reallySend3. change (request_engine C rnd0 ns) with (request_engine C rnd ns).
    assert (T : forall s p e user lev, transmit C R rnd clk s r w now p e user lev = transmit C R rnd0 clk s r w now p e user lev \/
      exists s1 h p' e' user' lev' wire, refused rnd (v_clock s1) = true /\ transmit C R rnd clk s r w now p e user lev = (s1, [WFailed r (Some h) w OSError], Raise OSError) /\
        transmit C R rnd0 clk s r w now p e user lev = (s1, [WSent r h w now p' e' user' lev' wire], Ok tt)).
    { intros s0 p e user lev. destruct (transmit_cmp s0 r w now p e user lev) as [E|(s1 & h & wire & A & B & D)]; [left; exact E|right; exists s1, h, p, e, user, lev, wire; auto]. }
    destruct eng as [e|].
    - destruct (request_engine C rnd ns s r (Some e)) as [s1 [u|ex]]; [apply T|left; reflexivity].
    - destruct (q_engine _); apply T.
  Qed.
  Lemma send_cmp s r w eng :
    let x := send3 C R rnd clk ns s r w eng in let y := send3 C R rnd0 clk ns s r w eng in
    x = y \/ exists s1 h now p e user lev wire, refused rnd (v_clock s1) = true /\ x = (s1, [WFailed r (Some h) w OSError], Raise OSError) /\ y = (s1, [WSent r h w now p e user lev wire], Ok tt).
  Proof.
    cbv zeta. unfold send3. cbn [tick3]. edestruct reallySend_cmp as [E|(s1 & h & p & e & user & lev & wire & A & B & D)]; [left; exact E|right].
    exists s1, h. eexists. exists p, e, user, lev, wire. split; [exact A|]. split; [exact B|exact D].
  Qed.
  Lemma updateState_objects s : same_objects s (updateState s).
  Proof. unfold updateState. destruct (v_next s); unfold same_objects; repeat split. Qed.
  Lemma push_objects s r : same_objects s (push3 s r).
  Proof. unfold push3. destruct (heappush _ _ _ _). unfold same_objects; repeat split. Qed.
  Lemma heapify_objects s : same_objects s (heapify3 s).
  Proof. unfold heapify3. destruct (heapify _ _ _). unfold same_objects; repeat split. Qed.
  Lemma same_objects_trans a b c : same_objects a b -> same_objects b c -> same_objects a c.
  Proof. unfold same_objects. intuition congruence. Qed.
  (** What [step] is about: a step of a task, or of the listener. *)
  Definition refusal (s1 : mgr3) (l1 : list log3) (s0 : mgr3) (l0 : list log3) : Prop :=
    exists r h w now p e user lev wire, refused rnd (v_clock s1) = true /\ l1 = [WFailed r (Some h) w OSError] /\ l0 = [WSent r h w now p e user lev wire] /\ same_objects s1 s0.
  Lemma locked_cmp s r w :
    let x := request_locked C R rnd clk ns s r w in let y := request_locked C R rnd0 clk ns s r w in
    x = y \/ exists s1 s0 l1 l0, x = (s1, l1, Raise OSError) /\ y = (s0, l0, Ok true) /\ refusal s1 l1 s0 l0.
  Proof.
    cbv zeta. unfold request_locked. destruct (onRequest _ _) as [nx b]. destruct b; [|left; reflexivity].
    edestruct send_cmp as [E|(s1 & h & now & p & e & user & lev & wire & A & B & D)]; [left; rewrite E; reflexivity|right]. rewrite B, D.
    do 4 eexists. split; [reflexivity|]. split; [reflexivity|]. do 9 eexists. split; [exact A|]. split; [reflexivity|]. split; [reflexivity|].
    eapply same_objects_trans; [apply push_objects|apply updateState_objects].
  Qed.
  Ltac lf := cbv beta iota zeta; left; reflexivity.
  Ltac rt := cbv beta iota zeta; right.
  Lemma task_cmp s t :
    let '(s1, n1, l1) := task3_step C R rnd clk ns s t in let '(s0, n0, l0) := task3_step C R rnd0 clk ns s t in
    (s1, n1, l1) = (s0, n0, l0) \/ refusal s1 l1 s0 l0.
  Proof.
    destruct t as [r|r|r|r|r u b|r lim|r|r o]; cbn [task3_step task_req3].
    - destruct (locked3 s); [lf|]. destruct (locked_cmp s r ByCall) as [E|(s1 & s0 & l1 & l0 & A & B & D)]; [rewrite E; clear E; destruct (request_locked _ _ _ _ _ _ _ _) as [[? ?] [[|]|]]; lf|].
      rewrite A, B. rt; exact D.
    - cbn [tick3]. destruct (sched_expired _ _); lf.
    - unfold refresh3. destruct (v_heap s) as [|root t]; [lf|]. destruct (negb _); [destruct (refresh_pop s r) as [[? ?] ?]; lf|].
      destruct (q_event _); [destruct (refresh_pop s r) as [[? ?] ?]; lf|]. cbn [tick3].
      destruct (sched_refresh _ _) as [[|wt|c]|e]; [destruct (refresh_pop _ r) as [[? ?] ?]; lf|lf| |lf].
      edestruct reallySend_cmp as [E|(s1 & h & p & e & user & lev & wire & A & B & D)].
      + rewrite E; clear E. destruct (reallySend3 _ _ _ _ _ _ _ _ _ _) as [[s1 l1] [[]|]]; [destruct (replace3 _ _)|]; lf.
      + rewrite B, D. unfold replace3. destruct (heapreplace _ _ _ _) as [[w' h']|]; rt; do 9 eexists; (split; [exact A|]); (split; [reflexivity|]); (split; [reflexivity|]); unfold same_objects; repeat split.
    - destruct (locked3 s); lf.
    - unfold poke3. destruct u as [|q rest]; [destruct b; lf|]. destruct (q_alive _); [|lf].
      destruct (locked_cmp s q ByPoke) as [E|(s1 & s0 & l1 & l0 & A & B & D)]; [rewrite E; clear E; destruct (request_locked _ _ _ _ _ _ _ _) as [[? ?] [[|]|]]; lf|].
      rewrite A, B. rt; exact D.
    - destruct (q_event _); lf.
    - lf.
    - change (close3 C rnd0 ns) with (close3 C rnd ns). destruct (close3 _ _ _ _ _) as [? []]; lf.
  Qed.
  Lemma listen_cmp s :
    let '(s1, l1) := listen3 C R rnd clk fmt ns s in let '(s0, l0) := listen3 C R rnd0 clk fmt ns s in
    (s1, l1) = (s0, l0) \/ refusal s1 l1 s0 l0.
  Proof.
    unfold listen3. change (manager_engine C rnd0 ns) with (manager_engine C rnd ns).
    destruct (v_listener s) as [|h m|r e w|r e w|r|r m|r m].
    - lf.
    - destruct (push_step _ _ _ _); lf.
    - destruct (locked3 s); [lf|]. destruct (onReport _ _ _) as [[nx b]|ex]; [|lf].
      edestruct send_cmp as [E|(s1 & h & now & p & e' & user & lev & wire & A & B & D)].
      + rewrite E; clear E. destruct (send3 _ _ _ _ _ _ _ _ _) as [[s1 l1] [[]|]]; [destruct b|]; lf.
      + rewrite B, D. destruct b; rt; do 9 eexists; (split; [exact A|]); (split; [reflexivity|]); (split; [reflexivity|]).
        * eapply same_objects_trans; [apply (heapify_objects s1)|]. eapply same_objects_trans; [apply updateState_objects|]. unfold same_objects; repeat split.
        * eapply same_objects_trans; [apply (heapify_objects s1)|]. unfold same_objects; repeat split.
    - destruct (v_unsent s) as [|q rest]; [lf|]. destruct (q_alive _); [|lf].
      edestruct send_cmp as [E|(s1 & h & now & p & e' & user & lev & wire & A & B & D)].
      + rewrite E; clear E. destruct (send3 _ _ _ _ _ _ _ _ _) as [[s1 l1] [[]|]]; lf.
      + rewrite B, D. rt; do 9 eexists; (split; [exact A|]); (split; [reflexivity|]); (split; [reflexivity|]).
        eapply same_objects_trans; [|apply (push_objects s1)]. unfold same_objects; repeat split.
    - lf.
    - destruct (locked3 s); [lf|]. destruct (v3_engineID m); [|lf]. destruct (onResponse _ _ _ _) as [[nx [|]]|]; try (lf).
      destruct (manager_engine _ _ _ _ _) as [s1 [u|ex]]; lf.
    - lf.
  Qed.
  Lemma step_cmp s x :
    let '(s1, l1) := m3_step C R rnd clk fmt ns s x in let '(s0, l0) := m3_step C R rnd0 clk fmt ns s x in
    (s1, l1) = (s0, l0) \/ refusal s1 l1 s0 l0.
  Proof.
    destruct x as [p user level timeout period|r|n|d| |r|op|p e user level|h]; cbn [m3_step].
    - change (generateRequestID rnd0) with (generateRequestID rnd). destruct (generateRequestID rnd s). lf.
    - destruct (_ && _)%bool; lf.
    - destruct (nth_error _ _) as [t|]; [|lf]. pose proof (task_cmp s t) as T.
      destruct (task3_step C R rnd clk ns s t) as [[s1 n1] l1]. destruct (task3_step C R rnd0 clk ns s t) as [[s0 n0] l0].
      destruct T as [E|T]; [injection E as -> -> ->; lf|right]. destruct T as (r & h & w & now & p & e & user & lev & wire & A & B & D & F).
      do 9 eexists. split; [exact A|]. split; [exact B|]. split; [exact D|]. exact F.
    - destruct (v_listener s); try (lf). cbn [tick3]. match goal with |- context [v3_prepareDataElements C R ?a ?b ?c ?d ?e] => destruct (v3_prepareDataElements C R a b c d e) as [u [[m h]|ex]] end; lf.
    - apply listen_cmp.
    - change (close3 C rnd0 ns) with (close3 C rnd ns). destruct (_ || _)%bool; lf.
    - lf.
    - lf.
    - destruct (g_own (getm (v_msgs s) h)), (g_cb (getm (v_msgs s) h)); lf.
  Qed.
End Compare.

(** * Who is told *)
Section Told.
  Context (C : crypto) (R : Z) (rnd : nat -> nat -> Z) (clk : nat -> Z) (fmt : v3msg -> bool) (ns : pystr).
  Lemma quiet_request_engine s r new : quiet (snd (request_engine C rnd ns s r new)).
  Proof.
    unfold request_engine. destruct (opt_eqb _ _ _); [discriminate|].
    assert (X : forall old, quiet (snd (switch_engine C rnd ns s old new))).
    { intros old. unfold switch_engine, registerRemoteEngine, unregisterRemoteEngine.
      assert (U : forall s', quiet (snd (match old with Some e => let '(u, x) := ur_release (us_users (v_usm s')) e ns in (set_users s' u, do _ <- x; Ok tt) | None => (s', Ok tt) end))).
      { intros s'. destruct old as [o|]; [|discriminate]. pose proof (quiet_release (us_users (v_usm s')) o ns) as Q. destruct (ur_release _ _ _) as [u x]. cbn [snd] in Q |- *. apply quiet_bind; [exact Q|discriminate]. }
      destruct new as [e|]; [|apply U]. pose proof (quiet_assign C (rnd 2%nat) (us_users (v_usm s)) e ns) as Q. destruct (ur_assign _ _ _ _ _) as [u [ok|ex]]; cbn [snd bind] in Q |- *.
      - destruct ok; [apply U|discriminate].
      - intros K. cbn [snd] in K. apply Q. congruence. }
    specialize (X (q_engine (get3 (v_reqs s) r))). destruct (switch_engine _ _ _ _ _ _) as [s1 [u|ex]]; cbn [snd] in X |- *; [discriminate|]. intros K. apply X. congruence.
  Qed.
  Lemma sends_told s r w now eng s' l e : sends s r w now eng s' l (Raise e) -> exists h, l = [WFailed r h w e].
  Proof.
    intros S. inversion S as [u ex NE|u p c cb d e0 user lev l0 x q h T K CA O]; subst; [eexists; reflexivity|].
    destruct O as [(wire & X & _)|(ex & X & L)]; [discriminate X|]. injection X as <-. eauto.
  Qed.
  Lemma asks_told s r w s' l e : asks clk s r w s' l (Raise e) -> exists h, l = [WFailed r h w e].
  Proof. intros A. inversion A; subst. eapply sends_told; eassumption. Qed.
  Lemma asks_silent s r w s' l b : asks clk s r w s' l (Ok b) -> forall q h w' e, ~ In (WFailed q h w' e) l.
  Proof.
    intros A. inversion A as [| |]; subst; intros q' h w' e K; try destruct K.
    match goal with H : sends _ _ _ _ _ _ _ _ |- _ => inversion H as [u ex NE|u p c cb d e0 user lev l0 x q h0 T K0 CA O]; subst end.
    destruct O as [(wire & X & ->)|(ex & X & L)]; [|discriminate X]. destruct K as [K|[]]. discriminate K.
  Qed.

  Lemma nth_split {A} (l1 l2 l3 : list A) a : nth_error (l1 ++ (a :: l2) ++ l3) (length l1) = Some a.
  Proof. rewrite nth_error_app2, Nat.sub_diag; [reflexivity|apply Nat.le_refl]. Qed.
  Lemma nth_mid {A} (l1 l2 : list A) a : nth_error (l1 ++ a :: l2) (length l1) = Some a.
  Proof. exact (nth_split l1 [] l2 a). Qed.
  (** The result of [r], which wait() reads, is the same in both states. *)
  Definition same_result (s s' : mgr3) (r : nat) : Prop :=
    q_event (get3 (v_reqs s') r) = q_event (get3 (v_reqs s) r) /\ q_exception (get3 (v_reqs s') r) = q_exception (get3 (v_reqs s) r) /\
    q_response (get3 (v_reqs s') r) = q_response (get3 (v_reqs s) r).
  Lemma put_result s (q : req3) r r' : q_event q = q_event (get3 (v_reqs s) r) -> q_exception q = q_exception (get3 (v_reqs s) r) -> q_response q = q_response (get3 (v_reqs s) r) ->
    let q' := get3 (put (v_reqs s) r q) r' in
    q_event q' = q_event (get3 (v_reqs s) r') /\ q_exception q' = q_exception (get3 (v_reqs s) r') /\ q_response q' = q_response (get3 (v_reqs s) r').
  Proof.
    intros A B D. cbv zeta. rewrite get3_put. destruct (Nat.eqb_spec r r') as [<-|N]; cbn [andb]; [|auto]. destruct (_ <? _)%nat; auto.
  Qed.
  Lemma sends_result s r w now eng s' l x : sends s r w now eng s' l x -> forall r', same_result s s' r'.
  Proof.
    intros S r'. inversion S as [u ex NE|u p c cb d e0 user lev l0 y q h T K CA O]; subst; [unfold same_result; cbn; auto|].
    unfold same_result. cbn [v_reqs set_objects]. apply put_result; reflexivity.
  Qed.
  Lemma readied_result s r r' : same_result s (readied clk s r) r'.
  Proof. unfold same_result, readied. cbn. apply put_result; reflexivity. Qed.
  Lemma same_result_trans a b c r : same_result a b r -> same_result b c r -> same_result a c r.
  Proof. unfold same_result. intuition congruence. Qed.
  Lemma failed_step s x s' l q h w e : why_ok s -> vstep C R rnd clk ns s x s' l -> In (WFailed q h w e) l -> l = [WFailed q h w e] /\
    ((exists n, x = VStep n /\ nth_error (v_tasks s) n = Some (SSend q) /\ w = ByCall /\ v_tasks s' = firstn n (v_tasks s) ++ skipn (S n) (v_tasks s)) \/
     (exists n t r, x = VStep n /\ nth_error (v_tasks s) n = Some t /\ (t = SRefresh r /\ w = ByRefresh \/ exists u b, t = SPoking r u b /\ w = ByPoke) /\
        v_tasks s' = firstn n (v_tasks s) ++ SClose r (VRaised e) :: skipn (S n) (v_tasks s)) \/
     (x = VListen /\ (w = ByUnknownEngine \/ w = ByNotInTime \/ w = ByDrain) /\ v_tasks s' = v_tasks s /\ forall r, same_result s s' r)).
  Proof.
    intros WO ST IN.
    assert (FS : forall pre (t : task3) post, firstn (length pre) (pre ++ t :: post) = pre /\ skipn (S (length pre)) (pre ++ t :: post) = post).
    { intros pre t post. split; [rewrite firstn_app, Nat.sub_diag, firstn_all; apply app_nil_r|]. rewrite skipn_app, skipn_all2, Nat.sub_succ_l, Nat.sub_diag by lia. reflexivity. }
    assert (SD : forall a b c d f g k, sends a b c d f g k (Ok tt) -> In (WFailed q h w e) k -> False).
    { intros a b c d f g k S K. inversion S as [u ex NE|u p c0 cb d0 e0 user lev l0 y q0 h0 T K0 CA O]; subst.
      destruct O as [(wire & X & ->)|(ex & X & L)]; [|discriminate X]. destruct K as [K|[]]. discriminate K. }
    inversion ST as [x0|p user level timeout period id g n|r AL NS|pre t post s1 new l0 TS TT|d u m h0 V P|d u V|s0 l0 LS|r s0 UN CL|op u|x1 s0 OE OU]; subst; try (destruct IN; fail).
    - destruct (FS pre t post) as [F1 F2]. cbn [v_tasks set_threads]. rewrite TS.
      inversion TT; subst; try (destruct IN as [IN|IN]; [discriminate IN|destruct IN]); try (destruct IN; fail).
      + (* sendRequest() *)
        destruct y as [b|ex]; [exfalso; eapply asks_silent; eassumption|]. match goal with H : asks _ _ _ _ _ _ _ |- _ => apply asks_told in H as (h1 & ->) end.
        destruct IN as [IN|[]]. injection IN as -> -> -> ->. split; [reflexivity|]. left. exists (length pre). split; [reflexivity|]. split; [apply nth_mid|].
        split; [auto|]. rewrite F1, F2. reflexivity.
      + match goal with H : sends _ _ _ _ _ _ _ _ |- _ => apply sends_told in H as (h1 & ->) end.
        destruct IN as [IN|[]]. injection IN as -> -> -> ->. split; [reflexivity|]. right. left. exists (length pre). eexists. eexists. split; [reflexivity|]. split; [apply nth_mid|].
        split; [left; eauto|]. rewrite F1, F2. reflexivity.
      + exfalso. eapply SD; eassumption.
      + match goal with H : asks _ _ _ _ _ _ _ |- _ => apply asks_told in H as (h1 & ->) end.
        destruct IN as [IN|[]]. injection IN as -> -> -> ->. split; [reflexivity|]. right. left. exists (length pre). eexists. eexists. split; [reflexivity|]. split; [apply nth_mid|].
        split; [right; eauto|]. rewrite F1, F2. reflexivity.
      + exfalso. eapply asks_silent; eassumption.
    - inversion LS; subst; try (destruct IN; fail); try (destruct IN as [IN|IN]; [discriminate IN|destruct IN]; fail); try (exfalso; eapply SD; eassumption).
      + destruct IN as [IN|[IN|[]]]; discriminate IN.
      + match goal with H : sends _ _ _ _ _ _ _ _ |- _ => pose proof (sends_result _ _ _ _ _ _ _ _ H) as SR; assert (TK : v_tasks s1 = v_tasks s) by (inversion H; subst; destruct nx; reflexivity); apply sends_told in H as (h1 & ->) end.
        destruct IN as [IN|[]]. injection IN as -> -> -> ->. split; [reflexivity|]. right. right. split; [reflexivity|]. split.
        * edestruct WO as [->| ->]; [left; eassumption|auto|auto].
        * split; [exact TK|]. intros r'. eapply same_result_trans; [|exact (SR r')]. eapply same_result_trans; [|apply readied_result].
          destruct nx; unfold same_result; cbn; auto.
      + match goal with H : sends _ _ _ _ _ _ _ _ |- _ => pose proof (sends_result _ _ _ _ _ _ _ _ H) as SR; assert (TK : v_tasks s1 = v_tasks s) by (inversion H; subst; reflexivity); apply sends_told in H as (h1 & ->) end.
        destruct IN as [IN|[]]. injection IN as -> -> -> ->. split; [reflexivity|]. right. right. split; [reflexivity|]. split; [auto|].
        split; [exact TK|]. intros r'. eapply same_result_trans; [|exact (SR r')]. eapply same_result_trans; [|apply readied_result].
        unfold same_result; cbn; auto.
  Qed.
End Told.

(** * Nothing else raises OSError *)
Section Accepted.
  Context (C : crypto) (R : Z) (rnd : nat -> nat -> Z) (clk : nat -> Z) (fmt : v3msg -> bool) (ns : pystr).
  Context (ALL : forall i, refused rnd i = false).
  Definition clean (l : list log3) : Prop := forall q h w, ~ In (WFailed q h w OSError) l.
  Lemma clean_nil : clean [].
  Proof. intros q h w []. Qed.
  Lemma clean_one y : (match y with WFailed _ _ _ OSError => False | _ => True end) -> clean [y].
  Proof. intros H q h w [K|[]]. rewrite K in H. exact H. Qed.
  Lemma clean_failed r h w ex : ex <> OSError -> clean [WFailed r h w ex].
  Proof. intros N q' h' w' [K|[]]. injection K as _ _ _ K. auto. Qed.
  Lemma transmit_clean s r w now p e user lev : clean (snd (fst (transmit C R rnd clk s r w now p e user lev))).
  Proof.
    unfold transmit. cbn [tick3]. match goal with |- context [v3_prepareOutgoing ?a ?b ?c ?d ?f ?g ?i ?j ?k ?m ?n ?o ?t] =>
      pose proof (quiet_outgoing a b c d f g i j k m n o t) as Q; destruct (v3_prepareOutgoing a b c d f g i j k m n o t) as [y [wire|ex]] end; cbn [snd] in Q.
    - rewrite ALL. apply clean_one. exact Logic.I.
    - apply clean_failed. intros ->. apply Q. reflexivity.
  Qed.
  Lemma reallySend_clean s r w now eng : clean (snd (fst (reallySend3 C R rnd clk ns s r w now eng))).
  Proof.
    unfold reallySend3. destruct eng as [e|]; [|destruct (q_engine _); apply transmit_clean].
    pose proof (quiet_request_engine C rnd ns s r (Some e)) as Q. destruct (request_engine C rnd ns s r (Some e)) as [s1 [u|ex]]; cbn [snd] in Q; [apply transmit_clean|].
    apply clean_failed. intros ->. apply Q. reflexivity.
  Qed.
  Lemma send_clean s r w eng : clean (snd (fst (send3 C R rnd clk ns s r w eng))).
  Proof. unfold send3. cbn [tick3]. apply reallySend_clean. Qed.
  Lemma locked_clean s r w : clean (snd (fst (request_locked C R rnd clk ns s r w))).
  Proof.
    unfold request_locked. destruct (onRequest _ _) as [nx b]. destruct b; [|apply clean_nil].
    match goal with |- context [send3 C R rnd clk ns ?a ?b ?c ?d] => pose proof (send_clean a b c d) as Q; destruct (send3 C R rnd clk ns a b c d) as [[s1 l1] [u|ex]] end; exact Q.
  Qed.
  Lemma pop_clean s r : clean (snd (refresh_pop s r)).
  Proof. unfold refresh_pop. destruct (pop3 s); apply clean_nil. Qed.
  Lemma task_clean s t : clean (snd (task3_step C R rnd clk ns s t)).
  Proof.
    destruct t as [r|r|r|r|r u b|r lim|r|r o]; cbn [task3_step task_req3].
    - destruct (locked3 s); [apply clean_nil|]. pose proof (locked_clean s r ByCall) as Q. destruct (request_locked _ _ _ _ _ _ _ _) as [[? ?] [[|]|]]; exact Q.
    - cbn [tick3]. destruct (sched_expired _ _); apply clean_nil.
    - unfold refresh3. destruct (v_heap s) as [|root t]; [apply clean_nil|]. destruct (negb _); [apply pop_clean|]. destruct (q_event _); [apply pop_clean|]. cbn [tick3].
      destruct (sched_refresh _ _) as [[|wt|c]|e]; [apply pop_clean|apply clean_one; exact Logic.I| |apply clean_nil].
      match goal with |- context [reallySend3 C R rnd clk ns ?a ?b ?c ?d ?e] => pose proof (reallySend_clean a b c d e) as Q; destruct (reallySend3 C R rnd clk ns a b c d e) as [[s1 l1] [u|ex]] end; [destruct (replace3 _ _)|]; exact Q.
    - destruct (locked3 s); apply clean_nil.
    - unfold poke3. destruct u as [|q rest]; [destruct b; [apply clean_nil|apply clean_one; exact Logic.I]|]. destruct (q_alive _); [|apply clean_nil].
      pose proof (locked_clean s q ByPoke) as Q. destruct (request_locked _ _ _ _ _ _ _ _) as [[? ?] [[|]|]]; exact Q.
    - destruct (q_event _); apply clean_nil.
    - apply clean_nil.
    - destruct (close3 _ _ _ _ _) as [? []]; apply clean_one; exact Logic.I.
  Qed.
  Lemma clean_two a m y : (match y with WFailed _ _ _ OSError => False | _ => True end) -> clean [WPushed a m; y].
  Proof. intros H q h w [K|[K|[]]]; [discriminate K|]. rewrite K in H. exact H. Qed.
  Lemma listen_clean s : clean (snd (listen3 C R rnd clk fmt ns s)).
  Proof.
    unfold listen3. destruct (v_listener s) as [|h m|r e w|r e w|r|r m|r m].
    - apply clean_nil.
    - unfold push_step. cbv zeta. destruct (v3_scoped m); [|apply clean_one; exact Logic.I]. destruct (v3_engineID m); [|apply clean_one; exact Logic.I].
      destruct (negb _); [apply clean_one; exact Logic.I|]. destruct (pducls_eqb _ _); [|apply clean_one; exact Logic.I]. destruct (pdu_vbs _); [apply clean_one; exact Logic.I|].
      destruct (report_kind _); [destruct (opt_bytes_eqb _ _)|destruct (nth _ _ _)|destruct (fmt m)]; first [apply clean_one; exact Logic.I|apply clean_two; exact Logic.I].
    - destruct (locked3 s); [apply clean_nil|]. destruct (onReport _ _ _) as [[nx b]|ex]; [|apply clean_nil].
      match goal with |- context [send3 C R rnd clk ns ?a ?b ?c ?d] => pose proof (send_clean a b c d) as Q; destruct (send3 C R rnd clk ns a b c d) as [[s1 l1] [u|ex]] end; [destruct b|]; exact Q.
    - destruct (v_unsent s) as [|q rest]; [apply clean_nil|]. destruct (q_alive _); [|apply clean_nil].
      match goal with |- context [send3 C R rnd clk ns ?a ?b ?c ?d] => pose proof (send_clean a b c d) as Q; destruct (send3 C R rnd clk ns a b c d) as [[s1 l1] [u|ex]] end; exact Q.
    - apply clean_nil.
    - destruct (locked3 s); [apply clean_nil|]. destruct (v3_engineID m); [|apply clean_nil]. destruct (onResponse _ _ _ _) as [[nx [|]]|]; try apply clean_nil.
      destruct (manager_engine _ _ _ _ _) as [s1 [u|ex]]; apply clean_nil.
    - apply clean_one. exact Logic.I.
  Qed.
  Lemma step_clean s x : clean (snd (m3_step C R rnd clk fmt ns s x)).
  Proof.
    destruct x as [p user level timeout period|r|n|d| |r|op|p e user level|h]; cbn [m3_step].
    - destruct (generateRequestID rnd s). apply clean_nil.
    - destruct (_ && _)%bool; apply clean_nil.
    - destruct (nth_error _ _) as [t|]; [|apply clean_nil]. pose proof (task_clean s t) as Q. destruct (task3_step C R rnd clk ns s t) as [[s1 n1] l1]. exact Q.
    - destruct (v_listener s); try apply clean_nil. cbn [tick3]. match goal with |- context [v3_prepareDataElements C R ?a ?b ?c ?d ?e] => destruct (v3_prepareDataElements C R a b c d e) as [u [[m h]|ex]] end; apply clean_nil.
    - apply listen_clean.
    - destruct (_ || _)%bool; apply clean_nil.
    - apply clean_nil.
    - apply clean_nil.
    - destruct (g_own _); [apply clean_nil|]. destruct (g_cb _); apply clean_nil.
  Qed.
End Accepted.
Lemma accepted_step W s x : (forall i, refused (w_rnd W) i = false) -> forall q h w, ~ In (WFailed q h w OSError) (snd (step3 W s x)).
Proof. intros A. exact (step_clean _ _ _ _ _ _ A s x). Qed.
