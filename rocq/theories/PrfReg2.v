(** PrfReg2.v -- the v3 manager: its registrations are what it and its requests hold. *)
From Verif Require Export PrfMgr3a PrfReg SpecReg.

Definition mark (q : req3) : option bytes * bool := (q_engine q, q_alive q).
Definition heldby (l : list req3) (e : bytes) : Z := fold_right (fun q n => holds e (q_engine q) + n) 0 l.
Lemma heldby_mark l l' e : map mark l' = map mark l -> heldby l' e = heldby l e.
Proof.
  revert l'. induction l as [|q l IH]; intros [|q' l'] H; cbn in H; try discriminate; auto. injection H as H1 H2 H3.
  cbn. unfold heldby in IH. rewrite (IH l' H3). now rewrite H1.
Qed.
Lemma get3_mark l l' r : map mark l' = map mark l -> mark (get3 l' r) = mark (get3 l r).
Proof. intros H. unfold get3. rewrite <- !(map_nth mark). now rewrite H. Qed.
Lemma put_mark l r q : mark q = mark (get3 l r) -> map mark (put l r q) = map mark l.
Proof.
  revert r. induction l as [|x l IH]; intros [|r] H; cbn; auto.
  - cbn in H. now rewrite H.
  - f_equal. apply IH. exact H.
Qed.
Lemma holds_nonneg e o : 0 <= holds e o.
Proof. destruct o as [e'|]; cbn; [destruct (zlist_eqb e' e)|]; lia. Qed.
Lemma heldby_nonneg l e : 0 <= heldby l e.
Proof. induction l as [|q l IH]; cbn; [lia|]. pose proof (holds_nonneg e (q_engine q)). fold (heldby l e). lia. Qed.
Lemma holds_self e : holds e (Some e) = 1.
Proof. cbn. now rewrite PrfBase.zlist_eqb_refl. Qed.
Lemma heldby_put l r q e : (r < length l)%nat -> heldby (put l r q) e = heldby l e + holds e (q_engine q) - holds e (q_engine (get3 l r)).
Proof.
  assert (HC : forall x l, heldby (x :: l) e = holds e (q_engine x) + heldby l e) by reflexivity.
  revert r. induction l as [|x l IH]; intros [|r] H; cbn [length] in H; try lia; cbn [put]; rewrite !HC.
  - cbn [get3 nth]. unfold get3. cbn [nth]. lia.
  - rewrite IH by lia. unfold get3. cbn [nth]. lia.
Qed.
Lemma heldby_get l r e : holds e (q_engine (get3 l r)) <= heldby l e.
Proof.
  destruct (Nat.lt_ge_cases r (length l)) as [H|H].
  - assert (HC : forall x l, heldby (x :: l) e = holds e (q_engine x) + heldby l e) by reflexivity.
    revert r H. induction l as [|x l IH]; intros [|r] H; cbn [length] in H; try lia; rewrite HC.
    + unfold get3. cbn [nth]. pose proof (heldby_nonneg l e). lia.
    + pose proof (holds_nonneg e (q_engine x)). assert ((r < length l)%nat) by lia. specialize (IH r H1). unfold get3 in *. cbn [nth]. lia.
  - rewrite get3_out by auto. cbn. apply heldby_nonneg.
Qed.
Lemma holders_eq s e : holders s e = holds e (v_engine s) + heldby (v_reqs s) e.
Proof. reflexivity. Qed.

Section Reg2.
  Context (C : crypto) (R : Z) (rnd : nat -> nat -> Z) (clk : nat -> Z) (fmt : v3msg -> bool) (ns : pystr).
  Notation users s := (us_users (v_usm s)).
  Definition bal (o : bytes -> Z) (s : mgr3) : Prop :=
    reg_ok (users s) /\ forall e, registered (users s) ns e = holders s e + o e.
  Definition dead_ok (s : mgr3) : Prop := forall r, q_alive (get3 (v_reqs s) r) = false -> q_engine (get3 (v_reqs s) r) = None.
  (** The frame. *)
  Definition keepR (s s' : mgr3) : Prop :=
    reg_same (users s) (users s') /\ v_engine s' = v_engine s /\ map mark (v_reqs s') = map mark (v_reqs s).
  Lemma keepR_refl s : keepR s s.
  Proof. split; [apply reg_same_refl|auto]. Qed.
  Lemma keepR_eq s s' : users s' = users s -> v_engine s' = v_engine s -> v_reqs s' = v_reqs s -> keepR s s'.
  Proof. intros H1 H2 H3. split; [rewrite H1; apply reg_same_refl|]. now rewrite H2, H3. Qed.
  Lemma keepR_trans a b c : keepR a b -> keepR b c -> keepR a c.
  Proof. intros (A1 & A2 & A3) (B1 & B2 & B3). split; [eapply reg_same_trans; eauto|]. split; congruence. Qed.
  Lemma keepR_bal o s s' : keepR s s' -> bal o s -> bal o s'.
  Proof.
    intros (K1 & K2 & K3) (B1 & B2). destruct (reg_same_ok ns _ _ K1 B1) as [B1' K1']. split; [auto|]. intros e. rewrite K1', B2, !holders_eq, K2.
    now rewrite (heldby_mark _ _ _ K3).
  Qed.
  Lemma keepR_dead s s' : keepR s s' -> dead_ok s -> dead_ok s'.
  Proof.
    intros (_ & _ & K) D r. pose proof (get3_mark _ _ r K) as M. injection M as M1 M2. rewrite M1, M2. apply D.
  Qed.
  Lemma keepR_put s r q : mark q = mark (get3 (v_reqs s) r) -> keepR s (set_req3 s r q).
  Proof. intros H. split; [apply reg_same_refl|]. split; [reflexivity|]. cbn. now apply put_mark. Qed.
  Lemma keepR_assign s nx : keepR s (assign_next s nx).
  Proof. destruct nx; [now apply keepR_eq|apply keepR_refl]. Qed.
  Lemma keepR_update s : keepR s (updateState s).
  Proof. unfold updateState. destruct (v_next s); [now apply keepR_eq|apply keepR_refl]. Qed.
  Lemma keepR_push s r : keepR s (push3 s r).
  Proof. unfold push3. destruct (heappush _ _ _ _) as [w h]. now apply keepR_eq. Qed.
  Lemma keepR_heapify s : keepR s (heapify3 s).
  Proof. unfold heapify3. destruct (heapify _ _ _) as [w h]. now apply keepR_eq. Qed.
  Lemma keepR_pop s s' : pop3 s = Some s' -> keepR s s'.
  Proof. unfold pop3. destruct (heappop _ _ _) as [[w h]|]; [|discriminate]. intros H. injection H as <-. now apply keepR_eq. Qed.
  Lemma keepR_replace s r s' : replace3 s r = Some s' -> keepR s s'.
  Proof. unfold replace3. destruct (heapreplace _ _ _ _) as [[w h]|]; [|discriminate]. intros H. injection H as <-. now apply keepR_eq. Qed.

  (** Engine IDs.  What changes: the registrations, by the difference. *)
  Definition delta (new old : option bytes) (e : bytes) : Z := holds e new - holds e old.
  Definition onlyusers (s s' : mgr3) : Prop := exists u, s' = set_users s u.
  Lemma switch_spec o s old new s' x : bal o s -> (forall e, 0 <= o e) -> (forall e, holds e old <= holders s e) ->
    switch_engine C rnd ns s old new = (s', x) ->
    onlyusers s s' /\ (new = None -> x = Ok tt) /\ reg_ok (users s') /\
    forall e, registered (users s') ns e = holders s e + o e + (match x with Ok _ => delta new old e | Raise _ => 0 end).
  Proof.
    intros (B1 & B2) O HO. unfold switch_engine.
    assert (REL : forall s1 d, onlyusers s s1 -> reg_ok (users s1) -> (forall e, 0 <= d e) -> (forall e, registered (users s1) ns e = holders s e + o e + d e) ->
      match old with Some e => unregisterRemoteEngine ns s1 e | None => (s1, Ok tt) end = (s', x) ->
      onlyusers s s' /\ x = Ok tt /\ reg_ok (users s') /\ forall e, registered (users s') ns e = holders s e + o e + d e - holds e old).
    { intros s1 d [u ->] R1 D R2. destruct old as [e0|].
      - unfold unregisterRemoteEngine. destruct (ur_release _ e0 ns) as [u2 y] eqn:E. intros H. injection H as <- <-.
        assert (P : 0 < registered (us_users (v_usm (set_users s u))) ns e0).
        { rewrite R2. pose proof (HO e0) as X. rewrite holds_self in X. specialize (O e0). specialize (D e0). lia. }
        destruct (release_ok ns _ _ _ _ R1 P E) as (K1 & [b ->] & K3). split; [exists u2; reflexivity|]. split; [reflexivity|]. split; [exact K1|].
        intros e. cbn [v_usm set_users set_io us_users]. rewrite K3, R2. reflexivity.
      - intros H. injection H as <- <-. split; [exists u; reflexivity|]. split; [auto|]. split; [auto|]. intros e. rewrite R2. cbn [holds]. lia. }
    destruct new as [e1|].
    - unfold registerRemoteEngine. destruct (ur_assign _ _ _ e1 ns) as [u1 y] eqn:E. destruct (assign_reg C (rnd 2) ns _ _ _ _ _ B1 E) as [K1 K2].
      assert (U1 : onlyusers s (set_users s u1)) by (exists u1; reflexivity).
      destruct y as [[|]|ex]; cbn [bind].
      + intros H. apply (REL _ (fun e => holds e (Some e1))) in H.
        * destruct H as (H1 & -> & H2 & H3). split; [auto|]. split; [auto|]. split; [auto|]. intros e. rewrite H3. unfold delta. lia.
        * exact U1.
        * exact K1.
        * intros e. apply holds_nonneg.
        * intros e. cbn [v_usm set_users set_io us_users]. rewrite K2, B2, PrfBase.zlist_eqb_refl. reflexivity.
      + intros H. injection H as <- <-. split; [auto|]. split; [discriminate|]. split; [exact K1|]. intros e. cbn [v_usm set_users set_io us_users]. rewrite K2, B2. lia.
      + intros H. injection H as <- <-. split; [auto|]. split; [discriminate|]. split; [exact K1|]. intros e. cbn [v_usm set_users set_io us_users]. rewrite K2, B2. lia.
    - intros H. apply (REL _ (fun _ => 0)) in H.
      + destruct H as (H1 & -> & H2 & H3). split; [auto|]. split; [auto|]. split; [auto|]. intros e. rewrite H3. unfold delta. cbn [holds]. lia.
      + exists (users s). destruct s as [[? ?]]; reflexivity.
      + exact B1.
      + lia.
      + intros e. rewrite B2. lia.
  Qed.
  Lemma opt_same new old : opt_eqb zlist_eqb new old = true -> new = old.
  Proof. destruct new, old; cbn; try discriminate; auto. intros H. apply PrfDict.zlist_eqb_eq in H. now subst. Qed.
  Lemma mark_set_engine q e : mark (q_set_engine q e) = (e, q_alive q).
  Proof. reflexivity. Qed.
  (** Request.engineID = new *)
  Lemma request_engine_bal o s r new s' x : bal o s -> (forall e, 0 <= o e) -> (new = None \/ (r < length (v_reqs s))%nat) ->
    request_engine C rnd ns s r new = (s', x) ->
    bal o s' /\ (new = None -> x = Ok tt) /\ v_engine s' = v_engine s /\ length (v_reqs s') = length (v_reqs s) /\
    (forall r', q_alive (get3 (v_reqs s') r') = q_alive (get3 (v_reqs s) r')) /\
    (forall r', r' <> r -> q_engine (get3 (v_reqs s') r') = q_engine (get3 (v_reqs s) r')) /\
    q_engine (get3 (v_reqs s') r) = match x with Ok _ => new | Raise _ => q_engine (get3 (v_reqs s) r) end.
  Proof.
    intros B O LT. unfold request_engine. destruct (opt_eqb _ _ _) eqn:E.
    - apply opt_same in E. intros H. injection H as <- <-. repeat split; auto; apply B.
    - destruct (switch_engine _ _ _ _ _ _) as [s1 y] eqn:SW. apply (switch_spec o) in SW as ([u ->] & NN & R1 & R2); [|auto|auto|].
      2:{ intros e. rewrite holders_eq. pose proof (heldby_get (v_reqs s) r e). pose proof (holds_nonneg e (v_engine s)). lia. }
      destruct y as [[]|ex]; intros H; injection H as <- <-.
      + cbn [v_engine v_reqs set_req3 set_objects set_users set_io]. split; [|split; [auto|split; [auto|split; [apply put_length|]]]].
        * split; [exact R1|]. intros e. cbn [v_usm set_req3 set_objects set_users set_io us_users]. cbn [v_usm set_users set_io us_users] in R2.
          rewrite R2, !holders_eq. cbn [v_engine v_reqs set_req3 set_objects set_users set_io].
          destruct (Nat.lt_ge_cases r (length (v_reqs s))) as [L|L].
          -- rewrite heldby_put by auto. cbn [q_engine q_set_engine]. unfold delta. lia.
          -- destruct LT as [->|LT]; [|lia]. rewrite get3_out in * by auto. cbn in E. discriminate.
        * split; [|split].
          -- intros r'. rewrite get3_put. destruct (_ && _)%bool eqn:X; auto. apply andb_prop in X as [X _]. apply Nat.eqb_eq in X as <-. reflexivity.
          -- intros r' N. rewrite get3_put_other by auto. reflexivity.
          -- destruct (Nat.lt_ge_cases r (length (v_reqs s))) as [L|L]; [now rewrite get3_put_same|].
             destruct LT as [->|LT]; [|lia]. rewrite get3_out; [reflexivity|now rewrite put_length].
      + split; [|repeat split; auto]. split; [exact R1|]. intros e. rewrite R2. change (holders (set_users s u) e) with (holders s e). lia.
  Qed.
  Lemma manager_engine_bal o s new s' x : bal o s -> (forall e, 0 <= o e) -> manager_engine C rnd ns s new = (s', x) ->
    bal o s' /\ (new = None -> x = Ok tt) /\ v_reqs s' = v_reqs s /\ v_engine s' = match x with Ok _ => new | Raise _ => v_engine s end.
  Proof.
    intros B O. unfold manager_engine. destruct (opt_eqb _ _ _) eqn:E.
    - apply opt_same in E. intros H. injection H as <- <-. auto.
    - destruct (switch_engine _ _ _ _ _ _) as [s1 y] eqn:SW. apply (switch_spec o) in SW as ([u ->] & NN & R1 & R2); [|auto|auto|].
      2:{ intros e. rewrite holders_eq. pose proof (heldby_nonneg (v_reqs s) e). lia. }
      destruct y as [[]|ex]; intros H; injection H as <- <-.
      + split; [|auto]. split; [exact R1|]. intros e. cbn [v_usm set_engine set_users set_io us_users]. cbn [v_usm set_users set_io us_users] in R2.
        rewrite R2, !holders_eq. cbn [v_engine v_reqs set_engine set_users set_io]. unfold delta. lia.
      + split; [|auto]. split; [exact R1|]. intros e. rewrite R2. change (holders (set_users s u) e) with (holders s e). lia.
  Qed.

  (** Sending. *)
  Lemma outgoing_reg u pr p h e user level ts o y : v3_prepareOutgoing C R (rnd 0%nat) u pr p h e user level (Some USM) [] ts = (o, y) -> reg_same (us_users u) (us_users (s3_usm o)).
  Proof.
    intros E. unfold v3_prepareOutgoing in E. destruct (has_module _ _); [|injection E as <- _; apply reg_same_refl]. cbn [negb] in E.
    destruct (if is_Confirmed (pdu_cls p) then _ else _) as [[pr' cb] [id|ex]]; [|injection E as <- _; apply reg_same_refl].
    destruct (usm_prepareOutgoing _ _ _ _ _ _ _) as [u' z] eqn:U. injection E as <- _. eapply outgoing_same; eauto.
  Qed.
  Lemma transmit_keep s r w now p e user level s' l x : transmit C R rnd clk s r w now p e user level = (s', l, x) -> keepR s s'.
  Proof.
    unfold transmit. cbn [tick3]. destruct (v3_prepareOutgoing _ _ _ _ _ _ _ _ _ _ _ _ _) as [o y] eqn:E.
    assert (K : reg_same (users s) (us_users (s3_usm o))).
    { cbn [v_usm set_io] in E. unfold v3_prepareOutgoing in E. destruct (has_module _ _); [|injection E as <- _; apply reg_same_refl]. cbn [negb] in E.
      destruct (if is_Confirmed (pdu_cls p) then _ else _) as [[pr cb] [id|ex]]; [|injection E as <- _; apply reg_same_refl].
      destruct (usm_prepareOutgoing _ _ _ _ _ _ _) as [u z] eqn:U. injection E as <- _. eapply outgoing_same; eauto. }
    intros H. assert (ES : s' = set_objects (set_io s (s3_usm o) (s3_proc o) (S (v_clock s))) (v_reqs s) (v_msgs s ++ [mkMsg3 r (q_sync (get3 (v_reqs s) r)) (s3_callback o) true true]) (v_bools s)).
    { destruct y; [destruct (refused rnd _)|]; injection H as <- _ _; reflexivity. }
    rewrite ES. split; [exact K|]. split; reflexivity.
  Qed.
  (** [r] is alive or the engine ID of the request does not change. *)
  Definition BD (o : bytes -> Z) (s : mgr3) : Prop := bal o s /\ dead_ok s.
  Lemma keepR_BD o s s' : keepR s s' -> BD o s -> BD o s'.
  Proof. intros K [B D]. split; [eapply keepR_bal|eapply keepR_dead]; eauto. Qed.
  Definition aliveR (s : mgr3) (r : nat) : Prop := q_alive (get3 (v_reqs s) r) = true.
  Lemma request_engine_BD o s r e s' x : BD o s -> (forall e, 0 <= o e) -> aliveR s r -> request_engine C rnd ns s r (Some e) = (s', x) -> BD o s'.
  Proof.
    intros [B D] O A H. assert (L := get3_alive_lt _ _ A). apply (request_engine_bal o) in H as (H1 & _ & _ & _ & H2 & H3 & H4); auto.
    split; [auto|]. intros r' DD. rewrite H2 in DD. assert (N : r' <> r) by (intros ->; unfold aliveR in A; congruence). rewrite H3 by auto. now apply D.
  Qed.
  Lemma reallySend_BD o s r w now engineID s' l x : BD o s -> (forall e, 0 <= o e) -> (engineID = None \/ aliveR s r) ->
    reallySend3 C R rnd clk ns s r w now engineID = (s', l, x) -> BD o s'.
  Proof.
    intros B O A. unfold reallySend3. destruct engineID as [e|].
    - destruct A as [A|A]; [discriminate A|]. destruct (request_engine _ _ _ _ _ _) as [s1 [[]|ex]] eqn:E; apply (request_engine_BD o) in E; auto.
      + intros H. eapply keepR_BD; [eapply transmit_keep; eauto|auto].
      + intros H. injection H as <- _ _. auto.
    - destruct (q_engine _); intros H; (eapply keepR_BD; [eapply transmit_keep; eauto|auto]).
  Qed.
  Lemma tick_keep s : keepR s (snd (tick3 clk s)).
  Proof. now apply keepR_eq. Qed.
  Lemma send_BD o s r w engineID s' l x : BD o s -> (forall e, 0 <= o e) -> (engineID = None \/ aliveR s r) ->
    send3 C R rnd clk ns s r w engineID = (s', l, x) -> BD o s'.
  Proof.
    intros B O A. unfold send3. cbn [tick3]. intros H. eapply reallySend_BD; [| |  |exact H]; auto.
    - eapply keepR_BD; [|exact B]. eapply keepR_trans; [apply (tick_keep s)|]. apply keepR_put. reflexivity.
    - destruct A as [A|A]; [auto|right]. unfold aliveR in *. cbn [v_reqs set_req3 set_objects set_io]. rewrite get3_put_same; [exact A|]. now apply get3_alive_lt.
  Qed.
  Lemma close_bal o s r s' x : bal o s -> (forall e, 0 <= o e) -> close3 C rnd ns s r = (s', x) ->
    bal o s' /\ x = Ok tt /\ v_engine s' = v_engine s /\ (forall r', q_alive (get3 (v_reqs s') r') = q_alive (get3 (v_reqs s) r')) /\
    (forall r', r' <> r -> q_engine (get3 (v_reqs s') r') = q_engine (get3 (v_reqs s) r')) /\ q_engine (get3 (v_reqs s') r) = None.
  Proof.
    intros B O. unfold close3. destruct (close_messages _ _ _) as [c l]. intros H.
    apply (request_engine_bal o) in H as (H1 & H0 & H2 & _ & H3 & H4 & H5); [|exact B|exact O|left; reflexivity].
    specialize (H0 eq_refl). subst x. split; [exact H1|]. split; [reflexivity|]. split; [exact H2|]. split; [exact H3|]. split; [exact H4|exact H5].
  Qed.
  Lemma request_locked_BD o s r w s' l x : BD o s -> (forall e, 0 <= o e) -> aliveR s r -> request_locked C R rnd clk ns s r w = (s', l, x) -> BD o s'.
  Proof.
    intros B O A. unfold request_locked. destruct (onRequest _ _) as [nx []].
    - assert (K := keepR_assign s nx). assert (A' : aliveR (assign_next s nx) r) by (unfold aliveR; destruct nx; exact A).
      destruct (send3 _ _ _ _ _ _ _ _ _) as [[s1 l1] [[]|ex]] eqn:E; apply (send_BD o) in E; auto; try (eapply keepR_BD; eauto); intros H; injection H as <- _ _; auto.
      eapply keepR_BD; [|exact E]. eapply keepR_trans; [apply keepR_push|apply keepR_update].
    - intros H. injection H as <- _ _. eapply keepR_BD; [apply keepR_assign|auto].
  Qed.
  Lemma refresh_pop_keep s r s' new l : refresh_pop s r = (s', new, l) -> keepR s s'.
  Proof.
    unfold refresh_pop. destruct (pop3 s) eqn:E; intros H; injection H as <- _ _; [now apply keepR_pop|apply keepR_refl].
  Qed.
  Lemma refresh_BD o s r s' new l : BD o s -> (forall e, 0 <= o e) -> refresh3 C R rnd clk ns s r = (s', new, l) -> BD o s'.
  Proof.
    intros B O. unfold refresh3. destruct (v_heap s) as [|root rest]; [intros H; injection H as <- _ _; auto|].
    destruct (negb _); [intros H; eapply keepR_BD; [eapply refresh_pop_keep; eauto|auto]|].
    destruct (q_event _); [intros H; eapply keepR_BD; [eapply refresh_pop_keep; eauto|auto]|].
    cbn [tick3]. assert (BT := keepR_BD o _ _ (tick_keep s) B). cbn [tick3 snd] in BT.
    destruct (sched_refresh _ _) as [[|wt|c]|ex].
    - intros H; eapply keepR_BD; [eapply refresh_pop_keep; eauto|auto].
    - intros H; injection H as <- _ _; auto.
    - destruct (reallySend3 _ _ _ _ _ _ _ _ _ _) as [[s1 l1] y] eqn:E. apply (reallySend_BD o) in E; auto.
      2:{ eapply keepR_BD; [|exact BT]. apply keepR_put. reflexivity. }
      destruct y; [|intros H; injection H as <- _ _; auto]. destruct (replace3 s1 root) eqn:RP; intros H; injection H as <- _ _; auto.
      eapply keepR_BD; [eapply keepR_replace; eauto|auto].
    - intros H; injection H as <- _ _; auto.
  Qed.
  Lemma poke_BD o s r unsent active s' new l : BD o s -> (forall e, 0 <= o e) -> poke3 C R rnd clk ns s r unsent active = (s', new, l) -> BD o s'.
  Proof.
    intros B O. unfold poke3. destruct unsent as [|q rest]; [destruct active; intros H; injection H as <- _ _; auto|].
    destruct (q_alive _) eqn:A; [|intros H; injection H as <- _ _; auto].
    destruct (request_locked _ _ _ _ _ _ _ _) as [[s1 l1] y] eqn:E. apply (request_locked_BD o) in E; auto.
    destruct y as [[]|]; intros H; injection H as <- _ _; exact E.
  Qed.
  Lemma task_BD o s t s' new l : BD o s -> (forall e, 0 <= o e) -> aliveR s (task_req3 t) -> task3_step C R rnd clk ns s t = (s', new, l) -> BD o s'.
  Proof.
    intros B O A. destruct t as [r|r|r|r|r unsent active|r limit|r|r out]; cbn [ManagerV3.task3_step task_req3] in *.
    - destruct (locked3 s); [intros H; injection H as <- _ _; auto|].
      destruct (request_locked _ _ _ _ _ _ _ _) as [[s1 l1] y] eqn:E. apply (request_locked_BD o) in E; auto.
      destruct y as [[]|]; intros H; injection H as <- _ _; exact E.
    - assert (BT := keepR_BD o _ _ (tick_keep s) B). cbn [tick3 snd] in BT. cbn [tick3]. destruct (sched_expired _ _); intros H; injection H as <- _ _; auto.
    - now apply refresh_BD.
    - destruct (locked3 s); intros H; injection H as <- _ _; auto. eapply keepR_BD; [|exact B].
      eapply keepR_trans; [eapply keepR_trans; [apply keepR_assign|apply keepR_update]|]. now apply keepR_eq.
    - now apply poke_BD.
    - destruct (q_event _); intros H; injection H as <- _ _; auto.
    - intros H; injection H as <- _ _; auto.
    - destruct (close3 _ _ _ _ _) as [s1 y] eqn:E. destruct B as [B D]. apply (close_bal o) in E as (H1 & _ & _ & H2 & H3 & H4); auto.
      intros H. assert (s' = s1) as -> by (destruct y; now injection H). split; [auto|]. intros r' DD. destruct (Nat.eq_dec r' r) as [->|N]; [auto|].
      rewrite H3 by auto. rewrite H2 in DD. now apply D.
  Qed.
  Lemma listener_keep s li : keepR s (set_listener s li).
  Proof. now apply keepR_eq. Qed.
  Lemma push_step_keep s h m s' l : push_step fmt s h m = (s', l) -> keepR s s'.
  Proof.
    unfold push_step. intros H.
    repeat match type of H with
    | context [match ?x with _ => _ end] => match x with
        | q_exception _ => fail 1 | q_event _ => fail 1 | fl_auth _ => fail 1 | _ => destruct x end
    | context [if ?x then _ else _] => match x with
        | q_exception _ => fail 1 | q_event _ => fail 1 | fl_auth _ => fail 1 | _ => destruct x end
    end; injection H as <- _; try apply listener_keep.
    eapply keepR_trans; [apply (listener_keep s LIdle)|]. apply keepR_put. cbn [v_reqs set_listener set_threads].
    destruct (fl_auth _); [destruct (q_event _)|destruct (q_exception _)]; reflexivity.
  Qed.
  Lemma listen_BD o s s' l : inv3 s -> BD o s -> (forall e, 0 <= o e) -> listen3 C R rnd clk fmt ns s = (s', l) -> BD o s'.
  Proof.
    intros I B O. assert (LIS := i3_listener s I). unfold listen3. destruct (v_listener s) as [|h m|r e w|r e w|r|r m|r m] eqn:V.
    - intros H; injection H as <- _; auto.
    - intros H. eapply keepR_BD; [eapply push_step_keep; eauto|auto].
    - destruct (locked3 s); [intros H; injection H as <- _; auto|].
      destruct (onReport _ _ _) as [[nx sendAll]|ex]; [|intros H; injection H as <- _; eapply keepR_BD; [apply listener_keep|auto]].
      destruct (send3 _ _ _ _ _ _ _ _ _) as [[s1 l1] y] eqn:E. apply (send_BD o) in E; auto.
      2:{ eapply keepR_BD; [apply keepR_assign|auto]. }
      2:{ right. unfold aliveR. destruct nx; apply LIS; reflexivity. }
      destruct y; [|intros H; injection H as <- _; eapply keepR_BD; [apply listener_keep|auto]].
      destruct sendAll; intros H; injection H as <- _; (eapply keepR_BD; [|exact E]).
      + eapply keepR_trans; [apply keepR_heapify|]. eapply keepR_trans; [apply keepR_update|apply listener_keep].
      + eapply keepR_trans; [apply keepR_heapify|apply listener_keep].
    - destruct (v_unsent s) as [|q rest]; [intros H; injection H as <- _; eapply keepR_BD; [apply listener_keep|auto]|].
      assert (BQ : BD o (set_queue s (v_heap s) rest (v_refs s))) by (eapply keepR_BD; [|exact B]; now apply keepR_eq).
      destruct (q_alive _) eqn:A; [|intros H; injection H as <- _; auto].
      destruct (send3 _ _ _ _ _ _ _ _ _) as [[s1 l1] y] eqn:E. apply (send_BD o) in E; auto.
      destruct y; intros H; injection H as <- _; (eapply keepR_BD; [|exact E]); [apply keepR_push|apply listener_keep].
    - intros H; injection H as <- _. eapply keepR_BD; [|exact B]. split; [apply reg_same_refl|]. split; [reflexivity|]. cbn. apply put_mark. reflexivity.
    - destruct (locked3 s); [intros H; injection H as <- _; auto|].
      destruct (v3_engineID m) as [e|]; [|intros H; injection H as <- _; eapply keepR_BD; [apply listener_keep|auto]].
      destruct (onResponse _ _ _ _) as [[nx []]|ex].
      + destruct (manager_engine _ _ _ _ _) as [s1 y] eqn:E.
        assert (BA : BD o (assign_next s nx)) by (eapply keepR_BD; [apply keepR_assign|auto]).
        destruct BA as [BA DA]. apply (manager_engine_bal o) in E as (H1 & _ & H2 & _); auto.
        assert (B1 : BD o s1) by (split; [auto|]; intros r'; rewrite H2; apply DA).
        destruct y; intros H; injection H as <- _; (eapply keepR_BD; [|exact B1]); [eapply keepR_trans; [apply keepR_update|apply listener_keep]|apply listener_keep].
      + intros H; injection H as <- _. eapply keepR_BD; [|exact B]. eapply keepR_trans; [apply keepR_assign|apply listener_keep].
      + intros H; injection H as <- _. eapply keepR_BD; [apply listener_keep|auto].
    - intros H; injection H as <- _. eapply keepR_BD; [|exact B]. destruct (q_event _); [apply listener_keep|].
      eapply keepR_trans; [|apply listener_keep]. now apply keepR_put.
  Qed.

  (** Others. *)
  Definition opchange (u : registry) (op : user_op) (e : bytes) : Z :=
    match op, snd (user_step C (rnd 2) u op) with
    | OpRegister e' ns', Ok true => if zlist_eqb ns' ns then holds e (Some e') else 0
    | OpRelease e' ns', Ok _ => if zlist_eqb ns' ns then - holds e (Some e') else 0
    | _, _ => 0
    end.
  Lemma user_op_reg u op : reg_ok u -> (forall e, 0 <= registered u ns e + opchange u op e) ->
    reg_ok (fst (user_step C (rnd 2) u op)) /\ forall e, registered (fst (user_step C (rnd 2) u op)) ns e = registered u ns e + opchange u op e.
  Proof.
    intros B F. unfold opchange in *. destruct op.
    - destruct (user_step _ _ _ _) as [u' x] eqn:E. apply user_step_same in E; [|exact Logic.I]. cbn [fst snd] in *. destruct (reg_same_ok ns _ _ E B) as [K1 K2]. split; [auto|]. intros e. rewrite K2. lia.
    - cbn [user_step] in *. destruct (ur_assign _ _ _ _ _) as [u' x] eqn:E. destruct (assign_reg C (rnd 2) ns _ _ _ _ _ B E) as [K1 K2]. cbn [fst snd] in *. split; [exact K1|]. intros e. rewrite K2.
      destruct x as [[]|]; reflexivity.
    - cbn [user_step] in *. destruct (ur_release _ _ _) as [u' x] eqn:E. cbn [fst snd] in *.
      destruct (zlist_eqb namespace ns) eqn:N.
      + apply PrfDict.zlist_eqb_eq in N. subst namespace. destruct (Z.lt_ge_cases 0 (registered u ns engineID)) as [P|P].
        * destruct (release_ok ns _ _ _ _ B P E) as (K1 & [b ->] & K3). split; [auto|]. intros e. rewrite K3. lia.
        * destruct (release_none ns _ _ _ _ _ B (or_introl P) E) as (K1 & K2). split; [auto|]. intros e. rewrite K2. destruct x; [|lia].
          specialize (F engineID). rewrite holds_self in F. lia.
      + assert (NN : namespace <> ns) by (intros ->; rewrite PrfBase.zlist_eqb_refl in N; discriminate).
        destruct (release_none ns _ _ _ _ _ B (or_intror NN) E) as (K1 & K2). split; [auto|]. intros e. rewrite K2. destruct x; lia.
    - destruct (user_step _ _ _ _) as [u' x] eqn:E. apply user_step_same in E; [|exact Logic.I]. cbn [fst snd] in *. destruct (reg_same_ok ns _ _ E B) as [K1 K2]. split; [auto|]. intros e. rewrite K2. lia.
  Qed.
  Definition evchange (s : mgr3) (x : event3) (e : bytes) : Z :=
    match x with VUsers op => opchange (users s) op e | _ => 0 end.
  Lemma BD_ext o o' s : (forall e, o' e = o e) -> BD o s -> BD o' s.
  Proof. intros E [[B1 B2] D]. split; [split; [auto|]|auto]. intros e. rewrite E. apply B2. Qed.
  Lemma incoming_keep alive u p d ts u' x : v3_prepareDataElements C R alive u p d ts = (u', x) -> us_users u' = us_users u.
  Proof.
    unfold v3_prepareDataElements. destruct (v3_decode _) as [m|ex]; [|intros H; now injection H as <- _].
    destruct (has_module _ _); [|intros H; now injection H as <- _].
    destruct (usm_processIncoming _ _ _ _ _) as [u1 [m1|ex]] eqn:E; apply incoming_same in E; intros H; injection H as <- _; auto.
  Qed.
  Lemma step_BD o s x s' l : inv3 s -> BD o s -> (forall e, 0 <= o e) -> (forall e, 0 <= o e + evchange s x e) ->
    m3_step C R rnd clk fmt ns s x = (s', l) -> BD (fun e => o e + evchange s x e) s'.
  Proof.
    intros I B O O'.
    assert (SAME : evchange s x = (fun _ => 0) -> BD o s' -> BD (fun e => o e + evchange s x e) s').
    { intros E. rewrite E. apply BD_ext. intros e. lia. }
    destruct x as [p user level timeout period|r|n|d| |r|op|p e0 user level|h]; cbn [ManagerV3.m3_step].
    - intros H. apply SAME; [reflexivity|]. destruct (generateRequestID rnd s) as [id s0] eqn:G.
      assert (K : users s0 = users s /\ v_engine s0 = v_engine s /\ v_reqs s0 = v_reqs s).
      { unfold generateRequestID in G. destruct (numgen_next (v_gen s)) as [i g]. destruct (i =? 0); [|injection G as <- <-; auto].
        destruct (numgen_next (newGenerator rnd (v_made s))) as [i' g']. injection G as <- <-; auto. }
      destruct K as (K1 & K2 & K3). cbn [tick3] in H. injection H as <- _.
      destruct B as [[B1 B2] D]. split; [split|].
      + cbn. rewrite K1. exact B1.
      + intros e. rewrite holders_eq. cbn [v_engine v_reqs v_usm add_task3 set_threads set_queue set_objects set_io us_users]. rewrite K1, K2, K3, B2, holders_eq.
        assert (HA : forall l q, heldby (l ++ [q]) e = heldby l e + holds e (q_engine q)).
        { intros l0 q. induction l0 as [|a l0 IH]; cbn; [lia|]. unfold heldby in *. rewrite IH. lia. }
        rewrite HA. cbn [q_engine holds]. lia.
      + intros r. cbn. rewrite K3, get3_app. destruct (Nat.eqb r (length (v_reqs s))); [discriminate|]. apply D.
    - intros H. apply SAME; [reflexivity|]. destruct (_ && _)%bool; injection H as <- _; exact B.
    - intros H. apply SAME; [reflexivity|]. destruct (nth_error (v_tasks s) n) as [t|] eqn:N; [|injection H as <- _; exact B].
      destruct (task3_step _ _ _ _ _ _ _) as [[s1 new] l1] eqn:T. injection H as <- _. apply (task_BD o) in T; auto.
      apply (i3_tasks s I). eapply nth_error_In; eauto.
    - intros H. apply SAME; [reflexivity|]. destruct (v_listener s); try (injection H as <- _; exact B).
      cbn [tick3] in H. destruct (v3_prepareDataElements _ _ _ _ _ _ _) as [u y] eqn:E. apply incoming_keep in E. cbn [v_usm set_io] in E.
      assert (BU : BD o (set_io s u (v_proc s) (S (v_clock s)))) by (eapply keepR_BD; [|exact B]; now apply keepR_eq).
      destruct y as [[m h]|ex]; injection H as <- _; exact BU.
    - intros H. apply SAME; [reflexivity|]. eapply listen_BD; eauto.
    - intros H. apply SAME; [reflexivity|]. destruct (_ || _)%bool; [injection H as <- _; exact B|].
      destruct (close3 _ _ _ _ _) as [s1 y] eqn:E. injection H as <- _. cbn [fst]. destruct B as [[B1 B2] D].
      assert (BS : bal o (set_req3 s r (q_set_dead (get3 (v_reqs s) r)))).
      { split; [exact B1|]. intros e. change (users (set_req3 s r (q_set_dead (get3 (v_reqs s) r)))) with (users s). rewrite B2, !holders_eq.
        cbn [v_engine v_reqs set_req3 set_objects]. destruct (Nat.lt_ge_cases r (length (v_reqs s))) as [L|L].
        - rewrite heldby_put by auto. cbn [q_engine q_set_dead]. lia.
        - replace (put (v_reqs s) r (q_set_dead (get3 (v_reqs s) r))) with (v_reqs s); [lia|]. rewrite get3_out by auto. cbn [q_set_dead no_req3]. symmetry.
          pose proof (put3_self (v_reqs s) r) as P. rewrite get3_out in P by auto. exact P. }
      apply (close_bal o) in E as (H1 & _ & _ & H2 & H3 & H4); [|exact BS|exact O]. split; [exact H1|]. intros r' DD.
      destruct (Nat.eq_dec r' r) as [->|N]; [exact H4|]. rewrite H3 by auto. rewrite H2 in DD. cbn [v_reqs set_req3 set_objects] in *. rewrite get3_put_other in * by auto. now apply D.
    - intros H. injection H as <- _. cbn [evchange] in *. destruct B as [[B1 B2] D].
      destruct (user_op_reg (users s) op B1) as [K1 K2].
      { intros e. rewrite B2, holders_eq. specialize (O' e). pose proof (holds_nonneg e (v_engine s)). pose proof (heldby_nonneg (v_reqs s) e). lia. }
      split; [split; [exact K1|]|exact D]. intros e. change (holders (set_users s _) e) with (holders s e). cbn [v_usm set_users set_io us_users]. rewrite K2, B2. lia.
    - intros H. apply SAME; [reflexivity|]. cbn [tick3] in H. destruct (v3_prepareOutgoing _ _ _ _ _ _ _ _ _ _ _ _ _) as [o1 y] eqn:E. injection H as <- _.
      apply outgoing_reg in E. eapply keepR_BD; [|exact B]. split; [exact E|]. split; reflexivity.
    - intros H. apply SAME; [reflexivity|]. destruct (g_own _); [injection H as <- _; exact B|]. destruct (g_cb _); injection H as <- _; [|exact B].
      eapply keepR_BD; [|exact B]. split; [apply reg_same_refl|]. split; reflexivity.
  Qed.
  Lemma start_BD u maxSize engineID s0 x : reg_ok (us_users u) -> mgr3_new C rnd ns u maxSize engineID = (s0, x) ->
    BD (registered (us_users u) ns) s0.
  Proof.
    intros B. unfold mgr3_new. match goal with |- context [manager_engine _ _ _ ?a _] => set (s := a) end.
    assert (B0 : BD (registered (us_users u) ns) s).
    { split; [split; [exact B|]|]. - intros e. rewrite holders_eq. cbn. lia. - intros r _. subst s. cbn. destruct r; reflexivity. }
    destruct engineID as [e|]; [|intros H; injection H as <- _; exact B0].
    destruct (manager_engine _ _ _ _ _) as [s1 y] eqn:E. intros H. injection H as <- _. destruct B0 as [B0 D0].
    apply (manager_engine_bal (registered (us_users u) ns)) in E as (H1 & _ & H2 & _); [|exact B0|intros e'; now apply reg_nonneg].
    split; [exact H1|]. intros r. cbn [v_reqs set_state]. rewrite H2. apply D0.
  Qed.
End Reg2.
