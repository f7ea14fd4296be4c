(** PrfMgr3f.v -- the SNMPv3 manager: the queue of unsent requests, and the
    order of the heap. *)
From Verif Require Export PrfMgr3e.
From Coq Require Import Permutation Sorted.

Lemma in_drain_first r y : In r (drain_of y) -> In r (first_of y).
Proof. destruct y as [? ? []| | | | | |]; cbn; auto. Qed.

Section Queue.
  Context (C : crypto) (R : Z) (rnd : nat -> nat -> Z) (clk : nat -> Z) (fmt : v3msg -> bool) (ns : pystr).
  Notation m3_run := (m3_run C R rnd clk fmt ns).
  Notation vstep := (vstep C R rnd clk ns).
  Notation tstep := (tstep C rnd clk ns).
  Notation lstep := (lstep clk).

  Inductive queue_step (s s' : mgr3) (l : list log3) : Prop :=
  | QSame : line s' = line s -> calling s' = calling s -> firsts l = [] -> queue_step s s' l
  | QMade : line s' = line s -> calling s' = calling s ++ [length (v_reqs s)] -> l = [] -> length (v_reqs s') = S (length (v_reqs s)) -> queue_step s s' l
  | QCalled r a b : calling s = a ++ r :: b -> calling s' = a ++ b ->
      (line s' = line s /\ (firsts l = [] \/ firsts l = [r]) /\ drained l = [] /\ (firsts l = [] -> exists h e, In (WFailed r h ByCall e) l)) \/ (line s' = line s ++ [r] /\ l = []) -> queue_step s s' l
  | QLeft pre q rest rest' : line s = pre ++ q :: rest -> line s' = pre ++ rest' -> calling s' = calling s ->
      rest' = rest \/ (rest' = [] /\ drained l = [] /\ exists h e, In (WFailed q h ByPoke e) l) ->
      firsts l = [] \/ firsts l = [q] -> (drained l <> [] -> pre = [] /\ drained l = [q]) -> 
      (firsts l = [] -> q_alive (get3 (v_reqs s) q) = false \/ exists h e, In (WFailed q h ByPoke e) l \/ In (WFailed q h ByDrain e) l) -> queue_step s s' l.

  Lemma sends_queue s r w now eng s1 l x : sends s r w now eng s1 l x ->
    v_unsent s1 = v_unsent s /\ v_tasks s1 = v_tasks s /\
    match x with
    | Ok _ => firsts l = match w with ByCall | ByPoke | ByDrain => [r] | _ => [] end /\ drained l = match w with ByDrain => [r] | _ => [] end
    | Raise e => firsts l = [] /\ drained l = [] /\ exists h, l = [WFailed r h w e]
    end.
  Proof.
    intros H. inversion H; subst; cbn; [eauto 8|].
    match goal with X : _ \/ _ |- _ => destruct X as [(? & -> & ->)|(? & -> & ->)] end; cbn; destruct w; eauto 8.
  Qed.
  Lemma fm_mid {A} (f : task3 -> list A) pre new post : flat_map f (pre ++ new ++ post) = flat_map f pre ++ flat_map f new ++ flat_map f post.
  Proof. now rewrite !flat_map_app. Qed.
  Lemma no_poking l : filter poking l = [] -> flat_map poke_rest l = [].
  Proof. induction l as [|t l IH]; cbn; [auto|]. destruct t; cbn; auto; discriminate. Qed.
  Lemma unlocked_tasks s : locked3 s = false -> flat_map poke_rest (v_tasks s) = [].
  Proof. intros H. apply locked3_false in H as [_ H]. apply no_poking, length_zero_iff_nil, H. Qed.
  Lemma draining_tasks s r e w : inv3 s -> v_listener s = LDrain r e w -> flat_map poke_rest (v_tasks s) = [].
  Proof. intros I L. pose proof (i3_lock s I) as X. unfold draining in X. rewrite L in X. apply no_poking, length_zero_iff_nil. lia. Qed.
  Lemma asks_queue s r w s1 l x : (w = ByCall \/ w = ByPoke) -> asks clk s r w s1 l x ->
    v_unsent s1 = v_unsent s /\
    match x with
    | Ok true => firsts l = [r] /\ drained l = []
    | Ok false => l = []
    | Raise e => firsts l = [] /\ drained l = [] /\ exists h, l = [WFailed r h w e]
    end.
  Proof.
    intros W [nx O|nx s2 l2 e O H|nx s2 l2 O H]; [auto| |]; apply sends_queue in H as (U & _ & H).
    - split; [rewrite U; destruct nx; reflexivity|]. exact H.
    - split; [unfold updateState; destruct (v_next _); cbn; unfold push3; destruct (heappush _ _ _ _); cbn; rewrite U; destruct nx; reflexivity|].
      destruct H as [H1 H2]. destruct W as [->| ->]; auto.
  Qed.
  Lemma step_queue s x s' l : base s -> vstep s x s' l -> queue_step s s' l.
  Proof.
    intros [I W] ST. inversion ST; subst; try solve [apply QSame; reflexivity].
    - apply QMade; [| |auto|].
      + unfold line. cbn. now rewrite flat_map_app, app_nil_r.
      + unfold calling. cbn. now rewrite flat_map_app.
      + cbn. rewrite app_length. cbn. lia.
    - apply QSame; unfold line, calling; cbn; rewrite ?flat_map_app; cbn; rewrite ?app_nil_r; auto.
    - (* a task *)
      assert (SAME : flat_map poke_rest new = poke_rest t -> flat_map send_req new = send_req t -> v_unsent s1 = v_unsent s -> firsts l = [] ->
        queue_step s (set_threads s1 (pre ++ new ++ post) (v_listener s1)) l).
      { intros E1 E2 E3 E4. apply QSame; [| |auto]; unfold line, calling; cbn; rewrite ?E3, H, !fm_mid; cbn; rewrite ?flat_map_app; cbn; rewrite ?E1, ?E2; reflexivity. }
      assert (LOCK : poking t = true -> flat_map poke_rest pre = [] /\ flat_map poke_rest post = []).
      { intros P. pose proof (i3_lock s I) as X. rewrite H, filter_app, app_length in X. cbn [filter] in X. rewrite P in X. cbn in X.
        split; apply no_poking, length_zero_iff_nil; lia. }
      inversion H0; subst; try solve [apply SAME; reflexivity].
      + apply SAME; auto; destruct H1 as (r & [->| ->]); reflexivity.
      + (* TCalled *)
        destruct (asks_queue _ _ _ _ _ _ (or_introl eq_refl) H2) as [U Q]. apply (QCalled _ _ _ r (flat_map send_req pre) (flat_map send_req post)); unfold line, calling; cbn; rewrite ?H, ?fm_mid, ?flat_map_app; auto.
        left. rewrite U. cbn. split; [auto|]. destruct y as [[|]|e]; [|congruence|].
        * destruct Q as [-> ->]. split; [auto|]. split; [auto|]. discriminate.
        * destruct Q as (-> & -> & h & ->). split; [auto|]. split; [auto|]. intros _. exists h, e. now left.
      + (* TQueued *)
        apply (QCalled _ _ _ r (flat_map send_req pre) (flat_map send_req post)); unfold line, calling; cbn; rewrite ?H, ?fm_mid, ?flat_map_app; auto.
        right. split; [|auto]. apply unlocked_tasks in H1. rewrite H, flat_map_app in H1. cbn in *. apply app_eq_nil in H1 as [-> ->]. now rewrite !app_nil_r.
      + match goal with X : sends _ _ _ _ _ _ _ _ |- _ => apply sends_queue in X as (U & _ & X) end. destruct H5 as [Y _]. apply SAME; auto.
      + match goal with X : sends _ _ _ _ _ _ _ _ |- _ => apply sends_queue in X as (U & _ & X) end. destruct H5 as [Y _]. apply SAME; auto.
      + (* TPoke *)
        apply QSame; [| |auto]; unfold line, calling; cbn; [|rewrite H, !flat_map_app; reflexivity].
        rewrite flat_map_app. cbn. apply unlocked_tasks in H1. rewrite H1. rewrite H, flat_map_app in H1. apply app_eq_nil in H1 as [-> H1]. cbn in H1. rewrite H1. now rewrite !app_nil_r.
      + (* TPokeDead *)
        destruct (LOCK eq_refl) as [L1 L2]. apply (QLeft _ _ _ (v_unsent s1) q rest rest); unfold line, calling; cbn; rewrite ?H, ?fm_mid, ?flat_map_app; cbn; rewrite ?L1, ?L2, ?app_nil_r; auto. congruence.
      + (* TPokeFailed *)
        destruct (LOCK eq_refl) as [L1 L2]. destruct (asks_queue _ _ _ _ _ _ (or_intror eq_refl) H2) as [U (F & D & h & ->)].
        apply (QLeft _ _ _ (v_unsent s) q rest []); unfold line, calling; cbn; rewrite ?H, ?fm_mid, ?flat_map_app; cbn; rewrite ?L1, ?L2, ?app_nil_r, ?U; auto.
        * right. split; [auto|]. split; [auto|]. exists h, e. now left.
        * congruence.
        * intros _. right. exists h, e. left. now left.
      + (* TPokeSent *)
        destruct (LOCK eq_refl) as [L1 L2]. destruct (asks_queue _ _ _ _ _ _ (or_intror eq_refl) H2) as [U [F D]].
        apply (QLeft _ _ _ (v_unsent s) q rest rest); unfold line, calling; cbn; rewrite ?H, ?fm_mid, ?flat_map_app; cbn; rewrite ?L1, ?L2, ?app_nil_r, ?U; auto; rewrite ?D, ?F; try congruence; discriminate.
      + (* TPokeLater *)
        destruct (LOCK eq_refl) as [L1 L2]. apply QSame; unfold line, calling; cbn; rewrite ?H, ?fm_mid, ?flat_map_app; cbn; rewrite ?L1, ?L2, ?app_nil_r, <- ?app_assoc; auto.
      + (* TClosed *) apply close3_spec in H1 as (u & p & q & m & -> & _). apply SAME; reflexivity.
    - (* the listener *)
      pose proof (lstep_tasks _ _ _ _ H) as LT.
      assert (SAME : v_unsent s' = v_unsent s -> firsts l = [] -> queue_step s s' l) by (intros E1 E2; apply QSame; unfold line, calling; rewrite ?LT, ?E1; auto).
      inversion H; subst; try solve [apply SAME; reflexivity].
      + apply sends_queue in H3 as (U & _ & F & _). apply SAME; auto. cbn. rewrite U. destruct nx; reflexivity.
      + apply sends_queue in H3 as (U & _ & F & _). apply SAME; [|rewrite F; destruct (W r e w (or_introl H0)) as [->| ->]; auto].
        assert (U' : v_unsent s1 = v_unsent s) by (rewrite U; destruct nx; reflexivity).
        destruct b; cbn; unfold updateState, heapify3; destruct (heapify _ _ _); cbn; [destruct (v_next s1); exact U'|exact U'].
      + (* LDrainDead *)
        pose proof (draining_tasks _ _ _ _ I H0) as NP. apply (QLeft _ _ _ [] q rest rest); unfold line, calling; cbn; rewrite ?NP, ?H1, ?app_nil_r; auto. congruence.
      + pose proof (draining_tasks _ _ _ _ I H0) as NP. apply sends_queue in H3 as (U & T & F & D & h & ->). cbn in U, T.
        apply (QLeft _ _ _ [] q rest rest); unfold line, calling; cbn; rewrite ?U, ?T, ?NP, ?H1, ?app_nil_r; auto; [congruence|]. intros _. right. exists h, ex. right. now left.
      + pose proof (draining_tasks _ _ _ _ I H0) as NP. apply sends_queue in H3 as (U & T & F & D). cbn in U, T.
        assert (P : v_unsent (push3 s1 q) = rest /\ v_tasks (push3 s1 q) = v_tasks s) by (unfold push3; destruct (heappush _ _ _ _); auto).
        destruct P as [P1 P2]. apply (QLeft _ _ _ [] q rest rest); unfold line, calling; rewrite ?P1, ?P2, ?NP, ?H1, ?app_nil_r; auto; rewrite ?F; discriminate.
      + apply SAME; [destruct nx; reflexivity|auto].
      + apply SAME; [unfold updateState; cbn; destruct nx; cbn; [reflexivity|]; destruct (v_next s); reflexivity|auto].
      + apply SAME; [destruct (q_event q); reflexivity|auto].
    - destruct H0 as (u & p & q & m & -> & _). apply QSame; reflexivity.
    - destruct H0 as (u & p & q & m & -> & _). apply QSame; reflexivity.
  Qed.

  (** ** Each request is sent for the first time at most once *)
  Definition once_inv (s : mgr3) (l : list log3) : Prop :=
    NoDup (firsts l ++ line s ++ calling s) /\ forall r, In r (firsts l ++ line s ++ calling s) -> (r < length (v_reqs s))%nat.
  Lemma firsts_app l' l : firsts (rev l' ++ l) = firsts (rev l') ++ firsts l.
  Proof. apply flat_map_app. Qed.
  Lemma drained_app l' l : drained (rev l' ++ l) = drained (rev l') ++ drained l.
  Proof. apply flat_map_app. Qed.
  Lemma vstep_log_one s x s' l : vstep s x s' l -> firsts (rev l) = firsts l /\ drained (rev l) = drained l.
  Proof.
    intros ST.
    assert (ONE : forall y, firsts (rev [y]) = firsts [y] /\ drained (rev [y]) = drained [y]) by (intros y; auto).
    assert (S : forall s r w now eng s1 l x, sends s r w now eng s1 l x -> exists y, l = [y]).
    { intros s2 r w now eng s3 l2 x0 X. inversion X; subst; [eauto|]. match goal with Y : _ \/ _ |- _ => destruct Y as [(? & _ & ->)|(? & _ & ->)] end; eauto. }
    assert (A : forall r w s1 l y, asks clk s r w s1 l y -> l = [] \/ exists y, l = [y]).
    { intros r w s2 l2 y [nx O|nx s3 l3 e O X|nx s3 l3 O X]; [auto| |]; right; eapply S; eauto. }
    inversion ST; subst; auto.
    - inversion H0; subst; auto; try (match goal with X : sends _ _ _ _ _ _ _ _ |- _ => apply S in X as [y ->] end; auto); match goal with X : asks _ _ _ _ _ _ _ |- _ => apply A in X as [->|[y' ->]] end; auto.
    - inversion H; subst; auto; match goal with X : sends _ _ _ _ _ _ _ _ |- _ => apply S in X as [y ->] end; auto.
  Qed.
  Lemma once_step s x s' l l' : base s -> once_inv s l -> vstep s x s' l' -> once_inv s' (rev l' ++ l).
  Proof.
    intros B [ND LT] ST. pose proof (step_spec _ _ _ _ _ _ _ _ _ (proj1 B) ST) as (_ & (_ & EL & _) & _).
    destruct (vstep_log_one _ _ _ _ ST) as [F1 _]. unfold once_inv. rewrite firsts_app, F1.
    enough (X : exists lost new, Permutation (lost ++ (firsts l' ++ firsts l) ++ line s' ++ calling s') ((firsts l ++ line s ++ calling s) ++ new) /\
       (new = [] \/ (new = [length (v_reqs s)] /\ length (v_reqs s') = S (length (v_reqs s))))).
    { destruct X as (lost & new & P & N). assert (ND' : NoDup ((firsts l ++ line s ++ calling s) ++ new)).
      { destruct N as [->|[-> _]]; [now rewrite app_nil_r|]. apply nodup_app_intro; [auto|repeat constructor; auto|]. intros r X [<-|[]]. apply LT in X. lia. }
      split.
      - apply (Permutation_NoDup (Permutation_sym P)) in ND'. now apply nodup_app_r in ND'.
      - intros r X. assert (Y : In r ((firsts l ++ line s ++ calling s) ++ new)) by (apply (Permutation_in _ P), in_or_app; auto).
        apply in_app_or in Y as [Y|Y]; [apply LT in Y; lia|]. destruct N as [->|[-> ->]]; [destruct Y|]. destruct Y as [<-|[]]. lia. }
    destruct (step_queue _ _ _ _ B ST) as [E1 E2 E3|E1 E2 E3 E4|r a b E1 E2 E3|pre q rest rest' E1 E2 E3 E4 E5 E6 E7].
    - exists [], []. rewrite E1, E2, E3, app_nil_r. split; [apply Permutation_refl|auto].
    - exists [], [length (v_reqs s)]. rewrite E1, E2, E3. cbn [app firsts flat_map]. split; [|auto]. rewrite !app_assoc. apply Permutation_refl.
    - rewrite E1, E2. destruct E3 as [(-> & [F|F] & _)|[-> ->]].
      + rewrite F. exists [r], []. split; [|auto]. cbn. pcnt.
      + rewrite F. exists [], []. split; [|auto]. cbn. pcnt.
      + exists [], []. split; [|auto]. cbn. pcnt.
    - rewrite E1, E2, E3. destruct E4 as [->|[-> _]], E5 as [F|F]; rewrite F.
      + exists [q], []. split; [|auto]. cbn. pcnt.
      + exists [], []. split; [|auto]. cbn. pcnt.
      + exists (q :: rest), []. split; [|auto]. cbn. pcnt.
      + exists rest, []. split; [|auto]. cbn. pcnt.
  Qed.
  Lemma once_run u maxSize cfg s0 y evs s l : mgr3_new C rnd ns u maxSize cfg = (s0, y) -> m3_run s0 evs = (s, l) -> once_inv s l.
  Proof.
    intros H0 E. revert evs s l E. apply (history_ind C R rnd clk fmt ns s0 (fun _ s l => once_inv s l)); [eapply base_start; eauto| |].
    - apply start_fields in H0 as (_ & H2 & _ & _ & _ & _ & H7 & _). unfold once_inv, line, calling. rewrite H2, H7. cbn. split; [constructor|intros r []].
    - intros evs s l x s' l' _ B K ST. eapply once_step; eauto.
  Qed.

  (** ** In order *)
  Definition order_inv (s : mgr3) (l : list log3) : Prop :=
    StronglySorted lt (rev (drained l) ++ line s ++ calling s) /\ forall r, In r (rev (drained l) ++ line s ++ calling s) -> (r < length (v_reqs s))%nat.
  Lemma sorted_remove a b c : StronglySorted lt (a ++ b ++ c) -> StronglySorted lt (a ++ c).
  Proof.
    induction a as [|x a IH]; cbn.
    - induction b as [|y b IH]; cbn; [auto|]. intros H. apply IH. now inversion H.
    - intros H. inversion H as [|? ? H1 H2]; subst. constructor; [auto|]. rewrite !Forall_app in *. tauto.
  Qed.
  Lemma sorted_snoc a x : StronglySorted lt a -> (forall y, In y a -> (y < x)%nat) -> StronglySorted lt (a ++ [x]).
  Proof.
    induction a as [|y a IH]; cbn; intros H B; [repeat constructor|]. inversion H as [|? ? H1 H2]; subst. constructor; [apply IH; auto|].
    apply Forall_app. split; [auto|]. constructor; auto.
  Qed.
  Lemma order_step s x s' l l' : base s -> order_inv s l -> vstep s x s' l' -> (length (calling s) <= 1)%nat -> (length (calling s') <= 1)%nat -> order_inv s' (rev l' ++ l).
  Proof.
    intros B [SO LT] ST C1 C2. pose proof (step_spec _ _ _ _ _ _ _ _ _ (proj1 B) ST) as (_ & (_ & EL & _) & _).
    destruct (vstep_log_one _ _ _ _ ST) as [_ D1]. unfold order_inv in *. rewrite drained_app, D1, rev_app_distr.
    enough (X : exists a b c new, rev (drained l) ++ line s ++ calling s = a ++ b ++ c /\ (rev (drained l) ++ rev (drained l')) ++ line s' ++ calling s' = (a ++ c) ++ new /\
      (new = [] \/ (new = [length (v_reqs s)] /\ length (v_reqs s') = S (length (v_reqs s))))).
    { destruct X as (a & b & c & new & EQ & -> & N). rewrite EQ in *. apply sorted_remove in SO.
      assert (LT' : forall r, In r (a ++ c) -> (r < length (v_reqs s))%nat) by (intros r X; apply LT; rewrite !in_app_iff in *; tauto).
      destruct N as [->|[-> E]].
      - rewrite app_nil_r. split; [auto|]. intros r X. apply LT' in X. lia.
      - split; [now apply sorted_snoc|]. intros r X. apply in_app_or in X as [X|[<-|[]]]; [apply LT' in X; lia|lia]. }
    assert (DF : firsts l' = [] -> drained l' = []).
    { intros F. destruct (drained l') as [|z zs] eqn:D; [auto|]. assert (Z : In z (firsts l')).
      { assert (Y : In z (drained l')) by (rewrite D; now left). apply in_flat_map in Y as (y & Y1 & Y2). apply in_flat_map. exists y. split; [auto|now apply in_drain_first]. }
      rewrite F in Z. destruct Z. }
    destruct (step_queue _ _ _ _ B ST) as [E1 E2 E3|E1 E2 E3 E4|r a b E1 E2 E3|pre q rest rest' E1 E2 E3 E4 E5 E6 E7].
    - exists (rev (drained l) ++ line s ++ calling s), [], [], []. rewrite E1, E2, (DF E3), !app_nil_r. auto.
    - rewrite E2, app_length in C2. cbn in C2. assert (CN : calling s = []) by (apply length_zero_iff_nil; lia).
      exists (rev (drained l) ++ line s), [], [], [length (v_reqs s)]. rewrite E1, E2, E3, CN. cbn. rewrite !app_nil_r, <- app_assoc. auto.
    - assert (a = [] /\ b = []) as [-> ->] by (rewrite E1, app_length in C1; cbn in C1; split; apply length_zero_iff_nil; lia). cbn in E1, E2. rewrite E1, E2.
      destruct E3 as [(-> & _ & D & _)|[-> ->]].
      + exists (rev (drained l) ++ line s), [r], [], []. rewrite D. cbn. rewrite !app_nil_r, <- app_assoc. auto.
      + exists (rev (drained l) ++ line s ++ [r]), [], [], []. cbn. rewrite !app_nil_r. auto.
    - rewrite E1, E2, E3. destruct (list_eq_dec Nat.eq_dec (drained l') []) as [D|D].
      + rewrite D. cbn. rewrite app_nil_r. destruct E4 as [->|[-> _]].
        * exists (rev (drained l) ++ pre), [q], (rest ++ calling s), []. rewrite app_nil_r, <- !app_assoc. auto.
        * exists (rev (drained l) ++ pre), (q :: rest), (calling s), []. rewrite !app_nil_r, <- !app_assoc. auto.
      + destruct (E6 D) as [-> DQ]. rewrite DQ. cbn. assert (rest' = rest) as ->.
        { destruct E4 as [->|[-> [X _]]]; [auto|congruence]. }
        exists (rev (drained l) ++ [q]), [], (rest ++ calling s), []. rewrite app_nil_r, <- !app_assoc. cbn. auto.
  Qed.
  (** No two calls of sendRequest() overlap. *)
  Definition one_caller (s0 : mgr3) (evs : list event3) : Prop :=
    forall evs1 evs2, evs = evs1 ++ evs2 -> (length (calling (fst (m3_run s0 evs1))) <= 1)%nat.
  Lemma order_run u maxSize cfg s0 y evs s l : mgr3_new C rnd ns u maxSize cfg = (s0, y) -> m3_run s0 evs = (s, l) -> one_caller s0 evs -> order_inv s l.
  Proof.
    intros H0. revert s l. induction evs as [|x evs IH] using rev_ind; intros s l E O.
    - injection E as <- <-. apply start_fields in H0 as (_ & H2 & _ & _ & _ & _ & H7 & _). unfold order_inv, line, calling. rewrite H2, H7. cbn. split; [constructor|intros r []].
    - assert (O' : one_caller s0 evs) by (intros e1 e2 ->; apply (O e1 (e2 ++ [x])); now rewrite app_assoc).
      pose proof (O (evs ++ [x]) [] ltac:(now rewrite app_nil_r)) as X2. pose proof (O' evs [] ltac:(now rewrite app_nil_r)) as X1.
      rewrite E in X2. rewrite m3_run_snoc in E. destruct (m3_run s0 evs) as [s1 l1] eqn:E1. destruct (m3_step C R rnd clk fmt ns s1 x) as [s2 l2] eqn:E2. injection E as <- <-. cbn [fst] in *.
      eapply (order_step s1 x); eauto; [|eapply m3_step_spec; eauto]. eapply base_run; eauto. eapply base_start; eauto.
  Qed.
End Queue.
