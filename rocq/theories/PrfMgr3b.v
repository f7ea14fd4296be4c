(** PrfMgr3b.v -- the SNMPv3 manager: engine IDs, messages and levels. *)
From Verif Require Export PrfMgr3a.
From Coq Require Import Permutation.

Definition authentic (m : v3msg) : bool := fl_auth (h_flags (v3_header m)).
Lemma opt_bytes_eqb_eq a b : opt_bytes_eqb a b = true <-> b = Some a.
Proof. destruct b as [b|]; cbn; [|split; discriminate]. rewrite zlist_eqb_eq. split; [now intros ->|now intros [= ->]]. Qed.
Lemma engine_eq_dec (a b : option bytes) : {a = b} + {a <> b}.
Proof. repeat decide equality. Qed.

Section Engine.
  Context (C : crypto) (R : Z) (rnd : nat -> nat -> Z) (clk : nat -> Z) (fmt : v3msg -> bool) (ns : pystr).
  Notation m3_run := (m3_run C R rnd clk fmt ns).
  Notation vstep := (vstep C R rnd clk ns).
  Notation tstep := (tstep C rnd clk ns).
  Notation lstep := (lstep clk).

  (** ** Who changes the state, the engine ID and the log of responses *)
  Lemma sends_states s r w now eng s1 l x : sends s r w now eng s1 l x ->
    v_engine s1 = v_engine s /\ v_state s1 = v_state s /\ v_next s1 = v_next s.
  Proof. intros H. inversion H; subst; auto. Qed.
  Lemma readied_states s r : v_engine (readied clk s r) = v_engine s /\ v_state (readied clk s r) = v_state s /\ v_next (readied clk s r) = v_next s.
  Proof. auto. Qed.
  Definition after (st : mstate) (nx : option mstate) : mstate := match nx with Some n => n | None => st end.
  Lemma update_eq s : v_engine (updateState s) = v_engine s /\ v_state (updateState s) = after (v_state s) (v_next s) /\ v_next (updateState s) = None.
  Proof. unfold updateState, after. destruct (v_next s) eqn:E; auto. Qed.
  Lemma assign_eq s nx : v_engine (assign_next s nx) = v_engine s /\ v_state (assign_next s nx) = v_state s /\
    v_next (assign_next s nx) = match nx with Some n => Some n | None => v_next s end.
  Proof. destruct nx; auto. Qed.
  Lemma push3_states s r : v_engine (push3 s r) = v_engine s /\ v_state (push3 s r) = v_state s /\ v_next (push3 s r) = v_next s.
  Proof. unfold push3. destruct (heappush _ _ _ _). auto. Qed.
  Lemma heapify3_states s : v_engine (heapify3 s) = v_engine s /\ v_state (heapify3 s) = v_state s /\ v_next (heapify3 s) = v_next s.
  Proof. unfold heapify3. destruct (heapify _ _ _). auto. Qed.
  (** The new value of nextState, of the state. *)
  Definition assigned (nx old : option mstate) : option mstate := match nx with Some n => Some n | None => old end.
  Inductive moves (s : mgr3) : mstate -> option mstate -> Prop :=
  | MStay : moves s (v_state s) (v_next s)
  | MNext nx : (nx = onInactive (v_state s) \/ (exists auth b, onRequest (v_state s) auth = (nx, b)) \/ (exists e b, onReport (v_state s) (v_engine s) e = Ok (nx, b))) ->
      moves s (v_state s) (assigned nx (v_next s))
  | MDone nx : (nx = onInactive (v_state s) \/ (exists auth b, onRequest (v_state s) auth = (nx, b)) \/ (exists e b, onReport (v_state s) (v_engine s) e = Ok (nx, b))) ->
      moves s (after (v_state s) (assigned nx (v_next s))) None.
  Lemma sends_moves s nx r w eng s1 l x : sends (readied clk (assign_next s nx) r) r w (clk (v_clock s)) eng s1 l x ->
    v_engine s1 = v_engine s /\ v_state s1 = v_state s /\ v_next s1 = assigned nx (v_next s).
  Proof. intros H. apply sends_states in H as (-> & -> & ->). destruct nx; auto. Qed.
  Lemma tstep_moves s t s1 new l : tstep s t s1 new l -> v_engine s1 = v_engine s /\ moves s (v_state s1) (v_next s1).
  Proof.
    assert (A : forall r w s1 l y, asks clk s r w s1 l y -> v_engine s1 = v_engine s /\ moves s (v_state s1) (v_next s1)).
    { intros r w s2 l' y [nx O|nx s3 l2 e O H|nx s3 l2 O H]; [split; [auto|constructor]| |]; apply sends_moves in H as (E1 & E2 & E3).
      - rewrite E1, E2, E3. split; [auto|]. apply MNext. eauto.
      - destruct (update_eq (push3 s3 r)) as (-> & -> & ->). destruct (push3_states s3 r) as (-> & -> & ->). rewrite E1, E2, E3. split; [auto|]. apply MDone. eauto. }
    intros T. inversion T; subst; try solve [split; [reflexivity|exact (MStay _)]]; try solve [eapply A; eauto].
    - destruct H0 as [[-> _]|[-> _]]; (split; [reflexivity|exact (MStay _)]).
    - apply sends_states in H3 as (-> & -> & ->). split; [reflexivity|exact (MStay _)].
    - cbn. apply sends_states in H3 as (-> & -> & ->). split; [reflexivity|exact (MStay _)].
    - cbn. destruct (update_eq (assign_next s (onInactive (v_state s)))) as (-> & -> & ->). destruct (assign_eq s (onInactive (v_state s))) as (-> & -> & ->).
      split; [auto|]. apply (MDone s (onInactive (v_state s))). auto.
    - apply close3_spec in H as (u & p & q & m & -> & _). split; [reflexivity|exact (MStay _)].
  Qed.
  Lemma tstep_listener s t s1 new l : tstep s t s1 new l -> v_listener s1 = v_listener s.
  Proof.
    assert (P : forall s r, v_listener (push3 s r) = v_listener s) by (intros s0 r; unfold push3; destruct (heappush _ _ _ _); reflexivity).
    assert (N : forall s nx, v_listener (assign_next s nx) = v_listener s) by (intros s0 []; reflexivity).
    assert (U : forall s, v_listener (updateState s) = v_listener s) by (intros s0; unfold updateState; destruct (v_next s0); reflexivity).
    assert (S : forall s r w now eng s1 l x, sends s r w now eng s1 l x -> v_listener s1 = v_listener s) by (intros; inversion H; subst; reflexivity).
    assert (A : forall r w s1 l y, asks clk s r w s1 l y -> v_listener s1 = v_listener s).
    { intros r w s2 l' y [nx O|nx s3 l2 e O H|nx s3 l2 O H]; [auto| |]; apply S in H; cbn in H; rewrite ?U, ?P, H; apply N. }
    intros T. inversion T; subst; try reflexivity; try solve [eapply A; eauto].
    - destruct H0 as [[-> _]|[-> _]]; reflexivity.
    - now apply S in H3.
    - cbn. now apply S in H3.
    - cbn. rewrite U. apply N.
    - apply close3_spec in H as (u & p & q & m & -> & _). reflexivity.
  Qed.
  (** The listener: the response [m], of [r], is processed. *)
  Lemma lstep_moves s s1 l : lstep s s1 l ->
    (v_engine s1 = v_engine s /\ moves s (v_state s1) (v_next s1) /\
      ((forall r m, v_listener s1 = LStore r m -> v_listener s = LStore r m \/
         (v_listener s = LRespond r m /\ exists e, v3_engineID m = Some e /\ onResponse (v_state s) (v_engine s) e (authentic m) = Ok (None, false))))) \/
    (exists r m e nx, v_listener s = LRespond r m /\ v3_engineID m = Some e /\ onResponse (v_state s) (v_engine s) e (authentic m) = Ok (nx, true) /\
      ((v_engine s1 = v_engine s /\ v_state s1 = v_state s /\ v_next s1 = assigned nx (v_next s) /\ v_listener s1 = LIdle) \/
       (v_engine s1 = Some e /\ v_state s1 = after (v_state s) (assigned nx (v_next s)) /\ v_next s1 = None /\ v_listener s1 = LStore r m))).
  Proof.
    intros ST. assert (RD : forall r w r' m, reported_done r w <> LStore r' m) by (intros r [] r' m; discriminate).
    inversion ST; subst; try solve [left; cbn; split; [reflexivity|split; [exact (MStay _)|intros; congruence || auto]]].
    - left. apply sends_moves in H2 as (E1 & E2 & E3). cbn. rewrite E1, E2, E3. split; [auto|]. split; [apply MNext; eauto|discriminate].
    - left. apply sends_moves in H2 as (E1 & E2 & E3). destruct b; cbn.
      + destruct (update_eq (heapify3 s0)) as (-> & -> & ->). destruct (heapify3_states s0) as (-> & -> & ->). rewrite E1, E2, E3. split; [auto|]. split; [apply MDone; eauto|discriminate].
      + destruct (heapify3_states s0) as (-> & -> & ->). rewrite E1, E2, E3. split; [auto|]. split; [apply MNext; eauto 6|]. intros r' m X. now apply RD in X.
    - left. cbn. split; [auto|]. split; [exact (MStay _)|]. intros r' m X. now apply RD in X.
    - left. cbn. apply sends_states in H2 as (-> & -> & ->). cbn. split; [auto|]. split; [exact (MStay _)|discriminate].
    - left. assert (LI : v_listener s0 = v_listener s) by (inversion H2; subst; reflexivity). apply sends_states in H2 as (E1 & E2 & E3). destruct (push3_states s0 q) as (-> & -> & ->). rewrite E1, E2, E3. cbn. split; [auto|]. split; [exact (MStay _)|].
      unfold push3. destruct (heappush _ _ _ _). cbn. rewrite LI, H. discriminate.
    - left. cbn. split; [auto|]. split; [exact (MStay _)|]. intros r' m' X. injection X as <- <-. right. split; [auto|]. exists e. split; [auto|]. fold (authentic m) in H2. rewrite H2. f_equal. f_equal.
      unfold onResponse in H2. destruct (v_state s); try discriminate; [destruct (_ || _)%bool|]; congruence.
    - right. exists r, m, e, nx. split; [auto|]. split; [auto|]. split; [auto|]. left. cbn. destruct (assign_eq s nx) as (-> & -> & ->). destruct nx; auto.
    - right. exists r, m, e, nx. split; [auto|]. split; [auto|]. split; [auto|]. right. cbn.
      match goal with |- context [updateState ?x] => destruct (update_eq x) as (-> & -> & ->) end. cbn. destruct (assign_eq s nx) as (_ & -> & ->). destruct nx; auto.
    - left. destruct (q_event q); cbn; (split; [auto|split; [exact (MStay _)|discriminate]]).
  Qed.
  Lemma step_moves s x s' l : vstep s x s' l ->
    (v_engine s' = v_engine s /\ moves s (v_state s') (v_next s') /\
      (forall r m, v_listener s' = LStore r m -> v_listener s = LStore r m \/
         (v_listener s = LRespond r m /\ exists e, v3_engineID m = Some e /\ onResponse (v_state s) (v_engine s) e (authentic m) = Ok (None, false)))) \/
    (exists r m e nx, v_listener s = LRespond r m /\ v3_engineID m = Some e /\ onResponse (v_state s) (v_engine s) e (authentic m) = Ok (nx, true) /\
      ((v_engine s' = v_engine s /\ v_state s' = v_state s /\ v_next s' = assigned nx (v_next s) /\ v_listener s' = LIdle) \/
       (v_engine s' = Some e /\ v_state s' = after (v_state s) (assigned nx (v_next s)) /\ v_next s' = None /\ v_listener s' = LStore r m))).
  Proof.
    intros ST. inversion ST; subst; try solve [left; cbn; split; [reflexivity|split; [exact (MStay _)|intros; congruence || auto]]].
    - left. assert (LI : v_listener s1 = v_listener s) by (eapply tstep_listener; eauto).
      apply tstep_moves in H0 as [E1 E2]. cbn. rewrite LI. split; [auto|]. split; [exact E2|auto].
    - eapply lstep_moves; eauto.
    - left. destruct H0 as (u & p & q & m & -> & _). split; [reflexivity|split; [exact (MStay _)|auto]].
    - left. destruct H0 as (u & p & q & m & -> & _). split; [reflexivity|split; [exact (MStay _)|auto]].
  Qed.

  (** ** C49 *)
  Lemma log_response s x s' l' r m : vstep s x s' l' -> In (WResponse r m) l' -> v_listener s = LStore r m /\ x = VListen.
  Proof.
    assert (S : forall s r0 w now eng s1 l x, sends s r0 w now eng s1 l x -> ~ In (WResponse r m) l).
    { intros s0 r0 w now eng s1 l x0 H. inversion H; subst; [intros [|[]]; discriminate|]. destruct H3 as [(? & _ & ->)|(? & _ & ->)]; intros [|[]]; discriminate. }
    assert (A : forall r0 w s1 l y, asks clk s r0 w s1 l y -> ~ In (WResponse r m) l).
    { intros r0 w s2 l y [nx O|nx s3 l2 e O H|nx s3 l2 O H]; [intros []| |]; eapply S; eauto. }
    intros ST B. inversion ST; subst; try solve [destruct B].
    - exfalso. inversion H0; subst; try solve [destruct B as [B|[]]; discriminate]; try solve [destruct B]; try solve [eapply A; eauto]; eapply S; eauto.
    - inversion H; subst; try solve [destruct B]; try solve [destruct B as [B|[]]; discriminate]; try solve [exfalso; eapply S; eauto].
      + destruct B as [B|[B|[]]]; discriminate.
      + destruct B as [B|[]]. injection B as <- <-. auto.
  Qed.
  Definition secured (s : mgr3) (l : list log3) : Prop :=
    (v_state s = RequireAuthentication -> v_next s = None) /\
    ((exists r m, (In (WResponse r m) l \/ v_listener s = LStore r m) /\ authentic m = true) -> v_state s = RequireAuthentication).
  Lemma moves_require s st nx : moves s st nx -> v_state s = RequireAuthentication -> v_next s = None -> st = RequireAuthentication /\ nx = None.
  Proof.
    intros M E N. inversion M; subst; rewrite ?E, ?N in *; [auto| |];
      (assert (nx0 = None) as -> by (destruct H as [H|[(a & b & H)|(e & b & H)]]; cbn in H; congruence)); cbn; auto.
  Qed.
  Lemma secured_step s x s' l l' : secured s l -> vstep s x s' l' -> secured s' (rev l' ++ l).
  Proof.
    intros [S1 S2] ST.
    assert (OLD : (exists r m, In (WResponse r m) (rev l' ++ l) /\ authentic m = true) -> v_state s = RequireAuthentication).
    { intros (r & m & B & A). apply S2. exists r, m. split; [|auto]. apply in_app_or in B as [B|B]; [|auto]. right. apply in_rev in B. now apply (log_response _ _ _ _ _ _ ST B). }
    destruct (step_moves _ _ _ _ ST) as [(E & M & LI)|(r & m & e & nx & LI & EE & O & [(E1 & E2 & E3 & E4)|(E1 & E2 & E3 & E4)])].
    - split.
      + intros X. inversion M; subst; auto; [rewrite <- H0 in *; auto|]. 
        rewrite <- H in X. assert (nx = None) as -> by (rewrite X in H1; destruct H1 as [H1|[(a & b & H1)|(e & b & H1)]]; cbn in H1; congruence).
        cbn. apply S1. congruence.
      + intros (r & m & [B|B] & A).
        * assert (X : v_state s = RequireAuthentication) by (apply OLD; eauto). now apply (moves_require _ _ _ M X (S1 X)).
        * apply LI in B as [B|(B & e & EE & O)].
          -- assert (X : v_state s = RequireAuthentication) by (apply S2; eauto). now apply (moves_require _ _ _ M X (S1 X)).
          -- exfalso. rewrite A in O. unfold onResponse in O. destruct (v_state s); cbn in O; congruence.
    - assert (NX : v_state s = RequireAuthentication -> nx = None) by (intros X; rewrite X in O; cbn in O; congruence).
      split; [rewrite E2, E3; intros X; rewrite (NX X); cbn; auto|]. rewrite E2, E4. intros (r' & m' & [B|B] & A); [apply OLD; eauto|discriminate].
    - split; [auto|]. rewrite E2, E4. intros (r' & m' & [B|B] & A).
      + assert (X : v_state s = RequireAuthentication) by (apply OLD; eauto). rewrite X in O |- *. cbn in O. injection O as <- _. cbn. now rewrite (S1 X).
      + injection B as <- <-. rewrite A in O. unfold onResponse in O. destruct (v_state s) eqn:X; cbn in O; try discriminate; injection O as <-; cbn; auto. now rewrite S1.
  Qed.
  Lemma secured_run s0 evs s l : secured s0 [] -> m3_run s0 evs = (s, l) -> secured s l.
  Proof. intros I E. revert evs s l E. apply (run_ind C R rnd clk fmt ns s0 (fun _ s l => secured s l)); [auto|]. intros evs s l x s' l' _ I' ST. eapply secured_step; eauto. Qed.
  Lemma secured_start u maxSize engineID s0 x : mgr3_new C rnd ns u maxSize engineID = (s0, x) -> secured s0 [].
  Proof.
    intros H. apply start_fields in H as (_ & _ & _ & _ & _ & _ & _ & H8 & H9 & _ & _ & _ & H13). split; [auto|].
    intros (r & m & [[]|B] & _). congruence.
  Qed.
  (** With an engine ID given by the user. *)
  Definition no_discovery (st : mstate) : Prop := st = Unsynchronized \/ st = Synchronizing \/ st = RequireAuthentication.
  Definition configured (s : mgr3) : Prop := no_discovery (v_state s) /\ forall n, v_next s = Some n -> no_discovery n.
  Lemma configured_next s nx : no_discovery (v_state s) -> (nx = onInactive (v_state s) \/ (exists auth b, onRequest (v_state s) auth = (nx, b)) \/ (exists e b, onReport (v_state s) (v_engine s) e = Ok (nx, b))) ->
    forall n, nx = Some n -> no_discovery n.
  Proof.
    intros [S|[S|S]] H n ->; rewrite S in H; destruct H as [H|[(a & b & H)|(e & b & H)]]; cbn in H; try (destruct (opt_bytes_eqb _ _)); try discriminate; unfold no_discovery;
      injection H; intros; subst; auto.
  Qed.
  Lemma configured_step s x s' l' : configured s -> vstep s x s' l' -> configured s'.
  Proof.
    intros [S1 S2] ST.
    assert (AS : forall nx, (forall n, nx = Some n -> no_discovery n) -> (forall n, assigned nx (v_next s) = Some n -> no_discovery n)) by (intros [y|] Y n Hn; cbn in Hn; auto).
    assert (AF : forall nx, (forall n, nx = Some n -> no_discovery n) -> no_discovery (after (v_state s) (assigned nx (v_next s)))).
    { intros nx Y. specialize (AS nx Y). unfold after. destruct (assigned nx (v_next s)); auto. }
    destruct (step_moves _ _ _ _ ST) as [(E & M & LI)|(r & m & e & nx & LI & EE & O & D)].
    - unfold configured. clear LI ST E. revert M. generalize (v_state s') (v_next s'). intros st nx' M. destruct M as [|nx H|nx H]; [auto| |].
      + split; [auto|]. apply AS. now apply (configured_next s).
      + split; [apply AF; now apply (configured_next s)|discriminate].
    - assert (Y : forall n, nx = Some n -> no_discovery n).
      { intros n ->. clear -S1 O. unfold onResponse in O. destruct S1 as [S|[S|S]]; rewrite S in O; [discriminate| |discriminate].
        destruct (_ || _)%bool; [|discriminate]. injection O as <-. unfold no_discovery. auto. }
      destruct D as [(_ & E2 & E3 & _)|(_ & E2 & E3 & _)]; split; rewrite ?E2, ?E3; [exact S1|exact (AS nx Y)|exact (AF nx Y)|discriminate].
  Qed.
  Lemma configured_run s0 evs s l : configured s0 -> m3_run s0 evs = (s, l) -> configured s.
  Proof. intros I E. revert evs s l E. apply (run_ind C R rnd clk fmt ns s0 (fun _ s l => configured s)); [auto|]. intros evs s l x s' l' _ I' ST. eapply configured_step; eauto. Qed.
  (** What a change of the engine ID takes. *)
  Lemma engine_change s x s' l' : vstep s x s' l' -> v_engine s' <> v_engine s ->
    exists r m, v_listener s = LRespond r m /\ v_engine s' = v3_engineID m /\ (exists e, v3_engineID m = Some e) /\
      (authentic m = true \/ v_state s = TrustEveryResponse).
  Proof.
    intros ST N. destruct (step_moves _ _ _ _ ST) as [(E & _)|(r & m & e & nx & LI & EE & O & [(E1 & _)|(E1 & _)])]; try contradiction.
    exists r, m. rewrite EE. split; [auto|]. split; [auto|]. split; [eauto|]. destruct (authentic m) eqn:A; [auto|]. right.
    unfold onResponse in O. destruct (v_state s); try discriminate; auto. destruct (opt_bytes_eqb e (v_engine s)) eqn:X; [|discriminate]. apply opt_bytes_eqb_eq in X. congruence.
  Qed.
End Engine.
