(** PrfState.v -- a v3 manager that was not given the engine ID: as long as the
    engine is not discovered, no request has an engine ID, unless a message that
    was to be sent because of a report could not be sent. *)
From Verif Require Import PropertiesUsm PropertiesMsg PropertiesProc PropertiesMgr PrfMgr3i PropertiesMgr3.
From Verif Require Export PrfMgr3d.

Definition served (l : list log3) : Prop := forall r h w e, In (WFailed r h w e) l -> w <> ByUnknownEngine /\ w <> ByNotInTime.
Lemma served_app a b : served (rev a ++ b) -> served a /\ served b.
Proof. intros H. split; intros r h w e K; apply (H r h w e), in_or_app; [left; now apply -> in_rev|now right]. Qed.
(** Before discovery. *)
Definition nowhere (s : mgr3) : Prop := forall r, q_engine (get3 (v_reqs s) r) = None.
Definition early (s : mgr3) : Prop :=
  (v_state s = Inactive \/ v_state s = WaitForDiscovery) /\ (v_next s = None \/ v_next s = Some WaitForDiscovery) /\ v_engine s = None /\ nowhere s /\
  match v_listener s with LDrain _ _ _ => False | LReport _ _ w => w = ByUnknownEngine \/ w = ByNotInTime | _ => True end.
(** After it. *)
Definition late (s : mgr3) : Prop :=
  (v_state s = TrustEveryResponse \/ v_state s = RequireAuthentication) /\ (v_next s = None \/ v_next s = Some RequireAuthentication).

Section Discovery.
  Context (C : crypto) (R : Z) (rnd : nat -> nat -> Z) (clk : nat -> Z) (fmt : v3msg -> bool) (ns : pystr).
  Notation vstep := (vstep C R rnd clk ns).
  Notation tstep := (tstep C rnd clk ns).
  Lemma moves_late s st nx : moves s st nx -> late s -> (st = TrustEveryResponse \/ st = RequireAuthentication) /\ (nx = None \/ nx = Some RequireAuthentication).
  Proof.
    intros M [S N]. assert (A : forall nx, (nx = onInactive (v_state s) \/ (exists auth b, onRequest (v_state s) auth = (nx, b)) \/ (exists e b, onReport (v_state s) (v_engine s) e = Ok (nx, b))) -> nx = None).
    { intros nx' [->|[(a & b & E)|(e & b & E)]]; destruct S as [S|S]; rewrite S in *; cbn in *; congruence. }
    inversion M; subst.
    - auto.
    - rewrite (A _ H). cbn. auto.
    - rewrite (A _ H). cbn. destruct N as [->| ->]; cbn; auto.
  Qed.
  Lemma late_step s x s' l : vstep s x s' l -> late s -> late s'.
  Proof.
    intros V L. destruct (step_moves _ _ _ _ _ _ _ _ _ V) as [(_ & M & _)|(r & m & e & nx & _ & _ & OR & D)].
    - exact (moves_late _ _ _ M L).
    - assert (N : nx = None \/ nx = Some RequireAuthentication) by (destruct L as [[S|S] _]; rewrite S in OR; cbn in OR; [destruct (authentic m)|]; injection OR as <-; auto).
      destruct L as [S L]. assert (A : assigned nx (v_next s) = None \/ assigned nx (v_next s) = Some RequireAuthentication) by (destruct N as [->| ->]; cbn; auto).
      destruct D as [(_ & S' & N' & _)|(_ & S' & N' & _)]; unfold late; rewrite S', N'; [auto|]. destruct A as [->| ->]; cbn; auto.
  Qed.
  Lemma put_none l r q : q_engine q = None -> (forall r, q_engine (get3 l r) = None) -> forall r', q_engine (get3 (put l r q) r') = None.
  Proof.
    intros Q H r'. destruct (Nat.eq_dec r' r) as [->|N]; [|rewrite get3_put_other by auto; apply H].
    destruct (Nat.lt_ge_cases r (length l)) as [LT|GE]; [now rewrite get3_put_same|]. specialize (H r). revert H. unfold get3. rewrite !nth_overflow; auto. now rewrite put_length.
  Qed.
  Lemma sends_nowhere s r w now s1 l x : sends s r w now None s1 l x -> nowhere s -> nowhere s1.
  Proof. intros H N. inversion H; subst; [exact N|]. intros r'. cbn [v_reqs set_objects]. apply put_none; [|exact N]. cbn. apply N. Qed.
  Lemma readied_nowhere s r : nowhere s -> nowhere (readied clk s r).
  Proof. intros N r'. unfold readied. cbn [set_req3 set_objects v_reqs ticked set_io]. apply put_none; [|exact N]. apply N. Qed.
  Lemma push_nowhere s r : nowhere s -> nowhere (push3 s r).
  Proof. unfold push3. destruct (heappush _ _ _ _). auto. Qed.
  Lemma update_nowhere s : nowhere s -> nowhere (updateState s).
  Proof. unfold updateState. destruct (v_next s); auto. Qed.
  Lemma update_listener s : v_listener (updateState s) = v_listener s.
  Proof. unfold updateState. destruct (v_next s); reflexivity. Qed.
  Lemma assign_nowhere s n : nowhere s -> nowhere (assign_next s n).
  Proof. destruct n; auto. Qed.
  Lemma sends_listener s r w now eng s1 l x : sends s r w now eng s1 l x -> v_listener s1 = v_listener s.
  Proof. intros H. inversion H; subst; reflexivity. Qed.
  Lemma sends_failed s r w now eng s1 l e : sends s r w now eng s1 l (Raise e) -> exists h, In (WFailed r h w e) l.
  Proof.
    intros H. inversion H; subst.
    - eexists. left. reflexivity.
    - match goal with D : _ \/ _ |- _ => destruct D as [(wire & X & _)|(ex & X & E)] end; [discriminate|]. injection X as <-. rewrite E. eexists. left. reflexivity.
  Qed.
  Lemma asks_early s r w s1 l y : asks clk s r w s1 l y -> early s -> early s1.
  Proof.
    intros A (S & N & E & NW & L). inversion A; subst.
    - repeat split; auto.
    - rewrite E in H0. destruct (sends_states _ _ _ _ _ _ _ _ H0) as (E1 & S1 & N1). pose proof (sends_listener _ _ _ _ _ _ _ _ H0) as L1.
      assert (NX : nx = Some WaitForDiscovery).
      { destruct S as [S|S]; rewrite S in H; cbn in H; [injection H as <-; auto|discriminate]. }
      subst nx. unfold early. rewrite S1, N1, E1, L1. cbn. split; [exact S|]. split; [now right|]. split; [exact E|]. split; [|exact L].
      eapply sends_nowhere; [exact H0|]. apply readied_nowhere, assign_nowhere, NW.
    - rewrite E in H0. destruct (sends_states _ _ _ _ _ _ _ _ H0) as (E1 & S1 & N1). pose proof (sends_listener _ _ _ _ _ _ _ _ H0) as L1.
      destruct (push3_states s0 r) as (E2 & S2 & N2). destruct (update_eq (push3 s0 r)) as (E3 & S3 & N3).
      assert (L2 : v_listener (updateState (push3 s0 r)) = v_listener s).
      { transitivity (v_listener (push3 s0 r)); [apply update_listener|]. transitivity (v_listener s0); [unfold push3; destruct (heappush _ _ _ _); reflexivity|].
        rewrite L1. destruct nx; reflexivity. }
      assert (NX : nx = Some WaitForDiscovery /\ v_state s = Inactive).
      { destruct S as [S|S]; rewrite S in H; cbn in H; [injection H as <-; auto|discriminate]. }
      destruct NX as [-> SI]. unfold early. rewrite S3, N3, E3, L2, S2, N2, E2, S1, N1, E1. cbn. split; [auto|]. split; [now left|]. split; [exact E|]. split; [|exact L].
      apply update_nowhere, push_nowhere. eapply sends_nowhere; [exact H0|]. apply readied_nowhere, assign_nowhere, NW.
  Qed.
  (** What a step keeps. *)
  Definition alike (s s' : mgr3) : Prop := v_state s' = v_state s /\ v_next s' = v_next s /\ v_engine s' = v_engine s /\ v_listener s' = v_listener s.
  Lemma early_alike s s' : alike s s' -> nowhere s' -> early s -> early s'.
  Proof. intros (A & B & D & E) N (S & X & Y & _ & L). unfold early. rewrite A, B, D, E. auto. Qed.
  Lemma sends_alike s r w now eng s1 l x : sends s r w now eng s1 l x -> alike s s1.
  Proof. intros H. destruct (sends_states _ _ _ _ _ _ _ _ H) as (A & B & D). pose proof (sends_listener _ _ _ _ _ _ _ _ H). repeat split; auto. Qed.
  Lemma closed_nowhere s r s' : closed s r s' -> nowhere s -> nowhere s' /\ alike s s'.
  Proof.
    intros (u & p & q & m & E & Q & _) N. subst s'. split; [|repeat split]. intros r'. cbn [v_reqs set_objects set_io].
    apply put_none; [|exact N]. destruct Q as [->| ->]; [apply N|reflexivity].
  Qed.
  Lemma tstep_early s t s1 new l : tstep s t s1 new l -> early s -> early s1.
  Proof.
    intros T E. pose proof E as (S & X & Y & N & L). inversion T; subst; try exact E; try (eapply asks_early; eauto; fail).
    - destruct H0 as [[-> _]|[-> _]]; exact E.
    - match goal with K : sends _ _ _ _ _ _ _ _ |- _ => rename K into SE end. apply (early_alike s); [|apply (sends_nowhere _ _ _ _ _ _ _ SE)|exact E].
      + apply (sends_alike _ _ _ _ _ _ _ _ SE).
      + intros r'. unfold rescheduled. cbn [set_req3 set_objects v_reqs ticked set_io]. apply put_none; [apply N|exact N].
    - match goal with K : sends _ _ _ _ _ _ _ _ |- _ => rename K into SE end. apply (early_alike s); [|apply (sends_nowhere _ _ _ _ _ _ _ SE)|exact E].
      + apply (sends_alike _ _ _ _ _ _ _ _ SE).
      + intros r'. unfold rescheduled. cbn [set_req3 set_objects v_reqs ticked set_io]. apply put_none; [apply N|exact N].
    - destruct (update_eq (assign_next s (onInactive (v_state s)))) as (E3 & S3 & N3). destruct (assign_eq s (onInactive (v_state s))) as (E2 & S2 & N2).
      assert (L2 : v_listener (updateState (assign_next s (onInactive (v_state s)))) = v_listener s) by (rewrite update_listener; destruct (onInactive _); reflexivity).
      unfold early. cbn [set_queue v_state v_next v_engine v_listener v_reqs nowhere]. rewrite S3, N3, E3, L2, S2, N2, E2.
      split; [destruct S as [S|S], X as [X|X]; rewrite S, X; cbn; auto|]. split; [now left|]. split; [exact Y|]. split; [|exact L]. exact (update_nowhere _ (assign_nowhere _ _ N)).
    - apply close3_spec in H. apply closed_nowhere in H as [H1 H2]; [|exact N]. eapply early_alike; eauto.
  Qed.
  Lemma lstep_early s s1 l : lstep clk s s1 l -> served l -> early s -> early s1 \/ late s1.
  Proof.
    intros T U E. pose proof E as (S & X & Y & N & L). inversion T; subst; try (match goal with K : v_listener s = LDrain _ _ _ |- _ => rewrite K in L; now destruct L end).
    all: try (left; split; [exact S|]; split; [exact X|]; split; [exact Y|]; split; [exact N|exact Logic.I]; fail).
    - left. exact E.
    - left. split; [exact S|]. split; [exact X|]. split; [exact Y|]. split; [exact N|]. cbn. destruct H3 as [(-> & _)|(-> & _)]; auto.
    - left. split; [exact S|]. split; [exact X|]. split; [exact Y|]. split; [|exact Logic.I]. intros r'. cbn [set_req3 set_objects v_reqs set_listener set_threads]. apply put_none; [|exact N]. unfold q, stored.
      pose proof (N r). destruct auth; [destruct (q_event _)|destruct (q_exception _)]; cbn; apply N.
    - exfalso. match goal with K : sends _ _ _ _ _ _ _ _ |- _ => apply sends_failed in K as (h & K); apply U in K as [K1 K2] end.
      match goal with K : v_listener s = _ |- _ => rewrite K in L end. destruct L; contradiction.
    - right. match goal with K : sends _ _ _ _ _ _ _ _ |- _ => pose proof (sends_states _ _ _ _ _ _ _ _ K) as (E1 & S1 & N1) end.
      match goal with K : onReport _ _ _ = _ |- _ => rename K into OR end. destruct S as [S|S]; rewrite S in OR; cbn in OR; [discriminate|]. injection OR as <- <-.
      destruct (heapify3_states s0) as (E2 & S2 & N2). destruct (update_eq (heapify3 s0)) as (E3 & S3 & N3). unfold late. cbn [set_listener set_threads v_state v_next]. rewrite S3, N3, N2, N1. cbn. auto.
    - left. split; [exact S|]. split; [exact X|]. split; [exact Y|]. split; [|exact Logic.I]. intros r'. cbn [v_reqs set_objects set_listener set_threads]. apply put_none; [apply N|exact N].
    - exfalso. match goal with K : onResponse _ _ _ _ = _ |- _ => destruct S as [S|S]; rewrite S in K; discriminate end.
    - exfalso. match goal with K : onResponse _ _ _ _ = _ |- _ => destruct S as [S|S]; rewrite S in K; discriminate end.
    - left. split; [|split; [|split; [|split]]]; try (destruct (q_event q); cbn; auto; fail). destruct (q_event q); [exact N|]. intros r'. cbn [v_reqs set_objects set_listener set_threads set_req3]. apply put_none; [apply N|exact N].
  Qed.
  Lemma step_early s x s' l : vstep s x s' l -> served l -> early s -> early s' \/ late s'.
  Proof.
    intros V U E. pose proof E as (S & X & Y & N & L). inversion V; subst.
    - now left.
    - left. split; [exact S|]. split; [exact X|]. split; [exact Y|]. split; [|exact L]. intros r'. cbn [made3 v_reqs]. unfold get3.
      destruct (Nat.lt_ge_cases r' (length (v_reqs s))) as [LT|GE]; [rewrite app_nth1 by exact LT; apply N|]. rewrite app_nth2 by exact GE. destruct (r' - length (v_reqs s))%nat as [|[|k]]; reflexivity.
    - left. exact E.
    - left. eapply tstep_early in H0; eauto.
    - left. split; [exact S|]. split; [exact X|]. split; [exact Y|]. split; [exact N|exact Logic.I].
    - left. exact E.
    - eapply lstep_early; eauto.
    - left. apply closed_nowhere in H0 as [H1 H2]. eapply early_alike; [exact H2|exact H1|].
      all: assert (N1 : nowhere (set_req3 s r (q_set_dead (get3 (v_reqs s) r)))) by (intros r'; cbn [set_req3 set_objects v_reqs]; apply put_none; [apply N|exact N]).
      + split; [exact S|]. split; [exact X|]. split; [exact Y|]. split; [exact N1|exact L].
      + exact N1.
    - left. exact E.
    - left. destruct H0 as (u & p & c & m & -> & _). exact E.
  Qed.
  Lemma discovery_run u maxSize s0 x evs s l : mgr3_new C rnd ns u maxSize None = (s0, x) -> m3_run C R rnd clk fmt ns s0 evs = (s, l) -> served l -> early s \/ late s.
  Proof.
    intros NE. revert s l. apply (run_ind C R rnd clk fmt ns s0 (fun _ s l => served l -> early s \/ late s)).
    - intros _. left. injection NE as <- _. repeat split; auto. intros [|r]; reflexivity.
    - intros evs0 s1 l1 y s2 l2 _ IH V U. apply served_app in U as [U1 U2]. destruct (IH U2) as [E|L]; [eapply step_early; eauto|right; eapply late_step; eauto].
  Qed.
End Discovery.
