(** PrfProcConc.v -- invariants of the interleaved processors (C23, C25, C27). *)
From Verif Require Export PrfCache.
From Coq Require Import Permutation.

Lemma mem_in h l : mem h l = true <-> In h l.
Proof.
  unfold mem. rewrite existsb_exists. split.
  - intros (x & I & X). apply Nat.eqb_eq in X as ->. auto.
  - intros I. exists h. rewrite Nat.eqb_refl. auto.
Qed.
Lemma mem_not h l : mem h l = false <-> ~ In h l.
Proof. rewrite <- mem_in. destruct (mem h l); split; congruence. Qed.
Lemma nth_split {A} (l : list A) n t : nth_error l n = Some t -> l = firstn n l ++ t :: skipn (S n) l.
Proof.
  revert l; induction n as [|n IH]; intros [|x l]; cbn; try discriminate.
  - intros H; injection H as ->. reflexivity.
  - intros H. f_equal. now apply IH.
Qed.

Lemma existsb_none {A} (f : A -> bool) l x : existsb f l = false -> In x l -> f x = false.
Proof. intros N J. destruct (f x) eqn:F; auto. rewrite <- N. symmetry. apply existsb_exists. eauto. Qed.

Lemma nodup_app_l {A} (a b : list A) : NoDup (a ++ b) -> NoDup a.
Proof.
  induction a as [|x a IH]; intros N; [constructor|]. cbn in N. inversion N; subst. constructor; auto.
  intros X. apply H1, in_or_app. auto.
Qed.
Lemma nodup_app_r {A} (a b : list A) : NoDup (a ++ b) -> NoDup b.
Proof. induction a as [|x a IH]; intros N; [exact N|]. cbn in N. inversion N; subst. auto. Qed.

Section P.
  Context {E I M : Type} (K : proto E I M) (rnd : nat -> Z).
  Context (HG : 4 <= gs_bits (k_gen K)) (HR : draws_ok (k_gen K) rnd).
  Notation cst := (conc E M).
  Notation step := (conc_step K rnd).
  Notation hnd := (k_handle K).
  Implicit Types (s : cst) (l : list (log E I M)).

  (** Every step, by cases. *)
  Inductive stepped s : cst -> list (log E I M) -> Prop :=
  | st_none : stepped s s []
  | st_start e : ~ In (hnd e) (cs_started s) -> ~ In (hnd e) (cs_dead s) ->
      stepped s (mkConc (cs_cache s) (cs_tasks s ++ [TAlloc e 10]) (hnd e :: cs_started s) (cs_cb s) (cs_dead s)) []
  | st_recv i : stepped s (mkConc (cs_cache s)
        (cs_tasks s ++ match k_parse K i with Some m => [TRetrieve m] | None => [] end)
        (cs_started s) (cs_cb s) (cs_dead s)) [LReceive i]
  | st_close h id : In (h, id) (cs_cb s) ->
      stepped s (mkConc (cs_cache s) (cs_tasks s ++ [TUncache h id]) (cs_started s)
                (filter (fun p => negb (Nat.eqb (fst p) h)) (cs_cb s)) (cs_dead s)) [LClose h]
  | st_die h : ~ In h (cs_dead s) -> (forall t, In t (cs_tasks s) -> holds K h t = false) ->
      stepped s (mkConc (cs_cache s) (cs_tasks s) (cs_started s) (cs_cb s) (h :: cs_dead s)) [LDie h]
  | st_fail e a b : cs_tasks s = a ++ TAlloc e 0 :: b ->
      stepped s (mkConc (cs_cache s) (a ++ b) (filter (fun h => negb (Nat.eqb h (hnd e))) (cs_started s)) (cs_cb s) (cs_dead s)) [LFail e]
  | st_alloc e r a b id c : cs_tasks s = a ++ TAlloc e (S r) :: b ->
      cache_attempt (k_gen K) rnd (cs_cache s) e = (Some id, c) ->
      stepped s (mkConc c (a ++ TRegister (hnd e) id :: b) (cs_started s) (cs_cb s) (cs_dead s)) [LAlloc e id]
  | st_retry e r a b c : cs_tasks s = a ++ TAlloc e (S r) :: b ->
      cache_attempt (k_gen K) rnd (cs_cache s) e = (None, c) ->
      stepped s (mkConc c (a ++ TAlloc e r :: b) (cs_started s) (cs_cb s) (cs_dead s)) []
  | st_register h id a b : cs_tasks s = a ++ TRegister h id :: b ->
      stepped s (mkConc (cs_cache s) (a ++ b) (cs_started s) ((h, id) :: cs_cb s) (cs_dead s)) []
  | st_found m e a b : cs_tasks s = a ++ TRetrieve m :: b ->
      dict_get Z.eqb (ca_out (cs_cache s)) (k_id K m) = Some e ->
      stepped s (mkConc (cs_cache s) (a ++ TDeref e m :: b) (cs_started s) (cs_cb s) (cs_dead s)) [LFound e m]
  | st_unknown m a b : cs_tasks s = a ++ TRetrieve m :: b ->
      dict_get Z.eqb (ca_out (cs_cache s)) (k_id K m) = None ->
      stepped s (mkConc (cs_cache s) (a ++ b) (cs_started s) (cs_cb s) (cs_dead s)) [LReject m]
  | st_dead e m a b : cs_tasks s = a ++ TDeref e m :: b -> In (hnd e) (cs_dead s) ->
      stepped s (mkConc (cs_cache s) (a ++ (if k_drop_dead K then [TDrop (k_id K m)] else []) ++ b)
                        (cs_started s) (cs_cb s) (cs_dead s)) [LReject m]
  | st_live e m a b : cs_tasks s = a ++ TDeref e m :: b -> ~ In (hnd e) (cs_dead s) ->
      stepped s (mkConc (cs_cache s) (a ++ TCheck e m :: b) (cs_started s) (cs_cb s) (cs_dead s)) []
  | st_deliver e m a b : cs_tasks s = a ++ TCheck e m :: b -> k_accept K e m = true ->
      stepped s (mkConc (cs_cache s) (a ++ b) (cs_started s) (cs_cb s) (cs_dead s)) [LDeliver e m]
  | st_reject e m a b : cs_tasks s = a ++ TCheck e m :: b -> k_accept K e m = false ->
      stepped s (mkConc (cs_cache s) (a ++ b) (cs_started s) (cs_cb s) (cs_dead s)) [LReject m]
  | st_uncache h id a b : cs_tasks s = a ++ TUncache h id :: b ->
      stepped s (mkConc (uncache (cs_cache s) id) (a ++ b) (cs_started s) (cs_cb s) (cs_dead s)) [LUncached h id]
  | st_drop id a b : cs_tasks s = a ++ TDrop id :: b ->
      stepped s (mkConc (uncache (cs_cache s) id) (a ++ b) (cs_started s) (cs_cb s) (cs_dead s)) [LDropped id].

  Lemma step_stepped s x : stepped s (fst (step s x)) (snd (step s x)).
  Proof using.
    destruct x as [e|i|h|h|n]; cbn [conc_step].
    - destruct (mem (hnd e) (cs_started s)) eqn:A; [constructor|]. destruct (mem (hnd e) (cs_dead s)) eqn:B; [constructor|].
      apply mem_not in A, B. cbn. now constructor.
    - cbn. constructor.
    - destruct (find _ (cs_cb s)) as [[h' id]|] eqn:F; cbn; [|constructor].
      apply find_some in F as [F1 F2]. apply Nat.eqb_eq in F2. cbn in F2. subst h'. now constructor.
    - destruct (mem h (cs_dead s)) eqn:A; [constructor|]. apply mem_not in A.
      destruct (existsb (holds K h) (cs_tasks s)) eqn:B; cbn; [constructor|]. constructor; auto.
      intros t T. destruct (holds K h t) eqn:X; auto. rewrite <- B. symmetry. apply existsb_exists. eauto.
    - destruct (nth_error (cs_tasks s) n) as [t|] eqn:N; [|constructor]. apply nth_split in N.
      set (a := firstn n (cs_tasks s)) in *. set (b := skipn (S n) (cs_tasks s)) in *.
      destruct t as [e [|r]|h id|m|e m|e m|h id|id]; cbn [task_step].
      + cbn. now apply st_fail.
      + destruct (cache_attempt _ _ _ _) as [[id|] c] eqn:A; cbn.
        * eapply st_alloc; eauto.
        * eapply st_retry; eauto.
      + cbn. now apply st_register.
      + unfold retrieve. destruct (dict_get Z.eqb (ca_out (cs_cache s)) (k_id K m)) eqn:D; cbn.
        * now apply st_found.
        * now apply st_unknown.
      + destruct (mem (hnd e) (cs_dead s)) eqn:D; cbn.
        * apply mem_in in D. eapply st_dead; eauto.
        * apply mem_not in D. now apply st_live.
      + destruct (k_accept K e m) eqn:A; cbn; [now apply (st_deliver s e m)|now apply (st_reject s e m)].
      + cbn. now apply st_uncache.
      + cbn. now apply st_drop.
  Qed.

  Lemma run_inv (P : cst -> list (log E I M) -> Prop) :
    P (conc0 K rnd) [] -> (forall s l s' l', P s l -> stepped s s' l' -> P s' (l' ++ l)) ->
    forall evs, P (fst (conc_run K rnd evs)) (snd (conc_run K rnd evs)).
  Proof using.
    intros P0 PS evs. unfold conc_run. enough (forall sl, P (fst sl) (snd sl) ->
      P (fst (fold_left (conc_next K rnd) evs sl)) (snd (fold_left (conc_next K rnd) evs sl))) as X by (now apply X).
    induction evs as [|x evs IH]; intros [s l] Q; [exact Q|]. cbn [fold_left]. apply IH.
    cbn [conc_next]. pose proof (step_stepped s x) as S. destruct (step s x) as [s' l']. cbn in *. eauto.
  Qed.

  (** ** Facts that hold in every state *)
  Definition allocs (ts : list (task E M)) : list nat :=
    flat_map (fun t => match t with TAlloc e _ => [hnd e] | _ => [] end) ts.
  Definition used l (h : nat) : Prop := exists e id, hnd e = h /\ In (LAlloc e id) l.
  Definition found l (e : E) (m : M) : Prop := exists mid pre, l = mid ++ LFound e m :: pre /\
    (exists i, In (LReceive i) pre /\ k_parse K i = Some m) /\
    In (LAlloc e (k_id K m)) pre /\ ~ In (LUncached (hnd e) (k_id K m)) pre.
  Definition task_ok s l (t : task E M) : Prop :=
    match t with
    | TAlloc e _ => In (hnd e) (cs_started s) /\ ~ In (hnd e) (cs_dead s) /\ ~ used l (hnd e)
    | TRegister h id => used l h /\ ~ In h (cs_dead s)
    | TRetrieve m => exists i, In (LReceive i) l /\ k_parse K i = Some m
    | TDeref e m => found l e m
    | TCheck e m => found l e m /\ ~ In (hnd e) (cs_dead s)
    | TUncache h id => used l h
    | TDrop id => True
    end.
  Record base s l : Prop := mkBase {
    b_gen : gen_at (k_gen K) (ca_gen (cs_cache s));
    b_keys : NoDup (keys (ca_out (cs_cache s)));
    b_allocs : NoDup (allocs (cs_tasks s));
    b_tasks : forall t, In t (cs_tasks s) -> task_ok s l t;
    b_used : forall h, used l h -> In h (cs_started s);
    b_cb : forall h id, In (h, id) (cs_cb s) -> used l h;
    b_unc : forall h id, In (LUncached h id) l -> used l h;
    b_dead : forall h, In h (cs_dead s) <-> In (LDie h) l;
    b_out : forall id e, dict_get Z.eqb (ca_out (cs_cache s)) id = Some e ->
      id <> 0 /\ id_in_range (k_gen K) id /\ In (LAlloc e id) l /\ ~ In (LUncached (hnd e) id) l;
    b_deliver : forall post e m pre, l = post ++ LDeliver e m :: pre ->
      found pre e m /\ k_accept K e m = true /\ ~ In (LDie (hnd e)) pre
  }.
  Lemma used_app l l' h : used l h -> used (l' ++ l) h.
  Proof using. intros (e & id & A & B). exists e, id. split; auto. apply in_or_app; auto. Qed.
  Lemma found_app l l' e m : found l e m -> found (l' ++ l) e m.
  Proof using. intros (mid & pre & -> & F). exists (l' ++ mid), pre. now rewrite app_assoc. Qed.
  Lemma used_cons l h x : used (x :: l) h <-> (exists e id, x = LAlloc e id /\ hnd e = h) \/ used l h.
  Proof using.
    split.
    - intros (e & id & A & [B|B]); [left; eauto|right; exists e, id; auto].
    - intros [(e & id & -> & A)|U]; [exists e, id; split; [auto|left; auto]|now apply (used_app l [x])].
  Qed.
  Lemma not_used_new l l' h : (forall e id, ~ In (LAlloc e id) l') -> ~ used l h -> ~ used (l' ++ l) h.
  Proof using.
    intros N U (e & id & A & B). apply in_app_or in B as [B|B]; [now apply N in B|]. apply U. exists e, id. auto.
  Qed.
  (** Tasks stay fine when the log grows without allocations and the started
      and dead handles do not change for them. *)
  Lemma task_ok_mono s s' l l' t : task_ok s l t -> (forall e id, ~ In (LAlloc e id) l') ->
    (forall h, In h (cs_started s) -> holds K h t = true -> In h (cs_started s')) ->
    (forall h, holds K h t = true -> ~ In h (cs_dead s) -> ~ In h (cs_dead s')) -> task_ok s' (l' ++ l) t.
  Proof using.
    intros T N A B. destruct t; cbn [task_ok holds] in *.
    - destruct T as (T1 & T2 & T3). split; [apply A; auto; apply Nat.eqb_refl|]. split; [apply B; auto; apply Nat.eqb_refl|].
      now apply not_used_new.
    - destruct T as [T1 T2]. split; [now apply used_app|apply B; auto; apply Nat.eqb_refl].
    - destruct T as (i & T1 & T2). exists i. split; auto. apply in_or_app; auto.
    - now apply found_app.
    - destruct T as [T1 T2]. split; [now apply found_app|apply B; auto; apply Nat.eqb_refl].
    - now apply used_app.
    - auto.
  Qed.
  Lemma deliver_new l x : (forall e m, x <> LDeliver e m) ->
    (forall post e m pre, l = post ++ LDeliver e m :: pre -> found pre e m /\ k_accept K e m = true /\ ~ In (LDie (hnd e)) pre) ->
    forall post e m pre, x :: l = post ++ LDeliver e m :: pre -> found pre e m /\ k_accept K e m = true /\ ~ In (LDie (hnd e)) pre.
  Proof using.
    intros N D [|y post] e m pre X; cbn in X; injection X as X1 X2; [elim (N e m); auto|]. eapply D; eauto.
  Qed.
  Lemma allocs_app a b : allocs (a ++ b) = allocs a ++ allocs b.
  Proof using. apply flat_map_app. Qed.

  Ltac inlist := repeat rewrite in_app_iff; cbn [In].
  Ltac inT T := repeat rewrite in_app_iff in T; cbn [In] in T.
  Ltac noalloc := intros ? ? [X|[]]; discriminate X.
  Ltac nodeliver := apply deliver_new; [intros ? ? ?; discriminate|assumption].

  Lemma base_step s l s' l' : base s l -> stepped s s' l' -> base s' (l' ++ l).
  Proof.
    intros B S. pose proof B as [Bg Bk Ba Bt Bu Bc Bn Bd Bo Bv]. 
    assert (OUT : forall x, (forall e id, x <> LAlloc e id) -> (forall h id, x <> LUncached h id) ->
      forall id e, dict_get Z.eqb (ca_out (cs_cache s)) id = Some e ->
      id <> 0 /\ id_in_range (k_gen K) id /\ In (LAlloc e id) (x :: l) /\ ~ In (LUncached (hnd e) id) (x :: l)).
    { intros x N1 N2 id e G. destruct (Bo id e G) as (O1 & O2 & O3 & O4). split; auto. split; auto. split; [right; auto|].
      intros [X|X]; [now apply N2 in X|auto]. }
    assert (USE : forall x h, (forall e id, x <> LAlloc e id) -> used (x :: l) h -> used l h).
    { intros x h N U. apply used_cons in U as [(e & id & -> & _)|U]; [now elim (N e id)|auto]. }
    assert (MONO : forall l1, (forall e id, ~ In (LAlloc e id) l1) -> forall t, In t (cs_tasks s) ->
      forall c ts cb, task_ok (mkConc c ts (cs_started s) cb (cs_dead s)) (l1 ++ l) t).
    { intros l1 N t I0 c ts cb. eapply task_ok_mono; [now apply Bt|exact N|auto|auto]. }
    assert (UA : forall l1 h, used l h -> used (l1 ++ l) h) by (intros; now apply used_app).
    destruct S.
    - exact B.
    - (* start *)
      constructor; cbn [cs_cache cs_tasks cs_started cs_cb cs_dead app]; auto.
      + rewrite allocs_app. cbn. apply NoDup_rev in Ba. rewrite <- (rev_involutive (allocs (cs_tasks s) ++ [hnd e])).
        apply NoDup_rev. rewrite rev_app_distr. cbn. constructor; auto. rewrite <- in_rev. intros X.
        unfold allocs in X. apply in_flat_map in X as (t & T1 & T2). destruct t; try now elim T2.
        destruct T2 as [T2|[]]. specialize (Bt _ T1). cbn in Bt. destruct Bt as (X & _). congruence.
      + intros t T. inT T. destruct T as [T|[<-|[]]].
        * apply (task_ok_mono s _ l [] t); [auto|intros ? ? []|cbn; auto|cbn; auto].
        * cbn. split; [auto|]. split; [auto|]. intros U. apply Bu in U. contradiction.
      + intros h U. right. auto.
    - (* receive *)
      constructor; cbn [cs_cache cs_tasks cs_started cs_cb cs_dead app]; auto.
      + rewrite allocs_app. destruct (k_parse K i); cbn; now rewrite app_nil_r.
      + intros t T. inT T. destruct T as [T|T].
        * apply (MONO [LReceive i]); [noalloc|auto].
        * destruct (k_parse K i) as [m|] eqn:P; [|now elim T]. destruct T as [<-|[]]. cbn. exists i. auto.
      + intros h U. apply USE in U; [auto|intros; discriminate].
      + intros h id C. apply (UA [_]). eauto.
      + intros h id [X|X]; [discriminate|]. apply (UA [_]). eauto.
      + intros h. rewrite Bd. cbn. split; [auto|intros [X|X]; [discriminate|auto]].
      + apply OUT; intros; discriminate.
      + nodeliver.
    - (* close *)
      constructor; cbn [cs_cache cs_tasks cs_started cs_cb cs_dead app]; auto.
      + rewrite allocs_app. cbn. now rewrite app_nil_r.
      + intros t T. inT T. destruct T as [T|[<-|[]]].
        * apply (MONO [LClose h]); [noalloc|auto].
        * cbn. apply (UA [_]). eauto.
      + intros h' U. apply USE in U; [auto|intros; discriminate].
      + intros h' id' C. apply filter_In in C as [C _]. apply (UA [_]). eauto.
      + intros h' id' [X|X]; [discriminate|]. apply (UA [_]). eauto.
      + intros h'. rewrite Bd. cbn. split; [auto|intros [X|X]; [discriminate|auto]].
      + apply OUT; intros; discriminate.
      + nodeliver.
    - (* die *)
      constructor; cbn [cs_cache cs_tasks cs_started cs_cb cs_dead app]; auto.
      + intros t T. apply (task_ok_mono s _ l [LDie h] t); [auto|noalloc|auto|].
        intros h' Hh D [X|X]; [|contradiction]. subst h'. rewrite H0 in Hh; [discriminate|auto].
      + intros h' U. apply USE in U; [auto|intros; discriminate].
      + intros h' id' C. apply (UA [_]). eauto.
      + intros h' id' [X|X]; [discriminate|]. apply (UA [_]). eauto.
      + intros h'. cbn. rewrite Bd. split; [intros [->|X]; auto|intros [X|X]; [injection X as ->; auto|auto]].
      + apply OUT; intros; discriminate.
      + nodeliver.
    - (* fail *)
      rewrite H in *. rewrite allocs_app in Ba. change (NoDup (allocs a ++ hnd e :: allocs b)) in Ba.
      assert (NU : ~ used l (hnd e)) by (apply (Bt (TAlloc e 0)); inlist; auto).
      assert (ND := NoDup_remove_2 _ _ _ Ba). apply NoDup_remove_1 in Ba.
      constructor; cbn [cs_cache cs_tasks cs_started cs_cb cs_dead app]; auto.
      + now rewrite allocs_app.
      + intros t T. apply (task_ok_mono s _ l [LFail e] t); [apply Bt; inlist; apply in_app_or in T; tauto|noalloc| |auto].
        intros h' S1 Hh. cbn. apply filter_In. split; auto. apply negb_true_iff, Nat.eqb_neq. intros ->.
        destruct t; cbn in Hh; try discriminate; apply Nat.eqb_eq in Hh.
        * apply ND. rewrite <- allocs_app. unfold allocs. apply in_flat_map. exists (TAlloc e0 retries). cbn. auto.
        * subst h. assert (task_ok s l (TRegister (hnd e) id)) as [X _] by (apply Bt; inlist; apply in_app_or in T; tauto). auto.
        * assert (task_ok s l (TCheck e0 m)) as [X _] by (apply Bt; inlist; apply in_app_or in T; tauto). destruct X as (mid & pre & -> & _ & X & _).
          apply NU. exists e0, (k_id K m). split; auto. apply in_or_app. right. now right.
      + intros h' U. apply USE in U; [|intros; discriminate]. apply filter_In. split; auto.
        apply negb_true_iff, Nat.eqb_neq. intros ->. auto.
      + intros h' id' C. apply (UA [_]). eauto.
      + intros h' id' [X|X]; [discriminate|]. apply (UA [_]). eauto.
      + intros h'. rewrite Bd. cbn. split; [auto|intros [X|X]; [discriminate|auto]].
      + apply OUT; intros; discriminate.
      + nodeliver.
    - (* alloc *)
      rewrite H in *. rewrite allocs_app in Ba. change (NoDup (allocs a ++ hnd e :: allocs b)) in Ba.
      assert (TE : task_ok s l (TAlloc e (S r))) by (apply Bt; inlist; auto). cbn in TE. destruct TE as (T1 & T2 & NU).
      assert (ND := NoDup_remove_2 _ _ _ Ba). apply NoDup_remove_1 in Ba.
      pose proof (attempt_cases (k_gen K) rnd (cs_cache s) e) as AC.
      pose proof (attempt_gen (k_gen K) rnd HR (cs_cache s) e Bg) as AG. rewrite H0 in AC, AG. cbn [snd] in AG.
      destruct AC as (AC1 & AC2 & AC3 & AC4). assert (CO : ca_out c = dict_set Z.eqb (ca_out (cs_cache s)) id e) by (rewrite AC4; reflexivity).
      constructor; cbn [cs_cache cs_tasks cs_started cs_cb cs_dead app]; auto.
      + rewrite CO. now apply znodup_set.
      + rewrite allocs_app. cbn. exact Ba.
      + intros t T. inT T.
        assert (OLD : In t (a ++ TAlloc e (S r) :: b) -> hnd e <> match t with TAlloc e0 _ => hnd e0 | _ => S (hnd e) end ->
           task_ok {| cs_cache := c; cs_tasks := a ++ TRegister (hnd e) id :: b; cs_started := cs_started s; cs_cb := cs_cb s; cs_dead := cs_dead s |} (LAlloc e id :: l) t).
        { intros IT NE. specialize (Bt _ IT). destruct t; cbn [task_ok cs_started cs_dead] in *.
          - destruct Bt as (X1 & X2 & X3). split; auto. split; auto. intros U. apply used_cons in U as [(e1 & i1 & Q1 & Q2)|U]; [|auto].
            injection Q1 as -> ->. congruence.
          - destruct Bt. split; [now apply (UA [_])|auto].
          - destruct Bt as (i & X1 & X2). exists i. cbn. auto.
          - now apply (found_app l [_]).
          - destruct Bt. split; [now apply (found_app l [_])|auto].
          - now apply (UA [_]).
          - auto. }
        assert (NEQ : In t a \/ In t b -> hnd e <> match t with TAlloc e0 _ => hnd e0 | _ => S (hnd e) end).
        { intros IT X. destruct t; try lia. apply ND. rewrite <- allocs_app. unfold allocs. apply in_flat_map. exists (TAlloc e0 retries).
          split; [inlist; auto|cbn; auto]. }
        destruct T as [T|[<-|T]].
        * apply OLD; [inlist; auto|auto].
        * cbn. split; [apply used_cons; left; exists e, id; auto|auto].
        * apply OLD; [inlist; auto|auto].
      + intros h U. apply used_cons in U as [(e1 & i1 & Q1 & Q2)|U]; [injection Q1 as -> ->; congruence|auto].
      + intros h' id' C. apply (UA [_]). eauto.
      + intros h' id' [X|X]; [discriminate|]. apply (UA [_]). eauto.
      + intros h'. rewrite Bd. cbn. split; [auto|intros [X|X]; [discriminate|auto]].
      + intros id' e'. rewrite CO, zget_set. destruct (id' =? id) eqn:Q.
        * intros X; injection X as <-. apply Z.eqb_eq in Q as ->. split; auto.
          split; [rewrite AC1; apply gen_at_range; [lia|auto]|]. split; [now left|].
          intros [X|X]; [discriminate|]. apply Bn in X. auto.
        * intros G. destruct (Bo _ _ G) as (O1 & O2 & O3 & O4). split; auto. split; auto. split; [now right|].
          intros [X|X]; [discriminate|auto].
      + nodeliver.
    - (* retry *)
      rewrite H in *. rewrite allocs_app in Ba. change (NoDup (allocs a ++ hnd e :: allocs b)) in Ba.
      assert (TE : task_ok s l (TAlloc e (S r))) by (apply Bt; inlist; auto). cbn in TE.
      pose proof (attempt_cases (k_gen K) rnd (cs_cache s) e) as AC.
      pose proof (attempt_gen (k_gen K) rnd HR (cs_cache s) e Bg) as AG. rewrite H0 in AC, AG. cbn [snd] in AG. destruct AC as (CO & _).
      constructor; cbn [cs_cache cs_tasks cs_started cs_cb cs_dead app]; auto.
      + now rewrite CO.
      + rewrite allocs_app. exact Ba.
      + intros t T. inT T. destruct T as [T|[<-|T]]; [apply (MONO []); [intros ? ? []|inlist; auto]|exact TE|apply (MONO []); [intros ? ? []|inlist; auto]].
      + now rewrite CO.
    - (* register *)
      rewrite H in *. rewrite allocs_app in Ba. cbn in Ba.
      assert (TE : task_ok s l (TRegister h id)) by (apply Bt; inlist; auto). cbn in TE.
      constructor; cbn [cs_cache cs_tasks cs_started cs_cb cs_dead app]; auto.
      + now rewrite allocs_app.
      + intros t T. apply (MONO []); [intros ? ? []|inlist; apply in_app_or in T; tauto].
      + intros h' id' [X|X]; [injection X as <- <-; tauto|eauto].
    - (* found *)
      rewrite H in *. rewrite allocs_app in Ba. cbn in Ba.
      assert (TE : task_ok s l (TRetrieve m)) by (apply Bt; inlist; auto). cbn in TE.
      constructor; cbn [cs_cache cs_tasks cs_started cs_cb cs_dead app]; auto.
      + now rewrite allocs_app.
      + intros t T. inT T. destruct T as [T|[<-|T]]; [apply (MONO [LFound e m]); [noalloc|inlist; auto]| |apply (MONO [LFound e m]); [noalloc|inlist; auto]].
        cbn. exists [], l. destruct (Bo _ _ H0) as (O1 & O2 & O3 & O4). auto.
      + intros h' U. apply USE in U; [auto|intros; discriminate].
      + intros h' id' C. apply (UA [_]). eauto.
      + intros h' id' [X|X]; [discriminate|]. apply (UA [_]). eauto.
      + intros h'. rewrite Bd. cbn. split; [auto|intros [X|X]; [discriminate|auto]].
      + apply OUT; intros; discriminate.
      + nodeliver.
    - (* unknown *)
      rewrite H in *. rewrite allocs_app in Ba. cbn in Ba.
      constructor; cbn [cs_cache cs_tasks cs_started cs_cb cs_dead app]; auto.
      + now rewrite allocs_app.
      + intros t T. apply (MONO [LReject m]); [noalloc|inlist; apply in_app_or in T; tauto].
      + intros h' U. apply USE in U; [auto|intros; discriminate].
      + intros h' id' C. apply (UA [_]). eauto.
      + intros h' id' [X|X]; [discriminate|]. apply (UA [_]). eauto.
      + intros h'. rewrite Bd. cbn. split; [auto|intros [X|X]; [discriminate|auto]].
      + apply OUT; intros; discriminate.
      + nodeliver.
    - (* dead *)
      rewrite H in *. rewrite allocs_app in Ba. cbn in Ba.
      constructor; cbn [cs_cache cs_tasks cs_started cs_cb cs_dead app]; auto.
      + rewrite !allocs_app. destruct (k_drop_dead K); exact Ba.
      + intros t T. inT T. destruct T as [T|[T|T]]; [apply (MONO [LReject m]); [noalloc|inlist; auto]| |apply (MONO [LReject m]); [noalloc|inlist; auto]].
        destruct (k_drop_dead K); [destruct T as [<-|[]]; exact Logic.I|now elim T].
      + intros h' U. apply USE in U; [auto|intros; discriminate].
      + intros h' id' C. apply (UA [_]). eauto.
      + intros h' id' [X|X]; [discriminate|]. apply (UA [_]). eauto.
      + intros h'. rewrite Bd. cbn. split; [auto|intros [X|X]; [discriminate|auto]].
      + apply OUT; intros; discriminate.
      + nodeliver.
    - (* live *)
      rewrite H in *. rewrite allocs_app in Ba. cbn in Ba.
      assert (TE : task_ok s l (TDeref e m)) by (apply Bt; inlist; auto). cbn in TE.
      constructor; cbn [cs_cache cs_tasks cs_started cs_cb cs_dead app]; auto.
      + now rewrite allocs_app.
      + intros t T. inT T. destruct T as [T|[<-|T]]; [apply (MONO []); [intros ? ? []|inlist; auto]|cbn; auto|apply (MONO []); [intros ? ? []|inlist; auto]].
    - (* deliver *)
      rewrite H in *. rewrite allocs_app in Ba. cbn in Ba.
      assert (TE : task_ok s l (TCheck e m)) by (apply Bt; inlist; auto). cbn in TE. destruct TE as [TE1 TE2].
      constructor; cbn [cs_cache cs_tasks cs_started cs_cb cs_dead app]; auto.
      + now rewrite allocs_app.
      + intros t T. apply (MONO [LDeliver e m]); [noalloc|inlist; apply in_app_or in T; tauto].
      + intros h' U. apply USE in U; [auto|intros; discriminate].
      + intros h' id' C. apply (UA [_]). eauto.
      + intros h' id' [X|X]; [discriminate|]. apply (UA [_]). eauto.
      + intros h'. rewrite Bd. cbn. split; [auto|intros [X|X]; [discriminate|auto]].
      + apply OUT; intros; discriminate.
      + intros [|y post] e' m' pre X; cbn in X; injection X as X1 X2; [|eapply Bv; eauto]. subst e' m' pre.
        split; auto. split; auto. now rewrite <- Bd.
    - (* reject *)
      rewrite H in *. rewrite allocs_app in Ba. cbn in Ba.
      constructor; cbn [cs_cache cs_tasks cs_started cs_cb cs_dead app]; auto.
      + now rewrite allocs_app.
      + intros t T. apply (MONO [LReject m]); [noalloc|inlist; apply in_app_or in T; tauto].
      + intros h' U. apply USE in U; [auto|intros; discriminate].
      + intros h' id' C. apply (UA [_]). eauto.
      + intros h' id' [X|X]; [discriminate|]. apply (UA [_]). eauto.
      + intros h'. rewrite Bd. cbn. split; [auto|intros [X|X]; [discriminate|auto]].
      + apply OUT; intros; discriminate.
      + nodeliver.
    - (* uncache *)
      rewrite H in *. rewrite allocs_app in Ba. cbn in Ba.
      assert (TE : task_ok s l (TUncache h id)) by (apply Bt; inlist; auto). cbn in TE.
      constructor; cbn [cs_cache cs_tasks cs_started cs_cb cs_dead app uncache ca_gen ca_out]; auto.
      + now apply znodup_del.
      + now rewrite allocs_app.
      + intros t T. apply (MONO [LUncached h id]); [noalloc|inlist; apply in_app_or in T; tauto].
      + intros h' U. apply USE in U; [auto|intros; discriminate].
      + intros h' id' C. apply (UA [_]). eauto.
      + intros h' id' [X|X]; [injection X as <- <-|]; apply (UA [_]); eauto.
      + intros h'. rewrite Bd. cbn. split; [auto|intros [X|X]; [discriminate|auto]].
      + intros id' e' G. destruct (Z.eq_dec id' id) as [->|NE]; [now rewrite zget_del_same in G by auto|].
        rewrite zget_del_other in G by auto. destruct (Bo _ _ G) as (O1 & O2 & O3 & O4). split; auto. split; auto.
        split; [now right|]. intros [X|X]; [injection X as _ X; congruence|auto].
      + nodeliver.
    - (* drop *)
      rewrite H in *. rewrite allocs_app in Ba. cbn in Ba.
      constructor; cbn [cs_cache cs_tasks cs_started cs_cb cs_dead app uncache ca_gen ca_out]; auto.
      + now apply znodup_del.
      + now rewrite allocs_app.
      + intros t T. apply (MONO [LDropped id]); [noalloc|inlist; apply in_app_or in T; tauto].
      + intros h' U. apply USE in U; [auto|intros; discriminate].
      + intros h' id' C. apply (UA [_]). eauto.
      + intros h' id' [X|X]; [discriminate|]. apply (UA [_]). eauto.
      + intros h'. rewrite Bd. cbn. split; [auto|intros [X|X]; [discriminate|auto]].
      + intros id' e' G. destruct (Z.eq_dec id' id) as [->|NE]; [now rewrite zget_del_same in G by auto|].
        rewrite zget_del_other in G by auto. destruct (Bo _ _ G) as (O1 & O2 & O3 & O4). split; auto. split; auto.
        split; [now right|]. intros [X|X]; [discriminate|auto].
      + nodeliver.
  Qed.
  Lemma base_run evs : base (fst (conc_run K rnd evs)) (snd (conc_run K rnd evs)).
  Proof.
    apply run_inv; [|apply base_step]. constructor; cbn; try (intros; contradiction).
    - apply gen_at_init. apply HR.
    - constructor.
    - constructor.
    - intros h (e & id & _ & []).
    - tauto.
    - intros; discriminate.
    - intros [|? ?] ? ? ? X; discriminate X.
  Qed.

  (** ** Without races, the entry of an outstanding request stays in the cache *)
  Definition rf_task l (t : task E M) : Prop :=
    match t with
    | TUncache _ id | TDrop id => forall e, ~ outstanding K l e id
    | TRegister h id => forall e, outstanding K l e id -> hnd e = h
    | TDeref e m => k_drop_dead K = true -> forall e', outstanding K l e' (k_id K m) -> e' = e
    | _ => True
    end.
  Record rf s l : Prop := mkRf {
    rf_out : forall e id, outstanding K l e id -> dict_get Z.eqb (ca_out (cs_cache s)) id = Some e;
    rf_tasks : forall t, In t (cs_tasks s) -> rf_task l t;
    rf_cb : forall h id, In (h, id) (cs_cb s) -> forall e, outstanding K l e id -> hnd e = h;
    rf_dead : forall e id, outstanding K l e id -> ~ In (hnd e) (cs_dead s)
  }.
  Lemma out_cons x l e id : (forall e id, x <> LAlloc e id) -> outstanding K (x :: l) e id ->
    outstanding K l e id /\ x <> LClose (hnd e) /\ x <> LDie (hnd e).
  Proof using. intros N [X|(A & B & C)]; [now apply N in X|auto]. Qed.
  Lemma rf_task_mono x l t : (forall e id, x <> LAlloc e id) -> rf_task l t -> rf_task (x :: l) t.
  Proof using.
    intros N. destruct t; cbn [rf_task]; auto.
    - intros R e O. apply (out_cons _ _ _ _ N) in O as (O & _). auto.
    - intros R D e' O. apply (out_cons _ _ _ _ N) in O as (O & _). auto.
    - intros R e O. apply (out_cons _ _ _ _ N) in O as (O & _). now apply R in O.
    - intros R e O. apply (out_cons _ _ _ _ N) in O as (O & _). now apply R in O.
  Qed.
  Lemma rf_step s l s' l' : base s l -> rf s l -> stepped s s' l' ->
    (forall e id, In (LAlloc e id) l' -> remembered K s id = false) -> rf s' (l' ++ l).
  Proof.
    intros B [Ro Rt Rc Rd] S Q.
    assert (GEN : forall x c ts st cb dd, (forall e id, x <> LAlloc e id) ->
      (forall id, dict_get Z.eqb (ca_out c) id = dict_get Z.eqb (ca_out (cs_cache s)) id \/ (forall e, ~ outstanding K (x :: l) e id)) ->
      (forall t, In t ts -> In t (cs_tasks s) \/ rf_task (x :: l) t) ->
      (forall h id, In (h, id) cb -> In (h, id) (cs_cb s) \/ (forall e, outstanding K (x :: l) e id -> hnd e = h)) ->
      (forall h, In h dd -> In h (cs_dead s) \/ x = LDie h) ->
      rf (mkConc c ts st cb dd) (x :: l)).
    { intros x c ts st cb dd N Hc Ht Hcb Hd. constructor; cbn [cs_cache cs_tasks cs_cb cs_dead].
      - intros e id O. destruct (Hc id) as [X|X]; [|now apply X in O]. rewrite X. apply out_cons in O as (O & _); auto.
      - intros t T. destruct (Ht t T) as [X|X]; auto. apply rf_task_mono; auto.
      - intros h id C e O. destruct (Hcb h id C) as [X|X]; [|auto]. apply out_cons in O as (O & _); auto. eapply Rc; eauto.
      - intros e id O D. pose proof (out_cons _ _ _ _ N O) as (O1 & _ & O3). destruct (Hd _ D) as [X|X]; [eapply Rd; eauto|auto]. }
    assert (GEN0 : forall c ts st cb dd,
      (forall id, dict_get Z.eqb (ca_out c) id = dict_get Z.eqb (ca_out (cs_cache s)) id) ->
      (forall t, In t ts -> In t (cs_tasks s) \/ rf_task l t) ->
      (forall h id, In (h, id) cb -> In (h, id) (cs_cb s) \/ (forall e, outstanding K l e id -> hnd e = h)) ->
      (forall h, In h dd -> In h (cs_dead s)) -> rf (mkConc c ts st cb dd) l).
    { intros c ts st cb dd Hc Ht Hcb Hd. constructor; cbn [cs_cache cs_tasks cs_cb cs_dead].
      - intros e id O. rewrite Hc. auto.
      - intros t T. destruct (Ht t T) as [X|X]; auto.
      - intros h id C e O. destruct (Hcb h id C) as [X|X]; [|auto]. eapply Rc; eauto.
      - intros e id O D. eapply Rd; eauto. }
    destruct S; cbn [app].
    - now constructor.
    - apply GEN0; auto. intros t T. apply in_app_or in T as [T|[<-|[]]]; cbn; auto.
    - apply GEN; auto; [intros; discriminate|]. intros t T. apply in_app_or in T as [T|T]; auto.
      destruct (k_parse K i); [destruct T as [<-|[]]; right; exact Logic.I|now elim T].
    - apply GEN; auto; [intros; discriminate| |].
      + intros t T. apply in_app_or in T as [T|[<-|[]]]; auto. right. cbn. intros e O.
        change (outstanding K (LClose h :: l) e id) in O. apply out_cons in O as (O & X & _); [|intros; discriminate].
        apply X. f_equal. symmetry. eapply Rc; eauto.
      + intros h' id' C. apply filter_In in C as [C _]. auto.
    - apply GEN; auto; [intros; discriminate|]. intros h' [->|D]; auto.
    - apply GEN; auto; [intros; discriminate|]. intros t T. rewrite H. apply in_app_or in T. rewrite in_app_iff. cbn. tauto.
    - (* alloc *)
      pose proof (attempt_cases (k_gen K) rnd (cs_cache s) e) as AC. rewrite H0 in AC. destruct AC as (_ & _ & AC & ->).
      specialize (Q e id (or_introl eq_refl)). unfold remembered in Q. apply orb_false_iff in Q as [Q1 Q2].
      assert (QC : forall h id', In (h, id') (cs_cb s) -> id' <> id).
      { intros h id' C ->. assert (existsb (fun p : nat * Z => snd p =? id) (cs_cb s) = true); [|congruence].
        apply existsb_exists. exists (h, id). cbn. rewrite Z.eqb_refl. auto. }
      assert (QT : forall t, In t (cs_tasks s) -> match t with TRegister _ i | TUncache _ i | TDrop i => i <> id
                    | TDeref _ m => k_drop_dead K = true -> k_id K m <> id | _ => True end).
      { intros t T. pose proof (existsb_none _ _ _ Q2 T) as X. cbn beta in X.
        destruct t; auto; try (intros ->; rewrite Z.eqb_refl in X; discriminate).
        intros D Y. rewrite D, Y, Z.eqb_refl in X. discriminate. }
      assert (NO : forall e', ~ outstanding K l e' id) by (intros e' O; apply Ro in O; congruence).
      assert (OC : forall e' id', outstanding K (LAlloc e id :: l) e' id' -> (e' = e /\ id' = id) \/ (id' <> id /\ outstanding K l e' id')).
      { intros e' id' [X|(_ & _ & X)]; [injection X as -> ->; auto|]. right. split; auto. intros ->. now apply NO in X. }
      constructor; cbn [cs_cache cs_tasks cs_cb cs_dead ca_out].
      + intros e' id' O. rewrite zget_set. apply OC in O as [[-> ->]|[NE O]]; [now rewrite Z.eqb_refl|].
        apply Z.eqb_neq in NE as ->. auto.
      + intros t T. apply in_app_or in T. assert (T' : t = TRegister (hnd e) id \/ In t (cs_tasks s)).
        { rewrite H, in_app_iff. cbn. cbn in T. intuition. }
        destruct T' as [->|T']; [cbn; intros e' O; apply OC in O as [[-> _]|[NE _]]; [auto|congruence]|].
        specialize (QT t T'). specialize (Rt t T'). destruct t; cbn [rf_task] in *; auto.
        * intros e' O. apply OC in O as [[-> X]|[NE O]]; [congruence|auto].
        * intros D e' O. apply OC in O as [[-> X]|[NE O]]; [now apply QT in D|auto].
        * intros e' O. apply OC in O as [[-> X]|[NE O]]; [congruence|]. now apply Rt in O.
        * intros e' O. apply OC in O as [[-> X]|[NE O]]; [congruence|]. now apply Rt in O.
      + intros h id' C e' O. apply OC in O as [[-> X]|[NE O]]; [now apply QC in C|]. eapply Rc; eauto.
      + intros e' id' O. apply OC in O as [[-> X]|[NE O]]; [|eauto].
        assert (T : task_ok s l (TAlloc e (S r))) by (apply (b_tasks _ _ B); rewrite H, in_app_iff; cbn; auto). cbn in T. tauto.
    - pose proof (attempt_cases (k_gen K) rnd (cs_cache s) e) as AC. rewrite H0 in AC. destruct AC as (AC & _).
      apply GEN0; auto; [now rewrite AC|]. intros t T. apply in_app_or in T. rewrite H, in_app_iff. cbn in *. destruct T as [T|[<-|T]]; cbn; auto.
    - assert (T0 : rf_task l (TRegister h id)) by (apply Rt; rewrite H, in_app_iff; cbn; auto). cbn in T0.
      apply GEN0; auto.
      + intros t T. rewrite H. apply in_app_or in T. rewrite in_app_iff. cbn. tauto.
      + intros h' id' [X|X]; auto. injection X as <- <-. auto.
    - apply GEN; auto; [intros; discriminate|]. intros t T. apply in_app_or in T. rewrite H, in_app_iff. cbn in T. destruct T as [T|[<-|T]]; cbn; auto.
      right. intros _ e' O. change (outstanding K (LFound e m :: l) e' (k_id K m)) in O. apply out_cons in O as (O & _); [|intros; discriminate].
      apply Ro in O. congruence.
    - apply GEN; auto; [intros; discriminate|]. intros t T. rewrite H. apply in_app_or in T. rewrite in_app_iff. cbn. tauto.
    - apply GEN; auto; [intros; discriminate|]. intros t T. apply in_app_or in T. rewrite in_app_iff in T. rewrite H, in_app_iff. cbn.
      destruct T as [T|[T|T]]; auto. destruct (k_drop_dead K) eqn:DD; [|now elim T]. destruct T as [<-|[]]. right. cbn. intros e' O.
      change (outstanding K (LReject m :: l) e' (k_id K m)) in O. apply out_cons in O as (O & _); [|intros; discriminate].
      assert (T0 : rf_task l (TDeref e m)) by (apply Rt; rewrite H, in_app_iff; cbn; auto). cbn in T0.
      pose proof (T0 DD _ O) as ->. apply Rd in O. auto.
    - apply GEN0; auto. intros t T. apply in_app_or in T. rewrite H, in_app_iff. cbn in *. destruct T as [T|[<-|T]]; cbn; auto.
    - apply GEN; auto; [intros; discriminate|]. intros t T. rewrite H. apply in_app_or in T. rewrite in_app_iff. cbn. tauto.
    - apply GEN; auto; [intros; discriminate|]. intros t T. rewrite H. apply in_app_or in T. rewrite in_app_iff. cbn. tauto.
    - assert (T0 : rf_task l (TUncache h id)) by (apply Rt; rewrite H, in_app_iff; cbn; auto). cbn in T0.
      apply GEN; auto; [intros; discriminate| |].
      + intros id'. destruct (Z.eq_dec id' id) as [->|NE].
        * right. intros e O. change (outstanding K (LUncached h id :: l) e id) in O. apply out_cons in O as (O & _); [now apply T0 in O|intros; discriminate].
        * left. cbn [uncache ca_out]. now apply zget_del_other.
      + intros t T. rewrite H. apply in_app_or in T. rewrite in_app_iff. cbn. tauto.
    - assert (T0 : rf_task l (TDrop id)) by (apply Rt; rewrite H, in_app_iff; cbn; auto). cbn in T0.
      apply GEN; auto; [intros; discriminate| |].
      + intros id'. destruct (Z.eq_dec id' id) as [->|NE].
        * right. intros e O. change (outstanding K (LDropped id :: l) e id) in O. apply out_cons in O as (O & _); [now apply T0 in O|intros; discriminate].
        * left. cbn [uncache ca_out]. now apply zget_del_other.
      + intros t T. rewrite H. apply in_app_or in T. rewrite in_app_iff. cbn. tauto.
  Qed.
  Lemma base0 : base (conc0 K rnd) [].
  Proof. exact (base_run []). Qed.
  Lemma rf_run evs : race_free K rnd (conc0 K rnd, []) evs -> rf (fst (conc_run K rnd evs)) (snd (conc_run K rnd evs)).
  Proof.
    unfold conc_run. enough (forall sl, base (fst sl) (snd sl) -> rf (fst sl) (snd sl) -> race_free K rnd sl evs ->
      rf (fst (fold_left (conc_next K rnd) evs sl)) (snd (fold_left (conc_next K rnd) evs sl))) as X.
    { intros F. apply X; auto; [apply base0|]. constructor; cbn; intros; contradiction. }
    induction evs as [|x evs IH]; intros [s l] B R F; [exact R|]. cbn [fold_left]. destruct F as [F1 F2]. cbn [fst] in F1.
    pose proof (step_stepped s x) as S. cbn [conc_next] in *. destruct (step s x) as [s' l']. cbn [fst snd] in *.
    apply IH; cbn [fst snd]; auto; [eapply base_step|eapply rf_step]; eauto.
  Qed.

  (** ** Where dead handles are left alone, there are no races *)
  Definition claim (t : task E M) : list (nat * Z) :=
    match t with TRegister h id | TUncache h id => [(h, id)] | _ => [] end.
  Definition claims s : list (nat * Z) := flat_map claim (cs_tasks s) ++ cs_cb s.
  Record v3inv s : Prop := mkV3inv {
    v_claims : forall h id, In (h, id) (claims s) -> exists e, dict_get Z.eqb (ca_out (cs_cache s)) id = Some e /\ hnd e = h;
    v_nodup : NoDup (map fst (claims s) ++ allocs (cs_tasks s));
    v_started : forall h, In h (map fst (claims s)) -> In h (cs_started s);
    v_drop : forall id, ~ In (TDrop id) (cs_tasks s)
  }.
  Lemma claims_same s s' : Permutation (claims s') (claims s) -> Permutation (allocs (cs_tasks s')) (allocs (cs_tasks s)) ->
    (forall id e, dict_get Z.eqb (ca_out (cs_cache s)) id = Some e -> dict_get Z.eqb (ca_out (cs_cache s')) id = Some e) ->
    (forall h, In h (cs_started s) -> In h (cs_started s')) -> (forall id, In (TDrop id) (cs_tasks s') -> In (TDrop id) (cs_tasks s)) ->
    v3inv s -> v3inv s'.
  Proof using.
    intros P1 P2 G S D [V1 V2 V3 V4]. constructor.
    - intros h id C. apply (Permutation_in _ P1) in C. apply V1 in C as (e & A & B). eauto.
    - eapply Permutation_NoDup; [|exact V2]. apply Permutation_sym. apply Permutation_app; [now apply Permutation_map|auto].
    - intros h I0. apply S, V3. eapply Permutation_in; [apply Permutation_map, P1|auto].
    - intros id T. apply D in T. eapply V4; eauto.
  Qed.
  Lemma claims_split s a t b : cs_tasks s = a ++ t :: b ->
    claims s = flat_map claim a ++ claim t ++ flat_map claim b ++ cs_cb s.
  Proof using. intros X. unfold claims. rewrite X, flat_map_app. cbn [flat_map]. now rewrite <- !app_assoc. Qed.
  Ltac drops Hs := let T := fresh in intros ? T; apply in_app_or in T; rewrite Hs, in_app_iff; cbn in *; intuition congruence.
  Lemma v3_step s l s' l' : k_drop_dead K = false -> base s l -> v3inv s -> stepped s s' l' ->
    v3inv s' /\ (forall e id, In (LAlloc e id) l' -> remembered K s id = false).
  Proof.
    intros DD B V S. pose proof V as [V1 V2 V3 V4].
    assert (NA : forall (x : log E I M) e id, (forall e id, x <> LAlloc e id) -> In (LAlloc e id) [x] -> remembered K s id = false)
      by (intros x e id N [X|[]]; now apply N in X).
    destruct S.
    - split; [auto|intros ? ? []].
    - split; [|intros ? ? []]. constructor; unfold claims; cbn [cs_tasks cs_cb cs_cache cs_started]; rewrite ?flat_map_app; cbn [flat_map claim]; rewrite ?app_nil_r.
      + exact V1.
      + rewrite allocs_app. cbn. rewrite app_assoc. apply NoDup_Add with (a := hnd e) (l := map fst (flat_map claim (cs_tasks s) ++ cs_cb s) ++ allocs (cs_tasks s)).
        * rewrite <- (app_nil_r (_ ++ _)) at 1. apply Add_app.
        * split; [exact V2|]. intros X. apply in_app_or in X as [X|X]; [now apply V3 in X|].
          unfold allocs in X. apply in_flat_map in X as (t & T1 & T2). destruct t; try now elim T2. destruct T2 as [T2|[]].
          apply (b_tasks _ _ B) in T1. cbn in T1. destruct T1 as [T1 _]. congruence.
      + intros h X. right. now apply V3.
      + intros id X. apply in_app_or in X as [X|[X|[]]]; [now apply V4 in X|discriminate].
    - split; [|intros; eapply NA; eauto; intros; discriminate].
      apply (claims_same s); auto; unfold claims; cbn [cs_tasks cs_cb].
      + rewrite flat_map_app. destruct (k_parse K i); cbn; now rewrite app_nil_r.
      + rewrite allocs_app. destruct (k_parse K i); cbn; now rewrite app_nil_r.
      + intros id X. apply in_app_or in X as [X|X]; auto. destruct (k_parse K i); [destruct X as [X|[]]; discriminate|now elim X].
    - (* close *)
      split; [|intros; eapply NA; eauto; intros; discriminate].
      assert (ND : NoDup (map fst (cs_cb s))).
      { unfold claims in V2. rewrite map_app, <- app_assoc in V2. apply nodup_app_r in V2. now apply nodup_app_l in V2. }
      assert (P : Permutation (cs_cb s) ((h, id) :: filter (fun p => negb (Nat.eqb (fst p) h)) (cs_cb s))).
      { clear - H ND. induction (cs_cb s) as [|[h1 i1] cb IH]; [now elim H|]. cbn in ND. inversion ND; subst. cbn [filter fst].
        destruct H as [X|X].
        - injection X as -> ->. rewrite Nat.eqb_refl. cbn. apply perm_skip.
          replace (filter _ cb) with cb; [reflexivity|]. symmetry. clear - H2. induction cb as [|[h2 i2] cb IH]; [reflexivity|]. cbn in *.
          destruct (Nat.eqb h2 h) eqn:Q; [apply Nat.eqb_eq in Q as ->; elim H2; auto|]. cbn. f_equal. apply IH. tauto.
        - destruct (Nat.eqb h1 h) eqn:Q; [apply Nat.eqb_eq in Q as ->; elim H2; now apply (in_map fst) in X|]. cbn.
          etransitivity; [apply perm_skip, IH; auto|apply perm_swap]. }
      apply (claims_same s); auto; unfold claims; cbn [cs_tasks cs_cb].
      + rewrite flat_map_app. cbn. rewrite <- app_assoc. apply Permutation_app_head. cbn. now apply Permutation_sym.
      + rewrite allocs_app. cbn. now rewrite app_nil_r.
      + intros id' X. apply in_app_or in X as [X|[X|[]]]; auto. discriminate.
    - split; [|intros; eapply NA; eauto; intros; discriminate]. apply (claims_same s); auto.
    - (* fail *)
      split; [|intros; eapply NA; eauto; intros; discriminate].
      pose proof (claims_split _ _ _ _ H) as CS. cbn [claim] in CS. cbn [app] in CS.
      assert (CS' : claims (mkConc (cs_cache s) (a ++ b) (filter (fun h => negb (Nat.eqb h (hnd e))) (cs_started s)) (cs_cb s) (cs_dead s)) = claims s).
      { rewrite CS. unfold claims. cbn [cs_tasks cs_cb]. now rewrite flat_map_app, <- app_assoc. }
      rewrite H, allocs_app in V2. change (NoDup (map fst (claims s) ++ allocs a ++ hnd e :: allocs b)) in V2.
      rewrite app_assoc in V2. pose proof (NoDup_remove_2 _ _ _ V2) as N2. apply NoDup_remove_1 in V2. rewrite <- app_assoc in V2, N2.
      constructor; rewrite ?CS'; cbn [cs_tasks cs_cache cs_started]; auto.
      + now rewrite allocs_app.
      + intros h X. apply filter_In. split; [auto|]. apply negb_true_iff, Nat.eqb_neq. intros ->. apply N2, in_or_app. auto.
      + intros id X. apply (V4 id). rewrite H. apply in_app_or in X. rewrite in_app_iff. cbn. tauto.
    - (* alloc *)
      pose proof (attempt_cases (k_gen K) rnd (cs_cache s) e) as AC. rewrite H0 in AC. destruct AC as (_ & _ & AC & ->).
      pose proof (claims_split _ _ _ _ H) as CS. cbn [claim] in CS. cbn [app] in CS.
      split.
      + set (s' := mkConc _ _ _ _ _).
        assert (CS' : Permutation (claims s') ((hnd e, id) :: claims s)).
        { rewrite CS. rewrite (claims_split s' a (TRegister (hnd e) id) b eq_refl). cbn [claim cs_cb s']. apply Permutation_sym, Permutation_middle. }
        rewrite H, allocs_app in V2. change (NoDup (map fst (claims s) ++ allocs a ++ hnd e :: allocs b)) in V2.
        constructor.
        * intros h id' X. apply (Permutation_in _ CS') in X as [X|X].
          -- injection X as <- <-. exists e. cbn [s' cs_cache ca_out]. now rewrite zget_set_same.
          -- apply V1 in X as (e' & X1 & X2). exists e'. split; auto. cbn [s' cs_cache ca_out]. rewrite zget_set_other; [auto|congruence].
        * eapply Permutation_NoDup; [|exact V2]. apply Permutation_sym. etransitivity.
          { apply Permutation_app_tail. apply Permutation_map, CS'. }
          cbn [map fst s' cs_tasks]. rewrite allocs_app. cbn. rewrite app_assoc. rewrite (app_assoc (map fst (claims s))). apply Permutation_middle.
        * intros h X. assert (X' : In h (map fst ((hnd e, id) :: claims s))) by (eapply Permutation_in; [apply Permutation_map, CS'|auto]).
          cbn in X'. destruct X' as [<-|X']; [|now apply V3].
          assert (T : task_ok s l (TAlloc e (S r))) by (apply (b_tasks _ _ B); rewrite H, in_app_iff; cbn; auto). cbn in T. tauto.
        * intros id' X. apply (V4 id'). rewrite H. cbn [s' cs_tasks] in X. apply in_app_or in X. rewrite in_app_iff. cbn in *. intuition discriminate.
      + intros e' id' [X|[]]. injection X as <- <-. unfold remembered. apply orb_false_iff. split.
        * destruct (existsb _ _) eqn:X; auto. apply existsb_exists in X as ([h i] & X1 & X2). cbn in X2. apply Z.eqb_eq in X2 as ->.
          destruct (V1 h id) as (e1 & X3 & _); [apply in_or_app; auto|]. congruence.
        * destruct (existsb _ _) eqn:X; auto. apply existsb_exists in X as (t & X1 & X2).
          destruct t; try discriminate.
          -- apply Z.eqb_eq in X2 as ->. destruct (V1 h id) as (e1 & X3 & _); [|congruence].
             apply in_or_app. left. apply in_flat_map. eexists. split; [exact X1|]. cbn. auto.
          -- rewrite DD in X2. discriminate.
          -- apply Z.eqb_eq in X2 as ->. destruct (V1 h id) as (e1 & X3 & _); [|congruence].
             apply in_or_app. left. apply in_flat_map. eexists. split; [exact X1|]. cbn. auto.
          -- now apply V4 in X1.
    - split; [|intros ? ? []]. pose proof (attempt_cases (k_gen K) rnd (cs_cache s) e) as AC. rewrite H0 in AC. destruct AC as (AC & _).
      apply (claims_same s); auto; cbn [cs_tasks cs_cache].
      + rewrite (claims_split s _ _ _ H). unfold claims. cbn [cs_tasks cs_cb]. rewrite flat_map_app. cbn. now rewrite <- app_assoc.
      + rewrite H, !allocs_app. reflexivity.
      + now rewrite AC.
      + drops H.
    - split; [|intros ? ? []]. apply (claims_same s); auto; cbn [cs_tasks cs_cache].
      + rewrite (claims_split s _ _ _ H). unfold claims. cbn [cs_tasks cs_cb claim]. rewrite flat_map_app, <- app_assoc. cbn [app].
        apply Permutation_app_head. apply Permutation_sym, Permutation_middle.
      + rewrite H, !allocs_app. reflexivity.
      + drops H.
    - split; [|intros; eapply NA; eauto; intros; discriminate]. apply (claims_same s); auto; cbn [cs_tasks cs_cache].
      + rewrite (claims_split s _ _ _ H). unfold claims. cbn [cs_tasks cs_cb]. rewrite flat_map_app. cbn. now rewrite <- app_assoc.
      + rewrite H, !allocs_app. reflexivity.
      + drops H.
    - split; [|intros; eapply NA; eauto; intros; discriminate]. apply (claims_same s); auto; cbn [cs_tasks cs_cache].
      + rewrite (claims_split s _ _ _ H). unfold claims. cbn [cs_tasks cs_cb]. rewrite flat_map_app. cbn. now rewrite <- app_assoc.
      + rewrite H, !allocs_app. reflexivity.
      + drops H.
    - split; [|intros; eapply NA; eauto; intros; discriminate]. rewrite DD. apply (claims_same s); auto; cbn [cs_tasks cs_cache app].
      + rewrite (claims_split s _ _ _ H). unfold claims. cbn [cs_tasks cs_cb]. rewrite flat_map_app. cbn. now rewrite <- app_assoc.
      + rewrite H, !allocs_app. reflexivity.
      + drops H.
    - split; [|intros ? ? []]. apply (claims_same s); auto; cbn [cs_tasks cs_cache].
      + rewrite (claims_split s _ _ _ H). unfold claims. cbn [cs_tasks cs_cb]. rewrite flat_map_app. cbn. now rewrite <- app_assoc.
      + rewrite H, !allocs_app. reflexivity.
      + drops H.
    - split; [|intros; eapply NA; eauto; intros; discriminate]. apply (claims_same s); auto; cbn [cs_tasks cs_cache].
      + rewrite (claims_split s _ _ _ H). unfold claims. cbn [cs_tasks cs_cb]. rewrite flat_map_app. cbn. now rewrite <- app_assoc.
      + rewrite H, !allocs_app. reflexivity.
      + drops H.
    - split; [|intros; eapply NA; eauto; intros; discriminate]. apply (claims_same s); auto; cbn [cs_tasks cs_cache].
      + rewrite (claims_split s _ _ _ H). unfold claims. cbn [cs_tasks cs_cb]. rewrite flat_map_app. cbn. now rewrite <- app_assoc.
      + rewrite H, !allocs_app. reflexivity.
      + drops H.
    - (* uncache *)
      split; [|intros; eapply NA; eauto; intros; discriminate].
      pose proof (claims_split _ _ _ _ H) as CS. cbn [claim] in CS. cbn [app] in CS.
      set (s' := mkConc _ _ _ _ _).
      assert (CS' : Permutation (claims s) ((h, id) :: claims s')).
      { rewrite CS. unfold claims. cbn [s' cs_tasks cs_cb]. rewrite flat_map_app, <- app_assoc. apply Permutation_sym, Permutation_middle. }
      assert (AL : allocs (cs_tasks s') = allocs (cs_tasks s)) by (rewrite H; cbn [s' cs_tasks]; rewrite !allocs_app; reflexivity).
      assert (V2' : NoDup (h :: map fst (claims s') ++ allocs (cs_tasks s))).
      { eapply Permutation_NoDup; [|exact V2]. change (h :: map fst (claims s') ++ allocs (cs_tasks s)) with (map fst ((h, id) :: claims s') ++ allocs (cs_tasks s)).
        apply Permutation_app_tail. now apply Permutation_map. }
      inversion V2' as [|? ? N1 N2]; subst.
      constructor.
      + intros h' id' X. assert (X' : In (h', id') (claims s)) by (eapply Permutation_in; [apply Permutation_sym, CS'|now right]).
        apply V1 in X' as (e' & X1 & X2). exists e'. split; auto. cbn [s' cs_cache uncache ca_out].
        rewrite zget_del_other; auto. intros ->.
        destruct (V1 h id) as (e1 & X3 & X4); [eapply Permutation_in; [apply Permutation_sym, CS'|now left]|].
        assert (e1 = e') by congruence. subst e1. apply N1, in_or_app. left. apply (in_map fst) in X. cbn in X. rewrite <- X4, X2. exact X.
      + now rewrite AL.
      + intros h' X. cbn [s' cs_started]. apply V3. apply (Permutation_in _ (Permutation_sym (Permutation_map fst CS'))). now right.
      + intros id' X. apply (V4 id'). rewrite H. cbn [s' cs_tasks] in X. apply in_app_or in X. rewrite in_app_iff. cbn. tauto.
    - exfalso. apply (V4 id). rewrite H, in_app_iff. cbn. auto.
  Qed.
  Lemma v3_race_free evs : k_drop_dead K = false -> race_free K rnd (conc0 K rnd, []) evs.
  Proof.
    intros DD. enough (forall sl, base (fst sl) (snd sl) -> v3inv (fst sl) -> race_free K rnd sl evs) as X.
    { apply X; [apply base0|]. constructor; cbn; try (intros; contradiction); auto. constructor. }
    induction evs as [|x evs IH]; intros [s l] B V; [exact Logic.I|]. cbn [race_free].
    pose proof (step_stepped s x) as S. cbn [fst snd conc_next] in *. destruct (step s x) as [s' l']. cbn [fst snd] in *.
    destruct (v3_step _ _ _ _ DD B V S) as [V' R]. split; [exact R|]. apply IH; cbn [fst snd]; auto. eapply base_step; eauto.
  Qed.
End P.
