(** PrfLeakC.v -- messages that are closed while they are being sent. *)
From Verif Require Export PrfProcConc SpecLeak.

Section LeakC.
  Context (rnd : nat -> Z) (HR : draws_ok gen_v3 rnd).
  Notation step := (lk_step rnd). Notation run := (lk_run rnd).
  Notation stepped3 := (@stepped entry3 v3msg (v3msg * scopedpdu) K3 rnd).
  Notation tab c := (ca_out (cs_cache c)).
  (** Every entry has a thread or a callback that can remove it. *)
  Definition conv (c : conc3) : Prop := forall id e, dict_get Z.eqb (tab c) id = Some e -> In (e3_handle e, id) (claims c).
  Lemma attempt_out (c : cache_st entry3) e o c' : cache_attempt gen_v3 rnd c e = (o, c') -> match o with Some id => dict_get Z.eqb (ca_out c) id = None /\ ca_out c' = dict_set Z.eqb (ca_out c) id e | None => ca_out c' = ca_out c end.
  Proof.
    unfold cache_attempt. destruct (numgen_next (ca_gen c)) as [i g]. destruct (i =? 0); [intros H; injection H as <- <-; reflexivity|].
    unfold dict_mem. destruct (dict_get Z.eqb (ca_out c) i) eqn:G; intros H; injection H as <- <-; [reflexivity|]. split; [exact G|reflexivity].
  Qed.
  Lemma claims_in (c : conc3) h id : In (h, id) (claims c) <-> (exists t, In t (cs_tasks c) /\ In (h, id) (claim t)) \/ In (h, id) (cs_cb c).
  Proof. unfold claims. rewrite in_app_iff, in_flat_map. reflexivity. Qed.
  Lemma conv_step c c' l : NoDup (keys (tab c)) -> v3inv K3 c -> conv c -> stepped3 c c' l -> conv c'.
  Proof.
    intros ND V CO ST.
    assert (SAME : forall id e, tab c' = tab c -> (forall h i, In (h, i) (claims c) -> In (h, i) (claims c')) -> dict_get Z.eqb (tab c') id = Some e -> In (e3_handle e, id) (claims c')).
    { intros id e T CL G. rewrite T in G. apply CL, CO, G. }
    assert (TASKS : forall a t b new, cs_tasks c = a ++ t :: b -> cs_cb c' = cs_cb c -> cs_tasks c' = a ++ new ++ b -> claim t = [] ->
      forall h i, In (h, i) (claims c) -> In (h, i) (claims c')).
    { intros a t b new E1 E2 E3 CT h i IN. apply claims_in in IN as [(t' & T & CL)|CB]; apply claims_in; [|right; now rewrite E2]. left. exists t'. split; [|exact CL].
      rewrite E1 in T. rewrite E3. apply in_app_or in T as [T|[<-|T]]; [apply in_or_app; auto| |apply in_or_app; right; apply in_or_app; auto]. rewrite CT in CL. destruct CL. }
    assert (CUT : forall a h id b, cs_tasks c = a ++ TUncache h id :: b -> forall i e, dict_get Z.eqb (ca_out (uncache (cs_cache c) id)) i = Some e -> forall c2, cs_tasks c2 = a ++ b -> cs_cb c2 = cs_cb c -> In (e3_handle e, i) (claims c2)).
    { intros a h id b T i e G c2 T2 C2. cbn [uncache ca_out] in G. destruct (Z.eq_dec i id) as [->|NE]; [rewrite zget_del_same in G by exact ND; discriminate G|].
      rewrite zget_del_other in G by auto. apply CO in G. apply claims_in in G as [(t & IN & CL)|CB]; apply claims_in; [|right; now rewrite C2]. left. exists t. split; [|exact CL].
      rewrite T in IN. rewrite T2. apply in_app_or in IN as [IN|[<-|IN]]; [apply in_or_app; auto| |apply in_or_app; auto]. destruct CL as [K|[]]. injection K as _ K. congruence. }
    inversion ST; subst; intros k0 en G.
    - exact (CO _ _ G).
    - apply SAME; [reflexivity| |exact G]. intros h j IN. apply claims_in in IN as [(t & T & CL)|CB]; apply claims_in; [left; exists t; split; [cbn; apply in_or_app; auto|exact CL]|right; exact CB].
    - apply SAME; [reflexivity| |exact G]. intros h j IN. apply claims_in in IN as [(t & T & CL)|CB]; apply claims_in; [left; exists t; split; [cbn; apply in_or_app; auto|exact CL]|right; exact CB].
    - apply SAME; [reflexivity| |exact G]. intros h' j IN. apply claims_in in IN as [(t & T & CL)|CB]; apply claims_in.
      + left. exists t. split; [cbn; apply in_or_app; auto|exact CL].
      + cbn [cs_tasks cs_cb]. destruct (Nat.eq_dec h' h) as [->|NE].
        * left. exists (TUncache h j). split; [|now left]. apply in_or_app. right. left. f_equal.
          assert (U : forall (l : list (nat * Z)) k x y, NoDup (map fst l) -> In (k, x) l -> In (k, y) l -> x = y).
          { clear. induction l as [|[k' z] l IH]; intros k x y N A B; [destruct A|]. cbn in N. inversion N; subst. destruct A as [A|A], B as [B|B].
            - congruence.
            - injection A as -> ->. elim H1. apply (in_map fst) in B. exact B.
            - injection B as -> ->. elim H1. apply (in_map fst) in A. exact A.
            - eapply IH; eauto. }
          pose proof (v_nodup _ _ V) as NC. apply nodup_app_l in NC. unfold claims in NC. rewrite map_app in NC. apply nodup_app_r in NC. eapply U; [exact NC|exact H|exact CB].
        * right. apply filter_In. split; [exact CB|]. cbn. destruct (Nat.eqb_spec h' h); [contradiction|reflexivity].
    - apply SAME; [reflexivity| |exact G]. auto.
    - eapply SAME; [reflexivity| |exact G]. eapply (TASKS a _ b []); [exact H|reflexivity|reflexivity|reflexivity].
    - apply attempt_out in H0 as [_ O]. cbn [cs_cache] in G. rewrite O in G. cbn [cs_cache] in G. destruct (Z.eq_dec k0 id) as [->|NE].
      + rewrite zget_set_same in G. injection G as <-. apply claims_in. left. exists (TRegister (e3_handle e) id). split; [cbn; apply in_or_app; right; now left|now left].
      + rewrite zget_set_other in G by auto. apply CO in G. revert G. eapply (TASKS a _ b [_]); [exact H|reflexivity|reflexivity|reflexivity].
    - apply attempt_out in H0. eapply SAME; [exact H0| |exact G]. eapply (TASKS a _ b [_]); [exact H|reflexivity|reflexivity|reflexivity].
    - apply SAME; [reflexivity| |exact G]. intros h' j IN. apply claims_in in IN as [(t & T & CL)|CB]; apply claims_in; [|right; right; exact CB]. rewrite H in T.
      cbn [cs_tasks cs_cb]. apply in_app_or in T as [T|[<-|T]]; [left; exists t; split; [apply in_or_app; auto|exact CL]| |left; exists t; split; [apply in_or_app; auto|exact CL]].
      right. left. destruct CL as [CL|[]]. exact CL.
    - eapply SAME; [reflexivity| |exact G]. eapply (TASKS a _ b [_]); [exact H|reflexivity|reflexivity|reflexivity].
    - eapply SAME; [reflexivity| |exact G]. eapply (TASKS a _ b []); [exact H|reflexivity|reflexivity|reflexivity].
    - eapply SAME; [reflexivity| |exact G]. eapply (TASKS a _ b); [exact H|reflexivity|reflexivity|reflexivity].
    - eapply SAME; [reflexivity| |exact G]. eapply (TASKS a _ b [_]); [exact H|reflexivity|reflexivity|reflexivity].
    - eapply SAME; [reflexivity| |exact G]. eapply (TASKS a _ b []); [exact H|reflexivity|reflexivity|reflexivity].
    - eapply SAME; [reflexivity| |exact G]. eapply (TASKS a _ b []); [exact H|reflexivity|reflexivity|reflexivity].
    - eapply CUT; [exact H|exact G|reflexivity|reflexivity].
    - destruct (v_drop _ _ V id). rewrite H. apply in_or_app. right. now left.
  Qed.
  (** ** In every history *)
  Definition sound (c : conc3) : Prop := (exists l, base K3 c l) /\ v3inv K3 c /\ conv c.
  Lemma sound_step c x : sound c -> sound (fst (conc_step K3 rnd c x)).
  Proof.
    intros ((l & B) & V & CO). pose proof (step_stepped K3 rnd c x) as ST. split; [|split].
    - eexists. eapply (base_step K3 rnd); [cbn; lia|exact HR|exact B|exact ST].
    - eapply (v3_step K3 rnd); [reflexivity|exact B|exact V|exact ST].
    - eapply conv_step; [apply (b_keys _ _ _ B)|exact V|exact CO|exact ST].
  Qed.
  Lemma sound_new : sound (conc0 K3 rnd).
  Proof.
    split; [exists []; apply base0; [cbn; lia|exact HR]|]. split; [|intros id e G; discriminate G].
    constructor; [intros h id []|constructor|intros h []|intros id []].
  Qed.
  Lemma run_snoc evs x : run (evs ++ [x]) = step (run evs) x.
  Proof. unfold lk_run. now rewrite fold_left_app. Qed.
  Lemma sound_run evs : sound (lk_proc (run evs)).
  Proof.
    induction evs as [|x evs IH] using rev_ind; [exact sound_new|]. rewrite run_snoc.
    destruct x as [h|e|n|m|h|h|h]; cbn [lk_step]; try (apply sound_step, IH).
    - destruct (mem _ _); exact IH.
    - destruct (mem _ _); [apply sound_step, IH|exact IH].
    - destruct (mem _ _); exact IH.
    - destruct (mem _ _); [apply sound_step, IH|exact IH].
    - destruct (_ || _); [exact IH|apply sound_step, IH].
  Qed.
  (** ** Messages that are closed after they were sent *)
  (** A thread sends [h], or its callback is there. *)
  Definition busy (c : conc3) (h : nat) : Prop :=
    (exists e n, In (TAlloc e n) (cs_tasks c) /\ e3_handle e = h) \/ (exists id, In (TRegister h id) (cs_tasks c)) \/ exists id, In (h, id) (cs_cb c).
  Lemma busy_step c c' l h : stepped3 c c' l -> busy c' h -> busy c h \/ (exists e n, cs_tasks c' = cs_tasks c ++ [TAlloc e n] /\ e3_handle e = h).
  Proof.
    intros ST B. inversion ST; subst; try (left; exact B).
    - destruct B as [(e' & n & T & Q)|[(id & T)|(id & T)]]; cbn in T.
      + apply in_app_or in T as [T|[T|[]]]; [left; left; exists e', n; auto|]. injection T as <- <-. right. exists e, 10%nat. auto.
      + apply in_app_or in T as [T|[T|[]]]; [left; right; left; eauto|discriminate T].
      + left. right. right. exists id. exact T.
    - left. destruct B as [(e' & n & T & Q)|[(id & T)|(id & T)]]; cbn in T.
      + apply in_app_or in T as [T|T]; [left; exists e', n; auto|]. destruct (v3_parse i) as [m|]; [destruct T as [T|[]]; discriminate T|destruct T].
      + apply in_app_or in T as [T|T]; [right; left; eauto|]. destruct (v3_parse i) as [m|]; [destruct T as [T|[]]; discriminate T|destruct T].
      + right. right. exists id. exact T.
    - left. destruct B as [(e' & n & T & Q)|[(i & T)|(i & T)]]; cbn in T.
      + apply in_app_or in T as [T|[T|[]]]; [left; exists e', n; auto|discriminate T].
      + apply in_app_or in T as [T|[T|[]]]; [right; left; eauto|discriminate T].
      + apply filter_In in T as [T _]. right. right. eauto.
    - left. destruct B as [(e' & n & T & Q)|[(i & T)|(i & T)]]; cbn in T.
      + left. exists e', n. split; [rewrite H; apply in_app_or in T as [T|T]; apply in_or_app; [auto|right; now right]|exact Q].
      + right. left. exists i. rewrite H. apply in_app_or in T as [T|T]; apply in_or_app; [auto|right; now right].
      + right. right. eauto.
    - left. destruct B as [(e' & n & T & Q)|[(i & T)|(i & T)]]; cbn in T.
      + left. apply in_app_or in T as [T|[T|T]]; [|discriminate T|]; exists e', n; (split; [|exact Q]); rewrite H; apply in_or_app; [auto|right; now right].
      + apply in_app_or in T as [T|[T|T]].
        * right. left. exists i. rewrite H. apply in_or_app. auto.
        * injection T as <- <-. left. exists e, (Datatypes.S r). split; [rewrite H; apply in_or_app; right; now left|reflexivity].
        * right. left. exists i. rewrite H. apply in_or_app. right. now right.
      + right. right. eauto.
    - left. destruct B as [(e' & n & T & Q)|[(i & T)|(i & T)]]; cbn in T.
      + left. apply in_app_or in T as [T|[T|T]].
        * exists e', n. split; [rewrite H; apply in_or_app; auto|exact Q].
        * injection T as <- <-. exists e, (Datatypes.S r). split; [rewrite H; apply in_or_app; right; now left|exact Q].
        * exists e', n. split; [rewrite H; apply in_or_app; right; now right|exact Q].
      + apply in_app_or in T as [T|[T|T]]; [|discriminate T|]; right; left; exists i; rewrite H; apply in_or_app; [auto|right; now right].
      + right. right. eauto.
    - left. destruct B as [(e' & n & T & Q)|[(i & T)|(i & T)]]; cbn in T.
      + left. exists e', n. split; [rewrite H; apply in_app_or in T as [T|T]; apply in_or_app; [auto|right; now right]|exact Q].
      + right. left. exists i. rewrite H. apply in_app_or in T as [T|T]; apply in_or_app; [auto|right; now right].
      + destruct T as [T|T]; [injection T as -> ->; right; left; exists i; rewrite H; apply in_or_app; right; now left|right; right; eauto].
    - left. destruct B as [(e' & n & T & Q)|[(i & T)|(i & T)]]; cbn in T; [| |right; right; eauto].
      + left. exists e', n. split; [rewrite H; apply in_app_or in T as [T|[T|T]]; [apply in_or_app; auto|discriminate T|apply in_or_app; right; now right]|exact Q].
      + right. left. exists i. rewrite H. apply in_app_or in T as [T|[T|T]]; [apply in_or_app; auto|discriminate T|apply in_or_app; right; now right].
    - left. destruct B as [(e' & n & T & Q)|[(i & T)|(i & T)]]; cbn in T; [| |right; right; eauto].
      + left. exists e', n. split; [rewrite H; apply in_app_or in T as [T|T]; apply in_or_app; [auto|right; now right]|exact Q].
      + right. left. exists i. rewrite H. apply in_app_or in T as [T|T]; apply in_or_app; [auto|right; now right].
    - left. destruct B as [(e' & n & T & Q)|[(i & T)|(i & T)]]; cbn in T; [| |right; right; eauto].
      + left. exists e', n. split; [rewrite H; apply in_app_or in T as [T|T]; apply in_or_app; [auto|right; now right]|exact Q].
      + right. left. exists i. rewrite H. apply in_app_or in T as [T|T]; apply in_or_app; [auto|right; now right].
    - left. destruct B as [(e' & n & T & Q)|[(i & T)|(i & T)]]; cbn in T; [| |right; right; eauto].
      + left. exists e', n. split; [rewrite H; apply in_app_or in T as [T|[T|T]]; [apply in_or_app; auto|discriminate T|apply in_or_app; right; now right]|exact Q].
      + right. left. exists i. rewrite H. apply in_app_or in T as [T|[T|T]]; [apply in_or_app; auto|discriminate T|apply in_or_app; right; now right].
    - left. destruct B as [(e' & n & T & Q)|[(i & T)|(i & T)]]; cbn in T; [| |right; right; eauto].
      + left. exists e', n. split; [rewrite H; apply in_app_or in T as [T|T]; apply in_or_app; [auto|right; now right]|exact Q].
      + right. left. exists i. rewrite H. apply in_app_or in T as [T|T]; apply in_or_app; [auto|right; now right].
    - left. destruct B as [(e' & n & T & Q)|[(i & T)|(i & T)]]; cbn in T; [| |right; right; eauto].
      + left. exists e', n. split; [rewrite H; apply in_app_or in T as [T|T]; apply in_or_app; [auto|right; now right]|exact Q].
      + right. left. exists i. rewrite H. apply in_app_or in T as [T|T]; apply in_or_app; [auto|right; now right].
    - left. destruct B as [(e' & n & T & Q)|[(i & T)|(i & T)]]; cbn in T; [| |right; right; eauto].
      + left. exists e', n. split; [rewrite H; apply in_app_or in T as [T|T]; apply in_or_app; [auto|right; now right]|exact Q].
      + right. left. exists i. rewrite H. apply in_app_or in T as [T|T]; apply in_or_app; [auto|right; now right].
    - left. destruct B as [(e' & n & T & Q)|[(i & T)|(i & T)]]; cbn in T; [| |right; right; eauto].
      + left. exists e', n. split; [rewrite H; apply in_app_or in T as [T|T]; apply in_or_app; [auto|right; now right]|exact Q].
      + right. left. exists i. rewrite H. apply in_app_or in T as [T|T]; apply in_or_app; [auto|right; now right].
  Qed.
  Lemma step_no_start c x h : (forall e, x = EStart e -> e3_handle e <> h) -> busy (fst (conc_step K3 rnd c x)) h -> busy c h.
  Proof.
    intros N B. destruct (busy_step _ _ _ h (step_stepped K3 rnd c x) B) as [X|(e & n & T & Q)]; [exact X|]. exfalso.
    assert (LEN : forall l' : list (task entry3 (v3msg * scopedpdu)), l' ++ [TAlloc e n] <> l').
    { intros l' K. apply (f_equal (@length _)) in K. rewrite app_length in K. cbn in K. lia. }
    destruct x as [e'|i|h'|h'|k]; cbn [conc_step fst] in T.
    - destruct (_ || _); cbn [fst cs_tasks] in T; [now apply eq_sym, LEN in T|]. apply app_inv_head in T. injection T as -> <-. exact (N e eq_refl Q).
    - apply app_inv_head in T. destruct (k_parse K3 i); discriminate T.
    - destruct (find _ _) as [[h2 id]|]; cbn [fst cs_tasks] in T; [apply app_inv_head in T; discriminate T|now apply eq_sym, LEN in T].
    - destruct (_ || _); cbn [fst cs_tasks] in T; now apply eq_sym, LEN in T.
    - destruct (nth_error (cs_tasks c) k) as [t|] eqn:NT; [|now apply eq_sym, LEN in T]. destruct (task_step K3 rnd c t) as [[[[c1 cb] st] new] l1] eqn:TS. cbn [fst cs_tasks] in T.
      assert (LN : (length new <= 1)%nat).
      { destruct t as [e1 [|r]|h1 id|m|e1 m|e1 m|h1 id|id]; cbn [task_step] in TS.
        - injection TS as _ _ _ <- _. cbn. lia.
        - destruct (cache_attempt _ _ _ _) as [[id|] c2]; injection TS as _ _ _ <- _; cbn; lia.
        - injection TS as _ _ _ <- _. cbn. lia.
        - destruct (retrieve _ _); injection TS as _ _ _ <- _; cbn; lia.
        - destruct (mem _ _); injection TS as _ _ _ <- _; cbn; lia.
        - injection TS as _ _ _ <- _. cbn. lia.
        - injection TS as _ _ _ <- _. cbn. lia.
        - injection TS as _ _ _ <- _. cbn. lia. }
      apply PrfProcConc.nth_split in NT. apply (f_equal (@length _)) in T, NT. rewrite app_length in NT. rewrite !app_length in T. cbn [length] in T, NT. lia.
  Qed.
  Lemma remove_in h x l : In x (take_out h l) <-> In x l /\ x <> h.
  Proof. unfold take_out. rewrite filter_In. destruct (Nat.eqb_spec x h); cbn; intuition congruence. Qed.
  Lemma made_where evs h : In h (lk_made (run evs)) -> In h (lk_set (run evs)) \/ In h (lk_popped (run evs)) \/ In (KClose h) evs.
  Proof.
    induction evs as [|x evs IH] using rev_ind; [intros []|]. rewrite run_snoc.
    assert (OLD : In h (lk_made (run evs)) -> In h (lk_set (run evs)) \/ In h (lk_popped (run evs)) \/ In (KClose h) (evs ++ [x])).
    { intros M. destruct (IH M) as [A|[A|A]]; auto. right. right. apply in_or_app. auto. }
    destruct x as [h0|e|n|m|h0|h0|h0]; cbn [lk_step]; try exact OLD.
    - destruct (mem h0 _); [exact OLD|]. cbn. intros [->|M]; [auto|]. destruct (OLD M) as [A|[A|A]]; auto.
    - destruct (mem _ _); exact OLD.
    - destruct (mem h0 (lk_set (run evs))); [|exact OLD]. cbn. intros M. destruct (OLD M) as [A|[A|A]]; auto. destruct (Nat.eq_dec h0 h) as [->|NE]; [auto|]. left. apply remove_in. auto.
    - destruct (mem h0 (lk_popped (run evs))); [|exact OLD]. cbn. intros M. destruct (OLD M) as [A|[A|A]]; auto. destruct (Nat.eq_dec h0 h) as [->|NE].
      + right. right. apply in_or_app. right. now left.
      + right. left. apply remove_in. auto.
    - destruct (_ || _); exact OLD.
  Qed.
  Lemma in_turn_prefix evs x : in_turn rnd (evs ++ [x]) -> in_turn rnd evs.
  Proof.
    intros T pre h post E. destruct (T pre h (post ++ [x])) as [A B]; [rewrite E, <- app_assoc; reflexivity|]. split; [exact A|]. intros e IN. apply B, in_or_app. auto.
  Qed.
  Lemma busy_kept evs : in_turn rnd evs -> forall h, busy (lk_proc (run evs)) h -> In h (lk_set (run evs)) \/ In h (lk_popped (run evs)).
  Proof.
    induction evs as [|x evs IH] using rev_ind; [intros _ h [(e & n & [] & _)|[(id & [])|(id & [])]]|]. intros T h. pose proof (IH (in_turn_prefix _ _ T)) as K. rewrite run_snoc.
    destruct x as [h0|e|n|m|h0|h0|h0]; cbn [lk_step].
    - destruct (mem h0 _); [apply K|]. cbn. intros B. destruct (K h B); auto.
    - destruct (mem (e3_handle e) (lk_made (run evs))) eqn:M; [|apply K]. cbn [lk_proc lk_set lk_popped]. intros B. destruct (Nat.eq_dec (e3_handle e) h) as [<-|NE].
      + apply mem_in in M. destruct (made_where evs _ M) as [A|[A|A]]; auto. exfalso. apply in_split in A as (pre & post & ->).
        destruct (T pre (e3_handle e) (post ++ [KSend e])) as [_ X]; [now rewrite <- app_assoc|]. apply (X e); [apply in_or_app; right; now left|reflexivity].
      + apply K. eapply step_no_start; [|exact B]. intros e' Q. injection Q as <-. exact NE.
    - cbn [lk_proc lk_set lk_popped]. intros B. apply K. eapply step_no_start; [|exact B]. intros e' Q. discriminate Q.
    - cbn [lk_proc lk_set lk_popped]. intros B. apply K. eapply step_no_start; [|exact B]. intros e' Q. discriminate Q.
    - destruct (mem h0 (lk_set (run evs))); [|apply K]. cbn [lk_proc lk_set lk_popped]. intros B. destruct (K h B) as [A|A]; [|right; now right].
      destruct (Nat.eq_dec h0 h) as [->|NE]; [right; now left|]. left. apply remove_in. auto.
    - destruct (mem h0 (lk_popped (run evs))) eqn:M; [|apply K]. cbn [lk_proc lk_set lk_popped]. intros B.
      assert (B0 : busy (lk_proc (run evs)) h) by (eapply step_no_start; [|exact B]; intros e' Q; discriminate Q).
      destruct (Nat.eq_dec h0 h) as [->|NE].
      2:{ destruct (K h B0) as [A|A]; auto. right. apply remove_in. auto. }
      exfalso. destruct (T evs h [] eq_refl) as [NS _]. unfold sending in NS.
      destruct B as [(e & n & IN & Q)|[(id & IN)|(id & IN)]]; cbn [conc_step] in IN.
      + apply NS. left. exists e, n. split; [|exact Q]. destruct (find _ _) as [[h2 i]|]; [|exact IN]. cbn in IN. apply in_app_or in IN as [IN|[IN|[]]]; [exact IN|discriminate IN].
      + apply NS. right. exists id. destruct (find _ _) as [[h2 i]|]; [|exact IN]. cbn in IN. apply in_app_or in IN as [IN|[IN|[]]]; [exact IN|discriminate IN].
      + destruct (find _ (cs_cb (lk_proc (run evs)))) as [[h2 i]|] eqn:F.
        * cbn in IN. apply filter_In in IN as [_ IN]. cbn in IN. rewrite Nat.eqb_refl in IN. discriminate IN.
        * pose proof (find_none _ _ F _ IN) as X. cbn in X. rewrite Nat.eqb_refl in X. discriminate X.
    - destruct (_ || _); [apply K|]. cbn [lk_proc lk_set lk_popped]. intros B. apply K. eapply step_no_start; [|exact B]. intros e' Q. discriminate Q.
  Qed.
  Lemma quiet_empty evs : in_turn rnd evs -> quiet (run evs) -> table (run evs) = [].
  Proof.
    intros T (Q1 & Q2 & Q3). pose proof (busy_kept evs T) as K. destruct (sound_run evs) as (_ & _ & CO). unfold conv, claims in CO. rewrite Q3 in CO. cbn in CO.
    unfold table. destruct (ca_out (cs_cache (lk_proc (run evs)))) as [|[id e] t]; [reflexivity|]. exfalso.
    assert (G : In (e3_handle e, id) (cs_cb (lk_proc (run evs)))) by (apply CO; cbn; now rewrite Z.eqb_refl).
    destruct (K (e3_handle e)) as [A|A]; [right; right; eauto|rewrite Q1 in A; destruct A|rewrite Q2 in A; destruct A].
  Qed.
  (** ** A message that was closed too early *)
  Definition lost (s : lk) (h : nat) (id : Z) : Prop := In (h, id) (cs_cb (lk_proc s)) /\ In h (lk_made s) /\ ~ In h (lk_set s) /\ ~ In h (lk_popped s).
  Lemma cb_kept c x h id : x <> EClose h -> In (h, id) (cs_cb c) -> In (h, id) (cs_cb (fst (conc_step K3 rnd c x))).
  Proof.
    intros N B. destruct x as [e|i|h0|h0|n]; cbn [conc_step].
    - destruct (_ || _); exact B.
    - exact B.
    - destruct (find _ _) as [[h2 i]|]; [|exact B]. cbn. apply filter_In. split; [exact B|]. cbn. destruct (Nat.eqb_spec h h0) as [->|]; [now elim N|reflexivity].
    - destruct (_ || _); exact B.
    - destruct (nth_error _ _) as [t|]; [|exact B]. destruct t as [e1 [|r]|h1 i|m|e1 m|e1 m|h1 i|i]; cbn [task_step]; try exact B.
      + destruct (cache_attempt _ _ _ _) as [[i|] c2]; exact B.
      + right. exact B.
      + destruct (retrieve _ _); exact B.
      + destruct (mem _ _); exact B.
  Qed.
  Lemma lost_step s x h id : lost s h id -> lost (step s x) h id.
  Proof.
    intros (A & B & C & D).
    assert (CB : forall y, y <> EClose h -> lost (mkLk (fst (conc_step K3 rnd (lk_proc s) y)) (lk_set s) (lk_popped s) (lk_made s)) h id).
    { intros y N. split; [now apply cb_kept|]. auto. }
    destruct x as [h0|e|n|m|h0|h0|h0]; cbn [lk_step].
    - destruct (mem h0 (lk_made s)) eqn:M; [split; auto|]. apply mem_not in M. split; [exact A|]. cbn. split; [auto|]. split; [|exact D]. intros [->|X]; contradiction.
    - destruct (mem _ _); [apply CB; discriminate|split; auto].
    - apply CB; discriminate.
    - apply CB; discriminate.
    - destruct (mem h0 (lk_set s)) eqn:M; [|split; auto]. apply mem_in in M. split; [exact A|]. cbn. split; [exact B|]. split; [rewrite remove_in; tauto|]. intros [->|X]; contradiction.
    - destruct (mem h0 (lk_popped s)) eqn:M; [|split; auto]. apply mem_in in M. split; [apply cb_kept; [|exact A]; intros K; injection K as ->; contradiction|]. cbn. split; [exact B|]. split; [exact C|]. rewrite remove_in; tauto.
    - destruct (_ || _); [split; auto|]. apply CB; discriminate.
  Qed.
  Lemma lost_for_ever evs more h id : lost (run evs) h id -> exists e, dict_get Z.eqb (table (run (evs ++ more))) id = Some e /\ e3_handle e = h.
  Proof.
    intros L. assert (X : lost (run (evs ++ more)) h id).
    { revert evs L. induction more as [|x more IH]; intros evs L; [now rewrite app_nil_r|]. change (x :: more) with ([x] ++ more). rewrite app_assoc. apply IH. rewrite run_snoc. now apply lost_step. }
    destruct X as (CB & _). destruct (sound_run (evs ++ more)) as (_ & V & _). apply (v_claims _ _ V). apply claims_in. right. exact CB.
  Qed.
End LeakC.
