(** PrfHeap.v -- the heap operations keep the elements and the heap order. *)
From Verif Require Export Heap PrfBase.
From Coq Require Import Permutation.

Section Put.
  Context {A : Type}.
  Implicit Types (l h : list A) (x y : A).
  Lemma put_length l i x : length (put l i x) = length l.
  Proof. revert i; induction l as [|a l IH]; intros [|i]; cbn; auto. Qed.
  Lemma put_same l i x : (i < length l)%nat -> nth_error (put l i x) i = Some x.
  Proof. revert i; induction l as [|a l IH]; intros [|i] H; cbn in *; try lia; auto. apply IH. lia. Qed.
  Lemma put_other l i j x : i <> j -> nth_error (put l i x) j = nth_error l j.
  Proof. revert i j; induction l as [|a l IH]; intros [|i] [|j] H; cbn; auto; congruence. Qed.
  Lemma put_put l i x y : put (put l i x) i y = put l i y.
  Proof. revert i; induction l as [|a l IH]; intros [|i]; cbn; auto. now rewrite IH. Qed.
  Lemma put_id l i x : nth_error l i = Some x -> put l i x = l.
  Proof. revert i; induction l as [|a l IH]; intros [|i]; cbn; try congruence. intros H. now rewrite IH. Qed.
  Lemma put_comm l i j x y : i <> j -> put (put l i x) j y = put (put l j y) i x.
  Proof. revert i j; induction l as [|a l IH]; intros [|i] [|j] H; cbn; auto; [congruence|]. f_equal. apply IH. congruence. Qed.
  Lemma put_head_perm l i x y : nth_error l i = Some y -> Permutation (y :: put l i x) (x :: l).
  Proof.
    revert i; induction l as [|a l IH]; intros [|i]; cbn; try discriminate.
    - intros H. injection H as ->. apply perm_swap.
    - intros H. apply IH in H. rewrite perm_swap, H. apply perm_swap.
  Qed.
  Lemma put_swap h i j x p : i <> j -> (i < length h)%nat -> nth_error h j = Some p ->
    Permutation (put h i x) (put (put h i p) j x).
  Proof.
    intros N Li J. assert (J2 : nth_error (put h i p) j = Some p) by now rewrite put_other.
    apply (Permutation_cons_inv (a := p)). rewrite (put_head_perm _ _ x _ J2).
    destruct (nth_error h i) as [y|] eqn:I; [|apply nth_error_None in I; lia].
    apply (Permutation_cons_inv (a := y)). rewrite perm_swap, (put_head_perm _ _ x _ I).
    rewrite (perm_swap x y), (put_head_perm _ _ p _ I). apply perm_swap.
  Qed.
  Lemma nth_error_lt h i x : nth_error h i = Some x -> (i < length h)%nat.
  Proof. intros H. apply nth_error_Some. congruence. Qed.
End Put.

Definition par (j : nat) : nat := Nat.div2 (j - 1).
Lemma par_lt j : (0 < j)%nat -> (par j < j)%nat.
Proof. intros H. unfold par. pose proof (Nat.div2_decr (j - 1) (j - 1)). destruct (j - 1)%nat eqn:E; [cbn; lia|].
  rewrite Nat.div2_div. apply Nat.div_lt_upper_bound; lia. Qed.
Lemma par_children j p : (0 < j)%nat -> par j = p <-> j = (2 * p + 1)%nat \/ j = (2 * p + 2)%nat.
Proof.
  intros H. unfold par. rewrite Nat.div2_div. pose proof (Nat.div_mod (j - 1) 2). pose proof (Nat.mod_upper_bound (j - 1) 2). lia.
Qed.

Section H.
  Context {S A : Type} (lt : S -> A -> A -> bool * S) (key : A -> Z) (Inv : S -> Prop).
  Context (LT : forall s a b r s', Inv s -> lt s a b = (r, s') -> r = (key a <? key b) /\ Inv s').
  (** [fresh s a]: the key of [a] has been stored. *)
  Context (fresh : S -> A -> Prop).
  Context (FRESH : forall s a b r s', Inv s -> lt s a b = (r, s') ->
     fresh s' a /\ fresh s' b /\ forall c, fresh s c -> fresh s' c).
  Notation siftdown := (siftdown lt). Notation sift_to_leaf := (sift_to_leaf lt).
  Notation siftup := (siftup lt).

  (** Heap order between position [j] and its parent. *)
  Definition ord (h : list A) (j : nat) : Prop :=
    forall p c, nth_error h (par j) = Some p -> nth_error h j = Some c -> key p <= key c.
  (** Heap order below [start]. *)
  Definition ordered_from (h : list A) (start : nat) : Prop :=
    forall j, (0 < j)%nat -> (start <= par j)%nat -> ord h j.
  Definition heap_ordered (h : list A) : Prop := ordered_from h 0.

  (** [pos] is [start] or a descendant of it. *)
  Inductive below (start : nat) : nat -> Prop :=
  | below_refl : below start start
  | below_left p : below start p -> below start (2 * p + 1)
  | below_right p : below start p -> below start (2 * p + 2).
  Lemma below_le start pos : below start pos -> (start <= pos)%nat.
  Proof using. induction 1; lia. Qed.
  Lemma below_par start pos : below start pos -> (start < pos)%nat -> below start (par pos) /\ (start <= par pos)%nat.
  Proof using.
    intros B L. destruct B as [|p B|p B]; [lia| |].
    - assert (E : par (2 * p + 1) = p) by (apply par_children; lia). rewrite E. split; [auto|now apply below_le].
    - assert (E : par (2 * p + 2) = p) by (apply par_children; lia). rewrite E. split; [auto|now apply below_le].
  Qed.
  Lemma below_0 pos : below 0 pos.
  Proof using.
    induction pos as [pos IH] using lt_wf_ind. destruct pos as [|pos]; [constructor|].
    assert (L : (par (Datatypes.S pos) < Datatypes.S pos)%nat) by (apply par_lt; lia).
    destruct (proj1 (par_children (Datatypes.S pos) (par (Datatypes.S pos)) ltac:(lia)) eq_refl) as [E|E]; rewrite E.
    - apply below_left. now apply IH.
    - apply below_right. now apply IH.
  Qed.

  Lemma siftdown_spec fuel s h start pos new s' h' : Inv s -> below start pos -> (pos < length h)%nat -> (pos < fuel)%nat ->
    (forall j, (0 < j)%nat -> (start <= par j)%nat -> j <> pos -> ord h j) ->
    (forall j c, (0 < j)%nat -> par j = pos -> nth_error h j = Some c -> key new <= key c) ->
    (forall j c p, (0 < j)%nat -> par j = pos -> (start < pos)%nat -> nth_error h j = Some c -> nth_error h (par pos) = Some p -> key p <= key c) ->
    siftdown fuel s h start pos new = (s', h') ->
    Inv s' /\ Permutation (put h pos new) h' /\ length h' = length h /\ ordered_from h' start /\
    (forall i, (i < start)%nat -> nth_error h' i = nth_error h i) /\
    (forall c, fresh s c -> fresh s' c) /\
    ((start < pos)%nat -> fresh s' new /\ forall p, nth_error h (par pos) = Some p -> fresh s' p).
  Proof using LT FRESH.
    revert s h pos; induction fuel as [|fuel IH]; intros s h pos I B L FU O1 O2 O3; cbn [Heap.siftdown]; [lia|].
    destruct (Nat.ltb_spec start pos) as [SP|SP].
    - destruct (below_par _ _ B SP) as [B' SL]. fold (par pos).
      assert (PL : (par pos < pos)%nat) by (apply par_lt; lia).
      destruct (nth_error h (par pos)) as [p|] eqn:NP; [|apply nth_error_None in NP; lia].
      destruct (lt s new p) as [b s1] eqn:LE. destruct (LT _ _ _ _ _ I LE) as [-> I1].
      destruct (FRESH _ _ _ _ _ I LE) as (F1 & F2 & F3).
      destruct (Z.ltb_spec (key new) (key p)) as [KL|KL].
      + intros E. apply IH in E; auto; try (rewrite put_length; lia); try lia.
        * destruct E as (I' & P & LL & O & PR & FM & FN). split; [auto|]. split.
          { rewrite <- P. apply put_swap; auto; lia. }
          split; [now rewrite LL, put_length|]. split; [auto|]. split.
          { intros i Hi. rewrite PR, put_other by lia. reflexivity. }
          split; [auto|]. intros _. split; [auto|]. intros p0 X. injection X as <-. auto.
        * (* O1 *) intros j J0 JS JN p0 c HP HC. destruct (Nat.eq_dec j pos) as [->|NJ].
          { rewrite put_same in HC by lia. rewrite put_other in HP by lia. injection HC as <-. rewrite NP in HP. injection HP as <-. lia. }
          rewrite put_other in HC by auto. destruct (Nat.eq_dec (par j) pos) as [PJ|PJ].
          { rewrite PJ, put_same in HP by lia. injection HP as <-. eapply O3; eauto. }
          rewrite put_other in HP by auto. eapply O1; eauto.
        * (* O2 *) intros j c J0 PJ HC. destruct (Nat.eq_dec j pos) as [->|NJ].
          { rewrite put_same in HC by lia. injection HC as <-. lia. }
          rewrite put_other in HC by auto. assert (key p <= key c); [|lia].
          apply (O1 j); auto; [lia|now rewrite PJ].
        * (* O3 *) intros j c p0 J0 PJ SP' HC HP. rewrite put_other in HP by (assert (par (par pos) < par pos)%nat by (apply par_lt; lia); lia).
          assert (key p0 <= key p). { apply (O1 (par pos)); auto; [lia|now apply below_par|lia]. }
          destruct (Nat.eq_dec j pos) as [->|NJ].
          { rewrite put_same in HC by lia. injection HC as <-. lia. }
          rewrite put_other in HC by auto. assert (key p <= key c); [|lia]. apply (O1 j); auto; [lia|now rewrite PJ].
      + intros E. injection E as <- <-. split; [auto|]. split; [auto|]. split; [apply put_length|]. split.
        * intros j J0 JS p0 c HP HC. destruct (Nat.eq_dec j pos) as [->|NJ].
          { rewrite put_same in HC by lia. rewrite put_other in HP by lia. injection HC as <-. rewrite NP in HP. injection HP as <-. lia. }
          rewrite put_other in HC by auto. destruct (Nat.eq_dec (par j) pos) as [PJ|PJ].
          { rewrite PJ, put_same in HP by lia. injection HP as <-. eapply O2; eauto. }
          rewrite put_other in HP by auto. eapply O1; eauto.
        * split; [intros i Hi; rewrite put_other by lia; reflexivity|]. split; [auto|].
          intros _. split; [auto|]. intros p0 X. injection X as <-. auto.
    - assert (pos = start) as -> by (apply below_le in B; lia). intros E. injection E as <- <-.
      split; [auto|]. split; [auto|]. split; [apply put_length|]. split.
      + intros j J0 JS p0 c HP HC. assert (J1 : (par j < j)%nat) by (apply par_lt; lia).
        rewrite put_other in HC by lia. destruct (Nat.eq_dec (par j) start) as [PJ|PJ].
        { rewrite PJ, put_same in HP by lia. injection HP as <-. eapply O2; eauto. }
        rewrite put_other in HP by auto. eapply (O1 j); eauto. lia.
      + split; [intros i Hi; rewrite put_other by lia; reflexivity|]. split; [auto|]. lia.
  Qed.

  Lemma to_leaf_spec fuel s h start pos s' h' leaf : Inv s -> below start pos -> (pos < length h)%nat ->
    (length h <= pos + fuel)%nat ->
    (forall j, (0 < j)%nat -> (start <= par j)%nat -> par j <> pos -> j <> pos -> ord h j) ->
    (forall j c p, (0 < j)%nat -> par j = pos -> (start < pos)%nat -> nth_error h j = Some c -> nth_error h (par pos) = Some p -> key p <= key c) ->
    sift_to_leaf fuel s h pos = (s', h', leaf) ->
    Inv s' /\ (forall new, Permutation (put h pos new) (put h' leaf new)) /\ length h' = length h /\
    below start leaf /\ (pos <= leaf < length h)%nat /\ (length h <= 2 * leaf + 1)%nat /\
    (forall j, (0 < j)%nat -> (start <= par j)%nat -> j <> leaf -> ord h' j) /\
    (forall i, (i < start)%nat -> nth_error h' i = nth_error h i) /\
    (forall c, fresh s c -> fresh s' c) /\
    (forall c1 c2, nth_error h (2 * pos + 1) = Some c1 -> nth_error h (2 * pos + 2) = Some c2 -> fresh s' c1 /\ fresh s' c2) /\
    (forall c1, nth_error h (2 * pos + 1) = Some c1 -> (pos < leaf)%nat /\
       (nth_error h (2 * pos + 2) = None -> par leaf = pos /\ nth_error h' pos = Some c1)) /\
    ((length h <= 2 * pos + 1)%nat -> leaf = pos /\ h' = h).
  Proof using LT FRESH.
    revert s h pos; induction fuel as [|fuel IH]; intros s h pos I B L FU O1 O3; cbn [Heap.sift_to_leaf]; [lia|].
    destruct (nth_error h (2 * pos + 1)) as [cl|] eqn:NL.
    2:{ intros E. injection E as <- <- <-. apply nth_error_None in NL. split; [auto|]. split; [auto|]. split; [auto|].
        split; [auto|]. split; [lia|]. split; [lia|]. split.
        - intros j J0 JS JN. destruct (Nat.eq_dec (par j) pos) as [PJ|PJ]; [|auto].
          intros p c _ HC. apply nth_error_lt in HC. apply par_children in PJ; lia.
        - split; [auto|]. split; [auto|]. split; [intros; discriminate|]. split; [discriminate|auto]. }
    replace (2 * pos + 1 + 1)%nat with (2 * pos + 2)%nat by lia.
    assert (PC1 : par (2 * pos + 1) = pos) by (apply par_children; lia).
    assert (PC2 : par (2 * pos + 2) = pos) by (apply par_children; lia).
    pose proof (nth_error_lt _ _ _ NL) as LL.
    (* the step, for the chosen child [ch] at [cp] *)
    assert (STEP : forall s1 cp ch, Inv s1 -> (cp = 2 * pos + 1 \/ cp = 2 * pos + 2)%nat -> nth_error h cp = Some ch ->
      (forall j c, (0 < j)%nat -> par j = pos -> nth_error h j = Some c -> key ch <= key c) ->
      (forall c, fresh s c -> fresh s1 c) ->
      (forall c1 c2, Some cl = Some c1 -> nth_error h (2 * pos + 2) = Some c2 -> fresh s1 c1 /\ fresh s1 c2) ->
      (nth_error h (2 * pos + 2) = None -> cp = (2 * pos + 1)%nat) ->
      sift_to_leaf fuel s1 (put h pos ch) cp = (s', h', leaf) ->
      Inv s' /\ (forall new, Permutation (put h pos new) (put h' leaf new)) /\ length h' = length h /\
      below start leaf /\ (pos <= leaf < length h)%nat /\ (length h <= 2 * leaf + 1)%nat /\
      (forall j, (0 < j)%nat -> (start <= par j)%nat -> j <> leaf -> ord h' j) /\
      (forall i, (i < start)%nat -> nth_error h' i = nth_error h i) /\
      (forall c, fresh s c -> fresh s' c) /\
      (forall c1 c2, Some cl = Some c1 -> nth_error h (2 * pos + 2) = Some c2 -> fresh s' c1 /\ fresh s' c2) /\
      (forall c1, Some cl = Some c1 -> (pos < leaf)%nat /\
         (nth_error h (2 * pos + 2) = None -> par leaf = pos /\ nth_error h' pos = Some c1)) /\
      ((length h <= 2 * pos + 1)%nat -> leaf = pos /\ h' = h)).
    { intros s1 cp ch I1 CP HCP MIN FM FR RN E.
      assert (PCP : par cp = pos) by (destruct CP as [-> | ->]; auto).
      assert (CPL : (pos < cp < length h)%nat) by (apply nth_error_lt in HCP; lia).
      assert (START : (start <= pos)%nat) by now apply below_le.
      apply IH in E; auto.
      - destruct E as (I' & P & LN & BL & RL & LF & OO & PR & FM' & FR' & FL & FX). rewrite put_length in *.
        split; [auto|]. split. { intros new. rewrite <- P. apply put_swap; auto; lia. }
        split; [auto|]. split; [auto|]. split; [lia|]. split; [lia|]. split; [auto|].
        split. { intros i Hi. rewrite PR, put_other by lia. reflexivity. }
        split; [auto|]. split. { intros c1 c2 X Y. destruct (FR _ _ X Y). auto. }
        split; [|lia].
        intros c1 X. injection X as <-. split; [lia|]. intros N2. pose proof (RN N2) as ->.
        destruct FX as [-> ->]; [apply nth_error_None in N2; lia|].
        split; [auto|]. rewrite NL in HCP. injection HCP as <-. apply put_same; lia.
      - destruct CP as [-> | ->]; constructor; auto.
      - rewrite put_length. lia.
      - rewrite put_length. lia.
      - intros j J0 JS PJ NJ p c HP HC. destruct (Nat.eq_dec j pos) as [->|NP].
        + rewrite put_same in HC by lia. injection HC as <-. rewrite put_other in HP by (assert (par pos < pos)%nat by (apply par_lt; lia); lia).
          apply (O3 cp ch p); auto; try lia. assert (par pos < pos)%nat by (apply par_lt; lia). lia.
        + rewrite put_other in HC by auto. destruct (Nat.eq_dec (par j) pos) as [PJ'|PJ'].
          * rewrite PJ', put_same in HP by lia. injection HP as <-. eapply MIN; eauto.
          * rewrite put_other in HP by auto. eapply O1; eauto.
      - intros j c p J0 PJ _ HC HP. rewrite PCP, put_same in HP by lia. injection HP as <-.
        assert (JP : (cp < j)%nat) by (rewrite <- PJ; apply par_lt; lia).
        rewrite put_other in HC by lia. apply (O1 j); auto; try lia. now rewrite PJ. }
    destruct (nth_error h (2 * pos + 2)) as [cr|] eqn:NR.
    - destruct (lt s cl cr) as [b s1] eqn:LE. destruct (LT _ _ _ _ _ I LE) as [-> I1].
      destruct (FRESH _ _ _ _ _ I LE) as (F1 & F2 & F3).
      assert (CH : forall j c, (0 < j)%nat -> par j = pos -> nth_error h j = Some c -> c = cl \/ c = cr).
      { intros j c J0 PJ HC. apply par_children in PJ as [-> | ->]; auto; [left|right]; congruence. }
      destruct (Z.ltb_spec (key cl) (key cr)) as [K|K]; intros E.
      + eapply STEP in E; eauto.
        * intros j c J0 PJ HC. destruct (CH _ _ J0 PJ HC) as [-> | ->]; lia.
        * intros c1 c2 X Y. injection X as <-. injection Y as <-. auto.
      + eapply STEP in E; eauto.
        * intros j c J0 PJ HC. destruct (CH _ _ J0 PJ HC) as [-> | ->]; lia.
        * intros c1 c2 X Y. injection X as <-. injection Y as <-. auto.
        * discriminate.
    - intros E. eapply STEP in E; eauto.
      + intros j c J0 PJ HC. apply par_children in PJ as [-> | ->]; auto; [|congruence]. rewrite NL in HC. injection HC as <-. lia.
      + discriminate.
  Qed.

  (** Elements stay where they are or move within the subtree of [start]. *)
  Definition moved start (h h' : list A) : Prop := forall j c, nth_error h' j = Some c ->
    nth_error h j = Some c \/ (below start j /\ exists j', below start j' /\ nth_error h j' = Some c).
  Lemma moved_refl start h : moved start h h.
  Proof using. intros j c. auto. Qed.
  Lemma moved_trans start h1 h2 h3 : moved start h1 h2 -> moved start h2 h3 -> moved start h1 h3.
  Proof using.
    intros M1 M2 j c H. destruct (M2 _ _ H) as [H1|(B & j' & B' & H1)]; [now apply M1|]. right. split; [auto|].
    destruct (M1 _ _ H1) as [H2|(_ & j2 & B2 & H2)]; eauto.
  Qed.
  Lemma moved_swap start h i k p new : below start i -> below start k -> i <> k -> (i < length h)%nat -> nth_error h k = Some p ->
    moved start (put h i new) (put (put h i p) k new).
  Proof using.
    intros Bi Bk N L K j c H. pose proof (nth_error_lt _ _ _ K) as LK.
    destruct (Nat.eq_dec j k) as [->|NK].
    - rewrite put_same in H by (rewrite put_length; auto). injection H as <-. right. split; [auto|]. exists i. split; [auto|]. now apply put_same.
    - rewrite put_other in H by auto. destruct (Nat.eq_dec j i) as [->|NI].
      + rewrite put_same in H by auto. injection H as <-. right. split; [auto|]. exists k. split; [auto|]. now rewrite put_other.
      + rewrite put_other in H by auto. left. now rewrite put_other by auto.
  Qed.
  Lemma siftdown_moved fuel s h start pos new s' h' : below start pos -> (pos < length h)%nat ->
    siftdown fuel s h start pos new = (s', h') -> moved start (put h pos new) h'.
  Proof using.
    revert s h pos; induction fuel as [|fuel IH]; intros s h pos B L; cbn [Heap.siftdown].
    - intros E. injection E as <- <-. apply moved_refl.
    - destruct (Nat.ltb_spec start pos) as [SP|SP]; [|intros E; injection E as <- <-; apply moved_refl].
      destruct (below_par _ _ B SP) as [B' SL]. fold (par pos).
      assert (PL : (par pos < pos)%nat) by (apply par_lt; lia).
      destruct (nth_error h (par pos)) as [p|] eqn:NP; [|intros E; injection E as <- <-; apply moved_refl].
      destruct (lt s new p) as [[] s1]; [|intros E; injection E as <- <-; apply moved_refl].
      intros E. apply IH in E; auto; [|rewrite put_length; lia]. eapply moved_trans; [|exact E].
      apply moved_swap; auto; lia.
  Qed.
  Lemma to_leaf_moved fuel s h start pos s' h' leaf new : below start pos -> (pos < length h)%nat ->
    sift_to_leaf fuel s h pos = (s', h', leaf) -> moved start (put h pos new) (put h' leaf new).
  Proof using.
    revert s h pos; induction fuel as [|fuel IH]; intros s h pos B L; cbn [Heap.sift_to_leaf].
    - intros E. injection E as <- <- <-. apply moved_refl.
    - destruct (nth_error h (2 * pos + 1)) as [cl|] eqn:NL; [|intros E; injection E as <- <- <-; apply moved_refl].
      replace (2 * pos + 1 + 1)%nat with (2 * pos + 2)%nat by lia.
      assert (STEP : forall s1 cp ch, (cp = 2 * pos + 1 \/ cp = 2 * pos + 2)%nat -> nth_error h cp = Some ch ->
        sift_to_leaf fuel s1 (put h pos ch) cp = (s', h', leaf) -> moved start (put h pos new) (put h' leaf new)).
      { intros s1 cp ch CP HCP E. assert (BC : below start cp) by (destruct CP as [-> | ->]; constructor; auto).
        apply nth_error_lt in HCP as LC. apply IH in E; auto; [|rewrite put_length; auto].
        eapply moved_trans; [|exact E]. apply moved_swap; auto. lia. }
      destruct (nth_error h (2 * pos + 2)) as [cr|] eqn:NR; [|intros E; exact (STEP _ _ _ (or_introl eq_refl) NL E)].
      destruct (lt s cl cr) as [[] s1]; intros E; [exact (STEP _ _ _ (or_introl eq_refl) NL E)|exact (STEP _ _ _ (or_intror eq_refl) NR E)].
  Qed.
  Lemma siftup_spec s h start s' h' : Inv s ->
    (forall j, (0 < j)%nat -> (start < par j)%nat -> ord h j) -> siftup s h start = (s', h') ->
    Inv s' /\ Permutation h h' /\ length h' = length h /\
    ((start < length h)%nat -> ordered_from h' start) /\
    (forall i, (i < start)%nat -> nth_error h' i = nth_error h i) /\
    (forall c, fresh s c -> fresh s' c) /\
    (forall j c, (0 < j)%nat -> par j = start -> nth_error h j = Some c ->
       fresh s' c /\ forall n, nth_error h start = Some n -> fresh s' n) /\
    moved start h h'.
  Proof using LT FRESH.
    intros I O. unfold Heap.siftup. destruct (nth_error h start) as [new|] eqn:N.
    2:{ intros E. injection E as <- <-. apply nth_error_None in N. split; [auto|]. split; [auto|]. split; [auto|].
        split; [lia|]. split; [auto|]. split; [auto|]. split; [|apply moved_refl]. intros j c J0 PJ HC. apply nth_error_lt in HC.
        assert (par j < j)%nat by (apply par_lt; lia). lia. }
    pose proof (nth_error_lt _ _ _ N) as LS.
    destruct (sift_to_leaf (length h) s h start) as [[s1 h1] leaf] eqn:E1.
    pose proof (to_leaf_moved _ _ _ start _ _ _ _ new (below_refl start) LS E1) as MV1. rewrite (put_id h start new N) in MV1.
    apply (to_leaf_spec _ _ _ start) in E1; [|exact I|apply below_refl|exact LS|lia|intros j J0 JS PJ _; apply O; auto; lia|lia].
    destruct E1 as (I1 & P1 & L1 & B1 & R1 & F1 & O1 & PR1 & FM1 & FR1 & FL1 & _). intros E.
    assert (LF : (leaf < length h1)%nat) by lia. pose proof (siftdown_moved _ _ _ _ _ _ _ _ B1 LF E) as MV2.
    apply siftdown_spec in E; auto; try lia; try (rewrite L1; lia).
    - destruct E as (I' & P & LL & OO & PR & FM & FN).
      split; [auto|]. split. { rewrite <- P, <- (P1 new). now rewrite put_id. }
      split; [lia|]. split; [auto|]. split. { intros i Hi. now rewrite PR, PR1. }
      split; [auto|]. split; [|eapply moved_trans; eauto]. intros j c J0 PJ HC. apply par_children in PJ; auto.
      assert (exists cl, nth_error h (2 * start + 1) = Some cl) as [cl NL].
      { destruct (nth_error h (2 * start + 1)) eqn:X; [eauto|]. apply nth_error_None in X. apply nth_error_lt in HC. lia. }
      destruct (FL1 _ NL) as [SL X]. destruct (FN SL) as [FN1 FN2].
      split; [|intros n Y; injection Y as <-; auto].
      destruct (nth_error h (2 * start + 2)) as [cr|] eqn:NR.
      + destruct (FR1 _ _ NL eq_refl) as [Y1 Y2]. destruct PJ as [-> | ->]; [rewrite NL in HC|rewrite NR in HC]; injection HC as <-; auto.
      + destruct PJ as [-> | ->]; [|congruence]. rewrite NL in HC. injection HC as <-.
        destruct (X eq_refl) as [X1 X2]. apply FN2. now rewrite X1.
    - intros j c J0 PJ HC. apply nth_error_lt in HC. apply par_children in PJ; lia.
    - intros j c p J0 PJ _ HC. apply nth_error_lt in HC. apply par_children in PJ; lia.
  Qed.

  Definition all_fresh s (h : list A) : Prop := (2 <= length h)%nat -> Forall (fresh s) h.
  Lemma heappush_spec s h x s' h' : Inv s -> heap_ordered h -> heappush lt s h x = (s', h') ->
    Inv s' /\ Permutation (x :: h) h' /\ heap_ordered h' /\ (all_fresh s h -> all_fresh s' h').
  Proof using LT FRESH.
    intros I O. unfold heappush. intros E.
    assert (NX : forall j c, (0 < j)%nat -> par j = length h -> nth_error (h ++ [x]) j = Some c -> False).
    { intros j c J0 PJ HC. apply nth_error_lt in HC. rewrite app_length in HC. cbn in HC.
      assert (par j < j)%nat by (apply par_lt; lia). lia. }
    apply siftdown_spec in E; auto using below_0; try (rewrite app_length; cbn; lia).
    - destruct E as (I' & P & L & OO & _ & FM & FN). split; [auto|].
      assert (PX : put (h ++ [x]) (length h) x = h ++ [x]).
      { apply put_id. rewrite nth_error_app2, Nat.sub_diag by lia. reflexivity. }
      rewrite PX in P. assert (PP : Permutation (x :: h) h') by (rewrite <- P; apply Permutation_cons_append).
      split; [auto|]. split; [auto|]. intros AF L2. rewrite L, app_length in L2. cbn in L2.
      destruct (FN ltac:(lia)) as [FX FP]. apply (Permutation_Forall PP). constructor; [auto|].
      destruct (le_lt_dec 2 (length h)) as [L3|L3].
      + eapply Forall_impl; [|apply AF; auto]. auto.
      + destruct h as [|a [|]]; cbn in *; try lia. constructor; [|constructor]. apply FP. reflexivity.
    - intros j J0 _ JN p c HP HC. assert (JL := nth_error_lt _ _ _ HC). rewrite app_length in JL. cbn in JL.
      assert (par j < j)%nat by (apply par_lt; lia).
      rewrite nth_error_app1 in HP, HC by lia. eapply (O j); eauto. lia.
    - intros j c J0 PJ HC. destruct (NX _ _ J0 PJ HC).
    - intros j c p J0 PJ _ HC. destruct (NX _ _ J0 PJ HC).
  Qed.
  Lemma ordered_tail a h x : ordered_from (a :: h) 0 -> forall j, (0 < j)%nat -> (0 < par j)%nat -> ord (x :: h) j.
  Proof using.
    intros O j J0 PJ p c HP HC. apply (O j J0 ltac:(lia) p c).
    - destruct (par j); [lia|exact HP].
    - destruct j; [lia|exact HC].
  Qed.
  Lemma root_siftup s h s' h' : Inv s -> (forall j, (0 < j)%nat -> (0 < par j)%nat -> ord h j) ->
    siftup s h 0 = (s', h') -> Inv s' /\ Permutation h h' /\ heap_ordered h' /\
    (forall c, fresh s c -> fresh s' c) /\ ((2 <= length h)%nat -> forall n, nth_error h 0 = Some n -> fresh s' n).
  Proof using LT FRESH.
    intros I O E. apply siftup_spec in E; auto. destruct E as (I' & P & L & OO & _ & FM & FN & _).
    split; [auto|]. split; [auto|]. split.
    - destruct h as [|a h]; [|apply OO; cbn; lia]. apply Permutation_nil in P. subst h'. intros j _ _ p c HP. destruct (par j); discriminate.
    - split; [auto|]. intros L2 n Hn. destruct h as [|a [|b h]]; cbn in L2; try lia. eapply (FN 1%nat b); auto.
  Qed.
  Lemma heapreplace_spec s a t s' h' x : Inv s -> heap_ordered (a :: t) -> heapreplace lt s (a :: t) x = Some (s', h') ->
    Inv s' /\ Permutation (x :: t) h' /\ heap_ordered h' /\
    (((2 <= length (a :: t))%nat -> Forall (fresh s) t) -> all_fresh s' h').
  Proof using LT FRESH.
    intros I O E. cbn [heapreplace] in E. injection E as E. apply root_siftup in E; auto.
    - destruct E as (I' & P & OO & FM & FN). split; [auto|]. split; [auto|]. split; [auto|].
      intros AF L2. pose proof (Permutation_length P) as LL. rewrite <- LL in L2. apply (Permutation_Forall P).
      specialize (AF L2). constructor; [now apply FN|]. eapply Forall_impl; [|eassumption]. auto.
    - now apply (ordered_tail a).
  Qed.
  Lemma heappop_spec s a t s' h' : Inv s -> heap_ordered (a :: t) -> heappop lt s (a :: t) = Some (s', h') ->
    Inv s' /\ Permutation t h' /\ heap_ordered h' /\ (all_fresh s (a :: t) -> all_fresh s' h').
  Proof using LT FRESH.
    intros I O E. unfold heappop in E. destruct (rev (a :: t)) as [|last r] eqn:R; [discriminate|].
    assert (AT : a :: t = rev r ++ [last]) by (rewrite <- (rev_involutive (a :: t)), R; reflexivity).
    destruct (rev r) as [|b t'] eqn:RR.
    - injection E as <- <-. destruct t; [|destruct t; discriminate]. split; [auto|]. split; [auto|]. split.
      + intros j _ _ p c HP. destruct (par j); discriminate.
      + intros _ L. cbn in L. lia.
    - injection AT as <- ->. injection E as E.
      assert (O' : ordered_from (a :: t') 0).
      { intros j J0 JS p c HP HC. apply (O j J0 JS).
        - change (a :: t' ++ [last]) with ((a :: t') ++ [last]). rewrite nth_error_app1; [auto|eapply nth_error_lt; eauto].
        - change (a :: t' ++ [last]) with ((a :: t') ++ [last]). rewrite nth_error_app1; [auto|eapply nth_error_lt; eauto]. }
      cbn [put] in E. apply root_siftup in E; auto; [|now apply (ordered_tail a)].
      destruct E as (I' & P & OO & FM & FN). split; [auto|]. split. { rewrite <- P. symmetry. apply Permutation_cons_append. }
      split; [auto|]. intros AF L2. assert (AF' : Forall (fresh s) (a :: t' ++ [last])) by (apply AF; cbn; rewrite app_length; cbn; lia).
      apply (Permutation_Forall P). inversion AF' as [|? ? _ F2]; subst. apply Forall_app in F2 as [F2 F3].
      inversion F3; subst. constructor; [auto|]. eapply Forall_impl; [|eassumption]. auto.
  Qed.
  Lemma heapify_from_spec i s h s' h' : Inv s -> (forall j, (0 < j)%nat -> (i <= par j)%nat -> ord h j) ->
    (i <= length h)%nat ->
    heapify_from lt s h i = (s', h') -> Inv s' /\ Permutation h h' /\ heap_ordered h' /\ (forall c, fresh s c -> fresh s' c).
  Proof using LT FRESH.
    revert s h; induction i as [|i IH]; intros s h I O L; cbn [heapify_from].
    - intros E. injection E as <- <-. auto.
    - destruct (siftup s h i) as [s1 h1] eqn:E1. intros E. apply siftup_spec in E1; auto.
      destruct E1 as (I1 & P1 & L1 & O1 & _ & FM1 & _). apply IH in E; auto; [|apply O1; lia|lia].
      destruct E as (I' & P & OO & FM). split; [auto|]. split; [now rewrite P1|]. auto.
  Qed.
  (** Every element gets compared. *)
  Definition compared i (h : list A) (j : nat) : Prop := ((0 < j)%nat /\ (i <= par j)%nat) \/ ((i <= j)%nat /\ (2 * j + 1 < length h)%nat).
  Lemma heapify_from_fresh i s h s' h' : Inv s -> (forall j, (0 < j)%nat -> (i <= par j)%nat -> ord h j) ->
    (2 * i <= length h)%nat -> (forall j c, nth_error h j = Some c -> compared i h j -> fresh s c) ->
    heapify_from lt s h i = (s', h') -> forall j c, nth_error h' j = Some c -> compared 0 h' j -> fresh s' c.
  Proof using LT FRESH.
    revert s h; induction i as [|i IH]; intros s h I O L F; cbn [heapify_from].
    - intros E. injection E as <- <-. auto.
    - destruct (siftup s h i) as [s1 h1] eqn:E1. intros E. apply siftup_spec in E1; auto.
      destruct E1 as (I1 & P1 & L1 & O1 & _ & FM1 & FN & MV). eapply IH; [| | | |exact E]; auto; [apply O1; lia|lia|].
      assert (Q : forall j c, nth_error h j = Some c -> compared i h j -> fresh s1 c).
      { intros j c HC [[J0 PJ]|[J1 J2]].
        - destruct (Nat.eq_dec (par j) i) as [PE|PE]; [exact (proj1 (FN j c J0 PE HC))|].
          apply FM1, (F j); auto. left. lia.
        - destruct (Nat.eq_dec j i) as [->|NE].
          + destruct (nth_error h (2 * i + 1)) as [ch|] eqn:NC; [|apply nth_error_None in NC; lia].
            apply (FN (2 * i + 1)%nat ch); auto; [lia|apply par_children; lia].
          + apply FM1, (F j); auto. right. lia. }
      intros j c HC CM. assert (CM' : compared i h j) by (unfold compared in *; rewrite L1 in CM; auto).
      destruct (MV _ _ HC) as [H1|(B & j' & B' & H1)]; [eapply Q; eauto|]. apply (Q j'); auto.
      destruct (Nat.eq_dec j' i) as [->|NE]; [right; lia|]. left. apply below_le in B' as LE. apply below_par in B'; lia.
  Qed.
  Lemma heapify_spec s h s' h' : Inv s -> heapify lt s h = (s', h') ->
    Inv s' /\ Permutation h h' /\ heap_ordered h' /\ all_fresh s' h'.
  Proof using LT FRESH.
    intros I E. unfold heapify in E. pose proof (Nat.div2_div (length h)) as D.
    pose proof (Nat.div_mod (length h) 2). pose proof (Nat.mod_upper_bound (length h) 2).
    assert (O : forall j, (0 < j)%nat -> (Nat.div2 (length h) <= par j)%nat -> ord h j).
    { intros j J0 PJ p c _ HC. apply nth_error_lt in HC. 
      pose proof (proj1 (par_children j (par j) J0) eq_refl). lia. }
    assert (L2' : (2 * Nat.div2 (length h) <= length h)%nat) by lia.
    assert (NF : forall j c, nth_error h j = Some c -> compared (Nat.div2 (length h)) h j -> fresh s c).
    { intros j c HC [[J0 PJ]|[J1 J2]]; exfalso; [|lia]. apply nth_error_lt in HC. pose proof (proj1 (par_children j (par j) J0) eq_refl). lia. }
    pose proof (heapify_from_fresh _ _ _ _ _ I O L2' NF E) as F.
    apply heapify_from_spec in E; auto; [|lia]. destruct E as (I' & P & OO & _).
    split; [auto|]. split; [auto|]. split; [auto|]. intros L2. apply Forall_forall. intros x HX.
    apply In_nth_error in HX as [j HX]. apply (F j); auto. destruct j; [right; lia|left; lia].
  Qed.
  Lemma heap_min a t x : heap_ordered (a :: t) -> In x (a :: t) -> key a <= key x.
  Proof using.
    intros O HX. apply In_nth_error in HX as [j HX]. revert x HX. induction j as [j IH] using lt_wf_ind. intros x HX.
    destruct (Nat.eq_dec j 0) as [->|J0]; [injection HX as <-; lia|].
    assert (PJ : (par j < j)%nat) by (apply par_lt; lia).
    destruct (nth_error (a :: t) (par j)) as [p|] eqn:NP; [|apply nth_error_None in NP; apply nth_error_lt in HX; lia].
    specialize (IH _ PJ _ NP). pose proof (O j ltac:(lia) ltac:(lia) p x NP HX). lia.
  Qed.

  (** The elements that have children are fresh: preserved by all operations on
      the root and by heappush.  ([bad]: an element that need not be.) *)
  Definition inner_fresh s (h : list A) (bad : nat -> Prop) : Prop :=
    forall j c, nth_error h j = Some c -> (2 * j + 1 < length h)%nat -> ~ bad j -> fresh s c.
  Lemma siftdown_inner fuel s h start pos new s' h' : Inv s -> below start pos -> (pos < length h)%nat -> (pos < fuel)%nat ->
    inner_fresh s h (fun j => j = pos \/ ((start < pos)%nat /\ j = par pos)) ->
    ((start < pos)%nat \/ fresh s new \/ (length h <= 2 * pos + 1)%nat) ->
    siftdown fuel s h start pos new = (s', h') -> inner_fresh s' h' (fun _ => False).
  Proof using LT FRESH.
    revert s h pos; induction fuel as [|fuel IH]; intros s h pos I B L FU IF N; cbn [Heap.siftdown]; [lia|].
    destruct (Nat.ltb_spec start pos) as [SP|SP].
    - destruct (below_par _ _ B SP) as [B' SL]. fold (par pos).
      assert (PL : (par pos < pos)%nat) by (apply par_lt; lia).
      destruct (nth_error h (par pos)) as [p|] eqn:NP; [|apply nth_error_None in NP; lia].
      destruct (lt s new p) as [b s1] eqn:LE. destruct (LT _ _ _ _ _ I LE) as [-> I1].
      destruct (FRESH _ _ _ _ _ I LE) as (F1 & F2 & F3).
      destruct (Z.ltb_spec (key new) (key p)) as [KL|KL].
      + intros E. apply IH in E; auto; try (rewrite put_length; lia); try lia.
        intros j c HC JL NB. rewrite put_length in JL. destruct (Nat.eq_dec j pos) as [->|NJ].
        * rewrite put_same in HC by auto. injection HC as <-. auto.
        * rewrite put_other in HC by auto. apply F3, (IF j); auto. intros [X|[_ X]]; [auto|]. apply NB. now left.
      + intros E. injection E as <- <-. intros j c HC JL _. rewrite put_length in JL.
        destruct (Nat.eq_dec j pos) as [->|NJ].
        * rewrite put_same in HC by auto. injection HC as <-. auto.
        * rewrite put_other in HC by auto. destruct (Nat.eq_dec j (par pos)) as [->|NJ2].
          -- rewrite NP in HC. injection HC as <-. auto.
          -- apply F3, (IF j); auto. intros [X|[_ X]]; auto.
    - intros E. injection E as <- <-. intros j c HC JL _. rewrite put_length in JL.
      destruct (Nat.eq_dec j pos) as [->|NJ].
      + rewrite put_same in HC by auto. injection HC as <-. destruct N as [N|[N|N]]; auto; lia.
      + rewrite put_other in HC by auto. apply (IF j); auto. intros [X|[X _]]; auto; lia.
  Qed.
  Lemma to_leaf_inner fuel s h pos s' h' leaf : Inv s -> (pos < length h)%nat -> (length h <= pos + fuel)%nat ->
    inner_fresh s h (fun j => j = pos) -> sift_to_leaf fuel s h pos = (s', h', leaf) ->
    Inv s' /\ length h' = length h /\ (pos <= leaf < length h)%nat /\ (length h <= 2 * leaf + 1)%nat /\
    inner_fresh s' h' (fun j => j = leaf \/ ((pos < leaf)%nat /\ j = par leaf)).
  Proof using LT FRESH.
    revert s h pos; induction fuel as [|fuel IH]; intros s h pos I L FU IF; cbn [Heap.sift_to_leaf]; [lia|].
    destruct (nth_error h (2 * pos + 1)) as [cl|] eqn:NL.
    2:{ intros E. injection E as <- <- <-. apply nth_error_None in NL. split; [auto|]. split; [auto|]. split; [lia|]. split; [lia|].
        intros j c HC JL NB. apply (IF j); auto. }
    replace (2 * pos + 1 + 1)%nat with (2 * pos + 2)%nat by lia.
    pose proof (nth_error_lt _ _ _ NL) as LL.
    assert (STEP : forall s1 cp ch, Inv s1 -> (cp = 2 * pos + 1 \/ cp = 2 * pos + 2)%nat -> nth_error h cp = Some ch ->
      (forall c, fresh s c -> fresh s1 c) -> (fresh s1 ch \/ (length h <= 2 * cp + 1)%nat) ->
      sift_to_leaf fuel s1 (put h pos ch) cp = (s', h', leaf) ->
      Inv s' /\ length h' = length h /\ (pos <= leaf < length h)%nat /\ (length h <= 2 * leaf + 1)%nat /\
      inner_fresh s' h' (fun j => j = leaf \/ ((pos < leaf)%nat /\ j = par leaf))).
    { intros s1 cp ch I1 CP HCP FM FR E. assert (LC := nth_error_lt _ _ _ HCP).
      assert (PCP : par cp = pos) by (apply par_children; lia).
      destruct FR as [FR|FR].
      - apply IH in E; auto; try (rewrite put_length; lia).
        + destruct E as (I' & L' & R & LF & IF'). rewrite put_length in *. split; [auto|]. split; [auto|]. split; [lia|]. split; [auto|].
          intros j c HC JL NB. apply (IF' j); auto. intros [X|[X Y]]; apply NB; [now left|right; lia].
        + intros j c HC JL NJ. rewrite put_length in JL. destruct (Nat.eq_dec j pos) as [->|NP].
          * rewrite put_same in HC by auto. injection HC as <-. auto.
          * rewrite put_other in HC by auto. apply FM, (IF j); auto.
      - destruct fuel as [|fuel']; [lia|]. cbn [Heap.sift_to_leaf] in E.
        assert (NN : nth_error (put h pos ch) (2 * cp + 1) = None) by (apply nth_error_None; rewrite put_length; lia).
        rewrite NN in E. injection E as <- <- <-. rewrite put_length. split; [auto|]. split; [auto|]. split; [lia|]. split; [auto|].
        intros j c HC JL NB. rewrite put_length in JL. destruct (Nat.eq_dec j pos) as [->|NP].
        + exfalso. apply NB. right. lia.
        + rewrite put_other in HC by auto. apply FM, (IF j); auto. }
    destruct (nth_error h (2 * pos + 2)) as [cr|] eqn:NR.
    - destruct (lt s cl cr) as [b s1] eqn:LE. destruct (LT _ _ _ _ _ I LE) as [-> I1].
      destruct (FRESH _ _ _ _ _ I LE) as (F1 & F2 & F3).
      destruct (key cl <? key cr); apply STEP; auto.
    - apply STEP; auto. right. apply nth_error_None in NR. lia.
  Qed.
  Lemma root_siftup_inner s h s' h' : Inv s -> inner_fresh s h (fun j => j = 0%nat) ->
    siftup s h 0 = (s', h') -> inner_fresh s' h' (fun _ => False).
  Proof using LT FRESH.
    intros I IF. unfold Heap.siftup. destruct (nth_error h 0) as [new|] eqn:N.
    2:{ intros E. injection E as <- <-. apply nth_error_None in N. intros j c HC JL. lia. }
    pose proof (nth_error_lt _ _ _ N) as LS.
    destruct (sift_to_leaf (length h) s h 0) as [[s1 h1] leaf] eqn:E1.
    apply to_leaf_inner in E1; auto. destruct E1 as (I1 & L1 & R & LF & IF1). intros E.
    eapply siftdown_inner; [exact I1|apply below_0| | | | |exact E]; try lia.
    - intros j c HC JL NB. apply (IF1 j); auto.
  Qed.
  Lemma heappush_inner s h x s' h' : Inv s -> inner_fresh s h (fun _ => False) -> heappush lt s h x = (s', h') ->
    inner_fresh s' h' (fun _ => False).
  Proof using LT FRESH.
    intros I IF. unfold heappush. intros E. eapply siftdown_inner; [exact I|apply below_0| | | | |exact E]; rewrite ?app_length; cbn [length]; try lia.
    intros j c HC JL NB. rewrite app_length in JL. cbn [length] in JL.
    assert (2 * j + 1 <> length h)%nat.
    { intros X. apply NB. right. split; [lia|]. symmetry. apply par_children; lia. }
    rewrite nth_error_app1 in HC by lia. apply (IF j); auto. lia.
  Qed.
  Lemma heapreplace_inner s a t s' h' x : Inv s -> inner_fresh s (a :: t) (fun j => j = 0%nat) ->
    heapreplace lt s (a :: t) x = Some (s', h') -> inner_fresh s' h' (fun _ => False).
  Proof using LT FRESH.
    intros I IF E. cbn [heapreplace] in E. injection E as E. eapply root_siftup_inner; [exact I| |exact E].
    intros [|j] c HC JL NB; [congruence|]. apply (IF (Datatypes.S j)); auto.
  Qed.
  Lemma heappop_inner s a t s' h' : Inv s -> inner_fresh s (a :: t) (fun j => j = 0%nat) ->
    heappop lt s (a :: t) = Some (s', h') -> inner_fresh s' h' (fun _ => False).
  Proof using LT FRESH.
    intros I IF E. unfold heappop in E. destruct (rev (a :: t)) as [|last r] eqn:R; [discriminate|].
    assert (AT : a :: t = rev r ++ [last]) by (rewrite <- (rev_involutive (a :: t)), R; reflexivity).
    destruct (rev r) as [|b t'] eqn:RR.
    - injection E as <- <-. intros j c HC JL. cbn in JL. lia.
    - injection AT as <- ->. injection E as E. cbn [put] in E. eapply root_siftup_inner; [exact I| |exact E].
      intros [|j] c HC JL NB; [congruence|]. cbn [nth_error] in HC. apply (IF (Datatypes.S j)); auto.
      + cbn [nth_error]. rewrite nth_error_app1; auto. eapply nth_error_lt; eauto.
      + cbn [length] in *. rewrite app_length. cbn. lia.
  Qed.
End H.

(** Whatever the comparison answers, no element is lost or duplicated. *)
Section Perm.
  Context {S A : Type} (lt : S -> A -> A -> bool * S) (Inv : S -> Prop).
  Context (LTI : forall s a b r s', Inv s -> lt s a b = (r, s') -> Inv s').
  Lemma siftdown_perm fuel s h start pos new s' h' : Inv s -> (pos < length h)%nat ->
    siftdown lt fuel s h start pos new = (s', h') -> Inv s' /\ Permutation (put h pos new) h'.
  Proof using LTI.
    revert s h pos; induction fuel as [|fuel IH]; intros s h pos I L; cbn [Heap.siftdown].
    - intros E. injection E as <- <-. auto.
    - destruct (Nat.ltb_spec start pos) as [SP|SP]; [|intros E; injection E as <- <-; auto]. fold (par pos).
      assert (PL : (par pos < pos)%nat) by (apply par_lt; lia).
      destruct (nth_error h (par pos)) as [p|] eqn:NP; [|intros E; injection E as <- <-; auto].
      destruct (lt s new p) as [[] s1] eqn:LE; apply LTI in LE; auto; [|intros E; injection E as <- <-; auto].
      intros E. apply IH in E as [I' P]; auto; [|rewrite put_length; lia]. split; [auto|]. rewrite <- P. apply put_swap; auto; lia.
  Qed.
  Lemma to_leaf_perm fuel s h pos s' h' leaf : Inv s -> (pos < length h)%nat -> sift_to_leaf lt fuel s h pos = (s', h', leaf) ->
    Inv s' /\ (forall new, Permutation (put h pos new) (put h' leaf new)) /\ length h' = length h /\ (leaf < length h)%nat.
  Proof using LTI.
    revert s h pos; induction fuel as [|fuel IH]; intros s h pos I L; cbn [Heap.sift_to_leaf].
    - intros E. injection E as <- <- <-. auto.
    - destruct (nth_error h (2 * pos + 1)) as [cl|] eqn:NL; [|intros E; injection E as <- <- <-; auto].
      replace (2 * pos + 1 + 1)%nat with (2 * pos + 2)%nat by lia.
      assert (STEP : forall s1 cp ch, Inv s1 -> (cp = 2 * pos + 1 \/ cp = 2 * pos + 2)%nat -> nth_error h cp = Some ch ->
        sift_to_leaf lt fuel s1 (put h pos ch) cp = (s', h', leaf) ->
        Inv s' /\ (forall new, Permutation (put h pos new) (put h' leaf new)) /\ length h' = length h /\ (leaf < length h)%nat).
      { intros s1 cp ch I1 CP HCP E. apply nth_error_lt in HCP as LC. apply IH in E; auto; [|rewrite put_length; auto].
        destruct E as (I' & P & L' & LF). rewrite put_length in *. split; [auto|]. split; [|auto].
        intros new. rewrite <- P. apply put_swap; auto. lia. }
      destruct (nth_error h (2 * pos + 2)) as [cr|] eqn:NR; [|intros E; exact (STEP _ _ _ I (or_introl eq_refl) NL E)].
      destruct (lt s cl cr) as [[] s1] eqn:LE; apply LTI in LE; auto; intros E;
        [exact (STEP _ _ _ LE (or_introl eq_refl) NL E)|exact (STEP _ _ _ LE (or_intror eq_refl) NR E)].
  Qed.
  Lemma siftup_perm s h pos s' h' : Inv s -> siftup lt s h pos = (s', h') -> Inv s' /\ Permutation h h'.
  Proof using LTI.
    intros I. unfold siftup. destruct (nth_error h pos) as [new|] eqn:N; [|intros E; injection E as <- <-; auto].
    destruct (sift_to_leaf lt (length h) s h pos) as [[s1 h1] leaf] eqn:E1. apply to_leaf_perm in E1; auto; [|eapply nth_error_lt; eauto].
    destruct E1 as (I1 & P1 & L1 & LF). intros E. apply siftdown_perm in E as [I' P]; auto; [|lia].
    split; [auto|]. rewrite <- P, <- P1. now rewrite put_id.
  Qed.
  Lemma heappush_perm s h x s' h' : Inv s -> heappush lt s h x = (s', h') -> Inv s' /\ Permutation (x :: h) h'.
  Proof using LTI.
    intros I E. unfold heappush in E. apply siftdown_perm in E as [I' P]; auto; [|rewrite app_length; cbn; lia].
    split; [auto|]. rewrite <- P, put_id; [apply Permutation_cons_append|].
    rewrite nth_error_app2, Nat.sub_diag by lia. reflexivity.
  Qed.
  Lemma heapreplace_perm s a t s' h' x : Inv s -> heapreplace lt s (a :: t) x = Some (s', h') -> Inv s' /\ Permutation (x :: t) h'.
  Proof using LTI. intros I E. cbn [heapreplace] in E. injection E as E. now apply siftup_perm in E. Qed.
  Lemma heappop_perm s a t s' h' : Inv s -> heappop lt s (a :: t) = Some (s', h') -> Inv s' /\ Permutation t h'.
  Proof using LTI.
    intros I E. unfold heappop in E. destruct (rev (a :: t)) as [|last r] eqn:R; [discriminate|].
    assert (AT : a :: t = rev r ++ [last]) by (rewrite <- (rev_involutive (a :: t)), R; reflexivity).
    destruct (rev r) as [|b t'] eqn:RR.
    - injection E as <- <-. destruct t; [auto|destruct t; discriminate].
    - injection AT as <- ->. injection E as E. cbn [put] in E. apply siftup_perm in E as [I' P]; auto. split; [auto|].
      rewrite <- P. symmetry. apply Permutation_cons_append.
  Qed.
  Lemma heappop_some s a t : heappop lt s (a :: t) <> None.
  Proof using.
    unfold heappop. destruct (rev (a :: t)) as [|x r] eqn:R; [|destruct (rev r); discriminate].
    apply (f_equal (@length A)) in R. rewrite rev_length in R. discriminate.
  Qed.
  Lemma heapify_perm s h s' h' : Inv s -> heapify lt s h = (s', h') -> Inv s' /\ Permutation h h'.
  Proof using LTI.
    unfold heapify. generalize (Nat.div2 (length h)) as i. intros i; revert s h; induction i as [|i IH]; intros s h I; cbn [heapify_from].
    - intros E. injection E as <- <-. auto.
    - destruct (siftup lt s h i) as [s1 h1] eqn:E1. apply siftup_perm in E1 as [I1 P1]; auto. intros E.
      apply IH in E as [I' P]; auto. split; [auto|]. now rewrite P1.
  Qed.
End Perm.
