(** PrfUtils.v -- NumberGenerator and subbytes (C21, C22). *)
From Verif Require Export PrfSub SpecUtils.
From Coq Require Import Znumtheory Zpow_facts.

(** ** NumberGenerator *)
Lemma numgen_next_out g : fst (numgen_next g) = ng_previous (snd (numgen_next g)).
Proof. reflexivity. Qed.

Definition lo_of (n : Z) (signed : bool) : Z := if signed then - 2 ^ (n - 1) else 0.
Definition hi_of (n : Z) (signed : bool) : Z := if signed then 2 ^ (n - 1) - 1 else 2 ^ n - 1.

Lemma pow2_split n : 1 <= n -> 2 ^ n = 2 * 2 ^ (n - 1).
Proof. intros. rewrite <- Z.pow_succ_r by lia. f_equal. lia. Qed.

Lemma numgen_inv n signed r k : 1 <= n -> 1 <= r <= 2 ^ (n - 1) ->
  let g := numgen_after (numgen_init n signed r) k in
  ng_range g = 2 ^ n /\ ng_step g = 2 * r - 1 /\ ng_wrap g = hi_of n signed /\
  lo_of n signed <= ng_previous g <= hi_of n signed /\
  exists q, ng_previous g = Z.of_nat k * (2 * r - 1) - q * 2 ^ n.
Proof.
  intros Hn Hr. pose proof (pow2_split n Hn) as HP.
  assert (0 < 2 ^ (n - 1)) by (apply Z.pow_pos_nonneg; lia).
  induction k as [|k IH]; cbn [numgen_after].
  - cbn. rewrite !Z.shiftl_mul_pow2 by lia. change (2 ^ 1) with 2. unfold lo_of, hi_of.
    repeat split; try lia; try (destruct signed; lia).
    exists 0. change (Z.of_nat 0) with 0. lia.
  - set (g := numgen_after (numgen_init n signed r) k) in *. cbv zeta in IH.
    destruct IH as (I1 & I2 & I3 & I4 & q & I5). cbv zeta. unfold numgen_next. cbn [snd ng_previous ng_range ng_step ng_wrap].
    rewrite I1, I2, I3. destruct (hi_of n signed <? ng_previous g + (2 * r - 1)) eqn:E.
    + repeat split; auto; try (unfold lo_of, hi_of in *; destruct signed; lia).
      exists (q + 1). rewrite I5. lia.
    + repeat split; auto; try (unfold lo_of, hi_of in *; destruct signed; lia).
      exists q. rewrite I5. lia.
Qed.

Lemma odd_coprime_pow2 r n : 0 <= n -> rel_prime (2 * r - 1) (2 ^ n).
Proof.
  intros Hn. apply rel_prime_Zpower_r; [lia|].
  apply bezout_rel_prime. apply Bezout_intro with (-1) r. lia.
Qed.

Lemma numgen_eq_iff n signed r i j : 1 <= n -> 1 <= r <= 2 ^ (n - 1) ->
  (numgen_nth (numgen_init n signed r) i = numgen_nth (numgen_init n signed r) j <->
   (2 ^ n | Z.of_nat i - Z.of_nat j)).
Proof.
  intros Hn Hr. unfold numgen_nth.
  pose proof (numgen_inv n signed r i Hn Hr) as (_ & _ & _ & B1 & q1 & E1).
  pose proof (numgen_inv n signed r j Hn Hr) as (_ & _ & _ & B2 & q2 & E2).
  set (a := ng_previous (numgen_after _ i)) in *. set (b := ng_previous (numgen_after _ j)) in *.
  assert (HP : 0 < 2 ^ n) by (apply Z.pow_pos_nonneg; lia).
  split.
  - intros E. apply Gauss with (2 * r - 1); [|apply rel_prime_sym, odd_coprime_pow2; lia].
    exists (q1 - q2). lia.
  - intros [q Hq].
    assert (HD : (2 ^ n | a - b)) by (exists (q * (2 * r - 1) - q1 + q2); rewrite E1, E2; nia).
    destruct HD as [t Ht]. pose proof (pow2_split n Hn).
    assert (Hlt : -2 ^ n < a - b < 2 ^ n) by (unfold lo_of, hi_of in *; destruct signed; lia).
    assert (t = 0) by nia. subst t. lia.
Qed.

Lemma numgen_surj n signed r x : 1 <= n -> 1 <= r <= 2 ^ (n - 1) ->
  lo_of n signed <= x <= hi_of n signed ->
  exists k, (1 <= Z.of_nat k <= 2 ^ n) /\ numgen_nth (numgen_init n signed r) k = x.
Proof.
  intros Hn Hr Hx. assert (HP : 0 < 2 ^ n) by (apply Z.pow_pos_nonneg; lia).
  destruct (rel_prime_bezout _ _ (odd_coprime_pow2 r n ltac:(lia))) as [u v Huv].
  set (m := (u * x) mod 2 ^ n). pose proof (Z.mod_pos_bound (u * x) (2 ^ n) HP) as Hm. fold m in Hm.
  set (k := if m =? 0 then 2 ^ n else m).
  assert (Hk : 1 <= k <= 2 ^ n) by (unfold k; destruct (m =? 0) eqn:E; lia).
  exists (Z.to_nat k). split; [lia|].
  pose proof (numgen_inv n signed r (Z.to_nat k) Hn Hr) as (_ & _ & _ & B1 & q1 & E1).
  unfold numgen_nth. set (a := ng_previous _) in *. rewrite Z2Nat.id in E1 by lia.
  assert (Hkm : exists t, k = u * x + t * 2 ^ n).
  { pose proof (Z.div_mod (u * x) (2 ^ n) ltac:(lia)) as D. fold m in D.
    unfold k. destruct (m =? 0) eqn:E.
    - exists (1 - u * x / 2 ^ n). lia.
    - exists (- (u * x / 2 ^ n)). lia. }
  destruct Hkm as [t Ht].
  assert (HD : exists t, a - x = t * 2 ^ n).
  { exists (t * (2 * r - 1) - q1 - v * x). rewrite E1, Ht.
    assert (HU : u * (2 * r - 1) = 1 - v * 2 ^ n) by lia.
    transitivity (x * (u * (2 * r - 1)) + t * 2 ^ n * (2 * r - 1) - q1 * 2 ^ n - x); [ring|].
    rewrite HU. ring. }
  destruct HD as [s Hs]. pose proof (pow2_split n Hn).
  assert (- 2 ^ n < a - x < 2 ^ n) by (unfold lo_of, hi_of in *; destruct signed; lia).
  assert (s = 0) by nia. subst s. lia.
Qed.

(** ** subbytes *)
Lemma translate_clamp s i : sb_wf s ->
  sb_translate s i true = sb_start s + slice_bound (zlen (sb_view s)) i.
Proof.
  intros Hw. rewrite sb_view_zlen by auto. destruct Hw. unfold sb_translate, slice_bound.
  destruct (i <? 0) eqn:E.
  - destruct (i + sb_stop s <? sb_start s) eqn:E2; lia.
  - destruct (sb_stop s <=? i + sb_start s) eqn:E2; lia.
Qed.
Lemma slice_bound_range n i : 0 <= n -> 0 <= slice_bound n i <= n.
Proof. intros. unfold slice_bound. destruct (i <? 0) eqn:E; lia. Qed.

Lemma lower_range n o : 0 <= n -> 0 <= lower n o <= n.
Proof. intros; destruct o; cbn; [now apply slice_bound_range|lia]. Qed.
Lemma upper_range n o : 0 <= n -> 0 <= upper n o <= n.
Proof. intros; destruct o; cbn; [now apply slice_bound_range|lia]. Qed.

Lemma sub_start_eq s o : sb_wf s ->
  match o with None => sb_start s | Some i => sb_translate s i true end = sb_start s + lower (zlen (sb_view s)) o.
Proof. intros Hw. destruct o; cbn; [now apply translate_clamp|lia]. Qed.
Lemma sub_stop_eq s o : sb_wf s ->
  match o with None => sb_stop s | Some i => sb_translate s i true end = sb_start s + upper (zlen (sb_view s)) o.
Proof. intros Hw. destruct o; cbn; [now apply translate_clamp|]. rewrite sb_view_zlen by auto. lia. Qed.

Lemma py_slice_bounds {A} (l : list A) a b :
  py_slice l a b = firstn (Z.to_nat (upper (zlen l) b - lower (zlen l) a)) (skipn (Z.to_nat (lower (zlen l) a)) l).
Proof. reflexivity. Qed.

Lemma sb_new_slice s a b : sb_wf s ->
  lower (zlen (sb_view s)) a <= upper (zlen (sb_view s)) b ->
  sb_wf (sb_new (ASub s) a b) /\ sb_data (sb_new (ASub s) a b) = sb_data s /\
  sb_view (sb_new (ASub s) a b) = py_slice (sb_view s) a b.
Proof.
  intros Hw Hle. unfold sb_new. rewrite sub_start_eq, sub_stop_eq by auto.
  pose proof (zlen_nonneg (sb_view s)) as HN.
  pose proof (lower_range _ a HN). pose proof (upper_range _ b HN).
  pose proof (sb_view_zlen s Hw) as HL. pose proof Hw as [H1 H2].
  split; [split; cbn; lia|]. split; [reflexivity|].
  rewrite py_slice_bounds. set (lo := lower _ a) in *. set (hi := upper _ b) in *.
  unfold sb_view at 2. rewrite skipn_firstn_comm, firstn_firstn, skipn_skipn'. unfold sb_view. cbn [sb_start sb_stop sb_data].
  f_equal; [lia|f_equal; lia].
Qed.

Lemma sb_getitem_index s i : sb_wf s -> sb_getitem s i = py_index (sb_view s) i.
Proof.
  intros Hw. pose proof (sb_view_zlen s Hw) as HL. pose proof Hw as [H1 H2].
  unfold sb_getitem, sb_translate.
  destruct (Z.ltb_spec i (- zlen (sb_view s))) as [Hlo|Hlo].
  - destruct (i <? 0) eqn:E; [|lia]. destruct (i + sb_stop s <? sb_start s) eqn:E2; [|lia].
    rewrite py_index_ge by lia. unfold py_index. rewrite E.
    destruct ((i + zlen (sb_view s) <? 0) || (zlen (sb_view s) <=? i + zlen (sb_view s))) eqn:E3; [reflexivity|lia].
  - destruct (Z.leb_spec (zlen (sb_view s)) i) as [Hhi|Hhi].
    + destruct (i <? 0) eqn:E; [lia|]. destruct (sb_stop s <=? i + sb_start s) eqn:E2; [|lia].
      rewrite !py_index_ge by lia. reflexivity.
    + set (j := if i <? 0 then i + zlen (sb_view s) else i).
      assert (Hj : 0 <= j < zlen (sb_view s)) by (unfold j; destruct (i <? 0) eqn:E; lia).
      destruct (py_index_ok (sb_view s) j Hj) as (x & Hx & _).
      assert (HV : py_index (sb_view s) i = Ok x).
      { unfold py_index. fold j. destruct ((j <? 0) || (zlen (sb_view s) <=? j)) eqn:E3; [lia|]. now rewrite Hx. }
      rewrite HV. rewrite nth_error_view in Hx by (auto; lia).
      apply py_index_nth; [|unfold j in *; destruct (i <? 0) eqn:E; [destruct (i + sb_stop s <? sb_start s) eqn:E2|destruct (sb_stop s <=? i + sb_start s) eqn:E2]; lia].
      rewrite <- Hx. f_equal. unfold j in *. destruct (i <? 0) eqn:E; [destruct (i + sb_stop s <? sb_start s) eqn:E2|destruct (sb_stop s <=? i + sb_start s) eqn:E2]; lia.
Qed.

Lemma sb_getslice_slice s a b : sb_wf s -> sb_getslice s a b = py_slice (sb_view s) a b.
Proof.
  intros Hw. unfold sb_getslice. rewrite sub_start_eq, sub_stop_eq by auto.
  pose proof (zlen_nonneg (sb_view s)) as HN.
  pose proof (lower_range _ a HN). pose proof (upper_range _ b HN).
  pose proof (sb_view_zlen s Hw) as HL. pose proof Hw as [H1 H2].
  rewrite !py_slice_bounds. set (lo := lower _ a) in *. set (hi := upper _ b) in *.
  cbn [lower upper]. unfold slice_bound.
  destruct (sb_start s + lo <? 0) eqn:E1; [lia|]. destruct (sb_start s + hi <? 0) eqn:E2; [lia|].
  unfold sb_view. rewrite skipn_firstn_comm, firstn_firstn, skipn_skipn'.
  f_equal; [lia|f_equal; lia].
Qed.

Lemma flat_map_ext_in {A B} (f g : A -> list B) l : (forall x, In x l -> f x = g x) -> flat_map f l = flat_map g l.
Proof. induction l as [|x l IH]; intros H; [reflexivity|]. cbn. rewrite H by (left; auto). f_equal. apply IH. intros; apply H; right; auto. Qed.

Lemma slice_bound_step_pos n step i : 0 < step -> slice_bound_step n step i = if i <? 0 then Z.max 0 (i + n) else Z.min i n.
Proof. intros. unfold slice_bound_step. destruct (step <? 0) eqn:E; [lia|].
  destruct (i <? 0) eqn:E1; [destruct (i + n <? 0) eqn:E2|destruct (n <=? i) eqn:E2]; lia. Qed.
Lemma lower_step n step o : 0 < step -> 
  match o with None => if step <? 0 then n - 1 else 0 | Some i => slice_bound_step n step i end = lower n o.
Proof. intros. destruct o; cbn; [now apply slice_bound_step_pos|]. destruct (step <? 0) eqn:E; lia. Qed.
Lemma upper_step n step o : 0 < step -> 
  match o with None => if step <? 0 then -1 else n | Some i => slice_bound_step n step i end = upper n o.
Proof. intros. destruct o; cbn; [now apply slice_bound_step_pos|]. destruct (step <? 0) eqn:E; lia. Qed.

Lemma sb_getslice_step_slice s a b step : sb_wf s -> 0 < step ->
  sb_getslice_step s a b step = py_slice_ext (sb_view s) a b step.
Proof.
  intros Hw Hst. unfold sb_getslice_step. rewrite sub_start_eq, sub_stop_eq by auto.
  pose proof (zlen_nonneg (sb_view s)) as HN.
  pose proof (lower_range _ a HN). pose proof (upper_range _ b HN).
  pose proof (sb_view_zlen s Hw) as HL. pose proof Hw as [H1 H2].
  unfold py_slice_ext. destruct (step =? 0) eqn:E0; [lia|].
  rewrite (lower_step _ step a), (upper_step _ step b) by auto.
  rewrite !slice_bound_step_pos by auto.
  set (lo := lower _ a) in *. set (hi := upper _ b) in *.
  destruct (sb_start s + lo <? 0) eqn:E1; [lia|]. destruct (sb_start s + hi <? 0) eqn:E2; [lia|].
  rewrite !Z.min_l by lia. destruct (step <? 0) eqn:E3; [lia|].
  f_equal. 
  replace (sb_start s + hi - (sb_start s + lo) - 1) with (hi - lo - 1) by lia.
  replace (sb_start s + lo <? sb_start s + hi) with (lo <? hi) by lia.
  apply flat_map_ext_in. intros k Hk. apply in_seq in Hk.
  destruct (lo <? hi) eqn:E4; [|lia].
  assert (Hkk : Z.of_nat k * step <= hi - lo - 1).
  { assert (Hk1 : Z.of_nat k <= (hi - lo - 1) / step) by lia.
    pose proof (Z.mul_div_le (hi - lo - 1) step Hst). nia. }
  rewrite nth_error_view by (auto; lia). rewrite Z.add_assoc. reflexivity.
Qed.

Lemma sb_split_slices s n : sb_wf s ->
  sb_view (fst (sb_split s n)) = py_slice (sb_view s) None (Some n) /\
  sb_view (snd (sb_split s n)) = py_slice (sb_view s) (Some n) None.
Proof.
  intros Hw. pose proof (zlen_nonneg (sb_view s)) as HN. unfold sb_split. cbn [fst snd]. split.
  - apply sb_new_slice; auto. cbn [lower]. apply upper_range; auto.
  - apply sb_new_slice; auto. cbn [upper]. apply lower_range; auto.
Qed.
