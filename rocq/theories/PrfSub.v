(** PrfSub.v -- subbytes viewed as the list of bytes it represents. *)
From Verif Require Export PrfBase Utils.

Definition sb_wf (s : subbytes) : Prop :=
  0 <= sb_start s <= sb_stop s /\ sb_stop s <= zlen (sb_data s).

Definition sb_view (s : subbytes) : bytes :=
  firstn (Z.to_nat (sb_stop s - sb_start s)) (skipn (Z.to_nat (sb_start s)) (sb_data s)).

Definition sb_drop (n : Z) (s : subbytes) : subbytes :=
  mkSub (sb_data s) (sb_start s + n) (sb_stop s).

Definition sb_whole (l : bytes) : subbytes := mkSub l 0 (zlen l).

Lemma sb_whole_wf l : sb_wf (sb_whole l).
Proof. unfold sb_wf, sb_whole; cbn. pose proof (zlen_nonneg l); lia. Qed.
Lemma sb_whole_view l : sb_view (sb_whole l) = l.
Proof. unfold sb_view, sb_whole; cbn. rewrite Z.sub_0_r, to_nat_zlen. apply firstn_all. Qed.

Lemma sb_view_zlen s : sb_wf s -> zlen (sb_view s) = sb_stop s - sb_start s.
Proof. intros [H1 H2]. unfold sb_view. zl. lia. Qed.

Lemma sb_new_sub s : sb_new (ASub s) None None = s.
Proof. destruct s; reflexivity. Qed.
Lemma sb_new_bytes l : sb_new (ABytes l) None None = sb_whole l.
Proof. reflexivity. Qed.

Lemma sb_new_gen d a b : sb_new d a b =
  sb_new (ASub (sb_new d None None)) a b.
Proof. destruct d as [l|s]; [reflexivity|]. rewrite sb_new_sub. reflexivity. Qed.

Lemma nth_error_view s k : sb_wf s -> 0 <= k < sb_stop s - sb_start s ->
  nth_error (sb_view s) (Z.to_nat k) = nth_error (sb_data s) (Z.to_nat (sb_start s + k)).
Proof.
  intros [H1 H2] Hk. unfold sb_view.
  rewrite <- (firstn_skipn (Z.to_nat (sb_start s)) (sb_data s)) at 2.
  rewrite nth_error_app2 by (rewrite firstn_length; unfold zlen in *; lia).
  rewrite firstn_length.
  replace (Z.to_nat (sb_start s + k) - Nat.min (Z.to_nat (sb_start s)) (length (sb_data s)))%nat
    with (Z.to_nat k) by (unfold zlen in *; lia).
  rewrite <- (firstn_skipn (Z.to_nat (sb_stop s - sb_start s)) (skipn _ _)) at 2.
  rewrite nth_error_app1; [reflexivity|].
  rewrite firstn_length, skipn_length. unfold zlen in *; lia.
Qed.

Lemma py_index_nth {A} (l : list A) i x : nth_error l (Z.to_nat i) = Some x -> 0 <= i ->
  py_index l i = Ok x.
Proof.
  intros H Hi. assert (Z.to_nat i < length l)%nat by (apply nth_error_Some; congruence).
  destruct (py_index_ok l i) as (y & E1 & E2); [unfold zlen; lia|]. congruence.
Qed.

Lemma sb_deref_cons s b r : sb_wf s -> sb_view s = b :: r -> sb_dereference s = Ok b.
Proof.
  intros Hw Hv. pose proof (sb_view_zlen s Hw) as Hl. rewrite Hv in Hl. zl.
  pose proof (zlen_nonneg r). unfold sb_dereference, sb_getitem, sb_translate.
  cbn. rewrite Z.add_0_l. destruct (sb_stop s <=? sb_start s) eqn:E; [lia|].
  apply py_index_nth; [|destruct Hw; lia].
  rewrite <- (Z.add_0_r (sb_start s)), <- nth_error_view by (auto; lia).
  now rewrite Hv.
Qed.
Lemma sb_deref_nil s : sb_wf s -> sb_view s = [] -> sb_dereference s = Raise IndexError.
Proof.
  intros Hw Hv. pose proof (sb_view_zlen s Hw) as Hl. rewrite Hv in Hl. zl.
  unfold sb_dereference, sb_getitem, sb_translate.
  cbn. rewrite Z.add_0_l. destruct (sb_stop s <=? sb_start s) eqn:E; [|lia].
  apply py_index_ge; lia.
Qed.

Lemma sb_drop_0 s : sb_drop 0 s = s.
Proof. destruct s; unfold sb_drop; cbn; now rewrite Z.add_0_r. Qed.
Lemma sb_drop_drop a b s : sb_drop a (sb_drop b s) = sb_drop (b + a) s.
Proof. unfold sb_drop; cbn. f_equal. lia. Qed.
Lemma sb_drop_data n s : sb_data (sb_drop n s) = sb_data s. Proof. reflexivity. Qed.

Lemma sb_drop_wf n s : sb_wf s -> 0 <= n <= zlen (sb_view s) -> sb_wf (sb_drop n s).
Proof. intros Hw Hn. rewrite sb_view_zlen in Hn by auto. destruct Hw. unfold sb_wf; cbn. lia. Qed.
Lemma sb_drop_view n s : sb_wf s -> 0 <= n <= zlen (sb_view s) ->
  sb_view (sb_drop n s) = skipn (Z.to_nat n) (sb_view s).
Proof.
  intros Hw Hn. rewrite sb_view_zlen in Hn by auto. destruct Hw.
  unfold sb_view; cbn. rewrite skipn_firstn_comm, skipn_skipn'.
  f_equal; [lia|f_equal; lia].
Qed.
Lemma sb_drop_app s a r : sb_wf s -> sb_view s = a ++ r ->
  sb_wf (sb_drop (zlen a) s) /\ sb_view (sb_drop (zlen a) s) = r.
Proof.
  intros Hw Hv. assert (0 <= zlen a <= zlen (sb_view s)).
  { rewrite Hv. zl. pose proof (zlen_nonneg a); pose proof (zlen_nonneg r); lia. }
  split; [now apply sb_drop_wf|]. rewrite sb_drop_view, Hv by auto. apply skipn_zlen_app.
Qed.

Lemma sb_advance_cons s b r : sb_wf s -> sb_view s = b :: r -> sb_advance s = sb_drop 1 s.
Proof.
  intros Hw Hv. pose proof (sb_view_zlen s Hw) as Hl. rewrite Hv in Hl. zl.
  pose proof (zlen_nonneg r).
  unfold sb_advance, sb_new, sb_translate, sb_drop. cbn.
  destruct (sb_stop s <=? 1 + sb_start s) eqn:E; f_equal; lia.
Qed.
Lemma sb_drop_cons s b r : sb_wf s -> sb_view s = b :: r ->
  sb_wf (sb_drop 1 s) /\ sb_view (sb_drop 1 s) = r.
Proof. intros Hw Hv. apply (sb_drop_app s [b] r Hw). exact Hv. Qed.

Lemma sb_new_stop_wf s n : sb_wf s -> 0 <= n ->
  sb_new (ASub s) None (Some n) = mkSub (sb_data s) (sb_start s) (Z.min (sb_start s + n) (sb_stop s)).
Proof.
  intros [H1 H2] Hn. unfold sb_new, sb_translate. destruct (n <? 0) eqn:E; [lia|].
  destruct (sb_stop s <=? n + sb_start s) eqn:E2; f_equal; lia.
Qed.
Lemma sb_new_start_wf s n : sb_wf s -> 0 <= n ->
  sb_new (ASub s) (Some n) None = mkSub (sb_data s) (Z.min (sb_start s + n) (sb_stop s)) (sb_stop s).
Proof.
  intros [H1 H2] Hn. unfold sb_new, sb_translate. destruct (n <? 0) eqn:E; [lia|].
  destruct (sb_stop s <=? n + sb_start s) eqn:E2; f_equal; lia.
Qed.

Lemma sb_split_spec s n : sb_wf s -> 0 <= n ->
  let '(h, t) := sb_split s n in
  sb_wf h /\ sb_wf t /\ sb_view h = firstn (Z.to_nat n) (sb_view s) /\
  sb_view t = skipn (Z.to_nat n) (sb_view s) /\
  sb_data h = sb_data s /\ sb_data t = sb_data s /\
  sb_start h = sb_start s /\ sb_stop h = sb_start t /\ sb_stop t = sb_stop s.
Proof.
  intros Hw Hn. unfold sb_split. rewrite sb_new_stop_wf, sb_new_start_wf by auto.
  pose proof Hw as [H1 H2]. cbn.
  repeat split; cbn; try lia.
  - unfold sb_view; cbn. rewrite firstn_firstn. f_equal. lia.
  - destruct (Z.leb_spec n (sb_stop s - sb_start s)).
    + rewrite Z.min_l by lia. change (mkSub _ _ _) with (sb_drop n s).
      apply sb_drop_view; auto. rewrite sb_view_zlen by auto; lia.
    + rewrite Z.min_r by lia. unfold sb_view at 1; cbn.
      rewrite Z.sub_diag. cbn. symmetry. apply skipn_all2.
      unfold sb_view. rewrite firstn_length. lia.
Qed.

Lemma sb_len_wf s : sb_wf s -> sb_len s = Ok (zlen (sb_view s)).
Proof. intros Hw. unfold sb_len. rewrite sb_view_zlen by auto. destruct Hw.
  destruct (sb_stop s - sb_start s <? 0) eqn:E; [lia|reflexivity]. Qed.
Lemma sb_bool_wf s : sb_wf s -> sb_bool s = match sb_view s with [] => false | _ => true end.
Proof. intros Hw. pose proof (sb_view_zlen s Hw) as Hl. unfold sb_bool.
  destruct (sb_view s) as [|b r]; zl; [|pose proof (zlen_nonneg r)]; lia. Qed.
Lemma sb_getslice_all s : sb_wf s -> sb_getslice s None None = sb_view s.
Proof.
  intros [H1 H2]. unfold sb_getslice, py_slice, sb_view, slice_bound.
  destruct (sb_start s <? 0) eqn:E; [lia|]. destruct (sb_stop s <? 0) eqn:E2; [lia|].
  f_equal; [lia|f_equal; lia].
Qed.

(** Asn1Data *)
Definition ad_wf (d : asn1data) : Prop :=
  match d with ABytes _ => True | ASub s => sb_wf s end.
Definition ad_view (d : asn1data) : bytes :=
  match d with ABytes l => l | ASub s => sb_view s end.
Lemma adata_bytes_view d : ad_wf d -> adata_bytes d = ad_view d.
Proof. destruct d; [reflexivity|apply sb_getslice_all]. Qed.
Lemma sb_new_ad d : ad_wf d ->
  sb_wf (sb_new d None None) /\ sb_view (sb_new d None None) = ad_view d.
Proof. destruct d as [l|s]; intros H.
  - split; [apply sb_whole_wf|apply sb_whole_view].
  - rewrite sb_new_sub; auto. Qed.

Lemma sb_view_ok s : bytes_ok (sb_data s) -> bytes_ok (sb_view s).
Proof. intros; unfold sb_view; auto with bytes. Qed.
Definition ad_data (d : asn1data) : bytes := match d with ABytes l => l | ASub s => sb_data s end.
Lemma ad_view_ok d : bytes_ok (ad_data d) -> bytes_ok (ad_view d).
Proof. destruct d; cbn; auto using sb_view_ok. Qed.

Lemma skipn_nth_cons {A} (l : list A) k x : nth_error l k = Some x ->
  skipn k l = x :: skipn (S k) l.
Proof.
  revert l; induction k as [|k IH]; intros [|y l] H; try discriminate.
  - now inversion H.
  - cbn in H. cbn [skipn]. now apply IH.
Qed.
Lemma sb_iter_wf s : sb_wf s -> sb_iter s = Ok (sb_view s).
Proof.
  intros Hw. pose proof Hw as [H1 H2].
  unfold sb_iter.
  assert (G : forall n k, (k + n <= Z.to_nat (sb_stop s - sb_start s))%nat ->
    fold_right (fun (i : Z) (acc : res (list Z)) =>
       do x <- py_index (sb_data s) i; do l <- acc; Ok (x :: l)) (Ok [])
      (map (fun k0 => sb_start s + Z.of_nat k0) (seq k n)) =
    Ok (firstn n (skipn k (sb_view s)))).
  { induction n as [|n IH]; intros k Hk; [reflexivity|].
    cbn [seq map fold_right]. rewrite IH by lia.
    destruct (nth_error (sb_view s) k) as [x|] eqn:E.
    - rewrite <- (Nat2Z.id k), nth_error_view in E by (auto; lia).
      rewrite (py_index_nth _ _ x) by (auto; lia).
      rewrite <- nth_error_view, Nat2Z.id in E by (auto; lia).
      rewrite (skipn_nth_cons _ _ _ E). reflexivity.
    - apply nth_error_None in E. pose proof (sb_view_zlen s Hw). unfold zlen in *. lia. }
  rewrite (G _ O) by lia. cbn [skipn]. f_equal.
  pose proof (sb_view_zlen s Hw). apply firstn_all2. unfold zlen in *; lia.
Qed.

Lemma sb_eq_bytes_wf s l : sb_wf s -> sb_eq_bytes s l = Ok (zlist_eqb (sb_view s) l).
Proof.
  intros Hw. unfold sb_eq_bytes. rewrite sb_len_wf, sb_iter_wf by auto. cbn.
  destruct (zlen (sb_view s) =? zlen l) eqn:E; [reflexivity|]. cbn. f_equal. symmetry.
  apply zlist_eqb_neq. intros E2. rewrite E2 in E. lia.
Qed.

Lemma sb_replace_wf s r : sb_wf s ->
  sb_replace s r = firstn (Z.to_nat (sb_start s)) (sb_data s) ++ r
                   ++ skipn (Z.to_nat (sb_stop s)) (sb_data s).
Proof.
  intros [H1 H2]. unfold sb_replace, py_slice, slice_bound.
  destruct (sb_start s <? 0) eqn:E; [lia|]. destruct (sb_stop s <? 0) eqn:E2; [lia|].
  cbn [Z.to_nat skipn]. f_equal; [f_equal; lia|]. f_equal.
  rewrite Z.min_l by lia. apply firstn_all2. rewrite skipn_length. unfold zlen in *; lia.
Qed.
Lemma sb_data_split s : sb_wf s ->
  sb_data s = firstn (Z.to_nat (sb_start s)) (sb_data s) ++ sb_view s
              ++ skipn (Z.to_nat (sb_stop s)) (sb_data s).
Proof.
  intros [H1 H2].
  rewrite <- (firstn_skipn (Z.to_nat (sb_start s)) (sb_data s)) at 1. f_equal.
  rewrite <- (firstn_skipn (Z.to_nat (sb_stop s - sb_start s)) (skipn _ _)) at 1.
  unfold sb_view. f_equal. rewrite skipn_skipn'. f_equal. lia.
Qed.
