(** PrfBase.v -- lemmas about Python primitives. *)
From Verif Require Export Base.
From Coq Require Export Lia ZifyBool.

#[global] Arguments Z.add : simpl never.
#[global] Arguments Z.sub : simpl never.
#[global] Arguments Z.mul : simpl never.
#[global] Arguments Z.pow : simpl never.
#[global] Arguments Z.div : simpl never.
#[global] Arguments Z.modulo : simpl never.
#[global] Arguments Z.opp : simpl never.
#[global] Arguments Z.of_nat : simpl never.
#[global] Arguments Z.to_nat : simpl never.

Ltac zdm := Z.div_mod_to_equations; nia.

Lemma zlen_nonneg {A} (l : list A) : 0 <= zlen l.
Proof. unfold zlen; lia. Qed.
Lemma zlen_nil {A} : zlen (@nil A) = 0. Proof. reflexivity. Qed.
Lemma zlen_cons {A} (x : A) l : zlen (x :: l) = 1 + zlen l.
Proof. unfold zlen; cbn [length]; lia. Qed.
Lemma zlen_app {A} (a b : list A) : zlen (a ++ b) = zlen a + zlen b.
Proof. unfold zlen; rewrite app_length; lia. Qed.
Lemma zlen_rev {A} (a : list A) : zlen (rev a) = zlen a.
Proof. unfold zlen; rewrite rev_length; lia. Qed.
Lemma zlen_map {A B} (f : A -> B) (a : list A) : zlen (map f a) = zlen a.
Proof. unfold zlen; rewrite map_length; lia. Qed.
Lemma zlen_repeat {A} (x : A) n : zlen (repeat x n) = Z.of_nat n.
Proof. unfold zlen; rewrite repeat_length; lia. Qed.
Lemma zlen_firstn {A} n (l : list A) : zlen (firstn n l) = Z.min (Z.of_nat n) (zlen l).
Proof. unfold zlen; rewrite firstn_length; lia. Qed.
Lemma zlen_skipn {A} n (l : list A) : zlen (skipn n l) = Z.max 0 (zlen l - Z.of_nat n).
Proof. unfold zlen; rewrite skipn_length; lia. Qed.
Lemma zlen_0_nil {A} (l : list A) : zlen l = 0 -> l = [].
Proof. destruct l; [reflexivity|]; rewrite zlen_cons; pose proof (zlen_nonneg l); lia. Qed.
Lemma to_nat_zlen {A} (l : list A) : Z.to_nat (zlen l) = length l.
Proof. unfold zlen; lia. Qed.

#[export] Hint Rewrite @zlen_nil @zlen_cons @zlen_app @zlen_rev @zlen_map @zlen_repeat
     @zlen_firstn @zlen_skipn : zlen.
Ltac zl := autorewrite with zlen in *.

Lemma firstn_zlen_app {A} (a b : list A) : firstn (Z.to_nat (zlen a)) (a ++ b) = a.
Proof. rewrite to_nat_zlen, firstn_app, Nat.sub_diag, firstn_all, firstn_O, app_nil_r; reflexivity. Qed.
Lemma skipn_zlen_app {A} (a b : list A) : skipn (Z.to_nat (zlen a)) (a ++ b) = b.
Proof. rewrite to_nat_zlen, skipn_app, Nat.sub_diag, skipn_all; reflexivity. Qed.

Lemma skipn_skipn' {A} n m (l : list A) : skipn n (skipn m l) = skipn (n + m) l.
Proof.
  revert l; induction m as [|m IH]; intros l.
  - now rewrite Nat.add_0_r.
  - rewrite Nat.add_succ_r; destruct l; [now rewrite !skipn_nil|]; cbn [skipn]; apply IH.
Qed.

Lemma firstn_firstn_min {A} n m (l : list A) : firstn n (firstn m l) = firstn (Nat.min n m) l.
Proof. apply firstn_firstn. Qed.

(** py_index *)
Lemma py_index_ok {A} (l : list A) i : 0 <= i < zlen l ->
  exists x, nth_error l (Z.to_nat i) = Some x /\ py_index l i = Ok x.
Proof.
  intros H. unfold py_index.
  destruct (i <? 0) eqn:E; [lia|].
  destruct ((i <? 0) || (zlen l <=? i)) eqn:E2; [lia|].
  destruct (nth_error l (Z.to_nat i)) eqn:E3; [eauto|].
  apply nth_error_None in E3. unfold zlen in *; lia.
Qed.
Lemma py_index_ge {A} (l : list A) i : zlen l <= i -> py_index l i = Raise IndexError.
Proof.
  intros H. unfold py_index. pose proof (zlen_nonneg l).
  destruct (i <? 0) eqn:E; [lia|].
  destruct ((i <? 0) || (zlen l <=? i)) eqn:E2; [reflexivity|lia].
Qed.
Lemma py_index_cases {A} (l : list A) i :
  (exists x, In x l /\ py_index l i = Ok x) \/ py_index l i = Raise IndexError.
Proof.
  unfold py_index. set (j := if i <? 0 then _ else _).
  destruct ((j <? 0) || (zlen l <=? j)); [now right|].
  destruct (nth_error l (Z.to_nat j)) eqn:E; [|now right].
  left; exists a; split; [eapply nth_error_In; eauto|reflexivity].
Qed.

(** bytes *)
Lemma bytes_okb_ok l : bytes_okb l = true <-> bytes_ok l.
Proof.
  unfold bytes_okb, bytes_ok. rewrite forallb_forall, Forall_forall.
  unfold is_byte. split; intros H x Hx; specialize (H x Hx); lia.
Qed.
Lemma py_bytes_ok l : bytes_ok l -> py_bytes l = Ok l.
Proof. intros H; unfold py_bytes; apply bytes_okb_ok in H; now rewrite H. Qed.
Lemma py_bytes_inv l r : py_bytes l = Ok r -> r = l /\ bytes_ok l.
Proof.
  unfold py_bytes; destruct (bytes_okb l) eqn:E; intros H; inversion H; subst.
  split; [reflexivity|now apply bytes_okb_ok].
Qed.
Lemma bytes_ok_app a b : bytes_ok (a ++ b) <-> bytes_ok a /\ bytes_ok b.
Proof. apply Forall_app. Qed.
Lemma bytes_ok_cons a b : bytes_ok (a :: b) <-> 0 <= a < 256 /\ bytes_ok b.
Proof. split; [intros H; inversion H; auto | intros [H1 H2]; now constructor]. Qed.
Lemma bytes_ok_nil : bytes_ok []. Proof. constructor. Qed.
Lemma bytes_ok_rev a : bytes_ok a -> bytes_ok (rev a).
Proof. intros H; apply Forall_rev; exact H. Qed.
Lemma bytes_ok_firstn n l : bytes_ok l -> bytes_ok (firstn n l).
Proof. revert n; induction l as [|x l IH]; intros [|n] H; cbn; auto using bytes_ok_nil.
  apply bytes_ok_cons in H as [H1 H2]; apply bytes_ok_cons; auto. Qed.
Lemma bytes_ok_skipn n l : bytes_ok l -> bytes_ok (skipn n l).
Proof. revert n; induction l as [|x l IH]; intros [|n] H; cbn; auto.
  apply bytes_ok_cons in H as [H1 H2]; auto. Qed.
#[export] Hint Resolve bytes_ok_nil bytes_ok_rev bytes_ok_firstn bytes_ok_skipn : bytes.

Lemma bytes_ok_slice l a b : bytes_ok l -> bytes_ok (py_slice l a b).
Proof. intros; unfold py_slice; auto with bytes. Qed.

(** be_bytes / from_be *)
Lemma from_be_app a b : from_be (a ++ b) = from_be a * 256 ^ zlen b + from_be b.
Proof.
  unfold from_be. rewrite fold_left_app.
  generalize (fold_left (fun acc b0 : Z => acc * 256 + b0) a 0) as z.
  induction b as [|x b IH] using rev_ind; intros z.
  - cbn [fold_left]. rewrite zlen_nil. lia.
  - rewrite !fold_left_app. cbn [fold_left]. rewrite IH.
    rewrite (IH 0). zl. rewrite Z.add_assoc, Z.pow_add_r by (pose proof (zlen_nonneg b); lia).
    lia.
Qed.
Lemma from_be_cons a b : from_be (a :: b) = a * 256 ^ zlen b + from_be b.
Proof. change (a :: b) with ([a] ++ b). rewrite from_be_app. cbn. lia. Qed.
Lemma from_be_nil : from_be [] = 0. Proof. reflexivity. Qed.
Lemma from_be_snoc a x : from_be (a ++ [x]) = from_be a * 256 + x.
Proof. unfold from_be; rewrite fold_left_app; reflexivity. Qed.

Lemma from_be_bound l : bytes_ok l -> 0 <= from_be l < 256 ^ zlen l.
Proof.
  induction l as [|x l IH] using rev_ind; intros H.
  - vm_compute. split; congruence.
  - apply bytes_ok_app in H as [H1 H2]. apply bytes_ok_cons in H2 as [H2 _].
    rewrite from_be_snoc. zl. rewrite Z.add_0_r.
    rewrite Z.pow_add_r by (pose proof (zlen_nonneg l); lia). specialize (IH H1). lia.
Qed.

Lemma be_bytes_len n v : zlen (be_bytes n v) = Z.of_nat n.
Proof. revert v; induction n; intros v; cbn [be_bytes]; [reflexivity|]. zl. rewrite IHn. lia. Qed.
Lemma be_bytes_length n v : length (be_bytes n v) = n.
Proof. pose proof (be_bytes_len n v). unfold zlen in H. lia. Qed.
Lemma be_bytes_ok n v : bytes_ok (be_bytes n v).
Proof.
  revert v; induction n; intros v; cbn [be_bytes]; auto with bytes.
  apply bytes_ok_app; split; [auto|]. apply bytes_ok_cons; split; auto with bytes.
  apply Z.mod_pos_bound; lia.
Qed.
Lemma from_be_be_bytes n v : from_be (be_bytes n v) = v mod 256 ^ Z.of_nat n.
Proof.
  revert v; induction n; intros v.
  - change (256 ^ Z.of_nat 0) with 1. now rewrite Z.mod_1_r.
  - cbn [be_bytes]. rewrite from_be_snoc, IHn.
    rewrite Nat2Z.inj_succ, Z.pow_succ_r by lia.
    rewrite (Z.rem_mul_r v 256 (256 ^ Z.of_nat n)) by lia. lia.
Qed.
Lemma be_bytes_from_be l : bytes_ok l -> be_bytes (length l) (from_be l) = l.
Proof.
  induction l as [|x l IH] using rev_ind; intros H; [reflexivity|].
  apply bytes_ok_app in H as [H1 H2]. apply bytes_ok_cons in H2 as [H2 _].
  rewrite app_length; cbn [length]; rewrite Nat.add_1_r. cbn [be_bytes].
  rewrite from_be_snoc, Z.div_add_l, Z.div_small, Z.add_0_r by lia.
  rewrite Z.add_comm, Z.mod_add, Z.mod_small, IH by (auto; lia). reflexivity.
Qed.
Lemma be_bytes_inj n a b : 0 <= a < 256 ^ Z.of_nat n -> 0 <= b < 256 ^ Z.of_nat n ->
  be_bytes n a = be_bytes n b -> a = b.
Proof.
  intros Ha Hb E. apply (f_equal from_be) in E. rewrite !from_be_be_bytes in E.
  now rewrite !Z.mod_small in E by lia.
Qed.

(** zlist_eqb *)
Lemma zlist_eqb_eq a b : zlist_eqb a b = true <-> a = b.
Proof.
  revert b; induction a as [|x a IH]; intros [|y b]; cbn; split; intros H; try easy.
  - apply andb_true_iff in H as [H1 H2]. apply IH in H2. f_equal; [lia|auto].
  - inversion H; subst. rewrite Z.eqb_refl. now apply IH.
Qed.
Lemma zlist_eqb_refl a : zlist_eqb a a = true.
Proof. now apply zlist_eqb_eq. Qed.
Lemma zlist_eqb_neq a b : zlist_eqb a b = false <-> a <> b.
Proof. rewrite <- zlist_eqb_eq. destruct (zlist_eqb a b); split; congruence. Qed.

(** exceptions *)
Lemma exc_eqb_eq a b : exc_eqb a b = true <-> a = b.
Proof. unfold exc_eqb; destruct (exc_eq_dec a b); split; congruence. Qed.

Lemma bind_ok {A B} (m : res A) (f : A -> res B) b :
  bind m f = Ok b -> exists a, m = Ok a /\ f a = Ok b.
Proof. destruct m; cbn; [eauto|discriminate]. Qed.
Lemma bind_raise {A B} (m : res A) (f : A -> res B) e :
  bind m f = Raise e -> m = Raise e \/ exists a, m = Ok a /\ f a = Raise e.
Proof. destruct m; cbn; [right; eauto|left; congruence]. Qed.

(** Bit operations by div/mod and finite sweeps. *)
Lemma land_7f b : Z.land b 0x7f = b mod 128.
Proof. change 0x7f with (Z.ones 7). rewrite Z.land_ones by lia. reflexivity. Qed.
Lemma land_ff b : Z.land b 0xff = b mod 256.
Proof. change 0xff with (Z.ones 8). rewrite Z.land_ones by lia. reflexivity. Qed.
Lemma land_1f b : Z.land b 0x1f = b mod 32.
Proof. change 0x1f with (Z.ones 5). rewrite Z.land_ones by lia. reflexivity. Qed.
Lemma shiftr_div a n : 0 <= n -> Z.shiftr a n = a / 2 ^ n.
Proof. apply Z.shiftr_div_pow2. Qed.
Lemma shiftl_mul a n : 0 <= n -> Z.shiftl a n = a * 2 ^ n.
Proof. apply Z.shiftl_mul_pow2. Qed.

Lemma land_pow2_disjoint a b n : 0 <= n -> 0 <= b < 2 ^ n -> Z.land (a * 2 ^ n) b = 0.
Proof.
  intros Hn Hb. apply Z.bits_inj'. intros k Hk. rewrite Z.land_spec, Z.bits_0.
  destruct (Z.ltb_spec k n).
  - rewrite Z.mul_pow2_bits_low by lia. reflexivity.
  - replace b with (b mod 2 ^ n) by (apply Z.mod_small; lia).
    rewrite Z.mod_pow2_bits_high by lia. apply andb_false_r.
Qed.
Lemma lor_add a b : Z.land a b = 0 -> Z.lor a b = a + b.
Proof. intros H. symmetry. now apply Z.add_nocarry_lxor in H as E; rewrite E; apply Z.lxor_lor. Qed.
Lemma lor_shift a b n : 0 <= n -> 0 <= b < 2 ^ n -> Z.lor (a * 2 ^ n) b = a * 2 ^ n + b.
Proof. intros; apply lor_add, land_pow2_disjoint; lia. Qed.
Lemma lor_shift' a b n : 0 <= n -> 0 <= b < 2 ^ n -> Z.lor b (a * 2 ^ n) = a * 2 ^ n + b.
Proof. intros; rewrite Z.lor_comm; apply lor_shift; lia. Qed.

Lemma lor_80 x : 0 <= x < 128 -> Z.lor 128 x = 128 + x.
Proof. intros. change 128 with (1 * 2 ^ 7) at 1. rewrite lor_shift by lia. reflexivity. Qed.
Lemma lor_80' x : 0 <= x < 128 -> Z.lor x 128 = 128 + x.
Proof. intros. rewrite Z.lor_comm. now apply lor_80. Qed.

(** A finite sweep over bytes. *)
Lemma byte_sweep (P : Z -> bool) :
  forallb P (map Z.of_nat (seq 0 256)) = true -> forall b, 0 <= b < 256 -> P b = true.
Proof.
  intros H b Hb. rewrite forallb_forall in H. apply H.
  apply in_map_iff. exists (Z.to_nat b). split; [lia|]. apply in_seq. lia.
Qed.
Lemma land_80 b : 0 <= b < 256 -> (Z.land b 0x80 =? 0) = (b <? 128).
Proof.
  intros H. apply eqb_prop.
  revert b H. apply byte_sweep. vm_compute. reflexivity.
Qed.

Lemma bit_length_spec v k : 0 <= v -> 0 <= k -> (bit_length v <= k <-> v < 2 ^ k).
Proof.
  intros Hv Hk. unfold bit_length. destruct (v =? 0) eqn:E.
  - assert (v = 0) by lia; subst. split; intros; [|lia]. apply Z.pow_pos_nonneg; lia.
  - rewrite Z.abs_eq by lia. pose proof (Z.log2_lt_pow2 v k ltac:(lia)). lia.
Qed.
Lemma bit_length_nonneg v : 0 <= bit_length v.
Proof. unfold bit_length; destruct (v =? 0); [lia|]. pose proof (Z.log2_nonneg (Z.abs v)); lia. Qed.
