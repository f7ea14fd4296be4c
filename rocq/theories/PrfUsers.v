(** PrfUsers.v -- the registry refines the abstract machine of SpecUsers.v. *)
From Coq Require Import Lia.
From Verif Require Import PrfDict.
From Verif Require Export SpecUsers.

(** * computeKey *)
Lemma repeat_update_app n secret ctx : repeat_update n secret ctx = ctx ++ concat (repeat secret n).
Proof.
  revert ctx. induction n as [|n IH]; intros ctx; cbn [repeat_update repeat concat]; [now rewrite app_nil_r|].
  rewrite IH. now rewrite app_assoc.
Qed.
Lemma repeat_length_concat (s : bytes) n : length (concat (repeat s n)) = (n * length s)%nat.
Proof. induction n; cbn; [reflexivity|]. rewrite app_length, IHn. lia. Qed.
Lemma nth_repeat (s : bytes) n i : (i < n * length s)%nat ->
  nth i (concat (repeat s n)) 0 = nth (i mod length s) s 0.
Proof.
  revert i. induction n as [|n IH]; intros i H; [cbn in H; lia|]. cbn [repeat concat].
  destruct (Nat.lt_ge_cases i (length s)) as [L|L].
  - rewrite app_nth1 by lia. now rewrite Nat.mod_small by lia.
  - rewrite app_nth2 by lia. rewrite IH by (cbn in H; lia). f_equal.
    replace i with ((i - length s) + 1 * length s)%nat at 2 by lia.
    now rewrite Nat.mod_add by lia.
Qed.

Lemma stretch_ok (s : bytes) N : s <> [] ->
  let msg := concat (repeat s (N / length s)) ++ firstn (N mod length s) s in
  length msg = N /\ forall i, (i < N)%nat -> nth i msg 0 = nth (i mod length s) s 0.
Proof.
  intros H msg. assert (L : (0 < length s)%nat) by (destruct s; [congruence|cbn; lia]).
  pose proof (Nat.div_mod N (length s)) as D. pose proof (Nat.mod_upper_bound N (length s)) as U.
  split.
  - subst msg. rewrite app_length, repeat_length_concat, firstn_length. lia.
  - intros i Hi. subst msg. destruct (Nat.lt_ge_cases i (N / length s * length s)) as [A|A].
    + rewrite app_nth1 by (rewrite repeat_length_concat; lia). now apply nth_repeat.
    + rewrite app_nth2 by (rewrite repeat_length_concat; lia). rewrite repeat_length_concat.
      set (j := (i - N / length s * length s)%nat). assert (j < N mod length s)%nat by (subst j; lia).
      assert (E : (i mod length s = j)%nat).
      { symmetry. apply (Nat.mod_unique i (length s) (N / length s) j); [lia|]. subst j. lia. }
      rewrite E. rewrite <- (firstn_skipn (N mod length s) s) at 3. rewrite app_nth1; [reflexivity|]. rewrite firstn_length. lia.
Qed.

Lemma computeKey_spec C a secret : secret <> [] ->
  exists msg, is_stretched secret msg /\ computeKey C a secret = Ok (c_hash C a msg).
Proof.
  intros H. pose proof (stretch_ok secret MEGABYTE H) as S. cbv zeta in S.
  exists (concat (repeat secret (MEGABYTE / length secret)) ++ firstn (MEGABYTE mod length secret) secret).
  split; [exact S|]. unfold computeKey. assert (L : 0 < zlen secret) by (unfold zlen; destruct secret; [congruence|cbn [length]; lia]).
  replace (zlen secret =? 0) with false by (symmetry; apply Z.eqb_neq; lia).
  rewrite repeat_update_app. cbn [app]. do 3 f_equal.
  - unfold MEGABYTE. change (2 ^ 20) with 1048576. unfold zlen. rewrite Z2Nat.inj_div by lia. now rewrite Nat2Z.id.
  - assert (M : 0 <= 2 ^ 20 mod zlen secret < zlen secret) by (apply Z.mod_pos_bound; lia).
    unfold py_slice, slice_bound. replace (2 ^ 20 mod zlen secret <? 0) with false by (symmetry; apply Z.ltb_ge; lia).
    rewrite Z.min_l by lia. rewrite Z.sub_0_r. cbn [skipn Z.to_nat]. unfold MEGABYTE. change (2 ^ 20) with 1048576. unfold zlen.
    rewrite Z2Nat.inj_mod by lia. now rewrite Nat2Z.id.
Qed.
Lemma computeKey_empty C a : computeKey C a [] = Raise ZeroDivisionError.
Proof. reflexivity. Qed.

Lemma bytes_or_effective a b : bytes_or a b = effective a b.
Proof. reflexivity. Qed.

Lemma zlen_nonempty (s : bytes) : negb (zlen s =? 0) = true <-> s <> [].
Proof.
  destruct s; unfold zlen; cbn [length]; [cbn; split; intros H; [discriminate|now elim H]|].
  replace (Z.of_nat (S (length s)) =? 0) with false by (symmetry; apply Z.eqb_neq; lia). split; [discriminate|reflexivity].
Qed.
Lemma zlen_empty (s : bytes) : (zlen s =? 0) = true -> s = [].
Proof. destruct s; unfold zlen; cbn [length]; [reflexivity|]. intros H. apply Z.eqb_eq in H. lia. Qed.

Lemma Credentials_bad C ap asec pp ps sec : secrets_ok ap asec pp ps sec = false ->
  Credentials C ap asec pp ps sec = Raise ZeroDivisionError.
Proof.
  destruct ap as [a|]; [|discriminate]. cbn [secrets_ok]. unfold Credentials. change bytes_or with effective.
  destruct pp as [p|].
  - destruct (zlen (effective ps sec) =? 0) eqn:E2.
    + intros _. unfold computeKey. now rewrite E2.
    + destruct (computeKey_spec C a (effective ps sec)) as (m & _ & ->).
      { apply zlen_nonempty. now rewrite E2. }
      cbn [bind]. rewrite andb_true_r. intros H. apply negb_false_iff in H. unfold computeKey. now rewrite H.
  - rewrite andb_true_r. intros H. apply negb_false_iff in H. unfold computeKey. now rewrite H.
Qed.
Lemma Credentials_good C ap asec pp ps sec : secrets_ok ap asec pp ps sec = true ->
  exists c, Credentials C ap asec pp ps sec = Ok c /\ spec_credentials C ap asec pp ps sec c.
Proof.
  destruct ap as [a|]; cbn [secrets_ok Credentials].
  2:{ intros _. eexists; split; [reflexivity|]. unfold spec_credentials. cbn. repeat split; auto. }
  rewrite andb_true_iff, zlen_nonempty. intros [H1 H2]. change bytes_or with effective.
  destruct (computeKey_spec C a (effective asec sec) H1) as (m1 & S1 & ->).
  destruct pp as [p|].
  - apply zlen_nonempty in H2. destruct (computeKey_spec C a (effective ps sec) H2) as (m2 & S2 & ->).
    eexists; split; [reflexivity|]. unfold spec_credentials. cbn. repeat split; eauto.
  - eexists; split; [reflexivity|]. unfold spec_credentials. cbn. repeat split; eauto.
Qed.

(** The credentials of the specification are unique. *)
Lemma stretched_unique p m m' : is_stretched p m -> is_stretched p m' -> m = m'.
Proof.
  intros [L N] [L' N']. apply (nth_ext _ _ 0 0); [congruence|]. intros i H. rewrite L in H. now rewrite N, N'.
Qed.
Lemma spec_credentials_unique C ap asec pp ps sec c c' :
  spec_credentials C ap asec pp ps sec c -> spec_credentials C ap asec pp ps sec c' -> c = c'.
Proof.
  destruct c as [a1 k1 p1 q1 l1], c' as [a2 k2 p2 q2 l2]. unfold spec_credentials.
  cbn [cr_max cr_authProtocol cr_authKey cr_privProtocol cr_privKey].
  intros (-> & -> & H) (-> & -> & H'). destruct ap as [a|].
  - destruct H as (N & (m & S & ->) & -> & P), H' as (N' & (m' & S' & ->) & -> & P').
    rewrite (stretched_unique _ _ _ S S'). destruct pp as [p|].
    + destruct P as (_ & m2 & S2 & ->), P' as (_ & m2' & S2' & ->). now rewrite (stretched_unique _ _ _ S2 S2').
    + now subst.
  - destruct H as (-> & -> & ->), H' as (-> & -> & ->). reflexivity.
Qed.

(** * Localisation *)
Lemma slice_to {A} (l : list A) n : 0 <= n -> py_slice l None (Some n) = firstn (Z.to_nat n) l.
Proof.
  intros H. unfold py_slice, slice_bound. replace (n <? 0) with false by (symmetry; apply Z.ltb_ge; lia).
  cbn [skipn Z.to_nat]. rewrite Z.sub_0_r. destruct (Z.le_gt_cases n (zlen l)) as [L|L].
  - now rewrite Z.min_l by lia.
  - rewrite Z.min_r by lia. unfold zlen in *. rewrite Nat2Z.id, firstn_all, firstn_all2 by lia. reflexivity.
Qed.

Lemma digest_ge a : 16 <= digest_size a.
Proof. destruct a; cbn; lia. Qed.

Lemma localize_ok C rnd n c e : hash_ok C -> exists l n', cr_localize C rnd n c e = Ok (l, n') /\ localised_to C c e l.
Proof.
  intros H. unfold cr_localize, localised_to. destruct (cr_authProtocol c) as [a|].
  2:{ do 2 eexists; split; [reflexivity|]. cbn. auto. }
  destruct (cr_privProtocol c) as [p|].
  2:{ do 2 eexists; split; [reflexivity|]. cbn. auto. }
  unfold priv_new, localizeKey. pose proof (Z.mod_pos_bound (rnd n) (2 ^ 64) eq_refl) as M64. pose proof (Z.mod_pos_bound (rnd n) (2 ^ 32) eq_refl) as M32. pose proof (proj1 (H a (cr_privKey c ++ e ++ cr_privKey c))) as L. pose proof (digest_ge a).
  set (k := c_hash C a (cr_privKey c ++ e ++ cr_privKey c)) in *.
  replace (zlen k <? 16) with false by (symmetry; apply Z.ltb_ge; lia).
  destruct p; cbn [bind]; do 2 eexists; (split; [reflexivity|]); cbn [lc_auth lc_priv]; (split; [reflexivity|]); eexists;
    rewrite !slice_to by lia; (split; [eassumption|]); [reflexivity|]. f_equal. f_equal.
  unfold py_slice, slice_bound. cbn [Z.ltb Z.compare]. rewrite !Z.min_l by lia. reflexivity.
Qed.

(** * The invariant *)
Definition count_live (l : list (bytes * pystr)) (e : bytes) (ns : pystr) : nat :=
  length (filter (pair_eqb (e, ns)) l).

Notation eget := (@dict_get (list Z) remote zlist_eqb).
Notation nget := (@dict_get (list Z) nsconfig zlist_eqb).

Definition cfg_of (u : registry) (ns : pystr) : option nsconfig := nget (ur_namespaces u) ns.
Definition cfg_users (o : option nsconfig) : dict bytes userconfig :=
  match o with Some c => ns_users c | None => [] end.

Record Inv (C : crypto) (u : registry) (s : uspec) : Prop := mkInv {
  i_keys : NoDup (keys (ur_engines u));
  i_cfg : forall ns n, dict_get zlist_eqb (cfg_users (cfg_of u ns)) n = sp_cfg s ns n;
  i_def : forall ns, match cfg_of u ns with Some c => ns_default c | None => None end = sp_def s ns;
  i_defin : forall ns, (exists n, sp_cfg s ns n <> None) -> sp_def s ns <> None;
  i_none : forall e, eget (ur_engines u) e = None -> forall ns, ~ In (e, ns) (sp_live s);
  i_some : forall e r, eget (ur_engines u) e = Some r ->
    0 < re_count r /\ re_count r = Z.of_nat (count_live (sp_live s) e (re_namespace r)) /\
    forall ns, In (e, ns) (sp_live s) -> ns = re_namespace r;
  i_users : forall e r, eget (ur_engines u) e = Some r -> forall n,
    match dict_get zlist_eqb (re_users r) n with
    | Some l => exists cf, sp_cfg s (re_namespace r) n = Some cf /\ localised_to C (uc_credentials cf) e l
    | None => sp_cfg s (re_namespace r) n = None
    end;
  i_nodup : forall ns, NoDup (keys (cfg_users (cfg_of u ns)))
}.

Lemma zrefl (k : list Z) : zlist_eqb k k = true.
Proof. now apply zlist_eqb_eq. Qed.

Lemma pair_eqb_eq x y : pair_eqb x y = true <-> x = y.
Proof.
  unfold pair_eqb. rewrite andb_true_iff, !zlist_eqb_eq. destruct x, y; cbn. split; [intros [-> ->]; auto|intros H; injection H; auto].
Qed.

Lemma pair_neq e0 e (a b : pystr) : e0 <> e -> pair_eqb (e0, a) (e, b) = false.
Proof. intros N. apply not_true_iff_false. rewrite pair_eqb_eq. congruence. Qed.

Lemma count_pos l e ns : In (e, ns) l <-> (0 < count_live l e ns)%nat.
Proof.
  unfold count_live. induction l as [|y l IH]; cbn; [lia|]. destruct (pair_eqb (e, ns) y) eqn:E.
  - apply pair_eqb_eq in E as <-. cbn. split; [lia|]. auto.
  - rewrite <- IH. split; [|auto]. intros [->|]; auto. now rewrite (proj2 (pair_eqb_eq _ _) eq_refl) in E.
Qed.
Lemma count_cons l e ns x : count_live (x :: l) e ns = ((if pair_eqb (e, ns) x then 1 else 0) + count_live l e ns)%nat.
Proof. unfold count_live. cbn. destruct (pair_eqb (e, ns) x); reflexivity. Qed.
Lemma count_remove l e ns e' ns' :
  count_live (remove_one (e, ns) l) e' ns' =
  if pair_eqb (e', ns') (e, ns) then Nat.pred (count_live l e' ns') else count_live l e' ns'.
Proof.
  induction l as [|y l IH]; cbn [remove_one]; [destruct (pair_eqb _ _); reflexivity|].
  destruct (pair_eqb (e, ns) y) eqn:E.
  - apply pair_eqb_eq in E as <-. rewrite count_cons. destruct (pair_eqb (e', ns') (e, ns)); reflexivity.
  - rewrite !count_cons, IH. destruct (pair_eqb (e', ns') (e, ns)) eqn:E2; [|reflexivity].
    apply pair_eqb_eq in E2. rewrite E2, E. cbn. reflexivity.
Qed.

Lemma live_elsewhere_iff s e ns : live_elsewhere s e ns = true <-> exists ns', In (e, ns') (sp_live s) /\ ns' <> ns.
Proof.
  unfold live_elsewhere. rewrite existsb_exists. split.
  - intros ([e' ns'] & I & H). cbn in H. apply andb_true_iff in H as [H1 H2]. apply zlist_eqb_eq in H1 as ->.
    exists ns'. split; auto. apply negb_true_iff in H2. now apply zlist_eqb_neq.
  - intros (ns' & I & N). exists (e, ns'). split; auto. cbn. rewrite zrefl. cbn. apply negb_true_iff. now apply zlist_eqb_neq.
Qed.
Lemma live_engine_iff s e : live_engine s e = true <-> exists ns, In (e, ns) (sp_live s).
Proof.
  unfold live_engine. rewrite existsb_exists. split.
  - intros ([e' ns'] & I & H). cbn in H. apply zlist_eqb_eq in H as ->. eauto.
  - intros (ns & I). exists (e, ns). split; auto. cbn. apply zrefl.
Qed.

Lemma inv0 C : Inv C registry0 uspec0.
Proof. constructor; cbn; try (constructor; fail); try discriminate; auto.
  intros ns (n & H). elim H. reflexivity.
Qed.

Lemma registered_iff C u s e : Inv C u s -> (live_engine s e = true <-> eget (ur_engines u) e <> None).
Proof.
  intros I. rewrite live_engine_iff. destruct (eget (ur_engines u) e) as [r|] eqn:G.
  - split; [discriminate|]. intros _. destruct (i_some _ _ _ I e r G) as (P & Cn & _). exists (re_namespace r). apply count_pos. lia.
  - split; [|congruence]. intros (ns & H). now elim (i_none _ _ _ I e G ns).
Qed.

(** ** register *)
Lemma addUsers_ok C rnd e : hash_ok C -> forall l n r,
  NoDup (keys l) ->
  exists r' n', re_addUsers C rnd n r e l = Ok (r', n') /\ re_count r' = re_count r /\ re_namespace r' = re_namespace r /\
    forall k, match dict_get zlist_eqb (l : dict bytes userconfig) k with
              | Some u => exists lc, dict_get zlist_eqb (re_users r') k = Some lc /\ localised_to C (uc_credentials u) e lc
              | None => dict_get zlist_eqb (re_users r') k = dict_get zlist_eqb (re_users r) k end.
Proof.
  intros H. induction l as [|[nm uc] l IH]; intros n r ND.
  - exists r, n. cbn. auto.
  - cbn [re_addUsers]. unfold re_addUser. destruct (localize_ok C rnd n (uc_credentials uc) e H) as (lc & n1 & -> & L).
    cbn [bind]. inversion ND as [|? ? NI ND']; subst.
    destruct (IH n1 (mkRemote (re_count r) (re_namespace r) (dict_set zlist_eqb (re_users r) nm lc)) ND') as (r' & n' & E & C1 & C2 & K).
    rewrite E. exists r', n'. repeat split; auto. intros k. cbn [dict_get]. specialize (K k). destruct (zlist_eqb k nm) eqn:EK.
    + apply zlist_eqb_eq in EK as ->. rewrite (proj2 (get_none l nm) NI) in K. rewrite K. cbn [re_users].
      exists lc. rewrite get_set_same. auto.
    + destruct (dict_get zlist_eqb l k); [exact K|]. rewrite K. cbn [re_users]. rewrite get_set, EK. reflexivity.
Qed.

Lemma step_register C rnd u s e ns : hash_ok C -> Inv C u s ->
  exists s', spec_step C s (OpRegister e ns) s' (snd (ur_assign C rnd u e ns)) /\ Inv C (fst (ur_assign C rnd u e ns)) s'.
Proof.
  intros H I. exists (if live_elsewhere s e ns then s else mkUSpec ((e, ns) :: sp_live s) (sp_cfg s) (sp_def s)).
  pose proof (SRegister C s e ns) as SR. unfold ur_assign. destruct (eget (ur_engines u) e) as [r|] eqn:G.
  - unfold re_assign. destruct (i_some _ _ _ I e r G) as (P & Cn & All). destruct (zlist_eqb ns (re_namespace r)) eqn:E; cbn [fst snd].
    + apply zlist_eqb_eq in E as ->.
      assert (LE : live_elsewhere s e (re_namespace r) = false).
      { apply not_true_iff_false. rewrite live_elsewhere_iff. intros (ns' & I' & N). apply N. now apply All. }
      rewrite LE in *. split; [exact SR|].
      constructor; cbn [ur_engines ur_namespaces sp_live sp_cfg sp_def]; try apply I.
      * now apply nodup_set, I.
      * intros e0. rewrite get_set. destruct (zlist_eqb e0 e) eqn:E0; [discriminate|]. apply zlist_eqb_neq in E0. intros G0 ns [X|X]; [congruence|].
        exact (i_none _ _ _ I e0 G0 ns X).
      * intros e0 r0. rewrite get_set. destruct (zlist_eqb e0 e) eqn:E0.
        -- apply zlist_eqb_eq in E0 as ->. intros X; injection X as <-. cbn [re_count re_namespace].
           split; [lia|]. split; [rewrite count_cons, (proj2 (pair_eqb_eq _ _) eq_refl); lia|].
           intros ns0 [X|X]; [congruence|auto].
        -- intros G0. destruct (i_some _ _ _ I e0 r0 G0) as (P0 & C0 & A0). split; [auto|]. apply zlist_eqb_neq in E0.
           split; [rewrite count_cons, pair_neq by auto; auto|].
           intros ns0 [X|X]; [congruence|auto].
      * intros e0 r0. rewrite get_set. destruct (zlist_eqb e0 e) eqn:E0; [|apply I].
        apply zlist_eqb_eq in E0 as ->. intros X; injection X as <-. cbn [re_users re_namespace]. now apply (i_users _ _ _ I e r G).
    + assert (LE : live_elsewhere s e ns = true).
      { apply live_elsewhere_iff. exists (re_namespace r). split; [apply count_pos; lia|]. apply zlist_eqb_neq in E. congruence. }
      rewrite LE in *. split; [exact SR|].
      rewrite (set_same _ _ _ G). destruct u; exact I.
  - destruct (addUsers_ok C rnd e H (cfg_users (cfg_of u ns)) (ur_draws u) (mkRemote 1 ns []) (i_nodup _ _ _ I ns))
      as (r' & n' & E & C1 & C2 & K).
    assert (E2 : RemoteEngine C rnd (ur_draws u) e ns (dict_get zlist_eqb (ur_namespaces u) ns) = Ok (r', n')) by exact E.
    rewrite E2. cbn [fst snd].
    assert (LE : live_elsewhere s e ns = false).
    { apply not_true_iff_false. rewrite live_elsewhere_iff. intros (ns' & I' & N). exact (i_none _ _ _ I e G ns' I'). }
    rewrite LE in *. split; [exact SR|].
    constructor; cbn [ur_engines ur_namespaces sp_live sp_cfg sp_def]; try apply I.
    + now apply nodup_set, I.
    + intros e0. rewrite get_set. destruct (zlist_eqb e0 e) eqn:E0; [discriminate|]. apply zlist_eqb_neq in E0. intros G0 ns0 [X|X]; [congruence|].
      exact (i_none _ _ _ I e0 G0 ns0 X).
    + intros e0 r0. rewrite get_set. destruct (zlist_eqb e0 e) eqn:E0.
      * apply zlist_eqb_eq in E0 as ->. intros X; injection X as <-. rewrite C1, C2. cbn [re_count re_namespace].
        split; [lia|]. split.
        -- rewrite count_cons, (proj2 (pair_eqb_eq _ _) eq_refl).
           assert (Z0 : count_live (sp_live s) e ns = 0%nat).
           { destruct (count_live (sp_live s) e ns) eqn:Z; [auto|]. elim (i_none _ _ _ I e G ns). apply count_pos. lia. }
           rewrite Z0. reflexivity.
        -- intros ns0 [X|X]; [congruence|]. elim (i_none _ _ _ I e G ns0 X).
      * intros G0. destruct (i_some _ _ _ I e0 r0 G0) as (P0 & C0 & A0). split; [auto|]. apply zlist_eqb_neq in E0.
        split; [rewrite count_cons, pair_neq by auto; auto|].
        intros ns0 [X|X]; [congruence|auto].
    + intros e0 r0. rewrite get_set. destruct (zlist_eqb e0 e) eqn:E0; [|apply I].
      apply zlist_eqb_eq in E0 as ->. intros X; injection X as <-. rewrite C2. cbn [re_namespace]. intros n. specialize (K n).
      rewrite <- (i_cfg _ _ _ I ns n). destruct (dict_get zlist_eqb (cfg_users (cfg_of u ns)) n) as [uc|].
      * destruct K as (lc & -> & L). eauto.
      * rewrite K. cbn. reflexivity.
Qed.

(** ** release *)
Lemma remove_in x l y : In y (remove_one x l) -> In y l.
Proof. induction l as [|z l IH]; cbn; [auto|]. destruct (pair_eqb x z); cbn; tauto. Qed.

Lemma step_release C u s e ns : Inv C u s ->
  exists s', spec_step C s (OpRelease e ns) s' (snd (ur_release u e ns)) /\ Inv C (fst (ur_release u e ns)) s'.
Proof.
  intros I. exists (mkUSpec (remove_one (e, ns) (sp_live s)) (sp_cfg s) (sp_def s)).
  pose proof (SRelease C s e ns) as SR. cbv zeta in SR. pose proof (registered_iff C u s e I) as RI.
  unfold ur_release. destruct (eget (ur_engines u) e) as [r|] eqn:G.
  - rewrite (proj2 RI) in SR by discriminate. destruct (i_some _ _ _ I e r G) as (P & Cn & All).
    set (s' := mkUSpec (remove_one (e, ns) (sp_live s)) (sp_cfg s) (sp_def s)) in *.
    assert (LE : live_engine s' e = true <-> (0 < count_live (sp_live s') e (re_namespace r))%nat).
    { rewrite live_engine_iff, <- count_pos. split; [|eauto]. intros (ns0 & X). pose proof (remove_in _ _ _ X) as X'. now rewrite <- (All _ X'). }
    assert (Others : forall e0 ns0, e0 <> e -> count_live (sp_live s') e0 ns0 = count_live (sp_live s) e0 ns0).
    { intros e0 ns0 N. subst s'. cbn [sp_live]. rewrite count_remove. destruct (pair_eqb (e0, ns0) (e, ns)) eqn:X; [|auto]. apply pair_eqb_eq in X. congruence. }
    assert (Base : forall r', re_namespace r' = re_namespace r -> re_users r' = re_users r ->
       re_count r' = Z.of_nat (count_live (sp_live s') e (re_namespace r)) -> 0 < re_count r' ->
       Inv C (mkReg (dict_set zlist_eqb (ur_engines u) e r') (ur_namespaces u) (ur_draws u)) s').
    { intros r' N1 N2 N3 N4. constructor; cbn [ur_engines ur_namespaces]; try apply I.
      - now apply nodup_set, I.
      - intros e0. rewrite get_set. destruct (zlist_eqb e0 e) eqn:E0; [discriminate|]. intros G0 ns0 X. apply remove_in in X. exact (i_none _ _ _ I e0 G0 ns0 X).
      - intros e0 r0. rewrite get_set. destruct (zlist_eqb e0 e) eqn:E0.
        + apply zlist_eqb_eq in E0 as ->. intros X; injection X as <-. rewrite N1. repeat split; auto.
          intros ns0 X. apply remove_in in X. auto.
        + intros G0. destruct (i_some _ _ _ I e0 r0 G0) as (P0 & C0 & A0). apply zlist_eqb_neq in E0. rewrite Others by auto. repeat split; auto.
          intros ns0 X. apply remove_in in X. auto.
      - intros e0 r0. rewrite get_set. destruct (zlist_eqb e0 e) eqn:E0; [|apply I].
        apply zlist_eqb_eq in E0 as ->. intros X; injection X as <-. rewrite N1, N2. now apply (i_users _ _ _ I e r G). }
    unfold re_release. destruct (zlist_eqb (re_namespace r) ns) eqn:E.
    + apply zlist_eqb_eq in E. subst ns. replace (re_count r <=? 0) with false by (symmetry; apply Z.leb_gt; lia).
      assert (CR : count_live (sp_live s') e (re_namespace r) = Nat.pred (count_live (sp_live s) e (re_namespace r))).
      { subst s'. cbn [sp_live]. rewrite count_remove, (proj2 (pair_eqb_eq _ _) eq_refl). reflexivity. }
      destruct (re_count r - 1 =? 0) eqn:Z0; cbn [fst snd].
      * apply Z.eqb_eq in Z0. assert (F : live_engine s' e = false) by (apply not_true_iff_false; rewrite LE; lia). rewrite F in SR.
        split; [exact SR|].
        assert (NoLive : forall ns0, ~ In (e, ns0) (sp_live s')).
        { intros ns0 X. apply not_true_iff_false in F. apply F. apply live_engine_iff. eauto. }
        constructor; cbn [ur_engines ur_namespaces]; try apply I.
        -- now apply nodup_del, I.
        -- intros e0 G0 ns0. destruct (zlist_eqb e0 e) eqn:E0; [apply zlist_eqb_eq in E0 as ->; apply NoLive|].
           apply zlist_eqb_neq in E0. rewrite get_del_other in G0 by auto. intros X. apply remove_in in X. exact (i_none _ _ _ I e0 G0 ns0 X).
        -- intros e0 r0 G0. destruct (zlist_eqb e0 e) eqn:E0; [apply zlist_eqb_eq in E0 as ->; rewrite get_del_same in G0 by apply I; discriminate|].
           apply zlist_eqb_neq in E0. rewrite get_del_other in G0 by auto. destruct (i_some _ _ _ I e0 r0 G0) as (P0 & C0 & A0).
           rewrite Others by auto. repeat split; auto. intros ns0 X. apply remove_in in X. auto.
        -- intros e0 r0 G0. destruct (zlist_eqb e0 e) eqn:E0; [apply zlist_eqb_eq in E0 as ->; rewrite get_del_same in G0 by apply I; discriminate|].
           apply zlist_eqb_neq in E0. rewrite get_del_other in G0 by auto. now apply (i_users _ _ _ I).
      * apply Z.eqb_neq in Z0. assert (F : live_engine s' e = true) by (apply LE; lia). rewrite F in SR. split; [exact SR|].
        apply Base; cbn [re_namespace re_users re_count]; try reflexivity; rewrite ?CR; lia.
    + assert (CR : count_live (sp_live s') e (re_namespace r) = count_live (sp_live s) e (re_namespace r)).
      { subst s'. cbn [sp_live]. rewrite count_remove. destruct (pair_eqb (e, re_namespace r) (e, ns)) eqn:X; [|auto].
        apply pair_eqb_eq in X. injection X as X. rewrite X, zrefl in E. discriminate. }
      replace (re_count r =? 0) with false by (symmetry; apply Z.eqb_neq; lia). cbn [fst snd].
      assert (F : live_engine s' e = true) by (apply LE; lia). rewrite F in SR. split; [exact SR|].
      apply Base; try reflexivity; lia.
  - destruct (live_engine s e) eqn:L; [elim (proj1 RI eq_refl); reflexivity|]. cbn [fst snd]. split; [exact SR|].
    assert (RM : remove_one (e, ns) (sp_live s) = sp_live s).
    { pose proof (i_none _ _ _ I e G ns) as N. revert N. generalize (sp_live s). induction l as [|y l IH]; intros N; cbn; [auto|].
      destruct (pair_eqb (e, ns) y) eqn:X; [apply pair_eqb_eq in X; elim N; now left|]. rewrite IH; auto. intros Y; apply N; now right. }
    rewrite RM. destruct s; exact I.
Qed.

(** ** encryption *)
Lemma encrypt_keeps C p data b t :
  let q := fst (priv_encrypt C p data b t) in pv_alg q = pv_alg p /\ pv_key q = pv_key p /\ pv_preIV q = pv_preIV p /\
    0 <= pv_salt q < match pv_alg p with AesCfb128 => 2 ^ 64 | DesCbc => 2 ^ 32 end.
Proof. unfold priv_encrypt. destruct (pv_alg p) eqn:E; cbn [fst pv_alg pv_key pv_preIV pv_salt]; repeat (split; [reflexivity|]); now apply Z.mod_pos_bound. Qed.

Lemma localised_priv C c e l p q : localised_to C c e l -> lc_priv l = Some p ->
  pv_alg q = pv_alg p -> pv_key q = pv_key p -> pv_preIV q = pv_preIV p ->
  0 <= pv_salt q < match pv_alg p with AesCfb128 => 2 ^ 64 | DesCbc => 2 ^ 32 end ->
  localised_to C c e (mkLocalized (lc_auth l) (Some q)).
Proof.
  unfold localised_to. intros H Hp A K V SB. destruct (cr_authProtocol c) as [a|]; [|destruct H; congruence].
  destruct H as [HA HP]. split; [exact HA|]. destruct (cr_privProtocol c) as [pp|]; [|congruence].
  destruct HP as (salt & _ & E). rewrite Hp in E. injection E as ->. cbn [lc_priv]. exists (pv_salt q).
  split; [destruct pp; exact SB|].
  destruct q as [qa qk qp qs]; cbn [pv_alg pv_key pv_preIV pv_salt] in *. destruct pp; cbn [pv_alg pv_key pv_preIV pv_salt] in *; subst; reflexivity.
Qed.

Lemma step_encrypt C rnd u s e n data b t : Inv C u s ->
  Inv C (fst (user_step C rnd u (OpEncrypt e n data b t))) s.
Proof.
  intros I. cbn [user_step fst]. unfold getCredentials. destruct (eget (ur_engines u) e) as [r|] eqn:G; [|exact I].
  destruct (dict_get zlist_eqb (re_users r) n) as [l|] eqn:Gl; [|exact I].
  destruct (lc_priv l) as [p|] eqn:P; [|exact I].
  unfold store_priv. rewrite G, Gl. destruct (encrypt_keeps C p data b t) as (A & K & V & SB). cbv zeta in *.
  set (q := fst (priv_encrypt C p data b t)) in *.
  constructor; cbn [ur_engines ur_namespaces]; try apply I.
  - now apply nodup_set, I.
  - intros e0. rewrite get_set. destruct (zlist_eqb e0 e) eqn:E0; [discriminate|]. apply I.
  - intros e0 r0. rewrite get_set. destruct (zlist_eqb e0 e) eqn:E0; [|apply I].
    apply zlist_eqb_eq in E0 as ->. intros X; injection X as <-. now apply (i_some _ _ _ I e r G).
  - intros e0 r0. rewrite get_set. destruct (zlist_eqb e0 e) eqn:E0; [|apply I].
    apply zlist_eqb_eq in E0 as ->. intros X; injection X as <-. cbn [re_users re_namespace]. intros n0.
    rewrite get_set. pose proof (i_users _ _ _ I e r G n0) as U. destruct (zlist_eqb n0 n) eqn:E0; [|exact U].
    apply zlist_eqb_eq in E0 as ->. rewrite Gl in U. destruct U as (cf & U1 & U2). exists cf. split; [auto|].
    eapply localised_priv; eauto.
Qed.

(** ** addUser *)
Lemma opt_eqb_eq {A} (eqb : A -> A -> bool) : (forall a b, eqb a b = true <-> a = b) ->
  forall a b, opt_eqb eqb a b = true <-> a = b.
Proof. intros H [a|] [b|]; cbn; rewrite ?H; split; congruence. Qed.
Lemma authalg_eqb_eq a b : authalg_eqb a b = true <-> a = b.
Proof. unfold authalg_eqb. destruct (authalg_eq_dec a b); split; congruence. Qed.
Lemma privalg_eqb_eq a b : privalg_eqb a b = true <-> a = b.
Proof. unfold privalg_eqb. destruct (privalg_eq_dec a b); split; congruence. Qed.
Lemma sl_eqb_eq a b : sl_eqb a b = true <-> a = b.
Proof.
  unfold sl_eqb. rewrite andb_true_iff, !eqb_true_iff. destruct a, b; cbn. split; [intros [-> ->]; auto|intros H; injection H; auto].
Qed.

(** Credentials built by [Credentials] have their level determined by the protocols. *)
Definition cred_wf (c : credentials) : Prop := cr_max c = spec_level (cr_authProtocol c) (cr_privProtocol c).
Lemma spec_cred_wf C ap asec pp ps sec c : spec_credentials C ap asec pp ps sec c -> cred_wf c.
Proof.
  unfold spec_credentials, cred_wf. intros (M & A & H). rewrite M, A. destruct ap; [|reflexivity].
  destruct H as (_ & _ & -> & _). reflexivity.
Qed.
Lemma cred_eqb_eq a b : cred_wf a -> cred_wf b -> (cred_eqb a b = true <-> a = b).
Proof.
  unfold cred_wf, cred_eqb. intros Wa Wb.
  rewrite !andb_true_iff, (opt_eqb_eq _ authalg_eqb_eq), (opt_eqb_eq _ privalg_eqb_eq), !zlist_eqb_eq.
  destruct a, b; cbn in *. split; [intros (((-> & ->) & ->) & ->); congruence|]. intros H; injection H; auto.
Qed.
Lemma uc_eqb_eq a b : cred_wf (uc_credentials a) -> cred_wf (uc_credentials b) -> (uc_eqb a b = true <-> a = b).
Proof.
  intros Wa Wb. unfold uc_eqb. rewrite andb_true_iff, (cred_eqb_eq _ _ Wa Wb), sl_eqb_eq.
  destruct a, b; cbn. split; [intros (-> & ->); auto|intros H; injection H; auto].
Qed.

Definition cfg_wf (s : uspec) : Prop := forall ns n cf, sp_cfg s ns n = Some cf ->
  cred_wf (uc_credentials cf) /\ level_rank (uc_default cf) <= level_rank (cr_max (uc_credentials cf)).

Lemma level_lt ap pp l : (sl_priv l = true -> sl_auth l = true) ->
  sl_ltb (spec_level ap pp) l = true <-> level_rank (spec_level ap pp) < level_rank l.
Proof.
  intros H. destruct l as [[|] [|]], ap, pp; cbn in *; unfold level_rank; cbn; split; intros; try lia; try discriminate; auto.
Qed.

Lemma engines_ok C rnd ns n c : hash_ok C -> forall l d,
  exists l' d', addUser_engines C rnd d l ns n c = (l', d', Ok tt) /\ keys l' = keys l /\
    forall e, match eget l e with
              | None => eget l' e = None
              | Some r => if zlist_eqb (re_namespace r) ns
                          then exists lc, localised_to C c e lc /\
                               eget l' e = Some (mkRemote (re_count r) (re_namespace r) (dict_set zlist_eqb (re_users r) n lc))
                          else eget l' e = Some r end.
Proof.
  intros H. induction l as [|[e r] l IH]; intros d; cbn [addUser_engines].
  - do 2 eexists. split; [reflexivity|]. split; [reflexivity|]. cbn. auto.
  - destruct (zlist_eqb (re_namespace r) ns) eqn:E.
    + unfold re_addUser. destruct (localize_ok C rnd d c e H) as (lc & d1 & -> & L). cbn [bind].
      destruct (IH d1) as (l' & d' & -> & K & G). do 2 eexists. split; [reflexivity|].
      split; [unfold keys in *; cbn; now rewrite K|]. intros e0. cbn [dict_get]. destruct (zlist_eqb e0 e) eqn:E0; [|apply G].
      apply zlist_eqb_eq in E0 as ->. rewrite E. eauto.
    + destruct (IH d) as (l' & d' & -> & K & G). do 2 eexists. split; [reflexivity|].
      split; [unfold keys in *; cbn; now rewrite K|]. intros e0. cbn [dict_get]. destruct (zlist_eqb e0 e) eqn:E0; [|apply G].
      now rewrite E.
Qed.

Lemma inv_empty_ns C u s ns : Inv C u s -> nget (ur_namespaces u) ns = None ->
  Inv C (mkReg (ur_engines u) (dict_set zlist_eqb (ur_namespaces u) ns (mkNS None [])) (ur_draws u)) s.
Proof.
  intros I G. constructor; cbn [ur_engines ur_namespaces]; try apply I; unfold cfg_of; cbn [ur_namespaces].
  - intros ns0 n. rewrite get_set. destruct (zlist_eqb ns0 ns) eqn:E; [|apply I]. apply zlist_eqb_eq in E as ->.
    rewrite <- (i_cfg _ _ _ I ns n). unfold cfg_of. now rewrite G.
  - intros ns0. rewrite get_set. destruct (zlist_eqb ns0 ns) eqn:E; [|apply I]. apply zlist_eqb_eq in E as ->.
    rewrite <- (i_def _ _ _ I ns). unfold cfg_of. now rewrite G.
  - intros ns0. rewrite get_set. destruct (zlist_eqb ns0 ns) eqn:E; [constructor|apply I].
Qed.

Lemma inv_add C rnd u s ns config n c l d : hash_ok C -> Inv C u s -> nget (ur_namespaces u) ns = Some config ->
  forall engines draws x,
  addUser_engines C rnd (ur_draws u) (ur_engines u) ns n c = (engines, draws, x) ->
  let def := if d || match ns_default config with None => true | Some _ => false end then Some n else ns_default config in
  x = Ok tt /\
  Inv C (mkReg engines (dict_set zlist_eqb (ur_namespaces u) ns
            (mkNS def (dict_set zlist_eqb (ns_users config) n (mkUC c l)))) draws)
    (mkUSpec (sp_live s) (upd2 (sp_cfg s) ns n (mkUC c l))
         (if d || match sp_def s ns with None => true | Some _ => false end
          then upd1 (sp_def s) ns n else sp_def s)).
Proof.
  intros H I G engines draws x E def. destruct (engines_ok C rnd ns n c H (ur_engines u) (ur_draws u)) as (l' & d' & E' & K & GE).
  rewrite E in E'. injection E' as -> -> ->. split; [reflexivity|].
  assert (Cfg : cfg_of u ns = Some config) by exact G.
  assert (Def : sp_def s ns = ns_default config) by (rewrite <- (i_def _ _ _ I ns), Cfg; reflexivity).
  constructor; cbn [ur_engines ur_namespaces sp_live sp_cfg sp_def]; unfold cfg_of; cbn [ur_namespaces].
  - rewrite K. apply I.
  - intros ns0 n0. rewrite get_set. unfold upd2. destruct (zlist_eqb ns0 ns) eqn:E0; cbn [andb cfg_users ns_users]; [|apply I].
    apply zlist_eqb_eq in E0 as ->. rewrite get_set. destruct (zlist_eqb n0 n); [reflexivity|].
    rewrite <- (i_cfg _ _ _ I ns n0), Cfg. reflexivity.
  - intros ns0. rewrite get_set. destruct (zlist_eqb ns0 ns) eqn:E0; cbn [ns_default].
    + apply zlist_eqb_eq in E0 as ->. subst def. rewrite Def. match goal with |- context[if ?x then upd1 _ _ _ else _] => destruct x end; [unfold upd1; now rewrite zrefl|auto].
    + pose proof (i_def _ _ _ I ns0) as X. unfold cfg_of in X. rewrite X. match goal with |- context[if ?x then upd1 _ _ _ else _] => destruct x end; [unfold upd1; now rewrite E0|auto].
  - intros ns0 (n0 & X). unfold upd2 in X. destruct (zlist_eqb ns0 ns) eqn:E0; cbn [andb] in X.
    + apply zlist_eqb_eq in E0 as ->. destruct (sp_def s ns) as [y|] eqn:SD; rewrite ?orb_true_r, ?orb_false_r.
      * destruct d; unfold upd1; [rewrite zrefl|rewrite SD]; discriminate.
      * unfold upd1. rewrite zrefl. discriminate.
    + pose proof (i_defin _ _ _ I ns0 (ex_intro _ n0 X)) as Y. match goal with |- context[if ?x then upd1 _ _ _ else _] => destruct x end; [unfold upd1; now rewrite E0|auto].
  - intros e0 G0 ns0. specialize (GE e0). destruct (eget (ur_engines u) e0) as [r|] eqn:G1.
    + destruct (zlist_eqb _ _); [destruct GE as (? & _ & GE)|]; congruence.
    + exact (i_none _ _ _ I e0 G1 ns0).
  - intros e0 r0 G0. specialize (GE e0). destruct (eget (ur_engines u) e0) as [r|] eqn:G1; [|congruence].
    pose proof (i_some _ _ _ I e0 r G1) as X.
    destruct (zlist_eqb (re_namespace r) ns); [destruct GE as (lc & _ & GE)|]; rewrite G0 in GE; injection GE as ->; exact X.
  - intros e0 r0 G0 n0. specialize (GE e0). destruct (eget (ur_engines u) e0) as [r|] eqn:G1; [|congruence].
    pose proof (i_users _ _ _ I e0 r G1 n0) as X. unfold upd2.
    destruct (zlist_eqb (re_namespace r) ns) eqn:E0.
    + destruct GE as (lc & L & GE). rewrite G0 in GE. injection GE as ->. cbn [re_namespace re_users]. rewrite E0, get_set. cbn [andb].
      destruct (zlist_eqb n0 n) eqn:EN; [|exact X]. apply zlist_eqb_eq in EN as ->. eexists; split; [reflexivity|]. exact L.
    + rewrite G0 in GE. injection GE as ->. rewrite E0. exact X.
  - intros ns0. rewrite get_set. destruct (zlist_eqb ns0 ns) eqn:E0; cbn [cfg_users ns_users]; [|apply I].
    apply nodup_set. pose proof (i_nodup _ _ _ I ns) as X. rewrite Cfg in X. exact X.
Qed.

Lemma step_add C rnd u s n ap asec pp ps sec d dsl ns :
  hash_ok C -> op_ok (OpAddUser n ap asec pp ps sec d dsl ns) -> Inv C u s -> cfg_wf s ->
  let x := user_step C rnd u (OpAddUser n ap asec pp ps sec d dsl ns) in
  exists s', spec_step C s (OpAddUser n ap asec pp ps sec d dsl ns) s' (snd x) /\ Inv C (fst x) s' /\ cfg_wf s'.
Proof.
  intros H OKL I W. cbn [user_step]. unfold addUser.
  (* create the namespace if needed *)
  destruct (match nget (ur_namespaces u) ns with Some c => (c, u) | None =>
     (mkNS None [], mkReg (ur_engines u) (dict_set zlist_eqb (ur_namespaces u) ns (mkNS None [])) (ur_draws u)) end) as [config u1] eqn:E1.
  assert (I1 : Inv C u1 s /\ nget (ur_namespaces u1) ns = Some config).
  { destruct (nget (ur_namespaces u) ns) eqn:G; injection E1 as <- <-; [auto|]. split; [now apply inv_empty_ns|]. cbn. apply get_set_same. }
  destruct I1 as [I1 G]. clear E1 I.
  destruct (secrets_ok ap asec pp ps sec) eqn:SO.
  2:{ rewrite (Credentials_bad C _ _ _ _ _ SO). cbn [fst snd bind]. exists s. split; [now apply SSecret|auto]. }
  destruct (Credentials_good C _ _ _ _ _ SO) as (c & -> & SC).
  pose proof (spec_cred_wf _ _ _ _ _ _ _ SC) as CW. assert (CM : cr_max c = spec_level ap pp) by apply SC.
  unfold ns_addUser, UserConfig.
  assert (Lv : forall l, match dsl with Some l' => l = l' | None => l = cr_max c end ->
     sl_ltb (cr_max c) l = false ->
     level_rank (match dsl with Some l => l | None => cr_max c end) <= level_rank (spec_level ap pp)).
  { intros l E L. destruct dsl as [l'|]; [|rewrite CM; lia]. subst l'. rewrite CM in L.
    destruct (Z.le_gt_cases (level_rank l) (level_rank (spec_level ap pp))) as [A|A]; [auto|].
    apply (level_lt ap pp l OKL) in A. congruence. }
  assert (Rest : forall l, match dsl with Some l' => l = l' | None => l = cr_max c end -> sl_ltb (cr_max c) l = false ->
    let x := (let '(u2, r) :=
      match (if match dict_get zlist_eqb (ns_users config) n with
           | Some old => negb (uc_eqb (mkUC c l) old) || d && negb (opt_eqb zlist_eqb (Some n) (ns_default config))
           | None => false end then Raise UserNameCollision else
           Ok (mkNS (if d || match ns_default config with Some _ => false | None => true end then Some n else ns_default config)
                 (dict_set zlist_eqb (ns_users config) n (mkUC c l)))) with
      | Ok config0 => let '(engines, n0, x) := addUser_engines C rnd (ur_draws u1) (ur_engines u1) ns n c in
           (mkReg engines (dict_set zlist_eqb (ur_namespaces u1) ns config0) n0, x)
      | Raise e => (u1, Raise e) end in (u2, do _ <- r; Ok true)) in
    exists s', spec_step C s (OpAddUser n ap asec pp ps sec d dsl ns) s' (snd x) /\ Inv C (fst x) s' /\ cfg_wf s').
  { intros l El Ll. pose proof (Lv l El Ll) as LR.
    assert (EL : match dsl with Some l => l | None => cr_max c end = l) by (destruct dsl; auto). 
    assert (Ecfg : sp_cfg s ns n = dict_get zlist_eqb (ns_users config) n).
    { rewrite <- (i_cfg _ _ _ I1 ns n). unfold cfg_of. now rewrite G. }
    assert (Edef : sp_def s ns = ns_default config).
    { rewrite <- (i_def _ _ _ I1 ns). unfold cfg_of. now rewrite G. }
    destruct (addUser_engines C rnd (ur_draws u1) (ur_engines u1) ns n c) as [[engines draws] x] eqn:AE.
    destruct (inv_add C rnd u1 s ns config n c l d H I1 G _ _ _ AE) as (-> & I2). cbv zeta in I2.
    assert (W2 : cfg_wf (mkUSpec (sp_live s) (upd2 (sp_cfg s) ns n (mkUC c l))
       (if d || match sp_def s ns with None => true | Some _ => false end then upd1 (sp_def s) ns n else sp_def s))).
    { intros ns0 n0 cf. cbn [sp_cfg]. unfold upd2. destruct (_ && _); [|apply W]. intros X; injection X as <-. cbn.
      split; [auto|]. rewrite CM. rewrite EL in LR. exact LR. }
    destruct (dict_get zlist_eqb (ns_users config) n) as [old|] eqn:Old.
    - destruct (W ns n old Ecfg) as [WO _].
      destruct (negb (uc_eqb (mkUC c l) old) || d && negb (opt_eqb zlist_eqb (Some n) (ns_default config))) eqn:Col; cbn [fst snd bind].
      + exists s. split; [|auto]. eapply SCollision; eauto. rewrite EL. apply orb_true_iff in Col as [Col|Col].
        * left. intros ->. rewrite (proj2 (uc_eqb_eq (mkUC c l) (mkUC c l) CW WO) eq_refl) in Col. discriminate.
        * right. apply andb_true_iff in Col as [-> Col]. split; [auto|]. intros X. rewrite <- Edef, X in Col.
          rewrite (proj2 (opt_eqb_eq zlist_eqb zlist_eqb_eq _ _) eq_refl) in Col. discriminate.
      + apply orb_false_iff in Col as [Col1 Col2]. apply negb_false_iff in Col1. apply (uc_eqb_eq (mkUC c l) old CW WO) in Col1. subst old.
        eexists. split; [|split; [exact I2|exact W2]]. pose proof (SAdd C s n ap asec pp ps sec d dsl ns c SC LR) as S. cbv zeta in S. rewrite EL in S.
        apply S. right. split; [auto|]. intros ->. cbn in Col2. apply negb_false_iff in Col2.
        apply (opt_eqb_eq zlist_eqb zlist_eqb_eq (Some n)) in Col2. congruence.
    - cbn [fst snd bind]. eexists. split; [|split; [exact I2|exact W2]]. pose proof (SAdd C s n ap asec pp ps sec d dsl ns c SC LR) as S. cbv zeta in S. rewrite EL in S.
      apply S. now left. }
  destruct dsl as [l|].
  - destruct (sl_ltb (cr_max c) l) eqn:L; cbn [bind].
    + exists s. split; [|auto]. apply SLevel; [auto|]. rewrite CM in L. now apply level_lt.
    + exact (Rest l eq_refl L).
  - cbn [bind]. apply (Rest (cr_max c) eq_refl). rewrite CM. destruct ap, pp; reflexivity.
Qed.

(** * The refinement *)
Lemma step_refines C rnd u s op : hash_ok C -> op_ok op -> Inv C u s -> cfg_wf s ->
  exists s', spec_step C s op s' (snd (user_step C rnd u op)) /\ Inv C (fst (user_step C rnd u op)) s' /\ cfg_wf s'.
Proof.
  intros H O I W. destruct op as [n ap asec pp ps sec d dsl ns|e ns|e ns|e n data b t].
  - now apply step_add.
  - destruct (step_register C rnd u s e ns H I) as (s' & S & I'). exists s'. split; [exact S|]. split; [exact I'|].
    inversion S; subst. destruct (live_elsewhere s e ns); exact W.
  - destruct (step_release C u s e ns I) as (s' & S & I'). exists s'. split; [exact S|]. split; [exact I'|].
    inversion S; subst. exact W.
  - exists s. split; [constructor|]. split; [now apply step_encrypt|exact W].
Qed.

Lemma run_refines C rnd h : hash_ok C -> Forall op_ok h -> forall u s, Inv C u s -> cfg_wf s ->
  exists s', spec_run C s h s' (snd (user_run C rnd u h)) /\ Inv C (fst (user_run C rnd u h)) s' /\ cfg_wf s'.
Proof.
  intros H. induction h as [|op h IH]; intros F u s I W.
  - exists s. split; [constructor|auto].
  - inversion F; subst. cbn [user_run]. destruct (step_refines C rnd u s op) as (s1 & S1 & I1 & W1); auto.
    destruct (user_step C rnd u op) as [u1 r]. cbn [fst snd] in *. destruct (IH H3 u1 s1 I1 W1) as (s2 & S2 & I2 & W2).
    destruct (user_run C rnd u1 h) as [u2 rs]. cbn [fst snd] in *. exists s2. split; [econstructor; eauto|auto].
Qed.

(** The specification is deterministic. *)
Lemma spec_step_fun C s op s1 r1 s2 r2 : spec_step C s op s1 r1 -> spec_step C s op s2 r2 -> s1 = s2 /\ r1 = r2.
Proof.
  assert (SO : forall ap asec pp ps sec c, spec_credentials C ap asec pp ps sec c -> secrets_ok ap asec pp ps sec = true).
  { intros ap asec pp ps sec c (M & A & P). destruct ap; [|reflexivity]. cbn. destruct P as (N & _ & PP & P).
    apply andb_true_iff. split; [now apply zlen_nonempty|]. destruct pp; [|reflexivity]. apply zlen_nonempty. apply P. }
  intros A B. destruct A; inversion B; subst; auto;
    repeat match goal with X : spec_credentials _ _ _ _ _ _ _ |- _ => pose proof (SO _ _ _ _ _ _ X); pose proof (proj1 X); revert X end; intros;
    repeat match goal with X : let _ := _ in _ |- _ => cbv zeta in X end; try congruence; try (exfalso; lia).
  all: repeat match goal with l := _ |- _ => subst l end.
  all: repeat match goal with X : spec_credentials _ _ _ _ _ _ ?c, Y : spec_credentials _ _ _ _ _ _ ?d |- _ =>
         pose proof (spec_credentials_unique _ _ _ _ _ _ _ _ X Y); subst d; clear Y end.
  all: auto.
  all: exfalso; try lia.
  all: repeat match goal with H : _ \/ _ |- _ => destruct H | H : _ /\ _ |- _ => destruct H | H : level_rank _ < _ |- _ => clear H end.
  all: try congruence.
  all: try match goal with H : true = true -> _ |- _ => specialize (H eq_refl) end; subst; try congruence; intuition congruence.
Qed.

Lemma spec_run_fun C : forall h s s1 r1 s2 r2, spec_run C s h s1 r1 -> spec_run C s h s2 r2 -> s1 = s2 /\ r1 = r2.
Proof.
  induction h as [|op h IH]; intros s s1 r1 s2 r2 A B; inversion A; inversion B; subst; [auto|].
  match goal with X : spec_step _ _ _ _ _, Y : spec_step _ _ _ _ _ |- _ => destruct (spec_step_fun _ _ _ _ _ _ _ X Y) as [-> ->] end.
  match goal with X : spec_run _ _ _ _ _, Y : spec_run _ _ _ _ _ |- _ => destruct (IH _ _ _ _ _ X Y) as [-> ->] end. auto.
Qed.
