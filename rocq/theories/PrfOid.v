(** PrfOid.v -- OID order, text form, truncation and table indices. *)
From Verif Require Export SpecUtils PrfAsn1 OidText.

(** ** C08: truncated contents *)
Lemma odl_run run v acc : Forall (fun b => 128 <= b < 256) run ->
  oid_deserialize_loop run (v * 128) acc =
  (fold_left (fun a g => a * 128 + g) (map (fun b => b - 128) run) v * 128, rev acc).
Proof.
  revert v; induction run as [|b run IH]; intros v H; [reflexivity|].
  inversion H; subst. rewrite odl_step by lia. destruct (b <? 128) eqn:E; [lia|].
  rewrite IH by auto. cbn [map fold_left].
  replace (b mod 128) with (b - 128); [reflexivity|].
  apply Z.mod_unique with (q := 1); lia.
Qed.
(** The part of a content up to the last byte without continuation bit. *)
Lemma odl_complete pre v acc : bytes_ok pre -> pre <> [] -> last pre 0 < 128 ->
  exists ids, forall rest, oid_deserialize_loop (pre ++ rest) (v * 128) acc =
    oid_deserialize_loop rest 0 (ids ++ acc).
Proof.
  revert v acc; induction pre as [|b pre IH]; intros v acc Hok Hne Hl; [easy|].
  apply bytes_ok_cons in Hok as [Hb Hok]. cbn [app].
  destruct pre as [|b2 pre].
  - cbn [last] in Hl. exists [v * 128 + b]. intros rest. rewrite odl_step by auto.
    destruct (b <? 128) eqn:E; [|lia]. reflexivity.
  - assert (Hl' : last (b2 :: pre) 0 < 128) by exact Hl.
    destruct (b <? 128) eqn:E.
    + destruct (IH 0 (v * 128 + b :: acc) Hok ltac:(easy) Hl') as (ids & Hi).
      exists (ids ++ [v * 128 + b]). intros rest. rewrite odl_step, E by auto.
      change 0 with (0 * 128) at 1. rewrite Hi. now rewrite <- app_assoc.
    + destruct (IH (v * 128 + b mod 128) acc Hok ltac:(easy) Hl') as (ids & Hi).
      exists ids. intros rest. rewrite odl_step, E by auto. apply Hi.
Qed.

Lemma fold128_zero run v : 0 <= v -> Forall (fun g => 0 <= g) run ->
  (fold_left (fun a g => a * 128 + g) run v = 0 <-> v = 0 /\ Forall (fun g => g = 0) run).
Proof.
  revert v; induction run as [|g run IH]; intros v Hv H; cbn [fold_left].
  - split; [auto|tauto].
  - inversion H; subst. rewrite IH by (auto; lia). split.
    + intros [E F]. split; [lia|]. constructor; [lia|auto].
    + intros [E F]. inversion F; subst. split; [lia|auto].
Qed.

(** Exact behaviour on contents whose trailing bytes [run] all have the
    continuation bit. *)
Lemma oid_truncated c b0 pre run : bytes_ok (b0 :: pre) -> Forall (fun b => 128 <= b < 256) run ->
  (pre = [] \/ last pre 0 < 128) ->
  oid_deserialize c (ABytes (b0 :: pre ++ run)) =
  if forallb (fun b => b =? 128) run then oid_deserialize c (ABytes (b0 :: pre)) else Raise ParseError.
Proof.
  intros Hok Hr Hp. apply bytes_ok_cons in Hok as [Hb Hok].
  unfold oid_deserialize. cbn [adata_bytes].
  assert (H : exists ids, oid_deserialize_loop (pre ++ run) 0 [] = oid_deserialize_loop run (0 * 128) ids /\
     oid_deserialize_loop pre 0 [] = (0, rev ids)).
  { destruct Hp as [-> | Hp]; [exists []; auto|]. destruct pre as [|x pre]; [exists []; auto|].
    destruct (odl_complete (x :: pre) 0 [] Hok ltac:(easy) Hp) as (ids & E).
    change (0 * 128) with 0 in E. exists ids. split.
    - rewrite E, app_nil_r. reflexivity.
    - specialize (E []). rewrite !app_nil_r in E. rewrite E. reflexivity. }
  destruct H as (ids & -> & ->). rewrite odl_run by auto.
  assert (Hz : Forall (fun g => 0 <= g) (map (fun b => b - 128) run)).
  { rewrite Forall_map. eapply Forall_impl; [|exact Hr]. cbn; intros; lia. }
  pose proof (fold128_zero _ 0 ltac:(lia) Hz) as HZ.
  set (v := fold_left _ _ 0) in *.
  destruct (forallb (fun b => b =? 128) run) eqn:E.
  - assert (v = 0).
    { apply HZ. split; [reflexivity|]. rewrite Forall_map, Forall_forall. rewrite forallb_forall in E.
      intros b Hb'. specialize (E b Hb'). lia. }
    rewrite H. reflexivity.
  - destruct (negb (v * 128 =? 0)) eqn:E2; [reflexivity|]. exfalso.
    assert (v = 0) by lia. apply HZ in H as [_ H]. rewrite Forall_map, Forall_forall in H.
    assert (forallb (fun b => b =? 128) run = true); [|congruence].
    apply forallb_forall. intros b Hb'. specialize (H b Hb'). cbn in H. lia.
Qed.

(** ** C09: order *)
Lemma oid_ltb_cons x a b : oid_ltb (x :: a) (x :: b) = oid_ltb a b.
Proof. cbn. now rewrite Z.eqb_refl. Qed.
Lemma oid_ltb_app p a b : oid_ltb (p ++ a) (p ++ b) = oid_ltb a b.
Proof. induction p as [|x p IH]; [reflexivity|]. cbn [app]. now rewrite oid_ltb_cons. Qed.
Lemma oid_ltb_lex a b : oid_ltb a b = true <-> lex_lt a b.
Proof.
  split.
  - revert b; induction a as [|x a IH]; intros [|y b] H; cbn in H; try discriminate.
    + apply (lex_prefix [] y b).
    + destruct (x =? y) eqn:E.
      * assert (x = y) by lia; subst. destruct (IH _ H) as [p z b'|p z a' z' b' Hz].
        -- apply (lex_prefix (y :: p) z b').
        -- apply (lex_differ (y :: p) z a' z' b' Hz).
      * apply (lex_differ [] x a y b). lia.
  - intros [p y b'|p x a' y b' Hxy].
    + rewrite <- (app_nil_r p) at 1. rewrite oid_ltb_app. reflexivity.
    + rewrite oid_ltb_app. cbn. destruct (x =? y) eqn:E; lia.
Qed.
Lemma oid_ltb_irrefl a : oid_ltb a a = false.
Proof. induction a; [reflexivity|]. now rewrite oid_ltb_cons. Qed.
Lemma oid_ltb_trans a b c : oid_ltb a b = true -> oid_ltb b c = true -> oid_ltb a c = true.
Proof.
  revert b c; induction a as [|x a IH]; intros [|y b] [|z c]; cbn; try easy.
  destruct (x =? y) eqn:E1, (y =? z) eqn:E2, (x =? z) eqn:E3; try lia; eauto.
Qed.
Lemma oid_ltb_total a b : oid_ltb a b = true \/ a = b \/ oid_ltb b a = true.
Proof.
  revert b; induction a as [|x a IH]; intros [|y b]; cbn; auto.
  destruct (x =? y) eqn:E1, (y =? x) eqn:E2; try lia.
  - assert (x = y) by lia; subst. destruct (IH b) as [H|[->|H]]; auto.
Qed.
Lemma oid_startswith_spec l prefix : oid_startswith l prefix = true <-> exists rest, l = prefix ++ rest.
Proof.
  unfold oid_startswith. rewrite zlist_eqb_eq. unfold py_slice, slice_bound.
  pose proof (zlen_nonneg prefix). pose proof (zlen_nonneg l).
  destruct (zlen prefix <? 0) eqn:E; [lia|]. cbn [skipn]. rewrite !Z.sub_0_r.
  change (Z.to_nat 0) with O. cbn [skipn]. rewrite (to_nat_zlen prefix), firstn_all.
  split.
  - intros H1. exists (skipn (Z.to_nat (Z.min (zlen prefix) (zlen l))) l).
    rewrite <- H1 at 1. now rewrite firstn_skipn.
  - intros [rest ->]. zl. pose proof (zlen_nonneg rest). rewrite Z.min_l by lia. apply firstn_zlen_app.
Qed.

(** ** C10: text form *)
Definition digits (s : pystr) : Prop := Forall (fun c => 48 <= c <= 57) s.
Lemma dec_digits_spec fuel n acc : 0 <= n < 2 ^ Z.of_nat fuel -> fuel <> O ->
  exists ds, dec_digits fuel n acc = ds ++ acc /\ digits ds /\ ds <> [] /\ forall a, fold_left (fun a c => a * 10 + (c - 48)) ds a = a * 10 ^ zlen ds + n.
Proof.
  revert n acc; induction fuel as [|fuel IH]; intros n acc Hn Hf; [easy|].
  cbn [dec_digits]. cbv zeta. pose proof (Z.mod_pos_bound n 10 ltac:(lia)).
  destruct (n / 10 =? 0) eqn:E.
  - exists [48 + n mod 10]. split; [reflexivity|]. split; [constructor; [lia|constructor]|]. split; [easy|].
    intros a. cbn [fold_left]. rewrite zlen_cons, zlen_nil. change (10 ^ (1 + 0)) with 10.
    Z.div_mod_to_equations. lia.
  - destruct fuel as [|fuel].
    { exfalso. change (2 ^ Z.of_nat 1) with 2 in Hn. Z.div_mod_to_equations. lia. }
    destruct (IH (n / 10) (48 + n mod 10 :: acc)) as (ds & E1 & E2 & E3 & E4); [|easy|].
    { rewrite Nat2Z.inj_succ, Z.pow_succ_r in Hn by lia. 
      set (P := 2 ^ Z.of_nat (S fuel)) in *. Z.div_mod_to_equations. lia. }
    exists (ds ++ [48 + n mod 10]). rewrite E1, <- app_assoc. split; [reflexivity|].
    split. { apply Forall_app; split; auto. constructor; [lia|constructor]. }
    split. { destruct ds; easy. }
    intros a. rewrite fold_left_app. cbn [fold_left]. rewrite E4. zl.
    rewrite Z.add_0_r, Z.pow_add_r by (pose proof (zlen_nonneg ds); lia). change (10 ^ 1) with 10.
    pose proof (Z.div_mod n 10 ltac:(lia)). lia.
Qed.
Lemma py_str_int_spec n : 0 <= n ->
  digits (py_str_int n) /\ py_str_int n <> [] /\ fold_left (fun a c => a * 10 + (c - 48)) (py_str_int n) 0 = n.
Proof.
  intros Hn. unfold py_str_int. rewrite Z.abs_eq by lia. destruct (n <? 0) eqn:E; [lia|].
  destruct (dec_digits_spec (S (Z.to_nat (bit_length n))) n []) as (ds & E1 & E2 & E3 & E4); [|easy|].
  - rewrite Nat2Z.inj_succ, Z2Nat.id by apply bit_length_nonneg.
    pose proof (bit_length_pow n Hn). rewrite Z.pow_succ_r by apply bit_length_nonneg. lia.
  - rewrite E1, app_nil_r. rewrite E4. auto.
Qed.
Lemma int_digits_spec ds a prev : digits ds -> (ds <> [] \/ prev = true) ->
  int_digits ds a prev = Ok (fold_left (fun a c => a * 10 + (c - 48)) ds a).
Proof.
  revert a prev; induction ds as [|c ds IH]; intros a prev Hd Hp.
  - destruct Hp as [Hp| ->]; [easy|reflexivity].
  - inversion Hd; subst. cbn [int_digits fold_left].
    unfold is_digit. destruct ((48 <=? c) && (c <=? 57)) eqn:E; [|lia]. apply IH; auto.
Qed.
Lemma lstrip_digits ds : digits ds -> lstrip ds = ds.
Proof.
  intros H. destruct ds as [|c ds]; [reflexivity|]. inversion H; subst. cbn. unfold is_space.
  destruct ((c =? 32) || (9 <=? c) && (c <=? 13) || (28 <=? c) && (c <=? 31)) eqn:E; [lia|reflexivity].
Qed.
Lemma py_int_str n : 0 <= n -> py_int (py_str_int n) = Ok n.
Proof.
  intros Hn. destruct (py_str_int_spec n Hn) as (H1 & H2 & H3). unfold py_int, strip.
  rewrite (lstrip_digits (py_str_int n)) by auto. rewrite lstrip_digits by (apply Forall_rev; auto). rewrite rev_involutive.
  destruct (py_str_int n) as [|c s] eqn:E; [easy|]. pose proof (Forall_inv H1) as Hc; cbn in Hc.
  destruct (c =? 45) eqn:E1; [lia|]. destruct (c =? 43) eqn:E2; [lia|].
  rewrite int_digits_spec by (auto; left; easy). now rewrite H3.
Qed.
Lemma split_dot_app ds s : digits ds -> split_dot (ds ++ 46 :: s) = ds :: split_dot s.
Proof.
  induction ds as [|c ds IH]; intros H; [reflexivity|]. inversion H; subst. cbn [app split_dot].
  destruct (c =? 46) eqn:E; [lia|]. rewrite IH by auto. reflexivity.
Qed.
Lemma split_dot_digits ds : digits ds -> split_dot ds = [ds].
Proof.
  induction ds as [|c ds IH]; intros H; [reflexivity|]. inversion H; subst. cbn [split_dot].
  destruct (c =? 46) eqn:E; [lia|]. rewrite IH by auto. reflexivity.
Qed.
Lemma split_oid_str l : l <> [] -> Forall (fun x => 0 <= x) l -> split_dot (oid_str l) = map py_str_int l.
Proof.
  unfold oid_str. induction l as [|x l IH]; intros Hne H; [easy|]. inversion H; subst.
  destruct (py_str_int_spec x H2) as (Hd & _ & _).
  destruct l as [|y l].
  - cbn. now apply split_dot_digits.
  - cbn [map join_dot]. rewrite split_dot_app by auto. f_equal. apply IH; [easy|auto].
Qed.
Lemma map_res_py_int l : Forall (fun x => 0 <= x) l -> map_res py_int (map py_str_int l) = Ok l.
Proof.
  induction l as [|x l IH]; intros H; [reflexivity|]. inversion H; subst. cbn [map map_res].
  rewrite py_int_str by auto. cbn [bind]. rewrite IH by auto. reflexivity.
Qed.
Lemma oid_parse_str c l : oid_valid c l -> oid_parse c (oid_str l) = Ok l.
Proof.
  intros Hv. pose proof Hv as (H & _). apply oid_new_ok in Hv. unfold oid_parse.
  destruct l as [|x l].
  - cbn. cbn in Hv. rewrite Hv. reflexivity.
  - rewrite split_oid_str by (auto; easy). cbn [map].
    inversion H; subst. destruct (py_str_int_spec x H2) as (_ & Hne & _).
    destruct (py_str_int x) as [|d ds] eqn:E; [easy|]. rewrite <- E.
    change (py_str_int x :: map py_str_int l) with (map py_str_int (x :: l)).
    rewrite map_res_py_int by auto. cbn [bind]. rewrite Hv. reflexivity.
Qed.
Lemma oid_parse_dot_str c l : oid_valid c l -> l <> [] -> oid_parse c (46 :: oid_str l) = Ok l.
Proof.
  intros Hv Hne. pose proof Hv as (H & _). apply oid_new_ok in Hv. unfold oid_parse.
  cbn [split_dot]. change (46 =? 46) with true. cbv iota.
  rewrite split_oid_str, map_res_py_int by auto. cbn [bind]. rewrite Hv. reflexivity.
Qed.
Lemma int_digits_raises s a p : raises_only (eq ValueError) (int_digits s a p).
Proof.
  revert a p; induction s as [|c s IH]; intros a p; cbn [int_digits].
  - destruct p; [apply raises_ok|now apply raises_raise].
  - destruct (is_digit c); [apply IH|]. destruct ((c =? 95) && p); [apply IH|now apply raises_raise].
Qed.
Lemma py_int_raises s : raises_only (eq ValueError) (py_int s).
Proof.
  unfold py_int. destruct (strip s) as [|c s']; [now apply raises_raise|].
  destruct (c =? 45); [|destruct (c =? 43)]; try apply int_digits_raises.
  apply raises_bind; [apply int_digits_raises|intros; apply raises_ok].
Qed.
Lemma oid_parse_raises c s : raises_only (eq ValueError) (oid_parse c s).
Proof.
  unfold oid_parse. apply raises_reraise; [|reflexivity].
  apply raises_weaken with (P := eq ValueError); [|auto]. apply raises_bind.
  - generalize (match split_dot s with [] :: rest => rest | _ => split_dot s end) as l.
    induction l as [|x l IH]; cbn [map_res]; [apply raises_ok|].
    apply raises_bind; [apply py_int_raises|]. intros y _. apply raises_bind; [exact IH|]. intros; apply raises_ok.
  - intros l _. destruct (oid_new_spec c l) as [[_ ->]|[_ ->]]; [apply raises_ok|now apply raises_raise].
Qed.

(** ** C11: table indices *)

Lemma take_nums_app xs rest : take_nums (length xs) (xs ++ rest) = Ok (xs, rest).
Proof. induction xs as [|x xs IH]; [reflexivity|]. cbn [length app take_nums]. rewrite IH. reflexivity. Qed.

(** What an index object must satisfy: constructible, and not an IpAddress
    (unless the implied last one). *)
Lemma fromOID_asOID p implied rest : prim_constructible p ->
  (is_ip p = false \/ implied = true) -> (implied = true -> rest = [] \/ exists c, prim_cls p = CInt c \/ exists c, prim_cls p = CNull c) ->
  fromOID (prim_cls p) (asOID p implied ++ rest) implied = Ok (p, rest).
Proof.
  destruct p as [c v|c d|c|c l]; intros Hp Hip Hr.
  - cbn in *. destruct (int_construct_spec c v) as [[_ H]|[H _]].
    + rewrite H. reflexivity.
    + apply int_new_ok in Hp. tauto.
  - cbn in Hp. destruct Hp as [Hok Hn].
    assert (Hc : octets_construct c (ABytes d) = Ok (POctets c d)).
    { destruct (octets_construct_spec c (ABytes d)) as [[_ H]|[H _]]; [exact H|]. exfalso. apply H.
      cbn [adata_bytes]. destruct c; cbn in *; auto.
      - destruct (65535 <? zlen d) eqn:E; [discriminate|lia].
      - destruct (zlen d =? 4) eqn:E; [lia|discriminate]. }
    cbn [prim_cls fromOID]. destruct implied.
    + assert (rest = []) as ->.
      { destruct (Hr eq_refl) as [->|(c0 & [H|(c1 & H)])]; [reflexivity|discriminate|discriminate]. }
      assert (asOID (POctets c d) true ++ [] = d) as -> by (destruct c; cbn; apply app_nil_r).
      rewrite py_bytes_ok by auto. cbn [bind]. rewrite Hc. reflexivity.
    + destruct Hip as [Hip|Hip]; [|discriminate].
      assert (asOID (POctets c d) false ++ rest = zlen d :: d ++ rest) as -> by (destruct c; [reflexivity..|discriminate|reflexivity]).
      rewrite to_nat_zlen, take_nums_app. cbn [bind]. rewrite py_bytes_ok by auto. cbn [bind]. rewrite Hc. reflexivity.
  - reflexivity.
  - cbn in Hp. apply oid_new_ok in Hp.
    assert (Hc : oid_construct c l = Ok l) by (destruct (oid_construct_spec c l) as [[_ H]|[]]; tauto).
    cbn [prim_cls fromOID asOID]. destruct implied.
    + assert (rest = []) as ->.
      { destruct (Hr eq_refl) as [->|(c0 & [H|(c1 & H)])]; [reflexivity|discriminate|discriminate]. }
      rewrite app_nil_r. cbn [bind]. rewrite Hc. reflexivity.
    + cbn [app]. rewrite to_nat_zlen, take_nums_app. cbn [reraise bind]. rewrite Hc. reflexivity.
Qed.

(** The sub-identifiers appended by withIndex. *)
Fixpoint index_nums (index : list prim) (implied : bool) : list Z :=
  match index with
  | [] => []
  | [p] => asOID p implied
  | p :: index' => asOID p false ++ index_nums index' implied
  end.
Lemma oid_new_eq c l r : oid_new c l = Ok r -> r = l.
Proof. destruct (oid_new_spec c l) as [[_ ->]|[_ ->]]; congruence. Qed.
Lemma withIndex_nums c l index implied r : withIndex c l index implied = Ok r -> r = l ++ index_nums index implied.
Proof.
  revert l; induction index as [|p index IH]; intros l H.
  - cbn in *. injection H as <-. now rewrite app_nil_r.
  - destruct index as [|q index].
    + cbn in *. now apply oid_new_eq in H.
    + change (index_nums (p :: q :: index) implied) with (asOID p false ++ index_nums (q :: index) implied).
      cbn [withIndex] in H. apply bind_ok in H as (l' & H1 & H2). apply IH in H2.
      apply oid_new_eq in H1. subst. now rewrite <- app_assoc.
Qed.
Fixpoint no_bad_ip (index : list prim) (implied : bool) : bool :=
  match index with
  | [] => true
  | [p] => negb (is_ip p) || implied
  | p :: index' => negb (is_ip p) && no_bad_ip index' implied
  end.
Lemma decodeIndex_fields_nums index implied : Forall prim_constructible index ->
  no_bad_ip index implied = true ->
  decodeIndex_fields (index_nums index implied) (map prim_cls index) implied = Ok (index, []).
Proof.
  induction index as [|p index IH]; intros Hc Hip; [reflexivity|]. inversion Hc; subst.
  destruct index as [|q index].
  - cbn [map decodeIndex_fields index_nums]. unfold decodeIndexField.
    rewrite <- (app_nil_r (asOID p implied)). rewrite fromOID_asOID; auto.
    cbn in Hip. destruct (is_ip p); cbn in Hip; auto.
  - change (index_nums (p :: q :: index) implied) with (asOID p false ++ index_nums (q :: index) implied).
    change (no_bad_ip (p :: q :: index) implied) with (negb (is_ip p) && no_bad_ip (q :: index) implied) in Hip.
    apply andb_true_iff in Hip as [Hp Hip].
    change (map prim_cls (p :: q :: index)) with (prim_cls p :: map prim_cls (q :: index)).
    cbn [decodeIndex_fields]. cbn [map]. unfold decodeIndexField at 1.
    rewrite fromOID_asOID; auto; [|left; now destruct (is_ip p)|discriminate].
    cbn [reraise bind]. cbn [map] in IH. rewrite IH by auto. reflexivity.
Qed.
Lemma py_slice_from {A} (l : list A) k : 0 <= k -> py_slice l (Some k) None = skipn (Z.to_nat k) l.
Proof.
  intros Hk. unfold py_slice, slice_bound. destruct (k <? 0) eqn:E; [lia|]. pose proof (zlen_nonneg l).
  destruct (Z.leb_spec k (zlen l)).
  - rewrite Z.min_l by lia. apply firstn_all2. rewrite skipn_length. unfold zlen in *. lia.
  - rewrite Z.min_r by lia. rewrite !skipn_all2 by (unfold zlen in *; lia). apply firstn_nil.
Qed.
Lemma index_roundtrip c prefix index implied l : Forall prim_constructible index ->
  no_bad_ip index implied = true -> withIndex c prefix index implied = Ok l ->
  decodeIndex l prefix (map prim_cls index) implied = Ok index.
Proof.
  intros Hc Hip Hw. apply withIndex_nums in Hw. subst l. unfold decodeIndex.
  assert (oid_startswith (prefix ++ index_nums index implied) prefix = true) as ->
    by (apply oid_startswith_spec; eauto).
  cbn [negb]. rewrite py_slice_from, skipn_zlen_app by apply zlen_nonneg.
  rewrite decodeIndex_fields_nums by auto. reflexivity.
Qed.

(** ** C12 *)
Lemma take_nums_raises n nums : raises_only (eq StopIteration) (take_nums n nums).
Proof.
  revert nums; induction n as [|n IH]; intros [|x nums]; cbn [take_nums]; try apply raises_ok.
  - now apply raises_raise.
  - apply raises_bind; [apply IH|]. intros [a b] _. apply raises_ok.
Qed.
Lemma take_nums_in n nums xs rest : take_nums n nums = Ok (xs, rest) -> nums = xs ++ rest.
Proof.
  revert nums xs rest; induction n as [|n IH]; intros nums xs rest H; cbn in H.
  - inversion H; reflexivity.
  - destruct nums as [|x nums]; [discriminate|]. apply bind_ok in H as ([a b] & H1 & H2).
    inversion H2; subst. cbn. now rewrite (IH _ _ _ H1).
Qed.
(** Which exceptions a field can raise. *)
Definition octet_cls (c : pcls) : bool := match c with COctets _ => true | _ => false end.
Definition oid_cls (c : pcls) : bool := match c with COid _ => true | _ => false end.
Definition index_exc (nums : list Z) (types : list pcls) (e : exc) : Prop :=
  e = IndexDecodeError \/
  (e = ValueError /\ existsb octet_cls types = true /\ bytes_okb nums = false) \/
  (e = RuntimeError /\ existsb oid_cls types = true).
Lemma py_bytes_raises l : raises_only (fun e => e = ValueError /\ bytes_okb l = false) (py_bytes l).
Proof. unfold py_bytes. destruct (bytes_okb l); [apply raises_ok|apply raises_raise; auto]. Qed.
Lemma bytes_okb_app a b : bytes_okb (a ++ b) = bytes_okb a && bytes_okb b.
Proof. apply forallb_app. Qed.
Lemma fromOID_raises c nums implied :
  raises_only (fun e => e = StopIteration \/ index_exc nums [c] e) (fromOID c nums implied).
Proof.
  unfold index_exc. destruct c as [c|c|c|c]; cbn [fromOID existsb octet_cls oid_cls orb].
  - destruct nums as [|x nums]; [apply raises_raise; auto|]. apply raises_bind; [|intros; apply raises_ok].
    apply raises_reraise; [|auto]. eapply raises_weaken; [apply int_construct_raises|]. intros e <-; auto.
  - apply raises_bind.
    + destruct implied.
      * apply raises_bind; [|intros; apply raises_ok]. eapply raises_weaken; [apply py_bytes_raises|].
        cbn. intros e [-> H]; tauto.
      * destruct nums as [|len nums]; [apply raises_raise; auto|].
        apply raises_bind; [eapply raises_weaken; [apply take_nums_raises|]; intros e <-; auto|].
        intros [xs rest] Ht. apply take_nums_in in Ht. apply raises_bind; [|intros; apply raises_ok].
        eapply raises_weaken; [apply py_bytes_raises|]. cbn. intros e [-> H].
        right; right; left. repeat split. subst nums. change (bytes_okb (len :: xs ++ rest)) with
          (is_byte len && bytes_okb (xs ++ rest)). rewrite bytes_okb_app, H. cbn. apply andb_false_r.
    + intros [d rest] _. apply raises_bind; [|intros; apply raises_ok].
      apply raises_reraise; [|auto]. destruct (octets_construct_spec c (ABytes d)) as [[_ ->]|[_ ->]];
      [apply raises_ok|apply raises_raise; auto].
  - apply raises_ok.
  - apply raises_bind.
    + destruct implied; [apply raises_ok|]. destruct nums as [|len nums]; [apply raises_raise; auto|].
      apply raises_reraise; [|auto 6]. eapply raises_weaken; [apply take_nums_raises|]. intros e <-; auto.
    + intros [l rest] _. apply raises_bind; [|intros; apply raises_ok].
      apply raises_reraise; [|auto]. destruct (oid_construct_spec c l) as [[_ ->]|[_ ->]];
      [apply raises_ok|apply raises_raise; auto].
Qed.
Lemma fromOID_rest c nums implied p rest : fromOID c nums implied = Ok (p, rest) ->
  prim_cls p = c /\ exists pre, nums = pre ++ rest.
Proof.
  destruct c as [c|c|c|c]; cbn [fromOID]; intros H.
  - destruct nums as [|x nums]; [discriminate|]. apply bind_ok in H as (q & H1 & H2). inversion H2; subst.
    split; [|exists [x]; reflexivity]. destruct (int_construct_spec c x) as [[_ E]|[_ E]]; rewrite E in H1; inversion H1; reflexivity.
  - apply bind_ok in H as ([d r] & H1 & H2). apply bind_ok in H2 as (q & H2 & H3). inversion H3; subst.
    split.
    + destruct (octets_construct_spec c (ABytes d)) as [[_ E]|[_ E]]; rewrite E in H2; inversion H2; reflexivity.
    + destruct implied.
      * apply bind_ok in H1 as (d' & H1 & H4). inversion H4; subst. exists nums. now rewrite app_nil_r.
      * destruct nums as [|len nums]; [discriminate|]. apply bind_ok in H1 as ([xs r] & H1 & H4).
        apply bind_ok in H4 as (d' & H4 & H5). inversion H5; subst. apply take_nums_in in H1. subst.
        exists (len :: xs). reflexivity.
  - inversion H; subst. split; [reflexivity|exists []; reflexivity].
  - apply bind_ok in H as ([l r] & H1 & H2). apply bind_ok in H2 as (q & H2 & H3). inversion H3; subst.
    split; [reflexivity|]. destruct implied.
    + inversion H1; subst. exists l. now rewrite app_nil_r.
    + destruct nums as [|len nums]; [discriminate|].
      destruct (take_nums (Z.to_nat len) nums) as [[xs r]|e] eqn:E; cbn in H1.
      * inversion H1; subst. apply take_nums_in in E. subst. exists (len :: l). reflexivity.
      * destruct (exc_eqb StopIteration e); discriminate.
Qed.
Lemma index_exc_field nums c types e : In c types ->
  (e = StopIteration \/ index_exc nums [c] e) -> 
  (if exc_eqb StopIteration e then IndexDecodeError else e) = IndexDecodeError \/ index_exc nums types e.
Proof.
  intros Hin [->|[->|[(-> & H1 & H2)|(-> & H1)]]].
  - left. reflexivity.
  - right; left; reflexivity.
  - right; right; left. split; [reflexivity|]. split; [|auto]. apply existsb_exists. exists c.
    cbn in H1. rewrite orb_false_r in H1. auto.
  - right; right; right. split; [reflexivity|]. apply existsb_exists. exists c.
    cbn in H1. rewrite orb_false_r in H1. auto.
Qed.
Lemma decodeIndexField_raises nums c implied :
  raises_only (index_exc nums [c]) (decodeIndexField nums c implied).
Proof.
  unfold decodeIndexField. apply raises_reraise; [|left; reflexivity].
  eapply raises_weaken; [apply fromOID_raises|]. intros e [->|H]; [left; reflexivity|right; exact H].
Qed.
Lemma index_exc_mono nums nums' types types' e :
  (bytes_okb nums = false -> bytes_okb nums' = false) -> incl types types' ->
  index_exc nums types e -> index_exc nums' types' e.
Proof.
  intros Hn Hi [->|[(-> & H1 & H2)|(-> & H1)]]; [left; reflexivity| |].
  - right; left. split; [reflexivity|]. split; [|auto]. apply existsb_exists in H1 as (c & H1 & H3).
    apply existsb_exists. exists c; auto.
  - right; right. split; [reflexivity|]. apply existsb_exists in H1 as (c & H1 & H3).
    apply existsb_exists. exists c; auto.
Qed.
Lemma decodeIndex_fields_raises types nums implied :
  raises_only (index_exc nums types) (decodeIndex_fields nums types implied) /\
  forall ps rest, decodeIndex_fields nums types implied = Ok (ps, rest) ->
    map prim_cls ps = types /\ exists pre, nums = pre ++ rest.
Proof.
  revert nums; induction types as [|c types IH]; intros nums.
  - split; [apply raises_ok|]. intros ps rest H. inversion H; subst. split; [reflexivity|exists []; reflexivity].
  - destruct types as [|c2 types].
    + cbn [decodeIndex_fields]. split.
      * apply raises_bind; [apply decodeIndexField_raises|]. intros [p r] _. apply raises_ok.
      * intros ps rest H. apply bind_ok in H as ([p r] & H1 & H2). inversion H2; subst.
        unfold decodeIndexField in H1. destruct (fromOID c nums implied) as [[p' r']|e] eqn:E; cbn in H1;
          [|destruct (exc_eqb StopIteration e); discriminate]. inversion H1; subst.
        apply fromOID_rest in E as [E1 E2]. cbn. now rewrite E1.
    + remember (c2 :: types) as ts eqn:Ets.
      assert (U : decodeIndex_fields nums (c :: ts) implied =
        do r <- decodeIndexField nums c false;
        let '(p, rest) := r in
        do r' <- decodeIndex_fields rest ts implied;
        let '(ps, rest') := r' in Ok (p :: ps, rest')) by (subst ts; reflexivity).
      rewrite U.
      assert (F : forall p r, decodeIndexField nums c false = Ok (p, r) ->
                 prim_cls p = c /\ exists pre, nums = pre ++ r).
      { intros p r H1. unfold decodeIndexField in H1. destruct (fromOID c nums false) as [[p' r']|e] eqn:E; cbn in H1;
          [|destruct (exc_eqb StopIteration e); discriminate]. inversion H1; subst. now apply fromOID_rest in E. }
      split.
      * apply raises_bind.
        -- eapply raises_weaken; [apply decodeIndexField_raises|]. intros e He.
           eapply index_exc_mono; [| |exact He]; [auto|]. intros x [->|[]]; left; reflexivity.
        -- intros [p r] H1. destruct (F _ _ H1) as (_ & pre & ->). apply raises_bind.
           ++ eapply raises_weaken; [apply (proj1 (IH r))|]. intros e He.
              eapply index_exc_mono; [| |exact He].
              ** intros H. rewrite bytes_okb_app, H. apply andb_false_r.
              ** intros x Hx; right; exact Hx.
           ++ intros [ps r'] _. apply raises_ok.
      * intros ps rest H. apply bind_ok in H as ([p r] & H1 & H2). apply bind_ok in H2 as ([ps' r'] & H2 & H3).
        inversion H3; subst ps rest. destruct (F _ _ H1) as (E1 & pre & E2).
        destruct (IH r) as [_ G]. destruct (G _ _ H2) as (G1 & pre2 & G2).
        cbn [map]. split; [now rewrite E1, G1|]. exists (pre ++ pre2). subst. now rewrite <- app_assoc.
Qed.
