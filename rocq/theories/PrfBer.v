(** PrfBer.v -- lemmas about snmp/ber.py. *)
From Verif Require Export PrfSub Ber.

Definition tag_ok (t : tag) : Prop := 0 <= t_number t /\ 0 <= t_cls t <= 3.

Lemma tag_eqb_eq a b : tag_eqb a b = true <-> a = b.
Proof.
  destruct a as [n1 c1 k1], b as [n2 c2 k2]. unfold tag_eqb; cbn.
  rewrite !andb_true_iff, !Z.eqb_eq, Bool.eqb_true_iff. split.
  - intros [[-> ->] ->]; reflexivity.
  - intros H; inversion H; auto.
Qed.
Lemma tag_eqb_refl a : tag_eqb a a = true. Proof. now apply tag_eqb_eq. Qed.
Lemma tag_eqb_neq a b : tag_eqb a b = false <-> a <> b.
Proof. rewrite <- tag_eqb_eq. destruct (tag_eqb a b); split; congruence. Qed.

(** ** First identifier octet *)
Definition id_octet (cls : Z) (c : bool) (n : Z) : Z :=
  let byte := Z.land (Z.shiftl cls 6) 0xc0 in
  let byte := if c then Z.lor byte 0x20 else byte in Z.lor byte n.

Lemma id_octet_spec cls c n : 0 <= cls <= 3 -> 0 <= n < 32 ->
  let b := id_octet cls c n in
  0 <= b < 256 /\ Z.shiftr (Z.land b 0xc0) 6 = cls /\
  negb (Z.land b 0x20 =? 0) = c /\ Z.land b 0x1f = n.
Proof.
  intros Hc Hn b.
  assert (G : forallb (fun cls => forallb (fun c => forallb (fun n =>
      let b := id_octet cls c n in
      (0 <=? b) && (b <? 256) && (Z.shiftr (Z.land b 0xc0) 6 =? cls) &&
      Bool.eqb (negb (Z.land b 0x20 =? 0)) c && (Z.land b 0x1f =? n))
      (map Z.of_nat (seq 0 32))) [true; false]) [0;1;2;3] = true) by (vm_compute; reflexivity).
  rewrite forallb_forall in G. specialize (G cls). rewrite forallb_forall in G.
  assert (In cls [0;1;2;3]) by (cbn; lia).
  specialize (G H c). rewrite forallb_forall in G.
  assert (In c [true;false]) by (destruct c; cbn; auto).
  specialize (G H0 n). assert (In n (map Z.of_nat (seq 0 32))).
  { apply in_map_iff. exists (Z.to_nat n). split; [lia|apply in_seq; lia]. }
  specialize (G H1). cbv zeta in G. fold b in G.
  rewrite !andb_true_iff, !Z.eqb_eq, Bool.eqb_true_iff in G. repeat split; try apply G; lia.
Qed.

(** ** Base-128 groups *)
Lemma tag_encode_loop_ok fuel n ind : 0 <= n < 2 ^ Z.of_nat fuel ->
  exists arr, tag_encode_loop fuel n ind = Ok arr.
Proof.
  revert n ind; induction fuel as [|fuel IH]; intros n ind Hn.
  - assert (n = 0) by (change (2 ^ Z.of_nat 0) with 1 in Hn; lia); subst. cbn; eauto.
  - cbn [tag_encode_loop]. destruct (n =? 0) eqn:E; [eauto|].
    destruct (IH (Z.shiftr n 7) 0x80) as [arr ->]; [|cbn; eauto].
    rewrite shiftr_div by lia. rewrite Nat2Z.inj_succ, Z.pow_succ_r in Hn by lia.
    change (2 ^ 7) with 128. Z.div_mod_to_equations. lia.
Qed.

Lemma tag_encode_loop_bytes fuel n ind arr : (ind = 0 \/ ind = 0x80) ->
  tag_encode_loop fuel n ind = Ok arr -> bytes_ok arr.
Proof.
  revert n ind arr; induction fuel as [|fuel IH]; intros n ind arr Hi; cbn [tag_encode_loop];
    destruct (n =? 0) eqn:E; intros H; inversion H; subst; auto with bytes.
  clear H1. apply bind_ok in H as (r & Hr & H). inversion H; subst.
  apply bytes_ok_cons; split; [|eapply IH; [|eauto]; auto].
  rewrite land_7f. pose proof (Z.mod_pos_bound n 128 ltac:(lia)).
  destruct Hi; subst ind.
  - rewrite Z.lor_0_l; lia.
  - rewrite lor_80 by lia. lia.
Qed.

Lemma tag_decode_loop_bit fuel acc b1 b2 s :
  (Z.land b1 0x80 =? 0) = (Z.land b2 0x80 =? 0) ->
  tag_decode_loop fuel acc b1 s = tag_decode_loop fuel acc b2 s.
Proof. intros H. destruct fuel; cbn [tag_decode_loop]; rewrite H; reflexivity. Qed.

Lemma tag_decode_loop_step fuel acc b s x r : sb_wf s -> sb_view s = x :: r ->
  (Z.land b 0x80 =? 0) = false -> 
  tag_decode_loop (S fuel) acc b s =
  tag_decode_loop fuel (acc * 128 + x mod 128) x (sb_drop 1 s).
Proof.
  intros Hw Hv Hb. cbn [tag_decode_loop]. rewrite Hb, (sb_deref_cons s x r) by auto.
  cbn [reraise bind]. rewrite (sb_advance_cons s x r) by auto.
  rewrite land_7f, shiftl_mul, lor_shift by (try apply Z.mod_pos_bound; lia). reflexivity.
Qed.

Lemma tag_loop_roundtrip fe n ind arr : 0 <= n -> (ind = 0 \/ ind = 0x80) ->
  tag_encode_loop fe n ind = Ok arr ->
  forall fd acc s rest, sb_wf s -> sb_view s = rev arr ++ rest -> (length arr <= fd)%nat ->
  arr = [] /\ n = 0 \/
  tag_decode_loop fd acc 0x80 s =
  tag_decode_loop (fd - length arr) (acc * 128 ^ zlen arr + n) ind (sb_drop (zlen arr) s).
Proof.
  revert n ind arr; induction fe as [|fe IH]; intros n ind arr Hn Hi; cbn [tag_encode_loop];
    destruct (n =? 0) eqn:E; intros H; try discriminate.
  1,2: inversion H; subst; left; split; [reflexivity|lia].
  apply bind_ok in H as (arr' & Harr & H). injection H as H; subst arr.
  intros fd acc s rest Hw Hv Hfd. right.
  set (x := Z.lor ind (Z.land n 127)) in *.
  assert (Hx : x mod 128 = n mod 128 /\ (Z.land x 0x80 =? 0) = (Z.land ind 0x80 =? 0)).
  { unfold x. rewrite land_7f. pose proof (Z.mod_pos_bound n 128 ltac:(lia)).
    destruct Hi; subst ind.
    - rewrite Z.lor_0_l, Z.mod_mod, land_80 by lia. split; [reflexivity|cbn; lia].
    - rewrite lor_80, land_80 by lia. split; [|cbn; lia].
      change 128 with (1 * 128) at 1. rewrite Z.add_comm, Z.mod_add by lia. apply Z.mod_mod; lia. }
  cbn [rev] in Hv. rewrite <- app_assoc in Hv. cbn [app] in Hv.
  pose proof (sb_drop_app s (rev arr') (x :: rest) Hw Hv) as [Hw' Hv']. rewrite zlen_rev in *.
  cbn [length] in Hfd.
  rewrite shiftr_div in Harr by lia. change (2 ^ 7) with 128 in Harr.
  assert (Hn' : 0 <= n / 128) by (apply Z.div_pos; lia).
  assert (Hz : tag_decode_loop fd acc 128 s =
     tag_decode_loop (S (fd - S (length arr'))) (acc * 128 ^ zlen arr' + n / 128) 128 (sb_drop (zlen arr') s)).
  { destruct (IH _ _ _ Hn' (or_intror eq_refl) Harr fd acc s _ Hw Hv ltac:(lia)) as [[-> E0]|Hd].
    - rewrite E0, zlen_nil, sb_drop_0. change (128 ^ 0) with 1. f_equal; [cbn [length] in *; lia|lia].
    - rewrite Hd. f_equal. lia. }
  rewrite Hz. erewrite tag_decode_loop_step by (eauto; reflexivity).
  rewrite sb_drop_drop. zl. destruct Hx as [Hx1 Hx2].
  rewrite Hx1. rewrite (tag_decode_loop_bit _ _ x ind) by auto.
  cbn [length]. f_equal; [|f_equal; lia].
  rewrite Z.pow_add_r by (pose proof (zlen_nonneg arr'); lia). change (128 ^ 1) with 128.
  rewrite (Z.div_mod n 128) at 3 by lia. lia.
Qed.

Lemma tag_encode_loop_nonempty fe n ind arr : 0 < n -> tag_encode_loop fe n ind = Ok arr -> arr <> [].
Proof.
  intros Hn; destruct fe; cbn [tag_encode_loop]; destruct (n =? 0) eqn:E; try lia; try discriminate.
  intros H; apply bind_ok in H as (r & Hr & H); inversion H; discriminate.
Qed.

Lemma bit_length_pow v : 0 <= v -> v < 2 ^ bit_length v.
Proof. intros H. apply bit_length_spec; [auto|apply bit_length_nonneg|lia]. Qed.

Lemma tag_encode_ok t : tag_ok t -> exists b, tag_encode t = Ok b /\ bytes_ok b.
Proof.
  intros [Hn Hc]. unfold tag_encode. cbv zeta.
  destruct (t_number t <? 31) eqn:E.
  - cbn [bind app]. change (Z.lor (if t_constructed t then _ else _) (t_number t))
      with (id_octet (t_cls t) (t_constructed t) (t_number t)).
    pose proof (id_octet_spec (t_cls t) (t_constructed t) (t_number t) ltac:(lia) ltac:(lia)) as [Hb _].
    assert (bytes_ok [id_octet (t_cls t) (t_constructed t) (t_number t)])
      by (apply bytes_ok_cons; auto with bytes).
    rewrite py_bytes_ok by auto. cbn. eauto.
  - destruct (tag_encode_loop_ok (Z.to_nat (bit_length (t_number t))) (t_number t) 0) as [arr Ha].
    { rewrite Z2Nat.id by apply bit_length_nonneg. split; [lia|]. now apply bit_length_pow. }
    rewrite Ha. cbn [bind].
    change (Z.lor (if t_constructed t then _ else _) 31)
      with (id_octet (t_cls t) (t_constructed t) 31).
    pose proof (id_octet_spec (t_cls t) (t_constructed t) 31 ltac:(lia) ltac:(lia)) as [Hb _].
    assert (bytes_ok (arr ++ [id_octet (t_cls t) (t_constructed t) 31])).
    { apply bytes_ok_app; split; [eapply tag_encode_loop_bytes; [|eauto]; auto|].
      apply bytes_ok_cons; auto with bytes. }
    rewrite py_bytes_ok by auto. cbn [bind]. eauto with bytes.
Qed.

Lemma tag_decode_encode t enc rest s : tag_ok t -> tag_encode t = Ok enc ->
  sb_wf s -> sb_view s = enc ++ rest ->
  tag_decode s = Ok (t, sb_drop (zlen enc) s).
Proof.
  intros [Hn Hc] He Hw Hv. unfold tag_encode in He. cbv zeta in He.
  assert (Hcls : tag_class (t_cls t) = Ok (t_cls t)).
  { unfold tag_class. destruct ((0 <=? t_cls t) && (t_cls t <=? 3)) eqn:E2; [reflexivity|lia]. }
  destruct (t_number t <? 31) eqn:E.
  - cbn [bind app] in He. apply bind_ok in He as (a & Ha & He). injection He as He. subst enc.
    apply py_bytes_inv in Ha as [-> Hok]. cbn [rev app] in *.
    revert Hv Hok. change (Z.lor (if t_constructed t then _ else _) (t_number t))
      with (id_octet (t_cls t) (t_constructed t) (t_number t)). intros Hv Hok.
    pose proof (id_octet_spec (t_cls t) (t_constructed t) (t_number t) ltac:(lia) ltac:(lia)) as (Hb & H1 & H2 & H3).
    set (b := id_octet _ _ _) in *. unfold tag_decode.
    rewrite (sb_deref_cons s b rest), (sb_advance_cons s b rest) by auto. cbn [reraise bind].
    rewrite H1, H2, H3. destruct (t_number t =? 31) eqn:E3; [lia|]. cbn [bind].
    rewrite Hcls. cbn [bind]. destruct t; reflexivity.
  - apply bind_ok in He as ([b0 arr] & Ha & He). apply bind_ok in Ha as (arr0 & Ha & H0).
    injection H0 as H0 H0'; subst b0 arr0. apply bind_ok in He as (a & Hp & He). injection He as He; subst enc.
    apply py_bytes_inv in Hp as [-> Hok].
    revert Hv Hok. change (Z.lor (if t_constructed t then _ else _) 31)
      with (id_octet (t_cls t) (t_constructed t) 31). intros Hv Hok.
    pose proof (id_octet_spec (t_cls t) (t_constructed t) 31 ltac:(lia) ltac:(lia)) as (Hb & H1 & H2 & H3).
    set (b := id_octet _ _ _) in *. unfold tag_decode.
    rewrite rev_app_distr in Hv. cbn [rev app] in Hv.
    rewrite (sb_deref_cons s b (rev arr ++ rest)), (sb_advance_cons s b (rev arr ++ rest)) by auto.
    cbn [reraise bind]. rewrite H1, H2, H3. change (31 =? 31) with true. cbv iota.
    destruct (sb_drop_cons s b (rev arr ++ rest) Hw Hv) as [Hw' Hv'].
    assert (Hlen : (length arr <= length (sb_data s))%nat).
    { pose proof (sb_view_zlen s Hw) as HL. rewrite Hv in HL. zl.
      pose proof (zlen_nonneg rest). destruct Hw. unfold zlen in *. lia. }
    destruct (tag_loop_roundtrip _ _ _ _ Hn (or_introl eq_refl) Ha
                (S (length (sb_data (sb_drop 1 s)))) 0 (sb_drop 1 s) rest Hw' Hv') as [[-> E3]|Hd].
    + cbn [sb_drop sb_data]. lia.
    + lia.
    + rewrite Hd. cbn [sb_drop sb_data] in *.
      replace (S (length (sb_data s)) - length arr)%nat with (S (length (sb_data s) - length arr)) by lia.
      cbn [tag_decode_loop]. change (Z.land 0 128 =? 0) with true. cbv iota. cbn [bind].
      rewrite Hcls. cbn [bind]. zl. destruct t; cbn.
      rewrite Z.mul_0_l. unfold sb_drop; cbn. do 3 f_equal; lia.
Qed.

(** Totality of tag_decode. *)
Lemma tag_decode_loop_total fuel acc b s : sb_wf s -> bytes_ok (sb_data s) ->
  (length (sb_view s) < fuel)%nat -> 
  (exists n k, tag_decode_loop fuel acc b s = Ok (n, sb_drop k s) /\ 0 <= k <= zlen (sb_view s)
    /\ (0 <= acc -> 0 <= n)) \/
  tag_decode_loop fuel acc b s = Raise ParseError.
Proof.
  revert acc b s; induction fuel as [|fuel IH]; intros acc b s Hw Hok Hf; [lia|].
  destruct (Z.land b 0x80 =? 0) eqn:E.
  - left; exists acc, 0. cbn [tag_decode_loop]. rewrite E, sb_drop_0.
    pose proof (zlen_nonneg (sb_view s)). repeat split; auto; lia.
  - destruct (sb_view s) as [|x r] eqn:Hv.
    + right. cbn [tag_decode_loop]. rewrite E, sb_deref_nil by auto. reflexivity.
    + erewrite tag_decode_loop_step by eauto.
      destruct (sb_drop_cons s x r Hw Hv) as [Hw' Hv'].
      destruct (IH (acc * 128 + x mod 128) x (sb_drop 1 s) Hw' Hok) as [(n & k & H1 & H2 & H3)|H1].
      * rewrite Hv'. cbn [length] in Hf. lia.
      * left; exists n, (1 + k). rewrite H1, sb_drop_drop. rewrite Hv' in H2. zl.
        repeat split; try lia. intros Ha. apply H3. pose proof (Z.mod_pos_bound x 128). lia.
      * now right.
Qed.

Lemma tag_decode_total s : sb_wf s -> bytes_ok (sb_data s) ->
  (exists t k, tag_decode s = Ok (t, sb_drop k s) /\ 0 < k <= zlen (sb_view s) /\ tag_ok t) \/
  tag_decode s = Raise ParseError.
Proof.
  intros Hw Hok. unfold tag_decode. destruct (sb_view s) as [|b r] eqn:Hv.
  - right. rewrite sb_deref_nil by auto. reflexivity.
  - rewrite (sb_deref_cons s b r), (sb_advance_cons s b r) by auto. cbn [reraise bind].
    destruct (sb_drop_cons s b r Hw Hv) as [Hw' Hv'].
    assert (Hb : 0 <= b < 256).
    { pose proof (sb_view_ok s Hok) as Hvok. rewrite Hv in Hvok. now apply bytes_ok_cons in Hvok. }
    assert (Hcl : exists c, tag_class (Z.shiftr (Z.land b 192) 6) = Ok c /\ 0 <= c <= 3).
    { exists (Z.shiftr (Z.land b 192) 6). unfold tag_class.
      assert (G : ((0 <=? Z.shiftr (Z.land b 192) 6) && (Z.shiftr (Z.land b 192) 6 <=? 3)) = true).
      { revert b Hb Hv. clear. intros b Hb _. revert b Hb. apply byte_sweep. vm_compute. reflexivity. }
      rewrite G. split; [reflexivity|lia]. }
    destruct Hcl as (c & Hcl & Hc). rewrite land_1f.
    pose proof (Z.mod_pos_bound b 32 ltac:(lia)).
    assert (Hr : 0 <= zlen r) by apply zlen_nonneg.
    destruct (b mod 32 =? 31) eqn:E.
    + destruct (tag_decode_loop_total (S (length (sb_data (sb_drop 1 s)))) 0 128 (sb_drop 1 s) Hw' Hok)
        as [(n & k & H1 & H2 & H3)|H1].
      * pose proof (sb_view_zlen _ Hw') as HL. destruct Hw'. rewrite Hv' in *. cbn [sb_drop sb_data sb_start sb_stop] in *.
        unfold zlen in *. lia.
      * left. rewrite H1. cbn [bind]. rewrite Hcl. cbn [bind]. rewrite sb_drop_drop.
        eexists _, (1 + k). split; [reflexivity|]. rewrite Hv' in H2. zl.
        split; [lia|]. split; cbn; [apply H3; lia|lia].
      * right. now rewrite H1.
    + left. cbn [bind]. rewrite Hcl. cbn [bind]. eexists _, 1. split; [reflexivity|].
      zl. split; [lia|]. split; cbn; lia.
Qed.

(** ** Lengths *)
Lemma decode_length_loop_ok n acc s : sb_wf s -> bytes_ok (sb_data s) ->
  decode_length_loop n acc s =
  if (Z.of_nat n <=? zlen (sb_view s)) then
    Ok (acc * 256 ^ Z.of_nat n + from_be (firstn n (sb_view s)), sb_drop (Z.of_nat n) s)
  else Raise ParseError.
Proof.
  revert acc s; induction n as [|n IH]; intros acc s Hw Hok.
  - cbn [decode_length_loop firstn]. change (Z.of_nat 0) with 0. rewrite sb_drop_0.
    pose proof (zlen_nonneg (sb_view s)). destruct (0 <=? zlen (sb_view s)) eqn:E; [|lia].
    rewrite from_be_nil. do 2 f_equal. change (256^0) with 1. lia.
  - cbn [decode_length_loop]. destruct (sb_view s) as [|b r] eqn:Hv.
    + rewrite sb_deref_nil by auto. cbn. zl. destruct (Z.of_nat (S n) <=? 0) eqn:E; [lia|reflexivity].
    + rewrite (sb_deref_cons s b r), (sb_advance_cons s b r) by auto. cbn [reraise bind].
      destruct (sb_drop_cons s b r Hw Hv) as [Hw' Hv'].
      assert (Hb : 0 <= b < 256).
      { pose proof (sb_view_ok s Hok) as Hvok. rewrite Hv in Hvok. now apply bytes_ok_cons in Hvok. }
      rewrite IH by auto. rewrite Hv'. zl. rewrite Nat2Z.inj_succ.
      destruct (Z.of_nat n <=? zlen r) eqn:E; destruct (Z.succ (Z.of_nat n) <=? 1 + zlen r) eqn:E2; try lia; auto.
      rewrite sb_drop_drop, shiftl_mul, lor_shift by lia. cbn [firstn]. rewrite from_be_cons. zl.
      f_equal. f_equal; [|f_equal; lia].
      rewrite Z.pow_succ_r by lia. rewrite Z.min_l by lia. change (2^8) with 256. lia.
Qed.

Lemma encode_length_loop_ok fuel n : 0 <= n < 2 ^ Z.of_nat fuel ->
  exists k, encode_length_loop fuel n = Ok (rev (be_bytes k n)) /\
    n < 256 ^ Z.of_nat k /\ (n <> 0 -> (0 < k)%nat /\ 256 ^ (Z.of_nat k - 1) <= n) /\ (n = 0 -> k = O).
Proof.
  revert n; induction fuel as [|fuel IH]; intros n Hn.
  - assert (n = 0) by (change (2 ^ Z.of_nat 0) with 1 in Hn; lia); subst.
    exists O. cbn. repeat split; lia.
  - cbn [encode_length_loop]. destruct (n =? 0) eqn:E.
    { assert (n = 0) by lia; subst. exists O. cbn. repeat split; lia. }
    rewrite shiftr_div by lia. rewrite land_ff. change (2 ^ 8) with 256.
    assert (Hq : 0 <= n / 256 < 2 ^ Z.of_nat fuel).
    { rewrite Nat2Z.inj_succ, Z.pow_succ_r in Hn by lia. Z.div_mod_to_equations. lia. }
    destruct (IH (n / 256) Hq) as (k & -> & H1 & H2 & H3).
    exists (S k). cbn [be_bytes bind]. rewrite rev_app_distr. cbn [rev app].
    rewrite Nat2Z.inj_succ, Z.pow_succ_r by lia.
    split; [reflexivity|]. split; [Z.div_mod_to_equations; lia|]. split; [|lia].
    intros _. split; [lia|]. replace (Z.succ (Z.of_nat k) - 1) with (Z.of_nat k) by lia.
    destruct (Z.eq_dec (n / 256) 0) as [E0|E0].
    + rewrite (H3 E0). change (256 ^ Z.of_nat 0) with 1. lia.
    + destruct (H2 E0) as [H4 H5].
      replace (Z.of_nat k) with (Z.succ (Z.of_nat k - 1)) by lia. rewrite Z.pow_succ_r by lia.
      Z.div_mod_to_equations. lia.
Qed.

(** The exact result of encode_length. *)
Lemma encode_length_spec n : 0 <= n ->
  (n < 128 /\ encode_length n = Ok [n]) \/
  (128 <= n /\ exists k, (0 < k)%nat /\ 256 ^ (Z.of_nat k - 1) <= n < 256 ^ Z.of_nat k /\
     ((k <= 127)%nat -> encode_length n = Ok ((128 + Z.of_nat k) :: be_bytes k n)) /\
     ((127 < k)%nat -> encode_length n = Raise EncodeError)).
Proof.
  intros Hn. unfold encode_length. destruct (n <? 128) eqn:E.
  - left. split; [lia|]. apply py_bytes_ok. apply bytes_ok_cons; split; auto with bytes. lia.
  - right. split; [lia|].
    destruct (encode_length_loop_ok (Z.to_nat (bit_length n)) n) as (k & Ha & H1 & H2 & _).
    { rewrite Z2Nat.id by apply bit_length_nonneg. split; [lia|]. now apply bit_length_pow. }
    destruct H2 as [H2 H3]; [lia|].
    exists k. split; [auto|]. split; [lia|]. rewrite Ha. cbn [bind].
    rewrite zlen_rev, be_bytes_len. split; intros Hk; destruct (127 <? Z.of_nat k) eqn:E2; try lia; [|reflexivity].
    rewrite lor_80 by lia.
    rewrite py_bytes_ok.
    + cbn [bind]. rewrite rev_app_distr, rev_involutive. reflexivity.
    + apply bytes_ok_app; split; [apply bytes_ok_rev, be_bytes_ok|]. apply bytes_ok_cons; split; auto with bytes; lia.
Qed.

Lemma pow256_lt a b : 0 <= b -> 256 ^ a < 256 ^ b -> a < b.
Proof. intros Hb H. apply Z.pow_lt_mono_r_iff in H; lia. Qed.
Lemma pow256_le_lt n a b : 0 <= b -> 256 ^ a <= n -> n < 256 ^ b -> a < b.
Proof. intros. apply pow256_lt; lia. Qed.

Lemma encode_length_ok n : 0 <= n < 256 ^ 127 -> exists b, encode_length n = Ok b /\ bytes_ok b.
Proof.
  intros Hn. destruct (encode_length_spec n) as [[H1 ->]|(H1 & k & H2 & H3 & H4 & _)]; [lia| |].
  - eexists; split; [reflexivity|]. apply bytes_ok_cons; split; auto with bytes; lia.
  - assert (Z.of_nat k - 1 < 127) by (eapply (pow256_le_lt n); lia).
    rewrite H4 by lia. eexists; split; [reflexivity|].
    apply bytes_ok_cons; split; [lia|apply be_bytes_ok].
Qed.
Lemma encode_length_err n : 256 ^ 127 <= n -> encode_length n = Raise EncodeError.
Proof.
  intros Hn. assert (256 ^ 0 <= 256 ^ 127) by (apply Z.pow_le_mono_r; lia). change (256 ^ 0) with 1 in H.
  destruct (encode_length_spec n) as [[H1 _]|(H1 & k & H2 & H3 & _ & H4)]; [lia| |].
  - assert (256 ^ 1 <= 256 ^ 127) by (apply Z.pow_le_mono_r; lia). change (256 ^ 1) with 256 in H0. lia.
  - apply H4. assert (127 < Z.of_nat k) by (eapply (pow256_le_lt n); lia). lia.
Qed.

Lemma decode_encode_length n enc rest s : 0 <= n -> encode_length n = Ok enc ->
  sb_wf s -> bytes_ok (sb_data s) -> sb_view s = enc ++ rest ->
  decode_length s = Ok (n, sb_drop (zlen enc) s).
Proof.
  intros Hn He Hw Hok Hv. unfold decode_length.
  destruct (encode_length_spec n Hn) as [[H1 H2]|(H1 & k & H2 & H3 & H4 & H5)].
  - rewrite H2 in He; injection He as <-. cbn [app] in Hv.
    rewrite (sb_deref_cons s n rest), (sb_advance_cons s n rest) by auto. cbn [reraise bind].
    rewrite land_80 by lia. destruct (n <? 128) eqn:E; [|lia]. reflexivity.
  - destruct (Nat.leb_spec k 127) as [Hk|Hk]; [|rewrite H5 in He by auto; discriminate].
    rewrite H4 in He by auto. injection He as <-. cbn [app] in Hv.
    rewrite (sb_deref_cons _ _ _ Hw Hv), (sb_advance_cons _ _ _ Hw Hv). cbn [reraise bind].
    rewrite land_80 by lia. destruct (128 + Z.of_nat k <? 128) eqn:E; [lia|]. cbn [negb].
    rewrite land_7f. replace ((128 + Z.of_nat k) mod 128) with (Z.of_nat k)
      by (rewrite Z.add_comm; change 128 with (1 * 128) at 1; rewrite Z.mod_add, Z.mod_small by lia; reflexivity).
    rewrite Nat2Z.id. destruct (sb_drop_cons _ _ _ Hw Hv) as [Hw' Hv'].
    rewrite decode_length_loop_ok by auto. rewrite Hv'. zl. rewrite be_bytes_len.
    pose proof (zlen_nonneg rest).
    destruct (Z.of_nat k <=? Z.of_nat k + zlen rest) eqn:E2; [|lia].
    rewrite firstn_app, be_bytes_length, Nat.sub_diag. cbn [firstn]. rewrite app_nil_r.
    rewrite firstn_all2 by (rewrite be_bytes_length; lia).
    rewrite from_be_be_bytes, Z.mod_small, sb_drop_drop by lia. reflexivity.
Qed.

Lemma decode_length_total s : sb_wf s -> bytes_ok (sb_data s) ->
  (exists n k, decode_length s = Ok (n, sb_drop k s) /\ 0 <= n /\ 0 < k <= zlen (sb_view s)) \/
  decode_length s = Raise ParseError.
Proof.
  intros Hw Hok. unfold decode_length. destruct (sb_view s) as [|b r] eqn:Hv.
  - right. rewrite sb_deref_nil by auto. reflexivity.
  - rewrite (sb_deref_cons s b r), (sb_advance_cons s b r) by auto. cbn [reraise bind].
    destruct (sb_drop_cons s b r Hw Hv) as [Hw' Hv']. assert (Hr : 0 <= zlen r) by apply zlen_nonneg.
    assert (Hb : 0 <= b < 256 /\ bytes_ok r).
    { pose proof (sb_view_ok s Hok) as Hvok. rewrite Hv in Hvok. now apply bytes_ok_cons in Hvok. }
    destruct Hb as [Hb Hrok].
    destruct (negb (Z.land b 128 =? 0)).
    + rewrite decode_length_loop_ok by auto. rewrite land_7f, Hv'.
      pose proof (Z.mod_pos_bound b 128 ltac:(lia)).
      destruct (Z.of_nat (Z.to_nat (b mod 128)) <=? zlen r) eqn:E; [|now right].
      left. rewrite sb_drop_drop. eexists _, _. split; [reflexivity|]. zl. split; [|lia].
      pose proof (from_be_bound (firstn (Z.to_nat (b mod 128)) r) ltac:(auto with bytes)). lia.
    + left. exists b, 1. zl. repeat split; auto; lia.
Qed.

(** ** ber.decode *)
Lemma ber_encode_ok t d : tag_ok t -> bytes_ok d -> zlen d < 256 ^ 127 ->
  exists e, ber_encode t d = Ok e /\ bytes_ok e.
Proof.
  intros Ht Hd Hl. destruct (tag_encode_ok t Ht) as (a & Ha & Hao).
  destruct (encode_length_ok (zlen d)) as (b & Hb & Hbo); [pose proof (zlen_nonneg d); lia|].
  unfold ber_encode. rewrite Ha. cbn [bind]. rewrite Hb. cbn [bind]. eexists; split; [reflexivity|].
  rewrite !bytes_ok_app. auto.
Qed.

Lemma ber_encode_inv t d e : ber_encode t d = Ok e ->
  exists a b, tag_encode t = Ok a /\ encode_length (zlen d) = Ok b /\ e = a ++ b ++ d.
Proof.
  unfold ber_encode; intros H. apply bind_ok in H as (a & Ha & H). apply bind_ok in H as (b & Hb & H).
  injection H as <-. eauto.
Qed.

(** The position-precise round trip: decoding [e ++ rest] found in [s]. *)
Definition body_of (copy : bool) (s : subbytes) : asn1data :=
  if copy then ABytes (sb_getslice s None None) else ASub s.

Lemma ber_decode_encode t d e rest ad s : tag_ok t -> ber_encode t d = Ok e ->
  s = sb_new ad None None -> sb_wf s -> bytes_ok (sb_data s) -> sb_view s = e ++ rest ->
  exists body tail,
    sb_wf body /\ sb_view body = d /\ sb_wf tail /\ sb_view tail = rest /\
    sb_data body = sb_data s /\ tail = sb_drop (zlen e) s /\
    sb_start body = sb_start s + (zlen e - zlen d) /\ sb_stop body = sb_start s + zlen e /\
    forall expected leftovers copy,
    ber_decode ad expected leftovers copy =
      if match expected with Some x => negb (tag_eqb t x) | None => false end then Raise ParseError
      else if negb leftovers && negb (zlen rest =? 0) then Raise ParseError
      else Ok (t, body_of copy body, tail).
Proof.
  intros Ht He -> Hw Hok Hv. set (s := sb_new ad None None) in *.
  destruct (ber_encode_inv _ _ _ He) as (a & b & Ha & Hb & ->).
  rewrite <- !app_assoc in Hv.
  pose proof (tag_decode_encode _ _ _ _ Ht Ha Hw Hv) as Htag.
  destruct (sb_drop_app _ _ _ Hw Hv) as [Hw1 Hv1].
  pose proof (decode_encode_length _ _ _ _ (zlen_nonneg d) Hb Hw1 Hok Hv1) as Hlen.
  destruct (sb_drop_app _ _ _ Hw1 Hv1) as [Hw2 Hv2]. rewrite sb_drop_drop in *.
  pose proof (sb_split_spec _ (zlen d) Hw2 (zlen_nonneg d)) as Hsp.
  destruct (sb_split (sb_drop (zlen a + zlen b) s) (zlen d)) as [h tl] eqn:Esp.
  destruct Hsp as (Hwh & Hwt & Hvh & Hvt & Hdh & Hdt & Hsh & Hst & Hstt).
  rewrite Hv2 in Hvh, Hvt. rewrite firstn_zlen_app in Hvh. rewrite skipn_zlen_app in Hvt.
  pose proof (sb_view_zlen _ Hwh) as HLh. rewrite Hvh in HLh.
  exists h, tl. cbn [sb_drop sb_data sb_start sb_stop] in *.
  split; [auto|]. split; [auto|]. split; [auto|]. split; [auto|]. split; [auto|].
  split. { destruct tl as [td ts te]; unfold sb_drop; cbn in *. subst td te. f_equal. zl. lia. }
  split. { zl. lia. } split. { zl. lia. }
  intros expected leftovers copy. unfold ber_decode. fold s. rewrite Htag. cbn [bind].
  destruct (match expected with Some x => negb (tag_eqb t x) | None => false end); [reflexivity|].
  rewrite Hlen. cbn [bind]. rewrite Esp. rewrite sb_len_wf by auto. cbn [bind]. rewrite Hvh.
  rewrite Z.ltb_irrefl. rewrite sb_bool_wf, Hvt by auto.
  replace (match rest with [] => false | _ => true end) with (negb (zlen rest =? 0)); [reflexivity|].
  destruct rest as [|x r]; [reflexivity|]. zl. pose proof (zlen_nonneg r). lia.
Qed.

(** Totality and shape of the result on arbitrary input. *)
Lemma ber_decode_total ad expected leftovers copy :
  ad_wf ad -> bytes_ok (ad_data ad) ->
  (exists t body tail k,
     ber_decode ad expected leftovers copy = Ok (t, body_of copy body, tail) /\
     tag_ok t /\ (forall e, expected = Some e -> t = e) /\ 
     sb_wf body /\ sb_wf tail /\ 0 < k /\
     sb_data body = sb_data (sb_new ad None None) /\ sb_data tail = sb_data (sb_new ad None None) /\
     sb_start body = sb_start (sb_new ad None None) + k /\
     sb_stop body = sb_start tail /\ sb_stop tail = sb_stop (sb_new ad None None) /\
     skipn (Z.to_nat k) (ad_view ad) = sb_view body ++ sb_view tail /\
     (leftovers = false -> sb_view tail = [])) \/
  ber_decode ad expected leftovers copy = Raise ParseError.
Proof.
  intros Hw Hok. destruct (sb_new_ad ad Hw) as [Hws Hvs].
  assert (Hoks : bytes_ok (sb_data (sb_new ad None None))) by (destruct ad; exact Hok).
  unfold ber_decode. set (s := sb_new ad None None) in *.
  destruct (tag_decode_total s Hws Hoks) as [(t & k & Hdec & Hk & Htok)|Hdec]; rewrite Hdec; [|now right].
  cbn [bind]. destruct (match expected with Some e => negb (tag_eqb t e) | None => false end) eqn:Ee; [now right|].
  pose proof (sb_drop_wf k s Hws ltac:(lia)) as Hw1.
  pose proof (sb_drop_view k s Hws ltac:(lia)) as Hv1.
  destruct (decode_length_total (sb_drop k s) Hw1 Hoks) as [(n & k2 & Hdec2 & Hn & Hk2)|Hdec2]; rewrite Hdec2; [|now right].
  cbn [bind]. rewrite sb_drop_drop.
  pose proof (sb_drop_wf k2 _ Hw1 ltac:(lia)) as Hw2. rewrite sb_drop_drop in Hw2.
  pose proof (sb_drop_view k2 _ Hw1 ltac:(lia)) as Hv2. rewrite sb_drop_drop, Hv1, skipn_skipn' in Hv2.
  pose proof (sb_split_spec _ n Hw2 Hn) as Hsp.
  destruct (sb_split (sb_drop (k + k2) s) n) as [h tl] eqn:Esp.
  destruct Hsp as (Hwh & Hwt & Hvh & Hvt & Hdh & Hdt & Hsh & Hst & Hstt).
  rewrite sb_len_wf by auto. cbn [bind].
  destruct (zlen (sb_view h) <? n) eqn:E1; [now right|].
  destruct (negb leftovers && sb_bool tl) eqn:E2; [now right|].
  left. exists t, h, tl, (k + k2). cbn [sb_drop sb_data sb_start sb_stop] in *.
  split; [reflexivity|]. split; [auto|]. split.
  { intros e ->. destruct (tag_eqb t e) eqn:Et; [now apply tag_eqb_eq|discriminate]. }
  do 2 (split; [auto|]). split; [lia|]. do 5 (split; [auto|]). split.
  - rewrite Hvh, Hvt, firstn_skipn, Hv2, Hvs. f_equal. lia.
  - intros ->. cbn in E2. rewrite sb_bool_wf in E2 by auto. destruct (sb_view tl); [reflexivity|discriminate].
Qed.
