(** PrfAsn1.v -- lemmas about snmp/asn1.py and snmp/smi.py. *)
From Verif Require Export PrfSim SpecAsn1.

(** ** Integers *)
Lemma from_be_signed_value l : bytes_ok l -> from_be_signed l = tc_value l.
Proof.
  intros Hok. destruct l as [|b r]; [reflexivity|]. unfold from_be_signed, tc_value.
  apply bytes_ok_cons in Hok as [Hb Hr].
  assert (G : forall a, fold_left (fun a x => a * 256 + x) r a = a * 256 ^ zlen r + from_be r).
  { intros a. clear. revert a. induction r as [|x r IH] using rev_ind; intros a.
    - cbn [fold_left]. rewrite zlen_nil. unfold from_be; cbn. change (256^0) with 1. lia.
    - rewrite fold_left_app. cbn [fold_left]. rewrite IH, from_be_snoc. zl.
      rewrite Z.add_0_r, Z.pow_add_r by (pose proof (zlen_nonneg r); lia). lia. }
  rewrite G, from_be_cons. zl. rewrite Z.pow_add_r by (pose proof (zlen_nonneg r); lia).
  destruct (128 <=? b) eqn:E; destruct (b <? 128) eqn:E2; try lia.
Qed.

Lemma pow256_2 n : 0 <= n -> 256 ^ n = 2 ^ (8 * n).
Proof. intros. change 256 with (2 ^ 8). rewrite <- Z.pow_mul_r by lia. reflexivity. Qed.

Lemma from_be_first b r : bytes_ok (b :: r) ->
  (128 <= b <-> 2 ^ (8 * zlen (b :: r) - 1) <= from_be (b :: r)).
Proof.
  intros Hok. apply bytes_ok_cons in Hok as [Hb Hr]. pose proof (from_be_bound r Hr).
  pose proof (zlen_nonneg r). rewrite from_be_cons. zl.
  replace (8 * (1 + zlen r) - 1) with (7 + 8 * zlen r) by lia.
  rewrite Z.pow_add_r by lia. rewrite <- pow256_2 by lia. change (2 ^ 7) with 128. nia.
Qed.

Lemma tc_be_bytes n v : (0 < n)%nat ->
  - 2 ^ (8 * Z.of_nat n - 1) <= v < 2 ^ (8 * Z.of_nat n - 1) ->
  from_be_signed (be_bytes n v) = v.
Proof.
  intros Hn Hv. pose proof (be_bytes_ok n v) as Hok. pose proof (be_bytes_len n v) as HL.
  pose proof (from_be_be_bytes n v) as HF.
  assert (HP : 256 ^ Z.of_nat n = 2 * 2 ^ (8 * Z.of_nat n - 1)).
  { rewrite pow256_2 by lia. rewrite <- Z.pow_succ_r by lia. f_equal. lia. }
  destruct (be_bytes n v) as [|b r] eqn:E; [rewrite zlen_nil in HL; lia|].
  unfold from_be_signed. pose proof (from_be_first b r Hok) as HB. rewrite HL, HF in HB.
  rewrite HF, HL. rewrite HP in *. set (h := 2 ^ (8 * Z.of_nat n - 1)) in *.
  destruct (Z.ltb_spec v 0).
  - assert (M : v mod (2 * h) = v + 2 * h).
    { symmetry. apply Z.mod_unique with (q := -1); lia. }
    rewrite M in *. destruct (128 <=? b) eqn:EB; lia.
  - rewrite Z.mod_small in * by lia. destruct (128 <=? b) eqn:EB; lia.
Qed.

Lemma bitCount_nonneg v : 0 <= bitCount v.
Proof. unfold bitCount; apply bit_length_nonneg. Qed.
Lemma bitCount_spec v k : 0 <= k -> (bitCount v <= k <-> - 2 ^ k <= v < 2 ^ k).
Proof.
  intros Hk. unfold bitCount. destruct (v <? 0) eqn:E; rewrite bit_length_spec by lia; lia.
Qed.

Definition int_content (v : Z) : bytes := be_bytes (Z.to_nat (bitCount v / 8 + 1)) v.
Lemma int_serialize_ok v : int_serialize v = Ok (int_content v).
Proof.
  unfold int_serialize, to_bytes_signed, int_content. pose proof (bitCount_nonneg v).
  assert (Hq : 0 <= bitCount v / 8) by (apply Z.div_pos; lia).
  rewrite Z2Nat.id by lia.
  assert (Hr : bitCount v <= 8 * (bitCount v / 8 + 1) - 1) by (Z.div_mod_to_equations; lia).
  apply bitCount_spec in Hr; [|lia].
  destruct ((- 2 ^ (8 * (bitCount v / 8 + 1) - 1) <=? v) && (v <? 2 ^ (8 * (bitCount v / 8 + 1) - 1))) eqn:E;
    [reflexivity|lia].
Qed.
Lemma int_content_bytes v : bytes_ok (int_content v). Proof. apply be_bytes_ok. Qed.
Lemma int_content_len v : zlen (int_content v) = bitCount v / 8 + 1.
Proof. unfold int_content. rewrite be_bytes_len. pose proof (bitCount_nonneg v).
  assert (0 <= bitCount v / 8) by (apply Z.div_pos; lia). lia. Qed.
Lemma int_content_value v : from_be_signed (int_content v) = v.
Proof.
  unfold int_content. pose proof (bitCount_nonneg v).
  assert (Hq : 0 <= bitCount v / 8) by (apply Z.div_pos; lia).
  apply tc_be_bytes; [lia|]. rewrite Z2Nat.id by lia. apply bitCount_spec; [lia|].
  Z.div_mod_to_equations; lia.
Qed.
Lemma from_be_signed_bound l : bytes_ok l -> l <> [] ->
  - 2 ^ (8 * zlen l - 1) <= from_be_signed l < 2 ^ (8 * zlen l - 1).
Proof.
  intros Hok Hne. destruct l as [|b r]; [easy|]. unfold from_be_signed.
  pose proof (from_be_first b r Hok). pose proof (from_be_bound _ Hok).
  pose proof (zlen_nonneg r).
  assert (HP : 256 ^ zlen (b :: r) = 2 * 2 ^ (8 * zlen (b :: r) - 1)).
  { zl. rewrite pow256_2 by lia. rewrite <- Z.pow_succ_r by lia. f_equal. lia. }
  destruct (128 <=? b) eqn:E; lia.
Qed.
Lemma int_content_minimal v l : bytes_ok l -> l <> [] -> tc_value l = v ->
  zlen (int_content v) <= zlen l.
Proof.
  intros Hok Hne Hv. rewrite <- from_be_signed_value in Hv by auto.
  pose proof (from_be_signed_bound l Hok Hne) as HB. rewrite Hv in HB.
  assert (1 <= zlen l) by (destruct l; [easy|zl; pose proof (zlen_nonneg l); lia]).
  apply bitCount_spec in HB; [|lia]. rewrite int_content_len.
  assert (bitCount v / 8 < zlen l) by (apply Z.div_lt_upper_bound; lia). lia.
Qed.
Lemma int_content_first v : minimal_first_octets (int_content v).
Proof.
  pose proof (int_content_bytes v) as Hok. pose proof (int_content_value v) as Hv.
  pose proof (int_content_len v) as HL.
  pose proof (fun l H1 H2 H3 => int_content_minimal v l H1 H2 H3) as HM.
  rewrite from_be_signed_value in Hv by auto.
  destruct (int_content v) as [|a [|b r]].
  - pose proof (bitCount_nonneg v). zl. assert (0 <= bitCount v / 8) by (apply Z.div_pos; lia). lia.
  - exact I.
  - assert (Hbr : bytes_ok (b :: r)) by (apply bytes_ok_cons in Hok; tauto).
    assert (HF : forall x, fold_left (fun a x => a * 256 + x) (b :: r) x =
                           fold_left (fun a x => a * 256 + x) r (x * 256 + b)) by reflexivity.
    split; intros [-> Hb].
    + specialize (HM (b :: r) Hbr ltac:(easy)). unfold tc_value in *. rewrite HF in Hv.
      destruct (b <? 128) eqn:E; [|lia]. change (if 0 <? 128 then 0 else 0 - 256) with 0 in Hv.
      rewrite Z.mul_0_l, Z.add_0_l in Hv. specialize (HM Hv). zl. lia.
    + specialize (HM (b :: r) Hbr ltac:(easy)). unfold tc_value in *. rewrite HF in Hv.
      destruct (b <? 128) eqn:E; [lia|]. change (if 255 <? 128 then 255 else 255 - 256) with (-1) in Hv.
      replace (-1 * 256 + b) with (b - 256) in Hv by lia. specialize (HM Hv). zl. lia.
Qed.

(** Ranges *)
Definition in_int_range (c : icls) (v : Z) : Prop :=
  match c with
  | INTEGER => True
  | Integer32 => -2147483648 <= v <= 2147483647
  | Unsigned32 | Counter32 | Gauge32 | TimeTicks => 0 <= v <= 4294967295
  | Counter64 => 0 <= v <= 18446744073709551615
  end.
Lemma inRange_spec bits signed v : 1 <= bits ->
  inRange bits signed v = true <->
  (if signed then - 2 ^ (bits - 1) <= v < 2 ^ (bits - 1) else 0 <= v < 2 ^ bits).
Proof.
  intros Hb. unfold inRange.
  destruct signed; cbn [negb].
  - rewrite andb_false_r. rewrite Z.leb_le. apply bitCount_spec. lia.
  - rewrite andb_true_r. destruct (v <? 0) eqn:E; [split; [discriminate|lia]|].
    rewrite Z.leb_le, bitCount_spec by lia. lia.
Qed.
Lemma int_new_spec c v : (in_int_range c v /\ int_new c v = Ok (PInt c v)) \/
  (~ in_int_range c v /\ int_new c v = Raise ValueError).
Proof.
  unfold int_new. destruct c; cbn [int_bits in_int_range]; [left; auto|..];
  match goal with |- context [inRange ?b ?s v] => pose proof (inRange_spec b s v ltac:(lia)) as H;
     destruct (inRange b s v) end;
  [left|right|left|right|left|right|left|right|left|right|left|right]; (split; [|reflexivity]);
  try (apply proj1 in H; specialize (H eq_refl));
  try (intros HH; apply proj2 in H; discriminate H || (assert (false = true) by (apply H; cbn; lia); discriminate));
  cbn in H; change (2 ^ (32 - 1)) with 2147483648 in *; change (2 ^ 32) with 4294967296 in *;
  change (2 ^ 64) with 18446744073709551616 in *; lia.
Qed.
Lemma int_construct_spec c v : (in_int_range c v /\ int_construct c v = Ok (PInt c v)) \/
  (~ in_int_range c v /\ int_construct c v = Raise ParseError).
Proof.
  unfold int_construct. destruct (int_new_spec c v) as [[H1 H2]|[H1 H2]]; rewrite H2;
  [left|right]; (split; [auto|]); destruct c; try reflexivity. now elim H1.
Qed.
Lemma int_new_ok c v : int_new c v = Ok (PInt c v) <-> in_int_range c v.
Proof. destruct (int_new_spec c v) as [[H1 H2]|[H1 H2]]; rewrite H2; split; intros; try easy; tauto. Qed.

(** ** Octet strings *)
Definition octets_fit (c : ocls) (d : bytes) : Prop :=
  match c with
  | OCTET_STRING | Opaque => True
  | OctetString => zlen d <= 65535
  | IpAddress => zlen d = 4
  end.
Lemma octets_construct_spec c d : 
  (octets_fit c (adata_bytes d) /\ octets_construct c d = Ok (POctets c (adata_bytes d))) \/
  (~ octets_fit c (adata_bytes d) /\ octets_construct c d = Raise ParseError).
Proof.
  destruct c; cbn [octets_construct octets_new octets_fit].
  - left; auto.
  - destruct (65535 <? zlen (adata_bytes d)) eqn:E; [right|left]; (split; [lia|reflexivity]).
  - destruct (zlen (adata_bytes d) =? 4) eqn:E; [left|right]; (split; [lia|reflexivity]).
  - left; auto.
Qed.

(** ** OIDs *)
Lemma ssl_ok fuel n ind : 0 <= n < 2 ^ Z.of_nat fuel ->
  exists arr, serialize_subid_loop fuel n ind = Ok arr.
Proof.
  revert n ind; induction fuel as [|fuel IH]; intros n ind Hn.
  - assert (n = 0) by (change (2 ^ Z.of_nat 0) with 1 in Hn; lia); subst. cbn; eauto.
  - cbn [serialize_subid_loop]. destruct (n =? 0) eqn:E; [eauto|].
    destruct (IH (Z.shiftr n 7) 0x80) as [arr ->]; [|cbn; eauto].
    rewrite shiftr_div by lia. rewrite Nat2Z.inj_succ, Z.pow_succ_r in Hn by lia.
    change (2 ^ 7) with 128. Z.div_mod_to_equations. lia.
Qed.
Lemma ssl_bytes fuel n ind arr : (ind = 0 \/ ind = 0x80) ->
  serialize_subid_loop fuel n ind = Ok arr -> bytes_ok arr.
Proof.
  revert n ind arr; induction fuel as [|fuel IH]; intros n ind arr Hi; cbn [serialize_subid_loop];
    destruct (n =? 0) eqn:E; intros H; try discriminate; try (inversion H; subst; auto with bytes; fail).
  apply bind_ok in H as (r & Hr & H). inversion H; subst.
  apply bytes_ok_cons; split; [|eapply IH; [|eauto]; auto].
  rewrite land_7f. pose proof (Z.mod_pos_bound n 128 ltac:(lia)).
  destruct Hi; subst ind.
  - rewrite Z.lor_0_r; lia.
  - rewrite lor_80' by lia. lia.
Qed.

(** One step of the decoding loop, in arithmetic form: [value = v * 128]. *)
Lemma odl_step b stream v acc : 0 <= b < 256 ->
  oid_deserialize_loop (b :: stream) (v * 128) acc =
  if b <? 128 then oid_deserialize_loop stream 0 (v * 128 + b :: acc)
  else oid_deserialize_loop stream ((v * 128 + b mod 128) * 128) acc.
Proof.
  intros Hb. cbn [oid_deserialize_loop]. rewrite land_80, land_7f by auto.
  assert (HL : Z.lor (v * 128) (b mod 128) = v * 128 + b mod 128)
    by (apply (lor_shift v (b mod 128) 7); [lia|apply Z.mod_pos_bound; lia]).
  rewrite HL.
  destruct (b <? 128) eqn:E; cbn [negb].
  - rewrite (Z.mod_small b) by lia. reflexivity.
  - rewrite shiftl_mul by lia. reflexivity.
Qed.

Lemma ssl_decode fuel n ind arr : 0 <= n -> (ind = 0 \/ ind = 0x80) ->
  serialize_subid_loop fuel n ind = Ok arr ->
  forall v stream acc, n <> 0 ->
  oid_deserialize_loop (rev arr ++ stream) (v * 128) acc =
  if ind =? 0 then oid_deserialize_loop stream 0 (v * 128 ^ zlen arr + n :: acc)
  else oid_deserialize_loop stream ((v * 128 ^ zlen arr + n) * 128) acc.
Proof.
  revert n ind arr; induction fuel as [|fuel IH]; intros n ind arr Hn Hi; cbn [serialize_subid_loop];
    destruct (n =? 0) eqn:E; intros H; try discriminate; try (intros; lia).
  apply bind_ok in H as (arr' & Harr & H). injection H as H; subst arr.
  intros v stream acc _. cbn [rev]. rewrite <- app_assoc. cbn [app].
  rewrite shiftr_div in Harr by lia. change (2 ^ 7) with 128 in Harr.
  assert (Hn' : 0 <= n / 128) by (apply Z.div_pos; lia).
  set (x := Z.lor (Z.land n 127) ind).
  assert (Hx : 0 <= x < 256 /\ x mod 128 = n mod 128 /\ (x <? 128) = (ind =? 0)).
  { unfold x. rewrite land_7f. pose proof (Z.mod_pos_bound n 128 ltac:(lia)).
    destruct Hi; subst ind.
    - rewrite Z.lor_0_r. rewrite Z.mod_mod by lia. repeat split; try lia. 
    - rewrite lor_80' by lia. repeat split; try lia.
      change 128 with (1 * 128) at 1. rewrite Z.add_comm, Z.mod_add by lia. apply Z.mod_mod; lia. }
  destruct Hx as (Hx0 & Hx1 & Hx2).
  assert (Hz : oid_deserialize_loop (rev arr' ++ x :: stream) (v * 128) acc =
               oid_deserialize_loop (x :: stream) ((v * 128 ^ zlen arr' + n / 128) * 128) acc).
  { destruct (Z.eq_dec (n / 128) 0) as [E0|E0].
    - assert (arr' = []) by (rewrite E0 in Harr; destruct fuel; cbn in Harr; injection Harr; auto). subst arr'.
      cbn [rev app]. rewrite zlen_nil, E0. do 2 f_equal. change (128^0) with 1. lia.
    - rewrite (IH _ _ _ Hn' (or_intror eq_refl) Harr v _ acc E0). reflexivity. }
  rewrite Hz, odl_step, Hx2 by auto. zl.
  rewrite Z.pow_add_r by (pose proof (zlen_nonneg arr'); lia). change (128 ^ 1) with 128.
  pose proof (Z.div_mod n 128 ltac:(lia)) as Hdm.
  destruct (ind =? 0) eqn:Ei.
  - assert (x = x mod 128) by (symmetry; apply Z.mod_small; lia).
    f_equal. f_equal. nia.
  - f_equal. nia.
Qed.

Lemma serialize_subid_ok n : 0 <= n -> exists b, serialize_subid n = Ok b /\ bytes_ok b /\ b <> [].
Proof.
  intros Hn. unfold serialize_subid. destruct (n <? 128) eqn:E.
  - exists [n]. assert (bytes_ok [n]) by (apply bytes_ok_cons; split; auto with bytes; lia).
    rewrite py_bytes_ok by auto. repeat split; auto; easy.
  - destruct (ssl_ok (Z.to_nat (bit_length n)) n 0) as [arr Ha].
    { rewrite Z2Nat.id by apply bit_length_nonneg. split; [lia|]. now apply bit_length_pow. }
    rewrite Ha. cbn [bind]. assert (bytes_ok arr) by (apply (ssl_bytes (Z.to_nat (bit_length n)) n 0 arr); auto).
    rewrite py_bytes_ok by auto. cbn [bind]. exists (rev arr). repeat split; auto with bytes.
    intros Hr. apply (f_equal (@length Z)) in Hr. rewrite rev_length in Hr. destruct arr; [|discriminate].
    destruct (Z.to_nat (bit_length n)); cbn in Ha; destruct (n =? 0) eqn:E0; try lia; try discriminate.
    destruct (serialize_subid_loop _ _ _) in Ha; discriminate.
Qed.
Lemma serialize_subid_decode n b : 0 <= n -> serialize_subid n = Ok b ->
  forall stream acc, oid_deserialize_loop (b ++ stream) 0 acc = oid_deserialize_loop stream 0 (n :: acc).
Proof.
  intros Hn Hs stream acc. unfold serialize_subid in Hs. destruct (n <? 128) eqn:E.
  - apply py_bytes_inv in Hs as [-> Hok]. cbn [app]. change 0 with (0 * 128) at 1.
    rewrite odl_step by lia. rewrite E. reflexivity.
  - apply bind_ok in Hs as (arr & Ha & Hs). apply bind_ok in Hs as (a2 & Hp & Hs).
    apply py_bytes_inv in Hp as [-> Hok]. injection Hs as <-.
    change 0 with (0 * 128) at 1. rewrite (ssl_decode _ _ _ _ Hn (or_introl eq_refl) Ha) by lia.
    reflexivity.
Qed.
Lemma serialize_subids_ok l : Forall (fun x => 0 <= x) l ->
  exists b, serialize_subids l = Ok b /\ bytes_ok b /\
    forall acc, oid_deserialize_loop b 0 acc = (0, rev acc ++ l).
Proof.
  induction l as [|x l IH]; intros H; cbn [serialize_subids].
  - exists []. repeat split; auto with bytes. intros acc. cbn. now rewrite app_nil_r.
  - inversion H; subst. destruct (serialize_subid_ok x) as (a & Ha & Hao & _); [auto|].
    destruct (IH H3) as (b & Hb & Hbo & Hd). rewrite Ha, Hb. cbn [bind].
    exists (a ++ b). split; [reflexivity|]. split; [now apply bytes_ok_app|].
    intros acc. rewrite (serialize_subid_decode x a) by auto. rewrite Hd. cbn [rev].
    rewrite <- app_assoc. reflexivity.
Qed.

(** What the constructors accept. *)
Definition oid_valid (c : dcls) (l : list Z) : Prop :=
  Forall (fun x => 0 <= x) l /\ nth 0 l 0 <= 2 /\ nth 1 l 0 < 40 /\
  match c with OBJECT_IDENTIFIER => True | OID => zlen l <= 128 /\ Forall (fun x => x < 2 ^ 32) l end.

Lemma existsb_neg l : existsb (fun x => x <? 0) l = false <-> Forall (fun x => 0 <= x) l.
Proof.
  rewrite Forall_forall. split.
  - intros H x Hx. destruct (x <? 0) eqn:E; [|lia].
    assert (existsb (fun x => x <? 0) l = true) by (apply existsb_exists; eauto). congruence.
  - intros H. destruct (existsb _ l) eqn:E; [|reflexivity].
    apply existsb_exists in E as (x & Hx & E). specialize (H x Hx). lia.
Qed.
Lemma nth0_match (l : list Z) : match l with a :: _ => a | _ => 0 end = nth 0 l 0.
Proof. destruct l; reflexivity. Qed.
Lemma nth1_match (l : list Z) : match l with _ :: b :: _ => b | _ => 0 end = nth 1 l 0.
Proof. destruct l as [|a [|b l]]; reflexivity. Qed.

Lemma object_identifier_new_spec l :
  (oid_valid OBJECT_IDENTIFIER l /\ object_identifier_new l = Ok l) \/
  (~ oid_valid OBJECT_IDENTIFIER l /\ object_identifier_new l = Raise ValueError).
Proof.
  unfold object_identifier_new, oid_valid. rewrite nth0_match, nth1_match. cbv zeta.
  destruct (2 <? nth 0 l 0) eqn:E1; [right; split; [lia|reflexivity]|].
  destruct (40 <=? nth 1 l 0) eqn:E2; [right; split; [lia|reflexivity]|].
  destruct (existsb (fun x => x <? 0) l) eqn:E3.
  - right. split; [|reflexivity]. intros [H _]. apply existsb_neg in H. congruence.
  - left. apply existsb_neg in E3. repeat split; auto; lia.
Qed.
Lemma oid_new_spec c l : (oid_valid c l /\ oid_new c l = Ok l) \/ (~ oid_valid c l /\ oid_new c l = Raise ValueError).
Proof.
  destruct c; [apply object_identifier_new_spec|].
  cbn [oid_new]. unfold smi_oid_new.
  destruct (128 <? zlen l) eqn:E1.
  { right. split; [|reflexivity]. intros (_ & _ & _ & H & _). lia. }
  destruct (object_identifier_new_spec l) as [[H1 H2]|[H1 H2]]; rewrite H2.
  - destruct (existsb _ l) eqn:E2.
    + right. split; [|reflexivity]. intros (H & _ & _ & _ & H3). apply existsb_exists in E2 as (x & Hx & E2).
      rewrite Forall_forall in H, H3. specialize (H x Hx). specialize (H3 x Hx).
      apply bit_length_spec in H3; lia.
    + left. split; [|reflexivity]. destruct H1 as (H & H3 & H4 & _). repeat split; auto; [lia|].
      rewrite Forall_forall in *. intros x Hx. specialize (H x Hx).
      destruct (Z.ltb_spec x (2 ^ 32)); [auto|].
      assert (existsb (fun x => 32 <? bit_length x) l = true); [|congruence].
      apply existsb_exists. exists x. split; [auto|].
      destruct (32 <? bit_length x) eqn:E; [reflexivity|].
      assert (bit_length x <= 32) as Hb by lia. apply bit_length_spec in Hb; lia.
  - right. split.
    + intros (H & H3 & H4 & _). apply H1. repeat split; auto.
    + now destruct (existsb _ l).
Qed.
Lemma oid_new_ok c l : oid_new c l = Ok l <-> oid_valid c l.
Proof. destruct (oid_new_spec c l) as [[H1 H2]|[H1 H2]]; rewrite H2; split; intros; try easy; tauto. Qed.
Lemma oid_construct_spec c l : (oid_valid c l /\ oid_construct c l = Ok l) \/ (~ oid_valid c l /\ oid_construct c l = Raise ParseError).
Proof. unfold oid_construct. destruct (oid_new_spec c l) as [[H1 H2]|[H1 H2]]; rewrite H2; [left|right]; auto. Qed.

(** The OID that the encoding of [l] decodes to. *)
Definition oid_image (l : list Z) : list Z :=
  let b := Z.lor (40 * nth 0 l 0) (nth 1 l 0) in b / 40 :: b mod 40 :: skipn 2 l.

Lemma first_octet_bound f s : 0 <= f <= 2 -> 0 <= s < 40 -> 0 <= Z.lor (40 * f) s < 120.
Proof.
  intros Hf Hs. split; [apply Z.lor_nonneg; lia|].
  assert (G : forallb (fun f => forallb (fun s => Z.lor (40 * f) s <? 120) (map Z.of_nat (seq 0 40))) [0;1;2] = true)
    by (vm_compute; reflexivity).
  rewrite forallb_forall in G. specialize (G f ltac:(cbn; lia)). rewrite forallb_forall in G.
  assert (In s (map Z.of_nat (seq 0 40))).
  { apply in_map_iff. exists (Z.to_nat s). split; [lia|apply in_seq; lia]. }
  specialize (G s H). lia.
Qed.

Lemma Forall_nth0 (l : list Z) k : Forall (fun x => 0 <= x) l -> 0 <= nth k l 0.
Proof. intros H. destruct (nth_in_or_default k l 0) as [Hi| ->]; [|lia]. rewrite Forall_forall in H; auto. Qed.

Lemma Forall_skipn {A} (P : A -> Prop) n l : Forall P l -> Forall P (skipn n l).
Proof. revert n; induction l; intros [|n] H; cbn; auto. inversion H; auto. Qed.

Lemma oid_image_valid c l : oid_valid c l -> oid_valid c (oid_image l).
Proof.
  intros (H1 & H2 & H3 & H4). pose proof (Forall_nth0 l 0 H1) as Hn0. pose proof (Forall_nth0 l 1 H1) as Hn1.
  pose proof (first_octet_bound (nth 0 l 0) (nth 1 l 0) ltac:(lia) ltac:(lia)) as Hb.
  unfold oid_image. set (b := Z.lor _ _) in *. 
  assert (0 <= b / 40 <= 2 /\ 0 <= b mod 40 < 40) by (Z.div_mod_to_equations; lia).
  unfold oid_valid. cbn [nth]. repeat split; try lia.
  - constructor; [lia|]. constructor; [lia|]. now apply Forall_skipn.
  - destruct c; [exact I|]. destruct H4 as [H4 H5]. split.
    + zl. pose proof (zlen_nonneg l). lia.
    + assert (40 < 2 ^ 32) by reflexivity. constructor; [lia|]. constructor; [lia|]. now apply Forall_skipn.
Qed.

Lemma oid_serialize_spec c l : oid_valid c l ->
  exists b, oid_serialize l = Ok b /\ bytes_ok b /\
    oid_deserialize c (ABytes b) = Ok (POid c (oid_image l)).
Proof.
  intros Hv. pose proof (oid_image_valid c l Hv) as Hiv. destruct Hv as (H1 & H2 & H3 & H4).
  pose proof (Forall_nth0 l 0 H1) as Hn0. pose proof (Forall_nth0 l 1 H1) as Hn1.
  pose proof (first_octet_bound (nth 0 l 0) (nth 1 l 0) ltac:(lia) ltac:(lia)) as Hb.
  assert (Hcons : oid_construct c (oid_image l) = Ok (oid_image l)).
  { destruct (oid_construct_spec c (oid_image l)) as [[_ ->]|[]]; tauto. }
  destruct l as [|f l1].
  - exists [0]. split; [reflexivity|]. split; [apply bytes_ok_cons; split; auto with bytes; lia|].
    unfold oid_deserialize. cbn [adata_bytes oid_deserialize_loop rev Z.eqb negb app].
    change (oid_image []) with [0/40; 0 mod 40] in *. rewrite Hcons. reflexivity.
  - unfold oid_serialize.
    replace (match l1 with s :: _ => s | [] => 0 end) with (nth 1 (f :: l1) 0) by (destruct l1; reflexivity).
    change f with (nth 0 (f :: l1) 0) at 1. rewrite Z.mul_comm.
    set (b0 := Z.lor _ _) in *.
    assert (Hs : serialize_subid b0 = Ok [b0]).
    { unfold serialize_subid. destruct (b0 <? 128) eqn:E; [|lia]. apply py_bytes_ok.
      apply bytes_ok_cons; split; auto with bytes; lia. }
    rewrite Hs. cbn [bind].
    destruct (serialize_subids_ok (skipn 2 (f :: l1))) as (b & Hbs & Hbo & Hd); [now apply Forall_skipn|].
    rewrite Hbs. cbn [bind app]. exists (b0 :: b). split; [reflexivity|]. split.
    { apply bytes_ok_cons; split; auto; lia. }
    unfold oid_deserialize. cbn [adata_bytes]. rewrite Hd. cbn [rev app Z.eqb negb].
    unfold oid_image in Hcons |- *. fold b0 in Hcons |- *. rewrite Hcons. reflexivity.
Qed.

Lemma first_octet_sum f s : 0 <= f <= 2 -> 0 <= s < 40 -> Z.lor (40 * f) s = 40 * f + s -> Z.land (40 * f) s = 0.
Proof.
  intros Hf Hs E.
  assert (G : forallb (fun f => forallb (fun s => implb (Z.lor (40 * f) s =? 40 * f + s) (Z.land (40 * f) s =? 0))
      (map Z.of_nat (seq 0 40))) [0;1;2] = true)
    by (vm_compute; reflexivity).
  rewrite forallb_forall in G. specialize (G f ltac:(cbn; lia)). rewrite forallb_forall in G.
  assert (In s (map Z.of_nat (seq 0 40))).
  { apply in_map_iff. exists (Z.to_nat s). split; [lia|apply in_seq; lia]. }
  specialize (G s H). rewrite E, Z.eqb_refl in G. cbn in G. lia.
Qed.
Lemma oid_image_id l : (2 <= length l)%nat -> oid_valid OBJECT_IDENTIFIER l ->
  (oid_image l = l <-> Z.land (40 * nth 0 l 0) (nth 1 l 0) = 0).
Proof.
  intros HL (H1 & H2 & H3 & _). pose proof (Forall_nth0 l 0 H1) as Hn0. pose proof (Forall_nth0 l 1 H1) as Hn1.
  destruct l as [|f [|s l]]; cbn [length] in HL; try lia. cbn [nth] in *.
  unfold oid_image. cbn [nth skipn]. split; intros H.
  - injection H as E1 E2. 
    assert (Hor : Z.lor (40 * f) s = 40 * f + s).
    { rewrite (Z.div_mod (Z.lor (40 * f) s) 40) by lia. rewrite E1, E2. lia. }
    apply first_octet_sum; auto; lia.
  - rewrite lor_add by auto. rewrite Z.mul_comm, Z.div_add_l, Z.div_small by lia.
    rewrite (Z.add_comm (f * 40)), Z.mod_add, Z.mod_small by lia. f_equal. lia.
Qed.

(** ** Primitive objects in general *)
Lemma pcls_tag_ok c : tag_ok (pcls_tag c).
Proof. destruct c as [[]|[]|[]|[]]; cbn; unfold tag_ok; cbn; unfold UNIVERSAL, APPLICATION, CONTEXT_SPECIFIC; lia. Qed.
Lemma prim_deserialize_viewdet c : viewdet (prim_deserialize c).
Proof.
  destruct c as [c|c|c|c]; intros d d' (H1 & H2 & H3); cbn [prim_deserialize].
  - unfold int_deserialize. now rewrite !adata_bytes_view, H3 by auto.
  - unfold octets_deserialize, octets_construct. now rewrite !adata_bytes_view, H3 by auto.
  - reflexivity.
  - unfold oid_deserialize. now rewrite !adata_bytes_view, H3 by auto.
Qed.
Lemma int_construct_raises c v : raises_only (eq ParseError) (int_construct c v).
Proof. destruct (int_construct_spec c v) as [[_ ->]|[_ ->]]; [apply raises_ok|now apply raises_raise]. Qed.
Lemma prim_deserialize_raises c d : raises_only (eq ParseError) (prim_deserialize c d).
Proof.
  destruct c as [c|c|c|c]; cbn [prim_deserialize].
  - apply int_construct_raises.
  - unfold octets_deserialize. destruct (octets_construct_spec c d) as [[_ ->]|[_ ->]]; [apply raises_ok|now apply raises_raise].
  - apply raises_ok.
  - unfold oid_deserialize. destruct (adata_bytes d) as [|b r]; [now apply raises_raise|].
    destruct (oid_deserialize_loop r 0 []) as [v more]. destruct (negb (v =? 0)); [now apply raises_raise|].
    destruct (oid_construct_spec c ([b / 40; b mod 40] ++ more)) as [[_ ->]|[_ ->]]; [apply raises_ok|now apply raises_raise].
Qed.
Lemma prim_decode_raises c d lo cp : ad_wf d -> bytes_ok (ad_data d) ->
  raises_only (eq ParseError) (prim_decode c d lo cp).
Proof. intros. apply asn1_decode_raises; auto. intros; apply prim_deserialize_raises. Qed.

(** Values a user can construct. *)
Definition prim_image (p : prim) : prim :=
  match p with POid c l => POid c (oid_image l) | _ => p end.
Lemma prim_serialize_spec p : prim_constructible p ->
  exists b, prim_serialize p = Ok b /\ bytes_ok b /\
    prim_deserialize (prim_cls p) (ABytes b) = Ok (prim_image p).
Proof.
  destruct p as [c v|c d|c|c l]; cbn [prim_constructible prim_serialize prim_cls prim_deserialize prim_image].
  - intros H. apply int_new_ok in H. exists (int_content v). rewrite int_serialize_ok.
    split; [reflexivity|]. split; [apply int_content_bytes|].
    unfold int_deserialize. cbn [adata_bytes]. rewrite int_content_value.
    destruct (int_construct_spec c v) as [[_ ->]|[]]; tauto.
  - intros [Hok H]. exists d. split; [reflexivity|]. split; [auto|].
    unfold octets_deserialize. destruct (octets_construct_spec c (ABytes d)) as [[_ ->]|[Hn _]]; [reflexivity|].
    exfalso. apply Hn. cbn [adata_bytes]. destruct c; cbn in *; auto.
    + destruct (65535 <? zlen d) eqn:E; [discriminate|lia].
    + destruct (zlen d =? 4) eqn:E; [lia|discriminate].
  - intros _. exists []. repeat split; auto with bytes.
  - intros H. apply oid_new_ok in H. now apply oid_serialize_spec.
Qed.

Lemma prim_roundtrip p e ad rest lo cp : prim_constructible p -> prim_encode p = Ok e ->
  ad_wf ad -> bytes_ok (ad_data ad) -> ad_view ad = e ++ rest -> (lo = true \/ rest = []) ->
  exists tail, sb_wf tail /\ sb_view tail = rest /\ sb_data tail = ad_data ad /\
    prim_decode (prim_cls p) ad lo cp = Ok (prim_image p, tail).
Proof.
  intros Hp He Hw Hok Hv Hlo. unfold prim_encode in He. apply bind_ok in He as (b & Hb & He).
  destruct (prim_serialize_spec p Hp) as (b' & Hb' & _ & Hd). rewrite Hb in Hb'; injection Hb' as <-.
  destruct (asn1_decode_encode _ (prim_deserialize (prim_cls p)) b e ad rest lo cp (pcls_tag_ok _) He
    (prim_deserialize_viewdet _) Hw Hok Hv Hlo) as (tl & W & V & D & H).
  exists tl. repeat split; auto; try apply W. unfold prim_decode. rewrite H, Hd. reflexivity.
Qed.
Lemma prim_encode_ok p b : prim_constructible p -> prim_serialize p = Ok b -> zlen b < 256 ^ 127 ->
  exists e, prim_encode p = Ok e /\ bytes_ok e.
Proof.
  intros Hp Hb Hl. unfold prim_encode. rewrite Hb. cbn [bind].
  destruct (prim_serialize_spec p Hp) as (b' & Hb' & Hok & _). rewrite Hb in Hb'; injection Hb' as <-.
  apply ber_encode_ok; auto using pcls_tag_ok.
Qed.
