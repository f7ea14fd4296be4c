(** PrfCodec.v -- the statements of PropertiesCodec, assembled. *)
From Verif Require Export PrfBerSpec PrfOid PrfUtils.

Lemma tag_roundtrip : forall t rest, 0 <= t_number t -> 0 <= t_cls t <= 3 ->
  exists enc, tag_encode t = Ok enc /\ bytes_ok enc /\
    exists tail, tag_decode (sb_new (ABytes (enc ++ rest)) None None) = Ok (t, tail) /\
                 sb_getslice tail None None = rest.
Proof.
  intros t rest H1 H2. destruct (tag_encode_ok t (conj H1 H2)) as (e & He & Hok).
  exists e. split; [auto|]. split; [auto|]. rewrite sb_new_bytes.
  pose proof (sb_whole_wf (e ++ rest)) as W. pose proof (sb_whole_view (e ++ rest)) as V.
  eexists. split; [apply (tag_decode_encode t e rest); auto; split; auto|].
  destruct (sb_drop_app _ _ _ W V) as [W' V']. now rewrite sb_getslice_all.
Qed.
Lemma tag_prefix_free : forall t1 t2 e1 e2 more,
  0 <= t_number t1 -> 0 <= t_cls t1 <= 3 -> 0 <= t_number t2 -> 0 <= t_cls t2 <= 3 ->
  tag_encode t1 = Ok e1 -> tag_encode t2 = Ok e2 -> e2 = e1 ++ more -> t1 = t2 /\ more = [].
Proof.
  intros t1 t2 e1 e2 more H1 H2 H3 H4 E1 E2 E.
  pose proof (sb_whole_wf e2) as W. pose proof (sb_whole_view e2) as V.
  assert (A : tag_decode (sb_whole e2) = Ok (t1, sb_drop (zlen e1) (sb_whole e2))).
  { apply (tag_decode_encode t1 e1 more); auto; [split; auto|]. now rewrite V. }
  assert (B : tag_decode (sb_whole e2) = Ok (t2, sb_drop (zlen e2) (sb_whole e2))).
  { apply (tag_decode_encode t2 e2 []); auto; [split; auto|]. now rewrite app_nil_r. }
  rewrite A in B. injection B as -> B. split; [reflexivity|].
  subst e2. zl. apply zlen_0_nil. lia.
Qed.

Lemma length_roundtrip : forall n rest, 0 <= n < 256 ^ 127 -> bytes_ok rest ->
  exists enc, encode_length n = Ok enc /\
    (exists tail, decode_length (sb_new (ABytes (enc ++ rest)) None None) = Ok (n, tail) /\
                  sb_getslice tail None None = rest) /\
    (n < 128 -> enc = [n]) /\
    (128 <= n -> exists ds, enc = (128 + zlen ds) :: ds /\ bytes_ok ds /\ ds <> [] /\
       fold_left (fun a x => a * 256 + x) ds 0 = n /\
       forall ds', bytes_ok ds' -> fold_left (fun a x => a * 256 + x) ds' 0 = n -> zlen ds <= zlen ds').
Proof.
  intros n rest Hn Hr. destruct (encode_length_ok n Hn) as (e & He & Hok). exists e. split; [auto|]. split.
  { rewrite sb_new_bytes. pose proof (sb_whole_wf (e ++ rest)) as W. pose proof (sb_whole_view (e ++ rest)) as V.
    eexists. split; [apply (decode_encode_length n e rest); auto; [lia|]; now apply bytes_ok_app|].
    destruct (sb_drop_app _ _ _ W V) as [W' V']. now rewrite sb_getslice_all. }
  destruct (encode_length_spec n ltac:(lia)) as [[H1 H2]|(H1 & k & H2 & H3 & H4 & H5)].
  - split; [intros; congruence|lia].
  - split; [lia|]. intros _. assert (Z.of_nat k - 1 < 127) by (eapply (pow256_le_lt n); lia).
    rewrite H4 in He by lia. injection He as <-. exists (be_bytes k n). rewrite be_bytes_len.
    split; [reflexivity|]. split; [apply be_bytes_ok|]. split.
    { intros E. pose proof (be_bytes_len k n) as L. rewrite E in L. cbn in L. unfold zlen in L. cbn in L. lia. }
    split. { change (from_be (be_bytes k n) = n). rewrite from_be_be_bytes. apply Z.mod_small. lia. }
    intros ds' Hd Hv. change (from_be ds' = n) in Hv. pose proof (from_be_bound ds' Hd). rewrite Hv in *.
    assert (Z.of_nat k - 1 < zlen ds') by (eapply (pow256_le_lt n); [apply zlen_nonneg|lia|lia]). lia.
Qed.

Lemma tlv_roundtrip : forall t d rest expected leftovers copy,
  0 <= t_number t -> 0 <= t_cls t <= 3 -> bytes_ok d -> bytes_ok rest -> zlen d < 256 ^ 127 ->
  exists enc, ber_encode t d = Ok enc /\
    ((expected = None \/ expected = Some t) -> (leftovers = true \/ rest = []) ->
       exists body tail, ber_decode (ABytes (enc ++ rest)) expected leftovers copy = Ok (t, body, tail) /\
         adata_bytes body = d /\ sb_getslice tail None None = rest) /\
    (leftovers = false /\ rest <> [] \/ (exists t', expected = Some t' /\ t' <> t) ->
       ber_decode (ABytes (enc ++ rest)) expected leftovers copy = Raise ParseError).
Proof.
  intros t d rest ex lo cp H1 H2 Hd Hr Hl.
  destruct (ber_encode_ok t d (conj H1 H2) Hd Hl) as (e & He & Hok). exists e. split; [auto|].
  assert (W : sb_wf (sb_new (ABytes (e ++ rest)) None None)) by apply sb_whole_wf.
  assert (V : sb_view (sb_new (ABytes (e ++ rest)) None None) = e ++ rest) by apply sb_whole_view.
  destruct (ber_decode_encode t d e rest _ _ (conj H1 H2) He eq_refl W ltac:(cbn; now apply bytes_ok_app) V)
    as (b & tl & Wb & Vb & Wt & Vt & _ & _ & _ & _ & Hdec).
  rewrite Hdec. split.
  - intros Hex Hlo. exists (body_of cp b), tl.
    assert ((match ex with Some x => negb (tag_eqb t x) | None => false end) = false) as ->.
    { destruct Hex as [->| ->]; [reflexivity|]. now rewrite tag_eqb_refl. }
    assert (negb lo && negb (zlen rest =? 0) = false) as ->.
    { destruct Hlo as [->| ->]; [reflexivity|]. zl. now rewrite andb_false_r. }
    split; [reflexivity|]. split; [|now rewrite sb_getslice_all].
    unfold body_of. destruct cp; cbn; now rewrite sb_getslice_all.
  - intros [[-> Hne]|(t' & -> & Hne)].
    + destruct (match ex with Some x => negb (tag_eqb t x) | None => false end); [reflexivity|].
      destruct (zlen rest =? 0) eqn:E; [|reflexivity].
      exfalso. apply Hne, zlen_0_nil. lia.
    + assert (tag_eqb t t' = false) as -> by (apply tag_eqb_neq; congruence). reflexivity.
Qed.

Lemma decode_total : forall l expected leftovers copy, bytes_ok l ->
  (exists t body tail, ber_decode (ABytes l) expected leftovers copy = Ok (t, body, tail) /\
     tlv l (t_cls t) (t_constructed t) (t_number t) (adata_bytes body) (sb_getslice tail None None) /\
     (forall e, expected = Some e -> t = e) /\
     (leftovers = false -> sb_getslice tail None None = []) /\
     sb_data tail = l /\ sb_stop tail = zlen l) \/
  ber_decode (ABytes l) expected leftovers copy = Raise ParseError.
Proof.
  intros l ex lo cp Hok. destruct (ber_decode_total (ABytes l) ex lo cp I Hok)
    as [(t & b & tl & k & E & Ht & Hex & Wb & Wt & _ & _ & Dt & _ & _ & St & _ & Hlo)|E]; [|now right].
  left. exists t, (body_of cp b), tl. split; [auto|].
  destruct (ber_decode_sound l ex lo cp t _ tl Hok E) as [H1 H2].
  split; [auto|]. split; [auto|]. split; [intros; rewrite sb_getslice_all; auto|].
  rewrite sb_new_bytes in *. auto.
Qed.
Lemma decode_complete : forall l expected leftovers copy t body rest, bytes_ok l ->
  tlv l (t_cls t) (t_constructed t) (t_number t) body rest ->
  (expected = None \/ expected = Some t) -> (leftovers = true \/ rest = []) ->
  exists b tail, ber_decode (ABytes l) expected leftovers copy = Ok (t, b, tail) /\
    adata_bytes b = body /\ sb_getslice tail None None = rest.
Proof.
  intros l ex lo cp t body rest Hok Ht Hex Hlo.
  pose proof (ber_decode_complete l ex lo cp t body rest Hok Ht) as H.
  assert (ber_accepts ex lo t rest = true) as E.
  { unfold ber_accepts. destruct Hex as [->| ->]; rewrite ?tag_eqb_refl; destruct Hlo as [->| ->]; auto;
    zl; now rewrite orb_true_r. }
  now rewrite E in H.
Qed.

Lemma integer_exact : forall v, exists content, int_serialize v = Ok content /\
  bytes_ok content /\ content <> [] /\ tc_value content = v /\ minimal_first_octets content /\
  (forall l, bytes_ok l -> l <> [] -> tc_value l = v -> zlen content <= zlen l) /\
  int_deserialize INTEGER (ABytes content) = Ok (PInt INTEGER v).
Proof.
  intros v. exists (int_content v). split; [apply int_serialize_ok|]. split; [apply int_content_bytes|].
  split. { pose proof (int_content_first v) as H. destruct (int_content v); [elim H|easy]. }
  split. { rewrite <- from_be_signed_value by apply int_content_bytes. apply int_content_value. }
  split; [apply int_content_first|]. split; [intros; now apply int_content_minimal|].
  unfold int_deserialize. cbn [adata_bytes]. rewrite int_content_value. reflexivity.
Qed.
Lemma integer_decode : forall l, bytes_ok l ->
  int_deserialize INTEGER (ABytes l) = Ok (PInt INTEGER (tc_value l)).
Proof. intros l H. unfold int_deserialize. cbn [adata_bytes]. rewrite from_be_signed_value by auto. reflexivity. Qed.
Lemma prim_encode_bytes p e : prim_constructible p -> prim_encode p = Ok e -> bytes_ok e.
Proof.
  intros Hp He. destruct (prim_serialize_spec p Hp) as (b & Hb & Hok & _).
  unfold prim_encode in He. rewrite Hb in He. cbn [bind] in He.
  destruct (ber_encode_inv _ _ _ He) as (a & c & Ha & Hc & ->).
  destruct (tag_encode_ok _ (pcls_tag_ok (prim_cls p))) as (a' & Ha' & Hao). rewrite Ha in Ha'. injection Ha' as <-.
  apply bytes_ok_app; split; auto. apply bytes_ok_app; split; auto.
  destruct (Z.ltb_spec (zlen b) (256 ^ 127)).
  - destruct (encode_length_ok (zlen b)) as (c' & Hc' & Hco); [pose proof (zlen_nonneg b); lia|]. congruence.
  - rewrite encode_length_err in Hc by auto. discriminate.
Qed.
Lemma integer_tlv : forall v e rest, prim_encode (PInt INTEGER v) = Ok e -> bytes_ok rest ->
  exists tail, prim_decode (CInt INTEGER) (ABytes (e ++ rest)) true false = Ok (PInt INTEGER v, tail) /\
               sb_getslice tail None None = rest.
Proof.
  intros v e rest He Hr. assert (Hc : prim_constructible (PInt INTEGER v)) by reflexivity.
  destruct (prim_roundtrip _ e (ABytes (e ++ rest)) rest true false Hc He I) as (tl & W & V & _ & D); auto.
  - cbn. apply bytes_ok_app; split; auto. eapply prim_encode_bytes; eauto.
  - exists tl. split; [exact D|]. now rewrite sb_getslice_all.
Qed.

Definition range_b (c : icls) (v : Z) : bool :=
  match c with
    | INTEGER => true
    | Integer32 => (-2147483648 <=? v) && (v <=? 2147483647)
    | Unsigned32 | Counter32 | Gauge32 | TimeTicks => (0 <=? v) && (v <=? 4294967295)
    | Counter64 => (0 <=? v) && (v <=? 18446744073709551615)
  end.
Lemma range_b_spec c v : range_b c v = true <-> in_int_range c v.
Proof. destruct c; cbn; rewrite ?andb_true_iff, ?Z.leb_le; tauto. Qed.
Lemma constructor_range c v : int_new c v = if range_b c v then Ok (PInt c v) else Raise ValueError.
Proof.
  pose proof (range_b_spec c v). destruct (int_new_spec c v) as [[H1 ->]|[H1 ->]]; destruct (range_b c v); auto; exfalso; intuition congruence.
Qed.
Lemma decode_range c l : bytes_ok l -> let v := tc_value l in
  int_deserialize c (ABytes l) = if range_b c v then Ok (PInt c v) else Raise ParseError.
Proof.
  intros Hok v. unfold int_deserialize. cbn [adata_bytes]. rewrite from_be_signed_value by auto. fold v.
  pose proof (range_b_spec c v). destruct (int_construct_spec c v) as [[H1 ->]|[H1 ->]]; destruct (range_b c v); auto; exfalso; intuition congruence.
Qed.

Lemma oid_roundtrip_refuted : ~ (forall c l, (2 <= length l)%nat -> oid_new c l = Ok l ->
  exists content, oid_serialize l = Ok content /\ oid_deserialize c (ABytes content) = Ok (POid c l)).
Proof.
  intros H. destruct (H OID [1; 8] ltac:(cbn; lia) eq_refl) as (ct & H1 & H2).
  cbv in H1. injection H1 as <-. cbv in H2. discriminate.
Qed.
Lemma oid_valid_weaken c l : oid_valid c l -> oid_valid OBJECT_IDENTIFIER l.
Proof. intros (H1 & H2 & H3 & _). repeat split; auto. Qed.
Lemma oid_roundtrip_iff : forall c l, (2 <= length l)%nat -> oid_new c l = Ok l ->
  exists content, oid_serialize l = Ok content /\ bytes_ok content /\
    (oid_deserialize c (ABytes content) = Ok (POid c l) <->
     Z.land (40 * nth 0 l 0) (nth 1 l 0) = 0).
Proof.
  intros c l HL Hn. apply oid_new_ok in Hn. destruct (oid_serialize_spec c l Hn) as (b & Hb & Hok & Hd).
  exists b. split; [auto|]. split; [auto|]. rewrite Hd.
  rewrite <- oid_image_id by (auto; eapply oid_valid_weaken; eauto).
  split; [intros E; injection E as E; exact E|intros ->; reflexivity].
Qed.
Lemma oid_tail : forall c l, oid_new c l = Ok l ->
  exists content a b, oid_serialize l = Ok content /\
    oid_deserialize c (ABytes content) = Ok (POid c (a :: b :: skipn 2 l)).
Proof.
  intros c l Hn. apply oid_new_ok in Hn. destruct (oid_serialize_spec c l Hn) as (b & Hb & Hok & Hd).
  exists b, (Z.lor (40 * nth 0 l 0) (nth 1 l 0) / 40), (Z.lor (40 * nth 0 l 0) (nth 1 l 0) mod 40). auto.
Qed.
Lemma short_oids : forall c a, 0 <= a <= 2 ->
  (oid_serialize [] = Ok [0] /\ oid_deserialize c (ABytes [0]) = Ok (POid c [0; 0])) /\
  exists content, oid_serialize [a] = Ok content /\ oid_deserialize c (ABytes content) = Ok (POid c [a; 0]).
Proof.
  intros c a Ha. split; [split; [reflexivity|destruct c; reflexivity]|].
  assert (a = 0 \/ a = 1 \/ a = 2) as [->|[->| ->]] by lia; eexists; (split; [reflexivity|]); destruct c; reflexivity.
Qed.

Lemma oid_truncated_refuted : ~ (forall c l, bytes_ok l -> (l = [] \/ 128 <= last l 0) ->
  oid_deserialize c (ABytes l) = Raise ParseError).
Proof.
  intros H. specialize (H OID [43; 0x80]).
  assert (E : oid_deserialize OID (ABytes [43; 128]) = Raise ParseError).
  { apply H; [repeat constructor; lia|right; cbn; lia]. }
  cbv in E. discriminate.
Qed.
Lemma oid_truncated_cases : forall c b0 pre run, bytes_ok (b0 :: pre) ->
  Forall (fun b => 128 <= b < 256) run -> (pre = [] \/ last pre 0 < 128) ->
  oid_deserialize c (ABytes []) = Raise ParseError /\
  (Exists (fun b => b <> 128) run ->
     oid_deserialize c (ABytes (b0 :: pre ++ run)) = Raise ParseError) /\
  (Forall (fun b => b = 128) run ->
     oid_deserialize c (ABytes (b0 :: pre ++ run)) = oid_deserialize c (ABytes (b0 :: pre))).
Proof.
  intros c b0 pre run Hok Hr Hp. split; [reflexivity|]. rewrite oid_truncated by auto. split.
  - intros H. destruct (forallb (fun b => b =? 128) run) eqn:E; [|reflexivity].
    apply Exists_exists in H as (x & Hx & Hn). rewrite forallb_forall in E. specialize (E x Hx). lia.
  - intros H. assert (forallb (fun b => b =? 128) run = true) as ->; [|reflexivity].
    apply forallb_forall. rewrite Forall_forall in H. intros x Hx. specialize (H x Hx). lia.
Qed.

Lemma oid_eq_spec : forall c c' a b, prim_eqb (POid c a) (POid c' b) = true <-> a = b.
Proof. intros. cbn. apply zlist_eqb_eq. Qed.
Lemma startswith_spec : forall l prefix,
  (oid_startswith l prefix = true <-> exists rest, l = prefix ++ rest) /\
  (oid_startswith l prefix = true -> oid_ltb l prefix = false).
Proof.
  intros l p. split; [apply oid_startswith_spec|]. intros H. apply oid_startswith_spec in H as [r ->].
  rewrite <- (app_nil_r p) at 2. rewrite oid_ltb_app. destruct r; reflexivity.
Qed.
Lemma parse_str : forall c l, oid_new c l = Ok l -> oid_parse c (oid_str l) = Ok l.
Proof. intros c l H. apply oid_new_ok in H. now apply oid_parse_str. Qed.
Lemma parse_dot_str : forall c l, oid_new c l = Ok l -> l <> [] -> oid_parse c (46 :: oid_str l) = Ok l.
Proof. intros c l H. apply oid_new_ok in H. now apply oid_parse_dot_str. Qed.
Lemma parse_raises : forall c s e, oid_parse c s = Raise e -> e = ValueError.
Proof. intros c s e H. symmetry. exact (oid_parse_raises c s e H). Qed.

Lemma index_refuted : ~ (forall c prefix index implied l,
  Forall prim_constructible index -> withIndex c prefix index implied = Ok l ->
  decodeIndex l prefix (map prim_cls index) implied = Ok index).
Proof.
  intros H. specialize (H OID [1;3] [POctets IpAddress [10;0;0;1]] false [1;3;10;0;0;1]).
  assert (E : decodeIndex [1;3;10;0;0;1] [1;3] [COctets IpAddress] false = Ok [POctets IpAddress [10;0;0;1]]).
  { apply H; [|reflexivity]. constructor; [|constructor]. split; [repeat constructor; lia|reflexivity]. }
  cbv in E. discriminate.
Qed.
Lemma no_bad_ip_none index implied : (forall p, In p index -> is_ip p = false) -> no_bad_ip index implied = true.
Proof.
  induction index as [|p index IH]; intros H; [reflexivity|].
  destruct index as [|q index]; [cbn; rewrite (H p) by (left; auto); reflexivity|].
  change (negb (is_ip p) && no_bad_ip (q :: index) implied = true).
  rewrite (H p (or_introl eq_refl)), IH; [reflexivity|]. intros x Hx; apply H; right; exact Hx.
Qed.
Lemma index_roundtrip_no_ip : forall c prefix index implied l,
  Forall prim_constructible index ->
  (forall p, In p index -> is_ip p = false) ->
  withIndex c prefix index implied = Ok l ->
  decodeIndex l prefix (map prim_cls index) implied = Ok index.
Proof. intros. eapply index_roundtrip; eauto using no_bad_ip_none. Qed.
Lemma no_bad_ip_last index d : (forall p, In p index -> is_ip p = false) ->
  no_bad_ip (index ++ [POctets IpAddress d]) true = true.
Proof.
  induction index as [|p index IH]; intros H; [reflexivity|].
  assert (E : exists q r, index ++ [POctets IpAddress d] = q :: r) by (destruct index; cbn; eauto).
  destruct E as (q & r & E). cbn [app]. rewrite E in *.
  change (negb (is_ip p) && no_bad_ip (q :: r) true = true).
  rewrite (H p (or_introl eq_refl)), IH; [reflexivity|]. intros x Hx; apply H; right; exact Hx.
Qed.
Lemma index_roundtrip_ip : forall c prefix index d l,
  Forall prim_constructible (index ++ [POctets IpAddress d]) ->
  (forall p, In p index -> is_ip p = false) ->
  withIndex c prefix (index ++ [POctets IpAddress d]) true = Ok l ->
  decodeIndex l prefix (map prim_cls (index ++ [POctets IpAddress d])) true
  = Ok (index ++ [POctets IpAddress d]).
Proof. intros. eapply index_roundtrip; eauto using no_bad_ip_last. Qed.

Lemma decodeIndex_refuted : ~ (forall c l prefix types implied,
  oid_new c l = Ok l -> oid_new c prefix = Ok prefix ->
  match decodeIndex l prefix types implied with
  | Ok ps => map prim_cls ps = types /\ (exists rest, l = prefix ++ rest)
  | Raise e => e = BadPrefix /\ ~ (exists rest, l = prefix ++ rest) \/
               e = IndexDecodeError /\ (exists rest, l = prefix ++ rest)
  end).
Proof.
  intros H. specialize (H OID [1;3;1;256] [1;3] [COctets OctetString] false eq_refl eq_refl).
  cbv in H. destruct H as [[H _]|[H _]]; discriminate.
Qed.
Lemma octet_types types : existsb octet_cls types = true -> exists c, In (COctets c) types.
Proof. intros H. apply existsb_exists in H as ([] & H1 & H2); try discriminate. eauto. Qed.
Lemma oid_types types : existsb oid_cls types = true -> exists c, In (COid c) types.
Proof. intros H. apply existsb_exists in H as ([] & H1 & H2); try discriminate. eauto. Qed.
Lemma decodeIndex_cases : forall l prefix types implied,
  match decodeIndex l prefix types implied with
  | Ok ps => map prim_cls ps = types /\ (exists rest, l = prefix ++ rest)
  | Raise e => e = BadPrefix /\ ~ (exists rest, l = prefix ++ rest) \/
      (exists rest, l = prefix ++ rest /\
        (e = IndexDecodeError \/
         (e = ValueError /\ (exists c, In (COctets c) types) /\ ~ bytes_ok rest) \/
         (e = RuntimeError /\ (exists c, In (COid c) types))))
  end.
Proof.
  intros l prefix types implied. unfold decodeIndex.
  pose proof (oid_startswith_spec l prefix) as HS. destruct (oid_startswith l prefix); cbn [negb].
  2:{ left. split; [reflexivity|]. intros H. apply HS in H. discriminate. }
  destruct (proj1 HS eq_refl) as [rest ->]. rewrite py_slice_from, skipn_zlen_app by apply zlen_nonneg.
  destruct (decodeIndex_fields_raises types rest implied) as [HR HO].
  destruct (decodeIndex_fields rest types implied) as [[ps r]|e] eqn:E; cbn [bind].
  - destruct (HO _ _ eq_refl) as [H1 _]. destruct r; [split; eauto|right; eauto].
  - right. exists rest. split; [reflexivity|].
    destruct (HR e eq_refl) as [->|[(-> & H1 & H2)|(-> & H1)]]; auto.
    + right; left. split; [reflexivity|]. split; [now apply octet_types|].
      intros H. apply bytes_okb_ok in H. congruence.
    + right; right. split; [reflexivity|now apply oid_types].
Qed.

Lemma numgen_range : forall n (signed : bool) r k, 1 <= n -> 1 <= r <= 2 ^ (n - 1) ->
  let x := numgen_nth (numgen_init n signed r) k in
  if signed then - 2 ^ (n - 1) <= x < 2 ^ (n - 1) else 0 <= x < 2 ^ n.
Proof.
  intros n signed r k Hn Hr x. pose proof (numgen_inv n signed r k Hn Hr) as (_ & _ & _ & H & _).
  fold (numgen_nth (numgen_init n signed r) k) in H. fold x in H.
  unfold lo_of, hi_of in H. destruct signed; lia.
Qed.
Lemma numgen_zero : forall n (signed : bool) r k, 1 <= n -> 1 <= r <= 2 ^ (n - 1) ->
  (numgen_nth (numgen_init n signed r) k = 0 <-> (2 ^ n | Z.of_nat k)).
Proof.
  intros n signed r k Hn Hr. pose proof (numgen_eq_iff n signed r k 0 Hn Hr) as H.
  rewrite Z.sub_0_r in H. exact H.
Qed.
Lemma numgen_every : forall n (signed : bool) r x, 1 <= n -> 1 <= r <= 2 ^ (n - 1) ->
  (if signed then - 2 ^ (n - 1) <= x < 2 ^ (n - 1) else 0 <= x < 2 ^ n) ->
  exists k, 1 <= Z.of_nat k <= 2 ^ n /\ numgen_nth (numgen_init n signed r) k = x.
Proof. intros n signed r x Hn Hr Hx. apply numgen_surj; auto. unfold lo_of, hi_of. destruct signed; lia. Qed.
Lemma numgen_nth_next : forall g k,
  numgen_nth g (S k) = fst (numgen_next (numgen_after g k)) /\
  numgen_after g (S k) = snd (numgen_next (numgen_after g k)).
Proof. intros; split; reflexivity. Qed.

Lemma represents_view s v : represents s v -> sb_wf s /\ sb_view s = v.
Proof.
  induction 1 as [l a b H|s v a b H [IH1 IH2] Hb].
  - rewrite sb_new_gen, sb_new_bytes. 
    destruct (sb_new_slice (sb_whole l) a b (sb_whole_wf l)) as (W & _ & V); rewrite sb_whole_view in *; auto.
  - subst v. destruct (sb_new_slice s a b IH1 Hb) as (W & _ & V). auto.
Qed.
Lemma subbytes_spec : forall s v, represents s v ->
  sb_len s = Ok (zlen v) /\
  sb_bool s = negb (zlen v =? 0) /\
  sb_iter s = Ok v /\
  (forall i, sb_getitem s i = py_index v i) /\
  (forall a b, sb_getslice s a b = py_slice v a b) /\
  (forall a b step, 0 < step -> sb_getslice_step s a b step = py_slice_ext v a b step) /\
  (forall other, sb_eq_bytes s other = Ok (zlist_eqb v other)) /\
  (forall n, represents (fst (sb_split s n)) (py_slice v None (Some n)) /\
             represents (snd (sb_split s n)) (py_slice v (Some n) None)) /\
  (exists before after, sb_data s = before ++ v ++ after /\
     zlen before = sb_start s /\ forall r, sb_replace s r = before ++ r ++ after).
Proof.
  intros s v H. pose proof (represents_view s v H) as [W V]. subst v.
  split; [now apply sb_len_wf|]. split.
  { rewrite sb_bool_wf by auto. destruct (sb_view s) as [|x r]; [reflexivity|]. zl.
    pose proof (zlen_nonneg r). lia. }
  split; [now apply sb_iter_wf|]. split; [intros; now apply sb_getitem_index|].
  split; [intros; now apply sb_getslice_slice|]. split; [intros; now apply sb_getslice_step_slice|].
  split; [intros; now apply sb_eq_bytes_wf|]. split.
  { intros n. pose proof (zlen_nonneg (sb_view s)). unfold sb_split; cbn [fst snd]. split; apply rep_sub; auto.
    - cbn [lower]. apply upper_range; auto.
    - cbn [upper]. apply lower_range; auto. }
  eexists _, _. split; [now apply sb_data_split|]. split.
  - zl. destruct W. lia.
  - intros r. now apply sb_replace_wf.
Qed.
Lemma subbytes_refuted : exists l a b, bytes_ok l /\
  sb_len (sb_new (ABytes l) (Some a) (Some b)) <> Ok (zlen (py_slice l (Some a) (Some b))) /\
  sb_replace (sb_new (ABytes l) (Some a) (Some b)) [] <> l /\ py_slice l (Some a) (Some b) = [].
Proof.
  exists [1;2;3], 2, 1. split; [repeat constructor; lia|]. split; [discriminate|]. split; [discriminate|reflexivity].
Qed.
Lemma subbytes_step_refuted : exists l, bytes_ok l /\
  sb_getslice_step (sb_new (ABytes l) None None) None None (-1) <> py_slice_ext l None None (-1).
Proof. exists [1;2;3]. split; [repeat constructor; lia|discriminate]. Qed.
