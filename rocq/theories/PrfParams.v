(** PrfParams.v -- USM security parameters: round trip and signature position. *)
From Verif Require Export PrfMsg.

Definition set_sig (p : usmparams) (sg : bytes) : usmparams :=
  mkParams (up_engineID p) (up_boots p) (up_time p) (up_userName p) sg (up_salt p) (up_index p) (up_whole p).
Definition with_whole (p : usmparams) (i : Z) (w : bytes) : usmparams :=
  mkParams (up_engineID p) (up_boots p) (up_time p) (up_userName p) (up_signature p) (up_salt p) (Some i) (Some w).

Lemma params_encode_pieces p e : params_encode p = Ok e ->
  exists e1 e2 e3 e4 e5 e6, OctetString_encode (up_engineID p) = Ok e1 /\ Integer_encode (up_boots p) = Ok e2 /\
    Integer_encode (up_time p) = Ok e3 /\ OctetString_encode (up_userName p) = Ok e4 /\
    OctetString_encode (up_signature p) = Ok e5 /\ OctetString_encode (up_salt p) = Ok e6 /\
    ber_encode sequence_tag (e1 ++ e2 ++ e3 ++ e4 ++ e5 ++ e6) = Ok e.
Proof.
  intros He. unfold params_encode in He. apply bind_ok in He as (body & Hb & He).
  unfold params_serialize in Hb. apply join_inv in Hb as (e1 & y1 & H1 & Hb & ->).
  apply join_inv in Hb as (e2 & y2 & H2 & Hb & ->). apply join_inv in Hb as (e3 & y3 & H3 & Hb & ->).
  apply join_inv in Hb as (e4 & y4 & H4 & Hb & ->). apply join_inv in Hb as (e5 & y5 & H5 & Hb & ->).
  apply join_inv in Hb as (e6 & y6 & H6 & Hb & ->). apply join_nil in Hb as ->. rewrite app_nil_r in *.
  exists e1, e2, e3, e4, e5, e6. tauto.
Qed.
Lemma params_encode_of_pieces p e1 e2 e3 e4 e5 e6 e :
    OctetString_encode (up_engineID p) = Ok e1 -> Integer_encode (up_boots p) = Ok e2 ->
    Integer_encode (up_time p) = Ok e3 -> OctetString_encode (up_userName p) = Ok e4 ->
    OctetString_encode (up_signature p) = Ok e5 -> OctetString_encode (up_salt p) = Ok e6 ->
    ber_encode sequence_tag (e1 ++ e2 ++ e3 ++ e4 ++ e5 ++ e6) = Ok e -> params_encode p = Ok e.
Proof.
  intros H1 H2 H3 H4 H5 H6 H. unfold params_encode, params_serialize. cbn [join_encodings].
  rewrite H1, H2, H3, H4, H5, H6. cbn [bind]. rewrite app_nil_r. exact H.
Qed.
Lemma params_encode_bytes p e : params_ok p -> params_encode p = Ok e -> bytes_ok e.
Proof.
  intros ([P1 _] & _ & _ & [P4 _] & [P5 _] & [P6 _]) He.
  destruct (params_encode_pieces p e He) as (e1 & e2 & e3 & e4 & e5 & e6 & H1 & H2 & H3 & H4 & H5 & H6 & H).
  eapply ber_encode_bytes; [apply sequence_tag_ok| |exact H].
  repeat (apply bytes_ok_app; split).
  - exact (proj1 (OctetString_encode_bytes _ _ P1 H1)).
  - exact (proj1 (Integer_encode_bytes _ _ H2)).
  - exact (proj1 (Integer_encode_bytes _ _ H3)).
  - exact (proj1 (OctetString_encode_bytes _ _ P4 H4)).
  - exact (proj1 (OctetString_encode_bytes _ _ P5 H5)).
  - exact (proj1 (OctetString_encode_bytes _ _ P6 H6)).
Qed.

Definition sig_at (s : subbytes) (pre sg : bytes) : subbytes :=
  mkSub (sb_data s) (sb_start s + zlen pre) (sb_start s + zlen pre + zlen sg).

Lemma params_roundtrip_at p e : params_encode p = Ok e ->
  exists pre post, e = pre ++ up_signature p ++ post /\
    (forall sg, zlen sg = zlen (up_signature p) -> params_encode (set_sig p sg) = Ok (pre ++ sg ++ post)) /\
    forall s, sb_wf s -> bytes_ok (sb_data s) -> sb_view s = e ->
      params_decode (ASub s) = Ok (with_whole p (sb_start s + zlen pre) (sb_data s)) /\
      findSignature (ASub s) = Ok (ASub (sig_at s pre (up_signature p))).
Proof.
  intros He.
  destruct (params_encode_pieces p e He) as (e1 & e2 & e3 & e4 & e5 & e6 & H1 & H2 & H3 & H4 & H5 & H6 & H).
  destruct (OctetString_encode_same_len _ _ _ H5 eq_refl) as (a & Ea & _).
  pose proof (ber_encode_inv _ _ _ H) as (t & l & Ht & Hl & E).
  exists ((t ++ l) ++ e1 ++ e2 ++ e3 ++ e4 ++ a), e6.
  split; [rewrite E, Ea, <- !app_assoc; reflexivity|]. split.
  { intros sg Hs. destruct (OctetString_encode_same_len _ _ _ H5 Hs) as (a' & E5 & E5').
    rewrite Ea in E5. apply app_inv_tail in E5. subst a'.
    eapply (params_encode_of_pieces (set_sig p sg)); eauto.
    destruct (ber_encode_same_len _ _ _ (e1 ++ e2 ++ e3 ++ e4 ++ (a ++ sg) ++ e6) H) as (w & X4 & X5).
    { rewrite Ea. zl. lia. }
    rewrite X5. rewrite E, Ea in X4. rewrite <- !app_assoc in *. rewrite (app_assoc t l) in X4.
    apply app_inv_tail in X4 as <-. now rewrite <- !app_assoc. }
  intros s W O V. set (S := up_signature p) in *.
  set (body := e1 ++ e2 ++ e3 ++ e4 ++ e5 ++ e6) in *.
  assert (V' : ad_view (ASub s) = e ++ []) by (cbn; now rewrite app_nil_r).
  assert (Lb : zlen e - zlen body = zlen (t ++ l)) by (rewrite E; zl; lia).
  assert (Hsg : forall ptr, ad_data ptr = sb_data s ->
     ad_start ptr = sb_start s + zlen (t ++ l) + zlen e1 + zlen e2 + zlen e3 + zlen e4 ->
     sig_at s ((t ++ l) ++ e1 ++ e2 ++ e3 ++ e4 ++ a) S = body_sub ptr e5 S).
  { intros ptr D St. unfold sig_at, body_sub. rewrite D, St. subst e5. f_equal; zl; lia. }
  split.
  - unfold params_decode.
    destruct (asn1_decode_at sequence_tag params_deserialize body e (ASub s) [] false false sequence_tag_ok H W O V'
      (or_intror eq_refl)) as (EE & Wb & Vb). rewrite EE.
    destruct (body_of_facts false (ASub s) _ _ O Wb Vb) as (B1 & B2 & B3). cbn [body_of] in *.
    set (b := body_sub (ASub s) e body) in *. unfold params_deserialize.
    destruct (decodes_step _ _ _ _ _ (OctetString_decodes _ _ H1) B1 B2 B3) as (t1 & E1 & _ & W1 & O1 & V1 & D1 & S1).
    rewrite E1. cbn [bind].
    destruct (decodes_step _ _ _ _ _ (Integer_decodes _ _ H2) W1 O1 V1) as (t2 & E2 & _ & W2 & O2 & V2 & D2 & S2).
    rewrite E2. cbn [bind].
    destruct (decodes_step _ _ _ _ _ (Integer_decodes _ _ H3) W2 O2 V2) as (t3 & E3 & _ & W3 & O3 & V3 & D3 & S3).
    rewrite E3. cbn [bind].
    destruct (decodes_step _ _ _ _ _ (OctetString_decodes _ _ H4) W3 O3 V3) as (t4 & E4 & _ & W4 & O4 & V4 & D4 & S4).
    rewrite E4. cbn [bind].
    destruct (octets_original_at S e5 (ASub t4) e6 false H5 W4 O4 V4) as (E5 & Wg & Vg). rewrite E5. cbn [bind body_of].
    destruct (tail_facts (ASub t4) e5 e6 W4 O4 V4) as (W5 & V5 & O5 & _ & _).
    set (t5 := sb_drop (zlen e5) (ad_sub (ASub t4))) in *.
    destruct (decodes_last _ _ _ (ASub t5) (OctetString_decodes _ _ H6) W5 O5 V5) as (t6 & E6). rewrite E6. cbn [bind].
    assert (X : body_sub (ASub t4) e5 S = sig_at s ((t ++ l) ++ e1 ++ e2 ++ e3 ++ e4 ++ a) S).
    { symmetry. apply Hsg.
      - cbn [ad_data] in *. rewrite D4, D3, D2, D1. reflexivity.
      - cbn [ad_start] in *. rewrite S4, S3, S2, S1. unfold b, body_sub. cbn [ad_start sb_start]. lia. }
    unfold UsmSecurityParameters. cbn [bind fst]. rewrite (sb_getslice_all _ Wg), Vg, X. reflexivity.
  - unfold findSignature.
    destruct (ber_decode_at sequence_tag body e (ASub s) [] false false sequence_tag_ok H W O V'
      (or_intror eq_refl) (Some sequence_tag) (or_intror eq_refl)) as (EE & Wb & Vb). rewrite EE. cbn [bind body_of].
    destruct (body_of_facts false (ASub s) _ _ O Wb Vb) as (B1 & B2 & B3). cbn [body_of] in *.
    set (b := body_sub (ASub s) e body) in *.
    apply OctetString_encode_inv in H1 as [_ H1]. apply Integer_encode_inv in H2 as [_ H2].
    apply Integer_encode_inv in H3 as [_ H3]. apply OctetString_encode_inv in H4 as [_ H4].
    apply OctetString_encode_inv in H5 as [_ H5].
    destruct (ber_decode_at _ _ e1 (ASub b) _ true false (pcls_tag_ok (COctets OctetString)) H1 B1 B2 B3
      (or_introl eq_refl) _ (or_intror eq_refl)) as (E1 & _ & _). cbn [pcls_tag] in E1. rewrite E1. cbn [bind].
    destruct (tail_facts (ASub b) e1 _ B1 B2 B3) as (W1 & V1 & O1 & D1 & S1).
    set (t1 := sb_drop (zlen e1) (ad_sub (ASub b))) in *. clearbody t1.
    destruct (ber_decode_at _ _ e2 (ASub t1) _ true false (pcls_tag_ok (CInt Integer32)) H2 W1 O1 V1
      (or_introl eq_refl) _ (or_intror eq_refl)) as (E2 & _ & _). cbn [pcls_tag] in E2. rewrite E2. cbn [bind].
    destruct (tail_facts (ASub t1) e2 _ W1 O1 V1) as (W2 & V2 & O2 & D2 & S2).
    set (t2 := sb_drop (zlen e2) (ad_sub (ASub t1))) in *. clearbody t2.
    destruct (ber_decode_at _ _ e3 (ASub t2) _ true false (pcls_tag_ok (CInt Integer32)) H3 W2 O2 V2
      (or_introl eq_refl) _ (or_intror eq_refl)) as (E3 & _ & _). cbn [pcls_tag] in E3. rewrite E3. cbn [bind].
    destruct (tail_facts (ASub t2) e3 _ W2 O2 V2) as (W3 & V3 & O3 & D3 & S3).
    set (t3 := sb_drop (zlen e3) (ad_sub (ASub t2))) in *. clearbody t3.
    destruct (ber_decode_at _ _ e4 (ASub t3) _ true false (pcls_tag_ok (COctets OctetString)) H4 W3 O3 V3
      (or_introl eq_refl) _ (or_intror eq_refl)) as (E4 & _ & _). cbn [pcls_tag] in E4. rewrite E4. cbn [bind].
    destruct (tail_facts (ASub t3) e4 _ W3 O3 V3) as (W4 & V4 & O4 & D4 & S4).
    set (t4 := sb_drop (zlen e4) (ad_sub (ASub t3))) in *. clearbody t4.
    destruct (ber_decode_at _ _ e5 (ASub t4) _ true false (pcls_tag_ok (COctets OctetString)) H5 W4 O4 V4
      (or_introl eq_refl) _ (or_intror eq_refl)) as (E5 & _ & _). cbn [pcls_tag] in E5. rewrite E5. cbn [bind body_of].
    rewrite <- (Hsg (ASub t4)); [reflexivity| |].
    + cbn [ad_data] in *. rewrite D4, D3, D2, D1. reflexivity.
    + cbn [ad_start] in *. rewrite S4, S3, S2, S1. unfold b, body_sub. cbn [ad_start sb_start]. lia.
Qed.
