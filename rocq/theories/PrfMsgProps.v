(** PrfMsgProps.v -- the statements of C13-C20 and C45, assembled. *)
From Verif Require Export PrfMsgDec.

(** ** C13 *)
Lemma smi_type_lookup t : dict_get tag_eqb varbind_types t = smi_type t.
Proof.
  destruct (smi_type t) as [c|] eqn:E.
  - destruct t as [n k c']. unfold smi_type in E. cbn [t_constructed t_cls t_number] in E.
    destruct k; [discriminate|].
    repeat (match type of E with match ?x with _ => _ end = _ => destruct x; try discriminate end);
      injection E as <-; reflexivity.
  - destruct (dict_get tag_eqb varbind_types t) eqn:D; [|reflexivity]. exfalso.
    apply dict_get_in in D. cbn in D. 
    repeat (destruct D as [D|D]; [injection D as <- <-; discriminate E|]). exact D.
Qed.

Lemma varbind_roundtrip v e rest : vb_ok v -> varbind_encode v = Ok e -> bytes_ok rest ->
  exists v' tail, varbind_decode (ABytes (e ++ rest)) true = Ok (v', tail) /\
    sb_getslice tail None None = rest /\ same_vb v v' /\ varbind_eqb v v' = true.
Proof.
  intros Hv He Hr. destruct (decodes_bytes _ _ _ rest (varbind_decodes v e Hv He)) as (tail & D & T).
  { apply bytes_ok_app. split; auto. eapply varbind_encode_bytes; eauto. }
  exists (norm_vb v), tail. split; [auto|]. split; [auto|]. split; [apply norm_vb_same|].
  apply same_vb_eqb. apply norm_vb_same.
Qed.
Lemma varbind_encodes v : vb_ok v -> vb_weight v < 256 ^ 126 -> exists e, varbind_encode v = Ok e.
Proof. intros H1 H2. destruct (varbind_encode_size v H1 H2) as (e & E & _). eauto. Qed.

Lemma varbind_tag_decides name ne t body ve e :
  oid_new OID name = Ok name -> oid_faithful name -> prim_encode (POid OID name) = Ok ne ->
  tag_ok t -> bytes_ok body -> ber_encode t body = Ok ve -> ber_encode sequence_tag (ne ++ ve) = Ok e ->
  (do r <- varbind_decode (ABytes e) false; Ok (fst r)) =
    match smi_type t with
    | None => Raise ParseError
    | Some c => do value <- prim_deserialize c (ABytes body); Ok (mkVarBind name value)
    end.
Proof.
  intros Hn Hf Hne Ht Hb Hve He. unfold varbind_decode.
  assert (Hok : bytes_ok (ne ++ ve)).
  { apply bytes_ok_app. split; [eapply prim_encode_bytes; [|exact Hne]; exact Hn|]. eapply ber_encode_bytes; [exact Ht|exact Hb|exact Hve]. }
  assert (Heok : bytes_ok e) by (eapply ber_encode_bytes; [apply sequence_tag_ok|exact Hok|exact He]).
  destruct (asn1_decode_at sequence_tag varbind_deserialize (ne ++ ve) e (ABytes e) [] false true sequence_tag_ok He I Heok)
    as (EE & Wb & Vb); [cbn; now rewrite app_nil_r|now right|]. rewrite EE.
  destruct (body_of_facts true (ABytes e) _ _ Heok Wb Vb) as (B1 & B2 & B3).
  set (b := body_of true _) in *. clearbody b. unfold varbind_deserialize at 1.
  destruct (decodes_step OID_decode ne name b ve (OID_decodes _ _ Hn Hf Hne) B1 B2 B3) as (tl & E & _ & W & O & V & _).
  rewrite E. cbn [bind].
  destruct (ber_decode_at t body ve (ASub tl) [] false true Ht Hve W O) with (ex := @None tag) as (E2 & W2 & V2); auto;
    [now rewrite app_nil_r|]. rewrite E2. cbn [bind]. rewrite smi_type_lookup.
  destruct (smi_type t) as [c|]; [|reflexivity]. cbn [body_of]. rewrite sb_getslice_all by auto. rewrite V2.
  destruct (prim_deserialize c (ABytes body)); reflexivity.
Qed.

(** ** C14 *)
Lemma pdu_roundtrip p e rest : pdu_ok p -> pdu_encode p = Ok e -> bytes_ok rest ->
  exists p' tail, pdu_decode (pdu_cls p) (ABytes (e ++ rest)) true = Ok (p', tail) /\
    sb_getslice tail None None = rest /\ same_pdu p p' /\ pdu_eqb p p' = true.
Proof.
  intros Hp He Hr. destruct (decodes_bytes _ _ _ rest (pdu_decodes p e Hp He)) as (tail & D & T).
  { apply bytes_ok_app. split; auto. eapply pdu_encode_bytes; eauto. }
  exists (norm_pdu p), tail. split; [auto|]. split; [auto|]. split; [apply norm_pdu_same|]. apply same_pdu_eqb, norm_pdu_same.
Qed.
Lemma pdu_encodes p : pdu_ok p -> pdu_weight p < 256 ^ 126 -> exists e, pdu_encode p = Ok e.
Proof. intros H1 H2. destruct (pdu_encode_size p H1 H2) as (e & E & _). eauto. Qed.

(** ** C15 *)
Lemma pdu_decode_fields c data lo p tail : bytes_ok data -> pdu_decode c (ABytes data) lo = Ok (p, tail) ->
  pdu_cls p = c /\ pdu_fields_ok p /\ Forall vb_wf (pdu_vbs p).
Proof. intros H1 H2. exact (pdu_decode_ok c (ABytes data) lo p tail I H1 H2). Qed.

(** ** C16 *)
Lemma message_roundtrip_same types m e : message_ok types m -> message_encode m = Ok e ->
  exists m', message_decode (pdu_types types) (ABytes e) = Ok m' /\ same_message m m' /\
    version_decode (ABytes e) = Ok (m_version m).
Proof.
  intros Hm He. destruct (message_roundtrip types m e Hm He) as [D V]. exists (norm_message m).
  split; [exact D|]. split; [apply norm_message_same|exact V].
Qed.
Lemma message_encodes types m : message_ok types m -> pdu_weight (m_pdu m) < 256 ^ 125 -> exists e, message_encode m = Ok e.
Proof.
  intros (Hv & [Hc1 Hc2] & Hp & _) Hw. destruct big_pos as [B1 B2].
  assert (B3 : 256 ^ 125 * 256 = 256 ^ 126) by reflexivity. pose proof (vbs_weight_pos (pdu_vbs (m_pdu m))).
  destruct (pdu_encode_size (m_pdu m) Hp) as (e3 & E3 & L3).
  { unfold pdu_weight in *. fold (vbs_weight (pdu_vbs (m_pdu m))) in *. lia. }
  destruct (Integer_encode_size (m_version m)) as (e1 & E1 & L1); [destruct Hv as [->| ->]; unfold int32; cbv; split; discriminate|].
  destruct (OctetString_encode_size _ Hc1 Hc2) as (e2 & E2 & L2).
  destruct (sequence_encode_size (e1 ++ e2 ++ e3)) as (e & E & _).
  - rewrite !bytes_ok_app. split; [eapply Integer_encode_bytes; eauto|].
    split; [exact (proj1 (OctetString_encode_bytes _ _ Hc1 E2))|eapply pdu_encode_bytes; eauto].
  - unfold big in *. zl. lia.
  - exists e. unfold message_encode, message_serialize. cbn [join_encodings]. rewrite E1, E2, E3. cbn [bind].
    rewrite app_nil_r. exact E.
Qed.

(** ** C18 *)
Lemma header_encode_size h : header_ok h -> exists e, header_encode h = Ok e /\ zlen e <= 1000.
Proof.
  intros (H1 & H2 & H3 & H4).
  destruct (Integer_encode_size (h_id h)) as (e1 & E1 & L1); [unfold int32; lia|].
  destruct (Integer_encode_size (h_maxSize h)) as (e2 & E2 & L2); [unfold int32; lia|].
  destruct (flags_data_spec _ H3) as (b & Eb & Hb & _).
  destruct (ber_encode_size (octets_tag OctetString) [b]) as (e3 & E3 & L3);
    [exact (pcls_tag_ok (COctets OctetString))|reflexivity|apply bytes_ok_cons; split; [auto|constructor]|reflexivity|].
  destruct (Integer_encode_size (h_securityModel h)) as (e4 & E4 & L4); [rewrite H4; unfold int32; cbv; split; discriminate|].
  assert (E3' : flags_encode (h_flags h) = Ok e3) by (unfold flags_encode; rewrite Eb; exact E3).
  autorewrite with zlen in L3. destruct big_pos as [B1 B2].
  destruct (sequence_encode_size (e1 ++ e2 ++ e3 ++ e4)) as (e & E & L).
  - rewrite !bytes_ok_app. repeat split; try (eapply Integer_encode_bytes; eassumption). eapply flags_encode_bytes; eauto.
  - zl. cbn in L3. lia.
  - exists e. unfold header_encode, header_serialize. cbn [join_encodings]. rewrite E1, E2, E3', E4. cbn [bind].
    rewrite app_nil_r. split; [exact E|]. autorewrite with zlen in L. cbn in L3. lia.
Qed.
Lemma scoped_encode_size s : scoped_ok s -> pdu_weight (sp_pdu s) < 256 ^ 125 ->
  exists e, scoped_encode s = Ok e /\ zlen e <= pdu_weight (sp_pdu s) + 132000.
Proof.
  intros ([A1 A2] & [B1 B2] & Hp) Hw. destruct big_pos as [G1 G2].
  assert (B3 : 256 ^ 125 * 256 = 256 ^ 126) by reflexivity. pose proof (vbs_weight_pos (pdu_vbs (sp_pdu s))).
  destruct (pdu_encode_size (sp_pdu s) Hp) as (e3 & E3 & L3).
  { unfold pdu_weight in *. fold (vbs_weight (pdu_vbs (sp_pdu s))) in *. lia. }
  destruct (OctetString_encode_size _ A1 A2) as (e1 & E1 & L1).
  destruct (OctetString_encode_size _ B1 B2) as (e2 & E2 & L2).
  destruct (sequence_encode_size (e1 ++ e2 ++ e3)) as (e & E & L).
  - rewrite !bytes_ok_app. split; [exact (proj1 (OctetString_encode_bytes _ _ A1 E1))|].
    split; [exact (proj1 (OctetString_encode_bytes _ _ B1 E2))|eapply pdu_encode_bytes; eauto].
  - unfold big in *. zl. lia.
  - exists e. unfold scoped_encode, scoped_serialize. cbn [join_encodings]. rewrite E1, E2, E3. cbn [bind].
    rewrite app_nil_r. split; [exact E|]. autorewrite with zlen in L. lia.
Qed.
Lemma v3_encodes m : v3_ok m ->
  (forall s, v3_scoped m = Some s -> pdu_weight (sp_pdu s) < 256 ^ 124) -> exists e, v3_encode m = Ok e.
Proof.
  intros Hm Hw. pose proof Hm as (Hh & [P1 P2] & Hpay). destruct big_pos as [G1 G2].
  assert (B3 : 256 ^ 125 * 256 = 256 ^ 126) by reflexivity.
  assert (B4 : 256 ^ 124 * 256 = 256 ^ 125) by reflexivity.
  destruct (Integer_encode_size SNMPv3) as (e1 & E1 & L1); [unfold int32; cbv; split; discriminate|].
  destruct (header_encode_size _ Hh) as (e2 & E2 & L2).
  destruct (OctetString_encode_size _ P1 P2) as (e3 & E3 & L3).
  assert (X : exists e4, v3_payload m = Ok e4 /\ zlen e4 < 256 ^ 125).
  { unfold v3_payload, fl_priv. destruct (sl_priv _).
    - destruct Hpay as (c & Hc & C1 & C2). rewrite Hc. destruct (OctetString_encode_size _ C1 C2) as (e4 & E4 & L4).
      exists e4. split; [exact E4|lia].
    - destruct Hpay as (s & Hs & Hok). rewrite Hs. specialize (Hw s Hs).
      destruct (scoped_encode_size s Hok) as (e4 & E4 & L4); [lia|]. exists e4. split; [exact E4|]. lia. }
  destruct X as (e4 & E4 & L4).
  destruct (sequence_encode_size (e1 ++ e2 ++ e3 ++ e4)) as (e & E & L).
  - rewrite !bytes_ok_app. split; [eapply Integer_encode_bytes; eauto|]. split; [eapply header_encode_bytes; eauto|].
    split; [exact (proj1 (OctetString_encode_bytes _ _ P1 E3))|]. eapply v3_payload_bytes; eauto.
  - unfold big in *. zl. lia.
  - exists e. eapply v3_encode_of_pieces; eauto.
Qed.

Lemma params_roundtrip p e : params_ok p -> params_encode p = Ok e ->
  forall before after, bytes_ok before -> bytes_ok after ->
  exists p', params_decode (ASub (mkSub (before ++ e ++ after) (zlen before) (zlen before + zlen e))) = Ok p' /\
    up_engineID p' = up_engineID p /\ up_boots p' = up_boots p /\ up_time p' = up_time p /\
    up_userName p' = up_userName p /\ up_signature p' = up_signature p /\ up_salt p' = up_salt p.
Proof.
  intros Hp He before after Hb Ha. destruct (params_roundtrip_at p e He) as (pre & post & E & _ & D).
  destruct (D (mkSub (before ++ e ++ after) (zlen before) (zlen before + zlen e))) as [D1 _].
  - eapply sb_wf_mid. reflexivity.
  - cbn. rewrite !bytes_ok_app. repeat split; auto. eapply params_encode_bytes; eauto.
  - eapply sb_view_mid. reflexivity.
  - eexists. split; [exact D1|]. cbn. tauto.
Qed.

(** ** C19 *)
Lemma flags_extra_bits b : 0 <= b < 256 ->
  flags_construct (ABytes [b]) = flags_construct (ABytes [Z.land b 7]).
Proof.
  intros H. unfold flags_construct. cbn [adata_index py_index]. 
  change (py_index [b] 0) with (Ok b). change (py_index [Z.land b 7] 0) with (Ok (Z.land b 7)). cbn [reraise bind].
  rewrite <- !Z.land_assoc. reflexivity.
Qed.
Lemma flags_byte b : 0 <= b < 256 ->
  flags_construct (ABytes [b]) =
    if Z.testbit b 1 && negb (Z.testbit b 0) then Raise InvalidMessage
    else Ok (mkFlags (mkLevel (Z.testbit b 0) (Z.testbit b 1)) (Z.testbit b 2)).
Proof.
  intros H. assert (Q : forall b', In b' (map Z.of_nat (seq 0 256)) ->  flags_construct (ABytes [b']) =
    if Z.testbit b' 1 && negb (Z.testbit b' 0) then Raise InvalidMessage
    else Ok (mkFlags (mkLevel (Z.testbit b' 0) (Z.testbit b' 1)) (Z.testbit b' 2))).
  { apply Forall_forall. vm_compute. repeat constructor. }
  apply Q. apply in_map_iff. exists (Z.to_nat b). split; [lia|]. apply in_seq. lia.
Qed.
Lemma flags_roundtrip f : level_ok (fl_level f) ->
  exists b, flags_data f = Ok [b] /\ 0 <= b < 8 /\ flags_construct (ABytes [b]) = Ok f /\
    exists e, flags_encode f = Ok e /\ flags_decode (ABytes e) false = Ok (f, sb_drop (zlen e) (sb_new (ABytes e) None None)).
Proof.
  intros H. destruct (flags_data_spec f H) as (b & Hb & Hr & Hc). exists b. split; [auto|]. split.
  - destruct f as [[[] []] []]; cbv in Hb; injection Hb as <-; lia.
  - split; [now apply Hc|].
    destruct (ber_encode_size (octets_tag OctetString) [b]) as (e & E & _);
      [exact (pcls_tag_ok (COctets OctetString))|reflexivity|apply bytes_ok_cons; split; [auto|constructor]|reflexivity|].
    assert (E' : flags_encode f = Ok e) by (unfold flags_encode; rewrite Hb; exact E). exists e. split; [exact E'|].
    rewrite (flags_decodes f e H E' (ABytes e) []); auto.
    + exact I.
    + cbn. eapply flags_encode_bytes; eauto.
    + cbn. now rewrite app_nil_r.
Qed.
Lemma v3_priv_auth data m : bytes_ok data -> v3_decode (ABytes data) = Ok m ->
  fl_priv (h_flags (v3_header m)) = true -> fl_auth (h_flags (v3_header m)) = true.
Proof.
  intros H1 H2 H3. destruct (v3_decode_ok (ABytes data) m I H1 H2) as (((_ & _ & L & _) & _) & _). exact (L H3).
Qed.

(** ** C45 *)
Lemma cause_spec response request :
  pdu_fields_ok response -> is_bulk (pdu_cls response) = false -> pdu_a response <> 0 ->
  let i := pdu_b response in
  (i = 0 -> error_cause i request = Ok (CauseRequest request)) /\
  (forall v, 1 <= i <= zlen (pdu_vbs request) -> nth_error (pdu_vbs request) (Z.to_nat (i - 1)) = Some v ->
     error_cause i request = Ok (CauseVarBind v)) /\
  (zlen (pdu_vbs request) < i -> error_cause i request = Ok (CauseIndex i)) /\ 0 <= i.
Proof.
  intros (_ & _ & _ & H) Hb Ha i. assert (P : 0 <= i).
  { unfold i. destruct (pdu_cls response); try discriminate Hb; apply H; auto. }
  unfold error_cause. split; [intros ->; reflexivity|]. split; [|split; [|exact P]].
  - intros v Hi Hv. destruct (i =? 0) eqn:E; [lia|].
    unfold py_index. destruct (i - 1 <? 0) eqn:E1; [lia|]. rewrite Hv.
    repeat match goal with |- context [if ?c then _ else _] => destruct c eqn:?; try lia end; reflexivity.
  - intros Hi. pose proof (zlen_nonneg (pdu_vbs request)). destruct (i =? 0) eqn:E; [lia|]. unfold py_index.
    destruct (i - 1 <? 0) eqn:E1; [lia|].
    assert (N : nth_error (pdu_vbs request) (Z.to_nat (i - 1)) = None) by (apply nth_error_None; unfold zlen in *; lia).
    rewrite ?N. repeat match goal with |- context [if ?c then _ else _] => destruct c eqn:?; try lia end; reflexivity.
Qed.
