(** PrfMsg.v -- round trips and exceptions of messages. *)
From Verif Require Export PrfPduDec SpecMsg.

Lemma dict_pdu_types l c : In c l -> dict_get tag_eqb (pdu_types l) (pdu_tag c) = Some c.
Proof.
  induction l as [|c' l IH]; [easy|]. cbn [pdu_types map dict_get]. intros H.
  destruct (tag_eqb (pdu_tag c) (pdu_tag c')) eqn:E.
  - fold (pducls_eqb c c') in E. apply eqb_same_cls in E as ->. reflexivity.
  - destruct H as [->|H]; [rewrite tag_eqb_refl in E; discriminate|]. now apply IH.
Qed.

Lemma anypdu_decodes l p e s : pdu_ok p -> In (pdu_cls p) l -> pdu_encode p = Ok e ->
  sb_wf s -> bytes_ok (sb_data s) -> sb_view s = e -> anypdu_decode (pdu_types l) s = Ok (norm_pdu p).
Proof.
  intros Hp Hi He W O V. unfold anypdu_decode.
  replace (sb_new (ASub s) None None) with s by (destruct s; reflexivity).
  pose proof He as He'. unfold pdu_encode in He'. apply bind_ok in He' as (body & _ & He').
  apply ber_encode_inv in He' as (a & b & Ha & Hb & E).
  assert (V' : sb_view s = a ++ b ++ body) by congruence.
  rewrite (tag_decode_encode _ _ _ _ (pdu_tag_ok _) Ha W V'). cbn [bind].
  rewrite dict_pdu_types by auto.
  destruct (decodes_last _ _ _ (ASub s) (pdu_decodes p e Hp He) W O V) as (tl & D). rewrite D. reflexivity.
Qed.

Lemma version_known v : v = SNMPv1 \/ v = SNMPv2c \/ v = SNMPv3 -> ProtocolVersion v = Ok v.
Proof. intros [->|[->| ->]]; reflexivity. Qed.

Definition norm_message (m : message) : message := mkMessage (m_version m) (m_community m) (norm_pdu (m_pdu m)).
Lemma norm_message_same m : same_message m (norm_message m).
Proof. repeat (split; [reflexivity|]). apply norm_pdu_same. Qed.

Lemma message_decodes types m e : message_ok types m -> message_encode m = Ok e ->
  decodes (fun ad lo => asn1_decode sequence_tag (message_deserialize (pdu_types types)) ad lo true) e (norm_message m).
Proof.
  intros (Hv & [Hc1 Hc2] & Hp & Hi) He. unfold message_encode in He. apply bind_ok in He as (body & Hb & He).
  unfold message_serialize in Hb. apply join_inv in Hb as (e1 & y1 & H1 & Hb & ->).
  apply join_inv in Hb as (e2 & y2 & H2 & Hb & ->). apply join_inv in Hb as (e3 & y3 & H3 & Hb & ->).
  apply join_nil in Hb as ->. rewrite app_nil_r in *.
  apply decodes_tlv with (body := e1 ++ e2 ++ e3); auto using sequence_tag_ok.
  intros b B1 B2 B3. unfold message_deserialize.
  destruct (decodes_step _ _ _ _ _ (Integer_decodes _ _ H1) B1 B2 B3) as (t1 & E1 & _ & W1 & O1 & V1 & _).
  rewrite E1. cbn [bind]. rewrite version_known by tauto. cbn [bind].
  assert (X : negb ((m_version m =? SNMPv1) || (m_version m =? SNMPv2c)) = false)
    by (destruct Hv as [->| ->]; reflexivity). rewrite X.
  destruct (decodes_step _ _ _ _ _ (OctetString_decodes _ _ H2) W1 O1 V1) as (t2 & E2 & _ & W2 & O2 & V2 & _).
  rewrite E2. cbn [bind]. rewrite (anypdu_decodes types (m_pdu m) e3) by auto. reflexivity.
Qed.
Lemma message_encode_bytes types m e : message_ok types m -> message_encode m = Ok e -> bytes_ok e.
Proof.
  intros (Hv & [Hc1 Hc2] & Hp & Hi) He. unfold message_encode in He. apply bind_ok in He as (body & Hb & He).
  eapply ber_encode_bytes; [apply sequence_tag_ok| |exact He]. eapply join_bytes; [|exact Hb].
  intros x [Hx|[Hx|[Hx|[]]]]; [eapply Integer_encode_bytes|eapply OctetString_encode_bytes|eapply pdu_encode_bytes]; eauto.
Qed.
Lemma message_roundtrip types m e : message_ok types m -> message_encode m = Ok e ->
  message_decode (pdu_types types) (ABytes e) = Ok (norm_message m) /\ version_decode (ABytes e) = Ok (m_version m).
Proof.
  intros Hm He. pose proof (message_encode_bytes _ _ _ Hm He) as Hok.
  destruct (decodes_last _ _ _ (ABytes e) (message_decodes types m e Hm He) I Hok eq_refl) as (tl & D).
  split; [unfold message_decode; rewrite D; reflexivity|].
  destruct Hm as (Hv & _). unfold message_encode in He. apply bind_ok in He as (body & Hb & He).
  unfold message_serialize in Hb. apply join_inv in Hb as (e1 & y1 & H1 & Hb & ->).
  assert (D2 : decodes (fun ad lo => asn1_decode sequence_tag version_deserialize ad lo true) e (m_version m)).
  { apply decodes_tlv with (body := e1 ++ y1); auto using sequence_tag_ok. intros b B1 B2 B3.
    unfold version_deserialize.
    destruct (decodes_step _ _ _ _ _ (Integer_decodes _ _ H1) B1 B2 B3) as (t1 & E1 & _).
    rewrite E1. cbn [bind]. apply version_known; tauto. }
  destruct (decodes_last _ _ _ (ABytes e) D2 I Hok eq_refl) as (tl2 & D3).
  unfold version_decode. rewrite D3. reflexivity.
Qed.

(** ** Flags *)
Lemma flags_data_spec f : level_ok (fl_level f) ->
  exists b, flags_data f = Ok [b] /\ 0 <= b < 256 /\
    forall d, ad_wf d -> ad_view d = [b] -> flags_construct d = Ok f.
Proof.
  intros H. destruct f as [[a p] r]. cbn in H.
  assert (G : forall d b, ad_wf d -> ad_view d = [b] -> adata_index d 0 = Ok b).
  { intros [l|s] b; cbn [ad_wf ad_view adata_index]; intros W V.
    - subst l. reflexivity.
    - change (sb_dereference s = Ok b). now apply (sb_deref_cons s b []). }
  destruct a, p; try (specialize (H eq_refl); discriminate); destruct r; eexists;
    (split; [reflexivity|]); (split; [split; [discriminate|reflexivity]|]); intros d W V; unfold flags_construct; rewrite (G _ _ W V); reflexivity.
Qed.
Lemma flags_decodes f e : level_ok (fl_level f) -> flags_encode f = Ok e -> decodes flags_decode e f.
Proof.
  intros H He. unfold flags_encode in He. apply bind_ok in He as (b & Hb & He).
  destruct (flags_data_spec f H) as (b' & Hb' & Hr & Hc). rewrite Hb in Hb'; injection Hb' as ->.
  apply decodes_tlv with (body := [b']); auto. exact (pcls_tag_ok (COctets OctetString)).
Qed.
Lemma flags_encode_bytes f e : level_ok (fl_level f) -> flags_encode f = Ok e -> bytes_ok e.
Proof.
  intros H He. unfold flags_encode in He. apply bind_ok in He as (b & Hb & He).
  destruct (flags_data_spec f H) as (b' & Hb' & Hr & Hc). rewrite Hb in Hb'; injection Hb' as ->.
  eapply ber_encode_bytes; [exact (pcls_tag_ok (COctets OctetString))| |exact He].
  apply bytes_ok_cons; split; [auto|constructor].
Qed.

(** ** Header *)
Lemma header_decodes h e : header_ok h -> header_encode h = Ok e -> decodes header_decode e h.
Proof.
  intros (Hi & Hs & Hl & Hm) He. unfold header_encode in He. apply bind_ok in He as (body & Hb & He).
  unfold header_serialize in Hb. apply join_inv in Hb as (e1 & y1 & H1 & Hb & ->).
  apply join_inv in Hb as (e2 & y2 & H2 & Hb & ->). apply join_inv in Hb as (e3 & y3 & H3 & Hb & ->).
  apply join_inv in Hb as (e4 & y4 & H4 & Hb & ->). apply join_nil in Hb as ->. rewrite app_nil_r in *.
  apply decodes_tlv with (body := e1 ++ e2 ++ e3 ++ e4); auto using sequence_tag_ok.
  intros b B1 B2 B3. unfold header_deserialize.
  destruct (decodes_step _ _ _ _ _ (Integer_decodes _ _ H1) B1 B2 B3) as (t1 & E1 & _ & W1 & O1 & V1 & _).
  rewrite E1. cbn [bind].
  destruct (decodes_step _ _ _ _ _ (Integer_decodes _ _ H2) W1 O1 V1) as (t2 & E2 & _ & W2 & O2 & V2 & _).
  rewrite E2. cbn [bind].
  destruct (decodes_step _ _ _ _ _ (flags_decodes _ _ Hl H3) W2 O2 V2) as (t3 & E3 & _ & W3 & O3 & V3 & _).
  rewrite E3. cbn [bind].
  destruct (decodes_last _ _ _ _ (Integer_decodes _ _ H4) W3 O3 V3) as (t4 & E4). rewrite E4. cbn [bind].
  destruct (h_id h <? 0) eqn:?; [lia|]. destruct (h_maxSize h <? 484) eqn:?; [lia|].
  rewrite Hm. change (USM <? 1) with false. cbv iota. rewrite Z.eqb_refl. rewrite <- Hm. destruct h; reflexivity.
Qed.
Lemma header_encode_bytes h e : header_ok h -> header_encode h = Ok e -> bytes_ok e.
Proof.
  intros (Hi & Hs & Hl & Hm) He. unfold header_encode in He. apply bind_ok in He as (body & Hb & He).
  eapply ber_encode_bytes; [apply sequence_tag_ok| |exact He]. eapply join_bytes; [|exact Hb].
  intros x [Hx|[Hx|[Hx|[Hx|[]]]]]; try (eapply Integer_encode_bytes; eassumption). eapply flags_encode_bytes; eauto.
Qed.

(** ** Scoped PDU *)
Definition norm_scoped (s : scopedpdu) : scopedpdu :=
  mkScoped (sp_contextEngineID s) (sp_contextName s) (norm_pdu (sp_pdu s)).
Lemma norm_scoped_same s : same_scoped s (norm_scoped s).
Proof. repeat (split; [reflexivity|]). apply norm_pdu_same. Qed.
Definition all_pdus := [GetRequestPDU; GetNextRequestPDU; ResponsePDU; SetRequestPDU;
             GetBulkRequestPDU; InformRequestPDU; SNMPv2TrapPDU; ReportPDU].
Lemma in_all_pdus c : In c all_pdus.
Proof. destruct c; cbn; tauto. Qed.
Lemma scoped_decodes s e : scoped_ok s -> scoped_encode s = Ok e -> decodes scoped_decode e (norm_scoped s).
Proof.
  intros (_ & _ & Hp) He. unfold scoped_encode in He. apply bind_ok in He as (body & Hb & He).
  unfold scoped_serialize in Hb. apply join_inv in Hb as (e1 & y1 & H1 & Hb & ->).
  apply join_inv in Hb as (e2 & y2 & H2 & Hb & ->). apply join_inv in Hb as (e3 & y3 & H3 & Hb & ->).
  apply join_nil in Hb as ->. rewrite app_nil_r in *.
  apply decodes_tlv with (body := e1 ++ e2 ++ e3); auto using sequence_tag_ok.
  intros b B1 B2 B3. unfold scoped_deserialize.
  destruct (decodes_step _ _ _ _ _ (OctetString_decodes _ _ H1) B1 B2 B3) as (t1 & E1 & _ & W1 & O1 & V1 & _).
  rewrite E1. cbn [bind].
  destruct (decodes_step _ _ _ _ _ (OctetString_decodes _ _ H2) W1 O1 V1) as (t2 & E2 & _ & W2 & O2 & V2 & _).
  rewrite E2. cbn [bind]. change pduTypes_v2 with (pdu_types all_pdus).
  rewrite (anypdu_decodes all_pdus (sp_pdu s) e3) by auto using in_all_pdus. reflexivity.
Qed.
Lemma scoped_encode_bytes s e : scoped_ok s -> scoped_encode s = Ok e -> bytes_ok e.
Proof.
  intros ([H1 _] & [H2 _] & Hp) He. unfold scoped_encode in He. apply bind_ok in He as (body & Hb & He).
  eapply ber_encode_bytes; [apply sequence_tag_ok| |exact He]. eapply join_bytes; [|exact Hb].
  intros x [Hx|[Hx|[Hx|[]]]]; [exact (proj1 (OctetString_encode_bytes _ _ H1 Hx))|exact (proj1 (OctetString_encode_bytes _ _ H2 Hx))|eapply pdu_encode_bytes; eauto].
Qed.

(** ** SNMPv3 message, with the position of the security parameters *)
Lemma octets_original_at d e ad rest cp : OctetString_encode d = Ok e ->
  ad_wf ad -> bytes_ok (ad_data ad) -> ad_view ad = e ++ rest ->
  OctetString_decode_original ad true cp = Ok (body_of cp (body_sub ad e d), sb_drop (zlen e) (ad_sub ad)) /\
  sb_wf (body_sub ad e d) /\ sb_view (body_sub ad e d) = d.
Proof.
  intros He W O V. apply OctetString_encode_inv in He as [L He].
  destruct (asn1_decode_at (octets_tag OctetString)
     (fun body => do _ <- octets_construct OctetString body; Ok body) d e ad rest true cp
     (pcls_tag_ok (COctets OctetString)) He W O V (or_introl eq_refl)) as (E & Wb & Vb).
  split; [|auto]. unfold OctetString_decode_original. rewrite E.
  destruct (body_of_facts cp ad e d O Wb Vb) as (F1 & F2 & F3).
  rewrite OctetString_construct_ok; [reflexivity|]. now rewrite adata_bytes_view, F3.
Qed.


Lemma ber_encode_same_len t d e d' : ber_encode t d = Ok e -> zlen d' = zlen d ->
  exists a, e = a ++ d /\ ber_encode t d' = Ok (a ++ d').
Proof.
  intros H L. apply ber_encode_inv in H as (a & b & Ha & Hb & ->). exists (a ++ b).
  rewrite <- !app_assoc. split; [reflexivity|]. unfold ber_encode. rewrite Ha. cbn [bind]. rewrite L, Hb. reflexivity.
Qed.
Lemma OctetString_encode_same_len d e d' : OctetString_encode d = Ok e -> zlen d' = zlen d ->
  exists a, e = a ++ d /\ OctetString_encode d' = Ok (a ++ d').
Proof.
  intros H L. apply OctetString_encode_inv in H as [Hl H].
  destruct (ber_encode_same_len _ _ _ d' H L) as (a & E & E'). exists a. split; auto.
  unfold OctetString_encode. cbn [octets_new]. destruct (0xffff <? zlen d') eqn:X; [lia|]. exact E'.
Qed.

Definition set_params (m : v3msg) (p : bytes) : v3msg :=
  mkV3 (v3_header m) (v3_scoped m) (v3_encrypted m) (ABytes p) (v3_engineID m) (v3_name m).
Definition v3_payload (m : v3msg) : res bytes :=
  if fl_priv (h_flags (v3_header m)) then
    match v3_encrypted m with Some c => OctetString_encode c | None => Raise SNMPLibraryBug end
  else match v3_scoped m with Some s => scoped_encode s | None => Raise SNMPLibraryBug end.

Lemma v3_encode_pieces m e : v3_encode m = Ok e ->
  exists e1 e2 e3 e4, Integer_encode SNMPv3 = Ok e1 /\ header_encode (v3_header m) = Ok e2 /\
    OctetString_encode (adata_bytes (v3_params m)) = Ok e3 /\ v3_payload m = Ok e4 /\
    ber_encode sequence_tag (e1 ++ e2 ++ e3 ++ e4) = Ok e.
Proof.
  intros He. unfold v3_encode in He. apply bind_ok in He as (body & Hb & He).
  unfold v3_serialize in Hb. apply join_inv in Hb as (e1 & y1 & H1 & Hb & ->).
  apply join_inv in Hb as (e2 & y2 & H2 & Hb & ->). apply join_inv in Hb as (e3 & y3 & H3 & Hb & ->).
  apply join_inv in Hb as (e4 & y4 & H4 & Hb & ->). apply join_nil in Hb as ->. rewrite app_nil_r in *.
  exists e1, e2, e3, e4. auto.
Qed.
Lemma v3_encode_of_pieces m e1 e2 e3 e4 e : Integer_encode SNMPv3 = Ok e1 -> header_encode (v3_header m) = Ok e2 ->
    OctetString_encode (adata_bytes (v3_params m)) = Ok e3 -> v3_payload m = Ok e4 ->
    ber_encode sequence_tag (e1 ++ e2 ++ e3 ++ e4) = Ok e -> v3_encode m = Ok e.
Proof.
  intros H1 H2 H3 H4 H. unfold v3_encode, v3_serialize. cbn [join_encodings].
  unfold v3_payload in H4. rewrite H1, H2, H3, H4. cbn [bind]. rewrite app_nil_r. exact H.
Qed.

(** Replacing the security parameters by others of the same length changes
    nothing else in the encoding. *)
Lemma v3_encode_params m e : v3_encode m = Ok e ->
  exists pre post, e = pre ++ adata_bytes (v3_params m) ++ post /\
    forall p, zlen p = zlen (adata_bytes (v3_params m)) -> v3_encode (set_params m p) = Ok (pre ++ p ++ post).
Proof.
  intros He. destruct (v3_encode_pieces m e He) as (e1 & e2 & e3 & e4 & H1 & H2 & H3 & H4 & H).
  destruct (OctetString_encode_same_len _ _ _ H3 eq_refl) as (a & -> & _).
  pose proof (ber_encode_inv _ _ _ H) as (t & l & Ht & Hl & E).
  exists ((t ++ l) ++ e1 ++ e2 ++ a), e4. split; [rewrite E, <- !app_assoc; reflexivity|].
  intros p Hp. destruct (OctetString_encode_same_len _ _ _ H3 Hp) as (a' & E3 & E3').
  apply app_inv_tail in E3. subst a'.
  eapply (v3_encode_of_pieces (set_params m p)); eauto.
  destruct (ber_encode_same_len _ _ _ (e1 ++ e2 ++ (a ++ p) ++ e4) H) as (w & E4 & E5).
  { zl. lia. }
  rewrite E5. rewrite E in E4. rewrite <- !app_assoc in *. rewrite (app_assoc t l) in E4. apply app_inv_tail in E4 as <-.
  now rewrite <- !app_assoc.
Qed.

Definition norm_v3 (m : v3msg) (prm : asn1data) : v3msg :=
  if fl_priv (h_flags (v3_header m))
  then mkV3 (v3_header m) None (v3_encrypted m) prm None None
  else mkV3 (v3_header m) (option_map norm_scoped (v3_scoped m)) None prm None None.

Lemma v3_payload_bytes m e : v3_ok m -> v3_payload m = Ok e -> bytes_ok e.
Proof.
  intros (Hh & _ & Hp). unfold v3_payload, fl_priv. destruct (sl_priv _).
  - destruct Hp as (c & -> & [H1 H2]). intros H. exact (proj1 (OctetString_encode_bytes _ _ H1 H)).
  - destruct Hp as (s & -> & Hs). intros H. eapply scoped_encode_bytes; eauto.
Qed.
Lemma v3_encode_bytes m e : v3_ok m -> v3_encode m = Ok e -> bytes_ok e.
Proof.
  intros Hm He. destruct (v3_encode_pieces m e He) as (e1 & e2 & e3 & e4 & H1 & H2 & H3 & H4 & H).
  pose proof (v3_payload_bytes _ _ Hm H4). destruct Hm as (Hh & [Hp _] & _).
  eapply ber_encode_bytes; [apply sequence_tag_ok| |exact H].
  repeat (apply bytes_ok_app; split); auto.
  - eapply Integer_encode_bytes; eauto.
  - eapply header_encode_bytes; eauto.
  - exact (proj1 (OctetString_encode_bytes _ _ Hp H3)).
Qed.

Lemma v3_roundtrip_at m e : v3_ok m -> v3_encode m = Ok e ->
  exists pre post, e = pre ++ adata_bytes (v3_params m) ++ post /\
    (forall p, zlen p = zlen (adata_bytes (v3_params m)) -> v3_encode (set_params m p) = Ok (pre ++ p ++ post)) /\
    let prm := ASub (mkSub e (zlen pre) (zlen pre + zlen (adata_bytes (v3_params m)))) in
    v3_decode (ABytes e) = Ok (norm_v3 m prm) /\ findSecurityParameters e = Ok prm.
Proof.
  intros Hm He. pose proof (v3_encode_bytes _ _ Hm He) as Hok.
  destruct (v3_encode_pieces m e He) as (e1 & e2 & e3 & e4 & H1 & H2 & H3 & H4 & H).
  destruct Hm as (Hh & [Hpb Hpl] & Hpay). set (P := adata_bytes (v3_params m)) in *.
  destruct (OctetString_encode_same_len _ _ _ H3 eq_refl) as (a & Ea & _).
  pose proof (ber_encode_inv _ _ _ H) as (t & l & Ht & Hl & E).
  exists ((t ++ l) ++ e1 ++ e2 ++ a), e4. split; [rewrite E, Ea, <- !app_assoc; reflexivity|]. split.
  { intros p Hp. destruct (OctetString_encode_same_len _ _ _ H3 Hp) as (a' & E3 & E3').
    rewrite Ea in E3. apply app_inv_tail in E3. subst a'.
    eapply (v3_encode_of_pieces (set_params m p)); eauto.
    destruct (ber_encode_same_len _ _ _ (e1 ++ e2 ++ (a ++ p) ++ e4) H) as (w & E4 & E5).
    { rewrite Ea. subst P. zl. lia. }
    rewrite E5. rewrite E in E4. rewrite <- !app_assoc in *. rewrite (app_assoc t l) in E4. apply app_inv_tail in E4 as <-.
    now rewrite <- !app_assoc. }
  intros prm.
  set (body := e1 ++ e2 ++ e3 ++ e4) in *.
  assert (V : ad_view (ABytes e) = e ++ []) by (cbn; now rewrite app_nil_r).
  (* positions *)
  assert (Hprm : forall ptr, ad_data ptr = e -> ad_start ptr = zlen (t ++ l) + zlen e1 + zlen e2 ->
     prm = ASub (body_sub ptr e3 P)).
  { intros ptr D S. unfold prm, body_sub. rewrite D, S. f_equal. subst e3. f_equal; zl; lia. }
  assert (Lb : zlen e - zlen body = zlen (t ++ l)) by (rewrite E; zl; lia).
  split.
  - unfold v3_decode.
    destruct (asn1_decode_at sequence_tag v3_deserialize body e (ABytes e) [] false false sequence_tag_ok H I Hok V
      (or_intror eq_refl)) as (EE & Wb & Vb). rewrite EE.
    destruct (body_of_facts false (ABytes e) _ _ Hok Wb Vb) as (B1 & B2 & B3). cbn [body_of] in *.
    set (b := body_sub (ABytes e) e body) in *. unfold v3_deserialize.
    destruct (decodes_step _ _ _ _ _ (Integer_decodes _ _ H1) B1 B2 B3) as (t1 & E1 & _ & W1 & O1 & V1 & D1 & S1).
    rewrite E1. cbn [bind]. rewrite version_known by tauto. cbn [bind].
    replace (negb (SNMPv3 =? SNMPv3)) with false by reflexivity. cbv iota.
    destruct (decodes_step _ _ _ _ _ (header_decodes _ _ Hh H2) W1 O1 V1) as (t2 & E2 & _ & W2 & O2 & V2 & D2 & S2).
    rewrite E2. cbn [bind].
    destruct (octets_original_at P e3 (ASub t2) e4 false H3 W2 O2 V2) as (E3 & _ & _). rewrite E3. cbn [bind body_of].
    destruct (tail_facts (ASub t2) e3 e4 W2 O2 V2) as (W3 & V3 & O3 & D3 & S3).
    set (t3 := sb_drop (zlen e3) (ad_sub (ASub t2))) in *.
    rewrite <- (Hprm (ASub t2)).
    2: { cbn. cbn in D2, D1. rewrite D2, D1. reflexivity. }
    2: { cbn. cbn in S2, S1. rewrite S2, S1. unfold b, body_sub. cbn. lia. }
    unfold norm_v3. unfold v3_payload, fl_priv in *. destruct (sl_priv (fl_level (h_flags (v3_header m)))).
    + destruct Hpay as (c & Ec & Hc). rewrite Ec in *.
      destruct (decodes_last _ _ _ (ASub t3) (OctetString_decodes _ _ H4) W3 O3 V3) as (t4 & E4). rewrite E4. reflexivity.
    + destruct Hpay as (s & Es & Hs). rewrite Es in *.
      destruct (decodes_last _ _ _ (ASub t3) (scoped_decodes _ _ Hs H4) W3 O3 V3) as (t4 & E4). rewrite E4. reflexivity.
  - unfold findSecurityParameters.
    destruct (ber_decode_at sequence_tag body e (ABytes e) [] false false sequence_tag_ok H I Hok V
      (or_intror eq_refl) (Some sequence_tag) (or_intror eq_refl)) as (EE & Wb & Vb). rewrite EE. cbn [bind body_of].
    destruct (body_of_facts false (ABytes e) _ _ Hok Wb Vb) as (B1 & B2 & B3). cbn [body_of] in *.
    set (b := body_sub (ABytes e) e body) in *.
    apply Integer_encode_inv in H1 as [_ H1].
    destruct (ber_decode_at _ _ e1 (ASub b) _ true false (pcls_tag_ok (CInt Integer32)) H1 B1 B2 B3
      (or_introl eq_refl) _ (or_intror eq_refl)) as (E1 & _ & _). cbn [pcls_tag] in E1. rewrite E1. cbn [bind].
    destruct (tail_facts (ASub b) e1 _ B1 B2 B3) as (W1 & V1 & O1 & D1 & S1).
    set (t1 := sb_drop (zlen e1) (ad_sub (ASub b))) in *.
    unfold header_encode in H2. apply bind_ok in H2 as (hb & _ & H2).
    destruct (ber_decode_at _ _ e2 (ASub t1) _ true false sequence_tag_ok H2 W1 O1 V1
      (or_introl eq_refl) _ (or_intror eq_refl)) as (E2 & _ & _). rewrite E2. cbn [bind].
    destruct (tail_facts (ASub t1) e2 _ W1 O1 V1) as (W2 & V2 & O2 & D2 & S2).
    set (t2 := sb_drop (zlen e2) (ad_sub (ASub t1))) in *.
    apply OctetString_encode_inv in H3 as [_ H3].
    destruct (ber_decode_at _ _ e3 (ASub t2) _ true false (pcls_tag_ok (COctets OctetString)) H3 W2 O2 V2
      (or_introl eq_refl) _ (or_intror eq_refl)) as (E3 & _ & _). cbn [pcls_tag] in E3. rewrite E3. cbn [bind body_of].
    rewrite <- (Hprm (ASub t2)); [reflexivity| |].
    + change (sb_data t2 = e). rewrite D2. change (sb_data t1 = e). rewrite D1. reflexivity.
    + change (sb_start t2 = zlen (t ++ l) + zlen e1 + zlen e2). rewrite S2. change (ad_start (ASub t1)) with (sb_start t1). rewrite S1. unfold b, body_sub. cbn [ad_start sb_start]. lia.
Qed.

Lemma norm_v3_same m s : v3_ok m -> sb_wf s -> sb_view s = adata_bytes (v3_params m) -> same_v3 m (norm_v3 m (ASub s)).
Proof.
  intros (_ & _ & Hp) W V. unfold same_v3, norm_v3, fl_priv. destruct (sl_priv _); cbn [v3_header v3_params v3_encrypted v3_scoped].
  - repeat split. cbn. rewrite sb_getslice_all by auto. exact V.
  - destruct Hp as (sc & Es & Hs). rewrite Es. split; [reflexivity|]. split; [cbn; rewrite sb_getslice_all by auto; exact V|].
    split; [reflexivity|]. exists sc, (norm_scoped sc). repeat split; try reflexivity. apply norm_pdu_same.
Qed.
Lemma sb_view_mid e pre mid post : e = pre ++ mid ++ post ->
  sb_view (mkSub e (zlen pre) (zlen pre + zlen mid)) = mid.
Proof.
  intros ->. unfold sb_view, zlen. cbn.
  replace (Z.to_nat (Z.of_nat (length pre) + Z.of_nat (length mid) - Z.of_nat (length pre))) with (length mid) by lia.
  rewrite Nat2Z.id, skipn_app, skipn_all, Nat.sub_diag. cbn. rewrite firstn_app, Nat.sub_diag, firstn_all. cbn. apply app_nil_r.
Qed.
Lemma sb_wf_mid e pre mid post : e = pre ++ mid ++ post -> sb_wf (mkSub e (zlen pre) (zlen pre + zlen mid)).
Proof.
  intros ->. pose proof (zlen_nonneg pre). pose proof (zlen_nonneg post). pose proof (zlen_nonneg mid).
  split; cbn; zl; lia.
Qed.
Lemma v3_roundtrip m e : v3_ok m -> v3_encode m = Ok e ->
  exists m', v3_decode (ABytes e) = Ok m' /\ same_v3 m m'.
Proof.
  intros Hm He. destruct (v3_roundtrip_at m e Hm He) as (pre & post & E & _ & D & _).
  eexists. split; [exact D|]. apply norm_v3_same; auto.
  - eapply sb_wf_mid; exact E.
  - eapply sb_view_mid; exact E.
Qed.
