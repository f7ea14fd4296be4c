(** PropertiesMsg.v -- C13-C20 and C45: variable bindings, PDUs, messages,
    security levels, error responses. *)
From Verif Require Import PrfMsgProps.

(** The user's view of the hypotheses: [vb_ok], [pdu_ok], [message_ok], [v3_ok]
    and the relations [same_vb], ... are in SpecPdu.v and SpecMsg.v. *)

(** * C13 *)
(** Partial because of C07: names and OID values must be ones the OID encoding
    preserves ([oid_faithful]). *)
Theorem C13_varbind_roundtrip_partial : forall v e rest, vb_ok v -> varbind_encode v = Ok e -> bytes_ok rest ->
  exists v' tail, varbind_decode (ABytes (e ++ rest)) true = Ok (v', tail) /\
    sb_getslice tail None None = rest /\ same_vb v v' /\ varbind_eqb v v' = true.
Proof. exact varbind_roundtrip. Qed.
Print Assumptions C13_varbind_roundtrip_partial.
Theorem C13_varbind_encodes : forall v, vb_ok v -> vb_weight v < 256 ^ 126 -> exists e, varbind_encode v = Ok e.
Proof. exact varbind_encodes. Qed.
Print Assumptions C13_varbind_encodes.
Theorem C13_type_from_tag : forall name ne t body ve e,
  oid_new OID name = Ok name -> oid_faithful name -> prim_encode (POid OID name) = Ok ne ->
  tag_ok t -> bytes_ok body -> ber_encode t body = Ok ve -> ber_encode sequence_tag (ne ++ ve) = Ok e ->
  (do r <- varbind_decode (ABytes e) false; Ok (fst r)) =
    match smi_type t with
    | None => Raise ParseError
    | Some c => do value <- prim_deserialize c (ABytes body); Ok (mkVarBind name value)
    end.
Proof. exact varbind_tag_decides. Qed.
Print Assumptions C13_type_from_tag.

(** A GetResponse-like example with several types. *)
Definition ex_vbs : list varbind :=
  [mkVarBind [1;3;6;1;2;1;1;1;0] (POctets OctetString [76;105;110;117;120]);
   mkVarBind [1;3;6;1;2;1;1;2;0] (POid OID [1;3;6;1;4;1;8072;3;2;10]);
   mkVarBind [1;3;6;1;2;1;1;3;0] (PInt TimeTicks 4294967295);
   mkVarBind [1;3;6;1;2;1;2;2;1;10;1] (PInt Counter64 18446744073709551615);
   mkVarBind [1;3;6;1;2;1;4;20;1;1] (POctets IpAddress [10;0;0;1]);
   mkVarBind [1;3;6;1;2;1;99] (PNull EndOfMibView)].
Lemma ex_vbs_ok : Forall vb_ok ex_vbs.
Proof. repeat constructor; try (vm_compute; reflexivity); vm_compute; try discriminate; try intros X; try discriminate. Qed.
Example C13_example : forall v, In v ex_vbs -> vb_ok v /\ exists e, varbind_encode v = Ok e.
Proof.
  intros v Hv. pose proof (proj1 (Forall_forall _ _) ex_vbs_ok v Hv). split; auto.
  cbn in Hv. repeat (destruct Hv as [<-|Hv]; [eexists; vm_compute; reflexivity|]). elim Hv.
Qed.

(** * C14 *)
Theorem C14_pdu_roundtrip_partial : forall p e rest, pdu_ok p -> pdu_encode p = Ok e -> bytes_ok rest ->
  exists p' tail, pdu_decode (pdu_cls p) (ABytes (e ++ rest)) true = Ok (p', tail) /\
    sb_getslice tail None None = rest /\ same_pdu p p' /\ pdu_eqb p p' = true.
Proof. exact pdu_roundtrip. Qed.
Print Assumptions C14_pdu_roundtrip_partial.
Theorem C14_pdu_encodes : forall p, pdu_ok p -> pdu_weight p < 256 ^ 126 -> exists e, pdu_encode p = Ok e.
Proof. exact pdu_encodes. Qed.
Print Assumptions C14_pdu_encodes.
Definition ex_response : pdu := mkPDU ResponsePDU (-2147483648) 2 6 ex_vbs.
Lemma ex_response_ok : pdu_ok ex_response.
Proof. split; [|exact ex_vbs_ok]. vm_compute. repeat split; discriminate. Qed.
Example C14_example : pdu_ok ex_response /\ exists e, pdu_encode ex_response = Ok e.
Proof. split; [exact ex_response_ok|]. eexists. vm_compute. reflexivity. Qed.

(** * C15 *)
Theorem C15_decoded_pdu_fields : forall c data lo p tail, bytes_ok data ->
  pdu_decode c (ABytes data) lo = Ok (p, tail) ->
  pdu_cls p = c /\ pdu_fields_ok p /\ Forall vb_wf (pdu_vbs p).
Proof. exact pdu_decode_fields. Qed.
Print Assumptions C15_decoded_pdu_fields.
(** The same for PDUs inside v1/v2c messages and scoped PDUs: C17. *)
Example C15_example : exists data p tail, bytes_ok data /\ pdu_decode ResponsePDU (ABytes data) true = Ok (p, tail).
Proof.
  exists [162;11;2;1;1;2;1;5;2;1;0;48;0]. do 2 eexists. split; [|vm_compute; reflexivity].
  repeat constructor; vm_compute; discriminate.
Qed.
Example C15_example_rejected : (* error index 1 without bindings *)
  pdu_decode ResponsePDU (ABytes [162;11;2;1;1;2;1;5;2;1;1;48;0]) true = Raise ParseError.
Proof. vm_compute. reflexivity. Qed.

(** * C16 *)
Definition v1_pdus := [GetRequestPDU; GetNextRequestPDU; ResponsePDU; SetRequestPDU].
Definition v2_pdus := [GetRequestPDU; GetNextRequestPDU; ResponsePDU; SetRequestPDU;
                       GetBulkRequestPDU; InformRequestPDU; SNMPv2TrapPDU; ReportPDU].
Theorem C16_message_roundtrip_partial : forall types m e, message_ok types m -> message_encode m = Ok e ->
  exists m', message_decode (pdu_types types) (ABytes e) = Ok m' /\ same_message m m' /\
    version_decode (ABytes e) = Ok (m_version m).
Proof. exact message_roundtrip_same. Qed.
Print Assumptions C16_message_roundtrip_partial.
(** The dictionaries the v1 and v2c processors decode with. *)
Theorem C16_types : pduTypes_v1 = pdu_types v1_pdus /\ pduTypes_v2 = pdu_types v2_pdus.
Proof. split; reflexivity. Qed.
Theorem C16_message_encodes : forall types m, message_ok types m -> pdu_weight (m_pdu m) < 256 ^ 125 ->
  exists e, message_encode m = Ok e.
Proof. exact message_encodes. Qed.
Print Assumptions C16_message_encodes.
Example C16_example : let m := mkMessage SNMPv1 [112;117;98;108;105;99] ex_response in
  message_ok v1_pdus m /\ exists e, message_encode m = Ok e.
Proof.
  split; [|eexists; vm_compute; reflexivity].
  split; [now left|]. split; [split; [repeat constructor; vm_compute; discriminate|vm_compute; discriminate]|].
  split; [exact ex_response_ok|]. vm_compute. tauto.
Qed.

(** * C17 *)
Theorem C17_version_decode_raises : forall data e, bytes_ok data ->
  version_decode (ABytes data) = Raise e -> is_IncomingMessageError e = true.
Proof. intros data e H. exact (version_decode_raises (ABytes data) I H e). Qed.
Print Assumptions C17_version_decode_raises.
Theorem C17_version_decode_ok : forall data v, bytes_ok data ->
  version_decode (ABytes data) = Ok v -> v = SNMPv1 \/ v = SNMPv2c \/ v = SNMPv3.
Proof. intros data v H. exact (version_decode_ok (ABytes data) v I H). Qed.
Print Assumptions C17_version_decode_ok.
Theorem C17_message_decode_raises : forall types data e, bytes_ok data ->
  message_decode (pdu_types types) (ABytes data) = Raise e -> is_IncomingMessageError e = true.
Proof. intros types data e H. exact (message_decode_raises _ (ABytes data) I H e). Qed.
Print Assumptions C17_message_decode_raises.
Theorem C17_message_decode_ok : forall types data m, bytes_ok data ->
  message_decode (pdu_types types) (ABytes data) = Ok m ->
  message_wf types m /\ version_decode (ABytes data) = Ok (m_version m).
Proof. intros types data m H. exact (message_decode_ok types (ABytes data) m I H). Qed.
Print Assumptions C17_message_decode_ok.
Theorem C17_v3_decode_raises : forall data e, bytes_ok data ->
  v3_decode (ABytes data) = Raise e -> is_IncomingMessageError e = true.
Proof. intros data e H. exact (v3_decode_raises (ABytes data) I H e). Qed.
Print Assumptions C17_v3_decode_raises.
Theorem C17_v3_decode_ok : forall data m, bytes_ok data -> v3_decode (ABytes data) = Ok m -> v3_wf m.
Proof. intros data m H H'. exact (proj1 (v3_decode_ok (ABytes data) m I H H')). Qed.
Print Assumptions C17_v3_decode_ok.
Theorem C17_params_decode_raises : forall before data after e, bytes_ok (before ++ data ++ after) ->
  params_decode (ASub (mkSub (before ++ data ++ after) (zlen before) (zlen before + zlen data))) = Raise e ->
  e = ParseError.
Proof.
  intros before data after e H Hd. symmetry. refine (params_decode_raises (ASub (mkSub (before ++ data ++ after) _ _)) _ H e Hd). eapply sb_wf_mid. reflexivity.
Qed.
Print Assumptions C17_params_decode_raises.
Theorem C17_params_decode_ok : forall before data after p, bytes_ok (before ++ data ++ after) ->
  params_decode (ASub (mkSub (before ++ data ++ after) (zlen before) (zlen before + zlen data))) = Ok p ->
  params_ok p.
Proof.
  intros before data after p H Hd. refine (proj1 (params_decode_ok (mkSub (before ++ data ++ after) _ _) p _ H Hd)). eapply sb_wf_mid. reflexivity.
Qed.
Print Assumptions C17_params_decode_ok.
Example C17_example_errors :
  version_decode (ABytes [48;3;2;1;2]) = Raise BadVersion /\
  version_decode (ABytes [48;3;2;1;3]) = Ok SNMPv3 /\
  version_decode (ABytes []) = Raise ParseError.
Proof. repeat split; vm_compute; reflexivity. Qed.

(** * C18 *)
Theorem C18_v3_roundtrip_partial : forall m e, v3_ok m -> v3_encode m = Ok e ->
  exists m', v3_decode (ABytes e) = Ok m' /\ same_v3 m m'.
Proof. exact v3_roundtrip. Qed.
Print Assumptions C18_v3_roundtrip_partial.
Theorem C18_v3_encodes : forall m, v3_ok m ->
  (forall s, v3_scoped m = Some s -> pdu_weight (sp_pdu s) < 256 ^ 124) -> exists e, v3_encode m = Ok e.
Proof. exact v3_encodes. Qed.
Print Assumptions C18_v3_encodes.
Theorem C18_usm_parameters_roundtrip : forall p e, params_ok p -> params_encode p = Ok e ->
  forall before after, bytes_ok before -> bytes_ok after ->
  exists p', params_decode (ASub (mkSub (before ++ e ++ after) (zlen before) (zlen before + zlen e))) = Ok p' /\
    up_engineID p' = up_engineID p /\ up_boots p' = up_boots p /\ up_time p' = up_time p /\
    up_userName p' = up_userName p /\ up_signature p' = up_signature p /\ up_salt p' = up_salt p.
Proof. exact params_roundtrip. Qed.
Print Assumptions C18_usm_parameters_roundtrip.
Definition ex_v3 : v3msg :=
  mkV3 (mkHeader 2147483647 65507 (mkFlags authNoPriv true) USM)
       (Some (mkScoped [128;0;0;1] [99;116;120] ex_response)) None (ABytes [48;0]) None None.
Definition ex_v3_priv : v3msg :=
  mkV3 (mkHeader 0 484 (mkFlags authPriv false) USM) None (Some [1;2;3]) (ABytes []) None None.
Lemma ex_v3_ok : v3_ok ex_v3 /\ v3_ok ex_v3_priv.
Proof.
  split.
  - split; [vm_compute; repeat split; discriminate|]. split; [split; [repeat constructor; vm_compute; discriminate|vm_compute; discriminate]|].
    exists (mkScoped [128;0;0;1] [99;116;120] ex_response). split; [reflexivity|].
    split; [split; [repeat constructor; vm_compute; discriminate|vm_compute; discriminate]|].
    split; [split; [repeat constructor; vm_compute; discriminate|vm_compute; discriminate]|]. exact ex_response_ok.
  - split; [vm_compute; repeat split; discriminate|]. split; [split; [constructor|vm_compute; discriminate]|].
    exists [1;2;3]. split; [reflexivity|]. split; [repeat constructor; vm_compute; discriminate|vm_compute; discriminate].
Qed.
Example C18_example : (v3_ok ex_v3 /\ exists e, v3_encode ex_v3 = Ok e) /\
  (v3_ok ex_v3_priv /\ exists e, v3_encode ex_v3_priv = Ok e).
Proof.
  destruct ex_v3_ok. split; (split; [assumption|]); eexists; vm_compute; reflexivity.
Qed.

(** * C19 *)
Theorem C19_flags_byte : forall b, 0 <= b < 256 ->
  flags_construct (ABytes [b]) =
    if Z.testbit b 1 && negb (Z.testbit b 0) then Raise InvalidMessage
    else Ok (mkFlags (mkLevel (Z.testbit b 0) (Z.testbit b 1)) (Z.testbit b 2)).
Proof. exact flags_byte. Qed.
Print Assumptions C19_flags_byte.
Theorem C19_extra_bits_ignored : forall b, 0 <= b < 256 ->
  flags_construct (ABytes [b]) = flags_construct (ABytes [Z.land b 7]).
Proof. exact flags_extra_bits. Qed.
Print Assumptions C19_extra_bits_ignored.
Theorem C19_flags_roundtrip : forall f, (sl_priv (fl_level f) = true -> sl_auth (fl_level f) = true) ->
  exists b, flags_data f = Ok [b] /\ 0 <= b < 8 /\ flags_construct (ABytes [b]) = Ok f /\
    exists e, flags_encode f = Ok e /\
      flags_decode (ABytes e) false = Ok (f, sb_drop (zlen e) (sb_new (ABytes e) None None)).
Proof. exact flags_roundtrip. Qed.
Print Assumptions C19_flags_roundtrip.
Theorem C19_privacy_implies_authentication : forall data m, bytes_ok data -> v3_decode (ABytes data) = Ok m ->
  fl_priv (h_flags (v3_header m)) = true -> fl_auth (h_flags (v3_header m)) = true.
Proof. exact v3_priv_auth. Qed.
Print Assumptions C19_privacy_implies_authentication.
Example C19_example : exists data m, bytes_ok data /\ v3_decode (ABytes data) = Ok m /\
  fl_priv (h_flags (v3_header m)) = true.
Proof.
  destruct ex_v3_ok as [_ H]. destruct C18_example as [_ [_ [e He]]].
  destruct (v3_roundtrip _ _ H He) as (m & D & (S1 & _)). exists e, m. split; [eapply v3_encode_bytes; eauto|].
  split; [exact D|]. rewrite S1. reflexivity.
Qed.

(** * C20 *)
Theorem C20_constructor : forall auth priv,
  SecurityLevel auth priv = (if priv && negb auth then Raise ValueError else Ok (mkLevel auth priv)) /\
  (forall l, SecurityLevel auth priv = Ok l -> l = noAuthNoPriv \/ l = authNoPriv \/ l = authPriv).
Proof. intros [] []; split; try reflexivity; cbn; intros l H; try discriminate; injection H as <-; auto. Qed.
Print Assumptions C20_constructor.
Theorem C20_order : forall a b c, In a [noAuthNoPriv; authNoPriv; authPriv] ->
  In b [noAuthNoPriv; authNoPriv; authPriv] -> In c [noAuthNoPriv; authNoPriv; authPriv] ->
  (sl_eqb a b = true <-> a = b) /\
  sl_ltb a a = false /\
  (sl_ltb a b = true -> sl_ltb b c = true -> sl_ltb a c = true) /\
  (sl_ltb a b = true \/ a = b \/ sl_ltb b a = true) /\
  (sl_ltb a b = true -> sl_ltb b a = false) /\
  sl_geb a b = negb (sl_ltb a b).
Proof.
  intros a b c Ha Hb Hc. cbn in Ha, Hb, Hc.
  destruct Ha as [<-|[<-|[<-|[]]]], Hb as [<-|[<-|[<-|[]]]], Hc as [<-|[<-|[<-|[]]]]; cbn;
    (split; [split; intros X; try discriminate; reflexivity|]); repeat split; auto; try discriminate.
Qed.
Print Assumptions C20_order.
Theorem C20_chain : sl_ltb noAuthNoPriv authNoPriv = true /\ sl_ltb authNoPriv authPriv = true /\
  sl_ltb noAuthNoPriv authPriv = true.
Proof. repeat split. Qed.

(** * C45 *)
Theorem C45_error_cause : forall data lo response tail request,
  bytes_ok data -> pdu_decode ResponsePDU (ABytes data) lo = Ok (response, tail) -> pdu_a response <> 0 ->
  let i := pdu_b response in
  (i = 0 -> error_cause i request = Ok (CauseRequest request)) /\
  (forall v, 1 <= i <= zlen (pdu_vbs request) -> nth_error (pdu_vbs request) (Z.to_nat (i - 1)) = Some v ->
     error_cause i request = Ok (CauseVarBind v)) /\
  (zlen (pdu_vbs request) < i -> error_cause i request = Ok (CauseIndex i)) /\ 0 <= i.
Proof.
  intros data lo response tail request Hd He Ha. destruct (pdu_decode_fields _ _ _ _ _ Hd He) as (Hc & Hf & _).
  apply cause_spec; auto. now rewrite Hc.
Qed.
Print Assumptions C45_error_cause.
Example C45_example : exists e p tail, pdu_encode ex_response = Ok e /\ bytes_ok e /\
  pdu_decode ResponsePDU (ABytes e) true = Ok (p, tail) /\ pdu_a p <> 0.
Proof.
  destruct C14_example as [H [e He]]. pose proof (proj1 (pdu_encode_bytes _ _ H He)) as Hok.
  destruct (pdu_roundtrip _ _ [] H He) as (p & tail & D & _ & (_ & _ & Sa & _) & _); [constructor|].
  rewrite app_nil_r in D. exists e, p, tail. repeat (split; auto). rewrite Sa. vm_compute. discriminate.
Qed.

(** Why C13, C14, C16 and C18 are partial: a binding whose name the OID
    encoding does not preserve (C07) silently changes its name. *)
Theorem C13_refuted : exists v e v' tail,
  oid_new OID (vb_name v) = Ok (vb_name v) /\ vb_value v = PNull NULL /\ varbind_encode v = Ok e /\
  varbind_decode (ABytes e) false = Ok (v', tail) /\ varbind_eqb v v' = false.
Proof.
  exists (mkVarBind [1;8;1] (PNull NULL)). do 3 eexists. repeat (split; [vm_compute; reflexivity|]). vm_compute. reflexivity.
Qed.
Print Assumptions C13_refuted.
Theorem C14_refuted : exists p e p' tail, pdu_fields_ok p /\
  (forall v, In v (pdu_vbs p) -> oid_new OID (vb_name v) = Ok (vb_name v) /\ vb_value v = PNull NULL) /\
  pdu_encode p = Ok e /\ pdu_decode (pdu_cls p) (ABytes e) false = Ok (p', tail) /\ pdu_eqb p p' = false.
Proof.
  exists (mkPDU GetRequestPDU 7 0 0 [mkVarBind [1;8;1] (PNull NULL)]). do 3 eexists.
  split; [vm_compute; repeat split; discriminate|]. split; [intros v [<-|[]]; split; vm_compute; reflexivity|].
  repeat (split; [vm_compute; reflexivity|]). vm_compute. reflexivity.
Qed.
Print Assumptions C14_refuted.
