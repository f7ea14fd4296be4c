(** SpecMsg.v -- well-formed messages (independent of encoders/decoders). *)
From Verif Require Export SpecPdu UsmParams.

(** Octet strings as carried in messages. *)
Definition octets_ok (d : bytes) : Prop := bytes_ok d /\ zlen d <= 65535.

Definition message_ok (types : list pducls) (m : message) : Prop :=
  (m_version m = SNMPv1 \/ m_version m = SNMPv2c) /\ octets_ok (m_community m) /\
  pdu_ok (m_pdu m) /\ In (pdu_cls (m_pdu m)) types.
Definition same_message (x y : message) : Prop :=
  m_version y = m_version x /\ m_community y = m_community x /\ same_pdu (m_pdu x) (m_pdu y).

Definition level_ok (l : seclevel) : Prop := sl_priv l = true -> sl_auth l = true.
Definition header_ok (h : header) : Prop :=
  0 <= h_id h <= 2147483647 /\ 484 <= h_maxSize h <= 2147483647 /\
  level_ok (fl_level (h_flags h)) /\ h_securityModel h = USM.
Definition scoped_ok (s : scopedpdu) : Prop :=
  octets_ok (sp_contextEngineID s) /\ octets_ok (sp_contextName s) /\ pdu_ok (sp_pdu s).
Definition same_scoped (x y : scopedpdu) : Prop :=
  sp_contextEngineID y = sp_contextEngineID x /\ sp_contextName y = sp_contextName x /\
  same_pdu (sp_pdu x) (sp_pdu y).

(** A message as handed to encode(): the payload matches the privacy flag. *)
Definition v3_ok (m : v3msg) : Prop :=
  header_ok (v3_header m) /\ octets_ok (adata_bytes (v3_params m)) /\
  if sl_priv (fl_level (h_flags (v3_header m)))
  then exists c, v3_encrypted m = Some c /\ octets_ok c
  else exists s, v3_scoped m = Some s /\ scoped_ok s.
(** What the peer sees of it. *)
Definition same_v3 (x y : v3msg) : Prop :=
  v3_header y = v3_header x /\ adata_bytes (v3_params y) = adata_bytes (v3_params x) /\
  if sl_priv (fl_level (h_flags (v3_header x)))
  then v3_encrypted y = v3_encrypted x /\ v3_scoped y = None
  else v3_encrypted y = None /\
       exists s s', v3_scoped x = Some s /\ v3_scoped y = Some s' /\ same_scoped s s'.

Definition params_ok (p : usmparams) : Prop :=
  octets_ok (up_engineID p) /\ int32 (up_boots p) /\ int32 (up_time p) /\
  octets_ok (up_userName p) /\ octets_ok (up_signature p) /\ octets_ok (up_salt p).

(** * Well-formed decoded messages (no assumption on faithful OIDs) *)
Definition message_wf (types : list pducls) (m : message) : Prop :=
  (m_version m = SNMPv1 \/ m_version m = SNMPv2c) /\ octets_ok (m_community m) /\
  In (pdu_cls (m_pdu m)) types /\ pdu_fields_ok (m_pdu m) /\ Forall vb_wf (pdu_vbs (m_pdu m)).
Definition scoped_wf (s : scopedpdu) : Prop :=
  octets_ok (sp_contextEngineID s) /\ octets_ok (sp_contextName s) /\
  pdu_fields_ok (sp_pdu s) /\ Forall vb_wf (pdu_vbs (sp_pdu s)).
Definition v3_wf (m : v3msg) : Prop :=
  header_ok (v3_header m) /\ octets_ok (adata_bytes (v3_params m)) /\
  if sl_priv (fl_level (h_flags (v3_header m)))
  then v3_scoped m = None /\ exists c, v3_encrypted m = Some c /\ octets_ok c
  else v3_encrypted m = None /\ exists s, v3_scoped m = Some s /\ scoped_wf s.
