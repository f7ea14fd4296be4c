(** SpecCold.v -- the vocabulary of C85: the report that answers a discovery. *)
From Verif Require Export SpecHeal.

(** The report usmStatsUnknownEngineIDs. *)
Definition unknown_engine (m : v3msg) : Prop :=
  exists sc vb vbs, v3_scoped m = Some sc /\ pdu_cls (sp_pdu sc) = ReportPDU /\ pdu_vbs (sp_pdu sc) = vb :: vbs /\ vb_name vb = usmStats ++ [4; 0].
