(** PrfAgree.v -- what decoding an encoded message can give: whatever its variable
    bindings, the version, community, type and ID are those encoded. *)
From Verif Require Import PrfMsg PrfDec.

Lemma tlv_inv {A} t (f : asn1data -> res A) body e ad lo cp x tl : tag_ok t -> ber_encode t body = Ok e ->
  ad_wf ad -> bytes_ok (ad_data ad) -> ad_view ad = e -> asn1_decode t f ad lo cp = Ok (x, tl) ->
  exists b, ad_wf b /\ bytes_ok (ad_data b) /\ ad_view b = body /\ f b = Ok x.
Proof.
  intros Ht He W O Vw D. assert (Vw' : ad_view ad = e ++ []) by (now rewrite app_nil_r).
  destruct (asn1_decode_at t f body e ad [] lo cp Ht He W O Vw' (or_intror eq_refl)) as (H & WB & VB).
  rewrite H in D. destruct (body_of_facts cp ad e body O WB VB) as (B1 & B2 & B3).
  apply bind_ok in D as (y & D & X). injection X as -> _. eauto.
Qed.
Lemma dict_pdu_tag l t c : dict_get tag_eqb (pdu_types l) t = Some c -> pdu_tag c = t.
Proof.
  induction l as [|c' l IH]; [discriminate|]. cbn [pdu_types map dict_get]. destruct (tag_eqb t (pdu_tag c')) eqn:E; [|exact IH].
  intros X. injection X as <-. symmetry. now apply tag_eqb_eq.
Qed.
Lemma message_agrees l m w m' : message_encode m = Ok w -> bytes_ok w -> message_decode (pdu_types l) (ABytes w) = Ok m' ->
  m_version m' = m_version m /\ m_community m' = m_community m /\ pdu_requestID (m_pdu m') = pdu_requestID (m_pdu m).
Proof.
  intros E O D. unfold message_encode in E. apply bind_ok in E as (body & Hb & He).
  unfold message_serialize in Hb. apply join_inv in Hb as (e1 & y1 & H1 & Hb & ->).
  apply join_inv in Hb as (e2 & y2 & H2 & Hb & ->). apply join_inv in Hb as (e3 & y3 & H3 & Hb & ->).
  apply join_nil in Hb as ->. rewrite app_nil_r in *.
  unfold message_decode in D. apply bind_ok in D as ([x tl] & D & X). cbn [fst] in X. injection X as ->.
  assert (AW : ad_wf (ABytes w)) by exact Logic.I.
  destruct (tlv_inv _ _ _ w (ABytes w) _ _ _ _ sequence_tag_ok He AW O eq_refl D) as (b & B1 & B2 & B3 & F). clear D.
  unfold message_deserialize in F.
  destruct (decodes_step _ _ _ _ _ (Integer_decodes _ _ H1) B1 B2 B3) as (t1 & E1 & _ & W1 & O1 & V1 & _).
  rewrite E1 in F. cbn [bind] in F. apply bind_ok in F as (v & PV & F).
  assert (v = m_version m).
  { unfold ProtocolVersion in PV. destruct (_ || _) in PV; congruence. }
  subst v. destruct (negb _) in F; [discriminate|].
  destruct (decodes_step _ _ _ _ _ (OctetString_decodes _ _ H2) W1 O1 V1) as (t2 & E2 & _ & W2 & O2 & V2 & _).
  rewrite E2 in F. cbn [bind] in F. apply bind_ok in F as (p & F & X). injection X as <-. cbn [m_version m_community m_pdu].
  split; [auto|]. split; [auto|]. unfold anypdu_decode in F.
  apply bind_ok in F as ([i ?] & T & F). destruct (dict_get tag_eqb (pdu_types l) i) as [c|] eqn:DG; [|discriminate].
  apply bind_ok in F as ([p' tl'] & F & X). cbn [fst] in X. injection X as ->.
  unfold pdu_encode in H3. apply bind_ok in H3 as (pb & Hpb & H3).
  (* the identifier is the one that was encoded *)
  pose proof H3 as H3'. apply ber_encode_inv in H3' as (a & bb & Ha & Hbb & E).
  assert (V' : sb_view t2 = a ++ bb ++ pb) by (cbn [ad_view] in V2; congruence).
  replace (sb_new (ASub t2) None None) with t2 in T by (destruct t2; reflexivity).
  cbn [ad_wf ad_data] in W2, O2.
  rewrite (tag_decode_encode _ _ _ _ (pdu_tag_ok _) Ha W2 V') in T. injection T as <- _.
  apply dict_pdu_tag in DG. unfold pdu_decode in F. rewrite DG in F.
  destruct (tlv_inv _ _ _ _ (ASub t2) _ _ _ _ (pdu_tag_ok _) H3 W2 O2 V2 F) as (b2 & C1 & C2 & C3 & G). clear F.
  unfold pdu_serialize in Hpb. apply join_inv in Hpb as (f1 & z1 & I1 & Hpb & ->).
  unfold pdu_deserialize in G.
  destruct (decodes_step _ _ _ _ _ (Integer_decodes _ _ I1) C1 C2 C3) as (t3 & G1 & _).
  rewrite G1 in G. cbn [bind] in G. apply bind_ok in G as ([v2 ?] & _ & G). apply bind_ok in G as ([v3 ?] & _ & G). apply bind_ok in G as ([vbs ?] & _ & G).
  destruct (is_bulk c).
  - destruct (v2 <? 0); [discriminate|]. destruct (v3 <? 0); [discriminate|]. injection G as <-. reflexivity.
  - apply bind_ok in G as (es & _ & G). destruct (_ || _); [discriminate|]. injection G as <-. reflexivity.
Qed.
