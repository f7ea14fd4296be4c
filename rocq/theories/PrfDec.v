(** PrfDec.v -- framework: a decoder applied to an encoding found anywhere in a
    buffer returns the value and the exact rest. *)
From Verif Require Export PrfAsn1 Pdu.

Definition ad_sub (ad : asn1data) : subbytes := sb_new ad None None.
Definition ad_start (ad : asn1data) : Z := match ad with ABytes _ => 0 | ASub s => sb_start s end.

Lemma ad_sub_data ad : sb_data (ad_sub ad) = ad_data ad. Proof. destruct ad; reflexivity. Qed.
Lemma ad_sub_start ad : sb_start (ad_sub ad) = ad_start ad. Proof. destruct ad; reflexivity. Qed.
Lemma ad_sub_wf ad : ad_wf ad -> sb_wf (ad_sub ad). Proof. intros H; now apply sb_new_ad. Qed.
Lemma ad_sub_view ad : ad_wf ad -> sb_view (ad_sub ad) = ad_view ad. Proof. intros H; now apply sb_new_ad. Qed.
Lemma ad_sub_sub s : ad_sub (ASub s) = s. Proof. destruct s; reflexivity. Qed.

Definition decodes {A} (dec : asn1data -> bool -> res (A * subbytes)) (e : bytes) (x : A) : Prop :=
  forall ad rest lo, ad_wf ad -> bytes_ok (ad_data ad) -> ad_view ad = e ++ rest ->
    (lo = true \/ rest = []) -> dec ad lo = Ok (x, sb_drop (zlen e) (ad_sub ad)).

(** Where the tail of a decoding is. *)
Lemma tail_facts ad e rest : ad_wf ad -> bytes_ok (ad_data ad) -> ad_view ad = e ++ rest ->
  let tl := sb_drop (zlen e) (ad_sub ad) in
  sb_wf tl /\ sb_view tl = rest /\ bytes_ok (sb_data tl) /\ sb_data tl = ad_data ad /\
  sb_start tl = ad_start ad + zlen e.
Proof.
  intros H1 H2 H3 tl. pose proof (ad_sub_wf ad H1) as W.
  assert (V : sb_view (ad_sub ad) = e ++ rest) by (rewrite ad_sub_view; auto).
  destruct (sb_drop_app _ _ _ W V) as [W' V']. unfold tl. split; [auto|]. split; [auto|].
  cbn [sb_drop sb_data sb_start]. rewrite ad_sub_data, ad_sub_start. auto.
Qed.

(** The position-precise body of a TLV. *)
Definition body_sub (ad : asn1data) (e body : bytes) : subbytes :=
  mkSub (ad_data ad) (ad_start ad + (zlen e - zlen body)) (ad_start ad + zlen e).

Lemma ber_decode_at t body e ad rest lo cp : tag_ok t -> ber_encode t body = Ok e ->
  ad_wf ad -> bytes_ok (ad_data ad) -> ad_view ad = e ++ rest -> (lo = true \/ rest = []) ->
  forall ex, (ex = None \/ ex = Some t) ->
  ber_decode ad ex lo cp = Ok (t, body_of cp (body_sub ad e body), sb_drop (zlen e) (ad_sub ad)) /\
  sb_wf (body_sub ad e body) /\ sb_view (body_sub ad e body) = body.
Proof.
  intros Ht He Hw Hok Hv Hlo ex Hex. destruct (sb_new_ad ad Hw) as [W V]. rewrite Hv in V.
  assert (Hok' : bytes_ok (sb_data (sb_new ad None None))) by (destruct ad; exact Hok).
  destruct (ber_decode_encode t body e rest ad _ Ht He eq_refl W Hok' V)
    as (b & tl & Wb & Vb & Wt & Vt & Db & Et & Sb & Tb & Hdec).
  assert (Eb : b = body_sub ad e body).
  { clear Hdec Wb Wt Vt. destruct b as [bd bs bt]. cbn [sb_data sb_start sb_stop] in *. unfold body_sub.
    rewrite Db, Sb, Tb. destruct ad; reflexivity. }
  subst b. split; [|auto]. rewrite Hdec. subst tl.
  assert (E : negb lo && negb (zlen rest =? 0) = false).
  { destruct Hlo as [->| ->]; [reflexivity|]. zl. now rewrite andb_false_r. }
  rewrite E. destruct Hex as [->| ->]; [|rewrite tag_eqb_refl]; reflexivity.
Qed.

Lemma asn1_decode_at {A} t (f : asn1data -> res A) body e ad rest lo cp : tag_ok t -> ber_encode t body = Ok e ->
  ad_wf ad -> bytes_ok (ad_data ad) -> ad_view ad = e ++ rest -> (lo = true \/ rest = []) ->
  asn1_decode t f ad lo cp =
    (do x <- f (body_of cp (body_sub ad e body)); Ok (x, sb_drop (zlen e) (ad_sub ad))) /\
  sb_wf (body_sub ad e body) /\ sb_view (body_sub ad e body) = body.
Proof.
  intros Ht He Hw Hok Hv Hlo.
  destruct (ber_decode_at t body e ad rest lo cp Ht He Hw Hok Hv Hlo (Some t) (or_intror eq_refl)) as (H & W & V).
  split; [|auto]. unfold asn1_decode. rewrite H. reflexivity.
Qed.

Lemma body_of_facts cp ad e body : bytes_ok (ad_data ad) -> sb_wf (body_sub ad e body) ->
  sb_view (body_sub ad e body) = body ->
  let b := body_of cp (body_sub ad e body) in
  ad_wf b /\ bytes_ok (ad_data b) /\ ad_view b = body.
Proof.
  intros Hok W V b. unfold b, body_of. destruct cp; cbn [ad_wf ad_data ad_view].
  - rewrite sb_getslice_all, V by auto. split; [exact I|]. split; [|reflexivity].
    rewrite <- V. apply sb_view_ok. exact Hok.
  - auto.
Qed.

Lemma decodes_tlv {A} t (f : asn1data -> res A) body e x cp : tag_ok t -> ber_encode t body = Ok e ->
  (forall b, ad_wf b -> bytes_ok (ad_data b) -> ad_view b = body -> f b = Ok x) ->
  decodes (fun ad lo => asn1_decode t f ad lo cp) e x.
Proof.
  intros Ht He Hf ad rest lo Hw Hok Hv Hlo.
  destruct (asn1_decode_at t f body e ad rest lo cp Ht He Hw Hok Hv Hlo) as (H & W & V).
  rewrite H. destruct (body_of_facts cp ad e body Hok W V) as (B1 & B2 & B3).
  rewrite (Hf _ B1 B2 B3). reflexivity.
Qed.

Lemma ber_encode_bytes t d e : tag_ok t -> bytes_ok d -> ber_encode t d = Ok e -> bytes_ok e.
Proof.
  intros Ht Hd H. destruct (Z_lt_le_dec (zlen d) (256 ^ 127)) as [Hl|Hl].
  - destruct (ber_encode_ok t d Ht Hd Hl) as (e' & H' & Hok). congruence.
  - unfold ber_encode in H. apply bind_ok in H as (a & _ & H). rewrite encode_length_err in H by auto. discriminate.
Qed.
Lemma ber_encode_nonempty t d e : ber_encode t d = Ok e -> tag_ok t -> 0 < zlen e.
Proof.
  intros H Ht. apply ber_encode_inv in H as (a & b & Ha & Hb & ->). zl.
  pose proof (zlen_nonneg b). pose proof (zlen_nonneg d).
  destruct a as [|x a]; [|zl; pose proof (zlen_nonneg a); lia].
  unfold tag_encode in Ha. apply bind_ok in Ha as ([y arr] & _ & Ha). apply bind_ok in Ha as (z & Hz & Ha).
  injection Ha as Ha. apply py_bytes_inv in Hz as [-> _]. rewrite rev_app_distr in Ha. discriminate.
Qed.
Lemma sequence_tag_ok : tag_ok sequence_tag. Proof. unfold tag_ok; cbn; unfold UNIVERSAL; lia. Qed.
Lemma pdu_tag_ok c : tag_ok (pdu_tag c).
Proof. destruct c; unfold tag_ok; cbn; unfold CONTEXT_SPECIFIC; lia. Qed.

(** ** Primitive fields *)
Lemma Integer_encode_inv v e : Integer_encode v = Ok e ->
  in_int_range Integer32 v /\ ber_encode (int_tag Integer32) (int_content v) = Ok e.
Proof.
  unfold Integer_encode. intros H. apply bind_ok in H as (p & H1 & H2).
  destruct (int_new_spec Integer32 v) as [[R E]|[R E]]; rewrite E in H1; [|discriminate].
  injection H1 as <-. unfold prim_encode in H2. cbn [prim_serialize] in H2. rewrite int_serialize_ok in H2. auto.
Qed.
Lemma Integer_decodes v e : Integer_encode v = Ok e -> decodes Integer_decode e v.
Proof.
  intros H. apply Integer_encode_inv in H as [R He]. intros ad rest lo Hw Hok Hv Hlo.
  unfold Integer_decode, prim_decode.
  pose proof (decodes_tlv (pcls_tag (CInt Integer32)) (prim_deserialize (CInt Integer32)) _ e (PInt Integer32 v) true
    (pcls_tag_ok _) He) as D. cbv beta in D. rewrite (D) with (rest := rest); auto.
  intros b B1 B2 B3. cbn [prim_deserialize]. unfold int_deserialize. rewrite adata_bytes_view, B3, int_content_value by auto.
  destruct (int_construct_spec Integer32 v) as [[_ E]|[N _]]; [exact E|tauto].
Qed.
Lemma Integer_encode_bytes v e : Integer_encode v = Ok e -> bytes_ok e /\ 0 < zlen e.
Proof.
  intros H. apply Integer_encode_inv in H as [R He].
  split; [eapply ber_encode_bytes; eauto using (pcls_tag_ok (CInt Integer32)), int_content_bytes|].
  eapply ber_encode_nonempty; eauto. apply (pcls_tag_ok (CInt Integer32)).
Qed.

Lemma OctetString_encode_inv d e : OctetString_encode d = Ok e ->
  zlen d <= 65535 /\ ber_encode (octets_tag OctetString) d = Ok e.
Proof.
  unfold OctetString_encode. intros H. apply bind_ok in H as (p & H1 & H2). cbn [octets_new] in H1.
  destruct (0xffff <? zlen d) eqn:E; [discriminate|]. injection H1 as <-. split; [lia|exact H2].
Qed.
Lemma OctetString_construct_ok b : zlen (adata_bytes b) <= 65535 ->
  octets_construct OctetString b = Ok (POctets OctetString (adata_bytes b)).
Proof.
  intros H. destruct (octets_construct_spec OctetString b) as [[_ E]|[N _]]; [exact E|]. now elim N.
Qed.
Lemma OctetString_decodes d e : OctetString_encode d = Ok e -> decodes OctetString_decode e d.
Proof.
  intros H. apply OctetString_encode_inv in H as [R He]. intros ad rest lo Hw Hok Hv Hlo.
  unfold OctetString_decode, prim_decode.
  pose proof (decodes_tlv (pcls_tag (COctets OctetString)) (prim_deserialize (COctets OctetString)) _ e (POctets OctetString d) true
    (pcls_tag_ok _) He) as D. cbv beta in D. rewrite (D) with (rest := rest); auto.
  intros b B1 B2 B3. cbn [prim_deserialize]. unfold octets_deserialize.
  rewrite OctetString_construct_ok; rewrite adata_bytes_view, B3 by auto; auto.
Qed.
Lemma OctetString_encode_bytes d e : bytes_ok d -> OctetString_encode d = Ok e -> bytes_ok e /\ 0 < zlen e.
Proof.
  intros Hd H. apply OctetString_encode_inv in H as [R He].
  split; [eapply ber_encode_bytes; eauto using (pcls_tag_ok (COctets OctetString))|].
  eapply ber_encode_nonempty; eauto. apply (pcls_tag_ok (COctets OctetString)).
Qed.

(** Step tactic: [dstep H] uses [H : decodes dec e x] on the next decoding in the
    goal, for the data described by wf/ok/view hypotheses. *)
Lemma decodes_step {A} (dec : asn1data -> bool -> res (A * subbytes)) e x ad rest :
  decodes dec e x -> ad_wf ad -> bytes_ok (ad_data ad) -> ad_view ad = e ++ rest ->
  exists tl, dec ad true = Ok (x, tl) /\ tl = sb_drop (zlen e) (ad_sub ad) /\
    ad_wf (ASub tl) /\ bytes_ok (ad_data (ASub tl)) /\ ad_view (ASub tl) = rest /\
    sb_data tl = ad_data ad /\ sb_start tl = ad_start ad + zlen e.
Proof.
  intros D H1 H2 H3. destruct (tail_facts ad e rest H1 H2 H3) as (W & V & O & Da & S).
  eexists. split; [apply (D ad rest true); auto|]. split; [reflexivity|]. auto.
Qed.
Lemma decodes_last {A} (dec : asn1data -> bool -> res (A * subbytes)) e x ad :
  decodes dec e x -> ad_wf ad -> bytes_ok (ad_data ad) -> ad_view ad = e ->
  exists tl, dec ad false = Ok (x, tl).
Proof. intros D H1 H2 H3. eexists. apply (D ad [] false); auto. now rewrite app_nil_r. Qed.

Lemma decodes_bytes {A} (dec : asn1data -> bool -> res (A * subbytes)) e x rest :
  decodes dec e x -> bytes_ok (e ++ rest) ->
  exists tail, dec (ABytes (e ++ rest)) true = Ok (x, tail) /\ sb_getslice tail None None = rest.
Proof.
  intros D H. destruct (decodes_step dec e x (ABytes (e ++ rest)) rest D I H eq_refl) as (tl & E & _ & W & _ & V & _).
  exists tl. split; [exact E|]. cbn in W, V. now rewrite sb_getslice_all.
Qed.
Lemma join_inv a l b : join_encodings (a :: l) = Ok b ->
  exists x y, a = Ok x /\ join_encodings l = Ok y /\ b = x ++ y.
Proof.
  cbn [join_encodings]. intros H. apply bind_ok in H as (x & H1 & H). apply bind_ok in H as (y & H2 & H).
  injection H as <-. eauto.
Qed.
Lemma join_nil b : join_encodings [] = Ok b -> b = [].
Proof. intros H; injection H as <-; reflexivity. Qed.
