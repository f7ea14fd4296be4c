(** PropertiesEq.v -- C65: when values, variable bindings and PDUs are equal. *)
From Verif Require Import PrfBase PrfBer PrfCodec PrfPduDec PrfMsgProps PropertiesCodec PropertiesMsg SpecPdu.

(** * Equality is equality of what it looks at *)
Lemma prim_eqb_refl a : prim_eqb a a = true.
Proof. destruct a; cbn; rewrite ?Z.eqb_refl, ?tag_eqb_refl, ?PrfBase.zlist_eqb_refl; reflexivity. Qed.
Lemma prim_eqb_spec a b : prim_eqb a b = true <->
  pcls_tag (prim_cls a) = pcls_tag (prim_cls b) /\
  match a, b with
  | PInt _ v, PInt _ v' => v = v' | POctets _ d, POctets _ d' => d = d' | PNull _, PNull _ => True | POid _ l, POid _ l' => l = l' | _, _ => False
  end.
Proof.
  destruct a, b; cbn; rewrite ?andb_true_iff, ?Z.eqb_eq, ?tag_eqb_eq, ?PrfBase.zlist_eqb_eq; try (split; [discriminate|now intros [_ []]]); try tauto.
Qed.
Lemma prim_eqb_sym a b : prim_eqb a b = true -> prim_eqb b a = true.
Proof. rewrite !prim_eqb_spec. intros [E H]. split; [auto|]. destruct a, b; auto. Qed.
Lemma prim_eqb_trans a b c : prim_eqb a b = true -> prim_eqb b c = true -> prim_eqb a c = true.
Proof. rewrite !prim_eqb_spec. intros [E H] [F G]. split; [congruence|]. destruct a, b, c; try tauto; congruence. Qed.
Lemma varbind_eqb_spec a b : varbind_eqb a b = true <-> vb_name a = vb_name b /\ prim_eqb (vb_value a) (vb_value b) = true.
Proof. unfold varbind_eqb. rewrite andb_true_iff. cbn [prim_eqb]. now rewrite PrfBase.zlist_eqb_eq. Qed.
Lemma vblist_eqb_spec : forall a b, vblist_eqb a b = true <-> Forall2 (fun x y => varbind_eqb x y = true) a b.
Proof.
  induction a as [|x a IH]; intros [|y b]; cbn [vblist_eqb].
  - split; constructor.
  - split; [discriminate|intros H; inversion H].
  - split; [discriminate|intros H; inversion H].
  - rewrite andb_true_iff, IH. split; [intros [A B]; now constructor|intros H; inversion H; auto].
Qed.
Lemma pducls_eqb_spec a b : pducls_eqb a b = true <-> a = b.
Proof. destruct a, b; vm_compute; split; congruence. Qed.
Lemma pdu_eqb_spec a b : pdu_eqb a b = true <->
  pdu_cls a = pdu_cls b /\ pdu_requestID a = pdu_requestID b /\ pdu_a a = pdu_a b /\ pdu_b a = pdu_b b /\
  Forall2 (fun x y => varbind_eqb x y = true) (pdu_vbs a) (pdu_vbs b).
Proof. unfold pdu_eqb. rewrite !andb_true_iff, !Z.eqb_eq, pducls_eqb_spec, vblist_eqb_spec. tauto. Qed.
Lemma varbind_eqb_refl a : varbind_eqb a a = true.
Proof. rewrite varbind_eqb_spec. split; [auto|apply prim_eqb_refl]. Qed.
Lemma varbind_eqb_sym a b : varbind_eqb a b = true -> varbind_eqb b a = true.
Proof. rewrite !varbind_eqb_spec. intros [A B]. split; [auto|now apply prim_eqb_sym]. Qed.
Lemma varbind_eqb_trans a b c : varbind_eqb a b = true -> varbind_eqb b c = true -> varbind_eqb a c = true.
Proof. rewrite !varbind_eqb_spec. intros [A B] [C D]. split; [congruence|now apply (prim_eqb_trans _ _ _ B)]. Qed.
Lemma pdu_eqb_refl a : pdu_eqb a a = true.
Proof. rewrite pdu_eqb_spec. do 4 (split; [auto|]). induction (pdu_vbs a); constructor; auto. apply varbind_eqb_refl. Qed.
Lemma pdu_eqb_sym a b : pdu_eqb a b = true -> pdu_eqb b a = true.
Proof.
  rewrite !pdu_eqb_spec. intros (A & B & C & D & E). do 4 (split; [auto|]). revert E. generalize (pdu_vbs a) (pdu_vbs b). clear.
  induction 1; constructor; auto. now apply varbind_eqb_sym.
Qed.
Lemma pdu_eqb_trans a b c : pdu_eqb a b = true -> pdu_eqb b c = true -> pdu_eqb a c = true.
Proof.
  rewrite !pdu_eqb_spec. intros (A & B & C & D & E) (A1 & B1 & C1 & D1 & E1). do 4 (split; [congruence|]).
  clear - E E1. revert E1. revert E. generalize (pdu_vbs a) (pdu_vbs b) (pdu_vbs c). clear.
  intros l m n H. revert n. induction H as [|x y l m X H IH]; intros n E1; inversion E1; subst; constructor; [|auto].
  eapply varbind_eqb_trans; eauto.
Qed.

(** * C65: == on values, variable bindings and PDUs *)
Theorem C65_equivalence :
  (forall a, prim_eqb a a = true) /\ (forall a b, prim_eqb a b = prim_eqb b a) /\
  (forall a b c, prim_eqb a b = true -> prim_eqb b c = true -> prim_eqb a c = true) /\
  (forall p, pdu_eqb p p = true) /\ (forall p q, pdu_eqb p q = pdu_eqb q p) /\
  (forall p q r, pdu_eqb p q = true -> pdu_eqb q r = true -> pdu_eqb p r = true) /\
  (forall v, varbind_eqb v v = true) /\ (forall v w, varbind_eqb v w = varbind_eqb w v) /\
  (forall u v w, varbind_eqb u v = true -> varbind_eqb v w = true -> varbind_eqb u w = true).
Proof.
  assert (S : forall (A : Type) (f : A -> A -> bool), (forall a b, f a b = true -> f b a = true) -> forall a b, f a b = f b a).
  { intros A f H a b. destruct (f a b) eqn:E; [symmetry; now apply H|]. destruct (f b a) eqn:F; [|reflexivity]. apply H in F. congruence. }
  split; [exact prim_eqb_refl|]. split; [apply S, prim_eqb_sym|]. split; [exact prim_eqb_trans|].
  split; [exact pdu_eqb_refl|]. split; [apply S, pdu_eqb_sym|]. split; [exact pdu_eqb_trans|].
  split; [exact varbind_eqb_refl|]. split; [apply S, varbind_eqb_sym|]. exact varbind_eqb_trans.
Qed.
Print Assumptions C65_equivalence.

(** The SNMP type of a class (RFC 2578: Unsigned32 and Gauge32 have one tag; the
    ASN.1 types and the SNMP types that only restrict them are the same). *)
Definition snmp_type (c : pcls) : pcls :=
  match c with
  | CInt INTEGER => CInt Integer32 | CInt Unsigned32 => CInt Gauge32
  | COctets OCTET_STRING => COctets OctetString | COid OBJECT_IDENTIFIER => COid OID | c => c
  end.
Definition same_content (a b : prim) : Prop :=
  match a, b with
  | PInt _ v, PInt _ v' => v = v' | POctets _ d, POctets _ d' => d = d' | PNull _, PNull _ => True | POid _ l, POid _ l' => l = l' | _, _ => False
  end.
(** Equal means: the same type and the same content.  (A Counter32 is never equal
    to a Gauge32, noSuchObject never to noSuchInstance.) *)
Theorem C65_meaning : forall a b, prim_eqb a b = true <-> snmp_type (prim_cls a) = snmp_type (prim_cls b) /\ same_content a b.
Proof.
  assert (T : forall a b, match a, b with PInt _ _, PInt _ _ | POctets _ _, POctets _ _ | PNull _, PNull _ | POid _ _, POid _ _ => True | _, _ => False end ->
    (pcls_tag (prim_cls a) = pcls_tag (prim_cls b) <-> snmp_type (prim_cls a) = snmp_type (prim_cls b))).
  { intros [c v|c v|c|c v] [d w|d w|d|d w] [];
    destruct c, d; vm_compute; split; congruence. }
  intros a b. rewrite prim_eqb_spec. unfold same_content. specialize (T a b). destruct a, b; first [tauto|rewrite T by exact I; reflexivity].
Qed.
Print Assumptions C65_meaning.
Theorem C65_meaning_pdu : forall p q, pdu_eqb p q = true <->
  pdu_cls p = pdu_cls q /\ pdu_requestID p = pdu_requestID q /\ pdu_a p = pdu_a q /\ pdu_b p = pdu_b q /\
  Forall2 (fun v w => vb_name v = vb_name w /\ prim_eqb (vb_value v) (vb_value w) = true) (pdu_vbs p) (pdu_vbs q).
Proof.
  intros p q. rewrite pdu_eqb_spec. assert (X : forall l m, Forall2 (fun x y => varbind_eqb x y = true) l m <->
    Forall2 (fun v w => vb_name v = vb_name w /\ prim_eqb (vb_value v) (vb_value w) = true) l m).
  { intros l m. split; intros H; induction H; constructor; auto; now apply varbind_eqb_spec. }
  now rewrite X.
Qed.
Print Assumptions C65_meaning_pdu.

(** Equal objects are encoded alike ... *)
Lemma equal_encode a b : prim_eqb a b = true -> prim_encode a = prim_encode b.
Proof.
  rewrite prim_eqb_spec. intros [E H]. unfold prim_encode. rewrite E. f_equal. destruct a, b; try easy; cbn [prim_serialize]; congruence.
Qed.
Lemma equal_encode_vb v w : varbind_eqb v w = true -> varbind_encode v = varbind_encode w.
Proof.
  rewrite varbind_eqb_spec. intros [E H]. apply equal_encode in H. unfold varbind_encode, varbind_serialize. now rewrite E, H.
Qed.
Lemma equal_encode_vbs l m : Forall2 (fun x y => varbind_eqb x y = true) l m -> map varbind_encode l = map varbind_encode m.
Proof. induction 1 as [|x y l m H _ IH]; [auto|]. cbn. now rewrite (equal_encode_vb _ _ H), IH. Qed.
Theorem C65_equal_encode :
  (forall a b, prim_eqb a b = true -> prim_encode a = prim_encode b) /\
  (forall v w, varbind_eqb v w = true -> varbind_encode v = varbind_encode w) /\
  (forall p q, pdu_eqb p q = true -> pdu_encode p = pdu_encode q).
Proof.
  split; [exact equal_encode|]. split; [exact equal_encode_vb|]. intros p q. rewrite pdu_eqb_spec. intros (A & B & C & D & E).
  unfold pdu_encode, pdu_serialize. rewrite A, B, C, D. unfold vblist_encode, vblist_serialize. now rewrite (equal_encode_vbs _ _ E).
Qed.
Print Assumptions C65_equal_encode.

(** ... and objects that are encoded alike are equal: false of the code, because
    it encodes the object identifiers 1.8 and 1.0 alike (C07). *)
Definition C65_statement : Prop := forall a b e, prim_constructible a -> prim_constructible b ->
  prim_encode a = Ok e -> prim_encode b = Ok e -> prim_eqb a b = true.
Theorem C65_refuted : ~ C65_statement.
Proof.
  intros H. assert (X : prim_eqb (POid OID [1;8]) (POid OID [1;0]) = true).
  { apply (H _ _ [6;1;40]); vm_compute; reflexivity. }
  discriminate X.
Qed.
Print Assumptions C65_refuted.
Lemma ber_encode_short t d e : ber_encode t d = Ok e -> zlen d < 256 ^ 127.
Proof.
  unfold ber_encode. intros H. destruct (Z_lt_ge_dec (zlen d) (256 ^ 127)) as [L|L]; [exact L|].
  rewrite (encode_length_err (zlen d)) in H by lia. destruct (tag_encode t); discriminate H.
Qed.
Lemma ber_encode_inj t d t' d' e : tag_ok t -> tag_ok t' -> bytes_ok d -> bytes_ok d' ->
  ber_encode t d = Ok e -> ber_encode t' d' = Ok e -> t = t' /\ d = d'.
Proof.
  intros [T1 T2] [T1' T2'] B B' E E'. pose proof (ber_encode_short _ _ _ E). pose proof (ber_encode_short _ _ _ E').
  destruct (C03_tlv_roundtrip t d [] None false false T1 T2 B (bytes_ok_nil) H) as (x & X & R & _).
  destruct (C03_tlv_roundtrip t' d' [] None false false T1' T2' B' (bytes_ok_nil) H0) as (x' & X' & R' & _).
  rewrite E in X. rewrite E' in X'. injection X as <-. injection X' as <-.
  destruct (R (or_introl eq_refl) (or_intror eq_refl)) as (b1 & l1 & D1 & A1 & _).
  destruct (R' (or_introl eq_refl) (or_intror eq_refl)) as (b2 & l2 & D2 & A2 & _).
  rewrite D1 in D2. injection D2 as -> -> _. split; congruence.
Qed.

Lemma ber_encode_body t d e : ber_encode t d = Ok e -> bytes_ok e -> bytes_ok d.
Proof.
  unfold ber_encode. destruct (tag_encode t) as [a|]; [|discriminate]. destruct (encode_length (zlen d)) as [b|]; [|discriminate]. cbn [bind].
  intros E. injection E as <-. rewrite !bytes_ok_app. tauto.
Qed.
Definition encoded_faithfully (a : prim) : Prop := match a with POid _ l => oid_faithful l | _ => True end.
Lemma serialize_ok a b : prim_constructible a -> prim_serialize a = Ok b -> bytes_ok b.
Proof.
  destruct a as [c v|c d|c|c l]; cbn [prim_constructible prim_serialize].
  - intros _ E. destruct (C05_integer_exact v) as (x & X & B & _). congruence.
  - intros [B _] E. congruence.
  - intros _ E. injection E as <-. apply bytes_ok_nil.
  - intros N E. apply oid_new_ok in N. destruct (oid_serialize_spec c l N) as (x & X & B & _). congruence.
Qed.
Theorem C65_encode_equal_partial :
  (forall a b e, prim_constructible a -> prim_constructible b -> encoded_faithfully a -> encoded_faithfully b ->
     prim_encode a = Ok e -> prim_encode b = Ok e -> prim_eqb a b = true) /\
  (forall v w e, vb_ok v -> vb_ok w -> varbind_encode v = Ok e -> varbind_encode w = Ok e -> varbind_eqb v w = true) /\
  (forall p q e, pdu_ok p -> pdu_ok q -> pdu_encode p = Ok e -> pdu_encode q = Ok e -> pdu_eqb p q = true).
Proof.
  split; [|split].
  - intros a b e CA CB FA FB EA EB. unfold prim_encode in EA, EB.
    destruct (prim_serialize a) as [da|] eqn:SA; [|discriminate]. destruct (prim_serialize b) as [db|] eqn:SB; [|discriminate]. cbn [bind] in EA, EB.
    assert (TK : forall c, tag_ok (pcls_tag c)) by (intros [c|c|c|c]; destruct c; vm_compute; repeat split; discriminate).
    destruct (ber_encode_inj _ _ _ _ _ (TK _) (TK _) (serialize_ok _ _ CA SA) (serialize_ok _ _ CB SB) EA EB) as [T D]. subst db.
    apply prim_eqb_spec. split; [exact T|].
    destruct a as [c v|c v|c|c v], b as [d w|d w|d|d w]; try (exfalso; revert T; destruct c, d; vm_compute; discriminate).
    + cbn [prim_serialize] in SA, SB. destruct (C05_integer_exact v) as (x & X & _ & _ & V & _). destruct (C05_integer_exact w) as (y & Y & _ & _ & W & _). congruence.
    + cbn in SA, SB. congruence.
    + exact Logic.I.
    + cbn [prim_serialize prim_constructible encoded_faithfully] in *. destruct FA as [LA FA], FB as [LB FB].
      destruct (C07_oid_roundtrip_partial OBJECT_IDENTIFIER v LA) as (x & X & _ & R); [apply oid_new_ok; eapply oid_valid_weaken; apply oid_new_ok; eassumption|].
      destruct (C07_oid_roundtrip_partial OBJECT_IDENTIFIER w LB) as (y & Y & _ & S); [apply oid_new_ok; eapply oid_valid_weaken; apply oid_new_ok; eassumption|].
      rewrite SA in X. rewrite SB in Y. injection X as <-. injection Y as <-. apply R in FA. apply S in FB. congruence.
  - intros v w e V W EV EW.
    destruct (C13_varbind_roundtrip_partial v e [] V EV bytes_ok_nil) as (v' & t1 & D1 & _ & _ & Q1).
    destruct (C13_varbind_roundtrip_partial w e [] W EW bytes_ok_nil) as (w' & t2 & D2 & _ & _ & Q2).
    rewrite D1 in D2. injection D2 as <- _. eapply varbind_eqb_trans; [exact Q1|]. now apply varbind_eqb_sym.
  - intros p q e P Q EP EQ. assert (C : pdu_cls p = pdu_cls q).
    { pose proof EP as EP0. unfold pdu_encode in EP, EQ. destruct (pdu_serialize p) as [dp|] eqn:SP; [|discriminate]. destruct (pdu_serialize q) as [dq|] eqn:SQ; [|discriminate]. cbn [bind] in EP, EQ.
      apply pducls_eqb_spec. apply tag_eqb_eq. assert (TK : forall c, tag_ok (pdu_tag c)) by (intros c; destruct c; vm_compute; repeat split; discriminate).
      destruct (pdu_encode_bytes p e P EP0) as [BE _].
      exact (proj1 (ber_encode_inj _ _ _ _ _ (TK _) (TK _) (ber_encode_body _ _ _ EP BE) (ber_encode_body _ _ _ EQ BE) EP EQ)). }
    destruct (C14_pdu_roundtrip_partial p e [] P EP bytes_ok_nil) as (p' & t1 & D1 & _ & _ & Q1).
    destruct (C14_pdu_roundtrip_partial q e [] Q EQ bytes_ok_nil) as (q' & t2 & D2 & _ & _ & Q2).
    rewrite C, D2 in D1. injection D1 as <- _. eapply pdu_eqb_trans; [exact Q1|]. now apply pdu_eqb_sym.
Qed.
Print Assumptions C65_encode_equal_partial.

(** Non-trivial instances. *)
Example C65_example : prim_eqb (PInt Unsigned32 7) (PInt Gauge32 7) = true /\ prim_eqb (PInt Counter32 7) (PInt Gauge32 7) = false /\
  prim_eqb (POctets OctetString [1;2;3;4]) (POctets IpAddress [1;2;3;4]) = false /\ prim_eqb (PNull NoSuchObject) (PNull NULL) = false /\
  pdu_eqb ex_response (mkPDU ResponsePDU (-2147483648) 2 6 ex_vbs) = true /\ pdu_ok ex_response /\
  pdu_eqb ex_response (mkPDU SetRequestPDU (-2147483648) 2 6 ex_vbs) = false /\
  encoded_faithfully (POid OID [1;3;6;1]) /\ prim_constructible (POid OID [1;3;6;1]).
Proof. repeat (split; [first [exact ex_response_ok|vm_compute; first [reflexivity|lia]|split; [cbn; lia|reflexivity]]|]). vm_compute. reflexivity. Qed.
