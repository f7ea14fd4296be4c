(** PropertiesWire.v -- C60 and C61: the octets of SNMP messages. *)
From Verif Require Import PrfMsgProps PropertiesMsg PrfWire3.

(** [message_wire], [v3_wire], [scoped_wire] and [params_wire] (SpecWire.v) are the
    ASN.1 modules of the RFCs under X.690; strict = true are the forms allowed to
    a sender, strict = false those a receiver has to understand. *)

(** * C60: what the library sends is what the standards prescribe (false of the
    code, because of C07) *)
(** A message as the user can build it: like [message_ok], without the
    restriction to OIDs that the code encodes faithfully. *)
Definition oid_any (l : list Z) : Prop := oid_new OID l = Ok l /\ (2 <= length l)%nat.
Definition message_any (types : list pducls) (m : message) : Prop :=
  (m_version m = SNMPv1 \/ m_version m = SNMPv2c) /\ octets_ok (m_community m) /\
  In (pdu_cls (m_pdu m)) types /\ pdu_fields_ok (m_pdu m) /\
  Forall (fun v => oid_any (vb_name v) /\ prim_constructible (vb_value v) /\
    match vb_value v with
    | PInt INTEGER _ | POctets OCTET_STRING _ | POid OBJECT_IDENTIFIER _ => False
    | POid OID l => oid_any l
    | _ => True
    end) (pdu_vbs (m_pdu m)).
Definition C60_statement : Prop := forall m e, message_any v2_pdus m -> message_encode m = Ok e -> message_wire true e m.
Lemma element_strict_inv e cls c n body : element true e cls c n body -> (length body < 128)%nat -> 0 <= n < 31 ->
  e = (64 * cls + (if c then 32 else 0) + n) :: Z.of_nat (length body) :: body.
Proof.
  intros (ident & len & HI & HL & -> & S) LB HN. destruct (S eq_refl) as [L1 SH]. unfold shortest in SH.
  destruct (Z.of_nat (length body) <? 128) eqn:X; [|lia]. subst len.
  destruct HI as [cls c n H1 H2|cls c highs low H1 H2 H3]; [reflexivity|]. cbn in L1. rewrite app_length in L1. cbn in L1. lia.
Qed.
Lemma oid_contents_first x body a b arcs : oid_contents (x :: body) (a :: b :: arcs) -> 0 <= x < 128 -> 0 <= b < 40 -> x = 40 * a + b.
Proof.
  intros (a' & b' & arcs' & E & R & SUB) X B. injection E as <- <- <-.
  destruct (subs_first _ _ _ SUB ltac:(lia)) as (rest & EQ & _). congruence.
Qed.
Theorem C60_refuted : ~ C60_statement.
Proof.
  intros H. pose (m := mkMessage SNMPv2c [] (mkPDU GetRequestPDU 1 0 0 [mkVarBind [1; 8] (PNull NULL)])).
  assert (A : message_any v2_pdus m).
  { unfold m, message_any. cbn. split; [auto|]. split; [split; [constructor|unfold zlen; cbn; lia]|]. split; [auto|].
    split; [unfold pdu_fields_ok, int32; cbn; unfold zlen; cbn; lia|]. constructor; [|constructor]. cbn. repeat split; auto. }
  destruct (message_encode m) as [e|] eqn:E; [|vm_compute in E; discriminate].
  specialize (H m e A E).
  destruct H as (e1 & e2 & e3 & EL & W1 & W2 & e4 & e5 & e6 & e7 & EP & P1 & P2 & P3 & (es & EV & F2)).
  cbn [pdu_vbs m m_pdu] in F2. inversion F2 as [|eb ? ? ? (n1 & n2 & EB & (ob & EO & OC) & EN) F2']; subst. inversion F2'; subst. clear F2 F2'.
  cbn [vb_name vb_value value_wire null_type fst snd] in *.
  vm_compute in E. injection E as E.
  assert (LE : (length e <= 30)%nat) by (rewrite <- E; cbn; lia).
  assert (PRE : forall x cls c n b, element true x cls c n b -> (length b <= length x)%nat).
  { intros x cls c n b (i & l & _ & _ & -> & _). rewrite !app_length. lia. }
  pose proof (PRE _ _ _ _ _ EL) as L1. rewrite !app_length in L1. pose proof (PRE _ _ _ _ _ EP) as L2. rewrite !app_length in L2.
  pose proof (PRE _ _ _ _ _ EV) as L3. cbn [concat] in L3. rewrite app_nil_r in L3. pose proof (PRE _ _ _ _ _ EB) as L4. rewrite app_length in L4.
  pose proof (PRE _ _ _ _ _ EO) as L5. pose proof (PRE _ _ _ _ _ EN) as L6.
  (* the library's octets end in 06 01 28 05 00 *)
  assert (END : exists pre, e = pre ++ n1 ++ n2).
  { cbn [concat] in EV. rewrite app_nil_r in EV.
    destruct EL as (i1 & l1 & _ & _ & -> & _). destruct EP as (i2 & l2 & _ & _ & -> & _). destruct EV as (i3 & l3 & _ & _ & -> & _).
    destruct EB as (i4 & l4 & _ & _ & -> & _).
    exists (i1 ++ l1 ++ e1 ++ e2 ++ i2 ++ l2 ++ e4 ++ e5 ++ e6 ++ i3 ++ l3 ++ i4 ++ l4). now rewrite <- !app_assoc. }
  destruct END as (pre & END).
  apply element_strict_inv in EN; [|cbn; lia|lia]. cbn in EN.
  apply element_strict_inv in EO; [|lia|lia]. subst n2 n1.
  (* contents of the name *)
  assert (OB : exists x, ob = [x] /\ 0 <= x < 128).
  { destruct OC as (a' & b' & arcs' & EQ & R & SUB). injection EQ as <- <- <-.
    destruct (subs_first _ _ _ SUB ltac:(lia)) as (rest & -> & _ & SR). inversion SR; subst. exists (40 * 1 + 8). split; [reflexivity|lia]. }
  destruct OB as (x & -> & X). pose proof (oid_contents_first _ _ _ _ _ OC X ltac:(lia)) as ->.
  rewrite <- E in END. apply (f_equal (@rev Z)) in END. rewrite rev_app_distr in END. cbn in END. discriminate END.
Qed.
Print Assumptions C60_refuted.
(** What holds: every message whose OIDs satisfy [oid_faithful] (C07) is encoded
    exactly as prescribed. *)
Theorem C60_message_partial : forall types m e, message_ok types m -> message_encode m = Ok e -> message_wire true e m.
Proof. exact message_encode_wire. Qed.
Print Assumptions C60_message_partial.
Theorem C60_v3_partial : forall m e, v3_ok m -> v3_encode m = Ok e -> v3_wire true e m.
Proof. exact v3_encode_wire. Qed.
Print Assumptions C60_v3_partial.
(** The plaintext that is encrypted when privacy is used. *)
Theorem C60_scoped_partial : forall s e, scoped_ok s -> scoped_encode s = Ok e -> scoped_wire true e s.
Proof. exact scoped_encode_wire. Qed.
Print Assumptions C60_scoped_partial.
Theorem C60_parameters : forall p e, params_ok p -> params_encode p = Ok e -> params_wire true e p.
Proof. exact params_encode_wire. Qed.
Print Assumptions C60_parameters.
Example C60_example :
  let m := mkMessage SNMPv1 [112;117;98;108;105;99] ex_response in
  (message_ok v1_pdus m /\ exists e, message_encode m = Ok e) /\ (v3_ok ex_v3 /\ exists e, v3_encode ex_v3 = Ok e).
Proof. exact (conj C16_example (proj1 C18_example)). Qed.

(** * C61: what the standards allow to arrive is understood as what it means *)
Theorem C61_message : forall strict types m e, bytes_ok e -> message_wire strict e m -> message_wf types m ->
  message_decode (pdu_types types) (ABytes e) = Ok m /\ version_decode (ABytes e) = Ok (m_version m).
Proof. exact message_wire_exact. Qed.
Print Assumptions C61_message.
Theorem C61_v3 : forall strict m e, bytes_ok e -> v3_wire strict e m -> v3_wf m ->
  exists m', v3_decode (ABytes e) = Ok m' /\ v3_header m' = v3_header m /\ v3_scoped m' = v3_scoped m /\
    v3_encrypted m' = v3_encrypted m /\ adata_bytes (v3_params m') = adata_bytes (v3_params m).
Proof. exact v3_wire_exact. Qed.
Print Assumptions C61_v3.
(** The security parameters, wherever they are in the message. *)
Theorem C61_parameters : forall strict before e after p, bytes_ok (before ++ e ++ after) -> params_wire strict e p -> params_ok p ->
  exists p', params_decode (ASub (mkSub (before ++ e ++ after) (zlen before) (zlen before + zlen e))) = Ok p' /\
    up_engineID p' = up_engineID p /\ up_boots p' = up_boots p /\ up_time p' = up_time p /\
    up_userName p' = up_userName p /\ up_signature p' = up_signature p /\ up_salt p' = up_salt p.
Proof.
  intros strict before e after p O W P. eapply params_wire_decode; eauto; [eapply sb_wf_mid|eapply sb_view_mid]; reflexivity.
Qed.
Print Assumptions C61_parameters.
(** A message in an unusual form: lengths with superfluous octets, an identifier
    in the long form, a padded integer. *)
Definition ex_loose : list Z :=
  [48; 131; 0; 0; 30; 2; 1; 1; 4; 129; 1; 99; 162; 21; 2; 2; 0; 7; 31; 2; 1; 0; 2; 1; 0; 48; 129; 7; 48; 5; 6; 1; 43; 5; 0].
Definition ex_loose_message : message :=
  mkMessage SNMPv2c [99] (mkPDU ResponsePDU 7 0 0 [mkVarBind [1; 3] (PNull NULL)]).
Ltac elt i l := exists i, l; split; [|split; [|split; [reflexivity|discriminate]]].
Ltac low cls c n := (apply (ident_low cls c n); lia).
Ltac len_s := (cbn; apply length_short; lia).
Ltac len_l ds := (cbn; apply (length_long ds); [cbn; lia|repeat constructor; lia]).
Ltac intw body i l tag := exists body; split; [elt i l; [tag|len_s]|]; split; [repeat constructor; unfold octet; lia|]; split; [discriminate|]; split; [reflexivity|discriminate].
Example C61_example : bytes_ok ex_loose /\ message_wire false ex_loose ex_loose_message /\ message_wf v2_pdus ex_loose_message /\
  ~ message_wire true ex_loose ex_loose_message.
Proof.
  split; [unfold ex_loose; repeat constructor; lia|]. split; [|split].
  - exists [2;1;1], [4;129;1;99], [162; 21; 2; 2; 0; 7; 31; 2; 1; 0; 2; 1; 0; 48; 129; 7; 48; 5; 6; 1; 43; 5; 0].
    split; [elt [48] [131;0;0;30]; [low 0 true 16|len_l [0;0;30]]|].
    split; [intw [1] [2] [1] ltac:(low 0 false 2)|].
    split; [split; [elt [4] [129;1]; [low 0 false 4|len_l [1]]|repeat constructor; unfold octet; lia]|].
    exists [2;2;0;7], [31;2;1;0], [2;1;0], [48; 129; 7; 48; 5; 6; 1; 43; 5; 0].
    split; [elt [162] [21]; [low 2 true 2|len_s]|].
    split; [intw [0;7] [2] [2] ltac:(low 0 false 2)|].
    split; [intw [0] [31;2] [1] ltac:(apply (ident_high 0 false [] 2); [lia|constructor|lia])|].
    split; [intw [0] [2] [1] ltac:(low 0 false 2)|].
    exists [[48; 5; 6; 1; 43; 5; 0]]. split; [elt [48] [129;7]; [low 0 true 16|len_l [7]]|].
    constructor; [|constructor]. exists [6;1;43], [5;0]. split; [elt [48] [5]; [low 0 true 16|len_s]|].
    split; [|elt [5] [0]; [low 0 false 5|len_s]].
    exists [43]. split; [elt [6] [1]; [low 0 false 6|len_s]|].
    exists 1, 3, []. split; [reflexivity|]. split; [left; lia|]. apply (sub_more [] 43 [] []); [constructor|discriminate|lia|constructor].
  - split; [right; reflexivity|]. split; [split; [repeat constructor; lia|unfold zlen; cbn; lia]|]. split; [cbn; auto|].
    split; [unfold pdu_fields_ok, int32; cbn; unfold zlen; cbn; lia|]. constructor; [|constructor].
    split; [reflexivity|]. split; [exact Logic.I|]. cbn. auto.
  - intros (e1 & e2 & e3 & (i & l & HI & HL & EQ & S) & _). destruct (S eq_refl) as [L1 SH].
    assert (B : (length (e1 ++ e2 ++ e3) < 128)%nat).
    { apply (f_equal (@length Z)) in EQ. rewrite !app_length in EQ. rewrite !app_length. cbn in EQ. lia. }
    unfold shortest in SH. destruct (Z.of_nat (length (e1 ++ e2 ++ e3)) <? 128) eqn:X; [|lia]. subst l.
    destruct i as [|x [|]]; try discriminate L1. cbn [app] in EQ. unfold ex_loose in EQ. injection EQ as _ EQ _. lia.
Qed.
