(** PropertiesRepr.v -- C72: what is printed; C73: what wait() returns is
    well-formed; C74: the text of an error. *)
From Verif Require Import PrfBase PrfRepr PropertiesUsm PropertiesMsg PropertiesProc PropertiesMgr PrfMgr3i PropertiesMgr3 PrfHear PrfHear2 PrfMgr3e PrfMgr3d PropertiesHear.
From Verif Require Import SpecUse SpecRepr.
From Coq Require Import String.
Arguments text _%string.
Open Scope Z_scope.

(** * C72 *)
Lemma octets_split l : Forall printable l -> Forall vb_octets l /\ Forall vb_class l.
Proof.
  intros H. split; eapply Forall_impl; try exact H; intros v [A B]; [exact A|exact B].
Qed.
(** print(response): what wait() returns is a VarBindList. *)
Theorem C72_print : forall a b, Forall printable a -> Forall printable b -> vblist_str a = vblist_str b -> a = b.
Proof.
  intros a b A B E. apply octets_split in A as [A1 A2], B as [B1 B2]. apply same_text_eq; auto.
  exact (toString_same a [] b A1 B1 E).
Qed.
Print Assumptions C72_print.
Theorem C72_repr : forall a b, Forall made_of_octets a -> Forall made_of_octets b -> vblist_repr a = vblist_repr b -> a = b.
Proof.
  intros a b A B E. apply (f_equal (fun x => x ++ [])) in E. now apply vblist_repr_cancel in E as [E _].
Qed.
Print Assumptions C72_repr.
(** The same for a PDU. *)
Theorem C72_pdu_print : forall p q, Forall printable (pdu_vbs p) -> Forall printable (pdu_vbs q) -> pdu_fields_ok p -> pdu_fields_ok q ->
  pdu_str p = pdu_str q -> p = q.
Proof.
  intros p q A B (_ & _ & _ & F) (_ & _ & _ & G) E. apply octets_split in A as [A1 A2], B as [B1 B2].
  assert (C : pdu_cls p = pdu_cls q).
  { assert (H : forall x, exists t, pdu_str x = pdu_name (pdu_cls x) ++ 58 :: t).
    { intros x. unfold pdu_str, pdu_toString. destruct (is_bulk (pdu_cls x)); cbn [join_text repeat_text]; rewrite <- ?app_assoc; eexists; reflexivity. }
    destruct (H p) as (t & Hp). destruct (H q) as (t' & Hq). rewrite Hp, Hq in E.
    apply (cancel letter) in E as [E _]; auto using pdu_letters; [now apply pdu_name_inj| |]; cbn; unfold letter; lia. }
  destruct (toString_cancel p q 0 (text "    ") C) as (E1 & E2 & E3 & E4); auto.
  { rewrite <- C in G. intros NB. destruct (pdu_cls p); try discriminate NB; lia. }
  apply same_text_eq in E4; auto. destruct p, q. cbn in *. now subst.
Qed.
Print Assumptions C72_pdu_print.
Theorem C72_pdu_repr : forall p q, Forall made_of_octets (pdu_vbs p) -> Forall made_of_octets (pdu_vbs q) -> pdu_repr p = pdu_repr q -> p = q.
Proof. exact pdu_repr_inj. Qed.
Print Assumptions C72_pdu_repr.
(** Every binding that was decoded is printable. *)
Lemma wf_printable l : Forall vb_wf l -> Forall printable l.
Proof.
  intros H. eapply Forall_impl; [|exact H]. intros [n p] (_ & PC & IN). unfold printable, made_of_octets, plain_oid. cbn in *.
  split; destruct p as [c v|c d|c|c o]; auto; cbn in *; [tauto|]. destruct c; [|reflexivity].
  repeat (destruct IN as [IN|IN]; [discriminate|]). destruct IN.
Qed.
(** The documentation's example (docs/source/getting_started.rst:118-119), and an
    octet string whose text has quotes, a backslash and control characters. *)
Definition ex_contact : list varbind :=
  [mkVarBind [1;3;6;1;2;1;1;4;0] (POctets OctetString (text "Me <me@example.org>"));
   mkVarBind [1;3;6;1;2;1;1;6;0] (POctets OctetString (text "Sitting on the Dock of the Bay"))].
Example C72_example : Forall printable ex_contact /\ Forall made_of_octets ex_contact /\
  vblist_str ex_contact = text "1.3.6.1.2.1.1.4.0: OctetString(b'Me <me@example.org>')" ++ [10] ++
    text "1.3.6.1.2.1.1.6.0: OctetString(b'Sitting on the Dock of the Bay')".
Proof.
  split; [|split].
  - apply Forall_cons; [|apply Forall_cons; [|apply Forall_nil]]; (split; [|exact Logic.I]); apply octets; vm_compute; reflexivity.
  - apply Forall_cons; [|apply Forall_cons; [|apply Forall_nil]]; apply octets; vm_compute; reflexivity.
  - vm_compute. reflexivity.
Qed.
Example C72_example_escapes :
  bytes_repr [39] = [98; 34; 39; 34] (* b"'" *) /\
  bytes_repr [39; 34; 92; 10; 0; 255] = text "b'\'" ++ [34] ++ text "\\\n\x00\xff'" /\
  vblist_repr [mkVarBind [1;3] (POid OID [1;2]); mkVarBind [1;3;0] (PInt Integer32 (-5)); mkVarBind [] (POctets IpAddress [10;0;0;1])] =
    text "VarBindList(VarBind(OID(1, 3), OID(1, 2)), VarBind(OID(1, 3, 0), Integer32(-5)), VarBind(OID(), IpAddress('10.0.0.1')))".
Proof. vm_compute. auto. Qed.
Example C72_pdu_example : let p := mkPDU ResponsePDU 13 5 1 ex_contact in
  Forall printable (pdu_vbs p) /\ pdu_fields_ok p /\
  pdu_str p = text "ResponsePDU:" ++ [10] ++ text "    Request ID: 13" ++ [10] ++ text "    Error Status: genErr" ++ [10] ++ text "    Error Index: 1" ++ [10] ++
    text "    Variable Bindings:" ++ [10] ++ text "        1.3.6.1.2.1.1.4.0: OctetString(b'Me <me@example.org>')" ++ [10] ++
    text "        1.3.6.1.2.1.1.6.0: OctetString(b'Sitting on the Dock of the Bay')".
Proof.
  cbv zeta. split; [apply C72_example|]. split; [|vm_compute; reflexivity].
  vm_compute. repeat split; intros; discriminate.
Qed.

(** * C73 *)
(** v1 and v2c: in every history. *)
Theorem C73_returned : forall V rnd clk evs s l r vbs, V = proc_v1 \/ V = proc_v2c -> m1_run V rnd clk evs = (s, l) -> (forall d, In (MReceive d) evs -> bytes_ok d) ->
  In (LOutcome r (OReturned vbs)) l -> Forall vb_wf vbs.
Proof.
  intros V rnd clk evs s l r vbs PV E BY B. destruct (C44_outcome_partial V rnd clk evs s l r _ E B) as (m & _ & (d & IN & DE & _) & _ & ->).
  assert (T : exists types, vp_types V = pdu_types types) by (destruct PV as [->| ->]; eexists; reflexivity).
  destruct T as (types & T). rewrite T in DE. now destruct (C17_message_decode_ok types d m (BY d IN) DE) as ((_ & _ & _ & _ & W) & _).
Qed.
Print Assumptions C73_returned.
Theorem C73_error : forall V rnd clk evs s l r status index c, V = proc_v1 \/ V = proc_v2c -> m1_run V rnd clk evs = (s, l) -> (forall d, In (MReceive d) evs -> bytes_ok d) ->
  In (LOutcome r (OErrorResponse status index c)) l -> 1 <= status <= 18 /\ 0 <= index.
Proof.
  intros V rnd clk evs s l r status index c PV E BY B. destruct (C44_outcome_partial V rnd clk evs s l r _ E B) as (m & _ & (d & IN & DE & CL & _) & -> & N & -> & _).
  assert (T : exists types, vp_types V = pdu_types types) by (destruct PV as [->| ->]; eexists; reflexivity).
  destruct T as (types & T). rewrite T in DE. destruct (C17_message_decode_ok types d m (BY d IN) DE) as ((_ & _ & _ & (_ & _ & _ & F) & _) & _).
  rewrite CL in F. lia.
Qed.
Print Assumptions C73_error.

(** v3: the plaintext of an encrypted message is decoded too. *)
Lemma incoming_wf C R u d m0 ts m sc : crypto_ok C -> bytes_ok d ->
  (forall e n l p, getCredentials (us_users u) e n = Ok l -> lc_priv l = Some p -> priv_ok p) ->
  v3_decode (ABytes d) = Ok m0 -> snd (usm_processIncoming C R u m0 ts) = Ok m -> v3_scoped m = Some sc -> scoped_wf sc.
Proof.
  intros CO BD PO DE IN SC.
  destruct (v3_decode_ok (ABytes d) m0) as (WF & _ & _ & sb & EP & WS & DS); auto; [exact Logic.I|]. cbn in DS.
  destruct WF as (_ & _ & WF).
  assert (PLAIN : v3_scoped m0 = Some sc -> scoped_wf sc).
  { intros X. destruct (sl_priv _).
    - destruct WF as [WF _]. congruence.
    - destruct WF as (_ & s & E & SW). congruence. }
  unfold usm_processIncoming in IN. destruct (params_decode (v3_params m0)) as [sp|ex] eqn:PD; [|discriminate].
  rewrite EP in PD. destruct (params_decode_ok sb sp WS) as (PK & _); auto. { now rewrite DS. }
  cbn [v3_header v3_scoped v3_encrypted v3_params] in IN.
  destruct (negb (fl_auth _)). { cbn [snd] in IN. injection IN as <-. cbn [v3_scoped] in SC. auto. }
  destruct (getCredentials _ _ _) as [lc|x] eqn:GC; [|destruct x; discriminate].
  destruct (lc_auth lc) as [[alg key]|]; [|discriminate].
  destruct (fl_priv _ && _); [discriminate|]. destruct (negb (_ =? _)); [discriminate|].
  destruct (up_index sp), (up_whole sp); try discriminate. destruct (negb (zlist_eqb _ _)); [discriminate|].
  destruct (updateAndVerify _ _ _ _ _ _) as [t ok]. destruct (negb ok); [discriminate|].
  destruct (fl_priv (h_flags (v3_header m0))) eqn:FP.
  - cbn [snd] in IN. destruct (lc_priv lc) as [pv|] eqn:LP; [|discriminate]. destruct (v3_encrypted m0) as [ct|] eqn:EN; [|discriminate].
    assert (BC : bytes_ok ct).
    { unfold fl_priv in FP. rewrite FP in WF. destruct WF as (_ & c & E & OC). assert (c = ct) by congruence. subst c. apply OC. }
    destruct (priv_decrypt _ _ _ _ _ _) as [pt|ex] eqn:DC; [|cbn in IN; destruct (is_ValueError ex); discriminate].
    cbn [bind] in IN. unfold v3_set_plaintext in IN. destruct (scoped_decode (ABytes pt) true) as [[sc1 tl]|ex] eqn:SD; [|cbn in IN; destruct (is_ValueError ex); discriminate].
    cbn in IN. injection IN as <-. cbn [v3_scoped fst] in SC. injection SC as <-.
    refine (scoped_decode_ok (ABytes pt) true sc1 tl Logic.I _ SD). cbn.
    eapply decrypt_bytes; [exact CO|eapply PO; eauto|exact BC| |exact DC].
    apply PK.
  - cbn [snd] in IN. injection IN as <-. cbn [v3_scoped] in SC. auto.
Qed.
Lemma pushed_wf W h0 evs s l h m sc : world_after W h0 -> crypto_ok (w_crypto W) -> Forall event_ok evs -> (forall d, In (VReceive d) evs -> bytes_ok d) ->
  history W evs s l -> In (WPushed h m) l -> v3_scoped m = Some sc -> scoped_wf sc.
Proof.
  intros (F0 & U0 & D0 & D1) CO EV BY HI PU SC.
  destruct (heard_run W evs s l HI) as [_ HE]. destruct (HE h m PU) as (before & d & after & s1 & l1 & u & -> & R1 & PR).
  apply prepared in PR as (m0 & DE & IN).
  assert (EB : Forall event_ok before) by (apply Forall_app in EV; tauto).
  pose proof (told_run W h0 F0 U0 D0 D1 before before EB (fun x H => H) s1 l1 R1) as T.
  eapply (incoming_wf (w_crypto W) (w_ticks W) (v_usm s1) d m0 _ m sc CO); [apply BY, in_or_app; right; now left| |exact DE|exact IN|exact SC].
  intros e n lc p G P. destruct (told_key _ _ _ (ok_hash _ CO) _ _ _ _ _ T G) as (_ & _ & _ & _ & _ & _ & _ & _ & cr & _ & _ & _ & LO).
  exact (proj1 (proj2 (C37_localised (w_crypto W) cr e lc lc p (ok_hash _ CO) LO LO) P)).
Qed.
Lemma response_pushed W evs s l r m : history W evs s l -> In (WResponse r m) l -> exists h, In (WPushed h m) l.
Proof.
  intros HI IN. destruct (history_new W _ s l HI) as (s0 & NEW & RUN).
  pose proof (match_run _ _ _ _ _ _ _ _ _ _ _ _ _ _ NEW RUN) as [_ _ _ _ MR]. destruct (MR r m IN) as (h & sc & P & _). exists h. exact P.
Qed.
Theorem C73_v3_returned : forall W h0 evs s l r vbs, world_after W h0 -> crypto_ok (w_crypto W) -> Forall event_ok evs -> (forall d, In (VReceive d) evs -> bytes_ok d) ->
  history W evs s l -> In (WOutcome r (VReturned vbs)) l -> Forall vb_wf vbs.
Proof.
  intros W h0 evs s l r vbs WA CO EV BY HI OUT. destruct (C44_v3_cases_partial W evs s l r _ HI OUT) as (m & sc & RE & SC & _ & ->).
  destruct (response_pushed W evs s l r m HI RE) as (h & PU). now destruct (pushed_wf W h0 evs s l h m sc WA CO EV BY HI PU SC) as (_ & _ & _ & X).
Qed.
Print Assumptions C73_v3_returned.
Theorem C73_v3_error : forall W h0 evs s l r status index c, world_after W h0 -> crypto_ok (w_crypto W) -> Forall event_ok evs -> (forall d, In (VReceive d) evs -> bytes_ok d) ->
  history W evs s l -> In (WOutcome r (VErrorResponse status index c)) l -> 1 <= status <= 18 /\ 0 <= index.
Proof.
  intros W h0 evs s l r status index c WA CO EV BY HI OUT. destruct (C44_v3_cases_partial W evs s l r _ HI OUT) as (m & sc & RE & SC & -> & N & -> & _).
  destruct (history_new W _ s l HI) as (s0 & NEW & RUN). pose proof (match_run _ _ _ _ _ _ _ _ _ _ _ _ _ _ NEW RUN) as [_ _ MP _ MR].
  destruct (MR r m RE) as (h & sc' & PU & _ & SC' & CL). assert (sc' = sc) as -> by congruence.
  destruct (MP h m PU) as (sc' & e & SC'' & IR & _). assert (sc' = sc) as -> by congruence.
  destruct (pushed_wf W h0 evs s l h m sc WA CO EV BY HI PU SC) as (_ & _ & (_ & _ & _ & F) & _). destruct (pdu_cls (sp_pdu sc)); try discriminate IR; [lia|congruence].
Qed.
Print Assumptions C73_v3_error.
(** The hypotheses are met: an answer and an error over v2c, an answer over v3. *)
Definition ex_prompt (status : Z) : list event1 :=
  [MCall ex_pdu [112] 10 20; MStep 0; MReceive (ex_reply status); MStep 0; MWait 0; MStep 0; MStep 0; MStep 0; MStep 0; MStep 0; MStep 0; MStep 0].
Example C73_example : forall status, status = 0 \/ status = 5 ->
  let evs := ex_prompt status in let sl := m1_run proc_v2c ex_rnd (ex_clk [0; 0; 1]) evs in
  (forall d, In (MReceive d) evs -> bytes_ok d) /\
  In (LOutcome 0 (if status =? 0 then OReturned ex_vbs else OErrorResponse 5 0 (error_cause 0 (rq_pdu (the_request (fst sl) 0))))) (snd sl) /\ ex_vbs <> [].
Proof.
  intros status [->| ->]; cbv zeta; (split; [|split; [vm_compute; auto|discriminate]]); intros d IN; apply octets;
    (repeat (destruct IN as [IN|IN]; [try discriminate IN; injection IN as <-; vm_compute; reflexivity|])); destruct IN.
Qed.
Example C73_v3_example : let W := ex_world [0] None in exists s l vbs, world_after W ex_history /\ crypto_ok (w_crypto W) /\ Forall event_ok ex_answered3 /\
  (forall d, In (VReceive d) ex_answered3 -> bytes_ok d) /\ history W ex_answered3 s l /\ In (WOutcome 0 (VReturned vbs)) l /\ vbs <> [].
Proof.
  destruct C68_example as (s & l & vbs & H1 & H2 & _ & H4 & H5 & H6 & _ & H8 & H9). exists s, l, vbs. auto 9.
Qed.
(** So what is printed of two responses tells them apart, whatever was received. *)
Theorem C72_returned : forall V rnd clk evs s l r vbs V' rnd' clk' evs' s' l' r' vbs',
  V = proc_v1 \/ V = proc_v2c -> V' = proc_v1 \/ V' = proc_v2c ->
  m1_run V rnd clk evs = (s, l) -> (forall d, In (MReceive d) evs -> bytes_ok d) -> In (LOutcome r (OReturned vbs)) l ->
  m1_run V' rnd' clk' evs' = (s', l') -> (forall d, In (MReceive d) evs' -> bytes_ok d) -> In (LOutcome r' (OReturned vbs')) l' ->
  vblist_str vbs = vblist_str vbs' -> vbs = vbs'.
Proof.
  intros V rnd clk evs s l r vbs V' rnd' clk' evs' s' l' r' vbs' PV PV' R B O R' B' O' E.
  apply C72_print; [apply wf_printable; exact (C73_returned _ _ _ _ _ _ _ _ PV R B O)|apply wf_printable; exact (C73_returned _ _ _ _ _ _ _ _ PV' R' B' O')|exact E].
Qed.
Print Assumptions C72_returned.
Theorem C72_v3_returned : forall W h0 evs s l r vbs W' h0' evs' s' l' r' vbs',
  world_after W h0 -> crypto_ok (w_crypto W) -> Forall event_ok evs -> (forall d, In (VReceive d) evs -> bytes_ok d) -> history W evs s l -> In (WOutcome r (VReturned vbs)) l ->
  world_after W' h0' -> crypto_ok (w_crypto W') -> Forall event_ok evs' -> (forall d, In (VReceive d) evs' -> bytes_ok d) -> history W' evs' s' l' -> In (WOutcome r' (VReturned vbs')) l' ->
  vblist_str vbs = vblist_str vbs' -> vbs = vbs'.
Proof.
  intros W h0 evs s l r vbs W' h0' evs' s' l' r' vbs' A1 A2 A3 A4 A5 A6 B1 B2 B3 B4 B5 B6 E.
  apply C72_print; [apply wf_printable; exact (C73_v3_returned W h0 evs s l r vbs A1 A2 A3 A4 A5 A6)|apply wf_printable; exact (C73_v3_returned W' h0' evs' s' l' r' vbs' B1 B2 B3 B4 B5 B6)|exact E].
Qed.
Print Assumptions C72_v3_returned.

(** * C74 *)
Theorem C74_text : forall status index request, 0 <= index ->
  error_str status index request = Ok (status_name status ++ match blamed index request with Some n => text ": " ++ oid_str n | None => [] end).
Proof.
  intros status index request I. unfold error_str, error_cause, blamed. destruct (Z.eqb_spec index 0) as [->|N]; [reflexivity|].
  destruct (Z.leb_spec index 0) as [L|L]; [lia|]. destruct (Z.ltb_spec (index - 1) (zlen (pdu_vbs request))) as [B|B].
  - destruct (py_index_ok (pdu_vbs request) (index - 1)) as (v & NE & ->); [lia|]. rewrite NE. reflexivity.
  - rewrite py_index_ge by lia. assert (nth_error (pdu_vbs request) (Z.to_nat (index - 1)) = None) as ->; [|reflexivity].
    apply nth_error_None. unfold zlen in B. lia.
Qed.
Print Assumptions C74_text.
(** The text of an error tells its status and the name of the variable. *)
Theorem C74_tells : forall st i q st' i' q' t, 0 <= st <= 18 -> 0 <= st' <= 18 -> 0 <= i -> 0 <= i' ->
  error_str st i q = Ok t -> error_str st' i' q' = Ok t -> st = st' /\ blamed i q = blamed i' q'.
Proof.
  intros st i q st' i' q' t S S' I I' E E'. rewrite C74_text in E, E' by easy. injection E as E. injection E' as E'. rewrite <- E' in E. clear E' t.
  assert (ST : forall n, stops letter (match n with Some n => text ": " ++ oid_str n | None => [] end)).
  { intros [n|]; [|exact Logic.I]. cbn. unfold letter. lia. }
  apply (cancel letter) in E as [ES E]; auto using status_letters. apply status_inj in ES; auto. split; [exact ES|].
  destruct (blamed i q) as [n|], (blamed i' q') as [n'|]; [injection E as E|discriminate E|discriminate E|reflexivity]. f_equal.
  unfold oid_str in E. rewrite !join_dot_text in E. apply (f_equal (fun x => x ++ [])) in E.
  apply join_same in E as [E _]; [exact E| | | | |].
  - exists 46, []. split; [reflexivity|unfold number; lia].
  - exact Logic.I.
  - exact Logic.I.
  - intros x X. discriminate X.
  - intros x X. discriminate X.
Qed.
Print Assumptions C74_tells.
(** What wait() raises, in every history: the index comes from the agent, and
    need not be that of a variable of the request. *)
Theorem C74_raised : forall V rnd clk evs s l r status index c, V = proc_v1 \/ V = proc_v2c -> m1_run V rnd clk evs = (s, l) -> (forall d, In (MReceive d) evs -> bytes_ok d) ->
  In (LOutcome r (OErrorResponse status index c)) l ->
  error_str status index (rq_pdu (the_request s r)) = Ok (status_name status ++
    match blamed index (rq_pdu (the_request s r)) with Some n => text ": " ++ oid_str n | None => [] end).
Proof. intros V rnd clk evs s l r status index c PV E BY B. apply C74_text. now destruct (C73_error V rnd clk evs s l r status index c PV E BY B). Qed.
Print Assumptions C74_raised.
Theorem C74_v3_raised : forall W h0 evs s l r status index c, world_after W h0 -> crypto_ok (w_crypto W) -> Forall event_ok evs -> (forall d, In (VReceive d) evs -> bytes_ok d) ->
  history W evs s l -> In (WOutcome r (VErrorResponse status index c)) l ->
  error_str status index (q_pdu (request3 s r)) = Ok (status_name status ++
    match blamed index (q_pdu (request3 s r)) with Some n => text ": " ++ oid_str n | None => [] end).
Proof. intros W h0 evs s l r status index c A1 A2 A3 A4 A5 B. apply C74_text. now destruct (C73_v3_error W h0 evs s l r status index c A1 A2 A3 A4 A5 B). Qed.
Print Assumptions C74_v3_raised.
Example C74_example : let q := mkPDU SetRequestPDU 13 0 0 ex_contact in
  error_str 17 2 q = Ok (text "notWritable: 1.3.6.1.2.1.1.6.0") /\ error_str 5 0 q = Ok (text "genErr") /\ error_str 5 3 q = Ok (text "genErr") /\
  blamed 2 q = Some [1;3;6;1;2;1;1;6;0] /\ blamed 3 q = None.
Proof. vm_compute. auto. Qed.
