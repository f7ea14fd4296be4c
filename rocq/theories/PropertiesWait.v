(** PropertiesWait.v -- C64: what wait() of the SNMPv1 and SNMPv2c managers can
    raise. *)
From Verif Require Import PropertiesMsg PropertiesMgr PrfMgr1g.

(** * C64 *)
(** sendRequest() is given a new PDU (request ID 0) and a period that is positive;
    so are other managers of the same Engine. *)
Definition regular_calls (evs : list event1) : Prop :=
  (forall p community timeout period, In (MCall p community timeout period) evs -> pdu_requestID p = 0 /\ 0 < period) /\
  (forall p community, In (MOther p community) evs -> pdu_requestID p = 0).
(** No message failed to be sent. *)
Definition no_send_failed (l : list log1) : Prop := forall q e, ~ In (LSendFailed q e) l.
(** The full property. *)
Definition C64_statement : Prop := forall V rnd clk evs s l r e,
  draws_ok gen_v1 rnd -> regular_calls evs -> m1_run V rnd clk evs = (s, l) -> no_send_failed l ->
  In (LOutcome r (ORaised e)) l -> e = Timeout.

Definition ex_answer (id : Z) : bytes :=
  match message_encode (mkMessage SNMPv2c [112] (mkPDU ResponsePDU id 0 0 ex_vbs)) with Ok b => b | Raise _ => [] end.
Definition ex_pair : list event1 :=
  [MCall ex_pdu [112] 10 20; MStep 0; MCall ex_pdu [112] 10 20; MStep 0; MReceive (ex_answer 13); MStep 0; MReceive (ex_answer 26); MStep 0].
(** Thread A calls wait() for request 0: it sees that there are requests left and
    is interrupted before it takes the lock.  Thread B calls wait() for request 1:
    it removes both requests, which have been answered, from the heap. *)
Definition ex_race : list event1 :=
  ex_pair ++ [MWait 0; MStep 0; MStep 0] ++ [MWait 1; MStep 1; MStep 1; MStep 1; MStep 1; MStep 1; MStep 1] ++ [MStep 0].
(** Two calls of wait() for one request. *)
Definition ex_twice : list event1 :=
  ex_pair ++ [MWait 0; MStep 0; MStep 0; MStep 0; MStep 0; MStep 0; MStep 0; MStep 0; MStep 0; MStep 0] ++
             [MWait 0; MStep 0; MStep 0; MStep 0; MStep 0; MStep 0; MStep 0].
Lemma ex_pdu_regular evs : (forall x, In x evs -> match x with MCall p _ _ period => p = ex_pdu /\ period = 20 | MOther p _ => p = ex_pdu | _ => True end) -> regular_calls evs.
Proof.
  intros H. split.
  - intros p c t per I. destruct (H _ I) as [-> ->]. split; [reflexivity|lia].
  - intros p c I. rewrite (H _ I). reflexivity.
Qed.
Lemma failed_none l : existsb (fun x => match x with LSendFailed _ _ => true | _ => false end) l = false -> no_send_failed l.
Proof.
  intros E q e I. rewrite (proj2 (existsb_exists _ _)) in E; [discriminate|]. exists (LSendFailed q e). split; [exact I|reflexivity].
Qed.
Lemma ex_rnd_ok : draws_ok gen_v1 ex_rnd.
Proof. intros k. unfold ex_rnd. cbn. lia. Qed.

Lemma ex_race_regular : regular_calls ex_race.
Proof.
  apply ex_pdu_regular. apply Forall_forall. unfold ex_race, ex_pair, app.
  repeat (apply Forall_cons; [first [exact Logic.I|split; reflexivity]|]). apply Forall_nil.
Qed.
Lemma ex_twice_regular : regular_calls ex_twice.
Proof.
  apply ex_pdu_regular. apply Forall_forall. unfold ex_twice, ex_pair, app.
  repeat (apply Forall_cons; [first [exact Logic.I|split; reflexivity]|]). apply Forall_nil.
Qed.
(** IndexError, although the request has been answered and wait() is called once
    for each request. *)
Theorem C64_refuted : ~ C64_statement.
Proof.
  intros H. set (sl := m1_run proc_v2c ex_rnd (ex_clk [0]) ex_race).
  assert (X : In (LOutcome 0 (ORaised IndexError)) (snd sl)) by (vm_compute; left; reflexivity).
  assert (N : no_send_failed (snd sl)).
  { apply failed_none. vm_compute. reflexivity. }
  specialize (H _ _ _ _ _ _ _ _ ex_rnd_ok ex_race_regular (surjective_pairing sl) N X). clear - H. discriminate H.
Qed.
Print Assumptions C64_refuted.

Lemma ex_twice_one before q after : ex_twice = before ++ MWait q :: after -> m1_tasks (fst (m1_run proc_v2c ex_rnd (ex_clk [0]) before)) = [].
Proof.
  intros E. assert (F : firstn (length before) ex_twice = before) by (rewrite E, firstn_app, Nat.sub_diag, firstn_all; apply app_nil_r).
  assert (G : nth_error ex_twice (length before) = Some (MWait q)) by (rewrite E, nth_error_app2, Nat.sub_diag by lia; reflexivity).
  rewrite <- F. clear E F. remember (length before) as n eqn:EN. clear EN before after.
  assert (N : (n = 8)%nat \/ (n = 18)%nat).
  { do 26 (destruct n as [|n]; [cbv in G; first [discriminate G|auto]|]). cbv in G. destruct n; discriminate G. }
  destruct N as [-> | ->]; vm_compute; reflexivity.
Qed.
(** Even if only one thread uses the manager: the second wait() for a request
    raises AssertionError. *)
Theorem C64_twice_refuted : ~ (forall V rnd clk evs s l r e,
  draws_ok gen_v1 rnd -> regular_calls evs -> m1_run V rnd clk evs = (s, l) -> no_send_failed l ->
  (forall before q after, evs = before ++ MWait q :: after -> m1_tasks (fst (m1_run V rnd clk before)) = []) ->
  In (LOutcome r (ORaised e)) l -> e = Timeout).
Proof.
  intros H. set (sl := m1_run proc_v2c ex_rnd (ex_clk [0]) ex_twice).
  assert (X : In (LOutcome 0 (ORaised AssertionError)) (snd sl)) by (vm_compute; left; reflexivity).
  assert (N : no_send_failed (snd sl)).
  { apply failed_none. vm_compute. reflexivity. }
  specialize (H _ _ _ _ _ _ _ _ ex_rnd_ok ex_twice_regular (surjective_pairing sl) N ex_twice_one X). clear - H. discriminate H.
Qed.
Print Assumptions C64_twice_refuted.

(** wait() is called when sendRequest() has returned and no other wait() is going
    on, and once for each request. *)
Definition in_wait (t : task1) : Prop := match t with TSend _ | TPush _ _ => False | _ => True end.
Definition one_wait_at_a_time (V : v12) (rnd clk : nat -> Z) (evs : list event1) : Prop :=
  forall before r after, evs = before ++ MWait r :: after ->
    (forall t, In t (m1_tasks (fst (m1_run V rnd clk before))) -> ~ in_wait t) /\
    (forall o, ~ In (LOutcome r o) (snd (m1_run V rnd clk before))) /\
    exists t again w, In (LSent r t again w) (snd (m1_run V rnd clk before)).
(** No call of sendRequest() raised anything but OSError. *)
Definition requests_sent (V : v12) (rnd clk : nat -> Z) (evs : list event1) : Prop :=
  forall before x after n q e, evs = before ++ x :: after -> x = MStep n \/ x = MFail n ->
    let s := fst (m1_run V rnd clk before) in
    nth_error (m1_tasks s) n = Some (TSend q) -> snd (m1_step V rnd clk s x) = [LSendFailed q e] -> e = OSError.
(** The system sends what it is given. *)
Definition network_up (evs : list event1) : Prop := forall n, ~ In (MFail n) evs.

Lemma send_failed V rnd clk net s n q l : nth_error (m1_tasks s) n = Some (TSend q) -> l = snd (run_task V rnd clk net s n) ->
  forall q' e, In (LSendFailed q' e) l -> l = [LSendFailed q e] /\ e <> OSError \/ l = [LSendFailed q e] /\ net = false.
Proof.
  intros NT EQ q' e IN. unfold run_task in EQ. rewrite NT in EQ. cbn [task1_step] in EQ.
  destruct (heappush _ _ _ _) as [lq h']. cbn [tick1] in EQ. destruct (reallySend1 _ _ _ _ _ _) as [s3 w] eqn:RS. cbn [snd] in EQ. subst l.
  destruct IN as [IN|[]]. destruct w as [b|e']; cbn [sent_log] in *; [discriminate|]. injection IN as -> ->. destruct net; [|auto].
  left. split; [auto|]. unfold reallySend1 in RS. destruct (v12_prepareOutgoing _ _ _ _ _ _ _) as [o w] eqn:PO. injection RS as _ RS.
  destruct w as [b|e']; cbn [bind] in RS; [discriminate|]. injection RS as <-. intros ->. unfold v12_prepareOutgoing in PO.
  assert (Q : forall m, message_encode m <> Raise OSError) by apply quiet_message.
  destruct (_ =? 0).
  - destruct (cache _ _ _ _) as [c [id|e]] eqn:CE; [|injection PO as _ PO; unfold cache in CE; apply loop_fail_iff in CE; destruct CE as (CE & _); congruence].
    destruct (negb _); injection PO as _ PO; [now apply Q in PO|discriminate].
  - injection PO as _ PO. now apply Q in PO.
Qed.
Lemma polite_run V rnd clk F evs : regular_calls evs -> one_wait_at_a_time V rnd clk evs -> requests_sent V rnd clk evs ->
  (F = false -> network_up evs) -> polite V rnd clk F evs.
Proof.
  intros [RC RC'] OW RS UP before x after E.
  assert (IN : In x evs) by (rewrite E; apply in_or_app; right; now left).
  destruct x as [p c t per|r|d|r|n|n|p c]; cbn [polite_step]; try exact Logic.I.
  - now apply (RC p c t per).
  - destruct (OW before r after E) as (A & B & C). split; [|auto]. intros t I. specialize (A t I). destruct t; cbn in *; tauto.
  - intros q NT (q' & e & FS & N). destruct (send_failed V rnd clk true _ n q _ NT eq_refl _ _ FS) as [[X Y]|[_ X]]; [|discriminate].
    apply Y. exact (RS before (MStep n) after n q e E (or_introl eq_refl) NT X).
  - assert (F = true) as -> by (destruct F; [auto|]; exfalso; exact (UP eq_refl n IN)). split; [auto|].
    intros q NT (q' & e & FS & N). apply N. split; [auto|].
    destruct (send_failed V rnd clk false _ n q _ NT eq_refl _ _ FS) as [[X _]|[X _]]; exact (RS before (MFail n) after n q e E (or_intror eq_refl) NT X).
  - now apply (RC' p c).
Qed.
Theorem C64_sequential_partial : forall V rnd clk evs s l,
  draws_ok gen_v1 rnd -> regular_calls evs -> m1_run V rnd clk evs = (s, l) ->
  one_wait_at_a_time V rnd clk evs -> requests_sent V rnd clk evs -> network_up evs ->
  (forall r e, In (LOutcome r (ORaised e)) l -> e = Timeout) /\ no_send_failed l.
Proof.
  intros V rnd clk evs s l HR RC R OW RS UP. pose proof (polite_run V rnd clk false evs RC OW RS (fun _ => UP)) as P.
  pose proof (seq1_run V rnd clk HR false evs s l P R) as [_ _ _ _ _ _ F X]. split.
  - intros r e I. destruct (X r e I) as [Y|[Y _]]; [exact Y|discriminate].
  - intros q e I. apply F. exists q, e. split; [exact I|]. intros [Y _]. discriminate.
Qed.
Print Assumptions C64_sequential_partial.
(** If the system may refuse to send: OSError as well, and then something was
    refused. *)
Theorem C64_network_partial : forall V rnd clk evs s l,
  draws_ok gen_v1 rnd -> regular_calls evs -> m1_run V rnd clk evs = (s, l) ->
  one_wait_at_a_time V rnd clk evs -> requests_sent V rnd clk evs ->
  (forall r e, In (LOutcome r (ORaised e)) l -> e = Timeout \/ e = OSError /\ exists q, In (LSendFailed q OSError) l) /\
  (forall q e, In (LSendFailed q e) l -> e = OSError).
Proof.
  intros V rnd clk evs s l HR RC R OW RS. pose proof (polite_run V rnd clk true evs RC OW RS ltac:(discriminate)) as P.
  pose proof (seq1_run V rnd clk HR true evs s l P R) as [_ _ _ _ _ _ F X]. split.
  - intros r e I. destruct (X r e I) as [Y|[_ Y]]; [auto|]. right. split; [exact Y|]. subst e.
    destruct (C44_outcome_partial V rnd clk evs s l r _ R I) as [Z|[Z|[Z|Z]]]; [discriminate..|exact Z].
  - intros q e I. destruct (exc_eqb e OSError) eqn:E.
    + destruct e; try discriminate E. reflexivity.
    + exfalso. apply F. exists q, e. split; [exact I|]. intros [_ ->]. discriminate E.
Qed.
Print Assumptions C64_network_partial.

(** Non-trivial instance: two requests, and one of another manager; the first is
    answered, the second is sent again, and times out. *)
Definition ex_clk64 : nat -> Z := ex_clk [0; 0; 0; 0; 0; 1; 1; 1; 1; 21; 21; 30; 101].
Definition ex_sequence : list event1 :=
  [MCall ex_pdu [112] 100 20; MStep 0; MCall ex_pdu [112] 100 20; MStep 0; MOther ex_pdu [112]] ++
  [MWait 0; MStep 0; MStep 0; MStep 0; MReceive (ex_answer 13); MStep 1; MStep 0; MStep 0; MStep 0] ++
  [MWait 1; MStep 0; MStep 0; MStep 0; MStep 0; MStep 0; MStep 0; MStep 0; MStep 0; MStep 0; MStep 0; MStep 0; MStep 0; MStep 0; MStep 0].
(** The second is not sent again: the system refuses. *)
Definition ex_refused : list event1 :=
  [MCall ex_pdu [112] 100 20; MStep 0; MCall ex_pdu [112] 100 20; MStep 0; MOther ex_pdu [112]] ++
  [MWait 0; MStep 0; MStep 0; MStep 0; MReceive (ex_answer 13); MStep 1; MStep 0; MStep 0; MStep 0] ++
  [MWait 1; MStep 0; MStep 0; MStep 0; MStep 0; MStep 0; MStep 0; MStep 0; MStep 0; MFail 0].
Definition waits_ok (evs : list event1) (k : nat) : bool :=
  match nth_error evs k with
  | Some (MWait r) =>
    let '(s, l) := m1_run proc_v2c ex_rnd ex_clk64 (firstn k evs) in
    match m1_tasks s with [] => true | _ => false end &&
    forallb (fun x => match x with LOutcome r' _ => negb (Nat.eqb r r') | _ => true end) l &&
    existsb (fun x => match x with LSent r' _ _ _ => Nat.eqb r r' | _ => false end) l
  | _ => true
  end.
Definition sends_ok (evs : list event1) (k : nat) : bool :=
  match nth_error evs k with
  | Some x =>
    let s := fst (m1_run proc_v2c ex_rnd ex_clk64 (firstn k evs)) in
    match x, m1_tasks s with
    | MStep 0, TSend _ :: _ | MFail 0, TSend _ :: _ => match snd (m1_step proc_v2c ex_rnd ex_clk64 s x) with [LSendFailed _ _] => false | _ => true end
    | MStep n, ts | MFail n, ts => match nth_error ts n with Some (TSend _) => false | _ => true end
    | _, _ => true
    end
  | None => true
  end.
Lemma split_at evs before (x : event1) after : evs = before ++ x :: after -> firstn (length before) evs = before /\ nth_error evs (length before) = Some x.
Proof.
  intros ->. split; [rewrite firstn_app, Nat.sub_diag, firstn_all; apply app_nil_r|]. rewrite nth_error_app2, Nat.sub_diag by lia. reflexivity.
Qed.
Lemma waits_one evs : forallb (waits_ok evs) (seq 0 (length evs)) = true -> one_wait_at_a_time proc_v2c ex_rnd ex_clk64 evs.
Proof.
  intros H before r after E. destruct (split_at _ _ _ _ E) as [FN NE]. assert (LT : (length before < length evs)%nat) by (apply nth_error_Some; congruence).
  pose proof (proj1 (forallb_forall _ _) H (length before) (proj2 (in_seq (length evs) 0 (length before)) ltac:(lia))) as X.
  unfold waits_ok in X. rewrite NE, FN in X. destruct (m1_run proc_v2c ex_rnd ex_clk64 before) as [s l]. cbn [fst snd].
  apply andb_prop in X as [X X3]. apply andb_prop in X as [X1 X2]. split; [|split].
  - destruct (m1_tasks s); [intros t []|discriminate].
  - intros o IN. apply (proj1 (forallb_forall _ _) X2) in IN. rewrite Nat.eqb_refl in IN. discriminate.
  - apply existsb_exists in X3 as (y & IN & Y). destruct y; try discriminate. apply Nat.eqb_eq in Y. subst. eauto.
Qed.
Lemma sends_sent evs : forallb (sends_ok evs) (seq 0 (length evs)) = true -> requests_sent proc_v2c ex_rnd ex_clk64 evs.
Proof.
  intros H before x after n q e E RU s NT ST. destruct (split_at _ _ _ _ E) as [FN NE]. assert (LT : (length before < length evs)%nat) by (apply nth_error_Some; congruence).
  pose proof (proj1 (forallb_forall _ _) H (length before) (proj2 (in_seq (length evs) 0 (length before)) ltac:(lia))) as X.
  unfold sends_ok in X. rewrite NE, FN in X. fold s in X. exfalso. destruct n as [|n].
  - destruct (m1_tasks s) as [|t ts]; [discriminate|]. cbn [nth_error] in NT. injection NT as ->. destruct RU as [-> | ->]; rewrite ST in X; discriminate.
  - destruct RU as [-> | ->]; destruct (m1_tasks s) as [|t ts]; [discriminate| |discriminate|]; rewrite NT in X; destruct t; discriminate.
Qed.
Lemma ex_regular64 evs : (forall p c t per, In (MCall p c t per) evs -> p = ex_pdu /\ per = 20) -> (forall p c, In (MOther p c) evs -> p = ex_pdu) -> regular_calls evs.
Proof.
  intros H H'. apply ex_pdu_regular. intros x I. destruct x; auto; [now apply (H _ _ _ _ I)|now apply (H' _ _ I)].
Qed.
Lemma ex_sequence_regular : regular_calls ex_sequence.
Proof.
  apply ex_regular64; intros p c; [intros t per|]; unfold ex_sequence; cbn [app In]; intros I;
    repeat (destruct I as [I|I]; [first [discriminate I|injection I; intros; subst; auto]|]); destruct I.
Qed.
Lemma ex_refused_regular : regular_calls ex_refused.
Proof.
  apply ex_regular64; intros p c; [intros t per|]; unfold ex_refused; cbn [app In]; intros I;
    repeat (destruct I as [I|I]; [first [discriminate I|injection I; intros; subst; auto]|]); destruct I.
Qed.
Example C64_example : draws_ok gen_v1 ex_rnd /\ regular_calls ex_sequence /\ network_up ex_sequence /\
  one_wait_at_a_time proc_v2c ex_rnd ex_clk64 ex_sequence /\ requests_sent proc_v2c ex_rnd ex_clk64 ex_sequence /\
  exists m w w0 w1, snd (m1_run proc_v2c ex_rnd ex_clk64 ex_sequence) =
    [LOutcome 1 (ORaised Timeout); LBlocked 1 (Some 10); LSent 1 21 true w; LBlocked 1 (Some 19); LOutcome 0 (OReturned ex_vbs); LPushed 0 m; LBlocked 0 (Some 19);
     LSent 1 0 false w1; LSent 0 0 false w0] /\ w = w1 /\ w <> w0.
Proof.
  split; [exact ex_rnd_ok|]. split; [exact ex_sequence_regular|]. split.
  { intros n I. unfold ex_sequence in I. cbn [app In] in I. repeat (destruct I as [I|I]; [discriminate I|]). destruct I. }
  split; [apply waits_one; vm_compute; reflexivity|]. split; [apply sends_sent; vm_compute; reflexivity|].
  do 4 eexists. split; [vm_compute; reflexivity|]. split; [reflexivity|discriminate].
Qed.
Example C64_network_example : regular_calls ex_refused /\
  one_wait_at_a_time proc_v2c ex_rnd ex_clk64 ex_refused /\ requests_sent proc_v2c ex_rnd ex_clk64 ex_refused /\
  exists l, snd (m1_run proc_v2c ex_rnd ex_clk64 ex_refused) = LOutcome 1 (ORaised OSError) :: LSendFailed 1 OSError :: l.
Proof.
  split; [exact ex_refused_regular|]. split; [apply waits_one; vm_compute; reflexivity|]. split; [apply sends_sent; vm_compute; reflexivity|].
  eexists. vm_compute. reflexivity.
Qed.
