(** PrfApi.v -- the request methods: texts, PDUs, and what is sent. *)
From Verif Require Export PrfMgr1e SpecWire.
From Verif Require Import PrfOid PrfAsn1 PrfMsgProps PropertiesMsg PropertiesWire PrfWire3.

Lemma fold_digits s : forall a, fold_left (fun a c => a * 10 + (c - 48)) s a = fold_left (fun a c => 10 * a + (c - 48)) s a.
Proof. induction s as [|c s IH]; intros a; cbn [fold_left]; [auto|]. rewrite IH. f_equal. lia. Qed.
Lemma py_int_numeral s n : numeral s n -> py_int s = Ok n.
Proof.
  intros (NE & D & V). unfold py_int, strip. rewrite (lstrip_digits s) by auto. rewrite lstrip_digits by (apply Forall_rev; auto). rewrite rev_involutive.
  destruct s as [|c s]; [easy|]. pose proof (Forall_inv D) as C; cbn in C.
  destruct (c =? 45) eqn:E1; [lia|]. destruct (c =? 43) eqn:E2; [lia|].
  rewrite int_digits_spec by (auto; left; easy). rewrite fold_digits. now f_equal.
Qed.
Lemma dotted_split s l : dotted s l -> map_res py_int (split_dot s) = Ok l /\ (exists c t, s = c :: t /\ c <> 46).
Proof.
  assert (HEAD : forall s n, numeral s n -> exists c t, s = c :: t /\ c <> 46).
  { intros u n (NE & D & _). destruct u as [|c u]; [easy|]. exists c, u. split; [auto|]. pose proof (Forall_inv D) as C; cbn in C. lia. }
  intros D. induction D as [s n N|s n t l N D IH].
  - split; [|eauto]. pose proof N as (_ & DD & _). rewrite split_dot_digits by auto. cbn [map_res]. now rewrite (py_int_numeral _ _ N).
  - destruct IH as (IH & _). split.
    + pose proof N as (_ & DD & _). rewrite split_dot_app by auto. cbn [map_res]. rewrite (py_int_numeral _ _ N). cbn [bind]. now rewrite IH.
    + destruct (HEAD _ _ N) as (c & u & -> & C). exists c, (u ++ 46 :: t). auto.
Qed.
Lemma split_head c t : c <> 46 -> exists p ps, split_dot (c :: t) = (c :: p) :: ps.
Proof.
  intros C. cbn [split_dot]. destruct (c =? 46) eqn:E; [lia|]. destruct (split_dot t) as [|p ps]; eauto.
Qed.
Lemma spells_parse s l : spells s l -> oid_new OID l = Ok l -> oid_parse OID s = Ok l.
Proof.
  intros S V. unfold oid_parse. destruct S as [D|(t & -> & D)].
  - destruct (dotted_split _ _ D) as (M & c & t & -> & C). destruct (split_head c t C) as (p & ps & E). rewrite E in *. rewrite M. cbn [bind]. now rewrite V.
  - destruct (dotted_split _ _ D) as (M & _). cbn [split_dot]. change (46 =? 46) with true. cbv iota. rewrite M. cbn [bind]. now rewrite V.
Qed.
(** Characters that no object identifier contains. *)
Definition odd (c : Z) : Prop := ~ (48 <= c <= 57) /\ ~ (9 <= c <= 13) /\ ~ (28 <= c <= 32) /\ c <> 43 /\ c <> 45 /\ c <> 46 /\ c <> 95.
Lemma lstrip_odd s c : odd c -> In c s -> In c (lstrip s).
Proof.
  intros O. induction s as [|x s IH]; intros H; [easy|]. cbn [lstrip]. destruct (is_space x) eqn:E; [|auto].
  destruct H as [->|H]; [|auto]. unfold is_space in E. unfold odd in O. lia.
Qed.
Lemma int_digits_odd s c : odd c -> In c s -> forall a p, exists e, int_digits s a p = Raise e.
Proof.
  intros O. induction s as [|x s IH]; intros H a p; [easy|]. cbn [int_digits]. destruct H as [->|H].
  - unfold odd in O. unfold is_digit. destruct ((48 <=? c) && (c <=? 57)) eqn:E; [lia|]. destruct ((c =? 95) && p) eqn:E2; [lia|eauto].
  - destruct (is_digit x); [auto|]. destruct ((x =? 95) && p); eauto.
Qed.
Lemma py_int_odd s c : odd c -> In c s -> exists e, py_int s = Raise e.
Proof.
  intros O H. unfold py_int. assert (S : In c (strip s)).
  { unfold strip. rewrite <- in_rev. apply lstrip_odd; auto. rewrite <- in_rev. now apply lstrip_odd. }
  destruct (strip s) as [|x t]; [easy|]. unfold odd in O.
  destruct (x =? 45) eqn:E; [|destruct (x =? 43) eqn:E2].
  - destruct S as [->|S]; [lia|]. destruct (int_digits_odd t c O S 0 false) as [e ->]. cbn. eauto.
  - destruct S as [->|S]; [lia|]. now apply (int_digits_odd t c).
  - now apply (int_digits_odd (x :: t) c).
Qed.
Lemma split_in s c : c <> 46 -> In c s -> exists p, In p (split_dot s) /\ In c p.
Proof.
  intros C. induction s as [|x s IH]; intros H; [easy|]. cbn [split_dot]. destruct (x =? 46) eqn:E.
  - destruct H as [->|H]; [lia|]. destruct (IH H) as (p & P1 & P2). exists p. split; [now right|auto].
  - destruct H as [->|H].
    + destruct (split_dot s); eexists; split; [now left|now left|now left|now left].
    + destruct (IH H) as (p & P1 & P2). destruct (split_dot s) as [|q qs]; [easy|]. destruct P1 as [->|P1].
      * exists (x :: p). split; [now left|now right].
      * exists p. split; [now right|auto].
Qed.
Lemma map_res_raise {A B} (f : A -> res B) l x : In x l -> (exists e, f x = Raise e) -> exists e, map_res f l = Raise e.
Proof.
  intros H (e & E). induction l as [|y l IH]; [easy|]. cbn [map_res]. destruct H as [->|H].
  - rewrite E. cbn. eauto.
  - destruct (f y); cbn [bind]; [|eauto]. destruct (IH H) as (e' & ->). cbn. eauto.
Qed.
Lemma parse_odd c s x : odd x -> In x s -> oid_parse c s = Raise ValueError.
Proof.
  intros O H. assert (E : exists e, oid_parse c s = Raise e).
  { unfold oid_parse. destruct (split_in s x) as (p & P1 & P2); [unfold odd in O; lia|auto|].
    assert (IN : In p match split_dot s with [] :: rest => rest | _ => split_dot s end).
    { destruct (split_dot s) as [|[|y q] qs]; auto. destruct P1 as [<-|P1]; [easy|auto]. }
    destruct (map_res_raise py_int _ p IN) as (e & ->); [now apply (py_int_odd p x)|].
    cbn [bind]. unfold reraise. destruct (is_ValueError e); eauto. }
  destruct E as (e & E). rewrite E. f_equal. symmetry. exact (oid_parse_raises c s e E).
Qed.

(** * The PDUs *)
Lemma VarBind_spec n v value : names n (vb_name v) -> oid_new OID (vb_name v) = Ok (vb_name v) ->
  vb_value v = match value with Some x => x | None => PNull NULL end -> VarBind n value = Ok v.
Proof.
  intros N V E. destruct v as [l x]. cbn [vb_name vb_value] in *. subst x. unfold VarBind. destruct n as [s|l']; cbn [names] in N.
  - rewrite (spells_parse _ _ N V). reflexivity.
  - subst l'. reflexivity.
Qed.
Lemma reads_spec args vbs : Forall2 reads args vbs -> Forall (fun v => oid_new OID (vb_name v) = Ok (vb_name v)) vbs -> VarBindList args = Ok vbs.
Proof.
  intros F. induction F as [|a v args vbs R F IH]; intros V; [reflexivity|]. inversion V as [|? ? V1 V2]; subst.
  specialize (IH V2). unfold VarBindList in *. cbn [map_res]. rewrite IH. destruct a as [n|v']; cbn [reads] in R.
  - destruct R as (N & E). rewrite (VarBind_spec n v None N V1 E). reflexivity.
  - subst v'. reflexivity.
Qed.
Lemma writes_spec args vbs : Forall2 writes args vbs -> Forall (fun v => oid_new OID (vb_name v) = Ok (vb_name v)) vbs ->
  map_res (fun nv => VarBind (fst nv) (snd nv)) args = Ok vbs.
Proof.
  intros F. induction F as [|a v args vbs R F IH]; intros V; [reflexivity|]. inversion V as [|? ? V1 V2]; subst.
  cbn [map_res]. rewrite (IH V2). destruct R as (N & E). rewrite (VarBind_spec (fst a) v (snd a) N V1); [reflexivity|].
  destruct (snd a); auto.
Qed.
Lemma list_made vbs : VarBindList (map VVarBind vbs) = Ok vbs.
Proof. unfold VarBindList. induction vbs as [|v vbs IH]; [reflexivity|]. cbn [map map_res]. cbn [bind]. now rewrite IH. Qed.
Lemma asks_pdu q p : asks q p -> names_valid p -> request_pdu q = Ok (numbered p 0).
Proof.
  intros A V. unfold numbered. destruct q; cbn [asks] in A; destruct A as (C & B1 & B2 & F); cbn [request_pdu]; unfold new_PDU, new_BulkPDU.
  - rewrite (reads_spec _ _ F V). cbn [bind]. now rewrite C, B1, B2.
  - rewrite (reads_spec _ _ F V). cbn [bind]. now rewrite C, B1, B2.
  - rewrite (reads_spec _ _ F V). cbn [bind]. now rewrite C, B1, B2.
  - rewrite (writes_spec _ _ F V). cbn [bind]. rewrite list_made. cbn [bind]. now rewrite C, B1, B2.
Qed.
(** Only ValueError. *)
Lemma VarBind_raises n v e : VarBind n v = Raise e -> e = ValueError.
Proof.
  unfold VarBind. destruct n as [s|l]; [|discriminate]. destruct (oid_parse OID s) eqn:E; cbn [bind]; [discriminate|]. intros X; injection X as <-.
  symmetry. exact (oid_parse_raises OID s _ E).
Qed.
Lemma map_res_raises {A B} (f : A -> res B) e0 : (forall x e, f x = Raise e -> e = e0) -> forall l e, map_res f l = Raise e -> e = e0.
Proof.
  intros F. induction l as [|x l IH]; intros e; cbn [map_res]; [discriminate|]. destruct (f x) eqn:E; cbn [bind].
  - destruct (map_res f l) eqn:M; cbn [bind]; [discriminate|]. intros X; injection X as <-. now apply IH.
  - intros X; injection X as <-. eauto.
Qed.
Lemma VarBindList_raises l e : VarBindList l = Raise e -> e = ValueError.
Proof.
  unfold VarBindList. apply map_res_raises. intros [n|v] e'; [apply VarBind_raises|discriminate].
Qed.
Lemma request_raises q e : request_pdu q = Raise e -> e = ValueError.
Proof.
  destruct q as [l|l|l n m|l]; cbn [request_pdu]; unfold new_PDU, new_BulkPDU.
  1-3: destruct (VarBindList l) eqn:E; cbn [bind]; [discriminate|]; intros X; injection X as <-; now apply VarBindList_raises in E.
  destruct (map_res _ l) eqn:E; cbn [bind].
  - rewrite list_made. discriminate.
  - intros X; injection X as <-. eapply map_res_raises; [|exact E]. intros x e'. apply VarBind_raises.
Qed.
