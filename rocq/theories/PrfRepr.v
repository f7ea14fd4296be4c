(** PrfRepr.v -- lemmas about the text of values. *)
From Coq Require Import String Ascii.
From Verif Require Import PrfBase PrfOid Repr.
Open Scope Z_scope.

(** ** Cancelling a part whose alphabet the next character is not in *)
Definition stops (P : Z -> Prop) (r : pystr) : Prop := match r with [] => True | c :: _ => ~ P c end.
Lemma cancel P a a' r r' : Forall P a -> Forall P a' -> stops P r -> stops P r' ->
  a ++ r = a' ++ r' -> a = a' /\ r = r'.
Proof.
  intros HA. revert a'. induction HA as [|c a Pc HA IH]; intros a' HA' S S' E.
  - destruct HA' as [|c' a' Pc' HA']; [now split|]. cbn in E. subst r. cbn in S. easy.
  - destruct HA' as [|c' a' Pc' HA'].
    + cbn in E. subst r'. cbn in S'. easy.
    + cbn in E. injection E as <- E. destruct (IH _ HA' S S' E) as [-> ->]. now split.
Qed.

(** ** Decimal numbers *)
Definition number (c : Z) : Prop := c = 45 \/ 48 <= c <= 57.
Lemma py_str_int_neg n : n < 0 -> py_str_int n = 45 :: py_str_int (- n).
Proof.
  intros H. unfold py_str_int. destruct (n <? 0) eqn:E; [|lia]. destruct (- n <? 0) eqn:E'; [lia|].
  now rewrite Z.abs_opp.
Qed.
Lemma number_text n : Forall number (py_str_int n).
Proof.
  assert (P : forall k, 0 <= k -> Forall number (py_str_int k)).
  { intros k Hk. destruct (py_str_int_spec k Hk) as (D & _). eapply Forall_impl; [|exact D].
    intros c Hc. right. exact Hc. }
  destruct (Z.ltb_spec n 0) as [L|L]; [|now apply P].
  rewrite py_str_int_neg by easy. constructor; [now left|]. apply P. lia.
Qed.
Lemma number_nonempty n : py_str_int n <> [].
Proof.
  destruct (Z.ltb_spec n 0) as [L|L]; [rewrite py_str_int_neg by easy; easy|].
  now destruct (py_str_int_spec n L) as (_ & N & _).
Qed.
Lemma number_inj n m : py_str_int n = py_str_int m -> n = m.
Proof.
  assert (S : forall k, 0 <= k -> forall s, py_str_int k <> 45 :: s).
  { intros k Hk s E. destruct (py_str_int_spec k Hk) as (D & _). rewrite E in D. inversion D. cbn in *. lia. }
  assert (P : forall k j, 0 <= k -> 0 <= j -> py_str_int k = py_str_int j -> k = j).
  { intros k j Hk Hj E. destruct (py_str_int_spec k Hk) as (_ & _ & <-).
    destruct (py_str_int_spec j Hj) as (_ & _ & <-). now rewrite E. }
  intros E. destruct (Z.ltb_spec n 0) as [L|L], (Z.ltb_spec m 0) as [L'|L'].
  - rewrite (py_str_int_neg n), (py_str_int_neg m) in E by easy. injection E as E. apply P in E; lia.
  - rewrite (py_str_int_neg n) in E by easy. symmetry in E. now apply S in E.
  - rewrite (py_str_int_neg m) in E by easy. now apply S in E.
  - now apply P.
Qed.
Lemma number_cancel n m r r' : stops number r -> stops number r' ->
  py_str_int n ++ r = py_str_int m ++ r' -> n = m /\ r = r'.
Proof.
  intros S S' E. apply (cancel number) in E as [E ->]; auto using number_text.
  now apply number_inj in E.
Qed.

(** ** Numbers with a separator between them *)
Lemma join_cancel sep l l' r r' :
  (exists c s, sep = c :: s /\ ~ number c) -> stops number r -> stops number r' ->
  (forall s, r <> sep ++ s) -> (forall s, r' <> sep ++ s) ->
  join_text sep (map py_str_int l) ++ r = join_text sep (map py_str_int l') ++ r' ->
  (l = [] <-> l' = []) -> l = l' /\ r = r'.
Proof.
  intros (c0 & s0 & SEP & NC) S S' NR NR'. revert l'.
  assert (ST : forall s, stops number (sep ++ s)) by (intros s; rewrite SEP; exact NC).
  induction l as [|x l IH]; intros [|y l'] E EMP.
  - now split.
  - discriminate (proj1 EMP eq_refl).
  - discriminate (proj2 EMP eq_refl).
  - destruct l as [|x1 l], l' as [|y1 l'].
    + cbn [map join_text] in E. apply number_cancel in E as [-> ->]; auto.
    + cbn [map join_text] in E. rewrite <- !app_assoc in E. apply number_cancel in E as [-> E]; auto. now apply NR in E.
    + cbn [map join_text] in E. rewrite <- !app_assoc in E. apply number_cancel in E as [-> E]; auto.
      symmetry in E. now apply NR' in E.
    + change (join_text sep (map py_str_int (x :: x1 :: l)))
        with (py_str_int x ++ sep ++ join_text sep (map py_str_int (x1 :: l))) in E.
      change (join_text sep (map py_str_int (y :: y1 :: l')))
        with (py_str_int y ++ sep ++ join_text sep (map py_str_int (y1 :: l'))) in E.
      rewrite <- !app_assoc in E. apply number_cancel in E as [-> E]; auto.
      apply app_inv_head in E. apply IH in E as [-> ->]; [now split|now split].
Qed.
Lemma join_dot_text l : join_dot l = join_text [46] l.
Proof.
  induction l as [|p l IH]; [reflexivity|]. destruct l as [|q l]; [reflexivity|].
  change (p ++ 46 :: join_dot (q :: l) = p ++ [46] ++ join_text [46] (q :: l)). now rewrite IH.
Qed.
(** The text of a list is empty only if the list is. *)
Lemma join_empty sep l r r' : stops number r -> stops number r' ->
  join_text sep (map py_str_int l) ++ r = r' -> l = [] \/ exists c s, r' = c :: s /\ number c.
Proof.
  intros S S' E. destruct l as [|x l]; [now left|]. right.
  assert (H : exists s, join_text sep (map py_str_int (x :: l)) = py_str_int x ++ s).
  { destruct l; [exists []; now rewrite app_nil_r|eexists; reflexivity]. }
  destruct H as (s & H). rewrite H, <- app_assoc in E.
  pose proof (number_nonempty x) as N. pose proof (number_text x) as F.
  destruct (py_str_int x) as [|c t]; [easy|]. inversion F; subst. now exists c, (t ++ s ++ r).
Qed.
Lemma join_same sep l l' r r' :
  (exists c s, sep = c :: s /\ ~ number c) -> stops number r -> stops number r' ->
  (forall s, r <> sep ++ s) -> (forall s, r' <> sep ++ s) ->
  join_text sep (map py_str_int l) ++ r = join_text sep (map py_str_int l') ++ r' -> l = l' /\ r = r'.
Proof.
  intros SEP S S' NR NR' E. eapply join_cancel; eauto.
  split; intros ->; cbn [map join_text app] in E.
  - symmetry in E. apply join_empty in E as [E|(c & s & -> & N)]; auto. easy.
  - apply join_empty in E as [E|(c & s & -> & N)]; auto. easy.
Qed.

(** ** repr() of bytes *)
Lemma hex_inj a b : 0 <= a < 16 -> 0 <= b < 16 -> hex_digit a = hex_digit b -> a = b.
Proof. unfold hex_digit. destruct (Z.ltb_spec a 10), (Z.ltb_spec b 10); lia. Qed.
Lemma hex_range a : 0 <= a < 16 -> 48 <= hex_digit a <= 102.
Proof. unfold hex_digit. destruct (Z.ltb_spec a 10); lia. Qed.

Lemma byte_repr_cases q b : 0 <= b < 256 ->
  (b = q \/ b = 92) /\ byte_repr q b = [92; b] \/
  b <> q /\ b <> 92 /\
  ((b = 9 /\ byte_repr q b = [92; 116]) \/ (b = 10 /\ byte_repr q b = [92; 110]) \/ (b = 13 /\ byte_repr q b = [92; 114]) \/
   (byte_repr q b = [92; 120; hex_digit (b / 16); hex_digit (b mod 16)]) \/
   (32 <= b < 127 /\ byte_repr q b = [b])).
Proof.
  intros B. unfold byte_repr.
  destruct (Z.eqb_spec b q), (Z.eqb_spec b 92); cbn [orb]; auto. right. split; [easy|]. split; [easy|].
  destruct (Z.eqb_spec b 9); [auto|]. destruct (Z.eqb_spec b 10); [auto|]. destruct (Z.eqb_spec b 13); [auto|].
  destruct (Z.ltb_spec b 32), (Z.leb_spec 127 b); cbn [orb]; auto. do 4 right. split; [lia|reflexivity].
Qed.
Lemma byte_cancel q b b' r r' : q = 34 \/ q = 39 -> 0 <= b < 256 -> 0 <= b' < 256 ->
  byte_repr q b ++ r = byte_repr q b' ++ r' -> b = b' /\ r = r'.
Proof.
  intros Q B B' E.
  destruct (byte_repr_cases q b B) as [(H & R)|(N & N1 & [(-> & R)|[(-> & R)|[(-> & R)|[R|(P & R)]]]])];
  destruct (byte_repr_cases q b' B') as [(H' & R')|(N' & N1' & [(-> & R')|[(-> & R')|[(-> & R')|[R'|(P' & R')]]]])];
  rewrite R in E; try rewrite R' in E; cbn [app] in E;
  try (injection E as -> ->; split; [reflexivity|reflexivity]);
  try (injection E as ->; split; [reflexivity|reflexivity]);
  try (exfalso; injection E; intros; lia);
  try discriminate E.
  all: try (injection E as E1 E2 ->; split; [|reflexivity]; apply hex_inj in E1, E2;
            try (Z.div_mod_to_equations; lia)).
Qed.
Lemma byte_head q b : q = 34 \/ q = 39 -> 0 <= b < 256 -> exists c s, byte_repr q b = c :: s /\ c <> q.
Proof.
  intros Q B.
  destruct (byte_repr_cases q b B) as [(H & R)|(N & N1 & [(-> & R)|[(-> & R)|[(-> & R)|[R|(P & R)]]]])];
    rewrite R; do 2 eexists; (split; [reflexivity|]); lia.
Qed.
Lemma body_cancel q d d' r r' : q = 34 \/ q = 39 -> bytes_ok d -> bytes_ok d' ->
  flat_map (byte_repr q) d ++ q :: r = flat_map (byte_repr q) d' ++ q :: r' -> d = d' /\ r = r'.
Proof.
  intros Q D. revert d'. induction D as [|b d B D IH]; intros d' D' E.
  - destruct D' as [|b' d' B' D']; [cbn in E; now injection E as ->|].
    cbn [flat_map app] in E. destruct (byte_head q b' Q B') as (c & s & R & N). rewrite R in E. cbn in E.
    injection E as E _. congruence.
  - destruct D' as [|b' d' B' D'].
    + cbn [flat_map app] in E. destruct (byte_head q b Q B) as (c & s & R & N). rewrite R in E. cbn in E.
      injection E as E _. congruence.
    + cbn [flat_map] in E. rewrite <- !app_assoc in E. apply byte_cancel in E as [-> E]; auto.
      apply IH in E as [-> ->]; auto.
Qed.
Lemma quote_cases d : quote_of d = 34 \/ quote_of d = 39.
Proof. unfold quote_of. destruct (_ && _); auto. Qed.
Lemma bytes_cancel d d' r r' : bytes_ok d -> bytes_ok d' ->
  bytes_repr d ++ r = bytes_repr d' ++ r' -> d = d' /\ r = r'.
Proof.
  intros D D' E. unfold bytes_repr in E. cbn [app] in E. injection E as EQ E. rewrite EQ in E.
  rewrite <- !app_assoc in E. cbn [app] in E. apply body_cancel in E; auto using quote_cases.
Qed.

(** ** Names *)
Definition letter (c : Z) : Prop := c = 95 \/ 48 <= c <= 57 \/ 65 <= c <= 90 \/ 97 <= c <= 122.
Definition letterb (c : Z) : bool := (c =? 95) || ((48 <=? c) && (c <=? 57)) || ((65 <=? c) && (c <=? 90)) || ((97 <=? c) && (c <=? 122)).
Lemma letters l : forallb letterb l = true -> Forall letter l.
Proof.
  intros H. apply Forall_forall. intros c I. rewrite forallb_forall in H. specialize (H c I).
  unfold letterb, letter in *. lia.
Qed.
Definition cls_name (c : pcls) : pystr :=
  match c with CInt c => int_name c | COctets c => octets_name c | CNull c => null_name c | COid c => oid_name c end.
Lemma cls_letters c : Forall letter (cls_name c).
Proof. apply letters. destruct c as [c|c|c|c]; destruct c; vm_compute; reflexivity. Qed.
Lemma cls_inj c c' : cls_name c = cls_name c' -> c = c'.
Proof.
  intros E. destruct c as [c|c|c|c], c' as [c'|c'|c'|c']; destruct c, c'; try reflexivity; vm_compute in E; discriminate E.
Qed.
Lemma pdu_letters c : Forall letter (pdu_name c).
Proof. apply letters. destruct c; vm_compute; reflexivity. Qed.
Lemma pdu_name_inj c c' : pdu_name c = pdu_name c' -> c = c'.
Proof. intros E. destruct c, c'; try reflexivity; vm_compute in E; discriminate E. Qed.

(** ** repr() of a value: what follows it is not part of it *)
Definition prim_octets (p : prim) : Prop := match p with POctets _ d => bytes_ok d | _ => True end.
Definition body (p : prim) : pystr :=
  match p with
  | PInt _ v => py_str_int v ++ text ")"
  | POctets IpAddress d => text "'" ++ oid_str d ++ text "')"
  | POctets _ d => bytes_repr d ++ text ")"
  | PNull _ => text ")"
  | POid _ l => join_text (text ", ") (map py_str_int l) ++ text ")"
  end.
Lemma prim_repr_eq p : prim_repr p = cls_name (prim_cls p) ++ 40 :: body p.
Proof. destruct p as [c v|c d|c|c l]; try reflexivity. destruct c; reflexivity. Qed.

Lemma not_letter_paren s : stops letter (40 :: s). Proof. cbn. unfold letter. lia. Qed.
Lemma repr_cancel p p' r r' : prim_octets p -> prim_octets p' ->
  prim_repr p ++ r = prim_repr p' ++ r' -> p = p' /\ r = r'.
Proof.
  intros D D' E. rewrite !prim_repr_eq, <- !app_assoc in E. cbn [app] in E.
  apply (cancel letter) in E as [EC E]; auto using cls_letters, not_letter_paren.
  apply cls_inj in EC. injection E as E.
  assert (NP : forall s, stops number (41 :: s)) by (intros s; cbn; unfold number; lia).
  destruct p as [c v|c d|c|c l], p' as [c' v'|c' d'|c'|c' l']; try discriminate EC; injection EC as <-.
  - cbn [body] in E. rewrite <- !app_assoc in E. apply number_cancel in E as [-> E]; try apply NP.
    cbn in E. now injection E as ->.
  - destruct c.
    1,2,4: cbn [body] in E; rewrite <- !app_assoc in E; apply bytes_cancel in E as [-> E]; auto;
           cbn in E; now injection E as ->.
    cbn [body] in E. change (text "'") with [39] in E. change (text "')") with [39; 41] in E.
    cbn [app] in E. injection E as E. unfold oid_str in E. rewrite !join_dot_text, <- !app_assoc in E. cbn [app] in E.
    apply join_same in E as [-> E].
    + now injection E as ->.
    + exists 46, []. split; [reflexivity|]. unfold number. lia.
    + cbn; unfold number; lia.
    + cbn; unfold number; lia.
    + intros s X. discriminate X.
    + intros s X. discriminate X.
  - cbn in E. now injection E as ->.
  - cbn [body] in E. change (text ", ") with [44; 32] in E. change (text ")") with [41] in E.
    rewrite <- !app_assoc in E. cbn [app] in E. apply join_same in E as [-> E].
    + now injection E as ->.
    + exists 44, [32]. split; [reflexivity|]. unfold number. lia.
    + apply NP.
    + apply NP.
    + intros s X. discriminate X.
    + intros s X. discriminate X.
Qed.

(** ** str() of a value, up to the end of the line *)
Definition ends_line (r : pystr) : Prop := match r with [] => True | c :: _ => c = 10 end.
Definition is_POid (p : prim) : bool := match p with POid _ _ => true | _ => false end.
Lemma prim_str_other p : is_POid p = false -> prim_str p = prim_repr p.
Proof. destruct p; [reflexivity|reflexivity|reflexivity|discriminate]. Qed.
Lemma name_start c : exists x s, cls_name c = x :: s /\ (65 <= x <= 90).
Proof. destruct c as [c|c|c|c]; destruct c; vm_compute; do 2 eexists; (split; [reflexivity|]); split; discriminate. Qed.
Lemma oid_start l r : ends_line r -> forall x s, oid_str l ++ r = x :: s -> x = 10 \/ x = 46 \/ number x.
Proof.
  intros S x s E. unfold oid_str in E. rewrite join_dot_text in E. destruct l as [|y l].
  - cbn in E. subst r. cbn in S. auto.
  - assert (H : exists t, join_text [46] (map py_str_int (y :: l)) = py_str_int y ++ t).
    { destruct l; [exists []; now rewrite app_nil_r|eexists; reflexivity]. }
    destruct H as (t & H). rewrite H in E. pose proof (number_nonempty y) as N. pose proof (number_text y) as F.
    destruct (py_str_int y) as [|c u]; [easy|]. inversion F; subst. cbn in E. injection E as <- _. auto.
Qed.
Lemma ends_line_stops r : ends_line r -> stops number r.
Proof. destruct r as [|c r]; [easy|]. cbn. unfold number. lia. Qed.
Lemma ends_line_not r s : ends_line r -> r <> [46] ++ s.
Proof. intros H ->. cbn in H. lia. Qed.
(** The class of an OID as a value is not printed. *)
Definition same_text (p p' : prim) : Prop :=
  match p, p' with POid _ l, POid _ l' => l = l' | _, _ => p = p' end.
Lemma str_cancel p p' r r' : prim_octets p -> prim_octets p' -> ends_line r -> ends_line r' ->
  prim_str p ++ r = prim_str p' ++ r' -> same_text p p' /\ r = r'.
Proof.
  intros D D' S S' E.
  assert (DOT : exists c s, [46] = c :: s /\ ~ number c) by (exists 46, []; split; [reflexivity|unfold number; lia]).
  destruct (is_POid p) eqn:P, (is_POid p') eqn:P'.
  - destruct p as [| | |c l]; try discriminate P. destruct p' as [| | |c' l']; try discriminate P'.
    cbn [prim_str] in E. unfold oid_str in E. rewrite !join_dot_text in E.
    apply join_same in E as [-> ->]; auto using ends_line_stops, ends_line_not. now split.
  - exfalso. destruct p as [| | |c l]; try discriminate P. cbn [prim_str] in E.
    rewrite (prim_str_other p') in E by easy. rewrite prim_repr_eq in E.
    destruct (name_start (prim_cls p')) as (x & s & R & B). rewrite R in E. cbn [app] in E.
    apply oid_start in E; auto. unfold number in E. lia.
  - exfalso. destruct p' as [| | |c l]; try discriminate P'. cbn [prim_str] in E.
    rewrite (prim_str_other p) in E by easy. rewrite prim_repr_eq in E.
    destruct (name_start (prim_cls p)) as (x & s & R & B). rewrite R in E. cbn [app] in E.
    symmetry in E. apply oid_start in E; auto. unfold number in E. lia.
  - rewrite !prim_str_other in E by easy. apply repr_cancel in E as [<- ->]; auto. split; [|reflexivity].
    destruct p; [reflexivity|reflexivity|reflexivity|discriminate P].
Qed.

(** ** Variable bindings *)
Definition vb_octets (v : varbind) : Prop := prim_octets (vb_value v).
Lemma oid_octets c l : prim_octets (POid c l). Proof. exact Logic.I. Qed.
Lemma varbind_repr_cancel v v' r r' : vb_octets v -> vb_octets v' ->
  varbind_repr v ++ r = varbind_repr v' ++ r' -> v = v' /\ r = r'.
Proof.
  intros D D' E. unfold varbind_repr in E. rewrite <- !app_assoc in E. apply app_inv_head in E.
  apply repr_cancel in E as [EN E]; auto using oid_octets. apply app_inv_head in E.
  apply repr_cancel in E as [EV E]; auto. apply app_inv_head in E. injection EN as EN.
  destruct v, v'. cbn in *. now subst.
Qed.
Lemma varbind_repr_start v : exists s, varbind_repr v = 86 :: s.
Proof. eexists. reflexivity. Qed.
Lemma join_reprs l : forall l' r r', Forall vb_octets l -> Forall vb_octets l' ->
  join_text (text ", ") (map varbind_repr l) ++ 41 :: r = join_text (text ", ") (map varbind_repr l') ++ 41 :: r' ->
  l = l' /\ r = r'.
Proof.
  change (text ", ") with [44; 32].
  induction l as [|v l IH]; intros [|v' l'] r r' D D' E.
  - now injection E as ->.
  - exfalso. destruct (varbind_repr_start v') as (s & S). destruct l'; cbn [map join_text] in E; rewrite S in E; discriminate E.
  - exfalso. destruct (varbind_repr_start v) as (s & S). destruct l; cbn [map join_text] in E; rewrite S in E; discriminate E.
  - inversion D; inversion D'; subst. destruct l as [|v1 l], l' as [|v1' l'].
    + cbn [map join_text] in E. apply varbind_repr_cancel in E as [-> E]; auto. now injection E as ->.
    + cbn [map join_text] in E. rewrite <- !app_assoc in E. apply varbind_repr_cancel in E as [-> E]; auto. discriminate E.
    + cbn [map join_text] in E. rewrite <- !app_assoc in E. apply varbind_repr_cancel in E as [-> E]; auto. discriminate E.
    + change (join_text [44; 32] (map varbind_repr (v :: v1 :: l)))
        with (varbind_repr v ++ [44; 32] ++ join_text [44; 32] (map varbind_repr (v1 :: l))) in E.
      change (join_text [44; 32] (map varbind_repr (v' :: v1' :: l')))
        with (varbind_repr v' ++ [44; 32] ++ join_text [44; 32] (map varbind_repr (v1' :: l'))) in E.
      rewrite <- !app_assoc in E. apply varbind_repr_cancel in E as [-> E]; auto.
      apply app_inv_head in E. apply IH in E as [-> ->]; auto.
Qed.
Lemma vblist_repr_cancel l l' r r' : Forall vb_octets l -> Forall vb_octets l' ->
  vblist_repr l ++ r = vblist_repr l' ++ r' -> l = l' /\ r = r'.
Proof.
  intros D D' E. unfold vblist_repr in E. rewrite <- !app_assoc in E. apply app_inv_head in E.
  change (text ")") with [41] in E. cbn [app] in E. now apply join_reprs in E.
Qed.

(** str(): the name is digits and dots, then a colon. *)
Definition same_vb_text (v v' : varbind) : Prop := vb_name v = vb_name v' /\ same_text (vb_value v) (vb_value v').
Lemma varbind_str_cancel v v' r r' : vb_octets v -> vb_octets v' -> ends_line r -> ends_line r' ->
  varbind_str v ++ r = varbind_str v' ++ r' -> same_vb_text v v' /\ r = r'.
Proof.
  intros D D' S S' E. unfold varbind_str in E. cbn [prim_str] in E. unfold oid_str in E. rewrite !join_dot_text, <- !app_assoc in E.
  change (text ": ") with [58; 32] in E. apply join_same in E as [EN E].
  - injection E as E. apply str_cancel in E as [EV ->]; auto. repeat split; auto.
  - exists 46, []. split; [reflexivity|unfold number; lia].
  - cbn; unfold number; lia.
  - cbn; unfold number; lia.
  - intros s X. discriminate X.
  - intros s X. discriminate X.
Qed.
Lemma varbind_str_nonempty v s : varbind_str v ++ s <> [].
Proof.
  unfold varbind_str. intros E. apply app_eq_nil in E as [E _]. apply app_eq_nil in E as [_ E]. discriminate E.
Qed.
Lemma toString_same l indent : forall l', Forall vb_octets l -> Forall vb_octets l' ->
  vblist_toString l indent = vblist_toString l' indent -> Forall2 same_vb_text l l'.
Proof.
  unfold vblist_toString. induction l as [|v l IH]; intros [|v' l'] D D' E.
  - constructor.
  - exfalso. destruct l'; cbn [map join_text] in E; rewrite <- ?app_assoc in E; symmetry in E; apply app_eq_nil in E as [_ E];
      [rewrite <- (app_nil_r (varbind_str v')) in E|]; now apply varbind_str_nonempty in E.
  - exfalso. destruct l; cbn [map join_text] in E; rewrite <- ?app_assoc in E; apply app_eq_nil in E as [_ E];
      [rewrite <- (app_nil_r (varbind_str v)) in E|]; now apply varbind_str_nonempty in E.
  - inversion D; inversion D'; subst. destruct l as [|v1 l], l' as [|v1' l'].
    + cbn [map join_text] in E. apply app_inv_head in E.
      rewrite <- (app_nil_r (varbind_str v)), <- (app_nil_r (varbind_str v')) in E.
      apply varbind_str_cancel in E as [H _]; auto; try exact Logic.I.
    + exfalso. cbn [map join_text] in E. rewrite <- !app_assoc in E. apply app_inv_head in E.
      rewrite <- (app_nil_r (varbind_str v)) in E.
      apply varbind_str_cancel in E as [_ H]; auto; try exact Logic.I; try reflexivity. discriminate H.
    + exfalso. cbn [map join_text] in E. rewrite <- !app_assoc in E. apply app_inv_head in E.
      rewrite <- (app_nil_r (varbind_str v')) in E.
      apply varbind_str_cancel in E as [_ H]; auto; try exact Logic.I; try reflexivity. discriminate H.
    + set (f := fun v : varbind => indent ++ varbind_str v) in *.
      change (f v ++ [10] ++ join_text [10] (map f (v1 :: l)) = f v' ++ [10] ++ join_text [10] (map f (v1' :: l'))) in E.
      unfold f at 1 3 in E. rewrite <- !app_assoc in E. apply app_inv_head in E.
      apply varbind_str_cancel in E as [H E]; auto; try reflexivity. constructor; [exact H|].
      apply app_inv_head in E. apply IH; [assumption|assumption|exact E].
Qed.
Definition vb_class (v : varbind) : Prop := match vb_value v with POid c _ => c = OID | _ => True end.
Lemma same_text_eq l l' : Forall vb_class l -> Forall vb_class l' -> Forall2 same_vb_text l l' -> l = l'.
Proof.
  intros C C' H. induction H as [|[n p] [n' p'] l l' [EN E] H IH]; [reflexivity|]. inversion C; inversion C'; subst.
  cbn in EN. subst n'. f_equal; [|now apply IH]. f_equal. unfold vb_class in *. cbn in *.
  destruct p, p'; cbn in *; congruence.
Qed.

(** ** PDUs *)
Definition vbs_args (p : pdu) : pystr := text "variableBindings=" ++ vblist_repr (pdu_vbs p) ++ text ")".
(** The arguments, each followed by what comes next. *)
Definition arg (key : string) (v : Z) (rest : pystr) : pystr :=
  if v =? 0 then rest else text key ++ py_str_int v ++ text ", " ++ rest.
Definition key_a (c : pducls) : string := if is_bulk c then "nonRepeaters=" else "errorStatus=".
Definition key_b (c : pducls) : string := if is_bulk c then "maxRepetitions=" else "errorIndex=".
Lemma pdu_repr_eq p : pdu_repr p = pdu_name (pdu_cls p) ++ text "(" ++
  arg "requestID=" (pdu_requestID p) (arg (key_a (pdu_cls p)) (pdu_a p) (arg (key_b (pdu_cls p)) (pdu_b p) (vbs_args p))).
Proof.
  unfold pdu_repr, arg, argument, key_a, key_b, vbs_args.
  destruct (pdu_requestID p =? 0), (pdu_a p =? 0), (pdu_b p =? 0); cbn [app join_text];
    rewrite <- ?app_assoc; reflexivity.
Qed.
(** An argument that is there starts with its key, one that is not lets the
    next one start. *)
Lemma arg_cancel key v v' rest rest' :
  (forall t, rest <> text key ++ t) -> (forall t, rest' <> text key ++ t) ->
  arg key v rest = arg key v' rest' -> v = v' /\ rest = rest'.
Proof.
  intros N N' E. unfold arg in E. destruct (Z.eqb_spec v 0) as [->|NZ], (Z.eqb_spec v' 0) as [->|NZ'].
  - now split.
  - now apply N in E.
  - symmetry in E. now apply N' in E.
  - apply app_inv_head in E. apply number_cancel in E as [-> E].
    + apply app_inv_head in E. now split.
    + cbn. unfold number. lia.
    + cbn. unfold number. lia.
Qed.

Lemma name_paren r : stops letter (text "(" ++ r). Proof. cbn. unfold letter. lia. Qed.
Lemma pdu_repr_inj p p' : Forall vb_octets (pdu_vbs p) -> Forall vb_octets (pdu_vbs p') ->
  pdu_repr p = pdu_repr p' -> p = p'.
Proof.
  intros D D' E. rewrite !pdu_repr_eq in E. apply (cancel letter) in E as [EC E]; auto using pdu_letters, name_paren.
  apply pdu_name_inj in EC. rewrite <- EC in E. apply app_inv_head in E.
  assert (H : pdu_requestID p = pdu_requestID p' /\ pdu_a p = pdu_a p' /\ pdu_b p = pdu_b p' /\ vbs_args p = vbs_args p').
  { apply arg_cancel in E as [-> E].
    - apply arg_cancel in E as [-> E].
      + apply arg_cancel in E as [-> E]; [easy| |]; intros t X; unfold key_b, vbs_args in X; destruct (is_bulk _); discriminate X.
      + intros t X. unfold arg, key_a, key_b, vbs_args in X. destruct (is_bulk _), (_ =? 0); discriminate X.
      + intros t X. unfold arg, key_a, key_b, vbs_args in X. destruct (is_bulk _), (_ =? 0); discriminate X.
    - intros t X. unfold arg, key_a, key_b, vbs_args in X. destruct (is_bulk _), (pdu_a p =? 0), (pdu_b p =? 0); discriminate X.
    - intros t X. unfold arg, key_a, key_b, vbs_args in X. destruct (is_bulk _), (pdu_a p' =? 0), (pdu_b p' =? 0); discriminate X. }
  destruct H as (E1 & E2 & E3 & E4). unfold vbs_args in E4. apply app_inv_head in E4.
  apply vblist_repr_cancel in E4 as [E4 _]; auto. destruct p, p'. cbn in *. now subst.
Qed.

(** toString: line by line. *)
Lemma status_inj s s' : 0 <= s <= 18 -> 0 <= s' <= 18 -> status_name s = status_name s' -> s = s'.
Proof.
  intros B B' E.
  assert (A : forall z, 0 <= z <= 18 -> In z [0;1;2;3;4;5;6;7;8;9;10;11;12;13;14;15;16;17;18]) by (intros z Hz; cbn; lia).
  pose proof (A _ B) as I. pose proof (A _ B') as I'. clear B B' A. cbn [In] in I, I'.
  repeat (destruct I as [<-|I]; [repeat (destruct I' as [<-|I']; [first [reflexivity | vm_compute in E; discriminate E]|]); destruct I'|]).
  destruct I.
Qed.
Lemma status_letters s : Forall letter (status_name s).
Proof. apply letters. unfold status_name. destruct s as [|s|s]; [reflexivity| |reflexivity]. do 5 (destruct s as [s|s|]; try reflexivity). Qed.
Lemma newline_letter s : stops letter ([10] ++ s). Proof. cbn. unfold letter. lia. Qed.
Lemma newline_number s : stops number ([10] ++ s). Proof. cbn. unfold number. lia. Qed.
Lemma toString_cancel p p' depth tab : pdu_cls p = pdu_cls p' ->
  (is_bulk (pdu_cls p) = false -> 0 <= pdu_a p <= 18 /\ 0 <= pdu_a p' <= 18) ->
  Forall vb_octets (pdu_vbs p) -> Forall vb_octets (pdu_vbs p') ->
  pdu_toString p depth tab = pdu_toString p' depth tab ->
  pdu_requestID p = pdu_requestID p' /\ pdu_a p = pdu_a p' /\ pdu_b p = pdu_b p' /\ Forall2 same_vb_text (pdu_vbs p) (pdu_vbs p').
Proof.
  intros EC A D D' E. unfold pdu_toString in E. rewrite <- EC in E. destruct (is_bulk (pdu_cls p)).
  - cbn [join_text] in E. rewrite <- !app_assoc in E. do 6 apply app_inv_head in E.
    apply number_cancel in E as [-> E]; auto using newline_number. do 4 apply app_inv_head in E.
    apply number_cancel in E as [-> E]; auto using newline_number. do 4 apply app_inv_head in E.
    apply number_cancel in E as [-> E]; auto using newline_number. do 5 apply app_inv_head in E.
    apply toString_same in E; auto.
  - destruct (A eq_refl) as [A1 A2].
    cbn [join_text] in E. rewrite <- !app_assoc in E. do 7 apply app_inv_head in E.
    apply number_cancel in E as [-> E]; auto using newline_number. do 4 apply app_inv_head in E.
    apply (cancel letter) in E as [ES E]; auto using status_letters, newline_letter. apply status_inj in ES; auto. rewrite ES. do 4 apply app_inv_head in E.
    apply number_cancel in E as [-> E]; auto using newline_number. do 5 apply app_inv_head in E.
    apply toString_same in E; auto.
Qed.
