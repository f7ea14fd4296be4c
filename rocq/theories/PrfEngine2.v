(** PrfEngine2.v -- invariants over histories of an Engine (C51, C58). *)
From Verif Require Import PrfBase PrfDict PrfUsers PrfUsmProps PrfTrans.
From Verif Require Export PrfEngine.
Require Import Lia.
Open Scope Z_scope.

Lemma sockets_app a b : sockets (a ++ b) = sockets a ++ sockets b.
Proof. induction a as [|[] a IH]; cbn; rewrite ?IH; auto. Qed.
Lemma connected_app a b : connected (a ++ b) = connected a ++ connected b.
Proof. induction a as [|[] a IH]; cbn; rewrite ?IH; auto. Qed.
Lemma processors_app a b : processors (a ++ b) = processors a ++ processors b.
Proof. induction a as [|[] a IH]; cbn; rewrite ?IH; auto. Qed.
Lemma nodup_snoc {A} (l : list A) x : NoDup l -> ~ In x l -> NoDup (l ++ [x]).
Proof.
  intros N I. induction l as [|y l IH]; cbn; [constructor; [intros []|constructor]|]. inversion N; subst. constructor.
  - intros X. apply in_app_or in X as [X|[X|[]]]; auto. subst. apply I. left. reflexivity.
  - apply IH; auto. intros X. apply I. right. exact X.
Qed.

Record EInv (E : engine) (l : list elog) : Prop := {
  ei_keys : int_keys E;
  ei_s1 : forall d k id, In (d, k, id) (sockets l) -> tr E d k = Some id /\ int_key k;
  ei_s2 : forall d k id, tr E d k = Some id -> exists k', key_eqb k k' = true /\ In (d, k', id) (sockets l);
  ei_once : NoDup (map fst (sockets l));
  ei_ids : NoDup (map snd (sockets l));
  ei_conn : NoDup (connected l);
  ei_incl : forall d k id, In (d, k, id) (sockets l) -> In id (connected l);
  ei_less : forall id, In id (connected l) -> (id < e_count E)%nat;
  ei_ponce : NoDup (map fst (processors l));
  ei_slot : forall v id, In (v, id) (processors l) <-> slot E v = Some id;
  ei_procs : forall v, dict_get Z.eqb (e_procs E) v = slot E v
}.
(** What later calls cannot undo. *)
Definition grows (E E' : engine) : Prop :=
  (forall d k id, tr E d k = Some id -> tr E' d k = Some id) /\ (forall v, slot E v <> None -> slot E' v <> None) /\ (e_usm3 E = true -> e_usm3 E' = true) /\
  e_version E' = e_version E /\ e_domain E' = e_domain E /\ e_secmodel E' = e_secmodel E /\ e_community E' = e_community E /\ e_autowait E' = e_autowait E.
Lemma grows_refl E : grows E E.
Proof. unfold grows. auto 9. Qed.
Lemma grows_trans A B D : grows A B -> grows B D -> grows A D.
Proof. intros (a & b & c & x1 & x2 & x3 & x4 & x5) (a' & b' & c' & y1 & y2 & y3 & y4 & y5). unfold grows. repeat split; auto; congruence. Qed.

Lemma ei_same E E' l : EInv E l -> e_transports E' = e_transports E -> (forall v, slot E' v = slot E v) -> e_procs E' = e_procs E -> e_count E' = e_count E -> EInv E' l.
Proof.
  intros I T S P K. assert (TR : forall d k, tr E' d k = tr E d k) by (intros; unfold tr; rewrite T; reflexivity). destruct I.
  constructor; auto.
  - unfold int_keys. rewrite T. auto.
  - intros. rewrite TR. auto.
  - intros d k id. rewrite TR. auto.
  - intros. rewrite K. auto.
  - intros. rewrite S. auto.
  - intros. rewrite P, S. auto.
Qed.
Lemma ei_proc E E' l y v : EInv E l -> proc_effect E v E' y -> EInv E' (l ++ y).
Proof.
  intros I ((T & K & _) & [(id & S & -> & K' & SL & P)|(S & -> & K' & SL & P)]).
  - rewrite app_nil_r. eapply ei_same; eauto.
  - assert (TR : forall d k, tr E' d k = tr E d k) by (intros; unfold tr; rewrite T; reflexivity). destruct I.
    constructor; rewrite ?sockets_app, ?connected_app, ?processors_app; cbn [sockets connected processors]; rewrite ?app_nil_r; auto.
    + unfold int_keys. rewrite T. auto.
    + intros. rewrite TR. auto.
    + intros d k id. rewrite TR. auto.
    + intros id X. apply ei_less0 in X. lia.
    + rewrite map_app. apply nodup_snoc; auto. cbn. intros X. apply in_map_iff in X as ((v' & id) & E1 & X). cbn in E1. subst. apply ei_slot0 in X. congruence.
    + intros v' id. rewrite SL, in_app_iff, ei_slot0. cbn. destruct (v' =? v) eqn:E1.
      * apply Z.eqb_eq in E1 as ->. rewrite S. split; [intros [X|[X|[]]]; [discriminate|congruence]|intros [= <-]; auto].
      * split; [intros [X|[X|[]]]; [auto|injection X as X _; lia]|auto].
    + intros v'. rewrite P, zget_set, SL. destruct (v' =? v); auto.
Qed.
Lemma proc_grows E E' y v : proc_effect E v E' y -> (e_usm3 E = true -> e_usm3 E' = true) -> grows E E' /\ slot E' v <> None.
Proof.
  intros ((T & K & C1 & C2 & C3 & C4 & C5) & [(id & S & -> & K' & SL & P)|(S & -> & K' & SL & P)]) U; (split; [split; [|split; [|split; [exact U|auto]]]|]).
  - intros d k id'. unfold tr. rewrite T. auto.
  - intros v'. rewrite SL. auto.
  - rewrite SL, S. discriminate.
  - intros d k id'. unfold tr. rewrite T. auto.
  - intros v'. rewrite SL. destruct (v' =? v); [discriminate|auto].
  - rewrite SL, Z.eqb_refl. discriminate.
Qed.
Lemma none_grows E E' y : no_effect E E' y -> (e_usm3 E = true -> e_usm3 E' = true) -> grows E E'.
Proof.
  intros ((T & K & C1 & C2 & C3 & C4 & C5) & -> & K' & SL & P) U. split; [|split; [|split; [exact U|auto]]].
  - intros d k id'. unfold tr. rewrite T. auto.
  - intros v'. rewrite SL. auto.
Qed.
Lemma ei_none E E' l y : EInv E l -> no_effect E E' y -> EInv E' (l ++ y).
Proof. intros I ((T & _) & -> & K & SL & P). rewrite app_nil_r. eapply ei_same; eauto. Qed.

Lemma ei_transport E l d local os E' y r : EInv E l -> transport_for E d local os = (E', y, r) -> (exists h p, local = (VStr h, p)) ->
  EInv E' (l ++ y) /\ grows E E' /\ e_users E' = e_users E /\ e_usm3 E' = e_usm3 E /\
  match r with Ok id => tr E' d local = Some id | Raise e => open_socket os local = Raise e end.
Proof.
  intros I H SK. destruct (transport_effect _ _ _ _ _ _ _ H (ei_keys _ _ I) SK) as (IK & U & SL & P & UM & CO & OUT).
  assert (G : (forall d k id, tr E d k = Some id -> tr E' d k = Some id) -> grows E E').
  { intros X. split; [exact X|]. split; [intros v; rewrite SL; auto|]. split; [congruence|]. exact CO. }
  destruct OUT as [(id & T & -> & -> & K & TR)|[(e & T & O & -> & -> & K & TR)|(T & KI & -> & -> & K & TR)]].
  - rewrite app_nil_r. split; [|split; [apply G; intros; rewrite TR; auto|split; [auto|split; [auto|rewrite TR; auto]]]].
    destruct I. constructor; auto; intros; rewrite ?TR, ?SL, ?P, ?K; auto. rewrite TR in H0. auto.
  - rewrite app_nil_r. split; [|split; [apply G; intros; rewrite TR; auto|auto]].
    destruct I. constructor; auto; intros; rewrite ?TR, ?SL, ?P, ?K; auto. rewrite TR in H0. auto.
  - pose proof (key_int_refl _ KI) as KR. assert (DR : domain_eqb d d = true) by (apply domain_eqb_eq; auto).
    split; [|split; [apply G; intros d' k id X; rewrite TR, X; auto|split; [auto|split; [auto|rewrite TR, T, DR, KR; reflexivity]]]].
    destruct I. assert (NEW : ~ In (e_count E) (connected l)) by (intros X; apply ei_less0 in X; lia).
    constructor; rewrite ?sockets_app, ?connected_app, ?processors_app; cbn [sockets connected processors]; rewrite ?app_nil_r; auto.
    + intros d' k id X. rewrite TR. apply in_app_or in X as [X|[X|[]]].
      * destruct (ei_s3 _ _ _ X) as [A B]. rewrite A. auto.
      * injection X as <- <- <-. rewrite T, DR, KR. auto.
    + intros d' k id X. rewrite TR in X. destruct (tr E d' k) as [id'|] eqn:TK.
      * injection X as ->. destruct (ei_s4 _ _ _ TK) as (k' & A & B). exists k'. split; [auto|]. apply in_or_app. auto.
      * destruct (domain_eqb d' d && key_eqb k local)%bool eqn:EQ; [|discriminate]. injection X as <-. apply andb_prop in EQ as [E1 E2]. apply domain_eqb_eq in E1 as ->.
        exists local. split; [auto|]. apply in_or_app. right. left. reflexivity.
    + rewrite map_app. apply nodup_snoc; auto. cbn. intros X. apply in_map_iff in X as (((d' & k) & id) & E1 & X). cbn in E1. injection E1 as -> ->.
      apply ei_s3 in X as [X _]. congruence.
    + rewrite map_app. apply nodup_snoc; auto. cbn. intros X. apply in_map_iff in X as (((d' & k) & id) & E1 & X). cbn in E1. subst id. apply NEW. eauto.
    + apply nodup_snoc; auto.
    + intros d' k id X. apply in_or_app. apply in_app_or in X as [X|[X|[]]]; [eauto|]. injection X as _ _ <-. right. left. reflexivity.
    + intros id X. rewrite K. apply in_app_or in X as [X|[X|[]]]; [apply ei_less0 in X; lia|lia].
    + intros v id. rewrite SL. auto.
    + intros v. rewrite P, SL. auto.
Qed.
