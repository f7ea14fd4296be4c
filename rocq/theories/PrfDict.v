(** PrfDict.v -- facts about Python dicts. *)
From Verif Require Export PrfBase.

Lemma zlist_eqb_eq a b : zlist_eqb a b = true <-> a = b.
Proof.
  revert b; induction a as [|x a IH]; intros [|y b]; cbn; split; intros H; try discriminate; auto.
  - apply andb_true_iff in H as [H1 H2]. apply IH in H2. apply Z.eqb_eq in H1. congruence.
  - injection H as -> ->. rewrite Z.eqb_refl. cbn. now apply IH.
Qed.
Lemma zlist_eqb_neq a b : zlist_eqb a b = false <-> a <> b.
Proof. rewrite <- (zlist_eqb_eq a b). destruct (zlist_eqb a b); split; congruence. Qed.
Lemma zlist_eqb_sym a b : zlist_eqb a b = zlist_eqb b a.
Proof.
  destruct (zlist_eqb a b) eqn:E; symmetry; [apply zlist_eqb_eq in E as ->; now apply zlist_eqb_eq|].
  apply zlist_eqb_neq in E. apply zlist_eqb_neq. congruence.
Qed.

Section D.
  Set Default Proof Using "All".
  Context {K V : Type} (eqb : K -> K -> bool) (OK : forall a b, eqb a b = true <-> a = b).
  Notation get := (@dict_get K V eqb).
  Notation set := (@dict_set K V eqb).
  Notation del := (@dict_del K V eqb).
  Lemma eqb_neq a b : eqb a b = false <-> a <> b.
  Proof. rewrite <- (OK a b). destruct (eqb a b); split; congruence. Qed.
  Lemma g_get_set_same d k v : get (set d k v) k = Some v.
  Proof.
    induction d as [|[k' v'] d IH]; cbn; [now rewrite (proj2 (OK k k) eq_refl)|].
    destruct (eqb k k') eqn:E; cbn; rewrite E; auto.
  Qed.
  Lemma g_get_set_other d k v k' : k' <> k -> get (set d k v) k' = get d k'.
  Proof.
    intros H. induction d as [|[k2 v2] d IH]; cbn.
    - now rewrite (proj2 (eqb_neq k' k) H).
    - destruct (eqb k k2) eqn:E; cbn.
      + apply OK in E as <-. now rewrite (proj2 (eqb_neq k' k) H).
      + destruct (eqb k' k2); auto.
  Qed.
  Lemma g_get_set d k v k' : get (set d k v) k' = if eqb k' k then Some v else get d k'.
  Proof.
    destruct (eqb k' k) eqn:E; [apply OK in E as ->; apply g_get_set_same|].
    apply g_get_set_other. now apply eqb_neq.
  Qed.
  Definition keys (d : dict K V) := map fst d.
  Lemma g_get_none d k : get d k = None <-> ~ In k (keys d).
  Proof.
    induction d as [|[k' v'] d IH]; cbn; [tauto|]. destruct (eqb k k') eqn:E.
    - apply OK in E as ->. split; [discriminate|]. intros H; elim H; now left.
    - apply eqb_neq in E. rewrite IH. firstorder.
  Qed.
  Lemma g_get_in d k v : get d k = Some v -> In (k, v) d.
  Proof.
    induction d as [|[k' v'] d IH]; cbn; [discriminate|]. destruct (eqb k k') eqn:E; [|auto].
    apply OK in E as ->. intros H; injection H as ->. now left.
  Qed.
  Lemma g_in_get d k v : NoDup (keys d) -> In (k, v) d -> get d k = Some v.
  Proof.
    induction d as [|[k' v'] d IH]; cbn; [tauto|]. intros N H. inversion N; subst.
    destruct H as [H|H]; [injection H as -> ->; now rewrite (proj2 (OK k k) eq_refl)|].
    destruct (eqb k k') eqn:E; [|auto]. apply OK in E as ->. exfalso. apply H2. now apply (in_map fst) in H.
  Qed.
  Lemma g_keys_set d k v : keys (set d k v) = if dict_mem eqb d k then keys d else keys d ++ [k].
  Proof.
    unfold dict_mem, keys. induction d as [|[k' v'] d IH]; cbn; [reflexivity|].
    destruct (eqb k k') eqn:E; cbn; [reflexivity|]. rewrite IH. destruct (dict_get eqb d k); reflexivity.
  Qed.
  Lemma g_nodup_set d k v : NoDup (keys d) -> NoDup (keys (set d k v)).
  Proof.
    intros H. rewrite g_keys_set. destruct (dict_mem eqb d k) eqn:E; auto.
    unfold dict_mem in E. destruct (get d k) eqn:G; [discriminate|]. apply g_get_none in G.
    rewrite <- rev_involutive. apply NoDup_rev. rewrite rev_app_distr. cbn. constructor; [rewrite <- in_rev; exact G|].
    now apply NoDup_rev.
  Qed.
  Lemma g_keys_del_in d k x : In x (keys (del d k)) -> In x (keys d).
  Proof.
    induction d as [|[k' v'] d IH]; cbn; [tauto|]. destruct (eqb k k'); cbn; [tauto|]. intros [H|H]; auto.
  Qed.
  Lemma g_nodup_del d k : NoDup (keys d) -> NoDup (keys (del d k)).
  Proof.
    induction d as [|[k' v'] d IH]; cbn; intros H; [auto|]. inversion H; subst. destruct (eqb k k'); cbn; auto.
    constructor; auto. intros X. apply g_keys_del_in in X. contradiction.
  Qed.
  Lemma g_get_del_same d k : NoDup (keys d) -> get (del d k) k = None.
  Proof.
    induction d as [|[k' v'] d IH]; cbn; intros H; [auto|]. inversion H; subst. destruct (eqb k k') eqn:E.
    - apply OK in E as ->. now apply g_get_none.
    - cbn. rewrite E. auto.
  Qed.
  Lemma g_get_del_other d k k' : k' <> k -> get (del d k) k' = get d k'.
  Proof.
    intros N. induction d as [|[k2 v2] d IH]; cbn; [auto|]. destruct (eqb k k2) eqn:E.
    - apply OK in E as <-. now rewrite (proj2 (eqb_neq k' k) N).
    - cbn. destruct (eqb k' k2); auto.
  Qed.
  Lemma g_set_same d k v : get d k = Some v -> set d k v = d.
  Proof.
    induction d as [|[k' v'] d IH]; cbn; [discriminate|]. destruct (eqb k k'); intros H; [congruence|]. now rewrite IH.
  Qed.
End D.

Notation get_set_same := (@g_get_set_same (list Z) _ zlist_eqb zlist_eqb_eq).
Notation get_set_other := (@g_get_set_other (list Z) _ zlist_eqb zlist_eqb_eq).
Notation get_set := (@g_get_set (list Z) _ zlist_eqb zlist_eqb_eq).
Notation get_none := (@g_get_none (list Z) _ zlist_eqb zlist_eqb_eq).
Notation get_in := (@g_get_in (list Z) _ zlist_eqb zlist_eqb_eq).
Notation in_get := (@g_in_get (list Z) _ zlist_eqb zlist_eqb_eq).
Notation keys_set := (@g_keys_set (list Z) _ zlist_eqb zlist_eqb_eq).
Notation nodup_set := (@g_nodup_set (list Z) _ zlist_eqb zlist_eqb_eq).
Notation keys_del_in := (@g_keys_del_in (list Z) _ zlist_eqb zlist_eqb_eq).
Notation nodup_del := (@g_nodup_del (list Z) _ zlist_eqb zlist_eqb_eq).
Notation get_del_same := (@g_get_del_same (list Z) _ zlist_eqb zlist_eqb_eq).
Notation get_del_other := (@g_get_del_other (list Z) _ zlist_eqb zlist_eqb_eq).
Notation set_same := (@g_set_same (list Z) _ zlist_eqb zlist_eqb_eq).
Notation zget_set_same := (g_get_set_same Z.eqb Z.eqb_eq).
Notation zget_set_other := (g_get_set_other Z.eqb Z.eqb_eq).
Notation zget_set := (g_get_set Z.eqb Z.eqb_eq).
Notation zget_none := (g_get_none Z.eqb Z.eqb_eq).
Notation zget_in := (g_get_in Z.eqb Z.eqb_eq).
Notation zin_get := (g_in_get Z.eqb Z.eqb_eq).
Notation zkeys_set := (g_keys_set Z.eqb Z.eqb_eq).
Notation znodup_set := (g_nodup_set Z.eqb Z.eqb_eq).
Notation zkeys_del_in := (g_keys_del_in Z.eqb Z.eqb_eq).
Notation znodup_del := (g_nodup_del Z.eqb Z.eqb_eq).
Notation zget_del_same := (g_get_del_same Z.eqb Z.eqb_eq).
Notation zget_del_other := (g_get_del_other Z.eqb Z.eqb_eq).
Notation zset_same := (g_set_same Z.eqb Z.eqb_eq).
