(** PrfEngine.v -- proofs about Engine (C51, C58). *)
From Verif Require Import PrfBase PrfDict PrfUsers PrfUsmProps PrfTrans.
From Verif Require Export SpecEngine.
Require Import Lia.
Open Scope Z_scope.

(** * Dictionaries *)
Lemma set_absent {K V} (eqb : K -> K -> bool) (d : dict K V) k v : dict_get eqb d k = None -> dict_set eqb d k v = d ++ [(k, v)].
Proof. induction d as [|[k' v'] d IH]; cbn; [auto|]. destruct (eqb k k'); [discriminate|]. intros H. rewrite IH; auto. Qed.
Lemma get_app {K V} (eqb : K -> K -> bool) (a b : dict K V) k : dict_get eqb (a ++ b) k = match dict_get eqb a k with Some v => Some v | None => dict_get eqb b k end.
Proof. induction a as [|[k' v'] a IH]; cbn; [auto|]. destruct (eqb k k'); auto. Qed.
Lemma domain_eqb_eq a b : domain_eqb a b = true <-> a = b.
Proof. unfold domain_eqb. destruct (domain_eq_dec a b); split; auto; discriminate. Qed.
Lemma domain_get_set {V} (m : dict domain V) d v d' : dict_get domain_eqb (dict_set domain_eqb m d v) d' = if domain_eqb d' d then Some v else dict_get domain_eqb m d'.
Proof.
  induction m as [|[k x] m IH]; cbn.
  - destruct (domain_eqb d' d); reflexivity.
  - destruct (domain_eqb d k) eqn:E; cbn.
    + apply domain_eqb_eq in E as ->. destruct (domain_eqb d' k); reflexivity.
    + destruct (domain_eqb d' k) eqn:F; [|exact IH]. apply domain_eqb_eq in F as ->. destruct (domain_eqb k d) eqn:G; [|reflexivity].
      apply domain_eqb_eq in G as ->. exfalso. assert (domain_eqb d d = true) by (apply domain_eqb_eq; auto). congruence.
Qed.

(** * Keys *)
Definition int_key (k : key) : Prop := exists h z, k = (VStr h, VInt z).
Lemma key_int_refl k : int_key k -> key_eqb k k = true.
Proof. intros (h & z & ->). unfold key_eqb. cbn. rewrite Z.eqb_refl. assert (zlist_eqb h h = true) as -> by (apply zlist_eqb_eq; auto). reflexivity. Qed.
Lemma key_int_same k k' : int_key k' -> key_eqb k k' = true <-> same_address k k'.
Proof.
  intros (h & z & ->). destruct k as [a b]. unfold key_eqb, same_address. cbn. rewrite Bool.andb_true_iff. split.
  - intros [A B]. split.
    + destruct a as [|x| | | |]; try discriminate. apply zlist_eqb_eq in A as ->. eauto.
    + destruct b as [| |x|[q|n|]| |]; cbn in B; try discriminate.
      * apply Z.eqb_eq in B as ->. eexists _, _. cbn. split; [reflexivity|]. split; [reflexivity|]. reflexivity.
      * apply Qeq_bool_iff in B. eexists _, _. cbn. split; [reflexivity|]. split; [reflexivity|]. exact B.
  - intros [(h0 & -> & [= <-]) (x & y & X & [= <-] & Q)]. split; [apply zlist_eqb_eq; auto|].
    destruct b as [| |w|[q|n|]| |]; cbn in X; try discriminate; injection X as <-; cbn.
    + apply Z.eqb_eq. unfold inject_Z, Qeq in Q. cbn in Q. lia.
    + apply Qeq_bool_iff. exact Q.
Qed.
Lemma same_sym a b : same_address a b -> same_address b a.
Proof. intros [(h & A & B) (x & y & X & Y & Q)]. split; [eauto|]. exists y, x. repeat split; auto. symmetry. exact Q. Qed.
Lemma same_trans a b c : same_address a b -> same_address b c -> same_address a c.
Proof.
  intros [(h & A & B) (x & y & X & Y & Q)] [(h' & A' & B') (x' & y' & X' & Y' & Q')]. split.
  - exists h. split; [auto|]. congruence.
  - exists x, y'. repeat split; auto. rewrite Y in X'. injection X' as <-. etransitivity; eauto.
Qed.
Lemma int_same_eq a b : int_key a -> int_key b -> same_address a b -> a = b.
Proof.
  intros (h & z & ->) (h' & z' & ->) [(h0 & [= <-] & [= <-]) (x & y & [= <-] & [= <-] & Q)]. unfold inject_Z, Qeq in Q. cbn in Q. f_equal. f_equal. lia.
Qed.

(** * What each call does to the transports *)
Definition tr (E : engine) (d : domain) (k : key) : option nat :=
  match dict_get domain_eqb (e_transports E) d with Some t => dict_get key_eqb t k | None => None end.
Definition int_keys (E : engine) : Prop := forall d t k id, dict_get domain_eqb (e_transports E) d = Some t -> In (k, id) t -> int_key k.
(** Manager() is: nothing, or the transport, followed by something that leaves transports alone. *)
Definition same_transports (E E' : engine) : Prop := e_transports E' = e_transports E /\ (e_count E <= e_count E')%nat /\
  e_version E' = e_version E /\ e_domain E' = e_domain E /\ e_secmodel E' = e_secmodel E /\ e_community E' = e_community E /\ e_autowait E' = e_autowait E.

(** The processors. *)
Definition slot (E : engine) (v : Z) : option nat :=
  if v =? 0 then e_mpv1 E else if v =? 1 then e_mpv2c E else if v =? 3 then e_mpv3 E else None.
Lemma zget_set {V} (d : dict Z V) k v k' : dict_get Z.eqb (dict_set Z.eqb d k v) k' = if k' =? k then Some v else dict_get Z.eqb d k'.
Proof.
  induction d as [|[a x] d IH]; cbn; [destruct (k' =? k); reflexivity|]. destruct (k =? a) eqn:E; cbn.
  - apply Z.eqb_eq in E as ->. destruct (k' =? a); reflexivity.
  - destruct (k' =? a) eqn:F; [|exact IH]. destruct (k' =? k) eqn:G; [lia|reflexivity].
Qed.

(** Effect of one of the three functions: the processor of its version exists afterwards. *)
Definition proc_effect (E : engine) (v : Z) (E' : engine) (l : list elog) : Prop :=
  same_transports E E' /\
  ((exists id, slot E v = Some id /\ l = [] /\ e_count E' = e_count E /\ (forall v', slot E' v' = slot E v') /\ e_procs E' = e_procs E) \/
   (slot E v = None /\ l = [EProcessor v (e_count E)] /\ e_count E' = S (e_count E) /\
    (forall v', slot E' v' = if v' =? v then Some (e_count E) else slot E v') /\ e_procs E' = dict_set Z.eqb (e_procs E) v (e_count E))).
Definition no_effect (E E' : engine) (l : list elog) : Prop :=
  same_transports E E' /\ l = [] /\ e_count E' = e_count E /\ (forall v', slot E' v' = slot E v') /\ e_procs E' = e_procs E.
Lemma no_effect_refl E : no_effect E E [].
Proof. repeat split; auto. Qed.

Lemma v1_effect E ch aw kw E' l r : v1Manager E ch aw kw = (E', l, r) ->
  e_users E' = e_users E /\
  (no_effect E E' l /\ r = Raise TypeError /\ kw_v3 kw = true \/ proc_effect E 0 E' l /\ r = Ok (SNMPv1Manager ch aw (or_default (kw_community kw) (e_community E)))).
Proof.
  unfold v1Manager. destruct (kw_v3 kw) eqn:K; [intros H; injection H as <- <- <-; split; [auto|left; auto using no_effect_refl]|].
  destruct (e_mpv1 E) as [id|] eqn:P; intros H; injection H as <- <- <-; (split; [auto|]); right; (split; [|reflexivity]); (split; [repeat split; cbn; auto|]).
  - left. exists id. repeat split; auto.
  - right. repeat split; auto. intros v'. unfold slot. cbn. destruct (v' =? 0); auto.
Qed.
Lemma v2c_effect E ch aw kw E' l r : v2cManager E ch aw kw = (E', l, r) ->
  e_users E' = e_users E /\
  (no_effect E E' l /\ r = Raise TypeError /\ kw_v3 kw = true \/ proc_effect E 1 E' l /\ r = Ok (SNMPv2cManager ch aw (or_default (kw_community kw) (e_community E)))).
Proof.
  unfold v2cManager. destruct (kw_v3 kw) eqn:K; [intros H; injection H as <- <- <-; split; [auto|left; auto using no_effect_refl]|].
  destruct (e_mpv2c E) as [id|] eqn:P; intros H; injection H as <- <- <-; (split; [auto|]); right; (split; [|reflexivity]); (split; [repeat split; cbn; auto|]).
  - left. exists id. repeat split; auto.
  - right. repeat split; auto. intros v'. unfold slot. cbn. destruct (v' =? 1) eqn:A, (v' =? 0) eqn:B; auto. lia.
Qed.

Section WithCrypto.
Variable C : crypto.
Variable rnd : nat -> Z.
Variable inet : domain -> pystr -> res bytes.

Definition user_for (u : registry) (kw : kwargs) (ns : pystr) : res bytes :=
  match kw_user kw with
  | Some n => Ok n
  | None => do n <- getDefaultUser u ns; match n with Some n => Ok n | None => Raise NoDefaultUser end
  end.
Definition level_for (u : registry) (kw : kwargs) (ns : pystr) (user : bytes) : res seclevel :=
  match kw_level kw with Some l => Ok l | None => getDefaultSecurityLevel u user ns end.
Inductive v3_outcome (E : engine) (ch : channel) (aw : bool) (kw : kwargs) : registry -> res manager -> Prop :=
| V3Model : or_default (kw_secmodel kw) (e_secmodel E) <> 3 -> v3_outcome E ch aw kw (e_users E) (Raise ValueError)
| V3User e : or_default (kw_secmodel kw) (e_secmodel E) = 3 -> user_for (e_users E) kw (or_default (kw_namespace kw) []) = Raise e -> v3_outcome E ch aw kw (e_users E) (Raise e)
| V3Level user e : or_default (kw_secmodel kw) (e_secmodel E) = 3 -> user_for (e_users E) kw (or_default (kw_namespace kw) []) = Ok user ->
    level_for (e_users E) kw (or_default (kw_namespace kw) []) user = Raise e -> v3_outcome E ch aw kw (e_users E) (Raise e)
| V3Made user level : or_default (kw_secmodel kw) (e_secmodel E) = 3 -> user_for (e_users E) kw (or_default (kw_namespace kw) []) = Ok user ->
    level_for (e_users E) kw (or_default (kw_namespace kw) []) user = Ok level -> kw_engineID kw = None ->
    v3_outcome E ch aw kw (e_users E) (Ok (SNMPv3Manager ch aw (or_default (kw_namespace kw) []) user level None))
| V3Registered user level e u ok : or_default (kw_secmodel kw) (e_secmodel E) = 3 -> user_for (e_users E) kw (or_default (kw_namespace kw) []) = Ok user ->
    level_for (e_users E) kw (or_default (kw_namespace kw) []) user = Ok level -> kw_engineID kw = Some e ->
    ur_assign C rnd (e_users E) e (or_default (kw_namespace kw) []) = (u, ok) ->
    v3_outcome E ch aw kw u (do ok <- ok; if ok : bool then Ok (SNMPv3Manager ch aw (or_default (kw_namespace kw) []) user level (Some e)) else Raise DiscoveryError).

Lemma v3_effect E ch aw kw E' l r : v3Manager C rnd E ch aw kw = (E', l, r) ->
  v3_outcome E ch aw kw (e_users E') r /\
  (no_effect E E' l /\ (exists e, r = Raise e) \/ proc_effect E 3 E' l) /\ ((exists m, r = Ok m) -> e_usm3 E' = true /\ proc_effect E 3 E' l).
Proof.
  unfold v3Manager. fold (@or_default pystr (kw_namespace kw) []).
  destruct (match kw_secmodel kw with Some m => _ | None => _ end) as [model|e] eqn:M.
  2: { intros H. injection H as <- <- <-. destruct (kw_secmodel kw) as [m|] eqn:KM; [|discriminate]. destruct (m =? USM_MODEL) eqn:MU; [discriminate|]. injection M as <-.
       split; [apply V3Model; rewrite KM; cbn; apply Z.eqb_neq in MU; exact MU|]. split; [left; split; [apply no_effect_refl|eauto]|]. intros (m' & X). discriminate. }
  set (EP := match e_mpv3 E with Some _ => _ | None => _ end).
  destruct EP as [E1 l1] eqn:EPE.
  assert (P : proc_effect E 3 E1 l1 /\ e_users E1 = e_users E /\ e_secmodel E1 = e_secmodel E /\ e_usm3 E1 = e_usm3 E).
  { subst EP. destruct (e_mpv3 E) as [id|] eqn:P; injection EPE as <- <-; cbn; (split; [|auto]); (split; [repeat split; cbn; auto|]).
    - left. exists id. repeat split; auto.
    - right. repeat split; auto. intros v'. unfold slot. cbn. destruct (v' =? 3) eqn:A, (v' =? 0) eqn:B, (v' =? 1) eqn:D; auto; lia. }
  assert (MODEL : or_default (kw_secmodel kw) (e_secmodel E) = model).
  { destruct (kw_secmodel kw) as [m|]; cbn; [destruct (m =? USM_MODEL); [|discriminate]|]; injection M as <-; reflexivity. }
  clear EP EPE. destruct P as (P & U & SM & UM). cbv zeta.
  destruct (model =? USM_MODEL) eqn:MM.
  2: { intros H. injection H as <- <- <-. rewrite U. split; [|split; [auto|intros (m' & X); discriminate]].
       apply V3Model. rewrite MODEL. apply Z.eqb_neq in MM. exact MM. }
  assert (M3 : or_default (kw_secmodel kw) (e_secmodel E) = 3) by (apply Z.eqb_eq in MM; rewrite MODEL; exact MM).
  rewrite U. fold (user_for (e_users E) kw (or_default (kw_namespace kw) [])).
  destruct (user_for (e_users E) kw (or_default (kw_namespace kw) [])) as [user|e] eqn:UF; cbn [bind].
  2: { intros H. injection H as <- <- <-. rewrite U. split; [apply V3User; auto|]. split; [auto|intros (m' & X); discriminate]. }
  fold (level_for (e_users E) kw (or_default (kw_namespace kw) []) user).
  destruct (level_for (e_users E) kw (or_default (kw_namespace kw) []) user) as [level|e] eqn:LF; cbn [bind].
  2: { intros H. injection H as <- <- <-. rewrite U. split; [eapply V3Level; eauto|]. split; [auto|intros (m' & X); discriminate]. }
  assert (PE : forall u, proc_effect E 3 (mkEngine (e_version E1) (e_domain E1) (e_secmodel E1) (e_community E1) (e_autowait E1) (e_transports E1)
                   (e_mpv1 E1) (e_mpv2c E1) (e_mpv3 E1) (e_procs E1) true u (e_count E1)) l1) by (intros u; exact P).
  destruct (kw_engineID kw) as [e|] eqn:KE.
  - cbn [e_users]. destruct (ur_assign C rnd (e_users E) e (or_default (kw_namespace kw) [])) as [u ok] eqn:RA. intros H. injection H as <- <- <-. cbn [set_users e_users e_usm3].
    split; [eapply V3Registered; eauto|]. split; [right; apply PE|]. intros _. split; [reflexivity|apply PE].
  - intros H. injection H as <- <- <-. cbn [e_users e_usm3].
    split; [eapply V3Made; eauto|]. split; [right; apply PE|]. intros _. split; [reflexivity|apply PE].
Qed.

(** The transport of a call. *)
Definition with_default (t : option (dict key nat)) : dict key nat := match t with Some t => t | None => [] end.
Lemma transport_effect E d local os E' l r : transport_for E d local os = (E', l, r) -> int_keys E -> (exists h p, local = (VStr h, p)) ->
  int_keys E' /\ e_users E' = e_users E /\ (forall v, slot E' v = slot E v) /\ e_procs E' = e_procs E /\ e_usm3 E' = e_usm3 E /\
  (e_version E' = e_version E /\ e_domain E' = e_domain E /\ e_secmodel E' = e_secmodel E /\ e_community E' = e_community E /\ e_autowait E' = e_autowait E) /\
  ((exists id, tr E d local = Some id /\ r = Ok id /\ l = [] /\ e_count E' = e_count E /\ (forall d' k, tr E' d' k = tr E d' k)) \/
   (exists e, tr E d local = None /\ open_socket os local = Raise e /\ r = Raise e /\ l = [] /\ e_count E' = e_count E /\ (forall d' k, tr E' d' k = tr E d' k)) \/
   (tr E d local = None /\ int_key local /\ r = Ok (e_count E) /\ l = [ESocket d local (e_count E); EConnected (e_count E)] /\ e_count E' = S (e_count E) /\
    (forall d' k, tr E' d' k = match tr E d' k with Some id => Some id | None => if domain_eqb d' d && key_eqb k local then Some (e_count E) else None end))).
Proof.
  unfold transport_for. fold (with_default (dict_get domain_eqb (e_transports E) d)). intros H IK SK.
  assert (T0 : tr E d local = dict_get key_eqb (with_default (dict_get domain_eqb (e_transports E) d)) local) by (unfold tr; destruct (dict_get domain_eqb _ _); reflexivity).
  assert (SAME : forall d' k, match dict_get domain_eqb (dict_set domain_eqb (e_transports E) d (with_default (dict_get domain_eqb (e_transports E) d))) d' with Some t => dict_get key_eqb t k | None => None end = tr E d' k).
  { intros d' k. rewrite domain_get_set. destruct (domain_eqb d' d) eqn:DD; [|reflexivity]. apply domain_eqb_eq in DD as ->. unfold tr. destruct (dict_get domain_eqb _ _); reflexivity. }
  assert (IK' : forall d' t k id, dict_get domain_eqb (dict_set domain_eqb (e_transports E) d (with_default (dict_get domain_eqb (e_transports E) d))) d' = Some t -> In (k, id) t -> int_key k).
  { intros d' t k id. rewrite domain_get_set. destruct (domain_eqb d' d) eqn:DD; [|apply IK]. intros [= <-] I.
    unfold with_default in I. destruct (dict_get domain_eqb (e_transports E) d) eqn:G; [|destruct I]. eapply IK; eauto. }
  destruct (dict_get key_eqb (with_default (dict_get domain_eqb (e_transports E) d)) local) as [id|] eqn:K.
  - injection H as <- <- <-. split; [exact IK'|]. do 4 (split; [reflexivity|]). split; [repeat split; reflexivity|]. left. exists id. auto 9.
  - destruct (open_socket os local) as [[]|e] eqn:O.
    + injection H as <- <- <-. assert (KI : int_key local).
      { destruct SK as (h & p & ->). unfold open_socket in O. cbn in O. destruct p; try discriminate. exists h, z. reflexivity. }
      split.
      { intros d' t k id. cbn. rewrite domain_get_set. destruct (domain_eqb d' d) eqn:DD; [|apply IK]. intros [= <-] I. rewrite set_absent in I by auto.
        apply in_app_or in I as [I|[I|[]]].
        - unfold with_default in I. destruct (dict_get domain_eqb (e_transports E) d) eqn:G; [|destruct I]. eapply IK; eauto.
        - injection I as <- <-. exact KI. }
      do 4 (split; [reflexivity|]). split; [repeat split; reflexivity|]. right. right. split; [auto|]. split; [auto|]. do 3 (split; [reflexivity|]).
      intros d' k. unfold tr. cbn. rewrite domain_get_set. destruct (domain_eqb d' d) eqn:DD; cbn [andb].
      * apply domain_eqb_eq in DD as ->. rewrite set_absent by auto. rewrite get_app. cbn. destruct (dict_get domain_eqb (e_transports E) d); reflexivity.
      * destruct (match dict_get domain_eqb (e_transports E) d' with Some t => _ | None => _ end); reflexivity.
    + injection H as <- <- <-. split; [exact IK'|]. do 4 (split; [reflexivity|]). split; [repeat split; reflexivity|]. right. left. exists e. auto 9.
Qed.
End WithCrypto.
