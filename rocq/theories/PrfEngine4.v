(** PrfEngine4.v -- histories of an Engine (C51, C58). *)
From Verif Require Import PrfBase PrfDict PrfUsers PrfUsmProps PrfTrans.
From Verif Require Export PrfEngine3.
Require Import Lia.
Open Scope Z_scope.

Lemma spec_run_app C a : forall s s1 r1 b s2 r2, spec_run C s a s1 r1 -> spec_run C s1 b s2 r2 -> spec_run C s (a ++ b) s2 (r1 ++ r2).
Proof.
  induction a as [|op a IH]; intros s s1 r1 b s2 r2 A B; inversion A; subst; [exact B|]. cbn. econstructor; eauto.
Qed.
Lemma ei_connect E l d E' y r : EInv E l -> connectTransport E d = (E', y, r) -> EInv E' (l ++ y) /\ grows E E' /\ e_users E' = e_users E.
Proof.
  intros I H. unfold connectTransport in H. destruct (dict_mem domain_eqb (e_transports E) d) eqn:M; [injection H as <- <- <-; rewrite app_nil_r; auto using grows_refl|].
  destruct (negb (supported d)); [injection H as <- <- <-; rewrite app_nil_r; auto using grows_refl|]. injection H as <- <- <-.
  assert (N : dict_get domain_eqb (e_transports E) d = None) by (unfold dict_mem in M; destruct (dict_get domain_eqb (e_transports E) d); [discriminate|auto]).
  match goal with |- EInv ?x _ /\ _ => set (E' := x) end.
  assert (TR : forall d' k, tr E' d' k = tr E d' k).
  { intros d' k. unfold tr, E'. cbn. rewrite domain_get_set. destruct (domain_eqb d' d) eqn:X; [|reflexivity]. apply domain_eqb_eq in X as ->. rewrite N. reflexivity. }
  assert (SL : forall v, slot E' v = slot E v) by reflexivity.
  split; [|split; [|reflexivity]].
  - destruct I as [ei_keys0 ei_s3 ei_s4 ei_once0 ei_ids0 ei_conn0 ei_incl0 ei_less0 ei_ponce0 ei_slot0 ei_procs0]. constructor; rewrite ?sockets_app, ?connected_app, ?processors_app; cbn [sockets connected processors]; rewrite ?app_nil_r; auto.
    + intros d' t k id X Y. unfold E' in X. cbn in X. rewrite domain_get_set in X. destruct (domain_eqb d' d); [injection X as <-; destruct Y|]. eapply ei_keys0; eauto.
    + intros. rewrite TR. auto.
    + intros d' k id X. rewrite TR in X. auto.
    + apply nodup_snoc; auto. intros X. apply ei_less0 in X. lia.
    + intros d' k id X. apply in_or_app. left. eauto.
    + intros id X. cbn. apply in_app_or in X as [X|[X|[]]]; [apply ei_less0 in X; lia|lia].
  - split; [intros d' k id X; rewrite TR; auto|]. split; [auto|]. split; [auto|]. cbn. auto.
Qed.

Lemma step_spec G E l s c E' y r : setting_ok G -> call_ok c -> agrees G E -> EInv E l -> UInv (g_crypto G) (e_users E) s ->
  engine_step (g_crypto G) (g_rnd G) (g_inet G) E c = (E', y, r) ->
  EInv E' (l ++ y) /\ grows E E' /\ user_ops_ok (g_crypto G) s c r (e_users E') /\ (forall m, r = RManager (Ok m) -> good E' m).
Proof.
  intros SO CO AG EI U H. destruct c as [a v d loc aw kw os|d|op]; cbn in H, CO.
  - destruct (Manager _ _ _ E a v d loc aw kw os) as [[E1 y1] r1] eqn:M. injection H as <- <- <-.
    destruct (manager_spec _ _ _ _ _ _ _ _ _ _ _ _ _ _ SO AG EI U CO M) as (A & B & D & F). split; [auto|]. split; [auto|]. split; [auto|].
    intros m [= ->]. apply F.
  - destruct (connectTransport E d) as [[E1 y1] r1] eqn:M. injection H as <- <- <-. destruct (ei_connect _ _ _ _ _ _ EI M) as (A & B & D).
    split; [auto|]. split; [auto|]. split; [|discriminate]. exists s, []. split; [constructor|]. rewrite D. exact U.
  - destruct (user_step (g_crypto G) (g_rnd G) (e_users E) op) as [u r1] eqn:M. injection H as <- <- <-. rewrite app_nil_r.
    split; [eapply ei_same; eauto|]. split; [split; [auto|split; [auto|split; [auto|cbn; auto]]]|]. split; [|discriminate].
    destruct U as (UI & UW & UD). destruct (step_refines (g_crypto G) (g_rnd G) (e_users E) s op (proj1 SO) CO UI UW) as (s' & S & I' & W'). rewrite M in S, I'. cbn in S, I'.
    exists s', [r1]. split; [econstructor; [exact S|constructor]|]. split; [exact I'|]. split; [exact W'|]. eapply def_in_step; eauto.
Qed.

Lemma run_spec G cs : setting_ok G -> Forall call_ok cs -> forall E l s E' y rs, agrees G E -> EInv E l -> UInv (g_crypto G) (e_users E) s ->
  engine_run (g_crypto G) (g_rnd G) (g_inet G) E cs = (E', y, rs) ->
  EInv E' (l ++ y) /\ grows E E' /\ (exists s' us, spec_run (g_crypto G) s (all_ops cs rs) s' us /\ UInv (g_crypto G) (e_users E') s') /\
  (forall m, In (RManager (Ok m)) rs -> good E' m).
Proof.
  intros SO. induction cs as [|c cs IH]; intros F E l s E' y rs AG EI U H.
  - injection H as <- <- <-. rewrite app_nil_r. split; [auto|]. split; [apply grows_refl|]. split; [exists s, []; split; [constructor|auto]|]. intros m [].
  - cbn [engine_run] in H. destruct (engine_step _ _ _ E c) as [[E1 y1] r] eqn:ST. destruct (engine_run _ _ _ E1 cs) as [[E2 y2] rs2] eqn:RU. injection H as <- <- <-.
    inversion F; subst. destruct (step_spec _ _ _ _ _ _ _ _ SO H1 AG EI U ST) as (A & B & (s1 & us1 & S1 & U1) & D).
    destruct (IH H2 E1 (l ++ y1) s1 E2 y2 rs2 (agrees_grows _ _ _ AG B) A U1 RU) as (A' & B' & (s2 & us2 & S2 & U2) & D').
    rewrite app_assoc. split; [auto|]. split; [eapply grows_trans; eauto|]. split.
    + exists s2. eexists. split; [|exact U2]. cbn. eapply spec_run_app; eauto.
    + intros m [X|X]; [|auto]. subst r. eapply good_grows; eauto.
Qed.
Lemma ei0 G : EInv (fresh G) [].
Proof.
  assert (SN : forall v, slot (fresh G) v = None) by (intros v; unfold slot; cbn; destruct (v =? 0), (v =? 1), (v =? 3); reflexivity).
  constructor; cbn [sockets connected processors map]; try apply NoDup_nil; try (intros; contradiction).
  - intros d t k id. cbn. discriminate.
  - intros d k id. cbn. discriminate.
  - intros v id. rewrite SN. split; [intros []|discriminate].
  - intros v. rewrite SN. reflexivity.
Qed.
Lemma history_spec G cs E l rs : setting_ok G -> Forall call_ok cs -> engine_history G cs E l rs ->
  EInv E l /\ agrees G E /\ (exists s us, spec_run (g_crypto G) uspec0 (all_ops cs rs) s us /\ UInv (g_crypto G) (e_users E) s) /\
  (forall m, In (RManager (Ok m)) rs -> good E m).
Proof.
  intros SO F H. assert (AG : agrees G (fresh G)) by (repeat split). destruct (run_spec G cs SO F (fresh G) [] uspec0 E l rs AG (ei0 G) (uinv0 _) H) as (A & B & D & D').
  split; [exact A|]. split; [eapply agrees_grows; eauto|]. auto.
Qed.

Lemma nodup_fst {A B} (l : list (A * B)) a b b' : NoDup (map fst l) -> In (a, b) l -> In (a, b') l -> b = b'.
Proof.
  induction l as [|[x y] l IH]; cbn; [intros _ []|]. intros N. inversion N; subst. intros [X|X] [Y|Y].
  - congruence.
  - injection X as -> ->. elim H1. apply in_map_iff. exists (a, b'). auto.
  - injection Y as -> ->. elim H1. apply in_map_iff. exists (a, b). auto.
  - auto.
Qed.
Lemma nodup_snd {A B} (l : list (A * B)) a a' b : NoDup (map snd l) -> In (a, b) l -> In (a', b) l -> a = a'.
Proof.
  induction l as [|[x y] l IH]; cbn; [intros _ []|]. intros N. inversion N; subst. intros [X|X] [Y|Y].
  - congruence.
  - injection X as -> ->. elim H1. apply in_map_iff. exists (a', b). auto.
  - injection Y as -> ->. elim H1. apply in_map_iff. exists (a, b). auto.
  - auto.
Qed.
Lemma shared_transport E l m m' : EInv E l -> good E m -> good E m' ->
  (ch_transport (channel_of m) = ch_transport (channel_of m') <->
   ch_domain (channel_of m) = ch_domain (channel_of m') /\ same_address (ch_local (channel_of m)) (ch_local (channel_of m'))).
Proof.
  intros I (T & _) (T' & _). destruct (ei_s2 _ _ I _ _ _ T) as (k & K & S), (ei_s2 _ _ I _ _ _ T') as (k' & K' & S').
  assert (IK : int_key k) by apply (ei_s1 _ _ I _ _ _ S). assert (IK' : int_key k') by apply (ei_s1 _ _ I _ _ _ S').
  apply (key_int_same _ _ IK) in K. apply (key_int_same _ _ IK') in K'. split.
  - intros X. rewrite X in S. pose proof (nodup_snd _ _ _ _ (ei_ids _ _ I) S S') as Y. injection Y as D ->. split; [auto|]. eapply same_trans; [exact K|]. apply same_sym. exact K'.
  - intros [D SA]. assert (k = k').
    { apply int_same_eq; auto. eapply same_trans; [apply same_sym; exact K|]. eapply same_trans; [exact SA|exact K']. }
    subst k'. rewrite D in S. eapply nodup_fst; [apply (ei_once _ _ I)|exact S|exact S'].
Qed.

(** * connectTransport() *)
Definition has (E : engine) (d : domain) : bool := dict_mem domain_eqb (e_transports E) d.
Lemma has_set {V} (m : dict domain V) d v d' : dict_mem domain_eqb (dict_set domain_eqb m d v) d' = (domain_eqb d' d || dict_mem domain_eqb m d')%bool.
Proof. unfold dict_mem. rewrite domain_get_set. destruct (domain_eqb d' d); reflexivity. Qed.
Lemma has_same E E' : e_transports E' = e_transports E -> forall d, has E' d = has E d.
Proof. intros H d. unfold has. rewrite H. reflexivity. Qed.
Lemma has_manager G E a v dom loc aw kw os E' y r d : agrees G E -> Manager (g_crypto G) (g_rnd G) (g_inet G) E a v dom loc aw kw os = (E', y, r) ->
  (has E' d = true <-> has E d = true \/ takes G d (GManager a v dom loc aw kw os, RManager r)).
Proof.
  intros (_ & G2 & _) H. unfold Manager in H. rewrite G2 in H. cbn [takes].
  change (match dom with Some d => d | None => g_domain G end) with (or_default dom (g_domain G)) in H. set (D := or_default dom (g_domain G)) in *.
  destruct (supported D) eqn:SD; cbn [negb] in H.
  2: { injection H as <- _ _. split; [auto|]. intros [X|(X & N & _)]; [auto|]. subst d. destruct D as [| |n]; try discriminate. elim (N n). reflexivity. }
  assert (ND : forall n, D <> DOther n) by (intros n X; rewrite X in SD; discriminate).
  destruct (normalizeAddress (g_inet G) D a (Some LISTENER)) as [ka|e] eqn:NA; cbn [bind] in H.
  2: { injection H as <- _ _. split; [auto|]. intros [X|(X & N & (k & Y) & _)]; [auto|]. subst d. congruence. }
  destruct (normalizeAddress (g_inet G) D loc (Some SENDER)) as [kl|e] eqn:NL; cbn [bind] in H.
  2: { injection H as <- _ _. split; [auto|]. intros [X|(X & N & _ & (k & Y))]; [auto|]. subst d. congruence. }
  destruct (transport_for E D kl os) as [[E1 y1] t] eqn:TF.
  assert (H1 : has E1 d = (domain_eqb d D || has E d)%bool).
  { unfold transport_for in TF. destruct (dict_get key_eqb _ kl) in TF; [|destruct (open_socket os kl) in TF]; injection TF as <- _ _; unfold has; cbn; apply has_set. }
  assert (HE : has E' d = has E1 d).
  { apply has_same. destruct t as [id|]; [|injection H as <- _ _; reflexivity]. destruct (match v with Some v => _ | None => _ end) as [a0|]; [|injection H as <- _ _; reflexivity].
    match type of H with (let '(p, r) := ?x in _) = _ => destruct x as [[E2 y2] r2] eqn:X end. injection H as <- _ _.
    destruct (a0 =? VERSION3); [apply v3_effect in X as (_ & [[((T & _) & _) _]|((T & _) & _)] & _); exact T|].
    destruct (a0 =? VERSION2c); [apply v2c_effect in X as (_ & [[((T & _) & _) _]|[((T & _) & _) _]]); exact T|].
    destruct (a0 =? VERSION1); [apply v1_effect in X as (_ & [[((T & _) & _) _]|[((T & _) & _) _]]); exact T|]. injection X as <- _ _. reflexivity. }
  rewrite HE, H1, Bool.orb_true_iff, domain_eqb_eq. split; [|intros [X|(X & _)]; auto]. intros [->|X]; [|auto]. right. eauto 9.
Qed.
Lemma has_connect E d' E' y r d : connectTransport E d' = (E', y, r) -> (has E' d = true <-> has E d = true \/ match r with Ok _ => d' = d | _ => False end) /\
  (r = Ok tt <-> has E d' = false /\ supported d' = true) /\ (r <> Ok tt -> r = Raise ValueError /\ E' = E /\ y = []).
Proof.
  intros H. unfold connectTransport in H. fold (has E d') in H. destruct (has E d') eqn:HD.
  { injection H as <- <- <-. repeat split; auto; try discriminate; intuition discriminate. }
  destruct (supported d') eqn:SD; cbn [negb] in H; injection H as <- <- <-.
  - split; [|split; [split; auto|congruence]]. unfold has. cbn. rewrite has_set, Bool.orb_true_iff, domain_eqb_eq. intuition.
  - repeat split; auto; try discriminate; intuition discriminate.
Qed.
Lemma has_run G cs : setting_ok G -> Forall call_ok cs -> forall E l s E' y rs d, agrees G E -> EInv E l -> UInv (g_crypto G) (e_users E) s ->
  engine_run (g_crypto G) (g_rnd G) (g_inet G) E cs = (E', y, rs) ->
  (has E' d = true <-> has E d = true \/ Exists (takes G d) (combine cs rs)).
Proof.
  intros SO. induction cs as [|c cs IH]; intros F E l s E' y rs d AG EI U H.
  - injection H as <- _ <-. cbn. split; [auto|]. intros [X|X]; [auto|inversion X].
  - cbn [engine_run] in H. destruct (engine_step _ _ _ E c) as [[E1 y1] r] eqn:ST. destruct (engine_run _ _ _ E1 cs) as [[E2 y2] rs2] eqn:RU. injection H as <- _ <-.
    inversion F; subst. destruct (step_spec _ _ _ _ _ _ _ _ SO H1 AG EI U ST) as (A & B & (s1 & us1 & S1 & U1) & _).
    pose proof (IH H2 E1 (l ++ y1) s1 E2 y2 rs2 d (agrees_grows _ _ _ AG B) A U1 RU) as X. cbn [combine]. rewrite Exists_cons, X.
    assert (ONE : has E1 d = true <-> has E d = true \/ takes G d (c, r)).
    { destruct c as [a v dom loc aw kw os|d'|op]; cbn [engine_step] in ST.
      - destruct (Manager _ _ _ E a v dom loc aw kw os) as [[E3 y3] r3] eqn:M. injection ST as <- _ <-. eapply has_manager; eauto.
      - destruct (connectTransport E d') as [[E3 y3] r3] eqn:M. injection ST as <- _ <-. destruct (has_connect _ _ _ _ _ d M) as [Y _]. exact Y.
      - destruct (user_step _ _ (e_users E) op) as [u3 r3]. injection ST as <- _ <-. cbn. unfold has. cbn. intuition. }
    rewrite ONE. tauto.
Qed.
Lemma history_connect G cs E l rs d E' y r : setting_ok G -> Forall call_ok cs -> engine_history G cs E l rs -> connectTransport E d = (E', y, r) ->
  (r = Ok tt <-> ~ Exists (takes G d) (combine cs rs) /\ forall n, d <> DOther n) /\ (r = Ok tt \/ r = Raise ValueError /\ E' = E /\ y = []).
Proof.
  intros SO F H CT. assert (AG : agrees G (fresh G)) by (repeat split). pose proof (has_run G cs SO F (fresh G) [] uspec0 E l rs d AG (ei0 G) (uinv0 _) H) as X.
  destruct (has_connect _ _ _ _ _ d CT) as (_ & K & N). split.
  - rewrite K. assert (has (fresh G) d = true -> False) by discriminate. destruct (has E d); split.
    + intros [Y _]; discriminate.
    + intros [Y _]. exfalso. apply Y. destruct X as [X _]. destruct (X eq_refl); [contradiction|auto].
    + intros [_ S]. split; [intros Y; destruct X as [_ X]; discriminate (X (or_intror Y))|]. intros n ->. discriminate.
    + intros [_ S]. split; [auto|]. destruct d as [| |n]; auto. elim (S n). reflexivity.
  - destruct r as [[]|e]; [auto|]. right. destruct N as (A & B & D); [discriminate|]. auto.
Qed.
