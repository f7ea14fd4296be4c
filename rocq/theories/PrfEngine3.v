(** PrfEngine3.v -- Manager() and histories of an Engine (C51, C58). *)
From Verif Require Import PrfBase PrfDict PrfUsers PrfUsmProps PrfTrans.
From Verif Require Export PrfEngine2.
Require Import Lia.
Open Scope Z_scope.

(** * The users *)
Definition def_in (s : uspec) : Prop := forall ns n, sp_def s ns = Some n -> sp_cfg s ns n <> None.
Lemma def_in_step C s op s' r : spec_step C s op s' r -> def_in s -> def_in s'.
Proof.
  intros S D. inversion S; subst; try exact D.
  - intros ns' n' X. cbn in X |- *. unfold upd2. destruct (zlist_eqb ns' ns && zlist_eqb n' n)%bool eqn:E; [discriminate|].
    match type of X with (if ?b then _ else _) _ = _ => destruct b end; [|apply D; exact X].
    unfold upd1 in X. destruct (zlist_eqb ns' ns) eqn:E1; [|apply D; exact X]. injection X as <-. cbn in E. rewrite zrefl in E. discriminate.
  - destruct (live_elsewhere s e ns); exact D.
Qed.
Definition UInv (C : crypto) (u : registry) (s : uspec) : Prop := Inv C u s /\ cfg_wf s /\ def_in s.
Lemma uinv0 C : UInv C registry0 uspec0.
Proof. split; [apply inv0|]. split; intros ns n; cbn; discriminate. Qed.

Lemma default_user C u s ns : UInv C u s ->
  match sp_def s ns with
  | Some n => getDefaultUser u ns = Ok (Some n)
  | None => getDefaultUser u ns = Ok None \/ getDefaultUser u ns = Raise ValueError
  end.
Proof.
  intros (I & _ & _). rewrite <- (i_def _ _ _ I ns). unfold getDefaultUser, getNamespace, cfg_of. destruct (dict_get zlist_eqb (ur_namespaces u) ns) as [c|]; cbn; [|auto].
  destruct (ns_default c); auto.
Qed.
Lemma default_level C u s ns n : UInv C u s ->
  match sp_cfg s ns n with
  | Some cf => getDefaultSecurityLevel u n ns = Ok (uc_default cf)
  | None => getDefaultSecurityLevel u n ns = Raise InvalidUserName \/ getDefaultSecurityLevel u n ns = Raise ValueError
  end.
Proof.
  intros (I & _ & _). rewrite <- (i_cfg _ _ _ I ns n). unfold getDefaultSecurityLevel, getNamespace, cfg_of. destruct (dict_get zlist_eqb (ur_namespaces u) ns) as [c|]; cbn; [|auto].
  unfold findUser. destruct (dict_get zlist_eqb (ns_users c) n); cbn; auto.
Qed.

(** * Opened sockets *)
Lemma opened_tr E l d k : EInv E l -> (tr E d k <> None <-> opened l d k).
Proof.
  intros I. split.
  - destruct (tr E d k) as [id|] eqn:T; [|congruence]. intros _. destruct (ei_s2 _ _ I _ _ _ T) as (k' & K & S). exists k', id. split; [auto|].
    apply key_int_same; [|auto]. apply (ei_s1 _ _ I _ _ _ S).
  - intros (k' & id & S & K). destruct (ei_s1 _ _ I _ _ _ S) as [T IK]. apply (key_int_same k k' IK) in K.
    unfold tr in *. destruct (dict_get domain_eqb (e_transports E) d) as [t|] eqn:D; [|discriminate].
    assert (AK : forall x i, In (x, i) t -> int_key x) by (intros x i X; eapply (ei_keys _ _ I); eauto).
    clear - T K AK IK. induction t as [|[x i] t IH]; cbn in *; [discriminate|]. destruct (key_eqb k' x) eqn:E1.
    + assert (X : int_key x) by (eapply AK; left; reflexivity). apply (key_int_same k' x X) in E1. apply (int_same_eq _ _ IK X) in E1. subst x. rewrite K. discriminate.
    + destruct (key_eqb k x); [discriminate|]. apply IH; auto. intros x' i' X'. eapply AK. right. exact X'.
Qed.

(** * Manager() *)
Definition good (E : engine) (m : manager) : Prop :=
  tr E (ch_domain (channel_of m)) (ch_local (channel_of m)) = Some (ch_transport (channel_of m)) /\
  slot E (version_of m) <> None /\ (version_of m = 3 -> e_usm3 E = true).
Lemma good_grows E E' m : good E m -> grows E E' -> good E' m.
Proof. intros (A & B & D) (T & S & U & _). split; [auto|]. split; auto. Qed.
Definition agrees (G : setting) (E : engine) : Prop :=
  e_version E = g_version G /\ e_domain E = g_domain G /\ e_secmodel E = g_model G /\ e_community E = g_community G /\ e_autowait E = g_autowait G.
Lemma agrees_grows G E E' : agrees G E -> grows E E' -> agrees G E'.
Proof. intros (a & b & c & d & e) (_ & _ & _ & a' & b' & c' & d' & e'). unfold agrees. rewrite a', b', c', d', e'. auto. Qed.

Lemma needs_v3_iff kw : kw_v3 kw = true <-> needs_v3 kw.
Proof.
  unfold kw_v3, needs_v3. destruct (kw_engineID kw), (kw_secmodel kw), (kw_level kw), (kw_user kw), (kw_namespace kw); split; auto; intros H;
    try (left; discriminate); try (right; left; discriminate); try (do 2 right; left; discriminate); try (do 3 right; left; discriminate); try (do 4 right; discriminate).
  exfalso. destruct H as [H|[H|[H|[H|H]]]]; congruence.
Qed.

(** The SNMPv3 part: what happens to the users, and the outcome. *)
Inductive v3_result (C : crypto) (s : uspec) (model : Z) (ch : channel) (aw : bool) (kw : kwargs) : list user_op -> uspec -> res manager -> Prop :=
| RModel : model <> 3 -> v3_result C s model ch aw kw [] s (Raise ValueError)
| RNobody e : model = 3 -> kw_user kw = None -> sp_def s (or_default (kw_namespace kw) []) = None -> In e [NoDefaultUser; ValueError] -> v3_result C s model ch aw kw [] s (Raise e)
| RUser u e : model = 3 -> kw_level kw = None -> kw_user kw = Some u -> sp_cfg s (or_default (kw_namespace kw) []) u = None -> In e [InvalidUserName; ValueError] -> v3_result C s model ch aw kw [] s (Raise e)
| REngine i u : model = 3 -> kw_engineID kw = Some i -> live_elsewhere s i (or_default (kw_namespace kw) []) = true ->
    u = [OpRegister i (or_default (kw_namespace kw) [])] -> v3_result C s model ch aw kw u s (Raise DiscoveryError)
| RMade user level u s' : model = 3 ->
    match kw_user kw with Some x => user = x | None => sp_def s (or_default (kw_namespace kw) []) = Some user end ->
    match kw_level kw with Some x => level = x | None => exists cf, sp_cfg s (or_default (kw_namespace kw) []) user = Some cf /\ level = uc_default cf end ->
    match kw_engineID kw with Some i => u = [OpRegister i (or_default (kw_namespace kw) [])] /\ live_elsewhere s i (or_default (kw_namespace kw) []) = false /\
        s' = mkUSpec ((i, or_default (kw_namespace kw) []) :: sp_live s) (sp_cfg s) (sp_def s)
      | None => u = [] /\ s' = s end ->
    v3_result C s model ch aw kw u s' (Ok (SNMPv3Manager ch aw (or_default (kw_namespace kw) []) user level (kw_engineID kw))).
Lemma v3_spec C rnd E s ch aw kw E' l r : hash_ok C -> UInv C (e_users E) s -> v3Manager C rnd E ch aw kw = (E', l, r) ->
  exists u s', v3_result C s (or_default (kw_secmodel kw) (e_secmodel E)) ch aw kw u s' r /\ UInv C (e_users E') s' /\ (exists rs, spec_run C s u s' rs).
Proof.
  intros HO U H. destruct (v3_effect C rnd _ _ _ _ _ _ _ H) as (O & _). set (ns := or_default (kw_namespace kw) []) in *.
  pose proof (default_user _ _ _ ns U) as DU.
  assert (UF : forall x, user_for (e_users E) kw ns = Ok x -> match kw_user kw with Some y => x = y | None => sp_def s ns = Some x end).
  { intros x. unfold user_for. destruct (kw_user kw); [intros [= <-]; reflexivity|]. destruct (sp_def s ns); [rewrite DU; cbn; congruence|]. destruct DU as [-> | ->]; cbn; discriminate. }
  assert (LF : forall n x, level_for (e_users E) kw ns n = Ok x -> match kw_level kw with Some y => x = y | None => exists cf, sp_cfg s ns n = Some cf /\ x = uc_default cf end).
  { intros n x. unfold level_for. destruct (kw_level kw); [intros [= <-]; reflexivity|]. pose proof (default_level _ _ _ ns n U) as DL. destruct (sp_cfg s ns n) as [cf|]; [rewrite DL; intros [= <-]; eauto|].
    destruct DL as [-> | ->]; discriminate. }
  remember (e_users E') as u' eqn:EU. destruct O as [M|e M UE|user e M UE LE|user level M UE LE KE|user level e u ok M UE LE KE RA];
    try (change (or_default (kw_namespace kw) []) with ns in UE); try (change (or_default (kw_namespace kw) []) with ns in LE); try (change (or_default (kw_namespace kw) []) with ns in RA).
  - exists [], s. split; [apply RModel; auto|]. split; [auto|]. eexists. constructor.
  - exists [], s. split; [|split; [auto|eexists; constructor]]. unfold user_for in UE. destruct (kw_user kw) eqn:KU; [discriminate|]. destruct (sp_def s ns) eqn:SD; [rewrite DU in UE; discriminate|].
    apply RNobody; auto. destruct DU as [DU|DU]; rewrite DU in UE; cbn in UE; injection UE as <-; cbn; auto.
  - exists [], s. split; [|split; [auto|eexists; constructor]]. unfold level_for in LE. destruct (kw_level kw) eqn:KL; [discriminate|]. pose proof (default_level _ _ _ ns user U) as DL. destruct (sp_cfg s ns user) eqn:SC; [rewrite DL in LE; discriminate|].
    apply UF in UE. destruct (kw_user kw) as [n|] eqn:KU.
    + subst n. eapply RUser; eauto. destruct DL as [DL|DL]; rewrite DL in LE; injection LE as <-; cbn; auto.
    + exfalso. apply (proj2 (proj2 U)) in UE. congruence.
  - exists [], s. split; [|split; [auto|eexists; constructor]]. rewrite <- KE at 1. apply RMade with (level := level); [auto|exact (UF _ UE)|exact (LF _ _ LE)|rewrite KE; auto].
  - destruct (step_register C rnd (e_users E) s e ns HO (proj1 U)) as (s' & S & I'). rewrite RA in S, I'. cbn [fst snd] in S, I'.
    assert (U' : UInv C u s').
    { split; [exact I'|]. split; [|eapply def_in_step; [exact S|apply U]]. inversion S; subst. destruct (live_elsewhere s e ns); apply U. }
    inversion S; subst. exists [OpRegister e ns]. eexists. split; [|split; [exact U'|eexists; econstructor; [exact S|constructor]]].
    destruct (live_elsewhere s e ns) eqn:LV; cbn [negb bind].
    + eapply REngine; eauto.
    + rewrite <- KE. apply RMade with (level := level); [auto|exact (UF _ UE)|exact (LF _ _ LE)|rewrite KE; auto].
Qed.

Lemma norm_host inet d a u k : normalizeAddress inet d a u = Ok k -> exists h p, k = (VStr h, p) /\ (number_between 0 65535 p \/ is_nan p).
Proof. destruct k as [h p]. intros H. apply normalize_spec in H as (_ & _ & h0 & _ & _ & _ & -> & _ & R & _). eauto. Qed.
Lemma open_raises os k e : (os = Ok tt \/ os = Raise OSError) -> (exists h p, k = (VStr h, p) /\ (number_between 0 65535 p \/ is_nan p)) ->
  open_socket os k = Raise e -> (e = OSError /\ os = Raise OSError) \/ (e = TypeError /\ exists f, snd k = VFloat f).
Proof.
  intros O (h & p & -> & R). unfold open_socket. cbn. destruct p as [| |z|f| |]; cbn in R; try (destruct R as [[]|X]; discriminate X).
  - intros ->. left. destruct O as [O|O]; [discriminate|]. injection O as ->. auto.
  - intros [= <-]. right. eauto.
Qed.
Lemma open_ok os k x : open_socket os k = Ok x -> os = Ok x /\ forall f, snd k <> VFloat f.
Proof. unfold open_socket. destruct (snd k); try discriminate. intros H. split; [auto|discriminate]. Qed.

Definition user_ops_ok (C : crypto) (s : uspec) (c : gcall) (r : gresult) (u' : registry) : Prop :=
  exists s' rs, spec_run C s (ops_of c r) s' rs /\ UInv C u' s'.
Lemma manager_spec G E l s a v d loc aw kw os E' y r : setting_ok G -> agrees G E -> EInv E l -> UInv (g_crypto G) (e_users E) s -> (os = Ok tt \/ os = Raise OSError) ->
  Manager (g_crypto G) (g_rnd G) (g_inet G) E a v d loc aw kw os = (E', y, r) ->
  EInv E' (l ++ y) /\ grows E E' /\ user_ops_ok (g_crypto G) s (GManager a v d loc aw kw os) (RManager r) (e_users E') /\
  match r with
  | Ok m => good E' m /\ as_asked G s a v d loc aw kw m /\ ~ exists e, fails G l s a v d loc kw os e
  | Raise e => fails G l s a v d loc kw os e
  end.
Proof.
  intros (HO & IO) AG EI U OS H. pose proof AG as (G1 & G2 & G3 & G4 & G5). unfold Manager in H. rewrite G2, G5 in H.
  change (match d with Some d => d | None => g_domain G end) with (or_default d (g_domain G)) in H.
  change (match aw with Some b => b | None => g_autowait G end) with (or_default aw (g_autowait G)) in H.
  set (D := or_default d (g_domain G)) in *. set (AW := or_default aw (g_autowait G)) in *.
  assert (STAY : forall e, (e <> DiscoveryError) -> user_ops_ok (g_crypto G) s (GManager a v d loc aw kw os) (RManager (Raise e)) (e_users E)).
  { intros e N. exists s, []. split; [|exact U]. destruct e; try (cbn; constructor). elim N; reflexivity. }
  assert (VE : forall e, e = TypeError \/ is_ValueError e = true -> e <> DiscoveryError) by (intros e X Y; subst e; destruct X; discriminate).
  destruct (supported D) eqn:SD; cbn [negb] in H.
  2: { injection H as <- <- <-. rewrite app_nil_r. split; [auto|]. split; [apply grows_refl|]. split; [apply STAY; discriminate|].
       destruct D as [| |n] eqn:DE; try discriminate. eapply FDomain. unfold D in DE. exact DE. }
  destruct (normalizeAddress (g_inet G) D a (Some LISTENER)) as [ka|e] eqn:NA; cbn [bind] in H.
  2: { injection H as <- <- <-. rewrite app_nil_r. split; [auto|]. split; [apply grows_refl|]. split; [apply STAY, VE; eapply normalize_raises; eauto|].
       apply FAddress. exact NA. }
  destruct (normalizeAddress (g_inet G) D loc (Some SENDER)) as [kl|e] eqn:NL; cbn [bind] in H.
  2: { injection H as <- <- <-. rewrite app_nil_r. split; [auto|]. split; [apply grows_refl|]. split; [apply STAY, VE; eapply normalize_raises; eauto|].
       apply FLocal. exact NL. }
  destruct (transport_for E D kl os) as [[E1 y1] t] eqn:TF.
  pose proof (norm_host _ _ _ _ _ NL) as KH. assert (KS : exists h p, kl = (VStr h, p)) by (destruct KH as (h & p & X & _); eauto).
  destruct (ei_transport _ _ _ _ _ _ _ _ EI TF KS) as (EI1 & GR1 & U1 & M1 & T1).
  assert (TN : forall e, open_socket os kl = Raise e -> t = Raise e -> tr E D kl = None).
  { intros e X Y. destruct (transport_effect _ _ _ _ _ _ _ TF (ei_keys _ _ EI) KS) as (_ & _ & _ & _ & _ & _ & [(id & T & Z & _)|[(e' & T & _)|(T & _)]]); [congruence|auto|auto]. }
  destruct t as [id|e].
  2: { injection H as <- <- <-. split; [auto|]. split; [auto|]. assert (NO : ~ opened l D kl).
       { rewrite <- (opened_tr _ _ _ _ EI). rewrite (TN _ T1 eq_refl). congruence. }
       destruct (open_raises _ _ _ OS KH T1) as [(-> & OE)|(-> & f & KF)].
       - split; [rewrite U1; apply STAY; discriminate|]. eapply FSocket; eauto.
       - split; [rewrite U1; apply STAY; discriminate|]. destruct kl as [kh kp]. cbn in KF. subst kp. eapply FPort; eauto. }
  assert (AG1 : agrees G E1) by (eapply agrees_grows; eauto). pose proof AG1 as (F1 & F2 & F3 & F4 & F5).
  assert (OP : opened l D kl \/ os = Ok tt /\ forall f, snd kl <> VFloat f).
  { destruct (transport_effect _ _ _ _ _ _ _ TF (ei_keys _ _ EI) KS) as (_ & _ & _ & _ & _ & _ & [(id' & T & Z & _)|[(e' & T & _ & Z & _)|(T & (kh & kz & KI) & _)]]).
    - left. apply (opened_tr _ _ _ _ EI). congruence.
    - discriminate.
    - right. subst kl. destruct OS as [OS|OS]; [split; [auto|discriminate]|]. subst os. exfalso.
      unfold transport_for in TF. rewrite <- (app_nil_r l) in *.
      assert (XX : dict_get key_eqb (with_default (dict_get domain_eqb (e_transports E) D)) (VStr kh, VInt kz) = None).
      { unfold tr in T. unfold with_default. destruct (dict_get domain_eqb (e_transports E) D); auto. }
      unfold with_default in XX. rewrite XX in TF. cbn in TF. discriminate. }
  assert (CLEAN : forall P : Prop, ((exists n, D = DOther n) \/ (exists e, normalizeAddress (g_inet G) D a (Some LISTENER) = Raise e) \/ (exists e, normalizeAddress (g_inet G) D loc (Some SENDER) = Raise e) \/
      (exists k f, normalizeAddress (g_inet G) D loc (Some SENDER) = Ok (k, VFloat f) /\ ~ opened l D (k, VFloat f)) \/ (exists k, normalizeAddress (g_inet G) D loc (Some SENDER) = Ok k /\ ~ opened l D k /\ os = Raise OSError)) -> P).
  { intros P [(n & X)|[(e & X)|[(e & X)|[(k & f & X & Y)|(k & X & Y & Z)]]]]; exfalso.
    - rewrite X in SD. discriminate.
    - congruence.
    - congruence.
    - rewrite NL in X. injection X as ->. destruct OP as [OP|[_ OP]]; [auto|]. apply (OP f). reflexivity.
    - rewrite NL in X. injection X as ->. destruct OP as [OP|[OP _]]; [auto|]. congruence. }
  set (V := or_default v (g_version G)).
  assert (VV : match v with Some v => to_version v | None => Ok (e_version E1) end = (if match v with Some _ => true | None => false end then to_version V else Ok V)).
  { unfold V. destruct v; cbn; [reflexivity|]. rewrite F1. reflexivity. }
  rewrite VV in H. clear VV.
  assert (TV : to_version V = if (V =? 0) || (V =? 1) || (V =? 3) then Ok V else Raise ValueError) by reflexivity.
  assert (NV : (V =? 0) || (V =? 1) || (V =? 3) = false -> ~ In V [0; 1; 3]).
  { intros X. apply Bool.orb_false_iff in X as [X X3]. apply Bool.orb_false_iff in X as [X1 X2]. cbn. lia. }
  set (ch := mkChannel D id ka kl) in *.
  assert (BAD : user_ops_ok (g_crypto G) s (GManager a v d loc aw kw os) (RManager (Raise ValueError)) (e_users E1)) by (rewrite U1; apply STAY; discriminate).
  assert (HV : match (if match v with Some _ => true | None => false end then to_version V else Ok V) with Ok w => w = V | Raise e => e = ValueError /\ ~ In V [0; 1; 3] end).
  { rewrite TV. destruct v; [|reflexivity]. destruct ((V =? 0) || (V =? 1) || (V =? 3)) eqn:X; auto. }
  destruct (if match v with Some _ => true | None => false end then to_version V else Ok V) as [w|e].
  2: { destruct HV as [-> HV]. injection H as <- <- <-. split; [auto|]. split; [auto|]. split; [exact BAD|]. apply FVersion. exact HV. }
  subst w. change VERSION3 with 3 in H. change VERSION2c with 1 in H. change VERSION1 with 0 in H.
  destruct (V =? 3) eqn:V3.
  { apply Z.eqb_eq in V3. destruct (v3Manager (g_crypto G) (g_rnd G) E1 ch AW kw) as [[E2 y2] r2] eqn:VM. injection H as <- <- <-.
    rewrite <- U1 in U. destruct (v3_spec _ _ _ _ _ _ _ _ _ _ HO U VM) as (u & s' & RES & U' & rs & SR).
    destruct (v3_effect _ _ _ _ _ _ _ _ _ VM) as (_ & EFF & OKEFF). rewrite app_assoc.
    assert (UM : e_usm3 E1 = true -> e_usm3 E2 = true).
    { clear - VM. unfold v3Manager in VM. destruct (match kw_secmodel kw with Some m => _ | None => _ end) as [model|e]; [|injection VM as <- <- <-; auto].
      destruct (match e_mpv3 E1 with Some _ => _ | None => _ end) as [E3 l3] eqn:X. assert (e_usm3 E3 = e_usm3 E1) by (destruct (e_mpv3 E1); injection X as <- <-; reflexivity).
      destruct (model =? USM_MODEL); [|injection VM as <- <- <-; congruence].
      match type of VM with match ?x with Ok _ => _ | Raise _ => _ end = _ => destruct x as [[us lv]|e] end; [|injection VM as <- <- <-; congruence].
      destruct (kw_engineID kw); cbn in VM; [destruct (ur_assign _ _ _ _ _) in VM|]; injection VM as <- <- <-; reflexivity. }
    assert (GR2 : grows E1 E2).
    { destruct EFF as [[EFF _]|EFF]; [eapply none_grows; eauto|]. eapply proc_grows; eauto. }
    split; [destruct EFF as [[EFF _]|EFF]; [eapply ei_none; eauto|eapply ei_proc; eauto]|].
    split; [eapply grows_trans; eauto|].
    assert (OPS : u = ops_of (GManager a v d loc aw kw os) (RManager r2)).
    { inversion RES; subst; cbn; try reflexivity.
      - match goal with X : In _ [NoDefaultUser; _] |- _ => destruct X as [X|[X|[]]]; subst; reflexivity end.
      - match goal with X : In _ [InvalidUserName; _] |- _ => destruct X as [X|[X|[]]]; subst; reflexivity end.
      - match goal with X : kw_engineID kw = Some _ |- _ => rewrite X; reflexivity end.
      - destruct (kw_engineID kw); match goal with X : _ = _ /\ _ |- _ => destruct X as [-> _]; reflexivity end. }
    split; [exists s', rs; rewrite <- OPS; auto|].
    rewrite F3 in RES.
    destruct RES as [M|e M KU DF IN|uu e M KL KU CF IN|i uu M KE LV UU|user level uu s2 M KU KL KE].
    - apply FModel; auto.
    - eapply FNobody; eauto.
    - eapply FUser; eauto.
    - eapply FEngine; eauto.
    - destruct (OKEFF (ex_intro _ _ eq_refl)) as [UM2 PE]. split; [|split].
      + split; [cbn; apply GR2; exact T1|]. split; [eapply proc_grows; eauto|auto].
      + unfold as_asked. cbn [version_of autowait_of channel_of ch_domain ch_address ch_local ch]. rewrite <- V3. repeat split; auto.
      + intros (e & FF). destruct FF as [n X|e X|e X|k f X Y|k X Y Z|X|X _|X Y|e X KU' Y _|w e X KL' KU' Y _|i X KE' Y].
        1-5: apply CLEAN; fold D; eauto 9.
        * apply X. fold V. rewrite V3. cbn. auto.
        * fold V in X. rewrite V3 in X. cbn in X. lia.
        * auto.
        * rewrite KU' in KU. congruence.
        * rewrite KL', KU' in *. subst w. destruct KL as (cf & Z & _). congruence.
        * rewrite KE' in KE. destruct KE as (_ & Z & _). congruence. }
  assert (KWS : forall kwb, kw_v3 kw = kwb -> if kwb then needs_v3 kw else ~ needs_v3 kw).
  { intros [] X; [apply needs_v3_iff; auto|]. rewrite <- needs_v3_iff. congruence. }
  assert (FIN : V = 0 \/ V = 1 -> kw_v3 kw = false -> ~ exists e, fails G l s a v d loc kw os e).
  { intros VX KX (e & FF). apply KWS in KX. destruct FF as [n X|e X|e X|k f X Y|k X Y Z|X|X Y|X Y|e X KU' Y _|w e X KL' KU' Y _|i X KE' Y].
    1-5: apply CLEAN; fold D; eauto 9.
    - apply X. fold V. cbn. lia.
    - auto.
    - fold V in X. lia.
    - fold V in X. lia.
    - fold V in X. lia.
    - fold V in X. lia. }
  assert (PG : forall E2 y2 w, proc_effect E1 w E2 y2 -> e_usm3 E2 = e_usm3 E1 -> grows E1 E2 /\ slot E2 w <> None /\ EInv E2 ((l ++ y1) ++ y2)).
  { intros E2 y2 w PE UM. destruct (proc_grows _ _ _ _ PE) as [A B]; [congruence|]. split; [auto|]. split; [auto|]. eapply ei_proc; eauto. }
  assert (UMA : e_usm3 (fst (fst (v1Manager E1 ch AW kw))) = e_usm3 E1) by (unfold v1Manager; destruct (kw_v3 kw); [|destruct (e_mpv1 E1)]; reflexivity).
  assert (UMB : e_usm3 (fst (fst (v2cManager E1 ch AW kw))) = e_usm3 E1) by (unfold v2cManager; destruct (kw_v3 kw); [|destruct (e_mpv2c E1)]; reflexivity).
  assert (TE : user_ops_ok (g_crypto G) s (GManager a v d loc aw kw os) (RManager (Raise TypeError)) (e_users E)) by (apply STAY; discriminate).
  destruct (V =? 1) eqn:V1.
  { apply Z.eqb_eq in V1. destruct (v2cManager E1 ch AW kw) as [[E2 y2] r2] eqn:VM. injection H as <- <- <-. rewrite app_assoc.
    destruct (v2c_effect _ _ _ _ _ _ _ VM) as (U2 & [(NE & -> & KX)|(PE & ->)]).
    - split; [eapply ei_none; eauto|]. split; [eapply grows_trans; [exact GR1|eapply none_grows; eauto; rewrite <- UMB; auto]|].
      split; [rewrite U2, U1; exact TE|]. apply FKeyword; [fold V; cbn; auto|]. exact (KWS true KX).
    - destruct (PG _ _ _ PE UMB) as (GR2 & SL & EI2). split; [auto|]. split; [eapply grows_trans; eauto|].
      split; [exists s, []; rewrite U2, U1; split; [constructor|auto]|]. split; [|split].
      + split; [cbn; apply GR2; exact T1|]. split; [exact SL|]. cbn. lia.
      + unfold as_asked. cbn [version_of autowait_of channel_of ch_domain ch_address ch_local ch]. rewrite <- V1, F4. repeat split; auto.
      + apply FIN; [auto|]. unfold v2cManager in VM. destruct (kw_v3 kw); [discriminate|reflexivity]. }
  destruct (V =? 0) eqn:V0.
  { apply Z.eqb_eq in V0. destruct (v1Manager E1 ch AW kw) as [[E2 y2] r2] eqn:VM. injection H as <- <- <-. rewrite app_assoc.
    destruct (v1_effect _ _ _ _ _ _ _ VM) as (U2 & [(NE & -> & KX)|(PE & ->)]).
    - split; [eapply ei_none; eauto|]. split; [eapply grows_trans; [exact GR1|eapply none_grows; eauto; rewrite <- UMA; auto]|].
      split; [rewrite U2, U1; exact TE|]. apply FKeyword; [fold V; cbn; auto|]. exact (KWS true KX).
    - destruct (PG _ _ _ PE UMA) as (GR2 & SL & EI2). split; [auto|]. split; [eapply grows_trans; eauto|].
      split; [exists s, []; rewrite U2, U1; split; [constructor|auto]|]. split; [|split].
      + split; [cbn; apply GR2; exact T1|]. split; [exact SL|]. cbn. lia.
      + unfold as_asked. cbn [version_of autowait_of channel_of ch_domain ch_address ch_local ch]. rewrite <- V0, F4. repeat split; auto.
      + apply FIN; [auto|]. unfold v1Manager in VM. destruct (kw_v3 kw); [discriminate|reflexivity]. }
  injection H as <- <- <-. rewrite app_nil_r. split; [auto|]. split; [auto|]. split; [exact BAD|]. apply FVersion. fold V. apply NV. rewrite ?V0, ?V1, ?V3. reflexivity.
Qed.
