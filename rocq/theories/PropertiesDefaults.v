(** PropertiesDefaults.v -- C81: the defaults are those documented. *)
From Verif Require Import PropertiesUsm PropertiesTrans PropertiesEngine PrfEngine4 PrfDefaults PropertiesApi PropertiesUse SpecDefaults.
From Verif Require Import Api3 SpecMgr3 SpecUse SpecApi.
Require Import Lia.
Open Scope Z_scope.

(** The documented rules name one user and one level. *)
Lemma default_user_unique l n n' : is_default_user l n -> is_default_user l n' -> n = n'.
Proof.
  assert (LAST : forall l1 a l2 l1' a' l2', l1 ++ a :: l2 = l1' ++ a' :: l2' -> ad_default a = true -> ad_default a' = true ->
    Forall (fun b => ad_default b = false) l2 -> Forall (fun b => ad_default b = false) l2' -> a = a').
  { induction l1 as [|x l1 IH]; intros a l2 l1' a' l2' E A A' F F'.
    - destruct l1' as [|y l1']; cbn in E; injection E as E1 E2; [exact E1|]. subst. apply Forall_app in F as [_ F]. inversion F; subst. congruence.
    - destruct l1' as [|y l1']; cbn in E; injection E as E1 E2; [|eapply IH; eauto]. subst. apply Forall_app in F' as [_ F']. inversion F'; subst. congruence. }
  assert (MIX : forall l1 a l2, Forall (fun b => ad_default b = false) (l1 ++ a :: l2) -> ad_default a = true -> False).
  { intros l1 a l2 F A. apply Forall_app in F as [_ F]. inversion F; subst. congruence. }
  intros [(l1 & a & l2 & E & D & N & F)|(F & a & l2 & E & N)] [(l1' & a' & l2' & E' & D' & N' & F')|(F' & a' & l2' & E' & N')].
  - subst l. rewrite <- (LAST _ _ _ _ _ _ E' D D' F F') in N'. congruence.
  - rewrite E in F'. elim (MIX _ _ _ F' D).
  - rewrite E' in F. elim (MIX _ _ _ F D').
  - congruence.
Qed.

(** * The manager *)
(** Whatever has been done with the Engine, the user and the security level that a new
    SNMPv3 manager defaults to are those of its arguments, or else the documented ones. *)
Theorem C81_manager : forall G cs E l rs a v d loc aw kw os E' y ch aw' ns u lv i, setting_ok G -> Forall call_ok cs -> engine_history G cs E l rs ->
  call_ok (GManager a v d loc aw kw os) ->
  Manager (g_crypto G) (g_rnd G) (g_inet G) E a v d loc aw kw os = (E', y, Ok (SNMPv3Manager ch aw' ns u lv i)) ->
  or_default v (g_version G) = 3 /\ aw' = or_default aw (g_autowait G) /\ ns = or_default (kw_namespace kw) [] /\
  manager_user (additions ns cs rs) kw u /\ manager_level (additions ns cs rs) kw u lv.
Proof.
  intros G cs E l rs a v d loc aw kw os E' y ch aw' ns u lv i SO F H CO M.
  destruct (additions_history G ns cs E l rs SO F H) as (s & U & [DU DL] & EI & AG).
  destruct (manager_spec _ _ _ _ _ _ _ _ _ _ _ _ _ _ SO AG EI U CO M) as (_ & _ & _ & _ & (AV & AA & AS) & _). cbn in AV, AA, AS.
  destruct AS as (_ & _ & _ & NS & _ & AU & AL). split; [congruence|]. split; [exact AA|]. split; [exact NS|]. split.
  - unfold manager_user. destruct (kw_user kw) as [u'|]; [exact AU|]. rewrite AU in DU. exact DU.
  - unfold manager_level. destruct (kw_level kw) as [l'|]; [exact AL|]. destruct AL as (cf & CF & ->). specialize (DL u). rewrite CF in DL. exact DL.
Qed.
Print Assumptions C81_manager.
(** With a user in the namespace there is always a default to use: if the call succeeds
    with some defaultUserName and defaultSecurityLevel, then it succeeds without them. *)
Theorem C81_available : forall G cs E l rs a v d loc aw kw os u lv E' y r E2 y2 m, setting_ok G -> Forall call_ok cs -> engine_history G cs E l rs ->
  call_ok (GManager a v d loc aw kw os) -> kw_user kw = None -> kw_level kw = None -> additions (or_default (kw_namespace kw) []) cs rs <> [] ->
  Manager (g_crypto G) (g_rnd G) (g_inet G) E a v d loc aw
    (mkKw (kw_community kw) (kw_engineID kw) (kw_secmodel kw) (Some lv) (Some u) (kw_namespace kw)) os = (E2, y2, Ok m) ->
  Manager (g_crypto G) (g_rnd G) (g_inet G) E a v d loc aw kw os = (E', y, r) -> exists m', r = Ok m'.
Proof.
  intros G cs E l rs a v d loc aw kw os u lv E' y r E2 y2 m SO F H CO KU KL AD M2 M.
  destruct (additions_history G (or_default (kw_namespace kw) []) cs E l rs SO F H) as (s & U & [DU DL] & EI & AG).
  destruct (manager_spec _ _ _ _ _ _ _ _ _ _ _ _ _ _ SO AG EI U CO M) as (_ & _ & _ & FL). destruct r as [m'|e]; [eauto|].
  destruct (manager_spec _ _ _ _ _ _ _ _ _ _ _ _ _ _ SO AG EI U CO M2) as (_ & _ & _ & _ & _ & NF). elim NF. clear NF M M2.
  destruct (sp_def s (or_default (kw_namespace kw) [])) eqn:SD; [|elim AD; exact DU].
  set (kw' := mkKw (kw_community kw) (kw_engineID kw) (kw_secmodel kw) (Some lv) (Some u) (kw_namespace kw)).
  inversion FL; subst; try congruence; eexists.
  - eapply FDomain; eauto.
  - eapply FAddress; eauto.
  - eapply FLocal; eauto.
  - eapply FPort; eauto.
  - eapply FSocket; eauto.
  - eapply FVersion; eauto.
  - eapply FKeyword; [eauto|]. unfold needs_v3, kw'. cbn. do 2 right. left. discriminate.
  - eapply FModel; eauto.
  - eapply (FEngine _ _ _ _ _ _ _ kw'); eauto.
Qed.
Print Assumptions C81_available.

(** * The request *)
(** In every history of an SNMPv3 manager, every message sent for a request is the
    discovery message, or has the user and the level given to the request method, or else
    to Manager(), or else those of the users added when the manager was made. *)
Theorem C81_request : forall G cs E y rs a v d loc aw kw os E' y' ch aw' ns du dl i,
  setting_ok G -> Forall call_ok cs -> engine_history G cs E y rs -> call_ok (GManager a v d loc aw kw os) ->
  Manager (g_crypto G) (g_rnd G) (g_inet G) E a v d loc aw kw os = (E', y', Ok (SNMPv3Manager ch aw' ns du dl i)) ->
  forall W q p level user timeout period x before after s l h w now pd e u lv wire,
  world_ok W -> Forall event_ok (before ++ x :: after) -> asks q p -> names_valid p ->
  api3 du dl q level user timeout period = Ok x ->
  history W (before ++ x :: after) s l -> In (WSent (length (SpecMgr3.calls before)) h w now pd e u lv wire) l ->
  is_discovery pd e u lv \/
  match user with Some u' => u = u' | None => manager_user (additions ns cs rs) kw u end /\
  match level with
  | Some lv' => lv = lv'
  | None => exists u0, manager_user (additions ns cs rs) kw u0 /\ manager_level (additions ns cs rs) kw u0 lv
  end.
Proof.
  intros G cs E y rs a v d loc aw kw os E' y' ch aw' ns du dl i SO F H CO M W q p level user timeout period x before after s l h w now pd e u lv wire OK EV A N X HI S.
  destruct (C81_manager _ _ _ _ _ _ _ _ _ _ _ _ _ _ _ _ _ _ _ _ SO F H CO M) as (_ & _ & _ & MU & ML).
  destruct (C67_sent _ _ _ _ _ _ _ _ _ _ _ _ _ _ _ _ _ _ _ _ _ _ OK EV A N X HI S) as [D|(id & _ & _ & _ & EU & EL)]; [left; exact D|right].
  split.
  - destruct user; [exact EU|]. subst u. exact MU.
  - destruct level; [exact EL|]. exists du. subst lv. auto.
Qed.
Print Assumptions C81_request.
(** In every history of an SNMPv1 or SNMPv2c manager, every datagram sent for a request has
    the version of the manager and the community given to the request method, or else to
    Manager(), or else to Engine(). *)
Theorem C81_community : forall G cs E y rs a v d loc aw kw os E' y' m, setting_ok G -> Forall call_ok cs -> engine_history G cs E y rs ->
  call_ok (GManager a v d loc aw kw os) ->
  Manager (g_crypto G) (g_rnd G) (g_inet G) E a v d loc aw kw os = (E', y', Ok m) ->
  forall V ch aw' c0, (V = proc_v1 /\ m = SNMPv1Manager ch aw' c0) \/ (V = proc_v2c /\ m = SNMPv2cManager ch aw' c0) ->
  forall rnd clk q p community timeout period x before after s l t again wire,
  draws_ok gen_v1 rnd -> asks q p -> names_valid p -> api1 c0 q community timeout period = Ok x ->
  m1_run V rnd clk (before ++ x :: after) = (s, l) -> In (LSent (length (SpecApi.calls before)) t again wire) l ->
  exists id, id <> 0 /\ int32 id /\
    message_encode (mkMessage (or_default v (g_version G)) (or_default community (or_default (kw_community kw) (g_community G))) (numbered p id)) = Ok wire.
Proof.
  intros G cs E y rs a v d loc aw kw os E' y' m SO F H CO M V ch aw' c0 VM rnd clk q p community timeout period x before after s l t again wire HR A N X R S.
  destruct (history_spec G cs E y rs SO F H) as (EI & AG & (sp & us & _ & U) & _).
  destruct (manager_spec _ _ _ _ _ _ _ _ _ _ _ _ _ _ SO AG EI U CO M) as (_ & _ & _ & _ & (AV & _ & AS) & _).
  destruct (C62_sent _ _ _ _ _ _ _ _ _ _ _ _ _ _ _ _ _ HR A N X R S) as (id & I0 & IR & EN). exists id. split; [exact I0|]. split; [exact IR|].
  rewrite <- EN. f_equal. f_equal.
  - destruct VM as [[-> ->]|[-> ->]]; rewrite <- AV; reflexivity.
  - unfold or_default. destruct community; [reflexivity|]. destruct VM as [[_ ->]|[_ ->]]; destruct AS as (_ & _ & _ & ->); reflexivity.
Qed.
Print Assumptions C81_community.

(** * Example *)
(** Four users, one of them refused, in two namespaces: the first of the default namespace
    is overridden by the third; defaults of an authPriv user lowered to authNoPriv. *)
Definition ex_additions : list gcall :=
  [GUsers (OpAddUser [97] None None None None [] false None []);
   GUsers (OpAddUser [98] None None None None [] true None [78]);
   GUsers (OpAddUser [99] (Some HmacSha) None (Some AesCfb128) None ex_secret true (Some authNoPriv) []);
   GUsers (OpAddUser [97] None None None None [] true None []);
   GUsers (OpAddUser [100] None None None None [] false None [])].
Example C81_example :
  let G := ex_setting ex_inet in let x := engine_run (g_crypto G) (g_rnd G) (g_inet G) (fresh G) ex_additions in
  let M kw := snd (Manager (g_crypto G) (g_rnd G) (g_inet G) (fst (fst x)) (VStr [49]) (Some 3) None VNone None kw (Ok tt)) in
  let ch := mkChannel UDP_IPv6 0 (VStr [49], VInt 161) (VStr [58; 58], VInt 0) in
  snd x = [RUsers (Ok true); RUsers (Ok true); RUsers (Ok true); RUsers (Raise UserNameCollision); RUsers (Ok true)] /\
  additions [] ex_additions (snd x) =
    [mkAddition [97] None None false None; mkAddition [99] (Some HmacSha) (Some AesCfb128) true (Some authNoPriv); mkAddition [100] None None false None] /\
  M no_kw = Ok (SNMPv3Manager ch true [] [99] authNoPriv None) /\
  M (mkKw None None None None (Some [97]) None) = Ok (SNMPv3Manager ch true [] [97] noAuthNoPriv None) /\
  M (mkKw None None None (Some authPriv) None None) = Ok (SNMPv3Manager ch true [] [99] authPriv None) /\
  M (mkKw None None None None None (Some [78])) = Ok (SNMPv3Manager ch true [78] [98] noAuthNoPriv None) /\
  setting_ok G /\ Forall call_ok ex_additions.
Proof.
  cbv zeta. set (x := engine_run _ _ _ _ ex_additions). do 6 (split; [vm_compute; reflexivity|]).
  split; [split; [apply toy_hash_ok|apply ex_inet_ok]|]. repeat constructor; cbn; intros; try discriminate.
Qed.
