(** PropertiesEngine.v -- C51, C58 and C59 (Engine). *)
From Verif Require Import PropertiesUsm PropertiesTrans PrfTrans PrfUsers PrfEngine4.
Require Import Lia.
Open Scope Z_scope.

(** * C51 *)
(** One socket for each domain and local address, each connected to the dispatcher, no
    transport connected twice, no two sockets with the same identity. *)
Theorem C51_one_transport : forall G cs E l rs, setting_ok G -> Forall call_ok cs -> engine_history G cs E l rs ->
  NoDup (map fst (sockets l)) /\ NoDup (map snd (sockets l)) /\ NoDup (connected l) /\
  (forall d k id, In (d, k, id) (sockets l) -> In id (connected l)) /\
  (forall d k k' id id', In (d, k, id) (sockets l) -> In (d, k', id') (sockets l) -> same_address k k' -> id = id').
Proof.
  intros G cs E l rs SO F H. destruct (history_spec _ _ _ _ _ SO F H) as (I & _). split; [apply (ei_once _ _ I)|]. split; [apply (ei_ids _ _ I)|].
  split; [apply (ei_conn _ _ I)|]. split; [intros d k id; apply (ei_incl _ _ I)|].
  intros d k k' id id' A B S. destruct (ei_s1 _ _ I _ _ _ A) as [_ KA], (ei_s1 _ _ I _ _ _ B) as [_ KB]. rewrite (int_same_eq _ _ KA KB S) in A.
  eapply nodup_fst; [apply (ei_once _ _ I)|exact A|exact B].
Qed.
Print Assumptions C51_one_transport.
(** The transport of a manager is one of the sockets opened, bound to the manager's local
    address; two managers share it just when domain and local address are the same. *)
Theorem C51_reuse : forall G cs E l rs m m', setting_ok G -> Forall call_ok cs -> engine_history G cs E l rs ->
  In (RManager (Ok m)) rs -> In (RManager (Ok m')) rs ->
  (exists k, In (ch_domain (channel_of m), k, ch_transport (channel_of m)) (sockets l) /\ same_address (ch_local (channel_of m)) k) /\
  (ch_transport (channel_of m) = ch_transport (channel_of m') <->
   ch_domain (channel_of m) = ch_domain (channel_of m') /\ same_address (ch_local (channel_of m)) (ch_local (channel_of m'))).
Proof.
  intros G cs E l rs m m' SO F H M M'. destruct (history_spec _ _ _ _ _ SO F H) as (I & _ & _ & GD). split; [|eapply shared_transport; eauto].
  destruct (GD _ M) as (T & _). destruct (ei_s2 _ _ I _ _ _ T) as (k & K & S). exists k. split; [exact S|]. apply key_int_same; [|exact K]. apply (ei_s1 _ _ I _ _ _ S).
Qed.
Print Assumptions C51_reuse.
(** One message processor for each version; the dispatcher has the one that was made for
    it, and has it for every manager returned (with the security module for SNMPv3). *)
Theorem C51_processors : forall G cs E l rs, setting_ok G -> Forall call_ok cs -> engine_history G cs E l rs ->
  NoDup (map fst (processors l)) /\
  (forall v id, dict_get Z.eqb (e_procs E) v = Some id <-> In (v, id) (processors l)) /\
  forall m, In (RManager (Ok m)) rs -> (exists id, In (version_of m, id) (processors l)) /\ (version_of m = 3 -> e_usm3 E = true).
Proof.
  intros G cs E l rs SO F H. destruct (history_spec _ _ _ _ _ SO F H) as (I & _ & _ & GD). split; [apply (ei_ponce _ _ I)|].
  split; [intros v id; rewrite (ei_procs _ _ I); symmetry; apply (ei_slot _ _ I)|]. intros m M. destruct (GD _ M) as (_ & S & U). split; [|exact U].
  destruct (slot E (version_of m)) as [id|] eqn:SL; [|congruence]. exists id. apply (ei_slot _ _ I). exact SL.
Qed.
Print Assumptions C51_processors.
(** The manager returned is the one asked for. *)
Theorem C51_result : forall G cs E l rs s us a v d loc aw kw os E' y m, setting_ok G -> Forall call_ok cs -> engine_history G cs E l rs ->
  spec_run (g_crypto G) uspec0 (all_ops cs rs) s us -> call_ok (GManager a v d loc aw kw os) ->
  Manager (g_crypto G) (g_rnd G) (g_inet G) E a v d loc aw kw os = (E', y, Ok m) -> as_asked G s a v d loc aw kw m.
Proof.
  intros G cs E l rs s us a v d loc aw kw os E' y m SO F H SR CO M. destruct (history_spec _ _ _ _ _ SO F H) as (I & AG & (s' & us' & SR' & U) & _).
  destruct (spec_run_fun _ _ _ _ _ _ _ SR SR') as [-> _]. eapply (manager_spec _ _ _ _ _ _ _ _ _ _ _ _ _ _ SO AG I U CO M).
Qed.
Print Assumptions C51_result.

(** The reading of "the same local address" matters: two spellings of one address
    are different addresses for the Engine. *)
Definition C51_statement_network : Prop := forall G cs E l rs m m' h h' p b, setting_ok G -> Forall call_ok cs -> engine_history G cs E l rs ->
  In (RManager (Ok m)) rs -> In (RManager (Ok m')) rs -> ch_domain (channel_of m) = ch_domain (channel_of m') ->
  ch_local (channel_of m) = (VStr h, p) -> ch_local (channel_of m') = (VStr h', p) ->
  g_inet G (ch_domain (channel_of m)) h = Ok b -> g_inet G (ch_domain (channel_of m)) h' = Ok b ->
  ch_transport (channel_of m) = ch_transport (channel_of m').
(** "::1" and "0::1" *)
Definition alias_inet (d : domain) (s : pystr) : res bytes := match s with [] => Raise OSError | _ => Ok (repeat 0 15 ++ [1]) end.
Definition ex_setting (inet : domain -> pystr -> res bytes) : setting := mkSetting (toy OpenSSL) (fun _ => 7) inet 1 UDP_IPv6 3 [112] true.
Definition no_kw : kwargs := mkKw None None None None None None.
Lemma ex_inet_ok : inet_ok ex_inet.
Proof. intros d s e. destruct s; [intros [= <-]; auto|discriminate]. Qed.
Lemma alias_inet_ok : inet_ok alias_inet.
Proof. intros d s e. destruct s; [intros [= <-]; auto|discriminate]. Qed.
Lemma toy_hash_ok b : hash_ok (toy b).
Proof. intros a x. apply toy_repeat, toy_byte. Qed.
Lemma triple {A B D} (x : A * B * D) : x = (fst (fst x), snd (fst x), snd x).
Proof. destruct x as [[a b] d]. reflexivity. Qed.
Definition alias_calls : list gcall :=
  [GManager (VStr [49]) None None (VTuple [VStr [58; 58; 49]; VInt 7]) None no_kw (Ok tt); GManager (VStr [49]) None None (VTuple [VStr [48; 58; 58; 49]; VInt 7]) None no_kw (Ok tt)].
Theorem C51_network_refuted : ~ C51_statement_network.
Proof.
  intros H. set (x := engine_run (g_crypto (ex_setting alias_inet)) (g_rnd (ex_setting alias_inet)) alias_inet (fresh (ex_setting alias_inet)) alias_calls).
  set (m := SNMPv2cManager (mkChannel UDP_IPv6 0 (VStr [49], VInt 161) (VStr [58; 58; 49], VInt 7)) true [112]).
  set (m' := SNMPv2cManager (mkChannel UDP_IPv6 2 (VStr [49], VInt 161) (VStr [48; 58; 58; 49], VInt 7)) true [112]).
  assert (R : snd x = [RManager (Ok m); RManager (Ok m')]) by (vm_compute; reflexivity).
  discriminate (H (ex_setting alias_inet) alias_calls (fst (fst x)) (snd (fst x)) (snd x) m m' [58; 58; 49] [48; 58; 58; 49] (VInt 7) (repeat 0 15 ++ [1])).
  - split; [apply toy_hash_ok|apply alias_inet_ok].
  - repeat constructor.
  - exact (triple x).
  - rewrite R. left. reflexivity.
  - rewrite R. right. left. reflexivity.
  - reflexivity.
  - reflexivity.
  - reflexivity.
  - reflexivity.
  - reflexivity.
Qed.
Print Assumptions C51_network_refuted.

(** * C58 *)
(** Manager() fails just when there is a reason to, and then with the error for that reason. *)
Theorem C58_errors : forall G cs E l rs s us a v d loc aw kw os E' y r, setting_ok G -> Forall call_ok cs -> engine_history G cs E l rs ->
  spec_run (g_crypto G) uspec0 (all_ops cs rs) s us -> call_ok (GManager a v d loc aw kw os) ->
  Manager (g_crypto G) (g_rnd G) (g_inet G) E a v d loc aw kw os = (E', y, r) ->
  match r with Ok _ => ~ exists e, fails G l s a v d loc kw os e | Raise e => fails G l s a v d loc kw os e end.
Proof.
  intros G cs E l rs s us a v d loc aw kw os E' y r SO F H SR CO M. destruct (history_spec _ _ _ _ _ SO F H) as (I & AG & (s' & us' & SR' & U) & _).
  destruct (spec_run_fun _ _ _ _ _ _ _ SR SR') as [-> _]. destruct (manager_spec _ _ _ _ _ _ _ _ _ _ _ _ _ _ SO AG I U CO M) as (_ & _ & _ & X). destruct r; [apply X|exact X].
Qed.
Print Assumptions C58_errors.
(** A failed call changes nothing about the users: the same credentials, defaults and
    registrations. *)
Theorem C58_failed_keeps_users : forall G cs E l rs s us a v d loc aw kw os E' y e, setting_ok G -> Forall call_ok cs -> engine_history G cs E l rs ->
  spec_run (g_crypto G) uspec0 (all_ops cs rs) s us -> call_ok (GManager a v d loc aw kw os) ->
  Manager (g_crypto G) (g_rnd G) (g_inet G) E a v d loc aw kw os = (E', y, Raise e) ->
  exists us', spec_run (g_crypto G) uspec0 (all_ops (cs ++ [GManager a v d loc aw kw os]) (rs ++ [RManager (Raise e)])) s us'.
Proof.
  intros G cs E l rs s us a v d loc aw kw os E' y e SO F H SR CO M. pose proof (history_spec _ _ _ _ _ SO F H) as (I & AG & (s' & us' & SR' & U) & _).
  destruct (spec_run_fun _ _ _ _ _ _ _ SR SR') as [-> _]. destruct (manager_spec _ _ _ _ _ _ _ _ _ _ _ _ _ _ SO AG I U CO M) as (_ & _ & (s2 & rs2 & S2 & _) & FL).
  assert (LEN : length rs = length cs).
  { clear - H. unfold engine_history in H. revert H. generalize (fresh G). revert E l rs. induction cs as [|c cs IH]; intros E l rs E0 H; cbn [engine_run] in H; [injection H as _ _ <-; reflexivity|].
    destruct (engine_step _ _ _ E0 c) as [[E1 y1] r1]. destruct (engine_run _ _ _ E1 cs) as [[E2 y2] rs2] eqn:R. injection H as _ _ <-. cbn. f_equal. eapply IH; eauto. }
  assert (APP : all_ops (cs ++ [GManager a v d loc aw kw os]) (rs ++ [RManager (Raise e)]) = all_ops cs rs ++ ops_of (GManager a v d loc aw kw os) (RManager (Raise e))).
  { clear - LEN. revert rs LEN. induction cs as [|c cs IH]; intros [|r rs] L; try discriminate; cbn [all_ops app]; [apply app_nil_r|]. rewrite IH by (injection L; auto). apply app_assoc. }
  rewrite APP.
  assert (s2 = s').
  { destruct e; try (cbn in S2; inversion S2; reflexivity). cbn [ops_of] in S2. destruct (kw_engineID kw) as [i|] eqn:KE; [|inversion S2; reflexivity].
    inversion S2; subst. match goal with X : spec_run _ _ [] _ _ |- _ => inversion X; subst end. match goal with X : spec_step _ _ _ _ _ |- _ => inversion X; subst end.
    assert (LV : live_elsewhere s' i (or_default (kw_namespace kw) []) = true).
    { pose proof (proj2 SO) as IOK. pose proof (fun d a u => normalize_raises (g_inet G) d a u DiscoveryError IOK) as NR. inversion FL; subst; try congruence;
        first [match goal with X : normalizeAddress _ _ _ _ = Raise DiscoveryError |- _ => apply NR in X; destruct X as [X|X]; [discriminate X|discriminate X] end
              |match goal with X : In DiscoveryError _ |- _ => cbn in X; intuition discriminate end]. }
    rewrite LV. reflexivity. }
  subst s2. eexists. eapply spec_run_app; eauto.
Qed.
Print Assumptions C58_failed_keeps_users.

(** The full property also asks that an unsupported domain is reported as ValueError,
    and a missing user as NoDefaultUser. *)
Definition C58_statement_domain : Prop := forall G cs E l rs a v n loc aw kw os E' y r, setting_ok G -> Forall call_ok cs -> engine_history G cs E l rs ->
  call_ok (GManager a v (Some (DOther n)) loc aw kw os) ->
  Manager (g_crypto G) (g_rnd G) (g_inet G) E a v (Some (DOther n)) loc aw kw os = (E', y, r) -> r = Raise ValueError.
Theorem C58_domain_refuted : ~ C58_statement_domain.
Proof.
  intros H. assert (X : @Raise manager UnboundLocalError = Raise ValueError); [|discriminate].
  apply (H (ex_setting ex_inet) [] (fresh (ex_setting ex_inet)) [] [] (VStr [49]) None 5 VNone None no_kw (Ok tt) (fresh (ex_setting ex_inet)) []).
  - split; [apply toy_hash_ok|apply ex_inet_ok].
  - constructor.
  - reflexivity.
  - left. reflexivity.
  - reflexivity.
Qed.
Print Assumptions C58_domain_refuted.
Definition C58_statement_nouser : Prop := forall G cs E l rs s us a d loc aw kw os E' y e, setting_ok G -> Forall call_ok cs -> engine_history G cs E l rs ->
  spec_run (g_crypto G) uspec0 (all_ops cs rs) s us -> call_ok (GManager a (Some 3) d loc aw kw os) ->
  kw_user kw = None -> sp_def s (or_default (kw_namespace kw) []) = None ->
  (forall e', fails G l s a (Some 3) d loc kw os e' -> In e' [NoDefaultUser; ValueError]) ->
  Manager (g_crypto G) (g_rnd G) (g_inet G) E a (Some 3) d loc aw kw os = (E', y, Raise e) -> e = NoDefaultUser.
Theorem C58_nouser_refuted : ~ C58_statement_nouser.
Proof.
  intros H. set (x := Manager (g_crypto (ex_setting ex_inet)) (g_rnd (ex_setting ex_inet)) (g_inet (ex_setting ex_inet)) (fresh (ex_setting ex_inet)) (VStr [49]) (Some 3) None VNone None no_kw (Ok tt)).
  assert (R : snd x = Raise ValueError) by (vm_compute; reflexivity). assert (X : ValueError = NoDefaultUser); [|discriminate].
  apply (H (ex_setting ex_inet) [] (fresh (ex_setting ex_inet)) [] [] uspec0 [] (VStr [49]) None VNone None no_kw (Ok tt) (fst (fst x)) (snd (fst x))).
  - split; [apply toy_hash_ok|apply ex_inet_ok].
  - constructor.
  - reflexivity.
  - constructor.
  - left. reflexivity.
  - reflexivity.
  - reflexivity.
  - intros e' FL. inversion FL; subst; cbn in *; try discriminate; auto; try congruence.
    + intuition lia.
  - rewrite <- R. exact (triple x).
Qed.
Print Assumptions C58_nouser_refuted.

(** * C59 *)
(** connectTransport() refuses, with ValueError and no effect, just unsupported domains and
    those the Engine already handles. *)
Theorem C59_connect : forall G cs E l rs d E' y r, setting_ok G -> Forall call_ok cs -> engine_history G cs E l rs -> connectTransport E d = (E', y, r) ->
  (r = Ok tt <-> ~ Exists (takes G d) (combine cs rs) /\ forall n, d <> DOther n) /\ (r = Ok tt \/ r = Raise ValueError /\ E' = E /\ y = []).
Proof. intros. eapply history_connect; eauto. Qed.
Print Assumptions C59_connect.
(** The full property: a domain without a transport is accepted, and the managers of
    the domain use the transport connected. *)
Definition C59_statement_accepts : Prop := forall G cs E l rs d E' y r, setting_ok G -> Forall call_ok cs -> engine_history G cs E l rs -> connectTransport E d = (E', y, r) ->
  (forall n, d <> DOther n) -> connected l = [] -> r = Ok tt.
Theorem C59_accepts_refuted : ~ C59_statement_accepts.
Proof.
  intros H. set (cs := [GManager (VStr [49]) None None VNone None no_kw (Raise OSError)]).
  set (x := engine_run (toy OpenSSL) (fun _ => 7) ex_inet (fresh (ex_setting ex_inet)) cs).
  set (z := connectTransport (fst (fst x)) UDP_IPv6).
  assert (R : snd z = Raise ValueError /\ connected (snd (fst x)) = []) by (vm_compute; auto). destruct R as [R1 R2].
  assert (X : snd z = Ok tt); [|congruence].
  apply (H (ex_setting ex_inet) cs (fst (fst x)) (snd (fst x)) (snd x) UDP_IPv6 (fst (fst z)) (snd (fst z))); auto.
  - split; [apply toy_hash_ok|apply ex_inet_ok].
  - constructor; [right; reflexivity|constructor].
  - exact (triple x).
  - discriminate.
Qed.
Print Assumptions C59_accepts_refuted.
Definition C59_statement_used : Prop := forall G cs E l rs d E' y id cs' E'' l' rs' m, setting_ok G -> Forall call_ok (cs ++ GConnect d :: cs') ->
  engine_history G cs E l rs -> connectTransport E d = (E', y, Ok tt) -> connected y = [id] ->
  engine_run (g_crypto G) (g_rnd G) (g_inet G) E' cs' = (E'', l', rs') -> In (RManager (Ok m)) rs' -> ch_domain (channel_of m) = d ->
  ch_local (channel_of m) = (VStr (default_address d), VInt 0) -> ch_transport (channel_of m) = id.
Theorem C59_used_refuted : ~ C59_statement_used.
Proof.
  intros H. set (cs := [GManager (VStr [49]) None None VNone None no_kw (Ok tt)]).
  set (z := connectTransport (fresh (ex_setting ex_inet)) UDP_IPv6).
  set (x := engine_run (toy OpenSSL) (fun _ => 7) ex_inet (fst (fst z)) cs).
  set (m := SNMPv2cManager (mkChannel UDP_IPv6 1 (VStr [49], VInt 161) (VStr [58; 58], VInt 0)) true [112]).
  assert (R : snd x = [RManager (Ok m)] /\ snd z = Ok tt /\ connected (snd (fst z)) = [0%nat]) by (vm_compute; auto). destruct R as (R1 & R2 & R3).
  assert (X : 1%nat = 0%nat); [|discriminate].
  apply (H (ex_setting ex_inet) [] (fresh (ex_setting ex_inet)) [] [] UDP_IPv6 (fst (fst z)) (snd (fst z)) 0%nat cs (fst (fst x)) (snd (fst x)) (snd x) m).
  - split; [apply toy_hash_ok|apply ex_inet_ok].
  - repeat constructor.
  - reflexivity.
  - rewrite <- R2. exact (triple z).
  - exact R3.
  - exact (triple x).
  - rewrite R1. left. reflexivity.
  - reflexivity.
  - reflexivity.
Qed.
Print Assumptions C59_used_refuted.

(** * Example *)
(** A user is added; two SNMPv2c managers from one local address, one of them with the port
    as a float; an SNMPv3 manager with an engine ID from another address; one that claims the
    engine ID for another namespace; a transport. *)
Definition ex_calls : list gcall :=
  [GUsers (OpAddUser [117] None None None None [] false None []);
   GManager (VStr [49]) None None (VTuple [VStr [50]; VInt 7]) None no_kw (Ok tt);
   GManager (VStr [51]) None None (VTuple [VStr [50]; VFloat (FFin 7)]) (Some false) (mkKw (Some [99]) None None None None None) (Ok tt);
   GManager (VTuple [VStr [51]; VInt 1161]) (Some 3) None VNone None (mkKw None (Some [1; 2; 3; 4; 5]) None None None None) (Ok tt);
   GUsers (OpAddUser [118] None None None None [] false None [65]);
   GManager (VStr [51]) (Some 3) None VNone None (mkKw None (Some [1; 2; 3; 4; 5]) None None None (Some [65])) (Ok tt);
   GManager (VStr [51]) (Some 2) None VNone None no_kw (Ok tt);
   GConnect UDP_IPv4; GConnect UDP_IPv6].
Example C51_example :
  let G := ex_setting ex_inet in let x := engine_run (g_crypto G) (g_rnd G) (g_inet G) (fresh G) ex_calls in
  snd x = [RUsers (Ok true);
    RManager (Ok (SNMPv2cManager (mkChannel UDP_IPv6 0 (VStr [49], VInt 161) (VStr [50], VInt 7)) true [112]));
    RManager (Ok (SNMPv2cManager (mkChannel UDP_IPv6 0 (VStr [51], VInt 161) (VStr [50], VFloat (FFin 7))) false [99]));
    RManager (Ok (SNMPv3Manager (mkChannel UDP_IPv6 2 (VStr [51], VInt 1161) (VStr [58; 58], VInt 0)) true [] [117] noAuthNoPriv (Some [1; 2; 3; 4; 5])));
    RUsers (Ok true); RManager (Raise DiscoveryError); RManager (Raise ValueError); RConnect (Ok tt); RConnect (Raise ValueError)] /\
  sockets (snd (fst x)) = [(UDP_IPv6, (VStr [50], VInt 7), 0%nat); (UDP_IPv6, (VStr [58; 58], VInt 0), 2%nat)] /\
  connected (snd (fst x)) = [0; 2; 4]%nat /\ processors (snd (fst x)) = [(1, 1%nat); (3, 3%nat)] /\ setting_ok G /\ Forall call_ok ex_calls.
Proof.
  cbv zeta. split; [vm_compute; reflexivity|]. split; [vm_compute; reflexivity|]. split; [vm_compute; reflexivity|]. split; [vm_compute; reflexivity|].
  split; [split; [apply toy_hash_ok|apply ex_inet_ok]|]. repeat constructor.
Qed.
