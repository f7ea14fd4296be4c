(** PropertiesReg.v -- C66: the registrations of remote engines are balanced. *)
From Verif Require Import PropertiesUsm PropertiesMsg PropertiesProc PropertiesMgr.
From Verif Require Export PropertiesMgr3 PrfReg2 SpecReg.

(** A security module on which any operations have been made before. *)
Definition used_before (W : world) : Prop :=
  exists C rnd h, us_users (w_usm W) = fst (user_run C rnd registry0 h).

Section Run.
  Context (W : world).
  Lemma step_fst s l x : fst (m3_next (w_crypto W) (w_ticks W) (w_rnd W) (w_clk W) (w_fmt W) (w_namespace W) (s, l) x) = fst (step3 W s x).
  Proof. unfold m3_next, step3. destruct (m3_step _ _ _ _ _ _ _ _) as [s' l']. reflexivity. Qed.
  Lemma others_snoc evs : forall s l x e, others_from W s (evs ++ [x]) e =
    others_from W s evs e + changed W (fst (fold_left (m3_next (w_crypto W) (w_ticks W) (w_rnd W) (w_clk W) (w_fmt W) (w_namespace W)) evs (s, l))) x e.
  Proof.
    induction evs as [|y evs IH]; intros s l x e; cbn [app others_from fold_left fst].
    - lia.
    - destruct (m3_next _ _ _ _ _ _ (s, l) y) as [s1 l1] eqn:N. pose proof (step_fst s l y) as F. rewrite N in F. cbn [fst] in F. rewrite <- F.
      rewrite (IH s1 l1). lia.
  Qed.
  Lemma balance_run evs : used_before W -> others_fair W evs ->
    forall s l, run3 W evs = (s, l) -> inv3 s /\ BD (w_namespace W) (others W evs) s.
  Proof.
    intros (C & rnd & h & U). assert (RO : reg_ok (us_users (w_usm W))) by (rewrite U; apply (user_run_ok C rnd []); apply reg0_ok).
    induction evs as [|x evs IH] using rev_ind; intros F s l E.
    - injection E as <- <-. unfold new3. destruct (mgr3_new _ _ _ _ _ _) as [s0 x] eqn:N. cbn [fst]. split; [eapply inv3_start; exact N|].
      apply start_BD in N; [|exact RO]. eapply BD_ext; [|exact N]. intros e. unfold others. cbn [others_from]. lia.
    - assert (F' : others_fair W evs) by (intros b a e ->; apply (F b (a ++ [x])); now rewrite app_assoc).
      unfold run3 in E. rewrite m3_run_snoc in E. fold (run3 W evs) in E. destruct (run3 W evs) as [s1 l1] eqn:R1.
      destruct (m3_step _ _ _ _ _ _ _ _) as [s2 l2] eqn:M. injection E as <- <-. destruct (IH F' s1 l1 eq_refl) as [I B].
      assert (O : forall e, others W (evs ++ [x]) e = others W evs e + evchange (w_crypto W) (w_rnd W) (w_namespace W) s1 x e).
      { intros e. unfold others. rewrite (others_snoc evs _ []). unfold run3, m3_run in R1. rewrite R1. cbn [fst]. unfold changed, evchange, opchange. lia. }
      split; [eapply step_spec; [exact I|]; eapply m3_step_spec; exact M|].
      eapply BD_ext; [exact O|]. eapply step_BD; [exact I|exact B| | |exact M].
      + intros e. apply (F evs [x]). reflexivity.
      + intros e. rewrite <- O. apply (F (evs ++ [x]) []). now rewrite app_nil_r.
  Qed.
End Run.

(** C66: at any time, a remote engine is registered in the manager's namespace
    exactly once for the manager, if it holds its ID, once for each request that
    does, and as often as others did. *)
Theorem C66_balance W evs s l e : used_before W -> others_fair W evs -> history W evs s l ->
  registered (us_users (v_usm s)) (w_namespace W) e = holders s e + others W evs e.
Proof. intros U F [_ H]. destruct (balance_run W evs U F s l H) as [_ [[_ B] _]]. apply B. Qed.
Print Assumptions C66_balance.

(** C66: close() at the end of wait() does not raise, whatever wait() has to
    report; afterwards the request holds no registration.  Neither does a request
    that was collected. *)
Theorem C66_close W evs s l n r o : used_before W -> others_fair W evs -> history W evs s l ->
  nth_error (v_tasks s) n = Some (SClose r o) ->
  snd (step3 W s (VStep n)) = [WOutcome r o] /\ q_engine (request3 (fst (step3 W s (VStep n))) r) = None.
Proof.
  intros U F [_ H] N. destruct (balance_run W evs U F s l H) as [_ [B _]].
  assert (O : forall e, 0 <= others W evs e) by (intros e; apply (F evs []); now rewrite app_nil_r).
  unfold step3. cbn [m3_step]. rewrite N. cbn [task3_step]. destruct (close3 _ _ _ _ _) as [s1 y] eqn:E.
  apply (close_bal _ _ _ (others W evs)) in E as (_ & -> & _ & _ & _ & Q); [|exact B|exact O]. cbn [fst snd]. split; [reflexivity|exact Q].
Qed.
Print Assumptions C66_close.
Theorem C66_collected W evs s l r : used_before W -> others_fair W evs -> history W evs s l ->
  made3' s r -> ~ alive3 s r -> q_engine (request3 s r) = None.
Proof.
  intros U F [_ H] M A. destruct (balance_run W evs U F s l H) as [_ [_ D]]. apply D. unfold alive3, request3 in A. destruct (q_alive _); [now destruct A|reflexivity].
Qed.
Print Assumptions C66_collected.

(** C66: when all requests and then the manager are collected, what is left are
    the registrations of others; if there are none, the engine is not registered
    any more in this namespace. *)
Definition deleted3 (W : world) (s : mgr3) : mgr3 * res unit := mgr3_del (w_crypto W) (w_rnd W) (w_namespace W) s.
Theorem C66_deleted W evs s l : used_before W -> others_fair W evs -> history W evs s l ->
  (forall r, ~ alive3 s r) ->
  snd (deleted3 W s) = Ok tt /\
  forall e, registered (us_users (v_usm (fst (deleted3 W s)))) (w_namespace W) e = others W evs e.
Proof.
  intros U F [_ H] A. destruct (balance_run W evs U F s l H) as [_ [B D]].
  assert (O : forall e, 0 <= others W evs e) by (intros e; apply (F evs []); now rewrite app_nil_r).
  unfold deleted3, mgr3_del. destruct (manager_engine _ _ _ _ _) as [s1 y] eqn:E.
  apply (manager_engine_bal _ _ _ (others W evs)) in E as ([_ B1] & Y & Q & V); [|exact B|exact O]. specialize (Y eq_refl). subst y. cbn [fst snd]. split; [reflexivity|].
  intros e. rewrite B1, holders_eq, V, Q. cbn [holds].
  assert (Z : forall r, q_engine (get3 (v_reqs s) r) = None).
  { intros r. apply D. specialize (A r). unfold alive3, request3 in A. destruct (q_alive _); [now destruct A|reflexivity]. }
  assert (HZ : forall l', (forall r, q_engine (get3 l' r) = None) -> heldby l' e = 0).
  { induction l' as [|q l' IH]; intros Z'; [reflexivity|]. change (heldby (q :: l') e) with (holds e (q_engine q) + heldby l' e).
    rewrite IH; [|intros r; exact (Z' (S r))]. pose proof (Z' 0%nat) as Z0. change (q_engine q = None) in Z0. rewrite Z0. reflexivity. }
  rewrite (HZ _ Z). lia.
Qed.
Print Assumptions C66_deleted.

(** Others that never release anything are fair. *)
Lemma others_keep_fair W evs : used_before W -> (forall e ns, ~ In (VUsers (OpRelease e ns)) evs) -> others_fair W evs.
Proof.
  intros (C & rnd & h & U) N before after e ->.
  assert (RO : reg_ok (us_users (w_usm W))) by (rewrite U; apply (user_run_ok C rnd []); apply reg0_ok).
  assert (N' : forall e ns, ~ In (VUsers (OpRelease e ns)) before) by (intros e' ns I; apply (N e' ns), in_or_app; auto). clear N after.
  assert (P : forall s, 0 <= others_from W s before e).
  { induction before as [|x before IH]; intros s; cbn [others_from]; [lia|].
    assert (0 <= changed W s x e).
    { destruct x as [| | | | | |op| |]; cbn [changed]; try lia. destruct op as [| e' ns'| e' ns' |]; try lia.
      - destruct (snd _) as [[]|]; try lia. destruct (zlist_eqb _ _); [apply holds_nonneg|lia].
      - exfalso. apply (N' e' ns'). now left. }
    assert (0 <= others_from W (fst (step3 W s x)) before e) by (apply IH; intros e' ns I; apply (N' e' ns); now right). lia. }
  unfold others. pose proof (reg_nonneg (w_namespace W) _ e RO). specialize (P (fst (new3 W))). lia.
Qed.
(** Another user of the module registers the engine; a request discovers it, is
    answered and waited for, and is collected; then the manager is. *)
Definition ex_shared : list event3 := VUsers (OpRegister ex_engine []) :: ex_call noAuthNoPriv 10 3 ++ ex_discovered ++
  [VReceive (ex_note 26 ex_engine ex_user (ex_reply3 13)); VListen; VListen; VListen; VWait 0] ++ ex_steps 7.
Example C66_example : let W := ex_world [0] None in used_before W /\ others_fair W (ex_shared ++ [VStep 0; VDie 0]) /\
  let '(s, l) := run3 W ex_shared in
  registered (us_users (v_usm s)) [] ex_engine = 3 /\ holders s ex_engine = 2 /\ others W ex_shared ex_engine = 1 /\
  (exists o, nth_error (v_tasks s) 0 = Some (SClose 0 o)) /\
  let s' := fst (step3 W (fst (step3 W s (VStep 0))) (VDie 0)) in
  registered (us_users (v_usm s')) [] ex_engine = 2 /\ (forall r, ~ alive3 s' r) /\
  registered (us_users (v_usm (fst (deleted3 W s')))) [] ex_engine = 1.
Proof.
  assert (U : used_before (ex_world [0] None)).
  { exists (toy OpenSSL), (fun _ => 7), [OpAddUser ex_user (Some HmacSha) None None None ex_secret false None []]. vm_compute. reflexivity. }
  split; [exact U|]. split.
  - apply others_keep_fair; [exact U|]. intros e ns H. vm_compute in H. repeat (destruct H as [H|H]; [discriminate H|]). destruct H.
  - vm_compute. split; [auto|]. split; [auto|]. split; [auto|]. split; [eauto|]. split; [auto|]. split; [|auto].
    intros [|[|r]]; discriminate.
Qed.
