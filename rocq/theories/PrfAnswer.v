(** PrfAnswer.v -- the v3 manager: an answer that arrives. *)
From Verif Require Export PropertiesUsm PropertiesMsg PropertiesProc PropertiesMgr PrfMgr3i PropertiesMgr3 PropertiesReg PropertiesUse.
From Verif Require Export PrfOpen2 PrfMgr3e PrfMgr3d SpecAnswer.

Lemma run3_app W evs x : run3 W (evs ++ [x]) = let '(s, l) := run3 W evs in let '(s', l') := step3 W s x in (s', rev l' ++ l).
Proof. unfold run3, step3. apply m3_run_snoc. Qed.
Lemma run3_next W evs s l x s' l' : run3 W evs = (s, l) -> step3 W s x = (s', l') -> run3 W (evs ++ [x]) = (s', rev l' ++ l).
Proof. intros A B. now rewrite run3_app, A, B. Qed.

Section Modules.
  Context (W : world).
  Lemma modules_run evs : forall s l, run3 W evs = (s, l) -> has_module (v_proc s) USM = true.
  Proof.
    induction evs as [|x evs IH] using rev_ind; intros s l H.
    - unfold run3 in H. cbn in H. injection H as <- _. unfold new3, mgr3_new. destruct (w_engine W) as [e|]; [|reflexivity].
      destruct (manager_engine _ _ _ _ _) as [s1 y] eqn:E. apply manager_engine_pool in E as [_ E]. cbn [fst set_state v_proc]. rewrite E. reflexivity.
    - rewrite run3_app in H. destruct (run3 W evs) as [s1 l1] eqn:R1. destruct (step3 W s1 x) as [s2 l2] eqn:S1. injection H as <- <-.
      specialize (IH s1 l1 eq_refl). apply (step_c _ _ _ _ _ _ (Some x) _ _ _ _ eq_refl) in S1. destruct S1 as [_ P _|r c m _ _ P _|s3 s4 r w now p e user level y T _ P _ _ P'|p e user level ts XE o _ P _|h id XE _ _ _ P _].
      + now rewrite P.
      + now rewrite P.
      + rewrite P'. rewrite <- P in IH. apply transmit_spec in T as (u & p' & cb & -> & (MO & _) & _). cbn [v_proc set_objects set_io]. unfold has_module in *. now rewrite MO.
      + rewrite P. subst o. destruct (v3_prepareOutgoing _ _ _ _ _ _ _ _ _ _ _ _ _) as [o y] eqn:E. apply outgoing3 in E as (MO & _). cbn [fst]. unfold has_module in *. now rewrite MO.
      + now rewrite P.
  Qed.
End Modules.
(** The datagrams that the manager made. *)
Lemma secured_decodes W id p e user level wire : crypto_ok (w_crypto W) -> 484 <= w_size W <= 2147483647 -> pdu_ok p -> octets_ok e -> octets_ok user -> SpecMsg.level_ok level ->
  secured_as W id p e user level wire -> exists mw, v3_decode (ABytes wire) = Ok mw /\ h_id (v3_header mw) = id.
Proof.
  intros CO SZ PO EO UO LO (ID & u & ts & (h & F & ->) & P).
  destruct (prepared_of (w_crypto W) (w_ticks W) (w_rnd W 2) h (outgoing (w_size W) id level p e) (mkScoped e [] p) e user ts wire) as (m2 & _ & _ & _ & _ & _ & _ & D & HH & _); auto.
  - split; [exact ID|]. split; [exact SZ|]. split; [exact LO|reflexivity].
  - split; [exact EO|]. split; [split; [apply Forall_nil|vm_compute; discriminate]|exact PO].
  - exists m2. split; [exact D|]. rewrite HH. reflexivity.
Qed.
(** The registration of an engine that is registered. *)
Lemma assign_again C rnd u e ns : 0 < registered u ns e -> snd (ur_assign C rnd u e ns) = Ok true.
Proof.
  unfold registered, ur_assign. destruct (dict_get zlist_eqb (ur_engines u) e) as [r|]; [|lia]. destruct (zlist_eqb (re_namespace r) ns) eqn:E; [|lia]. intros _.
  apply PrfDict.zlist_eqb_eq in E. unfold re_assign. rewrite <- E, PrfBase.zlist_eqb_refl. reflexivity.
Qed.
Lemma manager_engine_again C rnd ns o s e s' x : bal ns o s -> (forall e, 0 <= o e) -> 0 < registered (us_users (v_usm s)) ns e ->
  manager_engine C rnd ns s (Some e) = (s', x) -> x = Ok tt.
Proof.
  intros [B1 B2] O P. unfold manager_engine. destruct (opt_eqb _ _ _) eqn:OE; [intros H; now injection H as _ <-|].
  destruct (switch_engine _ _ _ _ _ _) as [s1 y] eqn:E. intros H.
  assert (Y : y = Ok tt); [|subst y; now injection H as _ <-]. clear H. revert E. unfold switch_engine, registerRemoteEngine.
  pose proof (assign_again C (rnd 2%nat) (us_users (v_usm s)) e ns P) as A. destruct (ur_assign _ _ _ _ _) as [u1 z] eqn:AE. cbn [snd] in A. subst z. cbn [bind].
  destruct (v_engine s) as [e0|] eqn:VE; [|intros H; now injection H as _ <-]. unfold unregisterRemoteEngine.
  destruct (assign_reg C (rnd 2%nat) ns _ _ _ _ _ B1 AE) as [K1 K2]. destruct (ur_release _ e0 ns) as [u2 y2] eqn:RE. cbn [v_usm set_users set_io us_users] in RE.
  apply release_ok in RE as (_ & [b ->] & _); [intros H; now injection H as _ <-|exact K1|].
  rewrite K2, B2, holders_eq, VE, holds_self. pose proof (heldby_nonneg (v_reqs s) e0). specialize (O e0). pose proof (holds_nonneg e0 (Some e)). destruct (zlist_eqb ns ns); lia.
Qed.
