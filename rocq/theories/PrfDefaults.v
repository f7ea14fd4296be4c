(** PrfDefaults.v -- proofs for C81. *)
From Verif Require Import PrfBase PrfDict PrfUsers PrfEngine4.
From Verif Require Export SpecDefaults.
Require Import Lia.
Open Scope Z_scope.

Record def_inv (s : uspec) (ns : pystr) (l : list addition) : Prop := mkDefInv {
  di_user : match sp_def s ns with Some n => is_default_user l n | None => l = [] end;
  di_level : forall n, match sp_cfg s ns n with
    | Some cf => is_default_level l n (uc_default cf)
    | None => forall a, In a l -> ad_name a <> n end
}.
Lemma def_inv_same s s' ns l : sp_cfg s' = sp_cfg s -> sp_def s' = sp_def s -> def_inv s ns l -> def_inv s' ns l.
Proof. intros A B [U L]. constructor; rewrite ?A, ?B; auto. Qed.
Lemma default_snoc l n a : is_default_user l n -> ad_default a = false -> is_default_user (l ++ [a]) n.
Proof.
  intros [(l1 & b & l2 & -> & D & N & F)|(F & b & l2 & -> & N)] A.
  - left. exists l1, b, (l2 ++ [a]). rewrite <- app_assoc. split; [reflexivity|]. split; [exact D|]. split; [exact N|]. apply Forall_app. auto.
  - right. split; [apply Forall_app; auto|]. exists b, (l2 ++ [a]). auto.
Qed.
Lemma def_inv_add C s ns l n ap asec pp ps sec d dsl ns' s' b :
  spec_step C s (OpAddUser n ap asec pp ps sec d dsl ns') s' (Ok b) -> def_inv s ns l ->
  def_inv s' ns (l ++ if zlist_eqb ns' ns then [mkAddition n ap pp d dsl] else []).
Proof.
  intros S [U L]. inversion S; subst. match goal with H : spec_credentials _ _ _ _ _ _ _ |- _ => rename H into SC end.
  match goal with H : _ \/ _ |- _ => rename H into OLD end.
  set (lv := match dsl with Some l => l | None => cr_max c end) in *.
  assert (LV : lv = or_default dsl (highest (mkAddition n ap pp d dsl))).
  { unfold lv. destruct SC as (M & _). unfold highest. cbn. destruct dsl; [reflexivity|]. exact M. }
  destruct (zlist_eqb ns' ns) eqn:E.
  - apply PrfDict.zlist_eqb_eq in E as ->. constructor; cbn [sp_def sp_cfg].
    + destruct (sp_def s ns) as [n0|] eqn:DEF.
      * rewrite orb_false_r. destruct d.
        { unfold upd1. rewrite PrfBase.zlist_eqb_refl. left. exists l, (mkAddition n ap pp true dsl), []. cbn. auto. }
        { rewrite DEF. apply default_snoc; [exact U|reflexivity]. }
      * rewrite orb_true_r. unfold upd1. rewrite PrfBase.zlist_eqb_refl. subst l. cbn. destruct d.
        { left. exists [], (mkAddition n ap pp true dsl), []. cbn. auto. }
        { right. split; [constructor; [reflexivity|constructor]|]. exists (mkAddition n ap pp false dsl), []. auto. }
    + intros n'. unfold upd2. rewrite PrfBase.zlist_eqb_refl. cbn [andb]. destruct (zlist_eqb n' n) eqn:N.
      * apply PrfDict.zlist_eqb_eq in N as ->. cbn [uc_default]. split.
        { exists (mkAddition n ap pp d dsl). split; [apply in_or_app; right; left; reflexivity|reflexivity]. }
        intros a IN NA. apply in_app_or in IN as [IN|[<-|[]]]; [|exact LV]. specialize (L n). destruct OLD as [OLD|[OLD _]]; rewrite OLD in L.
        { elim (L a IN NA). }
        { cbn in L. destruct L as [_ L]. apply (L a IN NA). }
      * assert (NN : n' <> n) by (intros ->; rewrite PrfBase.zlist_eqb_refl in N; discriminate).
        specialize (L n'). destruct (sp_cfg s ns n') as [cf|] eqn:CF.
        { destruct L as [(a & IN & NA) L]. split; [exists a; split; [apply in_or_app; left; exact IN|exact NA]|].
          intros b IB NB. apply in_app_or in IB as [IB|[<-|[]]]; [apply L; auto|]. cbn in NB. congruence. }
        { intros a IN. apply in_app_or in IN as [IN|[<-|[]]]; [apply L; exact IN|]. cbn. congruence. }
  - rewrite app_nil_r. assert (NN : zlist_eqb ns ns' = false).
    { destruct (zlist_eqb ns ns') eqn:X; [|reflexivity]. apply PrfDict.zlist_eqb_eq in X as ->. rewrite PrfBase.zlist_eqb_refl in E. discriminate. }
    constructor; cbn [sp_def sp_cfg].
    + destruct (d || _)%bool; [|exact U]. unfold upd1. rewrite NN. exact U.
    + intros n'. unfold upd2. rewrite NN. cbn [andb]. apply L.
Qed.
Lemma spec_step_fail C s op s' e : spec_step C s op s' (Raise e) -> sp_cfg s' = sp_cfg s /\ sp_def s' = sp_def s.
Proof. intros S. inversion S; subst; try (split; reflexivity). Qed.
Lemma spec_step_other C s op s' r : spec_step C s op s' r -> (forall n ap asec pp ps sec d dsl ns, op <> OpAddUser n ap asec pp ps sec d dsl ns) ->
  sp_cfg s' = sp_cfg s /\ sp_def s' = sp_def s.
Proof.
  intros S N. inversion S; subst; try (elim (N n ap asec pp ps sec d dsl ns); reflexivity); try (elim (N n ap asec pp ps sec d (Some l) ns); reflexivity); try (split; reflexivity).
  destruct (live_elsewhere s e ns); split; reflexivity.
Qed.
Lemma manager_ops C s a v d loc aw kw os r s' us : spec_run C s (ops_of (GManager a v d loc aw kw os) r) s' us ->
  sp_cfg s' = sp_cfg s /\ sp_def s' = sp_def s.
Proof.
  assert (REG : forall e ns, spec_run C s [OpRegister e ns] s' us -> sp_cfg s' = sp_cfg s /\ sp_def s' = sp_def s).
  { intros e ns H. inversion H; subst. match goal with X : spec_run _ _ [] _ _ |- _ => inversion X; subst end.
    match goal with X : spec_step _ _ _ _ _ |- _ => apply spec_step_other in X; [exact X|intros; discriminate] end. }
  assert (NIL : spec_run C s [] s' us -> sp_cfg s' = sp_cfg s /\ sp_def s' = sp_def s) by (intros H; inversion H; subst; auto).
  cbn [ops_of]. destruct r as [[m|e]|r|r].
  - destruct m as [ch x c|ch x c|ch x ns u lv [e|]]; eauto.
  - destruct e; auto. destruct (kw_engineID kw); eauto.
  - exact NIL.
  - exact NIL.
Qed.
Lemma additions_run G ns cs : setting_ok G -> Forall call_ok cs -> forall E l s l0 E' y rs, agrees G E -> EInv E l -> UInv (g_crypto G) (e_users E) s -> def_inv s ns l0 ->
  engine_run (g_crypto G) (g_rnd G) (g_inet G) E cs = (E', y, rs) ->
  exists s', UInv (g_crypto G) (e_users E') s' /\ def_inv s' ns (l0 ++ additions ns cs rs) /\ EInv E' (l ++ y) /\ agrees G E'.
Proof.
  intros SO. induction cs as [|c cs IH]; intros F E l s l0 E' y rs AG EI U D H.
  - injection H as <- <- <-. exists s. cbn. rewrite !app_nil_r. auto.
  - cbn [engine_run] in H. destruct (engine_step _ _ _ E c) as [[E1 y1] r] eqn:ST. destruct (engine_run _ _ _ E1 cs) as [[E2 y2] rs2] eqn:RU. injection H as <- <- <-.
    inversion F; subst. destruct (step_spec _ _ _ _ _ _ _ _ SO H1 AG EI U ST) as (A & B & _ & _). pose proof (agrees_grows _ _ _ AG B) as AG1.
    rewrite app_assoc.
    assert (K : exists s1 l1, UInv (g_crypto G) (e_users E1) s1 /\ def_inv s1 ns (l0 ++ l1) /\ additions ns (c :: cs) (r :: rs2) = l1 ++ additions ns cs rs2).
    { destruct c as [a v d loc aw kw os|d|op].
      - cbn in H1. cbn [engine_step] in ST. destruct (Manager _ _ _ E a v d loc aw kw os) as [[E3 y3] r3] eqn:M. injection ST as <- <- <-.
        destruct (manager_spec _ _ _ _ _ _ _ _ _ _ _ _ _ _ SO AG EI U H1 M) as (_ & _ & (s1 & us & S1 & U1) & _).
        exists s1, []. split; [exact U1|]. rewrite app_nil_r. split; [|reflexivity]. destruct (manager_ops _ _ _ _ _ _ _ _ _ _ _ _ S1). eapply def_inv_same; eauto.
      - cbn [engine_step] in ST. destruct (connectTransport E d) as [[E3 y3] r3] eqn:M. injection ST as <- <- <-. destruct (ei_connect _ _ _ _ _ _ EI M) as (_ & _ & EU).
        exists s, []. rewrite EU, app_nil_r. auto.
      - cbn [engine_step] in ST. cbn in H1. destruct (user_step (g_crypto G) (g_rnd G) (e_users E) op) as [u r1] eqn:M. injection ST as <- <- <-.
        pose proof U as (UI & UW & UD). destruct (step_refines (g_crypto G) (g_rnd G) (e_users E) s op (proj1 SO) H1 UI UW) as (s' & S & I' & W'). rewrite M in S, I'. cbn in S, I'.
        assert (U1 : UInv (g_crypto G) u s') by (split; [exact I'|]; split; [exact W'|]; eapply def_in_step; eauto).
        destruct op as [n ap asec pp ps sec d dsl ns'|e ns'|e ns'|e n data b t].
        2-4: exists s', []; split; [exact U1|]; rewrite app_nil_r; split; [|reflexivity]; apply spec_step_other in S; [|intros; discriminate]; destruct S; eapply def_inv_same; eauto.
        destruct r1 as [b|e].
        + exists s'. eexists. split; [exact U1|]. split; [eapply def_inv_add; eauto|]. reflexivity.
        + exists s', []. split; [exact U1|]. rewrite app_nil_r. split; [|reflexivity]. apply spec_step_fail in S. destruct S. eapply def_inv_same; eauto. }
    destruct K as (s1 & l1 & U1 & D1 & ->). rewrite app_assoc. eapply IH; eauto.
Qed.
Lemma additions_history G ns cs E l rs : setting_ok G -> Forall call_ok cs -> engine_history G cs E l rs ->
  exists s, UInv (g_crypto G) (e_users E) s /\ def_inv s ns (additions ns cs rs) /\ EInv E l /\ agrees G E.
Proof.
  intros SO F H. assert (AG : agrees G (fresh G)) by (repeat split). assert (D0 : def_inv uspec0 ns []) by (constructor; cbn; auto).
  exact (additions_run G ns cs SO F (fresh G) [] uspec0 [] E l rs AG (ei0 G) (uinv0 _) D0 H).
Qed.
