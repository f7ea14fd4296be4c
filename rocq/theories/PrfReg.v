(** PrfReg.v -- the registry: what each operation does to the registrations. *)
From Verif Require Export SpecReg PrfDict PrfBase.

Section Reg.
  Context (C : crypto) (rnd : nat -> Z) (ns : pystr).
  Definition reg_ok (u : registry) : Prop :=
    NoDup (map fst (ur_engines u)) /\ forall e r, dict_get zlist_eqb (ur_engines u) e = Some r -> 0 < re_count r.
  Notation reg := (fun u => registered u ns).
  (** The same registrations (in every namespace). *)
  Definition reg_same (u u' : registry) : Prop :=
    map fst (ur_engines u') = map fst (ur_engines u) /\
    forall e, match dict_get zlist_eqb (ur_engines u) e, dict_get zlist_eqb (ur_engines u') e with
      | Some r, Some r' => re_count r' = re_count r /\ re_namespace r' = re_namespace r
      | None, None => True | _, _ => False end.
  Lemma reg_same_refl u : reg_same u u.
  Proof. split; [auto|]. intros e. destruct (dict_get _ _ _); auto. Qed.
  Lemma reg_same_eq u u' : ur_engines u' = ur_engines u -> reg_same u u'.
  Proof. intros E. split; [now rewrite E|]. intros e. rewrite E. destruct (dict_get _ _ _); auto. Qed.
  Lemma reg_same_trans u u1 u2 : reg_same u u1 -> reg_same u1 u2 -> reg_same u u2.
  Proof.
    intros [A B] [A1 B1]. split; [congruence|]. intros e. specialize (B e). specialize (B1 e).
    destruct (dict_get zlist_eqb (ur_engines u) e), (dict_get zlist_eqb (ur_engines u1) e), (dict_get zlist_eqb (ur_engines u2) e); try easy. intuition congruence.
  Qed.
  Lemma reg_same_ok u u' : reg_same u u' -> reg_ok u -> reg_ok u' /\ forall e, reg u' e = reg u e.
  Proof.
    intros [A B] [N P]. split; [split; [now rewrite A|]|].
    - intros e r G. specialize (B e). rewrite G in B. destruct (dict_get zlist_eqb (ur_engines u) e) as [r0|] eqn:G0; [|easy]. destruct B as [-> _]. eauto.
    - intros e. unfold registered. specialize (B e). destruct (dict_get zlist_eqb (ur_engines u) e), (dict_get zlist_eqb (ur_engines u') e); try easy. destruct B as [-> ->]. reflexivity.
  Qed.
  Lemma reg_nonneg u e : reg_ok u -> 0 <= reg u e.
  Proof. intros [_ P]. unfold registered. destruct (dict_get zlist_eqb (ur_engines u) e) as [r|] eqn:G; [|lia]. specialize (P e r G). destruct (zlist_eqb _ _); lia. Qed.
  (** One entry replaced by one with the same count. *)
  Lemma reg_same_set u e r r' nss n : dict_get zlist_eqb (ur_engines u) e = Some r -> re_count r' = re_count r -> re_namespace r' = re_namespace r ->
    reg_same u (mkReg (dict_set zlist_eqb (ur_engines u) e r') nss n).
  Proof.
    intros G A B. split.
    - cbn [ur_engines]. pose proof (keys_set (ur_engines u) e r') as K. unfold dict_mem in K. rewrite G in K. exact K.
    - intros e'. cbn [ur_engines]. rewrite get_set. destruct (zlist_eqb e' e) eqn:E.
      + apply PrfDict.zlist_eqb_eq in E as ->. rewrite G. auto.
      + destruct (dict_get zlist_eqb (ur_engines u) e'); auto.
  Qed.
  Lemma addUser_engines_same n l namespace userName c : forall l' n' x, addUser_engines C rnd n l namespace userName c = (l', n', x) ->
    map fst l' = map fst l /\ forall e, match dict_get zlist_eqb l e, dict_get zlist_eqb l' e with
      | Some r, Some r' => re_count r' = re_count r /\ re_namespace r' = re_namespace r
      | None, None => True | _, _ => False end.
  Proof.
    revert n. induction l as [|[e0 r0] l IH]; intros n l' n' x; cbn [addUser_engines]; intros E.
    - injection E as <- <- <-. split; [auto|]. intros e. cbn. auto.
    - assert (K : forall r1 l1, re_count r1 = re_count r0 -> re_namespace r1 = re_namespace r0 ->
        (map fst l1 = map fst l /\ forall e, match dict_get zlist_eqb l e, dict_get zlist_eqb l1 e with
          | Some r, Some r' => re_count r' = re_count r /\ re_namespace r' = re_namespace r
          | None, None => True | _, _ => False end) ->
        map fst ((e0, r1) :: l1) = map fst ((e0, r0) :: l) /\ forall e, match dict_get zlist_eqb ((e0, r0) :: l) e, dict_get zlist_eqb ((e0, r1) :: l1) e with
          | Some r, Some r' => re_count r' = re_count r /\ re_namespace r' = re_namespace r
          | None, None => True | _, _ => False end).
      { intros r1 l1 A B [D F]. split; [cbn; now rewrite D|]. intros e. cbn [dict_get]. destruct (zlist_eqb e e0); [auto|apply F]. }
      assert (SL : map fst l = map fst l /\ forall e, match dict_get zlist_eqb l e, dict_get zlist_eqb l e with
          | Some r, Some r' => re_count r' = re_count r /\ re_namespace r' = re_namespace r
          | None, None => True | _, _ => False end) by (split; [auto|]; intros e; destruct (dict_get _ _ _); auto).
      destruct (zlist_eqb (re_namespace r0) namespace).
      + unfold re_addUser in E. destruct (cr_localize C rnd n c e0) as [[lc n1]|ex]; cbn [bind] in E.
        * destruct (addUser_engines C rnd n1 l namespace userName c) as [[l1 n2] y] eqn:R. injection E as <- <- <-. apply K; [reflexivity|reflexivity|]. eauto.
        * injection E as <- <- <-. apply K; auto.
      + destruct (addUser_engines C rnd n l namespace userName c) as [[l1 n2] y] eqn:R. injection E as <- <- <-. apply K; eauto.
  Qed.
  Lemma addUser_same u name ap asec pp ps sec d dsl ns' u' x : addUser C rnd u name ap asec pp ps sec d dsl ns' = (u', x) -> reg_same u u'.
  Proof.
    unfold addUser. intros E.
    set (cu := match dict_get zlist_eqb (ur_namespaces u) ns' with Some c => (c, u) | None => _ end) in E.
    assert (U : ur_engines (snd cu) = ur_engines u) by (unfold cu; destruct (dict_get zlist_eqb (ur_namespaces u) ns'); reflexivity).
    destruct cu as [config u1]. cbn [snd] in U. destruct (Credentials _ _ _ _ _ _) as [cred|ex]; [|injection E as <- _; now apply reg_same_eq].
    destruct (ns_addUser _ _ _ _ _) as [cf|ex]; [|injection E as <- _; now apply reg_same_eq].
    destruct (addUser_engines _ _ _ _ _ _ _) as [[l' n'] y] eqn:R. injection E as <- _. apply addUser_engines_same in R. rewrite U in R. exact R.
  Qed.
  Lemma addUsers_count n r e l : forall r' n', re_addUsers C rnd n r e l = Ok (r', n') -> re_count r' = re_count r /\ re_namespace r' = re_namespace r.
  Proof.
    revert n r. induction l as [|[name uc] l IH]; intros n r r' n'; cbn [re_addUsers]; intros E; [injection E as <- <-; auto|].
    unfold re_addUser in E. destruct (cr_localize _ _ _ _ _) as [[lc n1]|]; [|discriminate]. cbn [bind] in E. apply IH in E. exact E.
  Qed.
  Lemma holds_eq e e' : holds e (Some e') = if zlist_eqb e e' then 1 else 0.
  Proof.
    unfold holds. destruct (zlist_eqb e' e) eqn:A, (zlist_eqb e e') eqn:B; auto.
    - apply PrfDict.zlist_eqb_eq in A as ->. rewrite PrfBase.zlist_eqb_refl in B. discriminate.
    - apply PrfDict.zlist_eqb_eq in B as ->. rewrite PrfBase.zlist_eqb_refl in A. discriminate.
  Qed.
  Lemma reg_set u e0 r nss n e : registered (mkReg (dict_set zlist_eqb (ur_engines u) e0 r) nss n) ns e =
    if zlist_eqb e e0 then (if zlist_eqb (re_namespace r) ns then re_count r else 0) else registered u ns e.
  Proof. unfold registered. cbn [ur_engines]. rewrite get_set. destruct (zlist_eqb e e0); reflexivity. Qed.
  Lemma ok_set u e0 r nss n : reg_ok u -> 0 < re_count r -> reg_ok (mkReg (dict_set zlist_eqb (ur_engines u) e0 r) nss n).
  Proof.
    intros [N P] H. split; [apply nodup_set; exact N|]. cbn [ur_engines]. intros e r'. rewrite get_set. destruct (zlist_eqb e e0); [|eauto]. intros X. now injection X as <-.
  Qed.
  Lemma assign_reg u e ns' u' x : reg_ok u -> ur_assign C rnd u e ns' = (u', x) ->
    reg_ok u' /\ forall e', reg u' e' = reg u e' + match x with Ok true => if zlist_eqb ns' ns then holds e' (Some e) else 0 | _ => 0 end.
  Proof.
    intros OK. unfold ur_assign. destruct (dict_get zlist_eqb (ur_engines u) e) as [r|] eqn:G.
    - unfold re_assign. destruct (zlist_eqb ns' (re_namespace r)) eqn:N; intros E; injection E as <- <-.
      + apply PrfDict.zlist_eqb_eq in N. subst ns'. pose proof (proj2 OK _ _ G). split; [apply ok_set; [auto|cbn; lia]|].
        intros e'. rewrite reg_set, holds_eq. cbn [re_namespace re_count]. destruct (zlist_eqb e' e) eqn:E.
        * apply PrfDict.zlist_eqb_eq in E as ->. unfold registered. rewrite G. destruct (zlist_eqb (re_namespace r) ns); lia.
        * destruct (zlist_eqb (re_namespace r) ns); lia.
      + destruct (reg_same_ok u _ (reg_same_set u e r r (ur_namespaces u) (ur_draws u) G eq_refl eq_refl) OK) as [A B]. split; [exact A|]. intros e'. rewrite B. lia.
    - destruct (RemoteEngine _ _ _ _ _ _) as [[r n]|ex] eqn:R; intros E; injection E as <- <-.
      + unfold RemoteEngine in R. apply addUsers_count in R as [RC RN]. cbn in RC, RN. split; [apply ok_set; [auto|lia]|].
        intros e'. rewrite reg_set, holds_eq, RN, RC. destruct (zlist_eqb e' e) eqn:E.
        * apply PrfDict.zlist_eqb_eq in E as ->. unfold registered. rewrite G. destruct (zlist_eqb ns' ns); lia.
        * destruct (zlist_eqb ns' ns); lia.
      + split; [exact OK|]. intros e'. lia.
  Qed.
  Lemma reg_del u e0 nss n e : reg_ok u -> registered (mkReg (dict_del zlist_eqb (ur_engines u) e0) nss n) ns e =
    if zlist_eqb e e0 then 0 else registered u ns e.
  Proof.
    intros [N _]. unfold registered. cbn [ur_engines]. destruct (zlist_eqb e e0) eqn:E.
    - apply PrfDict.zlist_eqb_eq in E as ->. rewrite get_del_same by exact N. reflexivity.
    - rewrite get_del_other; [reflexivity|]. intros ->. rewrite PrfBase.zlist_eqb_refl in E. discriminate.
  Qed.
  Lemma ok_del u e0 nss n : reg_ok u -> reg_ok (mkReg (dict_del zlist_eqb (ur_engines u) e0) nss n).
  Proof.
    intros [N P]. split; [apply nodup_del; exact N|]. cbn [ur_engines]. intros e r. destruct (zlist_eqb e e0) eqn:E.
    - apply PrfDict.zlist_eqb_eq in E as ->. rewrite get_del_same by exact N. discriminate.
    - rewrite get_del_other; [apply P|]. intros ->. rewrite PrfBase.zlist_eqb_refl in E. discriminate.
  Qed.
  Lemma release_ok u e u' x : reg_ok u -> 0 < reg u e -> ur_release u e ns = (u', x) ->
    reg_ok u' /\ (exists b, x = Ok b) /\ forall e', reg u' e' = reg u e' - holds e' (Some e).
  Proof.
    intros OK H. unfold ur_release. unfold registered in H. destruct (dict_get zlist_eqb (ur_engines u) e) as [r|] eqn:G; [|lia].
    destruct (zlist_eqb (re_namespace r) ns) eqn:N; [|lia]. unfold re_release. rewrite N. destruct (Z.leb_spec (re_count r) 0); [lia|].
    destruct (Z.eqb_spec (re_count r - 1) 0); intros E; injection E as <- <-.
    - split; [now apply ok_del|]. split; [eauto|]. intros e'. rewrite reg_del, holds_eq by exact OK. destruct (zlist_eqb e' e) eqn:E; [|lia].
      apply PrfDict.zlist_eqb_eq in E as ->. unfold registered. rewrite G, N. lia.
    - split; [apply ok_set; [auto|cbn; lia]|]. split; [eauto|]. intros e'. rewrite reg_set, holds_eq. cbn [re_namespace re_count]. rewrite N. destruct (zlist_eqb e' e) eqn:E; [|lia].
      apply PrfDict.zlist_eqb_eq in E as ->. unfold registered. rewrite G, N. lia.
  Qed.
  Lemma release_none u e ns' u' x : reg_ok u -> reg u e <= 0 \/ ns' <> ns -> ur_release u e ns' = (u', x) ->
    reg_ok u' /\ forall e', reg u' e' = reg u e'.
  Proof.
    intros OK H. unfold ur_release. unfold registered in H. destruct (dict_get zlist_eqb (ur_engines u) e) as [r|] eqn:G; [|intros E; injection E as <- _; auto].
    pose proof (proj2 OK _ _ G) as P. unfold re_release. destruct (zlist_eqb (re_namespace r) ns') eqn:N'.
    - apply PrfDict.zlist_eqb_eq in N'. destruct (Z.leb_spec (re_count r) 0); [lia|].
      destruct (zlist_eqb (re_namespace r) ns) eqn:N; [apply PrfDict.zlist_eqb_eq in N; destruct H; [lia|congruence]|].
      destruct (Z.eqb_spec (re_count r - 1) 0); intros E; injection E as <- _.
      + split; [now apply ok_del|]. intros e'. rewrite reg_del by exact OK. destruct (zlist_eqb e' e) eqn:E; [|auto]. apply PrfDict.zlist_eqb_eq in E as ->. unfold registered. now rewrite G, N.
      + split; [apply ok_set; [auto|cbn; lia]|]. intros e'. rewrite reg_set. cbn [re_namespace re_count]. rewrite N. destruct (zlist_eqb e' e) eqn:E; [|auto]. apply PrfDict.zlist_eqb_eq in E as ->. unfold registered. now rewrite G, N.
    - destruct (Z.eqb_spec (re_count r) 0); [lia|]. intros E; injection E as <- _. apply (reg_same_ok u _ (reg_same_set u e r r _ _ G eq_refl eq_refl) OK).
  Qed.
  Lemma store_same u e n p : reg_same u (store_priv u e n p).
  Proof.
    unfold store_priv. destruct (dict_get zlist_eqb (ur_engines u) e) as [r|] eqn:G; [|apply reg_same_refl]. destruct (dict_get zlist_eqb (re_users r) n); [|apply reg_same_refl].
    now apply (reg_same_set u e r).
  Qed.
  Lemma user_step_same u op u' x : match op with OpAddUser _ _ _ _ _ _ _ _ _ | OpEncrypt _ _ _ _ _ => True | _ => False end ->
    user_step C rnd u op = (u', x) -> reg_same u u'.
  Proof.
    destruct op; cbn [user_step]; intros [] E.
    - destruct (addUser _ _ _ _ _ _ _ _ _ _ _ _) as [u1 y] eqn:A. injection E as <- _. eapply addUser_same; eauto.
    - injection E as <- _. destruct (getCredentials _ _ _) as [l|]; [|apply reg_same_refl]. destruct (lc_priv l); [apply store_same|apply reg_same_refl].
  Qed.
  Lemma user_run_ok h : forall u, reg_ok u -> reg_ok (fst (user_run C rnd u h)).
  Proof.
    induction h as [|op h IH]; intros u OK; [exact OK|]. cbn [user_run]. destruct (user_step C rnd u op) as [u1 x] eqn:S.
    assert (OK1 : reg_ok u1).
    { destruct op.
      - apply user_step_same in S; [|exact Logic.I]. now apply (reg_same_ok _ _ S).
      - cbn [user_step] in S. now apply (assign_reg _ _ _ _ _ OK S).
      - cbn [user_step] in S. destruct (Z_lt_le_dec 0 (registered u namespace engineID)) as [L|L].
        + clear - OK L S. unfold ur_release in S. unfold registered in L. destruct (dict_get zlist_eqb (ur_engines u) engineID) as [r|] eqn:G; [|lia].
          destruct (zlist_eqb (re_namespace r) namespace) eqn:N; [|lia]. unfold re_release in S. rewrite N in S. destruct (Z.leb_spec (re_count r) 0); [lia|].
          destruct (Z.eqb_spec (re_count r - 1) 0); injection S as <- _; [now apply ok_del|apply ok_set; [auto|cbn; lia]].
        + clear - OK L S. unfold ur_release in S. unfold registered in L. destruct (dict_get zlist_eqb (ur_engines u) engineID) as [r|] eqn:G; [|now injection S as <- _].
          pose proof (proj2 OK _ _ G) as P. unfold re_release in S. destruct (zlist_eqb (re_namespace r) namespace) eqn:N; [lia|].
          destruct (Z.eqb_spec (re_count r) 0); [lia|]. injection S as <- _. apply (ok_set _ _ _ _ _ OK P).
      - apply user_step_same in S; [|exact Logic.I]. now apply (reg_same_ok _ _ S). }
    specialize (IH u1 OK1). destruct (user_run C rnd u1 h) as [u2 rs]. exact IH.
  Qed.
  Lemma reg0_ok : reg_ok registry0.
  Proof. split; [constructor|]. intros e r X. discriminate X. Qed.
  (** The security module. *)
  Lemma outgoing_same R s m e n ts s' x : usm_prepareOutgoing C R s m e n ts = (s', x) -> reg_same (us_users s) (us_users s').
  Proof.
    unfold usm_prepareOutgoing. destruct (fl_auth _); [|intros E; injection E as <- _; apply reg_same_refl].
    destruct (getCredentials _ _ _) as [l|]; [|intros E; injection E as <- _; apply reg_same_refl].
    destruct (lc_auth l) as [[alg key]|]; [|intros E; injection E as <- _; apply reg_same_refl].
    destruct (getEngineTime _ _ _ _) as [b t]. destruct (fl_priv _); [|intros E; injection E as <- _; apply reg_same_refl].
    destruct (lc_priv l) as [pv|]; [|intros E; injection E as <- _; apply reg_same_refl].
    destruct (v3_scoped m) as [sc|]; [|intros E; injection E as <- _; apply reg_same_refl].
    destruct (scoped_encode sc) as [pt|]; [|intros E; injection E as <- _; apply reg_same_refl].
    destruct (priv_encrypt _ _ _ _ _) as [pv' r]. intros E. injection E as <- _. apply store_same.
  Qed.
  Lemma incoming_same R s m ts s' x : usm_processIncoming C R s m ts = (s', x) -> us_users s' = us_users s.
  Proof.
    unfold usm_processIncoming. intros E.
    repeat match type of E with
    | context [match ?y with _ => _ end] => destruct y; try (injection E as <- _; reflexivity)
    | (_, _) = _ => injection E as <- _; reflexivity
    end.
  Qed.
End Reg.
