(** PrfUsmProps.v -- consequences used by PropertiesUsm.v. *)
From Coq Require Import Lia.
From Verif Require Import PrfBase PrfDict PrfUtils PrfDec PrfMsg PrfParams PrfMsgDec PrfUsers PrfTime.
From Verif Require Export PrfUsm.

(** * Time *)
Lemma window R h e b m ts : 0 < R -> b <= 2147483647 ->
  snd (updateAndVerify R (time_after R h) e b m ts) = true <-> in_window R h e b m ts.
Proof.
  intros HR Hb. pose proof (timeliness R h e b m ts HR Hb) as T. cbv zeta in T. destruct T as (T1 & T2 & T3).
  rewrite T3. clear T3. unfold in_window.
  destruct (time_flag R h e) as [F1 F2].
  assert (D : auth_seen h e \/ ~ auth_seen h e).
  { destruct (tget (time_after R h) e) as [x|] eqn:G.
    - destruct (et_authenticated x) eqn:A; [left; apply F2; eauto|right; intros S; destruct (F1 S) as (y & Gy & Ay); congruence].
    - right; intros S; destruct (F1 S) as (y & Gy & Ay); congruence. }
  destruct D as [S|S].
  - rewrite (T1 S). destruct (getEngineTime R (time_after R h) e ts) as [lb lt]. unfold later, notion_leb. cbn [fst snd].
    destruct (lb <? b) eqn:E1; cbn [orb].
    + apply Z.ltb_lt in E1. cbn [fst snd]. split; [intros (_ & H & _); split; auto; lia|intros (H & _); repeat split; lia].
    + apply Z.ltb_ge in E1. destruct (lb =? b) eqn:E2; cbn [andb].
      * apply Z.eqb_eq in E2. destruct (lt <=? m) eqn:E3; cbn [fst snd].
        -- apply Z.leb_le in E3. split; [intros (_ & H & _); split; auto; intros _; right; lia|intros (H & _); repeat split; lia].
        -- split; [intros (_ & H & H2); split; [lia|]; intros _; right; lia|]. intros (H & H2). specialize (H2 S). repeat split; lia.
      * apply Z.eqb_neq in E2. cbn [fst snd]. split; [lia|]. intros (_ & H). specialize (H S). lia.
  - rewrite (T2 S). cbn [fst snd]. split; [intros (_ & H & _); split; [auto|tauto]|intros (H & _); repeat split; lia].
Qed.

Lemma hint_dropped R h h' e b m ts : auth_seen h e ->
  time_after R (h ++ Unauthenticated e b m ts :: h') = time_after R (h ++ h').
Proof.
  intros S. unfold time_after. rewrite !fold_left_app. cbn [fold_left time_step]. f_equal.
  apply (time_flag R) in S as (x & G & A). unfold time_after in *. unfold tk_hint, assertEntry. rewrite G. unfold et_hint. rewrite A.
  apply set_same. exact G.
Qed.

Definition first_notion (R b m ts : Z) : rfc_notion := mkRfc b (ts - m * R) m.
Lemma rfc_sound_first R h e b0 m0 t0 msgs b m ts : 0 < R -> ~ auth_seen h e ->
  msgs_clock t0 ((b0, m0, t0) :: msgs ++ [(b, m, ts)]) ->
  snd (updateAndVerify R (code_run R e (time_after R h) ((b0, m0, t0) :: msgs)) e b m ts) = true ->
  rfc_outside_window R (rfc_run R (mkRfc b0 (t0 - m0 * R) m0) (msgs ++ [(b, m, ts)])) b m ts = false.
Proof.
  intros HR S MC V. destruct MC as (_ & B & M & MC). unfold code_run in V. cbn [fold_left] in V.
  set (t1 := fst (updateAndVerify R (time_after R h) e b0 m0 t0)) in *.
  assert (G : tget t1 e = Some (mkET true b0 (t0 - m0 * R))).
  { unfold t1. rewrite update_get. rewrite (proj2 (zlist_eqb_eq e e) eq_refl). f_equal.
    assert (CB : clamp_boots b0 = b0) by (unfold clamp_boots, MAX_ENGINE_BOOTS; lia).
    destruct (tget (time_after R h) e) as [x|] eqn:G; cbn [entry_step].
    - unfold et_update. destruct (et_authenticated x) eqn:A; [|now rewrite CB].
      elim S. apply (time_flag R). eauto.
    - unfold EngineTime. now rewrite CB. }
  eapply (rfc_sound R e HR (msgs ++ [(b, m, ts)]) t1 _ _ t0 G); [|exact MC|reflexivity|exact V].
  unfold simulates. cbn. repeat split; lia.
Qed.

(** * Reachable USM states *)
Lemma user_run_snoc C rnd op : forall h u,
  fst (user_run C rnd u (h ++ [op])) = fst (user_step C rnd (fst (user_run C rnd u h)) op).
Proof.
  induction h as [|o h IH]; intros u; cbn [app user_run].
  - cbn [fst]. destruct (user_step C rnd u op); reflexivity.
  - destruct (user_step C rnd u o) as [u1 r]. specialize (IH u1).
    destruct (user_run C rnd u1 (h ++ [op])), (user_run C rnd u1 h). exact IH.
Qed.

Lemma prepare_state C R s m e n ts : let s' := fst (usm_prepareOutgoing C R s m e n ts) in
  us_time s' = us_time s /\ (us_users s' = us_users s \/ exists data b t, us_users s' = fst (user_step C (fun _ => 0) (us_users s) (OpEncrypt e n data b t))).
Proof.
  cbv zeta. unfold usm_prepareOutgoing. destruct (fl_auth _); [|cbn; auto].
  destruct (getCredentials (us_users s) e n) as [l|] eqn:G; [|cbn; auto].
  destruct (lc_auth l) as [[alg key]|]; [|cbn; auto]. destruct (getEngineTime R (us_time s) e ts) as [b t].
  destruct (fl_priv _); [|cbn; auto]. destruct (lc_priv l) as [pv|] eqn:LP; [|cbn; auto].
  destruct (v3_scoped m); [|cbn; auto]. destruct (scoped_encode s0) as [data|]; [|cbn; auto].
  destruct (priv_encrypt C pv data b t) as [pv' r] eqn:PE. cbn. split; [reflexivity|]. right. exists data, b, t.
  rewrite G, LP, PE. reflexivity.
Qed.
Lemma encrypt_step_rnd C rnd rnd' u e n data b t :
  user_step C rnd u (OpEncrypt e n data b t) = user_step C rnd' u (OpEncrypt e n data b t).
Proof. reflexivity. Qed.

Lemma process_state C R s m ts : let s' := fst (usm_processIncoming C R s m ts) in
  us_users s' = us_users s /\ (us_time s' = us_time s \/ exists x, us_time s' = time_step R (us_time s) x).
Proof.
  cbv zeta. unfold usm_processIncoming. destruct (params_decode _) as [sp|]; [|cbn; auto]. cbn [v3_header].
  destruct (fl_auth _); cbn [negb].
  2:{ cbn. split; [reflexivity|]. right. exists (Unauthenticated (up_engineID sp) (up_boots sp) (up_time sp) ts). reflexivity. }
  destruct (getCredentials _ _ _) as [l|x]; [|destruct x; cbn; auto].
  destruct (lc_auth l) as [[alg key]|]; [|cbn; auto]. destruct (_ && _); [cbn; auto|].
  destruct (negb _); [cbn; auto|]. destruct (up_index sp); [|cbn; auto]. destruct (up_whole sp); [|cbn; auto].
  destruct (negb _); [cbn; auto|]. destruct (updateAndVerify _ _ _ _ _ _) as [t ok] eqn:U.
  assert (X : t = time_step R (us_time s) (Authenticated (up_engineID sp) (up_boots sp) (up_time sp) ts)) by (cbn; now rewrite U).
  destruct ok; cbn [negb]; [destruct (fl_priv _)|]; cbn [fst us_time us_users]; (split; [reflexivity|]); right; eauto.
Qed.

Lemma usm_split C R rnd h : Forall usm_op_ok h -> exists th uh, Forall op_ok uh /\
  us_time (usm_after C R rnd h) = time_after R th /\ us_users (usm_after C R rnd h) = fst (user_run C rnd registry0 uh).
Proof.
  induction h as [|op h IH] using rev_ind; intros F; [exists [], []; repeat split; constructor|].
  apply Forall_app in F as [F Fo]. inversion Fo as [|? ? O _]; subst. destruct (IH F) as (th & uh & FO & T & U).
  unfold usm_after in *. rewrite fold_left_app. cbn [fold_left]. set (s := fold_left _ h _) in *.
  destruct op as [o|m e n ts|m ts]; cbn [usm_step].
  - exists th, (uh ++ [o]). split; [apply Forall_app; auto|]. split; [exact T|]. cbn. now rewrite user_run_snoc, <- U.
  - destruct (prepare_state C R s m e n ts) as (T1 & [U1|(data & b & t & U1)]).
    + exists th, uh. rewrite T1, U1. auto.
    + exists th, (uh ++ [OpEncrypt e n data b t]). split; [apply Forall_app; split; auto; repeat constructor|].
      rewrite T1, U1, user_run_snoc, <- U. split; [exact T|]. now rewrite (encrypt_step_rnd C _ rnd).
  - destruct (process_state C R s m ts) as (U1 & [T1|(x & T1)]).
    + exists th, uh. rewrite T1, U1. auto.
    + exists (th ++ [x]), uh. rewrite T1, U1, time_after_snoc, T. auto.
Qed.

Lemma localised_priv_ok C c e l p : hash_ok C -> localised_to C c e l -> lc_priv l = Some p -> priv_ok p.
Proof.
  intros H L LP. unfold localised_to in L. destruct (cr_authProtocol c) as [a|]; [|destruct L; congruence].
  destruct L as (_ & L). destruct (cr_privProtocol c) as [q|]; [|congruence]. destruct L as (salt & SR & EQ). rewrite LP in EQ. apply (f_equal (fun o => match o with Some x => x | None => p end)) in EQ. cbv beta iota in EQ. rewrite EQ. clear EQ.
  cbv zeta. destruct (H a (cr_privKey c ++ e ++ cr_privKey c)) as [HL HB]. destruct q; unfold priv_ok; cbn [pv_alg pv_salt pv_preIV]; [lia|].
  split; [lia|]. set (k := c_hash C a _) in *. assert (16 <= zlen k) by (rewrite HL; destruct a; cbn; lia).
  split; [|now apply firstn_ok, skipn_ok].
  unfold zlen in *. rewrite firstn_length, skipn_length. lia.
Qed.

Lemma creds_of_run C rnd uh : hash_ok C -> Forall op_ok uh -> let u := fst (user_run C rnd registry0 uh) in
  exists s, spec_run C uspec0 uh s (snd (user_run C rnd registry0 uh)) /\ Inv C u s /\ cfg_wf s.
Proof. intros H F. apply run_refines; auto using inv0. intros ns n cf X; discriminate. Qed.

Lemma creds_priv_ok C rnd uh e n l p : hash_ok C -> Forall op_ok uh ->
  getCredentials (fst (user_run C rnd registry0 uh)) e n = Ok l -> lc_priv l = Some p -> priv_ok p.
Proof.
  intros H F G LP. destruct (creds_of_run C rnd uh H F) as (s & _ & I & _). unfold getCredentials in G.
  destruct (eget _ e) as [r|] eqn:E; [|discriminate]. pose proof (i_users _ _ _ I e r E n) as U.
  destruct (dict_get zlist_eqb (re_users r) n) as [l'|]; [|discriminate]. injection G as ->. destruct U as (cf & _ & L).
  eapply localised_priv_ok; eauto.
Qed.

(** * Signatures *)
Definition signed_atN (C : crypto) (alg : authalg) (key out pre mac post : bytes) : Prop :=
  out = pre ++ mac ++ post /\ zlen mac = auth_N alg /\
  mac = firstn (Z.to_nat (auth_N alg)) (c_hmac C alg key (pre ++ zero_bytes (auth_N alg) ++ post)).
Lemma mac_size_N alg : mac_size alg = auth_N alg.
Proof. destruct alg; reflexivity. Qed.
Lemma signed_N C alg key out pre mac post : signed_at C alg key out pre mac post <-> signed_atN C alg key out pre mac post.
Proof. unfold signed_at, signed_atN. rewrite mac_size_N. reflexivity. Qed.

(** * Lookups *)
Lemma lookup_spec C rnd uh : hash_ok C -> Forall op_ok uh -> let u := fst (user_run C rnd registry0 uh) in
  exists s, spec_run C uspec0 uh s (snd (user_run C rnd registry0 uh)) /\
  (forall e n,
    (getCredentials u e n = Raise InvalidEngineID <-> live_engine s e = false) /\
    (forall ns, In (e, ns) (sp_live s) ->
       match sp_cfg s ns n with
       | None => getCredentials u e n = Raise InvalidUserName
       | Some cf => exists l, getCredentials u e n = Ok l /\ localised_to C (uc_credentials cf) e l
       end) /\
    (forall ns ns', In (e, ns) (sp_live s) -> In (e, ns') (sp_live s) -> ns = ns')) /\
  (forall ns n, getDefaultSecurityLevel u n ns =
     match sp_cfg s ns n with
     | Some cf => Ok (uc_default cf)
     | None => match getNamespace u ns with Ok _ => Raise InvalidUserName | Raise x => Raise x end
     end) /\
  (forall ns n cf, sp_cfg s ns n = Some cf -> level_rank (uc_default cf) <= level_rank (cr_max (uc_credentials cf))) /\
  (forall ns, match sp_def s ns with
     | Some n => getDefaultUser u ns = Ok (Some n)
     | None => (getDefaultUser u ns = Ok None \/ getDefaultUser u ns = Raise ValueError) /\ forall n, sp_cfg s ns n = None
     end).
Proof.
  intros H F u. destruct (creds_of_run C rnd uh H F) as (s & SR & I & W). exists s. split; [exact SR|]. fold u in I.
  split.
  { intros e n. split; [|split].
    - rewrite <- not_true_iff_false, (registered_iff C u s e I). unfold getCredentials.
      destruct (eget (ur_engines u) e) as [r|]; [|split; [intros _ X; now elim X|reflexivity]].
      split; [destruct (dict_get _ _ _); discriminate|]. intros X. elim X. discriminate.
    - intros ns IN. unfold getCredentials. destruct (eget (ur_engines u) e) as [r|] eqn:G.
      2:{ now elim (i_none _ _ _ I e G ns). }
      destruct (i_some _ _ _ I e r G) as (_ & _ & U). rewrite (U ns IN). pose proof (i_users _ _ _ I e r G n) as X.
      destruct (dict_get zlist_eqb (re_users r) n) as [l|].
      + destruct X as (cf & -> & L). eauto.
      + now rewrite X.
    - intros ns ns' A B. destruct (eget (ur_engines u) e) as [r|] eqn:G.
      2:{ now elim (i_none _ _ _ I e G ns). }
      destruct (i_some _ _ _ I e r G) as (_ & _ & U). rewrite (U _ A). symmetry. apply (U _ B). }
  split.
  { intros ns n. rewrite <- (i_cfg _ _ _ I ns n). unfold getDefaultSecurityLevel, getNamespace, cfg_of.
    destruct (nget (ur_namespaces u) ns) as [c|]; [|reflexivity]. cbn [bind cfg_users]. unfold findUser.
    destruct (dict_get zlist_eqb (ns_users c) n); reflexivity. }
  split; [intros ns n cf X; apply (W _ _ _ X)|].
  intros ns. pose proof (i_def _ _ _ I ns) as D. pose proof (i_defin _ _ _ I ns) as DI. unfold getDefaultUser, getNamespace.
  unfold cfg_of in D. destruct (sp_def s ns) as [n|].
  - destruct (nget (ur_namespaces u) ns) as [c|]; [|discriminate]. cbn [bind]. now rewrite D.
  - split.
    + destruct (nget (ur_namespaces u) ns) as [c|]; [|right; reflexivity]. left. cbn [bind]. now rewrite D.
    + intros n. destruct (sp_cfg s ns n) eqn:E; [|reflexivity]. elim DI; [exists n; congruence|reflexivity].
Qed.

Lemma same_lookup u u' : ur_engines u' = ur_engines u -> forall e n, getCredentials u' e n = getCredentials u e n.
Proof. intros E e n. unfold getCredentials. now rewrite E. Qed.

(** * A failing addUser *)
Lemma failed_addUser C rnd h n ap asec pp ps sec d dsl ns x : hash_ok C ->
  let op := OpAddUser n ap asec pp ps sec d dsl ns in
  Forall op_ok (h ++ [op]) ->
  let u := fst (user_run C rnd registry0 h) in let u' := fst (user_run C rnd registry0 (h ++ [op])) in
  snd (user_step C rnd u op) = Raise x ->
  (forall e n', getCredentials u' e n' = getCredentials u e n') /\
  (forall ns' n' l, getDefaultSecurityLevel u' n' ns' = Ok l <-> getDefaultSecurityLevel u n' ns' = Ok l) /\
  (forall ns' n', getDefaultUser u' ns' = Ok (Some n') <-> getDefaultUser u ns' = Ok (Some n')).
Proof.
  intros H op F u u' X.
  destruct (creds_of_run C rnd h H) as (s & SR & I & W). { now apply Forall_app in F. }
  destruct (step_refines C rnd u s op H) as (s1 & S1 & I1 & _). { apply Forall_app in F as [_ F]. now inversion F. } { exact I. } { exact W. }
  assert (U : u' = fst (user_step C rnd u op)) by (unfold u', u; apply user_run_snoc). rewrite <- U in I1.
  assert (E : s1 = s). { rewrite X in S1. inversion S1; subst; auto; discriminate. } subst s1.
  assert (EN : ur_engines u' = ur_engines u).
  { rewrite U. revert X. unfold op. cbn [user_step]. unfold addUser.
    destruct (dict_get zlist_eqb (ur_namespaces u) ns) as [c|] eqn:G.
    - destruct (Credentials C ap asec pp ps sec) as [cr|]; [|reflexivity]. destruct (ns_addUser c n cr dsl d) as [c'|]; [|reflexivity].
      destruct (engines_ok C rnd ns n cr H (ur_engines u) (ur_draws u)) as (l' & d' & EQ & _). rewrite EQ. cbn. discriminate.
    - destruct (Credentials C ap asec pp ps sec) as [cr|]; [|reflexivity]. destruct (ns_addUser _ n cr dsl d) as [c'|]; [|reflexivity].
      cbn [ur_engines ur_draws].
      destruct (engines_ok C rnd ns n cr H (ur_engines u) (ur_draws u)) as (l' & d' & EQ & _). rewrite EQ. cbn. discriminate. }
  split; [now apply same_lookup|]. split.
  - assert (Q : forall v, Inv C v s -> forall ns' n' l, getDefaultSecurityLevel v n' ns' = Ok l <-> exists cf, sp_cfg s ns' n' = Some cf /\ uc_default cf = l).
    { intros v Iv ns' n' l. rewrite <- (i_cfg _ _ _ Iv ns' n'). unfold getDefaultSecurityLevel, getNamespace, cfg_of.
      destruct (nget (ur_namespaces v) ns') as [c|]; cbn [bind cfg_users]; [|split; [discriminate|intros (cf & A & _); discriminate]].
      unfold findUser. destruct (dict_get zlist_eqb (ns_users c) n') as [cf|]; cbn [bind]; split; try discriminate.
      + intros A. injection A as <-. eauto.
      + intros (cf' & A & <-). congruence.
      + intros (cf' & A & _). discriminate. }
    intros ns' n' l. rewrite (Q u' I1), (Q u I). reflexivity.
  - assert (Q : forall v, Inv C v s -> forall ns' n', getDefaultUser v ns' = Ok (Some n') <-> sp_def s ns' = Some n').
    { intros v Iv ns' n'. rewrite <- (i_def _ _ _ Iv ns'). unfold getDefaultUser, getNamespace, cfg_of.
      destruct (nget (ur_namespaces v) ns') as [c|]; cbn [bind]; split; try discriminate; congruence. }
    intros ns' n'. rewrite (Q u' I1), (Q u I). reflexivity.
Qed.

(** * Decryption gives bytes *)
Lemma cfb_decrypt_ok E : (forall b, zlen b = 16 -> bytes_ok (E b)) -> forall f iv data,
  zlen iv = 16 -> bytes_ok data -> bytes_ok (cfb_decrypt f E iv data).
Proof.
  intros HE. induction f as [|f IH]; intros iv data L B; [constructor|]. cbn [cfb_decrypt]. destruct data as [|x data]; [constructor|].
  set (d := x :: data) in *. cbv zeta. apply Forall_app. split; [apply xor_ok; [now apply HE|now apply firstn_ok]|].
  destruct (skipn 16 d) as [|y r] eqn:S; [destruct f; constructor|]. rewrite <- S. apply IH; [|now apply skipn_ok].
  unfold zlen. rewrite firstn_length. assert (length (skipn 16 d) <> 0)%nat by (rewrite S; discriminate). rewrite skipn_length in H. lia.
Qed.
Lemma cbc_decrypt_ok E : (forall b, zlen b = 8 -> bytes_ok (E b)) -> forall f n iv data,
  bytes_ok iv -> length data = (n * 8)%nat -> bytes_ok data -> bytes_ok (cbc_decrypt f E iv data).
Proof.
  intros HE. induction f as [|f IH]; intros n iv data Li L B; [constructor|]. cbn [cbc_decrypt]. destruct data as [|x data]; [constructor|].
  set (d := x :: data) in *. cbv zeta. destruct n as [|n]; [discriminate|].
  assert (Z8 : zlen (firstn 8 d) = 8) by (unfold zlen; rewrite firstn_length; lia).
  apply Forall_app. split; [apply xor_ok; [auto|now apply HE]|].
  apply IH with (n := n); [now apply firstn_ok|rewrite skipn_length; lia|now apply skipn_ok].
Qed.
Lemma library_output_ok C n data out : bytes_ok out -> bytes_ok (library_output C n data out).
Proof. intros B. destruct (library_output_app C n data out) as (z & ->). apply Forall_app. split; [exact B|apply zero_ok]. Qed.
Lemma library_iv_ok C n iv iv' : crypto_ok C -> bytes_ok iv -> library_iv C n iv = Ok iv' -> bytes_ok iv'.
Proof.
  intros CO B. unfold library_iv. destruct (c_backend C).
  - intros X. injection X as <-. apply firstn_ok. apply Forall_app. split; [exact B|apply (ok_overread C CO)].
  - destruct (_ =? _); [|discriminate]. intros X. now injection X as <-.
Qed.
Lemma packIV_len b t salt iv : packIV b t salt = Ok iv -> zlen iv = 16.
Proof.
  unfold packIV. destruct (zlen salt =? 8) eqn:E; cbn [negb]; [|discriminate]. apply Z.eqb_eq in E. intros H.
  apply bind_ok in H as (x & X & H). apply bind_ok in H as (y & Y & H). injection H as <-.
  assert (L : forall v w, to_bytes_unsigned 4 v = Ok w -> zlen w = 4).
  { intros v w. unfold to_bytes_unsigned. destruct (_ && _); [|discriminate]. intros Q. assert (w = be_bytes 4 v) as -> by congruence. unfold zlen. now rewrite be_bytes_len. }
  rewrite !zlen_app, (L _ _ X), (L _ _ Y), E. reflexivity.
Qed.
Lemma decrypt_bytes C p data b t salt out : crypto_ok C -> priv_ok p -> bytes_ok data -> bytes_ok salt ->
  priv_decrypt C p data b t salt = Ok out -> bytes_ok out.
Proof.
  intros CO P BD BS. unfold priv_decrypt, priv_ok in *. destruct (pv_alg p).
  - intros H. apply bind_ok in H as (iv & E & H). apply bind_ok in H as (iv' & E' & H). injection H as <-.
    destruct (packIV b t salt) as [v|x] eqn:PI; [|cbn in E; destruct (is_ValueError x); discriminate].
    injection E as ->. apply packIV_len in PI. rewrite (library_iv_id C 16 iv PI) in E'. injection E' as <-.
    apply library_output_ok. apply cfb_decrypt_ok; auto. intros blk L. now apply (ok_aes C CO).
  - destruct P as (_ & P8 & PB). destruct (zlen data mod 8 =? 0) eqn:E8; cbn [negb]; [|discriminate]. intros H.
    apply bind_ok in H as (iv & E & H). injection H as <-. apply library_output_ok.
    assert (BI : bytes_ok iv) by (eapply library_iv_ok; [exact CO| |exact E]; apply xor_ok; auto).
    destruct (c_backend C).
    + apply Z.eqb_eq in E8. apply Z.div_exact in E8; [|lia].
      apply cbc_decrypt_ok with (n := Z.to_nat (zlen data / 8)); auto. { intros blk L. now apply (ok_des_dec C CO). }
      unfold zlen in *. assert (0 <= Z.of_nat (length data) / 8) by (apply Z.div_pos; lia). lia.
    + destruct (des_pad_nat data) as (n & L). destruct (des_pad_app data) as (z & EZ).
      apply cbc_decrypt_ok with (n := n); auto. { intros blk L'. now apply (ok_des_dec C CO). }
      rewrite EZ. apply Forall_app. split; [exact BD|apply zero_ok].
Qed.
(** What decryption can raise. *)
Lemma decrypt_raises C p data b t salt : raises_only (fun x => x = DecryptionError \/ (x = OverflowError /\ pv_alg p = AesCfb128 /\ ~ (0 <= b < 2 ^ 32 /\ 0 <= t < 2 ^ 32)) \/ x = ValueError) (priv_decrypt C p data b t salt).
Proof.
  intros x. unfold priv_decrypt. assert (LI : forall n iv, raises_only (fun x => x = ValueError) (library_iv C n iv)).
  { intros n iv y. unfold library_iv. destruct (c_backend C); [discriminate|]. destruct (_ =? _); [discriminate|]. congruence. }
  destruct (pv_alg p).
  - intros H. apply bind_raise in H as [H|(iv & _ & H)].
    + destruct (packIV b t salt) as [v|y] eqn:PI; [discriminate|]. unfold packIV in PI.
      assert (TB : forall v z, to_bytes_unsigned 4 v = Raise z -> z = OverflowError /\ ~ (0 <= v < 2 ^ 32)).
      { intros v z. unfold to_bytes_unsigned. destruct (_ && _) eqn:Q; [discriminate|]. intros X. split; [congruence|].
        rewrite pow4 in Q. change (2 ^ 32) with 4294967296. lia. }
      destruct (negb _); [injection PI as <-; cbn in H; injection H as <-; auto|].
      apply bind_raise in PI as [PI|(w & _ & PI)]; [apply TB in PI as [-> N]; cbn in H; injection H as <-; tauto|].
      apply bind_raise in PI as [PI|(w' & _ & PI)]; [apply TB in PI as [-> N]; cbn in H; injection H as <-; tauto|discriminate].
    + apply bind_raise in H as [H|(iv' & _ & H)]; [|discriminate]. right; right. eapply LI; eauto.
  - destruct (negb _); [intros H; injection H as <-; auto|]. intros H.
    apply bind_raise in H as [H|(iv' & _ & H)]; [|discriminate]. right; right. eapply LI; eauto.
Qed.

(** * Datagrams *)
Lemma usm_priv_ok C R rnd h e n l p : hash_ok C -> Forall usm_op_ok h ->
  getCredentials (us_users (usm_after C R rnd h)) e n = Ok l -> lc_priv l = Some p -> priv_ok p.
Proof.
  intros H F. destruct (usm_split C R rnd h F) as (th & uh & FO & _ & ->). now apply creds_priv_ok.
Qed.

Lemma payload_raises C R rnd h m sp l p data : crypto_ok C -> Forall usm_op_ok h ->
  getCredentials (us_users (usm_after C R rnd h)) (up_engineID sp) (up_userName sp) = Ok l -> lc_priv l = Some p ->
  bytes_ok data -> bytes_ok (up_salt sp) ->
  raises_only (fun x => x = DecryptionError \/ (x = OverflowError /\ pv_alg p = AesCfb128 /\ ~ (0 <= up_boots sp < 2 ^ 32 /\ 0 <= up_time sp < 2 ^ 32)) \/ x = ParseError)
    (reraise is_ValueError DecryptionError (do plaintext <- priv_decrypt C p data (up_boots sp) (up_time sp) (up_salt sp); v3_set_plaintext m plaintext)).
Proof.
  intros CO F GC LP BD BS x. pose proof (usm_priv_ok C R rnd h _ _ l p (ok_hash C CO) F GC LP) as PO.
  destruct (priv_decrypt C p data _ _ _) as [pl|y] eqn:PD; cbn [bind].
  - pose proof (decrypt_bytes C p data _ _ _ pl CO PO BD BS PD) as BP. unfold v3_set_plaintext.
    destruct (scoped_decode (ABytes pl) true) as [[sc tl]|z] eqn:SD; cbn; [discriminate|].
    apply (scoped_decode_raises (ABytes pl) true I BP) in SD as <-. cbn. intros X. injection X as <-. auto.
  - cbn [reraise]. apply decrypt_raises in PD as [->|[[-> N]| ->]]; cbn; intros X; injection X as <-; tauto.
Qed.

Lemma incoming_window C R rnd h th datagram m sp l alg key ts :
  0 < R -> crypto_ok C -> Forall usm_op_ok h -> let s := usm_after C R rnd h in us_time s = time_after R th ->
  bytes_ok datagram -> v3_decode (ABytes datagram) = Ok m ->
  params_decode (v3_params m) = Ok sp -> fl_auth (h_flags (v3_header m)) = true ->
  getCredentials (us_users s) (up_engineID sp) (up_userName sp) = Ok l -> lc_auth l = Some (alg, key) ->
  (fl_priv (h_flags (v3_header m)) = true -> lc_priv l <> None) ->
  (exists pre post, signed_atN C alg key datagram pre (up_signature sp) post /\ up_index sp = Some (zlen pre)) ->
  let r := snd (usm_processIncoming C R s m ts) in
  (in_window R th (up_engineID sp) (up_boots sp) (up_time sp) ts -> r <> Raise NotInTimeWindow) /\
  (~ in_window R th (up_engineID sp) (up_boots sp) (up_time sp) ts -> r = Raise NotInTimeWindow).
Proof.
  intros HR CO F s UT BD D PD A GC LA LP (pre & post & (SD & SL & SM) & SI).
  destruct (v3_decode_ok (ABytes datagram) m) as (VW & _ & _ & sb & EP & WS & DS); auto. { exact I. }
  cbn in DS. pose proof PD as PD'. rewrite EP in PD'.
  destruct (params_decode_ok sb sp WS) as (PO & i & before & after & EI & EW & ES & EL); auto. { now rewrite DS. }
  cbv zeta. rewrite <- (window R th (up_engineID sp) (up_boots sp) (up_time sp) ts HR) by (destruct PO as (_ & P & _); unfold int32 in P; lia).
  cbv zeta. unfold usm_processIncoming. rewrite PD. cbn [v3_header v3_encrypted v3_scoped v3_params us_users us_time].
  rewrite A. cbn [negb]. rewrite GC, LA.
  replace (fl_priv (h_flags (v3_header m)) && match lc_priv l with Some _ => false | None => true end) with false.
  2:{ destruct (fl_priv (h_flags (v3_header m))); [|reflexivity]. destruct (lc_priv l); [reflexivity|]. elim LP; reflexivity. }
  pose proof (auth_N_pos alg). unfold msgAuthenticationParameters. rewrite zero_bytes_len by lia. rewrite SL, Z.eqb_refl. cbn [negb].
  rewrite SI, EW, DS.
  assert (SBN : sb_replace (sb_new (ABytes datagram) (Some (zlen pre)) (Some (zlen pre + auth_N alg))) (zero_bytes (auth_N alg)) = pre ++ zero_bytes (auth_N alg) ++ post).
  { rewrite SD. rewrite <- SL at 1. rewrite sb_new_mid. apply sb_replace_mid. }
  rewrite SBN.
  destruct (auth_sign_spec C alg key (pre ++ zero_bytes (auth_N alg) ++ post) CO) as (S1 & _ & _).
  rewrite S1, <- SM. rewrite (proj2 (zlist_eqb_eq _ _) eq_refl). cbn [negb]. rewrite UT.
  destruct (updateAndVerify R (time_after R th) (up_engineID sp) (up_boots sp) (up_time sp) ts) as [t ok]. cbn [snd].
  destruct ok; cbn [negb]; (split; intros X).
  - clear X. destruct (fl_priv (h_flags (v3_header m))) eqn:FP; cbn [snd]; [|discriminate].
    destruct (lc_priv l) as [pv|] eqn:LPV; [|cbn; discriminate]. destruct (v3_encrypted m) as [data|] eqn:VE; [|cbn; discriminate].
    intros X. apply (payload_raises C R rnd h _ sp l pv data CO F GC LPV) in X as [X|[[X _]|X]]; try discriminate.
    + destruct VW as (_ & _ & VW). unfold fl_priv in FP. rewrite FP in VW. destruct VW as (_ & c & EC & OC). rewrite VE in EC. injection EC as <-. apply OC.
    + apply PO.
  - now elim X.
  - discriminate X.
  - reflexivity.
Qed.

Lemma prepared_of C R rnd h m sc e n ts out : crypto_ok C -> Forall usm_op_ok h -> header_ok (v3_header m) -> v3_scoped m = Some sc -> scoped_ok sc ->
  octets_ok e -> octets_ok n -> snd (usm_prepareOutgoing C R (usm_after C R rnd h) m e n ts) = Ok out ->
  prepared C R (usm_after C R rnd h) m sc e n ts out.
Proof.
  intros CO F HO SC SO EO NO P. destruct (usm_prepareOutgoing C R (usm_after C R rnd h) m e n ts) as [s' r] eqn:E. cbn [snd] in P. subst r.
  eapply prepare_spec; eauto. intros l p. apply usm_priv_ok; auto. apply (ok_hash C CO).
Qed.

Lemma outgoing_signed C R rnd h m sc e n ts out :
  crypto_ok C -> Forall usm_op_ok h -> header_ok (v3_header m) -> v3_scoped m = Some sc -> scoped_ok sc ->
  octets_ok e -> octets_ok n ->
  let s := usm_after C R rnd h in
  snd (usm_prepareOutgoing C R s m e n ts) = Ok out ->
  fl_auth (h_flags (v3_header m)) = true ->
  exists l alg key pre mac post m0 m2 sp,
    getCredentials (us_users s) e n = Ok l /\ lc_auth l = Some (alg, key) /\
    signed_atN C alg key out pre mac post /\
    v3_encode m0 = Ok (pre ++ zero_bytes (auth_N alg) ++ post) /\
    v3_header m0 = v3_header m /\ v3_scoped m0 = Some sc /\
    v3_decode (ABytes out) = Ok m2 /\ v3_header m2 = v3_header m /\ params_decode (v3_params m2) = Ok sp /\
    up_engineID sp = e /\ up_userName sp = n /\ up_signature sp = mac /\ up_index sp = Some (zlen pre) /\
    (up_boots sp, up_time sp) = getEngineTime R (us_time s) e ts.
Proof.
  intros CO F HO SC SO EO NO s P FA. destruct (prepared_of C R rnd h m sc e n ts out CO F HO SC SO EO NO P) as (m2 & b & t & salt & mac & pre & post & D & HH & PD & EQ & _ & Rest).
  rewrite FA in Rest. destruct Rest as (l & alg & key & m0 & GC & LA & GE & ZM & MM & H0 & SC0 & EN & _).
  exists l, alg, key, pre, mac, post, m0, m2. eexists. do 2 (split; [eassumption|]). split; [split; auto|].
  do 5 (split; [eassumption|]). split; [exact PD|]. cbn. repeat (split; [reflexivity|]). exact GE.
Qed.

Lemma localised_same C c e l l2 p : hash_ok C -> localised_to C c e l -> localised_to C c e l2 ->
  lc_auth l = lc_auth l2 /\ (lc_priv l = Some p -> priv_ok p /\ exists q, lc_priv l2 = Some q /\ same_key p q).
Proof.
  intros H L L2. split.
  - unfold localised_to in *. destruct (cr_authProtocol c); destruct L, L2; congruence.
  - intros LP. split; [exact (localised_priv_ok C c e l p H L LP)|]. unfold localised_to in *. destruct (cr_authProtocol c) as [a|]; [|destruct L; congruence].
    destruct L as (_ & L), L2 as (_ & L2). destruct (cr_privProtocol c) as [pa|]; [|congruence].
    destruct L as (s1 & _ & E1), L2 as (s2 & _ & E2). rewrite E1 in LP.
    apply (f_equal (fun o => match o with Some x => x | None => p end)) in LP. cbv beta iota in LP.
    eexists. split; [exact E2|]. rewrite <- LP. destruct pa; repeat split.
Qed.

Lemma localised_matching C c e l l2 f : hash_ok C -> localised_to C c e l -> localised_to C c e l2 ->
  (fl_priv f = true -> lc_priv l <> None) -> matching_user f l l2.
Proof.
  intros H L L2 NP. split; [apply (localised_same C c e l l2 (mkPriv AesCfb128 [] [] 0) H L L2)|]. intros FP. specialize (NP FP).
  destruct (lc_priv l) as [p|] eqn:LP; [|congruence]. destruct (localised_same C c e l l2 p H L L2) as (_ & X).
  destruct (X LP) as (_ & q & LQ & SK). eauto.
Qed.

Lemma prepared_priv C R s m sc e n ts out l : prepared C R s m sc e n ts out -> getCredentials (us_users s) e n = Ok l ->
  fl_auth (h_flags (v3_header m)) = true -> fl_priv (h_flags (v3_header m)) = true -> lc_priv l <> None.
Proof.
  intros (m2 & b & t & salt & mac & pre & post & _ & _ & _ & _ & _ & Rest) GC FA FP. rewrite FA in Rest.
  destruct Rest as (l' & alg & key & m0 & GC' & _ & _ & _ & _ & _ & _ & _ & PR). rewrite GC in GC'. injection GC' as <-.
  destruct (PR FP) as (pv & _ & _ & _ & LP & _). congruence.
Qed.

Lemma digest_accepted C R rnd h R2 rnd2 h2 m sc e n ts out c l1 l2 ts2 :
  crypto_ok C -> Forall usm_op_ok h -> header_ok (v3_header m) -> v3_scoped m = Some sc -> scoped_ok sc ->
  octets_ok e -> octets_ok n ->
  let s := usm_after C R rnd h in let s2 := usm_after C R2 rnd2 h2 in
  snd (usm_prepareOutgoing C R s m e n ts) = Ok out ->
  getCredentials (us_users s) e n = Ok l1 -> localised_to C c e l1 ->
  getCredentials (us_users s2) e n = Ok l2 -> localised_to C c e l2 ->
  exists m2, v3_decode (ABytes out) = Ok m2 /\
    snd (usm_processIncoming C R2 s2 m2 ts2) <> Raise WrongDigest.
Proof.
  intros CO F HO SC SO EO NO s s2 P G1 L1 G2 L2. pose proof (prepared_of C R rnd h m sc e n ts out CO F HO SC SO EO NO P) as PR.
  destruct (receive C R2 s2 m sc e n ts2 out s R ts l2 CO HO SO) as (m2 & D & X & _); auto.
  - intros l p. apply usm_priv_ok; auto. apply (ok_hash C CO).
  - intros FA. split; [exact G2|]. intros l G. rewrite G1 in G. injection G as <-.
    apply (localised_matching C c e); auto; [apply (ok_hash C CO)|]. intros FP. eapply prepared_priv; eauto.
  - exists m2. auto.
Qed.

Lemma end_to_end C R rnd h R2 rnd2 h2 th2 m sc e n ts ts2 out c l1 l2 :
  0 < R2 -> crypto_ok C -> Forall usm_op_ok h -> header_ok (v3_header m) -> v3_scoped m = Some sc -> scoped_ok sc ->
  octets_ok e -> octets_ok n ->
  let s := usm_after C R rnd h in let s2 := usm_after C R2 rnd2 h2 in
  snd (usm_prepareOutgoing C R s m e n ts) = Ok out ->
  (fl_auth (h_flags (v3_header m)) = true ->
    getCredentials (us_users s) e n = Ok l1 /\ localised_to C c e l1 /\
    getCredentials (us_users s2) e n = Ok l2 /\ localised_to C c e l2) ->
  us_time s2 = time_after R2 th2 ->
  (fl_auth (h_flags (v3_header m)) = true ->
   let '(boots, time) := getEngineTime R (us_time s) e ts in in_window R2 th2 e boots time ts2) ->
  exists m2 m3 sc', v3_decode (ABytes out) = Ok m2 /\
    snd (usm_processIncoming C R2 s2 m2 ts2) = Ok m3 /\
    v3_header m3 = v3_header m /\ v3_engineID m3 = Some e /\ v3_name m3 = Some n /\
    v3_scoped m3 = Some sc' /\ same_scoped sc sc'.
Proof.
  intros HR CO F HO SC SO EO NO s s2 P Cr UT W. pose proof (prepared_of C R rnd h m sc e n ts out CO F HO SC SO EO NO P) as PR.
  destruct (receive C R2 s2 m sc e n ts2 out s R ts l2 CO HO SO) as (m2 & D & _ & X); auto.
  - intros l p. apply usm_priv_ok; auto. apply (ok_hash C CO).
  - intros FA. destruct (Cr FA) as (G1 & L1 & G2 & L2). split; [exact G2|]. intros l G. rewrite G1 in G. injection G as <-.
    apply (localised_matching C c e); auto; [apply (ok_hash C CO)|]. intros FP. eapply prepared_priv; eauto.
  - destruct X as (m3 & E & HH & EI & EN & sc' & S1 & S2).
    + intros FA. specialize (W FA). destruct (getEngineTime R (us_time s) e ts) as [b t]. rewrite UT. apply window; [exact HR|destruct W; lia|exact W].
    + exists m2, m3, sc'. auto 10.
Qed.

Lemma incoming_checked C R rnd h datagram m ts m' :
  0 < R -> crypto_ok C -> Forall usm_op_ok h -> bytes_ok datagram -> v3_decode (ABytes datagram) = Ok m ->
  let s := usm_after C R rnd h in
  snd (usm_processIncoming C R s m ts) = Ok m' -> fl_auth (h_flags (v3_header m)) = true ->
  exists sp l alg key pre post th,
    params_decode (v3_params m) = Ok sp /\
    v3_header m' = v3_header m /\ v3_engineID m' = Some (up_engineID sp) /\ v3_name m' = Some (up_userName sp) /\
    getCredentials (us_users s) (up_engineID sp) (up_userName sp) = Ok l /\ lc_auth l = Some (alg, key) /\
    (fl_priv (h_flags (v3_header m)) = true -> lc_priv l <> None) /\
    signed_atN C alg key datagram pre (up_signature sp) post /\ up_index sp = Some (zlen pre) /\
    us_time s = time_after R th /\ in_window R th (up_engineID sp) (up_boots sp) (up_time sp) ts.
Proof.
  intros HR CO F BD D s P A. destruct (usm_split C R rnd h F) as (th & uh & _ & T & _). fold s in T.
  destruct (usm_processIncoming C R s m ts) as [s' r] eqn:E. cbn [snd] in P. subst r.
  destruct (incoming_authenticated C R s datagram m ts s' m' CO BD D E A) as (sp & l & alg & key & pre & post & PD & H1 & H2 & H3 & GC & LA & LP & EQ & IX & ZL & MM & UV).
  exists sp, l, alg, key, pre, post, th. do 7 (split; [assumption|]). split; [split; auto|]. split; [assumption|]. split; [exact T|].
  destruct (v3_decode_ok (ABytes datagram) m) as (VW & _ & _ & sb & EP & WS & DS); auto. { exact I. }
  rewrite EP in PD. destruct (params_decode_ok sb sp WS) as (PO & _); auto. { cbn in DS; now rewrite DS. }
  apply window; [exact HR|destruct PO as (_ & Q & _); unfold int32 in Q; lia|]. rewrite <- T, UV. reflexivity.
Qed.

(** * Salts *)
Lemma app_inj_tail_len (a b c d : bytes) : length b = length d -> a ++ b = c ++ d -> a = c /\ b = d.
Proof.
  intros L E. assert (LA : length a = length c) by (apply (f_equal (@length Z)) in E; rewrite !app_length in E; lia).
  split; [apply (f_equal (firstn (length a))) in E|apply (f_equal (skipn (length a))) in E].
  - rewrite firstn_app, Nat.sub_diag, firstn_all, LA, firstn_app, Nat.sub_diag, firstn_all in E. cbn in E. now rewrite !app_nil_r in E.
  - rewrite skipn_app, Nat.sub_diag, skipn_all, LA, skipn_app, Nat.sub_diag, skipn_all in E. exact E.
Qed.
Lemma salts_and_ivs C p l i j di bi ti dj bj tj : priv_ok p ->
  Forall (fun x => is_time (snd (fst x)) /\ is_time (snd x)) l ->
  nth_error l i = Some (di, bi, ti) -> nth_error l j = Some (dj, bj, tj) ->
  (i < j)%nat -> Z.of_nat j - Z.of_nat i < salt_period (pv_alg p) ->
  exists ci si cj sj,
    nth_error (encryptions C p l) i = Some (Ok (ci, si)) /\ nth_error (encryptions C p l) j = Some (Ok (cj, sj)) /\
    si <> sj /\
    (pv_alg p = AesCfb128 \/ bi = bj -> rfc_iv p bi ti si <> rfc_iv p bj tj sj).
Proof.
  intros P F Ni Nj L Per.
  destruct (encryptions_nth C l p i di bi ti P F Ni) as (ci & qi & Ei & (Ai & _ & _) & Si & Pi).
  destruct (encryptions_nth C l p j dj bj tj P F Nj) as (cj & qj & Ej & (Aj & _ & _) & Sj & Pj).
  rewrite <- Ai in Per, Si, Sj.
  destruct (salts_differ qi qj bi bj i j (pv_salt p) Pi Pj) as (D & _); auto. { congruence. }
  exists ci, (enc_salt qi bi), cj, (enc_salt qj bj). do 2 (split; [assumption|]). split; [exact D|].
  intros Cs X. destruct (enc_salt_len qi bi) as [Li _], (enc_salt_len qj bj) as [Lj _]. apply D. unfold rfc_iv in X. destruct (pv_alg p) eqn:A.
  - rewrite !app_assoc in X. apply app_inj_tail_len in X as [_ X]; [exact X|unfold zlen in *; lia].
  - unfold priv_ok in P. rewrite A in P. destruct P as (_ & P8 & _). apply (xor_inj (pv_preIV p)); auto; unfold zlen in *; lia.
Qed.

(** * What processIncoming can raise *)
Lemma incoming_raises C R rnd h datagram m ts :
  crypto_ok C -> Forall usm_op_ok h -> bytes_ok datagram -> v3_decode (ABytes datagram) = Ok m ->
  let s := usm_after C R rnd h in
  forall x, snd (usm_processIncoming C R s m ts) = Raise x ->
  is_IncomingMessageError x = true \/
  (x = OverflowError /\ exists sp l p, params_decode (v3_params m) = Ok sp /\ fl_priv (h_flags (v3_header m)) = true /\
     getCredentials (us_users s) (up_engineID sp) (up_userName sp) = Ok l /\ lc_priv l = Some p /\ pv_alg p = AesCfb128 /\
     (up_boots sp < 0 \/ up_time sp < 0)).
Proof.
  intros CO F BD D s x P.
  destruct (v3_decode_ok (ABytes datagram) m) as (VW & _ & _ & sb & EP & WS & DS); auto. { exact I. }
  cbn in DS. unfold usm_processIncoming in P.
  destruct (params_decode (v3_params m)) as [sp|y] eqn:PD.
  2:{ rewrite EP in PD. apply params_decode_raises in PD as <-; [cbn in P; injection P as <-; auto|exact WS|cbn; now rewrite DS]. }
  pose proof PD as PD'. rewrite EP in PD'.
  destruct (params_decode_ok sb sp WS) as (PO & i & before & after & EI & EW & ES & EL); auto. { now rewrite DS. }
  cbn [v3_header v3_encrypted v3_scoped v3_params] in P. destruct (fl_auth (h_flags (v3_header m))) eqn:FA; cbn [negb] in P; [|discriminate].
  destruct (getCredentials (us_users s) (up_engineID sp) (up_userName sp)) as [l|y] eqn:GC.
  2:{ assert (Y : y = InvalidEngineID \/ y = InvalidUserName).
      { unfold getCredentials in GC. destruct (dict_get _ _ _) in GC; [|injection GC; auto]. destruct (dict_get _ _ _) in GC; [discriminate|injection GC; auto]. }
      destruct Y as [-> | ->]; cbn in P; injection P as <-; auto. }
  destruct (lc_auth l) as [[alg key]|]; [|cbn in P; injection P as <-; auto].
  destruct (fl_priv (h_flags (v3_header m)) && _) eqn:FP; [cbn in P; injection P as <-; auto|].
  destruct (negb (zlen (up_signature sp) =? _)); [cbn in P; injection P as <-; auto|].
  rewrite EI, EW in P. destruct (negb (zlist_eqb _ _)); [cbn in P; injection P as <-; auto|].
  destruct (updateAndVerify _ _ _ _ _ _) as [t ok]. destruct ok; cbn [negb] in P; [|cbn in P; injection P as <-; auto].
  destruct (fl_priv (h_flags (v3_header m))) eqn:FP2; [|discriminate]. cbn [snd] in P.
  destruct (lc_priv l) as [pv|] eqn:LPV; [|discriminate].
  destruct VW as (_ & _ & VW). unfold fl_priv in FP2. rewrite FP2 in VW. destruct VW as (_ & c & EC & OC). rewrite EC in P.
  apply (payload_raises C R rnd h _ sp l pv c CO F GC LPV) in P as [->|[(-> & AL & N)| ->]]; auto.
  - right. split; [reflexivity|]. exists sp, l, pv. repeat (split; [auto|]). destruct PO as (_ & B & T & _). unfold int32 in *. change (2 ^ 32) with 4294967296 in N. lia.
  - apply OC.
  - apply PO.
Qed.
