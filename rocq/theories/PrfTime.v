(** PrfTime.v -- the USM clock: proofs about TimeKeeper.v. *)
From Coq Require Import Lia.
From Verif Require Import PrfDict.
From Verif Require Export SpecUsm.

Notation tget := (@dict_get (list Z) enginetime zlist_eqb).

Lemma quot_mul m R : 0 < R -> Z.quot (m * R) R = m.
Proof. intros H. apply Z.quot_mul. lia. Qed.

Lemma time_now R m ts : 0 < R -> Z.quot (ts - (ts - m * R)) R = m.
Proof. intros H. replace (ts - (ts - m * R)) with (m * R) by lia. now apply quot_mul. Qed.

(** One step, seen from one engine. *)
Definition entry_step (R : Z) (o : option enginetime) (auth : bool) (b m ts : Z) : enginetime :=
  match o with
  | None => EngineTime R b m ts auth
  | Some x => if auth then et_update R x b m ts else et_hint R x b m ts
  end.

Lemma update_new R b m ts : et_update R (EngineTime R b m ts true) b m ts = EngineTime R b m ts true.
Proof.
  unfold et_update, EngineTime. cbn [et_authenticated et_boots].
  destruct (b =? clamp_boots b) eqn:E.
  - destruct (_ <? m); [|reflexivity]. reflexivity.
  - destruct (clamp_boots b <? b); reflexivity.
Qed.
Lemma hint_new R b m ts : et_hint R (EngineTime R b m ts false) b m ts = EngineTime R b m ts false.
Proof. reflexivity. Qed.

Lemma hint_get R t e b m ts e' :
  tget (tk_hint R t e b m ts) e' =
  if zlist_eqb e' e then Some (entry_step R (tget t e) false b m ts) else tget t e'.
Proof.
  unfold tk_hint, assertEntry, entry_step. destruct (tget t e) as [x|] eqn:G; cbv iota beta.
  - now rewrite get_set.
  - rewrite !get_set. destruct (zlist_eqb e' e); [|reflexivity]. now rewrite hint_new.
Qed.
Lemma update_get R t e b m ts e' :
  tget (fst (updateAndVerify R t e b m ts)) e' =
  if zlist_eqb e' e then Some (entry_step R (tget t e) true b m ts) else tget t e'.
Proof.
  unfold updateAndVerify, assertEntry, entry_step. destruct (tget t e) as [x|] eqn:G; cbv iota beta; cbn [fst].
  - now rewrite get_set.
  - rewrite !get_set. destruct (zlist_eqb e' e); [|reflexivity]. now rewrite update_new.
Qed.
Lemma verify_spec R t e b m ts :
  snd (updateAndVerify R t e b m ts) =
  let x := entry_step R (tget t e) true b m ts in
  (b =? et_boots x) && (et_time R x ts - m <=? 150) && (et_boots x <? 2147483647).
Proof.
  unfold updateAndVerify, assertEntry, entry_step. destruct (tget t e) as [x|] eqn:G; cbv iota beta; cbn [snd].
  - reflexivity.
  - now rewrite update_new.
Qed.

Lemma time_after_snoc R h x : time_after R (h ++ [x]) = time_step R (time_after R h) x.
Proof. unfold time_after. now rewrite fold_left_app. Qed.

Lemma auth_seen_snoc h x e :
  auth_seen (h ++ [x]) e <-> auth_seen h e \/ exists b m ts, x = Authenticated e b m ts.
Proof.
  unfold auth_seen. split.
  - intros (b & m & ts & H). apply in_app_or in H as [H|[H|[]]]; [left|right]; eauto.
  - intros [(b & m & ts & H)|(b & m & ts & ->)]; exists b, m, ts; apply in_or_app; cbn; auto.
Qed.

Lemma update_auth R x b m ts : et_authenticated (et_update R x b m ts) = true.
Proof.
  unfold et_update. destruct (et_authenticated x) eqn:E; [|reflexivity].
  destruct (_ =? _); [destruct (_ <? _)|destruct (_ <? _)]; auto.
Qed.
Lemma hint_auth R x b m ts : et_authenticated (et_hint R x b m ts) = et_authenticated x.
Proof. unfold et_hint. destruct (et_authenticated x) eqn:E; auto. Qed.
Lemma step_auth R o a b m ts :
  et_authenticated (entry_step R o a b m ts) =
  a || match o with Some x => et_authenticated x | None => false end.
Proof. destruct o as [x|], a; cbn; auto using update_auth, hint_auth. Qed.

(** The "authenticated" flag records exactly whether an authenticated message was seen. *)
Lemma time_flag R h e :
  (auth_seen h e <-> exists x, tget (time_after R h) e = Some x /\ et_authenticated x = true).
Proof.
  induction h as [|y h IH] using rev_ind.
  - cbn. split; [intros (b & m & ts & [])|intros (x & H & _); discriminate].
  - rewrite auth_seen_snoc, time_after_snoc, IH. clear IH.
    assert (Same : forall t (P : Prop), ~ P -> tget t e = tget (time_after R h) e ->
      ((exists x, tget (time_after R h) e = Some x /\ et_authenticated x = true) \/ P <->
       exists x, tget t e = Some x /\ et_authenticated x = true)) by (intros t P NP ->; tauto).
    destruct y as [e0 b m ts|e0 b m ts]; cbn [time_step].
    + destruct (zlist_eqb e e0) eqn:E.
      * rewrite hint_get, E. apply zlist_eqb_eq in E as ->. split.
        -- intros [(x & H & A)|(b' & m' & ts' & H)]; [|discriminate].
           eexists; split; [reflexivity|]. rewrite step_auth, H. exact A.
        -- intros (x & H & A). injection H as <-. rewrite step_auth in A. cbn in A. left.
           destruct (tget (time_after R h) e0) as [x|]; [|discriminate]. eauto.
      * apply Same; [intros (?&?&?&?); discriminate|]. now rewrite hint_get, E.
    + destruct (zlist_eqb e e0) eqn:E.
      * rewrite update_get, E. apply zlist_eqb_eq in E as ->. split.
        -- intros _. eexists; split; [reflexivity|]. now rewrite step_auth.
        -- intros _. right. eauto.
      * apply Same; [|now rewrite update_get, E].
        intros (?&?&?&H). injection H as -> _ _ _. now rewrite (proj2 (zlist_eqb_eq e e) eq_refl) in E.
Qed.

Lemma local_some R t e ts x : tget t e = Some x -> getEngineTime R t e ts = (et_boots x, et_time R x ts).
Proof. intros H. unfold getEngineTime. now rewrite H. Qed.

Lemma update_later R x b m ts : 0 < R -> b <= 2147483647 -> et_authenticated x = true ->
  let y := et_update R x b m ts in
  (et_boots y, et_time R y ts) = later (et_boots x, et_time R x ts) (b, m).
Proof.
  intros HR Hb A y. subst y. unfold et_update. rewrite A. unfold later, notion_leb. cbn [fst snd].
  assert (C : clamp_boots b = b) by (unfold clamp_boots, MAX_ENGINE_BOOTS; lia).
  destruct (b =? et_boots x) eqn:E.
  - apply Z.eqb_eq in E. subst b. rewrite Z.ltb_irrefl, Z.eqb_refl. cbn [orb andb].
    destruct (et_time R x ts <? m) eqn:L.
    + unfold et_time at 1, boot_time. cbn [et_boots et_latestBootTime]. rewrite time_now by lia.
      apply Z.ltb_lt in L. destruct (_ <=? _) eqn:L2; [reflexivity|]. apply Z.leb_gt in L2. lia.
    + apply Z.ltb_ge in L. destruct (_ <=? _) eqn:L2; [|reflexivity]. apply Z.leb_le in L2. f_equal. lia.
  - apply Z.eqb_neq in E. destruct (et_boots x <? b) eqn:L.
    + cbn [orb]. unfold et_time, boot_time. cbn [et_boots et_latestBootTime]. now rewrite time_now, C by lia.
    + cbn [orb]. replace (et_boots x =? b) with false by (symmetry; apply Z.eqb_neq; congruence). reflexivity.
Qed.

Lemma timeliness R h e b m ts : 0 < R -> b <= 2147483647 ->
  let t := time_after R h in
  let t' := fst (updateAndVerify R t e b m ts) in
  let timely := snd (updateAndVerify R t e b m ts) in
  let local := getEngineTime R t e ts in
  let local' := getEngineTime R t' e ts in
  (auth_seen h e -> local' = later local (b, m)) /\
  (~ auth_seen h e -> local' = (b, m)) /\
  (timely = true <->
    b = fst local' /\ fst local' < 2147483647 /\ snd local' - m <= 150).
Proof.
  intros HR Hb t t' timely local local'.
  assert (G : tget t' e = Some (entry_step R (tget t e) true b m ts)).
  { subst t'. rewrite update_get. now rewrite (proj2 (zlist_eqb_eq e e) eq_refl). }
  subst local'. rewrite (local_some R t' e ts _ G). split; [|split].
  - intros A. apply (time_flag R) in A as (x & Gx & Ax). fold t in Gx. subst local.
    rewrite (local_some R t e ts x Gx). rewrite Gx. cbn [entry_step]. now apply update_later.
  - intros A. assert (C : clamp_boots b = b) by (unfold clamp_boots, MAX_ENGINE_BOOTS; lia).
    destruct (tget t e) as [x|] eqn:Gx; cbn [entry_step].
    + unfold et_update. destruct (et_authenticated x) eqn:Ax.
      * elim A. apply (time_flag R). exists x. auto.
      * unfold et_time, boot_time. cbn [et_boots et_latestBootTime]. now rewrite time_now, C by lia.
    + unfold EngineTime, et_time, boot_time. cbn [et_boots et_latestBootTime]. now rewrite time_now, C by lia.
  - subst timely. rewrite verify_spec. cbn [fst snd]. cbv zeta.
    rewrite !andb_true_iff, Z.eqb_eq, Z.leb_le, Z.ltb_lt. tauto.
Qed.

(** * C30 *)
Lemma get_notion R t t' e ts : tget t e = tget t' e -> getEngineTime R t e ts = getEngineTime R t' e ts.
Proof. unfold getEngineTime. now intros ->. Qed.

Lemma hint_ignored R h e b m ts : auth_seen h e ->
  forall e', tget (tk_hint R (time_after R h) e b m ts) e' = tget (time_after R h) e'.
Proof.
  intros A e'. apply (time_flag R) in A as (x & G & Ax). rewrite hint_get.
  destruct (zlist_eqb e' e) eqn:E; [|reflexivity]. apply zlist_eqb_eq in E as ->. rewrite G.
  cbn. unfold et_hint. now rewrite Ax.
Qed.

Lemma quot_mono R x y : 0 < R -> x <= y -> Z.quot x R <= Z.quot y R.
Proof. intros H L. apply Z.quot_le_mono; lia. Qed.

Lemma time_mono R x a b : 0 < R -> a <= b -> et_time R x a <= et_time R x b.
Proof. intros H L. unfold et_time. apply quot_mono; lia. Qed.

Lemma notion_trans x y z : notion_le x y -> notion_le y z -> notion_le x z.
Proof. unfold notion_le. destruct x, y, z; cbn. lia. Qed.

Definition notion (R : Z) (x : enginetime) (ts : Z) := (et_boots x, et_time R x ts).

Lemma notion_clock R x a b : 0 < R -> a <= b -> notion_le (notion R x a) (notion R x b).
Proof. intros H L. right. cbn. split; [reflexivity|]. now apply time_mono. Qed.

Lemma update_ge R x b m ts : 0 < R -> et_authenticated x = true -> b <= 2147483647 ->
  notion_le (notion R x ts) (notion R (et_update R x b m ts) ts).
Proof.
  intros HR A B. pose proof (update_later R x b m ts HR B A) as U. cbv zeta in U.
  unfold notion. rewrite U. unfold later. destruct (notion_leb _ _) eqn:E.
  - unfold notion_leb in E. unfold notion_le. cbn [fst snd] in *. apply orb_true_iff in E as [E|E].
    + apply Z.ltb_lt in E. auto.
    + apply andb_true_iff in E as [E1 E2]. apply Z.eqb_eq in E1. apply Z.leb_le in E2. auto.
  - right. lia.
Qed.

Lemma fold_notion R e : 0 < R -> forall h' t x lo hi,
  tget t e = Some x -> et_authenticated x = true ->
  Forall (fun y => event_boots y <= 2147483647) h' -> clock_between lo hi h' ->
  exists x', tget (fold_left (time_step R) h' t) e = Some x' /\ et_authenticated x' = true /\
             notion_le (notion R x lo) (notion R x' hi).
Proof.
  intros HR. induction h' as [|y h' IH]; intros t x lo hi G A FB CB.
  - cbn in *. exists x. split; [auto|]. split; [auto|]. now apply notion_clock.
  - inversion FB as [|? ? B FB']; subst. destruct CB as [L CB].
    cbn [fold_left].
    assert (S : exists x1, tget (time_step R t y) e = Some x1 /\ et_authenticated x1 = true /\
                 notion_le (notion R x (event_ts y)) (notion R x1 (event_ts y))).
    { destruct y as [e0 b m ts|e0 b m ts]; cbn [time_step event_ts event_boots] in *.
      - rewrite hint_get. destruct (zlist_eqb e e0) eqn:E.
        + apply zlist_eqb_eq in E as <-. rewrite G. cbn [entry_step]. unfold et_hint. rewrite A.
          exists x. repeat split; auto. right. lia.
        + exists x. repeat split; auto. right. lia.
      - rewrite update_get. destruct (zlist_eqb e e0) eqn:E.
        + apply zlist_eqb_eq in E as <-. rewrite G. cbn [entry_step].
          eexists. split; [reflexivity|]. split; [apply update_auth|]. now apply update_ge.
        + exists x. repeat split; auto. right. lia. }
    destruct S as (x1 & G1 & A1 & N1). destruct (IH _ x1 _ hi G1 A1 FB' CB) as (x' & G' & A' & N').
    exists x'. split; [exact G'|]. split; [exact A'|].
    eapply notion_trans; [apply (notion_clock R x lo (event_ts y)); auto|]. eapply notion_trans; eauto.
Qed.

Lemma notion_never_decreases R h h' e lo hi : 0 < R -> auth_seen h e ->
  Forall (fun x => event_boots x <= 2147483647) h' -> clock_between lo hi h' ->
  notion_le (getEngineTime R (time_after R h) e lo) (getEngineTime R (time_after R (h ++ h')) e hi).
Proof.
  intros HR A FB CB. apply (time_flag R) in A as (x & G & Ax).
  destruct (fold_notion R e HR h' _ x lo hi G Ax FB CB) as (x' & G' & _ & N).
  rewrite (local_some R _ e lo x G).
  unfold time_after in *. rewrite fold_left_app. rewrite (local_some R _ e hi x' G'). exact N.
Qed.

Lemma other_engines R h e x ts : event_engine x <> e ->
  getEngineTime R (time_after R (h ++ [x])) e ts = getEngineTime R (time_after R h) e ts.
Proof.
  intros N. apply get_notion. rewrite time_after_snoc.
  assert (E : zlist_eqb e (event_engine x) = false) by (apply zlist_eqb_neq; congruence).
  destruct x as [e0 b m t|e0 b m t]; cbn [time_step event_engine] in *.
  - now rewrite hint_get, E.
  - now rewrite update_get, E.
Qed.

(** * Against the letter of RFC 3414 section 3.2 (7b) *)
Definition simulates (R : Z) (now : Z) (s : rfc_notion) (x : enginetime) : Prop :=
  et_authenticated x = true /\ rf_boots s = et_boots x /\ et_latestBootTime x <= rf_base s /\
  0 <= rf_latest s /\ rf_latest s * R <= now - rf_base s /\ et_boots x <= 2147483647.

Lemma quot_ge R a m : 0 < R -> 0 <= m -> 0 <= a -> m <= Z.quot a R -> m * R <= a.
Proof. intros HR Hm Ha H. rewrite Z.quot_div_nonneg in H by lia. pose proof (Z.mul_div_le a R HR). nia. Qed.
Lemma quot_lt R a m : 0 < R -> 0 <= a -> Z.quot a R < m -> a < m * R.
Proof. intros HR Ha H. rewrite Z.quot_div_nonneg in H by lia. pose proof (Z.mul_succ_div_gt a R HR). nia. Qed.

Lemma sim_step R now s x b m ts : 0 < R -> simulates R now s x -> now <= ts ->
  0 <= b <= 2147483647 -> 0 <= m ->
  simulates R ts (rfc_sync R s b m ts) (et_update R x b m ts).
Proof.
  intros HR (A & B & L & P & N & M) T Hb Hm. unfold rfc_sync, et_update. rewrite A, B.
  assert (C : clamp_boots b = b) by (unfold clamp_boots, MAX_ENGINE_BOOTS; lia).
  assert (Base : 0 <= ts - et_latestBootTime x) by nia.
  destruct (b =? et_boots x) eqn:E.
  - apply Z.eqb_eq in E. rewrite E, Z.ltb_irrefl. cbn [orb andb].
    destruct (et_time R x ts <? m) eqn:L1; destruct (rf_latest s <? m) eqn:L2;
      rewrite ?Z.ltb_lt, ?Z.ltb_ge in *; unfold et_time in *; unfold simulates, boot_time; cbn.
    + repeat split; lia.
    + apply quot_lt in L1; [|lia|lia]. nia.
    + apply quot_ge in L1; [|lia|lia|lia]. repeat split; auto; lia.
    + repeat split; auto; lia.
  - apply Z.eqb_neq in E. rewrite <- B. destruct (rf_boots s <? b) eqn:L1.
    + cbn [orb]. rewrite C. unfold simulates, boot_time. cbn. repeat split; lia.
    + cbn [orb andb]. unfold simulates. repeat split; auto; lia.
Qed.

Lemma rfc_sound R e : 0 < R -> forall msgs t s x now,
  tget t e = Some x -> simulates R now s x -> msgs_clock now msgs ->
  forall b m ts pre, msgs = pre ++ [(b, m, ts)] ->
  snd (updateAndVerify R (code_run R e t pre) e b m ts) = true ->
  rfc_outside_window R (rfc_run R s msgs) b m ts = false.
Proof.
  intros HR. induction msgs as [|[[b0 m0] t0] msgs IH]; intros t s x now G S MC b m ts pre EQ V.
  { destruct pre; discriminate. }
  destruct MC as (T & Hb & Hm & MC). pose proof (sim_step R now s x b0 m0 t0 HR S T Hb Hm) as S'.
  destruct pre as [|[[b1 m1] t1] pre]; cbn in EQ.
  - injection EQ as -> -> -> ->. cbn [rfc_run]. cbn [code_run fold_left] in V. rewrite verify_spec, G in V.
    cbn [entry_step] in V. cbv zeta in V. rewrite !andb_true_iff, Z.eqb_eq, Z.leb_le, Z.ltb_lt in V.
    destruct V as [[V1 V2] V3]. unfold rfc_outside_window. destruct S' as (_ & B & L & P & N & _). rewrite B.
    replace (et_boots (et_update R x b m ts) =? 2147483647) with false by (symmetry; apply Z.eqb_neq; lia).
    rewrite <- V1, Z.ltb_irrefl, Z.eqb_refl. cbn. apply Z.ltb_ge. unfold rfc_time. unfold et_time in V2.
    rewrite Z.quot_div_nonneg in V2 by nia.
    enough ((ts - rf_base (rfc_sync R s b m ts)) / R <= (ts - et_latestBootTime (et_update R x b m ts)) / R) by lia.
    apply Z.div_le_mono; lia.
  - injection EQ as -> -> -> ->. cbn [rfc_run].
    assert (G' : tget (fst (updateAndVerify R t e b1 m1 t1)) e = Some (et_update R x b1 m1 t1)).
    { rewrite update_get, (proj2 (zlist_eqb_eq e e) eq_refl), G. reflexivity. }
    exact (IH _ _ _ _ G' S' MC b m ts pre eq_refl V).
Qed.
