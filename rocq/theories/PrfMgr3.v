(** PrfMgr3.v -- the SNMPv3 manager: what its steps do, case by case. *)
From Verif Require Export ManagerV3 SpecMgr3 PrfHeap PrfCache PrfDict PrfProc PrfMgr1.
From Coq Require Import Permutation.

(** * Lists *)
Arguments get3 : simpl never.
Arguments getm : simpl never.
Arguments getw : simpl never.
Lemma get3_put_same l r q : (r < length l)%nat -> get3 (put l r q) r = q.
Proof. intros H. unfold get3. apply nth_error_nth, put_same, H. Qed.
Lemma get3_nth l r : (r < length l)%nat -> nth_error l r = Some (get3 l r).
Proof. intros H. unfold get3. now apply nth_error_nth'. Qed.
Lemma get3_out l r : (length l <= r)%nat -> get3 l r = no_req3.
Proof. intros H. unfold get3. now apply nth_overflow. Qed.
Lemma get3_put_other l r r' q : r <> r' -> get3 (put l r q) r' = get3 l r'.
Proof.
  intros H. destruct (le_lt_dec (length l) r') as [L|L]; [now rewrite !get3_out by (rewrite ?put_length; lia)|].
  unfold get3. pose proof (put_other l r r' q H) as E. rewrite (get3_nth l r' L) in E.
  erewrite nth_error_nth by exact E. reflexivity.
Qed.
Lemma get3_put l r r' q : get3 (put l r q) r' = if (Nat.eqb r r' && (r <? length l)%nat)%bool then q else get3 l r'.
Proof.
  destruct (Nat.eqb_spec r r') as [<-|N]; cbn [andb]; [|now apply get3_put_other].
  destruct (Nat.ltb_spec r (length l)); [now apply get3_put_same|]. now rewrite !get3_out by (rewrite ?put_length; lia).
Qed.
Lemma get3_app l q r : get3 (l ++ [q]) r = if Nat.eqb r (length l) then q else get3 l r.
Proof.
  destruct (Nat.eqb_spec r (length l)) as [->|N]; unfold get3; [rewrite app_nth2, Nat.sub_diag by lia; reflexivity|].
  destruct (le_lt_dec (length l) r); [|now apply app_nth1].
  rewrite nth_overflow by (rewrite app_length; cbn; lia). now rewrite nth_overflow by lia.
Qed.
Lemma put3_self l r : put l r (get3 l r) = l.
Proof.
  destruct (le_lt_dec (length l) r) as [L|L]; [|apply put_id; now apply get3_nth].
  clear -L. revert r L. induction l as [|x l IH]; intros [|r] L; cbn in *; try lia; auto. f_equal. apply IH. lia.
Qed.
Lemma get3_alive_lt l r : q_alive (get3 l r) = true -> (r < length l)%nat.
Proof. intros H. destruct (le_lt_dec (length l) r) as [L|L]; [rewrite get3_out in H by auto; discriminate|auto]. Qed.
Lemma getm_put l k h g : getm (put l k g) h = if (Nat.eqb k h && (k <? length l)%nat)%bool then g else getm l h.
Proof.
  unfold getm. revert k h. induction l as [|x l IH]; intros k h.
  - cbn [put length]. rewrite (proj2 (Nat.ltb_ge k 0)) by lia. now rewrite andb_false_r.
  - destruct k as [|k], h as [|h]; cbn [put nth length Nat.eqb]; auto. rewrite IH. replace (S k <? S (length l))%nat with (k <? length l)%nat by reflexivity. reflexivity.
Qed.
Lemma getm_app l g h : getm (l ++ [g]) h = if Nat.eqb h (length l) then g else getm l h.
Proof.
  destruct (Nat.eqb_spec h (length l)) as [->|N]; unfold getm; [rewrite app_nth2, Nat.sub_diag by lia; reflexivity|].
  destruct (le_lt_dec (length l) h); [|now apply app_nth1].
  rewrite nth_overflow by (rewrite app_length; cbn; lia). now rewrite nth_overflow by lia.
Qed.
Lemma q_set_engine_self q : q_set_engine q (q_engine q) = q.
Proof. destruct q; reflexivity. Qed.

(** * The comparison *)
Section Keys.
  Context (reqs : list req3).
  (** The key ComparableWeakRef.value() would return. *)
  Definition ekey3 (refs : list weakref) (r : nat) : Z :=
    match live_key3 (get3 reqs r) with Some k => k | None => wr_value (getw refs r) end.
  Definition fresh3 (refs : list weakref) (r : nat) : Prop := wr_value (getw refs r) = ekey3 refs r.
  (** [w'] differs from [w] only for live requests. *)
  Definition same_keys (w w' : list weakref) : Prop :=
    length w' = length w /\ forall r, ekey3 w' r = ekey3 w r.
  Lemma same_keys_refl w : same_keys w w.
  Proof. split; auto. Qed.
  Lemma same_keys_trans a b c : same_keys a b -> same_keys b c -> same_keys a c.
  Proof. intros [L1 H1] [L2 H2]. split; [congruence|]. intros r. now rewrite H2. Qed.
  Lemma getw_put w i r x : getw (put w i x) r = if (Nat.eqb i r && (i <? length w)%nat)%bool then x else getw w r.
  Proof.
    unfold getw. destruct (Nat.eqb_spec i r) as [<-|N]; cbn [andb].
    - destruct (Nat.ltb_spec i (length w)) as [L|L]; [apply nth_error_nth; now apply put_same|].
      now rewrite !nth_overflow by (rewrite ?put_length; lia).
    - destruct (le_lt_dec (length w) r) as [L|L]; [now rewrite !nth_overflow by (rewrite ?put_length; lia)|].
      apply nth_error_nth. rewrite put_other by auto. now apply nth_error_nth'.
  Qed.
  Lemma ref_lt3_spec w a b r w' : length w = length reqs -> ref_lt3 reqs w a b = (r, w') ->
    r = (ekey3 w a <? ekey3 w b) /\ same_keys w w' /\ fresh3 w' a /\ fresh3 w' b /\ (forall c, fresh3 w c -> fresh3 w' c).
  Proof.
    intros LR. unfold ref_lt3, wr_lt. intros E.
    assert (OUT : forall c, (length w <= c)%nat -> getw w c = wr_new 0 /\ live_key3 (get3 reqs c) = None).
    { intros c L. unfold getw. rewrite nth_overflow by auto. now rewrite get3_out by lia. }
    destruct (wr_get (getw w a) (live_key3 (get3 reqs a))) as [v1 w1] eqn:G1.
    destruct (wr_get (getw w b) (live_key3 (get3 reqs b))) as [v2 w2] eqn:G2. injection E as <- <-.
    assert (V1 : v1 = ekey3 w a /\ wr_value w1 = ekey3 w a).
    { unfold ekey3. unfold wr_get in G1. destruct (live_key3 (get3 reqs a)); injection G1 as <- <-; auto. }
    assert (V2 : v2 = ekey3 w b /\ wr_value w2 = ekey3 w b).
    { unfold ekey3. unfold wr_get in G2. destruct (live_key3 (get3 reqs b)); injection G2 as <- <-; auto. }
    assert (O1 : (length w <= a)%nat -> w1 = getw w a).
    { intros L. destruct (OUT a L) as [X Y]. rewrite X, Y in G1. rewrite X. now injection G1 as <- <-. }
    assert (O2 : (length w <= b)%nat -> w2 = getw w b).
    { intros L. destruct (OUT b L) as [X Y]. rewrite X, Y in G2. rewrite X. now injection G2 as <- <-. }
    destruct V1 as [-> V1], V2 as [-> V2].
    assert (G : forall c, wr_value (getw (put (put w a w1) b w2) c) = wr_value (if Nat.eqb b c then w2 else if Nat.eqb a c then w1 else getw w c)).
    { intros c. rewrite !getw_put, put_length. destruct (Nat.eqb_spec b c) as [<-|]; cbn [andb].
      - destruct (Nat.ltb_spec b (length w)); [auto|]. rewrite O2 by auto. destruct (Nat.eqb_spec a b) as [<-|]; cbn [andb]; auto.
        destruct (Nat.ltb_spec a (length w)); auto. lia.
      - destruct (Nat.eqb_spec a c) as [<-|]; cbn [andb]; auto. destruct (Nat.ltb_spec a (length w)); auto. now rewrite O1. }
    assert (K : forall c, ekey3 (put (put w a w1) b w2) c = ekey3 w c).
    { intros c. unfold ekey3 at 1. rewrite G. destruct (Nat.eqb_spec b c) as [<-|]; [|destruct (Nat.eqb_spec a c) as [<-|]].
      - rewrite V2. unfold ekey3. destruct (live_key3 (get3 reqs b)); auto.
      - rewrite V1. unfold ekey3. destruct (live_key3 (get3 reqs a)); auto.
      - reflexivity. }
    split; [auto|]. split; [split; [now rewrite !put_length|exact K]|].
    unfold fresh3. assert (F : forall c, c = a \/ c = b \/ wr_value (getw w c) = ekey3 w c -> wr_value (getw (put (put w a w1) b w2) c) = ekey3 (put (put w a w1) b w2) c).
    { intros c H. rewrite K, G. destruct (Nat.eqb_spec b c) as [<-|]; auto. destruct (Nat.eqb_spec a c) as [<-|]; auto. intuition congruence. }
    split; [|split]; [apply F; auto..|]. intros c H. apply F. auto.
  Qed.
  (** For the theorems of PrfHeap.v. *)
  Definition kinv (w0 w : list weakref) : Prop := length w = length reqs /\ same_keys w0 w.
  Lemma kinv_refl w : length w = length reqs -> kinv w w.
  Proof. intros L. split; [auto|apply same_keys_refl]. Qed.
  Lemma klt w0 : forall w a b r w', kinv w0 w -> ref_lt3 reqs w a b = (r, w') -> r = (ekey3 w0 a <? ekey3 w0 b) /\ kinv w0 w'.
  Proof.
    intros w a b r w' [L K] E. destruct (ref_lt3_spec _ _ _ _ _ L E) as (-> & K' & _). destruct K as [KL K]. rewrite !K. split; [auto|].
    split; [destruct K'; congruence|]. eapply same_keys_trans; [split; [exact KL|exact K]|exact K'].
  Qed.
  Lemma klti w0 : forall w a b r w', kinv w0 w -> ref_lt3 reqs w a b = (r, w') -> kinv w0 w'.
  Proof. intros w a b r w' K E. now apply (klt w0 _ _ _ _ _ K E). Qed.
  Lemma kfresh w0 : forall w a b r w', kinv w0 w -> ref_lt3 reqs w a b = (r, w') ->
    fresh3 w' a /\ fresh3 w' b /\ forall c, fresh3 w c -> fresh3 w' c.
  Proof. intros w a b r w' [L K] E. now destruct (ref_lt3_spec _ _ _ _ _ L E) as (_ & _ & F). Qed.
  Definition ordered3 (w : list weakref) (h : list nat) : Prop := heap_ordered (ekey3 w) h.
  Definition fresh_heap (w : list weakref) (h : list nat) : Prop := all_fresh fresh3 w h.
  Lemma ordered3_same w w' h : same_keys w w' -> ordered3 w h -> ordered3 w' h.
  Proof. intros [_ K] O j J0 PJ p c HP HC. rewrite !K. now apply (O j). Qed.

  Lemma push3_ok w h x w' h' : length w = length reqs -> heappush (ref_lt3 reqs) w h x = (w', h') ->
    length w' = length reqs /\ same_keys w w' /\ Permutation (x :: h) h' /\ (ordered3 w h -> ordered3 w' h' /\ (fresh_heap w h -> fresh_heap w' h')).
  Proof.
    intros L E. destruct (heappush_perm _ _ (klti w) _ _ _ _ _ (kinv_refl w L) E) as [[L' I] P]. split; [auto|]. split; [auto|]. split; [auto|].
    intros O. destruct (heappush_spec _ _ _ (klt w) fresh3 (kfresh w) _ _ _ _ _ (kinv_refl w L) O E) as (_ & _ & O' & F).
    split; [now apply (ordered3_same w)|exact F].
  Qed.
  Lemma pop3_ok w a t w' h' : length w = length reqs -> heappop (ref_lt3 reqs) w (a :: t) = Some (w', h') ->
    length w' = length reqs /\ same_keys w w' /\ Permutation t h' /\
    (ordered3 w (a :: t) -> ordered3 w' h' /\ (fresh_heap w (a :: t) -> fresh_heap w' h')).
  Proof.
    intros L E. destruct (heappop_perm _ _ (klti w) _ _ _ _ _ (kinv_refl w L) E) as [[L' I] P]. split; [auto|]. split; [auto|]. split; [auto|].
    intros O. destruct (heappop_spec _ _ _ (klt w) fresh3 (kfresh w) _ _ _ _ _ (kinv_refl w L) O E) as (_ & _ & O' & F).
    split; [now apply (ordered3_same w)|exact F].
  Qed.
  Lemma heapify3_ok w h w' h' : length w = length reqs -> heapify (ref_lt3 reqs) w h = (w', h') ->
    length w' = length reqs /\ same_keys w w' /\ Permutation h h' /\ ordered3 w' h' /\ fresh_heap w' h'.
  Proof.
    intros L E. destruct (heapify_spec _ _ _ (klt w) fresh3 (kfresh w) _ _ _ _ (kinv_refl w L) E) as ([L' I] & P & O' & F).
    split; [auto|]. split; [auto|]. split; [auto|]. split; [now apply (ordered3_same w)|exact F].
  Qed.
  Lemma replace3_perm w a t x w' h' : length w = length reqs -> heapreplace (ref_lt3 reqs) w (a :: t) x = Some (w', h') ->
    length w' = length reqs /\ same_keys w w' /\ Permutation (x :: t) h'.
  Proof. intros L E. destruct (heapreplace_perm _ _ (klti w) _ _ _ _ _ _ (kinv_refl w L) E) as [[L' I] P]. auto. Qed.
End Keys.
(** The heap was ordered, with the keys of [reqs0], before the key of the root changed. *)
Lemma replace3_ok reqs0 reqs w a t w' h' : length w = length reqs -> ordered3 reqs0 w (a :: t) ->
  (forall r, r <> a -> ekey3 reqs w r = ekey3 reqs0 w r) -> ~ In a t ->
  heapreplace (ref_lt3 reqs) w (a :: t) a = Some (w', h') ->
  ordered3 reqs w' h' /\ (fresh_heap reqs0 w (a :: t) -> fresh_heap reqs w' h').
Proof.
  intros L O K NI E. destruct (replace3_perm _ _ _ _ _ _ _ L E) as (L' & I & P).
  cbn [heapreplace] in E. injection E as E.
  assert (OT : forall j, (0 < j)%nat -> (0 < par j)%nat -> ord (ekey3 reqs w) (a :: t) j).
  { intros j J0 PJ p c HP HC. specialize (O j J0 ltac:(lia) p c HP HC).
    assert (X : forall k y, (0 < k)%nat -> nth_error (a :: t) k = Some y -> y <> a).
    { intros [|k] y K0 H ->; [lia|]. apply NI. eapply nth_error_In; exact H. }
    rewrite !K; auto; eapply X; [| eassumption | | eassumption]; lia. }
  destruct (root_siftup _ _ _ (klt reqs w) (fresh3 reqs) (kfresh reqs w) _ _ _ _ (kinv_refl reqs w L) OT E) as (_ & _ & O' & FM & FN).
  split; [now apply (ordered3_same reqs w)|]. intros F L2. apply (Permutation_Forall P). pose proof (Permutation_length P) as LL. rewrite <- LL in L2.
    specialize (F L2). apply Forall_inv_tail in F. constructor; [now apply FN|].
    rewrite Forall_forall in F |- *. intros y Y. apply FM. unfold fresh3. rewrite K; [now apply F|]. intros ->. contradiction.
Qed.

(** * Sending *)
Definition cached3 (p p' : proc3) (cb : option Z) (e : entry3) : Prop :=
  p3_modules p' = p3_modules p /\ p3_default p' = p3_default p /\
  match cb with
  | None => ca_out (p3_cache p') = ca_out (p3_cache p)
  | Some id => id <> 0 /\ ca_out (p3_cache p') = dict_set Z.eqb (ca_out (p3_cache p)) id e
  end.
Lemma outgoing3 C R rnd u p d h e user lev ts o x :
  v3_prepareOutgoing C R rnd u p d h e user lev (Some USM) [] ts = (o, x) ->
  cached3 p (s3_proc o) (s3_callback o) (mkE3 e [] h user USM lev).
Proof.
  unfold v3_prepareOutgoing, cached3. destruct (has_module p USM); cbn [negb].
  - destruct (is_Confirmed (pdu_cls d)).
    + unfold cache. destruct (cache_loop gen_v3 rnd 10 (p3_cache p) _) as [c [id|ex]] eqn:E; apply cache_loop_out in E.
      * destruct (usm_prepareOutgoing _ _ _ _ _ _ _) as [u' w]. intros H. injection H as <- <-. cbn. tauto.
      * intros H. injection H as <- <-. cbn. auto.
    + destruct (numgen_next _) as [id g]. destruct (usm_prepareOutgoing _ _ _ _ _ _ _) as [u' w]. intros H. injection H as <- <-. cbn. auto.
  - intros H. injection H as <- <-. cbn. auto.
Qed.

(** The engine ID of a request after reallySend(eng), and what is sent. *)
Definition engine_after (eng : option bytes) (q : req3) : option bytes :=
  match eng with Some e => Some e | None => q_engine q end.
Definition target (eng : option bytes) (q : req3) : pdu * bytes * bytes * seclevel :=
  match engine_after eng q with
  | None => (discovery_pdu, [], [], noAuthNoPriv)
  | Some e => (q_pdu q, e, q_user q, q_level q)
  end.
Inductive sends (s : mgr3) (r : nat) (w : why3) (now : Z) (eng : option bytes) : mgr3 -> list log3 -> res unit -> Prop :=
| SendsRefused u ex : eng <> None ->
    sends s r w now eng (set_io s u (v_proc s) (v_clock s)) [WFailed r None w ex] (Raise ex)
| SendsMade u p c cb d e user lev l x :
    let q := get3 (v_reqs s) r in
    let h := length (v_msgs s) in
    target eng q = (d, e, user, lev) -> (v_clock s <= c)%nat ->
    cached3 (v_proc s) p cb (mkE3 e [] h user USM lev) ->
    (exists wire, x = Ok tt /\ l = [WSent r h w now d e user lev wire]) \/ (exists ex, x = Raise ex /\ l = [WFailed r (Some h) w ex]) ->
    sends s r w now eng
      (set_objects (set_io s u p c) (put (v_reqs s) r (q_set_engine q (engine_after eng q)))
         (v_msgs s ++ [mkMsg3 r (q_sync q) cb true true]) (v_bools s)) l x.

Lemma opt_eqb_some a b : opt_eqb zlist_eqb (Some a) b = true -> b = Some a.
Proof. destruct b as [b|]; cbn; [|discriminate]. intros H. apply zlist_eqb_eq in H. now subst. Qed.

Section Steps.
  Context (C : crypto) (R : Z) (rnd : nat -> nat -> Z) (clk : nat -> Z) (fmt : v3msg -> bool) (ns : pystr).
  Notation transmit := (transmit C R rnd clk).
  Notation reallySend3 := (reallySend3 C R rnd clk ns).
  Notation send3 := (send3 C R rnd clk ns).
  Notation switch_engine := (switch_engine C rnd ns).
  Notation request_engine := (request_engine C rnd ns).
  Notation manager_engine := (manager_engine C rnd ns).
  Notation request_locked := (request_locked C R rnd clk ns).
  Notation task3_step := (task3_step C R rnd clk ns).
  Notation listen3 := (listen3 C R rnd clk fmt ns).
  Notation m3_step := (m3_step C R rnd clk fmt ns).

  Lemma switch_io s old new s' x : switch_engine s old new = (s', x) ->
    exists u, s' = set_io s u (v_proc s) (v_clock s).
  Proof.
    unfold ManagerV3.switch_engine, registerRemoteEngine, unregisterRemoteEngine, set_users.
    assert (Z : exists u, s = set_io s u (v_proc s) (v_clock s)) by (exists (v_usm s); destruct s; reflexivity).
    destruct new as [e|].
    - destruct (ur_assign _ _ _ _ _) as [u y]. destruct y as [ok|ex]; cbn [bind].
      + destruct ok.
        * destruct old as [o|]; [|intros H; injection H as <- <-; eauto]. destruct (ur_release _ _ _) as [u2 y]. cbn.
          intros H. injection H as <- <-. eexists. reflexivity.
        * intros H. injection H as <- <-. eauto.
      + intros H. injection H as <- <-. eauto.
    - destruct old as [o|].
      + destruct (ur_release _ _ _) as [u2 y]. intros H. injection H as <- <-. eexists. reflexivity.
      + intros H. injection H as <- <-. auto.
  Qed.
  Lemma request_engine_spec s r new s' x : request_engine s r new = (s', x) ->
    exists u, (exists ex, x = Raise ex /\ s' = set_io s u (v_proc s) (v_clock s)) \/
      (x = Ok tt /\ s' = set_req3 (set_io s u (v_proc s) (v_clock s)) r (q_set_engine (get3 (v_reqs s) r) new)).
  Proof.
    unfold ManagerV3.request_engine. destruct (opt_eqb zlist_eqb new _) eqn:E.
    - intros H. injection H as <- <-. exists (v_usm s). right. split; [auto|].
      assert (new = q_engine (get3 (v_reqs s) r)) as ->.
      { destruct new as [a|], (q_engine _) as [b|]; cbn in E; try discriminate; auto. f_equal. now apply zlist_eqb_eq. }
      rewrite q_set_engine_self. unfold set_req3. cbn. rewrite put3_self. destruct s; reflexivity.
    - destruct (switch_engine _ _ _) as [s1 y] eqn:S. apply switch_io in S as [u ->]. destruct y as [[]|ex]; intros H; injection H as <- <-; exists u; eauto.
  Qed.
  Lemma manager_engine_spec s new s' x : manager_engine s new = (s', x) ->
    exists u, (exists ex, x = Raise ex /\ s' = set_io s u (v_proc s) (v_clock s)) \/
      (x = Ok tt /\ s' = set_engine (set_io s u (v_proc s) (v_clock s)) new).
  Proof.
    unfold ManagerV3.manager_engine. destruct (opt_eqb zlist_eqb new _) eqn:E.
    - intros H. injection H as <- <-. exists (v_usm s). right. split; [auto|].
      assert (new = v_engine s) as ->.
      { destruct new as [a|], (v_engine s) as [b|]; cbn in E; try discriminate; auto. f_equal. now apply zlist_eqb_eq. }
      destruct s; reflexivity.
    - destruct (switch_engine _ _ _) as [s1 y] eqn:S. apply switch_io in S as [u ->]. destruct y as [[]|ex]; intros H; injection H as <- <-; exists u; eauto.
  Qed.
  Lemma transmit_spec s r w now d e user lev s' l x : transmit s r w now d e user lev = (s', l, x) ->
    exists u p cb, s' = set_objects (set_io s u p (S (v_clock s))) (v_reqs s) (v_msgs s ++ [mkMsg3 r (q_sync (get3 (v_reqs s) r)) cb true true]) (v_bools s) /\
    cached3 (v_proc s) p cb (mkE3 e [] (length (v_msgs s)) user USM lev) /\
    ((exists wire, x = Ok tt /\ l = [WSent r (length (v_msgs s)) w now d e user lev wire]) \/ (exists ex, x = Raise ex /\ l = [WFailed r (Some (length (v_msgs s))) w ex])).
  Proof.
    unfold ManagerV3.transmit, tick3. cbn [v_usm v_proc set_io].
    destruct (v3_prepareOutgoing _ _ _ _ _ _ _ _ _ _ _ _ _) as [o y] eqn:E. apply outgoing3 in E.
    exists (s3_usm o), (s3_proc o), (s3_callback o). destruct y as [wire|ex].
    - cbn [v_clock set_io set_objects]. destruct (refused rnd _); injection H as <- <- <-; (split; [reflexivity|]); eauto.
    - injection H as <- <- <-; (split; [reflexivity|]); eauto.
  Qed.
  Lemma reallySend_spec s r w now eng s' l x : reallySend3 s r w now eng = (s', l, x) -> sends s r w now eng s' l x.
  Proof.
    unfold ManagerV3.reallySend3. intros H. set (q := get3 (v_reqs s) r) in *.
    assert (Q : put (v_reqs s) r (q_set_engine q (q_engine q)) = v_reqs s) by (rewrite q_set_engine_self; apply put3_self).
    destruct eng as [e|].
    - destruct (request_engine s r (Some e)) as [s1 y] eqn:E. apply request_engine_spec in E as (u & [(ex & -> & ->)|(-> & ->)]).
      + injection H as <- <- <-. constructor. discriminate.
      + destruct (le_lt_dec (length (v_reqs s)) r) as [L|L].
        * apply transmit_spec in H as (u' & p & cb & -> & K & X). unfold set_req3 in X, K |- *. cbn in X, K |- *.
          assert (P : forall q, put (v_reqs s) r q = v_reqs s).
          { intros q'. rewrite <- (put3_self (v_reqs s) r) at 2. clear -L. revert r L. induction (v_reqs s) as [|y t IH]; intros [|r] L; cbn in *; try lia; auto. f_equal. unfold get3. cbn. apply IH. lia. }
          eapply (SendsMade s r w now (Some e) u' p (S (v_clock s)) cb (q_pdu q) e (q_user q) (q_level q)) in X; [|reflexivity|lia|exact K].
          fold q in X. cbn in X. rewrite !P in *. exact X.
        * apply transmit_spec in H as (u' & p & cb & -> & K & X). unfold set_req3 in X, K |- *. cbn in X, K |- *. rewrite get3_put_same by auto.
          cbn [q_sync q_set_engine].
          apply (SendsMade s r w now (Some e) u' p (S (v_clock s)) cb (q_pdu q) e (q_user q) (q_level q)) in X; [|reflexivity|lia|exact K].
          exact X.
    - destruct (q_engine q) as [e|] eqn:EQ; apply transmit_spec in H as (u' & p & cb & -> & K & X).
      + eapply (SendsMade s r w now None u' p (S (v_clock s)) cb (q_pdu q) e (q_user q) (q_level q)) in X; [|unfold target, engine_after; fold q; now rewrite EQ|lia|exact K].
        unfold engine_after in X. fold q in X. rewrite EQ, Q in X. exact X.
      + eapply (SendsMade s r w now None u' p (S (v_clock s)) cb discovery_pdu [] [] noAuthNoPriv) in X; [|unfold target, engine_after; fold q; now rewrite EQ|lia|exact K].
        unfold engine_after in X. fold q in X. rewrite EQ, Q in X. exact X.
  Qed.

  (** * The cases of a step *)
  Definition ticked (s : mgr3) : mgr3 := set_io s (v_usm s) (v_proc s) (S (v_clock s)).
  Definition readied (s : mgr3) (r : nat) : mgr3 :=
    set_req3 (ticked s) r (q_set_sched (get3 (v_reqs s) r) (sched_send (q_sched (get3 (v_reqs s) r)) (clk (v_clock s)))).
  Lemma send3_spec s r w eng s' l x : send3 s r w eng = (s', l, x) -> sends (readied s r) r w (clk (v_clock s)) eng s' l x.
  Proof. unfold ManagerV3.send3. cbn [tick3]. apply reallySend_spec. Qed.
  (** What the two functions that change the schedule of a request in the heap
      leave to be repaired. *)
  Definition rescheduled (s : mgr3) (r : nat) (c : sched) : mgr3 :=
    set_req3 (ticked s) r (q_set_sched (get3 (v_reqs s) r) c).

  Inductive asks (s : mgr3) (r : nat) (w : why3) : mgr3 -> list log3 -> res bool -> Prop :=
  | AsksLater nx : onRequest (v_state s) (sl_auth (q_level (get3 (v_reqs s) r))) = (nx, false) -> asks s r w s [] (Ok false)
  | AsksFailed nx s1 l e : onRequest (v_state s) (sl_auth (q_level (get3 (v_reqs s) r))) = (nx, true) ->
      sends (readied (assign_next s nx) r) r w (clk (v_clock s)) (v_engine s) s1 l (Raise e) -> asks s r w s1 l (Raise e)
  | AsksSent nx s1 l : onRequest (v_state s) (sl_auth (q_level (get3 (v_reqs s) r))) = (nx, true) ->
      sends (readied (assign_next s nx) r) r w (clk (v_clock s)) (v_engine s) s1 l (Ok tt) -> asks s r w (updateState (push3 s1 r)) l (Ok true).
  Lemma request_locked_spec s r w s' l x : request_locked s r w = (s', l, x) -> asks s r w s' l x.
  Proof.
    unfold ManagerV3.request_locked. destruct (onRequest _ _) as [nx b] eqn:E. destruct b.
    - destruct (send3 _ _ _ _) as [[s1 l1] y] eqn:S. apply send3_spec in S.
      assert (VC : v_clock (assign_next s nx) = v_clock s) by (destruct nx; reflexivity).
      assert (VE : v_engine (assign_next s nx) = v_engine s) by (destruct nx; reflexivity). rewrite VC, VE in S.
      destruct y as [[]|ex]; intros H; injection H as <- <- <-; econstructor; eauto.
    - intros H. injection H as <- <- <-.
      assert (nx = None) as -> by (destruct (v_state s), (sl_auth (q_level (get3 (v_reqs s) r))); cbn in E; congruence). econstructor; eauto.
  Qed.

  (** Why refresh() drops the request from the heap, having read the clock or not. *)
  Definition dropped (s : mgr3) (root : nat) (s0 : mgr3) : Prop :=
    (s0 = s /\ (q_alive (get3 (v_reqs s) root) = false \/ q_event (get3 (v_reqs s) root) = true)) \/
    (s0 = ticked s /\ sc_expiration (q_sched (get3 (v_reqs s) root)) <= clk (v_clock s)).
  Inductive tstep (s : mgr3) : task3 -> mgr3 -> list task3 -> list log3 -> Prop :=
  | TSpin t : (exists r, t = SSend r \/ t = SPoke r) -> locked3 s = true -> tstep s t s [t] []
  | TCalled r s1 l y : locked3 s = false -> asks s r ByCall s1 l y -> y <> Ok false -> tstep s (SSend r) s1 [] l
  | TQueued r : locked3 s = false -> asks s r ByCall s [] (Ok false) -> tstep s (SSend r) (queue3 s r) [] []
  | TExpired r : sc_expiration (q_sched (get3 (v_reqs s) r)) <= clk (v_clock s) -> tstep s (SLoop r) (ticked s) [SEnd r] []
  | TGoOn r : clk (v_clock s) < sc_expiration (q_sched (get3 (v_reqs s) r)) -> tstep s (SLoop r) (ticked s) [SRefresh r] []
  | TEmpty r : v_heap s = [] -> tstep s (SRefresh r) s [SPoke r] []
  | TDrop r root t s0 w h : v_heap s = root :: t -> dropped s root s0 ->
      heappop (ref_lt3 (v_reqs s)) (v_refs s) (root :: t) = Some (w, h) -> tstep s (SRefresh r) (set_queue s0 h (v_unsent s) w) [SRefresh r] []
  | TZero r root t : v_heap s = root :: t -> sc_period (q_sched (get3 (v_reqs s) root)) = 0 ->
      tstep s (SRefresh r) (ticked s) [SClose r (VRaised ZeroDivisionError)] []
  | TLater r root t wait : v_heap s = root :: t -> let q := get3 (v_reqs s) root in q_alive q = true -> q_event q = false ->
      sched_refresh (q_sched q) (clk (v_clock s)) = Ok (RLater wait) -> tstep s (SRefresh r) (ticked s) [SBlock r wait] [WBlocked r wait]
  | TUnsent r root t c s1 l e : v_heap s = root :: t -> let q := get3 (v_reqs s) root in q_alive q = true -> q_event q = false ->
      sched_refresh (q_sched q) (clk (v_clock s)) = Ok (RResend c) ->
      sends (rescheduled s root c) root ByRefresh (clk (v_clock s)) None s1 l (Raise e) ->
      tstep s (SRefresh r) s1 [SClose r (VRaised e)] l
  | TResent r root t c s1 l w h : v_heap s = root :: t -> let q := get3 (v_reqs s) root in q_alive q = true -> q_event q = false ->
      sched_refresh (q_sched q) (clk (v_clock s)) = Ok (RResend c) ->
      sends (rescheduled s root c) root ByRefresh (clk (v_clock s)) None s1 l (Ok tt) ->
      heapreplace (ref_lt3 (v_reqs s1)) (v_refs s) (root :: t) root = Some (w, h) ->
      tstep s (SRefresh r) (set_queue s1 h (v_unsent s) w) [SRefresh r] l
  | TPoke r : locked3 s = false ->
      tstep s (SPoke r) (set_queue (updateState (assign_next s (onInactive (v_state s)))) (v_heap s) [] (v_refs s)) [SPoking r (v_unsent s) false] []
  | TPokedSome r : tstep s (SPoking r [] true) s [SRefresh r] []
  | TPokedNone r : tstep s (SPoking r [] false) s [SBlock r 0] [WBlocked r 0]
  | TPokeDead r q rest b : q_alive (get3 (v_reqs s) q) = false -> tstep s (SPoking r (q :: rest) b) s [SPoking r rest b] []
  | TPokeFailed r q rest b s1 l e : q_alive (get3 (v_reqs s) q) = true -> asks s q ByPoke s1 l (Raise e) ->
      tstep s (SPoking r (q :: rest) b) s1 [SClose r (VRaised e)] l
  | TPokeSent r q rest b s1 l : q_alive (get3 (v_reqs s) q) = true -> asks s q ByPoke s1 l (Ok true) ->
      tstep s (SPoking r (q :: rest) b) s1 [SPoking r rest true] l
  | TPokeLater r q rest b : q_alive (get3 (v_reqs s) q) = true -> asks s q ByPoke s [] (Ok false) ->
      tstep s (SPoking r (q :: rest) b) (queue3 s q) [SPoking r rest b] []
  | TReady r lim : q_event (get3 (v_reqs s) r) = true -> tstep s (SBlock r lim) s [SEnd r] []
  | TNotReady r lim : q_event (get3 (v_reqs s) r) = false -> tstep s (SBlock r lim) s [SLoop r] []
  | TEnd r : tstep s (SEnd r) s [SClose r (end3 (get3 (v_reqs s) r))] []
  | TClosed r o s1 x : close3 C rnd ns s r = (s1, x) ->
      tstep s (SClose r o) s1 [] [WOutcome r (match x with Ok _ => o | Raise e => VRaised e end)].

  Lemma heapreplace_some {S A} (lt : S -> A -> A -> bool * S) s a t x : heapreplace lt s (a :: t) x <> None.
  Proof. discriminate. Qed.
  Lemma refresh_pop_spec s s0 r root t s' new l : v_heap s = root :: t -> dropped s root s0 ->
    refresh_pop s0 r = (s', new, l) -> tstep s (SRefresh r) s' new l.
  Proof.
    intros HP D. unfold refresh_pop, pop3.
    assert (E : v_heap s0 = v_heap s /\ v_reqs s0 = v_reqs s /\ v_refs s0 = v_refs s /\ v_unsent s0 = v_unsent s) by (destruct D as [[-> _]|[-> _]]; auto).
    destruct E as (-> & -> & -> & ->). rewrite HP. destruct (heappop _ _ _) as [[w h]|] eqn:P; [|now apply heappop_some in P].
    intros H. injection H as <- <- <-. econstructor; eauto.
  Qed.
  Lemma refresh3_spec s r s' new l : refresh3 C R rnd clk ns s r = (s', new, l) -> tstep s (SRefresh r) s' new l.
  Proof.
    unfold refresh3. destruct (v_heap s) as [|root t] eqn:HP; [intros H; injection H as <- <- <-; now constructor|].
    destruct (q_alive (get3 (v_reqs s) root)) eqn:A; cbn [negb]; [|apply (refresh_pop_spec s s r root t); [auto|left; auto]].
    destruct (q_event (get3 (v_reqs s) root)) eqn:EV; [apply (refresh_pop_spec s s r root t); [auto|left; auto]|].
    cbn [tick3]. change (set_io s (v_usm s) (v_proc s) (S (v_clock s))) with (ticked s).
    destruct (sched_refresh (q_sched (get3 (v_reqs s) root)) (clk (v_clock s))) as [[|wait|c]|e] eqn:SR.
    - apply (refresh_pop_spec s (ticked s) r root t); [auto|]. right. split; [auto|]. unfold sched_refresh in SR.
      destruct (_ <=? 0); [|discriminate]. destruct (sc_expiration _ <=? _) eqn:X; [now apply Z.leb_le|]. destruct (_ =? 0); discriminate.
    - intros H. injection H as <- <- <-. econstructor; eauto.
    - destruct (reallySend3 _ _ _ _ _) as [[s1 l1] y] eqn:S. change (set_req3 (ticked s) root (q_set_sched (get3 (v_reqs s) root) c)) with (rescheduled s root c) in S.
      apply reallySend_spec in S. destruct y as [[]|ex].
      + assert (F : v_heap s1 = v_heap s /\ v_refs s1 = v_refs s /\ v_unsent s1 = v_unsent s) by (inversion S; subst; auto).
        destruct F as (F1 & F2 & F3). unfold replace3. rewrite F1, F2, F3, HP. destruct (heapreplace _ _ _ _) as [[w h]|] eqn:RP; [|discriminate].
        intros H. injection H as <- <- <-. econstructor; eauto.
      + intros H. injection H as <- <- <-. econstructor; eauto.
    - intros H. injection H as <- <- <-. unfold sched_refresh in SR. destruct (_ <=? 0); [|discriminate]. destruct (_ <=? _); [discriminate|].
      destruct (Z.eqb_spec (sc_period (q_sched (get3 (v_reqs s) root))) 0); [|discriminate]. injection SR as <-. econstructor; eauto.
  Qed.
  Lemma task3_step_spec s t s' new l : task3_step s t = (s', new, l) -> tstep s t s' new l.
  Proof.
    destruct t as [r|r|r|r|r u b|r lim|r|r o]; cbn [ManagerV3.task3_step task_req3].
    - destruct (locked3 s) eqn:K; [intros H; injection H as <- <- <-; constructor; eauto|].
      destruct (request_locked _ _ _) as [[s1 l1] y] eqn:E. apply request_locked_spec in E. destruct y as [[|]|e]; intros H; injection H as <- <- <-.
      + econstructor; eauto. discriminate.
      + inversion E; subst. now apply TQueued.
      + econstructor; eauto. discriminate.
    - cbn [tick3]. change (set_io s (v_usm s) (v_proc s) (S (v_clock s))) with (ticked s). unfold sched_expired. destruct (_ <=? _) eqn:X; intros H; injection H as <- <- <-; constructor; [now apply Z.leb_le|now apply Z.leb_gt].
    - apply refresh3_spec.
    - destruct (locked3 s) eqn:K; [intros H; injection H as <- <- <-; constructor; eauto|].
      assert (F : forall n, v_heap (updateState (assign_next s n)) = v_heap s /\ v_refs (updateState (assign_next s n)) = v_refs s /\ v_unsent (updateState (assign_next s n)) = v_unsent s).
      { intros [n|]; cbn; [auto|]. unfold updateState. destruct (v_next s); auto. }
      destruct (F (onInactive (v_state s))) as (-> & -> & ->). intros H. injection H as <- <- <-. now constructor.
    - unfold poke3. destruct u as [|q rest]; [destruct b; intros H; injection H as <- <- <-; constructor|].
      destruct (q_alive (get3 (v_reqs s) q)) eqn:A; [|intros H; injection H as <- <- <-; now constructor].
      destruct (ManagerV3.request_locked _ _ _ _ _ _ _ _) as [[s1 l1] y] eqn:E. apply request_locked_spec in E. destruct y as [[|]|e]; intros H; injection H as <- <- <-.
      + now constructor.
      + inversion E; subst. now constructor.
      + now constructor.
    - destruct (q_event _) eqn:E; intros H; injection H as <- <- <-; now constructor.
    - intros H; injection H as <- <- <-. constructor.
    - destruct (close3 _ _ _ _ _) as [s1 x] eqn:E. pose proof (TClosed s r o s1 x E) as T. destruct x; intros H; injection H as <- <- <-; exact T.
  Qed.

  (** The listener.  The first of each kind of report. *)
  Definition stored (q : req3) (x : report) (vb : varbind) (auth : bool) : req3 :=
    if auth then (if q_event q then q else q_set_result q true (Some (x, vb)) (q_response q))
    else match q_exception q with
         | None => q_set_result q (q_event q) (Some (x, vb)) (q_response q)
         | Some _ => q
         end.
  Definition report_of (m : v3msg) (vb : varbind) : Prop :=
    exists sc vbs, v3_scoped m = Some sc /\ pdu_cls (sp_pdu sc) = ReportPDU /\ pdu_vbs (sp_pdu sc) = vb :: vbs.
  Inductive lstep (s : mgr3) : mgr3 -> list log3 -> Prop :=
  | LNothing : (v_listener s = LIdle \/ locked3 s = true) -> lstep s s []
  | LIgnored h m : v_listener s = LPush h m -> lstep s (set_listener s LIdle) [WPushed h m]
  | LReported h m e w vb : v_listener s = LPush h m -> v3_engineID m = Some e -> report_of m vb ->
      let g := getm (v_msgs s) h in let q := get3 (v_reqs s) (g_req g) in q_alive q = true ->
      (w = ByUnknownEngine /\ report_kind (vb_name vb) = RUnknownEngineID /\ q_engine q <> Some e) \/
      (w = ByNotInTime /\ report_kind (vb_name vb) = RNotInTimeWindow /\ nth (g_sync g) (v_bools s) true = false) ->
      lstep s (set_listener s (LReport (g_req g) e w)) [WPushed h m]
  | LException h m x vb : v_listener s = LPush h m -> report_of m vb -> report_kind (vb_name vb) = RException x ->
      let r := g_req (getm (v_msgs s) h) in let q := get3 (v_reqs s) r in q_alive q = true ->
      let auth := fl_auth (h_flags (v3_header m)) in
      lstep s (set_req3 (set_listener s LIdle) r (stored q x vb auth)) [WPushed h m; WReport r x vb auth]
  | LAnswered h m e sc : v_listener s = LPush h m -> v3_engineID m = Some e -> v3_scoped m = Some sc -> pdu_cls (sp_pdu sc) <> ReportPDU ->
      let r := g_req (getm (v_msgs s) h) in q_alive (get3 (v_reqs s) r) = true -> lstep s (set_listener s (LRespond r m)) [WPushed h m]
  | LReportBug r e w ex : v_listener s = LReport r e w -> locked3 s = false -> onReport (v_state s) (v_engine s) e = Raise ex -> lstep s (set_listener s LIdle) []
  | LReportFailed r e w nx b s1 l ex : v_listener s = LReport r e w -> locked3 s = false -> onReport (v_state s) (v_engine s) e = Ok (nx, b) ->
      sends (readied (assign_next s nx) r) r w (clk (v_clock s)) (Some e) s1 l (Raise ex) -> lstep s (set_listener s1 LIdle) l
  | LReportSent r e w nx b s1 l : v_listener s = LReport r e w -> locked3 s = false -> onReport (v_state s) (v_engine s) e = Ok (nx, b) ->
      sends (readied (assign_next s nx) r) r w (clk (v_clock s)) (Some e) s1 l (Ok tt) ->
      lstep s (if b then set_listener (updateState (heapify3 s1)) (LDrain r e w) else set_listener (heapify3 s1) (reported_done r w)) l
  | LDrained r e w : v_listener s = LDrain r e w -> v_unsent s = [] -> lstep s (set_listener s (reported_done r w)) []
  | LDrainDead r e w q rest : v_listener s = LDrain r e w -> v_unsent s = q :: rest -> q_alive (get3 (v_reqs s) q) = false ->
      lstep s (set_queue s (v_heap s) rest (v_refs s)) []
  | LDrainFailed r e w q rest s1 l ex : v_listener s = LDrain r e w -> v_unsent s = q :: rest -> q_alive (get3 (v_reqs s) q) = true ->
      sends (readied (set_queue s (v_heap s) rest (v_refs s)) q) q ByDrain (clk (v_clock s)) (Some e) s1 l (Raise ex) -> lstep s (set_listener s1 LIdle) l
  | LDrainSent r e w q rest s1 l : v_listener s = LDrain r e w -> v_unsent s = q :: rest -> q_alive (get3 (v_reqs s) q) = true ->
      sends (readied (set_queue s (v_heap s) rest (v_refs s)) q) q ByDrain (clk (v_clock s)) (Some e) s1 l (Ok tt) -> lstep s (push3 s1 q) l
  | LSynced r : v_listener s = LSync r ->
      lstep s (set_listener (set_objects s (put (v_reqs s) r (q_set_sync (get3 (v_reqs s) r) (length (v_bools s)))) (v_msgs s)
           (put (v_bools s) (q_sync (get3 (v_reqs s) r)) true ++ [false])) LIdle) []
  | LResponseBug r m : v_listener s = LRespond r m -> locked3 s = false -> lstep s (set_listener s LIdle) []
  | LResponseKept r m e nx : v_listener s = LRespond r m -> locked3 s = false -> v3_engineID m = Some e ->
      onResponse (v_state s) (v_engine s) e (fl_auth (h_flags (v3_header m))) = Ok (nx, false) -> lstep s (set_listener s (LStore r m)) []
  | LResponseFailed r m e nx u : v_listener s = LRespond r m -> locked3 s = false -> v3_engineID m = Some e ->
      onResponse (v_state s) (v_engine s) e (fl_auth (h_flags (v3_header m))) = Ok (nx, true) ->
      lstep s (set_listener (set_io (assign_next s nx) u (v_proc s) (v_clock s)) LIdle) []
  | LResponseDone r m e nx u : v_listener s = LRespond r m -> locked3 s = false -> v3_engineID m = Some e ->
      onResponse (v_state s) (v_engine s) e (fl_auth (h_flags (v3_header m))) = Ok (nx, true) ->
      lstep s (set_listener (updateState (set_engine (set_io (assign_next s nx) u (v_proc s) (v_clock s)) (Some e))) (LStore r m)) []
  | LStored r m : v_listener s = LStore r m -> let q := get3 (v_reqs s) r in
      lstep s (set_listener (if q_event q then s else set_req3 s r (q_set_result q true (q_exception q) (Some m))) LIdle) [WResponse r m].

  Lemma pducls_eqb_ok a b : pducls_eqb a b = true <-> a = b.
  Proof. destruct a, b; cbn; split; intros H; try discriminate; auto. Qed.
  Lemma push_step_spec s h m s' l : v_listener s = LPush h m -> push_step fmt s h m = (s', l) -> lstep s s' l.
  Proof.
    intros V. unfold push_step. cbv zeta. destruct (v3_scoped m) as [sc|] eqn:SC; [|intros H; injection H as <- <-; now apply LIgnored].
    destruct (v3_engineID m) as [e|] eqn:EE; [|intros H; injection H as <- <-; now apply LIgnored].
    destruct (q_alive _) eqn:A; cbn [negb]; [|intros H; injection H as <- <-; now apply LIgnored].
    destruct (pducls_eqb _ _) eqn:PC.
    2:{ intros H. injection H as <- <-. eapply LAnswered; eauto. intros X. apply pducls_eqb_ok in X. congruence. }
    apply pducls_eqb_ok in PC. destruct (pdu_vbs (sp_pdu sc)) as [|vb vbs] eqn:VB; [intros H; injection H as <- <-; now apply LIgnored|].
    assert (RO : report_of m vb) by (exists sc, vbs; auto).
    destruct (report_kind (vb_name vb)) as [| |x] eqn:RK.
    - destruct (opt_bytes_eqb _ _) eqn:OE; intros H; injection H as <- <-; [now apply LIgnored|]. eapply LReported; eauto. left. split; [auto|]. split; [auto|].
      intros X. rewrite X in OE. cbn in OE. rewrite (proj2 (zlist_eqb_eq e e) eq_refl) in OE. discriminate.
    - destruct (nth _ _ _) eqn:NB; intros H; injection H as <- <-; [now apply LIgnored|]. eapply LReported; eauto.
    - destruct (fmt m); intros H; injection H as <- <-; [|now apply LIgnored]. now apply LException.
  Qed.
  Lemma listen3_spec s s' l : listen3 s = (s', l) -> lstep s s' l.
  Proof.
    unfold ManagerV3.listen3. destruct (v_listener s) as [|h m|r e w|r e w|r|r m|r m] eqn:V.
    - intros H. injection H as <- <-. apply LNothing; auto.
    - now apply push_step_spec.
    - destruct (locked3 s) eqn:K; [intros H; injection H as <- <-; apply LNothing; auto|].
      destruct (onReport _ _ _) as [[nx b]|ex] eqn:O; [|intros H; injection H as <- <-; eapply LReportBug; eauto].
      destruct (send3 _ _ _ _) as [[s1 l1] y] eqn:S. apply send3_spec in S.
      assert (VC : v_clock (assign_next s nx) = v_clock s) by (destruct nx; reflexivity). rewrite VC in S.
      destruct y as [[]|ex].
      + pose proof (LReportSent s r e w nx b s1 l1 V K O S) as T. destruct b; intros H; injection H as <- <-; exact T.
      + intros H. injection H as <- <-. eapply LReportFailed; eauto.
    - destruct (v_unsent s) as [|q rest] eqn:U; [intros H; injection H as <- <-; eapply LDrained; eauto|].
      cbn [v_reqs set_queue]. destruct (q_alive _) eqn:A; [|intros H; injection H as <- <-; eapply LDrainDead; eauto].
      destruct (send3 _ _ _ _) as [[s1 l1] y] eqn:S. apply send3_spec in S. cbn [v_clock set_queue] in S. destruct y as [[]|ex]; intros H; injection H as <- <-.
      + eapply LDrainSent; eauto.
      + eapply LDrainFailed; eauto.
    - intros H. injection H as <- <-. now apply LSynced.
    - destruct (locked3 s) eqn:K; [intros H; injection H as <- <-; apply LNothing; auto|].
      destruct (v3_engineID m) as [e|] eqn:EE; [|intros H; injection H as <- <-; eapply LResponseBug; eauto].
      destruct (onResponse _ _ _ _) as [[nx [|]]|ex] eqn:O.
      + destruct (manager_engine _ _) as [s1 y] eqn:M. apply manager_engine_spec in M as (u & M).
        assert (VC : v_clock (assign_next s nx) = v_clock s /\ v_proc (assign_next s nx) = v_proc s) by (destruct nx; auto). destruct VC as [VC VP]. rewrite VC, VP in M.
        destruct M as [(ex & -> & ->)|(-> & ->)]; intros H; injection H as <- <-; [eapply LResponseFailed|eapply LResponseDone]; eauto.
      + assert (nx = None) as -> by (unfold onResponse in O; destruct (v_state s); try discriminate; [destruct (_ || _)%bool|]; congruence).
        intros H. injection H as <- <-. eapply LResponseKept; eauto.
      + intros H. injection H as <- <-. eapply LResponseBug; eauto.
    - intros H. injection H as <- <-. now apply LStored.
  Qed.
End Steps.
