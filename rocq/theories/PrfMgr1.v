(** PrfMgr1.v -- the SNMPv1/SNMPv2c manager: what its steps do, and the
    invariant of every history. *)
From Verif Require Export ManagerV1 PrfHeap PrfCache PrfDict PrfProc PrfEnc.
From Coq Require Import Permutation.

(** * Requests *)
Lemma get1_put_same l r q : (r < length l)%nat -> get1 (put l r q) r = q.
Proof. intros H. unfold get1. apply nth_error_nth, put_same, H. Qed.
Lemma get1_nth l r : (r < length l)%nat -> nth_error l r = Some (get1 l r).
Proof. intros H. unfold get1. now apply nth_error_nth'. Qed.
Lemma get1_out l r : (length l <= r)%nat -> get1 l r = no_req1.
Proof. intros H. unfold get1. now apply nth_overflow. Qed.
Lemma get1_put_other l r r' q : r <> r' -> get1 (put l r q) r' = get1 l r'.
Proof.
  intros H. destruct (le_lt_dec (length l) r') as [L|L]; [now rewrite !get1_out by (rewrite ?put_length; lia)|].
  unfold get1. pose proof (put_other l r r' q H) as E. rewrite (get1_nth l r' L) in E.
  erewrite nth_error_nth by exact E. reflexivity.
Qed.
Lemma get1_app l q r : get1 (l ++ [q]) r = if Nat.eqb r (length l) then q else get1 l r.
Proof.
  destruct (Nat.eqb_spec r (length l)) as [->|N]; unfold get1; [rewrite app_nth2, Nat.sub_diag by lia; reflexivity|].
  destruct (le_lt_dec (length l) r); [|now apply app_nth1].
  rewrite nth_overflow by (rewrite app_length; cbn; lia). now rewrite nth_overflow by lia.
Qed.

(** * The comparison *)
(** The key ComparableWeakRef.value() would return. *)
Definition ekey1 (l : list req1) (r : nat) : Z :=
  match live_key1 (get1 l r) with Some k => k | None => wr_value (rq_ref (get1 l r)) end.
(** [l'] differs from [l] only in stored keys, and not for dead requests. *)
Definition sbr (l l' : list req1) : Prop :=
  length l' = length l /\ forall r, ekey1 l' r = ekey1 l r /\ exists w, get1 l' r = with_ref1 (get1 l r) w.
Lemma with_ref1_self q : with_ref1 q (rq_ref q) = q.
Proof. destruct q; reflexivity. Qed.
Lemma sbr_refl l : sbr l l.
Proof. split; [auto|]. intros r. split; [auto|]. exists (rq_ref (get1 l r)). now rewrite with_ref1_self. Qed.
Lemma sbr_trans l1 l2 l3 : sbr l1 l2 -> sbr l2 l3 -> sbr l1 l3.
Proof.
  intros [L1 H1] [L2 H2]. split; [congruence|]. intros r. destruct (H1 r) as [K1 [w1 E1]], (H2 r) as [K2 [w2 E2]].
  split; [congruence|]. exists w2. rewrite E2, E1. reflexivity.
Qed.
Lemma ref_lt1_spec l a b r l' : ref_lt1 l a b = (r, l') ->
  r = (ekey1 l a <? ekey1 l b) /\ sbr l l' /\
  ((a < length l)%nat -> wr_value (rq_ref (get1 l' a)) = ekey1 l' a) /\ ((b < length l)%nat -> wr_value (rq_ref (get1 l' b)) = ekey1 l' b) /\
  (forall c, wr_value (rq_ref (get1 l c)) = ekey1 l c -> wr_value (rq_ref (get1 l' c)) = ekey1 l' c).
Proof.
  unfold ref_lt1, wr_lt. intros E.
  set (x := get1 l a) in *. set (y := get1 l b) in *.
  destruct (wr_get (rq_ref x) (live_key1 x)) as [v1 w1] eqn:G1. destruct (wr_get (rq_ref y) (live_key1 y)) as [v2 w2] eqn:G2.
  injection E as <- <-.
  assert (V1 : v1 = ekey1 l a /\ wr_value w1 = ekey1 l a).
  { unfold ekey1; fold x. unfold wr_get in G1. destruct (live_key1 x); injection G1 as <- <-; auto. }
  assert (V2 : v2 = ekey1 l b /\ wr_value w2 = ekey1 l b).
  { unfold ekey1; fold y. unfold wr_get in G2. destruct (live_key1 y); injection G2 as <- <-; auto. }
  destruct V1 as [-> V1], V2 as [-> V2].
  set (l' := put (put l a (with_ref1 x w1)) b (with_ref1 y w2)).
  assert (G : forall c, get1 l' c = get1 l c \/ ((c < length l)%nat /\ c = b /\ get1 l' c = with_ref1 y w2) \/
                        ((c < length l)%nat /\ c = a /\ get1 l' c = with_ref1 x w1)).
  { intros c. unfold l'. destruct (le_lt_dec (length l) c) as [L|L].
    { left. now rewrite !get1_out by (rewrite ?put_length; lia). }
    destruct (Nat.eq_dec b c) as [<-|N]; [right; left; rewrite get1_put_same by (rewrite put_length; lia); auto|].
    rewrite get1_put_other by auto. destruct (Nat.eq_dec a c) as [<-|N2]; [right; right; rewrite get1_put_same by lia; auto|].
    left. now rewrite get1_put_other by auto. }
  assert (LK : forall q w, live_key1 (with_ref1 q w) = live_key1 q) by reflexivity.
  assert (K : forall c, ekey1 l' c = ekey1 l c).
  { intros c. unfold ekey1. destruct (G c) as [->|[(_ & -> & ->)|(_ & -> & ->)]]; [auto| |]; rewrite LK.
    - unfold ekey1 in V2. fold y in V2. fold y. destruct (live_key1 y); auto.
    - unfold ekey1 in V1. fold x in V1. fold x. destruct (live_key1 x); auto. }
  assert (LL : length l' = length l) by (unfold l'; now rewrite !put_length).
  assert (FR : forall c, (c < length l)%nat -> c = a \/ c = b -> wr_value (rq_ref (get1 l' c)) = ekey1 l' c).
  { intros c L AB. rewrite K. unfold l'. destruct (Nat.eq_dec b c) as [<-|N].
    - rewrite get1_put_same by (rewrite put_length; auto). exact V2.
    - destruct AB as [->|AB]; [|congruence]. rewrite get1_put_other, get1_put_same by auto. exact V1. }
  split; [reflexivity|]. split.
  - split; [auto|]. intros c. split; [auto|]. destruct (G c) as [->|[(_ & -> & ->)|(_ & -> & ->)]]; [|exists w2; auto|exists w1; auto].
    exists (rq_ref (get1 l c)). now rewrite with_ref1_self.
  - split; [intros; apply FR; auto|]. split; [intros; apply FR; auto|]. intros c. rewrite K.
    destruct (G c) as [->|[(_ & -> & ->)|(_ & -> & ->)]]; auto.
Qed.
Lemma lt_inv l0 : forall s a b r s', sbr l0 s -> ref_lt1 s a b = (r, s') -> sbr l0 s'.
Proof. intros s a b r s' I E. apply ref_lt1_spec in E. eapply sbr_trans; [exact I|tauto]. Qed.
Lemma lt_key l0 : forall s a b r s', sbr l0 s -> ref_lt1 s a b = (r, s') -> r = (ekey1 l0 a <? ekey1 l0 b) /\ sbr l0 s'.
Proof.
  intros s a b r s' I E. pose proof (lt_inv l0 _ _ _ _ _ I E) as I'. apply ref_lt1_spec in E as [-> _]. split; [|auto].
  destruct I as [_ H]. now rewrite (proj1 (H a)), (proj1 (H b)).
Qed.
Definition never_fresh (l : list req1) (r : nat) : Prop := True.
Lemma never_fresh_ok l0 : forall s a b r s', sbr l0 s -> ref_lt1 s a b = (r, s') ->
  never_fresh s' a /\ never_fresh s' b /\ forall c, never_fresh s c -> never_fresh s' c.
Proof. intros. unfold never_fresh. auto. Qed.

Definition ordered1 (l : list req1) (h : list nat) : Prop := heap_ordered (ekey1 l) h.
Lemma ordered1_sbr l l' h : sbr l l' -> ordered1 l h -> ordered1 l' h.
Proof. intros [_ H] O j J0 PJ p c HP HC. rewrite (proj1 (H p)), (proj1 (H c)). now apply (O j). Qed.
Lemma push1 l h x l' h' : heappush ref_lt1 l h x = (l', h') ->
  sbr l l' /\ Permutation (x :: h) h' /\ (ordered1 l h -> ordered1 l' h').
Proof.
  intros E. destruct (heappush_perm _ _ (lt_inv l) _ _ _ _ _ (sbr_refl l) E) as [I P]. split; [auto|]. split; [auto|].
  intros O. eapply ordered1_sbr; [exact I|].
  now apply (heappush_spec _ _ _ (lt_key l) never_fresh (never_fresh_ok l) _ _ _ _ _ (sbr_refl l) O E).
Qed.
Lemma replace1 l a t x l' h' : heapreplace ref_lt1 l (a :: t) x = Some (l', h') ->
  sbr l l' /\ Permutation (x :: t) h'.
Proof. intros E. apply (heapreplace_perm _ _ (lt_inv l) _ _ _ _ _ _ (sbr_refl l) E). Qed.
(** The heap was ordered before the key of the root changed. *)
Lemma replace1_ordered l0 l a t l' h' : ordered1 l0 (a :: t) -> (forall r, r <> a -> ekey1 l r = ekey1 l0 r) -> ~ In a t ->
  heapreplace ref_lt1 l (a :: t) a = Some (l', h') -> ordered1 l' h'.
Proof.
  intros O K NI E. destruct (replace1 _ _ _ _ _ _ E) as [I _]. eapply ordered1_sbr; [exact I|].
  cbn [heapreplace] in E. injection E as E.
  eapply (root_siftup _ _ _ (lt_key l) never_fresh (never_fresh_ok l)); [apply sbr_refl| |exact E].
  intros j J0 PJ p c HP HC. specialize (O j J0 ltac:(lia) p c HP HC).
  assert (X : forall k y, (0 < k)%nat -> nth_error (a :: t) k = Some y -> y <> a).
  { intros [|k] y K0 H ->; [lia|]. apply NI. eapply nth_error_In; exact H. }
  rewrite !K; auto; eapply X; [| eassumption | | eassumption]; lia.
Qed.
Lemma pop1_spec l a t l' h' : heappop ref_lt1 l (a :: t) = Some (l', h') ->
  sbr l l' /\ Permutation t h' /\ (ordered1 l (a :: t) -> ordered1 l' h').
Proof.
  intros E. destruct (heappop_perm _ _ (lt_inv l) _ _ _ _ _ (sbr_refl l) E) as [I P]. split; [auto|]. split; [auto|].
  intros O. eapply ordered1_sbr; [exact I|].
  now apply (heappop_spec _ _ _ (lt_key l) never_fresh (never_fresh_ok l) _ _ _ _ _ (sbr_refl l) O E).
Qed.

(** * The cache *)
Lemma dict_set_in {V} (d : dict Z V) k v x : In x (dict_set Z.eqb d k v) -> x = (k, v) \/ In x d.
Proof.
  induction d as [|[k' v'] d IH]; cbn [dict_set]; [cbn; intuition auto|].
  destruct (Z.eqb_spec k k') as [->|N]; cbn [In]; intuition auto.
Qed.
Lemma dict_del_in {V} (d : dict Z V) k x : In x (dict_del Z.eqb d k) -> In x d.
Proof.
  induction d as [|[k' v'] d IH]; cbn [dict_del]; [auto|]. destruct (k =? k'); cbn [In]; intuition auto.
Qed.
Lemma cache_loop_out {E} G rnd j (c : cache_st E) e c' x : cache_loop G rnd j c e = (c', x) ->
  match x with
  | Ok id => id <> 0 /\ ca_out c' = dict_set Z.eqb (ca_out c) id e
  | Raise _ => ca_out c' = ca_out c
  end.
Proof.
  revert c; induction j as [|j IH]; intros c; cbn [cache_loop].
  - intros H. injection H as <- <-. auto.
  - pose proof (attempt_cases G rnd c e) as X. destruct (cache_attempt G rnd c e) as [[i|] c1].
    + intros H. injection H as <- <-. destruct X as (_ & X1 & _ & ->). auto.
    + intros H. apply IH in H. destruct X as [X _]. now rewrite X in H.
Qed.

(** * What a step does to a request *)
(** [q'] is [q] later on. *)
Definition evolves (q q' : req1) : Prop :=
  rq_community q' = rq_community q /\
  (rq_pdu q' = rq_pdu q \/ (pdu_requestID (rq_pdu q) = 0 /\ exists id, id <> 0 /\ rq_pdu q' = set_requestID (rq_pdu q) id)) /\
  sc_expiration (rq_sched q') = sc_expiration (rq_sched q) /\ sc_period (rq_sched q') = sc_period (rq_sched q) /\
  (rq_response q <> None -> rq_response q' <> None) /\
  (rq_alive q' = true -> rq_alive q = true).
Lemma evolves_refl q : evolves q q.
Proof. repeat split; auto. Qed.
Lemma evolves_trans q1 q2 q3 : evolves q1 q2 -> evolves q2 q3 -> evolves q1 q3.
Proof.
  intros (A1 & B1 & C1 & D1 & E1 & F1) (A2 & B2 & C2 & D2 & E2 & F2). repeat split; auto; try congruence.
  destruct B1 as [B1|(B1 & id & B3 & B4)], B2 as [B2|(B2 & id2 & B5 & B6)].
  - left. congruence.
  - right. rewrite <- B1. split; [auto|]. exists id2. auto.
  - right. split; [auto|]. exists id. rewrite B2. auto.
  - exfalso. rewrite B4 in B2. cbn in B2. auto.
Qed.
Lemma evolves_ref q w : evolves q (with_ref1 q w).
Proof. repeat split; auto. Qed.
Lemma evolves_sched q c : sc_expiration c = sc_expiration (rq_sched q) -> sc_period c = sc_period (rq_sched q) -> evolves q (with_sched1 q c).
Proof. intros. repeat split; auto. Qed.
(** Requests are only added, the clock only advances. *)
Definition evo (s s' : mgr1) : Prop :=
  (length (m1_reqs s) <= length (m1_reqs s'))%nat /\ (m1_clock s <= m1_clock s')%nat /\
  forall r, (r < length (m1_reqs s))%nat -> evolves (get1 (m1_reqs s) r) (get1 (m1_reqs s') r).
Lemma evo_refl s : evo s s.
Proof. split; [auto|]. split; [auto|]. intros; apply evolves_refl. Qed.
Lemma evo_trans s1 s2 s3 : evo s1 s2 -> evo s2 s3 -> evo s1 s3.
Proof.
  intros (A1 & B1 & C1) (A2 & B2 & C2). split; [lia|]. split; [lia|]. intros r Hr.
  eapply evolves_trans; [apply C1; auto|apply C2; lia].
Qed.
Lemma evo_same s s' : m1_reqs s' = m1_reqs s -> (m1_clock s <= m1_clock s')%nat -> evo s s'.
Proof. intros E L. split; [rewrite E; auto|]. split; [auto|]. intros. rewrite E. apply evolves_refl. Qed.
Lemma evo_put s s' r q : m1_reqs s' = put (m1_reqs s) r q -> (m1_clock s <= m1_clock s')%nat ->
  evolves (get1 (m1_reqs s) r) q -> evo s s'.
Proof.
  intros E L V. split; [rewrite E, put_length; auto|]. split; [auto|]. intros r' Hr. rewrite E.
  destruct (Nat.eq_dec r r') as [<-|N]; [now rewrite get1_put_same by auto|rewrite get1_put_other by auto; apply evolves_refl].
Qed.
Lemma evo_sbr s s' : sbr (m1_reqs s) (m1_reqs s') -> (m1_clock s <= m1_clock s')%nat -> evo s s'.
Proof.
  intros [L H] C. split; [lia|]. split; [auto|]. intros r _. destruct (H r) as [_ [w ->]]. apply evolves_ref.
Qed.
Lemma evolves_pdu q q' : evolves q q' -> pdu_requestID (rq_pdu q) <> 0 -> rq_pdu q' = rq_pdu q.
Proof. intros (_ & [B|[B _]] & _) N; [auto|congruence]. Qed.

Section Inv1.
  Context (V : v12) (rnd : nat -> Z) (clk : nat -> Z).
  Notation m1_step := (m1_step V rnd clk). Notation task1_step := (task1_step V rnd clk).
  Notation reallySend1 := (reallySend1 V rnd).

  (** The bytes that the request stands for, once it has an ID. *)
  Definition wire1 (q : req1) : res bytes := message_encode (mkMessage (vp_version V) (rq_community q) (rq_pdu q)).
  Lemma reallySend1_spec net s r q s' w : reallySend1 net s r q = (s', w) ->
    (rq_cb q = true -> pdu_requestID (rq_pdu q) <> 0) ->
    exists q', m1_reqs s' = put (m1_reqs s) r q' /\ m1_heap s' = m1_heap s /\ m1_tasks s' = m1_tasks s /\ m1_clock s' = m1_clock s /\
      rq_community q' = rq_community q /\ rq_sched q' = rq_sched q /\ rq_response q' = rq_response q /\ rq_ref q' = rq_ref q /\
      rq_alive q' = rq_alive q /\
      (w <> Raise CacheError -> pdu_requestID (rq_pdu q') <> 0 /\ w = do b <- wire1 q'; if net then Ok b else Raise OSError) /\
      (rq_cb q' = true -> pdu_requestID (rq_pdu q') <> 0) /\
      ((rq_pdu q' = rq_pdu q /\ rq_cb q' = rq_cb q /\ ca_out (m1_cache s') = ca_out (m1_cache s) /\
        (m1_cache s' = m1_cache s \/ w = Raise CacheError)) \/
       (pdu_requestID (rq_pdu q) = 0 /\ rq_cb q' = true /\ exists id, id <> 0 /\ rq_pdu q' = set_requestID (rq_pdu q) id /\
        ca_out (m1_cache s') = dict_set Z.eqb (ca_out (m1_cache s)) id (mkE1 r (rq_community q)))).
  Proof.
    unfold ManagerV1.reallySend1, v12_prepareOutgoing. intros E CB.
    destruct (Z.eqb_spec (pdu_requestID (rq_pdu q)) 0) as [Z0|Z0].
    - destruct (cache gen_v1 rnd (m1_cache s) (mkE1 r (rq_community q))) as [c [id|e]] eqn:CE; unfold cache in CE;
        pose proof (cache_loop_out _ _ _ _ _ _ _ CE) as CO.
      + destruct CO as [N CO]. destruct (rq_cb q) eqn:CBQ; [exfalso; now apply CB|]. cbn [negb] in E. injection E as <- <-.
        eexists. do 3 (split; [reflexivity|]). split; [reflexivity|]. split; [reflexivity|]. split; [reflexivity|]. split; [reflexivity|].
        split; [reflexivity|]. split; [reflexivity|]. cbn [rq_pdu rq_cb s1_pdu s1_callback orb pdu_requestID set_requestID].
        split; [auto|]. split; [auto|]. right. split; [auto|]. split; [auto|]. exists id. auto.
      + injection E as <- <-.
        assert (e = CacheError) as -> by (apply loop_fail_iff in CE; tauto).
        eexists. do 3 (split; [reflexivity|]). split; [reflexivity|]. split; [reflexivity|]. split; [reflexivity|]. split; [reflexivity|].
        split; [reflexivity|]. split; [reflexivity|]. cbn [rq_pdu rq_cb s1_pdu s1_callback orb]. rewrite orb_false_r.
        split; [congruence|]. split; [auto|]. left. auto.
    - injection E as <- <-.
      eexists. do 3 (split; [reflexivity|]). split; [reflexivity|]. split; [reflexivity|]. split; [reflexivity|]. split; [reflexivity|].
      split; [reflexivity|]. split; [reflexivity|]. cbn [rq_pdu rq_cb s1_pdu s1_callback orb]. rewrite orb_false_r.
      split; [auto|]. split; [auto|]. left. auto.
  Qed.

  (** * The invariant *)
  Definition pending1 (ts : list task1) : list nat := flat_map (fun t => match t with TSend r => [r] | _ => [] end) ts.
  Definition expired_seen (s : mgr1) (r : nat) : Prop :=
    exists i, (i < m1_clock s)%nat /\ sc_expiration (rq_sched (get1 (m1_reqs s) r)) <= clk i.
  (** [m] answers request [r], and was received. *)
  Definition origin1 (evs : list event1) (s : mgr1) (r : nat) (m : message) : Prop :=
    (r < length (m1_reqs s))%nat /\ pdu_requestID (rq_pdu (get1 (m1_reqs s) r)) <> 0 /\
    exists d, In (MReceive d) evs /\ message_decode (vp_types V) (ABytes d) = Ok m /\ pdu_cls (m_pdu m) = ResponsePDU /\
      pdu_requestID (m_pdu m) = pdu_requestID (rq_pdu (get1 (m1_reqs s) r)) /\ m_community m = rq_community (get1 (m1_reqs s) r).
  Definition task_ok (evs : list event1) (s : mgr1) (l : list log1) (t : task1) : Prop :=
    (task_req t < length (m1_reqs s))%nat /\ rq_alive (get1 (m1_reqs s) (task_req t)) = true /\
    match t with
    | TPush r m => origin1 evs s r m
    | TGot r => rq_response (get1 (m1_reqs s) r) <> None
    | TClose r (Some p) => exists m, In (LPushed r m) l /\ m_pdu m = p
    | TClose r None => expired_seen s r
    | _ => True
    end.
  Definition outcome_ok (s : mgr1) (l : list log1) (r : nat) (o : outcome1) : Prop :=
    match o with
    | OReturned vbs => exists m, In (LPushed r m) l /\ pdu_a (m_pdu m) = 0 /\ pdu_vbs (m_pdu m) = vbs
    | OErrorResponse st i c => exists m, In (LPushed r m) l /\ pdu_a (m_pdu m) = st /\ st <> 0 /\ pdu_b (m_pdu m) = i /\
        pdu_requestID (rq_pdu (get1 (m1_reqs s) r)) <> 0 /\ c = error_cause i (rq_pdu (get1 (m1_reqs s) r))
    | ORaised e => (e = Timeout /\ expired_seen s r) \/ e = AssertionError \/ e = IndexError \/ e = ZeroDivisionError \/
        e <> Timeout /\ exists r', In (LSendFailed r' e) l
    end.
  Record inv1 (evs : list event1) (s : mgr1) (l : list log1) : Prop := mkInv1 {
    i_nodup : NoDup (m1_heap s ++ pending1 (m1_tasks s));
    i_heap : forall r, In r (m1_heap s) -> (r < length (m1_reqs s))%nat;
    i_cover : forall r, (r < length (m1_reqs s))%nat -> In r (pending1 (m1_tasks s)) \/ In r (m1_heap s) \/
      rq_alive (get1 (m1_reqs s) r) = false \/ rq_response (get1 (m1_reqs s) r) <> None \/ expired_seen s r;
    i_cache : forall id e, In (id, e) (ca_out (m1_cache s)) -> (e1_handle e < length (m1_reqs s))%nat /\ id <> 0 /\
      pdu_requestID (rq_pdu (get1 (m1_reqs s) (e1_handle e))) = id /\ rq_community (get1 (m1_reqs s) (e1_handle e)) = e1_community e;
    i_cb : forall r, rq_cb (get1 (m1_reqs s) r) = true -> pdu_requestID (rq_pdu (get1 (m1_reqs s) r)) <> 0;
    i_sent : forall r now again w, In (LSent r now again w) l -> (r < length (m1_reqs s))%nat /\
      pdu_requestID (rq_pdu (get1 (m1_reqs s) r)) <> 0 /\ wire1 (get1 (m1_reqs s) r) = Ok w;
    i_response : forall r m, rq_response (get1 (m1_reqs s) r) = Some m -> In (LPushed r m) l;
    i_pushed : forall r m, In (LPushed r m) l -> origin1 evs s r m;
    i_tasks : forall t, In t (m1_tasks s) -> task_ok evs s l t;
    i_outcome : forall r o, In (LOutcome r o) l -> (r < length (m1_reqs s))%nat /\ outcome_ok s l r o
  }.

  (** ** Stability *)
  Lemma origin1_evo evs evs' s s' r m : evo s s' -> incl evs evs' -> origin1 evs s r m -> origin1 evs' s' r m.
  Proof.
    intros (L & _ & EV) IC (Hr & N & d & D1 & D2 & D3 & D4 & D5). specialize (EV r Hr).
    pose proof (evolves_pdu _ _ EV N) as P. destruct EV as (EC & _).
    split; [lia|]. rewrite P. split; [auto|]. exists d. rewrite EC. auto 6.
  Qed.
  Lemma expired_evo s s' r : (r < length (m1_reqs s))%nat -> evo s s' -> expired_seen s r -> expired_seen s' r.
  Proof.
    intros Hr (_ & C & EV) (i & Hi & X). exists i. split; [lia|]. destruct (EV r Hr) as (_ & _ & -> & _). auto.
  Qed.
  Lemma task_evo evs evs' s s' l l' t : evo s s' -> incl evs evs' -> incl l l' ->
    rq_alive (get1 (m1_reqs s') (task_req t)) = true -> task_ok evs s l t -> task_ok evs' s' l' t.
  Proof.
    intros EV IE IL AL (Hr & A & T). split; [destruct EV; lia|]. split; [auto|]. destruct t; auto.
    - eapply origin1_evo; eauto.
    - cbn [task_req] in *. destruct EV as (_ & _ & EV). specialize (EV r Hr) as (_ & _ & _ & _ & R & _). auto.
    - destruct p as [p|]; [destruct T as (m & T1 & T2); exists m; auto|]. eapply expired_evo; eauto.
  Qed.
  Lemma outcome_evo s s' l l' r o : (r < length (m1_reqs s))%nat -> evo s s' -> incl l l' -> outcome_ok s l r o -> outcome_ok s' l' r o.
  Proof.
    intros Hr EV IL. destruct o as [vbs|st i c|e]; cbn [outcome_ok].
    - intros (m & A & B). exists m. auto.
    - intros (m & A & B & C & D & N & X). exists m. destruct EV as (_ & _ & EV). specialize (EV r Hr).
      rewrite (evolves_pdu _ _ EV N). auto 8.
    - intros [(-> & X)|[X|[X|[X|(N & r' & X)]]]]; auto 6.
      + left. split; [auto|]. eapply expired_evo; eauto.
      + right. right. right. right. split; [auto|]. exists r'. auto.
  Qed.

  (** Everything but the heap, the cache and the new log entries follows from
      [evo]. *)
  Lemma inv1_step evs evs' s s' l l' :
    inv1 evs s l -> evo s s' -> incl evs evs' ->
    NoDup (m1_heap s' ++ pending1 (m1_tasks s')) ->
    (forall r, In r (m1_heap s') -> (r < length (m1_reqs s'))%nat) ->
    (forall r, (r < length (m1_reqs s'))%nat -> In r (pending1 (m1_tasks s')) \/ In r (m1_heap s') \/
       rq_alive (get1 (m1_reqs s') r) = false \/ rq_response (get1 (m1_reqs s') r) <> None \/ expired_seen s' r) ->
    (forall id e, In (id, e) (ca_out (m1_cache s')) -> In (id, e) (ca_out (m1_cache s)) \/
       ((e1_handle e < length (m1_reqs s'))%nat /\ id <> 0 /\
        pdu_requestID (rq_pdu (get1 (m1_reqs s') (e1_handle e))) = id /\ rq_community (get1 (m1_reqs s') (e1_handle e)) = e1_community e)) ->
    (forall r, rq_cb (get1 (m1_reqs s') r) = true -> pdu_requestID (rq_pdu (get1 (m1_reqs s') r)) <> 0) ->
    (forall r m, rq_response (get1 (m1_reqs s') r) = Some m -> rq_response (get1 (m1_reqs s) r) = Some m \/ In (LPushed r m) l') ->
    (forall r now again w, In (LSent r now again w) l' -> (r < length (m1_reqs s'))%nat /\
      pdu_requestID (rq_pdu (get1 (m1_reqs s') r)) <> 0 /\ wire1 (get1 (m1_reqs s') r) = Ok w) ->
    (forall r m, In (LPushed r m) l' -> origin1 evs' s' r m) ->
    (forall t, In t (m1_tasks s') -> (In t (m1_tasks s) /\ rq_alive (get1 (m1_reqs s') (task_req t)) = true) \/ task_ok evs' s' (rev l' ++ l) t) ->
    (forall r o, In (LOutcome r o) l' -> (r < length (m1_reqs s'))%nat /\ outcome_ok s' (rev l' ++ l) r o) ->
    inv1 evs' s' (rev l' ++ l).
  Proof.
    intros [I1 I2 I3 I4 I5 I6 I7 I8 I9 I10] EV IE H1 H2 H3 H4 H5 H6 H7 H8 H9 H10.
    assert (LI : forall x, In x (rev l' ++ l) <-> In x l' \/ In x l) by (intros x; rewrite in_app_iff, <- in_rev; tauto).
    assert (IL : incl l (rev l' ++ l)) by (intros x Hx; apply LI; auto).
    constructor; auto.
    - intros id e He. destruct (H4 id e He) as [X|X]; [|auto]. destruct (I4 _ _ X) as (A & B & C & D).
      destruct EV as (EL & _ & EV). specialize (EV _ A). rewrite (evolves_pdu _ _ EV) by congruence.
      destruct EV as (EC & _). rewrite EC. split; [lia|auto].
    - intros r now again w X. apply LI in X as [X|X]; [eauto|]. destruct (I6 _ _ _ _ X) as (A & B & C).
      destruct EV as (EL & _ & EV). specialize (EV _ A). split; [lia|]. unfold wire1 in *. rewrite (evolves_pdu _ _ EV B).
      destruct EV as (EC & _). rewrite EC. auto.
    - intros r m X. apply LI. destruct (H6 r m X) as [Y|Y]; auto.
    - intros r m X. apply LI in X as [X|X]; [auto|]. eapply origin1_evo; eauto.
    - intros t X. destruct (H9 t X) as [[Y AL]|Y]; [|auto]. eapply task_evo; eauto.
    - intros r o X. apply LI in X as [X|X]; [auto|]. destruct (I10 _ _ X) as [A B]. split; [destruct EV; lia|]. eapply outcome_evo; eauto.
  Qed.

  Lemma inv1_new : inv1 [] (mgr1_new rnd) [].
  Proof.
    constructor; cbn; try tauto; try (intros; lia); try constructor.
    - intros [|r]; discriminate.
    - intros [|r]; discriminate.
  Qed.

  Lemma pending1_app a b : pending1 (a ++ b) = pending1 a ++ pending1 b.
  Proof. apply flat_map_app. Qed.
  Lemma pending1_no ts : (forall t r, In t ts -> t <> TSend r) -> pending1 ts = [].
  Proof.
    induction ts as [|t ts IH]; intros H; [auto|]. unfold pending1 in *. cbn [flat_map]. rewrite IH by (intros; apply H; now right).
    destruct t; auto. exfalso. apply (H (TSend r) r); [now left|auto].
  Qed.
  Lemma split_nth {A} (l : list A) n t : nth_error l n = Some t -> l = firstn n l ++ t :: skipn (S n) l.
  Proof.
    revert l; induction n as [|n IH]; intros [|a l] E; try discriminate; cbn in *; [now injection E as ->|].
    f_equal. now apply IH.
  Qed.

  Lemma nodup_app_intro {A} (a b : list A) : NoDup a -> NoDup b -> (forall x, In x a -> In x b -> False) -> NoDup (a ++ b).
  Proof.
    intros Na Nb D. induction Na as [|x a Nx Na IH]; [auto|]. cbn. constructor.
    - rewrite in_app_iff. intros [X|X]; [auto|]. apply (D x); [now left|auto].
    - apply IH. intros y Hy. apply D. now right.
  Qed.
  Lemma nodup_app_disj {A} (a b : list A) x : NoDup (a ++ b) -> In x a -> In x b -> False.
  Proof.
    induction a as [|y a IH]; [contradiction|]. cbn. intros N [->|Ha] Hb; inversion N; subst; auto.
    apply H1. apply in_app_iff; auto.
  Qed.

  (** A step of a task that is not a TSend. *)
  Lemma inv1_task evs s l x s1 n t new l' :
    inv1 evs s l -> nth_error (m1_tasks s) n = Some t -> (forall r, t <> TSend r) ->
    evo s s1 -> length (m1_reqs s1) = length (m1_reqs s) ->
    (forall r, rq_alive (get1 (m1_reqs s1) r) = rq_alive (get1 (m1_reqs s) r)) ->
    NoDup (m1_heap s1) -> incl (m1_heap s1) (m1_heap s) ->
    (forall r, In r (m1_heap s) -> In r (m1_heap s1) \/ rq_alive (get1 (m1_reqs s1) r) = false \/
       rq_response (get1 (m1_reqs s1) r) <> None \/ expired_seen s1 r) ->
    (forall id e, In (id, e) (ca_out (m1_cache s1)) -> In (id, e) (ca_out (m1_cache s)) \/
       ((e1_handle e < length (m1_reqs s1))%nat /\ id <> 0 /\
        pdu_requestID (rq_pdu (get1 (m1_reqs s1) (e1_handle e))) = id /\ rq_community (get1 (m1_reqs s1) (e1_handle e)) = e1_community e)) ->
    (forall r, rq_cb (get1 (m1_reqs s1) r) = true -> pdu_requestID (rq_pdu (get1 (m1_reqs s1) r)) <> 0) ->
    (forall r m, rq_response (get1 (m1_reqs s1) r) = Some m -> rq_response (get1 (m1_reqs s) r) = Some m \/ In (LPushed r m) l') ->
    (forall r now again w, In (LSent r now again w) l' -> (r < length (m1_reqs s1))%nat /\
      pdu_requestID (rq_pdu (get1 (m1_reqs s1) r)) <> 0 /\ wire1 (get1 (m1_reqs s1) r) = Ok w) ->
    (forall r m, In (LPushed r m) l' -> origin1 (evs ++ [x]) s1 r m) ->
    (forall t', In t' new -> (forall r, t' <> TSend r) /\ task_ok (evs ++ [x]) s1 (rev l' ++ l) t') ->
    (forall r o, In (LOutcome r o) l' -> (r < length (m1_reqs s1))%nat /\ outcome_ok s1 (rev l' ++ l) r o) ->
    inv1 (evs ++ [x])
      (mkMgr1 (m1_cache s1) (m1_reqs s1) (m1_heap s1) (firstn n (m1_tasks s) ++ new ++ skipn (S n) (m1_tasks s)) (m1_clock s1))
      (rev l' ++ l).
  Proof.
    intros I E NT EV LE AL ND IN RM CA CB RS SE PU TK OU.
    assert (PD : pending1 (firstn n (m1_tasks s) ++ new ++ skipn (S n) (m1_tasks s)) = pending1 (m1_tasks s)).
    { rewrite (split_nth _ _ _ E) at 3. change (t :: skipn (S n) (m1_tasks s)) with ([t] ++ skipn (S n) (m1_tasks s)).
      rewrite !pending1_app. f_equal. f_equal. rewrite !pending1_no; auto.
      - intros t' r [<-|[]]. auto.
      - intros t' r Ht. now apply TK. }
    assert (IN' : forall t', In t' (firstn n (m1_tasks s) ++ new ++ skipn (S n) (m1_tasks s)) -> In t' (m1_tasks s) \/ In t' new).
    { intros t'. rewrite !in_app_iff. intros [X|[X|X]]; auto; left; rewrite (split_nth _ _ _ E), in_app_iff; auto. right; now right. }
    eapply inv1_step; try exact I; try assumption; cbn [m1_reqs m1_heap m1_cache m1_tasks m1_clock] in *.
    - now apply incl_appl.
    - rewrite PD. destruct I as [I1 _ _ _ _ _ _ _ _ _]. apply nodup_app_intro; [auto|now apply nodup_app_r in I1|].
      intros a Ha. apply (nodup_app_disj _ _ _ I1). auto.
    - intros r Hr. rewrite LE. apply (i_heap _ _ _ I). auto.
    - intros r Hr. rewrite PD. destruct (i_cover _ _ _ I r) as [X|[X|[X|[X|X]]]]; [lia|auto|..].
      + destruct (RM r X) as [Y|[Y|[Y|Y]]]; auto 6.
      + rewrite AL. auto 6.
      + destruct EV as (_ & _ & EV). destruct (EV r) as (_ & _ & _ & _ & Y & _); [lia|]. auto 6.
      + right. right. right. right. eapply expired_evo in X; [exact X|lia|exact EV].
    - intros t' Ht. destruct (IN' t' Ht) as [X|X]; [left|right].
      + split; [auto|]. rewrite AL. now apply (i_tasks _ _ _ I).
      + now apply TK.
  Qed.

  (** A step of a task that changes at most one request, leaves the heap alone
      and removes at most entries from the cache. *)
  Lemma inv1_light evs s l x s1 n t new l' r q :
    inv1 evs s l -> nth_error (m1_tasks s) n = Some t -> (forall r, t <> TSend r) ->
    m1_reqs s1 = put (m1_reqs s) r q -> evolves (get1 (m1_reqs s) r) q -> rq_alive q = rq_alive (get1 (m1_reqs s) r) ->
    m1_heap s1 = m1_heap s -> (m1_clock s <= m1_clock s1)%nat ->
    (forall x, In x (ca_out (m1_cache s1)) -> In x (ca_out (m1_cache s))) ->
    rq_cb q = false \/ rq_cb q = rq_cb (get1 (m1_reqs s) r) /\ rq_pdu q = rq_pdu (get1 (m1_reqs s) r) ->
    (rq_response q = rq_response (get1 (m1_reqs s) r) \/ exists m, rq_response q = Some m /\ In (LPushed r m) l') ->
    (forall r now again w, ~ In (LSent r now again w) l') ->
    (forall r m, In (LPushed r m) l' -> origin1 (evs ++ [x]) s1 r m) ->
    (forall t', In t' new -> (forall r, t' <> TSend r) /\ task_ok (evs ++ [x]) s1 (rev l' ++ l) t') ->
    (forall r o, In (LOutcome r o) l' -> (r < length (m1_reqs s1))%nat /\ outcome_ok s1 (rev l' ++ l) r o) ->
    inv1 (evs ++ [x])
      (mkMgr1 (m1_cache s1) (m1_reqs s1) (m1_heap s1) (firstn n (m1_tasks s) ++ new ++ skipn (S n) (m1_tasks s)) (m1_clock s1))
      (rev l' ++ l).
  Proof.
    intros I E NT RQ EV AL HP CL CA CB RS SE PU TK OU.
    assert (EV' : evo s s1) by (eapply evo_put; eauto).
    assert (G : forall r', get1 (m1_reqs s1) r' = get1 (m1_reqs s) r' \/ (r' = r /\ get1 (m1_reqs s1) r' = q)).
    { intros r'. rewrite RQ. destruct (le_lt_dec (length (m1_reqs s)) r') as [L|L]; [left; now rewrite !get1_out by (rewrite ?put_length; lia)|].
      destruct (Nat.eq_dec r r') as [<-|N]; [right; now rewrite get1_put_same|left; now apply get1_put_other]. }
    eapply inv1_task; try exact I; try eassumption.
    - rewrite RQ. apply put_length.
    - intros r'. destruct (G r') as [->|[-> ->]]; auto.
    - rewrite HP. apply nodup_app_l with (b := pending1 (m1_tasks s)). apply (i_nodup _ _ _ I).
    - rewrite HP. apply incl_refl.
    - rewrite HP. auto.
    - intros id e X. left. now apply CA.
    - intros r'. destruct (G r') as [->|[-> ->]]; [apply (i_cb _ _ _ I)|]. destruct CB as [->|[-> ->]]; [discriminate|apply (i_cb _ _ _ I)].
    - intros r' m. destruct (G r') as [->|[-> ->]]; [auto|]. destruct RS as [->|(m' & -> & P)]; [auto|]. intros X; injection X as <-. auto.
    - intros r' now again w X. exfalso. exact (SE _ _ _ _ X).
  Qed.
  Lemma put_self l r : put l r (get1 l r) = l.
  Proof.
    destruct (le_lt_dec (length l) r) as [L|L].
    - revert r L. generalize (get1 l). clear. intros f r. generalize (f r). clear. revert r.
      induction l as [|a l IH]; intros [|r] q L; cbn in *; auto; [lia|]. rewrite IH by lia. auto.
    - apply put_id. now apply get1_nth.
  Qed.
  (** Nothing but the clock changes. *)
  Lemma inv1_idle evs s l x s1 n t new l' :
    inv1 evs s l -> nth_error (m1_tasks s) n = Some t -> (forall r, t <> TSend r) ->
    m1_reqs s1 = m1_reqs s -> m1_heap s1 = m1_heap s -> (m1_clock s <= m1_clock s1)%nat -> m1_cache s1 = m1_cache s ->
    (forall r now again w, ~ In (LSent r now again w) l') -> (forall r m, ~ In (LPushed r m) l') ->
    (forall t', In t' new -> (forall r, t' <> TSend r) /\ task_ok (evs ++ [x]) s1 (rev l' ++ l) t') ->
    (forall r o, In (LOutcome r o) l' -> (r < length (m1_reqs s1))%nat /\ outcome_ok s1 (rev l' ++ l) r o) ->
    inv1 (evs ++ [x])
      (mkMgr1 (m1_cache s1) (m1_reqs s1) (m1_heap s1) (firstn n (m1_tasks s) ++ new ++ skipn (S n) (m1_tasks s)) (m1_clock s1))
      (rev l' ++ l).
  Proof.
    intros I E NT RQ HP CL CA SE PU TK OU.
    eapply (inv1_light evs s l x s1 n t new l' 0 (get1 (m1_reqs s) 0)); try eassumption; auto.
    - now rewrite put_self.
    - apply evolves_refl.
    - now rewrite CA.
    - intros r m X. exfalso. exact (PU _ _ X).
  Qed.

  Lemma sbr_get l l' r : sbr l l' -> exists w, get1 l' r = with_ref1 (get1 l r) w.
  Proof. intros [_ H]. now destruct (H r). Qed.

  (** pop1, when the root no longer needs attention. *)
  Lemma inv1_pop evs s0 s l x n t root hp s' new l' :
    inv1 evs s0 l -> nth_error (m1_tasks s0) n = Some t -> (forall r, t <> TSend r) ->
    rq_alive (get1 (m1_reqs s0) (task_req t)) = true ->
    m1_reqs s = m1_reqs s0 -> m1_heap s = m1_heap s0 -> m1_cache s = m1_cache s0 -> (m1_clock s0 <= m1_clock s)%nat ->
    m1_heap s = root :: hp ->
    (rq_alive (get1 (m1_reqs s) root) = false \/ rq_response (get1 (m1_reqs s) root) <> None \/ expired_seen s root) ->
    pop1 s (task_req t) = (s', new, l') ->
    inv1 (evs ++ [x])
      (mkMgr1 (m1_cache s') (m1_reqs s') (m1_heap s') (firstn n (m1_tasks s0) ++ new ++ skipn (S n) (m1_tasks s0)) (m1_clock s'))
      (rev l' ++ l).
  Proof.
    intros I E NT AL RQ HP CA CL RT DONE P. unfold pop1 in P. rewrite RT in P.
    destruct (heappop ref_lt1 (m1_reqs s) (root :: hp)) as [[lq h']|] eqn:HPP.
    2:{ now apply heappop_some in HPP. }
    injection P as <- <- <-. destruct (pop1_spec _ _ _ _ _ HPP) as (SB & PM & _).
    assert (LR : (task_req t < length (m1_reqs s0))%nat) by (apply (i_tasks _ _ _ I); eapply nth_error_In; eauto).
    pose proof (i_nodup _ _ _ I) as ND. apply nodup_app_l in ND. rewrite <- HP, RT in ND. inversion ND as [|? ? NI ND']; subst.
    assert (EV : evo s0 (with_heap1 s (lq, h'))).
    { apply evo_sbr; cbn [with_heap1 m1_reqs m1_clock fst]; [now rewrite <- RQ|auto]. }
    assert (G : forall r, exists w, get1 lq r = with_ref1 (get1 (m1_reqs s0) r) w) by (intros r; rewrite <- RQ; now apply sbr_get).
    eapply inv1_task; try exact I; try eassumption; cbn [with_heap1 m1_reqs m1_heap m1_cache m1_clock fst snd] in *.
    - rewrite <- RQ. apply SB.
    - intros r. destruct (G r) as [w ->]. reflexivity.
    - eapply Permutation_NoDup; eauto.
    - intros r Hr. rewrite <- HP, RT. right. eapply Permutation_in; [apply Permutation_sym; exact PM|auto].
    - intros r Hr. rewrite <- HP, RT in Hr. destruct Hr as [<-|Hr]; [right|left; now apply (Permutation_in r PM)].
      destruct (G root) as [w Gr]. rewrite Gr. rewrite RQ in DONE. cbn [with_ref1 rq_alive rq_response]. destruct DONE as [D|[D|D]]; auto.
      right. right. destruct D as (i & Hi & D). exists i. split; [auto|]. cbn [with_heap1 m1_reqs fst]. rewrite Gr. rewrite RQ in D. exact D.
    - intros id e X. rewrite CA in X. auto.
    - intros r. destruct (G r) as [w ->]. apply (i_cb _ _ _ I).
    - intros r m. destruct (G r) as [w ->]. auto.
    - intros r now again w [].
    - intros r m [].
    - intros t' [<-|[]]. split; [congruence|]. unfold task_ok. cbn [task_req with_heap1 m1_reqs fst]. split; [destruct EV; cbn in *; lia|].
      destruct (G (task_req t)) as [w Gr]. rewrite Gr. auto.
    - intros r o [].
  Qed.

  Lemma set_expiration s v : sc_expiration (set_next s v) = sc_expiration s.
  Proof. reflexivity. Qed.
  Lemma sched_refresh_resend s now c : sched_refresh s now = Ok (RResend c) ->
    sc_expiration c = sc_expiration s /\ sc_period c = sc_period s.
  Proof.
    unfold sched_refresh. destruct (_ <=? 0); [|discriminate]. destruct (_ <=? now); [discriminate|]. destruct (_ =? 0); [discriminate|].
    intros E. injection E as <-. auto.
  Qed.

  Lemma cache_after_send s s1 r q q' (I4 : forall id e, In (id, e) (ca_out (m1_cache s)) -> (e1_handle e < length (m1_reqs s))%nat /\ id <> 0 /\
      pdu_requestID (rq_pdu (get1 (m1_reqs s) (e1_handle e))) = id /\ rq_community (get1 (m1_reqs s) (e1_handle e)) = e1_community e) :
    (r < length (m1_reqs s))%nat -> rq_community q' = rq_community q ->
    get1 (m1_reqs s1) r = q' -> length (m1_reqs s1) = length (m1_reqs s) ->
    ((rq_pdu q' = rq_pdu q /\ rq_cb q' = rq_cb q /\ ca_out (m1_cache s1) = ca_out (m1_cache s) /\
        (m1_cache s1 = m1_cache s \/ True)) \/
       (pdu_requestID (rq_pdu q) = 0 /\ rq_cb q' = true /\ exists id, id <> 0 /\ rq_pdu q' = set_requestID (rq_pdu q) id /\
        ca_out (m1_cache s1) = dict_set Z.eqb (ca_out (m1_cache s)) id (mkE1 r (rq_community q)))) ->
    forall id e, In (id, e) (ca_out (m1_cache s1)) -> In (id, e) (ca_out (m1_cache s)) \/
       ((e1_handle e < length (m1_reqs s1))%nat /\ id <> 0 /\
        pdu_requestID (rq_pdu (get1 (m1_reqs s1) (e1_handle e))) = id /\ rq_community (get1 (m1_reqs s1) (e1_handle e)) = e1_community e).
  Proof.
    intros Hr CO G LE [(_ & _ & -> & _)|(_ & _ & id & N & P & ->)] id' e X; [auto|].
    apply dict_set_in in X as [X|X]; [|auto]. injection X as -> ->. right. cbn [e1_handle e1_community].
    rewrite G, CO, P. split; [lia|]. auto.
  Qed.

  Lemma evolves_sent q q' : rq_community q' = rq_community q -> rq_sched q' = rq_sched q -> rq_response q' = rq_response q ->
    rq_alive q' = rq_alive q ->
    (rq_pdu q' = rq_pdu q \/ (pdu_requestID (rq_pdu q) = 0 /\ exists id, id <> 0 /\ rq_pdu q' = set_requestID (rq_pdu q) id)) -> evolves q q'.
  Proof. intros A B C D E. repeat split; auto; congruence. Qed.

  (** One turn of the refresh loop. *)
  Lemma inv1_locked net evs s l x n r s' new l' :
    inv1 evs s l -> nth_error (m1_tasks s) n = Some (TLocked r) ->
    locked1 V rnd clk net s r = (s', new, l') ->
    inv1 (evs ++ [x])
      (mkMgr1 (m1_cache s') (m1_reqs s') (m1_heap s') (firstn n (m1_tasks s) ++ new ++ skipn (S n) (m1_tasks s)) (m1_clock s'))
      (rev l' ++ l).
  Proof.
    intros I E L. pose proof (i_tasks _ _ _ I _ (nth_error_In _ _ E)) as (LR & AL & _). cbn [task_req] in *.
    assert (NT : forall r', TLocked r <> TSend r') by discriminate.
    unfold locked1 in L. destruct (m1_heap s) as [|root hp] eqn:HP.
    { injection L as <- <- <-. eapply inv1_idle; eauto; try (cbn; intuition discriminate).
      intros r' o [X|[]]. injection X as <- <-. split; [auto|]. cbn [outcome_ok]. auto. }
    assert (POP : forall s2 s' new l', m1_reqs s2 = m1_reqs s -> m1_heap s2 = m1_heap s -> m1_cache s2 = m1_cache s -> (m1_clock s <= m1_clock s2)%nat ->
        (rq_alive (get1 (m1_reqs s2) root) = false \/ rq_response (get1 (m1_reqs s2) root) <> None \/ expired_seen s2 root) ->
        pop1 s2 r = (s', new, l') ->
        inv1 (evs ++ [x])
          (mkMgr1 (m1_cache s') (m1_reqs s') (m1_heap s') (firstn n (m1_tasks s) ++ new ++ skipn (S n) (m1_tasks s)) (m1_clock s'))
          (rev l' ++ l)).
    { intros s2 s3 new3 l3 A B C D DN P. apply (inv1_pop evs s s2 l x n (TLocked r) root hp s3 new3 l3); auto. now rewrite B. }
    destruct (rq_alive (get1 (m1_reqs s) root)) eqn:AR; cbn [negb] in L.
    2:{ eapply (POP s); eauto. }
    destruct (rq_response (get1 (m1_reqs s) root)) as [m0|] eqn:RR.
    { eapply (POP s); eauto. right. left. congruence. }
    cbn [tick1] in L. set (now := clk (m1_clock s)) in *.
    set (s2 := mkMgr1 (m1_cache s) (m1_reqs s) (m1_heap s) (m1_tasks s) (S (m1_clock s))) in *.
    assert (IDLE : forall new l', (forall r now again w, ~ In (LSent r now again w) l') -> (forall r m, ~ In (LPushed r m) l') ->
       (forall t', In t' new -> (forall r, t' <> TSend r) /\ task_ok (evs ++ [x]) s2 (rev l' ++ l) t') ->
       (forall r o, In (LOutcome r o) l' -> (r < length (m1_reqs s2))%nat /\ outcome_ok s2 (rev l' ++ l) r o) ->
        inv1 (evs ++ [x])
          (mkMgr1 (m1_cache s2) (m1_reqs s2) (m1_heap s2) (firstn n (m1_tasks s) ++ new ++ skipn (S n) (m1_tasks s)) (m1_clock s2))
          (rev l' ++ l)).
    { intros new3 l3 A B C D. eapply inv1_idle; eauto. cbn; lia. }
    destruct (sched_refresh (rq_sched (get1 (m1_reqs s) root)) now) as [[|w|c]|e] eqn:SR.
    - (* expired *)
      eapply (POP s2); eauto; [cbn; lia|]. right. right. exists (m1_clock s). split; [cbn; lia|]. cbn [m1_reqs s2].
      unfold sched_refresh in SR. destruct (_ <=? 0); [|discriminate]. destruct (Z.leb_spec (sc_expiration (rq_sched (get1 (m1_reqs s) root))) now); [auto|].
      destruct (_ =? 0); discriminate.
    - injection L as <- <- <-. apply IDLE; try (cbn; intuition discriminate).
      intros t' [<-|[]]. split; [discriminate|]. split; [auto|]. split; [auto|exact Logic.I].
    - destruct (reallySend1 net s2 root (with_sched1 (get1 (m1_reqs s) root) c)) as [s3 w] eqn:RS.
      destruct (sched_refresh_resend _ _ _ SR) as [SE SP].
      assert (LRO : (root < length (m1_reqs s))%nat) by (apply (i_heap _ _ _ I); rewrite HP; now left).
      destruct (reallySend1_spec _ _ _ _ _ _ RS) as (q' & Q1 & Q2 & Q3 & Q4 & Q5 & Q6 & Q7 & Q8 & Q9 & Q10 & Q11 & Q12).
      { apply (i_cb _ _ _ I). }
      cbn [with_sched1 rq_community rq_response rq_ref rq_alive rq_pdu rq_cb] in Q5, Q7, Q8, Q9, Q12.
      change (rq_sched (with_sched1 (get1 (m1_reqs s) root) c)) with c in Q6.
      change (m1_reqs s2) with (m1_reqs s) in *. change (m1_heap s2) with (m1_heap s) in *. change (m1_cache s2) with (m1_cache s) in *. change (m1_clock s2) with (S (m1_clock s)) in *.
      assert (EV1 : evolves (get1 (m1_reqs s) root) q').
      { eapply evolves_trans; [apply (evolves_sched _ c); auto|]. apply evolves_sent; auto.
        cbn [with_sched1 rq_pdu]. destruct Q12 as [(-> & _)|(A & _ & id & B & C & _)]; [auto|right]. split; [auto|]. exists id. auto. }
      assert (Gr : get1 (m1_reqs s3) root = q') by (rewrite Q1; now apply get1_put_same).
      assert (Go : forall r', get1 (m1_reqs s3) r' = get1 (m1_reqs s) r' \/ (r' = root /\ get1 (m1_reqs s3) r' = q')).
      { intros r'. rewrite Q1. destruct (Nat.eq_dec root r') as [<-|N]; [right; now rewrite get1_put_same|left; now apply get1_put_other]. }
      assert (L3 : length (m1_reqs s3) = length (m1_reqs s)) by (rewrite Q1; apply put_length).
      assert (CA3 : forall id e, In (id, e) (ca_out (m1_cache s3)) -> In (id, e) (ca_out (m1_cache s)) \/
         ((e1_handle e < length (m1_reqs s3))%nat /\ id <> 0 /\
        pdu_requestID (rq_pdu (get1 (m1_reqs s3) (e1_handle e))) = id /\ rq_community (get1 (m1_reqs s3) (e1_handle e)) = e1_community e)).
      { eapply (cache_after_send s s3 root (get1 (m1_reqs s) root) q'); eauto; [apply (i_cache _ _ _ I)|].
        destruct Q12 as [(A & B & C & _)|X]; [left|right]; auto. }
      assert (NDH : NoDup (m1_heap s)) by (eapply nodup_app_l; apply (i_nodup _ _ _ I)).
      assert (EV3 : evo s s3) by (eapply evo_put; eauto; rewrite Q4; lia).
      assert (CB3 : forall r', rq_cb (get1 (m1_reqs s3) r') = true -> pdu_requestID (rq_pdu (get1 (m1_reqs s3) r')) <> 0).
      { intros r'. destruct (Go r') as [->|[-> ->]]; [apply (i_cb _ _ _ I)|auto]. }
      destruct w as [b|e].
      + assert (S3H : m1_heap s3 = root :: hp) by congruence. rewrite S3H in L.
        destruct (heapreplace ref_lt1 (m1_reqs s3) (root :: hp) root) as [[lq h']|] eqn:HR; [|discriminate].
        injection L as <- <- <-. destruct (replace1 _ _ _ _ _ _ HR) as [SB PM].
        destruct (Q10 ltac:(discriminate)) as [W1 W2].
        assert (G' : forall r', exists w, get1 lq r' = with_ref1 (get1 (m1_reqs s3) r') w) by (intros; now apply sbr_get).
        assert (EV4 : evo s (with_heap1 s3 (lq, h'))).
        { eapply evo_trans; [exact EV3|]. apply evo_sbr; [exact SB|cbn; lia]. }
        assert (LL : length lq = length (m1_reqs s)) by (rewrite <- L3; apply SB).
        eapply inv1_task; try exact I; try eassumption; cbn [with_heap1 m1_reqs m1_heap m1_cache m1_clock fst snd] in *.
        * intros r'. destruct (G' r') as [wr ->]. cbn [with_ref1 rq_alive]. destruct (Go r') as [->|[-> ->]]; auto.
        * eapply Permutation_NoDup; [exact PM|]. now rewrite HP in NDH.
        * intros a Ha. rewrite HP. eapply Permutation_in; [apply Permutation_sym; exact PM|auto].
        * intros a Ha. left. rewrite HP in Ha. eapply Permutation_in; [exact PM|auto].
        * intros id e X. destruct (CA3 id e X) as [Y|(Y1 & Y2 & Y3 & Y4)]; [auto|right]. destruct (G' (e1_handle e)) as [wr ->]. rewrite LL, <- L3. auto.
        * intros r'. destruct (G' r') as [wr ->]. apply CB3.
        * intros r' m. destruct (G' r') as [wr ->]. cbn [with_ref1 rq_response]. destruct (Go r') as [->|[-> ->]]; [auto|]. rewrite Q7, RR. discriminate.
        * intros r' now' ag w' [X|[]]. injection X as <- <- <- <-. split; [lia|]. destruct (G' root) as [wr ->].
          cbn [with_ref1 rq_pdu]. rewrite Gr. split; [auto|]. symmetry in W2. apply bind_ok in W2 as (b' & W2 & W3). destruct net; [|discriminate].
          injection W3 as ->. unfold wire1 in *. cbn [with_ref1 rq_community rq_pdu]. auto.
        * intros r' m [X|[]]. discriminate.
        * intros t' [<-|[]]. split; [discriminate|]. unfold task_ok. cbn [task_req with_heap1 m1_reqs fst]. split; [lia|]. destruct (G' r) as [wr ->].
          split; [|exact Logic.I]. cbn [with_ref1 rq_alive]. destruct (Go r) as [->|[-> ->]]; [auto|congruence].
        * intros r' o [X|[]]. discriminate.
      + injection L as <- <- <-.
        eapply inv1_task; try exact I; try eassumption.
        * intros r'. destruct (Go r') as [->|[-> ->]]; auto.
        * now rewrite Q2.
        * rewrite Q2. apply incl_refl.
        * rewrite Q2. auto.
        * intros r' m. destruct (Go r') as [->|[-> ->]]; [auto|]. rewrite Q7, RR. discriminate.
        * cbn. intuition discriminate.
        * cbn. intuition discriminate.
        * contradiction.
        * intros r' o [X|[X|[]]]; [discriminate|]. injection X as <- <-. split; [lia|].
          cbn [rev app outcome_ok]. right. right. right. right. split; [|exists root; right; now left].
          intros ->. destruct (Q10 ltac:(discriminate)) as [_ W2]. symmetry in W2. destruct (wire1 q') as [b|e0] eqn:WR; cbn [bind] in W2; [destruct net; discriminate|].
          injection W2 as ->. apply message_enc in WR. destruct WR as [W2|[W2|[W2|[W2|W2]]]]; discriminate.
    - injection L as <- <- <-. apply IDLE; try (cbn; intuition discriminate).
      intros r' o [X|[]]. injection X as <- <-. split; [auto|].
      unfold sched_refresh in SR. destruct (_ <=? 0); [|discriminate]. destruct (_ <=? now); [discriminate|]. destruct (_ =? 0); [|discriminate].
      injection SR as <-. cbn [outcome_ok]. auto 6.
  Qed.

  Lemma sent_expiration c now : sc_expiration (sched_send c now) = sc_expiration c /\ sc_period (sched_send c now) = sc_period c.
  Proof. auto. Qed.

  Lemma inv1_send net evs s l x n r s' new l' :
    inv1 evs s l -> nth_error (m1_tasks s) n = Some (TSend r) ->
    task1_step net s (TSend r) = (s', new, l') ->
    inv1 (evs ++ [x])
      (mkMgr1 (m1_cache s') (m1_reqs s') (m1_heap s') (firstn n (m1_tasks s) ++ new ++ skipn (S n) (m1_tasks s)) (m1_clock s'))
      (rev l' ++ l).
  Proof.
    intros I E L. pose proof (i_tasks _ _ _ I _ (nth_error_In _ _ E)) as (LR & AL & _). cbn [task_req] in *.
    unfold ManagerV1.task1_step in L.
    destruct (heappush ref_lt1 (m1_reqs s) (m1_heap s) r) as [lq h'] eqn:HPE. destruct (push1 _ _ _ _ _ HPE) as (SB & PM & _).
    cbn [with_heap1 tick1 fst snd m1_cache m1_reqs m1_heap m1_tasks m1_clock] in L.
    set (now := clk (m1_clock s)) in *. set (s2 := mkMgr1 (m1_cache s) lq h' (m1_tasks s) (S (m1_clock s))) in *.
    set (q0 := get1 lq r) in *. set (c := sched_send (rq_sched q0) now) in *.
    destruct (reallySend1 net s2 r (with_sched1 q0 c)) as [s3 w] eqn:RS. injection L as <- <- <-.
    assert (G0 : forall r', exists w, get1 lq r' = with_ref1 (get1 (m1_reqs s) r') w) by (intros; now apply sbr_get).
    destruct (G0 r) as [w0 Q0]. fold q0 in Q0.
    destruct (reallySend1_spec _ _ _ _ _ _ RS) as (q' & Q1 & Q2 & Q3 & Q4 & Q5 & Q6 & Q7 & Q8 & Q9 & Q10 & Q11 & Q12).
    { rewrite Q0. apply (i_cb _ _ _ I). }
    cbn [with_sched1 rq_community rq_response rq_ref rq_alive rq_pdu rq_cb] in Q5, Q7, Q8, Q9, Q12.
    change (rq_sched (with_sched1 q0 c)) with c in Q6. cbn [s2 m1_reqs m1_heap m1_tasks m1_cache m1_clock] in Q1, Q2, Q3, Q4, Q12.
    assert (LL : length lq = length (m1_reqs s)) by apply SB.
    assert (EV1 : evolves (get1 (m1_reqs s) r) q').
    { eapply evolves_trans; [apply (evolves_ref _ w0)|]. rewrite <- Q0.
      eapply evolves_trans; [apply (evolves_sched _ c); apply sent_expiration|]. apply evolves_sent; auto.
      cbn [with_sched1 rq_pdu]. destruct Q12 as [(-> & _)|(A & _ & id & B & C & _)]; [auto|right]. split; [auto|]. exists id. auto. }
    assert (Gr : get1 (m1_reqs s3) r = q') by (rewrite Q1; apply get1_put_same; lia).
    assert (Go : forall r', (exists w, get1 (m1_reqs s3) r' = with_ref1 (get1 (m1_reqs s) r') w) \/ (r' = r /\ get1 (m1_reqs s3) r' = q')).
    { intros r'. rewrite Q1. destruct (Nat.eq_dec r r') as [<-|N]; [right; rewrite get1_put_same by lia; auto|left]. rewrite get1_put_other by auto. apply G0. }
    assert (L3 : length (m1_reqs s3) = length (m1_reqs s)) by (rewrite Q1, put_length; auto).
    assert (EV : evo s s3).
    { split; [lia|]. split; [rewrite Q4; lia|]. intros r' _. destruct (Go r') as [[w' ->]|[-> ->]]; [apply evolves_ref|auto]. }
    assert (AL3 : forall r', rq_alive (get1 (m1_reqs s3) r') = rq_alive (get1 (m1_reqs s) r')).
    { intros r'. destruct (Go r') as [[w' ->]|[-> ->]]; [auto|]. rewrite Q9, Q0. auto. }
    assert (RE3 : forall r', rq_response (get1 (m1_reqs s3) r') = rq_response (get1 (m1_reqs s) r')).
    { intros r'. destruct (Go r') as [[w' ->]|[-> ->]]; [auto|]. rewrite Q7, Q0. auto. }
    assert (TS : m1_tasks s = firstn n (m1_tasks s) ++ TSend r :: skipn (S n) (m1_tasks s)) by now apply split_nth.
    assert (PD : Permutation (pending1 (m1_tasks s)) (r :: pending1 (firstn n (m1_tasks s) ++ [] ++ skipn (S n) (m1_tasks s)))).
    { rewrite TS at 1. change (TSend r :: skipn (S n) (m1_tasks s)) with ([TSend r] ++ skipn (S n) (m1_tasks s)).
      rewrite !pending1_app. cbn [pending1 flat_map app]. symmetry. apply Permutation_middle. }
    assert (IN' : forall t', In t' (firstn n (m1_tasks s) ++ [] ++ skipn (S n) (m1_tasks s)) -> In t' (m1_tasks s)).
    { intros t'. rewrite TS at 3. cbn [app]. rewrite !in_app_iff. cbn [In]. tauto. }
    eapply inv1_step; try exact I; cbn [m1_reqs m1_heap m1_cache m1_tasks m1_clock].
    - exact EV.
    - now apply incl_appl.
    - rewrite Q2. eapply Permutation_NoDup; [|apply (i_nodup _ _ _ I)].
      etransitivity; [apply Permutation_app_head; exact PD|]. etransitivity; [symmetry; apply Permutation_middle|].
      change (r :: m1_heap s ++ ?y) with ((r :: m1_heap s) ++ y). now apply Permutation_app_tail.
    - intros r' Hr. rewrite Q2 in Hr. rewrite L3. apply (Permutation_in _ (Permutation_sym PM)) in Hr as [<-|Hr]; [auto|]. now apply (i_heap _ _ _ I).
    - intros r' Hr. rewrite AL3, RE3, Q2. rewrite L3 in Hr. destruct (i_cover _ _ _ I r' Hr) as [X|[X|[X|[X|X]]]]; auto 6.
      + apply (Permutation_in _ PD) in X as [<-|X]; [|auto]. right. left. apply (Permutation_in _ PM). now left.
      + right. left. apply (Permutation_in _ PM). now right.
      + right. right. right. right. eapply expired_evo in X; [exact X|lia|exact EV].
    - assert (CX : forall id e, In (id, e) (ca_out (m1_cache s3)) -> In (id, e) (ca_out (m1_cache s2)) \/
         ((e1_handle e < length (m1_reqs s3))%nat /\ id <> 0 /\
        pdu_requestID (rq_pdu (get1 (m1_reqs s3) (e1_handle e))) = id /\ rq_community (get1 (m1_reqs s3) (e1_handle e)) = e1_community e)).
      { eapply (cache_after_send s2 s3 r q0 q'); eauto; cbn [s2 m1_reqs m1_cache]; try lia.
        - intros id e X. destruct (i_cache _ _ _ I id e X) as (A & B & C & D). destruct (G0 (e1_handle e)) as [wr ->]. rewrite LL. auto.
        - destruct Q12 as [(A & B & C & _)|X]; [left|right]; auto. }
      exact CX.
    - intros r'. destruct (Go r') as [[w' ->]|[-> ->]]; [apply (i_cb _ _ _ I)|auto].
    - intros r' m. rewrite RE3. auto.
    - intros r' now' ag w' [X|[]]. unfold sent_log in X. destruct w as [b|e]; [|discriminate]. injection X as <- <- <- <-.
      rewrite Gr, L3. destruct (Q10 ltac:(discriminate)) as [W1 W2]. symmetry in W2. apply bind_ok in W2 as (b' & W2 & W3). destruct net; [|discriminate].
      injection W3 as ->. auto.
    - intros r' m [X|[]]. unfold sent_log in X. destruct w; discriminate.
    - intros t' Ht. left. split; [auto|]. rewrite AL3. apply (i_tasks _ _ _ I). auto.
    - intros r' o [X|[]]. unfold sent_log in X. destruct w; discriminate.
  Qed.

  Lemma task_ok_req evs s l t : task_ok evs s l t -> (task_req t < length (m1_reqs s))%nat /\ rq_alive (get1 (m1_reqs s) (task_req t)) = true.
  Proof. intros (A & B & _). auto. Qed.
  Lemma expired_clock s s' r : m1_reqs s' = m1_reqs s -> (m1_clock s <= m1_clock s')%nat -> expired_seen s r -> expired_seen s' r.
  Proof. intros E L (i & A & B). exists i. split; [lia|]. now rewrite E. Qed.

  Lemma inv1_run_task net evs s l x n s' l' : inv1 evs s l -> run_task V rnd clk net s n = (s', l') -> inv1 (evs ++ [x]) s' (rev l' ++ l).
  Proof.
    intros I E. unfold run_task in E.
    destruct (nth_error (m1_tasks s) n) as [t|] eqn:NE.
    2:{ injection E as <- <-. eapply inv1_step; try exact I; try apply I; auto using evo_refl, incl_appl, incl_refl; try contradiction.
        intros t Ht. left. split; [auto|]. now apply (i_tasks _ _ _ I). }
    destruct (task1_step net s t) as [[s1 new] l1] eqn:TS. injection E as <- <-.
    pose proof (i_tasks _ _ _ I _ (nth_error_In _ _ NE)) as TOK. pose proof (task_ok_req _ _ _ _ TOK) as [LR AL].
    destruct t as [r|r m|r|r|r|r limit|r|r p]; try (eapply inv1_send; eassumption); unfold ManagerV1.task1_step in TS; cbn [task_req] in *.
    + (* TPush *)
      injection TS as <- <- <-. eapply (inv1_light evs s l _ _ n (TPush r m) [] [LPushed r m] r); try exact I; try eassumption; cbn [set_req m1_reqs m1_heap m1_clock m1_cache];
        try reflexivity; auto; try (cbn; intuition discriminate).
      * repeat split; auto. cbn [rq_response]. congruence.
      * right. exists m. split; [reflexivity|now left].
      * intros r' m' [X|[]]. injection X as <- <-. destruct TOK as (_ & _ & TOK).
        eapply origin1_evo; [|apply incl_appl, incl_refl|exact TOK]. eapply evo_put; [reflexivity|cbn; lia|]. repeat split; auto. cbn [rq_response]. congruence.
    + (* TLoop *)
      cbn [tick1] in TS. destruct (sched_expired (rq_sched (get1 (m1_reqs s) r)) (clk (m1_clock s))) eqn:SX; injection TS as <- <- <-.
      * eapply inv1_idle; eauto; cbn [m1_clock]; try lia; try congruence; try (cbn; intuition discriminate).
        intros t' [<-|[]]. split; [congruence|]. split; [auto|]. split; [auto|]. exists (m1_clock s). split; [cbn; lia|]. unfold sched_expired in SX. cbn [m1_reqs]. lia.
      * eapply inv1_idle; eauto; cbn [m1_clock]; try lia; try congruence; try (cbn; intuition discriminate).
        intros t' [<-|[]]. split; [congruence|]. split; [auto|]. split; [auto|]. exact Logic.I.
    + (* TRefresh *)
      destruct (m1_heap s) eqn:HP; injection TS as <- <- <-; eapply inv1_idle; eauto; try congruence; try (cbn; intuition discriminate);
        intros t' [<-|[]]; (split; [congruence|]; split; [auto|]; split; [auto|]; exact Logic.I).
    + (* TLocked *) eapply inv1_locked; eauto.
    + (* TBlock *)
      destruct (rq_response (get1 (m1_reqs s) r)) as [m|] eqn:RR; [|destruct limit]; injection TS as <- <- <-; eapply inv1_idle; eauto; try congruence; try (cbn; intuition discriminate);
        intros t' [<-|[]]; (split; [congruence|]; split; [auto|]; split; [auto|]; try exact Logic.I). congruence.
    + (* TGot *)
      destruct (rq_response (get1 (m1_reqs s) r)) as [m|] eqn:RR; injection TS as <- <- <-; eapply inv1_idle; eauto; try congruence; try (cbn; intuition discriminate).
      * intros t' [<-|[]]. split; [congruence|]. split; [auto|]. split; [auto|]. exists m. split; [|auto]. now apply (i_response _ _ _ I).
      * intros r' o [X|[]]. injection X as <- <-. split; [auto|]. cbn [outcome_ok]. auto.
    + (* TClose *)
      unfold close1 in TS. destruct (rq_cb (get1 (m1_reqs s) r)) eqn:CB; injection TS as <- <- <-.
      2:{ eapply inv1_idle; eauto; try congruence; try (cbn; intuition discriminate).
          intros r' o [X|[]]. injection X as <- <-. split; [auto|]. cbn [outcome_ok]. auto. }
      set (q1 := mkReq1 _ _ false _ _ _ _).
      assert (EV1 : evolves (get1 (m1_reqs s) r) q1) by (repeat split; auto).
      eapply (inv1_light evs s l _ _ n (TClose r p) [] _ r q1); try exact I; try eassumption; cbn [set_req with_cache1 m1_reqs m1_heap m1_clock m1_cache];
        try reflexivity; auto; try congruence; try (cbn; intuition discriminate).
      * unfold uncache. cbn [ca_out]. intros y. apply dict_del_in.
      * intros r' o [X|[]]. injection X as <- <-. rewrite put_length. split; [auto|].
        destruct TOK as (_ & _ & TOK). destruct p as [p|].
        -- destruct TOK as (m & M1 & M2). destruct (Z.eqb_spec (pdu_a p) 0) as [A0|A0]; cbn [outcome_ok].
           ++ exists m. subst p. split; [apply in_app_iff; auto|]. auto.
           ++ exists m. subst p. split; [apply in_app_iff; auto|]. cbn [set_req with_cache1 m1_reqs]. rewrite get1_put_same by auto.
              cbn [q1 rq_pdu]. repeat split; auto. now apply (i_cb _ _ _ I).
        -- cbn [outcome_ok]. left. split; [auto|]. destruct TOK as (i & X1 & X2). exists i. split; [auto|].
           cbn [set_req with_cache1 m1_reqs]. rewrite get1_put_same by auto. exact X2.
  Qed.

  Lemma inv1_next evs s l x s' l' : inv1 evs s l -> m1_step s x = (s', l') -> inv1 (evs ++ [x]) s' (rev l' ++ l).
  Proof.
    intros I E. destruct x as [p community timeout period|r|d|r|n|n|p community]; cbn [ManagerV1.m1_step] in E.
    - (* MCall *)
      cbn [tick1 m1_cache m1_reqs m1_heap m1_tasks m1_clock] in E. injection E as <- <-.
      set (q := mkReq1 _ _ _ _ _ _ _).
      assert (G : forall r, (r < length (m1_reqs s))%nat -> get1 (m1_reqs s ++ [q]) r = get1 (m1_reqs s) r).
      { intros r Hr. rewrite get1_app. destruct (Nat.eqb_spec r (length (m1_reqs s))); [lia|auto]. }
      assert (Gq : get1 (m1_reqs s ++ [q]) (length (m1_reqs s)) = q) by (rewrite get1_app, Nat.eqb_refl; auto).
      assert (LL : length (m1_reqs s ++ [q]) = S (length (m1_reqs s))) by (rewrite app_length; cbn; lia).
      eapply inv1_step; try exact I; cbn [add_task m1_reqs m1_heap m1_cache m1_tasks m1_clock].
      + split; [cbn; lia|]. split; [cbn; lia|]. intros r Hr. cbn [m1_reqs]. rewrite G by auto. apply evolves_refl.
      + now apply incl_appl.
      + rewrite pending1_app. cbn [pending1 flat_map app]. rewrite app_assoc. apply nodup_app_intro; [apply (i_nodup _ _ _ I)|repeat constructor; auto|].
        intros a Ha [<-|[]]. apply in_app_iff in Ha as [Ha|Ha]; [apply (i_heap _ _ _ I) in Ha; lia|].
        unfold pending1 in Ha. apply in_flat_map in Ha as (t & T1 & T2). destruct t; try contradiction. destruct T2 as [T2|[]].
        apply (i_tasks _ _ _ I) in T1 as (T1 & _). cbn [task_req] in T1. lia.
      + intros r Hr. rewrite LL. apply (i_heap _ _ _ I) in Hr. lia.
      + intros r Hr. rewrite pending1_app, in_app_iff. rewrite LL in Hr. destruct (Nat.eq_dec r (length (m1_reqs s))) as [->|N]; [left; right; now left|].
        rewrite G by lia. destruct (i_cover _ _ _ I r) as [X|[X|[X|[X|X]]]]; try lia; auto 6.
        right. right. right. right. destruct X as (i & A & B). exists i. split; [cbn; lia|]. cbn [m1_reqs]. rewrite G by lia. auto.
      + auto.
      + intros r. rewrite get1_app. destruct (Nat.eqb_spec r (length (m1_reqs s))) as [->|N]; [discriminate|apply (i_cb _ _ _ I)].
      + intros r m. rewrite get1_app. destruct (Nat.eqb_spec r (length (m1_reqs s))) as [->|N]; [discriminate|auto].
      + contradiction.
      + contradiction.
      + intros t Ht. apply in_app_iff in Ht as [Ht|[<-|[]]].
        * left. split; [auto|]. apply (i_tasks _ _ _ I) in Ht as (A & B & _). rewrite G by auto. auto.
        * right. unfold task_ok. cbn [task_req add_task m1_reqs]. rewrite Gq, LL. split; [lia|]. auto.
      + contradiction.
    - (* MWait *)
      destruct (alive1 s r) eqn:A; cbn [andb] in E.
      2:{ injection E as <- <-. eapply inv1_step; try exact I; try apply I; auto using evo_refl, incl_appl, incl_refl; try contradiction.
          intros t Ht. left. split; [auto|]. now apply (i_tasks _ _ _ I). }
      destruct (negb _).
      2:{ injection E as <- <-. eapply inv1_step; try exact I; try apply I; auto using evo_refl, incl_appl, incl_refl; try contradiction.
          intros t Ht. left. split; [auto|]. now apply (i_tasks _ _ _ I). }
      injection E as <- <-.
      assert (LR : (r < length (m1_reqs s))%nat).
      { destruct (le_lt_dec (length (m1_reqs s)) r) as [L|L]; [|auto]. unfold alive1 in A. rewrite get1_out in A by auto. discriminate. }
      assert (PD : pending1 (m1_tasks s ++ [TLoop r]) = pending1 (m1_tasks s)) by (rewrite pending1_app; apply app_nil_r).
      eapply inv1_step; try exact I; cbn [add_task m1_reqs m1_heap m1_cache m1_tasks m1_clock]; try rewrite PD; try apply I; auto; try contradiction.
      + apply evo_same; auto.
      + now apply incl_appl.
      + intros t Ht. apply in_app_iff in Ht as [Ht|[<-|[]]]; [left; split; [auto|now apply (i_tasks _ _ _ I)]|].
        right. split; [auto|]. split; [auto|]. exact Logic.I.
    - (* MReceive *)
      destruct (v12_prepareDataElements V (alive1 s) (m1_cache s) d) as [c [[m h]|e]] eqn:PD; injection E as <- <-.
      + apply v12_incoming in PD as (-> & D1 & D2 & e & D3 & -> & D4 & D5).
        assert (PP : pending1 (m1_tasks s ++ [TPush (e1_handle e) m]) = pending1 (m1_tasks s)) by (rewrite pending1_app; apply app_nil_r).
        unfold retrieve in D3. destruct (dict_get Z.eqb (ca_out (m1_cache s)) (pdu_requestID (m_pdu m))) as [e'|] eqn:ZG; [|discriminate]. injection D3 as ->.
        apply zget_in in ZG. destruct (i_cache _ _ _ I _ _ ZG) as (C1 & C2 & C3 & C4).
        eapply inv1_step; try exact I; cbn [add_task with_cache1 m1_reqs m1_heap m1_cache m1_tasks m1_clock]; try rewrite PP; try apply I; auto; try contradiction.
        * apply evo_same; auto.
        * now apply incl_appl.
        * intros t Ht. apply in_app_iff in Ht as [Ht|[<-|[]]]; [left; split; [auto|now apply (i_tasks _ _ _ I)]|].
          right. split; [auto|]. split; [auto|]. split; [auto|]. cbn [add_task with_cache1 m1_reqs]. split; [congruence|].
          exists d. split; [apply in_app_iff; right; now left|]. rewrite C3, C4. auto.
      + assert (CO : forall x, In x (ca_out c) -> In x (ca_out (m1_cache s))).
        { revert PD. unfold v12_prepareDataElements. destruct (message_decode _ _); [|intros X; injection X as <- <-; auto].
          destruct (is_ResponsePDU _); [|intros X; injection X as <- <-; auto]. destruct (retrieve _ _); [|intros X; injection X as <- <-; auto].
          destruct (negb _); [|destruct (negb _); intros X; [injection X as <- <-; auto|discriminate]].
          intros X. injection X as <- <-. unfold uncache. cbn [ca_out]. intros y. apply dict_del_in. }
        eapply inv1_step; try exact I; cbn [with_cache1 m1_reqs m1_heap m1_cache m1_tasks m1_clock]; try apply I; auto; try contradiction.
        * apply evo_same; auto.
        * now apply incl_appl.
        * intros t Ht. left. split; [auto|now apply (i_tasks _ _ _ I)].
    - (* MDie *)
      cbv zeta in E. destruct (negb (rq_alive (get1 (m1_reqs s) r)) || existsb (fun t => Nat.eqb (task_req t) r) (m1_tasks s)) eqn:G.
      { injection E as <- <-. eapply inv1_step; try exact I; try apply I; auto using evo_refl, incl_appl, incl_refl; try contradiction.
        intros t Ht. left. split; [auto|]. now apply (i_tasks _ _ _ I). }
      apply orb_false_iff in G as [G1 G2]. apply negb_false_iff in G1. cbn [rq_cb] in E.
      assert (LR : (r < length (m1_reqs s))%nat).
      { destruct (le_lt_dec (length (m1_reqs s)) r) as [L|L]; [|auto]. rewrite get1_out in G1 by auto. discriminate. }
      set (q := get1 (m1_reqs s) r) in *.
      set (q1 := mkReq1 (rq_community q) (rq_pdu q) (rq_cb q) (rq_response q) (rq_sched q) (rq_ref q) false) in *.
      assert (X : exists q2, rq_community q2 = rq_community q /\ rq_pdu q2 = rq_pdu q /\ (rq_cb q2 = true -> rq_cb q = true) /\ rq_response q2 = rq_response q /\
                  rq_sched q2 = rq_sched q /\ rq_alive q2 = false /\ m1_reqs s' = put (m1_reqs s) r q2 /\ m1_heap s' = m1_heap s /\ m1_tasks s' = m1_tasks s /\
                  m1_clock s' = m1_clock s /\ (forall x, In x (ca_out (m1_cache s')) -> In x (ca_out (m1_cache s))) /\ l' = []).
      { destruct (rq_cb q) eqn:CB; injection E as <- <-.
        - unfold close1. cbn [q1 rq_cb]. rewrite ?CB. cbn [fst]. exists (mkReq1 (rq_community q) (rq_pdu q) false (rq_response q) (rq_sched q) (rq_ref q) false).
          split; [reflexivity|]. split; [reflexivity|]. split; [cbn; discriminate|]. do 3 (split; [reflexivity|]). split; [cbn [set_req with_cache1 m1_reqs]; apply put_put|].
          split; [reflexivity|]. split; [reflexivity|]. split; [reflexivity|]. split; [|auto]. cbn [set_req with_cache1 m1_cache uncache ca_out]. intros x. apply dict_del_in.
        - exists q1. cbn [q1 rq_community rq_pdu rq_cb rq_response rq_sched rq_alive]. repeat split; auto. }
      clear E. destruct X as (q2 & A1 & A2 & A3 & A4 & A5 & A6 & RQ & HP & TK & CL & CA & ->).
      assert (Go : forall r', get1 (m1_reqs s') r' = get1 (m1_reqs s) r' \/ (r' = r /\ get1 (m1_reqs s') r' = q2)).
      { intros r'. rewrite RQ. destruct (Nat.eq_dec r r') as [<-|N]; [right; now rewrite get1_put_same|left; now apply get1_put_other]. }
      assert (LL : length (m1_reqs s') = length (m1_reqs s)) by (rewrite RQ; apply put_length).
      assert (EV : evo s s').
      { eapply evo_put; eauto; [rewrite CL; auto|]. fold q. repeat split; auto; try congruence. }
      eapply inv1_step; try exact I; auto.
      + now apply incl_appl.
      + rewrite HP, TK. apply I.
      + rewrite HP, LL. apply I.
      + intros r' Hr. rewrite HP, TK. rewrite LL in Hr. destruct (i_cover _ _ _ I r' Hr) as [X|[X|[X|[X|X]]]]; auto.
        * destruct (Go r') as [->|[-> ->]]; auto.
        * destruct (Go r') as [->|[-> ->]]; auto.
        * right. right. right. right. eapply expired_evo in X; eauto.
      + intros r'. destruct (Go r') as [->|[-> ->]]; [apply (i_cb _ _ _ I)|]. rewrite A2. intros Y. apply (i_cb _ _ _ I). auto.
      + intros r' m. destruct (Go r') as [->|[-> ->]]; [auto|]. rewrite A4. auto.
      + contradiction.
      + contradiction.
      + intros t Ht. rewrite TK in Ht. left. split; [auto|]. destruct (Go (task_req t)) as [->|[ER _]]; [now apply (i_tasks _ _ _ I)|].
        exfalso. rewrite <- not_true_iff_false in G2. apply G2. apply existsb_exists. exists t. split; [auto|]. now apply Nat.eqb_eq.
      + contradiction.
    - eapply inv1_run_task; eauto.
    - eapply inv1_run_task; eauto.
    - (* MOther *)
      cbn [tick1 m1_cache m1_reqs m1_heap m1_tasks m1_clock] in E. set (n := length (m1_reqs s)) in *.
      set (q := mkReq1 _ _ _ _ _ _ _) in E. set (s0 := mkMgr1 _ _ _ _ _) in E.
      destruct (reallySend1 true s0 n q) as [s1 w] eqn:RS. cbn [fst] in E. injection E as <- <-.
      destruct (reallySend1_spec _ _ _ _ _ _ RS) as (q' & Q1 & Q2 & Q3 & Q4 & Q5 & Q6 & Q7 & Q8 & Q9 & Q10 & Q11 & Q12); [discriminate|].
      cbn [q rq_community rq_sched rq_response rq_ref rq_alive rq_pdu rq_cb] in Q5, Q6, Q7, Q8, Q9, Q12.
      change (m1_reqs s0) with (m1_reqs s ++ [q]) in *. change (m1_heap s0) with (m1_heap s) in *. change (m1_tasks s0) with (m1_tasks s) in *.
      change (m1_cache s0) with (m1_cache s) in *. change (m1_clock s0) with (S (m1_clock s)) in *.
      assert (LL : length (m1_reqs s1) = S n) by (rewrite Q1, put_length, app_length; cbn; lia).
      assert (G : forall r, (r <> n)%nat -> get1 (m1_reqs s1) r = get1 (m1_reqs s) r).
      { intros r Hr. rewrite Q1, get1_put_other by auto. rewrite get1_app. destruct (Nat.eqb_spec r (length (m1_reqs s))); [lia|auto]. }
      assert (Gq : get1 (m1_reqs s1) n = q') by (rewrite Q1; apply get1_put_same; rewrite app_length; cbn; lia).
      assert (EV : evo s s1).
      { split; [fold n; lia|]. split; [lia|]. intros r Hr. rewrite G by (fold n in Hr; lia). apply evolves_refl. }
      eapply inv1_step; try exact I; cbn [m1_reqs m1_heap m1_cache m1_tasks m1_clock].
      + exact EV.
      + now apply incl_appl.
      + rewrite Q2, Q3. apply I.
      + intros r Hr. rewrite Q2 in Hr. rewrite LL. apply (i_heap _ _ _ I) in Hr. fold n in Hr. lia.
      + intros r Hr. rewrite Q2, Q3. rewrite LL in Hr. destruct (Nat.eq_dec r n) as [->|N].
        * right. right. right. right. exists (m1_clock s). split; [lia|]. rewrite Gq, Q6. cbn [sched_new sc_expiration]. lia.
        * rewrite G by auto. destruct (i_cover _ _ _ I r) as [X|[X|[X|[X|X]]]]; try (fold n; lia); auto 6.
          right. right. right. right. apply (expired_evo s); auto. fold n. lia.
      + intros id e X. destruct Q12 as [(_ & _ & C & _)|(_ & _ & id' & N & P & C)]; rewrite C in X; [auto|].
        apply dict_set_in in X as [X|X]; [|auto]. injection X as -> ->. right. cbn [e1_handle e1_community]. rewrite LL, Gq, P.
        split; [lia|]. split; [auto|]. split; [reflexivity|auto].
      + intros r. destruct (Nat.eq_dec r n) as [->|N]; [rewrite Gq; auto|rewrite G by auto; apply (i_cb _ _ _ I)].
      + intros r m. destruct (Nat.eq_dec r n) as [->|N]; [rewrite Gq, Q7; discriminate|rewrite G by auto; auto].
      + contradiction.
      + contradiction.
      + intros t Ht. rewrite Q3 in Ht. left. split; [auto|]. apply (i_tasks _ _ _ I) in Ht as (A & B & _). fold n in A. rewrite G by lia. auto.
      + contradiction.
  Qed.

  Theorem inv1_run evs s l : m1_run V rnd clk evs = (s, l) -> inv1 evs s l.
  Proof.
    revert s l. induction evs as [|x evs IH] using rev_ind; unfold m1_run; intros s l E.
    - injection E as <- <-. apply inv1_new.
    - rewrite fold_left_app in E. cbn [fold_left] in E. unfold m1_run in IH. destruct (fold_left _ evs _) as [s0 l0].
      unfold m1_next in E. destruct (ManagerV1.m1_step V rnd clk s0 x) as [s1 l1] eqn:ST. injection E as <- <-. eapply inv1_next; eauto.
  Qed.
End Inv1.
