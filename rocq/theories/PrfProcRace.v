(** PrfProcRace.v -- a history of SNMPv1/v2c in which an outstanding request
    loses its cache entry: the ID of a collected request comes around again
    while the listener thread is between finding the handle dead and uncache(). *)
From Verif Require Export PrfProcConc.
From Verif Require Import PrfCodec.

Section R.
  Context (V : v12) (m : message) (data : bytes) (HP : v12_parse V data = Some m) (HM : pdu_requestID (m_pdu m) = 1).
  Let K := K12 V.
  Let rnd : nat -> Z := fun _ => 1.
  Let g0 := numgen_init 32 true 1.
  Definition ent (h : nat) : entry1 := mkE1 h [].
  (** Request 0 gets the ID 1; its response is being processed when it is
      collected; it is uncached by its __del__. *)
  Definition race_start : list (event entry1 bytes) :=
    [EStart (ent 0); EStep 0; EStep 0; EReceive data; EStep 0; EDie 0; EStep 0; EClose 0; EStep 1].
  (** A request that is sent and closed. *)
  Definition race_round (h : nat) : list (event entry1 bytes) :=
    [EStart (ent h); EStep 1; EStep 1; EClose h; EStep 1].
  Fixpoint race_rounds (n : nat) : list (event entry1 bytes) :=
    match n with O => [] | S n' => race_rounds n' ++ race_round (S n') end.
  (** A last request, which gets the ID 1 again; then the listener thread goes on. *)
  Definition race_end (h : nat) : list (event entry1 bytes) :=
    [EStart (ent h); EStep 1; EStep 1; EStep 0].
  Notation run := (fold_left (conc_next K rnd)).
  Definition race_state (g : numgen) (started : list nat) : conc entry1 message :=
    mkConc (mkCache g 1 []) [TDrop 1] started [] [0%nat].
  Lemma run_cons x xs s l s' l' : conc_step K rnd s x = (s', l') -> run (x :: xs) (s, l) = run xs (s', l' ++ l).
  Proof. intros E. cbn [fold_left conc_next]. now rewrite E. Qed.
  Lemma run_start : exists l, run race_start (conc0 K rnd, []) = (race_state (numgen_after g0 1) [0%nat], l).
  Proof.
    assert (HPK : k_parse K data = Some m) by exact HP. assert (HID : k_id K m = 1) by exact HM.
    set (c1 := mkCache (numgen_after g0 1) 1 [(1, ent 0)]).
    unfold race_start.
    rewrite (run_cons _ _ _ _ (mkConc (mkCache g0 1 []) [TAlloc (ent 0) 10] [0%nat] [] []) []) by reflexivity.
    rewrite (run_cons _ _ _ _ (mkConc c1 [TRegister 0 1] [0%nat] [] []) [LAlloc (ent 0) 1]) by reflexivity.
    rewrite (run_cons _ _ _ _ (mkConc c1 [] [0%nat] [(0%nat, 1)] []) []) by reflexivity.
    rewrite (run_cons _ _ _ _ (mkConc c1 [TRetrieve m] [0%nat] [(0%nat, 1)] []) [LReceive data])
      by (cbn [conc_step]; rewrite HPK; reflexivity).
    rewrite (run_cons _ _ _ _ (mkConc c1 [TDeref (ent 0) m] [0%nat] [(0%nat, 1)] []) [LFound (ent 0) m])
      by (cbn [conc_step nth_error cs_tasks task_step]; rewrite HID; reflexivity).
    rewrite (run_cons _ _ _ _ (mkConc c1 [TDeref (ent 0) m] [0%nat] [(0%nat, 1)] [0%nat]) [LDie 0]) by reflexivity.
    rewrite (run_cons _ _ _ _ (mkConc c1 [TDrop 1] [0%nat] [(0%nat, 1)] [0%nat]) [LReject m])
      by (rewrite <- HID; reflexivity).
    rewrite (run_cons _ _ _ _ (mkConc c1 [TDrop 1; TUncache 0 1] [0%nat] [] [0%nat]) [LClose 0]) by reflexivity.
    rewrite (run_cons _ _ _ _ (mkConc (mkCache (numgen_after g0 1) 1 []) [TDrop 1] [0%nat] [] [0%nat]) [LUncached 0 1]) by reflexivity.
    eexists. reflexivity.
  Qed.
  Lemma run_round k started l : mem (S k) started = false -> numgen_nth g0 (S (S k)) <> 0 ->
    exists l', run (race_round (S k)) (race_state (numgen_after g0 (S k)) started, l) =
      (race_state (numgen_after g0 (S (S k))) (S k :: started), l').
  Proof.
    intros NM NZ. unfold race_round.
    set (g := numgen_after g0 (S k)).
    assert (ST : conc_step K rnd (race_state g started) (EStart (ent (S k))) =
      (mkConc (mkCache g 1 []) [@TDrop entry1 message 1; TAlloc (ent (S k)) 10] (S k :: started) [] [0%nat], [])).
    { cbn [conc_step race_state cs_started cs_dead cs_cache cs_tasks cs_cb]. change (k_handle K (ent (S k))) with (S k).
      rewrite NM. reflexivity. }
    rewrite (run_cons _ _ _ _ _ _ ST).
    assert (AT : cache_attempt (k_gen K) rnd (mkCache g 1 []) (ent (S k)) =
      (Some (numgen_nth g0 (S (S k))), mkCache (numgen_after g0 (S (S k))) 1 [(numgen_nth g0 (S (S k)), ent (S k))])).
    { unfold cache_attempt. cbn [ca_gen ca_out ca_made].
      change (numgen_next g) with (numgen_nth g0 (S (S k)), numgen_after g0 (S (S k))). cbv iota beta.
      apply Z.eqb_neq in NZ. rewrite NZ. reflexivity. }
    set (id := numgen_nth g0 (S (S k))) in *. set (g' := numgen_after g0 (S (S k))) in *. clearbody id g' g.
    rewrite (run_cons _ _ _ _ (mkConc (mkCache g' 1 [(id, ent (S k))]) [TDrop 1; TRegister (S k) id] (S k :: started) [] [0%nat]) [LAlloc (ent (S k)) id])
      by (cbn [conc_step nth_error cs_tasks]; unfold task_step; cbn [cs_cache]; rewrite AT; reflexivity).
    rewrite (run_cons _ _ _ _ (mkConc (mkCache g' 1 [(id, ent (S k))]) [TDrop 1] (S k :: started) [(S k, id)] [0%nat]) []) by reflexivity.
    rewrite (run_cons _ _ _ _ (mkConc (mkCache g' 1 [(id, ent (S k))]) [TDrop 1; TUncache (S k) id] (S k :: started) [] [0%nat]) [LClose (S k)])
      by (cbn [conc_step cs_cb find fst]; rewrite Nat.eqb_refl; cbn [filter fst]; rewrite Nat.eqb_refl; reflexivity).
    rewrite (run_cons _ _ _ _ (race_state g' (S k :: started)) [LUncached (S k) id])
      by (cbn [conc_step cs_tasks nth_error task_step cs_cache]; unfold uncache, dict_del; cbn [ca_out filter fst]; rewrite Z.eqb_refl; reflexivity).
    eexists. reflexivity.
  Qed.
  Lemma run_rounds n l : (forall k, (1 <= k <= S n)%nat -> numgen_nth g0 k <> 0) ->
    exists l' started, run (race_rounds n) (race_state (numgen_after g0 1) [0%nat], l) =
      (race_state (numgen_after g0 (S n)) started, l') /\ (forall h, In h started -> (h <= n)%nat).
  Proof.
    induction n as [|n IH]; intros NZ.
    - exists l, [0%nat]. split; [reflexivity|]. intros h [<-|[]]. lia.
    - destruct IH as (l1 & st & E1 & L1); [intros k Hk; apply NZ; lia|]. cbn [race_rounds]. rewrite fold_left_app, E1.
      destruct (run_round n st l1) as (l2 & E2); [apply mem_not; intros X; apply L1 in X; lia|apply NZ; lia|].
      exists l2, (S n :: st). split; [exact E2|]. intros h [<-|X]; [lia|]. apply L1 in X. lia.
  Qed.
  Lemma run_end n started l : mem (S n) started = false -> numgen_nth g0 (S (S n)) = 0 ->
    exists s' l', run (race_end (S n)) (race_state (numgen_after g0 (S n)) started, l) = (s', l') /\
      outstanding K l' (ent (S n)) 1 /\ retrieve (cs_cache s') 1 = Raise KeyError.
  Proof.
    intros NM NZ. unfold race_end.
    set (g := numgen_after g0 (S n)) in *.
    assert (ST : conc_step K rnd (race_state g started) (EStart (ent (S n))) =
      (mkConc (mkCache g 1 []) [@TDrop entry1 message 1; TAlloc (ent (S n)) 10] (S n :: started) [] [0%nat], [])).
    { cbn [conc_step race_state cs_started cs_dead cs_cache cs_tasks cs_cb]. change (k_handle K (ent (S n))) with (S n).
      rewrite NM. reflexivity. }
    rewrite (run_cons _ _ _ _ _ _ ST).
    assert (AT : cache_attempt (k_gen K) rnd (mkCache g 1 []) (ent (S n)) = (None, mkCache g0 2 [])).
    { unfold cache_attempt. cbn [ca_gen ca_out ca_made].
      change (numgen_next g) with (numgen_nth g0 (S (S n)), numgen_after g0 (S (S n))). cbv iota beta.
      rewrite NZ. reflexivity. }
    clearbody g.
    rewrite (run_cons _ _ _ _ (mkConc (mkCache g0 2 []) [TDrop 1; TAlloc (ent (S n)) 9] (S n :: started) [] [0%nat]) [])
      by (cbn [conc_step nth_error cs_tasks]; unfold task_step; cbn [cs_cache]; rewrite AT; reflexivity).
    rewrite (run_cons _ _ _ _ (mkConc (mkCache (numgen_after g0 1) 2 [(1, ent (S n))]) [TDrop 1; TRegister (S n) 1] (S n :: started) [] [0%nat]) [LAlloc (ent (S n)) 1]) by reflexivity.
    rewrite (run_cons _ _ _ _ (mkConc (mkCache (numgen_after g0 1) 2 []) [TRegister (S n) 1] (S n :: started) [] [0%nat]) [LDropped 1]) by reflexivity.
    do 2 eexists. split; [reflexivity|]. split; [|reflexivity].
    right. split; [discriminate|]. split; [discriminate|]. left. reflexivity.
  Qed.
  Lemma race : exists rnd evs e id, draws_ok gen_v1 rnd /\ outstanding K (snd (conc_run K rnd evs)) e id /\
    retrieve (cs_cache (fst (conc_run K rnd evs))) id = Raise KeyError.
  Proof.
    destruct (Z_of_nat_complete (2 ^ 32 - 2)) as [n Hn]; [discriminate|].
    assert (P : 1 <= 32 /\ 1 <= 1 <= 2 ^ (32 - 1)) by (split; [lia|split; [lia|discriminate]]). destruct P as [P1 P2].
    assert (NZ : forall k, (1 <= k <= S n)%nat -> numgen_nth g0 k <> 0).
    { intros k Hk X. apply (numgen_zero 32 true 1 k P1 P2) in X as [q X].
      assert (q <= 0 \/ 1 <= q) as [Q|Q] by lia; nia. }
    assert (Z0 : numgen_nth g0 (S (S n)) = 0).
    { apply (numgen_zero 32 true 1 (S (S n)) P1 P2). exists 1. lia. }
    destruct run_start as (l0 & E0). destruct (run_rounds n l0 NZ) as (l1 & st & E1 & L1).
    destruct (run_end n st l1) as (s2 & l2 & E2 & O & R); [apply mem_not; intros X; apply L1 in X; lia|exact Z0|].
    exists rnd, (race_start ++ race_rounds n ++ race_end (S n)), (ent (S n)), 1.
    split; [intros k; exact P2|]. unfold conc_run. rewrite !fold_left_app, E0, E1, E2. auto.
  Qed.
End R.
