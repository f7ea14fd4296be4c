(** PrfCache.v -- allocation of IDs (C24) and the sequential processors. *)
From Verif Require Export SpecProc PrfDict PrfUtils.
From Verif Require Import PrfCodec.

Lemma after_add g i j : numgen_after g (i + j) = numgen_after (numgen_after g i) j.
Proof. induction j as [|j IH]; [now rewrite Nat.add_0_r|]. rewrite Nat.add_succ_r. cbn. now rewrite IH. Qed.
Lemma nth_add g i j : numgen_nth g (i + j) = numgen_nth (numgen_after g i) j.
Proof. unfold numgen_nth. now rewrite after_add. Qed.
(** The next [j] numbers. *)
Fixpoint ids (g : numgen) (j : nat) : list Z :=
  match j with O => [] | S j' => fst (numgen_next g) :: ids (snd (numgen_next g)) j' end.
Lemma ids_spec j g : ids g j = map (numgen_nth g) (seq 1 j).
Proof.
  revert g; induction j as [|j IH]; intros g; [reflexivity|]. cbn [ids seq map]. f_equal.
  rewrite IH, <- (seq_shift j 1), map_map. apply map_ext. intros i. change (S i) with (1 + i)%nat. rewrite nth_add. reflexivity.
Qed.
Lemma ids_length j g : length (ids g j) = j.
Proof. rewrite ids_spec, map_length. apply seq_length. Qed.

Section C.
  Context {E : Type} (G : genspec) (rnd : nat -> Z) (HG : 4 <= gs_bits G) (HR : draws_ok G rnd).
  Implicit Types c : cache_st E.

  Lemma gen_at_init r : 1 <= r <= 2 ^ (gs_bits G - 1) -> gen_at G (numgen_init (gs_bits G) (gs_signed G) r).
  Proof. intros H. exists r, 0%nat. auto. Qed.
  Lemma gen_at_next g : gen_at G g -> gen_at G (snd (numgen_next g)).
  Proof. intros (r & k & H & ->). exists r, (S k). auto. Qed.
  Lemma gen_at_range g : gen_at G g -> id_in_range G (fst (numgen_next g)).
  Proof.
    intros (r & k & H & ->). pose proof (numgen_range (gs_bits G) (gs_signed G) r (S k) ltac:(lia) H) as X.
    unfold id_in_range. exact X.
  Qed.
  Lemma ids_nodup g j : gen_at G g -> (j <= 10)%nat -> NoDup (ids g j).
  Proof.
    intros (r & k & H & ->) L. rewrite ids_spec. apply (NoDup_nth _ 0). intros a b La Lb X.
    rewrite map_length, seq_length in La, Lb.
    rewrite (nth_indep _ 0 (numgen_nth (numgen_after (numgen_init (gs_bits G) (gs_signed G) r) k) 0%nat)) in X by (now rewrite map_length, seq_length).
    rewrite (nth_indep (map _ _) 0 (numgen_nth (numgen_after (numgen_init (gs_bits G) (gs_signed G) r) k) 0%nat)) in X by (now rewrite map_length, seq_length).
    rewrite !map_nth, !seq_nth, <- !nth_add in X by lia.
    apply numgen_eq_iff in X; [|lia|auto]. destruct X as [q X].
    assert (16 <= 2 ^ gs_bits G) by (change 16 with (2 ^ 4); apply Z.pow_le_mono_r; lia).
    assert (q = 0) by nia. lia.
  Qed.
  Lemma attempt_cases c e : match cache_attempt G rnd c e with
    | (Some id, c') => id = fst (numgen_next (ca_gen c)) /\ id <> 0 /\ dict_get Z.eqb (ca_out c) id = None /\
        c' = mkCache (snd (numgen_next (ca_gen c))) (ca_made c) (dict_set Z.eqb (ca_out c) id e)
    | (None, c') => ca_out c' = ca_out c /\
        ((fst (numgen_next (ca_gen c)) = 0 /\
          c' = mkCache (numgen_init (gs_bits G) (gs_signed G) (rnd (ca_made c))) (S (ca_made c)) (ca_out c)) \/
         (fst (numgen_next (ca_gen c)) <> 0 /\ In (fst (numgen_next (ca_gen c))) (keys (ca_out c)) /\
          c' = mkCache (snd (numgen_next (ca_gen c))) (ca_made c) (ca_out c)))
    end.
  Proof using.
    unfold cache_attempt. destruct (numgen_next (ca_gen c)) as [id g]; cbn [fst snd].
    destruct (id =? 0) eqn:Z0; [cbn; split; [reflexivity|left; split; [lia|reflexivity]]|].
    unfold dict_mem. destruct (dict_get Z.eqb (ca_out c) id) eqn:D; cbn.
    - split; [reflexivity|right]. split; [lia|]. split; [|reflexivity].
      apply zget_in in D. now apply (in_map fst) in D.
    - split; [reflexivity|]. split; [lia|]. auto.
  Qed.
  Lemma loop_fail j c e : (exists c' x, cache_loop G rnd j c e = (c', Raise x)) ->
    (forall x, In x (ids (ca_gen c) j) -> In x (keys (ca_out c))) \/
    exists z c1, (z < j)%nat /\ (forall x, In x (ids (ca_gen c) z) -> In x (keys (ca_out c))) /\
      numgen_nth (ca_gen c) (S z) = 0 /\ ca_out c1 = ca_out c /\
      (exists k, ca_gen c1 = numgen_init (gs_bits G) (gs_signed G) (rnd k)) /\
      exists c' x, cache_loop G rnd (j - 1 - z) c1 e = (c', Raise x).
  Proof using.
    revert c; induction j as [|j IH]; intros c F; cbn [cache_loop] in F; [left; intros x []|].
    pose proof (attempt_cases c e) as A. destruct (cache_attempt G rnd c e) as [[id|] c1].
    - destruct F as (c' & x & F). discriminate.
    - destruct A as [O [[Z0 ->]|(NZ & K & ->)]].
      + right. exists 0%nat, (mkCache (numgen_init (gs_bits G) (gs_signed G) (rnd (ca_made c))) (S (ca_made c)) (ca_out c)).
        split; [lia|]. split; [intros x []|]. split; [exact Z0|]. split; [reflexivity|].
        split; [exists (ca_made c); reflexivity|]. replace (S j - 1 - 0)%nat with j by lia. exact F.
      + destruct (IH _ F) as [A|(z & c1 & L & A & Z0 & O1 & N & F1)]; cbn [ca_gen ca_out] in *.
        * left. cbn [ids]. intros x [<-|H]; auto.
        * right. exists (S z), c1. split; [lia|]. split; [cbn [ids]; intros x [<-|H]; auto|].
          split; [change (S (S z)) with (1 + S z)%nat; rewrite nth_add; exact Z0|].
          split; [congruence|]. split; [exact N|]. replace (S j - 1 - S z)%nat with (j - 1 - z)%nat by lia. exact F1.
  Qed.
  Lemma cache_succeeds c e : gen_at G (ca_gen c) -> (length (ca_out c) <= 4)%nat ->
    exists id c', cache G rnd c e = (c', Ok id).
  Proof.
    intros HA L. destruct (cache G rnd c e) as [c' [id|x]] eqn:F; [eauto|exfalso].
    assert (KL : length (keys (ca_out c)) = length (ca_out c)) by apply map_length.
    destruct (loop_fail 10 c e) as [A|(z & c1 & Lz & A & Z0 & O1 & N & F1)]; [eauto| |].
    - pose proof (NoDup_incl_length (ids_nodup _ 10 HA ltac:(lia)) A). rewrite ids_length in H. lia.
    - pose proof (NoDup_incl_length (ids_nodup _ z HA ltac:(lia)) A). rewrite ids_length in H.
      destruct N as (k & N).
      assert (HA1 : gen_at G (ca_gen c1)) by (rewrite N; apply gen_at_init, HR).
      destruct (loop_fail _ _ _ F1) as [A1|(z1 & c2 & L1 & A1 & Z1 & _)].
      + pose proof (NoDup_incl_length (ids_nodup _ (10 - 1 - z) HA1 ltac:(lia)) A1). rewrite ids_length in H0.
        rewrite O1, KL in H0. lia.
      + rewrite N in Z1. apply numgen_zero in Z1; [|lia|apply HR]. destruct Z1 as [q Z1].
        assert (16 <= 2 ^ gs_bits G) by (change 16 with (2 ^ 4); apply Z.pow_le_mono_r; lia).
        assert (q = 0 \/ 1 <= q) by nia. destruct H1; nia.
  Qed.
  Lemma loop_fail_iff j c e c' x : cache_loop G rnd j c e = (c', Raise x) <->
    x = CacheError /\ attempts_fail G rnd e j c c'.
  Proof using.
    revert c; induction j as [|j IH]; intros c; cbn [cache_loop attempts_fail].
    - split; [intros H; injection H as <- <-; auto|intros [-> ->]; reflexivity].
    - destruct (cache_attempt G rnd c e) as [[id|] c1]; [split; [discriminate|intros (_ & c2 & H & _); discriminate]|].
      rewrite IH. split; [intros [-> H]; eauto|intros [-> (c2 & H & H2)]; injection H as <-; auto].
  Qed.
  Lemma attempts_fail_out j c c' e : attempts_fail G rnd e j c c' -> ca_out c' = ca_out c.
  Proof using.
    revert c; induction j as [|j IH]; intros c; cbn [attempts_fail]; [now intros ->|]. intros (c1 & A & F).
    rewrite (IH _ F). pose proof (attempt_cases c e) as X. rewrite A in X. tauto.
  Qed.
  Lemma attempt_gen c e : gen_at G (ca_gen c) -> gen_at G (ca_gen (snd (cache_attempt G rnd c e))).
  Proof.
    intros H. pose proof (attempt_cases c e) as X. destruct (cache_attempt G rnd c e) as [[id|] c1]; cbn [snd].
    - destruct X as (_ & _ & _ & ->). now apply gen_at_next.
    - destruct X as [_ [[_ ->]|(_ & _ & ->)]]; [apply gen_at_init, HR|now apply gen_at_next].
  Qed.
  Lemma loop_ok j c e c' id : gen_at G (ca_gen c) -> cache_loop G rnd j c e = (c', Ok id) ->
    id <> 0 /\ id_in_range G id /\ dict_get Z.eqb (ca_out c) id = None /\
    ca_out c' = dict_set Z.eqb (ca_out c) id e /\ gen_at G (ca_gen c').
  Proof.
    revert c; induction j as [|j IH]; intros c HA; cbn [cache_loop]; [discriminate|].
    pose proof (attempt_cases c e) as X. pose proof (attempt_gen c e HA) as HA1. destruct (cache_attempt G rnd c e) as [[i|] c1]; cbn [snd] in HA1.
    - intros H. injection H as <- <-. destruct X as (-> & X1 & X2 & ->). split; [auto|]. split; [now apply gen_at_range|].
      split; [auto|]. split; [reflexivity|]. now apply gen_at_next.
    - intros H. apply IH in H; [|auto]. destruct X as [X _]. rewrite X in H. auto.
  Qed.
End C.
