(** PrfTrans.v -- proofs about normalizeAddress() and the listener loop. *)
From Verif Require Import PrfBase.
From Verif Require Export SpecTrans.
Require Import Lia.
Open Scope Z_scope.

(** * normalizeAddress *)
Lemma port_check : forall p permissive b,
  (do low <- py_lt p 0; if low then Ok true else do high <- py_gt p 65535; if high then Ok true else Ok (py_eq p 0 && negb permissive)%bool) = Ok b ->
  b = false <-> (number_between 0 65535 p \/ is_nan p) /\ (permissive = false -> ~ is_zero p).
Proof.
  intros p pm b H. unfold is_nan. destruct p as [| |z|[q|n|]| |]; cbn in H; try discriminate; cbn [number_between is_zero].
  - destruct (z <? 0) eqn:L; [injection H as <-; split; [discriminate|intros [[X|X] _]; [lia|discriminate]]|].
    cbn in H. destruct (65535 <? z) eqn:G; [injection H as <-; split; [discriminate|intros [[X|X] _]; [lia|discriminate]]|].
    injection H as <-. split.
    + intros B. split; [left; lia|]. intros -> Z0. rewrite Z0 in B. discriminate.
    + intros [_ Z]. destruct pm; [apply Bool.andb_false_r|]. specialize (Z eq_refl). destruct (z =? 0) eqn:E; [lia|reflexivity].
  - assert (NL : forall a b, negb (Qle_bool a b) = false <-> (a <= b)%Q) by (intros; rewrite Bool.negb_false_iff; apply Qle_bool_iff).
    pose proof (NL (inject_Z 0) q) as L0. pose proof (NL q (inject_Z 65535)) as L1. clear NL.
    change (inject_Z 0) with 0%Q in *.
    destruct (negb (Qle_bool 0 q)) eqn:L.
    { injection H as <-. split; [discriminate|]. intros [[[X _]|X] _]; [apply L0 in X; discriminate|discriminate]. }
    cbn in H. destruct (negb (Qle_bool q (inject_Z 65535))) eqn:G.
    { injection H as <-. split; [discriminate|]. intros [[[_ X]|X] _]; [apply L1 in X; discriminate|discriminate]. }
    injection H as <-. pose proof (Qeq_bool_iff q 0) as E. split.
    + intros B. split; [left; tauto|]. intros -> Z0. apply E in Z0. change (inject_Z 0) with 0%Q in B. rewrite Z0 in B. discriminate.
    + intros [_ Z]. destruct pm; [apply Bool.andb_false_r|]. specialize (Z eq_refl). change (inject_Z 0) with 0%Q. destruct (Qeq_bool q 0); [tauto|reflexivity].
  - destruct n; cbn in H; injection H as <-; split; try discriminate; intros [[X|X] _]; try contradiction; discriminate.
  - injection H as <-. cbn. split; auto.
Qed.
Lemma port_check_ok : forall p permissive, number_between 0 65535 p \/ is_nan p -> exists b,
  (do low <- py_lt p 0; if low then Ok true else do high <- py_gt p 65535; if high then Ok true else Ok (py_eq p 0 && negb permissive)%bool) = Ok b.
Proof.
  intros p pm [H|H]; [|rewrite H; eexists; reflexivity]. destruct p as [| |z|[q|n|]| |]; cbn in H; try contradiction; cbn.
  - destruct (z <? 0); [eexists; reflexivity|cbn; destruct (65535 <? z); eexists; reflexivity].
  - destruct (negb _); [eexists; reflexivity|cbn; destruct (negb _); eexists; reflexivity].
Qed.

Definition permissive (u : option usage) : bool := match u with Some LISTENER => false | Some TRAP_LISTENER => false | _ => true end.
Lemma permissive_listens u : permissive u = false <-> listens u.
Proof. unfold listens. destruct u as [[]|]; cbn; split; intros; auto; try discriminate; destruct H; discriminate. Qed.

Lemma normalize_spec inet d a u h' p' : normalizeAddress inet d a u = Ok (h', p') <->
  exists ho po h, named a = Some (ho, po) /\ host_for d u ho h /\ (exists b, inet d h = Ok b) /\
    h' = VStr h /\ p' = port_for u po /\ (number_between 0 65535 p' \/ is_nan p') /\ (listens u -> ~ is_zero p').
Proof.
  unfold normalizeAddress. fold (permissive u).
  set (pp := fun port => do low <- py_lt port 0; if low then Ok true else do high <- py_gt port 65535; if high then Ok true else Ok (py_eq port 0 && negb (permissive u))%bool).
  (* the common part *)
  assert (K : forall addr port h' p',
    (do _ <- reraise is_OSError ValueError (inet_pton inet d (if py_empty addr && permissive u then VStr (default_address d) else addr));
     do bad <- pp port; if bad : bool then Raise ValueError else Ok (if py_empty addr && permissive u then VStr (default_address d) else addr, port)) = Ok (h', p') <->
    exists h, host_for d u (Some addr) h /\ (exists b, inet d h = Ok b) /\ h' = VStr h /\ p' = port /\ (number_between 0 65535 port \/ is_nan port) /\ (listens u -> ~ is_zero port)).
  { intros addr port h'0 p'0. split.
    - intros H. destruct (inet_pton inet d _) as [b|e] eqn:I; cbn in H; [|destruct (is_OSError e); discriminate].
      destruct (pp port) as [bad|e] eqn:P; cbn in H; [|discriminate]. destruct bad; [discriminate|]. injection H as <- <-.
      apply port_check in P as [P _]. destruct (P eq_refl) as [R Z].
      destruct (py_empty addr && permissive u)%bool eqn:E.
      + apply andb_prop in E as [E1 E2]. destruct addr as [|[|]| | | |]; try discriminate. exists (default_address d). cbn in I.
        split; [constructor; intros X; apply permissive_listens in X; congruence|]. eauto 9 using (proj2 (permissive_listens u)).
      + destruct addr as [|s| | | |]; try discriminate. exists s. cbn in I. split.
        * constructor. intros ->. cbn in E. apply permissive_listens, E.
        * split; [eauto|]. repeat split; auto. intros L. apply Z, permissive_listens, L.
    - intros (h & H & (b & I) & -> & -> & R & Z).
      assert (E : (if py_empty addr && permissive u then VStr (default_address d) else addr) = VStr h).
      { inversion H; subst; cbn.
        - assert (permissive u = true) as ->; [|reflexivity]. destruct (permissive u) eqn:X; [reflexivity|]. destruct H1. apply permissive_listens, X.
        - destruct h; [|reflexivity]. rewrite (proj2 (permissive_listens u)); auto. }
      rewrite E. cbn. rewrite I. cbn. destruct (port_check_ok port (permissive u) R) as (b0 & P). unfold pp. rewrite P. cbn.
      apply port_check in P. destruct b0; [|reflexivity]. exfalso. assert (true = false); [|discriminate]. apply P. split; [exact R|].
      intros X. apply Z, permissive_listens, X. }
  assert (KD : forall port h' p',
    (do _ <- reraise is_OSError ValueError (inet_pton inet d (if py_empty (VStr (default_address d)) && permissive u then VStr (default_address d) else VStr (default_address d)));
     do bad <- pp port; if bad : bool then Raise ValueError else Ok (if py_empty (VStr (default_address d)) && permissive u then VStr (default_address d) else VStr (default_address d), port)) = Ok (h', p') <->
    exists h, host_for d u None h /\ (exists b, inet d h = Ok b) /\ h' = VStr h /\ p' = port /\ (number_between 0 65535 port \/ is_nan port) /\ (listens u -> ~ is_zero port)).
  { intros port h'0 p'0. replace (if (py_empty (VStr (default_address d)) && permissive u)%bool then VStr (default_address d) else VStr (default_address d)) with (VStr (default_address d)) by (destruct (_ && _)%bool; reflexivity). cbn [inet_pton]. split.
    - intros H. destruct (inet d _) as [b|e] eqn:I; cbn in H; [|destruct (is_OSError e); discriminate].
      destruct (pp port) as [bad|e] eqn:P; cbn in H; [|discriminate]. destruct bad; [discriminate|]. injection H as <- <-.
      apply port_check in P as [P _]. destruct (P eq_refl) as [R Z]. exists (default_address d). split; [constructor|].
      split; [eauto|]. repeat split; auto. intros L. apply Z, permissive_listens, L.
    - intros (h & H & (b & I) & -> & -> & R & Z). inversion H; subst. rewrite I. cbn. destruct (port_check_ok port (permissive u) R) as (b0 & P). unfold pp. rewrite P. cbn.
      apply port_check in P. destruct b0; [|reflexivity]. exfalso. assert (true = false); [|discriminate]. apply P. split; [exact R|].
      intros X. apply Z, permissive_listens, X. }
  assert (D : forall po : option pyval, VInt (match u with None => 0 | Some u => default_port u end) = port_for u None) by (intros; destruct u as [[]|]; reflexivity).
  destruct a as [|s|z|f|l|n]; cbn [bind named].
  - pose proof (KD (VInt (match u with None => 0 | Some u => default_port u end)) h' p') as X. unfold pp in X. rewrite (X : _ <-> _). split.
    + intros (h & A & B & -> & -> & R & Z). exists None, None, h. rewrite <- (D None). auto 9.
    + intros (ho & po & h & E & A & B & -> & -> & R & Z). injection E as <- <-. exists h. rewrite (D None). auto 9.
  - pose proof (K (VStr s) (VInt (match u with None => 0 | Some u => default_port u end)) h' p') as X. unfold pp in X. rewrite (X : _ <-> _). split.
    + intros (h & A & B & -> & -> & R & Z). exists (Some (VStr s)), None, h. rewrite <- (D None). auto 9.
    + intros (ho & po & h & E & A & B & -> & -> & R & Z). injection E as <- <-. exists h. rewrite (D None). auto 9.
  - split; [discriminate|]. intros (ho & po & h & E & A & _). injection E as <- <-. inversion A.
  - split; [discriminate|]. intros (ho & po & h & E & A & _). injection E as <- <-. inversion A.
  - destruct l as [|x [|y [|]]]; cbn; try (split; [discriminate|intros (ho & po & h & E & _); discriminate]).
    pose proof (K x y h' p') as X. unfold pp in X. rewrite (X : _ <-> _). split.
    + intros (h & A & B & -> & -> & R & Z). exists (Some x), (Some y), h. auto 9.
    + intros (ho & po & h & E & A & B & -> & -> & R & Z). injection E as <- <-. exists h. auto 9.
  - split; [discriminate|]. intros (ho & po & h & E & A & _). injection E as <- <-. inversion A.
Qed.

Lemma normalize_raises inet d a u e : inet_ok inet -> normalizeAddress inet d a u = Raise e -> e = TypeError \/ is_ValueError e = true.
Proof.
  intros IO. unfold normalizeAddress. destruct (match a with VTuple [addr; port] => Ok (addr, port) | _ => _ end) as [[x y]|e0] eqn:A; cbn.
  2: { intros [= <-]. right. destruct a as [| | | |[|? [|? [|]]]|]; try discriminate; injection A as <-; reflexivity. }
  clear A. destruct (inet_pton inet d _) as [b|e0] eqn:I; cbn.
  2: { destruct (is_OSError e0) eqn:O; intros [= <-]; [right; reflexivity|].
       destruct (if (py_empty x && _)%bool then _ else x); cbn in I; try (injection I as <-; auto). apply IO in I as [->|I]; [discriminate|auto]. }
  destruct (py_lt y 0) as [low|e0] eqn:L; cbn.
  2: { intros [= <-]. destruct y as [| |z|[q|n|]| |]; cbn in L; try discriminate; injection L as <-; auto. }
  destruct low; cbn; [intros [= <-]; auto|].
  destruct (py_gt y 65535) as [high|e0] eqn:G; cbn.
  2: { intros [= <-]. destruct y as [| |z|[q|n|]| |]; cbn in G; try discriminate; injection G as <-; auto. }
  destruct high; cbn; [intros [= <-]; auto|]. match goal with |- context[if ?b then _ else _] => destruct b end; intros X; [injection X as <-; auto|discriminate].
Qed.

Lemma normalize_idem inet d a u x : normalizeAddress inet d a u = Ok x -> normalizeAddress inet d (VTuple [fst x; snd x]) u = Ok x.
Proof.
  destruct x as [h' p']. intros H. apply normalize_spec in H as (ho & po & h & N & HF & I & -> & -> & R & Z).
  apply normalize_spec. exists (Some (VStr h)), (Some (port_for u po)). cbn [fst snd].
  destruct h as [|c h].
  - assert (L : listens u \/ ~ listens u) by (unfold listens; destruct u as [[]|]; auto; right; intros [|]; discriminate).
    destruct L as [L|L]; [exists []; repeat split; auto; constructor; auto|].
    assert (default_address d = []) as E.
    { inversion HF as [X|X|k]; auto. subst. destruct L. auto. }
    exists []. repeat split; auto. pose proof (HEmpty d u L) as X. rewrite E in X. exact X.
  - exists (c :: h). repeat split; auto. constructor. discriminate.
Qed.
