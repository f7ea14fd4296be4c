(** PrfTrans2.v -- proofs about the listener loop (C52, C57). *)
From Verif Require Import PrfBase.
From Verif Require Export SpecTrans.
Require Import Lia.
Open Scope Z_scope.

Lemma mux_run_app : forall a b s, mux_run s (a ++ b) =
  let '(s1, l1) := mux_run s a in let '(s2, l2) := mux_run s1 b in (s2, l1 ++ l2).
Proof.
  induction a as [|e a IH]; intros b s; cbn [mux_run app]; [destruct (mux_run s b); reflexivity|].
  destruct (mux_step s e) as [s0 l0]. rewrite IH. destruct (mux_run s0 a) as [s1 l1]. destruct (mux_run s1 b) as [s2 l2]. rewrite app_assoc. reflexivity.
Qed.
Lemma always_app P : forall a b s, always P s (a ++ b) <-> always P s a /\ always P (fst (mux_run s a)) b.
Proof.
  induction a as [|e a IH]; intros b s; cbn [app always mux_run]; [cbn; tauto|]. rewrite IH. destruct (mux_step s e) as [s0 l0]. cbn [fst].
  destruct (mux_run s0 a). cbn. tauto.
Qed.
Lemma arrived_app fd a b : arrived fd (a ++ b) = arrived fd a ++ arrived fd b.
Proof. induction a as [|y a IH]; cbn; [auto|]. destruct y; rewrite ?IH; auto. destruct (_ =? _); rewrite ?IH; auto. Qed.
Lemma heard_app fd a b : heard fd (a ++ b) = heard fd a ++ heard fd b.
Proof. induction a as [|y a IH]; cbn; [auto|]. destruct y; rewrite ?IH; auto. destruct (_ =? _); rewrite ?IH; auto. Qed.

(** One event, by cases; everything but the listener leaves the queues alone. *)
Lemma step_queue s e s' l fd : mux_step s e = (s', l) ->
  x_size s' = x_size s /\ map (cut (x_size s)) (x_queue s fd ++ arrived fd l) = heard fd l ++ map (cut (x_size s)) (x_queue s' fd).
Proof.
  destruct e; cbn [mux_step]; intros H.
  - destruct (x_caller s), (x_closed s); try (injection H as <- <-; cbn; rewrite app_nil_r; auto).
    destruct (x_thread s); injection H as <- <-; cbn; rewrite app_nil_r; auto.
  - destruct (x_caller s), (x_closed s); try (injection H as <- <-; cbn; rewrite app_nil_r; auto).
    destruct (x_thread s); injection H as <- <-; cbn; rewrite app_nil_r; auto.
  - destruct (finished s), (x_caller s); injection H as <- <-; cbn; rewrite app_nil_r; auto.
  - injection H as <- <-. cbn. unfold upd. rewrite (Z.eqb_sym fd fd0). destruct (fd0 =? fd) eqn:E; [|rewrite app_nil_r; auto].
    apply Z.eqb_eq in E. subst. auto.
  - destruct (x_kind s); injection H as <- <-; cbn; rewrite app_nil_r; auto.
  - destruct (x_phase s); injection H as <- <-; cbn; rewrite app_nil_r; auto.
  - unfold mux_next in H. destruct (x_phase s) as [| |[|f rest] dn|]; try (injection H as <- <-; cbn; rewrite app_nil_r; auto).
    + destruct dn; injection H as <- <-; cbn; rewrite app_nil_r; auto.
    + destruct (in_socks s f).
      * destruct err, (x_queue s f) as [|d q] eqn:Q; injection H as <- <-; cbn; try (rewrite app_nil_r; auto).
        split; [auto|]. unfold upd. rewrite (Z.eqb_sym fd f). destruct (f =? fd) eqn:E; [|auto]. apply Z.eqb_eq in E. subst. rewrite Q. auto.
      * destruct (f =? x_r s), (x_kind s); try destruct err; try destruct (x_ctl s);
          try match type of H with context[if ?b then [LRead] else []] => destruct b end; injection H as <- <-; cbn; rewrite app_nil_r; auto.
Qed.
Lemma run_queue fd : forall evs s s' l, mux_run s evs = (s', l) ->
  x_size s' = x_size s /\ map (cut (x_size s)) (x_queue s fd ++ arrived fd l) = heard fd l ++ map (cut (x_size s)) (x_queue s' fd).
Proof.
  induction evs as [|e evs IH]; intros s s' l H; cbn in H; [injection H as <- <-; cbn; rewrite app_nil_r; auto|].
  destruct (mux_step s e) as [s0 l0] eqn:S. destruct (mux_run s0 evs) as [s1 l1] eqn:R. injection H as <- <-.
  apply step_queue with (fd := fd) in S as [Z1 S]. apply IH in R as [Z2 R]. split; [congruence|]. rewrite Z1 in *.
  rewrite arrived_app, heard_app, map_app, map_app, <- app_assoc, <- R, map_app, app_assoc. rewrite app_assoc, <- map_app, S. reflexivity.
Qed.

(** ** Rounds and the stop signal *)
Definition ctl_stop (s : mux) (d : datagram) : bool :=
  match x_kind s with
  | Posix => true
  | Generic => ((dg_from d =? x_w s) && zlist_eqb (firstn (length STOPMSG) (dg_data d)) STOPMSG)%bool
  end.
(** Everything that does not change. *)
Lemma step_const s e s' l : mux_step s e = (s', l) -> x_kind s' = x_kind s /\ x_r s' = x_r s /\ x_w s' = x_w s.
Proof.
  destruct e; cbn [mux_step]; intros H.
  - destruct (x_caller s), (x_closed s); try (injection H as <- <-; auto); destruct (x_thread s); injection H as <- <-; auto.
  - destruct (x_caller s), (x_closed s); try (injection H as <- <-; auto); destruct (x_thread s); injection H as <- <-; auto.
  - destruct (finished s), (x_caller s); injection H as <- <-; auto.
  - injection H as <- <-. auto.
  - destruct (x_kind s) eqn:K; injection H as <- <-; auto.
  - destruct (x_phase s); injection H as <- <-; auto.
  - unfold mux_next in H. destruct (x_phase s) as [| |[|f rest] dn|]; try (injection H as <- <-; auto).
    + destruct dn; injection H as <- <-; auto.
    + destruct (in_socks s f).
      * destruct err, (x_queue s f) as [|d q]; injection H as <- <-; auto.
      * destruct (f =? x_r s), (x_kind s) eqn:K; try destruct err; try destruct (x_ctl s); injection H as <- <-; auto.
Qed.

(** The last round in the log (oldest first): nothing but what the round did. *)
Definition told (s : mux) (l : list muxlog) : Prop :=
  exists l1 ready l2, l = l1 ++ LPolled ready :: l2 /\ In (x_r s) ready /\ In LRead l2 /\ number is_polled l2 = 0%nat /\ number is_returned l2 = 0%nat.
Definition inround (s : mux) (rest : list Z) (l : list muxlog) : Prop :=
  exists l1 ready l2, l = l1 ++ LPolled ready :: l2 /\ incl rest ready /\ number is_polled l2 = 0%nat /\ number is_returned l2 = 0%nat.
Definition RInv (s : mux) (l : list muxlog) : Prop :=
  match x_phase s with
  | PRound rest done => inround s rest l /\ (done = true -> told s l)
  | _ => True
  end.
Lemma number_app f a b : number f (a ++ b) = (number f a + number f b)%nat.
Proof. unfold number. rewrite filter_app, app_length. reflexivity. Qed.
Lemma told_app s s' l y : x_r s' = x_r s -> number is_polled y = 0%nat -> number is_returned y = 0%nat -> told s l -> told s' (l ++ y).
Proof.
  intros R P T (l1 & ready & l2 & -> & A & B & C & D). exists l1, ready, (l2 ++ y). rewrite <- app_assoc, !number_app, R. cbn.
  repeat split; auto; try lia. apply in_or_app. auto.
Qed.
Lemma inround_app s s' rest rest' l y : incl rest' rest -> number is_polled y = 0%nat -> number is_returned y = 0%nat -> inround s rest l -> inround s' rest' (l ++ y).
Proof.
  intros R P T (l1 & ready & l2 & -> & A & B & C). exists l1, ready, (l2 ++ y). rewrite <- app_assoc, !number_app. cbn.
  repeat split; auto; try lia. intros x X. auto.
Qed.
Lemma rinv_same s s' l y : x_r s' = x_r s -> x_phase s' = x_phase s -> number is_polled y = 0%nat -> number is_returned y = 0%nat -> RInv s l -> RInv s' (l ++ y).
Proof.
  unfold RInv. intros R P A B. rewrite P. destruct (x_phase s); auto. intros [I T]. split.
  - eapply inround_app; eauto. apply incl_refl.
  - intros D. eapply told_app; eauto.
Qed.
Lemma rinv_step s e s' y l : mux_step s e = (s', y) -> RInv s l -> RInv s' (l ++ y).
Proof.
  intros H R. pose proof (step_const _ _ _ _ H) as (K & XR & W). destruct e; cbn [mux_step] in H.
  - destruct (x_caller s), (x_closed s); try (injection H as <- <-; eapply rinv_same; eauto; fail).
    destruct (x_thread s); injection H as <- <-; [eapply rinv_same; eauto|]. exact Logic.I.
  - destruct (x_caller s), (x_closed s); try (injection H as <- <-; eapply rinv_same; eauto; fail).
    destruct (x_thread s); injection H as <- <-; eapply rinv_same; eauto.
  - destruct (finished s), (x_caller s); injection H as <- <-; try (eapply rinv_same; eauto; fail). exact Logic.I.
  - injection H as <- <-. eapply rinv_same; eauto.
  - destruct (x_kind s); injection H as <- <-; eapply rinv_same; eauto.
  - destruct (x_phase s) eqn:P; injection H as <- <-; try (rewrite app_nil_r; auto; fail). unfold RInv. cbn. split; [|discriminate].
    exists l, ready, []. repeat split; auto. apply incl_refl.
  - unfold mux_next in H. destruct (x_phase s) as [| |[|f rest] dn|] eqn:P; try (injection H as <- <-; rewrite app_nil_r; auto; fail).
    + destruct dn; injection H as <- <-; exact Logic.I.
    + unfold RInv in R. rewrite P in R. destruct R as [I T].
      assert (G : forall st dn' y, number is_polled y = 0%nat -> number is_returned y = 0%nat -> x_r st = x_r s -> x_phase st = PRound rest dn' ->
        (dn' = true -> dn = true \/ f = x_r s /\ In LRead y) -> RInv st (l ++ y)).
      { intros st dn' y' A B C D E. unfold RInv. rewrite D. split; [eapply inround_app; eauto; intros x X; right; exact X|].
        intros X. apply E in X as [X|[X X2]]; [eapply told_app; eauto|]. destruct I as (l1 & ready & l2 & -> & I & I1 & I2).
        exists l1, ready, (l2 ++ y'). rewrite <- app_assoc, !number_app, C. cbn. repeat split; auto; try lia; [|apply in_or_app; auto].
        rewrite <- X. apply I. left. reflexivity. }
      destruct (in_socks s f).
      * destruct err, (x_queue s f) as [|d q]; injection H as <- <-; try exact Logic.I. eapply G; try reflexivity. auto.
      * destruct (f =? x_r s) eqn:F.
        -- apply Z.eqb_eq in F. destruct (x_kind s) eqn:KK.
           ++ destruct (x_ctl s); injection H as <- <-; [rewrite app_nil_r; unfold RInv; rewrite P; auto|].
              eapply G; try reflexivity. intros _. right. cbn. auto.
           ++ destruct err, (x_ctl s) as [|d c]; injection H as <- <-; try exact Logic.I.
              set (b := (_ && _)%bool). eapply (G _ b); try (destruct b; reflexivity). intros ->. right. cbn. auto.
        -- injection H as <- <-. eapply G; try reflexivity. auto.
Qed.
Lemma rinv_run : forall evs s s' l y, mux_run s evs = (s', y) -> RInv s l -> RInv s' (l ++ y).
Proof.
  induction evs as [|e evs IH]; intros s s' l y H R; cbn in H; [injection H as <- <-; rewrite app_nil_r; auto|].
  destruct (mux_step s e) as [s0 l0] eqn:S. destruct (mux_run s0 evs) as [s1 l1] eqn:T. injection H as <- <-.
  rewrite app_assoc. eapply IH; eauto. eapply rinv_step; eauto.
Qed.

(** The number of stop messages: those in the channel and those read are those sent. *)
Definition stops_in (s : mux) : nat := length (filter (ctl_stop s) (x_ctl s)).
Lemma stop_is s c : ctl_stop s (mkDgram (x_w s) [0]) = true -> length (filter (ctl_stop s) (c ++ [mkDgram (x_w s) [0]])) = S (length (filter (ctl_stop s) c)).
Proof. intros H. rewrite filter_app, app_length. cbn. rewrite H. cbn. lia. Qed.
Lemma own_stop s : ctl_stop s (mkDgram (x_w s) [0]) = true.
Proof. unfold ctl_stop. destruct (x_kind s); cbn; [auto|]. rewrite Z.eqb_refl. reflexivity. Qed.
Lemma filter_same {A} (f g : A -> bool) l : (forall x, f x = g x) -> filter f l = filter g l.
Proof. intros H. induction l as [|a l IH]; cbn; [auto|]. rewrite H, IH. reflexivity. Qed.
Lemma ctl_stop_const s s' d : x_kind s' = x_kind s -> x_w s' = x_w s -> ctl_stop s' d = ctl_stop s d.
Proof. unfold ctl_stop. intros -> ->. reflexivity. Qed.
Lemma stops_step s e s' y : event_ok s e -> mux_step s e = (s', y) ->
  (stops_in s + number is_stop y = stops_in s' + number is_read y)%nat.
Proof.
  intros EO H. pose proof (step_const _ _ _ _ H) as (K & XR & W).
  assert (SI : stops_in s' = length (filter (ctl_stop s) (x_ctl s'))) by (unfold stops_in; f_equal; apply filter_same; intros; apply ctl_stop_const; auto).
  rewrite SI. unfold stops_in. pose proof (stop_is s (x_ctl s) (own_stop s)) as OS.
  destruct e; cbn [mux_step] in H.
  - destruct (x_caller s), (x_closed s); try (injection H as <- <-; cbn; lia).
    destruct (x_thread s); injection H as <- <-; cbn; [rewrite OS|]; lia.
  - destruct (x_caller s), (x_closed s); try (injection H as <- <-; cbn; lia).
    destruct (x_thread s); injection H as <- <-; cbn; [rewrite OS|]; lia.
  - destruct (finished s), (x_caller s); injection H as <- <-; cbn; lia.
  - injection H as <- <-; cbn; lia.
  - destruct (x_kind s) eqn:KK; injection H as <- <-; cbn; [lia|]. rewrite filter_app, app_length. cbn in *.
    assert (ctl_stop s d = false) as ->; [|cbn; lia]. unfold ctl_stop. rewrite KK. apply Z.eqb_neq in EO. rewrite EO. reflexivity.
  - destruct (x_phase s); injection H as <- <-; cbn; lia.
  - unfold mux_next in H. destruct (x_phase s) as [| |[|f rest] dn|]; try (injection H as <- <-; cbn; lia).
    + destruct dn; injection H as <- <-; cbn; lia.
    + destruct (in_socks s f).
      * destruct err, (x_queue s f) as [|d q]; injection H as <- <-; cbn; lia.
      * destruct (f =? x_r s); [|injection H as <- <-; cbn; lia].
        destruct (x_kind s) eqn:KK.
        -- destruct (x_ctl s) as [|d c] eqn:C; injection H as <- <-; rewrite ?C; cbn; [lia|].
           assert (ctl_stop s d = true) as -> by (unfold ctl_stop; rewrite KK; reflexivity). cbn. lia.
        -- destruct err, (x_ctl s) as [|d c] eqn:C; injection H as <- <-; cbn [x_ctl set_phase set_ctl]; rewrite ?C; cbn [filter]; try (cbn; lia).
           unfold ctl_stop at 1. rewrite KK. destruct (_ && _)%bool; cbn; lia.
Qed.
Lemma stops_run : forall evs s s' y, always event_ok s evs -> mux_run s evs = (s', y) ->
  (stops_in s + number is_stop y = stops_in s' + number is_read y)%nat.
Proof.
  induction evs as [|e evs IH]; intros s s' y A H; cbn in H; [injection H as <- <-; cbn; lia|].
  destruct (mux_step s e) as [s0 l0] eqn:S. destruct (mux_run s0 evs) as [s1 l1] eqn:T. injection H as <- <-.
  destruct A as [A1 A2]. rewrite S in A2. cbn [fst] in A2. pose proof (stops_step _ _ _ _ A1 S). pose proof (IH _ _ _ A2 T). rewrite !number_app. lia.
Qed.

(** ** At most one more poll after stop() *)
(** Position of the first stop message in the control channel. *)
Fixpoint first_stop (f : datagram -> bool) (c : list datagram) : option nat :=
  match c with [] => None | d :: c => if f d then Some 0%nat else option_map S (first_stop f c) end.
Definition round_ok (s : mux) : Prop :=
  (~ In (x_r s) (x_socks s) /\ (x_thread s = false -> finished s = true)) /\
  match x_phase s with PRound rest done => NoDup rest /\ (done = true -> ~ In (x_r s) rest) | _ => True end.
Lemma in_socks_iff s fd : in_socks s fd = true <-> In fd (x_socks s).
Proof. unfold in_socks. rewrite existsb_exists. split; [intros (x & I & E); apply Z.eqb_eq in E; congruence|intros I; exists fd; split; [auto|apply Z.eqb_refl]]. Qed.
Lemma round_step s e s' y : event_ok s e -> mux_step s e = (s', y) -> (forall fd, x_caller s = CConnect fd -> fd <> x_r s) -> round_ok s ->
  round_ok s' /\ (forall fd, x_caller s' = CConnect fd -> fd <> x_r s').
Proof.
  intros EO H CC [[NR TF] RO]. pose proof (step_const _ _ _ _ H) as (K & XR & W). unfold round_ok. rewrite XR.
  assert (REG : forall fd, fd <> x_r s -> ~ In (x_r s) (x_socks (mux_register s fd))).
  { intros fd N. cbn. destruct (in_socks s fd); [exact NR|]. intros X. apply in_app_or in X as [X|[X|[]]]; auto. }
  destruct e; cbn [mux_step] in H.
  - destruct (x_caller s) eqn:C, (x_closed s); try (injection H as <- <-; rewrite ?C; auto; fail).
    destruct (x_thread s) eqn:T; injection H as <- <-; cbn.
    + split; [split; [split; [auto|congruence]|auto]|]. intros ? [= <-]. exact EO.
    + split; [|discriminate]. split; [|auto]. split; [apply REG, EO|discriminate].
  - destruct (x_caller s) eqn:C, (x_closed s); try (injection H as <- <-; rewrite ?C; auto; fail).
    destruct (x_thread s) eqn:T; injection H as <- <-; cbn; (split; [|discriminate]); (split; [|auto]); split; auto. congruence.
  - destruct (finished s) eqn:F; [|injection H as <- <-; rewrite F; auto]. destruct (x_caller s) eqn:C; injection H as <- <-; cbn.
    + rewrite F, C. auto.
    + split; [|discriminate]. split; [|auto]. split; [apply REG; auto|discriminate].
    + split; [|discriminate]. auto.
  - injection H as <- <-. auto.
  - destruct (x_kind s); injection H as <- <-; auto.
  - destruct EO as (ND & _ & _). destruct (x_phase s) eqn:P; injection H as <- <-; cbn; rewrite ?P; auto.
    split; [|auto]. split; [split|split]; auto; try discriminate. intros T. apply TF in T. unfold finished in T. rewrite P in T. discriminate.
  - unfold mux_next in H. destruct (x_phase s) as [| |[|f rest] dn|] eqn:P; try (injection H as <- <-; rewrite ?P; auto; fail).
    + assert (T : x_thread s = true) by (destruct (x_thread s); [auto|specialize (TF eq_refl); unfold finished in TF; rewrite P in TF; discriminate]).
      destruct dn; injection H as <- <-; cbn; (split; [|auto]); (split; [|auto]); split; auto; congruence.
    + assert (T : x_thread s = true) by (destruct (x_thread s); [auto|specialize (TF eq_refl); unfold finished in TF; rewrite P in TF; discriminate]).
      destruct RO as [RO RD]. assert (ND : NoDup rest /\ ~ In f rest) by (inversion RO; auto). destruct ND as [ND NI].
      assert (KD : exists d, PRound rest dn = PRound rest d /\ (d = true -> ~ In (x_r s) rest)) by (exists dn; split; [auto|]; intros X Y; apply (RD X); right; exact Y).
      assert (G : forall st, x_socks st = x_socks s -> x_thread st = x_thread s -> x_caller st = x_caller s -> x_r st = x_r s ->
        (exists d, x_phase st = PRound rest d /\ (d = true -> ~ In (x_r s) rest)) \/ x_phase st = PDied OSError ->
        ((~ In (x_r s) (x_socks st) /\ (x_thread st = false -> finished st = true)) /\ match x_phase st with PRound r d => NoDup r /\ (d = true -> ~ In (x_r s) r) | _ => True end) /\ (forall fd, x_caller st = CConnect fd -> fd <> x_r s)).
      { intros st -> -> -> _ PP. split; [|auto]. split; [split; [auto|congruence]|]. destruct PP as [(d & -> & DD)| ->]; auto. }
      destruct (in_socks s f).
      * destruct err, (x_queue s f) as [|d q]; injection H as <- <-; apply G; cbn; auto.
      * destruct (f =? x_r s) eqn:F; [|injection H as <- <-; apply G; cbn; auto]. apply Z.eqb_eq in F. rewrite F in NI.
        destruct (x_kind s); try destruct err; try destruct (x_ctl s); injection H as <- <-; try (apply G; cbn; eauto; fail).
        all: rewrite ?P; (split; [|auto]); (split; [|auto]); split; auto.
Qed.

(** The number of polls still possible before the thread ends. *)
Definition polls_left (s : mux) (pos : nat) : nat :=
  match x_phase s with
  | PRound rest true => 0
  | PRound rest false => if existsb (Z.eqb (x_r s)) rest then pos else S pos
  | _ => S pos
  end.
Definition is_end (y : muxlog) : bool := match y with LReturned | LDied _ => true | _ => false end.
(** A stop message is in the channel, or has been read in this round. *)
Definition pending (s : mux) (n : nat) : Prop :=
  match x_phase s with
  | PRound rest true => ~ In (x_r s) rest
  | _ => exists pos, first_stop (ctl_stop s) (x_ctl s) = Some pos /\ (polls_left s pos <= n)%nat
  end.
Lemma first_app f c d pos : first_stop f c = Some pos -> first_stop f (c ++ d) = Some pos.
Proof.
  revert pos. induction c as [|x c IH]; cbn; intros pos H; [discriminate|]. destruct (f x); auto. destruct (first_stop f c); cbn in *; [|discriminate].
  rewrite (IH n eq_refl). exact H.
Qed.
Lemma first_same f g c : (forall d, f d = g d) -> first_stop f c = first_stop g c.
Proof. intros H. induction c as [|x c IH]; cbn; [auto|]. rewrite H, IH. reflexivity. Qed.
Lemma pending_same s s' n ex : x_kind s' = x_kind s -> x_r s' = x_r s -> x_w s' = x_w s -> x_phase s' = x_phase s -> x_ctl s' = x_ctl s ++ ex ->
  pending s n -> pending s' n.
Proof.
  intros K R W P C. unfold pending, polls_left. rewrite P, R, C, (first_same (ctl_stop s') (ctl_stop s)) by (intros; apply ctl_stop_const; auto).
  destruct (x_phase s) as [| |rest [|]|]; auto; intros (pos & A & B); exists pos; (split; [apply first_app; auto|auto]).
Qed.
Lemma ex_in r l : existsb (Z.eqb r) l = true <-> In r l.
Proof. rewrite existsb_exists. split; [intros (x & I & E); apply Z.eqb_eq in E; congruence|intros I; exists r; split; [auto|apply Z.eqb_refl]]. Qed.
Lemma pending_step s e s' y n : event_ok s e -> mux_step s e = (s', y) -> (forall fd, x_caller s = CConnect fd -> fd <> x_r s) -> round_ok s ->
  pending s n -> existsb is_end y = false -> exists n', pending s' n' /\ (number is_polled y + n' <= n)%nat.
Proof.
  intros EO H CC [[NR TF] RO] PE NE. pose proof (step_const _ _ _ _ H) as (K & XR & W).
  assert (SAME : forall ex, number is_polled y = 0%nat -> x_phase s' = x_phase s -> x_ctl s' = x_ctl s ++ ex -> exists n', pending s' n' /\ (number is_polled y + n' <= n)%nat).
  { intros ex -> P C. exists n. split; [eapply pending_same; eauto|lia]. }
  assert (START : finished s = true -> number is_polled y = 0%nat -> x_phase s' = PPoll -> x_ctl s' = x_ctl s -> exists n', pending s' n' /\ (number is_polled y + n' <= n)%nat).
  { intros NRD -> P C. exists n. split; [|lia]. unfold pending, polls_left, finished in *. rewrite P, C, (first_same (ctl_stop s') (ctl_stop s)) by (intros; apply ctl_stop_const; auto).
    destruct (x_phase s); auto. discriminate. }
  destruct e; cbn [mux_step] in H.
  - destruct (x_caller s), (x_closed s); try (injection H as <- <-; apply (SAME []); cbn; rewrite ?app_nil_r; auto; fail).
    destruct (x_thread s); injection H as <- <-; [eapply SAME; cbn; eauto|]. apply START; cbn; auto.
  - destruct (x_caller s), (x_closed s); try (injection H as <- <-; apply (SAME []); cbn; rewrite ?app_nil_r; auto; fail).
    destruct (x_thread s); injection H as <- <-; [eapply SAME; cbn; eauto|apply (SAME []); cbn; rewrite ?app_nil_r; auto].
  - destruct (finished s) eqn:F, (x_caller s); injection H as <- <-; try (apply (SAME []); cbn; rewrite ?app_nil_r; auto; fail). apply START; cbn; auto.
  - injection H as <- <-. apply (SAME []); cbn; rewrite ?app_nil_r; auto.
  - destruct (x_kind s); injection H as <- <-; [apply (SAME []); cbn; rewrite ?app_nil_r; auto|eapply SAME; cbn; eauto].
  - destruct EO as (ND & IR & _). unfold pending, polls_left in PE. destruct (x_phase s) eqn:P; injection H as <- <-; try (apply (SAME []); cbn; rewrite ?app_nil_r; auto; fail).
    destruct PE as (pos & F & B). exists (n - 1)%nat. split; [|cbn; lia]. unfold pending, polls_left. cbn.
    exists pos. split; [exact F|]. assert (existsb (Z.eqb (x_r s)) ready = true) as ->; [|lia]. apply ex_in, IR. intros E. rewrite E in F. discriminate.
  - unfold mux_next in H. destruct (x_phase s) as [| |[|f rest] dn|] eqn:P; try (injection H as <- <-; apply (SAME []); cbn; rewrite ?app_nil_r; auto; fail).
    + destruct dn; injection H as <- <-; [discriminate NE|]. exists n. split; [|cbn; lia]. unfold pending, polls_left in *. rewrite P in PE. exact PE.
    + destruct RO as [RO RD]. assert (ND : NoDup rest /\ ~ In f rest) by (inversion RO; auto). destruct ND as [ND NI].
      assert (KEEP : f <> x_r s -> number is_polled y = 0%nat -> x_ctl s' = x_ctl s -> x_phase s' = PRound rest dn -> exists n', pending s' n' /\ (number is_polled y + n' <= n)%nat).
      { intros NF -> C P'. exists n. split; [|lia]. unfold pending, polls_left in *. rewrite P in PE. rewrite P', C, XR, (first_same (ctl_stop s') (ctl_stop s)) by (intros; apply ctl_stop_const; auto).
        destruct dn; [intros X; apply PE; right; exact X|]. cbn [existsb] in PE. assert (x_r s =? f = false) as E by lia. rewrite E in PE. exact PE. }
      destruct (in_socks s f) eqn:IS.
      * assert (f <> x_r s) by (intros ->; apply in_socks_iff in IS; auto).
        destruct err, (x_queue s f) as [|d q]; injection H as <- <-; try discriminate NE. apply KEEP; auto.
      * destruct (f =? x_r s) eqn:F.
        -- apply Z.eqb_eq in F. unfold pending, polls_left in PE. rewrite P in PE.
           assert (exists pos, first_stop (ctl_stop s) (x_ctl s) = Some pos /\ (pos <= n)%nat /\ dn = false) as (pos & FS & B & DN).
           { destruct dn; [destruct PE; left; auto|]. destruct PE as (pos & A & B). exists pos. cbn [existsb] in B. rewrite F, Z.eqb_refl in B. auto. }
           destruct (x_ctl s) as [|d c] eqn:CT; [discriminate|]. cbn in FS.
           assert (DONE : ctl_stop s d = true -> number is_polled y = 0%nat -> x_phase s' = PRound rest true -> exists n', pending s' n' /\ (number is_polled y + n' <= n)%nat).
           { intros _ -> P'. exists n. split; [|lia]. unfold pending. rewrite P', XR, <- F. exact NI. }
           destruct (x_kind s) eqn:KK.
           ++ injection H as <- <-. apply DONE; auto. unfold ctl_stop. rewrite KK. reflexivity.
           ++ destruct err; [injection H as <- <-; discriminate NE|]. unfold ctl_stop at 1 in FS. rewrite KK in FS.
              destruct (_ && _)%bool eqn:ST; injection H as <- <-.
              ** apply DONE; auto. unfold ctl_stop. rewrite KK. exact ST.
              ** exists n. split; [|cbn; lia]. unfold pending, polls_left. cbn. destruct (first_stop (ctl_stop s) c) as [p|] eqn:FC; [|discriminate].
                 cbn in FS. injection FS as <-. exists p. split.
                 --- rewrite <- FC. apply first_same. intros; apply ctl_stop_const; auto.
                 --- destruct (existsb _ rest); lia.
        -- injection H as <- <-. apply KEEP; auto. lia.
Qed.
Lemma pending_run : forall evs s s' y n, always event_ok s evs -> mux_run s evs = (s', y) -> (forall fd, x_caller s = CConnect fd -> fd <> x_r s) -> round_ok s ->
  pending s n -> existsb is_end y = false -> (number is_polled y <= n)%nat.
Proof.
  induction evs as [|e evs IH]; intros s s' y n A H CC RO PE NE; cbn in H; [injection H as <- <-; cbn; lia|].
  destruct (mux_step s e) as [s0 l0] eqn:S. destruct (mux_run s0 evs) as [s1 l1] eqn:T. injection H as <- <-.
  destruct A as [A1 A2]. rewrite S in A2. cbn [fst] in A2. rewrite existsb_app in NE. apply Bool.orb_false_elim in NE as [N1 N2].
  destruct (pending_step _ _ _ _ n A1 S CC RO PE N1) as (n' & PE' & B). destruct (round_step _ _ _ _ A1 S CC RO) as [RO' CC'].
  pose proof (IH _ _ _ n' A2 T CC' RO' PE' N2). rewrite number_app. lia.
Qed.
Lemma round_run : forall evs s s' y, always event_ok s evs -> mux_run s evs = (s', y) -> (forall fd, x_caller s = CConnect fd -> fd <> x_r s) -> round_ok s ->
  round_ok s' /\ (forall fd, x_caller s' = CConnect fd -> fd <> x_r s').
Proof.
  induction evs as [|e evs IH]; intros s s' y A H CC RO; cbn in H; [injection H as <- <-; auto|].
  destruct (mux_step s e) as [s0 l0] eqn:S. destruct (mux_run s0 evs) as [s1 l1] eqn:T. injection H as <- <-.
  destruct A as [A1 A2]. rewrite S in A2. destruct (round_step _ _ _ _ A1 S CC RO) as [RO' CC']. eapply IH; eauto.
Qed.
Lemma round_new k size r w : round_ok (mux_new k size r w) /\ (forall fd, x_caller (mux_new k size r w) = CConnect fd -> fd <> r).
Proof. split; [|discriminate]. split; [|exact Logic.I]. split; [intros []|auto]. Qed.

(** How many messages that are not ours are in front of the first stop message. *)
Definition strays_in (s : mux) : nat := length (filter (fun d => negb (ctl_stop s d)) (x_ctl s)).
Lemma strays_step s e s' y : mux_step s e = (s', y) -> (strays_in s' <= strays_in s + number is_stray y)%nat.
Proof.
  intros H. pose proof (step_const _ _ _ _ H) as (K & XR & W).
  assert (SI : strays_in s' = length (filter (fun d => negb (ctl_stop s d)) (x_ctl s'))) by (unfold strays_in; f_equal; apply filter_same; intros; f_equal; apply ctl_stop_const; auto).
  rewrite SI. unfold strays_in. pose proof (own_stop s) as OS.
  destruct e; cbn [mux_step] in H.
  - destruct (x_caller s), (x_closed s); try (injection H as <- <-; cbn; lia).
    destruct (x_thread s); injection H as <- <-; cbn; rewrite ?filter_app, ?app_length; cbn; rewrite ?OS; cbn; lia.
  - destruct (x_caller s), (x_closed s); try (injection H as <- <-; cbn; lia).
    destruct (x_thread s); injection H as <- <-; cbn; rewrite ?filter_app, ?app_length; cbn; rewrite ?OS; cbn; lia.
  - destruct (finished s), (x_caller s); injection H as <- <-; cbn; lia.
  - injection H as <- <-; cbn; lia.
  - destruct (x_kind s) eqn:KK; injection H as <- <-; cbn; [lia|]. rewrite filter_app, app_length. cbn. destruct (negb _); cbn; lia.
  - destruct (x_phase s); injection H as <- <-; cbn; lia.
  - assert (forall d c, (length (filter (fun d => negb (ctl_stop s d)) c) <= length (filter (fun d => negb (ctl_stop s d)) (d :: c)))%nat) as L by (intros d c; cbn; destruct (negb _); cbn; lia).
    unfold mux_next in H. destruct (x_phase s) as [| |[|f rest] dn|]; try (injection H as <- <-; cbn; lia).
    + destruct dn; injection H as <- <-; cbn; lia.
    + destruct (in_socks s f).
      * destruct err, (x_queue s f) as [|d q]; injection H as <- <-; cbn; lia.
      * destruct (f =? x_r s); [|injection H as <- <-; cbn; lia].
        destruct (x_kind s) eqn:KK; [|destruct err]; destruct (x_ctl s) as [|d c] eqn:C; injection H as <- <-; cbn [x_ctl set_phase set_ctl]; rewrite ?C; try lia; etransitivity; try apply (L d c); lia.
Qed.
Lemma strays_run : forall evs s s' y, mux_run s evs = (s', y) -> (strays_in s' <= strays_in s + number is_stray y)%nat.
Proof.
  induction evs as [|e evs IH]; intros s s' y H; cbn in H; [injection H as <- <-; cbn; lia|].
  destruct (mux_step s e) as [s0 l0] eqn:S. destruct (mux_run s0 evs) as [s1 l1] eqn:T. injection H as <- <-.
  apply strays_step in S. apply IH in T. rewrite number_app. lia.
Qed.
Lemma first_bound f c : existsb f c = true -> exists pos, first_stop f c = Some pos /\ (pos <= length (filter (fun d => negb (f d)) c))%nat.
Proof.
  induction c as [|d c IH]; cbn; [discriminate|]. destruct (f d); cbn; [exists 0%nat; split; [auto|lia]|]. intros H. destruct (IH H) as (p & -> & B). exists (S p). cbn. split; [auto|lia].
Qed.

Lemma polls_after_stop k size r w evs1 s1 l1 e s2 evs2 s3 l2 : os_ok k size r w (evs1 ++ e :: evs2) ->
  mux_history k size r w evs1 s1 l1 -> mux_step s1 e = (s2, [LStop]) -> mux_run s2 evs2 = (s3, l2) ->
  existsb is_end l2 = false -> (number is_polled l2 <= 1 + number is_stray l1)%nat.
Proof.
  intros OK H1 ST H2 NE. unfold os_ok in OK. apply always_app in OK as [O1 O2]. unfold mux_history in H1. rewrite H1 in O2. cbn [fst always] in O2. destruct O2 as [OE O2].
  rewrite ST in O2. cbn [fst] in O2. destruct (round_new k size r w) as [RO CC].
  destruct (round_run _ _ _ _ O1 H1 CC RO) as [RO1 CC1]. destruct (round_step _ _ _ _ OE ST CC1 RO1) as [RO2 CC2].
  pose proof (strays_run _ _ _ _ H1) as SB. cbn in SB.
  pose proof (strays_step _ _ _ _ ST) as SB2. cbn in SB2.
  eapply pending_run; eauto. unfold pending.
  (* a stop message is in the channel *)
  assert (EX : existsb (ctl_stop s2) (x_ctl s2) = true).
  { pose proof (step_const _ _ _ _ ST) as (K & R & W).
    assert (x_ctl s2 = x_ctl s1 ++ [mkDgram (x_w s1) [0]]) as ->.
    { destruct e; cbn [mux_step] in ST.
      - destruct (x_caller s1), (x_closed s1); try discriminate; destruct (x_thread s1); try discriminate; injection ST as <-; reflexivity.
      - destruct (x_caller s1), (x_closed s1); try discriminate; destruct (x_thread s1); try discriminate; injection ST as <-; reflexivity.
      - destruct (finished s1), (x_caller s1); discriminate.
      - discriminate.
      - destruct (x_kind s1); discriminate.
      - destruct (x_phase s1); discriminate.
      - unfold mux_next in ST. destruct (x_phase s1) as [| |[|f rest] dn|]; try discriminate; [destruct dn; discriminate|].
        destruct (in_socks s1 f); [destruct err, (x_queue s1 f); discriminate|].
        destruct (f =? x_r s1), (x_kind s1); try destruct err; try destruct (x_ctl s1); try discriminate; destruct (_ && _)%bool; discriminate. }
    rewrite existsb_app. cbn. rewrite (ctl_stop_const s1 s2), own_stop by auto. cbn. rewrite Bool.orb_true_r. reflexivity. }
  destruct (first_bound _ _ EX) as (pos & FS & B). fold (strays_in s2) in B.
  assert (X : (polls_left s2 pos <= 1 + number is_stray l1)%nat) by (unfold polls_left; destruct (x_phase s2) as [| |rest [|]|]; try destruct (existsb _ rest); lia).
  destruct (x_phase s2) as [| |rest [|]|] eqn:P; eauto.
  destruct RO2 as [_ RO2]. rewrite P in RO2. apply RO2. reflexivity.
Qed.
