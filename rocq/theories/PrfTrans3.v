(** PrfTrans3.v -- the listener when no receive fails (C52, C57). *)
From Verif Require Import PrfBase.
From Verif Require Export PrfTrans2.
Require Import Lia.
Open Scope Z_scope.

Definition running (p : phase) : Prop := p = PPoll \/ exists rest, p = PRound rest false.
Definition leaving (p : phase) : Prop := p = POff \/ exists rest, p = PRound rest true.
Definition JInv (s : mux) : Prop :=
  match x_phase s with
  | PRound rest d => (forall fd, In fd rest -> fd <> x_r s -> x_queue s fd <> [] /\ In fd (x_socks s)) /\ (In (x_r s) rest -> x_ctl s <> [])
  | PDied _ => False
  | _ => True
  end /\
  match x_caller s with
  | CIdle => stops_in s = 0%nat /\ (if x_thread s then running (x_phase s) else x_phase s = POff)
  | _ => x_thread s = true /\ (stops_in s = 1%nat /\ running (x_phase s) \/ stops_in s = 0%nat /\ leaving (x_phase s))
  end.
Lemma j_new k size r w : JInv (mux_new k size r w).
Proof. split; cbn; auto. Qed.
Lemma finished_leaving s : JInv s -> finished s = true -> x_phase s = POff.
Proof. intros [A _] F. unfold finished in F. destruct (x_phase s); auto; try discriminate. contradiction. Qed.

Lemma j_step s e s' y : event_ok s e -> no_error s e -> mux_step s e = (s', y) -> (forall fd, x_caller s = CConnect fd -> fd <> x_r s) -> round_ok s ->
  JInv s -> JInv s'.
Proof.
  intros EO NO H CC [[NR TF] RO] J. pose proof J as [Q C]. pose proof (step_const _ _ _ _ H) as (K & XR & W). pose proof (stops_step _ _ _ _ EO H) as SS.
  (* nothing but additions to the queues *)
  assert (MORE : x_phase s' = x_phase s -> x_socks s' = x_socks s -> (forall fd, x_queue s fd <> [] -> x_queue s' fd <> []) -> (x_ctl s <> [] -> x_ctl s' <> []) ->
    match x_phase s' with
    | PRound rest d => (forall fd, In fd rest -> fd <> x_r s' -> x_queue s' fd <> [] /\ In fd (x_socks s')) /\ (In (x_r s') rest -> x_ctl s' <> [])
    | PDied _ => False | _ => True end).
  { intros -> -> QQ CT. destruct (x_phase s); auto. destruct Q as [Q1 Q2]. rewrite XR. split; auto. intros fd I N. destruct (Q1 fd I N). auto. }
  assert (STAY : s' = s -> JInv s') by (intros ->; exact J).
  destruct e; cbn [mux_step] in H.
  - destruct (x_caller s) eqn:CL, (x_closed s); try (injection H as <- <-; apply STAY; reflexivity).
    destruct (x_thread s) eqn:T; injection H as <- <-; cbn in SS.
    + split; [apply MORE; cbn; auto; intros _ X; apply app_eq_nil in X as [_ X]; discriminate|]. cbn. split; [exact T|]. left.
      destruct C as [C1 C2]. split; [lia|exact C2].
    + split; [exact Logic.I|]. cbn. destruct C as [C1 C2]. split; [lia|]. left. reflexivity.
  - destruct (x_caller s) eqn:CL, (x_closed s); try (injection H as <- <-; apply STAY; reflexivity).
    destruct (x_thread s) eqn:T; injection H as <- <-; cbn in SS.
    + split; [apply MORE; cbn; auto; intros _ X; apply app_eq_nil in X as [_ X]; discriminate|]. cbn. split; [exact T|]. left.
      destruct C as [C1 C2]. split; [lia|exact C2].
    + split; [apply MORE; cbn; auto|]. cbn. destruct C as [C1 C2]. split; [lia|exact C2].
  - destruct (finished s) eqn:F; [|injection H as <- <-; apply STAY; reflexivity]. pose proof (finished_leaving _ J F) as P.
    destruct (x_caller s) eqn:CL; injection H as <- <-; [apply STAY; reflexivity| |].
    + assert (Z0 : stops_in s = 0%nat).
      { destruct C as [_ [[_ [C|(? & C)]]|[C _]]]; try congruence; auto. }
      split; [exact Logic.I|]. cbn in SS. cbn. split; [lia|]. left. reflexivity.
    + assert (Z0 : stops_in s = 0%nat).
      { destruct C as [_ [[_ [C|(? & C)]]|[C _]]]; try congruence; auto. }
      split; [cbn; rewrite P; exact Logic.I|]. cbn in SS. cbn. split; [lia|exact P].
  - injection H as <- <-. cbn in SS. split.
    + apply MORE; cbn; auto. intros f N. unfold upd. destruct (f =? fd); [|exact N]. intros X. apply app_eq_nil in X as [_ X]. discriminate.
    + exact C.
  - destruct (x_kind s); injection H as <- <-; [apply STAY; reflexivity|]. cbn in SS.
    split; [apply MORE; cbn; auto; intros _ X; apply app_eq_nil in X as [_ X]; discriminate|]. cbn.
    destruct (x_caller s); [split; [lia|apply C]|destruct C as [C0 C]; split; auto; destruct C as [[C1 C2]|[C1 C2]]; [left|right]; split; auto; lia
      |destruct C as [C0 C]; split; auto; destruct C as [[C1 C2]|[C1 C2]]; [left|right]; split; auto; lia].
  - destruct (x_phase s) eqn:P; try (injection H as <- <-; apply STAY; reflexivity). injection H as <- <-. destruct EO as (ND & IR & SO). split.
    + cbn. split; [|apply IR]. intros fd I N. split; [apply NO; auto|]. destruct (SO fd I); [contradiction|auto].
    + cbn. cbn in SS. change (stops_in (set_phase s (PRound ready false))) with (stops_in s).
      destruct (x_caller s).
      * destruct C as [C1 C2]. split; [exact C1|]. destruct (x_thread s); [right; eauto|discriminate].
      * destruct C as [C0 C]; split; auto. destruct C as [[C1 C2]|[C1 [C2|(? & C2)]]]; try discriminate. left. split; [auto|]. right. eauto.
      * destruct C as [C0 C]; split; auto. destruct C as [[C1 C2]|[C1 [C2|(? & C2)]]]; try discriminate. left. split; [auto|]. right. eauto.
  - cbn in NO. subst err. unfold mux_next in H. destruct (x_phase s) as [| |[|f rest] dn|] eqn:P; try (injection H as <- <-; apply STAY; reflexivity).
    + (* the round is over *)
      assert (T : x_thread s = true) by (destruct (x_thread s); [auto|specialize (TF eq_refl); unfold finished in TF; rewrite P in TF; discriminate]).
      destruct dn; injection H as <- <-; (split; [exact Logic.I|]); cbn; cbn in SS.
      * destruct (x_caller s).
        -- rewrite T in C. destruct C as [_ [C|(? & C)]]; discriminate.
        -- destruct C as [C0 [[_ [C|(? & C)]]|[C _]]]; try discriminate. split; [auto|]. right. split; [lia|]. left. reflexivity.
        -- destruct C as [C0 [[_ [C|(? & C)]]|[C _]]]; try discriminate. split; [auto|]. right. split; [lia|]. left. reflexivity.
      * destruct (x_caller s).
        -- rewrite T in *. destruct C as [C _]. split; [lia|]. left. reflexivity.
        -- destruct C as [C0 [[C _]|[_ [C|(? & C)]]]]; try discriminate. split; [auto|]. left. split; [lia|]. left. reflexivity.
        -- destruct C as [C0 [[C _]|[_ [C|(? & C)]]]]; try discriminate. split; [auto|]. left. split; [lia|]. left. reflexivity.
    + assert (T : x_thread s = true) by (destruct (x_thread s); [auto|specialize (TF eq_refl); unfold finished in TF; rewrite P in TF; discriminate]).
      destruct RO as [RO RD]. assert (ND : NoDup rest /\ ~ In f rest) by (inversion RO; auto). destruct ND as [ND NI]. destruct Q as [Q1 Q2].
      (* a datagram, or nothing *)
      assert (SAME : forall st, x_caller st = x_caller s -> x_thread st = x_thread s -> stops_in st = stops_in s -> x_phase st = PRound rest dn ->
        match x_caller st with
        | CIdle => stops_in st = 0%nat /\ (if x_thread st then running (x_phase st) else x_phase st = POff)
        | _ => x_thread st = true /\ (stops_in st = 1%nat /\ running (x_phase st) \/ stops_in st = 0%nat /\ leaving (x_phase st)) end).
      { intros st -> -> -> ->. destruct (x_caller s).
        - destruct C as [C1 C2]. split; [auto|]. rewrite T in *. destruct C2 as [C2|(r0 & C2)]; [discriminate|]. injection C2 as _ ->. right. eauto.
        - destruct C as [C0 C]. split; [auto|]. destruct C as [[C1 [C2|(r0 & C2)]]|[C1 [C2|(r0 & C2)]]]; try discriminate; injection C2 as _ ->; [left|right]; (split; [auto|]); right; eauto.
        - destruct C as [C0 C]. split; [auto|]. destruct C as [[C1 [C2|(r0 & C2)]]|[C1 [C2|(r0 & C2)]]]; try discriminate; injection C2 as _ ->; [left|right]; (split; [auto|]); right; eauto. }
      destruct (in_socks s f) eqn:IS.
      * assert (FN : f <> x_r s) by (intros ->; apply in_socks_iff in IS; auto). destruct (Q1 f (or_introl eq_refl) FN) as [QN _].
        destruct (x_queue s f) as [|d q] eqn:QF; [contradiction|]. injection H as <- <-. split; [|apply SAME; auto].
        cbn. split; [|intros X; apply Q2; right; exact X]. intros fd I N. destruct (Q1 fd (or_intror I) N) as [A B]. split; [|exact B].
        unfold upd. destruct (fd =? f) eqn:E; [apply Z.eqb_eq in E; congruence|exact A].
      * destruct (f =? x_r s) eqn:F.
        -- apply Z.eqb_eq in F. rewrite F in NI. specialize (Q2 (or_introl F)).
           destruct (x_ctl s) as [|d c] eqn:CT; [contradiction|].
           assert (DF : dn = false) by (destruct dn; auto; exfalso; apply (RD eq_refl); left; exact F). subst dn.
           assert (DONE : forall st, y = [LRead] -> x_phase st = PRound rest true -> x_caller st = x_caller s -> x_thread st = x_thread s -> (stops_in s + 0 = stops_in st + 1)%nat ->
             match x_caller st with
             | CIdle => stops_in st = 0%nat /\ (if x_thread st then running (x_phase st) else x_phase st = POff)
             | _ => x_thread st = true /\ (stops_in st = 1%nat /\ running (x_phase st) \/ stops_in st = 0%nat /\ leaving (x_phase st)) end).
           { intros st _ -> -> -> E. destruct (x_caller s).
             - destruct C as [C1 C2]. lia.
             - destruct C as [C0 C]. split; [auto|]. right. destruct C as [[C1 C2]|[C1 C2]]; split; try lia. right. eauto.
             - destruct C as [C0 C]. split; [auto|]. right. destruct C as [[C1 C2]|[C1 C2]]; split; try lia. right. eauto. }
           assert (QQ : forall st, x_r st = x_r s -> x_queue st = x_queue s -> x_socks st = x_socks s -> forall dn', x_phase st = PRound rest dn' ->
             match x_phase st with
             | PRound rest d => (forall fd, In fd rest -> fd <> x_r st -> x_queue st fd <> [] /\ In fd (x_socks st)) /\ (In (x_r st) rest -> x_ctl st <> [])
             | PDied _ => False | _ => True end).
           { intros st -> -> -> dn' ->. split; [|contradiction]. intros fd I N. apply Q1; auto. right. exact I. }
           destruct (x_kind s) eqn:KK.
           ++ injection H as <- <-. split; [eapply QQ; reflexivity|]. apply DONE; auto.
           ++ destruct (_ && _)%bool; injection H as <- <-; (split; [eapply QQ; reflexivity|]); [apply DONE; auto|]. cbn in SS. apply SAME; auto. cbn. lia.
        -- injection H as <- <-. split; [|apply SAME; auto]. cbn. split; [|intros X; apply Q2; right; exact X]. intros fd I N. apply Q1; auto. right. exact I.
Qed.
Lemma j_run : forall evs s s' y, always event_ok s evs -> always no_error s evs -> mux_run s evs = (s', y) -> (forall fd, x_caller s = CConnect fd -> fd <> x_r s) -> round_ok s -> JInv s -> JInv s'.
Proof.
  induction evs as [|e evs IH]; intros s s' y A N H CC RO J; cbn in H; [injection H as <- <-; auto|].
  destruct (mux_step s e) as [s0 l0] eqn:S. destruct (mux_run s0 evs) as [s1 l1] eqn:T. injection H as <- <-.
  destruct A as [A1 A2]. destruct N as [N1 N2]. rewrite S in A2, N2. destruct (round_step _ _ _ _ A1 S CC RO) as [RO' CC'].
  eapply (IH s0); eauto. eapply j_step; eauto.
Qed.
Lemma history_inv k size r w evs s l : mux_history k size r w evs s l -> os_ok k size r w evs -> no_errors k size r w evs ->
  JInv s /\ round_ok s /\ (forall fd, x_caller s = CConnect fd -> fd <> x_r s).
Proof.
  intros H A N. destruct (round_new k size r w) as [RO CC]. split; [eapply j_run; eauto using j_new|eapply round_run; eauto].
Qed.

(** ** Every round ends *)
Definition is_next (e : muxevent) : bool := match e with XNext _ => true | _ => false end.
Lemma round_ends : forall evs s s' y rest d, always event_ok s evs -> always no_error s evs -> mux_run s evs = (s', y) ->
  (forall fd, x_caller s = CConnect fd -> fd <> x_r s) -> round_ok s -> JInv s -> x_phase s = PRound rest d ->
  (length rest < length (filter is_next evs))%nat ->
  exists evs1 evs2, evs = evs1 ++ evs2 /\ forall s1 y1, mux_run s evs1 = (s1, y1) -> (x_phase s1 = PPoll \/ x_phase s1 = POff).
Proof.
  induction evs as [|e evs IH]; intros s s' y rest d A N H CC RO J P L; [cbn in L; lia|].
  cbn in H. destruct (mux_step s e) as [s0 l0] eqn:S. destruct (mux_run s0 evs) as [s1 l1] eqn:T. injection H as <- <-.
  destruct A as [A1 A2]. destruct N as [N1 N2]. rewrite S in A2, N2. cbn [fst] in A2, N2. destruct (round_step _ _ _ _ A1 S CC RO) as [RO' CC'].
  pose proof (j_step _ _ _ _ A1 N1 S CC RO J) as J'.
  assert (ENOUGH : forall rest' d', x_phase s0 = PRound rest' d' -> (length rest' < length (filter is_next evs))%nat ->
    exists evs1 evs2, e :: evs = evs1 ++ evs2 /\ forall s1 y1, mux_run s evs1 = (s1, y1) -> (x_phase s1 = PPoll \/ x_phase s1 = POff)).
  { intros rest' d' P' L'. destruct (IH _ _ _ _ _ A2 N2 T CC' RO' J' P' L') as (e1 & e2 & -> & X). exists (e :: e1), e2. split; [reflexivity|].
    intros s2 y2 R. cbn in R. rewrite S in R. destruct (mux_run s0 e1) as [s3 y3] eqn:R3. injection R as <- <-. eapply X; eauto. }
  assert (F : finished s = false) by (unfold finished; rewrite P; reflexivity).
  destruct e; cbn [is_next filter] in L.
  - cbn [mux_step] in S. destruct (x_thread s) eqn:TH.
    + apply (ENOUGH rest d); auto. destruct (x_caller s), (x_closed s); injection S as <- <-; exact P.
    + exfalso. destruct RO as [[_ TF] _]. specialize (TF TH). congruence.
  - cbn [mux_step] in S. destruct (x_thread s) eqn:TH.
    + apply (ENOUGH rest d); auto. destruct (x_caller s), (x_closed s); injection S as <- <-; exact P.
    + exfalso. destruct RO as [[_ TF] _]. specialize (TF TH). congruence.
  - cbn [mux_step] in S. rewrite F in S. injection S as <- <-. eauto.
  - injection S as <- <-. eauto.
  - cbn [mux_step] in S. destruct (x_kind s); injection S as <- <-; eauto.
  - cbn [mux_step] in S. rewrite P in S. injection S as <- <-; eauto.
  - cbn [mux_step] in S. cbn [length] in L. unfold mux_next in S. rewrite P in S. destruct rest as [|f rest].
    + exists [XNext err], evs. split; [reflexivity|]. intros s2 y2 R. cbn in R. unfold mux_next in R. rewrite P in R.
      destruct d; injection R as <- <-; auto.
    + cbn [length] in L. destruct J as [Q _]. rewrite P in Q. destruct Q as [Q1 Q2]. cbn in N1. subst err.
      destruct (in_socks s f) eqn:IS.
      * assert (FN : f <> x_r s) by (intros ->; destruct RO as [[NR _] _]; apply in_socks_iff in IS; auto). destruct (Q1 f (or_introl eq_refl) FN) as [QN _].
        destruct (x_queue s f) as [|x q]; [contradiction|]. injection S as <- <-. apply (ENOUGH rest d); [reflexivity|lia].
      * destruct (f =? x_r s) eqn:E; [|injection S as <- <-; apply (ENOUGH rest d); [reflexivity|lia]].
        apply Z.eqb_eq in E. specialize (Q2 (or_introl E)). destruct (x_ctl s) as [|x c]; [contradiction|].
        destruct (x_kind s); injection S as <- <-; (eapply ENOUGH; [reflexivity|lia]).
Qed.

(** ** Returns *)
Definition going (s : mux) : nat := match x_phase s with PRound _ true => 1 | _ => 0 end.
Lemma returns_step s e s' y : round_ok s -> mux_step s e = (s', y) -> (number is_returned y + going s' <= going s + number is_read y)%nat /\
  (In LReturned y -> y = [LReturned] /\ x_phase s = PRound [] true).
Proof.
  intros [[NR TF] RO] H. unfold going. assert (F : finished s = true -> match x_phase s with PRound _ true => 1%nat | _ => 0%nat end = 0%nat) by (unfold finished; destruct (x_phase s); auto; discriminate).
  assert (N1 : forall z, In LReturned [z] -> z = LReturned) by (intros z [Z|[]]; auto).
  destruct e; cbn [mux_step] in H.
  - destruct (x_caller s), (x_closed s); try (injection H as <- <-; cbn; split; [lia|intros []]).
    destruct (x_thread s) eqn:T; injection H as <- <-; cbn; (split; [lia|]); intros [|[]]; try discriminate; tauto.
  - destruct (x_caller s), (x_closed s); try (injection H as <- <-; cbn; split; [lia|intros []]).
    destruct (x_thread s) eqn:T; injection H as <- <-; cbn; (split; [lia|]); intros [|[]]; discriminate.
  - destruct (finished s) eqn:FI; [|injection H as <- <-; cbn; split; [lia|intros []]].
    destruct (x_caller s); injection H as <- <-; cbn; (split; [lia|]); intros []; try discriminate; destruct H; try discriminate; contradiction.
  - injection H as <- <-. cbn. split; [lia|]. intros [|[]]; discriminate.
  - destruct (x_kind s); injection H as <- <-; cbn; (split; [lia|]); intros []; try discriminate; contradiction.
  - destruct (x_phase s) eqn:P; injection H as <- <-; cbn; rewrite ?P; (split; [lia|]); intros []; try discriminate; contradiction.
  - unfold mux_next in H. destruct (x_phase s) as [| |[|f rest] dn|] eqn:P; try (injection H as <- <-; cbn; rewrite ?P; split; [lia|intros []]).
    + destruct dn; injection H as <- <-; cbn; (split; [lia|]); [auto|intros []].
    + destruct (in_socks s f).
      * destruct err, (x_queue s f) as [|d q]; injection H as <- <-; cbn; (split; [destruct dn; lia|]); intros [|[]]; discriminate.
      * destruct RO as [RO RD]. destruct (f =? x_r s) eqn:E.
        -- assert (DF : dn = false) by (destruct dn; auto; exfalso; apply (RD eq_refl); left; lia). subst dn.
           destruct (x_kind s); try destruct err; try destruct (x_ctl s); try destruct (_ && _)%bool; injection H as <- <-; cbn; rewrite ?P; (split; [lia|]); intros []; try discriminate; contradiction.
        -- injection H as <- <-. cbn. split; [destruct dn; lia|intros []].
Qed.
Lemma returns_run : forall evs s s' y, always event_ok s evs -> (forall fd, x_caller s = CConnect fd -> fd <> x_r s) -> round_ok s -> mux_run s evs = (s', y) ->
  (number is_returned y + going s' <= going s + number is_read y)%nat /\
  (forall l1 l2, y = l1 ++ LReturned :: l2 -> exists evs1 s1, mux_run s evs1 = (s1, l1) /\ x_phase s1 = PRound [] true).
Proof.
  induction evs as [|e evs IH]; intros s s' y A CC RO H; cbn in H; [injection H as <- <-; cbn; split; [lia|intros [] l2; discriminate]|].
  destruct (mux_step s e) as [s0 l0] eqn:S. destruct (mux_run s0 evs) as [s1 y1] eqn:T. injection H as <- <-.
  destruct A as [A1 A2]. rewrite S in A2. cbn [fst] in A2. destruct (round_step _ _ _ _ A1 S CC RO) as [RO' CC'].
  destruct (returns_step _ _ _ _ RO S) as [B1 B2]. destruct (IH _ _ _ A2 CC' RO' T) as [C1 C2]. rewrite !number_app. split; [lia|].
  intros l1 l2 E. destruct (in_dec (fun a b : bool => Bool.bool_dec a b) true (map is_returned l0)) as [I|NI].
  - apply in_map_iff in I as (z & Z & I). destruct z; try discriminate. destruct (B2 I) as [-> P]. cbn in E.
    destruct l1 as [|z l1]; cbn in E; [exists [], s; split; [reflexivity|exact P]|]. injection E as <- E.
    destruct (C2 _ _ E) as (e1 & sa & R & PA). exists (e :: e1), sa. split; [|exact PA]. cbn. rewrite S, R. reflexivity.
  - assert (exists l1', l1 = l0 ++ l1' /\ y1 = l1' ++ LReturned :: l2) as (l1' & -> & E').
    { clear - E NI. revert l1 E. induction l0 as [|z l0 IHl]; intros l1 E; [exists l1; auto|]. destruct l1 as [|z1 l1]; cbn in E.
      - injection E as -> E. destruct NI. left. reflexivity.
      - injection E as <- E. destruct (IHl (fun X => NI (or_intror X)) l1 E) as (l1' & -> & E'). exists l1'. auto. }
    destruct (C2 _ _ E') as (e1 & sa & R & PA). exists (e :: e1), sa. split; [|exact PA]. cbn. rewrite S, R. reflexivity.
Qed.
