(** PrfHear2.v -- a v3 manager that knows an engine ID does not send discovery
    messages for a new request before its first wait() is over. *)
From Coq Require Import Permutation.
From Verif Require Import PrfMgr3d.
From Verif Require Export SpecMgr3.

(** [k]: the number of requests made before the engine ID was known. *)
Definition over (k : nat) (s : mgr3) (l : list log3) (r : nat) : Prop :=
  (r < k)%nat \/ (exists o, In (WOutcome r o) l) \/ q_alive (get3 (v_reqs s) r) = false.
Definition engine_set (s : mgr3) (r : nat) : Prop := q_engine (get3 (v_reqs s) r) <> None.

Section Plain.
  Context (C : crypto) (R : Z) (rnd : nat -> nat -> Z) (clk : nat -> Z) (fmt : v3msg -> bool) (ns : pystr) (k : nat).
  Notation over := (over k).
  Notation vstep := (vstep C R rnd clk ns).
  Notation tstep := (tstep C rnd clk ns).
  Lemma sends_ok s r w now eng s1 l : sends s r w now eng s1 l (Ok tt) -> exists h d e u lv wire, l = [WSent r h w now d e u lv wire].
  Proof. intros H. inversion H; subst. destruct H3 as [(wire & _ & ->)|(ex & X & _)]; [|discriminate]. do 6 eexists. reflexivity. Qed.
  Lemma get3_put_engine l r q r' : q_engine q <> None \/ r' <> r -> q_engine (get3 l r') <> None -> q_engine (get3 (put l r q) r') <> None.
  Proof.
    intros D H. rewrite get3_put. destruct (_ && _)%bool eqn:X; [|exact H]. apply andb_prop in X as [X _]. apply Nat.eqb_eq in X.
    destruct D as [D|D]; [exact D|congruence].
  Qed.
  Lemma sends_engine s r w now eng s1 l x r' : sends s r w now eng s1 l x -> engine_set s r' -> engine_set s1 r'.
  Proof.
    unfold engine_set. intros H E. inversion H; subst; cbn; [exact E|]. destruct (Nat.eq_dec r' r) as [->|N]; apply get3_put_engine; auto.
    left. cbn. destruct eng; cbn; [discriminate|exact E].
  Qed.
  Lemma readied_engine s r r' : engine_set s r' -> engine_set (readied clk s r) r'.
  Proof. unfold engine_set. cbn. intros E. destruct (Nat.eq_dec r' r) as [->|N]; apply get3_put_engine; auto. Qed.
  Lemma rescheduled_engine s r c r' : engine_set s r' -> engine_set (rescheduled s r c) r'.
  Proof. unfold engine_set. cbn. intros E. destruct (Nat.eq_dec r' r) as [->|N]; apply get3_put_engine; auto. Qed.
  Lemma same_engine s s' r : v_reqs s' = v_reqs s -> engine_set s r -> engine_set s' r.
  Proof. unfold engine_set. now intros ->. Qed.
  Lemma assign_engine s nx r : engine_set s r -> engine_set (assign_next s nx) r.
  Proof. destruct (assign_fields s nx) as [n ->]. apply same_engine. reflexivity. Qed.
  Lemma update_engine s r : engine_set s r -> engine_set (updateState s) r.
  Proof. destruct (update_fields s) as (st & n & ->). apply same_engine. reflexivity. Qed.
  Lemma push_engine s r r' : engine_set s r' -> engine_set (push3 s r) r'.
  Proof. apply same_engine. unfold push3. destruct (heappush _ _ _ _). reflexivity. Qed.
  Lemma heapify_engine s r' : engine_set s r' -> engine_set (heapify3 s) r'.
  Proof. apply same_engine. unfold heapify3. destruct (heapify _ _ _). reflexivity. Qed.
  Lemma asks_engine s r w s1 l y r' : asks clk s r w s1 l y -> engine_set s r' -> engine_set s1 r'.
  Proof.
    intros A E. inversion A; subst; [exact E| |].
    - eapply sends_engine; [exact H0|]. now apply readied_engine, assign_engine.
    - apply update_engine, push_engine. eapply sends_engine; [exact H0|]. now apply readied_engine, assign_engine.
  Qed.
  (** The engine ID of a request goes only with close(). *)
  Lemma closing s x s' l' r : vstep s x s' l' -> (r < length (v_reqs s))%nat -> engine_set s r ->
    engine_set s' r \/ over s' l' r.
  Proof.
    intros ST L E. inversion ST; subst; try (left; exact E).
    - left. unfold engine_set in *. cbn. rewrite get3_app. destruct (Nat.eqb_spec r (length (v_reqs s))); [lia|exact E].
    - inversion H0; subst; try (left; exact E).
      + left. apply (same_engine s1); [reflexivity|]. eapply asks_engine; eauto.
      + left. destruct H2 as [[-> _]|[-> _]]; exact E.
      + left. apply (same_engine s1); [reflexivity|]. eapply sends_engine; [exact H5|]. now apply rescheduled_engine.
      + left. apply (same_engine s0); [reflexivity|]. eapply sends_engine; [exact H5|]. now apply rescheduled_engine.
      + left. apply (same_engine (updateState (assign_next s (onInactive (v_state s))))); [reflexivity|]. now apply update_engine, assign_engine.
      + left. apply (same_engine s1); [reflexivity|]. eapply asks_engine; eauto.
      + left. apply (same_engine s1); [reflexivity|]. eapply asks_engine; eauto.
      + apply close3_spec in H1. destruct H1 as (u & p & q' & m' & -> & [->| ->] & _).
        * left. unfold engine_set in *. cbn. destruct (Nat.eq_dec r r0) as [->|N]; apply get3_put_engine; auto.
        * destruct (Nat.eq_dec r r0) as [->|N]; [right; right; left; eexists; left; reflexivity|]. left. unfold engine_set in *. cbn. apply get3_put_engine; auto.
    - left. inversion H; subst; try exact E.
      + unfold engine_set in *. cbn. destruct (Nat.eq_dec r r0) as [->|N]; apply get3_put_engine; auto. left. fold q in E. unfold stored. destruct auth, (q_event q), (q_exception q); exact E.
      + apply (same_engine s1); [reflexivity|]. eapply sends_engine; [exact H3|]. now apply readied_engine, assign_engine.
      + destruct b; apply (same_engine (heapify3 s1)); try reflexivity.
        * cbn. now destruct (update_fields (heapify3 s1)) as (st & n & ->).
        * apply heapify_engine. eapply sends_engine; [exact H3|]. now apply readied_engine, assign_engine.
        * apply heapify_engine. eapply sends_engine; [exact H3|]. now apply readied_engine, assign_engine.
      + apply (same_engine s1); [reflexivity|]. eapply sends_engine; [exact H3|]. now apply readied_engine.
      + apply push_engine. eapply sends_engine; [exact H3|]. now apply readied_engine.
      + unfold engine_set in *. cbn. destruct (Nat.eq_dec r r0) as [->|N]; apply get3_put_engine; auto.
      + apply (same_engine (assign_next s nx)); [reflexivity|now apply assign_engine].
      + apply (same_engine (assign_next s nx)); [|now apply assign_engine]. cbn. match goal with |- context [updateState ?x] => destruct (update_fields x) as (st & n' & ->) end. reflexivity.
      + apply (same_engine (if q_event q then s else set_req3 s r0 (q_set_result q true (q_exception q) (Some m)))); [reflexivity|]. destruct (q_event q); [exact E|].
        unfold engine_set in *. cbn. destruct (Nat.eq_dec r r0) as [->|N]; apply get3_put_engine; auto.
    - destruct H0 as (u & p & q' & m' & -> & Q & _). cbn [v_reqs set_objects]. destruct (Nat.eq_dec r r0) as [->|N].
      + right. right. right. cbn. rewrite get3_put_same by (cbn; now rewrite put_length).
        cbn in Q. rewrite get3_put_same in Q by exact L. destruct Q as [->| ->]; reflexivity.
      + left. unfold engine_set in *. cbn. apply get3_put_engine; auto. apply get3_put_engine; auto.
    - left. destruct H0 as (u & p & c & m & -> & _). exact E.
  Qed.
  (** The heap gets only what was sent. *)
  Lemma heap_in s x s' l' r : inv3 s -> vstep s x s' l' -> In r (v_heap s') ->
    In r (v_heap s) \/ exists h w now d e u lv wire, In (WSent r h w now d e u lv wire) l'.
  Proof.
    intros I ST B.
    assert (ASK : forall r0 w s1 l y, (r0 < length (v_reqs s))%nat -> asks clk s r0 w s1 l y -> In r (v_heap s1) ->
       In r (v_heap s) \/ exists h w now d e u lv wire, In (WSent r h w now d e u lv wire) l).
    { intros r0 w s1 l y LT A K. pose proof (asks_spec _ _ _ _ _ _ _ (i3_refs _ I) LT A) as (_ & _ & _ & P).
      inversion A; subst; [now left|left; now rewrite (proj1 P) in K|].
      apply Permutation_sym in P. apply (Permutation_in _ P) in K as [->|K]; [|now left]. right.
      destruct (sends_ok _ _ _ _ _ _ _ H0) as (h & d & e & u & lv & wire & ->). do 8 eexists. left. reflexivity. }
    inversion ST; subst; try (left; exact B).
    - assert (TI : In t (v_tasks s)) by (rewrite H; apply in_or_app; right; now left).
      assert (LT := fun r (K : In r (pend t)) => i3_lt _ I r (in_or_app _ _ _ (or_intror (in_or_app _ _ _ (or_intror (proj2 (in_flat_map pend (v_tasks s) r) (ex_intro _ t (conj TI K)))))))).
      inversion H0; subst; try (left; exact B).
      + eapply ASK; eauto. apply LT. now left.
      + left. rewrite H1. destruct (pop3_ok _ _ _ _ _ _ (i3_refs s I) H3) as (_ & _ & P & _). right. apply Permutation_sym in P. now apply (Permutation_in _ P).
      + left. cbn in B. apply sends_sent_by in H5; [|apply (i3_lt _ I), in_or_app; left; rewrite H1; now left]. destruct (sent_by_frame _ _ _ _ _ _ _ _ _ H5) as (F1 & _). now rewrite F1 in B.
      + left. cbn in B. rewrite H1. assert (LR : length (v_refs s) = length (v_reqs s0)).
        { inversion H5; subst; cbn; rewrite ?put_length; apply (i3_refs s I). }
        destruct (replace3_perm _ _ _ _ _ _ _ LR H6) as (_ & _ & P). apply Permutation_sym in P. now apply (Permutation_in _ P).
      + eapply ASK; eauto. apply LT. now left.
      + eapply ASK; eauto. apply LT. now left.
      + left. apply close3_spec in H1. destruct H1 as (u & p & q' & m' & -> & _). exact B.
    - inversion H; subst; try (left; exact B).
      + left. destruct (assign_fields s nx) as [n EN]. rewrite EN in H3. inversion H3; subst; exact B.
      + left. destruct (assign_fields s nx) as [n EN]. rewrite EN in H3. 
        assert (LR : length (v_refs s1) = length (v_reqs s1)) by (inversion H3; subst; cbn; rewrite ?put_length; apply (i3_refs s I)).
        assert (HH : v_heap s1 = v_heap s) by (inversion H3; subst; reflexivity).
        destruct (heapify3_spec s1 LR) as (w' & h' & EH & L' & P). rewrite EH in B. rewrite HH in P. apply Permutation_sym in P. apply (Permutation_in _ P).
        destruct b; [|exact B]. destruct (update_fields (set_queue s1 h' (v_unsent s1) w')) as (st & n' & EU). rewrite EU in B. exact B.
      + left. inversion H3; subst; exact B.
      + assert (LR : length (v_refs s1) = length (v_reqs s1)) by (inversion H3; subst; cbn; rewrite ?put_length; apply (i3_refs s I)).
        assert (HH : v_heap s1 = v_heap s) by (inversion H3; subst; reflexivity).
        destruct (push3_spec s1 q LR) as (w' & h' & EH & L' & P). rewrite EH in B. rewrite HH in P. apply Permutation_sym in P. apply (Permutation_in _ P) in B as [->|B]; [|now left].
        right. destruct (sends_ok _ _ _ _ _ _ _ H3) as (h & d & e0 & u & lv & wire & ->). do 8 eexists. left. reflexivity.
      + left. destruct (assign_fields s nx) as [n EN]. rewrite EN in B. exact B.
      + left. destruct (assign_fields s nx) as [n EN]. rewrite EN in B. cbn in B. match type of B with context [updateState ?x] => destruct (update_fields x) as (st & n' & EU); rewrite EU in B end. exact B.
      + left. cbn in B. destruct (q_event q); exact B.
    - left. destruct H0 as (u & p & q' & m' & -> & _). exact B.
    - left. destruct H0 as (u & p & q' & m' & -> & _). exact B.
  Qed.
End Plain.

(** What a message is expected to be. *)
Definition strict (s : mgr3) (e : entry3) : Prop :=
  (e3_handle e < length (v_msgs s))%nat /\ g_own (getm (v_msgs s) (e3_handle e)) = true /\
  let q := get3 (v_reqs s) (g_req (getm (v_msgs s) (e3_handle e))) in e3_name e = q_user q /\ e3_level e = q_level q.
Definition fits (s : mgr3) (h : nat) (m : v3msg) : Prop :=
  exists sc e, v3_scoped m = Some sc /\ v3_mismatch e m sc = false /\ strict s e /\ e3_handle e = h.
Record plain (k : nat) (s : mgr3) (l : list log3) : Prop := {
  p_mgr : v_engine s <> None;
  p_heap : forall r, In r (v_heap s) -> over k s l r \/ engine_set s r;
  p_cache : forall x, In x (ca_out (p3_cache (v_proc s))) -> g_open (getm (v_msgs s) (e3_handle (snd x))) = true -> over k s l (g_req (getm (v_msgs s) (e3_handle (snd x)))) \/ strict s (snd x);
  p_push : forall h m, v_listener s = LPush h m -> over k s l (g_req (getm (v_msgs s) h)) \/ fits s h m;
  p_pushed : forall h m, In (WPushed h m) l -> (h < length (v_msgs s))%nat /\ g_own (getm (v_msgs s) h) = true /\ (over k s l (g_req (getm (v_msgs s) h)) \/ fits s h m)
}.
Section Inv.
  Context (C : crypto) (R : Z) (rnd : nat -> nat -> Z) (clk : nat -> Z) (fmt : v3msg -> bool) (ns : pystr) (k : nat).
  Notation over := (over k).
  Notation plain := (plain k).
  Notation vstep := (vstep C R rnd clk ns).
  Lemma over_more s s' l l' r : evo3 s s' -> (r < length (v_reqs s))%nat -> over s l r -> over s' (rev l' ++ l) r.
  Proof.
    intros (_ & _ & E & _) L [H|[[o H]|H]]; [now left|right; left; exists o; apply in_or_app; auto|right; right]. pose proof (E r L) as X. unfold evolves3 in X.
    destruct (q_alive (get3 (v_reqs s') r)) eqn:A; [|reflexivity]. exfalso. intuition congruence.
  Qed.
  Lemma over_new s l l' r : over s l' r -> over s (rev l' ++ l) r.
  Proof. intros [H|[[o H]|H]]; [now left|right; left; exists o; apply in_or_app; left; now apply -> in_rev|right; now right]. Qed.
  Lemma strict_evo s s' e : msgs_ok s -> evo3 s s' -> strict s e -> strict s' e.
  Proof.
    intros [M1 _] (_ & E2 & E3 & E4 & E5) (L & O & H). split; [lia|]. cbv zeta in H |- *. destruct (E5 _ L) as (-> & _ & -> & _). split; [exact O|]. specialize (M1 _ L O). destruct (E3 _ M1) as (_ & -> & -> & _). exact H.
  Qed.
  Lemma fits_evo s s' h m : msgs_ok s -> evo3 s s' -> fits s h m -> fits s' h m.
  Proof. intros M E (sc & e & H1 & H2 & H3 & H4). exists sc, e. split; [exact H1|]. split; [exact H2|]. split; [eapply strict_evo; eauto|exact H4]. Qed.
  Lemma plain_step s x s' l l' : base s -> plain s l -> vstep s x s' l' -> plain s' (rev l' ++ l).
  Proof.
    intros [I W] P ST. pose proof (step_spec _ _ _ _ _ _ _ _ _ I ST) as (I' & EV & _). assert (MO := i3_msgs s I).
    assert (MREQ : forall h, (h < length (v_msgs s))%nat -> g_own (getm (v_msgs s) h) = true -> g_req (getm (v_msgs s') h) = g_req (getm (v_msgs s) h) /\ (g_req (getm (v_msgs s) h) < length (v_reqs s))%nat).
    { intros h L O. destruct EV as (_ & _ & _ & _ & E5). split; [apply (E5 h L)|apply (proj1 MO h L O)]. }
    assert (OV : forall r, (r < length (v_reqs s))%nat -> over s l r -> over s' (rev l' ++ l) r) by (intros r; now apply over_more).
    assert (HL : forall r, In r (v_heap s) -> (r < length (v_reqs s))%nat) by (intros r K; apply (i3_lt _ I), in_or_app; now left).
    assert (OLDH : forall r, In r (v_heap s) -> over s' (rev l' ++ l) r \/ engine_set s' r).
    { intros r K. destruct (p_heap _ _ _ P r K) as [O|E]; [left; auto|]. destruct (closing _ _ _ _ _ k _ _ _ _ _ ST (HL r K) E) as [E'|O]; [now right|left; now apply over_new]. }
    assert (OLDP : forall h m, (h < length (v_msgs s))%nat -> g_own (getm (v_msgs s) h) = true -> over s l (g_req (getm (v_msgs s) h)) \/ fits s h m -> over s' (rev l' ++ l) (g_req (getm (v_msgs s') h)) \/ fits s' h m).
    { intros h m L W1 [O|F]; [left; destruct (MREQ h L W1) as [-> LT]; auto|right; eapply fits_evo; eauto]. }
    assert (OWN : forall h, (h < length (v_msgs s))%nat -> g_open (getm (v_msgs s) h) = true -> g_own (getm (v_msgs s) h) = true).
    { intros h L O. destruct (g_own _) eqn:X; [auto|]. destruct MO as (_ & M0 & _). destruct (M0 h L X) as (_ & _ & Y). congruence. }
    assert (OLDC : forall y, In y (ca_out (p3_cache (v_proc s))) -> g_open (getm (v_msgs s') (e3_handle (snd y))) = true -> over s' (rev l' ++ l) (g_req (getm (v_msgs s') (e3_handle (snd y)))) \/ strict s' (snd y)).
    { intros y K OP. pose proof (proj2 (proj2 MO) _ K) as L. assert (OP' := open_evo _ _ _ MO EV K OP). destruct (p_cache _ _ _ P y K OP') as [O|F]; [left; destruct (MREQ _ L (OWN _ L OP')) as [-> LT]; auto|right; eapply strict_evo; eauto]. }
    constructor.
    - intros E. destruct (engine_eq_dec (v_engine s') (v_engine s)) as [X|X]; [apply (p_mgr _ _ _ P); congruence|].
      destruct (engine_change _ _ _ _ _ _ _ _ _ ST X) as (r & m & _ & E' & (e & E2) & _). congruence.
    - intros r K. destruct (heap_in _ _ _ _ _ _ _ _ _ _ I ST K) as [K0|(h & w & now & d & e & u & lv & wire & S)]; [now apply OLDH|].
      destruct (step_class _ _ _ _ _ _ _ _ _ I W ST) as [SS|QS]; [|apply (qs_log _ _ _ _ _ QS) in S; discriminate].
      destruct SS as [r1 w1 sc eng s1 s2 y SB R1 M1 P1 B1 C1 R2 M2 P2 B2 AL CASE].
      inversion SB; subst; [destruct S as [S|[]]; discriminate|]. assert (r1 = r) as ->.
      { destruct H2 as [(wi & _ & EQ)|(ex & _ & EQ)]; rewrite EQ in S; destruct S as [S|[]]; [congruence|discriminate]. }
      pose proof (get3_alive_lt _ _ AL) as LT.
      assert (NE : w1 <> ByRefresh -> engine_set s' r).
      { intros N. unfold engine_set. rewrite R2. cbn. rewrite get3_put_same by (rewrite R1; exact LT). cbn.
        destruct eng as [e1|]; [discriminate|]. exfalso. destruct w1; try congruence; try (destruct CASE as (X & _); now apply (p_mgr _ _ _ P)).
        - destruct CASE as (_ & _ & r9 & e9 & w9 & rest9 & _ & Y & _). discriminate.
        - destruct CASE as (_ & _ & e9 & _ & Y & _). discriminate.
        - destruct CASE as (_ & _ & e9 & _ & Y & _). discriminate. }
      destruct w1; try (right; apply NE; discriminate). destruct CASE as (_ & _ & _ & (t & HE) & _). apply OLDH. rewrite HE. now left.
    - intros y K OP. destruct (step_class _ _ _ _ _ _ _ _ _ I W ST) as [SS|QS]; [|destruct (qs_cache _ _ _ _ _ QS _ K) as [K'|[_ K']]; [now apply OLDC|congruence]].
      destruct SS as [r w sc eng s1 s2 y0 SB R1 M1 P1 B1 C1 R2 M2 P2 B2 AL CASE]. rewrite P2 in K. pose proof (get3_alive_lt _ _ AL) as LT.
      inversion SB; subst; cbn in K; [rewrite P1 in K; now apply OLDC|].
      destruct H1 as (_ & _ & CA). destruct cb as [id|]; [destruct CA as [_ CA]|]; rewrite CA, P1 in K; [|now apply OLDC].
      apply dict_set_in in K as [->|K]; [|now apply OLDC]. cbn [snd e3_handle].
      assert (GR : g_req (getm (v_msgs s') h) = r /\ g_own (getm (v_msgs s') h) = true).
      { rewrite M2. cbn [v_msgs set_objects set_io]. rewrite getm_app. replace (Nat.eqb h (length (v_msgs s1))) with true by (symmetry; now apply Nat.eqb_eq). split; reflexivity. }
      destruct GR as [GR GO]. unfold strict. cbn [snd e3_handle e3_name e3_level]. rewrite GR, GO.
      destruct (engine_after eng (get3 (v_reqs s) r)) as [e1|] eqn:EA.
      + right. split; [rewrite M2; cbn [v_msgs set_objects set_io]; rewrite app_length; unfold h; cbn; lia|]. split; [reflexivity|].
        destruct EV as (_ & _ & EV & _). destruct (EV r LT) as (_ & -> & -> & _).
        unfold q in H. rewrite R1 in H. unfold target in H. rewrite EA in H. injection H as _ _ <- <-. auto.
      + left. destruct eng as [e1|]; [discriminate|]. cbn in EA. destruct w; try (destruct CASE as (X & _); exfalso; now apply (p_mgr _ _ _ P)).
        * destruct CASE as (_ & _ & r0 & e0 & w0 & rest & _ & Y & _). discriminate.
        * destruct CASE as (_ & _ & _ & (t & HE) & _). apply OV; [exact LT|]. destruct (p_heap _ _ _ P r) as [O|E]; [rewrite HE; now left|exact O|exfalso; now apply E].
        * destruct CASE as (_ & _ & e0 & _ & Y & _). discriminate.
        * destruct CASE as (_ & _ & e0 & _ & Y & _). discriminate.
    - intros h m L. assert (LM := step_listener _ _ _ _ _ _ _ _ _ ST).
      inversion LM as [N E|E|d u h0 m0 L0 L1 L2 E|h0 m0 e0 w0 vb L0 L1 L2 L3 g L4 E|h0 m0 e0 sc L0 L1 L2 L3 L4 E|r0 e0 w0 L0 E|r0 e0 w0 L0 E|r0 m0 L0 E]; rewrite L in E; try discriminate.
      + symmetry in E. apply OLDP; [now apply (i3_push s I) with (m := m)|now apply (i3_push s I) with (m := m)|]. now apply (p_push _ _ _ P).
      + injection E as <- <-. destruct (received_handle _ _ _ _ _ _ _ _ L2) as (sc & id & e & H1 & H2 & H3 & H4 & HA & H5).
        pose proof (proj2 (proj2 MO) _ H3) as LL. cbn in LL. rewrite H4 in LL. apply alive_open in HA. apply OLDP; [exact LL|now apply OWN|].
        destruct (p_cache _ _ _ P _ H3) as [O|F]; cbn in *; [now rewrite H4| |]; [left; now rewrite H4 in O|right]. exists sc, e. auto.
      + destruct w0; discriminate.
    - intros h m K. assert (X : (h < length (v_msgs s))%nat /\ g_own (getm (v_msgs s) h) = true /\ (over s l (g_req (getm (v_msgs s) h)) \/ fits s h m)).
      { apply in_app_or in K as [K|K]; [|now apply (p_pushed _ _ _ P)]. apply in_rev in K. destruct (pushed_listener _ _ _ _ _ _ _ _ _ _ _ ST K) as [L _].
        split; [now apply (i3_push s I) with (m := m)|]. split; [now apply (i3_push s I) with (m := m)|now apply (p_push _ _ _ P)]. }
      destruct X as (X1 & X0 & X2). split; [destruct EV as (_ & _ & _ & E4 & _); lia|]. split; [destruct EV as (_ & _ & _ & _ & E5); destruct (E5 h X1) as (_ & _ & -> & _); exact X0|now apply OLDP].
  Qed.
End Inv.
Section Run.
  Context (C : crypto) (R : Z) (rnd : nat -> nat -> Z) (clk : nat -> Z) (fmt : v3msg -> bool) (ns : pystr).
  Notation m3_run := (m3_run C R rnd clk fmt ns).
  (** When the manager knows an engine ID, it holds of the requests to come. *)
  Lemma plain_now u maxSize cfg s0 y evs s l : mgr3_new C rnd ns u maxSize cfg = (s0, y) -> m3_run s0 evs = (s, l) -> v_engine s <> None -> plain (length (v_reqs s)) s l.
  Proof.
    intros H0 E N. destruct (base_run _ _ _ _ _ _ _ _ _ _ (base_start _ _ _ _ _ _ _ _ H0) E) as [I _].
    pose proof (match_run _ _ _ _ _ _ _ _ _ _ _ _ _ _ H0 E) as M.
    constructor; [exact N|..].
    - intros r K. left. left. apply (i3_lt _ I), in_or_app. now left.
    - intros x K OP. left. left. apply (i3_msgs _ I) in K. apply (i3_msgs _ I); [exact K|]. destruct (g_own _) eqn:X; [auto|]. destruct (i3_msgs _ I) as (_ & M0 & _). destruct (M0 _ K X) as (_ & _ & Y). congruence.
    - intros h m K. left. left. apply (i3_push _ I) in K as [K1 K2]. now apply (i3_msgs _ I).
    - intros h m K. destruct (m_pushed _ _ M _ _ K) as (sc & e & _ & _ & _ & (L & O & _) & EH). rewrite EH in L, O. split; [exact L|]. split; [exact O|]. left. left. now apply (i3_msgs _ I).
  Qed.
  Lemma plain_since u maxSize cfg s0 y before after s1 l1 s l : mgr3_new C rnd ns u maxSize cfg = (s0, y) -> m3_run s0 before = (s1, l1) -> v_engine s1 <> None ->
    m3_run s0 (before ++ after) = (s, l) -> plain (length (v_reqs s1)) s l.
  Proof.
    intros H0 E1 N. revert s l. induction after as [|x after IH] using rev_ind; intros s l E.
    - rewrite app_nil_r, E1 in E. injection E as <- <-. eapply plain_now; eauto.
    - rewrite app_assoc, m3_run_snoc in E. destruct (m3_run s0 (before ++ after)) as [s2 l2] eqn:E2. destruct (m3_step _ _ _ _ _ _ s2 x) as [s3 l3] eqn:ST. injection E as <- <-.
      apply m3_step_spec in ST. eapply plain_step; eauto. exact (base_run _ _ _ _ _ _ _ _ _ _ (base_start _ _ _ _ _ _ _ _ H0) E2).
  Qed.
  Lemma plain_run u maxSize e0 s0 evs s l : mgr3_new C rnd ns u maxSize (Some e0) = (s0, Ok tt) -> m3_run s0 evs = (s, l) -> plain 0 s l.
  Proof.
    intros H0 E. pose proof (start_fields _ _ _ _ _ _ _ _ H0) as (_ & _ & _ & H4 & _ & _ & _ & _ & _ & _ & _ & H12 & _). specialize (H12 eq_refl).
    pose proof (plain_since _ _ _ _ _ [] evs s0 [] s l H0 eq_refl) as P. rewrite H4 in P. apply P; [rewrite H12; discriminate|exact E].
  Qed.

  (** ** When the manager knows an engine ID *)
  Lemma engine_stays s x s' l' : vstep C R rnd clk ns s x s' l' -> v_engine s <> None -> v_engine s' <> None.
  Proof.
    intros ST E. destruct (engine_eq_dec (v_engine s') (v_engine s)) as [X|X]; [congruence|].
    destruct (engine_change _ _ _ _ _ _ _ _ _ ST X) as (r & m & _ & E' & (e & E2) & _). congruence.
  Qed.
  (** A signed response has arrived. *)
  Definition signed_one (l : list log3) : Prop := exists h m sc, In (WPushed h m) l /\ authentic m = true /\ v3_scoped m = Some sc /\ pdu_cls (sp_pdu sc) <> ReportPDU.
  Definition answered_by (s : mgr3) (l : list log3) (r : nat) (m : v3msg) : Prop := In (WResponse r m) l \/ v_listener s = LStore r m.
  Record knows (s : mgr3) (l : list log3) : Prop := {
    kn_signed : forall r m, answered_by s l r m -> authentic m = true -> v_engine s <> None;
    kn_other : forall r m, answered_by s l r m -> v_engine s <> None \/ signed_one l;
    kn_state : no_discovery (v_state s) \/ (exists n, v_next s = Some n /\ no_discovery n) -> v_engine s <> None \/ signed_one l
  }.
  Lemma signed_more l l' : signed_one l -> signed_one (rev l' ++ l).
  Proof. intros (h & m & sc & P & A). exists h, m, sc. split; [apply in_or_app; now right|exact A]. Qed.
  Lemma moves_known s st nx : moves s st nx -> no_discovery st \/ (exists n, nx = Some n /\ no_discovery n) ->
    v_engine s <> None \/ no_discovery (v_state s) \/ (exists n, v_next s = Some n /\ no_discovery n).
  Proof.
    assert (NX : forall nx n, (nx = onInactive (v_state s) \/ (exists auth b, onRequest (v_state s) auth = (nx, b)) \/ (exists e b, onReport (v_state s) (v_engine s) e = Ok (nx, b))) ->
        nx = Some n -> no_discovery n -> no_discovery (v_state s)).
    { intros nx0 n H -> ND. unfold no_discovery in *. destruct H as [H|[(auth & b & H)|(e & b & H)]].
      - destruct (v_state s); cbn in H; try discriminate; injection H as ->; destruct ND as [ND|[ND|ND]]; try discriminate; auto.
      - destruct (v_state s); cbn in H; try discriminate; injection H as <- <-; destruct ND as [ND|[ND|ND]]; try discriminate; auto.
      - destruct (v_state s); cbn in H; try discriminate; auto; injection H as <- <-; destruct ND as [ND|[ND|ND]]; discriminate. }
    assert (AS : forall nx0 n, (nx0 = onInactive (v_state s) \/ (exists auth b, onRequest (v_state s) auth = (nx0, b)) \/ (exists e b, onReport (v_state s) (v_engine s) e = Ok (nx0, b))) ->
        assigned nx0 (v_next s) = Some n -> no_discovery n -> no_discovery (v_state s) \/ (exists n, v_next s = Some n /\ no_discovery n)).
    { intros nx0 n H E ND. destruct nx0 as [n0|]; cbn in E; [left; injection E as ->; eapply NX; eauto|right; eauto]. }
    intros M H. right. destruct M as [|nx0 K|nx0 K].
    - exact H.
    - destruct H as [H|(n & H & ND)]; [now left|]. eapply AS; eauto.
    - destruct H as [H|(n & H & _)]; [|discriminate]. destruct (assigned nx0 (v_next s)) as [n|] eqn:E; cbn in H; [|now left]. eapply AS; eauto.
  Qed.
  Lemma knows_step s x s' l l' : match_inv s l -> knows s l -> vstep C R rnd clk ns s x s' l' -> knows s' (rev l' ++ l).
  Proof.
    intros M K ST.
    assert (OLD : forall r m, In (WResponse r m) (rev l' ++ l) -> answered_by s l r m).
    { intros r m B. apply in_app_or in B as [B|B]; [|now left]. apply in_rev in B. right. apply (log_response _ _ _ _ _ _ _ _ _ _ _ ST B). }
    assert (UP : v_engine s <> None \/ signed_one l -> v_engine s' <> None \/ signed_one (rev l' ++ l)).
    { intros [E|E]; [left; eapply engine_stays; eauto|right; now apply signed_more]. }
    destruct (step_moves _ _ _ _ _ _ _ _ _ ST) as [(E & MV & LI)|(r0 & m0 & e0 & nx & L & EI & OR & AFT)].
    - assert (KEPT : forall r m, v_listener s' = LStore r m -> answered_by s l r m \/ (authentic m = false /\ no_discovery (v_state s))).
      { intros r m B. destruct (LI r m B) as [B'|(B' & e & EI & OR)]; [left; now right|right].
        unfold no_discovery. destruct (v_state s), (authentic m); cbn in OR; try discriminate; auto. }
      constructor.
      + intros r m [B|B] A; [rewrite E; eapply (kn_signed _ _ K); eauto|]. destruct (KEPT r m B) as [B'|[B' _]]; [rewrite E; eapply (kn_signed _ _ K); eauto|congruence].
      + intros r m [B|B]; apply UP; [eapply (kn_other _ _ K); eauto|]. destruct (KEPT r m B) as [B'|[_ B']]; [eapply (kn_other _ _ K); eauto|]. apply (kn_state _ _ K). now left.
      + intros ND. apply UP. destruct (moves_known _ _ _ MV ND) as [X|X]; [now left|]. now apply (kn_state _ _ K).
    - assert (SG : authentic m0 = true -> signed_one (rev l' ++ l)).
      { intros A. apply signed_more. destruct (m_listener _ _ M r0 m0 (or_introl L)) as (h & sc & P & _ & S & N). exists h, m0, sc. auto. }
      assert (NXT : forall n, assigned nx (v_next s) = Some n -> no_discovery n -> (v_engine s <> None \/ signed_one l) \/ authentic m0 = true).
      { intros n A ND. destruct nx as [n0|]; cbn in A.
        - injection A as ->. destruct (v_state s) eqn:VS, (authentic m0) eqn:AU; cbn in OR; try discriminate; auto.
          + left. apply (kn_state _ _ K). left. rewrite VS. right. now left.
        - left. apply (kn_state _ _ K). right. exists n. auto. }
      destruct AFT as [(E & S1 & S2 & S3)|(E & S1 & S2 & S3)].
      + constructor.
        * intros r m [B|B] A; [rewrite E; eapply (kn_signed _ _ K); eauto|congruence].
        * intros r m [B|B]; [apply UP; eapply (kn_other _ _ K); eauto|congruence].
        * rewrite S1, S2. intros [ND|(n & ND & ND')]; [apply UP, (kn_state _ _ K); now left|]. destruct (NXT n ND ND') as [X|X]; [now apply UP|right; now apply SG].
      + constructor.
        * intros r m _ _. rewrite E. discriminate.
        * intros r m _. left. rewrite E. discriminate.
        * intros _. left. rewrite E. discriminate.
  Qed.
  Lemma knows_run u maxSize cfg s0 evs s l : mgr3_new C rnd ns u maxSize cfg = (s0, Ok tt) -> m3_run s0 evs = (s, l) -> knows s l.
  Proof.
    intros H0 E. enough (match_inv s l /\ knows s l) by tauto. revert evs s l E. apply (history_ind C R rnd clk fmt ns s0 (fun _ s l => match_inv s l /\ knows s l)); [eapply base_start; eauto| |].
    - split; [apply (match_run C R rnd clk fmt ns u maxSize cfg s0 (Ok tt) []); auto|].
      apply start_fields in H0 as (_ & _ & _ & _ & _ & _ & _ & H8 & H9 & _ & _ & H12 & H13). specialize (H12 eq_refl).
      constructor; unfold answered_by; rewrite ?H8, ?H9, ?H12, ?H13.
      + intros r m [[]|X]; discriminate.
      + intros r m [[]|X]; discriminate.
      + destruct cfg; [left; discriminate|]. intros [[X|[X|X]]|(n & X & _)]; discriminate.
    - intros evs s l x s' l' _ B [K1 K2] ST. split; [eapply match_step; eauto|eapply knows_step; eauto].
  Qed.
  (** What a new request sends. *)
  Lemma plain_sent k s l x s' l' r h w now p e u lv wire : base s -> plain k s l -> vstep C R rnd clk ns s x s' l' ->
    In (WSent r h w now p e u lv wire) l' -> over k s l r \/ (p = q_pdu (get3 (v_reqs s) r) /\ u = q_user (get3 (v_reqs s) r) /\ lv = q_level (get3 (v_reqs s) r)).
  Proof.
    intros [I W] P ST S. destruct (step_class _ _ _ _ _ _ _ _ _ I W ST) as [SS|QS]; [|apply (qs_log _ _ _ _ _ QS) in S; discriminate].
    destruct SS as [r1 w1 sc eng s1 s2 y SB R1 M1 P1 B1 C1 R2 M2 P2 B2 AL CASE].
    inversion SB; subst; [destruct S as [S|[]]; discriminate|].
    assert (X : r1 = r /\ w1 = w /\ (p, e, u, lv) = (d, e0, user, lev)).
    { destruct H2 as [(wi & _ & EQ)|(ex & _ & EQ)]; rewrite EQ in S; destruct S as [S|[]]; [|discriminate]. injection S. intros; subst; auto. }
    destruct X as (-> & -> & X). injection X as -> -> -> ->.
    assert (EN : over k s l r \/ engine_after eng (get3 (v_reqs s) r) <> None).
    { destruct eng as [e1|]; [right; discriminate|]. cbn [engine_after]. destruct w; try (destruct CASE as (X & _); exfalso; now apply (p_mgr _ _ _ P)).
      - destruct CASE as (_ & _ & r9 & e9 & w9 & rest9 & _ & Y & _). discriminate.
      - destruct CASE as (_ & _ & _ & (t & HE) & _). destruct (p_heap _ _ _ P r) as [O|E]; [rewrite HE; now left|now left|now right].
      - destruct CASE as (_ & _ & e9 & _ & Y & _). discriminate.
      - destruct CASE as (_ & _ & e9 & _ & Y & _). discriminate. }
    destruct EN as [O|EN]; [now left|right]. unfold q in H. rewrite R1 in H. unfold target in H. destruct (engine_after eng (get3 (v_reqs s) r)); [|now destruct EN].
    injection H as -> _ -> ->. auto.
  Qed.
End Run.
