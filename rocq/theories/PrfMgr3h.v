(** PrfMgr3h.v -- the SNMPv3 manager: how often notInTimeWindows reports make it
    send (C48). *)
From Verif Require Export PrfMgr3g.
From Coq Require Import Permutation.

Lemma count_app f a b : count f (a ++ b) = (count f a + count f b)%nat.
Proof. unfold count. now rewrite filter_app, app_length. Qed.
Lemma filter_none (f : log3 -> bool) l : (forall y, In y l -> f y = false) -> filter f l = [].
Proof. induction l as [|y l IH]; cbn; intros H; [auto|]. rewrite (H y) by auto. apply IH. auto. Qed.
Lemma count_zero f l : (forall y, In y l -> f y = false) -> count f (rev l) = 0%nat.
Proof. intros H. unfold count. rewrite filter_none; [auto|]. intros y B. apply H. now apply in_rev. Qed.

Section Time.
  Context (C : crypto) (R : Z) (rnd : nat -> nat -> Z) (clk : nat -> Z) (fmt : v3msg -> bool) (ns : pystr).
  Notation m3_run := (m3_run C R rnd clk fmt ns).
  Notation vstep := (vstep C R rnd clk ns).
  Notation tstep := (tstep C rnd clk ns).
  Notation lstep := (lstep clk).

  (** The messages of this manager. *)
  Definition mine (s : mgr3) : list msg3 := filter g_own (v_msgs s).
  (** Some message of [r] has the SharedBool that [r] has now. *)
  Definition armed (s : mgr3) (r : nat) : bool :=
    existsb (fun g => Nat.eqb (g_req g) r && Nat.eqb (g_sync g) (q_sync (get3 (v_reqs s) r))) (mine s).
  Definition credit (s : mgr3) (r : nat) : nat :=
    match v_listener s with
    | LDrain r' _ ByNotInTime | LSync r' => if Nat.eqb r' r then 1 else 0
    | _ => 0
    end.
  Record time_inv (s : mgr3) (l : list log3) : Prop := {
    t_msg : forall g, In g (mine s) -> (g_sync g < length (v_bools s))%nat;
    t_req : forall r, (r < length (v_reqs s))%nat -> (q_sync (get3 (v_reqs s) r) < length (v_bools s))%nat;
    t_old : forall g, In g (mine s) -> g_sync g = q_sync (get3 (v_reqs s) (g_req g)) \/ nth (g_sync g) (v_bools s) true = true;
    t_armed : forall r, (exists e, v_listener s = LReport r e ByNotInTime \/ v_listener s = LDrain r e ByNotInTime) \/ v_listener s = LSync r -> armed s r = true;
    t_log : forall y r, In y l -> time_sent r y = true \/ other_made r y = true -> (r < length (v_reqs s))%nat;
    t_count : forall r, (r < length (v_reqs s))%nat ->
      (count (time_sent r) l + (if armed s r then 1 else 0) <= count (other_made r) l + count drain_failed l + credit s r)%nat
  }.
  Lemma armed_iff s r : armed s r = true <-> exists g, In g (mine s) /\ g_req g = r /\ g_sync g = q_sync (get3 (v_reqs s) r).
  Proof.
    unfold armed. rewrite existsb_exists. split; intros (g & G & H); exists g; (split; [auto|]).
    - apply andb_prop in H as [H1 H2]. apply Nat.eqb_eq in H1, H2. auto.
    - destruct H as [H1 H2]. rewrite H1, H2, !Nat.eqb_refl. auto.
  Qed.
  Lemma in_msgs s g : In g (mine s) <-> exists h, (h < length (v_msgs s))%nat /\ getm (v_msgs s) h = g /\ g_own g = true.
  Proof.
    unfold mine. rewrite filter_In. split.
    - intros [H O]. apply (In_nth _ _ no_msg3) in H as (h & L & E). exists h. auto.
    - intros (h & L & E & O). split; [|exact O]. rewrite <- E. apply nth_In. exact L.
  Qed.
  (** The messages stay as they are. *)
  Lemma msgs_back s s' g : evo3 s s' -> length (v_msgs s') = length (v_msgs s) \/ outside s s' -> In g (mine s') ->
    exists g0, In g0 (mine s) /\ g_req g = g_req g0 /\ g_sync g = g_sync g0.
  Proof.
    intros (_ & _ & _ & _ & E) L G. apply in_msgs in G as (h & H & <- & O).
    assert (K : (h < length (v_msgs s))%nat).
    { destruct L as [L|L]; [lia|]. destruct (le_lt_dec (length (v_msgs s)) h) as [K|K]; [|exact K]. destruct L as (u & p & c & m & -> & _ & _ & _ & _ & N & _).
      destruct (N h K) as (_ & _ & X & _). cbn in O. congruence. }
    destruct (E h K) as (E1 & E2 & E3 & _). exists (getm (v_msgs s) h). split; [|auto]. apply in_msgs. exists h. split; [exact K|]. split; [reflexivity|congruence].
  Qed.
  Lemma msgs_forth s s' g : evo3 s s' -> In g (mine s) -> exists g', In g' (mine s') /\ g_req g' = g_req g /\ g_sync g' = g_sync g.
  Proof.
    intros (_ & _ & _ & L & E) G. apply in_msgs in G as (h & H & <- & O). destruct (E h H) as (E1 & E2 & E3 & _). exists (getm (v_msgs s') h). split; [|auto].
    apply in_msgs. exists h. split; [lia|]. split; [reflexivity|congruence].
  Qed.
  Lemma drain_next s x s' l r e w : vstep s x s' l -> v_listener s = LDrain r e w ->
    v_listener s' = LDrain r e w \/ v_listener s' = reported_done r w \/ (v_listener s' = LIdle /\ exists q h ex, In (WFailed q h ByDrain ex) l).
  Proof.
    intros ST LD. inversion ST; subst; auto; try congruence.
    - left. cbn. rewrite (tstep_listener _ _ _ _ _ _ _ _ _ H0). auto.
    - inversion H; subst; auto; try congruence.
      + right. left. cbn. congruence.
      + right. right. split; [reflexivity|]. apply sends_raise in H3 as [h H3]. eauto.
      + left. match goal with |- context [push3 ?z q] => destruct (push3_fields z q) as (_ & _ & _ & _ & _ & ->) end. inversion H3; subst; exact LD.
    - left. destruct H0 as (u & p & q & m & -> & _). exact LD.
    - left. destruct H0 as (u & p & q & m & -> & _). exact LD.
  Qed.
  Lemma sync_next s x s' l r : vstep s x s' l -> v_listener s = LSync r ->
    v_listener s' = LSync r \/ (v_listener s' = LIdle /\ length (v_bools s') <> length (v_bools s)).
  Proof.
    intros ST LD. inversion ST; subst; auto; try congruence.
    - left. cbn. rewrite (tstep_listener _ _ _ _ _ _ _ _ _ H0). auto.
    - inversion H; subst; auto; try congruence. right. split; [reflexivity|]. cbn. rewrite app_length, put_length. cbn. lia.
    - left. destruct H0 as (u & p & q & m & -> & _). exact LD.
    - left. destruct H0 as (u & p & q & m & -> & _). exact LD.
  Qed.
  Lemma time_start u maxSize cfg s0 y : mgr3_new C rnd ns u maxSize cfg = (s0, y) -> time_inv s0 [].
  Proof.
    intros H0. apply start_fields in H0 as (_ & _ & _ & H4 & H5 & H6 & _ & H8 & _).
    constructor; unfold mine; rewrite ?H4, ?H5, ?H6, ?H8; cbn; try contradiction; try (intros; lia). intros r [(e & [X|X])|X]; discriminate.
  Qed.
  Lemma time_step s x s' l l' : base s -> time_inv s l -> vstep s x s' l' -> time_inv s' (rev l' ++ l).
  Proof.
    intros [I W] [T1 T2 T3 T4 T5 T6] ST. pose proof (step_spec _ _ _ _ _ _ _ _ _ I ST) as (I' & EV & _).
    pose proof EV as (_ & EL & EQ & EM & EG). assert (LM := step_listener _ _ _ _ _ _ _ _ _ ST).
    assert (GR : forall g, In g (mine s) -> (g_req g < length (v_reqs s))%nat).
    { intros g G. apply in_msgs in G as (h & H & <- & O). apply (proj1 (i3_msgs s I)); assumption. }
    (* armed when a report comes in *)
    assert (AR : forall r, (exists e, v_listener s' = LReport r e ByNotInTime \/ v_listener s' = LDrain r e ByNotInTime) \/ v_listener s' = LSync r ->
       armed s r = true).
    { intros r H. inversion LM as [N E|E|d u h m L0 L1 L2 E|h m e0 w0 vb L0 L1 L2 L3 g L4 E|h m e0 sc L0 L1 L2 L3 L4 E|r0 e0 w0 L0 E|r0 e0 w0 L0 E|r0 m L0 E]; rewrite <- E in H.
      - rewrite E in H. apply T4. rewrite E. exact H.
      - destruct H as [(e & [H|H])|H]; discriminate.
      - destruct H as [(e & [H|H])|H]; discriminate.
      - destruct H as [(e & [H|H])|H]; try discriminate. injection H as <- <- ->. destruct L4 as [(X & _)|(_ & _ & NB)]; [discriminate|].
        pose proof (i3_push s I _ _ L0) as [LH LO]. assert (G : In g (mine s)) by (apply in_msgs; exists h; auto).
        apply armed_iff. exists g. split; [auto|]. split; [auto|]. destruct (T3 g G); [auto|congruence].
      - destruct H as [(e & [H|H])|H]; discriminate.
      - destruct H as [(e & [H|H])|H]; try discriminate. injection H as <- <- ->. apply T4. left. eauto.
      - destruct w0; try (destruct H as [(e & [H|H])|H]; discriminate). cbn in H. destruct H as [(e & [H|H])|H]; try discriminate. injection H as ->.
        destruct L0 as [L0|L0]; apply T4; left; eauto.
      - destruct H as [(e & [H|H])|H]; discriminate. }
    destruct (step_class _ _ _ _ _ _ _ _ _ I W ST) as [SS|QS].
    - (* a message *)
      destruct SS as [r w sc eng s1 s2 y SB R1 M1 P1 B1 C1 R2 M2 P2 B2 AL CASE]. pose proof (get3_alive_lt _ _ AL) as LT.
      assert (QS : forall q, q_sync (get3 (v_reqs s') q) = q_sync (get3 (v_reqs s) q)).
      { intros q0. rewrite R2. destruct (sent_by_reqs _ _ _ _ _ _ _ _ _ SB) as [e' ->]. rewrite R1, get3_put. destruct (_ && _)%bool eqn:X; [|auto].
        apply andb_prop in X as [X _]. apply Nat.eqb_eq in X as <-. reflexivity. }
      assert (LR : length (v_reqs s') = length (v_reqs s)) by (rewrite R2; destruct (sent_by_reqs _ _ _ _ _ _ _ _ _ SB) as [e' ->]; now rewrite put_length, R1).
      assert (BB : v_bools s' = v_bools s).
      { rewrite B2, <- B1. now destruct (sent_by_frame _ _ _ _ _ _ _ _ _ SB) as (_ & _ & _ & _ & _ & _ & _ & _ & -> & _). }
      destruct (sent_by_msgs _ _ _ _ _ _ _ _ _ SB) as (extra & MX & GX0).
      assert (GX : forall g, In g extra -> g_req g = r /\ g_sync g = q_sync (get3 (v_reqs s1) r)) by (intros g G; destruct (GX0 g G) as (? & ? & _); auto).
      assert (GO : forall g, In g extra -> g_own g = true) by (intros g G; apply (GX0 g G)). rewrite M1, <- M2 in MX. rewrite R1 in GX.
      assert (MF : mine s' = mine s ++ extra).
      { unfold mine. rewrite MX, filter_app. f_equal. clear - GO. induction extra as [|g l IH]; [reflexivity|]. cbn. rewrite (GO g (or_introl eq_refl)). f_equal. apply IH. intros g' G'. apply GO. now right. }
      assert (ARM : forall q, armed s q = true -> armed s' q = true).
      { intros q0 A. apply armed_iff in A as (g & G & G1 & G2). apply armed_iff. exists g. rewrite MF, QS. split; [apply in_or_app; auto|auto]. }
      assert (ARM' : forall q, q <> r -> armed s' q = armed s q).
      { intros q0 N. destruct (armed s' q0) eqn:A'; [|destruct (armed s q0) eqn:A; [rewrite ARM in A' by auto; discriminate|auto]].
        symmetry. apply armed_iff in A' as (g & G & G1 & G2). apply armed_iff. exists g. rewrite MF in G. rewrite QS in G2. apply in_app_or in G as [G|G]; [auto|]. apply GX in G as [G _]. congruence. }
      constructor.
      + rewrite MF, BB. intros g G. apply in_app_or in G as [G|G]; [auto|]. apply GX in G as [_ ->]. auto.
      + rewrite LR, BB. intros r' L. rewrite QS. auto.
      + rewrite MF, BB. intros g G. rewrite QS. apply in_app_or in G as [G|G]; [auto|]. apply GX in G as [-> ->]. auto.
      + intros r' H. apply ARM, AR, H.
      + intros y0 r' B H. rewrite LR. apply in_log in B as [B|B]; [|eapply T5; eauto]. assert (r' = r) as ->; [|auto].
        destruct (sent_by_log _ _ _ _ _ _ _ _ _ SB) as [(_ & h & d & e & user & lev & wire & ->)|(ex & h & _ & ->)]; destruct B as [<-|[]]; cbn in H.
        * destruct H as [H|H]; apply andb_prop in H as [H _]; now apply Nat.eqb_eq in H.
        * destruct H as [H|H]; [discriminate|]. destruct h; [|discriminate]. apply andb_prop in H as [H _]; now apply Nat.eqb_eq in H.
      + intros r' L. rewrite LR in L. specialize (T6 r' L). rewrite !count_app.
        (* the listener *)
        assert (CR : (credit s r' <= credit s' r' + count drain_failed (rev l') + (if for_time w && Nat.eqb r r' then 1 else 0))%nat).
        { destruct w.
          - destruct CASE as (_ & _ & _ & _ & E). unfold credit. rewrite E. lia.
          - destruct CASE as (_ & _ & _ & _ & E). unfold credit. rewrite E. lia.
          - destruct CASE as (_ & _ & r0 & e0 & w0 & rest & E & _ & _ & _ & E'). destruct y as [u|ex].
            + unfold credit. rewrite E, E'. lia.
            + destruct (sent_by_log _ _ _ _ _ _ _ _ _ SB) as [(X & _)|(ex' & h & X & ->)]; [discriminate|]. cbn. unfold credit. rewrite E. destruct w0; try destruct (Nat.eqb r0 r'); lia.
          - destruct CASE as (_ & _ & _ & _ & _ & E). unfold credit. rewrite E. lia.
          - destruct CASE as (_ & _ & e & E & _). unfold credit. rewrite E. lia.
          - destruct CASE as (_ & _ & e & E & _). unfold credit. rewrite E. lia. }
        destruct (Nat.eq_dec r' r) as [->|N].
        * destruct (for_time w) eqn:TW.
          -- destruct w; try discriminate. destruct CASE as (_ & _ & e & E & _ & _ & E'). assert (A : armed s r = true) by (apply T4; eauto). rewrite A in T6. rewrite (ARM r A).
             assert (C0 : credit s r = 0%nat) by (unfold credit; now rewrite E).
             destruct (sent_by_log _ _ _ _ _ _ _ _ _ SB) as [(-> & h & d & e' & user & lev & wire & ->)|(ex & h & _ & ->)]; cbn.
             ++ rewrite !Nat.eqb_refl. cbn. assert (C1' : credit s' r = 1%nat) by (unfold credit; destruct (E' eq_refl) as [->| ->]; cbn; now rewrite Nat.eqb_refl). lia.
             ++ destruct h; rewrite ?Nat.eqb_refl; cbn; lia.
          -- cbn [andb] in CR. destruct (list_eq_dec Nat.eq_dec [] (map g_req extra)) as [EX|EX].
             ++ assert (extra = []) as -> by (destruct extra; [auto|discriminate]). rewrite app_nil_r in MF.
                assert (A : armed s' r = armed s r) by (unfold armed; now rewrite MF, QS). rewrite A.
                destruct (sent_by_log _ _ _ _ _ _ _ _ _ SB) as [(-> & h & d & e' & user & lev & wire & ->)|(ex & h & _ & ->)]; cbn in *; [rewrite Nat.eqb_refl, TW; cbn; lia|].
                destruct h; destruct w; cbn in *; rewrite ?Nat.eqb_refl; cbn; lia.
             ++ assert (OM : count (other_made r) (rev l') = 1%nat /\ count (time_sent r) (rev l') = 0%nat).
                { inversion SB; subst.
                  - exfalso. apply EX. destruct extra; [reflexivity|]. exfalso. apply (f_equal (@length msg3)) in MX. rewrite app_length, M2 in MX. cbn in MX. rewrite M1 in MX. lia.
                  - match goal with X : _ \/ _ |- _ => destruct X as [(? & _ & ->)|(? & _ & ->)] end; unfold count; cbn; rewrite Nat.eqb_refl, ?TW; cbn; auto. }
                destruct OM as [-> ->]. destruct (armed s' r), (armed s r); lia.
        * rewrite (ARM' r' N). assert (OM : count (other_made r') (rev l') = 0%nat /\ count (time_sent r') (rev l') = 0%nat).
          { apply Nat.eqb_neq in N. rewrite Nat.eqb_sym in N. destruct (sent_by_log _ _ _ _ _ _ _ _ _ SB) as [(-> & h & d & e' & user & lev & wire & ->)|(ex & h & _ & ->)]; unfold count; cbn; rewrite ?N; auto. destruct h; cbn; rewrite ?N; auto. }
          destruct OM as [-> ->]. apply not_eq_sym in N. apply Nat.eqb_neq in N. rewrite N, andb_false_r in CR. lia.
    - (* no message *)
      assert (MB := fun g => msgs_back s s' g EV (match qs_msgs _ _ _ _ _ QS with or_introl e => or_introl e | or_intror (conj _ o) => or_intror o end)).
      assert (Z : forall f, (forall y, sends_something y = false -> f y = false) -> count f (rev l') = 0%nat).
      { intros f F. apply count_zero. intros y B. apply F. now apply (qs_log _ _ _ _ _ QS). }
      assert (Z1 : forall r, count (time_sent r) (rev l') = 0%nat) by (intros r; apply Z; intros []; cbn; auto; discriminate).
      assert (Z2 : forall r, count (other_made r) (rev l') = 0%nat) by (intros r; apply Z; intros []; cbn; auto; discriminate).
      assert (Z3 : count drain_failed (rev l') = 0%nat) by (apply Z; intros []; cbn; auto; discriminate).
      assert (NEW : forall r, (r < length (v_reqs s'))%nat -> (r < length (v_reqs s))%nat \/ (r = length (v_reqs s) /\ (q_sync (get3 (v_reqs s') r) = length (v_bools s)) /\ exists p u le t pe, x = VCall p u le t pe)).
      { intros r L. destruct (qs_new _ _ _ _ _ QS) as [E|(p & user & level & timeout & period & id & -> & E)]; [left; lia|].
        rewrite E, app_length in L. cbn in L. destruct (Nat.eq_dec r (length (v_reqs s))) as [->|]; [right|left; lia]. split; [auto|]. rewrite E, get3_app, Nat.eqb_refl. cbn. split; [auto|]. eauto 8. }
      assert (LOGS : forall y r, In y (rev l' ++ l) -> time_sent r y = true \/ other_made r y = true -> (r < length (v_reqs s'))%nat).
      { intros y0 r' B H. apply in_log in B as [B|B]; [|specialize (T5 _ _ B H); lia]. apply (qs_log _ _ _ _ _ QS) in B. destruct y0; cbn in *; try discriminate; destruct H; discriminate. }
      assert (NEWC : forall r, r = length (v_reqs s) -> count (time_sent r) l = 0%nat).
      { intros r ->. unfold count. rewrite filter_none; [auto|]. intros y B. destruct (time_sent _ y) eqn:Y; [|auto]. specialize (T5 y _ B (or_introl Y)). lia. }
      assert (NEWA : forall r, r = length (v_reqs s) -> armed s' r = false).
      { intros r ->. destruct (armed s' (length (v_reqs s))) eqn:A; [|auto]. exfalso. apply armed_iff in A as (g & G & G1 & _). destruct (MB g G) as (g0 & G0 & E1 & _). apply GR in G0. lia. }
      destruct (qs_sync _ _ _ _ _ QS) as [[EB ES]|[(EB & EC & ES)|(r0 & L0 & L1 & EB & ES)]].
      + (* nothing changes *)
        assert (CR : forall r, (credit s r <= credit s' r)%nat).
        { intros r. unfold credit. destruct (v_listener s) as [| | |r1 e1 w1|r1| |] eqn:L; try lia.
          - destruct w1; try lia. destruct (drain_next _ _ _ _ _ _ _ ST L) as [->|[->|(_ & q & h & ex & X)]]; cbn; try lia. apply (qs_log _ _ _ _ _ QS) in X. discriminate.
          - destruct (sync_next _ _ _ _ _ ST L) as [->|(_ & X)]; [lia|]. rewrite EB in X. congruence. }
        assert (ARM : forall r, (r < length (v_reqs s))%nat -> armed s' r = armed s r).
        { intros r L. assert (X : armed s' r = true <-> armed s r = true); [|destruct (armed s' r), (armed s r); try reflexivity; [symmetry|]; tauto].
          rewrite !armed_iff, ES by auto. split; intros (g & G & G1 & G2).
          - destruct (MB g G) as (g0 & G0 & E1 & E2). exists g0. split; [auto|]. split; congruence.
          - destruct (msgs_forth s s' g EV G) as (g' & G' & E1 & E2). exists g'. split; [auto|]. split; congruence. }
        constructor; auto.
        * intros g G. destruct (MB g G) as (g0 & G0 & E1 & ->). rewrite EB. auto.
        * intros r L. destruct (NEW r L) as [L2|(-> & X & p & u & le & t & pe & ->)]; [rewrite ES, EB by auto; auto|].
          exfalso. inversion ST; subst; [lia| |match goal with X : others_event _ |- _ => destruct X end]. cbn in EB. apply (f_equal (@length bool)) in EB. rewrite app_length in EB. cbn in EB. lia.
        * intros g G. destruct (MB g G) as (g0 & G0 & -> & ->). rewrite EB, ES by auto. auto.
        * intros r H. assert (A := AR r H). rewrite ARM; [auto|]. apply armed_iff in A as (g & G & <- & _). auto.
        * intros r L. rewrite !count_app, Z1, Z2, Z3. destruct (NEW r L) as [L2|(-> & _)]; [rewrite ARM by auto; specialize (T6 r L2); specialize (CR r); lia|].
          rewrite NEWA, NEWC by auto. lia.
      + (* sendRequest *)
        destruct EC as (p & u & le & t & pe & ->).
        assert (LI : v_listener s' = v_listener s) by (inversion ST; subst; [reflexivity|reflexivity|match goal with X : others_event _ |- _ => destruct X end]).
        assert (ARM : forall r, (r < length (v_reqs s))%nat -> armed s' r = armed s r).
        { intros r L. assert (X : armed s' r = true <-> armed s r = true); [|destruct (armed s' r), (armed s r); try reflexivity; [symmetry|]; tauto].
          rewrite !armed_iff, ES by auto. split; intros (g & G & G1 & G2).
          - destruct (MB g G) as (g0 & G0 & E1 & E2). exists g0. split; [auto|]. split; congruence.
          - destruct (msgs_forth s s' g EV G) as (g' & G' & E1 & E2). exists g'. split; [auto|]. split; congruence. }
        constructor; auto.
        * intros g G. destruct (MB g G) as (g0 & G0 & E1 & ->). rewrite EB, app_length. specialize (T1 g0 G0). lia.
        * intros r L. rewrite EB, app_length. cbn. destruct (NEW r L) as [L2|(-> & X & _)]; [rewrite ES by auto; specialize (T2 r L2); lia|lia].
        * intros g G. destruct (MB g G) as (g0 & G0 & -> & ->). rewrite EB, ES by auto. rewrite app_nth1 by auto. auto.
        * intros r H. assert (A := AR r H). rewrite ARM; [auto|]. apply armed_iff in A as (g & G & <- & _). auto.
        * intros r L. rewrite !count_app, Z1, Z2, Z3. destruct (NEW r L) as [L2|(-> & _)]; [rewrite ARM by auto; specialize (T6 r L2); unfold credit in *; rewrite LI; lia|].
          rewrite NEWA, NEWC by auto. lia.
      + (* the end of a round *)
        assert (A0 : armed s r0 = true) by auto. pose proof A0 as A1. apply armed_iff in A1 as (g1 & G1 & <- & _). set (r0 := g_req g1) in *. pose proof (GR g1 G1) as LT0. fold r0 in LT0.
        assert (SY0 : q_sync (get3 (v_reqs s') r0) = length (v_bools s)) by (rewrite ES, Nat.eqb_refl by auto; auto).
        assert (AR0 : armed s' r0 = false).
        { destruct (armed s' r0) eqn:A; [|auto]. exfalso. apply armed_iff in A as (g & G & G1' & G2). destruct (MB g G) as (g0 & G0 & E1 & E2). specialize (T1 g0 G0). lia. }
        assert (ARM : forall r, (r < length (v_reqs s))%nat -> r <> r0 -> armed s' r = armed s r).
        { intros r L N. assert (X : armed s' r = true <-> armed s r = true); [|destruct (armed s' r), (armed s r); try reflexivity; [symmetry|]; tauto].
          apply Nat.eqb_neq in N. rewrite !armed_iff, ES, N by auto. split; intros (g & G & G1' & G2).
          - destruct (MB g G) as (g0 & G0 & E1 & E2). exists g0. split; [auto|]. split; congruence.
          - destruct (msgs_forth s s' g EV G) as (g' & G' & E1 & E2). exists g'. split; [auto|]. split; congruence. }
        assert (NBL : forall i, (i < length (v_bools s))%nat -> nth i (v_bools s') true = if Nat.eqb (q_sync (get3 (v_reqs s) r0)) i then true else nth i (v_bools s) true).
        { intros i L. rewrite EB, app_nth1 by (now rewrite put_length). destruct (Nat.eqb_spec (q_sync (get3 (v_reqs s) r0)) i) as [->|N].
          - apply nth_error_nth. now apply put_same.
          - apply nth_error_nth. rewrite put_other by auto. now apply nth_error_nth'. }
        assert (LB : length (v_bools s') = S (length (v_bools s))) by (rewrite EB, app_length, put_length; cbn; lia).
        constructor; auto.
        * intros g G. destruct (MB g G) as (g0 & G0 & E1 & ->). rewrite LB. specialize (T1 g0 G0). lia.
        * intros r L. rewrite LB. destruct (NEW r L) as [L2|(-> & X & _)]; [|lia]. rewrite ES by auto. destruct (Nat.eqb r r0); [lia|]. specialize (T2 r L2). lia.
        * intros g G. destruct (MB g G) as (g0 & G0 & -> & ->). rewrite ES by auto. rewrite NBL by auto. destruct (T3 g0 G0) as [E|E]; [|right; destruct (Nat.eqb _ _); auto].
          destruct (Nat.eqb_spec (g_req g0) r0) as [E0|N0]; [|auto]. right. rewrite E, E0, Nat.eqb_refl. auto.
        * intros r [(e & [H|H])|H]; rewrite L1 in H; discriminate.
        * intros r L. rewrite !count_app, Z1, Z2, Z3. destruct (NEW r L) as [L2|(-> & _)]; [|rewrite NEWA, NEWC by auto; lia].
          specialize (T6 r L2). unfold credit in *. rewrite L0 in T6. rewrite L1. destruct (Nat.eqb_spec r0 r) as [<-|N].
          -- rewrite A0 in T6. rewrite AR0. lia.
          -- rewrite ARM by auto. lia.
  Qed.
  Lemma time_run u maxSize cfg s0 y evs s l : mgr3_new C rnd ns u maxSize cfg = (s0, y) -> m3_run s0 evs = (s, l) -> time_inv s l.
  Proof.
    intros H0 E. revert evs s l E. apply (history_ind C R rnd clk fmt ns s0 (fun _ s l => time_inv s l)); [eapply base_start; eauto|eapply time_start; eauto|].
    intros evs s l x s' l' _ B K ST. eapply time_step; eauto.
  Qed.
  Lemma time_bound u maxSize cfg s0 y evs s l r : mgr3_new C rnd ns u maxSize cfg = (s0, y) -> m3_run s0 evs = (s, l) ->
    (count (time_sent r) l <= count (other_made r) l + count drain_failed l)%nat.
  Proof.
    intros H0 E. pose proof (time_run _ _ _ _ _ _ _ _ H0 E) as [_ _ _ T4 T5 T6]. destruct (le_lt_dec (length (v_reqs s)) r) as [G|L].
    - unfold count at 1. rewrite filter_none; [cbn; lia|]. intros z B. destruct (time_sent r z) eqn:Z; [|auto]. specialize (T5 _ _ B (or_introl Z)). lia.
    - specialize (T6 r L). destruct (armed s r) eqn:A.
      + assert (credit s r <= 1)%nat by (unfold credit; destruct (v_listener s); try lia; [destruct w; try lia|]; destruct (Nat.eqb _ _); lia). lia.
      + assert (credit s r = 0)%nat; [|lia]. unfold credit. destruct (v_listener s) as [| | |r1 e1 w1|r1| |] eqn:L0; auto.
        * destruct w1; auto. destruct (Nat.eqb_spec r1 r) as [->|]; [|auto]. rewrite T4 in A by eauto. discriminate.
        * destruct (Nat.eqb_spec r1 r) as [->|]; [|auto]. rewrite T4 in A by eauto. discriminate.
  Qed.
End Time.
