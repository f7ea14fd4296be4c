(** PrfLost3.v -- SNMPv3: a request that is neither in the heap nor queued, and for
    which no message was ever made, will never be sent. *)
From Verif Require Import PrfSeq3 SpecMgr3.
From Coq Require Import Permutation.

Section Lost.
  Context (C : crypto) (R : Z) (rnd : nat -> nat -> Z) (clk : nat -> Z) (fmt : v3msg -> bool) (ns : pystr).
  Notation m3_run := (m3_run C R rnd clk fmt ns).
  Notation vstep := (vstep C R rnd clk ns).

  Definition touches (r : nat) (y : log3) : Prop :=
    tries r y \/ match y with WResponse r' _ | WReport r' _ _ _ => r' = r | _ => False end.
  (** The request of the method run by the listener has a message. *)
  Record logged (s : mgr3) (l : list log3) : Prop := {
    lg_msgs : forall h, (h < length (v_msgs s))%nat -> g_own (getm (v_msgs s) h) = true -> exists y, In y l /\ tries (g_req (getm (v_msgs s) h)) y;
    lg_listener : forall r, listener_req (v_listener s) = Some r -> exists y, In y l /\ tries r y;
    lg_log : forall r y, In y l -> touches r y -> exists y, In y l /\ tries r y
  }.
  Lemma listener_from s x s' l' r : vstep s x s' l' -> listener_req (v_listener s') = Some r ->
    listener_req (v_listener s) = Some r \/ exists h m, v_listener s = LPush h m /\ r = g_req (getm (v_msgs s) h).
  Proof.
    intros ST L. pose proof (step_listener _ _ _ _ _ _ _ _ _ ST) as LM.
    remember (v_listener s') as lis. destruct LM; cbn [listener_req] in L; try discriminate L.
    - left. rewrite <- L. reflexivity.
    - right. exists h, m. split; [assumption|]. injection L as <-. reflexivity.
    - right. exists h, m. split; [assumption|]. injection L as <-. reflexivity.
    - left. rewrite H. exact L.
    - left. assert (Q : Some r0 = Some r) by (revert L; unfold reported_done; destruct w; cbn; intros Q; try discriminate Q; exact Q). destruct H as [-> | ->]; exact Q.
    - left. rewrite H. exact L.
  Qed.
  Lemma msgs_from s x s' l' h : base s -> vstep s x s' l' -> (h < length (v_msgs s'))%nat -> g_own (getm (v_msgs s') h) = true ->
    ((h < length (v_msgs s))%nat /\ g_own (getm (v_msgs s) h) = true /\ g_req (getm (v_msgs s') h) = g_req (getm (v_msgs s) h)) \/ exists y, In y l' /\ tries (g_req (getm (v_msgs s') h)) y.
  Proof.
    intros [I W] ST L OW. pose proof (step_spec _ _ _ _ _ _ _ _ _ I ST) as (_ & (_ & _ & _ & ML & MQ) & _).
    destruct (le_lt_dec (length (v_msgs s)) h) as [G|G]; [right|left; split; [exact G|destruct (MQ h G) as (M1 & _ & M2 & _); split; [congruence|exact M1]]].
    destruct (step_class _ _ _ _ _ _ _ _ _ I W ST) as [[r w sc eng s1 s2 y SB E1 E2 E3 E4 E5 F1 F2 F3 F4 AL D]|Q]; [|exfalso; destruct (qs_msgs _ _ _ _ _ Q) as [M|[_ M]]; [lia|]; destruct M as (u & p & c & m & -> & _ & _ & _ & _ & M & _); destruct (M h G) as (_ & _ & M3 & _); cbn [v_msgs set_objects] in OW; congruence].
    destruct (sent_by_msgs _ _ _ _ _ _ _ _ _ SB) as (extra & M & X). rewrite F2, M, E2 in *.
    assert (GR : g_req (getm (v_msgs s ++ extra) h) = r).
    { unfold getm. rewrite app_nth2 by exact G. apply (X (nth (h - length (v_msgs s)) extra no_msg3)). apply nth_In. rewrite app_length in L. lia. }
    rewrite GR. apply sent_by_log in SB as [(_ & h0 & d0 & e0 & u0 & lev0 & w0 & ->)|(ex & h0 & _ & ->)]; (eexists; split; [left; reflexivity|reflexivity]).
  Qed.
  (** A step that brings something for [r], but does not try to send it. *)
  Lemma touched_by s x s' l' r y : vstep s x s' l' -> In y l' -> touches r y -> ~ tries r y ->
    listener_req (v_listener s) = Some r \/ exists h m, v_listener s = LPush h m /\ g_req (getm (v_msgs s) h) = r.
  Proof.
    intros ST IN [T|T] NT; [destruct (NT T)|]. clear NT.
    assert (SIL : forall a b c d f g k z, sends a b c d f g k z -> In y k -> False).
    { intros a b c d f g k z S K. inversion S as [u ex NE|u p c0 cb d0 e0 user lev l0 y0 q0 h0 T0 K0 CA O]; subst; [destruct K as [<-|[]]; exact T|].
      destruct O as [(wire & X & ->)|(ex & X & ->)]; destruct K as [<-|[]]; exact T. }
    assert (SIA : forall b c g k z, asks clk s b c g k z -> In y k -> False).
    { intros b c g k z A. inversion A; subst; [intros []| |]; eapply SIL; eassumption. }
    inversion ST as [x0|p user level timeout period id g n|r0 AL NS|pre t post s1 new0 l0 TS TT|d u m h0 V PD|d u V|s0 l0 LS|r0 s0 UN CL|op u|x1 s1 OE OU]; subst; try (destruct IN; fail).
    + exfalso. inversion TT; subst; try (destruct IN; fail); try (destruct IN as [<-|[]]; exact T); try (eapply SIL; eassumption); try (eapply SIA; eassumption).
    + inversion LS; subst; try (destruct IN; fail); try (exfalso; eapply SIL; eassumption); try (exfalso; destruct IN as [<-|[]]; exact T).
      * destruct IN as [<-|[<-|[]]]; [destruct T|]. right. exists h, m. split; [assumption|exact T].
      * destruct IN as [<-|[]]. left. rewrite H. cbn. f_equal. exact T.
  Qed.
  Lemma logged_step s x s' l l' : base s -> logged s l -> vstep s x s' l' -> logged s' (rev l' ++ l).
  Proof.
    intros B K ST. assert (OLD : forall r, (exists y, In y l /\ tries r y) -> exists y, In y (rev l' ++ l) /\ tries r y).
    { intros r (y & A & T). exists y. split; [apply in_or_app; right; exact A|exact T]. }
    constructor.
    - intros h L OW. destruct (msgs_from _ _ _ _ h B ST L OW) as [(G & OG & E)|(y & A & T)]; [rewrite E; apply OLD, (lg_msgs _ _ K h G OG)|].
      exists y. split; [apply in_log; left; exact A|exact T].
    - intros r L. apply OLD. destruct (listener_from _ _ _ _ r ST L) as [L'|(h & m & L' & ->)]; [apply (lg_listener _ _ K r L')|].
      apply (lg_msgs _ _ K); destruct B as [I _]; eapply (i3_push _ I); eauto.
    - intros r y IN T. apply in_log in IN as [IN|IN]; [|apply OLD, (lg_log _ _ K r y IN T)].
      assert (D : tries r y \/ ~ tries r y) by (destruct y; cbn; try (right; intros []; fail); (destruct (Nat.eq_dec r0 r); [left|right]; assumption)).
      destruct D as [D|D]; [exists y; split; [apply in_log; left; exact IN|exact D]|]. apply OLD.
      destruct (touched_by _ _ _ _ r y ST IN T D) as [L|(h & m & L & <-)]; [apply (lg_listener _ _ K r L)|].
      apply (lg_msgs _ _ K); destruct B as [I _]; eapply (i3_push _ I); eauto.
  Qed.
  Lemma logged_run u maxSize cfg s0 y evs s l : mgr3_new C rnd ns u maxSize cfg = (s0, y) -> m3_run s0 evs = (s, l) -> logged s l.
  Proof.
    intros H0 E. revert evs s l E. apply (history_ind C R rnd clk fmt ns s0 (fun _ s l => logged s l)); [eapply base_start; eauto| |].
    - apply start_fields in H0 as (_ & _ & _ & _ & B & _ & _ & D & _). constructor; rewrite ?B, ?D; cbn; [lia|discriminate|intros r z []].
    - intros evs s l x s' l' _ B K ST. eapply logged_step; eauto.
  Qed.

  (** Nothing refers to [r] any more but the user. *)
  Record gone (r : nat) (s : mgr3) : Prop := {
    go_made : (r < length (v_reqs s))%nat;
    go_queued : ~ In r (queued s);
    go_msgs : forall h, (h < length (v_msgs s))%nat -> g_own (getm (v_msgs s) h) = true -> g_req (getm (v_msgs s) h) <> r;
    go_listener : listener_req (v_listener s) <> Some r
  }.
  Lemma gone_step r s x s' l' : base s -> gone r s -> vstep s x s' l' -> gone r s' /\ forall y, In y l' -> ~ touches r y.
  Proof.
    intros B G ST. pose proof B as [I W].
    pose proof (step_spec _ _ _ _ _ _ _ _ _ I ST) as (I' & (_ & RL & _ & ML & MQ) & new & lost & P & _ & LN & NW).
    assert (NT : forall y, In y l' -> ~ tries r y).
    { intros y IN T. destruct (step_class _ _ _ _ _ _ _ _ _ I W ST) as [[q w sc eng s1 s2 z SB E1 E2 E3 E4 E5 F1 F2 F3 F4 AL D]|Q].
      - assert (q = r) as ->.
        { apply sent_by_log in SB as [(_ & h0 & d0 & e0 & u0 & lev0 & w0 & ->)|(ex & h0 & _ & ->)]; destruct IN as [<-|[]]; exact T. }
        assert (TK : forall t, In t (v_tasks s) -> In r (pend t) -> In r (queued s)).
        { intros t A K. unfold queued. rewrite !in_app_iff. right. right. apply in_flat_map. exists t. auto. }
        destruct w.
        + apply (go_queued _ _ G). destruct D as (_ & _ & A & _). apply (TK _ A). left. reflexivity.
        + apply (go_queued _ _ G). destruct D as (_ & _ & (r0 & rest & b & A) & _). apply (TK _ A). left. reflexivity.
        + apply (go_queued _ _ G). destruct D as (_ & _ & r0 & e & w0 & rest & _ & _ & U & _). unfold queued. rewrite !in_app_iff. right. left. rewrite U. left. reflexivity.
        + apply (go_queued _ _ G). destruct D as (_ & _ & _ & (t & H) & _). unfold queued. rewrite !in_app_iff. left. rewrite H. left. reflexivity.
        + destruct D as (_ & _ & e & L & _). apply (go_listener _ _ G). rewrite L. reflexivity.
        + destruct D as (_ & _ & e & L & _). apply (go_listener _ _ G). rewrite L. reflexivity.
      - apply (qs_log _ _ _ _ _ Q) in IN. destruct y; cbn in IN, T; try discriminate IN; destruct T. }
    split; [constructor|].
    - pose proof (go_made _ _ G). lia.
    - intros IN. assert (X : In r (queued s ++ new)) by (eapply Permutation_in; [symmetry; exact P|apply in_or_app; auto]).
      apply in_app_or in X as [X|X]; [exact (go_queued _ _ G X)|]. destruct NW as [->| ->]; [destruct X|destruct X as [X|[]]]. pose proof (go_made _ _ G). lia.
    - intros h L OW E. destruct (msgs_from _ _ _ _ h B ST L OW) as [(K & OK & Q)|(y & A & T)]; [rewrite Q in E; exact (go_msgs _ _ G h K OK E)|]. rewrite E in T. exact (NT y A T).
    - intros L. destruct (listener_from _ _ _ _ r ST L) as [L'|(h & m & L' & ->)]; [exact (go_listener _ _ G L')|]. apply (go_msgs _ _ G h); [| |reflexivity]; eapply (i3_push _ I); eauto.
    - intros y IN T. destruct (touched_by _ _ _ _ r y ST IN T (NT y IN)) as [L|(h & m & L & E)]; [exact (go_listener _ _ G L)|].
      apply (go_msgs _ _ G h); [eapply (i3_push _ I); eauto|eapply (i3_push _ I); eauto|exact E].
  Qed.
  Lemma gone_after s0 r evs s l later : base s0 -> m3_run s0 evs = (s, l) -> gone r s -> forall s' l', m3_run s0 (evs ++ later) = (s', l') ->
    gone r s' /\ exists l2, l' = l2 ++ l /\ forall y, In y l2 -> ~ touches r y.
  Proof.
    intros B0 E G. induction later as [|x later IH] using rev_ind; intros s' l' E'.
    - rewrite app_nil_r, E in E'. injection E' as <- <-. split; [exact G|]. exists []. split; [reflexivity|intros y []].
    - rewrite app_assoc, m3_run_snoc in E'. destruct (m3_run s0 (evs ++ later)) as [s1 l1] eqn:E1. destruct (m3_step C R rnd clk fmt ns s1 x) as [s2 l2] eqn:E2. injection E' as <- <-.
      destruct (IH _ _ eq_refl) as (G1 & l3 & -> & N3). apply m3_step_spec in E2.
      destruct (gone_step r s1 x s2 l2 (base_run _ _ _ _ _ _ _ _ _ _ B0 E1) G1 E2) as [G2 N2]. split; [exact G2|]. exists (rev l2 ++ l3). rewrite app_assoc. split; [reflexivity|].
      intros y IN. apply in_log in IN as [IN|IN]; auto.
  Qed.
  Lemma logged_gone r s l : logged s l -> (r < length (v_reqs s))%nat -> ~ In r (queued s) -> (forall y, In y l -> ~ tries r y) -> gone r s.
  Proof.
    intros K M Q N. constructor; [exact M|exact Q| |].
    - intros h L OW E. destruct (lg_msgs _ _ K h L OW) as (y & A & T). rewrite E in T. exact (N y A T).
    - intros L. destruct (lg_listener _ _ K r L) as (y & A & T). exact (N y A T).
  Qed.
End Lost.
