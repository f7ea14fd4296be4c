(** PropertiesRegConc.v -- C66, one statement of the setters at a time. *)
From Verif Require Import PrfMgr3 PrfReg PrfEngine2.
From Verif Require Export SpecRegConc.

(** C66 for any number of threads in the setters of any number of requests and
    managers: when they are done, the registrations are balanced, and nothing was
    released twice. *)
Definition C66_interleaved_statement : Prop := forall C rnd others g evs g',
  reg_start others g -> reg_steps C rnd g evs = g' ->
  (rg_setters g' = [] -> balanced others g') /\ forall c r, In (c, r) (rg_log g') -> ~ released_twice r.

(** * One cell changes *)
Definition weight (ns : pystr) (e : bytes) (x : cell) : Z := if zlist_eqb (ce_ns x) ns then holds e (ce_engine x) else 0.
Lemma holds_nonneg e o : 0 <= holds e o.
Proof. destruct o; cbn; [destruct (zlist_eqb _ _)|]; lia. Qed.
Section Sums.
  (** Sums over the indices of a list. *)
  Fixpoint total (f : nat -> Z) (n : nat) : Z := match n with O => 0 | S k => total f k + f k end.
  Lemma total_ext f g n : (forall i, (i < n)%nat -> f i = g i) -> total f n = total g n.
  Proof. induction n as [|k IH]; intros H; cbn; [auto|]. rewrite IH by (intros i L; apply H; lia). rewrite H by lia. auto. Qed.
  Lemma total_one f g n c : (c < n)%nat -> (forall i, (i < n)%nat -> i <> c -> f i = g i) -> total f n = total g n + (f c - g c).
  Proof.
    induction n as [|k IH]; intros L H; [lia|]. cbn. destruct (Nat.eq_dec k c) as [->|N].
    - rewrite (total_ext f g c) by (intros i LI; apply H; lia). lia.
    - rewrite IH by (try lia; intros i LI NI; apply H; lia). rewrite (H k) by lia. lia.
  Qed.
  Lemma total_ge f n c : (forall i, (i < n)%nat -> 0 <= f i) -> (c < n)%nat -> f c <= total f n.
  Proof.
    induction n as [|k IH]; intros H L; [lia|]. cbn. assert (0 <= total f k).
    { clear IH L. assert (X : forall i, (i < k)%nat -> 0 <= f i) by (intros i LI; apply H; lia). clear H. induction k as [|j IHj]; cbn; [lia|]. specialize (IHj (fun i L => X i ltac:(lia))). specialize (X j ltac:(lia)). lia. }
    destruct (Nat.eq_dec k c) as [->|N]; [lia|]. specialize (IH (fun i LI => H i ltac:(lia)) ltac:(lia)). specialize (H k ltac:(lia)). lia.
  Qed.
End Sums.
Lemma held_total ns e l d : held ns e l = total (fun i => weight ns e (nth i l d)) (length l).
Proof.
  induction l as [|x l IH] using rev_ind; [reflexivity|]. rewrite app_length. cbn. rewrite Nat.add_1_r. cbn [total].
  rewrite (total_ext _ (fun i => weight ns e (nth i l d))) by (intros i L; now rewrite app_nth1).
  rewrite <- IH, app_nth2, Nat.sub_diag by lia. cbn [nth]. clear IH. unfold held. rewrite fold_right_app. cbn. fold (weight ns e x).
  induction l as [|y l IH]; cbn; [lia|]. rewrite IH. lia.
Qed.
Lemma put_cell_length l : forall c x, length (put_cell l c x) = length l.
Proof. induction l as [|y l IH]; intros [|c] x; cbn; auto. Qed.
Lemma put_cell_same l : forall c x d, (c < length l)%nat -> nth c (put_cell l c x) d = x.
Proof. induction l as [|y l IH]; intros [|c] x d L; cbn in *; auto; try lia. apply IH. lia. Qed.
Lemma put_cell_other l : forall c i x d, i <> c -> nth i (put_cell l c x) d = nth i l d.
Proof. induction l as [|y l IH]; intros [|c] [|i] x d L; cbn in *; auto; try lia. Qed.

(** * The invariant *)
Definition on (c : nat) (l : list setter) : option setter := find (fun t => Nat.eqb (st_cell t) c) l.
(** What the registry has because of [x], if [k] is in its setter. *)
Definition share (ns : pystr) (e : bytes) (x : cell) (k : option setter) : Z :=
  if zlist_eqb (ce_ns x) ns then
    match k with
    | None => holds e (ce_engine x)
    | Some t =>
      match st_pc t with
      | PCompare | PRegister => holds e (ce_engine x)
      | PTest | PArgument | PRelease _ => holds e (ce_engine x) + holds e (st_new t)
      | PStore => holds e (st_new t)
      end
    end
  else 0.
Definition sound (x : cell) (t : setter) : Prop := match st_pc t with PArgument => ce_engine x <> None | PRelease o => o = ce_engine x /\ o <> None | _ => True end.
Record going (others : pystr -> bytes -> Z) (g : regs) : Prop := {
  go_ok : reg_ok (rg_users g);
  go_lt : forall t, In t (rg_setters g) -> (st_cell t < length (rg_cells g))%nat /\ sound (cell_at g (st_cell t)) t;
  go_one : NoDup (map st_cell (rg_setters g));
  go_sum : forall ns e, registered (rg_users g) ns e = total (fun i => share ns e (cell_at g i) (on i (rg_setters g))) (length (rg_cells g)) + others ns e;
  go_log : forall c r, In (c, r) (rg_log g) -> ~ released_twice r
}.
Lemma share_nonneg ns e x k : 0 <= share ns e x k.
Proof.
  unfold share. destruct (zlist_eqb _ _); [|lia]. pose proof (holds_nonneg e (ce_engine x)). destruct k as [t|]; [|lia].
  pose proof (holds_nonneg e (st_new t)). destruct (st_pc t); lia.
Qed.
Lemma on_some l t c : NoDup (map st_cell l) -> In t l -> st_cell t = c -> on c l = Some t.
Proof.
  unfold on. induction l as [|y l IH]; intros ND I E; [destruct I|]. cbn in *. inversion ND; subst. destruct I as [->|I].
  - now rewrite Nat.eqb_refl.
  - destruct (Nat.eqb_spec (st_cell y) (st_cell t)) as [X|X]; [|auto]. exfalso. apply H1. rewrite X. now apply in_map.
Qed.
Lemma on_none l c : ~ In c (map st_cell l) -> on c l = None.
Proof. unfold on. induction l as [|y l IH]; intros N; cbn in *; [auto|]. destruct (Nat.eqb_spec (st_cell y) c); [exfalso; auto|apply IH; auto]. Qed.
Lemma on_app c a b : on c (a ++ b) = match on c a with Some t => Some t | None => on c b end.
Proof. unfold on. induction a as [|y a IH]; cbn; [auto|]. destruct (Nat.eqb _ _); auto. Qed.
Lemma on_skip c a t b new : st_cell t <> c -> (forall t', In t' new -> st_cell t' = st_cell t) -> on c (a ++ new ++ b) = on c (a ++ t :: b).
Proof.
  intros N E. rewrite !on_app. destruct (on c a); [auto|]. unfold on at 3. cbn. destruct (Nat.eqb_spec (st_cell t) c); [contradiction|].
  replace (on c new) with (@None setter); [reflexivity|]. symmetry. apply on_none. intros I. apply in_map_iff in I as (t' & X & I). apply E in I. congruence.
Qed.

(** What one statement does to the shared data. *)
Section Step.
  Context (C : crypto) (rnd : nat -> Z).
  Lemma localize_raises n c e ex : cr_localize C rnd n c e = Raise ex -> ex = ValueError.
  Proof.
    unfold cr_localize. destruct (cr_authProtocol c); [|discriminate]. destruct (cr_privProtocol c) as [p|]; [|discriminate].
    unfold priv_new. destruct (_ <? _); [cbn; congruence|]. destruct p; discriminate.
  Qed.
  Lemma addUsers_raises l : forall n r e ex, re_addUsers C rnd n r e l = Raise ex -> ex = ValueError.
  Proof.
    induction l as [|[name uc] l IH]; intros n r e ex H; [discriminate|]. cbn in H. unfold re_addUser in H.
    destruct (cr_localize _ _ _ _ _) as [[lc n']|ex'] eqn:L; cbn in H; [eauto|]. injection H as <-. eapply localize_raises; eauto.
  Qed.
  Lemma assign_raises u e ns u' ex : ur_assign C rnd u e ns = (u', Raise ex) -> ex = ValueError.
  Proof.
    unfold ur_assign. destruct (dict_get _ _ _) as [r|].
    - destruct (re_assign r ns). intros H. apply (f_equal snd) in H. discriminate H.
    - unfold RemoteEngine. destruct (re_addUsers _ _ _ _ _ _) as [[r n]|ex'] eqn:L; intros H; apply (f_equal snd) in H; [discriminate H|]. injection H as <-. eapply addUsers_raises; eauto.
  Qed.
  Lemma step_share u x t u' x' k : reg_ok u -> sound x t ->
    (forall e, st_pc t = PRelease (Some e) -> 0 < registered u (ce_ns x) e) ->
    setter_step C rnd u x t = (u', x', k) ->
    reg_ok u' /\
    (forall ns e, registered u' ns e = registered u ns e + (share ns e x' (match k with inl t' => Some t' | inr _ => None end) - share ns e x (Some t))) /\
    match k with inl t' => st_cell t' = st_cell t /\ sound x' t' | inr r => ~ released_twice r end.
  Proof.
    intros OK SO POS. unfold setter_step. destruct t as [c new pc]. cbn [st_pc st_new st_cell] in *. unfold released_twice.
    assert (SAME : forall d ns e, d = 0 -> registered u ns e = registered u ns e + d) by (intros; lia).
    destruct pc as [| | | |old|].
    - intros H. injection H as <- <- <-. split; [exact OK|]. destruct (opt_eqb _ _ _).
      + split; [|intros [X|X]; discriminate]. intros ns e. apply SAME. unfold share. cbn. destruct (zlist_eqb _ _); lia.
      + split; [|split; [reflexivity|exact Logic.I]]. intros ns e. apply SAME. unfold share. cbn. destruct (zlist_eqb _ _); lia.
    - destruct new as [e0|].
      + destruct (ur_assign C rnd u e0 (ce_ns x)) as [u1 y] eqn:A. assert (AR : forall ns, reg_ok u1 /\ forall e', registered u1 ns e' = registered u ns e' + match y with Ok true => if zlist_eqb (ce_ns x) ns then holds e' (Some e0) else 0 | _ => 0 end) by (intros ns; eapply assign_reg; eauto).
        destruct y as [[|]|ex]; intros H; injection H as <- <- <-; (split; [apply (AR [])|]); split.
        * intros ns e. destruct (AR ns) as [_ ->]. unfold share. cbn [st_pc st_new]. destruct (zlist_eqb _ _); lia.
        * split; [reflexivity|exact Logic.I].
        * intros ns e. destruct (AR ns) as [_ ->]. unfold share. cbn [st_pc st_new]. destruct (zlist_eqb _ _); lia.
        * intros [X|X]; discriminate.
        * intros ns e. destruct (AR ns) as [_ ->]. unfold share. cbn [st_pc st_new]. destruct (zlist_eqb _ _); lia.
        * apply assign_raises in A as ->. intros [X|X]; discriminate.
      + intros H. injection H as <- <- <-. split; [exact OK|]. split; [|split; [reflexivity|exact Logic.I]]. intros ns e. apply SAME. unfold share. cbn. destruct (zlist_eqb _ _); lia.
    - intros H. injection H as <- <- <-. split; [exact OK|]. split.
      + intros ns e. apply SAME. unfold share. cbn. destruct (zlist_eqb _ _); [|lia]. destruct (ce_engine x); cbn [st_pc]; cbn [holds]; lia.
      + split; [reflexivity|]. unfold sound. cbn. destruct (ce_engine x) eqn:X; cbn; [congruence|exact Logic.I].
    - intros H. injection H as <- <- <-. split; [exact OK|]. split.
      + intros ns e. apply SAME. unfold share. cbn. destruct (zlist_eqb _ _); lia.
      + split; [reflexivity|]. unfold sound in *. cbn in *. auto.
    - unfold sound in SO. cbn in SO. destruct SO as [-> SO]. destruct (ce_engine x) as [e0|] eqn:X; [|contradiction].
      specialize (POS e0 eq_refl). destruct (ur_release u e0 (ce_ns x)) as [u1 y] eqn:A.
      destruct (release_ok (ce_ns x) u e0 u1 y OK POS A) as (OK1 & (b & ->) & REL). intros H. injection H as <- <- <-. split; [exact OK1|]. split; [|split; [reflexivity|exact Logic.I]].
      intros ns e. unfold share. cbn [st_pc st_new]. rewrite X. destruct (zlist_eqb (ce_ns x) ns) eqn:N.
      + apply PrfDict.zlist_eqb_eq in N as <-. rewrite REL. lia.
      + destruct (release_none ns u e0 (ce_ns x) u1 (Ok b) OK) as [_ ->]; [|exact A|lia]. right. intros X2. rewrite X2, PrfBase.zlist_eqb_refl in N. discriminate N.
    - intros H. injection H as <- <- <-. split; [exact OK|]. split; [|intros [X|X]; discriminate]. intros ns e. apply SAME. unfold share. cbn. destruct (zlist_eqb _ _); lia.
  Qed.
  Lemma nth_split_setters (l : list setter) n t : nth_error l n = Some t -> l = firstn n l ++ t :: skipn (S n) l.
  Proof. revert n. induction l as [|y l IH]; intros [|n] H; cbn in *; try discriminate; [now injection H as ->|]. f_equal. now apply IH. Qed.
  Lemma going_step others g ev : (forall ns e, 0 <= others ns e) -> going others g ->
    (forall c new, ev = RBegin c new -> ~ In c (map st_cell (rg_setters g))) -> going others (reg_step C rnd g ev).
  Proof.
    intros OT [OK LT ONE SUM LOG] AP. destruct ev as [c new|n].
    - cbn [reg_step]. destruct (Nat.ltb_spec c (length (rg_cells g))) as [L|L]; [|constructor; auto]. specialize (AP c new eq_refl). constructor; cbn [rg_users rg_cells rg_setters rg_log]; auto.
      + intros t I. apply in_app_or in I as [I|[<-|[]]]; [exact (LT t I)|]. split; [exact L|exact Logic.I].
      + rewrite map_app. apply nodup_snoc; auto.
      + intros ns e. rewrite SUM. apply (f_equal (fun z => z + others ns e)). apply total_ext. intros i _. rewrite on_app. unfold cell_at. cbn [rg_cells]. destruct (on i (rg_setters g)) as [t|] eqn:O; [reflexivity|].
        unfold on at 1. cbn. destruct (Nat.eqb c i); [|reflexivity]. reflexivity.
    - cbn [reg_step]. destruct (nth_error (rg_setters g) n) as [t|] eqn:NT; [|constructor; auto].
      pose proof (nth_split_setters _ _ _ NT) as SP. assert (IT : In t (rg_setters g)) by (eapply nth_error_In; eauto).
      destruct (LT t IT) as [LC SO]. destruct (setter_step C rnd (rg_users g) (cell_at g (st_cell t)) t) as [[u x'] k] eqn:ST.
      assert (OT' : on (st_cell t) (rg_setters g) = Some t) by (apply on_some; auto).
      assert (POS : forall e, st_pc t = PRelease (Some e) -> 0 < registered (rg_users g) (ce_ns (cell_at g (st_cell t))) e).
      { intros e PC. rewrite SUM. specialize (OT (ce_ns (cell_at g (st_cell t))) e).
        pose proof (total_ge (fun i => share (ce_ns (cell_at g (st_cell t))) e (cell_at g i) (on i (rg_setters g))) _ (st_cell t) (fun i _ => share_nonneg _ _ _ _) LC) as G. cbv beta in G. rewrite OT' in G.
        unfold share at 1 in G. rewrite PrfBase.zlist_eqb_refl, PC in G. unfold sound in SO. rewrite PC in SO. destruct SO as [SO _]. rewrite <- SO in G. cbn [holds] in G. rewrite PrfBase.zlist_eqb_refl in G.
        pose proof (holds_nonneg e (st_new t)). lia. }
      destruct (step_share _ _ _ _ _ _ OK SO POS ST) as (OK' & REG & K).
      set (a := firstn n (rg_setters g)) in *. set (b := skipn (S n) (rg_setters g)) in *.
      set (new := match k with inl t' => [t'] | inr _ => [] end).
      assert (NEW : forall t', In t' new -> st_cell t' = st_cell t /\ sound x' t') by (unfold new; destruct k; [intros t' [<-|[]]; exact K|intros t' []]).
      assert (E : (let '(new0, l) := match k with inl t' => ([t'], []) | inr r => ([], [(st_cell t, r)]) end in
        mkRegs u (put_cell (rg_cells g) (st_cell t) x') (a ++ new0 ++ b) (l ++ rg_log g)) =
        mkRegs u (put_cell (rg_cells g) (st_cell t) x') (a ++ new ++ b) ((match k with inl _ => [] | inr r => [(st_cell t, r)] end) ++ rg_log g)) by (unfold new; destruct k; reflexivity).
      rewrite E. clear E.
      assert (ND : ~ In (st_cell t) (map st_cell (a ++ b))).
      { rewrite SP, map_app in ONE. cbn in ONE. rewrite map_app. now apply NoDup_remove_2. }
      assert (LEFT : forall t', In t' (a ++ b) -> In t' (rg_setters g) /\ st_cell t' <> st_cell t).
      { intros t' I. split; [rewrite SP; apply in_app_or in I as [I|I]; apply in_or_app; [auto|right; now right]|]. intros X. apply ND. rewrite <- X. now apply in_map. }
      constructor; cbn [rg_users rg_cells rg_setters rg_log].
      + exact OK'.
      + rewrite put_cell_length. intros t' I. unfold cell_at. cbn [rg_cells]. assert (I' : In t' new \/ In t' (a ++ b)).
        { apply in_app_or in I as [I|I]; [right; apply in_or_app; auto|]. apply in_app_or in I as [I|I]; [auto|right; apply in_or_app; auto]. }
        destruct I' as [I'|I'].
        * destruct (NEW t' I') as [-> S']. rewrite put_cell_same by exact LC. auto.
        * destruct (LEFT t' I') as [I2 N]. rewrite put_cell_other by exact N. apply (LT t' I2).
      + rewrite SP, map_app in ONE. cbn in ONE. destruct k as [t'|r]; unfold new.
        * rewrite map_app. cbn. destruct K as [-> _]. exact ONE.
        * cbn. rewrite map_app. now apply NoDup_remove_1 in ONE.
      + intros ns e. rewrite REG, SUM, put_cell_length.
        rewrite (total_one (fun i => share ns e (cell_at (mkRegs u (put_cell (rg_cells g) (st_cell t) x') (a ++ new ++ b) ((match k with inl _ => [] | inr r => [(st_cell t, r)] end) ++ rg_log g)) i) (on i (a ++ new ++ b)))
          (fun i => share ns e (cell_at g i) (on i (rg_setters g))) (length (rg_cells g)) (st_cell t) LC).
        * cbv beta. change (cell_at (mkRegs u (put_cell (rg_cells g) (st_cell t) x') (a ++ new ++ b) ((match k with inl _ => [] | inr r => [(st_cell t, r)] end) ++ rg_log g)) (st_cell t)) with (nth (st_cell t) (put_cell (rg_cells g) (st_cell t) x') (mkCell [] None)). rewrite put_cell_same by exact LC. rewrite OT'.
          replace (on (st_cell t) (a ++ new ++ b)) with (match k with inl t' => Some t' | inr _ => None end); [lia|].
          rewrite !on_app. rewrite map_app in ND. rewrite (on_none a) by (intros X; apply ND; apply in_or_app; auto). rewrite (on_none b) by (intros X; apply ND; apply in_or_app; auto).
          unfold new. destruct k as [t'|r]; [|reflexivity]. unfold on. cbn. destruct K as [-> _]. now rewrite Nat.eqb_refl.
        * intros i _ N. unfold cell_at. cbn [rg_cells]. rewrite put_cell_other by exact N. f_equal. rewrite SP. apply on_skip; [congruence|]. intros t' I. now apply NEW.
      + intros c r I. apply in_app_or in I as [I|I]; [|eapply LOG; eauto]. destruct k as [t'|r']; [destruct I|]. destruct I as [I|[]]. injection I as <- <-. exact K.
  Qed.
  Lemma going_run others evs : forall g, (forall ns e, 0 <= others ns e) -> going others g -> apart C rnd g evs -> going others (reg_steps C rnd g evs).
  Proof.
    induction evs as [|ev evs IH] using rev_ind; intros g OT G AP; [exact G|]. unfold reg_steps in *. rewrite fold_left_app. cbn. apply going_step; auto.
    - apply IH; auto. intros before c new after E. apply (AP before c new (after ++ [ev])). rewrite E, <- app_assoc. reflexivity.
    - intros c new ->. apply (AP evs c new []). reflexivity.
  Qed.
  Lemma going_start others g : reg_start others g -> going others g.
  Proof.
    intros (S & L & (C0 & rnd0 & h & U) & OT & B). constructor.
    - rewrite U. apply user_run_ok; [exact []|]. apply reg0_ok.
    - rewrite S. intros t [].
    - rewrite S. constructor.
    - intros ns e. rewrite (B ns e). apply (f_equal (fun z => z + others ns e)). rewrite (held_total _ _ _ (mkCell [] None)), S. reflexivity.
    - rewrite L. intros c r [].
  Qed.
End Step.

(** C66: as long as no two threads are in the setter of the same request or
    manager, the statements of any number of threads may interleave in any way:
    at any time when no thread is in a setter the registrations are balanced, and
    nothing was ever released twice. *)
Theorem C66_apart_partial : forall C rnd others g evs g',
  reg_start others g -> apart C rnd g evs -> reg_steps C rnd g evs = g' ->
  (rg_setters g' = [] -> balanced others g') /\ forall c r, In (c, r) (rg_log g') -> ~ released_twice r.
Proof.
  intros C rnd others g evs g' S AP <-. pose proof S as (_ & _ & _ & OT & _). destruct (going_run C rnd others evs g OT (going_start others g S) AP) as [OK LT ONE SUM LOG].
  split; [|exact LOG]. intros E ns e. rewrite SUM, E. apply (f_equal (fun z => z + others ns e)). rewrite (held_total _ _ _ (mkCell [] None)). reflexivity.
Qed.
Print Assumptions C66_apart_partial.

(** * One setter alone *)
Lemma put_cell_id l : forall c d, (c < length l)%nat -> put_cell l c (nth c l d) = l.
Proof. induction l as [|y l IH]; intros [|c] d L; cbn in *; try lia; auto. f_equal. apply IH. lia. Qed.
Lemma alone_step C rnd u cells c new pc log x : cell_at (mkRegs u cells [mkSetter c new pc] log) c = x ->
  reg_step C rnd (mkRegs u cells [mkSetter c new pc] log) (RStep 0) =
  match setter_step C rnd u x (mkSetter c new pc) with
  | (u', x', inl t') => mkRegs u' (put_cell cells c x') [t'] log
  | (u', x', inr y) => mkRegs u' (put_cell cells c x') [] ((c, y) :: log)
  end.
Proof. intros <-. cbn [reg_step nth_error rg_setters rg_users rg_cells rg_log st_cell]. destruct (setter_step _ _ _ _ _) as [[u' x'] [t'|y]]; reflexivity. Qed.
Lemma done_step C rnd u cells log : reg_step C rnd (mkRegs u cells [] log) (RStep 0) = mkRegs u cells [] log.
Proof. reflexivity. Qed.
(** One setter, run without interruption, does what ManagerV3.v does in one step. *)
Definition alone : list reg_event := [RStep 0; RStep 0; RStep 0; RStep 0; RStep 0; RStep 0].
Definition set_alone (C : crypto) (rnd : nat -> Z) (u : registry) (ns : pystr) (old new : option bytes) : registry * option bytes * res unit :=
  if opt_eqb zlist_eqb new old then (u, old, Ok tt)
  else
    let '(u, x) := match new with Some e => let '(u, x) := ur_assign C rnd u e ns in (u, do ok <- x; if (ok : bool) then Ok tt else Raise DiscoveryError) | None => (u, Ok tt) end in
    match x with
    | Raise e => (u, old, Raise e)
    | Ok _ => let '(u, x) := match old with Some e => let '(u, x) := ur_release u e ns in (u, do _ <- x; Ok tt) | None => (u, Ok tt) end in
      match x with Raise e => (u, old, Raise e) | Ok _ => (u, new, Ok tt) end
    end.
Lemma alone_set C rnd u cells log c ns old new u' o x : (c < length cells)%nat -> nth c cells (mkCell [] None) = mkCell ns old ->
  set_alone C rnd u ns old new = (u', o, x) ->
  reg_steps C rnd (mkRegs u cells [mkSetter c new PCompare] log) alone = mkRegs u' (put_cell cells c (mkCell ns o)) [] ((c, x) :: log).
Proof.
  intros LC CE H. unfold alone, reg_steps. cbn [fold_left].
  assert (ID : put_cell cells c (mkCell ns old) = cells) by (rewrite <- CE; now apply put_cell_id).
  assert (ST : forall u pc, reg_step C rnd (mkRegs u cells [mkSetter c new pc] log) (RStep 0) =
    match setter_step C rnd u (mkCell ns old) (mkSetter c new pc) with
    | (u', x', inl t') => mkRegs u' (put_cell cells c x') [t'] log
    | (u', x', inr y) => mkRegs u' (put_cell cells c x') [] ((c, y) :: log) end) by (intros; now apply alone_step).
  unfold set_alone in H. rewrite ST. cbn [setter_step st_pc st_new st_cell ce_engine]. destruct (opt_eqb zlist_eqb new old).
  { apply (f_equal (fun p => p)) in H. inversion H; subst. now rewrite ID, !done_step. }
  rewrite ID, ST. cbn [setter_step st_pc st_new st_cell ce_engine ce_ns].
  assert (REST : forall u1, (let '(u, x) := match old with Some e => let '(u, x) := ur_release u1 e ns in (u, do _ <- x; Ok tt) | None => (u1, Ok tt) end in
      match x with Raise e => (u, old, Raise e) | Ok _ => (u, new, Ok tt) end) = (u', o, x) ->
    reg_step C rnd (reg_step C rnd (reg_step C rnd (reg_step C rnd (mkRegs u1 cells [mkSetter c new PTest] log) (RStep 0)) (RStep 0)) (RStep 0)) (RStep 0) =
      mkRegs u' (put_cell cells c (mkCell ns o)) [] ((c, x) :: log)).
  { intros u1 E. rewrite ST. cbn [setter_step st_pc st_new st_cell ce_engine ce_ns]. rewrite ID. destruct old as [e|].
    - rewrite ST. cbn [setter_step st_pc st_new st_cell ce_engine ce_ns]. rewrite ID, ST. cbn [setter_step st_pc st_new st_cell ce_engine ce_ns].
      destruct (ur_release u1 e ns) as [u2 [b|ex]]; cbn [bind] in E; inversion E; subst.
      + rewrite ID, ST. reflexivity.
      + rewrite ID. reflexivity.
    - inversion E; subst. rewrite ST. cbn [setter_step st_pc st_new st_cell ce_engine ce_ns]. reflexivity. }
  destruct new as [e|].
  - destruct (ur_assign C rnd u e ns) as [u1 [[|]|ex]]; cbn [bind] in H.
    + rewrite ID. now apply REST.
    + inversion H; subst. now rewrite ID, !done_step.
    + inversion H; subst. now rewrite ID, !done_step.
  - rewrite ID. now apply REST.
Qed.
Theorem C66_uninterrupted : forall C rnd ns s r g c,
  rg_setters g = [] -> (c < length (rg_cells g))%nat -> (r < length (v_reqs s))%nat ->
  cell_at g c = mkCell ns (q_engine (get3 (v_reqs s) r)) -> rg_users g = us_users (v_usm s) ->
  forall new s' x, request_engine C rnd ns s r new = (s', x) ->
  let g' := reg_steps C (rnd 2%nat) g (RBegin c new :: alone) in
  rg_setters g' = [] /\ rg_users g' = us_users (v_usm s') /\ cell_at g' c = mkCell ns (q_engine (get3 (v_reqs s') r)) /\ rg_log g' = (c, x) :: rg_log g.
Proof.
  intros C rnd ns s r g c NS LC LR CE U new s' x H g'.
  destruct g as [u cells ss log]. cbn [rg_setters rg_cells rg_users rg_log] in *. subst ss. unfold cell_at in CE. cbn [rg_cells] in CE.
  set (old := q_engine (get3 (v_reqs s) r)) in *.
  assert (A : exists o, set_alone C (rnd 2%nat) u ns old new = (us_users (v_usm s'), o, x) /\ q_engine (get3 (v_reqs s') r) = o).
  { subst u. unfold set_alone. unfold request_engine in H. fold old in H. destruct (opt_eqb zlist_eqb new old); [injection H as <- <-; eauto|].
    unfold switch_engine, registerRemoteEngine, unregisterRemoteEngine in H. destruct new as [e|].
    - destruct (ur_assign C (rnd 2%nat) (us_users (v_usm s)) e ns) as [u1 [[|]|ex]]; cbn [bind] in *.
      + destruct old as [e'|] eqn:OLD; cbn [set_users set_io v_usm us_users] in *.
        * destruct (ur_release u1 e' ns) as [u2 [b|ex]]; cbn [bind] in *; injection H as <- <-.
          -- eexists. split; [reflexivity|]. cbn. rewrite get3_put_same by exact LR. reflexivity.
          -- eexists. split; [reflexivity|]. exact OLD.
        * injection H as <- <-. eexists. split; [reflexivity|]. cbn. rewrite get3_put_same by exact LR. reflexivity.
      + injection H as <- <-. eexists. split; reflexivity.
      + injection H as <- <-. eexists. split; reflexivity.
    - destruct old as [e'|] eqn:OLD; cbn [set_users set_io v_usm us_users] in *.
      + destruct (ur_release (us_users (v_usm s)) e' ns) as [u2 [b|ex]]; cbn [bind] in *; injection H as <- <-.
        * eexists. split; [reflexivity|]. cbn. rewrite get3_put_same by exact LR. reflexivity.
        * eexists. split; [reflexivity|]. exact OLD.
      + injection H as <- <-. eexists. split; [reflexivity|]. cbn. rewrite get3_put_same by exact LR. reflexivity. }
  destruct A as (o & A & Q).
  assert (B : reg_step C (rnd 2%nat) (mkRegs u cells [] log) (RBegin c new) = mkRegs u cells [mkSetter c new PCompare] log).
  { cbn [reg_step rg_cells rg_users rg_setters rg_log]. destruct (Nat.ltb_spec c (length cells)); [reflexivity|lia]. }
  pose proof (alone_set C (rnd 2%nat) u cells log c ns old new _ _ _ LC CE A) as E. unfold g'. unfold reg_steps in *. cbn [fold_left]. rewrite B. cbn [fold_left alone] in E. cbn [alone fold_left]. rewrite E.
  cbn [rg_setters rg_users rg_log]. split; [reflexivity|]. split; [reflexivity|]. split; [|reflexivity]. rewrite Q. unfold cell_at. cbn [rg_cells]. now apply put_cell_same.
Qed.
Print Assumptions C66_uninterrupted.

(** * What goes wrong *)
(** A request (0) and its manager (1) have the same engine ID.  wait() has timed out
    and is in close(), just before it sets _engineID to None; the listener handles a
    report with another engine ID for the same request, and releases the first
    engine ID again: the manager's registration is gone, and the new engine ID
    stays registered for nobody. *)
Definition ex_one : bytes := [128; 0; 0; 0; 1].
Definition ex_two : bytes := [128; 0; 0; 0; 2].
Definition ex_crypto : crypto := mkCrypto OpenSSL (fun _ _ => []) (fun _ _ _ => []) (fun _ _ => []) (fun _ _ => []) (fun _ _ => []) (fun _ => []).
Definition ex_reg : registry := fst (user_run ex_crypto (fun _ => 0) registry0
  [OpAddUser [117] None None None None [] false None []; OpRegister ex_one []; OpRegister ex_one []]).
Definition ex_regs : regs := mkRegs ex_reg [mkCell [] (Some ex_one); mkCell [] (Some ex_one)] [] [].
Definition ex_closing : list reg_event := [RBegin 0 None; RBegin 0 (Some ex_two)] ++ repeat (RStep 0) 5 ++ repeat (RStep 1) 6 ++ [RStep 0].
Lemma ex_reg_start : reg_start (fun _ _ => 0) ex_regs.
Proof.
  split; [reflexivity|]. split; [reflexivity|]. split; [eexists _, _, _; reflexivity|]. split; [intros; lia|].
  intros ns e. unfold held, ex_regs, registered. cbn [rg_cells rg_users fold_right ce_ns ce_engine].
  assert (E : ur_engines ex_reg = [(ex_one, mkRemote 2 [] [([117], mkLocalized None None)])]) by reflexivity. rewrite E. cbn [dict_get holds re_count re_namespace].
  rewrite !(PrfDict.zlist_eqb_sym ex_one e). destruct (zlist_eqb e ex_one); cbn [re_namespace re_count]; destruct (zlist_eqb [] ns); reflexivity.
Qed.
Theorem C66_interleaved_refuted : ~ C66_interleaved_statement.
Proof.
  intros H. specialize (H ex_crypto (fun _ => 0) (fun _ _ => 0) ex_regs ex_closing _ ex_reg_start eq_refl) as [H _].
  assert (E : rg_setters (reg_steps ex_crypto (fun _ => 0) ex_regs ex_closing) = []) by reflexivity. specialize (H E [] ex_one). vm_compute in H. discriminate H.
Qed.
Print Assumptions C66_interleaved_refuted.
(** Afterwards the manager cannot send an authenticated message to its engine. *)
Example C66_interleaved_example : let g := reg_steps ex_crypto (fun _ => 0) ex_regs ex_closing in
  rg_log g = [(0%nat, Ok tt); (0%nat, Ok tt)] /\ map ce_engine (rg_cells g) = [None; Some ex_one] /\
  registered (rg_users g) [] ex_one = 0 /\ registered (rg_users g) [] ex_two = 1 /\
  getCredentials (rg_users ex_regs) ex_one [117] = Ok (mkLocalized None None) /\ getCredentials (rg_users g) ex_one [117] = Raise InvalidEngineID.
Proof. repeat split. Qed.
(** Two threads in different setters at the same time are no problem. *)
Definition ex_apart : list reg_event := [RBegin 0 None; RBegin 1 (Some ex_two)] ++ repeat (RStep 0) 5 ++ repeat (RStep 1) 6 ++ [RStep 0].
Example C66_apart_example : reg_start (fun _ _ => 0) ex_regs /\ apart ex_crypto (fun _ => 0) ex_regs ex_apart /\
  let g := reg_steps ex_crypto (fun _ => 0) ex_regs ex_apart in rg_setters g = [] /\ map ce_engine (rg_cells g) = [None; Some ex_two] /\
  registered (rg_users g) [] ex_one = 0 /\ registered (rg_users g) [] ex_two = 1.
Proof.
  split; [exact ex_reg_start|]. split; [|repeat split]. intros before c new after E.
  destruct before as [|x [|y before]].
  - intros [].
  - injection E as <- <- <- _. cbn. intros [X|[]]. discriminate X.
  - exfalso. injection E as _ _ E. assert (I : In (RBegin c new) (repeat (RStep 0) 5 ++ repeat (RStep 1) 6 ++ [RStep 0])) by (cbn [repeat app]; rewrite E; apply in_elt).
    repeat (apply in_app_or in I as [I|I]); [apply repeat_spec in I; discriminate I|apply repeat_spec in I; discriminate I|destruct I as [I|[]]; discriminate I].
Qed.
