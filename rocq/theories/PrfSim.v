(** PrfSim.v -- decoding depends only on the bytes seen, not on where they lie:
    simulation between two wf subbytes with equal views. *)
From Verif Require Export PrfBer Asn1.

Definition sim (s s' : subbytes) : Prop := sb_wf s /\ sb_wf s' /\ sb_view s = sb_view s'.
Definition adsim (d d' : asn1data) : Prop := ad_wf d /\ ad_wf d' /\ ad_view d = ad_view d'.

Definition rsim {A B} (R : A -> B -> Prop) (r : res A) (r' : res B) : Prop :=
  match r, r' with
  | Ok a, Ok b => R a b
  | Raise e, Raise e' => e = e'
  | _, _ => False
  end.

Lemma rsim_bind {A A' B B'} (R : A -> A' -> Prop) (Q : B -> B' -> Prop) m m' f f' :
  rsim R m m' -> (forall a a', R a a' -> rsim Q (f a) (f' a')) -> rsim Q (bind m f) (bind m' f').
Proof. destruct m, m'; cbn; intros; try easy; auto. Qed.
Lemma rsim_eq {A} (r r' : res A) : rsim eq r r' <-> r = r'.
Proof. destruct r, r'; cbn; split; intros; try congruence; try easy. Qed.
Lemma rsim_refl {A} (r : res A) : rsim eq r r.
Proof. now apply rsim_eq. Qed.
Lemma rsim_reraise {A B} (R : A -> B -> Prop) p e r r' :
  rsim R r r' -> rsim R (reraise p e r) (reraise p e r').
Proof. destruct r, r'; cbn; try easy. intros ->. destruct (p e1); reflexivity. Qed.

Lemma sim_refl s : sb_wf s -> sim s s.
Proof. unfold sim; auto. Qed.
Lemma sim_drop k s s' : sim s s' -> 0 <= k <= zlen (sb_view s) -> sim (sb_drop k s) (sb_drop k s').
Proof.
  intros (H1 & H2 & H3) Hk. assert (0 <= k <= zlen (sb_view s')) by (rewrite <- H3; lia).
  repeat split; try (apply sb_drop_wf; auto). rewrite !sb_drop_view by auto. now rewrite H3.
Qed.
Lemma sim_deref s s' : sim s s' -> sb_dereference s = sb_dereference s'.
Proof.
  intros (H1 & H2 & H3). destruct (sb_view s) as [|b r] eqn:E.
  - rewrite !sb_deref_nil by auto. reflexivity.
  - rewrite (sb_deref_cons s b r), (sb_deref_cons s' b r) by auto. reflexivity.
Qed.
Lemma sim_advance s s' : sim s s' -> sb_view s <> [] ->
  sim (sb_advance s) (sb_advance s') /\ sb_view (sb_advance s) = tl (sb_view s).
Proof.
  intros (H1 & H2 & H3) Hne. destruct (sb_view s) as [|b r] eqn:E; [easy|].
  rewrite (sb_advance_cons s b r), (sb_advance_cons s' b r) by auto.
  destruct (sb_drop_cons s b r H1 E) as [W1 V1].
  destruct (sb_drop_cons s' b r H2 (eq_sym H3)) as [W2 V2].
  rewrite V1. unfold sim. rewrite V1, V2. auto.
Qed.
Lemma deref_nonempty s x : sb_wf s -> sb_dereference s = Ok x -> sb_view s <> [].
Proof. intros Hw H E. rewrite sb_deref_nil in H by auto. discriminate. Qed.

Definition pair_sim {A} (p p' : A * subbytes) : Prop := fst p = fst p' /\ sim (snd p) (snd p').

Lemma tag_decode_loop_sim f f' n b s s' : sim s s' ->
  (length (sb_view s) < f)%nat -> (length (sb_view s) < f')%nat ->
  rsim pair_sim (tag_decode_loop f n b s) (tag_decode_loop f' n b s').
Proof.
  revert f' n b s s'; induction f as [|f IH]; intros f' n b s s' Hs Hf Hf'; [lia|].
  destruct f' as [|f']; [lia|]. cbn [tag_decode_loop].
  destruct (Z.land b 128 =? 0); [split; auto|].
  rewrite (sim_deref s s' Hs). destruct (sb_dereference s') as [x|e] eqn:E; [|apply rsim_refl || (cbn; destruct (exc_eqb IndexError e); reflexivity)].
  cbn [reraise bind].
  assert (Hne : sb_view s <> []).
  { destruct Hs as (H1 & H2 & H3). rewrite H3. eapply deref_nonempty; eauto. }
  destruct (sim_advance s s' Hs Hne) as [Hs' Hv].
  apply IH; auto; rewrite Hv; destruct (sb_view s); cbn [length tl] in *; try easy; lia.
Qed.

Lemma view_le_data s : sb_wf s -> (length (sb_view s) <= length (sb_data s))%nat.
Proof. intros Hw. pose proof (sb_view_zlen s Hw). destruct Hw. unfold zlen in *; lia. Qed.

Lemma tag_decode_sim s s' : sim s s' -> rsim pair_sim (tag_decode s) (tag_decode s').
Proof.
  intros Hs. unfold tag_decode. rewrite (sim_deref s s' Hs).
  destruct (sb_dereference s') as [x|e] eqn:E; [|cbn; destruct (exc_eqb IndexError e); reflexivity].
  cbn [reraise bind].
  assert (Hne : sb_view s <> []).
  { destruct Hs as (H1 & H2 & H3). rewrite H3. eapply deref_nonempty; eauto. }
  destruct (sim_advance s s' Hs Hne) as [Hs' Hv].
  eapply rsim_bind with (R := pair_sim).
  - destruct (Z.land x 31 =? 31).
    + destruct Hs' as (W1 & W2 & V). pose proof (view_le_data _ W1). pose proof (view_le_data _ W2).
      rewrite <- V in *. apply tag_decode_loop_sim; unfold sim; auto; lia.
    + split; auto.
  - intros [n d] [n' d'] [E1 E2]. cbn in E1, E2. subst n'.
    eapply rsim_bind with (R := eq); [apply rsim_refl|]. intros c c' <-. split; auto.
Qed.

Lemma decode_length_loop_sim n acc s s' : sim s s' ->
  rsim pair_sim (decode_length_loop n acc s) (decode_length_loop n acc s').
Proof.
  revert acc s s'; induction n as [|n IH]; intros acc s s' Hs; cbn [decode_length_loop]; [split; auto|].
  rewrite (sim_deref s s' Hs).
  destruct (sb_dereference s') as [x|e] eqn:E; [|cbn; destruct (exc_eqb IndexError e); reflexivity].
  cbn [reraise bind]. apply IH.
  assert (Hne : sb_view s <> []).
  { destruct Hs as (H1 & H2 & H3). rewrite H3. eapply deref_nonempty; eauto. }
  now destruct (sim_advance s s' Hs Hne).
Qed.

(** The decoded length is never negative (for byte data) - here as a fact about
    simulation we need only that both sides agree, whatever the sign. *)
Lemma sb_split_sim s s' n : sim s s' -> 
  sim (fst (sb_split s n)) (fst (sb_split s' n)) /\ sim (snd (sb_split s n)) (snd (sb_split s' n)).
Proof.
  intros (W & W' & V).
  pose proof (sb_view_zlen s W) as L. pose proof (sb_view_zlen s' W') as L'. rewrite <- V in L'.
  destruct (Z.ltb_spec n 0) as [Hn|Hn].
  - set (m := Z.max 0 (zlen (sb_view s) + n)).
    assert (forall s, sb_wf s ->
              sb_split s n = sb_split s (Z.max 0 (zlen (sb_view s) + n))) as G.
    { intros u Wu. pose proof (sb_view_zlen u Wu) as Lu. destruct Wu as [W1 W2].
      unfold sb_split, sb_new, sb_translate.
      destruct (n <? 0) eqn:E; [|lia]. 
      destruct (Z.max 0 (zlen (sb_view u) + n) <? 0) eqn:E2; [lia|].
      destruct (n + sb_stop u <? sb_start u) eqn:E3;
      destruct (sb_stop u <=? Z.max 0 (zlen (sb_view u) + n) + sb_start u) eqn:E4; f_equal; f_equal; lia. }
    rewrite (G s), (G s') by auto. rewrite <- V. fold m.
    assert (Hm : 0 <= m) by lia.
    pose proof (sb_split_spec s m W Hm) as H1. pose proof (sb_split_spec s' m W' Hm) as H2.
    destruct (sb_split s m), (sb_split s' m). cbn. unfold sim. rewrite V in H1. intuition congruence.
  - pose proof (sb_split_spec s n W Hn) as H1. pose proof (sb_split_spec s' n W' Hn) as H2.
    destruct (sb_split s n), (sb_split s' n). cbn. unfold sim. rewrite V in H1. intuition congruence.
Qed.

Lemma decode_length_sim s s' : sim s s' -> rsim pair_sim (decode_length s) (decode_length s').
Proof.
  intros Hs. unfold decode_length. rewrite (sim_deref s s' Hs).
  destruct (sb_dereference s') as [x|e] eqn:E; [|cbn; destruct (exc_eqb IndexError e); reflexivity].
  cbn [reraise bind].
  assert (Hne : sb_view s <> []).
  { destruct Hs as (H1 & H2 & H3). rewrite H3. eapply deref_nonempty; eauto. }
  destruct (sim_advance s s' Hs Hne) as [Hs' _].
  destruct (negb (Z.land x 128 =? 0)); [now apply decode_length_loop_sim|split; auto].
Qed.

Definition triple_sim (p p' : tag * asn1data * subbytes) : Prop :=
  fst (fst p) = fst (fst p') /\ adsim (snd (fst p)) (snd (fst p')) /\ sim (snd p) (snd p').

Lemma adsim_new d d' : adsim d d' -> sim (sb_new d None None) (sb_new d' None None).
Proof. intros (H1 & H2 & H3). destruct (sb_new_ad d H1), (sb_new_ad d' H2). split; [|split]; auto. congruence. Qed.

Lemma ber_decode_sim d d' ex lo c c' : adsim d d' ->
  rsim triple_sim (ber_decode d ex lo c) (ber_decode d' ex lo c').
Proof.
  intros Hd. apply adsim_new in Hd. unfold ber_decode.
  eapply rsim_bind; [apply tag_decode_sim; eauto|]. intros [t s] [t' s'] [E1 E2]. cbn in E1, E2. subst t'.
  destruct (match ex with Some e => negb (tag_eqb t e) | None => false end); [reflexivity|].
  eapply rsim_bind; [apply decode_length_sim; eauto|]. intros [n u] [n' u'] [E3 E4]. cbn in E3, E4. subst n'.
  destruct (sb_split_sim u u' n E4) as [S1 S2].
  destruct (sb_split u n) as [h tl], (sb_split u' n) as [h' tl']. cbn in S1, S2.
  rewrite !sb_len_wf by apply S1. cbn [bind].
  destruct S1 as (W1 & W2 & V1). destruct S2 as (W3 & W4 & V2). rewrite V1.
  destruct (zlen (sb_view h') <? n); [reflexivity|].
  rewrite !sb_bool_wf, V2 by auto.
  destruct (negb lo && _); [reflexivity|].
  unfold triple_sim, adsim, sim; cbn. repeat split; auto; try (destruct c, c'; cbn; auto; rewrite ?sb_getslice_all; auto; fail);
    try apply W1; try apply W2; try apply W3; try apply W4.
Qed.

(** A deserializer that sees only the bytes. *)
Definition viewdet {A} (f : asn1data -> res A) : Prop := forall d d', adsim d d' -> f d = f d'.

Lemma asn1_decode_sim {A} t (f : asn1data -> res A) d d' lo c c' : viewdet f -> adsim d d' ->
  rsim pair_sim (asn1_decode t f d lo c) (asn1_decode t f d' lo c').
Proof.
  intros Hf Hd. unfold asn1_decode.
  eapply rsim_bind; [apply ber_decode_sim; eauto|]. intros [[t1 b] s] [[t2 b'] s'] (E1 & E2 & E3). cbn in *.
  eapply rsim_bind with (R := eq); [apply rsim_eq, Hf; auto|]. intros x x' <-. split; auto.
Qed.

Lemma viewdet_adata {A} (f : bytes -> res A) : viewdet (fun d => f (adata_bytes d)).
Proof. intros d d' (H1 & H2 & H3). rewrite !adata_bytes_view by auto. now rewrite H3. Qed.

Lemma adsim_sub s s' : sim s s' -> adsim (ASub s) (ASub s').
Proof. intros (H1 & H2 & H3); split; [|split]; auto. Qed.
Lemma adsim_view d : ad_wf d -> adsim d (ABytes (ad_view d)).
Proof. intros H; split; [|split]; cbn; auto. Qed.

(** Round trip of one TLV through a class with a view-determined deserializer. *)
Lemma asn1_decode_encode {A} t (f : asn1data -> res A) body e ad rest lo cp :
  tag_ok t -> ber_encode t body = Ok e -> viewdet f ->
  ad_wf ad -> bytes_ok (ad_data ad) -> ad_view ad = e ++ rest -> (lo = true \/ rest = []) ->
  exists tail, sb_wf tail /\ sb_view tail = rest /\ sb_data tail = ad_data ad /\
    asn1_decode t f ad lo cp = (do x <- f (ABytes body); Ok (x, tail)).
Proof.
  intros Ht He Hf Hw Hok Hv Hlo. destruct (sb_new_ad ad Hw) as [W V]. rewrite Hv in V.
  assert (Hok' : bytes_ok (sb_data (sb_new ad None None))) by (destruct ad; exact Hok).
  destruct (ber_decode_encode t body e rest ad _ Ht He eq_refl W Hok' V)
    as (b & tl & Wb & Vb & Wt & Vt & Db & Et & _ & _ & Hdec).
  exists tl. split; [auto|]. split; [auto|]. split; [subst tl; destruct ad; reflexivity|].
  unfold asn1_decode. rewrite Hdec, tag_eqb_refl. cbn [negb].
  assert (E : negb lo && negb (zlen rest =? 0) = false).
  { destruct Hlo as [->| ->]; [reflexivity|]. zl. now rewrite andb_false_r. }
  rewrite E. cbn [bind]. f_equal. apply Hf.
  unfold body_of. destruct cp; (split; [|split]); cbn; rewrite ?sb_getslice_all; auto.
Qed.

(** ** Exceptions *)
Definition raises_only {A} (P : exc -> Prop) (m : res A) : Prop := forall e, m = Raise e -> P e.

Lemma raises_bind {A B} P (m : res A) (f : A -> res B) :
  raises_only P m -> (forall a, m = Ok a -> raises_only P (f a)) -> raises_only P (bind m f).
Proof. intros H1 H2 e H. destruct m; cbn in H; [exact (H2 a eq_refl e H)|apply H1; congruence]. Qed.
Lemma raises_ok {A} P (a : A) : raises_only P (Ok a).
Proof. intros e H; discriminate. Qed.
Lemma raises_raise {A} (P : exc -> Prop) e : P e -> raises_only P (@Raise A e).
Proof. intros H e' E; inversion E; subst; auto. Qed.
Lemma raises_weaken {A} (P Q : exc -> Prop) (m : res A) :
  raises_only P m -> (forall e, P e -> Q e) -> raises_only Q m.
Proof. intros H1 H2 e He; auto. Qed.
Lemma raises_reraise {A} (P : exc -> Prop) p e (m : res A) :
  raises_only (fun x => p x = true \/ P x) m -> P e -> raises_only P (reraise p e m).
Proof.
  intros H He x Hx. destruct m as [a|y]; cbn in Hx; [discriminate|].
  destruct (p y) eqn:E; inversion Hx; subst; auto.
  destruct (H _ eq_refl); congruence.
Qed.

Lemma ber_decode_raises d ex lo c : ad_wf d -> bytes_ok (ad_data d) ->
  raises_only (eq ParseError) (ber_decode d ex lo c).
Proof.
  intros H1 H2 e He. destruct (ber_decode_total d ex lo c H1 H2) as [(t & b & tl & k & E & _)|E]; congruence.
Qed.
Lemma ber_decode_ok_wf d ex lo c t b tl : ad_wf d -> bytes_ok (ad_data d) ->
  ber_decode d ex lo c = Ok (t, b, tl) ->
  ad_wf b /\ bytes_ok (ad_data b) /\ sb_wf tl /\ sb_data tl = sb_data (sb_new d None None) /\ bytes_ok (sb_data tl).
Proof.
  intros H1 H2 E. destruct (ber_decode_total d ex lo c H1 H2)
    as [(t' & b' & tl' & k & E' & Ht & _ & Wb & Wt & _ & Db & Dt & _)|E']; [|congruence].
  rewrite E in E'. inversion E'; subst.
  assert (Hok : bytes_ok (sb_data (sb_new d None None))) by (destruct d; exact H2).
  split; [destruct c; cbn; auto|]. split; [destruct c; cbn|].
  - rewrite sb_getslice_all by auto. apply sb_view_ok. now rewrite Db.
  - now rewrite Db.
  - rewrite Dt. auto.
Qed.

Lemma asn1_decode_raises {A} (P : exc -> Prop) t (f : asn1data -> res A) d lo c :
  P ParseError -> ad_wf d -> bytes_ok (ad_data d) ->
  (forall b, ad_wf b -> bytes_ok (ad_data b) -> raises_only P (f b)) ->
  raises_only P (asn1_decode t f d lo c).
Proof.
  intros HP H1 H2 Hf. unfold asn1_decode. apply raises_bind.
  - eapply raises_weaken; [apply ber_decode_raises; auto|]. intros e <-; auto.
  - intros [[t' b] tl] E. destruct (ber_decode_ok_wf _ _ _ _ _ _ _ H1 H2 E) as (Wb & Ob & _).
    apply raises_bind; [now apply Hf|]. intros x _. apply raises_ok.
Qed.
Lemma asn1_decode_ok {A} t (f : asn1data -> res A) d lo c x tl :
  ad_wf d -> bytes_ok (ad_data d) -> asn1_decode t f d lo c = Ok (x, tl) ->
  sb_wf tl /\ bytes_ok (sb_data tl) /\ sb_data tl = ad_data d /\ exists b, ad_wf b /\ bytes_ok (ad_data b) /\ f b = Ok x.
Proof.
  intros H1 H2 E. unfold asn1_decode in E. apply bind_ok in E as ([[t' b] tl'] & E1 & E2).
  apply bind_ok in E2 as (x' & E2 & E3). inversion E3; subst.
  destruct (ber_decode_ok_wf _ _ _ _ _ _ _ H1 H2 E1) as (Wb & Ob & Wt & Dt & Ot).
  split; [auto|]. split; [auto|]. split; [rewrite Dt; destruct d; reflexivity|eauto].
Qed.
