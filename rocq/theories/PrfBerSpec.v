(** PrfBerSpec.v -- ber.decode recognises exactly the octets of SpecBer. *)
From Verif Require Export PrfSim SpecBer.

Lemma id_octet_arith cls (c : bool) n : 0 <= cls <= 3 -> 0 <= n < 32 ->
  let b := 64 * cls + (if c then 32 else 0) + n in
  0 <= b < 256 /\ Z.shiftr (Z.land b 0xc0) 6 = cls /\ negb (Z.land b 0x20 =? 0) = c /\ Z.land b 0x1f = n.
Proof.
  intros Hc Hn b. pose proof (id_octet_spec cls c n Hc Hn) as H.
  replace b with (id_octet cls c n); [exact H|].
  assert (G : forallb (fun cls => forallb (fun c : bool => forallb (fun n =>
      id_octet cls c n =? 64 * cls + (if c then 32 else 0) + n)
      (map Z.of_nat (seq 0 32))) [true; false]) [0;1;2;3] = true) by (vm_compute; reflexivity).
  rewrite forallb_forall in G. specialize (G cls ltac:(cbn; lia)). rewrite forallb_forall in G.
  specialize (G c ltac:(destruct c; cbn; auto)). rewrite forallb_forall in G.
  assert (In n (map Z.of_nat (seq 0 32))).
  { apply in_map_iff. exists (Z.to_nat n). split; [lia|apply in_seq; lia]. }
  specialize (G n H0). unfold b. lia.
Qed.
Lemma byte_fields b : 0 <= b < 256 ->
  let cls := Z.shiftr (Z.land b 0xc0) 6 in let c := negb (Z.land b 0x20 =? 0) in
  0 <= cls <= 3 /\ b = 64 * cls + (if c then 32 else 0) + Z.land b 0x1f.
Proof.
  intros Hb cls c.
  assert (G : ((0 <=? cls) && (cls <=? 3) && (b =? 64 * cls + (if c then 32 else 0) + Z.land b 0x1f)) = true).
  { unfold cls, c. clear cls c. revert b Hb. apply byte_sweep. vm_compute. reflexivity. }
  lia.
Qed.

Lemma tag_loop_groups highs low : Forall (fun b => 128 <= b < 256) highs -> 0 <= low < 128 ->
  forall fuel acc b s rest, (Z.land b 0x80 =? 0) = false -> sb_wf s ->
  sb_view s = highs ++ low :: rest -> (length highs < fuel)%nat ->
  tag_decode_loop (S fuel) acc b s =
  Ok (fold_left (fun a g => a * 128 + g) (map (fun b => b - 128) highs ++ [low]) acc,
      sb_drop (1 + zlen highs) s).
Proof.
  intros Hh Hl. induction highs as [|h highs IH]; intros fuel acc b s rest Hb Hw Hv Hf.
  - cbn [app map fold_left] in *. rewrite (tag_decode_loop_step _ _ _ _ _ _ Hw Hv Hb).
    destruct fuel; cbn [tag_decode_loop]; rewrite land_80 by lia; (destruct (low <? 128) eqn:E; [|lia]);
    rewrite Z.mod_small by lia; reflexivity.
  - inversion Hh; subst. cbn [app] in Hv. rewrite (tag_decode_loop_step _ _ _ _ _ _ Hw Hv Hb).
    destruct (sb_drop_cons _ _ _ Hw Hv) as [Hw' Hv']. cbn [length] in Hf.
    destruct fuel as [|fuel]; [lia|].
    rewrite (IH H2 fuel _ h (sb_drop 1 s) rest); auto; [|rewrite land_80 by lia; lia|lia].
    cbn [map app fold_left]. rewrite sb_drop_drop. zl.
    replace (h mod 128) with (h - 128) by (apply Z.mod_unique with (q := 1); lia).
    do 3 f_equal. 
Qed.

Lemma tag_loop_groups_inv fuel acc b s n t : (Z.land b 0x80 =? 0) = false ->
  sb_wf s -> bytes_ok (sb_view s) -> (length (sb_view s) < fuel)%nat ->
  tag_decode_loop fuel acc b s = Ok (n, t) ->
  exists highs low rest, Forall (fun b => 128 <= b < 256) highs /\ 0 <= low < 128 /\
    sb_view s = highs ++ low :: rest /\ t = sb_drop (1 + zlen highs) s /\
    n = fold_left (fun a g => a * 128 + g) (map (fun b => b - 128) highs ++ [low]) acc.
Proof.
  revert acc b s; induction fuel as [|fuel IH]; intros acc b s Hb Hw Hok Hf H; [lia|].
  destruct (sb_view s) as [|x r] eqn:Hv.
  - cbn [tag_decode_loop] in H. rewrite Hb, sb_deref_nil in H by auto. discriminate.
  - rewrite (tag_decode_loop_step _ _ _ _ _ _ Hw Hv Hb) in H.
    destruct (sb_drop_cons _ _ _ Hw Hv) as [Hw' Hv']. apply bytes_ok_cons in Hok as [Hx Hok].
    destruct (Z.ltb_spec x 128).
    + exists [], x, r. cbn [app map fold_left zlen]. 
      destruct fuel; cbn [tag_decode_loop] in H; rewrite land_80 in H by lia;
      (destruct (x <? 128) eqn:E; [|lia]); inversion H; subst; rewrite Z.mod_small by lia;
      repeat split; auto; lia.
    + cbn [length] in Hf. apply IH in H; [|rewrite land_80 by lia; lia|auto|now rewrite Hv'|rewrite Hv'; lia].
      destruct H as (highs & low & rest & H1 & H2 & H3 & H4 & H5).
      exists (x :: highs), low, rest. rewrite Hv' in H3. subst r n t.
      split; [constructor; auto; lia|]. split; [auto|]. split; [reflexivity|].
      rewrite sb_drop_drop. zl. split; [f_equal; lia|]. cbn [map app fold_left].
      replace (x mod 128) with (x - 128) by (apply Z.mod_unique with (q := 1); lia). reflexivity.
Qed.

Lemma tag_decode_ident ident cls c n s rest : identifier_octets ident cls c n -> sb_wf s ->
  sb_view s = ident ++ rest -> tag_decode s = Ok (mkTag n c cls, sb_drop (zlen ident) s).
Proof.
  intros Hi Hw Hv. unfold tag_decode.
  assert (Hcls : forall cls, 0 <= cls <= 3 -> tag_class cls = Ok cls).
  { intros k Hk. unfold tag_class. destruct ((0 <=? k) && (k <=? 3)) eqn:E2; [reflexivity|lia]. }
  destruct Hi as [cls c n Hc Hn|cls c highs low Hc Hh Hl].
  - cbn [app] in Hv. rewrite (sb_deref_cons _ _ _ Hw Hv), (sb_advance_cons _ _ _ Hw Hv). cbn [reraise bind].
    destruct (id_octet_arith cls c n Hc ltac:(lia)) as (Hb & H1 & H2 & H3).
    rewrite H1, H2, H3. destruct (n =? 31) eqn:E; [lia|]. cbn [bind]. rewrite Hcls by auto. reflexivity.
  - cbn [app] in Hv. rewrite <- app_assoc in Hv. cbn [app] in Hv.
    rewrite (sb_deref_cons _ _ _ Hw Hv), (sb_advance_cons _ _ _ Hw Hv). cbn [reraise bind].
    destruct (id_octet_arith cls c 31 Hc ltac:(lia)) as (Hb & H1 & H2 & H3).
    rewrite H1, H2, H3. change (31 =? 31) with true. cbv iota.
    destruct (sb_drop_cons _ _ _ Hw Hv) as [Hw' Hv'].
    rewrite (tag_loop_groups highs low Hh Hl _ _ _ _ rest); auto.
    + cbn [bind]. rewrite Hcls by auto. cbn [bind]. rewrite sb_drop_drop. zl. do 2 f_equal. f_equal. lia.
    + pose proof (view_le_data _ Hw'). rewrite Hv' in H. rewrite app_length in H. cbn [length] in H. lia.
Qed.
Lemma tag_decode_ident_inv s t s' : sb_wf s -> bytes_ok (sb_data s) -> tag_decode s = Ok (t, s') ->
  exists ident rest, identifier_octets ident (t_cls t) (t_constructed t) (t_number t) /\
    sb_view s = ident ++ rest /\ s' = sb_drop (zlen ident) s.
Proof.
  intros Hw Hok H. unfold tag_decode in H. pose proof (sb_view_ok s Hok) as Hvok.
  destruct (sb_view s) as [|b r] eqn:Hv.
  { rewrite sb_deref_nil in H by auto. discriminate. }
  rewrite (sb_deref_cons _ _ _ Hw Hv), (sb_advance_cons _ _ _ Hw Hv) in H. cbn [reraise bind] in H.
  apply bytes_ok_cons in Hvok as [Hb Hr]. destruct (byte_fields b Hb) as [Hc Eb].
  destruct (sb_drop_cons _ _ _ Hw Hv) as [Hw' Hv'].
  set (cls := Z.shiftr (Z.land b 192) 6) in *. set (c := negb (Z.land b 32 =? 0)) in *.
  assert (Hcls : tag_class cls = Ok cls).
  { unfold tag_class. destruct ((0 <=? cls) && (cls <=? 3)) eqn:E2; [reflexivity|lia]. }
  apply bind_ok in H as ([n d] & H1 & H2). rewrite Hcls in H2. cbn [bind] in H2. inversion H2; subst t s'. clear H2.
  cbn [t_cls t_constructed t_number]. rewrite land_1f in *. pose proof (Z.mod_pos_bound b 32 ltac:(lia)).
  destruct (b mod 32 =? 31) eqn:E.
  - apply tag_loop_groups_inv in H1; [|reflexivity|auto|now rewrite Hv'|].
    + destruct H1 as (highs & low & rest & G1 & G2 & G3 & G4 & G5). rewrite Hv' in G3. subst.
      exists (b :: highs ++ [low]), rest. split.
      * rewrite Eb. replace (b mod 32) with 31 by lia. now apply ident_high.
      * split; [cbn; now rewrite <- app_assoc|]. rewrite sb_drop_drop. zl. f_equal. lia.
    + pose proof (view_le_data _ Hw'). lia.
  - injection H1 as <- <-. exists [b], r. split; [|split; [reflexivity|reflexivity]].
    rewrite Eb at 1. apply ident_low; lia.
Qed.

Lemma decode_length_octets len n s rest : length_octets len n -> sb_wf s -> bytes_ok (sb_data s) ->
  sb_view s = len ++ rest -> decode_length s = Ok (n, sb_drop (zlen len) s).
Proof.
  intros Hl Hw Hok Hv. unfold decode_length. destruct Hl as [n Hn|ds Hd Hdb]; cbn [app] in Hv;
  rewrite (sb_deref_cons _ _ _ Hw Hv), (sb_advance_cons _ _ _ Hw Hv); cbn [reraise bind].
  - rewrite land_80 by lia. destruct (n <? 128) eqn:E; [|lia]. reflexivity.
  - rewrite land_80 by lia. destruct (128 + Z.of_nat (length ds) <? 128) eqn:E; [lia|]. cbn [negb].
    rewrite land_7f. replace ((128 + Z.of_nat (length ds)) mod 128) with (Z.of_nat (length ds))
      by (symmetry; rewrite Z.add_comm; change 128 with (1 * 128) at 1; rewrite Z.mod_add, Z.mod_small by lia; reflexivity).
    destruct (sb_drop_cons _ _ _ Hw Hv) as [Hw' Hv'].
    rewrite Nat2Z.id, decode_length_loop_ok by auto. rewrite Hv'. zl. fold (zlen ds).
    destruct (zlen ds <=? zlen ds + zlen rest) eqn:E2; [|pose proof (zlen_nonneg rest); lia].
    rewrite firstn_app, Nat.sub_diag, firstn_all. cbn [firstn]. rewrite app_nil_r, sb_drop_drop.
    unfold from_be. do 2 f_equal. 
Qed.
Lemma decode_length_octets_inv s n s' : sb_wf s -> bytes_ok (sb_data s) -> decode_length s = Ok (n, s') ->
  exists len rest, length_octets len n /\ sb_view s = len ++ rest /\ s' = sb_drop (zlen len) s.
Proof.
  intros Hw Hok H. unfold decode_length in H. pose proof (sb_view_ok s Hok) as Hvok.
  destruct (sb_view s) as [|b r] eqn:Hv.
  { rewrite sb_deref_nil in H by auto. discriminate. }
  rewrite (sb_deref_cons _ _ _ Hw Hv), (sb_advance_cons _ _ _ Hw Hv) in H. cbn [reraise bind] in H.
  apply bytes_ok_cons in Hvok as [Hb Hr]. destruct (sb_drop_cons _ _ _ Hw Hv) as [Hw' Hv'].
  rewrite land_80 in H by auto. destruct (b <? 128) eqn:E; cbn [negb] in H.
  - injection H as <- <-. exists [b], r. split; [apply length_short; lia|]. auto.
  - rewrite land_7f in H. rewrite decode_length_loop_ok in H by auto. rewrite Hv' in H.
    pose proof (Z.mod_pos_bound b 128 ltac:(lia)).
    destruct (Z.of_nat (Z.to_nat (b mod 128)) <=? zlen r) eqn:E2; [|discriminate].
    rewrite sb_drop_drop in H. inversion H; subst n s'. clear H.
    set (ds := firstn (Z.to_nat (b mod 128)) r).
    assert (Hds : zlen ds = b mod 128) by (unfold ds; rewrite zlen_firstn; lia).
    exists (b :: ds), (skipn (Z.to_nat (b mod 128)) r). split; [|split].
    + replace b with (128 + Z.of_nat (length ds)) at 1.
      * rewrite Z.mul_0_l, Z.add_0_l. apply length_long; [unfold zlen in Hds; lia|]. apply bytes_ok_firstn; auto.
      * fold (zlen ds). rewrite Hds. 
        assert (b mod 128 = b - 128) by (symmetry; apply Z.mod_unique with (q := 1); lia). lia.
    + cbn [app]. unfold ds. now rewrite firstn_skipn.
    + zl. rewrite Hds. f_equal. lia.
Qed.

(** Exact behaviour of ber.decode. *)
Definition ber_accepts (expected : option tag) (leftovers : bool) (t : tag) (rest : bytes) : bool :=
  match expected with Some e => tag_eqb t e | None => true end && (leftovers || (zlen rest =? 0)).

Lemma ber_decode_complete l ex lo cp t body rest : bytes_ok l ->
  tlv l (t_cls t) (t_constructed t) (t_number t) body rest ->
  if ber_accepts ex lo t rest
  then exists b tl, ber_decode (ABytes l) ex lo cp = Ok (t, b, tl) /\ adata_bytes b = body /\ sb_getslice tl None None = rest
  else ber_decode (ABytes l) ex lo cp = Raise ParseError.
Proof.
  intros Hok (ident & len & Hi & Hl & ->). unfold ber_decode. rewrite sb_new_bytes.
  set (s := sb_whole (ident ++ len ++ body ++ rest)).
  pose proof (sb_whole_wf (ident ++ len ++ body ++ rest)) as Hw. fold s in Hw.
  pose proof (sb_whole_view (ident ++ len ++ body ++ rest)) as Hv. fold s in Hv.
  rewrite (tag_decode_ident _ _ _ _ _ _ Hi Hw Hv). cbn [bind].
  assert (Et : {| t_number := t_number t; t_constructed := t_constructed t; t_cls := t_cls t |} = t) by (destruct t; reflexivity).
  rewrite Et. unfold ber_accepts.
  destruct (match ex with Some e => tag_eqb t e | None => true end) eqn:Ex.
  2:{ destruct ex; [|discriminate]. rewrite Ex. reflexivity. }
  assert (match ex with Some e => negb (tag_eqb t e) | None => false end = false) as -> by (destruct ex; [now rewrite Ex|reflexivity]).
  destruct (sb_drop_app _ _ _ Hw Hv) as [Hw1 Hv1].
  rewrite (decode_length_octets _ _ _ _ Hl Hw1 Hok Hv1). cbn [bind].
  destruct (sb_drop_app _ _ _ Hw1 Hv1) as [Hw2 Hv2]. rewrite sb_drop_drop in *.
  fold (zlen body). pose proof (sb_split_spec _ (zlen body) Hw2 (zlen_nonneg body)) as Hsp.
  destruct (sb_split _ (zlen body)) as [h tl] eqn:Esp.
  destruct Hsp as (Hwh & Hwt & Hvh & Hvt & _).
  rewrite Hv2 in Hvh, Hvt. rewrite firstn_zlen_app in Hvh. rewrite skipn_zlen_app in Hvt.
  rewrite sb_len_wf by auto. cbn [bind]. rewrite Hvh, Z.ltb_irrefl, sb_bool_wf, Hvt by auto.
  cbn [andb]. replace (match rest with [] => false | _ => true end) with (negb (zlen rest =? 0)).
  2:{ destruct rest as [|x r]; [reflexivity|]. zl. pose proof (zlen_nonneg r). lia. }
  destruct lo; cbn [negb andb orb].
  - eexists _, _. split; [reflexivity|]. destruct cp; cbn; rewrite ?sb_getslice_all; auto.
  - destruct (zlen rest =? 0); cbn [negb]; [|reflexivity].
    eexists _, _. split; [reflexivity|]. destruct cp; cbn; rewrite ?sb_getslice_all; auto.
Qed.

Lemma ber_decode_sound l ex lo cp t b tl : bytes_ok l -> ber_decode (ABytes l) ex lo cp = Ok (t, b, tl) ->
  tlv l (t_cls t) (t_constructed t) (t_number t) (adata_bytes b) (sb_getslice tl None None) /\
  ber_accepts ex lo t (sb_getslice tl None None) = true.
Proof.
  intros Hok H. unfold ber_decode in H. rewrite sb_new_bytes in H. set (s := sb_whole l) in *.
  pose proof (sb_whole_wf l) as Hw. fold s in Hw. pose proof (sb_whole_view l) as Hv. fold s in Hv.
  apply bind_ok in H as ([t' s1] & H1 & H). 
  destruct (tag_decode_ident_inv _ _ _ Hw Hok H1) as (ident & r1 & Hi & Hv1 & ->).
  destruct (match ex with Some e => negb (tag_eqb t' e) | None => false end) eqn:Ex; [discriminate|].
  destruct (sb_drop_app _ _ _ Hw Hv1) as [Hw1 Hvv1].
  apply bind_ok in H as ([n s2] & H2 & H).
  destruct (decode_length_octets_inv _ _ _ Hw1 Hok H2) as (len & r2 & Hl & Hv2 & ->).
  destruct (sb_drop_app _ _ _ Hw1 Hv2) as [Hw2 Hvv2]. rewrite sb_drop_drop in *.
  assert (Hn : 0 <= n).
  { destruct Hl; [lia|]. apply from_be_bound. auto. }
  pose proof (sb_split_spec _ n Hw2 Hn) as Hsp. destruct (sb_split _ n) as [h tl'].
  destruct Hsp as (Hwh & Hwt & Hvh & Hvt & _).
  rewrite sb_len_wf in H by auto. cbn [bind] in H.
  destruct (zlen (sb_view h) <? n) eqn:E1; [discriminate|].
  destruct (negb lo && sb_bool tl') eqn:E2; [discriminate|]. injection H as -> <- ->.
  assert (Hb : adata_bytes (if cp then ABytes (sb_getslice h None None) else ASub h) = sb_view h)
    by (destruct cp; cbn; now rewrite sb_getslice_all).
  rewrite Hb, sb_getslice_all by auto.
  assert (Hzl : zlen (sb_view h) = n).
  { rewrite Hvh in *. rewrite zlen_firstn in *. lia. }
  split.
  - exists ident, len. split; [auto|]. split.
    + fold (zlen (sb_view h)). now rewrite Hzl.
    + rewrite Hvh, Hvt, firstn_skipn, Hvv2, <- Hv2, Hvv1. congruence.
  - unfold ber_accepts. apply andb_true_iff. split.
    + destruct ex; [|reflexivity]. now destruct (tag_eqb t _).
    + rewrite sb_bool_wf in E2 by auto. destruct lo; [reflexivity|]. cbn in E2.
      destruct (sb_view tl); [reflexivity|discriminate].
Qed.
