(** PrfUsm.v -- proofs about usm_prepareOutgoing and usm_processIncoming. *)
From Coq Require Import Lia.
From Verif Require Import PrfBase PrfDict PrfUtils PrfDec PrfMsg PrfParams PrfMsgDec PrfUsers PrfTime.
From Verif Require Export PrfCrypto.

Lemma zlen_app {A} (a b : list A) : zlen (a ++ b) = zlen a + zlen b.
Proof. unfold zlen. rewrite app_length. lia. Qed.
Lemma firstn_pre {A} (a b : list A) : firstn (Z.to_nat (zlen a)) (a ++ b) = a.
Proof. unfold zlen. rewrite Nat2Z.id, firstn_app, Nat.sub_diag, firstn_all. cbn. apply app_nil_r. Qed.
Lemma skipn_pre {A} (a b : list A) : skipn (Z.to_nat (zlen a)) (a ++ b) = b.
Proof. unfold zlen. rewrite Nat2Z.id, skipn_app, Nat.sub_diag, skipn_all. reflexivity. Qed.

Lemma sb_replace_mid pre mid post r : sb_replace (mkSub (pre ++ mid ++ post) (zlen pre) (zlen pre + zlen mid)) r = pre ++ r ++ post.
Proof.
  unfold sb_replace. cbn [sb_data sb_start sb_stop]. rewrite slice_to by (unfold zlen; lia). rewrite firstn_pre. f_equal. f_equal.
  unfold py_slice, slice_bound. pose proof (zlen_nonneg pre). pose proof (zlen_nonneg mid). pose proof (zlen_nonneg post).
  replace (zlen pre + zlen mid <? 0) with false by (symmetry; apply Z.ltb_ge; lia).
  rewrite !zlen_app. rewrite Z.min_l by lia. rewrite app_assoc. rewrite <- (zlen_app pre mid) at 2. rewrite skipn_pre.
  replace (zlen pre + (zlen mid + zlen post) - (zlen pre + zlen mid)) with (zlen post) by lia.
  unfold zlen. rewrite Nat2Z.id. apply firstn_all.
Qed.
Lemma sb_new_mid pre mid post : 
  sb_replace (sb_new (ABytes (pre ++ mid ++ post)) (Some (zlen pre)) (Some (zlen pre + zlen mid))) = 
  sb_replace (mkSub (pre ++ mid ++ post) (zlen pre) (zlen pre + zlen mid)).
Proof.
  pose proof (zlen_nonneg pre). pose proof (zlen_nonneg mid). pose proof (zlen_nonneg post).
  unfold sb_new. cbn [sb_data sb_start sb_stop]. unfold sb_translate. cbn [sb_data sb_start sb_stop].
  rewrite !zlen_app. replace (zlen pre <? 0) with false by (symmetry; apply Z.ltb_ge; lia).
  replace (zlen pre + zlen mid <? 0) with false by (symmetry; apply Z.ltb_ge; lia). rewrite !Z.add_0_r.
  f_equal. f_equal.
  - destruct (_ <=? zlen pre) eqn:E; [apply Z.leb_le in E; lia|reflexivity].
  - destruct (_ <=? zlen pre + zlen mid) eqn:E; [apply Z.leb_le in E; lia|reflexivity].
Qed.

Lemma auth_N_pos a : 0 < auth_N a <= digest_size a.
Proof. destruct a; cbn; lia. Qed.
Lemma auth_sign_spec C a k x : crypto_ok C ->
  auth_sign C a k x = firstn (Z.to_nat (auth_N a)) (c_hmac C a k x) /\
  zlen (auth_sign C a k x) = auth_N a /\ bytes_ok (auth_sign C a k x).
Proof.
  intros CO. unfold auth_sign. pose proof (auth_N_pos a). rewrite slice_to by lia.
  destruct (ok_hmac C CO a k x) as [L B]. split; [reflexivity|]. split; [|now apply firstn_ok].
  unfold zlen in *. rewrite firstn_length. lia.
Qed.

(** * C36 *)
Lemma incoming_authenticated C R s datagram m ts s' m' :
  crypto_ok C -> bytes_ok datagram -> v3_decode (ABytes datagram) = Ok m ->
  usm_processIncoming C R s m ts = (s', Ok m') -> fl_auth (h_flags (v3_header m)) = true ->
  exists sp l alg key pre post,
    params_decode (v3_params m) = Ok sp /\
    v3_header m' = v3_header m /\ v3_engineID m' = Some (up_engineID sp) /\ v3_name m' = Some (up_userName sp) /\
    getCredentials (us_users s) (up_engineID sp) (up_userName sp) = Ok l /\ lc_auth l = Some (alg, key) /\
    (fl_priv (h_flags (v3_header m)) = true -> lc_priv l <> None) /\
    datagram = pre ++ up_signature sp ++ post /\ up_index sp = Some (zlen pre) /\
    zlen (up_signature sp) = auth_N alg /\
    up_signature sp = firstn (Z.to_nat (auth_N alg)) (c_hmac C alg key (pre ++ zero_bytes (auth_N alg) ++ post)) /\
    updateAndVerify R (us_time s) (up_engineID sp) (up_boots sp) (up_time sp) ts = (us_time s', true).
Proof.
  intros CO BD D P A. destruct (v3_decode_ok (ABytes datagram) m) as (_ & _ & _ & sb & EP & WS & DS); auto.
  { exact I. }
  cbn in DS. unfold usm_processIncoming in P. destruct (params_decode (v3_params m)) as [sp|] eqn:PD; [|discriminate].
  rewrite EP in PD. destruct (params_decode_ok sb sp WS) as (_ & i & before & after & EI & EW & ES & EL); auto.
  { now rewrite DS. }
  rewrite DS in *. cbn [v3_header v3_encrypted v3_scoped v3_params] in P. rewrite A in P. cbn [negb] in P.
  destruct (getCredentials _ _ _) as [l|x] eqn:GC; [|destruct x; discriminate].
  destruct (lc_auth l) as [[alg key]|] eqn:LA; [|discriminate].
  destruct (fl_priv (h_flags (v3_header m)) && _) eqn:FP; [discriminate|].
  pose proof (auth_N_pos alg). unfold msgAuthenticationParameters in P. rewrite zero_bytes_len in P by lia.
  destruct (zlen (up_signature sp) =? auth_N alg) eqn:ZL; cbn [negb] in P; [|discriminate]. apply Z.eqb_eq in ZL.
  rewrite EI, EW in P. rewrite ES in P. rewrite <- EL, <- ZL in P. rewrite sb_new_mid, sb_replace_mid in P. rewrite ZL in P.
  destruct (zlist_eqb (auth_sign _ _ _ _) _) eqn:SG; cbn [negb] in P; [|discriminate]. apply zlist_eqb_eq in SG.
  destruct (auth_sign_spec C alg key (before ++ zero_bytes (auth_N alg) ++ after) CO) as (SG2 & _ & _).
  destruct (updateAndVerify _ _ _ _ _ _) as [t ok] eqn:UV. destruct ok; cbn [negb] in P; [|discriminate].
  exists sp, l, alg, key, before, after. split; [reflexivity|].
  assert (Hm : v3_header m' = v3_header m /\ v3_engineID m' = Some (up_engineID sp) /\ v3_name m' = Some (up_userName sp) /\ us_time s' = t).
  { destruct (fl_priv (h_flags (v3_header m))).
    - injection P as <- P. unfold reraise in P. match type of P with match ?z with _ => _ end = _ => destruct z as [x|x] eqn:M end; [|destruct (is_ValueError x); discriminate].
      injection P as <-. destruct (lc_priv l); [|discriminate]. destruct (v3_encrypted m); [|discriminate].
      apply bind_ok in M as (pt & _ & M). unfold v3_set_plaintext in M. apply bind_ok in M as (r & _ & M). injection M as <-. cbn. auto.
    - injection P as <- <-. cbn. auto. }
  destruct Hm as (-> & -> & -> & ->). repeat split; auto.
  - intros F X. rewrite F, X in FP. discriminate.
  - congruence.
  - congruence.
Qed.

(** * Locating the digest in an encoded message *)
Lemma split_unique {A} (x y : A) (pre post pre' post' : list A) n : x <> y -> (0 < n)%nat ->
  (forall l, length l = n -> pre ++ l ++ post = pre' ++ l ++ post') -> pre = pre' /\ post = post'.
Proof.
  intros N H E.
  assert (L : forall (p q p' q' : list A), (forall l, length l = n -> p ++ l ++ q = p' ++ l ++ q') -> (length p < length p')%nat -> False).
  { clear -N H. intros p q p' q' E L.
    pose proof (E (repeat x n) (repeat_length _ _)) as E1. pose proof (E (repeat y n) (repeat_length _ _)) as E2.
    apply (f_equal (fun l => nth_error l (length p))) in E1, E2.
    rewrite nth_error_app2, Nat.sub_diag in E1 by lia. rewrite nth_error_app2, Nat.sub_diag in E2 by lia.
    rewrite (nth_error_app1 p') in E1 by lia. rewrite (nth_error_app1 p') in E2 by lia.
    destruct n as [|n]; [lia|]. cbn in E1, E2. congruence. }
  assert (LE : length pre = length pre').
  { destruct (Nat.lt_trichotomy (length pre) (length pre')) as [X|[X|X]]; auto.
    - elim (L _ _ _ _ E X).
    - elim (L pre' post' pre post); auto. intros l Hl. symmetry. auto. }
  pose proof (E (repeat x n) (repeat_length _ _)) as E1.
  assert (pre = pre').
  { apply (f_equal (firstn (length pre))) in E1. rewrite firstn_app, Nat.sub_diag, firstn_all in E1. cbn in E1. rewrite app_nil_r in E1.
    rewrite LE in E1. rewrite firstn_app, Nat.sub_diag, firstn_all in E1. cbn in E1. now rewrite app_nil_r in E1. }
  subst pre'. split; [auto|]. apply app_inv_head in E1. now apply app_inv_head in E1.
Qed.

Lemma locate m1 p P e : v3_ok (set_params m1 P) -> params_encode p = Ok P -> v3_encode (set_params m1 P) = Ok e ->
  exists pre post, e = pre ++ up_signature p ++ post /\
    (forall sg, zlen sg = zlen (up_signature p) -> exists P', params_encode (set_sig p sg) = Ok P' /\ zlen P' = zlen P /\
       v3_encode (set_params m1 P') = Ok (pre ++ sg ++ post)) /\
    exists prm, v3_decode (ABytes e) = Ok (norm_v3 (set_params m1 P) prm) /\ findSecurityParameters e = Ok prm /\
      params_decode prm = Ok (with_whole p (zlen pre) e) /\
      findSignature prm = Ok (ASub (mkSub e (zlen pre) (zlen pre + zlen (up_signature p)))).
Proof.
  intros V EP E. pose proof (v3_encode_bytes _ _ V E) as BE.
  destruct (v3_roundtrip_at _ _ V E) as (pre & post & EQ & Rep & D & F). cbn [set_params v3_params adata_bytes] in *.
  destruct (params_roundtrip_at p P EP) as (pre2 & post2 & EQ2 & Rep2 & D2).
  set (sb := mkSub e (zlen pre) (zlen pre + zlen P)) in *.
  destruct (D2 sb) as (D3 & D4).
  { eapply sb_wf_mid; exact EQ. } { exact BE. } { eapply sb_view_mid; exact EQ. }
  exists (pre ++ pre2), (post2 ++ post). split; [rewrite EQ, EQ2, <- !app_assoc; reflexivity|]. split.
  - intros sg L. exists (pre2 ++ sg ++ post2). split; [now apply Rep2|]. assert (LP : zlen (pre2 ++ sg ++ post2) = zlen P) by (rewrite EQ2, !zlen_app; lia).
    split; [exact LP|]. pose proof (Rep _ LP) as X. unfold set_params in X. cbn in X. unfold set_params. rewrite X. now rewrite <- !app_assoc.
  - exists (ASub sb). split; [exact D|]. split; [exact F|]. unfold sig_at in D4. cbn [sb sb_data sb_start] in D3, D4.
    rewrite zlen_app. split; [exact D3|exact D4].
Qed.

(** Signing gives a message that decodes to the same thing, with the digest in place. *)
Lemma locate_signed m1 p P e sg : v3_ok (set_params m1 P) -> params_ok p -> params_encode p = Ok P -> v3_encode (set_params m1 P) = Ok e ->
  zlen P <= 65535 -> 0 < zlen (up_signature p) -> zlen sg = zlen (up_signature p) -> bytes_ok sg ->
  exists pre post prm0 P' prm, e = pre ++ up_signature p ++ post /\
    findSecurityParameters e = Ok prm0 /\
    findSignature prm0 = Ok (ASub (mkSub e (zlen pre) (zlen pre + zlen (up_signature p)))) /\
    v3_decode (ABytes (pre ++ sg ++ post)) = Ok (norm_v3 (set_params m1 P') prm) /\
    v3_encode (set_params m1 P') = Ok (pre ++ sg ++ post) /\
    params_decode prm = Ok (with_whole (set_sig p sg) (zlen pre) (pre ++ sg ++ post)).
Proof.
  intros V PO EP E L65 Pos L B. destruct (locate m1 p P e V EP E) as (pre & post & EQ & Rep & prm0 & D & F & PD & FS).
  destruct (Rep sg L) as (P' & EP' & LP' & E').
  assert (PO' : params_ok (set_sig p sg)).
  { destruct PO as (A1 & A2 & A3 & A4 & A5 & A6). repeat (split; [assumption|]). split; [|assumption]. split; [assumption|].
    unfold set_sig; cbn [up_signature]. rewrite L. apply A5. }
  assert (V' : v3_ok (set_params m1 P')).
  { destruct V as (V1 & V2 & V3). split; [exact V1|]. split; [|exact V3]. cbn. split; [|rewrite LP'; exact L65].
    exact (params_encode_bytes _ _ PO' EP'). }
  destruct (locate m1 (set_sig p sg) P' _ V' EP' E') as (pre' & post' & EQ' & Rep' & prm & D' & F' & PD' & _).
  assert (U : pre = pre' /\ post = post').
  { assert (NP : (0 < length sg)%nat) by (unfold zlen in *; lia).
    apply (split_unique 0 1 pre post pre' post' (length sg)); [lia|exact NP|]. intros x Lx.
    assert (Zx : zlen x = zlen (up_signature p)) by (rewrite <- L; unfold zlen; lia).
    destruct (Rep x Zx) as (Q & EQx & _ & Ex). destruct (Rep' x) as (Q' & EQx' & _ & Ex').
    { cbn. rewrite Zx, L. reflexivity. }
    assert (Q = Q') by (change (set_sig (set_sig p sg) x) with (set_sig p x) in EQx'; congruence). subst Q'. congruence. }
  destruct U as (<- & <-).
  exists pre, post, prm0, P', prm. repeat split; auto.
Qed.

(** * prepareOutgoing *)
Lemma int32_of_encode v e : Integer_encode v = Ok e -> int32 v.
Proof. intros H. apply Integer_encode_inv in H as [R _]. exact R. Qed.

Lemma params_ok_of_encode p P : octets_ok (up_engineID p) -> octets_ok (up_userName p) -> octets_ok (up_signature p) ->
  octets_ok (up_salt p) -> params_encode p = Ok P -> params_ok p.
Proof.
  intros A B C D E. destruct (params_encode_pieces p P E) as (e1 & e2 & e3 & e4 & e5 & e6 & H1 & H2 & H3 & _).
  repeat (split; [first [assumption|eapply int32_of_encode; eassumption]|]). assumption.
Qed.

Lemma octets_new_len d x : octets_new OctetString d = Ok x -> zlen d <= 65535.
Proof. cbn. destruct (_ <? zlen d) eqn:E; [discriminate|]. intros _. apply Z.ltb_ge in E. exact E. Qed.

Lemma to_bytes_range n v x : to_bytes_unsigned n v = Ok x -> 0 <= v.
Proof. unfold to_bytes_unsigned. destruct (0 <=? v) eqn:E; [|discriminate]. intros _. now apply Z.leb_le. Qed.

(** A successful encryption had nonnegative boots (and time). *)
Lemma encrypt_ranges C p data b t p' c salt : priv_encrypt C p data b t = (p', Ok (c, salt)) ->
  0 <= b /\ (pv_alg p = AesCfb128 -> 0 <= t).
Proof.
  unfold priv_encrypt. destruct (pv_alg p); intros H; injection H as _ H.
  - apply bind_ok in H as (s & _ & H). apply bind_ok in H as (iv & H & _). unfold packIV in H.
    destruct (negb _); [discriminate|]. apply bind_ok in H as (x & H1 & H). apply bind_ok in H as (y & H2 & _).
    split; [|intros _]; eapply to_bytes_range; eauto.
  - apply bind_ok in H as (x & H & _). split; [eapply to_bytes_range; eauto|discriminate].
Qed.

Lemma zero_octets alg : octets_ok (zero_bytes (auth_N alg)).
Proof. split; [apply zero_ok|]. pose proof (auth_N_pos alg). rewrite zero_bytes_len by lia. destruct alg; cbn; lia. Qed.

Lemma encrypt_salt C p data b t p' c salt : priv_ok p -> crypto_ok C -> bytes_ok data -> is_time b -> (pv_alg p = AesCfb128 -> is_time t) ->
  priv_encrypt C p data b t = (p', Ok (c, salt)) -> octets_ok salt /\ bytes_ok c.
Proof.
  intros P CO BD B T E. destruct (encrypt_spec C p data b t P B T) as (z & R & _). rewrite E in R. cbn in R. injection R as -> ->.
  destruct (enc_salt_len p b) as [SL SB]. split; [split; [exact SB|lia]|]. apply Forall_app. split; [|apply zero_ok].
  pose proof (rfc_iv_len p b t _ P SL) as IL. unfold enc_core. destruct (pv_alg p) eqn:A.
  - apply cfb_enc_ok; auto; [|now apply (zlen_len _ 16)].
    intros x Hx. destruct (ok_aes C CO (pv_key p) x) as [X1 X2]; [now apply (zlen_len x 16)|]. split; [now apply (zlen_len _ 16)|auto].
  - destruct (des_pad_nat data) as (n & LN). apply (cbc_enc_len (c_des C (pv_key p))) with (n := n); auto.
    + intros x Hx. destruct (ok_des C CO (pv_key p) x) as [X1 X2]; [now apply (zlen_len x 8)|]. split; [now apply (zlen_len _ 8)|auto].
    + now apply (zlen_len _ 8).
Qed.

(** What a successful [usm_prepareOutgoing] has produced. *)
Definition prepared (C : crypto) (R : Z) (s : usm) (m : v3msg) (sc : scopedpdu) (e n : bytes) (ts : Z) (out : bytes) : Prop :=
  exists m2 boots time salt mac pre post,
    v3_decode (ABytes out) = Ok m2 /\ v3_header m2 = v3_header m /\
    params_decode (v3_params m2) = Ok (mkParams e boots time n mac salt (Some (zlen pre)) (Some out)) /\
    out = pre ++ mac ++ post /\
    (fl_priv (h_flags (v3_header m)) = false -> v3_scoped m2 = Some (norm_scoped sc)) /\
    if fl_auth (h_flags (v3_header m)) then
      exists l alg key m0, getCredentials (us_users s) e n = Ok l /\ lc_auth l = Some (alg, key) /\
        (boots, time) = getEngineTime R (us_time s) e ts /\ zlen mac = auth_N alg /\
        mac = firstn (Z.to_nat (auth_N alg)) (c_hmac C alg key (pre ++ zero_bytes (auth_N alg) ++ post)) /\
        v3_header m0 = v3_header m /\ v3_scoped m0 = Some sc /\
        v3_encode m0 = Ok (pre ++ zero_bytes (auth_N alg) ++ post) /\
        (fl_priv (h_flags (v3_header m)) = true ->
          exists pv pv' data cipher, lc_priv l = Some pv /\ scoped_encode sc = Ok data /\
            is_time boots /\ (pv_alg pv = AesCfb128 -> is_time time) /\
            priv_encrypt C pv data boots time = (pv', Ok (cipher, salt)) /\ v3_encrypted m2 = Some cipher)
    else boots = 0 /\ time = 0 /\ mac = [] /\ salt = [].

Lemma norm_priv m p prm : fl_priv (h_flags (v3_header m)) = true -> v3_encrypted (norm_v3 (set_params m p) prm) = v3_encrypted m.
Proof. intros H. unfold norm_v3. cbn [set_params v3_header]. now rewrite H. Qed.
Lemma norm_nopriv m p prm sc : fl_priv (h_flags (v3_header m)) = false -> v3_scoped m = Some sc -> v3_scoped (norm_v3 (set_params m p) prm) = Some (norm_scoped sc).
Proof. intros H S. unfold norm_v3. cbn [set_params v3_header]. rewrite H. cbn. now rewrite S. Qed.
Lemma norm_header m p prm : v3_header (norm_v3 (set_params m p) prm) = v3_header m.
Proof. unfold norm_v3. destruct (fl_priv _); reflexivity. Qed.
Lemma norm_params m p prm : v3_params (norm_v3 (set_params m p) prm) = prm.
Proof. unfold norm_v3. destruct (fl_priv _); reflexivity. Qed.

Lemma prepare_spec C R s m sc e n ts s' out :
  crypto_ok C -> header_ok (v3_header m) -> v3_scoped m = Some sc -> scoped_ok sc -> octets_ok e -> octets_ok n ->
  (forall l p, getCredentials (us_users s) e n = Ok l -> lc_priv l = Some p -> priv_ok p) ->
  usm_prepareOutgoing C R s m e n ts = (s', Ok out) -> prepared C R s m sc e n ts out.
Proof.
  intros CO HO SC SO EO NO PO H. unfold usm_prepareOutgoing in H. unfold prepared.
  destruct (fl_auth (h_flags (v3_header m))) eqn:FA.
  2:{ (* not authenticated *)
    assert (FP : fl_priv (h_flags (v3_header m)) = false).
    { destruct HO as (_ & _ & LV & _). unfold level_ok in LV. unfold fl_auth in FA. unfold fl_priv. destruct (sl_priv _); [|auto]. rewrite LV in FA by auto. discriminate. }
    injection H as _ H. cbn [bind] in H. apply bind_ok in H as (P & EP & H). apply bind_ok in H as (x & LP & H). apply octets_new_len in LP.
    apply bind_ok in H as (w & EW & H). injection H as <-.
    set (p := UsmSecurityParameters e 0 0 n (ABytes []) []) in *.
    assert (ON : octets_ok []) by (split; [apply Forall_nil|cbv; discriminate]).
    assert (PK : params_ok p) by (apply (params_ok_of_encode p P); auto).
    assert (V : v3_ok (set_params m P)).
    { split; [exact HO|]. split; [split; [exact (params_encode_bytes _ _ PK EP)|exact LP]|]. cbn. unfold fl_priv in FP. rewrite FP. eauto. }
    destruct (locate m p P w V EP EW) as (pre & post & EQ & _ & prm & D & _ & PD & _).
    exists (norm_v3 (set_params m P) prm), 0, 0, [], [], pre, post. split; [exact D|]. split; [apply norm_header|].
    rewrite norm_params. split; [exact PD|]. split; [exact EQ|]. split; [intros _; now apply norm_nopriv|auto]. }
  destruct (getCredentials (us_users s) e n) as [l|] eqn:GC; [|discriminate].
  destruct (lc_auth l) as [[alg key]|] eqn:LA; [|discriminate].
  destruct (getEngineTime R (us_time s) e ts) as [boots time] eqn:GE.
  pose proof (auth_N_pos alg) as NP.
  (* signing, whatever the payload *)
  assert (Sign : forall m1 salt P w, v3_header m1 = v3_header m -> v3_scoped m1 = Some sc ->
    (if fl_priv (h_flags (v3_header m)) then exists c, v3_encrypted m1 = Some c /\ octets_ok c else True) -> octets_ok salt ->
    params_encode (UsmSecurityParameters e boots time n (ABytes (msgAuthenticationParameters alg)) salt) = Ok P ->
    zlen P <= 65535 -> v3_encode (set_params m1 P) = Ok w ->
    (do p <- findSecurityParameters w; do location <- findSignature p;
     match location with ABytes _ => Raise AttributeError | ASub loc => Ok (sb_replace loc (auth_sign C alg key w)) end) = Ok out ->
    exists m2 mac pre post, v3_decode (ABytes out) = Ok m2 /\ v3_header m2 = v3_header m /\
      params_decode (v3_params m2) = Ok (mkParams e boots time n mac salt (Some (zlen pre)) (Some out)) /\
      out = pre ++ mac ++ post /\
      (fl_priv (h_flags (v3_header m)) = false -> v3_scoped m2 = Some (norm_scoped sc)) /\
      (fl_priv (h_flags (v3_header m)) = true -> v3_encrypted m2 = v3_encrypted m1) /\
      zlen mac = auth_N alg /\ mac = firstn (Z.to_nat (auth_N alg)) (c_hmac C alg key (pre ++ zero_bytes (auth_N alg) ++ post)) /\
      v3_encode (set_params m1 P) = Ok (pre ++ zero_bytes (auth_N alg) ++ post)).
  { clear H. intros m1 salt P w H1 H2 H3 H4 EP LP EW H.
    set (p := UsmSecurityParameters e boots time n (ABytes (msgAuthenticationParameters alg)) salt) in *.
    assert (PK : params_ok p) by (apply (params_ok_of_encode p P); auto; apply zero_octets).
    assert (V : v3_ok (set_params m1 P)).
    { split; [cbn; rewrite H1; exact HO|]. split; [split; [exact (params_encode_bytes _ _ PK EP)|exact LP]|]. cbn. rewrite H1.
      unfold fl_priv in H3. destruct (sl_priv _); eauto. }
    assert (ZS : zlen (up_signature p) = auth_N alg) by (cbn; apply zero_bytes_len; lia).
    destruct (auth_sign_spec C alg key w CO) as (S1 & S2 & S3).
    destruct (locate_signed m1 p P w (auth_sign C alg key w) V PK EP EW LP) as (pre & post & prm0 & P' & prm & EQ & F & FS & D & E' & PD); auto; [lia|lia|].
    rewrite F in H. cbn [bind] in H. rewrite FS in H. cbn [bind] in H. injection H as H.
    cbn [p UsmSecurityParameters up_signature] in EQ, H. rewrite EQ in H at 1. rewrite sb_replace_mid in H.
    exists (norm_v3 (set_params m1 P') prm), (auth_sign C alg key w), pre, post. rewrite <- H.
    split; [exact D|]. split; [rewrite norm_header; exact H1|]. rewrite norm_params. split; [exact PD|]. split; [reflexivity|].
    split; [intros FP; rewrite <- H1 in FP; now apply norm_nopriv|]. split; [intros FP; rewrite <- H1 in FP; now apply norm_priv|].
    split; [exact S2|]. split; [rewrite S1; do 2 f_equal; exact EQ|]. rewrite EW. f_equal. exact EQ. }
  destruct (fl_priv (h_flags (v3_header m))) eqn:FP.
  - destruct (lc_priv l) as [pv|] eqn:LPV; [|discriminate]. rewrite SC in H.
    destruct (scoped_encode sc) as [data|] eqn:SE; [|discriminate].
    destruct (priv_encrypt C pv data boots time) as [pv' r] eqn:PE. injection H as _ H.
    destruct r as [[cipher salt]|]; cbn [bind] in H; [|discriminate].
    destruct (65535 <? zlen cipher) eqn:OC; cbn [bind] in H; [discriminate|]. apply Z.ltb_ge in OC.
    apply bind_ok in H as (P & EP & H). apply bind_ok in H as (x & LP & H). apply octets_new_len in LP.
    apply bind_ok in H as (w & EW & H).
    assert (I32 : int32 boots /\ int32 time).
    { destruct (params_encode_pieces _ _ EP) as (e1 & e2 & e3 & e4 & e5 & e6 & X1 & X2 & X3 & _). cbn in X2, X3.
      split; eapply int32_of_encode; eassumption. }
    destruct (encrypt_ranges _ _ _ _ _ _ _ _ PE) as [R1 R2].
    assert (T1 : is_time boots) by (unfold is_time; destruct I32 as [I1 _]; unfold int32 in I1; lia).
    assert (T2 : pv_alg pv = AesCfb128 -> is_time time) by (intros X; specialize (R2 X); unfold is_time; destruct I32 as [_ I2]; unfold int32 in I2; lia).
    destruct (encrypt_salt _ _ _ _ _ _ _ _ (PO l pv eq_refl LPV) CO (scoped_encode_bytes _ _ SO SE) T1 T2 PE) as [SK CB].
    destruct (Sign (mkV3 (v3_header m) (Some sc) (Some cipher) (v3_params m) (v3_engineID m) (v3_name m)) salt P w eq_refl eq_refl
      (ex_intro _ cipher (conj eq_refl (conj CB OC))) SK EP LP EW H) as (m2 & mac & pre & post & A1 & A2 & A3 & A4 & A5 & A6 & A7 & A8 & A9).
    exists m2, boots, time, salt, mac, pre, post. split; [exact A1|]. split; [exact A2|]. split; [exact A3|]. split; [exact A4|]. split; [exact A5|].
    exists l, alg, key. exists (set_params (mkV3 (v3_header m) (Some sc) (Some cipher) (v3_params m) (v3_engineID m) (v3_name m)) P).
    split; [reflexivity|]. split; [exact LA|]. split; [reflexivity|]. split; [exact A7|]. split; [exact A8|]. split; [reflexivity|]. split; [reflexivity|]. split; [exact A9|].
    intros _. exists pv, pv', data, cipher. split; [exact LPV|]. split; [reflexivity|]. split; [exact T1|]. split; [exact T2|]. split; [exact PE|]. rewrite A6 by reflexivity. reflexivity.
  - injection H as _ H. cbn [bind] in H.
    apply bind_ok in H as (P & EP & H). apply bind_ok in H as (x & LP & H). apply octets_new_len in LP.
    apply bind_ok in H as (w & EW & H).
    destruct (Sign m [] P w eq_refl SC I ltac:(split; [apply Forall_nil|cbv; discriminate]) EP LP EW H) as (m2 & mac & pre & post & A1 & A2 & A3 & A4 & A5 & A6 & A7 & A8 & A9).
    exists m2, boots, time, [], mac, pre, post. split; [exact A1|]. split; [exact A2|]. split; [exact A3|]. split; [exact A4|]. split; [exact A5|].
    exists l, alg, key. exists (set_params m P).
    split; [reflexivity|]. split; [exact LA|]. split; [reflexivity|]. split; [exact A7|]. split; [exact A8|]. split; [reflexivity|]. split; [exact SC|]. split; [exact A9|discriminate].
Qed.

(** * C35, C53 *)
Definition matching_user (f : msgflags) (l1 l2 : localized) : Prop :=
  lc_auth l1 = lc_auth l2 /\
  (fl_priv f = true -> exists p q, lc_priv l1 = Some p /\ lc_priv l2 = Some q /\ same_key p q).

Lemma receive C R2 s2 m sc e n ts2 out s R ts l2 : crypto_ok C -> header_ok (v3_header m) -> scoped_ok sc ->
  (forall l p, getCredentials (us_users s) e n = Ok l -> lc_priv l = Some p -> priv_ok p) ->
  prepared C R s m sc e n ts out ->
  (fl_auth (h_flags (v3_header m)) = true -> getCredentials (us_users s2) e n = Ok l2 /\
     forall l, getCredentials (us_users s) e n = Ok l -> matching_user (h_flags (v3_header m)) l l2) ->
  exists m2 , v3_decode (ABytes out) = Ok m2 /\
  let r := snd (usm_processIncoming C R2 s2 m2 ts2) in
  r <> Raise WrongDigest /\
  ((fl_auth (h_flags (v3_header m)) = true ->
     let '(b, t) := getEngineTime R (us_time s) e ts in snd (updateAndVerify R2 (us_time s2) e b t ts2) = true) ->
   exists m3, r = Ok m3 /\ v3_header m3 = v3_header m /\ v3_engineID m3 = Some e /\ v3_name m3 = Some n /\
     exists sc', v3_scoped m3 = Some sc' /\ same_scoped sc sc').
Proof.
  intros CO HO SO PO (m2 & boots & time & salt & mac & pre & post & D & HH & PD & EO & NP & Rest) Cred.
  exists m2. split; [exact D|]. cbv zeta. unfold usm_processIncoming. rewrite PD. cbn [v3_header v3_encrypted v3_scoped v3_params up_engineID up_userName up_boots up_time up_signature up_salt up_index up_whole].
  rewrite HH. destruct (fl_auth (h_flags (v3_header m))) eqn:FA; cbn [negb].
  2:{ cbn [snd]. split; [discriminate|]. intros _. eexists. split; [reflexivity|]. cbn. repeat (split; [auto|]).
    assert (FP : fl_priv (h_flags (v3_header m)) = false).
    { destruct HO as (_ & _ & LV & _). unfold level_ok in LV. unfold fl_auth in FA. unfold fl_priv. destruct (sl_priv _); [|auto]. rewrite LV in FA by auto. discriminate. }
    rewrite (NP FP). eexists. split; [reflexivity|]. apply norm_scoped_same. }
  destruct Rest as (l & alg & key & m0 & GC & LA & GE & ZM & MM & _ & _ & _ & PR).
  destruct (Cred eq_refl) as (GC2 & MU). destruct (MU l GC) as (MA & MP). rewrite GC2, <- MA, LA.
  assert (FPV : fl_priv (h_flags (v3_header m)) && match lc_priv l2 with None => true | Some _ => false end = false).
  { destruct (fl_priv (h_flags (v3_header m))); [|reflexivity]. destruct (MP eq_refl) as (p & q & _ & -> & _). reflexivity. }
  rewrite FPV. pose proof (auth_N_pos alg). unfold msgAuthenticationParameters. rewrite zero_bytes_len by lia. rewrite ZM, Z.eqb_refl. cbn [negb].
  assert (SBN : sb_replace (sb_new (ABytes out) (Some (zlen pre)) (Some (zlen pre + auth_N alg))) (zero_bytes (auth_N alg)) = pre ++ zero_bytes (auth_N alg) ++ post).
  { rewrite EO. rewrite <- ZM at 1. rewrite sb_new_mid. apply sb_replace_mid. }
  rewrite SBN.
  destruct (auth_sign_spec C alg key (pre ++ zero_bytes (auth_N alg) ++ post) CO) as (S1 & _ & _).
  rewrite S1, <- MM. rewrite (proj2 (zlist_eqb_eq mac mac) eq_refl). cbn [negb].
  destruct (updateAndVerify R2 (us_time s2) e boots time ts2) as [t ok] eqn:UV. destruct ok; cbn [negb].
  2:{ cbn [snd]. split; [discriminate|]. intros X. specialize (X eq_refl). rewrite <- GE in X. rewrite UV in X. discriminate. }
  destruct (fl_priv (h_flags (v3_header m))) eqn:FP.
  - destruct (PR eq_refl) as (pv & pv' & data & cipher & LP & SE & T1 & T2 & PE & EN). destruct (MP eq_refl) as (p & q & LP1 & LP2 & SK).
    rewrite LP in LP1. injection LP1 as <-. rewrite LP2, EN. cbn [snd].
    destruct (privacy_roundtrip C pv q data boots time pv' cipher salt CO (PO l pv GC LP) SK (scoped_encode_bytes _ _ SO SE) T1 T2 PE) as (pad & DE & BP).
    rewrite DE. cbn [bind]. unfold v3_set_plaintext.
    pose proof (scoped_decodes sc data SO SE (ABytes (data ++ pad)) pad true) as SD. rewrite SD; auto.
    + cbn [bind reraise fst]. split; [discriminate|]. intros _. eexists. split; [reflexivity|]. cbn. repeat (split; [auto|]).
      eexists. split; [reflexivity|]. apply norm_scoped_same.
    + exact I.
    + cbn. apply bytes_ok_app. split; [exact (scoped_encode_bytes _ _ SO SE)|exact BP].
  - cbn [snd]. split; [discriminate|]. intros _. eexists. split; [reflexivity|]. cbn. repeat (split; [auto|]).
    rewrite (NP eq_refl). eexists. split; [reflexivity|]. apply norm_scoped_same.
Qed.
