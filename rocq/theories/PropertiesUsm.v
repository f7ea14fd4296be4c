(** PropertiesUsm.v -- C29-C38, C53, C54: time window, users, keys,
    authentication, privacy.  Vocabulary: SpecUsers.v, SpecUsm.v. *)
From Coq Require Import Lia.
From Verif Require Import PrfBase PrfDict PrfDec PrfMsg PrfMsgDec PrfUsers PrfTime.
From Verif Require Import PrfUsmProps PropertiesMsg.

(** * C29 *)
Theorem C29_window : forall R h e boots time ts, 0 < R -> boots <= 2147483647 ->
  snd (updateAndVerify R (time_after R h) e boots time ts) = true <-> in_window R h e boots time ts.
Proof. exact window. Qed.
Print Assumptions C29_window.
(** The local notion after the message: the later of the two (or, for the first
    authenticated message, the message's). *)
Theorem C29_synchronisation : forall R h e boots time ts, 0 < R -> boots <= 2147483647 ->
  let local := getEngineTime R (time_after R h) e ts in
  let local' := getEngineTime R (time_after R (h ++ [Authenticated e boots time ts])) e ts in
  (auth_seen h e -> local' = later local (boots, time)) /\ (~ auth_seen h e -> local' = (boots, time)).
Proof.
  intros R h e b m ts HR Hb. rewrite time_after_snoc. cbn [time_step].
  destruct (timeliness R h e b m ts HR Hb) as (A & B & _). split; assumption.
Qed.
Print Assumptions C29_synchronisation.
(** What that means for a datagram: NotInTimeWindow exactly outside the window,
    once everything before the test has passed. *)
Theorem C29_incoming : forall C R rnd h th datagram m sp l alg key ts,
  0 < R -> crypto_ok C -> Forall usm_op_ok h -> let s := usm_after C R rnd h in us_time s = time_after R th ->
  bytes_ok datagram -> v3_decode (ABytes datagram) = Ok m ->
  params_decode (v3_params m) = Ok sp -> fl_auth (h_flags (v3_header m)) = true ->
  getCredentials (us_users s) (up_engineID sp) (up_userName sp) = Ok l -> lc_auth l = Some (alg, key) ->
  (fl_priv (h_flags (v3_header m)) = true -> lc_priv l <> None) ->
  (exists pre post, signed_at C alg key datagram pre (up_signature sp) post /\ up_index sp = Some (zlen pre)) ->
  let r := snd (usm_processIncoming C R s m ts) in
  (in_window R th (up_engineID sp) (up_boots sp) (up_time sp) ts -> r <> Raise NotInTimeWindow) /\
  (~ in_window R th (up_engineID sp) (up_boots sp) (up_time sp) ts -> r = Raise NotInTimeWindow).
Proof.
  intros C R rnd h th datagram m sp l alg key ts HR CO F s US B D P A GC LA PR (pre & post & SG & IX). apply signed_N in SG.
  eapply incoming_window; eauto.
Qed.
Print Assumptions C29_incoming.
Definition ex_history : list time_event :=
  [Unauthenticated [1] 9 9 0; Authenticated [1] 3 1000 10; Authenticated [2] 1 1 11].
Example C29_example :
  in_window 1 ex_history [1] 3 1010 20 /\ in_window 1 ex_history [1] 3 860 20 /\
  ~ in_window 1 ex_history [1] 3 859 20 /\ ~ in_window 1 ex_history [1] 2 5000 20 /\
  in_window 1 ex_history [1] 4 0 20 /\ ~ in_window 1 ex_history [1] 2147483647 0 20.
Proof.
  assert (S : auth_seen ex_history [1]) by (exists 3, 1000, 10; cbn; auto).
  assert (E : getEngineTime 1 (time_after 1 ex_history) [1] 20 = (3, 1010)) by reflexivity.
  unfold in_window. rewrite E. repeat split; try lia; intros (A & B); specialize (B S); lia.
Qed.

(** * C54: the letter of RFC 3414 3.2 (7b) *)
Theorem C54_sound_partial : forall R h e b0 m0 t0 msgs b m ts, 0 < R -> ~ auth_seen h e ->
  msgs_clock t0 ((b0, m0, t0) :: msgs ++ [(b, m, ts)]) ->
  snd (updateAndVerify R (code_run R e (time_after R h) ((b0, m0, t0) :: msgs)) e b m ts) = true ->
  rfc_outside_window R (rfc_run R (mkRfc b0 (t0 - m0 * R) m0) (msgs ++ [(b, m, ts)])) b m ts = false.
Proof. exact rfc_sound_first. Qed.
Print Assumptions C54_sound_partial.
(** The converse fails: a remote clock that runs slow by 100 s in 1100 s; both
    accept its second message, but only the RFC resynchronises. *)
Theorem C54_refuted : exists b0 m0 t0 msgs b m ts,
  msgs_clock t0 ((b0, m0, t0) :: msgs ++ [(b, m, ts)]) /\
  rfc_outside_window 1 (rfc_run 1 (mkRfc b0 (t0 - m0 * 1) m0) (msgs ++ [(b, m, ts)])) b m ts = false /\
  snd (updateAndVerify 1 (code_run 1 [1] [] ((b0, m0, t0) :: msgs)) [1] b m ts) = false.
Proof. exists 1, 0, 0, [(1, 1000, 1100)], 1, 1040, 1200. vm_compute. intuition discriminate. Qed.
Print Assumptions C54_refuted.
Example C54_example : exists b0 m0 t0 msgs b m ts,
  msgs_clock t0 ((b0, m0, t0) :: msgs ++ [(b, m, ts)]) /\ ~ auth_seen [Unauthenticated [1] 7 7 0] [1] /\
  snd (updateAndVerify 10 (code_run 10 [1] (time_after 10 [Unauthenticated [1] 7 7 0]) ((b0, m0, t0) :: msgs)) [1] b m ts) = true.
Proof.
  exists 1, 50, 0, [(1, 1000, 11000)], 2, 0, 12000. split; [vm_compute; intuition discriminate|].
  split; [|vm_compute; reflexivity]. intros (b & m & ts & [H|[]]). discriminate.
Qed.

(** * C30 *)
Theorem C30_unauthenticated_ignored : forall R h h' e boots time ts, auth_seen h e ->
  time_after R (h ++ Unauthenticated e boots time ts :: h') = time_after R (h ++ h').
Proof. exact hint_dropped. Qed.
Print Assumptions C30_unauthenticated_ignored.
Theorem C30_never_backwards : forall R h h' e lo hi, 0 < R -> auth_seen h e ->
  Forall (fun x => event_boots x <= 2147483647) h' -> clock_between lo hi h' ->
  notion_le (getEngineTime R (time_after R h) e lo) (getEngineTime R (time_after R (h ++ h')) e hi).
Proof. exact notion_never_decreases. Qed.
Print Assumptions C30_never_backwards.
Theorem C30_other_engines : forall R h e x ts, event_engine x <> e ->
  getEngineTime R (time_after R (h ++ [x])) e ts = getEngineTime R (time_after R h) e ts.
Proof. exact other_engines. Qed.
Print Assumptions C30_other_engines.
Example C30_example : let later := [Unauthenticated [1] 99 99 21; Authenticated [1] 3 500 22; Authenticated [1] 3 2000 23] in
  auth_seen ex_history [1] /\ Forall (fun x => event_boots x <= 2147483647) later /\ clock_between 20 30 later /\
  getEngineTime 1 (time_after 1 ex_history) [1] 20 = (3, 1010) /\
  getEngineTime 1 (time_after 1 (ex_history ++ later)) [1] 30 = (3, 2007).
Proof.
  split; [exists 3, 1000, 10; cbn; auto|]. split; [repeat constructor; cbn; lia|]. split; [cbn; lia|]. split; reflexivity.
Qed.

(** * C31-C33: the registry behaves like the abstract machine of SpecUsers.v *)
Theorem C31_refinement : forall C rnd h, hash_ok C -> Forall op_ok h ->
  exists s, spec_run C uspec0 h s (snd (user_run C rnd registry0 h)) /\
    (forall s' rs, spec_run C uspec0 h s' rs -> s' = s /\ rs = snd (user_run C rnd registry0 h)) /\
    (forall e ns ns', In (e, ns) (sp_live s) -> In (e, ns') (sp_live s) -> ns = ns') /\
    (forall e n, getCredentials (fst (user_run C rnd registry0 h)) e n = Raise InvalidEngineID <-> live_engine s e = false).
Proof.
  intros C rnd h H F. destruct (lookup_spec C rnd h H F) as (s & S & L & _). exists s. split; [exact S|].
  split; [intros s' rs X; exact (spec_run_fun _ _ _ _ _ _ _ X S)|]. split; [intros e; apply (L e [])|]. intros e n. apply (L e n).
Qed.
Print Assumptions C31_refinement.
Theorem C32_credentials : forall C rnd h s rs, hash_ok C -> Forall op_ok h -> spec_run C uspec0 h s rs ->
  let u := fst (user_run C rnd registry0 h) in
  forall e n,
    (live_engine s e = false -> getCredentials u e n = Raise InvalidEngineID) /\
    (forall ns, In (e, ns) (sp_live s) -> sp_cfg s ns n = None -> getCredentials u e n = Raise InvalidUserName) /\
    (forall ns cf, In (e, ns) (sp_live s) -> sp_cfg s ns n = Some cf ->
       exists l, getCredentials u e n = Ok l /\ localised_to C (uc_credentials cf) e l).
Proof.
  intros C rnd h s rs H F SR u e n. destruct (lookup_spec C rnd h H F) as (s' & S & L & _).
  destruct (spec_run_fun _ _ _ _ _ _ _ SR S) as [<- _]. destruct (L e n) as (A & B & _).
  split; [apply A|]. split; intros ns.
  - intros I E. specialize (B ns I). now rewrite E in B.
  - intros cf I E. specialize (B ns I). now rewrite E in B.
Qed.
Print Assumptions C32_credentials.
Theorem C33_rules : forall C rnd h s rs, hash_ok C -> Forall op_ok h -> spec_run C uspec0 h s rs ->
  let u := fst (user_run C rnd registry0 h) in
  (forall ns n cf, sp_cfg s ns n = Some cf ->
     getDefaultSecurityLevel u n ns = Ok (uc_default cf) /\
     level_rank (uc_default cf) <= level_rank (cr_max (uc_credentials cf))) /\
  (forall ns n, sp_cfg s ns n = None ->
     getDefaultSecurityLevel u n ns = Raise InvalidUserName \/ getDefaultSecurityLevel u n ns = Raise ValueError) /\
  (forall ns n, sp_cfg s ns n <> None -> sp_def s ns <> None) /\
  (forall ns n, sp_def s ns = Some n -> getDefaultUser u ns = Ok (Some n)) /\
  (forall ns, sp_def s ns = None -> getDefaultUser u ns = Ok None \/ getDefaultUser u ns = Raise ValueError).
Proof.
  intros C rnd h s rs H F SR u. destruct (lookup_spec C rnd h H F) as (s' & S & _ & L & W & D).
  destruct (spec_run_fun _ _ _ _ _ _ _ SR S) as [<- _]. fold u in L, D. repeat split.
  - rewrite L, H0. reflexivity.
  - eauto.
  - intros ns n E. rewrite L, E. unfold getNamespace. destruct (dict_get _ _ _); auto.
  - intros ns n E E2. specialize (D ns). rewrite E2 in D. destruct D as [_ D]. now apply E.
  - intros ns n E. specialize (D ns). now rewrite E in D.
  - intros ns E. specialize (D ns). rewrite E in D. apply D.
Qed.
Print Assumptions C33_rules.
(** A failing addUser changes no lookup of users or credentials. *)
Theorem C33_failed_addUser : forall C rnd h n ap asec pp ps sec d dsl ns x, hash_ok C ->
  let op := OpAddUser n ap asec pp ps sec d dsl ns in
  Forall op_ok (h ++ [op]) ->
  let u := fst (user_run C rnd registry0 h) in let u' := fst (user_run C rnd registry0 (h ++ [op])) in
  snd (user_step C rnd u op) = Raise x ->
  (forall e n', getCredentials u' e n' = getCredentials u e n') /\
  (forall ns' n' l, getDefaultSecurityLevel u' n' ns' = Ok l <-> getDefaultSecurityLevel u n' ns' = Ok l) /\
  (forall ns' n', getDefaultUser u' ns' = Ok (Some n') <-> getDefaultUser u ns' = Ok (Some n')).
Proof. exact failed_addUser. Qed.
Print Assumptions C33_failed_addUser.

(** * C34 *)
Theorem C34_computeKey : forall C a password, password <> [] ->
  exists msg, is_stretched password msg /\ computeKey C a password = Ok (c_hash C a msg).
Proof. exact computeKey_spec. Qed.
Print Assumptions C34_computeKey.
Theorem C34_stretched_unique : forall password m m', is_stretched password m -> is_stretched password m' -> m = m'.
Proof. exact stretched_unique. Qed.
Print Assumptions C34_stretched_unique.
Theorem C34_empty : forall C a, computeKey C a [] = Raise ZeroDivisionError.
Proof. exact computeKey_empty. Qed.
Print Assumptions C34_empty.
Theorem C34_localizeKey : forall C a key engineID,
  localizeKey C a key engineID = c_hash C a (key ++ engineID ++ key).
Proof. reflexivity. Qed.
Print Assumptions C34_localizeKey.

(** * C35 *)
(** [m] is the message given to prepareOutgoing(), [sc] its scoped PDU. *)
Theorem C35_signature : forall C R rnd h m sc e n ts out,
  crypto_ok C -> Forall usm_op_ok h -> header_ok (v3_header m) -> v3_scoped m = Some sc -> scoped_ok sc ->
  octets_ok e -> octets_ok n ->
  let s := usm_after C R rnd h in
  snd (usm_prepareOutgoing C R s m e n ts) = Ok out ->
  fl_auth (h_flags (v3_header m)) = true ->
  exists l alg key pre mac post m0 m2 sp,
    getCredentials (us_users s) e n = Ok l /\ lc_auth l = Some (alg, key) /\
    (* the MAC is over the message with the field zeroed, which is the encoding of a message *)
    signed_at C alg key out pre mac post /\
    v3_encode m0 = Ok (pre ++ zero_bytes (mac_size alg) ++ post) /\
    v3_header m0 = v3_header m /\ v3_scoped m0 = Some sc /\
    (* and the receiver finds the MAC exactly there *)
    v3_decode (ABytes out) = Ok m2 /\ v3_header m2 = v3_header m /\ params_decode (v3_params m2) = Ok sp /\
    up_engineID sp = e /\ up_userName sp = n /\ up_signature sp = mac /\ up_index sp = Some (zlen pre) /\
    (up_boots sp, up_time sp) = getEngineTime R (us_time s) e ts.
Proof.
  intros C R rnd h m sc e n ts out H1 H2 H3 H4 H5 H6 H7 s H8 H9.
  destruct (outgoing_signed C R rnd h m sc e n ts out H1 H2 H3 H4 H5 H6 H7 H8 H9) as (l & alg & key & pre & mac & post & m0 & m2 & sp & A & B & D & X).
  exists l, alg, key, pre, mac, post, m0, m2, sp. rewrite mac_size_N, signed_N. auto.
Qed.
Print Assumptions C35_signature.
Theorem C35_digest_accepted : forall C R rnd h R2 rnd2 h2 m sc e n ts out c l1 l2 ts2,
  crypto_ok C -> Forall usm_op_ok h -> header_ok (v3_header m) -> v3_scoped m = Some sc -> scoped_ok sc ->
  octets_ok e -> octets_ok n ->
  let s := usm_after C R rnd h in let s2 := usm_after C R2 rnd2 h2 in
  snd (usm_prepareOutgoing C R s m e n ts) = Ok out ->
  getCredentials (us_users s) e n = Ok l1 -> localised_to C c e l1 ->
  getCredentials (us_users s2) e n = Ok l2 -> localised_to C c e l2 ->
  exists m2, v3_decode (ABytes out) = Ok m2 /\
    snd (usm_processIncoming C R2 s2 m2 ts2) <> Raise WrongDigest.
Proof. exact digest_accepted. Qed.
Print Assumptions C35_digest_accepted.

(** * C36 *)
Theorem C36_authenticated : forall C R rnd h datagram m ts m',
  0 < R -> crypto_ok C -> Forall usm_op_ok h -> bytes_ok datagram -> v3_decode (ABytes datagram) = Ok m ->
  let s := usm_after C R rnd h in
  snd (usm_processIncoming C R s m ts) = Ok m' -> fl_auth (h_flags (v3_header m)) = true ->
  exists sp l alg key pre post th,
    params_decode (v3_params m) = Ok sp /\
    v3_header m' = v3_header m /\ v3_engineID m' = Some (up_engineID sp) /\ v3_name m' = Some (up_userName sp) /\
    getCredentials (us_users s) (up_engineID sp) (up_userName sp) = Ok l /\ lc_auth l = Some (alg, key) /\
    (fl_priv (h_flags (v3_header m)) = true -> lc_priv l <> None) /\
    signed_at C alg key datagram pre (up_signature sp) post /\ up_index sp = Some (zlen pre) /\
    us_time s = time_after R th /\ in_window R th (up_engineID sp) (up_boots sp) (up_time sp) ts.
Proof.
  intros C R rnd h datagram m ts m' H1 H2 H3 H4 H5 s H6 H7.
  destruct (incoming_checked C R rnd h datagram m ts m' H1 H2 H3 H4 H5 H6 H7) as (sp & l & alg & key & pre & post & th & X).
  exists sp, l, alg, key, pre, post, th. rewrite signed_N. exact X.
Qed.
Print Assumptions C36_authenticated.

(** * C37 *)
Theorem C37_roundtrip : forall C p q data boots time p' cipher salt, crypto_ok C -> priv_ok p -> same_key p q ->
  bytes_ok data -> is_time boots -> (pv_alg p = AesCfb128 -> is_time time) ->
  priv_encrypt C p data boots time = (p', Ok (cipher, salt)) ->
  exists pad, priv_decrypt C q cipher boots time salt = Ok (data ++ pad) /\ bytes_ok pad.
Proof. exact privacy_roundtrip. Qed.
Print Assumptions C37_roundtrip.
Theorem C37_encrypts : forall C p data boots time, priv_ok p -> is_time boots -> (pv_alg p = AesCfb128 -> is_time time) ->
  exists cipher salt, snd (priv_encrypt C p data boots time) = Ok (cipher, salt).
Proof. intros C p data b t P B T. destruct (encrypt_spec C p data b t P B T) as (z & E & _). eauto. Qed.
Print Assumptions C37_encrypts.
Theorem C37_scoped_pdu : forall C p q sc data boots time p' cipher salt, crypto_ok C -> priv_ok p -> same_key p q ->
  scoped_ok sc -> scoped_encode sc = Ok data -> is_time boots -> (pv_alg p = AesCfb128 -> is_time time) ->
  priv_encrypt C p data boots time = (p', Ok (cipher, salt)) ->
  exists plain sc' tail, priv_decrypt C q cipher boots time salt = Ok plain /\
    scoped_decode (ABytes plain) true = Ok (sc', tail) /\ same_scoped sc sc'.
Proof.
  intros C p q sc data b t p' cipher salt CO P K SO SE B T E. pose proof (scoped_encode_bytes _ _ SO SE) as BD.
  destruct (privacy_roundtrip C p q data b t p' cipher salt CO P K BD B T E) as (pad & D & BP).
  exists (data ++ pad). pose proof (scoped_decodes sc data SO SE (ABytes (data ++ pad)) pad true) as SD.
  eexists. eexists. split; [exact D|]. split; [apply SD|apply norm_scoped_same].
  - exact I.
  - cbn. apply bytes_ok_app. auto.
  - reflexivity.
  - auto.
Qed.
Print Assumptions C37_scoped_pdu.
(** Any localisation of any credentials gives usable objects, and two
    localisations of the same credentials to the same engine the same keys. *)
Theorem C37_localised : forall C c e l l2 p, hash_ok C -> localised_to C c e l -> localised_to C c e l2 ->
  lc_auth l = lc_auth l2 /\ (lc_priv l = Some p -> priv_ok p /\ exists q, lc_priv l2 = Some q /\ same_key p q).
Proof. exact localised_same. Qed.
Print Assumptions C37_localised.

(** * C38 *)
Theorem C38_salts : forall C p l i j di bi ti dj bj tj, priv_ok p ->
  Forall (fun x => is_time (snd (fst x)) /\ is_time (snd x)) l ->
  nth_error l i = Some (di, bi, ti) -> nth_error l j = Some (dj, bj, tj) ->
  (i < j)%nat -> Z.of_nat j - Z.of_nat i < salt_period (pv_alg p) ->
  exists ci si cj sj,
    nth_error (encryptions C p l) i = Some (Ok (ci, si)) /\ nth_error (encryptions C p l) j = Some (Ok (cj, sj)) /\
    si <> sj /\
    (pv_alg p = AesCfb128 \/ bi = bj -> rfc_iv p bi ti si <> rfc_iv p bj tj sj).
Proof. exact salts_and_ivs. Qed.
Print Assumptions C38_salts.
(** [rfc_iv] is the IV the encryption really uses: the ciphertext is that of
    CFB128/CBC under it, possibly followed by zero bytes. *)
Theorem C38_iv_used : forall C p data boots time, priv_ok p -> is_time boots -> (pv_alg p = AesCfb128 -> is_time time) ->
  exists salt pad, snd (priv_encrypt C p data boots time) =
    Ok (match pv_alg p with
        | AesCfb128 => cfb_encrypt (length data) (c_aes C (pv_key p)) (rfc_iv p boots time salt) data
        | DesCbc => cbc_encrypt (length (des_pad data)) (c_des C (pv_key p)) (rfc_iv p boots time salt) (des_pad data)
        end ++ zero_bytes pad, salt).
Proof. intros C p data b t P B T. destruct (encrypt_spec C p data b t P B T) as (z & E & _). eauto. Qed.
Print Assumptions C38_iv_used.

(** * C53 *)
Theorem C53_end_to_end : forall C R rnd h R2 rnd2 h2 th2 m sc e n ts ts2 out c l1 l2,
  0 < R2 -> crypto_ok C -> Forall usm_op_ok h -> header_ok (v3_header m) -> v3_scoped m = Some sc -> scoped_ok sc ->
  octets_ok e -> octets_ok n ->
  let s := usm_after C R rnd h in let s2 := usm_after C R2 rnd2 h2 in
  snd (usm_prepareOutgoing C R s m e n ts) = Ok out ->
  (* the same credentials on both sides (not needed for noAuthNoPriv) *)
  (fl_auth (h_flags (v3_header m)) = true ->
    getCredentials (us_users s) e n = Ok l1 /\ localised_to C c e l1 /\
    getCredentials (us_users s2) e n = Ok l2 /\ localised_to C c e l2) ->
  (* synchronised: the receiver finds the sender's notion of time in its window
     (not needed for noAuthNoPriv) *)
  us_time s2 = time_after R2 th2 ->
  (fl_auth (h_flags (v3_header m)) = true ->
   let '(boots, time) := getEngineTime R (us_time s) e ts in in_window R2 th2 e boots time ts2) ->
  exists m2 m3 sc', v3_decode (ABytes out) = Ok m2 /\
    snd (usm_processIncoming C R2 s2 m2 ts2) = Ok m3 /\
    v3_header m3 = v3_header m /\ v3_engineID m3 = Some e /\ v3_name m3 = Some n /\
    v3_scoped m3 = Some sc' /\ same_scoped sc sc'.
Proof. exact end_to_end. Qed.
Print Assumptions C53_end_to_end.
Theorem C53_states : forall C R rnd h, Forall usm_op_ok h ->
  exists th uh, Forall op_ok uh /\ us_time (usm_after C R rnd h) = time_after R th /\
    us_users (usm_after C R rnd h) = fst (user_run C rnd registry0 uh).
Proof. exact usm_split. Qed.
Print Assumptions C53_states.

(** * C55 *)
Theorem C55_raises_partial : forall C R rnd h datagram m ts,
  crypto_ok C -> Forall usm_op_ok h -> bytes_ok datagram -> v3_decode (ABytes datagram) = Ok m ->
  let s := usm_after C R rnd h in
  forall x, snd (usm_processIncoming C R s m ts) = Raise x ->
  is_IncomingMessageError x = true \/
  (x = OverflowError /\ exists sp l p, params_decode (v3_params m) = Ok sp /\ fl_priv (h_flags (v3_header m)) = true /\
     getCredentials (us_users s) (up_engineID sp) (up_userName sp) = Ok l /\ lc_priv l = Some p /\ pv_alg p = AesCfb128 /\
     (up_boots sp < 0 \/ up_time sp < 0)).
Proof. exact incoming_raises. Qed.
Print Assumptions C55_raises_partial.

(** * The hypotheses of C31-C38 and C53 are satisfiable *)
Definition toy_digest (x : bytes) : Z := fold_left (fun s b => (s * 31 + b) mod 256) (firstn 40 x) 7.
Definition toy (backend : backend) : crypto := mkCrypto backend
  (fun a x => repeat (toy_digest x) (Z.to_nat (digest_size a)))
  (fun a k x => repeat (toy_digest (k ++ x)) (Z.to_nat (digest_size a)))
  (fun k b => map (fun x => (x + toy_digest k) mod 256) b)
  (fun k b => map (fun x => (x + 1) mod 256) b)
  (fun k b => map (fun x => (x + 255) mod 256) b)
  (fun _ => []).
Definition toy_is_byte (x : Z) : Prop := 0 <= x < 256.
Lemma toy_byte x : toy_is_byte (toy_digest x).
Proof.
  unfold toy_digest. assert (H : toy_is_byte 7) by (split; lia). revert H. generalize 7. induction (firstn 40 x) as [|b y IH]; intros s H; cbn; [exact H|].
  apply IH. pose proof (Z.mod_pos_bound (s * 31 + b) 256 ltac:(lia)). unfold toy_is_byte. lia.
Qed.
Lemma toy_repeat v a : toy_is_byte v -> zlen (repeat v (Z.to_nat (digest_size a))) = digest_size a /\ bytes_ok (repeat v (Z.to_nat (digest_size a))).
Proof.
  intros H. split; [unfold zlen; rewrite repeat_length; destruct a; reflexivity|]. apply Forall_forall. intros y I.
  apply repeat_spec in I as ->. exact H.
Qed.
Lemma toy_map (f : Z -> Z) (b : bytes) n : (forall x, toy_is_byte (f x)) -> zlen b = n -> zlen (map f b) = n /\ bytes_ok (map f b).
Proof.
  intros H L. split; [unfold zlen in *; now rewrite map_length|]. apply Forall_forall. intros y I.
  apply in_map_iff in I as (x & <- & _). apply H.
Qed.
Lemma toy_mod k : forall x, toy_is_byte ((x + k) mod 256).
Proof. intros x. unfold toy_is_byte. pose proof (Z.mod_pos_bound (x + k) 256). lia. Qed.
Lemma toy_ok backend : crypto_ok (toy backend).
Proof.
  constructor; cbn [toy c_hash c_hmac c_aes c_des c_des_inv c_overread].
  - intros a x. apply toy_repeat, toy_byte.
  - intros a k x. apply toy_repeat, toy_byte.
  - intros k b. apply toy_map, toy_mod.
  - intros k b. apply toy_map, toy_mod.
  - intros k b _ B. rewrite map_map. rewrite <- (map_id b) at 2. apply map_ext_in. intros x I.
    unfold bytes_ok in B. rewrite Forall_forall in B. specialize (B x I). cbv beta in B.
    rewrite Zplus_mod_idemp_l, <- Z.add_assoc. change (1 + 255) with (1 * 256). rewrite Z.mod_add by lia. apply Z.mod_small. lia.
  - intros k b. apply toy_map, toy_mod.
  - intros iv. constructor.
Qed.

Definition ex_secret : bytes := repeat 97 (Z.to_nat 262144).
Definition ex_user : bytes := [98;111;98].
Definition ex_engine : bytes := [128;0;31;136;4].
Definition ex_ops (a : authalg) (p : privalg) : list user_op :=
  [OpAddUser ex_user (Some a) None (Some p) None ex_secret false None [];
   OpAddUser [97] None None None None [] false None [1];
   OpRegister ex_engine []; OpRegister ex_engine [1]; OpRegister ex_engine [];
   OpAddUser ex_user (Some a) None None None ex_secret false None [];
   OpAddUser ex_user (Some a) (Some []) (Some p) None ex_secret false (Some authPriv) [];
   OpAddUser [99] (Some a) None None None [] false None [2];
   OpAddUser [99] (Some a) None None None ex_secret false (Some authPriv) [2];
   OpRelease ex_engine []; OpRelease [9] []; OpRegister [7] [1]; OpRelease [7] [1]].
Example C31_example :
  Forall op_ok (ex_ops HmacSha AesCfb128) /\
  snd (user_run (toy OpenSSL) (fun n => Z.of_nat n) registry0 (ex_ops HmacSha AesCfb128)) =
  [Ok true; Ok true; Ok true; Ok false; Ok true; Raise UserNameCollision; Ok true; Raise ZeroDivisionError;
   Raise ValueError; Ok false; Raise SNMPLibraryBug; Ok true; Ok true].
Proof. split; [repeat constructor; cbn; auto|]. vm_compute. reflexivity. Qed.

Definition ex_hint : v3msg :=
  mkV3 (mkHeader 1 1500 (mkFlags noAuthNoPriv false) USM) None None
    (ABytes match params_encode (UsmSecurityParameters ex_engine 5 77 [] (ABytes []) []) with Ok p => p | Raise _ => [] end)
    None None.
Definition ex_hist (a : authalg) (p : privalg) : list usm_op :=
  map UUser (ex_ops a p) ++ [UReceive ex_hint 1000].
Definition ex_out : v3msg :=
  mkV3 (mkHeader 2147483647 65507 (mkFlags authPriv true) USM)
       (Some (mkScoped ex_engine [99;116;120] ex_response)) None (ABytes []) None None.
Lemma ex_scoped_ok : scoped_ok (mkScoped ex_engine [99;116;120] ex_response).
Proof.
  split; [split; [repeat constructor; vm_compute; discriminate|vm_compute; discriminate]|].
  split; [split; [repeat constructor; vm_compute; discriminate|vm_compute; discriminate]|]. exact ex_response_ok.
Qed.
(** A complete exchange at authPriv, both libraries, both ciphers: the sender
    knows (boots, time) = (5, 77 + 3) from the hint. *)
Definition ex_send (b : backend) (a : authalg) (p : privalg) :=
  snd (usm_prepareOutgoing (toy b) 10 (usm_after (toy b) 10 (fun n => Z.of_nat n) (ex_hist a p)) ex_out ex_engine ex_user 1030).
Definition ex_receive (b : backend) (a : authalg) (p : privalg) :=
  match ex_send b a p with
  | Ok out => match v3_decode (ABytes out) with
              | Ok m2 => snd (usm_processIncoming (toy b) 10
                   (usm_after (toy b) 10 (fun n => Z.of_nat n + 99) (map UUser (ex_ops a p))) m2 0)
              | Raise e => Raise e
              end
  | Raise e => Raise e
  end.
Definition is_ok {A} (r : res A) : bool := match r with Ok _ => true | Raise _ => false end.
Example C53_example :
  is_ok (ex_receive OpenSSL HmacSha AesCfb128) = true /\ is_ok (ex_receive PyCryptodome HmacSha256 DesCbc) = true.
Proof. split; vm_compute; reflexivity. Qed.
Example C53_hypotheses : let s := usm_after (toy OpenSSL) 10 (fun n => Z.of_nat n) (ex_hist HmacSha AesCfb128) in
  crypto_ok (toy OpenSSL) /\ Forall usm_op_ok (ex_hist HmacSha AesCfb128) /\ header_ok (v3_header ex_out) /\
  octets_ok ex_engine /\ octets_ok ex_user /\
  getEngineTime 10 (us_time s) ex_engine 1030 = (5, 80) /\ in_window 10 [] ex_engine 5 80 0.
Proof.
  cbv zeta. split; [apply toy_ok|]. split; [repeat constructor; cbn; auto|].
  split; [vm_compute; repeat split; discriminate|].
  split; [split; [repeat constructor; vm_compute; discriminate|vm_compute; discriminate]|].
  split; [split; [repeat constructor; vm_compute; discriminate|vm_compute; discriminate]|].
  split; [vm_compute; reflexivity|]. split; [lia|]. intros (b & m & ts & []).
Qed.
Example C38_example : let p := mkPriv DesCbc [1] [1;2;3;4;5;6;7;8] (2 ^ 32 - 1) in
  priv_ok p /\ map (fun r => match r with Ok (_, s) => s | Raise _ => [] end)
    (encryptions (toy PyCryptodome) p [([1], 1, 2); ([1], 1, 2); ([], 1, 3)]) =
  [[0;0;0;1;0;0;0;0]; [0;0;0;1;0;0;0;1]; [0;0;0;1;0;0;0;2]].
Proof.
  split; [|vm_compute; reflexivity]. unfold priv_ok. cbn [pv_alg pv_salt pv_preIV]. split; [lia|]. split; [reflexivity|].
  repeat constructor; vm_compute; discriminate.
Qed.
(** A failing addUser is not quite without effect: in a namespace that did not
    exist, getDefaultUser() changes from ValueError to None. *)
Theorem C33_failed_addUser_side_effect : exists C rnd op x,
  snd (user_step C rnd registry0 op) = Raise x /\
  getDefaultUser registry0 [1] = Raise ValueError /\
  getDefaultUser (fst (user_step C rnd registry0 op)) [1] = Ok None.
Proof.
  exists (toy OpenSSL), (fun _ => 0), (OpAddUser [99] (Some HmacSha) None None None [] false None [1]), ZeroDivisionError.
  repeat split; vm_compute; reflexivity.
Qed.
Print Assumptions C33_failed_addUser_side_effect.

Definition ex_negative : v3msg :=
  mkV3 (mkHeader 1 1500 (mkFlags noAuthNoPriv false) USM) None None
    (ABytes match params_encode (UsmSecurityParameters ex_engine (-1) 77 [] (ABytes []) []) with Ok p => p | Raise _ => [] end)
    None None.
(** An unauthenticated message is enough to make an outgoing authPriv message
    to that engine fail with OverflowError. *)
Theorem C55_outgoing_refuted : exists C R rnd h m sc e n ts, crypto_ok C /\ Forall usm_op_ok h /\
  header_ok (v3_header m) /\ v3_scoped m = Some sc /\ scoped_ok sc /\ octets_ok e /\ octets_ok n /\
  (exists l p, getCredentials (us_users (usm_after C R rnd h)) e n = Ok l /\ lc_priv l = Some p) /\
  snd (usm_prepareOutgoing C R (usm_after C R rnd h) m e n ts) = Raise OverflowError.
Proof.
  exists (toy OpenSSL), 10, (fun n => Z.of_nat n), (map UUser (ex_ops HmacSha AesCfb128) ++ [UReceive ex_negative 1000]),
    ex_out, (mkScoped ex_engine [99;116;120] ex_response), ex_engine, ex_user, 1030.
  destruct C53_hypotheses as (A & B & D & E & F & _). split; [exact A|]. split; [repeat constructor; cbn; auto|].
  split; [exact D|]. split; [reflexivity|]. split; [exact ex_scoped_ok|]. split; [exact E|]. split; [exact F|].
  split; [do 2 eexists; split; vm_compute; reflexivity|]. vm_compute. reflexivity.
Qed.
Print Assumptions C55_outgoing_refuted.
(** C55: an authenticated privacy message with negative engineBoots (accepted
    when it is the first of its engine) makes the AES code raise OverflowError. *)
Definition ex_datagram : list Z :=
  [48;73;2;1;3;48;17;2;4;127;255;255;255;2;3;0;255;227;4;1;7;2;1;3;4;44;48;42;4;5;128;0;31;136;4;2;1;255;2;1;77;4;3;98;111;98;4;12;25;25;25;25;25;25;25;25;25;25;25;25;4;8;0;0;0;0;0;0;0;0;4;3;1;2;3].
Theorem C55_refuted : exists C R rnd h datagram m ts, crypto_ok C /\ Forall usm_op_ok h /\ bytes_ok datagram /\
  v3_decode (ABytes datagram) = Ok m /\
  snd (usm_processIncoming C R (usm_after C R rnd h) m ts) = Raise OverflowError.
Proof.
  exists (toy OpenSSL), 10, (fun n => Z.of_nat n), (map UUser (ex_ops HmacSha AesCfb128)).
  exists ex_datagram, (match v3_decode (ABytes ex_datagram) with Ok m => m | Raise _ => ex_out end), 0.
  split; [apply toy_ok|]. split; [repeat constructor; cbn; auto|].
  split; [repeat constructor; vm_compute; discriminate|]. split; [vm_compute; reflexivity|]. vm_compute. reflexivity.
Qed.
Print Assumptions C55_refuted.
