(** SpecUsers.v -- what the user registry is supposed to be (C31-C34): an
    abstract machine without engine objects, counters or caches. *)
From Verif Require Export Users.

(** * Keys (C34) *)
(** RFC 3414 A.2: the password repeated up to exactly 2^20 bytes. *)
Definition MEGABYTE : nat := Z.to_nat 1048576.
Definition is_stretched (password msg : bytes) : Prop :=
  length msg = MEGABYTE /\
  forall i, (i < MEGABYTE)%nat -> nth i msg 0 = nth (i mod length password) password 0.

(** * Crypto library *)
(** What is assumed of the hash functions: output of the right size. *)
Definition hash_ok (C : crypto) : Prop :=
  forall a x, zlen (c_hash C a x) = digest_size a /\ bytes_ok (c_hash C a x).

(** * The machine *)
Inductive user_op :=
| OpAddUser (name : bytes) (authProtocol : option authalg) (authSecret : option bytes)
    (privProtocol : option privalg) (privSecret : option bytes) (secret : bytes)
    (default : bool) (dsl : option seclevel) (namespace : pystr)
| OpRegister (engineID : bytes) (namespace : pystr)
| OpRelease (engineID : bytes) (namespace : pystr)
(* a message encrypted for (engineID, name): changes the salt *)
| OpEncrypt (engineID name data : bytes) (boots time : Z).

(** The modelled code. *)
Definition user_step (C : crypto) (rnd : nat -> Z) (u : registry) (op : user_op) : registry * res bool :=
  match op with
  | OpAddUser n ap asec pp ps sec d dsl ns =>
    let '(u, r) := addUser C rnd u n ap asec pp ps sec d dsl ns in (u, do _ <- r; Ok true)
  | OpRegister e ns => ur_assign C rnd u e ns
  | OpRelease e ns => ur_release u e ns
  | OpEncrypt e n data b t =>
    (match getCredentials u e n with
     | Ok l => match lc_priv l with
               | Some p => store_priv u e n (fst (priv_encrypt C p data b t))
               | None => u end
     | Raise _ => u end, Ok true)
  end.
Fixpoint user_run (C : crypto) (rnd : nat -> Z) (u : registry) (h : list user_op)
  : registry * list (res bool) :=
  match h with
  | [] => (u, [])
  | op :: h' => let '(u, r) := user_step C rnd u op in
                let '(u, rs) := user_run C rnd u h' in (u, r :: rs)
  end.

(** The abstract state: live registrations (a bag), configured users, default
    user of each namespace. *)
Record uspec := mkUSpec {
  sp_live : list (bytes * pystr);
  sp_cfg : pystr -> bytes -> option userconfig;
  sp_def : pystr -> option bytes
}.
Definition uspec0 := mkUSpec [] (fun _ _ => None) (fun _ => None).

(** The keys a user gets: none without authProtocol; the secrets default to
    [secret] when absent or empty; an empty password has no key. *)
Definition effective (s : option bytes) (secret : bytes) : bytes :=
  match s with Some (x :: l) => x :: l | _ => secret end.
Definition spec_level (ap : option authalg) (pp : option privalg) : seclevel :=
  match ap, pp with
  | None, _ => noAuthNoPriv | Some _, None => authNoPriv | Some _, Some _ => authPriv
  end.
Definition spec_credentials (C : crypto) (ap : option authalg) (asec : option bytes)
    (pp : option privalg) (ps : option bytes) (secret : bytes) (c : credentials) : Prop :=
  cr_max c = spec_level ap pp /\ cr_authProtocol c = ap /\
  match ap with
  | None => cr_authKey c = [] /\ cr_privProtocol c = None /\ cr_privKey c = []
  | Some a =>
    effective asec secret <> [] /\
    (exists m, is_stretched (effective asec secret) m /\ cr_authKey c = c_hash C a m) /\
    cr_privProtocol c = pp /\
    match pp with
    | None => cr_privKey c = []
    | Some _ => effective ps secret <> [] /\
      exists m, is_stretched (effective ps secret) m /\ cr_privKey c = c_hash C a m
    end
  end.
Definition secrets_ok (ap : option authalg) (asec : option bytes)
    (pp : option privalg) (ps : option bytes) (secret : bytes) : bool :=
  match ap with
  | None => true
  | Some _ => negb (zlen (effective asec secret) =? 0) &&
    match pp with None => true | Some _ => negb (zlen (effective ps secret) =? 0) end
  end.

(** Levels in increasing order; privacy without authentication is not a level. *)
Definition level_rank (l : seclevel) : Z :=
  if sl_priv l then 2 else if sl_auth l then 1 else 0.
Definition op_ok (op : user_op) : Prop :=
  match op with
  | OpAddUser _ _ _ _ _ _ _ (Some l) _ => sl_priv l = true -> sl_auth l = true
  | _ => True
  end.

Definition upd2 {V} (f : pystr -> bytes -> option V) (ns : pystr) (n : bytes) (v : V) :=
  fun ns' n' => if zlist_eqb ns' ns && zlist_eqb n' n then Some v else f ns' n'.
Definition upd1 {V} (f : pystr -> option V) (ns : pystr) (v : V) :=
  fun ns' => if zlist_eqb ns' ns then Some v else f ns'.
Definition pair_eqb (a b : bytes * pystr) : bool :=
  zlist_eqb (fst a) (fst b) && zlist_eqb (snd a) (snd b).
Fixpoint remove_one (x : bytes * pystr) (l : list (bytes * pystr)) :=
  match l with
  | [] => []
  | y :: l' => if pair_eqb x y then l' else y :: remove_one x l'
  end.
Definition live_engine (s : uspec) (e : bytes) : bool :=
  existsb (fun p => zlist_eqb (fst p) e) (sp_live s).
Definition live_elsewhere (s : uspec) (e : bytes) (ns : pystr) : bool :=
  existsb (fun p => zlist_eqb (fst p) e && negb (zlist_eqb (snd p) ns)) (sp_live s).

(** One abstract step: the new state and the expected outcome. *)
Inductive spec_step (C : crypto) : uspec -> user_op -> uspec -> res bool -> Prop :=
| SSecret s n ap asec pp ps sec d dsl ns :
    secrets_ok ap asec pp ps sec = false ->
    spec_step C s (OpAddUser n ap asec pp ps sec d dsl ns) s (Raise ZeroDivisionError)
| SLevel s n ap asec pp ps sec d l ns :
    secrets_ok ap asec pp ps sec = true ->
    level_rank (spec_level ap pp) < level_rank l ->
    spec_step C s (OpAddUser n ap asec pp ps sec d (Some l) ns) s (Raise ValueError)
| SCollision s n ap asec pp ps sec d dsl ns c old :
    spec_credentials C ap asec pp ps sec c ->
    let l := match dsl with Some l => l | None => cr_max c end in
    level_rank l <= level_rank (spec_level ap pp) ->
    sp_cfg s ns n = Some old ->
    (old <> mkUC c l \/ (d = true /\ sp_def s ns <> Some n)) ->
    spec_step C s (OpAddUser n ap asec pp ps sec d dsl ns) s (Raise UserNameCollision)
| SAdd s n ap asec pp ps sec d dsl ns c :
    spec_credentials C ap asec pp ps sec c ->
    let l := match dsl with Some l => l | None => cr_max c end in
    level_rank l <= level_rank (spec_level ap pp) ->
    (sp_cfg s ns n = None \/
     (sp_cfg s ns n = Some (mkUC c l) /\ (d = true -> sp_def s ns = Some n))) ->
    spec_step C s (OpAddUser n ap asec pp ps sec d dsl ns)
      (mkUSpec (sp_live s) (upd2 (sp_cfg s) ns n (mkUC c l))
         (if d || match sp_def s ns with None => true | Some _ => false end
          then upd1 (sp_def s) ns n else sp_def s))
      (Ok true)
| SRegister s e ns :
    spec_step C s (OpRegister e ns)
      (if live_elsewhere s e ns then s else mkUSpec ((e, ns) :: sp_live s) (sp_cfg s) (sp_def s))
      (Ok (negb (live_elsewhere s e ns)))
| SRelease s e ns :
    let s' := mkUSpec (remove_one (e, ns) (sp_live s)) (sp_cfg s) (sp_def s) in
    spec_step C s (OpRelease e ns) s'
      (if live_engine s e then Ok (negb (live_engine s' e)) else Raise SNMPLibraryBug)
| SEncrypt s e n data b t : spec_step C s (OpEncrypt e n data b t) s (Ok true).

Inductive spec_run (C : crypto) : uspec -> list user_op -> uspec -> list (res bool) -> Prop :=
| RNil s : spec_run C s [] s []
| RCons s op s1 r h s2 rs : spec_step C s op s1 r -> spec_run C s1 h s2 rs ->
    spec_run C s (op :: h) s2 (r :: rs).

(** The localisation of [c] to engine [e] (RFC 3414 2.6), up to the salt counter. *)
Definition localised_to (C : crypto) (c : credentials) (e : bytes) (l : localized) : Prop :=
  match cr_authProtocol c with
  | None => lc_auth l = None /\ lc_priv l = None
  | Some a =>
    lc_auth l = Some (a, c_hash C a (cr_authKey c ++ e ++ cr_authKey c)) /\
    match cr_privProtocol c with
    | None => lc_priv l = None
    | Some p => exists salt, 0 <= salt < match p with AesCfb128 => 2 ^ 64 | DesCbc => 2 ^ 32 end /\ lc_priv l = Some (
        let k := c_hash C a (cr_privKey c ++ e ++ cr_privKey c) in
        match p with
        | AesCfb128 => mkPriv AesCfb128 (firstn 16 k) [] salt
        | DesCbc => mkPriv DesCbc (firstn 8 k) (firstn 8 (skipn 8 k)) salt
        end)
    end
  end.
