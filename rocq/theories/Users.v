(** Users.v -- model of snmp/security/usm/credentials.py and users.py
    (definitions only).

    Random numbers (os.urandom in the PrivProtocol constructors) come from an
    oracle [rnd : nat -> Z]; [ur_draws] counts the draws made so far.  User
    names are the encoded bytes, namespaces are str. *)
From Verif Require Export Crypto MsgV3.

(** credentials.py:8-20; AuthProtocol objects are (class, key). *)
Record localized := mkLocalized { lc_auth : option (authalg * bytes); lc_priv : option priv }.

(** credentials.py:22-47 *)
Record credentials := mkCred {
  cr_authProtocol : option authalg; cr_authKey : bytes;
  cr_privProtocol : option privalg; cr_privKey : bytes;
  cr_max : seclevel
}.
(** [a or b] on Optional[bytes] *)
Definition bytes_or (a : option bytes) (b : bytes) : bytes :=
  match a with Some (x :: l) => x :: l | _ => b end.
(** credentials.py:23-47 *)
Definition Credentials (C : crypto) (authProtocol : option authalg) (authSecret : option bytes)
    (privProtocol : option privalg) (privSecret : option bytes) (secret : bytes) : res credentials :=
  match authProtocol with
  | None => Ok (mkCred None [] None [] noAuthNoPriv)
  | Some a =>
    match privProtocol with
    | None =>
      do ak <- computeKey C a (bytes_or authSecret secret);
      Ok (mkCred (Some a) ak None [] authNoPriv)
    | Some p =>
      do pk <- computeKey C a (bytes_or privSecret secret);
      do ak <- computeKey C a (bytes_or authSecret secret);
      Ok (mkCred (Some a) ak (Some p) pk authPriv)
    end
  end.
(** credentials.py:49-57 *)
Definition opt_eqb {A} (eqb : A -> A -> bool) (a b : option A) : bool :=
  match a, b with Some x, Some y => eqb x y | None, None => true | _, _ => false end.
Definition authalg_eqb (a b : authalg) : bool := if authalg_eq_dec a b then true else false.
Definition privalg_eqb (a b : privalg) : bool := if privalg_eq_dec a b then true else false.
Definition cred_eqb (a b : credentials) : bool :=
  opt_eqb authalg_eqb (cr_authProtocol a) (cr_authProtocol b)
  && opt_eqb privalg_eqb (cr_privProtocol a) (cr_privProtocol b)
  && zlist_eqb (cr_authKey a) (cr_authKey b) && zlist_eqb (cr_privKey a) (cr_privKey b).
(** credentials.py:59-73.  Returns also how many random numbers were drawn. *)
Definition cr_localize (C : crypto) (rnd : nat -> Z) (n : nat) (c : credentials) (engineID : bytes)
  : res (localized * nat) :=
  match cr_authProtocol c with
  | None => Ok (mkLocalized None None, n)
  | Some a =>
    let auth := Some (a, localizeKey C a (cr_authKey c) engineID) in
    match cr_privProtocol c with
    | None => Ok (mkLocalized auth None, n)
    | Some p =>
      do pv <- priv_new p (localizeKey C a (cr_privKey c) engineID) (rnd n);
      Ok (mkLocalized auth (Some pv), S n)
    end
  end.

(** users.py:23-40 *)
Record userconfig := mkUC { uc_credentials : credentials; uc_default : seclevel }.
Definition UserConfig (c : credentials) (dsl : option seclevel) : res userconfig :=
  match dsl with
  | None => Ok (mkUC c (cr_max c))
  | Some l => if sl_ltb (cr_max c) l then Raise ValueError else Ok (mkUC c l)
  end.
(** users.py:42-48 *)
Definition uc_eqb (a b : userconfig) : bool :=
  cred_eqb (uc_credentials a) (uc_credentials b) && sl_eqb (uc_default a) (uc_default b).

(** users.py:50-53 *)
Record nsconfig := mkNS { ns_default : option bytes; ns_users : dict bytes userconfig }.
(** users.py:59-74 *)
Definition ns_addUser (c : nsconfig) (userName : bytes) (cred : credentials)
    (dsl : option seclevel) (default : bool) : res nsconfig :=
  do config <- UserConfig cred dsl;
  let collision :=
    match dict_get zlist_eqb (ns_users c) userName with
    | Some old => negb (uc_eqb config old)
                  || (default && negb (opt_eqb zlist_eqb (Some userName) (ns_default c)))
    | None => false
    end in
  if collision then Raise UserNameCollision else
  Ok (mkNS (if default || match ns_default c with None => true | Some _ => false end
            then Some userName else ns_default c)
           (dict_set zlist_eqb (ns_users c) userName config)).
(** users.py:76-80 *)
Definition findUser (c : nsconfig) (userName : bytes) : res userconfig :=
  match dict_get zlist_eqb (ns_users c) userName with
  | Some u => Ok u
  | None => Raise InvalidUserName
  end.

(** users.py:82-121 *)
Record remote := mkRemote { re_count : Z; re_namespace : pystr; re_users : dict bytes localized }.
(** users.py:95-100 *)
Definition re_addUser (C : crypto) (rnd : nat -> Z) (n : nat) (r : remote)
    (engineID userName : bytes) (c : credentials) : res (remote * nat) :=
  do x <- cr_localize C rnd n c engineID;
  let '(l, n) := x in
  Ok (mkRemote (re_count r) (re_namespace r) (dict_set zlist_eqb (re_users r) userName l), n).
(** users.py:92-93 *)
Fixpoint re_addUsers (C : crypto) (rnd : nat -> Z) (n : nat) (r : remote) (engineID : bytes)
    (l : list (bytes * userconfig)) : res (remote * nat) :=
  match l with
  | [] => Ok (r, n)
  | (userName, u) :: l' =>
    do x <- re_addUser C rnd n r engineID userName (uc_credentials u);
    let '(r, n) := x in re_addUsers C rnd n r engineID l'
  end.
(** users.py:83-93 *)
Definition RemoteEngine (C : crypto) (rnd : nat -> Z) (n : nat) (engineID : bytes)
    (namespace : pystr) (config : option nsconfig) : res (remote * nat) :=
  re_addUsers C rnd n (mkRemote 1 namespace []) engineID
    (match config with Some c => ns_users c | None => [] end).
(** users.py:108-114 *)
Definition re_assign (r : remote) (namespace : pystr) : remote * bool :=
  if zlist_eqb namespace (re_namespace r)
  then (mkRemote (re_count r + 1) (re_namespace r) (re_users r), true) else (r, false).
(** users.py:116-121 *)
Definition re_release (r : remote) (namespace : pystr) : res (remote * bool) :=
  if zlist_eqb (re_namespace r) namespace then
    if re_count r <=? 0 then Raise AssertionError
    else let c := re_count r - 1 in Ok (mkRemote c (re_namespace r) (re_users r), c =? 0)
  else Ok (r, re_count r =? 0).

(** users.py:123-127 *)
Record registry := mkReg {
  ur_engines : dict bytes remote;
  ur_namespaces : dict pystr nsconfig;
  ur_draws : nat
}.
Definition registry0 := mkReg [] [] 0.

(** users.py:156-158: [for engineID, engine in self.engines.items()]. *)
Fixpoint addUser_engines (C : crypto) (rnd : nat -> Z) (n : nat) (engines : dict bytes remote)
    (namespace : pystr) (userName : bytes) (c : credentials) : dict bytes remote * nat * res unit :=
  match engines with
  | [] => ([], n, Ok tt)
  | (engineID, r) :: l =>
    if zlist_eqb (re_namespace r) namespace then
      match re_addUser C rnd n r engineID userName c with
      | Raise e => ((engineID, r) :: l, n, Raise e)
      | Ok (r, n) =>
        let '(l, n, x) := addUser_engines C rnd n l namespace userName c in
        ((engineID, r) :: l, n, x)
      end
    else
      let '(l, n, x) := addUser_engines C rnd n l namespace userName c in
      ((engineID, r) :: l, n, x)
  end.

(** users.py:129-158.  Every exception leaves the state reached so far. *)
Definition addUser (C : crypto) (rnd : nat -> Z) (u : registry) (userName : bytes)
    (authProtocol : option authalg) (authSecret : option bytes)
    (privProtocol : option privalg) (privSecret : option bytes) (secret : bytes)
    (default : bool) (dsl : option seclevel) (namespace : pystr) : registry * res unit :=
  let '(config, u) :=
    match dict_get zlist_eqb (ur_namespaces u) namespace with
    | Some c => (c, u)
    | None =>
      let c := mkNS None [] in
      (c, mkReg (ur_engines u) (dict_set zlist_eqb (ur_namespaces u) namespace c) (ur_draws u))
    end in
  match Credentials C authProtocol authSecret privProtocol privSecret secret with
  | Raise e => (u, Raise e)
  | Ok cred =>
    match ns_addUser config userName cred dsl default with
    | Raise e => (u, Raise e)
    | Ok config =>
      let namespaces := dict_set zlist_eqb (ur_namespaces u) namespace config in
      let '(engines, n, x) :=
        addUser_engines C rnd (ur_draws u) (ur_engines u) namespace userName cred in
      (mkReg engines namespaces n, x)
    end
  end.

(** users.py:160-172 *)
Definition ur_assign (C : crypto) (rnd : nat -> Z) (u : registry) (engineID : bytes)
    (namespace : pystr) : registry * res bool :=
  match dict_get zlist_eqb (ur_engines u) engineID with
  | None =>
    match RemoteEngine C rnd (ur_draws u) engineID namespace
            (dict_get zlist_eqb (ur_namespaces u) namespace) with
    | Raise e => (u, Raise e)
    | Ok (r, n) => (mkReg (dict_set zlist_eqb (ur_engines u) engineID r) (ur_namespaces u) n, Ok true)
    end
  | Some r =>
    let '(r, ok) := re_assign r namespace in
    (mkReg (dict_set zlist_eqb (ur_engines u) engineID r) (ur_namespaces u) (ur_draws u), Ok ok)
  end.
(** users.py:174-188 *)
Definition ur_release (u : registry) (engineID : bytes) (namespace : pystr) : registry * res bool :=
  match dict_get zlist_eqb (ur_engines u) engineID with
  | None => (u, Raise SNMPLibraryBug)
  | Some r =>
    match re_release r namespace with
    | Raise e => (u, Raise e)
    | Ok (r, true) => (mkReg (dict_del zlist_eqb (ur_engines u) engineID) (ur_namespaces u) (ur_draws u), Ok true)
    | Ok (r, false) => (mkReg (dict_set zlist_eqb (ur_engines u) engineID r) (ur_namespaces u) (ur_draws u), Ok false)
    end
  end.
(** users.py:102-106, 190-199 *)
Definition getCredentials (u : registry) (engineID userName : bytes) : res localized :=
  match dict_get zlist_eqb (ur_engines u) engineID with
  | None => Raise InvalidEngineID
  | Some r =>
    match dict_get zlist_eqb (re_users r) userName with
    | Some l => Ok l
    | None => Raise InvalidUserName
    end
  end.
(** users.py:211-220 *)
Definition getNamespace (u : registry) (namespace : pystr) : res nsconfig :=
  match dict_get zlist_eqb (ur_namespaces u) namespace with
  | Some c => Ok c
  | None => Raise ValueError
  end.
(** users.py:201-206 *)
Definition getDefaultSecurityLevel (u : registry) (userName : bytes) (namespace : pystr) : res seclevel :=
  do config <- getNamespace u namespace;
  do user <- findUser config userName;
  Ok (uc_default user).
(** users.py:208-209 *)
Definition getDefaultUser (u : registry) (namespace : pystr) : res (option bytes) :=
  do config <- getNamespace u namespace;
  Ok (ns_default config).

(** The PrivProtocol object of (engine, user) after one encryption. *)
Definition store_priv (u : registry) (engineID userName : bytes) (p : priv) : registry :=
  match dict_get zlist_eqb (ur_engines u) engineID with
  | None => u
  | Some r =>
    match dict_get zlist_eqb (re_users r) userName with
    | None => u
    | Some l =>
      mkReg (dict_set zlist_eqb (ur_engines u) engineID
               (mkRemote (re_count r) (re_namespace r)
                  (dict_set zlist_eqb (re_users r) userName (mkLocalized (lc_auth l) (Some p)))))
            (ur_namespaces u) (ur_draws u)
    end
  end.
