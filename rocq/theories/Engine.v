(** Engine.v -- model of snmp/engine.py (definitions only).
    Objects (transports, message processors) are numbered in the order of their
    creation.  The managers themselves are in ManagerV1.v and ManagerV3.v; here
    only their constructor arguments are kept.  User names are the encoded bytes
    (as in Users.v).  shutdown() is in Transport.v. *)
From Verif Require Export Transport SpecUsers.
Open Scope Z_scope.

(** Keys of [self.transports[domain]]: tuples of a str and a number, compared as Python does. *)
Definition num_eqb (a b : pyval) : bool :=
  match a, b with
  | VInt x, _ => py_eq b x
  | VFloat _, VInt y => py_eq a y
  | VFloat (FFin x), VFloat (FFin y) => Qeq_bool x y
  | VFloat (FInf x), VFloat (FInf y) => Bool.eqb x y
  | _, _ => false
  end.
Definition str_eqb (a b : pyval) : bool := match a, b with VStr x, VStr y => zlist_eqb x y | _, _ => false end.
Definition key := (pyval * pyval)%type.
Definition key_eqb (a b : key) : bool := (str_eqb (fst a) (fst b) && num_eqb (snd a) (snd b))%bool.

(** engine.py:21-60 *)
Record engine := mkEngine {
  e_version : Z; e_domain : domain; e_secmodel : Z; e_community : bytes; e_autowait : bool;
  e_transports : dict domain (dict key nat);
  e_mpv1 : option nat; e_mpv2c : option nat; e_mpv3 : option nat;
  e_procs : dict Z nat;          (* dispatcher.msgProcessors *)
  e_usm3 : bool;                 (* mpv3 has the security module *)
  e_users : registry;            (* of the security module, created on first use (56-60) *)
  e_count : nat                  (* objects created so far *)
}.
Definition engine_new (version : Z) (d : domain) (secmodel : Z) (community : bytes) (autowait : bool) : engine :=
  mkEngine version d secmodel community autowait [] None None None [] false registry0 0.

Record channel := mkChannel { ch_domain : domain; ch_transport : nat; ch_address : key; ch_local : key }.
Inductive manager :=
| SNMPv1Manager (ch : channel) (autowait : bool) (community : bytes)
| SNMPv2cManager (ch : channel) (autowait : bool) (community : bytes)
| SNMPv3Manager (ch : channel) (autowait : bool) (namespace : pystr) (user : bytes) (level : seclevel) (engineID : option bytes).

(** Keyword arguments of Manager() passed on to v1Manager()... *)
Record kwargs := mkKw {
  kw_community : option bytes;
  kw_engineID : option bytes; kw_secmodel : option Z; kw_level : option seclevel;
  kw_user : option bytes; kw_namespace : option pystr
}.
(** Passing an argument the function does not have raises TypeError. *)
Definition kw_v3 (kw : kwargs) : bool :=
  match kw_engineID kw, kw_secmodel kw, kw_level kw, kw_user kw, kw_namespace kw with
  | None, None, None, None, None => false | _, _, _, _, _ => true end.

(** What the engine does to the outside. *)
Inductive elog :=
| ESocket (d : domain) (local : key) (id : nat)    (* transportClass( *localAddress) *)
| EConnected (id : nat)                            (* dispatcher.connectTransport(transport) *)
| EProcessor (version : Z) (id : nat).             (* created and added to the dispatcher *)

Definition VERSION1 : Z := 0. Definition VERSION2c : Z := 1. Definition VERSION3 : Z := 3. Definition USM_MODEL : Z := 3.

(** engine.py:82-99 and 101-118: v1Manager(), v2cManager().  dispatcher.py:28-30. *)
Definition v1Manager (E : engine) (ch : channel) (autowait : bool) (kw : kwargs) : engine * list elog * res manager :=
  if kw_v3 kw then (E, [], Raise TypeError) else
  let community := match kw_community kw with Some c => c | None => e_community E end in
  let '(E, l) :=
    match e_mpv1 E with
    | Some _ => (E, [])
    | None =>
      let id := e_count E in
      (mkEngine (e_version E) (e_domain E) (e_secmodel E) (e_community E) (e_autowait E) (e_transports E)
         (Some id) (e_mpv2c E) (e_mpv3 E) (dict_set Z.eqb (e_procs E) VERSION1 id) (e_usm3 E) (e_users E) (S id), [EProcessor VERSION1 id])
    end in
  (E, l, Ok (SNMPv1Manager ch autowait community)).
Definition v2cManager (E : engine) (ch : channel) (autowait : bool) (kw : kwargs) : engine * list elog * res manager :=
  if kw_v3 kw then (E, [], Raise TypeError) else
  let community := match kw_community kw with Some c => c | None => e_community E end in
  let '(E, l) :=
    match e_mpv2c E with
    | Some _ => (E, [])
    | None =>
      let id := e_count E in
      (mkEngine (e_version E) (e_domain E) (e_secmodel E) (e_community E) (e_autowait E) (e_transports E)
         (e_mpv1 E) (Some id) (e_mpv3 E) (dict_set Z.eqb (e_procs E) VERSION2c id) (e_usm3 E) (e_users E) (S id), [EProcessor VERSION2c id])
    end in
  (E, l, Ok (SNMPv2cManager ch autowait community)).

Section Engine.
Variable C : crypto.
Variable rnd : nat -> Z.
Variable inet : domain -> pystr -> res bytes.

Definition set_users (E : engine) (u : registry) : engine :=
  mkEngine (e_version E) (e_domain E) (e_secmodel E) (e_community E) (e_autowait E) (e_transports E)
    (e_mpv1 E) (e_mpv2c E) (e_mpv3 E) (e_procs E) (e_usm3 E) u (e_count E).

(** engine.py:120-169.  A community among the keyword arguments is ignored.  The
    manager's constructor registers the engine ID (manager/v3.py:484-490, 499-510,
    577-584). *)
Definition v3Manager (E : engine) (ch : channel) (autowait : bool) (kw : kwargs) : engine * list elog * res manager :=
  match match kw_secmodel kw with
        | None => Ok (e_secmodel E)
        | Some m => if m =? USM_MODEL then Ok m else Raise ValueError
        end with
  | Raise e => (E, [], Raise e)
  | Ok model =>
    let '(E, l) :=
      match e_mpv3 E with
      | Some _ => (E, [])
      | None =>
        let id := e_count E in
        (mkEngine (e_version E) (e_domain E) (e_secmodel E) (e_community E) (e_autowait E) (e_transports E)
           (e_mpv1 E) (e_mpv2c E) (Some id) (dict_set Z.eqb (e_procs E) VERSION3 id) (e_usm3 E) (e_users E) (S id), [EProcessor VERSION3 id])
      end in
    if model =? USM_MODEL then
      let namespace := match kw_namespace kw with Some n => n | None => [] end in
      match (do user <- match kw_user kw with
                        | Some u => Ok u
                        | None => do u <- getDefaultUser (e_users E) namespace;
                                  match u with Some u => Ok u | None => Raise NoDefaultUser end
                        end;
             do level <- match kw_level kw with
                         | Some l => Ok l
                         | None => getDefaultSecurityLevel (e_users E) user namespace
                         end;
             Ok (user, level)) with
      | Raise e => (E, l, Raise e)
      | Ok (user, level) =>
        let E := mkEngine (e_version E) (e_domain E) (e_secmodel E) (e_community E) (e_autowait E) (e_transports E)
                   (e_mpv1 E) (e_mpv2c E) (e_mpv3 E) (e_procs E) true (e_users E) (e_count E) in
        let m := SNMPv3Manager ch autowait namespace user level (kw_engineID kw) in
        match kw_engineID kw with
        | None => (E, l, Ok m)
        | Some engineID =>
          let '(u, ok) := ur_assign C rnd (e_users E) engineID namespace in
          (set_users E u, l, do ok <- ok; if ok : bool then Ok m else Raise DiscoveryError)
        end
      end
    else (E, l, Raise ValueError)
  end.

(** engine.py:22-27 *)
Definition supported (d : domain) : bool := match d with DOther _ => false | _ => true end.
(** ProtocolVersion(version), message/version.py:16-19 *)
Definition to_version (v : Z) : res Z := if (v =? VERSION1) || (v =? VERSION2c) || (v =? VERSION3) then Ok v else Raise ValueError.

(** socket(...); bind(localAddress): [os] is the result of the operating system; a
    float is not accepted as a port (transport/udp.py:70-73). *)
Definition open_socket (os : res unit) (local : key) : res unit :=
  match snd local with VInt _ => os | _ => Raise TypeError end.

(** engine.py:205-216 *)
Definition transport_for (E : engine) (d : domain) (local : key) (os : res unit) : engine * list elog * res nat :=
  let transports := match dict_get domain_eqb (e_transports E) d with Some t => t | None => [] end in
  let with_transports E t :=
    mkEngine (e_version E) (e_domain E) (e_secmodel E) (e_community E) (e_autowait E) (dict_set domain_eqb (e_transports E) d t)
      (e_mpv1 E) (e_mpv2c E) (e_mpv3 E) (e_procs E) (e_usm3 E) (e_users E) in
  match dict_get key_eqb transports local with
  | Some id => (with_transports E transports (e_count E), [], Ok id)
  | None =>
    match open_socket os local with
    | Raise e => (with_transports E transports (e_count E), [], Raise e)
    | Ok _ =>
      let id := e_count E in
      (with_transports E (dict_set key_eqb transports local id) (S id), [ESocket d local id; EConnected id], Ok id)
    end
  end.

(** engine.py:171-232.  For an unsupported domain, the error message (192) uses
    [transportClass], which has no value then: UnboundLocalError. *)
Definition Manager (E : engine) (address : pyval) (version : option Z) (dom : option domain) (localAddress : pyval)
    (autowait : option bool) (kw : kwargs) (os : res unit) : engine * list elog * res manager :=
  let d := match dom with Some d => d | None => e_domain E end in
  let aw := match autowait with Some b => b | None => e_autowait E end in
  if negb (supported d) then (E, [], Raise UnboundLocalError) else
  match (do a <- normalizeAddress inet d address (Some LISTENER);
         do l <- normalizeAddress inet d localAddress (Some SENDER);
         Ok (a, l)) with
  | Raise e => (E, [], Raise e)
  | Ok (a, local) =>
    let '(E, l1, t) := transport_for E d local os in
    match t with
    | Raise e => (E, l1, Raise e)
    | Ok id =>
      let ch := mkChannel d id a local in
      match match version with None => Ok (e_version E) | Some v => to_version v end with
      | Raise e => (E, l1, Raise e)
      | Ok v =>
        let '(E, l2, r) :=
          if v =? VERSION3 then v3Manager E ch aw kw
          else if v =? VERSION2c then v2cManager E ch aw kw
          else if v =? VERSION1 then v1Manager E ch aw kw
          else (E, [], Raise ValueError) in
        (E, l1 ++ l2, r)
      end
    end
  end.

(** engine.py:71-80 *)
Definition connectTransport (E : engine) (d : domain) : engine * list elog * res unit :=
  if dict_mem domain_eqb (e_transports E) d then (E, [], Raise ValueError)
  else if negb (supported d) then (E, [], Raise ValueError)
  else
    let id := e_count E in
    (mkEngine (e_version E) (e_domain E) (e_secmodel E) (e_community E) (e_autowait E) (dict_set domain_eqb (e_transports E) d [])
       (e_mpv1 E) (e_mpv2c E) (e_mpv3 E) (e_procs E) (e_usm3 E) (e_users E) (S id), [EConnected id], Ok tt).

(** Calls made by the program; [GUsers]: addUser(), and what managers and requests
    do with the security module (registrations, encryption; [user_op] in SpecUsers.v). *)
Inductive gcall :=
| GManager (address : pyval) (version : option Z) (dom : option domain) (localAddress : pyval) (autowait : option bool) (kw : kwargs) (os : res unit)
| GConnect (d : domain)
| GUsers (op : user_op).
Inductive gresult := RManager (r : res manager) | RConnect (r : res unit) | RUsers (r : res bool).
Definition engine_step (E : engine) (c : gcall) : engine * list elog * gresult :=
  match c with
  | GManager a v d l aw kw os => let '(E, y, r) := Manager E a v d l aw kw os in (E, y, RManager r)
  | GConnect d => let '(E, y, r) := connectTransport E d in (E, y, RConnect r)
  | GUsers op => let '(u, r) := user_step C rnd (e_users E) op in (set_users E u, [], RUsers r)
  end.
Fixpoint engine_run (E : engine) (cs : list gcall) : engine * list elog * list gresult :=
  match cs with
  | [] => (E, [], [])
  | c :: cs => let '(E, y, r) := engine_step E c in let '(E, y', rs) := engine_run E cs in (E, y ++ y', r :: rs)
  end.
End Engine.
