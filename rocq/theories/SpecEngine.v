(** SpecEngine.v -- specification for C51 and C58. *)
From Verif Require Export Engine SpecTrans.
Open Scope Z_scope.

(** What the program did with a new Engine object, and what came of it. *)
Record setting := mkSetting {
  g_crypto : crypto; g_rnd : nat -> Z; g_inet : domain -> pystr -> res bytes;
  g_version : Z; g_domain : domain; g_model : Z; g_community : bytes; g_autowait : bool
}.
Definition fresh (G : setting) : engine := engine_new (g_version G) (g_domain G) (g_model G) (g_community G) (g_autowait G).
(** What is assumed: the hash functions and inet_pton() work (SpecUsers.v, SpecTrans.v),
    bind() succeeds or raises OSError, and security levels have no privacy without
    authentication. *)
Definition setting_ok (G : setting) : Prop := hash_ok (g_crypto G) /\ inet_ok (g_inet G).
Definition call_ok (c : gcall) : Prop :=
  match c with GUsers op => op_ok op | GManager _ _ _ _ _ _ os => os = Ok tt \/ os = Raise OSError | GConnect _ => True end.
Definition engine_history (G : setting) (cs : list gcall) (E : engine) (l : list elog) (rs : list gresult) : Prop :=
  engine_run (g_crypto G) (g_rnd G) (g_inet G) (fresh G) cs = (E, l, rs).

Definition channel_of (m : manager) : channel :=
  match m with SNMPv1Manager c _ _ => c | SNMPv2cManager c _ _ => c | SNMPv3Manager c _ _ _ _ _ => c end.
Definition version_of (m : manager) : Z :=
  match m with SNMPv1Manager _ _ _ => 0 | SNMPv2cManager _ _ _ => 1 | SNMPv3Manager _ _ _ _ _ _ => 3 end.
Definition autowait_of (m : manager) : bool :=
  match m with SNMPv1Manager _ a _ => a | SNMPv2cManager _ a _ => a | SNMPv3Manager _ a _ _ _ _ => a end.

(** The sockets opened, the transports handed to the dispatcher, the message processors
    made. *)
Fixpoint sockets (l : list elog) : list (domain * key * nat) :=
  match l with [] => [] | ESocket d k id :: l => (d, k, id) :: sockets l | _ :: l => sockets l end.
Fixpoint connected (l : list elog) : list nat :=
  match l with [] => [] | EConnected id :: l => id :: connected l | _ :: l => connected l end.
Fixpoint processors (l : list elog) : list (Z * nat) :=
  match l with [] => [] | EProcessor v id :: l => (v, id) :: processors l | _ :: l => processors l end.

(** The same address: the same text for the host and the same number for the port. *)
Definition port_number (p : pyval) : option Q :=
  match p with VInt z => Some (inject_Z z) | VFloat (FFin q) => Some q | _ => None end.
Definition same_address (a b : key) : Prop :=
  (exists h, fst a = VStr h /\ fst b = VStr h) /\
  exists x y, port_number (snd a) = Some x /\ port_number (snd b) = Some y /\ (x == y)%Q.

Definition or_default {A} (a : option A) (d : A) : A := match a with Some a => a | None => d end.
(** [m] is what Manager() was asked for.  [s]: the users configured so far (SpecUsers.v). *)
Definition as_asked (G : setting) (s : uspec) (address : pyval) (version : option Z) (dom : option domain) (local : pyval)
    (autowait : option bool) (kw : kwargs) (m : manager) : Prop :=
  version_of m = or_default version (g_version G) /\
  autowait_of m = or_default autowait (g_autowait G) /\
  let d := or_default dom (g_domain G) in
  ch_domain (channel_of m) = d /\
  normalizeAddress (g_inet G) d address (Some LISTENER) = Ok (ch_address (channel_of m)) /\
  normalizeAddress (g_inet G) d local (Some SENDER) = Ok (ch_local (channel_of m)) /\
  match m with
  | SNMPv1Manager _ _ c | SNMPv2cManager _ _ c => c = or_default (kw_community kw) (g_community G)
  | SNMPv3Manager _ _ ns user level engineID =>
    ns = or_default (kw_namespace kw) [] /\ engineID = kw_engineID kw /\
    match kw_user kw with Some u => user = u | None => sp_def s ns = Some user end /\
    match kw_level kw with Some l => level = l | None => exists cf, sp_cfg s ns user = Some cf /\ level = uc_default cf end
  end.

(** What the calls did to the security module: the operations of the program, and
    the registrations made by constructors of SNMPv3 managers. *)
Definition ops_of (c : gcall) (r : gresult) : list user_op :=
  match c, r with
  | GUsers op, _ => [op]
  | GManager _ _ _ _ _ _ _, RManager (Ok (SNMPv3Manager _ _ ns _ _ (Some e))) => [OpRegister e ns]
  | GManager _ _ _ _ _ kw _, RManager (Raise DiscoveryError) =>
    match kw_engineID kw with Some e => [OpRegister e (or_default (kw_namespace kw) [])] | None => [] end
  | _, _ => []
  end.
Fixpoint all_ops (cs : list gcall) (rs : list gresult) : list user_op :=
  match cs, rs with c :: cs, r :: rs => ops_of c r ++ all_ops cs rs | _, _ => [] end.

(** * C58: when Manager() fails *)
Definition opened (l : list elog) (d : domain) (k : key) : Prop := exists k' id, In (d, k', id) (sockets l) /\ same_address k k'.
Definition needs_v3 (kw : kwargs) : Prop :=
  kw_engineID kw <> None \/ kw_secmodel kw <> None \/ kw_level kw <> None \/ kw_user kw <> None \/ kw_namespace kw <> None.
Inductive fails (G : setting) (l : list elog) (s : uspec) (address : pyval) (version : option Z) (dom : option domain) (local : pyval)
    (kw : kwargs) (os : res unit) : exc -> Prop :=
| FDomain n : or_default dom (g_domain G) = DOther n -> fails G l s address version dom local kw os UnboundLocalError
| FAddress e : normalizeAddress (g_inet G) (or_default dom (g_domain G)) address (Some LISTENER) = Raise e ->
    fails G l s address version dom local kw os e
| FLocal e : normalizeAddress (g_inet G) (or_default dom (g_domain G)) local (Some SENDER) = Raise e ->
    fails G l s address version dom local kw os e
| FPort k f : normalizeAddress (g_inet G) (or_default dom (g_domain G)) local (Some SENDER) = Ok (k, VFloat f) ->
    ~ opened l (or_default dom (g_domain G)) (k, VFloat f) -> fails G l s address version dom local kw os TypeError
| FSocket k : normalizeAddress (g_inet G) (or_default dom (g_domain G)) local (Some SENDER) = Ok k ->
    ~ opened l (or_default dom (g_domain G)) k -> os = Raise OSError -> fails G l s address version dom local kw os OSError
| FVersion : ~ In (or_default version (g_version G)) [0; 1; 3] -> fails G l s address version dom local kw os ValueError
| FKeyword : In (or_default version (g_version G)) [0; 1] -> needs_v3 kw -> fails G l s address version dom local kw os TypeError
| FModel : or_default version (g_version G) = 3 -> or_default (kw_secmodel kw) (g_model G) <> 3 ->
    fails G l s address version dom local kw os ValueError
| FNobody e : or_default version (g_version G) = 3 -> kw_user kw = None -> sp_def s (or_default (kw_namespace kw) []) = None ->
    In e [NoDefaultUser; ValueError] -> fails G l s address version dom local kw os e
| FUser u e : or_default version (g_version G) = 3 -> kw_level kw = None -> kw_user kw = Some u ->
    sp_cfg s (or_default (kw_namespace kw) []) u = None -> In e [InvalidUserName; ValueError] -> fails G l s address version dom local kw os e
| FEngine i : or_default version (g_version G) = 3 -> kw_engineID kw = Some i -> live_elsewhere s i (or_default (kw_namespace kw) []) = true ->
    fails G l s address version dom local kw os DiscoveryError.

(** * C59: the domains that connectTransport() refuses *)
(** A call that makes the Engine handle [d] itself: a successful connectTransport(),
    or a Manager() call for [d] with valid addresses, whatever came of it. *)
Definition takes (G : setting) (d : domain) (x : gcall * gresult) : Prop :=
  match x with
  | (GConnect d', RConnect (Ok _)) => d' = d
  | (GManager a _ dom loc _ _ _, _) => or_default dom (g_domain G) = d /\ (forall n, d <> DOther n) /\
    (exists k, normalizeAddress (g_inet G) d a (Some LISTENER) = Ok k) /\ (exists k, normalizeAddress (g_inet G) d loc (Some SENDER) = Ok k)
  | _ => False
  end.
