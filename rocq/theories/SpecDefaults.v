(** SpecDefaults.v -- vocabulary of C81: the defaults as documented in
    docs/source/snmp.rst (Engine, usm.addUser(), Manager()) and manager.rst. *)
From Verif Require Export SpecEngine.
Open Scope Z_scope.

(** A call of addUser() that did not raise: the name, the protocols, default=, and
    defaultSecurityLevel=. *)
Record addition := mkAddition {
  ad_name : bytes; ad_auth : option authalg; ad_priv : option privalg; ad_default : bool; ad_level : option seclevel
}.
(** Those for the namespace [ns], in order.  [rs]: what came of the calls [cs]. *)
Fixpoint additions (ns : pystr) (cs : list gcall) (rs : list gresult) : list addition :=
  match cs, rs with
  | GUsers (OpAddUser n ap _ pp _ _ d dsl ns') :: cs, RUsers (Ok _) :: rs =>
    (if zlist_eqb ns' ns then [mkAddition n ap pp d dsl] else []) ++ additions ns cs rs
  | _ :: cs, _ :: rs => additions ns cs rs
  | _, _ => []
  end.
(** "Normally, the first user added becomes the default user.  To manually designate a
    user to be the default, give a value of True for the default parameter": the last
    one so designated, or else the first one added. *)
Definition is_default_user (l : list addition) (n : bytes) : Prop :=
  (exists l1 a l2, l = l1 ++ a :: l2 /\ ad_default a = true /\ ad_name a = n /\ Forall (fun b => ad_default b = false) l2) \/
  (Forall (fun b => ad_default b = false) l /\ exists a l2, l = a :: l2 /\ ad_name a = n).
(** "A user will default to the highest security level that its configuration supports.
    If you desire a lower security level, specify it with defaultSecurityLevel." *)
Definition highest (a : addition) : seclevel :=
  match ad_auth a, ad_priv a with
  | None, _ => noAuthNoPriv | Some _, None => authNoPriv | Some _, Some _ => authPriv
  end.
Definition is_default_level (l : list addition) (n : bytes) (lv : seclevel) : Prop :=
  (exists a, In a l /\ ad_name a = n) /\
  forall a, In a l -> ad_name a = n -> lv = or_default (ad_level a) (highest a).

(** The user and the level of a request without user= and securityLevel=, for a manager
    made with these keyword arguments. *)
Definition manager_user (l : list addition) (kw : kwargs) (u : bytes) : Prop :=
  match kw_user kw with Some u' => u = u' | None => is_default_user l u end.
(** [u]: the user that the manager defaults to *)
Definition manager_level (l : list addition) (kw : kwargs) (u : bytes) (lv : seclevel) : Prop :=
  match kw_level kw with Some lv' => lv = lv' | None => is_default_level l u lv end.
