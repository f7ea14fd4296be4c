(** SpecTrans.v -- specification for C50, C52 and C57. *)
From Verif Require Export Transport.
Open Scope Z_scope.

(** * C50: what an address means *)
(** The host and the port that an argument names; [None]: not given. *)
Definition named (address : pyval) : option (option pyval * option pyval) :=
  match address with
  | VNone => Some (None, None)
  | VTuple [h; p] => Some (Some h, Some p)
  | VTuple _ => None
  | h => Some (Some h, None)
  end.
Definition listens (u : option usage) : Prop := u = Some LISTENER \/ u = Some TRAP_LISTENER.
(** The host used: the default if none is given, or, for addresses that are not
    to be listened on, if it is the empty string. *)
Inductive host_for (d : domain) (u : option usage) : option pyval -> pystr -> Prop :=
| HDefault : host_for d u None (default_address d)
| HEmpty : ~ listens u -> host_for d u (Some (VStr [])) (default_address d)
| HGiven h : (h = [] -> listens u) -> host_for d u (Some (VStr h)) h.
Definition port_for (u : option usage) (p : option pyval) : pyval :=
  match p with
  | Some p => p
  | None => VInt (match u with Some LISTENER => 161 | Some TRAP_LISTENER => 162 | _ => 0 end)
  end.
(** A number between [lo] and [hi] (Python compares exactly). *)
Definition number_between (lo hi : Z) (v : pyval) : Prop :=
  match v with
  | VInt z => lo <= z <= hi
  | VFloat (FFin q) => (inject_Z lo <= q)%Q /\ (q <= inject_Z hi)%Q
  | _ => False
  end.
Definition is_zero (v : pyval) : Prop :=
  match v with VInt z => z = 0 | VFloat (FFin q) => (q == 0)%Q | _ => False end.
Definition is_nan (v : pyval) : Prop := v = VFloat FNaN.
(** inet_pton raises nothing else. *)
Definition inet_ok (inet : domain -> pystr -> res bytes) : Prop :=
  forall d s e, inet d s = Raise e -> e = OSError \/ is_ValueError e = true.

(** * C52, C57: the listener *)
Definition mux_history (k : muxkind) (size r w : Z) (evs : list muxevent) (s : mux) (l : list muxlog) : Prop :=
  mux_run (mux_new k size r w) evs = (s, l).
(** What the operating system is assumed to do.  Descriptors differ; poll()
    returns different descriptors among those polled, and the reading end of the
    control channel just when there is something to read; nobody else sends from
    the address of our writing socket. *)
Definition event_ok (s : mux) (e : muxevent) : Prop :=
  match e with
  | XConnect fd => fd <> x_r s
  | XPoll ready => NoDup ready /\ (In (x_r s) ready <-> x_ctl s <> []) /\ forall fd, In fd ready -> fd = x_r s \/ In fd (x_socks s)
  | XForeign d => dg_from d <> x_w s
  | _ => True
  end.
(** ... and no receive fails: no error, and a socket is reported only if there is
    a datagram. *)
Definition no_error (s : mux) (e : muxevent) : Prop :=
  match e with
  | XPoll ready => forall fd, In fd ready -> fd <> x_r s -> x_queue s fd <> []
  | XNext err => err = false
  | _ => True
  end.
Fixpoint always (P : mux -> muxevent -> Prop) (s : mux) (evs : list muxevent) : Prop :=
  match evs with [] => True | e :: evs => P s e /\ always P (fst (mux_step s e)) evs end.
Definition os_ok (k : muxkind) (size r w : Z) (evs : list muxevent) : Prop := always event_ok (mux_new k size r w) evs.
Definition no_errors (k : muxkind) (size r w : Z) (evs : list muxevent) : Prop := always no_error (mux_new k size r w) evs.

(** The datagrams that arrived for a socket, and those passed to the Dispatcher. *)
Fixpoint arrived (fd : Z) (l : list muxlog) : list datagram :=
  match l with
  | [] => []
  | LArrived fd' d :: l => if fd' =? fd then d :: arrived fd l else arrived fd l
  | _ :: l => arrived fd l
  end.
Fixpoint heard (fd : Z) (l : list muxlog) : list datagram :=
  match l with
  | [] => []
  | LHeard fd' d :: l => if fd' =? fd then d :: heard fd l else heard fd l
  | _ :: l => heard fd l
  end.
(** recvfrom(size) *)
Definition cut (size : Z) (d : datagram) : datagram := mkDgram (dg_from d) (firstn (Z.to_nat size) (dg_data d)).
Definition is_polled (y : muxlog) : bool := match y with LPolled _ => true | _ => false end.
Definition is_stray (y : muxlog) : bool := match y with LStray _ => true | _ => false end.
Definition is_stop (y : muxlog) : bool := match y with LStop => true | _ => false end.
Definition is_read (y : muxlog) : bool := match y with LRead => true | _ => false end.
Definition is_returned (y : muxlog) : bool := match y with LReturned => true | _ => false end.
Definition number (f : muxlog -> bool) (l : list muxlog) : nat := length (filter f l).
(** The listener thread runs. *)
Definition listening (s : mux) : Prop := match x_phase s with PPoll => True | PRound _ _ => True | _ => False end.
