(** Transport.v -- model of snmp/transport/__init__.py, transport/udp.py,
    transport/posix/udp.py, transport/generic/udp.py and of the thread handling
    of snmp/dispatcher.py (definitions only). *)
From Coq Require Export QArith.
From Verif Require Export Base.
Open Scope Z_scope.

(** * Addresses *)
(** transport/__init__.py:13-16 *)
Inductive usage := LISTENER | TRAP_LISTENER | SENDER.
(** transport/__init__.py:18-25; [DOther]: any other value passed as a domain. *)
Inductive domain := UDP_IPv4 | UDP_IPv6 | DOther (n : Z).
Definition domain_eq_dec : forall a b : domain, {a = b} + {a <> b}.
Proof. decide equality. apply Z.eq_dec. Defined.
Definition domain_eqb (a b : domain) : bool := if domain_eq_dec a b then true else false.
(** transport/__init__.py:24-25: "0.0.0.0" and "::" as code points. *)
Definition default_address (d : domain) : pystr :=
  match d with
  | UDP_IPv4 => [48; 46; 48; 46; 48; 46; 48]
  | UDP_IPv6 => [58; 58]
  | DOther _ => []
  end.

(** Python values, as far as they matter for [normalizeAddress].  Floats: exact
    rationals, infinities and NaN.  [VOther]: any object that is not None, a str,
    a number or a tuple, does not compare with numbers, and is not equal to "". *)
Inductive pyfloat := FFin (q : Q) | FInf (negative : bool) | FNaN.
Inductive pyval :=
| VNone | VStr (s : pystr) | VInt (z : Z) | VFloat (f : pyfloat)
| VTuple (l : list pyval) | VOther (n : Z).

(** [v < n] and [v > n], [v == n] for an int n (Python semantics; str, tuple
    and None raise TypeError for the first two). *)
Definition py_lt (v : pyval) (n : Z) : res bool :=
  match v with
  | VInt z => Ok (z <? n)
  | VFloat (FFin q) => Ok (negb (Qle_bool (inject_Z n) q))
  | VFloat (FInf negative) => Ok negative
  | VFloat FNaN => Ok false
  | _ => Raise TypeError
  end.
Definition py_gt (v : pyval) (n : Z) : res bool :=
  match v with
  | VInt z => Ok (n <? z)
  | VFloat (FFin q) => Ok (negb (Qle_bool q (inject_Z n)))
  | VFloat (FInf negative) => Ok (negb negative)
  | VFloat FNaN => Ok false
  | _ => Raise TypeError
  end.
Definition py_eq (v : pyval) (n : Z) : bool :=
  match v with
  | VInt z => z =? n
  | VFloat (FFin q) => Qeq_bool q (inject_Z n)
  | _ => false
  end.
(** [v == ""] *)
Definition py_empty (v : pyval) : bool := match v with VStr [] => true | _ => false end.

(** transport/udp.py:15-19 *)
Definition default_port (u : usage) : Z :=
  match u with LISTENER => 161 | SENDER => 0 | TRAP_LISTENER => 162 end.

Section Normalize.
(** socket.inet_pton: an oracle (OSError for a malformed address, ValueError for
    embedded NULs); anything but a str raises TypeError. *)
Variable inet : domain -> pystr -> res bytes.
Definition inet_pton (d : domain) (v : pyval) : res bytes :=
  match v with VStr s => inet d s | _ => Raise TypeError end.
Definition is_OSError (e : exc) : bool := match e with OSError => true | _ => false end.

(** transport/udp.py:21-60 *)
Definition normalizeAddress (d : domain) (address : pyval) (u : option usage) : res (pyval * pyval) :=
  do x <- match address with
          | VTuple [addr; port] => Ok (addr, port)
          | VTuple _ => Raise ValueError
          | _ => Ok (match address with VNone => VStr (default_address d) | _ => address end,
                     VInt (match u with None => 0 | Some u => default_port u end))
          end;
  let '(addr, port) := x in
  let permissive := match u with Some LISTENER => false | Some TRAP_LISTENER => false | _ => true end in
  let addr := if py_empty addr && permissive then VStr (default_address d) else addr in
  do _ <- reraise is_OSError ValueError (inet_pton d addr);
  do bad <- (do low <- py_lt port 0;
             if low then Ok true else
             do high <- py_gt port 65535;
             if high then Ok true else Ok (py_eq port 0 && negb permissive)%bool);
  if bad : bool then Raise ValueError else Ok (addr, port).
End Normalize.

(** * Sockets, multiplexor and listener thread *)
(** A datagram: the sender (an address as a value of [Z]) and its contents. *)
Record datagram := mkDgram { dg_from : Z; dg_data : bytes }.
(** The listener thread: not running, in poll()/select(), working through the
    list of ready descriptors, or ended by an exception. *)
Inductive phase := POff | PPoll | PRound (rest : list Z) (done : bool) | PDied (e : exc).
(** The thread calling connectTransport() / shutdown(): joining the listener. *)
Inductive caller := CIdle | CConnect (fd : Z) | CShutdown.

(** Which multiplexor: os.pipe() on posix, two UDP sockets otherwise. *)
Inductive muxkind := Posix | Generic.

(** The state of a Dispatcher with its multiplexor and the operating system:
    registered sockets (by descriptor, in order of registration), the descriptor
    [x_r] of the reading end, unread datagrams of each socket, unread contents of
    the control channel, whether the thread exists, what it does. *)
Record mux := mkMux {
  x_kind : muxkind; x_size : Z;             (* recvSize *)
  x_r : Z; x_w : Z;                         (* reading end; address of the writing socket *)
  x_socks : list Z;
  x_queue : Z -> list datagram; x_ctl : list datagram;
  x_thread : bool; x_phase : phase; x_caller : caller; x_closed : bool
}.

Inductive muxlog :=
| LPolled (ready : list Z)                  (* poll() returned *)
| LHeard (fd : Z) (d : datagram)            (* listener.hear(sock, addr, data) *)
| LArrived (fd : Z) (d : datagram)          (* the OS put a datagram in a socket's queue *)
| LStray (d : datagram)                     (* somebody else wrote to the control socket *)
| LStop                                     (* multiplexor.stop() *)
| LRead                                     (* a stop message was read from the control channel *)
| LReturned                                 (* listen() returned *)
| LDied (e : exc)                           (* listen() raised *)
| LStarted (polled : list Z)                (* a thread entered listen() *)
| LRegistered (fd : Z)
| LClosed.

Definition set_phase (s : mux) (p : phase) : mux :=
  mkMux (x_kind s) (x_size s) (x_r s) (x_w s) (x_socks s) (x_queue s) (x_ctl s) (x_thread s) p (x_caller s) (x_closed s).
Definition set_queue (s : mux) (q : Z -> list datagram) : mux :=
  mkMux (x_kind s) (x_size s) (x_r s) (x_w s) (x_socks s) q (x_ctl s) (x_thread s) (x_phase s) (x_caller s) (x_closed s).
Definition set_ctl (s : mux) (c : list datagram) : mux :=
  mkMux (x_kind s) (x_size s) (x_r s) (x_w s) (x_socks s) (x_queue s) c (x_thread s) (x_phase s) (x_caller s) (x_closed s).
Definition set_caller (s : mux) (c : caller) : mux :=
  mkMux (x_kind s) (x_size s) (x_r s) (x_w s) (x_socks s) (x_queue s) (x_ctl s) (x_thread s) (x_phase s) c (x_closed s).

Definition in_socks (s : mux) (fd : Z) : bool := existsb (Z.eqb fd) (x_socks s).
Definition upd {V} (f : Z -> V) (k : Z) (v : V) : Z -> V := fun k' => if k' =? k then v else f k'.

(** posix/udp.py:13 self.r, self.w = os.pipe(); generic/udp.py:13-17, 24-29 (there the
    descriptors exist from the first register() on). *)
Definition mux_new (k : muxkind) (size r w : Z) : mux :=
  mkMux k size r w [] (fun _ => []) [] false POff CIdle false.

(** posix/udp.py:40-41: os.write(self.w, bytes(1)); generic/udp.py:58-61:
    self.w.sendto(STOPMSG, ...).  Both put one zero byte in the channel.  (In
    generic/udp.py stop() does nothing before the first register(); the
    Dispatcher never calls it then.) *)
Definition mux_stop (s : mux) : mux := set_ctl s (x_ctl s ++ [mkDgram (x_w s) [0]]).

(** posix/udp.py:16-17, generic/udp.py:19-31: self.sockets[sock.fileno] = sock *)
Definition mux_register (s : mux) (fd : Z) : mux :=
  mkMux (x_kind s) (x_size s) (x_r s) (x_w s) (if in_socks s fd then x_socks s else x_socks s ++ [fd])
    (x_queue s) (x_ctl s) (x_thread s) (x_phase s) (x_caller s) (x_closed s).

(** dispatcher.py:40-45: the new thread enters listen(); posix/udp.py:20-28,
    generic/udp.py:34-44: the descriptors to be polled, [done] initially. *)
Definition mux_start (s : mux) : mux * list muxlog :=
  let polled := x_r s :: x_socks s in
  (mkMux (x_kind s) (x_size s) (x_r s) (x_w s) (x_socks s) (x_queue s) (x_ctl s) true PPoll (x_caller s) (x_closed s),
   [LStarted polled]).

(** posix/udp.py:29-38, generic/udp.py:45-56: one pass of the inner loop.
    [err]: the OS makes recvfrom() fail.  Reading an empty pipe blocks (posix),
    receiving from an empty non-blocking socket raises BlockingIOError, an
    OSError. *)
Definition STOPMSG : bytes := [0].
Definition mux_next (s : mux) (err : bool) : mux * list muxlog :=
  match x_phase s with
  | PRound [] done => if done then (set_phase s POff, [LReturned]) else (set_phase s PPoll, [])
  | PRound (fd :: rest) done =>
    if in_socks s fd then
      match err, x_queue s fd with
      | false, d :: q =>
        (set_phase (set_queue s (upd (x_queue s) fd q)) (PRound rest done),
         [LHeard fd (mkDgram (dg_from d) (firstn (Z.to_nat (x_size s)) (dg_data d)))])
      | _, _ => (set_phase s (PDied OSError), [LDied OSError])
      end
    else if fd =? x_r s then
      match x_kind s with
      | Posix =>
        match x_ctl s with
        | [] => (s, [])
        | _ :: c => (set_phase (set_ctl s c) (PRound rest true), [LRead])
        end
      | Generic =>
        match err, x_ctl s with
        | false, d :: c =>
          let stop := ((dg_from d =? x_w s) && zlist_eqb (firstn (length STOPMSG) (dg_data d)) STOPMSG)%bool in
          (set_phase (set_ctl s c) (PRound rest stop), if stop then [LRead] else [])
        | _, _ => (set_phase s (PDied OSError), [LDied OSError])
        end
      end
    else (set_phase s (PRound rest done), [])
  | _ => (s, [])
  end.

(** Is the thread finished, i.e. does join() return? *)
Definition finished (s : mux) : bool := match x_phase s with POff => true | PDied _ => true | _ => false end.

Inductive muxevent :=
| XConnect (fd : Z)               (* dispatcher.connectTransport(), up to join() *)
| XShutdown                       (* dispatcher.shutdown(), up to join() *)
| XJoined                         (* join() returns; the rest of the call *)
| XArrive (fd : Z) (d : datagram) (* the OS receives a datagram for a socket *)
| XForeign (d : datagram)         (* somebody sends to the control socket (generic only) *)
| XPoll (ready : list Z)          (* poll() returns *)
| XNext (err : bool).             (* the listener handles the next descriptor *)

(** dispatcher.py:39-45 (after join): register, start a thread. *)
Definition connect_tail (s : mux) (fd : Z) : mux * list muxlog :=
  let '(s, l) := mux_start (mux_register s fd) in (set_caller s CIdle, LRegistered fd :: l).
(** dispatcher.py:94-95: close the multiplexor (posix/udp.py:43-48,
    generic/udp.py:63-70), thread = None. *)
Definition shutdown_tail (s : mux) : mux * list muxlog :=
  (mkMux (x_kind s) (x_size s) (x_r s) (x_w s) (x_socks s) (x_queue s) (x_ctl s) false (x_phase s) CIdle true, [LClosed]).

(** Logs are oldest first within one event. *)
Definition mux_step (s : mux) (e : muxevent) : mux * list muxlog :=
  match e with
  (* dispatcher.py:32-45.  Calls by other threads during join() are not modelled. *)
  | XConnect fd =>
    match x_caller s, x_closed s with
    | CIdle, false =>
      if x_thread s then (set_caller (mux_stop s) (CConnect fd), [LStop])
      else connect_tail s fd
    | _, _ => (s, [])
    end
  (* dispatcher.py:89-95 *)
  | XShutdown =>
    match x_caller s, x_closed s with
    | CIdle, false =>
      if x_thread s then (set_caller (mux_stop s) CShutdown, [LStop])
      else shutdown_tail s
    | _, _ => (s, [])
    end
  | XJoined =>
    if finished s then
      match x_caller s with
      | CConnect fd => connect_tail s fd
      | CShutdown => shutdown_tail s
      | CIdle => (s, [])
      end
    else (s, [])
  | XArrive fd d => (set_queue s (upd (x_queue s) fd (x_queue s fd ++ [d])), [LArrived fd d])
  | XForeign d => match x_kind s with Generic => (set_ctl s (x_ctl s ++ [d]), [LStray d]) | Posix => (s, []) end
  | XPoll ready => match x_phase s with PPoll => (set_phase s (PRound ready false), [LPolled ready]) | _ => (s, []) end
  | XNext err => mux_next s err
  end.
Fixpoint mux_run (s : mux) (evs : list muxevent) : mux * list muxlog :=
  match evs with
  | [] => (s, [])
  | e :: evs => let '(s, l) := mux_step s e in let '(s, l') := mux_run s evs in (s, l ++ l')
  end.
