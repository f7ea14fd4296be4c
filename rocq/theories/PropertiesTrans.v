(** PropertiesTrans.v -- C50 (addresses), C52 and C57 (listener). *)
From Verif Require Import PrfTrans PrfTrans3.
Require Import Lia.
Open Scope Z_scope.

(** * C50 *)
(** Which addresses are accepted, and what they become. *)
Theorem C50_accepted : forall inet d a u h' p', normalizeAddress inet d a u = Ok (h', p') <->
  exists ho po h, named a = Some (ho, po) /\ host_for d u ho h /\ (exists b, inet d h = Ok b) /\
    h' = VStr h /\ p' = port_for u po /\ (number_between 0 65535 p' \/ is_nan p') /\ (listens u -> ~ is_zero p').
Proof. exact normalize_spec. Qed.
Print Assumptions C50_accepted.
(** Everything else is rejected with ValueError or TypeError. *)
Theorem C50_rejected : forall inet d a u e, inet_ok inet -> normalizeAddress inet d a u = Raise e -> e = TypeError \/ is_ValueError e = true.
Proof. exact normalize_raises. Qed.
Print Assumptions C50_rejected.
Theorem C50_idempotent : forall inet d a u x, normalizeAddress inet d a u = Ok x -> normalizeAddress inet d (VTuple [fst x; snd x]) u = Ok x.
Proof. exact normalize_idem. Qed.
Print Assumptions C50_idempotent.
(** The port is an int between 0 and 65535. *)
Definition C50_statement : Prop := forall inet d a u h p, normalizeAddress inet d a u = Ok (h, p) -> exists z, p = VInt z /\ 0 <= z <= 65535.
Definition ex_inet (d : domain) (s : pystr) : res bytes := match s with [] => Raise OSError | _ => Ok s end.
(** ("1", float("nan")): neither comparison holds. *)
Theorem C50_refuted : ~ C50_statement.
Proof. intros H. destruct (H ex_inet UDP_IPv4 (VTuple [VStr [49]; VFloat FNaN]) (Some LISTENER) (VStr [49]) (VFloat FNaN) eq_refl) as (z & X & _). discriminate. Qed.
Print Assumptions C50_refuted.
(** It is, if the port is not given or is not a float. *)
Theorem C50_port_partial : forall inet d a u h p, normalizeAddress inet d a u = Ok (h, p) -> (forall x f, a <> VTuple [x; VFloat f]) ->
  exists z, p = VInt z /\ 0 <= z <= 65535 /\ (listens u -> z <> 0).
Proof.
  intros inet d a u h p H NF. apply normalize_spec in H as (ho & po & h0 & N & _ & _ & _ & -> & R & Z). unfold named in N.
  assert (G : forall q, po = q -> (forall f, q <> Some (VFloat f)) -> exists z, port_for u po = VInt z /\ 0 <= z <= 65535 /\ (listens u -> z <> 0)).
  { intros q -> NQ. destruct q as [q|].
    - cbn in *. destruct R as [R|R]; [|destruct (NQ FNaN); rewrite R; reflexivity]. destruct q as [| |z|f| |]; cbn in R; try contradiction.
      + exists z. auto.
      + destruct (NQ f). reflexivity.
    - cbn. eexists. split; [reflexivity|]. destruct u as [[]|]; split; try lia. intros [X|X]; discriminate. intros [X|X]; discriminate. }
  apply (G po eq_refl). intros f ->. destruct a as [| | | |[|x [|y [|]]]|]; try discriminate. injection N as _ ->. destruct (NF x f). reflexivity.
Qed.
Print Assumptions C50_port_partial.
(** Examples: no address at all; a host; a host and a port; port 0 for a listener; the empty host. *)
Example C50_example :
  normalizeAddress ex_inet UDP_IPv4 VNone (Some LISTENER) = Ok (VStr [48; 46; 48; 46; 48; 46; 48], VInt 161) /\
  normalizeAddress ex_inet UDP_IPv6 (VStr [58; 58; 49]) (Some TRAP_LISTENER) = Ok (VStr [58; 58; 49], VInt 162) /\
  normalizeAddress ex_inet UDP_IPv6 (VTuple [VStr []; VInt 7]) (Some SENDER) = Ok (VStr [58; 58], VInt 7) /\
  normalizeAddress ex_inet UDP_IPv6 (VTuple [VStr []; VInt 7]) (Some LISTENER) = Raise ValueError /\
  normalizeAddress ex_inet UDP_IPv6 (VTuple [VStr [49]; VInt 0]) (Some LISTENER) = Raise ValueError /\
  normalizeAddress ex_inet UDP_IPv6 (VTuple [VStr [49]; VInt 65536]) None = Raise ValueError /\
  normalizeAddress ex_inet UDP_IPv4 (VInt 4) None = Raise TypeError /\ inet_ok ex_inet.
Proof. repeat split; try reflexivity. intros d s e. destruct s; [intros [= <-]; auto|discriminate]. Qed.

(** * C52 *)
(** Every datagram is passed on once, in order, cut to recvSize bytes: at any time the
    datagrams passed on and those still in the socket are those that arrived. *)
Theorem C52_delivery : forall k size r w evs s l fd, mux_history k size r w evs s l ->
  map (cut size) (arrived fd l) = heard fd l ++ map (cut size) (x_queue s fd).
Proof. intros k size r w evs s l fd H. apply run_queue with (fd := fd) in H as [_ H]. exact H. Qed.
Print Assumptions C52_delivery.
(** listen() returns only when told to: in the poll round that just ended, the control
    channel was readable and a stop message was read; it returns at most as often as
    stop() was called. *)
Theorem C52_returns : forall k size r w evs s l, mux_history k size r w evs s l -> os_ok k size r w evs ->
  (forall l1 l2, l = l1 ++ LReturned :: l2 -> exists la ready lb, l1 = la ++ LPolled ready :: lb /\ In r ready /\ In LRead lb /\
     number is_polled lb = 0%nat /\ number is_returned lb = 0%nat) /\
  (number is_returned l <= number is_stop l)%nat.
Proof.
  intros k size r w evs s l H OK. destruct (round_new k size r w) as [RO CC]. destruct (returns_run _ _ _ _ OK CC RO H) as [A B]. split.
  - intros l1 l2 E. destruct (B _ _ E) as (evs1 & s1 & R & P). pose proof (rinv_run _ _ _ [] _ R Logic.I) as RI. cbn in RI. unfold RInv in RI. rewrite P in RI.
    destruct RI as [_ T]. specialize (T eq_refl). destruct T as (la & ready & lb & -> & I & RR). exists la, ready, lb. split; [auto|]. split; [|exact RR].
    assert (X : forall evs s s' y, mux_run s evs = (s', y) -> x_r s' = x_r s).
    { clear. induction evs as [|e evs IH]; intros s s' y H; cbn in H; [injection H as <- <-; auto|]. destruct (mux_step s e) as [s0 l0] eqn:S.
      destruct (mux_run s0 evs) as [s1 l1] eqn:T. injection H as <- <-. apply step_const in S as (_ & S & _). apply IH in T. congruence. }
    rewrite (X _ _ _ _ R) in I. exact I.
  - pose proof (stops_run _ _ _ _ OK H) as S. cbn in S, A. lia.
Qed.
Print Assumptions C52_returns.
(** After stop(), poll() returns at most once more before listen() ends -- plus once for
    every message that others sent to the control socket (never, with a pipe). *)
Theorem C52_stop : forall k size r w evs1 s1 l1 e s2 evs2 s3 l2, os_ok k size r w (evs1 ++ e :: evs2) ->
  mux_history k size r w evs1 s1 l1 -> mux_step s1 e = (s2, [LStop]) -> mux_run s2 evs2 = (s3, l2) ->
  existsb is_end l2 = false -> (number is_polled l2 <= 1 + number is_stray l1)%nat.
Proof. exact polls_after_stop. Qed.
Print Assumptions C52_stop.
(** Every round ends: once the thread has had as many turns as there are descriptors, and one more. *)
Theorem C52_round_ends_partial : forall k size r w evs s l rest d evs2 s2 l2, mux_history k size r w evs s l ->
  os_ok k size r w (evs ++ evs2) -> no_errors k size r w (evs ++ evs2) -> x_phase s = PRound rest d ->
  mux_run s evs2 = (s2, l2) -> (length rest < length (filter is_next evs2))%nat ->
  exists a b, evs2 = a ++ b /\ forall s' l', mux_run s a = (s', l') -> x_phase s' = PPoll \/ x_phase s' = POff.
Proof.
  intros k size r w evs s l rest d evs2 s2 l2 H OK NE P R L. unfold os_ok, no_errors in *. apply always_app in OK as [O1 O2]. apply always_app in NE as [N1 N2].
  unfold mux_history in H. rewrite H in O2, N2. destruct (history_inv _ _ _ _ _ _ _ H O1 N1) as (J & RO & CC). eapply round_ends; eauto.
Qed.
Print Assumptions C52_round_ends_partial.
Ltac os := unfold ex_inet; cbn; repeat match goal with
  | |- _ /\ _ => split
  | |- _ <-> _ => split
  | |- NoDup _ => constructor
  | |- True => exact Logic.I
  | |- forall _, _ => intro
  | |- ~ _ => intro
  | H : _ \/ _ |- _ => destruct H
  | H : False |- _ => destruct H
  end; try congruence; try lia; auto.
(** The listener ends only by returning. *)
Definition C52_statement : Prop := forall k size r w evs s l e, mux_history k size r w evs s l -> os_ok k size r w evs -> ~ In (LDied e) l.
(** A datagram arrives, poll() reports it, and recvfrom() fails (a bad checksum, say). *)
Definition ex_fails : list muxevent := [XConnect 5; XArrive 5 (mkDgram 9 [1; 2; 3]); XPoll [5]; XNext true].
Theorem C52_refuted : ~ C52_statement.
Proof.
  intros H. apply (H Posix 1472 3 4 ex_fails _ _ OSError (surjective_pairing _)); cbn; [|tauto].
  os.
Qed.
Print Assumptions C52_refuted.
(** It does, if no receive fails. *)
Theorem C52_alive_partial : forall k size r w evs s l, mux_history k size r w evs s l -> os_ok k size r w evs -> no_errors k size r w evs ->
  forall e, x_phase s <> PDied e.
Proof. intros k size r w evs s l H O N e P. destruct (history_inv _ _ _ _ _ _ _ H O N) as ((J & _) & _). rewrite P in J. exact J. Qed.
Print Assumptions C52_alive_partial.

(** * C57 *)
(** Once connectTransport() has returned, and until connectTransport() or shutdown() is
    called, the listener runs. *)
Definition C57_statement : Prop := forall k size r w evs s l, mux_history k size r w evs s l -> os_ok k size r w evs ->
  x_caller s = CIdle -> x_thread s = true -> listening s.
(** The first listener died.  Connecting another transport writes a stop message that
    nobody reads; the new listener reads it and returns at once. *)
Definition ex_deaf : list muxevent := ex_fails ++ [XConnect 6; XJoined; XPoll [3]; XNext false; XNext false; XArrive 6 (mkDgram 9 [1; 2; 3])].
Theorem C57_refuted : ~ C57_statement.
Proof.
  intros H. refine (H Posix 1472 3 4 ex_deaf _ _ (surjective_pairing _) _ eq_refl eq_refl). cbn.
  os.
Qed.
Print Assumptions C57_refuted.
(** True if no receive ever failed. *)
Theorem C57_no_error_partial : forall k size r w evs s l, mux_history k size r w evs s l -> os_ok k size r w evs -> no_errors k size r w evs ->
  x_caller s = CIdle -> x_thread s = true -> listening s.
Proof.
  intros k size r w evs s l H O N C T. destruct (history_inv _ _ _ _ _ _ _ H O N) as ((_ & J) & _). rewrite C, T in J. destruct J as [_ [J|(rest & J)]];
    unfold listening; rewrite J; exact Logic.I.
Qed.
Print Assumptions C57_no_error_partial.
(** Two sockets, traffic on both, a stop in the middle of a round. *)
Definition ex_traffic : list muxevent := [XConnect 5; XArrive 5 (mkDgram 9 [1; 2; 3]); XPoll [5]; XConnect 6; XNext false; XArrive 5 (mkDgram 8 [4]); XNext false;
  XPoll [3; 5]; XNext false; XNext false; XNext false; XJoined; XArrive 6 (mkDgram 7 [5]); XArrive 6 (mkDgram 7 [6]); XPoll [6]; XNext false].
Example C52_example : let '(s, l) := mux_run (mux_new Posix 2 3 4) ex_traffic in
  os_ok Posix 2 3 4 ex_traffic /\ no_errors Posix 2 3 4 ex_traffic /\ x_caller s = CIdle /\ x_thread s = true /\
  heard 5 l = [mkDgram 9 [1; 2]; mkDgram 8 [4]] /\ heard 6 l = [mkDgram 7 [5]] /\ x_queue s 6 = [mkDgram 7 [6]] /\
  number is_returned l = 1%nat /\ number is_stop l = 1%nat /\ number is_polled l = 3%nat.
Proof.
  os. all: subst; cbn in *; try discriminate; intuition lia.
Qed.
