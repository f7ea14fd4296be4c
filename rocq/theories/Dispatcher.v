(** Dispatcher.v -- model of snmp/dispatcher.py (definitions only).  The
    listener thread (connectTransport 32-45, shutdown 89-95) is modelled in
    Transport.v. *)
From Verif Require Export Processor.

(** dispatcher.py:16-26: msgProcessors, by VERSION.  The state of the security
    module that the SNMPv3 processor uses is [d_usm]. *)
Inductive processor := P12 (V : v12) (c : cache_st entry1) | P3 (p : proc3).
Record disp := mkDisp { d_procs : dict Z processor; d_usm : usm }.
Definition proc_version (p : processor) : Z :=
  match p with P12 V _ => vp_version V | P3 _ => SNMPv3 end.
(** dispatcher.py:28-30 *)
Definition addMessageProcessor (d : disp) (p : processor) : disp :=
  mkDisp (dict_set Z.eqb (d_procs d) (proc_version p) p) (d_usm d).

(** The message handed to a handle. *)
Inductive heard := H12 (m : message) | H3 (m : v3msg).

(** mp.prepareDataElements(data) (60), for either kind of processor; the
    processor's new state is stored back. *)
Definition prepareDataElements (C : crypto) (R : Z) (alive : nat -> bool) (d : disp) (v : Z)
    (p : processor) (data : bytes) (ts : Z) : disp * res (heard * nat) :=
  match p with
  | P12 V c =>
    let '(c, r) := v12_prepareDataElements V alive c data in
    (mkDisp (dict_set Z.eqb (d_procs d) v (P12 V c)) (d_usm d),
     do x <- r; Ok (H12 (fst x), snd x))
  | P3 p3 =>
    let '(u, r) := v3_prepareDataElements C R alive (d_usm d) p3 data ts in
    (mkDisp (d_procs d) u, do x <- r; Ok (H3 (fst x), snd x))
  end.

(** dispatcher.py:47-69.  [push d h m] is handle.push(message): it may send
    again (so it can change the dispatcher's state) and it may raise.  The
    second component says which handle got which message. *)
Definition hear_try (C : crypto) (R : Z) (alive : nat -> bool)
    (push : disp -> nat -> heard -> disp * res unit) (d : disp) (data : bytes) (ts : Z)
  : disp * option (nat * heard) * res unit :=
  match version_decode (ABytes data) with
  | Raise ParseError => (d, None, Ok tt)
  | Raise e => (d, None, Raise e)
  | Ok msgVersion =>
    match dict_get Z.eqb (d_procs d) msgVersion with
    | None => (d, None, Ok tt)
    | Some mp =>
      let '(d, h, r) :=
        match prepareDataElements C R alive d msgVersion mp data ts with
        | (d, Raise e) => (d, None, Raise e)
        | (d, Ok (message, handle)) =>
          let '(d, r) := push d handle message in (d, Some (handle, message), r)
        end in
      (d, h, catch is_IncomingMessageError (Ok tt) r)
    end
  end.
(** The outer [except AssertionError: pass] and [except Exception: pass] (66-69). *)
Definition hear (C : crypto) (R : Z) (alive : nat -> bool)
    (push : disp -> nat -> heard -> disp * res unit) (d : disp) (data : bytes) (ts : Z)
  : disp * option (nat * heard) * res unit :=
  let '(d, h, r) := hear_try C R alive push d data ts in
  (d, h, catch is_Exception (Ok tt) (catch is_AssertionError (Ok tt) r)).

(** dispatcher.py:71-87 for an SNMPv1/SNMPv2c request: args = (community). The
    third component is what was passed to channel.send(). *)
Definition sendPdu12 (rnd : nat -> Z) (d : disp) (v : Z) (p : pdu) (handle : nat) (cb_free : bool)
    (community : bytes) : disp * pdu * option Z * res bytes :=
  match dict_get Z.eqb (d_procs d) v with
  | Some (P12 V c) =>
    let '(s, r) := v12_prepareOutgoing V rnd c p handle cb_free community in
    (mkDisp (dict_set Z.eqb (d_procs d) v (P12 V (s1_cache s))) (d_usm d), s1_pdu s, s1_callback s, r)
  | Some (P3 _) => (d, p, None, Raise TypeError)
  | None => (d, p, None, Raise ValueError)
  end.
(** The same for an SNMPv3 request: args = (engineID, user), securityLevel and
    securityModel by keyword (manager/v3.py:622-638). *)
Definition sendPdu3 (C : crypto) (R : Z) (rnd : nat -> Z) (d : disp) (p : pdu) (handle : nat)
    (engineID user : bytes) (level : seclevel) (ts : Z) : disp * option Z * res bytes :=
  match dict_get Z.eqb (d_procs d) SNMPv3 with
  | Some (P3 p3) =>
    let '(s, r) := v3_prepareOutgoing C R rnd (d_usm d) p3 p handle engineID user level (Some USM) [] ts in
    (mkDisp (dict_set Z.eqb (d_procs d) SNMPv3 (P3 (s3_proc s))) (s3_usm s), s3_callback s, r)
  | Some (P12 _ _) => (d, None, Raise TypeError)
  | None => (d, None, Raise ValueError)
  end.
