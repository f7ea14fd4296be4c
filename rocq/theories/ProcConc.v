(** ProcConc.v -- the message processors under every interleaving of threads
    (definitions only).

    Each function of Processor.v that takes cacheLock is one atomic step; the
    code between two such steps is thread-local.  A task is the program point
    of one thread inside cache()/prepareDataElements()/uncache().  Several
    tasks may be pending; an event advances one of them, starts one, or is
    something the environment does (a handle is closed, or garbage-collected).
    Not modelled: two threads calling close() on the same handle at once. *)
From Verif Require Export Processor.

(** The parts in which the processors differ.  [k_parse]: what precedes
    retrieve() (None: an exception is raised there). *)
Record proto (E I M : Type) := mkProto {
  k_gen : genspec;
  k_parse : I -> option M;
  k_id : M -> Z;
  k_handle : E -> nat;
  k_accept : E -> M -> bool;
  k_drop_dead : bool
}.
Arguments mkProto {E I M}. Arguments k_gen {E I M}. Arguments k_parse {E I M}.
Arguments k_id {E I M}. Arguments k_handle {E I M}. Arguments k_accept {E I M}.
Arguments k_drop_dead {E I M}.

(** Program points. *)
Inductive task (E M : Type) :=
| TAlloc (e : E) (retries : nat)     (* cache(): about to enter the lock, [retries] rounds left *)
| TRegister (h : nat) (id : Z)       (* about to call handle.addCallback(uncache, id) *)
| TRetrieve (m : M)                  (* about to call retrieve() *)
| TDeref (e : E) (m : M)             (* about to evaluate entry.handle() *)
| TCheck (e : E) (m : M)             (* holds the handle; about to compare and push *)
| TUncache (h : nat) (id : Z)        (* close() of [h]: about to call uncache(id) *)
| TDrop (id : Z).                    (* found the handle dead: about to call uncache(id) *)
Arguments TAlloc {E M}. Arguments TRegister {E M}. Arguments TRetrieve {E M}. Arguments TDeref {E M}.
Arguments TCheck {E M}. Arguments TUncache {E M}. Arguments TDrop {E M}.

(** [cs_started]: handles that have been passed to prepareOutgoingMessage;
    [cs_cb]: handles with their callback (the ID it will be called with);
    [cs_dead]: handles whose weak references have been cleared. *)
Record conc (E M : Type) := mkConc {
  cs_cache : cache_st E; cs_tasks : list (task E M); cs_started : list nat;
  cs_cb : list (nat * Z); cs_dead : list nat
}.
Arguments mkConc {E M}. Arguments cs_cache {E M}. Arguments cs_tasks {E M}. Arguments cs_started {E M}.
Arguments cs_cb {E M}. Arguments cs_dead {E M}.

Inductive event (E I : Type) :=
| EStart (e : E)      (* a thread calls cache(e) for a new handle *)
| EReceive (i : I)    (* the listener thread calls prepareDataElements *)
| EClose (h : nat)    (* close(), by the user or by __del__ *)
| EDie (h : nat)      (* the weak references to the handle are cleared *)
| EStep (n : nat).    (* the n-th pending task runs one step *)
Arguments EStart {E I}. Arguments EReceive {E I}. Arguments EClose {E I}. Arguments EDie {E I}. Arguments EStep {E I}.

(** What happened. *)
Inductive log (E I M : Type) :=
| LAlloc (e : E) (id : Z)     (* cache(e) returned id *)
| LFail (e : E)               (* cache(e) raised CacheError *)
| LReceive (i : I)
| LFound (e : E) (m : M)      (* retrieve() returned e *)
| LDeliver (e : E) (m : M)    (* m was handed to the handle of e *)
| LReject (m : M)
| LClose (h : nat)
| LUncached (h : nat) (id : Z)
| LDropped (id : Z)
| LDie (h : nat).
Arguments LAlloc {E I M}. Arguments LFail {E I M}. Arguments LReceive {E I M}. Arguments LFound {E I M}.
Arguments LDeliver {E I M}. Arguments LReject {E I M}. Arguments LClose {E I M}. Arguments LUncached {E I M}.
Arguments LDropped {E I M}. Arguments LDie {E I M}.

Section Conc.
  Context {E I M : Type} (K : proto E I M) (rnd : nat -> Z).
  Notation cst := (conc E M).
  (** A task that holds a strong reference to the handle. *)
  Definition holds (h : nat) (t : task E M) : bool :=
    match t with
    | TAlloc e _ | TCheck e _ => Nat.eqb (k_handle K e) h
    | TRegister h' _ => Nat.eqb h' h
    | _ => false
    end.
  Definition mem (h : nat) (l : list nat) : bool := existsb (Nat.eqb h) l.

  (** One step of a pending task: the new cache, callbacks, started handles, the
      task that replaces it, and what happened.
      TAlloc: v1.py:53-64, v3.py:502-513.  TRegister: v1.py:109, v3.py:623.
      TRetrieve: v1.py:84-88, v3.py:559-563.  TDeref: v1.py:90-93, v3.py:565-567.
      TCheck: v1.py:95-99, v3.py:569-591 and dispatcher.py:60-61.
      TUncache: v1.py:66-69 (manager), 70-75.  TDrop: v1.py:92. *)
  Definition task_step (s : cst) (t : task E M)
    : cache_st E * list (nat * Z) * list nat * list (task E M) * list (log E I M) :=
    let c := cs_cache s in
    match t with
    | TAlloc e retries =>
      match retries with
      | O => (c, cs_cb s, filter (fun h => negb (Nat.eqb h (k_handle K e))) (cs_started s), [], [LFail e])
      | S r => match cache_attempt (k_gen K) rnd c e with
               | (Some id, c) => (c, cs_cb s, cs_started s, [TRegister (k_handle K e) id], [LAlloc e id])
               | (None, c) => (c, cs_cb s, cs_started s, [TAlloc e r], [])
               end
      end
    | TRegister h id => (c, (h, id) :: cs_cb s, cs_started s, [], [])
    | TRetrieve m =>
      match retrieve c (k_id K m) with
      | Ok e => (c, cs_cb s, cs_started s, [TDeref e m], [LFound e m])
      | Raise _ => (c, cs_cb s, cs_started s, [], [LReject m])
      end
    | TDeref e m =>
      if mem (k_handle K e) (cs_dead s) then
        (c, cs_cb s, cs_started s, if k_drop_dead K then [TDrop (k_id K m)] else [], [LReject m])
      else (c, cs_cb s, cs_started s, [TCheck e m], [])
    | TCheck e m =>
      (c, cs_cb s, cs_started s, [], [if k_accept K e m then LDeliver e m else LReject m])
    | TUncache h id => (uncache c id, cs_cb s, cs_started s, [], [LUncached h id])
    | TDrop id => (uncache c id, cs_cb s, cs_started s, [], [LDropped id])
    end.

  (** An event that is not possible in a state changes nothing. *)
  Definition conc_step (s : cst) (x : event E I) : cst * list (log E I M) :=
    match x with
    | EStart e =>
      if mem (k_handle K e) (cs_started s) || mem (k_handle K e) (cs_dead s) then (s, [])
      else (mkConc (cs_cache s) (cs_tasks s ++ [TAlloc e 10]) (k_handle K e :: cs_started s) (cs_cb s) (cs_dead s), [])
    | EReceive i =>
      (mkConc (cs_cache s)
              (cs_tasks s ++ match k_parse K i with Some m => [TRetrieve m] | None => [] end)
              (cs_started s) (cs_cb s) (cs_dead s), [LReceive i])
    | EClose h =>
      match find (fun p => Nat.eqb (fst p) h) (cs_cb s) with
      | Some (_, id) =>
        (mkConc (cs_cache s) (cs_tasks s ++ [TUncache h id]) (cs_started s)
                (filter (fun p => negb (Nat.eqb (fst p) h)) (cs_cb s)) (cs_dead s), [LClose h])
      | None => (s, [])
      end
    | EDie h =>
      if mem h (cs_dead s) || existsb (holds h) (cs_tasks s) then (s, [])
      else (mkConc (cs_cache s) (cs_tasks s) (cs_started s) (cs_cb s) (h :: cs_dead s), [LDie h])
    | EStep n =>
      match nth_error (cs_tasks s) n with
      | None => (s, [])
      | Some t =>
        let '(c, cb, started, new, l) := task_step s t in
        (mkConc c (firstn n (cs_tasks s) ++ new ++ skipn (S n) (cs_tasks s)) started cb (cs_dead s), l)
      end
    end.

  Definition conc0 : cst := mkConc (cache_new (k_gen K) rnd 0) [] [] [] [].
  (** The state and the log (newest first) after a list of events. *)
  Definition conc_next (sl : cst * list (log E I M)) (x : event E I) : cst * list (log E I M) :=
    let '(s, l) := sl in let '(s', l') := conc_step s x in (s', l' ++ l).
  Definition conc_run (evs : list (event E I)) : cst * list (log E I M) :=
    fold_left conc_next evs (conc0, []).
End Conc.

(** The processors.  v1/v2c: the input is the datagram. *)
Definition v12_parse (V : v12) (data : bytes) : option message :=
  match message_decode (vp_types V) (ABytes data) with
  | Ok m => if is_ResponsePDU (m_pdu m) then Some m else None
  | Raise _ => None
  end.
Definition K12 (V : v12) : proto entry1 bytes message :=
  mkProto gen_v1 (v12_parse V) (fun m => pdu_requestID (m_pdu m)) e1_handle
    (fun e m => zlist_eqb (e1_community e) (m_community m)) true.
(** v3: the input is the message as securityModule.processIncoming left it. *)
Definition v3_parse (m : v3msg) : option (v3msg * scopedpdu) :=
  match v3_scoped m with
  | Some s => if is_Response (pdu_cls (sp_pdu s)) then Some (m, s) else None
  | None => None
  end.
Definition K3 : proto entry3 v3msg (v3msg * scopedpdu) :=
  mkProto gen_v3 v3_parse (fun ms => h_id (v3_header (fst ms))) e3_handle
    (fun e ms => negb (v3_mismatch e (fst ms) (snd ms))) false.
