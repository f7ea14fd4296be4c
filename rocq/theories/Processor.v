(** Processor.v -- model of the message processors: snmp/message/v1.py,
    snmp/message/v2c.py and snmp/message/v3.py:428-636 (definitions only).

    A request handle is a number; [alive h] says whether the weak reference to
    it still yields the object.  The locks (cacheLock, securityLock) make each
    function below [cache_attempt], [retrieve], [uncache] atomic; ProcConc.v
    interleaves them.  Randomness: the [k]-th NumberGenerator that is created
    draws [rnd k] (utils.py:54-77). *)
From Verif Require Export Usm.

(** * The cache of outstanding requests (v1.py:42-75, v2c.py:44-77, v3.py:481-525) *)
(** What newGenerator() builds: v1.py:47-49 and v2c.py:49-51 NumberGenerator(32),
    v3.py:496-498 NumberGenerator(31, signed=False). *)
Record genspec := mkGS { gs_bits : Z; gs_signed : bool }.
Definition gen_v1 := mkGS 32 true.
Definition gen_v3 := mkGS 31 false.

(** generator, number of generators created so far, outstanding *)
Record cache_st (E : Type) := mkCache { ca_gen : numgen; ca_made : nat; ca_out : dict Z E }.
Arguments mkCache {E}. Arguments ca_gen {E}. Arguments ca_made {E}. Arguments ca_out {E}.

Section Cache.
  Context {E : Type} (G : genspec) (rnd : nat -> Z).
  (** v1.py:42-45, v3.py:484-489 *)
  Definition cache_new (made : nat) : cache_st E :=
    mkCache (numgen_init (gs_bits G) (gs_signed G) (rnd made)) (S made) [].
  (** One execution of the body of the [with self.cacheLock] block of cache()
      (v1.py:54-60, v2c.py:56-62, v3.py:503-509). *)
  Definition cache_attempt (c : cache_st E) (e : E) : option Z * cache_st E :=
    let '(id, g) := numgen_next (ca_gen c) in
    if id =? 0 then
      (None, mkCache (numgen_init (gs_bits G) (gs_signed G) (rnd (ca_made c))) (S (ca_made c)) (ca_out c))
    else if dict_mem Z.eqb (ca_out c) id then (None, mkCache g (ca_made c) (ca_out c))
    else (Some id, mkCache g (ca_made c) (dict_set Z.eqb (ca_out c) id e)).
  (** The loop (v1.py:52-64, v2c.py:54-66, v3.py:501-513), [retries] rounds left,
      without interference from other threads. *)
  Fixpoint cache_loop (retries : nat) (c : cache_st E) (e : E) : cache_st E * res Z :=
    match retries with
    | O => (c, Raise CacheError)
    | S r => match cache_attempt c e with
             | (Some id, c) => (c, Ok id)
             | (None, c) => cache_loop r c e
             end
    end.
  Definition cache (c : cache_st E) (e : E) : cache_st E * res Z := cache_loop 10 c e.
  (** v1.py:66-68, v3.py:515-517 *)
  Definition retrieve (c : cache_st E) (id : Z) : res E :=
    match dict_get Z.eqb (ca_out c) id with Some e => Ok e | None => Raise KeyError end.
  (** v1.py:70-75, v3.py:519-524 *)
  Definition uncache (c : cache_st E) (id : Z) : cache_st E :=
    mkCache (ca_gen c) (ca_made c) (dict_del Z.eqb (ca_out c) id).
End Cache.

(** * SNMPv1 and SNMPv2c (v1.py:31-111, v2c.py:33-113) *)
(** v1.py:31-37 *)
Record entry1 := mkE1 { e1_handle : nat; e1_community : bytes }.
(** Which processor: ProtocolVersion and pduTypes (v1.py:13-20,40; v2c.py:11-22,42). *)
Record v12 := mkV12 { vp_version : Z; vp_types : list (tag * pducls) }.
Definition proc_v1 := mkV12 SNMPv1 pduTypes_v1.
Definition proc_v2c := mkV12 SNMPv2c pduTypes_v2.

Definition is_ResponsePDU (p : pdu) : bool := pducls_eqb (pdu_cls p) ResponsePDU.
Definition set_requestID (p : pdu) (id : Z) : pdu :=
  mkPDU (pdu_cls p) id (pdu_a p) (pdu_b p) (pdu_vbs p).

(** v1.py:77-99, v2c.py:79-101 *)
Definition v12_prepareDataElements (V : v12) (alive : nat -> bool) (c : cache_st entry1)
    (msg : bytes) : cache_st entry1 * res (message * nat) :=
  match message_decode (vp_types V) (ABytes msg) with
  | Raise e => (c, Raise e)
  | Ok m =>
    if is_ResponsePDU (m_pdu m) then
      match retrieve c (pdu_requestID (m_pdu m)) with
      | Raise _ => (c, Raise ResponseMismatch)
      | Ok entry =>
        if negb (alive (e1_handle entry)) then
          (uncache c (pdu_requestID (m_pdu m)), Raise LateResponse)
        else if negb (zlist_eqb (e1_community entry) (m_community m)) then (c, Raise ResponseMismatch)
        else (c, Ok (m, e1_handle entry))
      end
    else (c, Raise UnsupportedFeature)
  end.

(** What prepareOutgoingMessage leaves behind: the processor, the PDU (whose
    requestID it assigns) and the ID passed to handle.addCallback(), if any. *)
Record sent1 := mkSent1 { s1_cache : cache_st entry1; s1_pdu : pdu; s1_callback : option Z }.
(** v1.py:101-111, v2c.py:103-113.  [cb_free] says that handle.callback is None,
    which Request.addCallback asserts (manager/v1.py:71-78); its other assertion
    compares two equal values. *)
Definition v12_prepareOutgoing (V : v12) (rnd : nat -> Z) (c : cache_st entry1) (p : pdu)
    (handle : nat) (cb_free : bool) (community : bytes) : sent1 * res bytes :=
  if pdu_requestID p =? 0 then
    match cache gen_v1 rnd c (mkE1 handle community) with
    | (c, Raise e) => (mkSent1 c p None, Raise e)
    | (c, Ok id) =>
      let p := set_requestID p id in
      if cb_free then (mkSent1 c p (Some id), message_encode (mkMessage (vp_version V) community p))
      else (mkSent1 c p None, Raise AssertionError)
    end
  else (mkSent1 c p None, message_encode (mkMessage (vp_version V) community p)).

(** * SNMPv3 (v3.py:466-636) *)
(** v3.py:466-480 *)
Record entry3 := mkE3 {
  e3_engineID : bytes; e3_context : bytes; e3_handle : nat;
  e3_name : bytes; e3_model : Z; e3_level : seclevel
}.
(** v3.py:485-494.  [p3_modules] lists the MODELs of the registered security
    modules; the library has one security module class (USM), whose state is
    passed alongside. *)
Record proc3 := mkP3 {
  p3_maxSize : Z; p3_cache : cache_st entry3; p3_default : option Z; p3_modules : list Z
}.
Definition proc3_new (rnd : nat -> Z) (msgMaxSize : Z) : proc3 :=
  mkP3 msgMaxSize (cache_new gen_v3 rnd 0) None [].
Definition has_module (p : proc3) (model : Z) : bool := existsb (Z.eqb model) (p3_modules p).
(** v3.py:526-535 *)
Definition addSecurityModuleIfNeeded (p : proc3) (model : Z) (default : bool) : proc3 :=
  if has_module p model then p
  else mkP3 (p3_maxSize p) (p3_cache p)
         (if default || match p3_default p with None => true | Some _ => false end
          then Some model else p3_default p)
         (p3_modules p ++ [model]).
Definition with_cache3 (p : proc3) (c : cache_st entry3) : proc3 :=
  mkP3 (p3_maxSize p) c (p3_default p) (p3_modules p).

Definition opt_bytes_eqb (a : bytes) (b : option bytes) : bool :=
  match b with Some b => zlist_eqb a b | None => false end.
(** v3.py:569-587: the comparisons with the cache entry. *)
Definition v3_mismatch (entry : entry3) (message : v3msg) (s : scopedpdu) : bool :=
  let report := is_Internal (pdu_cls (sp_pdu s)) in
  (negb report && sl_ltb (fl_level (h_flags (v3_header message))) (e3_level entry))
  || (negb report && negb (opt_bytes_eqb (e3_engineID entry) (v3_engineID message)))
  || negb (opt_bytes_eqb (e3_name entry) (v3_name message))
  || (negb report && negb (zlist_eqb (e3_engineID entry) (sp_contextEngineID s)))
  || negb (zlist_eqb (e3_context entry) (sp_contextName s)).
(** v3.py:551-591: what follows securityModule.processIncoming(message). *)
Definition v3_match (alive : nat -> bool) (p : proc3) (message : v3msg) : res (v3msg * nat) :=
  match v3_scoped message with
  | None => Raise SNMPLibraryBug
  | Some s =>
    if is_Response (pdu_cls (sp_pdu s)) then
      match retrieve (p3_cache p) (h_id (v3_header message)) with
      | Raise _ => Raise ResponseMismatch
      | Ok entry =>
        if negb (alive (e3_handle entry)) then Raise LateResponse
        else if v3_mismatch entry message s then Raise ResponseMismatch
        else Ok (message, e3_handle entry)
      end
    else Raise UnsupportedFeature
  end.
(** v3.py:537-591; processIncoming is called without a timestamp, so it reads
    the clock: [ts] (implementation.py:177-178). *)
Definition v3_prepareDataElements (C : crypto) (R : Z) (alive : nat -> bool) (u : usm) (p : proc3)
    (msg : bytes) (ts : Z) : usm * res (v3msg * nat) :=
  match v3_decode (ABytes msg) with
  | Raise e => (u, Raise e)
  | Ok message =>
    if has_module p (h_securityModel (v3_header message)) then
      match usm_processIncoming C R u message ts with
      | (u, Raise e) => (u, Raise e)
      | (u, Ok message) => (u, v3_match alive p message)
      end
    else (u, Raise UnknownSecurityModel)
  end.

(** v3.py:593-636; the last component is the msgID passed to handle.addCallback.
    RequestMessage.addCallback (manager/v3.py:242-244) cannot fail. *)
Record sent3 := mkSent3 { s3_usm : usm; s3_proc : proc3; s3_callback : option Z }.
Definition v3_prepareOutgoing (C : crypto) (R : Z) (rnd : nat -> Z) (u : usm) (p : proc3) (d : pdu)
    (handle : nat) (engineID securityName : bytes) (level : seclevel) (model : option Z)
    (contextName : bytes) (ts : Z) : sent3 * res bytes :=
  match (match model with Some m => Some m | None => p3_default p end) with
  | None => (mkSent3 u p None, Raise AssertionError)
  | Some model =>
    if negb (has_module p model) then (mkSent3 u p None, Raise ValueError)
    else
      let reportable := is_Confirmed (pdu_cls d) in
      let '(p, cb, r) :=
        if reportable then
          match cache gen_v3 rnd (p3_cache p) (mkE3 engineID contextName handle securityName model level) with
          | (c, Raise e) => (with_cache3 p c, None, Raise e)
          | (c, Ok id) => (with_cache3 p c, Some id, Ok id)
          end
        else
          let '(id, g) := numgen_next (ca_gen (p3_cache p)) in
          (with_cache3 p (mkCache g (ca_made (p3_cache p)) (ca_out (p3_cache p))), None, Ok id) in
      match r with
      | Raise e => (mkSent3 u p cb, Raise e)
      | Ok msgID =>
        let header := mkHeader msgID (p3_maxSize p) (mkFlags level reportable) model in
        let message := mkV3 header (Some (mkScoped engineID contextName d)) None (ABytes []) None None in
        let '(u, w) := usm_prepareOutgoing C R u message engineID securityName ts in
        (mkSent3 u p cb, w)
      end
  end.
