# Formal model of charlestolley/python-snmp in Rocq (Coq 8.16.1)

Source: /repo (read as text; never built or run). Build: `cd rocq && coq_makefile -f _CoqProject -o Makefile && make -j4`.

## Conventions of the model

* Python `bytes` = `list Z` (elements 0..255, predicate `bytes_ok`); Python `int` = `Z`, unbounded. Bit operations are
  written with `Z.land/lor/shiftl/shiftr` as in the code.
* Exceptions are values: `res A = Ok a | Raise e`, `e : exc`; the class hierarchy (`SNMPException`, `IncomingMessageError`,
  `ValueError`, `AssertionError`...) is modelled by predicates so that `except X` clauses match the same classes. Messages
  of exceptions are dropped.
* Loops that consume data take fuel and return `Raise Diverges` when it runs out; theorems prove this never happens.
* Python dict = association list with insertion order; heapq = its list algorithms; weakrefs = explicit liveness.
* Clock readings are integers in ticks of an arbitrary resolution (`res` ticks per second), i.e. exact arithmetic; binary
  floating-point rounding is not modelled.
* Random draws (`randint`, `os.urandom`), hash functions, block ciphers, `inet_aton/inet_pton`, sockets and `poll` are
  explicit oracle arguments; what is assumed of them appears as hypotheses in the theorems.

## Files (rocq/theories)

Model files contain definitions only, each citing the file and lines it models. `Spec*.v` hold small independent
specifications. `Prf*.v` hold proofs. `Properties*.v` hold the property theorems (`exact lemma`), non-vacuity examples and
`Print Assumptions`.

## Plan per property

| id | modelled | proof |
|----|----------|-------|
| C01-C04 | utils.subbytes, ber.Tag/decode_length/encode_length/decode/encode | abstraction of subbytes to the list it views; induction on the digits of tag/length; totality by fuel bound |
| C05,C06 | asn1.INTEGER, smi.BoundedInteger and subclasses | two's complement arithmetic, induction on bytes |
| C07,C08 | OBJECT_IDENTIFIER.serialize/deserialize, OID | base-128 digit induction; expected counterexamples: `first*40 \| second`, and truncated `0x80` |
| C09 | __lt__, __eq__, startswith | induction on lists vs. independent lexicographic relation |
| C10 | parse, __str__ | decimal printing/parsing round trip; model of `int(str)` |
| C11,C12 | withIndex/decodeIndex/asOID/fromOID of each Primitive | induction on index list; counterexample expected for IpAddress, RuntimeError/ValueError escapes |
| C13-C15 | pdu.py | composition of TLV round trips; induction on binding list |
| C16,C17 | message/core.py, version.py | composition |
| C18,C19 | message/v3.py codec | composition |
| C20 | security/levels.py | finite case analysis |
| C21 | utils.NumberGenerator | k-th output congruent to k*step mod 2^n; odd step invertible |
| C22 | utils.subbytes | refinement to Python slicing; expected counterexample for start > stop |
| C23,C24 | cache/retrieve/uncache of the three processors | invariant over interleaved atomic sections; counting argument over ten attempts |
| C25,C26 | message/v1.py, v2c.py prepareDataElements / prepareOutgoingMessage | invariant over histories |
| C27 | message/v3.py prepareDataElements | case analysis; stated against an independent acceptance predicate |
| C28 | manager/v3.py + processor | expected counterexample trace (late discovery response); partial theorem for messages sent with the user's PDU |
| C29,C30 | timekeeper.py | refinement to RFC 3414 rule; invariant over histories |
| C31-C33 | users.py, credentials.py | invariants over histories |
| C34 | auth.py | list arithmetic, for any hash oracle |
| C35,C36,C53 | implementation.py, parameters.py | positional lemmas on nested TLVs |
| C37,C38 | priv/*: AES-CFB and DES-CBC over an arbitrary block permutation | induction on blocks; modular arithmetic of salts |
| C39 | dispatcher.hear | case analysis over all exceptions |
| C40-C44 | manager/v1.py Request/Manager, manager/v3.py Request | exact arithmetic in ticks; heapq invariant; expected counterexamples (C41, C42, C43 for v1/v2c) |
| C45 | pdu.ErrorResponse | case analysis with Python indexing |
| C46-C49,C56 | manager/v3.py | invariants over histories of manager events |
| C50 | transport/udp.py normalizeAddress | case analysis over an `inet_pton` oracle |
| C51,C58,C59 | engine.py (Engine: Manager, v1/v2c/v3Manager, connectTransport), on top of Users.v and normalizeAddress | invariant over histories of calls; refinement to the user registry's specification |
| C60,C61 | the encoders and decoders of Ber.v, Asn1.v, Pdu.v, Msg.v, MsgV3.v, UsmParams.v against SpecWire.v, a relational BER grammar written from X.690 and the RFCs without any function of the model | structural induction on values and wire forms |
| C62,C63 | the request methods and constructors (Api.v) on top of ManagerV1.v; SpecApi.v has the meaning of arguments | invariants over histories (what a request keeps, IDs registered until closed) combined with C60/C61 |
| C64 | the waiting loop and the shared heap (ManagerV1.v) | refuted by two interleavings; proved by an invariant (at most one waiting thread, heap not empty when it takes the lock, every request registered) for one wait() at a time |
| C65 | __eq__ of the classes (Asn1.v, Pdu.v, Ber.v) | characterisation of each __eq__; the encoding direction from the round trips C03, C05, C07, C13, C14 |
| C66 | Request/manager engineID setters, close, \_\_del\_\_ (ManagerV3.v) with the registry (Users.v) | invariant: registered = holders + others (SpecReg.v, PrfReg.v, PrfReg2.v); RegConc.v has the same setters one statement at a time, for any number of threads: invariant over the share of each request (PropertiesRegConc.v) |
| C67 | the request methods of the v3 manager (Api3.v) over ManagerV3, Usm, MsgV3 | invariant over all histories that the security module is in a reachable state with the user configured (PrfUse.v, PrfUse2.v), composed with C53_end_to_end; agents are in SpecUse.v |
| C68 | ManagerV3 with Usm and the registry; the attacker is the VReceive event with any bytes | invariant that every pushed message came from a received datagram and a reachable security module (PrfHear.v), that a configured manager never sends a discovery message for an open request (PrfHear2.v), composed with C36_authenticated |
| C69 | ManagerV3 with Usm, processor cache and registry; the answer is any datagram that the module accepts | invariant that every sent message of an open request is in the processor's cache under its own handle (PrfOpen.v, PrfOpen2.v), registration balance (C66), then the seven steps from the datagram to the end of wait() composed (PropertiesAnswer.v); the state condition by invariants (PrfState.v; PrfSeq3.v for one thread: an Unsynchronized manager has an empty heap) |
| C70 | ManagerV3 with Usm and the registry; the report is in a VReceive event with any bytes | reports in the log come from pushed messages, these from datagrams that the module accepted (C68's invariants); what end3 computes is what the log says (found_run), and close() does not raise (C66) | partial: the level and engine of the report are not compared (two refutations) |
| C71 | ManagerV3; what is sent is in the log | invariant that a manager which accepted a response has an engine ID, from the state machine (knows_run); invariant that every later request in the heap has one until close() (plain_since) | proved |
| C72 | Repr.v: every `__repr__`, `__str__`, `toString` of values, bindings and PDUs, with CPython's repr() of bytes | each part of the text is followed by a character that is not in its alphabet, or is a prefix code (the escapes of bytes); induction over the bindings | proved |
| C73 | ManagerV1, ManagerV3 | every answer was decoded (C44, heard_run); the decoders build only valid values (C15, C17); a ciphertext decrypts to octets under keys of the registry | proved |
| C74 | Repr.v: error_str | from error_cause; the names of the statuses are letters and differ | proved |
| C75 | ManagerV1.v with MFail events: the step of a task with `channel.send()` raising OSError | the two runs of the same step are compared; encoding never raises OSError (PrfNet.v); refuted by two interleavings | partial |
| C76 | ManagerV1.v with MOther events: requests of other managers in the shared message processor | the invariant that every open request is in the dictionary of request IDs, under its own ID, with its own community (keep1) | proved |
| C77 | ManagerV3.v with `refused`: each `channel.send()` may raise OSError, by an oracle | the same step in a network that refuses nothing is compared (PrfNet3.v); what a refusal leaves behind: refuted by two runs, and the invariant that a forgotten request stays forgotten (PrfLost3.v) | partial |
| C78 | Crypto.v for both libraries; Envelope.v: the output buffer with OpenSSL 1.1 and OpenSSL 3 | CFB and CBC specified block by block (SpecPriv.v), shown to be the recursive definitions of Crypto.v by induction (PrfPriv.v); refuted by one message each | partial |
| C79 | ManagerV1.v, ManagerV3.v: the tables of outstanding messages; LeakConc.v: `reallySend()` (set.add, then sendPdu step by step) interleaved with `close()` (pop, then message close); Usm.v: the table of clocks | invariants: who owns a record (PrfLeak1.v, PrfLeak3.v), which steps a message has been through (PrfLeakC.v); refuted by one interleaving and by a family of datagrams for every n | partial |
| C80 | ManagerV3.v (refresh, poke, end of wait), Usm.v (prepareOutgoing), Processor.v (the message ID) | the security module makes every message it is asked for under the conditions (PrfFail1.v, sizes included); which steps can raise and what (PrfFail2.v), by induction over the history; the claim without the condition on engine clocks is refuted by a history | partial |
| C81 | Engine.v, Users.v, Api.v, Api3.v, ManagerV1.v, ManagerV3.v | the rules of the documentation over the list of successful addUser() calls (SpecDefaults.v) are an invariant of the abstract user registry (PrfDefaults.v); composed with C51, C62 and C67 up to the message sent | proved |
| C82 | ManagerV3.v (events VOther, VOtherDone), Processor.v | the table of outstanding messages in every history, shared with any number of other managers: open_inv (PrfOpen2.v), own3 (PrfLeak3.v), what a step keeps (PrfShare.v) | proved |
| C83 | ManagerV3.v, Usm.v, Processor.v | the clock table changes only when the listener takes a datagram (step_time, busy_time), what a message carries (carried), both in PrfSync.v; the SharedBool of a request is false until a resend for that reason (fresh_inv, PrfSync2.v) | proved |
| C84 | ManagerV3.v, Usm.v, Processor.v, the agent of C67 and C69 | C83 gives the resend and the time in it, C67 that the agent takes it, the listener is run to its rest (calm_step, becomes_idle in PropertiesHeal.v), C69 gives the answer | proved |
| C85 | ManagerV3.v, Usm.v, Processor.v, the agent of C67 and C69 | the listener's three steps give the resend (C85_resent), C67 that the agent takes it, with the time of C83 if authentication asks for it, the listener is run to its rest (calm_step, becomes_idle), C69 gives the answer; PrfSeq4.v: a manager with one thread and no engine ID has not forgotten its discovery | proved |
| C86 | as C84 and C85 | the state at the end of C85's story (waits, engine ID known) is one from which C84's can begin; the example has an agent that says boots 0, time 0 at first | proved |
| C52,C57 | posix/generic multiplexor listen, dispatcher.connectTransport/shutdown | invariants over histories of OS events, caller and listener steps |

Not expressible: real thread scheduling inside CPython, socket and OS behaviour, floating-point rounding, strength of
cryptography (the MAC and block cipher are arbitrary functions).

## Trusted base

1. The kernel of Coq 8.16.1, including its `vm_compute` (used only to compute examples and counterexamples).
2. Axioms: none. `Print Assumptions` follows every property theorem in `Properties*.v`, and each prints "Closed under the
   global context". (Seven constants `Coq.ssr.ssrunder.Under_rel.*` are loaded indirectly with the standard library; no
   theorem depends on them.) There are no axioms, parameters, section-less hypotheses, functors or module types here.
3. The reading of the Python source into the model files. Each definition cites the lines it models.
4. The meaning given to Python and its libraries in `Base.v` (slices, indexing, integer and bit operations, `int()` of ASCII
   text, dict), `Heap.v` (heapq), `Transport.v` (sockets, poll, threads), `Crypto.v` (hashlib, hmac, the two cipher
   libraries).
5. Hypotheses about the outside, visible in the statements that need them:
   * `hash_ok`, `crypto_ok`: lengths of digests and blocks, and that DES decryption inverts DES encryption. No theorem
     assumes that a MAC or cipher is hard to break; "signed by the user" means "carries the MAC under the user's key".
   * `draws_ok`: random numbers are in the range asked for. Uniqueness of IDs is derived, not assumed.
   * `inet_ok`: `inet_pton` accepts only non-empty text.
   * `os_ok`: `poll` reports descriptors that were registered, and the like (SpecTrans.v).
   * `others_fair`: other users of a shared security module release only engines that they registered.
   * clocks are arbitrary integer sequences; monotonicity is assumed only where a statement says so.

### What is modelled, file by file

| code | model | left out |
|------|-------|----------|
| snmp/utils.py | Utils.v | `typename`; `ComparableWeakRef` is in Heap.v/ManagerV*.v |
| snmp/ber.py | Ber.v | texts of exceptions |
| snmp/asn1.py, snmp/smi.py | Asn1.v, OidText.v, Repr.v | `int()` of non-ASCII digits; text of values built from subbytes |
| snmp/pdu.py | Pdu.v, Api.v (constructors), Repr.v (text) | a negative `depth` of `toString` |
| snmp/message/core.py, version.py | Msg.v | `__repr__` |
| snmp/message/v3.py, security/levels.py | MsgV3.v (codec), Processor.v (processor) | texts of exceptions |
| snmp/message/v1.py, v2c.py | Processor.v, ProcConc.v (interleavings) | |
| snmp/security/usm/auth.py, priv/* | Crypto.v (both backends) | key schedule and cipher internals (oracles) |
| snmp/security/usm/credentials.py, users.py | Users.v | |
| snmp/security/usm/timekeeper.py | TimeKeeper.v | floating-point rounding |
| snmp/security/usm/parameters.py | UsmParams.v | |
| snmp/security/usm/implementation.py | Usm.v | texts of exceptions; `namespace` arguments that are not str |
| snmp/dispatcher.py | Dispatcher.v, Transport.v (thread) | `logging` |
| snmp/manager/v1.py, v2c.py | ManagerV1.v, Sched.v, Heap.v, Api.v | see below |
| snmp/manager/v3.py | ManagerV3.v, Sched.v, Heap.v, Api3.v | see below |
| snmp/transport/* | Transport.v | the kernel's sockets (events), `socket` options |
| snmp/engine.py | Engine.v | explicit `None` for keyword arguments of `v1Manager` etc. |
| snmp/typing.py, `__init__`s, exception.py | the class hierarchy in Base.v | type annotations |

Simplifications that concern several files:

* Concurrency. Every section under a lock is one step, and so is what a thread does between two of them if it touches no
  shared state; all interleavings of those steps are considered. `close()` of an SNMPv3 request is one step of ManagerV3.v
  although it holds no lock. RegConc.v has the part that touches data shared with the listener (the setter of `engineID`)
  statement by statement: this is where C66 fails. In the v1/v2c managers the test of the loop of `refresh()` is outside the
  lock, and ManagerV1.v splits it from the section (C64_refuted is that race); in the v3 manager all of the turn is inside.
  A message that the listener adds to a request while `close()` empties its set of messages is modelled separately, in LeakConc.v (C79).
* `channel.send()` may raise OSError (ManagerV1.v: event MFail; ManagerV3.v: oracle `refused`) and nothing else.
  `KeyboardInterrupt` and memory errors do not occur.
* PDU objects are values: a caller that modifies a PDU after handing it over, or hands over one PDU object twice, is not
  modelled.
* Several managers of one Engine share a message processor: for SNMPv1 and SNMPv2c, what the others do to it are the MOther
  and MDie events of ManagerV1.v. For SNMPv3, another manager sends a message or is done with one in the VOther and
  VOtherDone events of ManagerV3.v, and what others do to the users of the shared security module are the `VUsers` events;
  all anywhere in a history. What another manager does with a message it received (its own state) is not in the history of
  this one; what receiving it does to the shared security module is (VReceive).
* heapq is modelled in its pure Python algorithm; the C version makes the same comparisons in the same order for heaps of
  up to 2500 elements (`heapify` of larger lists visits the nodes in another order).
* Retransmission with `refreshPeriod = 0` raises ZeroDivisionError (modelled); negative periods are modelled too.
* `transport.connect` after `shutdown`, and concurrent calls of `connectTransport`, are not modelled.
* The OpenSSL backend hands the IV to the library by address, without a length check: a longer IV is truncated and a shorter
  one is read past its end (`library_iv` in Crypto.v; `c_overread` is an arbitrary function).

## What the proofs found

Properties that are false of the code are kept with their full statement, a theorem `..._refuted` with a concrete run, and
the strongest version that was proved (`..._partial`, or named for its proviso).

* C07 (and through it C13, C14, C16, C18, C60, C65): the first two sub-identifiers of an OID are combined with `|` instead
  of `+`, so 1.8 is encoded as 1.0. C08: the content octet 0x80 alone decodes without an error.
* C11, C12: `IpAddress` indices do not decode; `RuntimeError`/`ValueError` escape from `decodeIndex`.
* C22: `subbytes` with start > stop has a negative length; negative steps are wrong.
* C23: after 2^32 IDs a v1/v2c processor can drop the entry of a live request.
* C28, C68: an unsigned response to the discovery message, with empty engine ID and user name, is returned as the result
  of an authenticated request. C46: a report with an empty engine ID makes the manager send the user's PDU to engine "".
* C70: a signed report ends `wait()` early whatever its level (authNoPriv ends an authPriv request) and whatever engine
  signed it; the engine ID of reports is not compared.
* C40, C41, C42, C43, C44, C56: retransmission. At the very tick at which a refresh is due it is sent twice (or more);
  `wait()` can block without limit when the expiration falls between two clock readings; requests with different periods
  delay each other; a response that came before the deadline is ignored if `wait()` is called after it; a v3 request that
  waits for discovery can oversleep its timeout.
* C47, C48: an error when sending a queued v3 request in the listener thread is lost, and lets unauthenticated reports
  trigger retransmissions without limit.
* C50: a port of `float("nan")` is accepted. C51: two spellings of one address get two sockets.
* C52, C57: an error of `recvfrom` ends the listener thread for ever.
* C54: an engine whose clock runs slow is not resynchronised the way RFC 3414 section 3.2 step 7b says.
* C55: a negative snmpEngineBoots in a message makes the privacy code raise OverflowError, for incoming and outgoing messages.
* C58, C59: `Engine` raises UnboundLocalError for unsupported domains; a failed `Manager()` call makes
  `connectTransport()` refuse the domain; transports connected explicitly are never used.
* C64: with two threads in `wait()`, IndexError; the second `wait()` of a request raises AssertionError.
* C75: if the system refuses to send a request again, the `wait()` that was about to send it raises OSError even if it waits
  for another request, and the heap stays out of order: `refresh()` sets the next refresh time and raises before
  `heapreplace()`.
* C77: if the system refuses the datagram that the v3 listener sends when discovery succeeds, the manager goes on waiting for
  discovery and throws away every later answer; if it refuses one that `wait()` sends from the queue (`poke()`), the rest of
  the queue is forgotten: those requests are never sent and their `wait()` runs into Timeout.
* C78: with OpenSSL, up to 16 zero octets are sent after the ciphertext, because the whole output buffer is returned; with
  OpenSSL 3, DES messages from conforming agents lose their last 8 octets.
* C79: `close()` racing with `reallySend()` of the listener leaks the message's record for ever; every unauthenticated
  datagram with a new engine ID adds an entry to the table of engine clocks, and nothing removes it.
* C80: an unauthenticated report with snmpEngineTime near 2^31 makes `wait()` raise ValueError at the next refresh (the
  clock of the agent, plus the elapsed time, no longer is an INTEGER); and the wait() of one request raises what the
  sending of another one raises (an unknown user, say).
* C81: a request with `user=` and without `securityLevel=` uses the level that the *manager* defaults to, whichever that
  user supports; the documentation leaves this open, the theorem states it as it is.
* C66: `close()` at the end of `wait()` sets the engine ID of its request without a lock; if the listener sets it at the same
  moment (a report with another engine ID), the old engine ID is released twice and the new one never.
* C69: an answer is thrown away if the request was sent while another thread's `wait()` was about to reset the state.
* Not stated as properties: SNMPv3 responses are matched by message ID only, the request ID of the PDU is never compared
  (an agent that answers a resent message with another request's PDU is believed); a request closed because another
  request's send failed inside its `wait()` stays in the heap and is refreshed as a discovery message; encoding negative
  engine boots raises OverflowError.
