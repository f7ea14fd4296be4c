{
 "claims": [
  {
   "property": "C01",
   "status": "proved",
   "theorems": [
    "C01_tag_roundtrip",
    "C01_tag_prefix_free"
   ],
   "note": ""
  },
  {
   "property": "C02",
   "status": "proved",
   "theorems": [
    "C02_length_roundtrip",
    "C02_length_too_long"
   ],
   "note": ""
  },
  {
   "property": "C03",
   "status": "proved",
   "theorems": [
    "C03_tlv_roundtrip"
   ],
   "note": ""
  },
  {
   "property": "C04",
   "status": "proved",
   "theorems": [
    "C04_decode_total",
    "C04_decode_complete"
   ],
   "note": ""
  },
  {
   "property": "C05",
   "status": "proved",
   "theorems": [
    "C05_integer_exact",
    "C05_integer_decode",
    "C05_integer_tlv"
   ],
   "note": ""
  },
  {
   "property": "C06",
   "status": "proved",
   "theorems": [
    "C06_constructor_range",
    "C06_decode_range"
   ],
   "note": ""
  },
  {
   "property": "C07",
   "status": "partial",
   "theorems": [
    "C07_refuted",
    "C07_oid_roundtrip_partial",
    "C07_oid_tail_partial",
    "C07_short_oids"
   ],
   "note": "The property is false of the code: serialize() computes first*40 | second, so e.g. 1.8 is encoded like 1.0 (C07_refuted). C07_oid_roundtrip_partial gives the exact set of OIDs that survive."
  },
  {
   "property": "C08",
   "status": "partial",
   "theorems": [
    "C08_refuted",
    "C08_truncated_partial"
   ],
   "note": "False of the code: a trailing 0x80 byte is ignored instead of rejected (C08_refuted). C08_truncated_partial states exactly which truncated contents are rejected."
  },
  {
   "property": "C09",
   "status": "proved",
   "theorems": [
    "C09_lex_order",
    "C09_strict_total_order",
    "C09_equality",
    "C09_startswith"
   ],
   "note": ""
  },
  {
   "property": "C10",
   "status": "proved",
   "theorems": [
    "C10_parse_str",
    "C10_parse_dot_str",
    "C10_parse_raises"
   ],
   "note": "With a leading dot the empty OID is excluded: '.' is rejected by the code."
  },
  {
   "property": "C11",
   "status": "partial",
   "theorems": [
    "C11_refuted",
    "C11_index_roundtrip_partial",
    "C11_index_roundtrip_ip_partial"
   ],
   "note": "False of the code: IpAddress indices do not round-trip (C11_refuted). Proved for all other index types, and for an IpAddress as the last field with implied=True."
  },
  {
   "property": "C12",
   "status": "partial",
   "theorems": [
    "C12_refuted",
    "C12_decodeIndex_partial"
   ],
   "note": "False of the code: ValueError and RuntimeError escape (C12_refuted). C12_decodeIndex_partial states exactly when."
  },
  {
   "property": "C13",
   "status": "partial",
   "theorems": [
    "C13_varbind_roundtrip_partial",
    "C13_varbind_encodes",
    "C13_type_from_tag",
    "C13_refuted"
   ],
   "note": "False of the code for OIDs its encoding does not preserve (C13_refuted, C14_refuted, same defect as C07). Proved for all other names and OID values; Unsigned32 arrives as the Gauge32 it is equal to."
  },
  {
   "property": "C14",
   "status": "partial",
   "theorems": [
    "C14_pdu_roundtrip_partial",
    "C14_pdu_encodes",
    "C14_refuted"
   ],
   "note": "False of the code for OIDs its encoding does not preserve (C13_refuted, C14_refuted, same defect as C07). Proved for all other names and OID values; Unsigned32 arrives as the Gauge32 it is equal to."
  },
  {
   "property": "C15",
   "status": "proved",
   "theorems": [
    "C15_decoded_pdu_fields"
   ],
   "note": ""
  },
  {
   "property": "C16",
   "status": "partial",
   "theorems": [
    "C16_message_roundtrip_partial",
    "C16_types",
    "C16_message_encodes"
   ],
   "note": "Holds for every message whose OIDs survive encoding (oid_faithful); the rest is the C07/C13/C14 defect."
  },
  {
   "property": "C17",
   "status": "proved",
   "theorems": [
    "C17_version_decode_raises",
    "C17_version_decode_ok",
    "C17_message_decode_raises",
    "C17_message_decode_ok",
    "C17_v3_decode_raises",
    "C17_v3_decode_ok",
    "C17_params_decode_raises",
    "C17_params_decode_ok"
   ],
   "note": ""
  },
  {
   "property": "C18",
   "status": "partial",
   "theorems": [
    "C18_v3_roundtrip_partial",
    "C18_v3_encodes",
    "C18_usm_parameters_roundtrip"
   ],
   "note": "Holds for every message whose OIDs survive encoding (oid_faithful); the rest is the C07/C13/C14 defect."
  },
  {
   "property": "C19",
   "status": "proved",
   "theorems": [
    "C19_flags_byte",
    "C19_extra_bits_ignored",
    "C19_flags_roundtrip",
    "C19_privacy_implies_authentication"
   ],
   "note": ""
  },
  {
   "property": "C20",
   "status": "proved",
   "theorems": [
    "C20_constructor",
    "C20_order",
    "C20_chain"
   ],
   "note": ""
  },
  {
   "property": "C21",
   "status": "proved",
   "theorems": [
    "C21_range",
    "C21_distinct",
    "C21_zero_last",
    "C21_every_number",
    "C21_nth_is_next"
   ],
   "note": ""
  },
  {
   "property": "C22",
   "status": "partial",
   "theorems": [
    "C22_refuted",
    "C22_negative_step_refuted",
    "C22_subbytes_partial"
   ],
   "note": "False of the code when start > stop (negative length, replace() duplicates data) and for negative steps (refuted). Proved for every nesting of subbytes whose bounds are in order and every positive step."
  },
  {
   "property": "C23",
   "status": "partial",
   "theorems": [
    "C23_v3",
    "C23_v12_partial",
    "C23_v12_refuted"
   ],
   "note": "Proved without restriction for SNMPv3 (C23_v3). For SNMPv1/v2c it is false of the code (C23_v12_refuted): a listener thread that found a collected request may call uncache() after 2^32 numbers have gone by and the ID is in use again. C23_v12_partial: it holds for all histories in which no ID is allocated while a thread is still about to remove its previous use."
  },
  {
   "property": "C24",
   "status": "proved",
   "theorems": [
    "C24_succeeds",
    "C24_fails",
    "C24_failure_changes_nothing"
   ],
   "note": ""
  },
  {
   "property": "C25",
   "status": "proved",
   "theorems": [
    "C25_history",
    "C25_exact",
    "C25_rejected",
    "C25_receive_alone"
   ],
   "note": ""
  },
  {
   "property": "C26",
   "status": "proved",
   "theorems": [
    "C26_manager",
    "C26_resend"
   ],
   "note": ""
  },
  {
   "property": "C27",
   "status": "proved",
   "theorems": [
    "C27_delivered",
    "C27_not_lost",
    "C27_history"
   ],
   "note": ""
  },
  {
   "property": "C28",
   "status": "partial",
   "theorems": [
    "C28_refuted",
    "C28_level_partial"
   ],
   "note": "False of the code (C28_refuted): a forged unauthenticated Response with an empty engine ID and user name, sent in answer to the discovery message, is accepted as the answer of an authenticated request. C28_level_partial: that is the only exception."
  },
  {
   "property": "C29",
   "status": "proved",
   "theorems": [
    "C29_window",
    "C29_synchronisation",
    "C29_incoming"
   ],
   "note": ""
  },
  {
   "property": "C30",
   "status": "proved",
   "theorems": [
    "C30_unauthenticated_ignored",
    "C30_never_backwards",
    "C30_other_engines"
   ],
   "note": ""
  },
  {
   "property": "C31",
   "status": "proved",
   "theorems": [
    "C31_refinement"
   ],
   "note": ""
  },
  {
   "property": "C32",
   "status": "proved",
   "theorems": [
    "C32_credentials"
   ],
   "note": ""
  },
  {
   "property": "C33",
   "status": "proved",
   "theorems": [
    "C33_rules",
    "C33_failed_addUser",
    "C33_failed_addUser_side_effect"
   ],
   "note": "With the rewording that a failed addUser may leave a new, empty namespace behind (C33_failed_addUser_side_effect)."
  },
  {
   "property": "C34",
   "status": "proved",
   "theorems": [
    "C34_computeKey",
    "C34_stretched_unique",
    "C34_empty",
    "C34_localizeKey"
   ],
   "note": ""
  },
  {
   "property": "C35",
   "status": "proved",
   "theorems": [
    "C35_signature",
    "C35_digest_accepted"
   ],
   "note": ""
  },
  {
   "property": "C36",
   "status": "proved",
   "theorems": [
    "C36_authenticated"
   ],
   "note": ""
  },
  {
   "property": "C37",
   "status": "proved",
   "theorems": [
    "C37_roundtrip",
    "C37_encrypts",
    "C37_scoped_pdu",
    "C37_localised"
   ],
   "note": ""
  },
  {
   "property": "C38",
   "status": "proved",
   "theorems": [
    "C38_salts",
    "C38_iv_used"
   ],
   "note": ""
  },
  {
   "property": "C39",
   "status": "proved",
   "theorems": [
    "C39_hear",
    "C39_version"
   ],
   "note": ""
  },
  {
   "property": "C40",
   "status": "partial",
   "theorems": [
    "C40_made",
    "C40_schedule",
    "C40_expired",
    "C40_v3_made",
    "C40_v3_schedule",
    "C40_v3_refuted"
   ],
   "note": "SNMPv1/SNMPv2c: proved. SNMPv3: refresh() keeps to the schedule (C40_v3_schedule), but messages sent because of a report ignore the expiration and whether the request was answered (C40_v3_refuted)."
  },
  {
   "property": "C41",
   "status": "partial",
   "theorems": [
    "C41_refuted",
    "C41_strict_partial",
    "C41_burst_refuted"
   ],
   "note": "False of the code (C41_refuted): when the clock reads exactly the due time (or a whole number of periods later), the next refresh is due at once; with a clock that does not move, one wait() sends without end (C41_burst_refuted). C41_strict_partial says exactly when it is false."
  },
  {
   "property": "C42",
   "status": "partial",
   "theorems": [
    "C42_refuted",
    "C42_hang_refuted",
    "C42_unlimited_partial",
    "C42_limit_partial",
    "C42_timeout_partial"
   ],
   "note": "False of the code (C42_refuted, C42_hang_refuted): if the expiration falls between the clock readings of wait() and refresh(), wait() blocks for ever. Proved: that is the only way it blocks without a limit (any history); the limit is right for requests with one common period; past the expiration the loop raises Timeout."
  },
  {
   "property": "C43",
   "status": "partial",
   "theorems": [
    "C43_refuted",
    "C43_single_partial",
    "C43_uniform_partial",
    "C43_v3_refuted",
    "C43_v3_partial"
   ],
   "note": "SNMPv1/SNMPv2c: false of the code (C43_refuted): a request is put in the heap before its first refresh time is set, so with different timeouts and periods the heap is out of order. Proved when one request is active (any history), and for any number of requests with one common period. SNMPv3: false only after a message sent again or sent because of a report failed, e.g. was refused by the system (C43_v3_refuted); otherwise proved for any timeouts and periods (C43_v3_partial)."
  },
  {
   "property": "C44",
   "status": "partial",
   "theorems": [
    "C44_refuted",
    "C44_outcome_partial",
    "C44_delivered_partial",
    "C44_v3_refuted",
    "C44_v3_outcome_partial",
    "C44_v3_cases_partial",
    "C44_v3_delivered_partial"
   ],
   "note": "SNMPv1/SNMPv2c: false of the code: wait() called after the expiration raises Timeout although the response is there (C44_refuted). Proved for every history: what is returned or raised comes from a matching received response, Timeout only after the expiration. SNMPv3: likewise (C44_v3_refuted and the _partial theorems)."
  },
  {
   "property": "C45",
   "status": "proved",
   "theorems": [
    "C45_error_cause"
   ],
   "note": ""
  },
  {
   "property": "C46",
   "status": "partial",
   "theorems": [
    "C46_refuted",
    "C46_sent_partial",
    "C46_nonempty_partial"
   ],
   "note": "False of the code (C46_refuted): an unknownEngineIDs report that carries an empty engine ID makes the manager send the user's PDU with an empty engine ID. Proved: user data is sent only after some report or response, and with the engine ID it brought; if none was empty, never with an empty one."
  },
  {
   "property": "C47",
   "status": "partial",
   "theorems": [
    "C47_refuted",
    "C47_covered_partial",
    "C47_never_both",
    "C47_once",
    "C47_order"
   ],
   "note": "False of the code (C47_refuted): when sending one queued request fails (an encoding error, or a datagram refused by the system: C77_others_refuted), the queue processing is abandoned and a request can be lost without a trace. C47_covered_partial says exactly when; never both queued and sent, sent once, in order, are proved without restriction."
  },
  {
   "property": "C48",
   "status": "partial",
   "theorems": [
    "C48_refuted",
    "C48_bound_partial",
    "C48_no_failure_partial"
   ],
   "note": "False of the code (C48_refuted): when sending queued requests fails, the report is not marked as handled and the next copy causes another resend. C48_bound_partial and C48_no_failure_partial give the bound with and without such failures."
  },
  {
   "property": "C49",
   "status": "proved",
   "theorems": [
    "C49_authenticated",
    "C49_configured"
   ],
   "note": ""
  },
  {
   "property": "C50",
   "status": "partial",
   "theorems": [
    "C50_accepted",
    "C50_rejected",
    "C50_idempotent",
    "C50_refuted",
    "C50_port_partial"
   ],
   "note": "False of the code for ports given as floats (C50_refuted: NaN passes both comparisons; 0.5 is accepted too). C50_port_partial: true of all other arguments; C50_accepted says exactly what is accepted; rejection and idempotence proved without restriction."
  },
  {
   "property": "C51",
   "status": "proved",
   "theorems": [
    "C51_one_transport",
    "C51_reuse",
    "C51_processors",
    "C51_result",
    "C51_network_refuted"
   ],
   "note": "'Local address' is the normalised (host text, port) pair; two spellings of one network address do get two transports (C51_network_refuted)."
  },
  {
   "property": "C52",
   "status": "partial",
   "theorems": [
    "C52_delivery",
    "C52_returns",
    "C52_stop",
    "C52_round_ends_partial",
    "C52_refuted",
    "C52_alive_partial"
   ],
   "note": "Delivery, order and stopping proved for every history. The listener also ends, without being told, when recvfrom() fails (C52_refuted); without such failures it does not (C52_alive_partial) and every round ends (C52_round_ends_partial)."
  },
  {
   "property": "C53",
   "status": "proved",
   "theorems": [
    "C53_end_to_end",
    "C53_states"
   ],
   "note": ""
  },
  {
   "property": "C54",
   "status": "partial",
   "theorems": [
    "C54_sound_partial",
    "C54_refuted"
   ],
   "note": "One direction proved (what the code accepts the RFC accepts); the other is false of the code: its notion of time never moves back, so a slow remote clock is eventually rejected for ever (C54_refuted)."
  },
  {
   "property": "C55",
   "status": "partial",
   "theorems": [
    "C55_raises_partial",
    "C55_outgoing_refuted",
    "C55_refuted"
   ],
   "note": "False of the code: negative engineBoots in an authenticated AES message raise OverflowError (C55_refuted), and an unauthenticated message with negative boots makes authPriv sending fail (C55_outgoing_refuted). C55_raises_partial shows that is the only case for incoming messages."
  },
  {
   "property": "C56",
   "status": "partial",
   "theorems": [
    "C56_refuted",
    "C56_sent_partial"
   ],
   "note": "False of the code (C56_refuted): a request queued behind discovery sleeps until another request's refresh is due. Proved for requests that have been sent (C56_sent_partial)."
  },
  {
   "property": "C57",
   "status": "partial",
   "theorems": [
    "C57_refuted",
    "C57_no_error_partial"
   ],
   "note": "False of the code (C57_refuted): after a failing recvfrom() the listener thread is dead, and connecting another transport leaves a stop byte in the pipe that ends the new listener at once. Proved for histories without such failures."
  },
  {
   "property": "C58",
   "status": "partial",
   "theorems": [
    "C58_errors",
    "C58_failed_keeps_users",
    "C58_domain_refuted",
    "C58_nouser_refuted"
   ],
   "note": "False of the code: an unsupported domain raises UnboundLocalError (C58_domain_refuted), and without any user the error is ValueError, not NoDefaultUser (C58_nouser_refuted). C58_errors proves the rest, with these two errors as they are, in both directions; failed calls keep users (C58_failed_keeps_users)."
  },
  {
   "property": "C59",
   "status": "partial",
   "theorems": [
    "C59_connect",
    "C59_accepts_refuted",
    "C59_used_refuted"
   ],
   "note": "False of the code: a Manager() call whose bind() failed makes connectTransport() refuse the domain (C59_accepts_refuted), and managers never use the transport connected (C59_used_refuted). C59_connect says exactly when it is accepted."
  },
  {
   "property": "C60",
   "status": "partial",
   "theorems": [
    "C60_refuted",
    "C60_message_partial",
    "C60_v3_partial",
    "C60_scoped_partial",
    "C60_parameters"
   ],
   "note": "False of the code for object identifiers whose first two arcs the code encodes wrongly (C60_refuted, cause: C07). Proved for all other messages of the three versions and without exception for the security parameters, against an independent BER grammar (SpecWire.v)."
  },
  {
   "property": "C61",
   "status": "proved",
   "theorems": [
    "C61_message",
    "C61_v3",
    "C61_parameters"
   ],
   "note": "Against the independent grammar of SpecWire.v with strict = false."
  },
  {
   "property": "C62",
   "status": "proved",
   "theorems": [
    "C62_call",
    "C62_sent",
    "C62_wire_partial",
    "C62_error",
    "C62_rejected"
   ],
   "note": "C62_sent; whether the encoding itself is right is C60 (C62_wire_partial combines both)."
  },
  {
   "property": "C63",
   "status": "proved",
   "theorems": [
    "C63_answered"
   ],
   "note": ""
  },
  {
   "property": "C64",
   "status": "partial",
   "theorems": [
    "C64_refuted",
    "C64_twice_refuted",
    "C64_sequential_partial",
    "C64_network_partial"
   ],
   "note": "False of the code: refresh() tests the list of requests before it takes the lock, so with two threads in wait() one can get IndexError (C64_refuted); the second wait() for one request raises AssertionError (C64_twice_refuted). Proved if no two wait() calls overlap and each request is waited for once; if the system may refuse datagrams, OSError may be raised too and nothing else (C64_network_partial)."
  },
  {
   "property": "C65",
   "status": "partial",
   "theorems": [
    "C65_equivalence",
    "C65_meaning",
    "C65_meaning_pdu",
    "C65_equal_encode",
    "C65_refuted",
    "C65_encode_equal_partial"
   ],
   "note": "The last clause is false of the code for object identifiers that it encodes alike (C65_refuted, cause: C07); proved for all objects whose OIDs it encodes faithfully. The rest is proved."
  },
  {
   "property": "C66",
   "status": "partial",
   "theorems": [
    "C66_balance",
    "C66_close",
    "C66_collected",
    "C66_deleted",
    "C66_apart_partial",
    "C66_uninterrupted",
    "C66_interleaved_refuted"
   ],
   "note": "Proved in full (C66_balance, C66_close, C66_collected, C66_deleted) with every setter of an engine ID as one step; C66_apart_partial shows that this is right, statement by statement and for any number of threads, as long as no two threads are in the setter of the same request (C66_uninterrupted ties the two models). False when close() at the end of wait() and the listener are in the setter of one request at the same time, which no lock prevents (C66_interleaved_refuted). Other users of the module are assumed to release only what they registered (others_fair)."
  },
  {
   "property": "C67",
   "status": "proved",
   "theorems": [
    "C67_call",
    "C67_sent",
    "C67_delivered"
   ],
   "note": "C67_delivered assumes a negotiated maximum message size the agent accepts (484 to 2^31-1, the constructor does not check it), others that release only what they registered (others_fair), and crypto_ok."
  },
  {
   "property": "C68",
   "status": "partial",
   "theorems": [
    "C68_signed_partial",
    "C68_known",
    "C68_configured",
    "C68_refuted"
   ],
   "note": "False of the code: an unsigned datagram with no engine ID and no user name answers the discovery message of a request and its bindings are returned (C68_refuted, cause: C28). C68_signed_partial shows this is the only exception in any history; C68_known proves the whole property for the first wait() of every request made when the manager knows the engine (it was given the engine ID, C68_configured, or has accepted a response)."
  },
  {
   "property": "C69",
   "status": "partial",
   "theorems": [
    "C69_answered_partial",
    "C69_discovered_partial",
    "C69_established_partial",
    "C69_sequential_partial",
    "C69_agent_discovered_partial",
    "C69_agent_established_partial",
    "C69_agent_sequential_partial",
    "C69_refuted"
   ],
   "note": "False of the code: a request that another thread sends while wait() of an expired request is about to reset the manager's state has its answer thrown away (C69_refuted). Proved for every manager used as documented, by one thread at a time, on a clock that does not run backwards, if the answer arrives in time, the first message of the request could be sent and, in a manager that had to discover the engine, so could every message sent because of a report (C69_sequential_partial); for managers that were not given the engine ID, under the same condition on reports, also with several threads (C69_discovered_partial), for all managers after the first authenticated response (C69_established_partial), and in every state in which the manager knows that it has sent something (C69_answered_partial); C69_agent_discovered_partial, C69_agent_established_partial and C69_agent_sequential_partial say the same of an agent that knows the credentials and answers the latest message with its own signed response."
  },
  {
   "property": "C70",
   "status": "partial",
   "theorems": [
    "C70_signed_partial",
    "C70_known",
    "C70_configured",
    "C70_expired",
    "C70_level_refuted",
    "C70_engine_refuted"
   ],
   "note": "(b) is proved in full (C70_expired, for others that release only what they registered). (a) is false of the code: a report need only be signed, so an authNoPriv report ends an authPriv request (C70_level_refuted), and its engine ID is compared with nothing, so a report signed by any other engine that the user has a key for ends the request (C70_engine_refuted). C70_signed_partial proves for every history that the report was signed with a key of the user (or of a user with an empty name) within the time window; C70_known that it was the user's, for the first wait() of every request made when the manager knows the engine (C70_configured: it was given the engine ID)."
  },
  {
   "property": "C71",
   "status": "proved",
   "theorems": [
    "C71_once"
   ],
   "note": "knows_engine (SpecUse.v): the engine ID was given, or a response was accepted that was signed, or was accepted before any signed response arrived. (A signed response whose engine ID is registered in another namespace is refused after the next state was set; this is why the last clause is needed.)"
  },
  {
   "property": "C72",
   "status": "proved",
   "theorems": [
    "C72_print",
    "C72_repr",
    "C72_pdu_print",
    "C72_pdu_repr",
    "C72_returned",
    "C72_v3_returned"
   ],
   "note": "bytes_repr (Repr.v) is CPython's repr() of bytes. Values whose octet strings were built from subbytes objects are not modelled (decoding copies). Python's format() of an IntEnum is taken to be that of its number."
  },
  {
   "property": "C73",
   "status": "proved",
   "theorems": [
    "C73_returned",
    "C73_error",
    "C73_v3_returned",
    "C73_v3_error"
   ],
   "note": "vb_wf (SpecPdu.v) says what is valid. For v3 the world is one in which the security module was used through its API (world_after) and the cipher returns octets (crypto_ok)."
  },
  {
   "property": "C74",
   "status": "proved",
   "theorems": [
    "C74_text",
    "C74_tells",
    "C74_raised",
    "C74_v3_raised"
   ],
   "note": ""
  },
  {
   "property": "C75",
   "status": "partial",
   "theorems": [
    "C75_first",
    "C75_again",
    "C75_otherwise",
    "C75_reported",
    "C75_own_refuted",
    "C75_order_refuted"
   ],
   "note": "The call that was sending raises OSError, everything else is as if the datagram had been sent (C75_first, C75_again, C75_otherwise, C75_reported). False of the code: wait() raises the OSError of another request that it was sending again (C75_own_refuted), and after that the heap is out of order, so that the next wait() blocks past the time at which another request is due (C75_order_refuted): request.refresh() raises before heapreplace()."
  },
  {
   "property": "C76",
   "status": "proved",
   "theorems": [
    "C76_answers",
    "C76_distinct",
    "C76_open",
    "C76_other"
   ],
   "note": "What the other managers do to the shared message processor are the MOther and MDie events of ManagerV1.v. The finer interleaving inside the processor is that of ProcConc.v (C23-C25)."
  },
  {
   "property": "C77",
   "status": "partial",
   "theorems": [
    "C77_as_sent",
    "C77_told",
    "C77_refusal",
    "C77_only",
    "C77_refuted",
    "C77_others_refuted",
    "C77_lost"
   ],
   "note": "Every refusal raises OSError in the step that was sending, with the same books as if it had been sent (C77_as_sent); the call that was sending raises it (C77_told), and OSError is raised for nothing else (C77_refusal, C77_only). False of the code: a datagram refused in the listener thread during discovery leaves the manager waiting for discovery, and every later answer is thrown away (C77_refuted); a datagram refused in poke() makes the manager forget the other queued requests (C77_others_refuted), which are then never sent (C77_lost). When answers are still delivered: C69_sequential_partial, C69_discovered_partial."
  },
  {
   "property": "C78",
   "status": "partial",
   "theorems": [
    "C78_refuted",
    "C78_pycryptodome_partial",
    "C78_sent_partial",
    "C78_received",
    "C78_libraries",
    "C78_openssl_1",
    "C78_openssl_3",
    "C78_openssl_3_refuted"
   ],
   "note": "Proved for PyCryptodome (C78_pycryptodome_partial), and for receiving, with PyCryptodome and OpenSSL 1.1, from any conforming agent (C78_received) and from the other library (C78_libraries). False of the code: with OpenSSL the ciphertext is followed by 1 to 16 zero octets (the whole output buffer is sent: C78_refuted, C78_sent_partial); and with OpenSSL 3 the last 8 octets of every DES message received are lost (C78_openssl_3, C78_openssl_3_refuted): EVP_DecryptFinal is never called and padding is never switched off. That OpenSSL 3 holds back the last block and OpenSSL 1.1 has written it is taken from those libraries."
  },
  {
   "property": "C79",
   "status": "partial",
   "theorems": [
    "C79_v12_live",
    "C79_v12_over",
    "C79_v3_live",
    "C79_v3_over",
    "C79_v3_others",
    "C79_close_partial",
    "C79_refuted",
    "C79_time_kept",
    "C79_time_refuted"
   ],
   "note": "Proved for the v1 and v2c managers (C79_v12_live, C79_v12_over) and for the v3 manager as ManagerV3.v models it, where close() does not run inside a send (C79_v3_live, C79_v3_over, C79_v3_others). False of the code in two ways: when close() of one thread pops a message that the listener has added to the request but not yet sent, the message's record is made afterwards and stays for ever (C79_refuted, with C79_close_partial: no other order of the steps leaks); and any unauthenticated datagram adds an engine to the table of clocks (C79_time_refuted), from which nothing is ever removed (C79_time_kept)."
  },
  {
   "property": "C80",
   "status": "partial",
   "theorems": [
    "C80_partial",
    "C80_refuted",
    "C80_own_refuted"
   ],
   "note": "C80_partial proves the claim under the further hypothesis engines_good: the engine IDs the manager holds are octet strings of reasonable length, and their clocks, as they would be sent, are within the limits of RFC 3414. Without it the code refutes the claim (C80_refuted): an unauthenticated report with the time 2147483647 makes wait() raise ValueError when the request is sent again a second later. It is not enough that the request itself can be sent (C80_own_refuted): wait() also sends other requests, and raises what that raises."
  },
  {
   "property": "C81",
   "status": "proved",
   "theorems": [
    "C81_manager",
    "C81_available",
    "C81_request",
    "C81_community"
   ],
   "note": "C81_manager: the defaults of a new SNMPv3 manager; C81_available: the defaults are never missing; C81_request and C81_community: what every message sent has, from the calls on the Engine to the message. The rules of the documentation are stated over the list of successful addUser() calls (SpecDefaults.v), and name a single user (default_user_unique)."
  },
  {
   "property": "C82",
   "status": "proved",
   "theorems": [
    "C82_distinct",
    "C82_taken",
    "C82_not_taken",
    "C82_own",
    "C82_undisturbed",
    "C82_undisturbing",
    "C82_open"
   ],
   "note": "The other managers are the events VOther (one of them sends a message) and VOtherDone (it is done with it) of ManagerV3.v, anywhere in a history, so all theorems about the SNMPv3 manager hold with them. C82_distinct: no two outstanding messages share an ID; C82_taken, C82_not_taken, C82_own: what reaches a manager came for a message of its own; C82_undisturbed, C82_undisturbing: neither side changes anything of the other; C82_open: a message stays answerable until its request is over."
  },
  {
   "property": "C83",
   "status": "proved",
   "theorems": [
    "C83_time",
    "C83_timely",
    "C83_window",
    "C83_resent",
    "C83_heals",
    "C83_sequential"
   ],
   "note": "C83_resent and C83_heals: what the listener does with the report in any state of the manager but the two in which it believes that nothing was sent; C83_sequential: one thread at a time, and no such state is reached. C83_time: whatever is sent with authentication while the listener is busy with the news has that time, whoever sends it; C83_timely: and is in the agent's window; C83_window: authenticated, but no news. Sending may fail (the alternative in the conclusions): what that does is C77. [news] is stated over the messages of the engine processed before (SpecSync.v)."
  },
  {
   "property": "C84",
   "status": "proved",
   "theorems": [
    "C84_delivered",
    "C84_answered",
    "C84_heals",
    "C84_made"
   ],
   "note": "C84_heals is the whole story, from the method call to what wait() gives, for one thread at a time (in_sequence, as C69). C84_made: when the message is not sent, and why. C84_delivered and C84_answered are its two halves, for other threads and events in between. The agent is another copy of the security module with its own history and clock (SpecUse.v, SpecAnswer.v); [in_step] (SpecHeal.v): its time is where it said it was."
  },
  {
   "property": "C85",
   "status": "proved",
   "theorems": [
    "C85_resent",
    "C85_discovers",
    "C85_made"
   ],
   "note": "C85_discovers is the whole story, from the method call to what wait() gives, for one thread at a time (in_sequence, as C69). C85_resent: what the listener does with the report, for any number of threads; C85_made: when the message is not sent, and why. cold_delivered and cold_answered in PropertiesCold.v are the two halves. The agent is another copy of the security module with its own history and clock."
  },
  {
   "property": "C86",
   "status": "proved",
   "theorems": [
    "C86_first_contact"
   ],
   "note": "C86_first_contact: the history goes on from where C85_discovers ends, whatever the first report said of the time, and meets the hypotheses of C84_heals when the second report comes. For one thread at a time, as C69. The exceptions by which a message is not sent are those of C85_made and C84_made."
  }
 ]
}