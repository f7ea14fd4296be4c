{"id": "C01", "title": "BER tags round-trip", "statement": "For every tag (class universal/application/context/private, primitive or constructed, any non-negative number), Tag.encode() followed by any bytes is decoded by Tag.decode() to an equal tag, leaving exactly the following bytes; two different tags never have encodings where one is a prefix of the other.", "quantifier": "every tag number (unbounded), class, constructed flag and every trailing byte string", "why_tests_cant": "tag numbers and trailing data are unbounded; the multi-byte form has a loop whose number of iterations depends on the value", "anchors": ["snmp/ber.py:Tag.encode", "snmp/ber.py:Tag.decode"]}
{"id": "C02", "title": "BER length fields round-trip", "statement": "For every length below 256^127, the encoded length field followed by any bytes decodes to that length and leaves exactly those bytes; any greater length is refused with EncodeError; lengths below 128 take one byte and longer ones use the minimal number of length octets.", "quantifier": "every natural number length and every trailing byte string", "why_tests_cant": "the length is unbounded and the boundary (127 octets of length) cannot be reached by a test", "anchors": ["snmp/ber.py:encode_length", "snmp/ber.py:decode_length"]}
{"id": "C03", "title": "TLV encode/decode round-trip", "statement": "decode(encode(tag, data) + rest, leftovers=True) returns tag, data and rest, for every tag, payload and rest; without leftovers it succeeds exactly when rest is empty (Trailing bytes otherwise); with an expected tag it succeeds exactly when the tags are equal.", "quantifier": "every tag, payload, trailing bytes and combination of expected/leftovers/copy options", "why_tests_cant": "payloads are unbounded and all option combinations must agree", "anchors": ["snmp/ber.py:decode", "snmp/ber.py:encode"]}
{"id": "C04", "title": "BER decode is total and only raises ParseError", "statement": "For every byte string and every combination of options, ber.decode() terminates and either returns or raises ParseError (never IndexError, OverflowError or a hang); when it returns, the body and the leftovers are contiguous pieces of the input, in order, with the leftovers being exactly the end of the input, and the declared length equals the body length.", "quantifier": "every byte string (including truncated and malicious ones)", "why_tests_cant": "inputs come from the network; the input space is infinite and adversarial", "anchors": ["snmp/ber.py:decode", "snmp/ber.py:Tag.decode", "snmp/ber.py:decode_length", "snmp/utils.py:subbytes"]}
{"id": "C05", "title": "INTEGER encoding is exact, minimal two's complement", "statement": "For every integer v, decoding the encoding of v returns v, and the encoding is the shortest big-endian two's-complement form (at least one byte; the first nine bits are never all equal).", "quantifier": "every integer, unbounded in size and sign", "why_tests_cant": "sign/size boundaries occur at every power of 2^8; a test can only sample them", "anchors": ["snmp/asn1.py:INTEGER.serialize", "snmp/asn1.py:INTEGER.deserialize", "snmp/asn1.py:INTEGER.bitCount"]}
{"id": "C06", "title": "Bounded integer types accept exactly their range", "statement": "Integer32 accepts exactly -2^31..2^31-1, Unsigned32/Counter32/Gauge32/TimeTicks exactly 0..2^32-1 and Counter64 exactly 0..2^64-1: the constructor raises ValueError, and decoding raises ParseError, exactly outside the range.", "quantifier": "every integer and every encoded integer", "why_tests_cant": "range membership is decided through bit counting; the property is an equivalence over all integers", "anchors": ["snmp/smi.py:BoundedInteger", "snmp/smi.py:Integer32", "snmp/smi.py:Unsigned32", "snmp/smi.py:Counter64"]}
{"id": "C07", "title": "OIDs survive encoding", "statement": "For every OID with at least two sub-identifiers that the OID constructor accepts, decoding its encoding yields an equal OID (OIDs shorter than two are decoded as if zero-extended).", "quantifier": "every sequence of sub-identifiers accepted by the constructor", "why_tests_cant": "the space of OIDs is infinite, and a failure can be confined to particular pairs of leading sub-identifiers", "anchors": ["snmp/asn1.py:OBJECT_IDENTIFIER.serialize", "snmp/asn1.py:OBJECT_IDENTIFIER.deserialize", "snmp/smi.py:OID"]}
{"id": "C08", "title": "Truncated OID encodings are rejected", "statement": "If the content of an OBJECT IDENTIFIER ends in the middle of a sub-identifier (last byte has its continuation bit set) or is empty, decoding raises ParseError.", "quantifier": "every byte string", "why_tests_cant": "adversarial inputs; the bad case hides in one specific final byte", "anchors": ["snmp/asn1.py:OBJECT_IDENTIFIER.deserialize"]}
{"id": "C09", "title": "OID comparison is the lexicographic total order and prefix tests agree with it", "statement": "OID < is a strict total order equal to lexicographic order on sub-identifiers; equality is sequence equality; startswith(prefix) holds exactly if the OID is prefix followed by some sub-identifiers, and then prefix <= OID.", "quantifier": "every pair/triple of OIDs", "why_tests_cant": "order axioms quantify over triples of unbounded sequences", "anchors": ["snmp/asn1.py:OBJECT_IDENTIFIER.__lt__", "snmp/asn1.py:OBJECT_IDENTIFIER.startswith"]}
{"id": "C10", "title": "OID text form round-trips", "statement": "OID.parse(str(oid)) equals oid for every OID, also with one leading dot; parse raises nothing but ValueError.", "quantifier": "every OID and every string", "why_tests_cant": "unbounded numbers and strings", "anchors": ["snmp/asn1.py:OBJECT_IDENTIFIER.parse", "snmp/asn1.py:OBJECT_IDENTIFIER.__str__"]}
{"id": "C11", "title": "Table index encoding round-trips", "statement": "For every prefix and every list of index objects (Integer, OctetString, OID, IpAddress, ...), prefix.withIndex(*objs, implied=i).decodeIndex(prefix, *types, implied=i) returns equal objects, whenever withIndex succeeds.", "quantifier": "every prefix, every list of index objects of every type, and both values of implied", "why_tests_cant": "lists of heterogeneous, variable-length objects; ambiguity can arise only for special combinations", "anchors": ["snmp/asn1.py:OBJECT_IDENTIFIER.withIndex", "snmp/asn1.py:OBJECT_IDENTIFIER.decodeIndex", "snmp/smi.py:IpAddress.asOID"]}
{"id": "C12", "title": "decodeIndex fails only with BadPrefix or IndexDecodeError", "statement": "For every OID, prefix and list of types, decodeIndex either returns a tuple with one object per type, or raises BadPrefix exactly when the OID does not begin with the prefix, or raises IndexDecodeError.", "quantifier": "every OID (for instance received from an agent), prefix and list of types", "why_tests_cant": "OIDs come from remote agents; the documented exception contract is universal", "anchors": ["snmp/asn1.py:OBJECT_IDENTIFIER.decodeIndex", "snmp/asn1.py:OCTET_STRING.fromOID", "snmp/asn1.py:OBJECT_IDENTIFIER.fromOID"]}
{"id": "C13", "title": "Variable bindings round-trip with their exact type", "statement": "For every variable binding whose value is any of the SNMP value types and whose name is an encodable OID, decoding the encoding yields an equal binding of the same type; the value type is determined by the tag alone and unknown tags are rejected with ParseError.", "quantifier": "every OID name and every value of every SNMP type", "why_tests_cant": "product of infinite domains across thirteen types", "anchors": ["snmp/pdu.py:VarBind", "snmp/pdu.py:VarBindList"]}
{"id": "C14", "title": "PDUs round-trip", "statement": "For every PDU of each of the eight kinds whose fields are in range, decode(encode(pdu)) returns an equal PDU: same request ID, same error status/index or non-repeaters/max-repetitions, the same variable bindings in the same order.", "quantifier": "every PDU kind, field value and list of variable bindings of any length", "why_tests_cant": "lists of unbounded length over infinite domains", "anchors": ["snmp/pdu.py:PDU", "snmp/pdu.py:BulkPDU"]}
{"id": "C15", "title": "PDU decoding enforces the field rules", "statement": "A decoded PDU always has a known error status, its error index never exceeds its number of variable bindings and is never negative when the error status is non-zero; a decoded GetBulk PDU has non-negative non-repeaters and max-repetitions; request IDs are in the signed 32-bit range.", "quantifier": "every byte string", "why_tests_cant": "adversarial inputs from the network", "anchors": ["snmp/pdu.py:PDU.deserialize", "snmp/pdu.py:BulkPDU.deserialize"]}
{"id": "C16", "title": "Community messages round-trip", "statement": "For every SNMPv1/v2c message (version, community up to 65535 bytes, PDU), decoding the encoding returns the same version, community and PDU.", "quantifier": "every community string and PDU", "why_tests_cant": "infinite domain", "anchors": ["snmp/message/core.py:Message"]}
{"id": "C17", "title": "Message decoding only raises incoming-message errors", "statement": "For every byte string, decoding as a version-only, SNMPv1/v2c or SNMPv3 message or as USM security parameters terminates and either returns a well-formed message or raises an IncomingMessageError (ParseError, BadVersion, InvalidMessage, UnknownSecurityModel); no other exception escapes.", "quantifier": "every byte string", "why_tests_cant": "adversarial inputs from the network; a single escaping exception type breaks the contract", "anchors": ["snmp/message/core.py:Message.deserialize", "snmp/message/v3.py:SNMPv3Message.deserialize", "snmp/message/version.py:VersionOnlyMessage", "snmp/security/usm/parameters.py:UsmSecurityParameters.deserialize"]}
{"id": "C18", "title": "SNMPv3 messages round-trip", "statement": "For every SNMPv3 message (message ID, size limit, flags, security model, security parameters, plaintext scoped PDU or ciphertext), decoding the encoding returns the same header, security parameters and scoped PDU or ciphertext.", "quantifier": "every header, security parameter string, context and PDU", "why_tests_cant": "infinite domain, nested variable-length structures", "anchors": ["snmp/message/v3.py:SNMPv3Message", "snmp/message/v3.py:HeaderData", "snmp/message/v3.py:ScopedPDU"]}
{"id": "C19", "title": "Message flags: privacy implies authentication", "statement": "A decoded message never has the privacy flag without the authentication flag (such messages are rejected), flags round-trip through their byte, and extra flag bits are ignored.", "quantifier": "every flags byte string and every security level", "why_tests_cant": "adversarial inputs; security invariant", "anchors": ["snmp/message/v3.py:MessageFlags", "snmp/security/levels.py:SecurityLevel"]}
{"id": "C20", "title": "Security levels are totally ordered", "statement": "noAuthNoPriv < authNoPriv < authPriv is a strict total order with >= its complement, no level with privacy but without authentication can be constructed.", "quantifier": "every pair and triple of security levels and all constructor arguments", "why_tests_cant": "order laws range over triples; used for every response check", "anchors": ["snmp/security/levels.py:SecurityLevel"]}
{"id": "C21", "title": "Number generator produces each n-bit number exactly once, zero last", "statement": "For every size n >= 1 and every random step, the first 2^n numbers are pairwise distinct, all within the signed (or unsigned) n-bit range, only the last is 0, and the sequence then repeats.", "quantifier": "every n, every random draw, every position in the sequence", "why_tests_cant": "for n = 32 the period is 2^32; a test can exhaust only tiny n", "anchors": ["snmp/utils.py:NumberGenerator"]}
{"id": "C22", "title": "subbytes behaves like the slice it represents", "statement": "subbytes(data, start, stop) - possibly nested - has the same length, elements, iteration, indexing, slicing, truth value and splits as data[start:stop], and replace() substitutes exactly that part of the underlying data.", "quantifier": "every byte string, every start/stop (positive, negative, out of range, absent), every nesting depth, every index", "why_tests_cant": "slice clamping with negative and out-of-range indices at arbitrary nesting", "anchors": ["snmp/utils.py:subbytes"]}
{"id": "C23", "title": "Outstanding request/message IDs are unique, non-zero and never clobbered", "statement": "Whatever the interleaving of sends, responses, closes and garbage collection across threads, an ID handed out by a message processor is non-zero, in range, different from the ID of every other outstanding request, and the entry of an outstanding request is not changed or removed until that request is closed or collected.", "quantifier": "every interleaving of atomic operations of any number of threads, every sequence of random draws", "why_tests_cant": "schedules and histories are unbounded; collisions need a wrap-around after 2^32 requests", "anchors": ["snmp/message/v1.py:SNMPv1MessageProcessor.cache", "snmp/message/v2c.py:SNMPv2cMessageProcessor.cache", "snmp/message/v3.py:SNMPv3MessageProcessor.cache"]}
{"id": "C24", "title": "ID allocation succeeds when few requests are outstanding", "statement": "With at most four outstanding requests, allocating an ID never fails; it can fail only by CacheError, after exactly ten attempts, leaving the outstanding requests unchanged.", "quantifier": "every generator position, every random draw, every set of outstanding IDs", "why_tests_cant": "depends on generator wrap-around positions a test cannot reach", "anchors": ["snmp/message/v1.py:SNMPv1MessageProcessor.cache", "snmp/message/v3.py:SNMPv3MessageProcessor.cache"]}
{"id": "C25", "title": "SNMPv1/v2c responses reach only the request they answer", "statement": "Over every history, a received datagram is handed to a request only if it is a well-formed Response PDU whose request ID was allocated to that request, whose community equals the request's community, at a moment (the lookup of the ID) when the close() of the request had not completed, and the request has not been collected; in every other case nothing is handed over.", "quantifier": "every history of sends, closes, collections and received byte strings", "why_tests_cant": "adversarial datagrams and unbounded histories", "anchors": ["snmp/message/v1.py:SNMPv1MessageProcessor.prepareDataElements", "snmp/message/v2c.py:SNMPv2cMessageProcessor.prepareDataElements"]}
{"id": "C26", "title": "Retransmissions of a v1/v2c request are identical", "statement": "Sending the same request again (refresh) produces exactly the same bytes with the same request ID and allocates nothing.", "quantifier": "every request, community and processor state", "why_tests_cant": "must hold for every state between the first and the later transmissions", "anchors": ["snmp/message/v1.py:SNMPv1MessageProcessor.prepareOutgoingMessage"]}
{"id": "C27", "title": "SNMPv3 responses reach only the request message they answer", "statement": "A received SNMPv3 message is handed to a request message only if it passed the security module, is a Response or Report, its msgID is outstanding, the user name and context name equal those of the request; and, unless it is a Report, its security level is at least the request message's and its security engine ID and context engine ID equal the request message's.", "quantifier": "every processor state and every received byte string", "why_tests_cant": "adversarial datagrams, all combinations of mismatching fields", "anchors": ["snmp/message/v3.py:SNMPv3MessageProcessor.prepareDataElements"]}
{"id": "C28", "title": "An unauthenticated response is never accepted for an authenticated request", "statement": "wait() on an SNMPv3 request made with securityLevel L never returns variable bindings taken from a message received with a security level below L.", "quantifier": "every history of requests, reports and (spoofed) responses", "why_tests_cant": "needs an adversarial interleaving of discovery and responses", "anchors": ["snmp/manager/v3.py:Request.processResponse", "snmp/manager/v3.py:SNMPv3UsmManager.processResponse", "snmp/manager/v3.py:Request.reallySend"]}
{"id": "C29", "title": "USM time window accepts exactly the timely messages", "statement": "An authenticated message (boots, time) is accepted as timely exactly when boots is below 2^31-1 and, if an authenticated message of that engine was processed before, boots exceeds the local notion of boots, or equals it with time at most 150 seconds behind the local notion of time; otherwise NotInTimeWindow. Processing it moves the local notion to the later of the two.", "quantifier": "every history of authentic and unauthenticated messages, every boots/time/timestamp", "why_tests_cant": "histories and clock values are unbounded", "anchors": ["snmp/security/usm/timekeeper.py:TimeKeeper.updateAndVerify", "snmp/security/usm/timekeeper.py:EngineTime.update"]}
{"id": "C30", "title": "The notion of a remote engine's time never moves backwards and cannot be forged", "statement": "Once an authenticated message from an engine has been processed, unauthenticated messages never change what is known about that engine, and over any later history (with a non-decreasing clock) the pair (boots, time) reported for it never decreases; other engines' entries are never affected.", "quantifier": "every history of hints, authenticated updates and queries for any number of engines", "why_tests_cant": "monotonicity over unbounded histories", "anchors": ["snmp/security/usm/timekeeper.py:TimeKeeper.hint", "snmp/security/usm/timekeeper.py:TimeKeeper.updateAndVerify"]}
{"id": "C31", "title": "Remote engines are registered under one namespace, reference counted", "statement": "An engine ID belongs to at most one namespace; registering it under another namespace is refused while any registration is live; it stays registered as long as there are more successful registrations than releases and is forgotten exactly when they balance.", "quantifier": "every history of register/unregister/addUser operations", "why_tests_cant": "counting over unbounded interleaved histories", "anchors": ["snmp/security/usm/users.py:UserRegistry", "snmp/security/usm/users.py:RemoteEngine"]}
{"id": "C32", "title": "Credentials used for an engine are those of its namespace", "statement": "Over every history, looking up (engine, user) yields exactly the localisation to that engine of the credentials last configured for that user in the namespace the engine is registered under; InvalidEngineID exactly if the engine is not registered, InvalidUserName exactly if the namespace has no such user.", "quantifier": "every history of addUser/register/unregister, whether users are added before or after the engine is registered", "why_tests_cant": "order of operations is arbitrary; the invariant relates two tables", "anchors": ["snmp/security/usm/users.py:UserRegistry.addUser", "snmp/security/usm/users.py:UserRegistry.assign", "snmp/security/usm/users.py:UserRegistry.getCredentials"]}
{"id": "C33", "title": "User configuration rules", "statement": "A user's default security level never exceeds what its credentials support; a failed addUser leaves all users, credentials, default levels and default users unchanged (a namespace that did not exist may come to exist without users); an existing user can be re-added only with an identical configuration; every namespace with a user has a default user, which is the last one added with default=True or else the first one added.", "quantifier": "every history of addUser calls, failing or not", "why_tests_cant": "unbounded histories with failures", "anchors": ["snmp/security/usm/users.py:NamespaceConfig.addUser", "snmp/security/usm/users.py:UserConfig", "snmp/security/usm/credentials.py:Credentials"]}
{"id": "C34", "title": "Password-to-key hashes exactly one mebibyte of repeated password", "statement": "For every non-empty password, computeKey hashes exactly the 2^20-byte string whose i-th byte is password[i mod len(password)] (RFC 3414 A.2); localizeKey hashes key, engineID, key; the empty password is refused.", "quantifier": "every non-empty password of any length and every hash function", "why_tests_cant": "passwords are unbounded; the truncation depends on length mod 2^20", "anchors": ["snmp/security/usm/auth.py:HmacAuthProtocol.computeKey", "snmp/security/usm/auth.py:HmacAuthProtocol.localizeKey"]}
{"id": "C35", "title": "Outgoing authenticated messages carry a signature that verifies", "statement": "Whenever an authenticated outgoing message is produced, it is the encoded message with only the authentication-parameters field replaced, that field holds the MAC of the message with that field zeroed, and a receiver with the same key, doing what processIncoming does, accepts the digest.", "quantifier": "every message, engine ID, user name, key and MAC function of the right length", "why_tests_cant": "locating the field inside nested variable-length encodings must be right for every length combination", "anchors": ["snmp/security/usm/implementation.py:UserBasedSecurityModule.prepareOutgoing", "snmp/security/usm/parameters.py:UsmSecurityParameters.findSignature", "snmp/message/v3.py:SNMPv3Message.findSecurityParameters"]}
{"id": "C36", "title": "An incoming authenticated message is accepted only if its MAC verifies over the whole message", "statement": "If processing an incoming message with the auth flag succeeds then the user is known for that engine with authentication enabled (and privacy if the priv flag is set), the received digest has the protocol's length and equals the MAC, under the localized key, of the complete received datagram with exactly the digest field zeroed, and the message was timely.", "quantifier": "every received byte string and every user/time state", "why_tests_cant": "adversarial inputs", "anchors": ["snmp/security/usm/implementation.py:UserBasedSecurityModule.processIncoming"]}
{"id": "C37", "title": "Privacy: what is encrypted can be decrypted", "statement": "For every plaintext, engine boots/time and key, and any block cipher, decrypting the ciphertext with the transmitted salt yields the plaintext followed only by padding, for both AES-CFB128 and DES-CBC; the scoped PDU decoded from it equals the one encrypted.", "quantifier": "every plaintext length, salt state, boots/time in range, every block cipher permutation", "why_tests_cant": "padding depends on length; the property is for all lengths and ciphers", "anchors": ["snmp/security/usm/priv/pycryptodome/aes.py:AesCfb128", "snmp/security/usm/priv/pycryptodome/des.py:DesCbc", "snmp/security/usm/priv/openssl/__init__.py:Envelope.process"]}
{"id": "C38", "title": "Privacy salts do not repeat", "statement": "For a localized key, any two of 2^64 (AES) or 2^32 (DES) consecutive encryptions use different salts; for AES the IVs differ too, and for DES with unchanged boots.", "quantifier": "every starting salt and every pair of encryptions in a history", "why_tests_cant": "period of 2^64", "anchors": ["snmp/security/usm/priv/pycryptodome/aes.py:AesCfb128.encrypt", "snmp/security/usm/priv/pycryptodome/des.py:DesCbc.encrypt"]}
{"id": "C39", "title": "Any datagram is handled without an exception escaping", "statement": "For every datagram and processor state, Dispatcher.hear() returns normally, hands over at most one message, only via the processor registered for the datagram's version field, and datagrams with an unknown or unregistered version change nothing.", "quantifier": "every byte string and every registered set of processors", "why_tests_cant": "an escaping exception would kill the listener thread; inputs are adversarial", "anchors": ["snmp/dispatcher.py:Dispatcher.hear"]}
{"id": "C40", "title": "Retransmission schedule", "statement": "While unanswered and unexpired, a request is retransmitted only when its next-refresh time has been reached, the next-refresh time never exceeds the expiration, it advances by whole periods to not before the current time, and nothing is sent at or after expiration or once answered.", "quantifier": "every timeout, positive period, and sequence of clock readings", "why_tests_cant": "clock readings are arbitrary", "anchors": ["snmp/manager/v1.py:Request.refresh", "snmp/manager/v3.py:Request.refresh"]}
{"id": "C41", "title": "Each refresh moves the next retransmission into the future", "statement": "After a refresh that retransmits at time t, the next refresh of the same request is due strictly after t.", "quantifier": "every timeout, period and clock reading", "why_tests_cant": "the failing case is a measure-zero coincidence of clock values", "anchors": ["snmp/manager/v1.py:Request.refresh"]}
{"id": "C42", "title": "wait() terminates by the expiration", "statement": "wait() on a v1/v2c request never blocks without a time limit: each time it blocks, the limit is at most the time left until the request's expiration; when the expiration passes it raises Timeout.", "quantifier": "every sequence of clock readings, including expiry between two consecutive readings, and every set of concurrent requests of the manager", "why_tests_cant": "depends on a race between consecutive clock readings", "anchors": ["snmp/manager/v1.py:Request.wait", "snmp/manager/v1.py:SNMPv1Manager.refresh"]}
{"id": "C43", "title": "The manager always refreshes the most urgent request first", "statement": "When a manager decides how long to sleep, the wait it computes is not longer than the time to the earliest next-refresh of any live, unanswered request it is responsible for.", "quantifier": "every history of requests with arbitrary timeouts and periods", "why_tests_cant": "the heap order can be broken only by particular combinations of periods and timeouts", "anchors": ["snmp/manager/v1.py:SNMPv1Manager.sendRequest", "snmp/manager/v1.py:SNMPv1Manager.refresh", "snmp/manager/v3.py:SNMPv3UsmManager.refresh"]}
{"id": "C44", "title": "wait() outcome", "statement": "wait() returns the variable bindings of the delivered response if its error status is zero, raises ErrorResponse if not, and raises Timeout (v3: the stored report exception, if any) exactly if no response was delivered; a v3 response delivered before an authenticated report wins over stored unauthenticated reports.", "quantifier": "every order of responses, reports and expiry", "why_tests_cant": "schedules", "anchors": ["snmp/manager/v1.py:Request.wait", "snmp/manager/v3.py:Request.wait", "snmp/manager/v3.py:Request.processException"]}
{"id": "C45", "title": "ErrorResponse points at the right variable binding", "statement": "For every decoded response with non-zero error status, ErrorResponse.cause is the request itself for index 0, the index-th (1-based) variable binding of the request for 1 <= index <= number of bindings, and the index itself otherwise.", "quantifier": "every response PDU and request PDU", "why_tests_cant": "Python's negative indexing makes off-by-one errors silent", "anchors": ["snmp/pdu.py:ErrorResponse"]}
{"id": "C46", "title": "No user data is sent before the remote engine is known", "statement": "Over every history of a v3 manager, the only messages sent with an empty engine ID are empty Get requests with an empty user name and no security; every message carrying the user's PDU, user name and requested security level is addressed to a non-empty known engine ID: the configured one, or one reported by the peer.", "quantifier": "every history of requests, reports, responses, refreshes and pokes", "why_tests_cant": "histories and interleavings", "anchors": ["snmp/manager/v3.py:Request.reallySend", "snmp/manager/v3.py:SNMPv3UsmManager.sendRequest"]}
{"id": "C47", "title": "v3 requests are not lost or duplicated by discovery", "statement": "Every live request made through a v3 manager is either active (scheduled for retransmission) or queued unsent, never both; queued requests are sent in the order they were made once the engine is discovered.", "quantifier": "every history", "why_tests_cant": "histories and interleavings", "anchors": ["snmp/manager/v3.py:SNMPv3UsmManager.sendRequest", "snmp/manager/v3.py:SNMPv3UsmManager.onReport", "snmp/manager/v3.py:SNMPv3UsmManager.poke"]}
{"id": "C48", "title": "Time-synchronisation reports cannot cause a resend storm", "statement": "In any history of a v3 request, the number of immediate retransmissions triggered by notInTimeWindow reports is at most the number of transmissions triggered otherwise: replaying or duplicating such a report never triggers a second resend for the same transmission round.", "quantifier": "every history of reports, including replays", "why_tests_cant": "unbounded adversarial replays", "anchors": ["snmp/manager/v3.py:RequestMessage.push", "snmp/manager/v3.py:Request.processNotInTimeWindow"]}
{"id": "C49", "title": "v3 manager trusts an engine ID only as documented", "statement": "Once an authenticated response has been processed, only authenticated responses can change the engine ID the manager uses; with a user-supplied engine ID an unauthenticated response never changes it.", "quantifier": "every history of reports and responses in every manager state", "why_tests_cant": "state-machine histories", "anchors": ["snmp/manager/v3.py:State", "snmp/manager/v3.py:SNMPv3UsmManager.processResponse"]}
{"id": "C50", "title": "Address normalisation", "statement": "normalizeAddress fills in the default host and the usage's default port exactly when they are absent, returns only addresses valid for the domain and ports 0..65535, never port 0 for a listener address, and rejects everything else with ValueError/TypeError; it is idempotent.", "quantifier": "every address value and usage", "why_tests_cant": "idempotence and acceptance are universal", "anchors": ["snmp/transport/udp.py:UdpSocket.normalizeAddress"]}
{"id": "C51", "title": "Engine.Manager reuses transports and processors", "statement": "Over every history of Manager() calls there is at most one transport per (domain, local address) and one message processor per version, each connected/registered exactly once, and the returned manager is of the requested (or default) version with the requested or default community/user/security level.", "quantifier": "every history of Manager calls", "why_tests_cant": "histories", "anchors": ["snmp/engine.py:Engine.Manager", "snmp/engine.py:Engine.v1Manager", "snmp/engine.py:Engine.v3Manager"]}
{"id": "C52", "title": "The listener delivers every datagram once, in order, and stops when told", "statement": "The multiplexor's listen loop passes every received datagram exactly once and in order to the listener, and returns after the poll round in which the stop signal becomes readable, not before.", "quantifier": "every sequence of poll results", "why_tests_cant": "schedules", "anchors": ["snmp/transport/posix/udp.py:PosixUdpMultiplexor.listen", "snmp/transport/generic/udp.py:GenericUdpMultiplexor.listen"]}
{"id": "C53", "title": "End-to-end SNMPv3 exchange", "statement": "A message prepared by one USM instance at any security level and processed by another USM instance that has the same user credentials for the engine, synchronised clocks, yields the same scoped PDU, context, user name, engine ID and header.", "quantifier": "every PDU, context, engine, user, security level, MAC and block cipher", "why_tests_cant": "composition of all codecs, signing and encryption for every input", "anchors": ["snmp/message/v3.py:SNMPv3MessageProcessor", "snmp/security/usm/implementation.py:UserBasedSecurityModule"]}
{"id": "C54", "title": "The time window agrees with RFC 3414 3.2(7b) to the letter", "statement": "For every sequence of authenticated messages of an engine, the timeliness verdict equals the one RFC 3414 section 3.2 step 7b gives, with its own synchronisation rule (resynchronise when the message's time exceeds the latest received engine time).", "quantifier": "every sequence of authenticated messages with a non-decreasing local clock", "why_tests_cant": "depends on unbounded histories of clock drift", "anchors": ["snmp/security/usm/timekeeper.py:EngineTime.update", "snmp/security/usm/timekeeper.py:TimeKeeper.updateAndVerify"]}
{"id": "C55", "title": "The security module fails only with the errors meant for it", "statement": "For every datagram that parses as an SNMPv3 message and every reachable state, processing it in the security module either succeeds or raises an IncomingMessageError; and a peer's unauthenticated message can never make a later outgoing message fail.", "quantifier": "every datagram, every history of user configuration, sent and received messages", "why_tests_cant": "all byte strings and all histories", "anchors": ["snmp/security/usm/implementation.py:UserBasedSecurityModule.processIncoming", "snmp/security/usm/implementation.py:UserBasedSecurityModule.prepareOutgoing"]}
{"id": "C56", "title": "wait() on an SNMPv3 request never sleeps past the expiration", "statement": "Each time wait() on an SNMPv3 request blocks, the limit it blocks for is at most the time left until that request's expiration.", "quantifier": "every history of requests, sends, reports, responses, closed requests and clock readings of one SNMPv3 manager", "why_tests_cant": "The sleep is decided by whichever request is first in the manager's heap at that moment; tests use one request.", "anchors": ["snmp/manager/v3.py:Request.wait", "snmp/manager/v3.py:SNMPv3UsmManager.refresh", "snmp/manager/v3.py:SNMPv3UsmManager.poke"]}
{"id": "C57", "title": "The listener runs whenever a transport is connected", "statement": "Once connectTransport() has returned, and until connectTransport() or shutdown() is called again, a listener thread is running that polls every connected transport.", "quantifier": "every history of connectTransport/shutdown calls, datagrams, poll results and failing receives, at every point of the listener's loop", "why_tests_cant": "Needs every interleaving of the caller with the listener thread and every failure of recvfrom().", "anchors": ["snmp/dispatcher.py:Dispatcher.connectTransport", "snmp/dispatcher.py:Dispatcher.shutdown", "snmp/transport/posix/udp.py:PosixUdpMultiplexor.listen"]}
{"id": "C58", "title": "Engine.Manager() fails only for a reason, and says which", "statement": "After every history of calls, Manager() returns a manager unless: the domain is not supported (ValueError), an address is invalid (ValueError or TypeError), the socket cannot be bound (OSError), the version, security model or keyword arguments do not exist (ValueError, TypeError), no user has been added (NoDefaultUser), the user named is unknown, or the engine ID is in use in another namespace (DiscoveryError); each of these raises the error given, and a failed call leaves users and registrations as they were.", "quantifier": "every history of Manager, connectTransport, addUser and engine registration calls, every argument, every outcome of bind()", "why_tests_cant": "All argument combinations after all histories; the reason depends on sockets opened and users configured by earlier calls.", "anchors": ["snmp/engine.py:Engine.Manager", "snmp/engine.py:Engine.v1Manager", "snmp/engine.py:Engine.v2cManager", "snmp/engine.py:Engine.v3Manager", "snmp/engine.py:NoDefaultUser"]}
{"id": "C59", "title": "Engine.connectTransport() accepts a transport for any unhandled domain, and managers use it", "statement": "connectTransport() accepts a transport of a supported domain if and only if no transport is connected for the domain, else raises ValueError without effect; afterwards a manager for the domain and the default local address uses that transport.", "quantifier": "every history of Manager, connectTransport and user calls, including calls that failed", "why_tests_cant": "Histories with failed calls in between; the check looks at a dictionary which failed calls also change.", "anchors": ["snmp/engine.py:Engine.connectTransport", "snmp/engine.py:Engine.Manager"]}
{"id": "C60", "title": "Everything sent is a well-formed BER encoding of the message meant", "statement": "Whenever a message, SNMPv3 message, scoped PDU or set of USM security parameters is encoded, the octets are exactly those the ASN.1 modules of RFC 1157, 3416, 3412 and 3414 prescribe under X.690 for that value: right identifier octets, definite minimal lengths, shortest integers, base-128 object identifiers, in the right order.", "quantifier": "every message that can be constructed from in-range fields, of any size", "why_tests_cant": "Round-trip tests cannot notice an encoder and a decoder that agree with each other and not with the standard; tests compare a few literals.", "anchors": ["snmp/ber.py:encode", "snmp/asn1.py:ASN1.encode", "snmp/asn1.py:ASN1.encode", "snmp/pdu.py:PDU.serialize", "snmp/message/core.py:Message", "snmp/message/v3.py:SNMPv3Message", "snmp/security/usm/parameters.py"]}
{"id": "C61", "title": "Every standard form of a message is understood, with its meaning", "statement": "Every octet string that is a BER encoding of a message under the RFCs' ASN.1 modules, in any of the forms X.690 allows a sender (long lengths, padded lengths, long-form identifiers, padded integers), is decoded without an error and to exactly the message it encodes.", "quantifier": "every message and every one of its unboundedly many BER forms", "why_tests_cant": "The forms of one message are infinitely many; tests use the shortest one.", "anchors": ["snmp/ber.py:decode", "snmp/asn1.py:ASN1.decode", "snmp/asn1.py:ASN1.decode", "snmp/pdu.py:PDU.deserialize", "snmp/message/core.py:Message.deserialize", "snmp/message/v3.py:SNMPv3Message.deserialize"]}
{"id": "C62", "title": "A request method sends exactly what it was asked for", "statement": "After manager.get/getNext/getBulk/set with names given as text (with or without a leading dot) or as OIDs, every datagram sent for that request, first or repeated, in every history, is the encoding of the message with the manager's version, the community given (or the default), a PDU of the method's type with exactly those names and values in order (Null where none was given), the non-repeaters and max-repetitions given, and a request ID that is not zero; a text that is no object identifier raises ValueError and nothing is sent.", "quantifier": "every call, every list of names and values, every history of other calls, datagrams, threads and retransmissions, every random choice of IDs (SNMPv1 and SNMPv2c managers)", "why_tests_cant": "The datagram of a retransmission is made again from state shared with other threads; unbounded arguments and histories.", "anchors": ["snmp/manager/v1.py:SNMPv1Manager.get", "snmp/manager/v1.py:SNMPv1Manager.set", "snmp/manager/v2c.py:SNMPv2cManager.getBulk", "snmp/pdu.py:PDU.__init__", "snmp/pdu.py:VarBind.__init__", "snmp/asn1.py:OBJECT_IDENTIFIER.parse"]}
{"id": "C63", "title": "An honest agent's answer is what wait() gives", "statement": "If a request was sent, no wait() for it has ended, a thread is blocked in wait(), and the agent answers with the request's ID and community in any BER form, then that wait() returns exactly the variable bindings of the answer, or raises ErrorResponse with its status, index and cause if the status is not zero.", "quantifier": "every request, every history before the answer, every answer, every BER form of the answer (SNMPv1 and SNMPv2c managers)", "why_tests_cant": "All histories and all encodings; depends on IDs still being registered under every interleaving.", "anchors": ["snmp/manager/v1.py:Request.wait", "snmp/manager/v1.py:Request.push", "snmp/message/v1.py:SNMPv1MessageProcessor.prepareDataElements"]}
{"id": "C64", "title": "wait() raises only Timeout and ErrorResponse", "statement": "If every request is made with a new PDU and a positive refresh period, its first transmission succeeded, and the operating system refuses no datagram, then wait() of an SNMPv1 or SNMPv2c request returns, raises ErrorResponse, or raises Timeout: it never raises another exception (IndexError from the list of pending requests, AssertionError, encoding errors), whatever other threads do.", "quantifier": "every history of calls, waits (on any thread), datagrams and clock readings", "why_tests_cant": "The failing schedules need another thread between two particular lines.", "anchors": ["snmp/manager/v1.py:SNMPv1Manager.refresh", "snmp/manager/v1.py:Request.wait", "snmp/manager/v1.py:Request.close"]}
{"id": "C65", "title": "Equality of values, bindings and PDUs is meaningful", "statement": "== on SNMP values, variable bindings and PDUs is an equivalence relation; two values are equal exactly if they have the same SNMP type and the same content (a Counter32 is not a Gauge32, noSuchObject is not noSuchInstance), two PDUs exactly if they have the same class, fields and bindings; and objects are equal exactly if they have the same encoding.", "quantifier": "all pairs and triples of values, variable bindings and PDUs", "why_tests_cant": "Ranges over all pairs and triples of unbounded objects.", "anchors": ["snmp/asn1.py:INTEGER.__eq__", "snmp/asn1.py:OCTET_STRING.__eq__", "snmp/asn1.py:NULL.__eq__", "snmp/asn1.py:OBJECT_IDENTIFIER.__eq__", "snmp/asn1.py:Constructed.__eq__", "snmp/ber.py:Tag.__eq__"]}
{"id": "C66", "title": "Registrations of remote engines never leak and are never released twice", "statement": "At every moment a remote engine is registered in the namespace of an SNMPv3 manager exactly once for the manager if it has that engine ID, once for every request that has it, plus as often as other users of the same security module registered it; so closing a request never raises (wait() gives the outcome it computed), a request holds no registration after it is closed or collected, and when all requests and the manager are collected the manager's registrations are gone.", "quantifier": "every history of calls, waits, datagrams (also spoofed reports that change engine IDs), failures to send, garbage collections and operations of other users of the security module that release only what they registered", "why_tests_cant": "A leak or a double release needs a particular order of reports, failures and collections; the number of requests and engine IDs is unbounded.", "anchors": ["snmp/manager/v3.py:Request.engineID", "snmp/manager/v3.py:Request.close", "snmp/manager/v3.py:SNMPv3UsmManager.engineID", "snmp/manager/v3.py:SNMPv3UsmManager.__del__", "snmp/security/usm/users.py:UserRegistry.assign", "snmp/security/usm/users.py:UserRegistry.release"]}
{"id": "C67", "title": "An SNMPv3 request reaches the agent as it was asked for", "statement": "Every message that an SNMPv3 manager sends for a call of get(), getNext(), getBulk() or set(), again or not, is either the discovery message or carries exactly the operation, names (also from their dotted text), values and repetition counts of the call with a request ID that is not zero, in the name of the user and at the security level given (or the manager's defaults); and an agent that has the same credentials for the user as were given to addUser(), and whose time window has the time in the message, accepts the datagram and gets that PDU, that user and that level.", "quantifier": "every request, arguments given or defaulted, history of other calls, datagrams, collections and registry operations before and after, agent history, crypto backend satisfying the stated laws, and clock", "why_tests_cant": "The statement spans the whole path from the arguments through numbering, discovery, engine registration, key localisation, encryption, signing, BER and the agent's checks, for unbounded inputs and histories; a test fixes one user, one key and one history.", "anchors": ["snmp/manager/v3.py:SNMPv3UsmManager.get", "snmp/manager/v3.py:SNMPv3UsmManager.set", "snmp/manager/v3.py:SNMPv3UsmManager.getBulk", "snmp/manager/v3.py:SNMPv3UsmManager.sendRequest", "snmp/manager/v3.py:Request.send", "snmp/security/usm/implementation.py:UserBasedSecurityModule.prepareOutgoing", "snmp/security/usm/implementation.py:UserBasedSecurityModule.processIncoming"]}
{"id": "C68", "title": "The result of an authenticated SNMPv3 request was signed by the user", "statement": "If a request was made at an authenticated security level, the variable bindings that wait() returns are those of a received datagram that names the request's user, has at least the request's security level, is signed with that user's authentication key as localised to the engine the datagram names, and whose boots and time are in the time window of that engine at the moment of its arrival: no one without the key can make wait() return.", "quantifier": "every request, every history of other calls, datagrams (any bytes an attacker sends), collections and registry operations, every crypto backend satisfying the stated laws, every clock", "why_tests_cant": "Ranges over everything an attacker can send and every interleaving; the failing history needs a spoofed answer to the discovery message.", "anchors": ["snmp/manager/v3.py:RequestMessage.push", "snmp/manager/v3.py:Request.processResponse", "snmp/manager/v3.py:Request.wait", "snmp/security/usm/implementation.py:UserBasedSecurityModule.processIncoming", "snmp/message/v3.py:SNMPv3MessageProcessor.prepareDataElements"]}
{"id": "C69", "title": "An agent's answer is what wait() of an SNMPv3 request gives", "statement": "While a thread sleeps in wait() of an SNMPv3 request that was sent to an engine, if a response to that message arrives (same message ID, engine, empty context name, the request's user, at least its security level) and the security module accepts it, then wait() returns the response's variable bindings, or raises ErrorResponse with its error status and index if the status is not 0. No valid answer is lost.", "quantifier": "every history before, every request, security level, message and answer, every other thread, clock, drawn random numbers, crypto backend satisfying the stated laws", "why_tests_cant": "Ranges over every history before the answer; the histories that lose an answer need two threads to interleave inside wait() and sendGet(), or a send that failed during discovery.", "anchors": ["snmp/manager/v3.py:RequestMessage.push", "snmp/manager/v3.py:Request.processResponse", "snmp/manager/v3.py:SNMPv3UsmManager.onResponse", "snmp/manager/v3.py:SNMPv3UsmManager.poke", "snmp/manager/v3.py:Request.wait", "snmp/message/v3.py:SNMPv3MessageProcessor.prepareDataElements"]}
{"id": "C70", "title": "A report ends wait() of an SNMPv3 request early only if it is as secure as the request", "statement": "The manual promises: if a ReportPDU that says why a request failed is sent with a lower level of security than the request, wait() does not end early because of it, but ignores it until the request expires and then raises the reported error instead of Timeout. So (a) wait() raises a reported error before the expiration only for a report from the request's engine, with at least the security level of the request; (b) when wait() ends at the expiration without a response, it raises the first reported error if there was one, and Timeout if there was none.", "quantifier": "every history of calls, waits, thread interleavings, received datagrams and uses of the security module, every request and security level, every clock and draw, every crypto backend satisfying the stated laws", "why_tests_cant": "Ranges over everything an attacker or another agent may send at any point of the history, including correctly signed reports of other engines and levels; tests cover a single report at a time.", "anchors": ["snmp/manager/v3.py:RequestMessage.push", "snmp/manager/v3.py:Request.processException", "snmp/manager/v3.py:Request.wait", "snmp/message/v3.py:SNMPv3MessageProcessor.prepareDataElements", "docs/source/manager.rst"]}
{"id": "C71", "title": "An SNMPv3 manager discovers the engine once", "statement": "Once an SNMPv3 manager knows the engine ID of its agent (it was given it, or it has accepted a response), every message it sends for a request made later, until wait() of that request is over, is the request itself: the PDU that was asked for (with the request ID filled in), under the request's user and security level. It sends no further discovery messages and does not hold the request back behind one.", "quantifier": "every history of calls, waits, thread interleavings, received datagrams and uses of the security module before and after the response, every later request, clock and draw", "why_tests_cant": "Ranges over all histories: the manager's state and engine ID are changed by several threads, reports and retransmissions; a test sees the traffic of one schedule.", "anchors": ["snmp/manager/v3.py:SNMPv3UsmManager.processResponse", "snmp/manager/v3.py:TrustEveryResponse", "snmp/manager/v3.py:RequireAuthentication", "snmp/manager/v3.py:Request.reallySend", "snmp/manager/v3.py:SNMPv3UsmManager.poke", "snmp/manager/v3.py:SNMPv3UsmManager.sendRequest"]}
{"id": "C72", "title": "What is printed of a response tells the response", "statement": "The text of variable bindings tells them apart: if str() (what print(response) shows) or repr() of two lists of variable bindings is the same, the lists are equal, with the same names, classes and values in the same order. The same holds of str() and repr() of PDUs. It holds of any two results of wait(), of whatever was received, and for lists built by the caller whose octet strings are bytes (and, for str(), whose OID values are of the class OID).", "quantifier": "every two lists of variable bindings of any lengths and values, every two PDUs, every two histories of managers", "why_tests_cant": "Quantifies over pairs of arbitrary values: quotes, backslashes, separators and control characters in an octet string could imitate the text around them; tests compare a few printed literals.", "anchors": ["snmp/pdu.py:VarBind.__str__", "snmp/pdu.py:VarBind.__repr__", "snmp/pdu.py:VarBindList.toString", "snmp/pdu.py:VarBindList.__repr__", "snmp/pdu.py:PDU.toString", "snmp/pdu.py:PDU.__repr__", "snmp/pdu.py:BulkPDU.toString", "snmp/asn1.py:INTEGER.__repr__", "snmp/asn1.py:OCTET_STRING.__repr__", "snmp/asn1.py:OBJECT_IDENTIFIER.__repr__", "snmp/asn1.py:OBJECT_IDENTIFIER.__str__", "snmp/smi.py:OctetString.__repr__", "snmp/smi.py:IpAddress.__repr__"]}
{"id": "C73", "title": "wait() returns only valid values", "statement": "Whatever datagrams arrive, authenticated and encrypted or not, every variable binding that wait() returns has a valid OID as its name (at most 128 sub-identifiers of at most 32 bits) and a value of one of the SMI types within the range of its type; an ErrorResponse has one of the 18 error statuses other than noError, and an index that is not negative. This holds of the v1, v2c and v3 managers.", "quantifier": "every sequence of octets received in every history of a manager, including ciphertexts that decrypt to anything", "why_tests_cant": "Ranges over all datagrams and histories; tests feed a handful of malformed messages to the decoder, not to the managers.", "anchors": ["snmp/manager/v1.py:Request.wait", "snmp/manager/v2c.py:Request.wait", "snmp/manager/v3.py:Request.wait", "snmp/pdu.py:PDU.deserialize", "snmp/pdu.py:VarBind.deserialize", "snmp/message/v3.py:SNMPv3Message.plaintext"]}
{"id": "C74", "title": "The text of an ErrorResponse tells the status and the variable", "statement": "str() of the ErrorResponse that wait() raises is the name of the error status, followed by the name of the variable of the request that the index tells, if there is one. Two errors with the same text have the same status and blame the same variable, or none.", "quantifier": "every error status, index and request; every history of the managers", "why_tests_cant": "Quantifies over every request and index, including indexes beyond the request that an agent may send.", "anchors": ["snmp/pdu.py:ErrorResponse.__init__", "snmp/pdu.py:ErrorStatus"]}
{"id": "C75", "title": "A datagram that the system refuses to send is reported to the caller and costs nothing else", "statement": "If the operating system refuses to send a datagram (OSError), an SNMPv1 or SNMPv2c manager raises OSError from the very call that was sending (sendRequest() or wait()), and nowhere else; the request stays registered and keeps the schedule it would have had if the datagram had been sent; wait() raises OSError only if its own request could not be sent; and the order in which requests are refreshed is not disturbed.", "quantifier": "every history of calls, waits, datagrams, refusals and clock readings, and every point where a datagram is sent", "why_tests_cant": "Needs a refusal at each possible point of each schedule; tests use a transport that always sends.", "anchors": ["snmp/manager/v1.py:SNMPv1Manager.refresh", "snmp/manager/v1.py:Request.reallySend", "snmp/manager/v1.py:Request.wait", "snmp/transport/udp.py"]}
{"id": "C76", "title": "Managers that share an Engine do not take each other's answers", "statement": "Any number of SNMPv1 or SNMPv2c requests, of any number of managers of one Engine, may be open at once: their request IDs differ, each gets exactly the answers with its ID and community, and a request stays registered under its ID until its own wait() is over or it is garbage collected, whatever happens to the other requests.", "quantifier": "every history of requests by this and other managers, answers, timeouts, collections and interleavings", "why_tests_cant": "Unbounded numbers of requests and managers in every interleaving.", "anchors": ["snmp/engine.py:Engine.Manager", "snmp/message/v1.py:SNMPv1MessageProcessor", "snmp/message/v2c.py:SNMPv2cMessageProcessor", "snmp/manager/v1.py:Request.close"]}
{"id": "C77", "title": "SNMPv3: a datagram that the system refuses to send is reported to the caller and costs nothing else", "statement": "If the operating system refuses to send a datagram (OSError), the SNMPv3 manager keeps its books as if the datagram had been sent (the message can be answered, the schedule of resends is the same); a call of the user that was sending raises that OSError, and OSError is never raised without such a refusal; an answer to a later datagram of the request is still delivered by wait(); and no request but the one that was being sent is affected.", "quantifier": "every history of calls, waits, datagrams, refusals, interleavings and clock readings, and every point where a datagram is sent", "why_tests_cant": "Needs a refusal at each possible point of each schedule, including in the listener thread during discovery; tests use a transport that always sends.", "anchors": ["snmp/manager/v3.py:SNMPv3UsmManager.poke", "snmp/manager/v3.py:SNMPv3UsmManager.sendRequest", "snmp/manager/v3.py:Request.refresh", "snmp/manager/v3.py:SNMPv3UsmManager.onReport", "snmp/transport/udp.py"]}
{"id": "C78", "title": "What is encrypted is what the RFCs say, whichever encryption library is installed", "statement": "The ciphertext of an encrypted message is exactly the CFB128-AES-128 encryption of the scoped PDU (RFC 3826) or the CBC-DES encryption of the padded scoped PDU (RFC 3414) under the localised key, the engine's clocks and the salt that is sent; whatever a conforming agent encrypts, with any salt, decrypts to what it meant; and this holds for both encryption libraries, so that each understands the other.", "quantifier": "every key, salt, boots and time value, plaintext of any length, and both libraries (OpenSSL 1.1 and 3, PyCryptodome)", "why_tests_cant": "Plaintexts of every length and every key and salt, in combination with library versions that are not installed where the tests run.", "anchors": ["snmp/security/usm/priv/openssl/__init__.py:Envelope.process", "snmp/security/usm/priv/openssl/aes.py", "snmp/security/usm/priv/openssl/des.py", "snmp/security/usm/priv/pycryptodome/aes.py", "snmp/security/usm/priv/pycryptodome/des.py"]}
{"id": "C79", "title": "What the library remembers is released", "statement": "Everything the library remembers about a request is released: an outstanding-message record belongs to a request that still exists and there is at most one per message; once wait() has returned, raised Timeout or the handle has been dropped, no record of the request remains, and with no request alive no record remains at all; and the table of engine clocks does not grow with messages nobody asked for.", "quantifier": "every sequence of calls, interleaving of the threads (including a close() that runs while the other thread sends), clock and incoming datagram", "why_tests_cant": "A leak shows only after many requests, or in one interleaving of close() with a send, or under a stream of datagrams nobody tests with.", "anchors": ["snmp/manager/v3.py:Request.close", "snmp/manager/v3.py:RequestMessage", "snmp/manager/v1.py:Request.close", "snmp/message/v3.py:SNMPv3MessageProcessor.prepareOutgoingMessage", "snmp/dispatcher.py:Dispatcher.sendPdu", "snmp/security/usm/timekeeper.py:TimeKeeper.hint"]}
{"id": "C80", "title": "wait() of an SNMPv3 request raises only what it should", "statement": "If every request asks for something that can be encoded, as a user that has been added with credentials good enough for its security level, then wait() returns the values, or raises ErrorResponse, the exception for a report, or Timeout; besides OSError if the operating system refused a datagram, and CacheError if five or more messages were outstanding. Whatever the network sends, it raises nothing else (no ValueError, OverflowError, AssertionError, ZeroDivisionError, SNMPLibraryBug, ...).", "quantifier": "every world (crypto, clock, random numbers, network refusals), every sequence of calls, thread interleaving and datagram, every request", "why_tests_cant": "The exceptions that a thread of the user sees depend on what other requests and unauthenticated datagrams have left in the manager when the message is made again; tests do not cover engine clocks near their limit or foreign requests.", "anchors": ["snmp/manager/v3.py:Request.wait", "snmp/manager/v3.py:SNMPv3UsmManager.refresh", "snmp/manager/v3.py:SNMPv3UsmManager.poke", "snmp/security/usm/implementation.py:UserBasedSecurityModule.prepareOutgoing", "snmp/security/usm/timekeeper.py:TimeKeeper.hint", "snmp/message/v3.py:SNMPv3MessageProcessor.cache"]}
{"id": "C81", "title": "The documented defaults are the ones used", "statement": "Every message sent for a request has the user and the security level that were given to the request method; or else to Manager(); or else the default user of the namespace -- the last one added with default=True, or else the first one added -- and the level that this user was added with (defaultSecurityLevel, or else the highest that its protocols support). Calls of addUser() that raise do not count, nor do those for other namespaces, nor those made after the manager was created. As soon as one user has been added to the namespace, Manager() does not fail for want of a default. For SNMPv1 and SNMPv2c, the community in every datagram is the one given to the request method, or else to Manager(), or else to Engine().", "quantifier": "every sequence of calls on an Engine (addUser, Manager, connectTransport, in any order, failing or not), every history of the manager that comes of it, every request", "why_tests_cant": "The default depends on the whole order of addUser() calls, including the failed ones; tests look at one or two of them.", "anchors": ["snmp/engine.py:Engine.Manager", "snmp/engine.py:Engine.v1Manager", "snmp/engine.py:Engine.v2cManager", "snmp/engine.py:Engine.v3Manager", "snmp/security/usm/users.py:UserRegistry.addUser", "snmp/security/usm/users.py:NamespaceConfig", "snmp/manager/v3.py:SNMPv3UsmManager.sendRequest", "snmp/manager/v1.py:SNMPv1Manager.sendRequest", "docs/source/snmp.rst"]}
{"id": "C82", "title": "SNMPv3 managers that share an Engine do not take each other's answers", "statement": "Two messages, of whatever managers of one Engine, that may still be answered never have the same message ID. A message from the network reaches a manager only through the ID of a message of its own whose request is not over; an answer to another manager's message does nothing in it. Whatever one manager does -- sending, giving up, being answered -- leaves the other's requests, threads, view of the engine and outstanding messages as they were; so a message stays answerable until its own request is over, no matter what the other managers of the Engine do.", "quantifier": "every history of a manager, with messages of any other managers of the Engine sent and given up at any point of it, every datagram", "why_tests_cant": "A clash needs two managers whose messages interleave in a particular way on the shared table; tests use one manager.", "anchors": ["snmp/message/v3.py:SNMPv3MessageProcessor.prepareOutgoingMessage", "snmp/message/v3.py:SNMPv3MessageProcessor.prepareDataElements", "snmp/message/v3.py:SNMPv3MessageProcessor.cache", "snmp/message/v3.py:SNMPv3MessageProcessor.retrieve", "snmp/manager/v3.py:RequestMessage", "snmp/manager/v3.py:SNMPv3UsmManager", "snmp/dispatcher.py:Dispatcher", "snmp/engine.py:Engine.v3Manager"]}
{"id": "C83", "title": "One report is enough to get in time with the agent", "statement": "When an SNMPv3 agent answers a request with the report usmStatsNotInTimeWindows (the first that is acted on for that request), the listener sends the request again at once, without waiting for a refresh, to the engine that the report came from; one thread at a time and a live, unexpired, unanswered request is enough for that. If the report is news of the agent's boots and time, everything that is sent to the agent with authentication until the listener is done with the report carries exactly those boots, and that time plus the whole seconds that have passed since it arrived: so an agent whose own clock has moved by 150 seconds more or less than that finds it in its time window. If an authenticated report is no news (an earlier message was later), the boots are the same and the time is at most 150 seconds (and a rounding) ahead.", "quantifier": "every history of a manager, every report that it accepts (authenticated or not), every clock, every interleaving of other threads while the listener handles it", "why_tests_cant": "Tests use one report with fixed numbers; whether another thread can send with the old time in between, or a shared flag swallow the report, depends on the interleaving.", "anchors": ["snmp/manager/v3.py:Request.processNotInTimeWindow", "snmp/manager/v3.py:RequestMessage.push", "snmp/manager/v3.py:SNMPv3UsmManager.onReport", "snmp/security/usm/timekeeper.py:TimeKeeper", "snmp/security/usm/timekeeper.py:EngineTime", "snmp/security/usm/implementation.py:UserBasedSecurityModule.processIncoming", "snmp/security/usm/implementation.py:UserBasedSecurityModule.prepareOutgoing"]}
{"id": "C84", "title": "A request that was out of time is answered after all", "statement": "One thread calls get, set, getBulk or getNext of an SNMPv3 manager with authentication, as a user that was added and that the agent knows, and sleeps in wait(). The agent finds the message outside its time window and reports its own boots and time, which is news. Then, without the thread doing anything, the request is sent once more, and an agent whose clock is where it said it was (150 seconds more or less, besides what passes between the two readings) accepts that message, as one of this user and level for this engine, asking for just what was asked for. The listener soon waits for the network again, the thread still sleeps, and if the agent's answer comes then, in time, wait() returns the values that the agent sent, or raises its ErrorResponse. The message is sent unless the operating system refuses datagrams (OSError) or five messages or more are outstanding (CacheError).", "quantifier": "every Manager (defaults, namespace, engine ID given or discovered), every request, world (crypto, clock, random numbers), report and answer, and every history that leads to the sleeping thread", "why_tests_cant": "It takes the requests, the clocks of both sides and the report together: no test can cover every clock drift, and the resend happens in another thread, between the report and the answer.", "anchors": ["snmp/manager/v3.py:Request.processNotInTimeWindow", "snmp/manager/v3.py:RequestMessage.push", "snmp/manager/v3.py:SNMPv3UsmManager.onReport", "snmp/manager/v3.py:SNMPv3UsmManager.get", "snmp/manager/v3.py:SNMPv3UsmManager.sendRequest", "snmp/manager/v3.py:Request.wait", "snmp/security/usm/timekeeper.py:TimeKeeper", "snmp/security/usm/implementation.py:UserBasedSecurityModule.processIncoming", "snmp/security/usm/implementation.py:UserBasedSecurityModule.prepareOutgoing"]}
{"id": "C85", "title": "A request is answered although the engine was not known", "statement": "One thread calls get, set, getBulk or getNext of an SNMPv3 manager, at any security level, and sleeps in wait(). The manager does not know the agent's engine ID (or has a wrong one), and the agent answers with the report usmStatsUnknownEngineIDs. Then, without the thread doing anything, the request is sent at once, to the engine that the report came from and an agent with that engine ID accepts the message, as one of this user and level, asking for just what was asked for; with authentication, it is an agent that knows the user, whose clock is where the report said it was (150 seconds more or less, besides what passes between the two readings), if what the report said is news. The listener soon waits for the network again, the thread still sleeps, and if the agent's answer comes then, in time, wait() returns the values that the agent sent, or raises its ErrorResponse. The message is sent unless the operating system refuses datagrams (OSError), five messages or more are outstanding (CacheError), or another manager uses that engine with another namespace.", "quantifier": "every Manager (defaults, namespace, engine ID given or not), every request, world (crypto, clock, random numbers), report and answer, and every history that leads to the sleeping thread", "why_tests_cant": "The engine ID, boots and time come from the report, for every agent, clock and level, and the resend happens in another thread between the report and the answer; a test fixes one report and one clock.", "anchors": ["snmp/manager/v3.py:Request.processUnknownEngineID", "snmp/manager/v3.py:RequestMessage.push", "snmp/manager/v3.py:SNMPv3UsmManager.onReport", "snmp/manager/v3.py:SNMPv3UsmManager.get", "snmp/manager/v3.py:SNMPv3UsmManager.sendRequest", "snmp/manager/v3.py:Request.wait", "snmp/security/usm/timekeeper.py:TimeKeeper", "snmp/security/usm/implementation.py:UserBasedSecurityModule.processIncoming", "snmp/security/usm/implementation.py:UserBasedSecurityModule.prepareOutgoing"]}
{"id": "C86", "title": "The first request to an agent is answered, although its first report does not tell the time", "statement": "As in C85, with authentication, but nothing is assumed of the boots and time in the report usmStatsUnknownEngineIDs (some agents say 0 and 0 there). The request is sent to the engine that was found; and if the agent then reports that this message is outside its time window, saying its own boots and time, which is news, the request is sent once more, without the thread doing anything, and an agent whose clock is where this second report said it was (150 seconds more or less, besides what passes between the two readings) accepts it, as one of this user and level for this engine, asking for just what was asked for. The listener soon waits for the network again, the thread still sleeps, and if the agent's answer comes then, in time, wait() returns the values that the agent sent, or raises its ErrorResponse.", "quantifier": "every Manager (defaults, namespace, engine ID given or not), every request with authentication, world (crypto, clock, random numbers), both reports and the answer, and every history that leads to the sleeping thread", "why_tests_cant": "Three messages and three datagrams, with the clocks of both sides: no test can cover every order and clock, and everything happens in the listener's thread.", "anchors": ["snmp/manager/v3.py:Request.processUnknownEngineID", "snmp/manager/v3.py:Request.processNotInTimeWindow", "snmp/manager/v3.py:RequestMessage.push", "snmp/manager/v3.py:SNMPv3UsmManager.onReport", "snmp/manager/v3.py:SNMPv3UsmManager.sendRequest", "snmp/manager/v3.py:Request.wait", "snmp/security/usm/timekeeper.py:TimeKeeper", "snmp/security/usm/implementation.py:UserBasedSecurityModule.processIncoming", "snmp/security/usm/implementation.py:UserBasedSecurityModule.prepareOutgoing"]}
