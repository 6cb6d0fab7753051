{"id": "C01", "title": "Session-scope IDs count 1,2,3,... inside the WAMP range", "statement": "The n-th call of SessionScopeIDGenerator.NextID on a fresh generator returns ((n-1) mod 2^53)+1; in particular every value is between 1 and 2^53, consecutive calls return consecutive values and the value after 2^53 is 1.", "quantifier": "every n >= 1", "why_tests_cant": "The wrap happens after 2^53 calls; no test can reach it.", "anchors": ["idgen.go: SessionScopeIDGenerator.NextID, maxID"]}
{"id": "C02", "title": "Session-scope IDs never repeat, whatever the goroutine schedule", "statement": "If any number of goroutines call NextID on one generator at most 2^53 times in total, under every interleaving of their lock, read, write and unlock steps the returned values are pairwise distinct and are exactly 1..k.", "quantifier": "every number of goroutines, every per-goroutine call count, every schedule", "why_tests_cant": "Schedules and histories are unbounded.", "anchors": ["idgen.go: SessionScopeIDGenerator.NextID"]}
{"id": "C03", "title": "Random session IDs are valid WAMP IDs", "statement": "GenerateID returns a value between 1 and 2^53 whatever the random source yields.", "quantifier": "every value the random source may produce", "why_tests_cant": "The failing value has probability 2^-53.", "anchors": ["idgen.go: GenerateID"]}
{"id": "C04", "title": "Integer conversions are exact", "statement": "util.AsInt applied to an integer of any Go kind returns it unchanged and ok=true exactly when it fits a signed 64-bit int; util.AsUInt64 applied to a non-negative integer of any kind except int16, or to a float holding a non-negative integer below 2^64, returns that integer and ok=true; util.AsFloat64 of an integer (of any kind except int16) with magnitude at most 2^53 is that integer, and of a float that float. AsUInt64 and AsFloat64 report ok=false for exactly the values that are neither floats nor integers of a kind other than int16; all three return 0 whenever they report ok=false.", "quantifier": "every kind and every value of the kind", "why_tests_cant": "2^64 values per kind.", "anchors": ["util/util.go: AsInt, AsUInt64, AsFloat64"]}
{"id": "C05", "title": "util.AsUInt64/AsInt report ok only for a faithful result", "statement": "Whenever AsUInt64 or AsInt returns ok=true the returned number equals the (truncated) number passed in, and every non-negative integer that fits is accepted.", "quantifier": "every dynamic value", "why_tests_cant": "Boundary values of unbounded input spaces.", "anchors": ["util/util.go: AsInt, AsUInt64", "messages/validator.go: validateID"]}
{"id": "C06", "title": "Every message survives the wire", "statement": "For each of the 24 message types, marshalling a message, sending the list through any serializer that preserves values (numbers may change to any kind the library reads, i.e. not to int16 - see the previous property -, nil slices and maps become null, []string becomes a list) and dispatching the result with ToMessage returns a message of the same type with the same request/session/subscription/publication/registration IDs, URIs, strings and message type, and the same options/details/extra and args/kwargs up to that value change; absent args with present kwargs come back as an empty list.", "quantifier": "every message of every type whose mandatory maps are non-nil, every value-preserving serializer", "why_tests_cant": "Unbounded nested payloads and IDs.", "anchors": ["messages/*.go: Marshal, Parse", "serializers/helpers.go: ToMessage"]}
{"id": "C07", "title": "Messages are dispatched by their numeric type code", "statement": "If ToMessage returns a message then its Type() equals the number in element 0, and that number is one of the 24 WAMP codes; the codes are pairwise distinct; any other number is rejected with an error.", "quantifier": "every decoded list", "why_tests_cant": "Unbounded inputs.", "anchors": ["serializers/helpers.go: ToMessage", "messages/*.go: MessageType constants"]}
{"id": "C08", "title": "Parsing accepts exactly the well-typed messages", "statement": "For a list of at least three elements, ToMessage succeeds exactly when the list conforms to the type's row of the WAMP message table: length within bounds, each mandatory slot holding an id, string or dictionary as prescribed, args (if present) a list and kwargs (if present) a dictionary; for HELLO additionally a list of strings if authmethods is a list. The accepted message carries exactly the slot contents.", "quantifier": "every list of Go values", "why_tests_cant": "Unbounded inputs of every shape.", "anchors": ["messages/validator.go: ValidateMessage, Validate*", "messages/*.go: *ValidationSpec, Parse"]}
{"id": "C09", "title": "Decoding peer-supplied data never panics", "statement": "ToMessage (hence every serializer's Deserialize and every Receive) returns a message or an error, never a run-time panic, for every decoded list.", "quantifier": "every list of Go values", "why_tests_cant": "A single malformed shape takes the process down; tests sample shapes.", "anchors": ["serializers/helpers.go: ToMessage", "messages/hello.go: helloValidationSpec", "messages/authenticate.go: authenticateValidationSpec", "messages/validator.go: validateMap"]}
{"id": "C10", "title": "Parsing does not depend on Go map iteration order", "statement": "ValidateMessage ranges over a Go map of validators; for every list and every message type all iteration orders lead to the same verdict and the same parsed message.", "quantifier": "every iteration order, every list, every type", "why_tests_cant": "The runtime randomises the order; a test sees a few.", "anchors": ["messages/validator.go: ValidateMessage"]}
{"id": "C11", "title": "ABORT with keyword arguments only can be read by the peer", "statement": "An ABORT built with kwargs and no args is accepted by the peer after serialization and carries the same kwargs.", "quantifier": "every ABORT with nil args and non-nil kwargs", "why_tests_cant": "Depends on how nil slices look on the wire for every payload.", "anchors": ["messages/abort.go: Abort.Marshal", "messages/validator.go: ValidateArgs"]}
{"id": "C12", "title": "IDs survive JSON", "statement": "Every ID from 0 to 2^53 is unchanged by being written as a JSON number, read as a float64 and converted by AsUInt64; IDs above 2^53 are allowed on the wire as well and must also be unchanged.", "quantifier": "every uint64", "why_tests_cant": "2^64 values.", "anchors": ["serializers/json.go: JSONSerializer", "util/util.go: AsUInt64"]}
{"id": "C13", "title": "Application payload framing is lossless", "statement": "For args and kwargs that are not both empty, encoding them as a payload and decoding it again with the same serializer yields the same args (empty list if there were none) and the same kwargs (nil if there were none), provided the serializer itself round-trips the outer list.", "quantifier": "every args/kwargs, every serializer that round-trips", "why_tests_cant": "Unbounded payloads.", "anchors": ["serializers/payload.go: prepareForEncode, decode, SerializePayload, DeserializePayload"]}
{"id": "C14", "title": "SerializePayload and DeserializePayload are inverse on every payload", "statement": "DeserializePayload(id, SerializePayload(id, args, kwargs)) returns args and kwargs for every serializer id accepted by SerializePayload and every payload it accepts, including the empty one.", "quantifier": "every serializer id, args and kwargs", "why_tests_cant": "Unbounded payloads; the corner case is the empty one.", "anchors": ["serializers/payload.go"]}
{"id": "C15", "title": "Payload decoding rejects malformed arrays without panicking", "statement": "The payload decoders (JSON, CBOR and MsgPack DecodePayload and DecodeCBOR) return an error for every decoded array that is not [], [args] or [args, kwargs] with args a list and kwargs a dictionary, and never panic.", "quantifier": "every decoded array", "why_tests_cant": "Unbounded inputs.", "anchors": ["serializers/payload.go: decode", "serializers/cbor.go: DecodeCBOR"]}
{"id": "C16", "title": "RawSocket handshake round-trips and accepts exactly the legal sizes", "statement": "SendHandshake succeeds for a positive maximum size exactly when it is a power of two between 2^9 and 2^24, and ReceiveHandshake of the bytes returns the same size and the serializer number modulo 16 (the same serializer for 0..15).", "quantifier": "every positive size and every serializer number", "why_tests_cant": "Unbounded ints.", "anchors": ["transports/rawsocket.go: SendHandshake, ReceiveHandshake"]}
{"id": "C17", "title": "RawSocket handshake decoding is strict and canonical", "statement": "ReceiveHandshake accepts a byte string exactly when it has four bytes, starts with 0x7F and ends with two zero bytes; re-encoding what it returned yields the same four bytes; it never panics.", "quantifier": "every byte string", "why_tests_cant": "Unbounded inputs.", "anchors": ["transports/rawsocket.go: ReceiveHandshake, SendHandshake"]}
{"id": "C18", "title": "RawSocket frame headers round-trip", "statement": "For every kind byte and every length from 0 to 2^24-1, ReceiveMessageHeader(SendMessageHeader(kind, length)) returns kind and length; the encoding is always four bytes, and two distinct headers in that range have distinct encodings.", "quantifier": "every kind and length", "why_tests_cant": "2^32 cases, all of which must hold.", "anchors": ["transports/rawsocket.go: SendMessageHeader, ReceiveMessageHeader, IntToBytes, BytesToInt"]}
{"id": "C19", "title": "Every message length allowed by a negotiated handshake can be framed", "statement": "If a handshake with maximum message size M was accepted, every length from 0 to M inclusive survives SendMessageHeader/ReceiveMessageHeader.", "quantifier": "every negotiable M and every length up to M", "why_tests_cant": "Fails at a single length.", "anchors": ["transports/rawsocket.go: ProtocolMaxMsgSize, IntToBytes"]}
{"id": "C20", "title": "SendHandshake rejects illegal sizes without panicking", "statement": "SendHandshake returns an error for every size that is not legal, including zero and negative sizes.", "quantifier": "every int", "why_tests_cant": "Unbounded ints; platform-dependent float conversion.", "anchors": ["transports/rawsocket.go: SendHandshake"]}
{"id": "C21", "title": "Broker behaves like an abstract topic table", "statement": "For every history of AddSession, RemoveSession, HasSubscription, AutoDisclosePublisher, ReceiveMessage and ReceivePublish calls (at most 2^53 of them) and every map iteration order, each call's result equals that of a specification machine that only keeps the attached sessions, one counter and one row (id, match policy, subscribers, still-indexed flag) per topic.", "quantifier": "every history, every iteration order", "why_tests_cant": "Unbounded histories; aliasing between five maps.", "anchors": ["broker.go: Broker"]}
{"id": "C22", "title": "Broker never panics", "statement": "No history of calls, of any length, makes a Broker method panic.", "quantifier": "every history, every message", "why_tests_cant": "Unbounded histories.", "anchors": ["broker.go: RemoveSession, ReceivePublish"]}
{"id": "C23", "title": "Exact-match events reach exactly the current subscribers, once each", "statement": "If no pattern subscription was ever requested, the recipients of a publication to topic t are, without repetition, exactly the sessions that have a SUBSCRIBED answer for t not followed by an UNSUBSCRIBED answer for that subscription id or by their removal; an event is produced iff there is at least one.", "quantifier": "every history, every iteration order", "why_tests_cant": "Unbounded histories.", "anchors": ["broker.go: ReceiveMessage, ReceivePublish, RemoveSession"]}
{"id": "C24", "title": "No event after unsubscribing or leaving", "statement": "After a session's UNSUBSCRIBE of the id it got for topic t is answered by UNSUBSCRIBED, or after the session is removed, no later publication lists it as recipient under that subscription id until it subscribes to t again.", "quantifier": "every history, with any match policies", "why_tests_cant": "Unbounded histories.", "anchors": ["broker.go: ReceiveMessage, RemoveSession, ReceivePublish"]}
{"id": "C25", "title": "Subscription and publication IDs are unique", "statement": "Within 2^53 calls: two SUBSCRIBED answers carry the same id only if they are for the same topic; a publication id never equals another publication's id or any subscription id; while a topic keeps at least one subscriber all SUBSCRIBED answers for it carry the same id.", "quantifier": "every history", "why_tests_cant": "Unbounded histories.", "anchors": ["broker.go: ReceiveMessage, ReceivePublish", "idgen.go"]}
{"id": "C26", "title": "Publish acknowledgement", "statement": "ReceivePublish by an attached session acknowledges iff option acknowledge is the boolean true; the PUBLISHED goes to the publisher with the request id of the PUBLISH and the same publication id as the EVENT, whether or not anyone is subscribed.", "quantifier": "every history and publish", "why_tests_cant": "Unbounded histories and options.", "anchors": ["broker.go: ReceivePublish"]}
{"id": "C27", "title": "Topic lookup precedence: exact, then longest prefix, then wildcard", "statement": "If the published topic is literally a subscribed topic the event carries that subscription; otherwise, if some indexed prefix subscription's topic is a prefix of it, the event carries the longest such; otherwise, if some indexed wildcard subscription matches, the event carries one that matches; otherwise there is no event.", "quantifier": "every history, every iteration order", "why_tests_cant": "Unbounded topics and sets of patterns.", "anchors": ["broker.go: ReceivePublish"]}
{"id": "C28", "title": "Events carry the published payload and disclose the publisher only on request", "statement": "The event of a publication carries the publication's args and kwargs unchanged; its details are empty unless AutoDisclosePublisher(true) is in force, in which case they are exactly topic, publisher session id, authid and authrole of the publishing session.", "quantifier": "every history and payload", "why_tests_cant": "Unbounded histories and payloads.", "anchors": ["broker.go: ReceivePublish, AutoDisclosePublisher"]}
{"id": "C29", "title": "One session's unsubscribe or departure does not affect other subscribers", "statement": "After a session unsubscribes or is removed, every publication that would have been delivered to some other subscriber still is.", "quantifier": "every history, all match policies", "why_tests_cant": "Depends on the interleaving of several sessions' requests.", "anchors": ["broker.go: ReceiveMessage (UNSUBSCRIBE), RemoveSession"]}
{"id": "C30", "title": "Every matching subscriber receives the event", "statement": "A publication is delivered to every session holding a subscription (exact, prefix or wildcard) that matches the topic.", "quantifier": "every history", "why_tests_cant": "Depends on combinations of subscriptions.", "anchors": ["broker.go: ReceivePublish"]}
{"id": "C31", "title": "The publisher is not sent its own event", "statement": "The router announces publisher_exclusion; a publisher that is subscribed to the topic is not among the recipients unless it asked for it with exclude_me=false.", "quantifier": "every history", "why_tests_cant": "Unbounded histories.", "anchors": ["broker.go: ReceivePublish", "acceptor.go: RouterRoles"]}
{"id": "C32", "title": "Rejected broker requests have no effect", "statement": "Whenever a Broker method returns an error, every later call of any method behaves as if the rejected call had not been made.", "quantifier": "every history and continuation", "why_tests_cant": "Quantifies over continuations.", "anchors": ["broker.go"]}
{"id": "C33", "title": "When the last session leaves nothing is left behind", "statement": "After every attached session has been removed, HasSubscription is false for every topic and the broker retains no session, subscription or index entry.", "quantifier": "every history", "why_tests_cant": "Unbounded histories; a leak is invisible to a single assertion.", "anchors": ["broker.go: RemoveSession"]}
{"id": "C34", "title": "The match policy a subscriber asked for is honoured", "statement": "If SUBSCRIBE with match=prefix for topic t is answered by SUBSCRIBED, a following publication to an extension of t that nobody else is subscribed to reaches that subscriber.", "quantifier": "every history", "why_tests_cant": "Depends on earlier subscriptions by others.", "anchors": ["broker.go: ReceiveMessage (SUBSCRIBE)"]}
{"id": "C35", "title": "Dealer attachment bookkeeping", "statement": "AddSession succeeds exactly when the id is not attached and RemoveSession exactly when it is, attached meaning added and not removed since; failed calls change nothing.", "quantifier": "every history", "why_tests_cant": "Unbounded histories.", "anchors": ["dealer.go: AddSession, RemoveSession"]}
{"id": "C36", "title": "A procedure is shared only with the same explicit invocation policy", "statement": "REGISTER by an attached session for a procedure that is currently registered is answered by REGISTERED exactly when the existing registration's policy is neither empty nor single and equals the requested policy, with the existing registration id; otherwise by ERROR procedure_already_exists without any change. If the procedure is not registered it is answered by REGISTERED with a fresh id.", "quantifier": "every history and register options", "why_tests_cant": "Unbounded histories.", "anchors": ["dealer.go: ReceiveMessage (REGISTER)"]}
{"id": "C37", "title": "Results and errors go back to the session that made the call", "statement": "Whenever a YIELD or an ERROR for invocation i makes the dealer emit a RESULT or ERROR, its recipient c and request id r are those of an earlier CALL by c with request id r for which the dealer allocated invocation id i; args, kwargs (and error URI) are the callee's, unchanged.", "quantifier": "every history of at most 2^53 calls", "why_tests_cant": "Unbounded interleavings of callers and callees.", "anchors": ["dealer.go: ReceiveMessage (CALL, YIELD, ERROR)"]}
{"id": "C38", "title": "At most one final answer per invocation", "statement": "For every invocation id the dealer emits at most one non-progressive RESULT or ERROR in response to YIELD/ERROR; every later YIELD or ERROR for it is refused.", "quantifier": "every history", "why_tests_cant": "Unbounded histories.", "anchors": ["dealer.go: ReceiveMessage (YIELD, ERROR)"]}
{"id": "C39", "title": "Progressive results only for callers that asked for them", "statement": "A RESULT marked progress=true is emitted only if the CALL carried receive_progress=true and the YIELD carried progress=true; such a YIELD leaves the invocation open, any other YIELD closes it.", "quantifier": "every history", "why_tests_cant": "Unbounded histories.", "anchors": ["dealer.go: ReceiveMessage (YIELD)"]}
{"id": "C40", "title": "Invocations go only to attached sessions that registered the procedure", "statement": "Whenever a CALL produces an INVOCATION with registration id g for session c, c is currently attached and the dealer earlier answered c with REGISTERED g for a procedure that equals the called one, or (registered with match=prefix) is a prefix of it, or (match=wildcard) is a pattern matching it.", "quantifier": "every history", "why_tests_cant": "Unbounded histories; pointers shared between indexes.", "anchors": ["dealer.go: ReceiveMessage (CALL)"]}
{"id": "C41", "title": "Calls without a registration are refused and change nothing", "statement": "A CALL for which no registered procedure matches is answered to the caller with ERROR no_such_procedure for its request id, and the dealer's later behaviour is as if the call had not been made.", "quantifier": "every history", "why_tests_cant": "Quantifies over continuations.", "anchors": ["dealer.go: ReceiveMessage (CALL)"]}
{"id": "C42", "title": "Invocation policies", "statement": "With k >= 2 callees that registered a procedure in order s1..sk under a shared policy and none of them leaving, every CALL goes to s1 under first, to sk under last, to one of them under random, and n consecutive CALLs under roundrobin go to s1,...,sk,s1,... cyclically.", "quantifier": "every k, every n, every list of distinct sessions", "why_tests_cant": "Unbounded k and n.", "anchors": ["dealer.go: ReceiveMessage (CALL, REGISTER)"]}
{"id": "C43", "title": "Invocation IDs are fresh", "statement": "Within 2^53 calls, each non-progressive CALL that yields an INVOCATION uses an invocation id that no earlier INVOCATION or REGISTERED carried.", "quantifier": "every history", "why_tests_cant": "Unbounded histories.", "anchors": ["dealer.go: ReceiveMessage (CALL)", "idgen.go"]}
{"id": "C44", "title": "Invocations carry the caller's payload and disclose the caller only on request", "statement": "The INVOCATION of a CALL carries args and kwargs unchanged (or the binary payload and its serializer when both sides use binary payloads); details contain progress and receive_progress exactly when requested, and procedure, caller, caller_authid, caller_authrole of the calling session exactly when AutoDiscloseCaller(true) is in force.", "quantifier": "every history and call", "why_tests_cant": "Unbounded payloads and histories.", "anchors": ["dealer.go: ReceiveMessage (CALL)"]}
{"id": "C45", "title": "Only the invoked callee can answer an invocation", "statement": "A RESULT or ERROR is forwarded to the caller only if the YIELD or ERROR came from the session the INVOCATION was sent to.", "quantifier": "every history", "why_tests_cant": "Security property over all interleavings.", "anchors": ["dealer.go: ReceiveMessage (YIELD, ERROR)"]}
{"id": "C46", "title": "No invocation after unregistering", "statement": "After an UNREGISTER is answered by UNREGISTERED the session gets no INVOCATION with that registration id unless it registers again.", "quantifier": "every history", "why_tests_cant": "Depends on what other sessions registered.", "anchors": ["dealer.go: ReceiveMessage (UNREGISTER)"]}
{"id": "C47", "title": "One session's unregister or departure does not affect other callees", "statement": "If session b is the registrant of a procedure then another session's UNREGISTER or removal leaves the procedure callable and routed to b.", "quantifier": "every history", "why_tests_cant": "Depends on interleavings of several sessions.", "anchors": ["dealer.go: ReceiveMessage (UNREGISTER), RemoveSession"]}
{"id": "C48", "title": "Dealer never panics", "statement": "No sequence of Dealer calls panics, whatever sessions send.", "quantifier": "every history", "why_tests_cant": "Unbounded histories; a panic kills the router.", "anchors": ["dealer.go: RemoveSession, ReceiveMessage"]}
{"id": "C49", "title": "A live prefix registration is found", "statement": "If a prefix registration with a registrant covers the called procedure and no exact registration exists, the call is routed.", "quantifier": "every history", "why_tests_cant": "Depends on earlier registrations that have been withdrawn.", "anchors": ["dealer.go: ReceiveMessage (CALL, UNREGISTER), RemoveSession"]}
{"id": "C50", "title": "Detached sessions receive nothing", "statement": "The dealer never addresses a message to a session that is not attached, other than the session whose own request it is answering.", "quantifier": "every history", "why_tests_cant": "Unbounded histories.", "anchors": ["dealer.go: ReceiveMessage"]}
{"id": "C51", "title": "Progressive call chunks form one invocation", "statement": "All CALL messages of one progressive call (same caller and request id, all but the last marked progress) are forwarded to the same callee under the same invocation id.", "quantifier": "every history, every policy", "why_tests_cant": "Depends on policy state and history.", "anchors": ["dealer.go: ReceiveMessage (CALL)"]}
{"id": "C52", "title": "Every routed call is eventually answerable", "statement": "When the callee of a pending invocation is removed, the dealer answers or forgets the call; it retains no pending invocation for departed sessions.", "quantifier": "every history", "why_tests_cant": "A leak, visible only over histories.", "anchors": ["dealer.go: RemoveSession"]}
{"id": "C53", "title": "Single-policy exact registrations behave like a map from procedure to owner", "statement": "If only exact, single-policy registrations are used and sessions unregister only ids they hold, then a CALL for p is routed to the session that holds p (REGISTERED and not UNREGISTERED or removed since) with its registration id, and refused iff there is none; the dealer never panics in such histories.", "quantifier": "every such history", "why_tests_cant": "Unbounded histories.", "anchors": ["dealer.go"]}
{"id": "C54", "title": "Client accepts RESULT and call ERROR exactly for open calls", "statement": "Session.ReceiveMessage accepts a RESULT for request r iff a CALL r was sent and no final RESULT or call ERROR for r was accepted since; likewise for ERROR of type CALL; a progressive RESULT leaves the call open.", "quantifier": "every history of sends and receives", "why_tests_cant": "Unbounded histories.", "anchors": ["session.go: SendMessage, ReceiveMessage"]}
{"id": "C55", "title": "Client accepts REGISTERED and PUBLISHED exactly once per request", "statement": "REGISTERED (or ERROR REGISTER) for r is accepted iff a REGISTER r was sent and neither was accepted since; the same for PUBLISHED/ERROR PUBLISH with acknowledged PUBLISH messages.", "quantifier": "every history", "why_tests_cant": "Unbounded histories.", "anchors": ["session.go"]}
{"id": "C56", "title": "Client accepts INVOCATION exactly for active registrations", "statement": "INVOCATION with registration id g is accepted iff a REGISTERED carrying g was accepted and no UNREGISTERED for an UNREGISTER of g was accepted since.", "quantifier": "every history", "why_tests_cant": "Unbounded histories.", "anchors": ["session.go"]}
{"id": "C57", "title": "Client accepts EVENT exactly for active subscriptions", "statement": "EVENT with subscription id g is accepted iff a SUBSCRIBED carrying g was accepted and no UNSUBSCRIBED for an UNSUBSCRIBE of g was accepted since; UNSUBSCRIBE can be sent exactly for active subscriptions.", "quantifier": "every history", "why_tests_cant": "Unbounded histories.", "anchors": ["session.go"]}
{"id": "C58", "title": "Rejected client operations have no effect", "statement": "Whenever SendMessage or Receive/ReceiveMessage returns an error the session state is unchanged; without an error they return exactly the bytes or the message the serializer returned.", "quantifier": "every history and message", "why_tests_cant": "Quantifies over continuations.", "anchors": ["session.go"]}
{"id": "C59", "title": "Each request is acknowledged at most once", "statement": "After the answer to a SUBSCRIBE, UNSUBSCRIBE or UNREGISTER request was accepted, a second answer with the same request id is rejected.", "quantifier": "every history", "why_tests_cant": "Replay; unbounded histories.", "anchors": ["session.go: ReceiveMessage (SUBSCRIBED, UNSUBSCRIBED, UNREGISTERED)"]}
{"id": "C60", "title": "Concurrent receives accept an answer at most once", "statement": "When several goroutines call ReceiveMessage concurrently with answers to the same request, then under every interleaving at most one of them is accepted per request sent.", "quantifier": "every number of goroutines, every schedule", "why_tests_cant": "Schedules.", "anchors": ["session.go", "internal/map.go"]}
{"id": "C61", "title": "A client answers only invocations it received", "statement": "SendMessage accepts a YIELD or an invocation ERROR only for an INVOCATION that was received and not finally answered.", "quantifier": "every history", "why_tests_cant": "Unbounded histories.", "anchors": ["session.go: SendMessage (YIELD, ERROR)"]}
{"id": "C62", "title": "Auth method selection", "statement": "If the client proposed at least one method, SelectAuthMethod returns the first proposed method that the server allows and fails iff none is allowed (for non-empty method names).", "quantifier": "every pair of lists", "why_tests_cant": "Unbounded lists.", "anchors": ["auth/helpers.go: SelectAuthMethod"]}
{"id": "C63", "title": "The selected auth method is one the server enabled", "statement": "SelectAuthMethod never returns a method outside the server's list.", "quantifier": "every pair of lists", "why_tests_cant": "Corner case of an unbounded space.", "anchors": ["auth/helpers.go: SelectAuthMethod"]}
{"id": "C64", "title": "WAMP-CRA: the right secret is always accepted, another only on an HMAC collision", "statement": "VerifyWAMPCRASignature accepts the signature a client computes with the same key over the same challenge, for every key, challenge, salt, iteration count and key length; if it accepts any signature then that decodes to HMAC(key, challenge).", "quantifier": "every key, challenge, salt, secret, signature; every HMAC and PBKDF2 function", "why_tests_cant": "Unbounded strings.", "anchors": ["auth/wampcra.go", "acceptor.go"]}
{"id": "C65", "title": "WAMP-CRA signatures have one accepted spelling", "statement": "VerifyWAMPCRASignature accepts at most one signature string for a given challenge and key.", "quantifier": "every signature string", "why_tests_cant": "Unbounded strings.", "anchors": ["auth/wampcra.go: VerifyWAMPCRASignature"]}
{"id": "C66", "title": "CryptoSign: the key holder's answer is always accepted", "statement": "For every key pair and every 32-byte challenge, the signature produced by the client is accepted by VerifyCryptoSignSignature with the client's public key.", "quantifier": "every key pair and challenge; every signature scheme that verifies its own signatures", "why_tests_cant": "Unbounded keys and challenges.", "anchors": ["auth/cryptosign.go"]}
{"id": "C67", "title": "CryptoSign: a session is granted only for the challenge that was issued", "statement": "The acceptor answers AUTHENTICATE with WELCOME under cryptosign only if the signed message is the challenge it sent in this handshake.", "quantifier": "every handshake history", "why_tests_cant": "Replay across handshakes.", "anchors": ["auth/cryptosign.go: VerifyCryptoSignSignature", "acceptor.go: ReceiveMessage"]}
{"id": "C68", "title": "WELCOME only after the authenticator approved", "statement": "The acceptor emits WELCOME only if the server authenticator approved a request with the realm, authid, authextra and selected method of the HELLO (and, for ticket, the ticket of the AUTHENTICATE), and additionally for wampcra the signature decodes to the HMAC of the challenge it issued in this handshake, and for cryptosign the signature opens under the public key in the HELLO.", "quantifier": "every message history, every authenticator behaviour, every random source", "why_tests_cant": "Unbounded histories.", "anchors": ["acceptor.go: Acceptor.ReceiveMessage"]}
{"id": "C69", "title": "The acceptor welcomes at most once and SessionDetails agree with the WELCOME", "statement": "SessionDetails is available exactly after a WELCOME was emitted, carries the WELCOME's session id, realm, authid, authrole and method, and every message after the WELCOME is rejected without effect.", "quantifier": "every message history", "why_tests_cant": "Unbounded histories.", "anchors": ["acceptor.go"]}
{"id": "C70", "title": "The acceptor never panics", "statement": "No sequence of messages makes Acceptor.ReceiveMessage panic (for authenticators that return a response or an error).", "quantifier": "every message history", "why_tests_cant": "Unbounded histories.", "anchors": ["acceptor.go"]}
{"id": "C71", "title": "A failed authentication ends the handshake", "statement": "After the acceptor answered with ABORT it never emits WELCOME.", "quantifier": "every message history", "why_tests_cant": "Brute force over histories.", "anchors": ["acceptor.go"]}
{"id": "C72", "title": "The joiner follows the handshake protocol", "statement": "The joiner accepts WELCOME only after SendHello and before another WELCOME, accepts at most one CHALLENGE per SendHello, exposes SessionDetails exactly after an accepted WELCOME, with the session id, authid and authrole of the last accepted WELCOME and its own realm; every other message is rejected without a state change.", "quantifier": "every message history", "why_tests_cant": "Unbounded histories.", "anchors": ["joiner.go"]}
{"id": "C73", "title": "The joiner never panics on router input", "statement": "No message from the router makes Joiner.ReceiveMessage panic.", "quantifier": "every message history", "why_tests_cant": "Unbounded inputs.", "anchors": ["joiner.go: ReceiveMessage"]}
{"id": "C74", "title": "Honest handshakes succeed and both sides agree", "statement": "For each of anonymous, ticket, wampcra (salted or not) and cryptosign, if the client holds the credentials the server's authenticator expects, then running joiner and acceptor against each other through any value-preserving serializer ends with both holding SessionDetails with the same session id, realm, authid, authrole and auth method.", "quantifier": "every realm, authid, role, secret, salt, iteration count, key length, random value", "why_tests_cant": "Unbounded parameters.", "anchors": ["joiner.go", "acceptor.go", "auth/*.go"]}
{"id": "C75", "title": "ISO8601 zone suffix denotes the offset", "statement": "The zone suffix produced by ISO8601 is Z exactly for offset 0 and otherwise a sign and hhmm that denote the zone offset truncated toward zero to whole minutes, for every offset below 100 hours.", "quantifier": "every zone offset", "why_tests_cant": "Every offset including negative and half-hour ones.", "anchors": ["auth/iso8601.go: ISO8601"]}
{"id": "C76", "title": "Concurrent use of a broker, dealer or generator is equivalent to a sequential one", "statement": "For any number of goroutines calling methods concurrently, under every interleaving the results and the final state are those of calling the methods one after another in the order in which they acquired the lock.", "quantifier": "every number of goroutines, every schedule", "why_tests_cant": "Schedules.", "anchors": ["broker.go: Lock/Unlock", "dealer.go: Lock/Unlock", "idgen.go: Lock/Unlock"]}
{"id": "C77", "title": "Wildcard matching follows the glob semantics", "statement": "wildcardMatch(str, pattern) holds exactly when str belongs to the language of the glob pattern (star: any run of non-slash characters, ?: one non-slash character, [..] classes, backslash escapes); a malformed pattern matches nothing.", "quantifier": "every string and pattern", "why_tests_cant": "Unbounded strings; backtracking.", "anchors": ["dealer.go: wildcardMatch"]}
{"id": "C78", "title": "The client session is a function of the messages it accepted", "statement": "Whether SendMessage or ReceiveMessage accepts a message of any type, and what it returns, is determined by the sequence of messages accepted before, by the rules of SessionSpec.v (acceptable, sendable); types a client never receives or never sends are always rejected, GOODBYE and ABORT always accepted.", "quantifier": "every history, every message", "why_tests_cant": "Unbounded histories; all 24 message types in all states.", "anchors": ["session.go: SendMessage, Receive, ReceiveMessage"]}
{"id": "C79", "title": "NewCryptoSignAuthenticator accepts exactly the usable keys", "statement": "NewCryptoSignAuthenticator succeeds for every hexadecimal 32-byte private key whose public key is absent from authextra or equal to the one given there, puts that public key into authextra and keeps the other entries; it returns an error for every other private key or public key.", "quantifier": "every private key text and authextra", "why_tests_cant": "Unbounded texts.", "anchors": ["auth/cryptosign.go: NewCryptoSignAuthenticator"]}
{"id": "C80", "title": "Generated cryptosign key pairs work", "statement": "For the pair returned by GenerateCryptoSignKeyPair, NewCryptoSignAuthenticator with the private key announces exactly the returned public key, and its answer to every 32-byte challenge is accepted by VerifyCryptoSignSignature with that public key.", "quantifier": "every random seed and challenge; every signature scheme that verifies its own signatures", "why_tests_cant": "All random seeds.", "anchors": ["auth/cryptosign.go: GenerateCryptoSignKeyPair, NewCryptoSignAuthenticator, VerifyCryptoSignSignature"]}
{"id": "C81", "title": "WAMP-CRA challenges identify their nonce", "statement": "Two challenges produced by GenerateWAMPCRAChallenge are different texts whenever their nonces differ, whatever authid, role and provider are injected into the JSON text; equal challenges also have authid and role with the same JSON spelling.", "quantifier": "every nonce, authid, role, provider, session id, time stamp", "why_tests_cant": "Injection through quotes and escapes in unbounded strings.", "anchors": ["auth/wampcra.go: GenerateWAMPCRAChallenge"]}
{"id": "C82", "title": "Clients and router stay in step", "statement": "Any number of client Sessions joined to one Broker and Dealer by in-order transports: as long as session ids are not reused, each client uses each request id once, registers procedures for itself only, and gives up only registrations it knows, once, no message the router sends is ever rejected by the ReceiveMessage of the session it is sent to, and neither side panics; leaving out any one of these rules, this fails.", "quantifier": "every interleaving of any number of clients joining, leaving, sending, reading and being served, every message content, every map order; up to 2^53 events", "why_tests_cant": "Unbounded runs of a distributed system with arbitrary delays.", "anchors": ["session.go: Session", "broker.go: Broker", "dealer.go: Dealer"]}
{"id": "C83", "title": "A client that has read everything agrees with the router", "statement": "In the same runs, whenever the queue towards a client is empty, the subscriptions and registrations its Session knows are exactly those the Broker and Dealer hold it down for, and its open calls are exactly those not yet read by the router or waiting for a callee.", "quantifier": "every such run, every client", "why_tests_cant": "Agreement of three components over unbounded runs.", "anchors": ["session.go: Session", "broker.go: Broker", "dealer.go: Dealer"]}
{"id": "C84", "title": "Every call is in exactly one place and answered at most once", "statement": "In the same runs, every CALL a present client ever sent is in exactly one of four places: on the way to the router, waiting for a callee's answer, answered and on the way back, answered and read; a client never reads two final answers to one call nor one for a call it did not make; at most one invocation is open per call.", "quantifier": "every such run, every client and call", "why_tests_cant": "Conservation over unbounded runs.", "anchors": ["session.go: Session", "dealer.go: Dealer"]}
{"id": "C85", "title": "Every message a client reads goes back to what somebody sent", "statement": "In the same runs: EVENTs carry the payload of a PUBLISH some client sent; an INVOCATION carries that of a CALL; a RESULT or ERROR for a call carries that of a YIELD or ERROR for the very invocation the dealer made for that call; acknowledgements and refusals answer a request this client sent.", "quantifier": "every such run, every message read", "why_tests_cant": "Provenance over unbounded runs.", "anchors": ["session.go: Session", "broker.go: Broker", "dealer.go: Dealer"]}
{"id": "C86", "title": "A publication to a topic held by name reaches exactly its subscribers", "statement": "In the same runs, when the router reads a PUBLISH to a topic somebody is subscribed to by that name, exactly one EVENT with its payload is queued for each present client holding that subscription and none for the others, after everything already queued, followed for the publisher by PUBLISHED if asked for.", "quantifier": "every such run, every publication", "why_tests_cant": "All interleavings and recipients.", "anchors": ["broker.go: ReceivePublish"]}
{"id": "C87", "title": "With one receiver a session is linearizable", "statement": "Goroutines sharing a Session without a lock, at most one of them inside Receive or ReceiveMessage at any time, and no two calls concerning the same UNSUBSCRIBE request overlapping: every call appears to take effect at one instant between its begin and its return, so that all results, and the state when nothing is running, are those of some sequential order; in particular at most one final answer is accepted per CALL. With two receivers, or with an UNSUBSCRIBE answered while it is still being sent, this fails.", "quantifier": "every number of goroutines, every calls they make, every interleaving of the map accesses", "why_tests_cant": "Unbounded interleavings; the race detector sees no data race because sync.Map is used.", "anchors": ["session.go: SendMessage, ReceiveMessage, Receive", "internal/map.go"]}
{"id": "C88", "title": "Every request is answered once, in the order of the requests", "statement": "Join client sessions with a router's broker and dealer by queues. Clients that use fresh request ids, share no registration, and give a registration or subscription up only if they have it and only once, get exactly one answer (SUBSCRIBED, UNSUBSCRIBED, REGISTERED or its ERROR, UNREGISTERED, PUBLISHED) for every SUBSCRIBE, UNSUBSCRIBE, REGISTER, UNREGISTER and acknowledged PUBLISH, in the order in which they made the requests; at every moment the requests made are the answers read, followed by the answers under way, followed by the requests not yet read. Without new messages the queues run empty, and then all is answered.", "quantifier": "for every finite sequence of joins, leaves, sends, routings and deliveries keeping the rules (up to 2^53 events), every client, every delay of every message", "why_tests_cant": "Which answer meets which request depends on how the traffic of all clients interleaves in broker, dealer and two queues per client; a test fixes one schedule and cannot show that no schedule loses, repeats or reorders an answer.", "anchors": ["session.go:Session.SendMessage", "session.go:Session.ReceiveMessage", "broker.go:Broker.ReceiveMessage", "broker.go:Broker.ReceivePublish", "dealer.go:Dealer.ReceiveMessage"]}
{"id": "C89", "title": "A RawSocket stream splits back into the frames written", "statement": "Whoever writes SendMessageHeader's four bytes and the payload for each message, and reads four bytes and then as many as ReceiveMessageHeader announces, gets back exactly the messages written, in order, however the bytes are cut into reads and for every message size a handshake can allow. Whatever bytes arrive, the frames read and the bytes kept are exactly the bytes received, and a frame once read is not affected by later bytes.", "quantifier": "every list of messages (kind, payload), every division of the bytes into reads, every byte stream", "why_tests_cant": "Streams and their divisions are unbounded; tests send one header at a time.", "anchors": ["transports/rawsocket.go:SendMessageHeader", "transports/rawsocket.go:ReceiveMessageHeader", "transports/rawsocket.go:IntToBytes", "transports/rawsocket.go:BytesToInt"]}
{"id": "C90", "title": "Every call is answered once the callees have done their part", "statement": "Join client sessions with a router's broker and dealer by queues. When no message is on the way, everybody who read an INVOCATION has since sent a YIELD without progress or an ERROR for it, and nobody left with messages still on the way to or from it, then every client has read exactly one final answer for every CALL it made. From any moment on, as long as nobody left owing an answer, moving the messages there are and ending the invocations that were read brings all calls to their answers.", "quantifier": "every run (joins, leaves, sends, routings, deliveries in any order, up to 2^53 events) of clients keeping the rules, every client", "why_tests_cant": "Whether some schedule leaves a call hanging cannot be seen from the schedules a test runs.", "anchors": ["session.go:Session.SendMessage", "session.go:Session.ReceiveMessage", "dealer.go:Dealer.ReceiveMessage", "dealer.go:Dealer.RemoveSession"]}
{"id": "C91", "title": "A call is answered by the callee it went to, or by nobody", "statement": "In the same networks, if no client answers an INVOCATION it has not read: a final answer to a call is read only if the client the router sent the INVOCATION to has sent an answer for it; hence a call whose callee has left without answering is never answered, whatever happens later.", "quantifier": "every run of clients keeping the rules and every continuation of it, every call", "why_tests_cant": "A statement about all continuations; needs invocation ids never to be confused between calls and callees.", "anchors": ["session.go:Session.SendMessage", "dealer.go:Dealer.ReceiveMessage", "dealer.go:Dealer.RemoveSession"]}
{"id": "C92", "title": "A WAMP-CRA WELCOME proves that a key holder has just signed", "statement": "Any number of servers (Acceptors) and users with WAMP-CRA secrets (Joiners) are reached only through somebody who may read, drop, repeat, alter and invent messages. If nonces are fresh and signatures under a key are not forged, then behind every WELCOME for a user with this key stands a user with a secret of that key who was waiting for the answer to its own HELLO and signed the very challenge of that server after the server made it; and servers let the key in no more often than its holders sent HELLO. With repeated nonces this fails.", "quantifier": "every number of servers and users, every interleaving, every message the adversary delivers, every authenticator", "why_tests_cant": "Adversarial interleavings of unboundedly many handshakes; tests run one honest handshake.", "anchors": ["acceptor.go:Acceptor.ReceiveMessage", "joiner.go:Joiner.ReceiveMessage", "auth/wampcra.go:GenerateWAMPCRAChallenge", "auth/wampcra.go:VerifyWAMPCRASignature", "auth/wampcra.go:NewWAMPCRAAuthenticator"]}
{"id": "C93", "title": "A WAMP-CRA handshake binds authid, role, realm and session on both sides", "statement": "In the same setting, the user behind a WELCOME signed a challenge that names the WELCOME's authid, role and session id and had asked for the WELCOME's realm, and a user that has joined by WAMP-CRA has been let in by some server.", "quantifier": "every number of servers and users, every interleaving, every message the adversary delivers", "why_tests_cant": "Requires finding the interleaving and alteration that breaks the binding.", "anchors": ["acceptor.go:Acceptor.ReceiveMessage", "acceptor.go:Acceptor.sendWelcome", "joiner.go:Joiner.ReceiveMessage", "auth/wampcra.go:GenerateWAMPCRAChallenge"]}
{"id": "C94", "title": "Behind serializers everything goes as without them", "statement": "Put a serializer on both ends of every connection between client sessions and a router's broker and dealer: what is sent is marshalled and encoded, what is read is decoded and parsed, and a codec may change the kinds of numbers, turn nil slices and maps into null and []string into lists, differently for every message. Then broker, dealer and all sessions go through exactly the states they go through if the messages are handed over directly, every client reads the same messages up to such changes of values, nothing is unreadable, and clients that keep the rules of C82 have nothing rejected. This needs mandatory dictionaries to be there, no pre-encoded payload, and no option given as auth.Method. If what the clients send can be encoded, so can everything the router sends.", "quantifier": "every run (joins, leaves, sends, routings, deliveries in any order), every choice of the codec for every message, every iteration order of the validators", "why_tests_cant": "Composes marshalling, parsing, routing and session tracking over unboundedly many messages and all codecs; a test fixes one codec and a few messages.", "anchors": ["serializers/helpers.go:ToMessage", "serializers/json.go:JSONSerializer.Deserialize", "serializers/cbor.go:CBORSerializer.Deserialize", "serializers/msgpack.go:MsgPackSerializer.Deserialize", "session.go:Session.SendMessage", "session.go:Session.Receive", "broker.go:Broker.ReceiveMessage", "broker.go:Broker.ReceivePublish", "dealer.go:Dealer.ReceiveMessage"]}
{"id": "C95", "title": "The handshake announces the features there are", "statement": "Every HELLO a Joiner makes announces exactly the roles caller, callee, publisher and subscriber with the features of ClientRoles, every WELCOME an Acceptor makes exactly dealer and broker with those of RouterRoles, whatever serializer carries them, and a client that joined finds the router's announcement in its session details. Each announced feature is there: a dealer acts on CANCEL, sessions send CANCEL and accept INTERRUPT, a broker honours exclude_me.", "quantifier": "every history of calls on Joiner and Acceptor, every authenticator, every faithful serializer; every dealer and session state for CANCEL and INTERRUPT", "why_tests_cant": "A test compares one message; that a feature is missing shows only in states and options nobody tested.", "anchors": ["joiner.go:ClientRoles", "acceptor.go:RouterRoles", "acceptor.go:Acceptor.sendWelcome", "joiner.go:Joiner.SendHello", "dealer.go:Dealer.ReceiveMessage", "session.go:Session.SendMessage", "broker.go:Broker.ReceivePublish"]}
{"id": "C96", "title": "Session details report serializer, roles and extra of their own handshake", "statement": "The details an Acceptor reports say whether its own serializer is static (which decides how the dealer forwards pre-encoded payloads), the router's roles, and as auth extra what the AUTHENTICATE that was answered by WELCOME carried (nothing if HELLO was). The details a Joiner reports say whether its own serializer is static, the roles of the WELCOME it accepted last, and no auth extra.", "quantifier": "every history of calls on Joiner and Acceptor, every authenticator", "why_tests_cant": "Needs all orders of messages, including repeated AUTHENTICATE with different extras.", "anchors": ["acceptor.go:Acceptor.sendWelcome", "acceptor.go:Acceptor.SessionDetails", "joiner.go:Joiner.ReceiveMessage", "joiner.go:Joiner.SessionDetails", "types.go:NewSessionDetails"]}
{"id": "C97", "title": "A pre-encoded payload reaches its recipient", "statement": "The bytes and the serializer id given to NewCallBinary or NewYieldBinary arrive with the INVOCATION or RESULT the dealer sends for it, whose details name the serializer; through a serializer they arrive as well.", "quantifier": "every history of the dealer, every call and yield with pre-encoded payload, every session; every message and every codec for Marshal", "why_tests_cant": "The path depends on flags of the receiving session and on the state of the dealer; existing tests only look at the constructors.", "anchors": ["dealer.go:Dealer.ReceiveMessage", "messages/call.go:NewCallBinary", "messages/yield.go:NewYieldBinary", "messages/invocation.go:NewInvocationBinary", "messages/result.go:NewResultBinary", "messages/call.go:Call.Marshal"]}
{"id": "C98", "title": "Constructors build what they are given, leave the rest alone, and what they build can be read", "statement": "Whatever messages a program builds from its maps, in whatever order and sharing: each constructed message says at that moment what its arguments say, with an empty dictionary in place of nil where one is replaced; constructing further messages changes neither it nor the program's own maps; and every constructed message can be read by a peer.", "quantifier": "every sequence of making maps and calling any of the 28 constructors, every sharing of maps between them", "why_tests_cant": "Maps are references in Go: whether one constructor disturbs another message depends on sharing, which tests of single constructors do not have.", "anchors": ["messages/call.go:NewCallBinary", "messages/result.go:NewResultBinary", "messages/invocation.go:NewInvocationBinary", "messages/yield.go:NewYieldBinary", "messages/welcome.go:NewWelcome", "messages/challenge.go:NewChallenge", "messages/abort.go:NewAbort"]}
{"id": "C99", "title": "Disclosed identities are authenticated ones", "statement": "Connections talk to an Acceptor each until it has sent WELCOME; then broker and dealer get their messages under the session details the Acceptor reports. Whoever is at the other end, in every run: only connections that were let in (on the grounds of C68) are given anything by broker and dealer, every id belongs to one of them; if caller disclosure is on, the details of an INVOCATION name id, authid and authrole of the WELCOME that went to the very connection whose CALL it stems from, likewise EVENT and PUBLISH, and if it is off they name nobody.", "quantifier": "every number of connections, every sequence of messages on them, every authenticator, every id and nonce drawn, disclosure switched at any time", "why_tests_cant": "Composes handshakes and routing over unboundedly many adversarial connections; the parts are only tested alone.", "anchors": ["acceptor.go:Acceptor.ReceiveMessage", "acceptor.go:Acceptor.SessionDetails", "dealer.go:Dealer.AddSession", "dealer.go:Dealer.ReceiveMessage", "dealer.go:Dealer.AutoDiscloseCaller", "broker.go:Broker.ReceivePublish", "broker.go:Broker.AutoDisclosePublisher"]}
{"id": "C100", "title": "An answer goes to the connection that called", "statement": "At the same router, a RESULT or call ERROR given to a connection answers a CALL with that request id which this connection itself sent.", "quantifier": "every number of connections, every sequence of messages on them, every session id drawn", "why_tests_cant": "Depends on what is left behind when a session ends and on which ids come up later.", "anchors": ["dealer.go:Dealer.ReceiveMessage", "dealer.go:Dealer.RemoveSession", "idgen.go:GenerateID"]}
{"id": "C101", "title": "No client can make the router panic", "statement": "Whatever is sent on the connections of the same router and whenever they close, neither Acceptor nor Broker nor Dealer panics.", "quantifier": "every number of connections, every sequence of messages on them", "why_tests_cant": "Requires finding the message that breaks an invariant spread over three maps.", "anchors": ["acceptor.go:Acceptor.ReceiveMessage", "broker.go:Broker.ReceiveMessage", "dealer.go:Dealer.ReceiveMessage", "dealer.go:Dealer.RemoveSession"]}
{"id": "C102", "title": "A cryptosign WELCOME means a key holder has just signed this server's challenge", "statement": "Let any number of servers and cryptosign users run handshakes while whoever carries the messages may read, drop, repeat and make up anything except signatures under keys it does not hold. Behind every cryptosign WELCOME stands a holder of the private key that belongs to the announced public key, who was waiting for the answer to its own HELLO and signed that server's challenge after it was made; and a key lets in no more often than its holders said HELLO.", "quantifier": "every number of servers and users, every sequence of messages given to them, every authenticator, every challenge drawn without repetition, every choice of the keys the adversary does not hold", "why_tests_cant": "An adversary's schedule over unboundedly many handshakes; tests run one honest handshake.", "anchors": ["acceptor.go:Acceptor.ReceiveMessage", "joiner.go:Joiner.ReceiveMessage", "auth/cryptosign.go:NewCryptoSignAuthenticator", "auth/cryptosign.go:SignCryptoSignChallenge", "auth/cryptosign.go:VerifyCryptoSignSignature"]}
{"id": "C103", "title": "A router gives exactly what was asked for, to those who asked", "statement": "At the router of C99, whatever its clients send: every SUBSCRIBE is answered to its sender with an id that everybody who has this topic shares and nobody has for another; UNSUBSCRIBE ends the sender's own subscription, and is not answered when it has no such subscription; a PUBLISH leads to at most one event, which goes once to each connection that has the subscription it names and to nobody else, with the payload published, namely the subscription to that very topic if anybody has one, otherwise one to a pattern that somebody asked for and that matches; PUBLISHED goes to the publisher iff it asked; REGISTER, UNREGISTER and CALL are answered to their sender under their request id, an INVOCATION, RESULT or call ERROR goes to one connection; and nothing is given that is not such a reaction.", "quantifier": "every number of connections, every sequence of messages and closings on them, every session id drawn, also ids drawn again", "why_tests_cant": "Quantifies over adversarial clients whose messages interleave; the tests of broker and dealer drive one or two well-behaved sessions by hand.", "anchors": ["broker.go:Broker.ReceiveMessage", "broker.go:Broker.ReceivePublish", "broker.go:Broker.RemoveSession", "dealer.go:Dealer.ReceiveMessage"]}
{"id": "C104", "title": "Hostile clients cannot bring a well-behaved one out of step", "statement": "Some clients use a Session and keep the rules of C82; the others send the router whatever they like, forged answers and foreign ids included. Unless a call on the router panics, a well-behaved client's Session accepts everything it is given; once it has read everything its subscriptions, registrations and pending calls are those the router has for it; each of its calls is in exactly one place and is answered at most once, and it gets no answer to a call it did not make.", "quantifier": "every number of well-behaved and hostile clients, every interleaving of their messages, any messages of the hostile ones", "why_tests_cant": "Quantifies over the messages of adversaries interleaved with honest traffic; the tests know one or two cooperating sessions.", "anchors": ["session.go:Session.ReceiveMessage", "session.go:Session.SendMessage", "dealer.go:Dealer.ReceiveMessage", "broker.go:Broker.ReceiveMessage", "broker.go:Broker.ReceivePublish"]}
{"id": "C105", "title": "Nobody takes over the procedures of others", "statement": "In the same setting, while a client holds a procedure a CALL of that procedure is given to this client under its registration and to nobody else, and an INVOCATION for a registration goes to a client that holds it.", "quantifier": "every number of well-behaved and hostile clients, every interleaving of their messages, any messages of the hostile ones", "why_tests_cant": "The holder loses the procedure only through particular sequences of other sessions' messages.", "anchors": ["dealer.go:Dealer.ReceiveMessage", "dealer.go:Dealer.RemoveSession"]}
{"id": "C106", "title": "Hostile clients cannot keep events from subscribers", "statement": "In the same setting, when the router reads a PUBLISH to a topic with a subscriber, exactly the clients that hold the subscription get the event, once each, with the payload published, and the publisher gets PUBLISHED iff it asked.", "quantifier": "every number of well-behaved and hostile clients, every interleaving of their messages, any messages of the hostile ones", "why_tests_cant": "Quantifies over the messages of adversaries interleaved with honest traffic.", "anchors": ["broker.go:Broker.ReceiveMessage", "broker.go:Broker.ReceivePublish", "broker.go:Broker.RemoveSession"]}
{"id": "C107", "title": "A WAMP-CRA challenge is a JSON object naming the user", "statement": "The challenge in a WAMP-CRA CHALLENGE reads as a JSON object with exactly the members authid, authmethod, authprovider, authrole, nonce, session and timestamp; authid and authrole are those of the approved response (bytes that are not UTF-8 become U+FFFD), the nonce is the random bytes in base64, session is the id drawn. Two challenges with the same text are for the same user, role and id.", "quantifier": "every acceptor state, every authenticator answer, every byte string as name", "why_tests_cant": "Every byte may occur in a name: quotes, markup, control characters, broken UTF-8.", "anchors": ["auth/wampcra.go:GenerateWAMPCRAChallenge", "acceptor.go:Acceptor.ReceiveMessage"]}
{"id": "C108", "title": "The session in a WAMP-CRA challenge is the session welcomed", "statement": "The member session of the challenge is the session id of the WELCOME that follows.", "quantifier": "every handshake", "why_tests_cant": "Ids are drawn at random; the tests do not compare them.", "anchors": ["acceptor.go:Acceptor.ReceiveMessage", "auth/wampcra.go:GenerateWAMPCRAChallenge"]}
{"id": "C109", "title": "An acceptor without an authenticator lets everybody in as anonymous and nobody else", "statement": "An Acceptor made with a nil authenticator never panics; until it sent a WELCOME it answers a HELLO that proposes no method or anonymous among others with a WELCOME for authid and authrole anonymous and every other HELLO with ABORT wamp.error.authentication_failed; everything else, and everything after the WELCOME, is an error; it never sends a CHALLENGE.", "quantifier": "every sequence of messages", "why_tests_cant": "Unbounded sequences of messages and arbitrary proposals.", "anchors": ["acceptor.go:NewAcceptor", "acceptor.go:defaultAuthenticator", "acceptor.go:Acceptor.ReceiveMessage", "auth/helpers.go:SelectAuthMethod"]}
{"id": "C110", "title": "String and bool conversions", "statement": "util.AsString and util.AsBool return the value and true for exactly the strings (bools), and otherwise the zero value and false; ToString and ToBool return the same value; AnysToStrings returns the strings of a list in order and fails iff some element is not a string.", "quantifier": "every value, every list", "why_tests_cant": "All dynamic types and lists of any length.", "anchors": ["util/util.go:AsString", "util/util.go:AsBool", "util/util.go:ToString", "util/util.go:ToBool", "util/util.go:AnysToStrings"]}
{"id": "C111", "title": "A message whose values JSON can carry survives the JSON serializer", "statement": "If the strings of a message are UTF-8, its integers up to 2^53, its floats finite float64s, it holds no byte strings and is not nested deeper than 10000, JSONSerializer.Serialize gives a text and JSONSerializer.Deserialize reads that text as a message of the same type with the same contents (integers as float64, nil lists and dictionaries as null, []string as a list).", "quantifier": "every message of the 24 types, strings with any characters, values of any shape and size", "why_tests_cant": "Every character, number and nesting of values; tests serialize a few samples.", "anchors": ["serializers/json.go:JSONSerializer.Serialize", "serializers/json.go:JSONSerializer.Deserialize", "serializers/helpers.go:ToMessage"]}
{"id": "C112", "title": "Arguments arrive through JSON as they were sent", "statement": "What is serialized with the JSON serializer without an error is deserialized as the same values: byte strings as the same bytes, strings as the same strings, integers as the same numbers.", "quantifier": "every value", "why_tests_cant": "Unbounded values; the tests do not send byte strings or large integers over JSON.", "anchors": ["serializers/json.go:JSONSerializer.Serialize", "serializers/json.go:JSONSerializer.Deserialize"]}
{"id": "C113", "title": "No text makes the JSON deserializer panic", "statement": "JSONSerializer.Deserialize returns a message or an error for every sequence of bytes.", "quantifier": "every byte string", "why_tests_cant": "All byte strings.", "anchors": ["serializers/json.go:JSONSerializer.Deserialize", "serializers/helpers.go:ToMessage"]}
{"id": "C114", "title": "JSON payloads whose values JSON can carry survive", "statement": "If args and kwargs hold what JSON can carry (see C111), JSONEncodePayload succeeds and JSONDecodePayload gives back the same arguments and keyword arguments; an empty payload, however, encodes to no bytes, which JSONDecodePayload rejects.", "quantifier": "every payload", "why_tests_cant": "Values of any shape and size.", "anchors": ["serializers/payload.go:JSONEncodePayload", "serializers/payload.go:JSONDecodePayload"]}
{"id": "C115", "title": "A message survives the CBOR serializer", "statement": "If the strings of a message are UTF-8, its lists and dictionaries have at most 131072 entries and are nested at most 31 deep inside a field, CBORSerializer.Serialize gives bytes that are an RFC 8949 encoding of the message and CBORSerializer.Deserialize reads them as a message of the same type with the same contents; every definite-length encoding of a list within those limits is read as that list, whoever wrote it.", "quantifier": "every message of the 24 types, values of any shape and size within the limits, every order of map iteration, every definite-length encoding", "why_tests_cant": "Every value and every permitted encoding of it; tests serialize a few samples.", "anchors": ["serializers/cbor.go:CBORSerializer.Serialize", "serializers/cbor.go:CBORSerializer.Deserialize", "serializers/helpers.go:ToMessage"]}
{"id": "C116", "title": "A message survives the MessagePack serializer", "statement": "If the lists, dictionaries, strings and byte strings of a message are shorter than 2^32, MsgPackSerializer.Serialize gives bytes that are a MessagePack encoding of the message and MsgPackSerializer.Deserialize reads them as a message of the same type with the same contents (integers that arrive as int16 excepted, see C118); every MessagePack encoding of a list without extension types is read as that list.", "quantifier": "every message of the 24 types, values of any shape and size, every order of map iteration, every encoding", "why_tests_cant": "Every value and every permitted encoding of it; tests serialize a few samples.", "anchors": ["serializers/msgpack.go:MsgPackSerializer.Serialize", "serializers/msgpack.go:MsgPackSerializer.Deserialize", "serializers/helpers.go:ToMessage"]}
{"id": "C117", "title": "What the CBOR serializer writes it also reads", "statement": "A list of arguments that CBORSerializer writes without an error is read back by it as the same values.", "quantifier": "every value", "why_tests_cant": "Unbounded values; the tests use ASCII strings and flat arguments.", "anchors": ["serializers/cbor.go:CBORSerializer.Serialize", "serializers/cbor.go:CBORSerializer.Deserialize"]}
{"id": "C118", "title": "Integers arrive through CBOR and MessagePack in a kind every accessor reads", "statement": "An integer of any kind arrives with the same value through CBOR and MessagePack, and util.AsInt and util.AsFloat64 read it.", "quantifier": "every integer of every kind", "why_tests_cant": "All 64-bit integers of ten kinds; the kind of arrival depends on the size of the number.", "anchors": ["serializers/cbor.go:CBORSerializer.Serialize", "serializers/msgpack.go:MsgPackSerializer.Serialize", "util/util.go:AsInt", "util/util.go:AsFloat64"]}
{"id": "C119", "title": "A deserializer refuses a cut message and a message followed by more bytes", "statement": "If some last bytes of a serialized message are missing, or bytes follow it, the CBOR and MessagePack deserializers return an error.", "quantifier": "every message, every place to cut, every continuation", "why_tests_cant": "Every message and every cut.", "anchors": ["serializers/cbor.go:CBORSerializer.Deserialize", "serializers/msgpack.go:MsgPackSerializer.Deserialize"]}
{"id": "C120", "title": "No bytes make the CBOR or MessagePack deserializer panic", "statement": "CBORSerializer.Deserialize and MsgPackSerializer.Deserialize return a message or an error for every sequence of bytes.", "quantifier": "every byte string", "why_tests_cant": "All byte strings.", "anchors": ["serializers/cbor.go:CBORSerializer.Deserialize", "serializers/msgpack.go:MsgPackSerializer.Deserialize", "serializers/helpers.go:ToMessage"]}
{"id": "C121", "title": "CBOR and MessagePack payloads survive", "statement": "A non-empty payload whose values fit (see C115, C116) is encoded by CBOREncodePayload and MsgPackEncodePayload without an error, and the decoder of the same name gives back the same arguments and keyword arguments.", "quantifier": "every payload", "why_tests_cant": "Values of any shape and size.", "anchors": ["serializers/payload.go:CBOREncodePayload", "serializers/payload.go:CBORDecodePayload", "serializers/payload.go:MsgPackEncodePayload", "serializers/payload.go:MsgPackDecodePayload"]}
{"id": "C122", "title": "The JSON deserializer reads exactly the JSON texts, as what they mean", "statement": "JSONSerializer.Deserialize decodes every JSON text of RFC 8259 (any white space, escapes, surrogate pairs, number formats, repeated keys of which the last counts) nested at most 10000 deep whose numbers fit float64, and as the value the text stands for; whatever it decodes without an error is such a text, except that broken UTF-8 and halves of surrogate pairs inside strings are read as U+FFFD.", "quantifier": "every byte string and every JSON text, however written and by whom", "why_tests_cant": "The grammar is infinite; other implementations write texts the tests never contain.", "anchors": ["serializers/json.go:JSONSerializer.Deserialize", "serializers/payload.go:JSONDecodePayload"]}
{"id": "C123", "title": "Numbers in JSON are read as the nearest float64", "statement": "A JSON number is decoded as the float64 nearest to it, of two equally near ones as the one with an even significand, and it is refused exactly if it lies half a step or more beyond the largest float64.", "quantifier": "every JSON number with any number of digits and any exponent", "why_tests_cant": "Infinitely many decimals, the hard ones half way between two float64 values.", "anchors": ["serializers/json.go:JSONSerializer.Deserialize"]}
{"id": "C124", "title": "What the JSON serializer writes is JSON that says what the message says", "statement": "Whatever JSONSerializer.Serialize writes without an error is a strict RFC 8259 text that stands for the fields of the message: integers digit for digit, strings as they are (U+FFFD for broken UTF-8), byte strings in base64, the entries of a dictionary each once.", "quantifier": "every message and every value", "why_tests_cant": "Any other implementation has to read it; tests read it back with the same library only.", "anchors": ["serializers/json.go:JSONSerializer.Serialize", "serializers/payload.go:JSONEncodePayload"]}
{"id": "C125", "title": "Messages over a RawSocket connection arrive, however it cuts the bytes", "statement": "If a peer sends the handshake of SendHandshake naming JSON, MessagePack or CBOR and then messages that serializer can carry, each serialized and behind its SendMessageHeader and shorter than 2^24 bytes, with pings and pongs in between, then the other side, reading four bytes for ReceiveHandshake and then frames by ReceiveMessageHeader, learns the serializer and the size and deserializes the same messages in the same order, whatever pieces the bytes arrive in, and no byte is left.", "quantifier": "every sequence of messages and other frames, every legal size, the three serializers, every partition of the bytes into reads", "why_tests_cant": "Arbitrary conversations and arbitrary partitions of the stream; the tests exercise headers and serializers separately.", "anchors": ["transports/rawsocket.go:SendHandshake", "transports/rawsocket.go:ReceiveHandshake", "transports/rawsocket.go:SendMessageHeader", "transports/rawsocket.go:ReceiveMessageHeader", "serializers/json.go:JSONSerializer", "serializers/cbor.go:CBORSerializer", "serializers/msgpack.go:MsgPackSerializer"]}
{"id": "C126", "title": "A JSON message ends where it ends", "statement": "If the JSON deserializer reads a message from a text, then it reads the same message if white space follows, returns an error (and does not panic) if anything else follows, and returns an error if more than white space is missing at the end of the text; a message written by the serializer is refused with any of its last bytes missing.", "quantifier": "every text, every continuation, every place to cut", "why_tests_cant": "Every text and every cut; a number or a bracket at the cut could still make a shorter message.", "anchors": ["serializers/json.go:JSONSerializer.Serialize", "serializers/json.go:JSONSerializer.Deserialize"]}
{"id": "C127", "title": "Floats through JSON", "statement": "A finite float64 is written by the JSON serializer as a decimal number which it reads back as the same number; no number of fewer digits would be read back as it, and none of as many digits is nearer to it. An infinity or NaN is refused with an error.", "quantifier": "every float64", "why_tests_cant": "There are 2^64 of them, and whether the shortest decimal is read back exactly is decided by the last bit.", "anchors": ["serializers/json.go:JSONSerializer.Serialize", "serializers/json.go:JSONSerializer.Deserialize"]}
{"id": "C128", "title": "Clients with different serializers", "statement": "In a realm whose clients each use JSON, MessagePack or CBOR, everything goes as if messages were handed over as Go values: broker, dealer and sessions are in the same states, and each client deserializes from the bytes it gets messages of the same types with the same meaning in the same order. Clients that keep the rules of C82 refuse none of them, and no message fails to be serialized or deserialized.", "quantifier": "every sequence of joins, sends, routings, deliveries and leaves by any number of clients, every assignment of the three serializers, every message of strings, integers up to 2^53, finite floats, lists and dictionaries", "why_tests_cant": "Arbitrary conversations through two codecs each; the tests exercise one serializer at a time and no router.", "anchors": ["serializers/json.go:JSONSerializer", "serializers/msgpack.go:MsgPackSerializer", "serializers/cbor.go:CBORSerializer", "broker.go:ReceiveMessage", "dealer.go:ReceiveMessage", "session.go:Session.SendMessage", "session.go:Session.Receive"]}
{"id": "C129", "title": "What one serializer carries reaches clients with another", "statement": "A message that a client's serializer carries is passed on by the router to clients with other serializers: it is serialized for them, they can deserialize it, and it means the same to them; however often it is handed on.", "quantifier": "every message, every chain of serializers", "why_tests_cant": "All combinations of values and serializers; each serializer is tested on its own.", "anchors": ["serializers/json.go:JSONSerializer", "serializers/msgpack.go:MsgPackSerializer", "serializers/cbor.go:CBORSerializer", "broker.go:ReceiveMessage"]}
{"id": "C130", "title": "float32 values in JSON", "statement": "A float32 that a client puts into a message sent as JSON arrives as the same number; or at least as one to which no float32 is nearer. Infinities and NaN are refused.", "quantifier": "every float32", "why_tests_cant": "All significands and exponents; the tests send no float32.", "anchors": ["serializers/json.go:JSONSerializer.Serialize", "serializers/json.go:JSONSerializer.Deserialize"]}
{"id": "C131", "title": "The CBOR deserializer reads exactly the lists CBOR has", "statement": "Bytes are read by the CBOR deserializer exactly if they are, from the first to the last, one well-formed item that is a list: with lengths told or marked by a break, strings in chunks, arguments longer than needed, repeated keys of which the last counts, at most 32 levels and 131072 parts each; and they are read as the values RFC 8949 gives them. An item has one meaning and does not begin another item.", "quantifier": "every sequence of bytes", "why_tests_cant": "All byte sequences; the tests deserialize what the library itself wrote.", "anchors": ["serializers/cbor.go:CBORSerializer.Deserialize"]}
{"id": "C132", "title": "The MessagePack deserializer reads exactly the lists MessagePack has", "statement": "Bytes are read by the MessagePack deserializer exactly if they are one well-formed item that is a list; and they are read as the values the specification gives them: numbers in every form, strings and byte strings of every length form, the time extension, repeated keys of which the last counts. An item has one meaning and does not begin another item.", "quantifier": "every sequence of bytes", "why_tests_cant": "All byte sequences; the tests deserialize what the library itself wrote.", "anchors": ["serializers/msgpack.go:MsgPackSerializer.Deserialize"]}
{"id": "C133", "title": "When the last session leaves the dealer keeps nothing", "statement": "After every attached session has been removed, HasProcedure is false for every procedure and the dealer retains no session, registration, index entry, pending call or record of a call.", "quantifier": "every history of dealer calls after which nobody is attached, whatever the clients sent", "why_tests_cant": "Unbounded histories; the tests remove a session or two and ask HasProcedure.", "anchors": ["dealer.go:Dealer.RemoveSession", "dealer.go:Dealer.HasProcedure", "dealer.go:Dealer.ReceiveMessage"]}
{"id": "C134", "title": "A client session remembers what is open and nothing else", "statement": "After any sequence of calls of SendMessage, Receive and ReceiveMessage a session holds the requests it sent that were not answered, the invocations it received and did not answer, and the registrations and subscriptions it was told of and has not given up; when nothing is open it is as it was at the beginning.", "quantifier": "every history of calls on one session, every message", "why_tests_cant": "Unbounded histories; the tests look at single exchanges and never at what the session keeps.", "anchors": ["session.go:Session.SendMessage", "session.go:Session.ReceiveMessage", "session.go:NewSession"]}
{"id": "C135", "title": "Hostile bytes do no more than hostile messages", "statement": "Whatever bytes some clients write to the router, clients that use a Session properly, with any of the three serializers, can read everything they are sent, refuse nothing, and get at most one answer to each call and only to calls they made; bytes are either the message they are read as or nothing.", "quantifier": "every history of any number of clients, well-behaved or not, every choice of serializers, every byte string, every order of events", "why_tests_cant": "The hostile bytes, their interleaving with honest traffic and the choice of serializers form an unbounded space; tests exercise one honest peer at a time.", "anchors": ["broker.go:Broker.ReceivePublish", "broker.go:Broker.ReceiveMessage", "dealer.go:Dealer.ReceiveMessage", "session.go:Session.Receive", "serializers/json.go:JSONSerializer.Deserialize", "serializers/cbor.go:CBORSerializer.Deserialize", "serializers/msgpack.go:MsgPackSerializer.Deserialize"]}
{"id": "C136", "title": "Nothing is made up, and nobody speaks for another", "statement": "Whatever clients send, every message the router gives a client goes back to a message some client sent: acknowledgements and refusals to a request of that very client, an EVENT to a PUBLISH with its payload, an INVOCATION to a CALL, a RESULT or call ERROR to a YIELD or ERROR for an open invocation made for a CALL of that very client. A disclosed publisher or caller is the one who sent the message, with the identity it joined with.", "quantifier": "every history of any number of clients, well-behaved or not, sessions joining and leaving in any order, every message forged at any time, every choice of the runtime", "why_tests_cant": "What a hostile client can provoke depends on the whole history of registrations, invocations and departures; tests send a few well-formed messages.", "anchors": ["broker.go:Broker.ReceivePublish", "broker.go:Broker.ReceiveMessage", "dealer.go:Dealer.ReceiveMessage", "types.go:SessionDetails"]}
{"id": "C137", "title": "Messages stay in order", "statement": "Between one client and the router nothing overtakes: a client reads the broker's messages for it in the order the broker gave them out, the dealer's likewise, each once; broker and dealer get what a client sends in the order of sending. So the EVENTs of one publisher reach a subscriber in the order of the PUBLISHes, the INVOCATIONs for one caller reach a callee in the order of the CALLs, the RESULTs of one callee (progressive ones too) reach a caller in the order of the YIELDs, and the publication ids a subscriber reads grow.", "quantifier": "every history of any number of clients (well-behaved or hostile, session ids used once), every interleaving of sending, routing, delivering, joining and leaving, every choice of the runtime", "why_tests_cant": "Reordering and duplication show up only under particular interleavings of several clients' messages; a test fixes one.", "anchors": ["broker.go:Broker.ReceivePublish", "broker.go:Broker.ReceiveMessage", "dealer.go:Dealer.ReceiveMessage", "session.go:Session.SendMessage", "session.go:Session.ReceiveMessage", "idgen.go:SessionScopeIDGenerator.NextID"]}
{"id": "C138", "title": "Without new messages everything arrives", "statement": "When nobody sends anything new, routing and delivering what is under way comes to an end after a bounded number of steps, in whatever order it is done and whatever was sent before; only a network with nothing under way cannot go on; and then every client has read everything broker and dealer gave out for it, in order and once, and broker and dealer have got everything the well-behaved clients sent.", "quantifier": "every history of any number of clients, well-behaved or not, every order of routing and delivering, every choice of the runtime", "why_tests_cant": "Termination under every schedule and the absence of lost or circulating messages are about all continuations of all states.", "anchors": ["broker.go:Broker.ReceivePublish", "broker.go:Broker.ReceiveMessage", "dealer.go:Dealer.ReceiveMessage", "session.go:Session.ReceiveMessage"]}
{"id": "C139", "title": "Messages stay in order behind serializers", "statement": "Clients with any mixture of serializers, among others that write arbitrary bytes to the router, read what broker and dealer gave out for them in the order it was given out, without gaps, and all of it when nothing is on its way to them; every event they read carries the payload of a publication, those of one well-behaved publisher come in the order it sent them in and none twice, and publication ids go up; as long as messages are such as every serializer can carry and the router does not panic.", "quantifier": "every history of any number of clients, well-behaved or not, every choice of serializers, every byte string, every order of events", "why_tests_cant": "Order across three encodings, hostile bytes in between and unbounded histories; tests send one message at a time through one serializer.", "anchors": ["broker.go:Broker.ReceivePublish", "broker.go:Broker.ReceiveMessage", "dealer.go:Dealer.ReceiveMessage", "session.go:Session.Receive", "serializers/json.go:JSONSerializer.Deserialize", "serializers/cbor.go:CBORSerializer.Deserialize", "serializers/msgpack.go:MsgPackSerializer.Deserialize"]}
{"id": "C140", "title": "A call that stays unanswered is with a callee", "statement": "When no message is on its way, every call of a well-behaved client has been answered, or has been given as an INVOCATION to a callee that has read it (or has left) and that nobody has answered; and if a well-behaved callee sends a last YIELD or an ERROR for it and stays until it is routed, the caller reads an answer; whatever other clients do.", "quantifier": "every history of any number of clients, well-behaved or not, every order of events, every choice of the runtime", "why_tests_cant": "Which calls can get lost depends on what hostile clients did to the registrations before; no enumeration of histories covers that.", "anchors": ["dealer.go:Dealer.ReceiveMessage", "dealer.go:Dealer.RemoveSession", "session.go:Session.SendMessage", "session.go:Session.ReceiveMessage"]}
{"id": "C141", "title": "A client reads nothing too early or too late", "statement": "A well-behaved client reads replies only to calls it made, and after the last answer to a call no further reply to it, not even a progressive RESULT; before an EVENT it reads the SUBSCRIBED that gave it the subscription, and before an INVOCATION the REGISTERED that gave it the registration; whatever other clients do.", "quantifier": "every history of any number of clients, well-behaved or not, every order of events, every choice of the runtime", "why_tests_cant": "Late or early messages come from races between clients and from forged answers; tests can only try some orders.", "anchors": ["session.go:Session.ReceiveMessage", "dealer.go:Dealer.ReceiveMessage", "broker.go:Broker.ReceivePublish"]}
{"id": "C142", "title": "Nothing arrives under what was given up", "statement": "After a well-behaved client has read the UNSUBSCRIBED for a subscription it gave up, it reads no EVENT under that subscription unless it read a SUBSCRIBED with the same id in between; after the UNREGISTERED for a registration it reads no INVOCATION under it unless it read a REGISTERED with the same id; whatever other clients do, and whatever was on its way.", "quantifier": "every history of any number of clients, well-behaved or not, every order of events, every choice of the runtime", "why_tests_cant": "Events and invocations under way while a client gives up its subscription are races; tests can only try some orders.", "anchors": ["session.go:Session.ReceiveMessage", "session.go:Session.SendMessage", "dealer.go:Dealer.ReceiveMessage", "broker.go:Broker.ReceiveMessage"]}
