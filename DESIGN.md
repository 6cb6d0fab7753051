# Formal model of xconnio/wampproto-go in Rocq (Coq 8.16.1)

## 1. How to read this development

* `rocq/theories/` – the model and the proofs (logical name `Verif`).
  * The **model**: total computable Gallina functions, one per Go function, each with the cited
    file and lines, no proofs of properties in them.  `Prelude.v` (results, panics, shuffles),
    `Value.v` (Go `any` values, `util`), `Msg.v` (messages), `IdGen.v`, `Payload.v`,
    `Rawsocket.v`, `RawStream.v`, `Types.v`, `PathMatch.v`, `Broker.v`, `Dealer.v`, `Session.v`, `Encoding.v`
    (hex, base64, JSON strings), `Auth.v`, `Acceptor.v`, `Joiner.v`, `Mutex.v` (goroutines around a
    locked object), `Network.v` (clients and router joined by queues),
    `Construct.v` (the message constructors over a heap of maps), `Realm.v` (acceptors, broker and
    dealer joined to a router), `Json.v` (encoding/json and the JSON serializer),
    `Binary.v` (CBOR, MessagePack and their serializers), `Connection.v` (a RawSocket connection: handshake,
    frames and serializer together), `NetworkBytes.v` (the network with the bytes of each client's serializer).
  * The **specifications**, small and written without the model's helpers (trace predicates,
    abstract machines, message table, glob language): `BaseSpec.v`, `WireSpec.v`, `MsgSpec.v`,
    `MatchSpec.v`, `BrokerSpec.v`, `DealerSpec.v`, `DealerKind.v`, `SessionSpec.v`, `SessionHistory.v`,
    `AuthSpec.v`, `HandshakeSpec.v`, `PathMatchSpec.v`, `NetworkSpec.v`, `NetworkReplies.v`,
    `NetworkComplete.v`, `AuthWorld.v`, `NetworkWire.v`, `FeatureSpec.v`, `ConstructSpec.v`, `RealmSpec.v`, `SignWorld.v`,
    `RealmTopics.v`, `Hostile.v`, `JsonSpec.v`, `DefaultAuth.v`,
    `JsonSafe.v`, `BinarySpec.v`, `JsonGrammar.v`, `BinaryGrammar.v`, `ConnectionSpec.v`, `Portable.v`, `SessionLeftSpec.v`, `HostileBytes.v`, `HostileOriginSpec.v`, `HostileOrderSpec.v`, `HostileRestSpec.v`, `HostileBytesOrderSpec.v`, `HostileCalleeSpec.v`, `HostileReadSpec.v`.
  * The **proofs** (lemmas and invariants): `*Facts.v`, `*Proofs.v`, `MsgParse.v`, `MsgWire.v`,
    `MsgProof.v`, `BrokerSim.v`, `BrokerTrace.v`, `BrokerSafe.v`, `BrokerMore.v`, `DealerCalls.v`, `DealerCases.v`,
    `DealerRegs.v`, `DealerSim.v`, `DealerStep.v`, `DealerPolite.v`, `DealerShare.v`,
    `DealerFinal.v`, `DealerMore.v`, `SessionConc.v`, `SessionLin.v`, `AuthGaps.v`, `PathUtf8.v`,
    `PathMatchParse.v`, `PathMatchMain.v`, `NetworkClient.v`, `NetworkSync.v`, `NetworkCalls.v`,
    `NetworkLocal.v`, `NetworkOrigin.v`, `NetworkFinal.v`, `NetworkRest.v`, `NetworkAnswers.v`,
    `NetworkCompletion.v`, `NetworkHung.v`, `PassThrough.v`, `RealmCrash.v`,
    `HostileDealer.v`, `HostileStep.v`, `HostileFinal.v`, `DealerSole.v`, `DealerLeft.v`, `SessionLeft.v`, `HostileSole.v`, `HostileBytesProofs.v`, `HostileOrigin.v`, `HostileOrder.v`, `HostileRest.v`, `HostileBytesOrder.v`, `HostileCallee.v`, `HostileRead.v`, `HostileLate.v`,
    `JsonFacts.v`, `AcceptorMore.v`,
    `JsonRound.v`, `JsonMsg.v`, `BinaryRound.v`, `BinaryLaws.v`, `BinaryMsg.v`,
    `JsonNumber.v`, `JsonRead.v`, `JsonTree.v`, `JsonWrite.v`, `ConnectionFacts.v`, `JsonCut.v`, `FloatSame.v`, `JsonFloat.v`, `JsonValues.v`, `PortableFacts.v`, `NetworkBytesIds.v`, `NetworkBytesProofs.v`, `NetworkBytesRun.v` (runs), `JsonShortest.v`, `JsonSingle.v`, `BinaryExact.v`, `BinaryExactLaws.v`.
  * `*Ex.v` – concrete histories for the examples and the refutations.
  * `Props*.v` – only property theorems, each closed by `exact`, with `Print Assumptions`, and
    the examples showing that their hypotheses are met by concrete non-trivial cases.
* `properties.jsonl` – the properties; `MANIFEST.json` – property → theorem names and status;
  `seeded/LOG.jsonl` – the mutation log.

Naming: `Cnn_…` proves (part of) property Cnn.  `…_partial` – proved for part of the property.
`…_refuted` – the property as stated is false of the code as modelled; the theorem exhibits the
witness (found by reading the code, checked by computation inside the kernel).

## 2. Modelling decisions

* **Errors and panics.**  Functions return `res A` (`Ok`/`Err`/`Panic`); methods return
  `outcome S A` (`Ret state result`/`Crash`).  A panic ends the history (the library never
  recovers).  Error texts are reduced to tags.
* **Nondeterminism.**  Go map iteration order and `rand.Intn` are an explicit argument `shuffle`
  (an arbitrary permutation function, with the proof that it permutes); histories carry one
  shuffle per call, and theorems quantify over them.
* **Pointers.**  `*Subscription` and `*Registration` are shared by up to four maps and mutated
  through any of them: both models have an explicit heap (`gmap` from locations) and the maps
  hold locations.  Values never mutated after creation (SessionDetails, PendingInvocation,
  messages) are plain values.  `registration.callees` is mutated in place while ranged over in
  `Dealer.RemoveSession`; that loop is modelled on the backing array, including its
  out-of-range panics.
* **Integers.**  uint64 ids are `N`; wrap-around is written out where the code can reach it
  (the id generator at 2^53, `uint64(v)` conversions, byte truncation).  Theorems about id
  uniqueness assume at most 2^53 calls, the exact point at which the generator wraps.
* **Floats.**  finite `m*2^e`, infinities, NaN; sign of zero dropped.  Float→int conversions
  outside the target's range are implementation-defined in Go: class `Platform` supplies an
  arbitrary result; theorems hold for every platform unless they name `amd64`.
* **`any` values.**  inductive `value` with all ten integer kinds, nil/non-nil slices and maps,
  `[]string`, `[]byte` and an “other type” case.  Maps are association lists.
* **External code.**  cbor, msgpack: in C06 and wherever a message travels, an arbitrary
  value-preserving transport (`wire` relation); `Binary.v` models both formats byte by byte and C115,
  C116 show that they are such transports, for what they can carry.  encoding/json (Go standard library): modelled function by function in `Json.v`;
  its round trip lies within `wire` (C111), for what JSON can carry.  iradix: a finite map plus `LongestPrefix` (longest stored
  key that is a prefix).  `path.Match` (Go standard library): modelled function by function.
  HMAC-SHA256, PBKDF2, ed25519/nacl: arbitrary functions in the class `Crypto`, whose only laws
  are output lengths and that a signature by the key holder verifies; unforgeability is not
  modelled.  Theorems quantify over every instance (`AuthEx.v` has a transparent one for the
  examples, so the laws are consistent).  hex, base64 and the JSON string syntax: modelled.
  Time: opaque.
* **Messages.**  The interface `messages.Message` is the sum of the 24 library types: a foreign
  type lying about `Type()` is not modelled, nor are nil interfaces.
* **Network.**  /repo leaves the joining of its parts to the user.  `Network.v` joins the models in
  the one way the signatures allow: per client one in-order queue each way, arbitrary delays, the
  router serves one message at a time.  Nothing in it stands for code of /repo except the parts.
* **Concurrency.**  Broker, Dealer and the id generator hold one mutex per method: modelled as a
  lock-step semantics (`Mutex.v`) and reduced to sequential histories.  Session uses sync.Map:
  its methods are sequences of atomic map operations which goroutines interleave (C60).  C87
  shows that such a session is linearizable when one goroutine receives, which is how a client
  reads its transport; this is why `Network.v` may take each session call as one step.

## 3. Property plan

| id | model | proof |
|----|-------|-------|
| C01 | `next_id` on the counter | closed form by induction on n |
| C02 | `Mutex.v` threads over `next_id` micro-steps | invariant on lock ownership and returned ids |
| C03 | `generate_id` over an arbitrary draw | range lemma; refuted for 0 |
| C04, C05 | `Value.v` conversions | case analysis and lia; refutations by witnesses |
| C06 | `Msg.v` marshal/ToMessage, `wire` relation | per type; wire is a hypothesis about the serializer |
| C07–C10 | `Msg.v` validators over shuffled specs | characterisation of `validate_message`; table in `MsgSpec.v` |
| C11, C12 | same; `round53` | refuted + partial |
| C13–C15 | `Payload.v` | case analysis; refutations |
| C16–C20 | `Rawsocket.v` on Z and bytes | arithmetic; finite sweeps lifted by lemma where bytes are involved |
| C21–C34 | `Broker.v` (heap) and `BrokerSpec.v` (table machine, trace predicates) | refinement relation preserved by every step; corollaries |
| C35–C53 | `Dealer.v` (heap), `DealerSpec.v` (trace predicates, polite histories) and `DealerKind.v` (considerate histories, the weaker condition) | invariants linking state and trace; refutations by witness histories; each rule of considerate histories shown needed by a crash |
| C54–C61 | `Session.v`, `SessionSpec.v` | trace invariants; interleaving semantics for C60 |
| C62–C67 | `Auth.v` | list induction, base64/hex round trips |
| C68–C74 | `Acceptor.v`, `Joiner.v` | trace invariants; composed run for C74 |
| C75 | `Auth.v` iso8601 suffix | arithmetic |
| C76 | `Mutex.v` | simulation of lock-step executions by sequential ones |
| C79–C81 | `Auth.v`, `Encoding.v` | hex/base64 characterisations, unambiguous JSON literals |
| C77 | `PathMatch.v`, glob language in `PathMatchSpec.v` | soundness and completeness of the greedy matcher |
| C82–C86 | `Network.v`: Sessions, Broker and Dealer joined by FIFO transports | one invariant: reading what is queued leads every client to the router's view; provenance by history variables |
| C87 | `Session.v`, `SessionHistory.v`: interleaved map accesses, histories with goroutine numbers | forward simulation: each call is given its instant at one access, effects still to come are carried along; both conditions shown necessary by histories without linearization |
| C88 | `NetworkReplies.v`: requests and answers as (type, id) pairs; rules for giving things up | invariant over runs: requests made = answers read ++ answers under way ++ requests not yet read; queues run empty by a lexicographic measure |
| C89 | `RawStream.v`: the write and read loop around the header functions | reading inverts writing and conversely, by induction over the stream |
| C90 | `NetworkComplete.v`: invocations read and not yet ended, clean leave | invariant: every open invocation is on its way to a callee, owed by one, or ended by a message on its way back; completion by running to rest, ending what is owed, running to rest |
| C91 | `NetworkComplete.v`: honest clients, answers sent | each CALL reaches the dealer once and each invocation id has one callee (invariant), then C85 |
| C92 | `AuthWorld.v`: any number of Acceptors and WAMP-CRA Joiners, every message chosen by an adversary; fresh nonces and unforged signatures as conditions on runs | each server's and user's part of the trace is a run of `Acceptor.v` / `Joiner.v`; C68 gives the signature, unforgeability the user, freshness the time; counting by an injection from servers to challenge texts to HELLOs |
| C93 | the same | refuted for realm, session id and the user's side by explicit runs for every `Crypto`; proved for authid and role |
| C94 | `NetworkWire.v`: the network of `Network.v` with queues of decoded lists, `carried` (any list `WireSpec.v` allows for Marshal's) on sending and `deserialize_decoded` on reading | going through a codec twice is like once (`wire_trans`); sessions, broker and dealer look only at what a codec keeps; hence a step-by-step simulation; the router's answers are again encodable |
| C95 | `client_roles`, `router_roles` and where they are put; CANCEL, INTERRUPT and exclude_me in dealer, session and broker | invariants of joiner and acceptor histories, the tables of `FeatureSpec.v`; announcements are kept by `wire` |
| C96 | `new_session_details` as called by joiner and acceptor | same invariants |
| C97 | the forwarding of CALL and YIELD in `Dealer.v`, Marshal and ToMessage in `Msg.v` | from the exact forms of C37 and C44 and the acceptance condition of C08 |
| C98 | `Construct.v`: all 28 constructors over a heap of maps | heap invariant over programs of constructor calls; `msg_ok` of C06 characterised per constructor |
| C99 | `Realm.v`: one Acceptor per connection, one Broker, one Dealer; the glue is not in /repo and is the one the signatures allow; one realm | invariant tying the log to the histories of acceptors (C68), broker and dealer; the disclosure forms of C28 and C44 |
| C100 | as C99 | the same invariant with C37; a run in which an id is drawn again |
| C101 | as C99 | progress from C22, C48 and C70; a run of one client |
| C102 | `SignWorld.v`: the world of C92 with cryptosign users; fresh challenges and unforged signatures as conditions on runs | refuted by one run for every `Crypto`; what is left proved as in C92, from C68 and the invariant of `SignWorldProofs.v` |
| C103 | as C99; the subscriptions of a connection are a predicate on the log (`RealmTopics.v`) | invariant: a connection has a subscription in the log iff its session holds it in the broker's trace (C23, C24); every reaction checked against the table of C21 and the answers of C36 to C44 |
| C104–C106 | `Hostile.v`: the network of C82 in which any session may also have the router read any message; which clients keep the rules is a parameter | the invariant of C83 for the clients that keep the rules, and a dealer invariant for their registrations (`HostileDealer.v`); `DealerSole.v`: an invariant per procedure that was never shared, which holds in every history and also gives C36, C46 and C47 for it |
| C107, C108 | as C64; the challenge text of `generate_cra_challenge` (`Auth.v`, `Encoding.v`) | `JsonSpec.v`: a reader for JSON objects; each piece json.Marshal writes is read as what it stands for, the UTF-8 facts are those of the glob properties (`PathUtf8.v`) |
| C109 | as C68 with the default authenticator (`DefaultAuth.v`) | invariant: the acceptor is never in the state after a CHALLENGE |
| C110 | `Value.v` | induction on the list |
| C111, C112 | `Json.v`: Marshal and Unmarshal of encoding/json on the values of `Value.v` | strings: `ureads`, piece by piece as for C107; numbers: digits and rounding; lists and dictionaries by induction on the nesting (`JsonRound.v`), then C06 |
| C113 | `Json.v`, `Msg.v` | C09 after `json_unmarshal`, which never panics |
| C114 | `Payload.v` with `json_codec` | as C111 |
| C115–C117 | `Binary.v`: one reader and writer over a `format`, with CBOR and MessagePack as instances | `BinarySpec.v`: the relation `item` between bytes and values; the laws of a format (`BinaryLaws.v`) give by induction on the value (`BinaryRound.v`) that the writer writes an item and the reader reads every item; then C06 |
| C118 | as C115 | case analysis over the ranges of the ten kinds |
| C119 | as C115 | the reader looks only at the bytes it takes (`read_local`), so no item is a prefix of another |
| C120 | `Binary.v`, `Msg.v` | C09 after `bin_unmarshal`, which never panics |
| C121 | `Payload.v` with `bin_codec` | as C115 |
| C122 | `Json.v`: `json_unmarshal` | `JsonGrammar.v`: RFC 8259 as inductive relations between text, tree and value; soundness by induction on the recursion of the reader, completeness by induction on the length of the text |
| C123 | `Json.v`: `read_number`, `nearest_float` | the quotient and remainder of the scaled fraction are related to the two neighbouring float64 values (`JsonNumber.v`) |
| C124 | `Json.v`: `json_marshal`, `json_serialize` | each piece written satisfies the strict grammar, by induction on the nesting of the value |
| C125 | `Connection.v` over `Rawsocket.v`, `RawStream.v`, `Json.v`, `Binary.v` | C16, C89, C111, C115 and C116 composed |
| C126 | `Json.v` | bytes after a list change nothing in how it is read, by induction on the nesting (`read_more`) |
| C127 | `Json.v`: `json_float`, `shortest` | with 17 digits one of the two neighbouring decimals is within half a gap of the float (`seventeen` in `JsonFloat.v`), so the search finds one; what it finds is read back; that it is shortest, and the nearest of the shortest, because no other numbers of as many digits lie between (`JsonShortest.v`) |
| C128 | `NetworkBytes.v`: every client with a serializer, queues of bytes | refinement of the network of C94 (`bytes_run` in `NetworkBytesProofs.v`): the bytes of portable messages read as what C94's codecs may deliver, and brokers and dealers answer portable messages with portable messages (`answers_portable` in `NetworkBytesIds.v`) |
| C129 | `NetworkBytes.v`, `Portable.v`: `handed_on` | false: three runs; for portable messages by induction on the chain |
| C130 | `Json.v`: `json_float32` | false: 0.1; the text lies between two float64s to which no float32 is nearer, and so does the float64 it is read as (`JsonSingle.v`) |
| C131 | `Binary.v`, spec `BinaryGrammar.v`: the relation `stands` between bytes and values | induction on the fuel one way, on the length of the bytes the other, for any format whose first bytes are read soundly and completely (`BinaryExact.v`); these laws by cases on the first byte (`BinaryExactLaws.v`) |
| C132 | as C131 | false: bytes after the item; the rest as C131 |
| C133 | `Dealer.v` | false: what stays is shown by histories, one of them for every number of calls (`DealerLeftEx.v`); for the rest an invariant of every history: whoever is in a procedure's object has it in their own map (`DealerLeft.v`) |
| C134 | `Session.v`, specs `SessionSpec.v`, `SessionLeftSpec.v` | false: sessions that subscribe, register and give up again n times, for every n; for the rest the invariant of C54–C61 and one for the invocations (`SessionLeft.v`) |
| C135 | `HostileBytes.v` on `NetworkBytes.v` and `Hostile.v` | simulation through the network with decoded lists of C94, as C128; refuted by three runs (`HostileBytesEx.v`) |
| C136 | `Hostile.v`; `traced` of `HostileOriginSpec.v` | invariant over all runs from the every-history lemmas of broker and dealer |
| C137 | `Hostile.v`; `in_turn`, `passes`, `invokes`, `answers`, `sent` of `HostileOrderSpec.v` | invariant over all runs: read and under way = handed out, sent = handled and waiting |
| C138 | `Hostile.v`; `moving`, `at_rest`, `work` of `HostileRestSpec.v` | `work` falls with every message moved; C137 |
| C139 | `HostileBytes.v`; `event_like`, `carries` of `HostileBytesOrderSpec.v` | C135 carries C137 over to the bytes |
| C140 | `Hostile.v`; `dealt` of `HostileOriginSpec.v`, `last_answer` of `HostileCalleeSpec.v` | refuted by a run; C104 and C138; `sole` of `DealerSole.v` for procedures nobody shares; a client's calls are in the dealer's history once, and what a callee sends later comes later there |
| C141 | `Hostile.v`; `reply_ids` of `HostileReadSpec.v` | whatever is read is accepted (C104), so the session holds the call, subscription or registration at that moment; a session knows only what it read |
| C142 | `Hostile.v`; `sent` of `HostileOrderSpec.v` | as C141; request ids are used once, so what the session gives up is what was sent; what it learns afterwards it reads afterwards |

No property is classified as not expressible; timing and memory are
outside the model and noted per property in MANIFEST.json.

## 4. Trusted base

* Coq's kernel (8.16.1), including its `vm_compute` (used for examples and finite sweeps).
* The reading of the code documented at each definition; nothing was extracted or run.  The
  theorems are about the model, so a misreading of /repo is not caught by the kernel.
* std++ for finite maps and sets (no axioms).
* No axiom is declared here and no kernel check is switched off.

### What is modelled

| file in /repo | modelled | not modelled |
|---|---|---|
| acceptor.go | all functions (`Acceptor.v`): NewAcceptor defaults, Receive/ReceiveMessage, the four states, sendChallenge and verification per method, WELCOME details | the serializer (an argument), the clock |
| joiner.go | all functions (`Joiner.v`) | the serializer |
| broker.go, types.go, uris.go | all functions (`Broker.v`, `Types.v`) | accessors of SessionDetails are record fields; the static serializer flag is used by the dealer (dealer.go:259,288), not by the broker |
| dealer.go | all functions (`Dealer.v`) | – |
| session.go | all functions (`Session.v`) | – |
| idgen.go | NextID, GenerateID over an arbitrary draw (`IdGen.v`) | seeding of math/rand |
| internal/map.go | Load, Store, Delete, LoadAndDelete as atomic steps | LoadOrStore and Range (unused by the library); sync.Map itself |
| auth/*.go | method selection, ticket, WAMP-CRA, cryptosign, key handling, ISO 8601 (`Auth.v`, `Encoding.v`) | HMAC, PBKDF2, ed25519 and randomness (class `Crypto`), the wall clock; request/response accessors are record fields |
| messages/validator.go, messages/*.go | validation, Parse, Marshal of all 24 types (`Msg.v`); the constructors with maps as references (`Construct.v`) | elsewhere constructors and accessors are record construction and projection; `New…WithFields` wraps the given fields; PayloadIsBinary etc. are fields of CALL, RESULT, INVOCATION and YIELD only |
| util/util.go | all functions (`Value.v`) | – |
| serializers/helpers.go, payload.go | ToMessage and the payload framing (`Msg.v`, `Payload.v`) | – |
| serializers/json.go | Serialize and Deserialize with encoding/json of Go 1.22 (`Json.v`, from its published source; `fuel_irrelevant` in `JsonRound.v` shows that the bound on the recursion of the reader does not matter) | the sign of zero; the wording of errors |
| serializers/cbor.go, msgpack.go, serializer.go | Serialize and Deserialize with the codecs (`Binary.v`, from RFC 8949, the MessagePack specification and the defaults of fxamacker/cbor 2.6 and vmihailenco/msgpack 5.4, whose source is not in this sandbox; `fuel_suffices` in `BinaryRound.v` shows that the bound on the recursion of the reader does not matter) | CBOR tags and keys null or undefined: errors in the model; the wording of errors; a nil []byte is taken for an empty one |
| transports/rawsocket.go | all functions (`Rawsocket.v`) | accessors are fields |
| tests/helpers.go | – | test helper |

Third-party code: `path.Match` and `path.scanChunk/matchChunk/getEsc` of Go's standard library are
modelled function by function; go-immutable-radix is a finite map with LongestPrefix.

### What the code does not do

Statements refuted in the kernel that matter to users (each has a witness history in `*Ex.v`):

* Handshake: an empty proposal selects anonymous even if the server enabled other methods only
  (C63); an ABORT does not end the handshake, a second ticket can be tried (C71); a cryptosign
  signature over any other 32 bytes is accepted (C67), so one stolen signature opens every server (C102); base64 answers have many spellings (C65);
  unusable key lengths (C70, C73) and keys of another length (C79) panic; WELCOME without
  string authid/authrole panics the client (C73); a WAMP-CRA signature does not bind the realm or the
  session id, and a client that asked for WAMP-CRA takes a WELCOME without any challenge (C93).
* Parsing: the empty list and short HELLO/AUTHENTICATE lists panic (C09); ABORT with kwargs only is
  unreadable (C11); ids above 2^53 change under JSON (C12); payload decoding can panic on cbor (C15).
* Serializers: JSON turns byte strings into strings and changes integers above 2^53 (C112); CBOR writes
  strings and nestings it does not read (C117); MessagePack ignores what follows a message (C119) and
  turns some ints into int16, which AsFloat64 does not read (C118); all three panic on the empty list (C113, C120).
* Broker: only one subscription is served per event (C30); the publisher gets its own events (C31);
  pattern subscriptions disappear for everybody when one subscriber leaves (C29).
* Dealer: UNREGISTER of an unknown or foreign id takes procedures away from others or crashes the
  router (C47, C48), and so a procedure can be taken over (C105); any session can answer any invocation (C45); prefixes are never removed (C49);
  calls to departed callees hang (C52); prefixes, unanswered calls and a record of every call are kept
  for ever (C133); an ERROR for a departed caller is still sent (C50).
* Client: SUBSCRIBED and some ERRORs are accepted repeatedly (C59); two receivers may both accept
  one RESULT (C60); a second UNSUBSCRIBE that crosses the first is never answered (C88);
  a call whose callee leaves is never answered (C90, C91); answered SUBSCRIBEs, UNREGISTERs and
  UNSUBSCRIBEs are kept for ever (C134).
* Router: what a hostile client publishes or answers may be unreadable or unsendable for another's
  serializer: the event or the answer is lost (C135).
* Announced but missing: call_canceling and publisher_exclusion (C95); pre-encoded payloads are
  dropped for sessions without static serializer, which are all in /repo (C97).
* Constructors: two `…Binary` messages built from one options map change each other; NewWelcome and
  NewChallenge with nil build messages no peer reads (C98).
* Router as a whole: two messages of one anonymous client crash it (C101); an answer can reach
  whoever is given the session id of a caller that left (C100).

## 5. Print Assumptions

Every theorem named in MANIFEST.json is followed by `Print Assumptions` in its `Props*.v` file, and
each of them prints `Closed under the global context`: no theorem rests on any axiom, not even one
of the standard library.  A listing of the whole environment (`coqchk -o`) also shows seven axioms
`Coq.ssr.ssrunder.Under_rel.*`: they are the sealed signature of a module of Coq's standard library
that std++ loads for the `under` tactic, and no theorem here depends on them.
