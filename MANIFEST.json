{
 "claims": [
  {
   "property": "C01",
   "status": "proved",
   "theorems": [
    "C01_next_id_counts",
    "C01_all_calls_return",
    "C01_wraps"
   ],
   "note": "Closed form for every number of calls, including the wrap at 2^53."
  },
  {
   "property": "C02",
   "status": "proved",
   "theorems": [
    "C02_next_id_distinct"
   ],
   "note": "Every schedule of lock/read/write/unlock micro-steps of any number of goroutines."
  },
  {
   "property": "C03",
   "status": "partial",
   "theorems": [
    "C03_generate_id_partial",
    "C03_generate_id_refuted"
   ],
   "note": "REFUTED as stated: rand.Int63n may return 0 and then GenerateID returns 0 (C03_generate_id_refuted). Proved: in range whenever the draw is not 0."
  },
  {
   "property": "C04",
   "status": "proved",
   "theorems": [
    "C04_as_int_exact",
    "C04_as_uint64_exact",
    "C04_as_uint64_float_exact",
    "C04_as_float64_exact",
    "C04_as_int_float_exact",
    "C04_as_float64_nearest",
    "C04_failed_is_zero",
    "C04_which_are_numbers",
    "C04_kind_ranges"
   ],
   "note": "All kinds; int16 excluded for AsUInt64/AsFloat64 as the property says."
  },
  {
   "property": "C05",
   "status": "partial",
   "theorems": [
    "C05_as_uint64_faithful_partial",
    "C05_as_int_faithful_partial",
    "C05_as_uint64_negative_refuted",
    "C05_as_uint64_int16_refuted",
    "C05_as_int_float_refuted"
   ],
   "note": "REFUTED as stated (negative integers wrap, int16 rejected, float 2^63 accepted by AsInt). Proved: whenever the number is a uint64 the result is faithful; AsInt is faithful except exactly at 2^63."
  },
  {
   "property": "C06",
   "status": "proved",
   "theorems": [
    "C06_wire_roundtrip",
    "C06_deserialize_roundtrip",
    "C06_int16_refuted"
   ],
   "note": "All 24 types through any transport related by `wire` (WireSpec.v); serializers themselves are not modelled. C06_int16_refuted records that a transport re-encoding ids as int16 is not survived."
  },
  {
   "property": "C07",
   "status": "proved",
   "theorems": [
    "C07_dispatch",
    "C07_codes_distinct",
    "C07_unknown_code_rejected"
   ],
   "note": "For platforms whose out-of-range float conversion does not give a number below 100 (amd64 and arm64 saturate or give 2^63)."
  },
  {
   "property": "C08",
   "status": "proved",
   "theorems": [
    "C08_exact_acceptance"
   ],
   "note": "Equivalence with the WAMP table of MsgSpec.v for every list, under every validator iteration order."
  },
  {
   "property": "C09",
   "status": "partial",
   "theorems": [
    "C09_panics_exactly_partial",
    "C09_panics_refuted"
   ],
   "note": "REFUTED as stated; C09_panics_exactly_partial characterises exactly the panicking lists: [] and two-element HELLO/AUTHENTICATE."
  },
  {
   "property": "C10",
   "status": "proved",
   "theorems": [
    "C10_order_irrelevant",
    "C10_parse_order_irrelevant",
    "C10_second_parse_irrelevant"
   ],
   "note": "Any two iteration orders, any list, any type; also the second Parse of Deserialize."
  },
  {
   "property": "C11",
   "status": "partial",
   "theorems": [
    "C11_abort_kwargs_refuted",
    "C11_abort_args_partial"
   ],
   "note": "REFUTED: never accepted when kwargs come without args. Proved: accepted with args present."
  },
  {
   "property": "C12",
   "status": "partial",
   "theorems": [
    "C12_json_ids_partial",
    "C12_nearest_float",
    "C12_json_ids_refuted"
   ],
   "note": "REFUTED above 2^53. Proved up to 2^53."
  },
  {
   "property": "C13",
   "status": "proved",
   "theorems": [
    "C13_payload_roundtrip"
   ],
   "note": "For every serializer that round-trips the outer list."
  },
  {
   "property": "C14",
   "status": "partial",
   "theorems": [
    "C14_payload_inverse_partial",
    "C14_raw_payload_inverse_partial",
    "C14_raw_payload_exact_partial",
    "C14_unknown_serializer_partial",
    "C14_empty_payload_refuted",
    "C14_empty_payload_codec_refuted"
   ],
   "note": "REFUTED for empty args and kwargs. Proved for the non-empty case."
  },
  {
   "property": "C15",
   "status": "partial",
   "theorems": [
    "C15_decode_exact",
    "C15_decode_no_panic",
    "C15_decode_cbor_panics_refuted",
    "C15_decode_cbor_extra_refuted"
   ],
   "note": "JSON and msgpack framing proved panic-free with exact shapes; REFUTED for the cbor payload decoder."
  },
  {
   "property": "C16",
   "status": "proved",
   "theorems": [
    "C16_handshake_legal_sizes",
    "C16_handshake_roundtrip"
   ],
   "note": "All sizes 2^9..2^24 and all serializer nibbles."
  },
  {
   "property": "C17",
   "status": "proved",
   "theorems": [
    "C17_receive_handshake_exact",
    "C17_receive_handshake_canonical",
    "C17_receive_handshake_no_panic"
   ],
   "note": "Exact characterisation of accepted frames."
  },
  {
   "property": "C18",
   "status": "proved",
   "theorems": [
    "C18_header_roundtrip",
    "C18_header_four_bytes",
    "C18_header_injective"
   ],
   "note": "All kinds and lengths below 2^24."
  },
  {
   "property": "C19",
   "status": "partial",
   "theorems": [
    "C19_lengths_partial",
    "C19_lengths_refuted"
   ],
   "note": "REFUTED at exactly 2^24 = the negotiable maximum. Proved below."
  },
  {
   "property": "C20",
   "status": "partial",
   "theorems": [
    "C20_illegal_sizes_partial",
    "C20_zero_refuted",
    "C20_negative_refuted"
   ],
   "note": "REFUTED for sizes <= 0. Proved: every positive illegal size is an error."
  },
  {
   "property": "C21",
   "status": "proved",
   "theorems": [
    "C21_refines_table"
   ],
   "note": "Refinement of the heap model by the table machine of BrokerSpec.v, up to 2^53 calls, any iteration orders."
  },
  {
   "property": "C22",
   "status": "proved",
   "theorems": [
    "C22_never_panics"
   ],
   "note": "Unconditional: no bound on the number of calls, also after the id generator wraps."
  },
  {
   "property": "C23",
   "status": "proved",
   "theorems": [
    "C23_exact_delivery",
    "C23_literal_delivery",
    "C23_recipients_hold"
   ],
   "note": "Trace-level iff; plus the general forms with patterns present."
  },
  {
   "property": "C24",
   "status": "proved",
   "theorems": [
    "C24_no_event_after_end",
    "C24_unsubscribe_answer"
   ],
   "note": "Any policies; also exact characterisation of which UNSUBSCRIBEs succeed."
  },
  {
   "property": "C25",
   "status": "proved",
   "theorems": [
    "C25_subscription_ids_distinct",
    "C25_publication_not_subscription",
    "C25_publication_ids_increase",
    "C25_subscribe_answer"
   ],
   "note": ""
  },
  {
   "property": "C26",
   "status": "proved",
   "theorems": [
    "C26_acknowledgement",
    "C26_published_iff_attached"
   ],
   "note": ""
  },
  {
   "property": "C27",
   "status": "proved",
   "theorems": [
    "C27_exact_first",
    "C27_longest_prefix_second",
    "C27_wildcard_last"
   ],
   "note": "Stated on the trace; \"indexed\" is the trace predicate `searchable`."
  },
  {
   "property": "C28",
   "status": "proved",
   "theorems": [
    "C28_payload_and_disclosure"
   ],
   "note": ""
  },
  {
   "property": "C29",
   "status": "partial",
   "theorems": [
    "C29_literal_partial",
    "C29_prefix_partial",
    "C29_isolation_refuted",
    "C29_dead_pattern"
   ],
   "note": "REFUTED for pattern subscriptions: a departure removes the index entry for all (C29_isolation_refuted, C29_dead_pattern). Proved for literal topics, and for a prefix as long as none of its own subscribers leaves it."
  },
  {
   "property": "C30",
   "status": "partial",
   "theorems": [
    "C30_all_matching_refuted",
    "C30_literal_partial",
    "C30_single_pattern_partial"
   ],
   "note": "REFUTED: only one subscription is served. Proved for subscribers of the literal topic, and for the subscribers of the only searchable pattern that matches."
  },
  {
   "property": "C31",
   "status": "partial",
   "theorems": [
    "C31_publisher_included",
    "C31_exclusion_refuted"
   ],
   "note": "REFUTED: exclude_me is never read; a subscribed publisher always receives its own event (C31_publisher_included)."
  },
  {
   "property": "C32",
   "status": "proved",
   "theorems": [
    "C32_rejected_no_effect"
   ],
   "note": "For every continuation, results and final state."
  },
  {
   "property": "C33",
   "status": "proved",
   "theorems": [
    "C33_nothing_left",
    "C33_has_subscription"
   ],
   "note": "Unreachable heap objects are garbage and not counted."
  },
  {
   "property": "C34",
   "status": "partial",
   "theorems": [
    "C34_first_subscriber_partial",
    "C34_policy_honoured_refuted"
   ],
   "note": "REFUTED when the topic already has a subscriber with another policy. Proved for the first subscriber."
  },
  {
   "property": "C35",
   "status": "proved",
   "theorems": [
    "C35_add_session",
    "C35_remove_session"
   ],
   "note": "No bound on the history."
  },
  {
   "property": "C36",
   "status": "partial",
   "theorems": [
    "C36_shared_policy",
    "C36_register_iff_partial",
    "C36_unshared_partial",
    "C36_register_iff_refuted"
   ],
   "note": "REFUTED in general: a repeated UNREGISTER of a former shared registration deletes another session's procedure, which can then be registered again. Proved in every history: a REGISTERED id is new or stands for the same procedure and the same sharing policy; the iff is proved in every history for procedures that were never registered to be shared, and for considerate histories (DealerKind.v: nobody gives up a registration it does not hold or joins a shared one twice)."
  },
  {
   "property": "C37",
   "status": "proved",
   "theorems": [
    "C37_result_origin",
    "C37_error_origin",
    "C37_yield_answer",
    "C37_error_answer",
    "C37_one_call_per_invocation"
   ],
   "note": "Also the exact characterisation of which YIELD/ERROR are answered (open_inv, a predicate on the trace)."
  },
  {
   "property": "C38",
   "status": "proved",
   "theorems": [
    "C38_one_last_word"
   ],
   "note": "Any continuation between the two answers."
  },
  {
   "property": "C39",
   "status": "proved",
   "theorems": [
    "C39_progressive_results"
   ],
   "note": ""
  },
  {
   "property": "C40",
   "status": "partial",
   "theorems": [
    "C40_callee_registered_partial",
    "C40_own_policy_refuted"
   ],
   "note": "Proved for the match policy the registration was created with; REFUTED for the policy the callee itself asked for (sessions that join a shared registration get the first registrant's match policy)."
  },
  {
   "property": "C41",
   "status": "partial",
   "theorems": [
    "C41_refused_unchanged",
    "C41_never_registered",
    "C41_nobody_holds_partial",
    "C41_nobody_holds_refuted"
   ],
   "note": "A refusal changes nothing (every history); refused when nothing ever registered covers the procedure (every history) and when nothing currently held reaches it (considerate histories, DealerKind.v). REFUTED in general: the CALL fails with an internal error instead of an answer to the caller."
  },
  {
   "property": "C42",
   "status": "proved",
   "theorems": [
    "C42_invocation_policies"
   ],
   "note": "Any number of callees and calls; in polite histories."
  },
  {
   "property": "C43",
   "status": "proved",
   "theorems": [
    "C43_fresh_invocations"
   ],
   "note": "Strictly larger than every id seen before."
  },
  {
   "property": "C44",
   "status": "proved",
   "theorems": [
    "C44_invocation"
   ],
   "note": "Exact INVOCATION, stated with the record invocation_for of DealerSpec.v."
  },
  {
   "property": "C45",
   "status": "partial",
   "theorems": [
    "C45_only_callee_answers_refuted",
    "C45_sender_irrelevant"
   ],
   "note": "REFUTED: the sender of a YIELD or ERROR is never compared with the callee; C45_sender_irrelevant: nothing at all depends on it, in any history. With honest clients see C91."
  },
  {
   "property": "C46",
   "status": "partial",
   "theorems": [
    "C46_invoked_holds_partial",
    "C46_invoked_listed_partial",
    "C46_sole_holder_partial",
    "C46_unshared_partial",
    "C46_after_unregister_refuted"
   ],
   "note": "REFUTED when the registration is shared. Proved in every history for procedures that were never registered to be shared; in polite histories: whoever is invoked holds the registration; in considerate histories: it has it on its books and somebody holds it, so after unregistering what nobody else held there is no invocation."
  },
  {
   "property": "C47",
   "status": "partial",
   "theorems": [
    "C47_holder_served_partial",
    "C47_somebody_serves_partial",
    "C47_unshared_partial",
    "C47_others_unaffected_refuted"
   ],
   "note": "REFUTED: a repeated UNREGISTER removes another session's procedure. Proved: in every history for procedures that were never registered to be shared; in polite histories the holder (one of the holders) is called; in considerate histories a held procedure is served, by an attached session that has it on its books."
  },
  {
   "property": "C48",
   "status": "partial",
   "theorems": [
    "C48_polite_refines_table_partial",
    "C48_considerate_partial",
    "C48_polite_is_considerate",
    "C48_rules_needed",
    "C48_others_never_panic_partial",
    "C48_unregister_panics_refuted",
    "C48_call_panics_refuted",
    "C48_disclosed_call_panics_refuted"
   ],
   "note": "REFUTED three ways (UNREGISTER of an unknown id, duplicate registrant leaving, disclosed detached caller). Proved: refinement of the procedure table without panics in polite histories; no panics in considerate histories, which include the polite ones, and each of their three rules is needed; in every history only CALL, UNREGISTER and RemoveSession can panic."
  },
  {
   "property": "C49",
   "status": "partial",
   "theorems": [
    "C49_prefix_found_partial",
    "C49_live_prefix_refuted"
   ],
   "note": "REFUTED even in polite histories: prefixes are never removed from the radix tree. Proved when no longer prefix that covers the procedure was ever registered."
  },
  {
   "property": "C50",
   "status": "partial",
   "theorems": [
    "C50_recipients_partial",
    "C50_detached_refuted"
   ],
   "note": "REFUTED for a forwarded ERROR whose caller is gone. Proved for everything else."
  },
  {
   "property": "C51",
   "status": "partial",
   "theorems": [
    "C51_same_invocation_partial",
    "C51_sole_callee_partial",
    "C51_same_callee_refuted",
    "C51_last_chunk_refuted"
   ],
   "note": "The id is the same for all chunks marked progress (every history); and in considerate histories the callee is the same while it is alone on the books; REFUTED for the callee under roundrobin and for the id of the last chunk."
  },
  {
   "property": "C52",
   "status": "partial",
   "theorems": [
    "C52_departed_callee_refuted",
    "C52_answerable_partial"
   ],
   "note": "REFUTED: pending invocations of departed sessions are kept and the caller gets no answer. Proved in every history: an invocation stays open, whoever leaves, until the first YIELD or ERROR with its id, which is handed on while the caller is attached."
  },
  {
   "property": "C53",
   "status": "proved",
   "theorems": [
    "C53_simple_service"
   ],
   "note": "Including HasProcedure, REGISTER answers and absence of panics."
  },
  {
   "property": "C54",
   "status": "proved",
   "theorems": [
    "C54_result",
    "C54_call_error",
    "C54_open_after"
   ],
   "note": "For every serializer; both Receive and ReceiveMessage."
  },
  {
   "property": "C55",
   "status": "proved",
   "theorems": [
    "C55_registered",
    "C55_register_error",
    "C55_published",
    "C55_publish_error"
   ],
   "note": "REGISTERED/ERROR and PUBLISHED/ERROR."
  },
  {
   "property": "C56",
   "status": "proved",
   "theorems": [
    "C56_invocation",
    "C56_unregistered"
   ],
   "note": "Also when UNREGISTERED is accepted."
  },
  {
   "property": "C57",
   "status": "proved",
   "theorems": [
    "C57_event",
    "C57_unsubscribe",
    "C57_unsubscribed"
   ],
   "note": "Also when UNSUBSCRIBED is accepted."
  },
  {
   "property": "C58",
   "status": "proved",
   "theorems": [
    "C58_no_effect",
    "C58_returns"
   ],
   "note": "In every state, reachable or not; includes serializer errors and panics, which are handed on (C58_returns)."
  },
  {
   "property": "C59",
   "status": "partial",
   "theorems": [
    "C59_once_refuted",
    "C59_unregistered_partial",
    "C59_unsubscribed_partial",
    "C59_subscribe_error_partial"
   ],
   "note": "REFUTED: SUBSCRIBED is accepted repeatedly, and ERROR after UNSUBSCRIBED/UNREGISTERED (session.go uses Load, not LoadAndDelete). Proved: second UNREGISTERED/UNSUBSCRIBED rejected unless the id was granted again or the request resent; nothing after ERROR to SUBSCRIBE."
  },
  {
   "property": "C60",
   "status": "partial",
   "theorems": [
    "C60_register",
    "C60_publish",
    "C60_errors",
    "C60_ends",
    "C60_result_refuted"
   ],
   "note": "REFUTED for RESULT (Load then Delete). Proved under every interleaving for REGISTERED, PUBLISHED, all ERROR kinds, and in total for UNREGISTERED and UNSUBSCRIBED."
  },
  {
   "property": "C61",
   "status": "partial",
   "theorems": [
    "C61_unasked_refuted",
    "C61_unchecked"
   ],
   "note": "REFUTED: invocationRequests is never read; YIELD and invocation ERROR are always sent."
  },
  {
   "property": "C62",
   "status": "proved",
   "theorems": [
    "C62_first_allowed",
    "C62_fails_iff_none"
   ],
   "note": ""
  },
  {
   "property": "C63",
   "status": "partial",
   "theorems": [
    "C63_within_list_partial",
    "C63_empty_proposal_refuted",
    "C63_unproposed_session_refuted"
   ],
   "note": "REFUTED: an empty proposal selects anonymous whatever the server allows, and the acceptor then grants the session. Proved for non-empty proposals."
  },
  {
   "property": "C64",
   "status": "proved",
   "theorems": [
    "C64_own_signature",
    "C64_accepted_iff_hmac",
    "C64_client_accepted"
   ],
   "note": "For arbitrary HMAC and PBKDF2 functions; base64 is modelled."
  },
  {
   "property": "C65",
   "status": "partial",
   "theorems": [
    "C65_canonical_unique_partial",
    "C65_line_break_refuted"
   ],
   "note": "REFUTED: base64 ignores line breaks and trailing bits. Proved: at most one canonical spelling."
  },
  {
   "property": "C66",
   "status": "proved",
   "theorems": [
    "C66_own_signature",
    "C66_accepted_iff_opens"
   ],
   "note": "For every signature scheme that verifies its own signatures."
  },
  {
   "property": "C67",
   "status": "partial",
   "theorems": [
    "C67_replay_refuted"
   ],
   "note": "REFUTED: the acceptor only checks that the signature opens, so a signature over any other 32 bytes is accepted (replay). That it must be a signature by the announced key is C68."
  },
  {
   "property": "C68",
   "status": "proved",
   "theorems": [
    "C68_welcome_warranted"
   ],
   "note": "For every history, authenticator behaviour and random source."
  },
  {
   "property": "C69",
   "status": "proved",
   "theorems": [
    "C69_details",
    "C69_once",
    "C69_deaf_afterwards",
    "C69_receive_flag"
   ],
   "note": "Also the flag of Receive."
  },
  {
   "property": "C70",
   "status": "partial",
   "theorems": [
    "C70_never_panics_partial",
    "C70_keylen_refuted"
   ],
   "note": "REFUTED: a salted WAMP-CRA user with a negative or huge key length. Proved for authenticators that answer and whose key lengths can be allocated."
  },
  {
   "property": "C71",
   "status": "partial",
   "theorems": [
    "C71_second_ticket_refuted",
    "C71_new_grounds_partial"
   ],
   "note": "REFUTED: after ABORT further AUTHENTICATE messages are tried. Proved: a later WELCOME rests on a message received after the ABORT."
  },
  {
   "property": "C72",
   "status": "proved",
   "theorems": [
    "C72_welcome_accepted_iff",
    "C72_welcome_refused",
    "C72_challenge_accepted_iff",
    "C72_challenge_refused",
    "C72_other_refused",
    "C72_details"
   ],
   "note": "Exact acceptance conditions in every history."
  },
  {
   "property": "C73",
   "status": "partial",
   "theorems": [
    "C73_welcome_refuted",
    "C73_challenge_refuted",
    "C73_crashes_exactly_partial",
    "C73_wampcra_panics_partial",
    "C73_others_never_panic_partial"
   ],
   "note": "REFUTED: WELCOME without string authid/authrole, and a WAMP-CRA CHALLENGE with salt and an unusable keylen. Proved: exactly these crash."
  },
  {
   "property": "C74",
   "status": "proved",
   "theorems": [
    "C74_anonymous",
    "C74_ticket",
    "C74_wampcra",
    "C74_cryptosign"
   ],
   "note": "Through every value-preserving serializer, for every cryptographic primitive with the stated laws."
  },
  {
   "property": "C75",
   "status": "proved",
   "theorems": [
    "C75_zone_suffix"
   ],
   "note": ""
  },
  {
   "property": "C76",
   "status": "proved",
   "theorems": [
    "C76_mutex_linearizable"
   ],
   "note": "For arbitrary method bodies; instantiated for NextID."
  },
  {
   "property": "C77",
   "status": "partial",
   "theorems": [
    "C77_slash_in_class_refuted",
    "C77_half_character_refuted",
    "C77_sound_partial",
    "C77_complete_partial",
    "C77_ascii_exact_partial",
    "C77_literals_exact_partial",
    "C77_malformed",
    "C77_bad_pattern",
    "C77_unambiguous"
   ],
   "note": "REFUTED: a class that contains the slash standing between two stars can be missed, and a star can end inside a UTF-8 character. Proved: sound for the language in which a stray byte is a character, complete unless a class between two stars contains the slash, exact for ASCII names and for patterns of literals and stars; malformed patterns exactly as the grammar says. path.Match itself is modelled from the Go standard library."
  },
  {
   "property": "C78",
   "status": "proved",
   "theorems": [
    "C78_receive",
    "C78_send"
   ],
   "note": "All 24 message types in both directions."
  },
  {
   "property": "C79",
   "status": "partial",
   "theorems": [
    "C79_accepts_partial",
    "C79_rejects_partial",
    "C79_wrong_length_refuted",
    "C79_panics_exactly_partial"
   ],
   "note": "REFUTED: a hexadecimal key of another length panics. Otherwise proved; a public key of a non-string type passes unchecked."
  },
  {
   "property": "C80",
   "status": "proved",
   "theorems": [
    "C80_key_pair_works"
   ],
   "note": "For every signature scheme that verifies its own signatures."
  },
  {
   "property": "C81",
   "status": "proved",
   "theorems": [
    "C81_nonce_in_challenge"
   ],
   "note": "json.Marshal escaping is modelled."
  },
  {
   "property": "C82",
   "status": "proved",
   "theorems": [
    "C82_in_step",
    "C82_careful_clients",
    "C82_rules_needed"
   ],
   "note": "Network.v composes the models of Session, Broker and Dealer with FIFO transports; the composition itself is not code in /repo, only its parts are. The rules are stated twice: as what the router sees, and as what each client can check on its own."
  },
  {
   "property": "C83",
   "status": "proved",
   "theorems": [
    "C83_agreement"
   ],
   "note": "Same composition as C82."
  },
  {
   "property": "C84",
   "status": "proved",
   "theorems": [
    "C84_accounted",
    "C84_one_invocation",
    "C84_answered_once"
   ],
   "note": "Same composition as C82."
  },
  {
   "property": "C85",
   "status": "proved",
   "theorems": [
    "C85_provenance"
   ],
   "note": "Same composition as C82."
  },
  {
   "property": "C86",
   "status": "proved",
   "theorems": [
    "C86_event_reaches"
   ],
   "note": "Literal topics; what patterns receive is C27 and C30."
  },
  {
   "property": "C87",
   "status": "proved",
   "theorems": [
    "C87_linearizable",
    "C87_all_runs",
    "C87_one_answer",
    "C87_two_receivers_refuted",
    "C87_overlap_refuted"
   ],
   "note": "The two conditions are needed: C87_two_receivers_refuted and C87_overlap_refuted give histories without linearization. sync.Map operations are assumed atomic."
  },
  {
   "property": "C88",
   "status": "proved",
   "theorems": [
    "C88_in_order",
    "C88_considerate_clients",
    "C88_no_endless_moving",
    "C88_all_answered",
    "C88_at_most_once",
    "C88_rule_needed"
   ],
   "note": "Calls are the subject of C84. C88_rule_needed: a second UNSUBSCRIBE for a subscription, sent before the first is answered, is dropped by the broker with an error and never answered; C88_at_most_once is what remains without the rule."
  },
  {
   "property": "C89",
   "status": "partial",
   "theorems": [
    "C89_roundtrip_partial",
    "C89_lossless",
    "C89_prefix",
    "C89_smuggling_refuted",
    "C89_smuggled"
   ],
   "note": "REFUTED for payloads of exactly 2^24 bytes, which a handshake can allow: the header says 0 and the payload is read as frames of their own (C89_smuggling_refuted, C89_smuggled). Proved below 2^24; C89_lossless and C89_prefix hold for any bytes. The read and write loop is the user's, not /repo's."
  },
  {
   "property": "C90",
   "status": "proved",
   "theorems": [
    "C90_calls_complete",
    "C90_completable",
    "C90_rule_needed"
   ],
   "note": "C90_rule_needed: when a callee leaves with an INVOCATION unread, its caller waits for ever with everything at rest, since RemoveSession tells nobody."
  },
  {
   "property": "C91",
   "status": "proved",
   "theorems": [
    "C91_only_callee",
    "C91_never_answered",
    "C91_rule_needed"
   ],
   "note": "C91_rule_needed: the dealer takes a YIELD from anybody (C45), so without honest clients a stranger can answer."
  },
  {
   "property": "C92",
   "status": "proved",
   "theorems": [
    "C92_agreement",
    "C92_not_more_often",
    "C92_rule_needed"
   ],
   "note": "Unforgeability is a condition on the trace (a MAC under a safe key of a challenge some server made reaches a server only after a user computed it), met by concrete runs. C92_rule_needed: with a repeated nonce one HELLO lets in twice."
  },
  {
   "property": "C93",
   "status": "partial",
   "theorems": [
    "C93_realm_refuted",
    "C93_session_refuted",
    "C93_user_side_refuted",
    "C93_identity_partial"
   ],
   "note": "REFUTED: the realm is not in the challenge, so an adversary can have the user let into another realm than it asked for (C93_realm_refuted); the session id in the challenge is drawn separately from the one in the WELCOME (C93_session_refuted); a client takes a WELCOME without CHALLENGE for a finished WAMP-CRA handshake (C93_user_side_refuted). Proved: authid and role are bound (C93_identity_partial)."
  },
  {
   "property": "C94",
   "status": "proved",
   "theorems": [
    "C94_same",
    "C94_goes_on",
    "C94_in_step",
    "C94_rules_needed"
   ],
   "note": "A codec is any relation between what Marshal gives and the decoded list that keeps values up to WireSpec.v; a simulation between the network with and the one without serializers. C94_goes_on: runs exist whenever the clients send encodable values. C94_rules_needed: each of the three rules is needed."
  },
  {
   "property": "C95",
   "status": "partial",
   "theorems": [
    "C95_client_announces",
    "C95_router_announces",
    "C95_client_learns",
    "C95_canceling_refuted",
    "C95_exclusion_refuted"
   ],
   "note": "REFUTED: call_canceling and publisher_exclusion are announced but not implemented (C95_canceling_refuted for all states, C95_exclusion_refuted). Proved: exactly what is announced, on both sides and through serializers. The progressive features are the subject of C39, C44 and C51."
  },
  {
   "property": "C96",
   "status": "proved",
   "theorems": [
    "C96_client_details",
    "C96_router_details"
   ],
   "note": "createdAt is not modelled."
  },
  {
   "property": "C97",
   "status": "partial",
   "theorems": [
    "C97_invocation_partial",
    "C97_result_partial",
    "C97_dynamic_refuted",
    "C97_marshal_drops"
   ],
   "note": "REFUTED: a callee or caller without static serializer (all three in /repo are not) gets no payload and no sign of it (C97_dynamic_refuted), and Marshal leaves the payload out (C97_marshal_drops). Proved: to static sessions the dealer passes bytes and serializer id unchanged, otherwise exactly the ordinary arguments. PUBLISH, EVENT and ERROR payloads are never set by broker and dealer and not modelled."
  },
  {
   "property": "C98",
   "status": "partial",
   "theorems": [
    "C98_as_described",
    "C98_stays_partial",
    "C98_own_maps_partial",
    "C98_shared_options_refuted",
    "C98_readable_iff",
    "C98_readable_partial",
    "C98_unreadable_rejected",
    "C98_nil_refuted"
   ],
   "note": "REFUTED: two ...Binary constructors given one map change each other's messages (C98_shared_options_refuted); NewWelcome and NewChallenge with nil and ABORT with keyword arguments only are built but rejected by every peer (C98_nil_refuted). Proved: everything else; exactly these are unreadable."
  },
  {
   "property": "C99",
   "status": "proved",
   "theorems": [
    "C99_recipient",
    "C99_caller",
    "C99_publisher",
    "C99_one_connection_per_id"
   ],
   "note": "Realm.v joins the models of Acceptor, Broker and Dealer the way their signatures allow; the joining itself is not code in /repo. One realm; session ids may repeat over time."
  },
  {
   "property": "C100",
   "status": "partial",
   "theorems": [
    "C100_result_partial",
    "C100_error_partial",
    "C100_reused_id_refuted"
   ],
   "note": "REFUTED: GenerateID may draw the id of a session that has left, and RemoveSession keeps its pending calls, so an answer for the one goes to the other (C100_reused_id_refuted). Proved whenever the session ids of a run differ."
  },
  {
   "property": "C101",
   "status": "partial",
   "theorems": [
    "C101_one_client_refuted",
    "C101_causes_partial",
    "C101_kindly_partial"
   ],
   "note": "REFUTED: two messages of one anonymous client (C101_one_client_refuted). Proved: which events can panic, and that none does if authenticators answer properly and clients keep the two rules of C48 that are theirs."
  },
  {
   "property": "C102",
   "status": "partial",
   "theorems": [
    "C102_replay_refuted",
    "C102_signed_before_partial"
   ],
   "note": "REFUTED: the acceptor does not compare the signed bytes with its challenge, so whoever gets a key holder to sign any 32 bytes once can join any number of servers as that key, at any time (C102_replay_refuted, for every Crypto, with fresh challenges and unforgeable signatures). Proved: a holder of the key did sign something before, while waiting for the answer to a HELLO of its own (C102_signed_before_partial). Missing: which challenge, and how often."
  },
  {
   "property": "C103",
   "status": "proved",
   "theorems": [
    "C103_answered",
    "C103_nothing_unasked",
    "C103_event_wanted"
   ],
   "note": "The subscriptions a connection has are read off the log (what it was told, until it was told the end or was removed). Which pattern serves a topic that nobody has literally, and that it may be none although one matches, is the subject of C29, C30 and C34."
  },
  {
   "property": "C104",
   "status": "proved",
   "theorems": [
    "C104_accepted",
    "C104_agreement",
    "C104_accounted",
    "C104_one_invocation",
    "C104_answered_once"
   ],
   "note": "The condition that no call on the router panicked is needed: C101 is refuted. Hostile clients may also answer the calls of others (C45): then the answer is a forged one, but it is one answer, and the session stays in step."
  },
  {
   "property": "C105",
   "status": "partial",
   "theorems": [
    "C105_taken_over_refuted",
    "C105_call_reaches_partial",
    "C105_invoked_holds_partial"
   ],
   "note": "REFUTED: two hostile sessions that once shared the name can delete and take over the procedure of a well-behaved one, whose session goes on listing it. Proved for every procedure that was never registered by anybody to be shared (attempts that were refused do not count), whatever else the hostile clients do."
  },
  {
   "property": "C106",
   "status": "proved",
   "theorems": [
    "C106_event_reaches"
   ],
   "note": "Any publisher and any subscriber, well-behaved or not."
  },
  {
   "property": "C107",
   "status": "proved",
   "theorems": [
    "C107_challenge_is_json",
    "C107_text_unchanged",
    "C107_names_in_challenge"
   ],
   "note": "read_object is a JSON reader written from RFC 8259. The time stamp is whatever NowISO8601 returned (C75)."
  },
  {
   "property": "C108",
   "status": "partial",
   "theorems": [
    "C108_session_refuted",
    "C108_drawn_partial"
   ],
   "note": "REFUTED: the acceptor draws one id for the challenge and another for the session. Proved: the WELCOME carries the id drawn for it, the challenge the id drawn for the challenge (C107)."
  },
  {
   "property": "C109",
   "status": "proved",
   "theorems": [
    "C109_anonymous_only"
   ],
   "note": "Any random source and any clock."
  },
  {
   "property": "C110",
   "status": "proved",
   "theorems": [
    "C110_as_string",
    "C110_as_bool",
    "C110_to",
    "C110_anys_to_strings"
   ],
   "note": "A value of the defined type auth.Method is not a string here, as in Go."
  },
  {
   "property": "C111",
   "status": "proved",
   "theorems": [
    "C111_json_roundtrip",
    "C111_json_values"
   ],
   "note": "Json.v models encoding/json byte by byte from its published source; a float32 is excluded (C130)."
  },
  {
   "property": "C112",
   "status": "partial",
   "theorems": [
    "C112_bytes_refuted",
    "C112_strings_partial",
    "C112_distinct_refuted",
    "C112_large_refuted"
   ],
   "note": "REFUTED: a []byte arrives as a string holding its base64 (for every byte string, C112_bytes_refuted), strings that are not UTF-8 arrive with U+FFFD, so different ones become equal, and an integer above 2^53 may arrive as its neighbour. Proved: exactly the broken bytes of a string are replaced; what C111 covers arrives unchanged."
  },
  {
   "property": "C113",
   "status": "partial",
   "theorems": [
    "C113_json_panics_partial",
    "C113_json_panics_refuted"
   ],
   "note": "REFUTED: null, [] and [1,\"realm1\"] (C113_json_panics_refuted). Proved: the exact condition, in terms of the list read (C113_json_panics_partial)."
  },
  {
   "property": "C114",
   "status": "proved",
   "theorems": [
    "C114_json_payload",
    "C114_empty"
   ],
   "note": "The law of C13 (that the codec delivers) is proved here for the JSON codec instead of assumed."
  },
  {
   "property": "C115",
   "status": "proved",
   "theorems": [
    "C115_cbor_roundtrip",
    "C115_cbor_reads"
   ],
   "note": "Binary.v models fxamacker/cbor with the options /repo sets, from RFC 8949; indefinite lengths and tags are left out. Messages read back are the same up to the kind of integers and nil lists and dictionaries (msg_same)."
  },
  {
   "property": "C116",
   "status": "proved",
   "theorems": [
    "C116_msgpack_roundtrip",
    "C116_msgpack_reads"
   ],
   "note": "Binary.v models vmihailenco/msgpack, from the MessagePack specification; extension types are left out."
  },
  {
   "property": "C117",
   "status": "partial",
   "theorems": [
    "C117_not_text_refuted",
    "C117_deep_refuted",
    "C117_values_partial"
   ],
   "note": "REFUTED: every string that is not UTF-8 and every value nested more than 31 deep is written without an error and refused when read. Proved: all other values within the limits come through (C117_values_partial)."
  },
  {
   "property": "C118",
   "status": "partial",
   "theorems": [
    "C118_cbor_kinds",
    "C118_msgpack_kinds",
    "C118_as_int",
    "C118_as_float_refuted"
   ],
   "note": "REFUTED: an int between -32768 and -129 sent by MessagePack arrives as int16, which AsFloat64 refuses (C118_as_float_refuted). Proved: the value is kept, in exactly which kind it arrives, and AsInt reads every one below 2^63."
  },
  {
   "property": "C119",
   "status": "partial",
   "theorems": [
    "C119_cbor",
    "C119_msgpack_partial",
    "C119_msgpack_refuted",
    "C119_cbor_all",
    "C119_msgpack_all_refuted"
   ],
   "note": "REFUTED for MessagePack: bytes after a message are ignored, so a second message in the same frame is lost. Proved: CBOR refuses both, MessagePack refuses every cut message; for bytes which are no message too."
  },
  {
   "property": "C120",
   "status": "partial",
   "theorems": [
    "C120_panics_partial",
    "C120_panics_refuted"
   ],
   "note": "REFUTED: 80, f6 and 82 01 60 (CBOR), 90, c0 and 92 05 a0 (MessagePack). Proved: the exact condition, in terms of the list read (C120_panics_partial)."
  },
  {
   "property": "C121",
   "status": "proved",
   "theorems": [
    "C121_cbor_payload",
    "C121_msgpack_payload"
   ],
   "note": "The law of C13 (that the codec delivers) is proved here for both codecs instead of assumed."
  },
  {
   "property": "C122",
   "status": "proved",
   "theorems": [
    "C122_sound",
    "C122_complete"
   ],
   "note": "The grammar and the meaning are in JsonGrammar.v; the sign of -0 is not represented."
  },
  {
   "property": "C123",
   "status": "proved",
   "theorems": [
    "C123_numbers"
   ],
   "note": "nearest, double and representable (JsonGrammar.v) are stated over the rationals."
  },
  {
   "property": "C124",
   "status": "proved",
   "theorems": [
    "C124_written",
    "C124_messages"
   ],
   "note": "Json.v models encoding/json byte by byte from its published source."
  },
  {
   "property": "C125",
   "status": "proved",
   "theorems": [
    "C125_connection"
   ],
   "note": "/repo has no loop of its own that joins these functions; Connection.v joins them as they are meant to be joined. A message of exactly 2^24 bytes is excluded (C19, C89)."
  },
  {
   "property": "C126",
   "status": "proved",
   "theorems": [
    "C126_followed",
    "C126_cut",
    "C126_messages"
   ],
   "note": "The last part is for messages that C111 covers."
  },
  {
   "property": "C127",
   "status": "proved",
   "theorems": [
    "C127_finite",
    "C127_refused",
    "C127_shortest"
   ],
   "note": "The encoding of floats is modelled from the published source of encoding/json and strconv; a zero has no sign in the model."
  },
  {
   "property": "C128",
   "status": "proved",
   "theorems": [
    "C128_same",
    "C128_goes_on",
    "C128_in_step"
   ],
   "note": "Messages are portable (Portable.v) and ordinary (C94); the loop that reads, routes and writes is not in /repo and is modelled as its caller is meant to write it."
  },
  {
   "property": "C129",
   "status": "partial",
   "theorems": [
    "C129_sent_refuted",
    "C129_read_refuted",
    "C129_meaning_refuted",
    "C129_handed_on_partial"
   ],
   "note": "REFUTED: infinity from CBOR cannot be sent in JSON; lists nested deeper than 32 from JSON are written in CBOR but not read; a byte string arrives in JSON as its base64 text. Proved for portable messages (Portable.v) through any chain of serializers."
  },
  {
   "property": "C130",
   "status": "partial",
   "theorems": [
    "C130_unchanged_refuted",
    "C130_nearest_partial",
    "C130_finite",
    "C130_refused"
   ],
   "note": "REFUTED: the float32 nearest to 0.1 is written 0.1 and read as the float64 nearest to 0.1, which is another number. Proved: no float32 is nearer to what arrives than the one sent."
  },
  {
   "property": "C131",
   "status": "proved",
   "theorems": [
    "C131_reads",
    "C131_only",
    "C131_refuses",
    "C131_unambiguous"
   ],
   "note": "Tags, and null or undefined as keys, are errors in the model (see Binary.v); big integers and simple values are one opaque value."
  },
  {
   "property": "C132",
   "status": "partial",
   "theorems": [
    "C132_reads",
    "C132_only",
    "C132_unambiguous",
    "C132_exact_refuted"
   ],
   "note": "REFUTED: whatever follows the item is ignored. Proved: every list is read as what it stands for, and what is read begins with a list and is read as that."
  },
  {
   "property": "C133",
   "status": "partial",
   "theorems": [
    "C133_registrations_partial",
    "C133_wildcards_partial",
    "C133_pending_partial",
    "C133_nothing_left_refuted",
    "C133_wildcards_refuted",
    "C133_calls_recorded",
    "C133_grows_refuted"
   ],
   "note": "REFUTED: prefixes, unanswered invocations and a record of every call ever made stay, the last growing without limit; wildcard patterns can stay if a session gives up an id it no longer holds. Proved: sessions, their registrations and procedure names go in every history, wildcard patterns in polite ones, pending calls exactly when answered."
  },
  {
   "property": "C134",
   "status": "partial",
   "theorems": [
    "C134_open_partial",
    "C134_new_partial",
    "C134_asked",
    "C134_grows_refuted"
   ],
   "note": "REFUTED: an answered SUBSCRIBE, UNREGISTER or UNSUBSCRIBE is never forgotten, so a session with nothing open can hold any number of them. Proved: the other six maps hold exactly what is open, and without these three requests a session with nothing open is a new one."
  },
  {
   "property": "C135",
   "status": "partial",
   "theorems": [
    "C135_same_partial",
    "C135_honest_partial",
    "C135_one_reading",
    "C135_goes_on",
    "C135_unread_refuted",
    "C135_unsent_refuted",
    "C135_crash_refuted"
   ],
   "note": "REFUTED: one byte makes the router panic (as C120); a string that is not UTF-8, published in MessagePack, is sent to a CBOR subscriber that cannot read it; a call answered with infinity is never answered for a JSON caller. Proved: for portable messages (Portable.v), and if nothing panicked, every run with hostile bytes is a run with hostile messages (C104-C106), and well-behaved clients stay in step."
  },
  {
   "property": "C136",
   "status": "proved",
   "theorems": [
    "C136_traced",
    "C136_on_the_way",
    "C136_publisher",
    "C136_caller"
   ],
   "note": "C85 without any rule for the clients, and with the identities; that a YIELD comes from the callee that was invoked is false (C45)."
  },
  {
   "property": "C137",
   "status": "proved",
   "theorems": [
    "C137_reads",
    "C137_sends",
    "C137_events",
    "C137_payloads",
    "C137_matched",
    "C137_calls",
    "C137_results",
    "C137_ids"
   ],
   "note": "For the transport of the network model: one queue each way between a client and the router, and each message of a client handled before the next. The dealer half of C137_sends, C137_calls and C137_results supposes that no call on the dealer panicked (C48 says when one does)."
  },
  {
   "property": "C138",
   "status": "proved",
   "theorems": [
    "C138_ends",
    "C138_rests",
    "C138_stuck",
    "C138_arrived"
   ],
   "note": "work bounds the number of steps: one for a message to a client, 2k+1 for one to the router, with k clients (a message makes the router give each client at most an event and an acknowledgement)."
  },
  {
   "property": "C139",
   "status": "proved",
   "theorems": [
    "C139_reads",
    "C139_arrived",
    "C139_events",
    "C139_ids"
   ],
   "note": "Like for like (msg_like, fld_like of NetworkWire.v): payloads as they come out of a serializer. The conditions (fair, no panic) are those of C135, which shows what happens without them."
  },
  {
   "property": "C140",
   "status": "partial",
   "theorems": [
    "C140_lost_refuted",
    "C140_unanswered_partial",
    "C140_unshared_partial",
    "C140_callee_suffices"
   ],
   "note": "REFUTED: two clients that share a procedure, one of them registering twice, leave a departed session among the callees; a call then goes to it, ReceiveMessage returns an error, and the caller gets neither an invocation served nor an answer. Proved: that is the only other case, it does not occur if nobody registers a procedure to be shared, and an answer by a well-behaved callee always arrives."
  },
  {
   "property": "C141",
   "status": "proved",
   "theorems": [
    "C141_last_word",
    "C141_reply_called",
    "C141_event_known",
    "C141_invocation_known"
   ],
   "note": "Each client reads its messages in the order in which the router sent them; runs of at most 2^53 events without a crash."
  },
  {
   "property": "C142",
   "status": "proved",
   "theorems": [
    "C142_no_late_event",
    "C142_no_late_invocation"
   ],
   "note": "Each client reads its messages in the order in which the router sent them; runs of at most 2^53 events without a crash."
  }
 ]
}
