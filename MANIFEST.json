{
 "claims": [
  {
   "property": "C01",
   "status": "proved",
   "theorems": [
    "id_hex_roundtrip",
    "id_list_roundtrip",
    "content_id_equality"
   ],
   "note": ""
  },
  {
   "property": "C02",
   "status": "proved",
   "theorems": [
    "id_from_bytes",
    "id_from_hex",
    "id_from_int",
    "id_value_determines",
    "id_list_malformed_panics"
   ],
   "note": ""
  },
  {
   "property": "C03",
   "status": "proved",
   "theorems": [
    "sort_clockwise"
   ],
   "note": ""
  },
  {
   "property": "C04",
   "status": "proved",
   "theorems": [
    "distance_shorter_way",
    "distance_is_metric",
    "distance_steps",
    "distance_ring"
   ],
   "note": ""
  },
  {
   "property": "C05",
   "status": "proved",
   "theorems": [
    "ring_insertions_sorted_set",
    "ring_insert_adds"
   ],
   "note": ""
  },
  {
   "property": "C06",
   "status": "partial",
   "theorems": [
    "ring_remove_exact_partial",
    "ring_remove_smallest_stays",
    "ring_remove_other_empties",
    "ring_remove_exact_refuted"
   ],
   "note": "False of the code: removing the smallest identifier of a ring of three or more leaves it reachable, and removal on a one-element ring discards it whatever the argument. Proved for all other removals; the false cases are characterised universally."
  },
  {
   "property": "C07",
   "status": "partial",
   "theorems": [
    "ring_closest_nearest_partial",
    "ring_closest_too_many",
    "ring_closest_nearest_refuted"
   ],
   "note": "False when more results are asked for than the ring holds (ring_closest_too_many gives what happens). Proved for every healthy ring otherwise, except when the temporary node would be the smallest of a ring of size two or more."
  },
  {
   "property": "C08",
   "status": "partial",
   "theorems": [
    "ring_closest_exclusion_partial",
    "ring_closest_exclusion_refuted"
   ],
   "note": "Same region as C07."
  },
  {
   "property": "C09",
   "status": "partial",
   "theorems": [
    "ring_queries_preserve_partial",
    "ring_queries_preserve_refuted",
    "ring_range_preserve_refuted"
   ],
   "note": "False when the queried identifier is absent and smaller than every member: the temporary node stays. Proved elsewhere."
  },
  {
   "property": "C10",
   "status": "partial",
   "theorems": [
    "ring_range_exact_partial",
    "ring_range_exact_refuted"
   ],
   "note": "Fails for equal endpoints and in the region of C09. Proved elsewhere."
  },
  {
   "property": "C100",
   "status": "partial",
   "theorems": [
    "dht_v2_relays",
    "dht_offer_relays_partial",
    "dht_offer_underpaid_refuted"
   ],
   "note": "Proved for discovery; requests for offers go to the gateways named with their digests, but pay the search price after a top-up."
  },
  {
   "property": "C101",
   "status": "partial",
   "theorems": [
    "dht_v2_relays",
    "dht_v2_underpaid_refuted"
   ],
   "note": "Every request sent is paid for; false the other way: gateways that cannot be reached are paid."
  },
  {
   "property": "C102",
   "status": "partial",
   "theorems": [
    "gateway_discover_answers_partial",
    "gateway_v2_paid_partial",
    "gateway_offer_unsigned_refuted"
   ],
   "note": "Proved for discovery, both versions; requests for offers are not authenticated."
  },
  {
   "property": "C103",
   "status": "partial",
   "theorems": [
    "stored_vetted",
    "published_for_another_refuted"
   ],
   "note": "The key is that of the provider named in the request; the provider named in the offer is not compared."
  },
  {
   "property": "C104",
   "status": "proved",
   "theorems": [
    "acks_genuine",
    "acks_complete"
   ],
   "note": ""
  },
  {
   "property": "C105",
   "status": "proved",
   "theorems": [
    "ack_request_answered"
   ],
   "note": ""
  },
  {
   "property": "C106",
   "status": "proved",
   "theorems": [
    "requests_ordered"
   ],
   "note": ""
  },
  {
   "property": "C107",
   "status": "partial",
   "theorems": [
    "nearest_asked_partial",
    "near_only_refuted"
   ],
   "note": "Sent to the gateways nearest to the first identifier of the request; false for the other identifiers."
  },
  {
   "property": "C108",
   "status": "proved",
   "theorems": [
    "group_asked"
   ],
   "note": ""
  },
  {
   "property": "C109",
   "status": "partial",
   "theorems": [
    "told_published_refuted",
    "requests_ordered"
   ],
   "note": "False: told published though nobody acknowledged. The requests sent are right."
  },
  {
   "property": "C11",
   "status": "proved",
   "theorems": [
    "ring_malformed_rejected",
    "ring_valid_accepted"
   ],
   "note": ""
  },
  {
   "property": "C110",
   "status": "proved",
   "theorems": [
    "published_shown",
    "all_published_shown"
   ],
   "note": ""
  },
  {
   "property": "C111",
   "status": "partial",
   "theorems": [
    "identity_kept_partial",
    "failed_init_refuted"
   ],
   "note": "Proved for requests other than initialisations; a failed initialisation (V2) changes identifier and key."
  },
  {
   "property": "C112",
   "status": "proved",
   "theorems": [
    "dht_publication",
    "group_publication"
   ],
   "note": ""
  },
  {
   "property": "C113",
   "status": "proved",
   "theorems": [
    "stored_supplied"
   ],
   "note": ""
  },
  {
   "property": "C114",
   "status": "partial",
   "theorems": [
    "listing_acknowledged_partial",
    "acknowledged_unstored_refuted"
   ],
   "note": "Proved what is signed and what is given to the database; false that it is stored: messages with unsigned offers and offers whose writing failed are acknowledged."
  },
  {
   "property": "C115",
   "status": "partial",
   "theorems": [
    "listing_recorded_partial",
    "acknowledged_listing_refuted"
   ],
   "note": "Proved if some gateway acknowledged each offer before; otherwise the provider panics on the acknowledgement."
  },
  {
   "property": "C116",
   "status": "partial",
   "theorems": [
    "support_silent_partial",
    "support_unsent_refuted",
    "notification_exact"
   ],
   "note": "False: the requester started is the one for listings, which refuses the arguments; proved that nothing is ever sent and that the answer never is of the documented kind. The notification the requester would send were it called is exactly the identifier of the gateway and the flag, signed (notification_exact)."
  },
  {
   "property": "C117",
   "status": "partial",
   "theorems": [
    "gateway_identity_kept_partial",
    "gateway_identity_set_partial",
    "gateway_identity_set_v2_partial",
    "failed_key_refuted"
   ],
   "note": "Proved for all events except a second-version initialisation with an unusable wallet key, which is answered with an error but changes the identity and drops the payment manager."
  },
  {
   "property": "C118",
   "status": "partial",
   "theorems": [
    "voucher_once_partial",
    "voucher_again_refuted"
   ],
   "note": "Proved between initialisations; a second-version initialisation forgets what was credited."
  },
  {
   "property": "C119",
   "status": "partial",
   "theorems": [
    "income_backed_partial",
    "voucher_again_refuted"
   ],
   "note": "Proved between initialisations, false across them."
  },
  {
   "property": "C12",
   "status": "partial",
   "theorems": [
    "ring_never_crashes_partial",
    "ring_updates_never_crash",
    "ring_never_crashes_refuted"
   ],
   "note": "Queries on an empty ring and oversized requests can crash or spin; everything else returns normally."
  },
  {
   "property": "C120",
   "status": "proved",
   "theorems": [
    "never_overdrawn"
   ],
   "note": ""
  },
  {
   "property": "C121",
   "status": "partial",
   "theorems": [
    "listing_asks_all_partial",
    "listing_asks_none_refuted"
   ],
   "note": "Proved if the manager finds the range and discovery of providers is on; with fewer than two other gateways nobody is asked."
  },
  {
   "property": "C122",
   "status": "proved",
   "theorems": [
    "gateways_in_use_registered"
   ],
   "note": ""
  },
  {
   "property": "C123",
   "status": "proved",
   "theorems": [
    "gateways_added",
    "registered_gateways_added",
    "gateways_removed",
    "gateways_activated",
    "gateways_deactivated",
    "all_gateways_removed",
    "gateways_kept"
   ],
   "note": ""
  },
  {
   "property": "C124",
   "status": "partial",
   "theorems": [
    "standard_v2_bill_exact",
    "dht_v2_bill_partial",
    "unpaid_calls",
    "dht_v2_bill_refuted"
   ],
   "note": "Proved for standard discovery; through a gateway, a further payment goes to whom the gateway names and searches cost a built-in price."
  },
  {
   "property": "C125",
   "status": "partial",
   "theorems": [
    "answers_about_content_partial",
    "standard_v2_offers_verified_partial",
    "returned_offers_refuted"
   ],
   "note": "The answer is about the content asked and has the nonce of the request; the content and expiry of the offers in it are not compared."
  },
  {
   "property": "C126",
   "status": "partial",
   "theorems": [
    "find_gateways_partial",
    "find_gateways_refuted"
   ],
   "note": "Proved for positive numbers; otherwise one gateway is returned."
  },
  {
   "property": "C127",
   "status": "partial",
   "theorems": [
    "removals_return_partial",
    "calls_panic_refuted",
    "calls_hang_refuted"
   ],
   "note": "Proved for removals with identifiers that are not nil."
  },
  {
   "property": "C128",
   "status": "proved",
   "theorems": [
    "overlapping_calls_finish"
   ],
   "note": ""
  },
  {
   "property": "C129",
   "status": "proved",
   "theorems": [
    "registration_understood",
    "registrations_arrive"
   ],
   "note": "See also registered_gateway_found_partial, on looking up an unknown gateway."
  },
  {
   "property": "C13",
   "status": "proved",
   "theorems": [
    "merkle_complete"
   ],
   "note": "SHA-256 is any function."
  },
  {
   "property": "C130",
   "status": "proved",
   "theorems": [
    "gateway_confirmed_found",
    "provider_confirmed_found"
   ],
   "note": ""
  },
  {
   "property": "C131",
   "status": "partial",
   "theorems": [
    "deleted_gateways_gone_partial",
    "deleted_providers_gone_partial",
    "deletion_atomic_refuted"
   ],
   "note": "What is found after the deletion was registered after it began; but the deletion is not one step."
  },
  {
   "property": "C132",
   "status": "proved",
   "theorems": [
    "found_was_registered",
    "listed_was_registered"
   ],
   "note": ""
  },
  {
   "property": "C133",
   "status": "proved",
   "theorems": [
    "sorts_apart"
   ],
   "note": ""
  },
  {
   "property": "C134",
   "status": "partial",
   "theorems": [
    "gateway_told_partial",
    "provider_told_refuted"
   ],
   "note": "Holds for gateways; the answer to a provider whose registration could not be stored is a status that the requester ignores."
  },
  {
   "property": "C135",
   "status": "partial",
   "theorems": [
    "standard_offer_served_partial",
    "handlers_panic_refuted"
   ],
   "note": "Proved when the database did not fail and there is an offer for each digest; a digest without an offer makes the handler panic."
  },
  {
   "property": "C136",
   "status": "proved",
   "theorems": [
    "call_asks",
    "unknown_unasked"
   ],
   "note": ""
  },
  {
   "property": "C137",
   "status": "proved",
   "theorems": [
    "success_confirmed",
    "reputation_confirmed",
    "offers_confirmed"
   ],
   "note": ""
  },
  {
   "property": "C138",
   "status": "proved",
   "theorems": [
    "session_nodes"
   ],
   "note": ""
  },
  {
   "property": "C139",
   "status": "proved",
   "theorems": [
    "gateway_initialised",
    "gateway_initialised_v2"
   ],
   "note": ""
  },
  {
   "property": "C14",
   "status": "partial",
   "theorems": [
    "merkle_sound_partial",
    "merkle_sound_refuted"
   ],
   "note": "False as stated: leaves are not hashed, so inner nodes verify as members. Proved up to exactly that confusion and an explicit collision."
  },
  {
   "property": "C140",
   "status": "proved",
   "theorems": [
    "provider_initialised",
    "provider_initialised_v2"
   ],
   "note": ""
  },
  {
   "property": "C141",
   "status": "partial",
   "theorems": [
    "init_taken_partial",
    "init_v2_taken_partial",
    "provider_init_taken_partial",
    "provider_init_v2_taken_partial",
    "init_failed_refuted"
   ],
   "note": "A request that reaches the node is always obeyed, so success means it was; but so it is when the administrator is told of failure."
  },
  {
   "property": "C142",
   "status": "partial",
   "theorems": [
    "known_after_init_partial",
    "unknown_after_init_refuted"
   ],
   "note": "Proved for identifiers as the libraries write them; a registration with capitals cannot be addressed."
  },
  {
   "property": "C143",
   "status": "partial",
   "theorems": [
    "refreshed_partial",
    "provider_refreshed_partial",
    "refreshed_nothing_refuted"
   ],
   "note": "Proved when the register answers; when it does not, success is reported too."
  },
  {
   "property": "C144",
   "status": "partial",
   "theorems": [
    "reputation_set",
    "reputation_told",
    "library_reputation_refuted"
   ],
   "note": "Proved for the requesters; the methods of the library are not implemented."
  },
  {
   "property": "C145",
   "status": "partial",
   "theorems": [
    "support_unconfirmed",
    "support_refuted"
   ],
   "note": "False: it is never reported as done, though the gateway takes over the list."
  },
  {
   "property": "C146",
   "status": "proved",
   "theorems": [
    "offers_told"
   ],
   "note": ""
  },
  {
   "property": "C147",
   "status": "proved",
   "theorems": [
    "group_published",
    "dht_published"
   ],
   "note": "What the provider then does is C106-C109."
  },
  {
   "property": "C148",
   "status": "partial",
   "theorems": [
    "calls_return_partial",
    "answer_crashes_refuted"
   ],
   "note": "Proved for the calls answered with a flag and registrations with a key; a malformed identifier in an answer crashes the others."
  },
  {
   "property": "C149",
   "status": "partial",
   "theorems": [
    "signature_unused",
    "provider_signature_unused",
    "obeys_anyone_refuted"
   ],
   "note": "False: signatures of administrators are not looked at."
  },
  {
   "property": "C15",
   "status": "proved",
   "theorems": [
    "merkle_proof_wire_roundtrip",
    "merkle_proof_parse_total"
   ],
   "note": "Each of the two printed parts below 4 GiB, the limit of the 32-bit length fields; indices are int64."
  },
  {
   "property": "C150",
   "status": "proved",
   "theorems": [
    "settings_built",
    "admin_settings_chosen"
   ],
   "note": "Log levels under which the checks do not panic are the subject of C213."
  },
  {
   "property": "C151",
   "status": "proved",
   "theorems": [
    "gateway_activated"
   ],
   "note": ""
  },
  {
   "property": "C152",
   "status": "proved",
   "theorems": [
    "standard_discovery_exact"
   ],
   "note": ""
  },
  {
   "property": "C153",
   "status": "proved",
   "theorems": [
    "paid_discovery_exact"
   ],
   "note": "Stated for offers whose storing was not disturbed."
  },
  {
   "property": "C154",
   "status": "proved",
   "theorems": [
    "underpaid_search_kept"
   ],
   "note": ""
  },
  {
   "property": "C155",
   "status": "proved",
   "theorems": [
    "dht_discovery_exact"
   ],
   "note": ""
  },
  {
   "property": "C156",
   "status": "proved",
   "theorems": [
    "group_offer_found"
   ],
   "note": ""
  },
  {
   "property": "C157",
   "status": "proved",
   "theorems": [
    "dht_offer_found"
   ],
   "note": "Up to 14 gateways may be asked: the gateway asked leaves itself out, so that the nearest 16 others reach beyond the 16 nearest that have the offer; the theorem leaves a margin of two for ties of distance on both sides."
  },
  {
   "property": "C158",
   "status": "partial",
   "theorems": [
    "configured_number_partial",
    "unreadable_default_partial",
    "number_not_negative_partial",
    "configured_price_charged_partial",
    "price_misread_refuted"
   ],
   "note": "Proved for prices written as a decimal whole number without leading zero, of any size; false for others: fmt.Sscan reads a leading part only, so that 0.001 is 0 and 1e15 is 1, takes a leading zero for octal, and takes negative numbers."
  },
  {
   "property": "C159",
   "status": "partial",
   "theorems": [
    "configured_duration_partial",
    "timeout_refuted"
   ],
   "note": "Proved for whole numbers with units in any number of parts below 2^63 nanoseconds; the rest is false: zero and negative durations are taken."
  },
  {
   "property": "C16",
   "status": "partial",
   "theorems": [
    "signature_roundtrip",
    "signature_verification_depends",
    "signature_malformed_rejected_partial",
    "signature_short_version_refuted"
   ],
   "note": "Round trip and dependence proved. False of version extraction: text shorter than the version prefix yields a version instead of an error."
  },
  {
   "property": "C160",
   "status": "partial",
   "theorems": [
    "refresh_interval_refuted"
   ],
   "note": "False: main passes ten seconds, whatever is configured."
  },
  {
   "property": "C161",
   "status": "partial",
   "theorems": [
    "gateway_settings_total",
    "provider_starts_partial",
    "provider_start_refuted"
   ],
   "note": "Proved for gateways; a provider starts if and only if its signature algorithm is configured as a number up to 255."
  },
  {
   "property": "C162",
   "status": "partial",
   "theorems": [
    "env_synced_partial",
    "env_copied",
    "env_kept",
    "env_synced_refuted"
   ],
   "note": "Proved where the separator occurs once in each setting and in no remark; false otherwise, since values are compared up to a second separator."
  },
  {
   "property": "C163",
   "status": "partial",
   "theorems": [
    "env_report_partial",
    "env_report_refuted"
   ],
   "note": "Different and missing settings are reported exactly if no name occurs twice; settings reported as equal are all those found, even if they differ."
  },
  {
   "property": "C164",
   "status": "proved",
   "theorems": [
    "random_filled",
    "random_split"
   ],
   "note": ""
  },
  {
   "property": "C165",
   "status": "proved",
   "theorems": [
    "random_blocks_distinct"
   ],
   "note": "Draws of one goroutine, or under a lock; for others see C166."
  },
  {
   "property": "C166",
   "status": "partial",
   "theorems": [
    "serial_reads_partial",
    "overlapping_reads_refuted"
   ],
   "note": "Holds if the draws do not overlap; nothing is locked, and for any DRBG and digest there is a schedule in which two goroutines get the same block."
  },
  {
   "property": "C167",
   "status": "partial",
   "theorems": [
    "secret_state_matters_partial",
    "prng_predicted_refuted"
   ],
   "note": "Holds for the first bytes; false afterwards: the secret state is the last block that was given out."
  },
  {
   "property": "C168",
   "status": "partial",
   "theorems": [
    "generators_stay",
    "kick_reseeds_partial",
    "kick_reseeds_refuted"
   ],
   "note": "Holds for the generators of the package and those made with NewPrivatePRNG; not for those made with NewPRNG."
  },
  {
   "property": "C169",
   "status": "partial",
   "theorems": [
    "domain_kept_partial",
    "domain_kept_refuted",
    "generator_seeded"
   ],
   "note": "The domain itself stays, and all of the array if it has no room; otherwise append overwrites what follows."
  },
  {
   "property": "C17",
   "status": "partial",
   "theorems": [
    "key_version_bound_refuted",
    "key_version_codec_partial"
   ],
   "note": "False of the code for every signature: the version is not part of what is signed."
  },
  {
   "property": "C170",
   "status": "proved",
   "theorems": [
    "client_settings_chosen",
    "client_builds",
    "client_pays_chosen"
   ],
   "note": "Log levels under which the checks do not panic are the subject of C213."
  },
  {
   "property": "C171",
   "status": "proved",
   "theorems": [
    "http_carries",
    "http_reaches_gateway",
    "http_reaches_gateway_admin",
    "http_reaches_provider_admin",
    "http_reaches_provider"
   ],
   "note": ""
  },
  {
   "property": "C172",
   "status": "partial",
   "theorems": [
    "acknowledgement_convinces_partial",
    "publication_convinces_partial",
    "acknowledgement_convinces_refuted"
   ],
   "note": "Proved unless gateways list the offers of the provider or keys change; false otherwise: the acknowledgement of a listing replaces that of the publication, has no signature of its own, and the client rejects it."
  },
  {
   "property": "C173",
   "status": "proved",
   "theorems": [
    "js_established",
    "js_establishment_sound",
    "js_active",
    "js_use"
   ],
   "note": "For all gateways over HTTP, registers, challenges and answers (adversarial ones for soundness); the libraries of the two languages are assumed to verify the same well-formed signatures."
  },
  {
   "property": "C174",
   "status": "partial",
   "theorems": [
    "js_verify_partial",
    "js_accepts_signed",
    "js_lenient_refuted",
    "js_strict_refuted"
   ],
   "note": "Agreement proved for signatures of 69 bytes in hexadecimal, which all signatures made by Go nodes are; the JavaScript client accepts text that is not hexadecimal, and refuses signatures without the recovery byte that Go accepts."
  },
  {
   "property": "C175",
   "status": "partial",
   "theorems": [
    "js_expiry_partial",
    "js_expiry_refuted"
   ],
   "note": "The gateway drops the request exactly when its seconds exceed the number sent, but the JavaScript client sends milliseconds, so requests stay valid for millennia."
  },
  {
   "property": "C176",
   "status": "proved",
   "theorems": [
    "js_vouchers_within_funds",
    "js_vouchers_accumulate",
    "js_topup_asked_iff_short",
    "js_vouchers_received"
   ],
   "note": "By simulation: every such schedule gives the results and the channels of the Go payment manager called in the order of completion, so the theorems on Go payments carry over."
  },
  {
   "property": "C177",
   "status": "partial",
   "theorems": [
    "js_covered_partial",
    "js_failed_topup_refuted",
    "js_overlap_refuted",
    "js_misdirected_refuted",
    "js_nonce_zero"
   ],
   "note": "Proved when first top-ups of a recipient do not overlap and messages to channels do not fail; false otherwise: a failed message is counted, one of two channels opened at once is forgotten with its money, and a top-up sent to one channel is credited to another. An account that has sent nothing (nonce 0) cannot open a channel."
  },
  {
   "property": "C178",
   "status": "proved",
   "theorems": [
    "js_voucher_text_is_url"
   ],
   "note": "For all byte strings; that the signing library writes padded standard base64 is assumed."
  },
  {
   "property": "C179",
   "status": "partial",
   "theorems": [
    "js_search_paid_partial",
    "js_standard_never_paid",
    "js_standard_topups",
    "js_search_unpaid_refuted"
   ],
   "note": "A search with funds is paid at once; one without starts a top-up, does not wait for it and goes unpaid. Standard searches top up the node ID but pay the address, so standard searches alone are never paid for."
  },
  {
   "property": "C18",
   "status": "partial",
   "theorems": [
    "key_codec_roundtrip",
    "key_codec_accepts",
    "key_codec_total_partial",
    "key_codec_total_refuted"
   ],
   "note": "Round trip and exact acceptance proved; false only in that the empty text crashes."
  },
  {
   "property": "C180",
   "status": "proved",
   "theorems": [
    "dump_reads_back",
    "dump_any"
   ],
   "note": "For all messages; the reader of the specification passes over everything but the pairs of digits between colon and bar."
  },
  {
   "property": "C181",
   "status": "partial",
   "theorems": [
    "dump_columns_partial",
    "dump_columns_refuted"
   ],
   "note": "True for whole rows up to 100000 bytes; a shorter last row is padded by two characters per missing byte instead of three and its bar stands further left."
  },
  {
   "property": "C182",
   "status": "proved",
   "theorems": [
    "cli_words",
    "cli_effect_needs_order"
   ],
   "note": "For all lines of which the words carry no ASCII white space; Unicode white space at the ends of a line is not modelled."
  },
  {
   "property": "C183",
   "status": "proved",
   "theorems": [
    "cli_silent_before_init",
    "cli_waits_for_init"
   ],
   "note": "For all sequences of lines and worlds."
  },
  {
   "property": "C184",
   "status": "partial",
   "theorems": [
    "cli_init_partial",
    "cli_init_stuck",
    "cli_init_refuted"
   ],
   "note": "Success is characterised exactly; after a failure to open the wallet the register manager stays started, every later init fails and the program is stuck."
  },
  {
   "property": "C185",
   "status": "proved",
   "theorems": [
    "cli_active_authenticated",
    "cli_add_active"
   ],
   "note": "For all histories of lines; the world of each call is arbitrary."
  },
  {
   "property": "C186",
   "status": "partial",
   "theorems": [
    "cli_offers_partial",
    "cli_find_offer",
    "cli_find_offer_dht",
    "cli_lists",
    "cli_offers_refuted"
   ],
   "note": "Which signatures are kept, from whom and what fails is exact; with two offers of one gateway the address of the loop variable is kept, so all its offers show the last one."
  },
  {
   "property": "C187",
   "status": "partial",
   "theorems": [
    "cli_returns_partial",
    "cli_crash_refuted"
   ],
   "note": "The other commands always return; a gateway in use that is no longer registered crashes add-active."
  },
  {
   "property": "C188",
   "status": "proved",
   "theorems": [
    "desk_publishes",
    "desk_effect_needs_order",
    "desk_published",
    "desk_lists"
   ],
   "note": "For all lines, worlds and states; white space is ASCII."
  },
  {
   "property": "C189",
   "status": "proved",
   "theorems": [
    "desk_provider",
    "desk_provider_life"
   ],
   "note": "For all histories of lines and arbitrary answers; keys, accounts and random identifiers are inputs."
  },
  {
   "property": "C19",
   "status": "partial",
   "theorems": [
    "message_sign_verify",
    "message_signed_content",
    "message_verify_keeps_partial",
    "message_verify_keeps_refuted"
   ],
   "note": "Sign/verify proved; a failing check erases the signature (and nothing else)."
  },
  {
   "property": "C190",
   "status": "proved",
   "theorems": [
    "desk_gateways",
    "desk_gateway_ids",
    "desk_gateways_served",
    "desk_gateway_life"
   ],
   "note": "For all histories; the twenty reachable gateways are those of the gateway model."
  },
  {
   "property": "C191",
   "status": "partial",
   "theorems": [
    "desk_registered_partial",
    "desk_registered_refuted"
   ],
   "note": "The programs print the error of the register and then still say that the node has been registered; the error is printed exactly if the register refused."
  },
  {
   "property": "C192",
   "status": "partial",
   "theorems": [
    "desk_even_partial",
    "desk_even_refuted"
   ],
   "note": "Neighbours are all 2^251 apart, but between the last gateway and the first there are thirteen times as much."
  },
  {
   "property": "C193",
   "status": "partial",
   "theorems": [
    "desk_provider_returns_partial",
    "desk_gateway_returns_partial",
    "desk_crash_refuted"
   ],
   "note": "No line crashes the programs if the chain answers with enough accounts and keys can be made; otherwise the programs panic."
  },
  {
   "property": "C194",
   "status": "proved",
   "theorems": [
    "deletion_told"
   ],
   "note": "For requests served one after another; with overlapping requests see deletion_atomic_refuted."
  },
  {
   "property": "C195",
   "status": "proved",
   "theorems": [
    "paid_dht_search_exact"
   ],
   "note": "For the search (the requests for the offers found afterwards are not part of it); channels exist and are funded: that a gateway opens and tops up channels is proved of the payment manager. The price is also spent on gateways that do not answer, which the theorem states."
  },
  {
   "property": "C196",
   "status": "proved",
   "theorems": [
    "paid_dht_offers_exact"
   ],
   "note": "For the orders; each lists at least one digest, and the channels exist and are funded. The money is also spent on gateways that do not answer, and a gateway that sells multiplies its own price by the number of digests, which the theorem states."
  },
  {
   "property": "C197",
   "status": "partial",
   "theorems": [
    "paid_dht_discovery_partial",
    "paid_dht_discovery_refuted"
   ],
   "note": "False of the code: every gateway identifier gets the offers of the last gateway (one loop variable for all entries). Proved: everything else, with the result as it is; also that one gateway with nothing on sale makes the result empty although the searches are paid."
  },
  {
   "property": "C198",
   "status": "proved",
   "theorems": [
    "key_versions_counted"
   ],
   "note": ""
  },
  {
   "property": "C199",
   "status": "partial",
   "theorems": [
    "removal_undisturbed",
    "active_was_established",
    "additions_keep_partial",
    "additions_keep_refuted"
   ],
   "note": "The last part is false: two goroutines that add the same gateway may both find it missing, and the second replaces what the first put there. Proved for one goroutine that adds, whatever else is called except removals from use."
  },
  {
   "property": "C20",
   "status": "partial",
   "theorems": [
    "kinds_distinct_partial",
    "kinds_distinct_refuted"
   ],
   "note": "False: the ping messages share types 205/206 with the group-offer-support notifications. Proved for every other pair of the 60 kinds."
  },
  {
   "property": "C200",
   "status": "proved",
   "theorems": [
    "env_last_line",
    "env_not_understood"
   ],
   "note": "For lines as in C162: without separators in names, values and remarks."
  },
  {
   "property": "C201",
   "status": "partial",
   "theorems": [
    "gateway_announces",
    "provider_announces_partial",
    "provider_announces_refuted"
   ],
   "note": "False for providers: with the settings of provider/.env.example, whose NETWORK_CLIENT_INFO already has a host, the address announced has two hosts. Proved for gateways; for providers the addresses are the host followed by the variables."
  },
  {
   "property": "C202",
   "status": "proved",
   "theorems": [
    "seed_keeps_secret",
    "seed_counts"
   ],
   "note": "The second for a DRBG that ignores seeds, which is the worst case."
  },
  {
   "property": "C203",
   "status": "partial",
   "theorems": [
    "js_search_finds_refuted",
    "js_search_returns",
    "js_search_pays",
    "js_search_refused",
    "js_search_asks_nothing"
   ],
   "note": "False, for every answer of every server: no search returns an offer and no acknowledgement is found, since the messages are stubs and methods are called on plain data. Proved: it returns (no offers) only after an answer signed by the gateway with the nonce sent; the vouchers are issued all the same; a Go gateway refuses the first request with code 400; the second, if it gets that far, names no content, no digests and no channel."
  },
  {
   "property": "C204",
   "status": "proved",
   "theorems": [
    "wire_format"
   ],
   "note": "The table of names and types in WireFormatSpec was written from the struct tags of the source."
  },
  {
   "property": "C205",
   "status": "proved",
   "theorems": [
    "unknown_fields_ignored",
    "field_order_ignored"
   ],
   "note": "Names are compared without regard to ASCII case, as encoding/json does; its further case folding outside ASCII is not modelled."
  },
  {
   "property": "C206",
   "status": "partial",
   "theorems": [
    "one_bad_answer_refuted",
    "one_bad_answer_partial",
    "one_unpaid_answer",
    "gathered_unique"
   ],
   "note": "Refuted: of two answers passed on, one sells an offer and the other asks for payment; the call fails and returns nothing (witness). Proved: without an answer that asks for payment the call returns exactly the offers of the gateways that sell, in order, skipping unreadable answers (one_bad_answer_partial; the result is determined, gathered_unique); with one the call always fails (one_unpaid_answer)."
  },
  {
   "property": "C207",
   "status": "partial",
   "theorems": [
    "js_merkle_complete",
    "js_merkle_again",
    "js_merkle_sound_partial",
    "js_merkle_sound_refuted"
   ],
   "note": "Completeness, the effect on the array and repetition are proved in full. Soundness is refuted: the hash of an inner node is accepted (witness). Proved instead: an accepted hash is a node of the tree, or there is a collision of SHA-256, or a content of the tree begins or ends with a hash."
  },
  {
   "property": "C208",
   "status": "partial",
   "theorems": [
    "js_merkle_agrees_refuted",
    "js_merkle_agrees_partial",
    "js_merkle_differs"
   ],
   "note": "Refuted for five texts, as the expected roots of the two test files also show. Proved: the roots agree when the number of texts is a power of two from 2 on, or one less; for every other number they never agree, unless SHA-256 has a collision or a text is itself two hashes in a row."
  },
  {
   "property": "C209",
   "status": "partial",
   "theorems": [
    "js_sign_verifies",
    "js_version_spelt",
    "js_sign_binds_refuted"
   ],
   "note": "Proved: signatures verify in TypeScript and Go, Go reads the version, TypeScript never reads the version that was signed: NaN for all versions below 2^24, another number or NaN above. Refuted: two messages that differ are signed alike, whatever the key and functions. Not modelled: four bytes that spell a number with sign, point, exponent or base, which the model reads as NaN."
  },
  {
   "property": "C21",
   "status": "partial",
   "theorems": [
    "ClientDHTDiscoverOfferRequest_roundtrip",
    "ClientDHTDiscoverOfferResponse_roundtrip",
    "ClientDHTDiscoverRequest_roundtrip",
    "ClientDHTDiscoverRequestV2_roundtrip",
    "ClientDHTDiscoverResponse_roundtrip",
    "ClientDHTDiscoverResponseV2_roundtrip",
    "ClientDHTOfferAckRequest_roundtrip",
    "ClientDHTOfferAckResponse_roundtrip",
    "ClientEstablishmentRequest_roundtrip",
    "ClientEstablishmentResponse_roundtrip",
    "ClientStandardDiscoverOfferRequest_roundtrip",
    "ClientStandardDiscoverOfferResponse_roundtrip",
    "ClientStandardDiscoverRequest_roundtrip",
    "ClientStandardDiscoverRequestV2_roundtrip",
    "ClientStandardDiscoverResponse_roundtrip",
    "ClientStandardDiscoverResponseV2_roundtrip",
    "GatewayDHTDiscoverOfferRequest_roundtrip",
    "GatewayDHTDiscoverOfferResponse_roundtrip",
    "GatewayDHTDiscoverRequest_roundtrip",
    "GatewayDHTDiscoverRequestV2_roundtrip",
    "GatewayDHTDiscoverResponse_roundtrip",
    "GatewayDHTDiscoverResponseV2_roundtrip",
    "GatewayListDHTOfferAck_roundtrip",
    "GatewayListDHTOfferRequest_roundtrip",
    "GatewayListDHTOfferResponse_roundtrip",
    "GatewayNotifyProviderGroupCIDOfferSupportRequest_roundtrip",
    "GatewayNotifyProviderGroupCIDOfferSupportResponse_roundtrip_partial",
    "GatewayPingRequest_roundtrip",
    "GatewayPingResponse_roundtrip_partial",
    "ProviderPublishDHTOfferRequest_roundtrip",
    "ProviderPublishDHTOfferResponse_roundtrip",
    "ProviderPublishGroupOfferRequest_roundtrip",
    "ProviderPublishGroupOfferResponse_roundtrip",
    "GatewayAdminForceRefreshRequest_roundtrip",
    "GatewayAdminForceRefreshResponse_roundtrip",
    "GatewayAdminGetReputationRequest_roundtrip",
    "GatewayAdminGetReputationResponse_roundtrip",
    "GatewayAdminInitialiseKeyRequest_roundtrip",
    "GatewayAdminInitialiseKeyRequestV2_roundtrip",
    "GatewayAdminInitialiseKeyResponse_roundtrip",
    "GatewayAdminListDHTOfferRequest_roundtrip",
    "GatewayAdminListDHTOfferResponse_roundtrip",
    "GatewayAdminSetReputationRequest_roundtrip",
    "GatewayAdminSetReputationResponse_roundtrip",
    "UpdateGatewayGroupCIDOfferSupportRequest_roundtrip",
    "UpdateGatewayGroupCIDOfferSupportResponse_roundtrip",
    "ProviderAdminForceRefreshRequest_roundtrip",
    "ProviderAdminForceRefreshResponse_roundtrip",
    "ProviderAdminGetPublishedOfferRequest_roundtrip",
    "ProviderAdminGetPublishedOfferResponse_roundtrip",
    "ProviderAdminInitialiseKeyRequest_roundtrip",
    "ProviderAdminInitialiseKeyRequestV2_roundtrip",
    "ProviderAdminInitialiseKeyResponse_roundtrip",
    "ProviderAdminPublishDHTOfferRequest_roundtrip",
    "ProviderAdminPublishDHTOfferResponse_roundtrip",
    "ProviderAdminPublishGroupOfferRequest_roundtrip",
    "ProviderAdminPublishGroupOfferResponse_roundtrip",
    "InvalidMessageResponse_roundtrip",
    "ProtocolChangeRequest_roundtrip",
    "ProtocolChangeResponse_roundtrip",
    "GatewayPingResponse_roundtrip_refuted",
    "GatewayNotifyProviderGroupCIDOfferSupportResponse_roundtrip_refuted"
   ],
   "note": "One theorem per message kind. False for two responses, whose flag always decodes as true; proved for the other 58 kinds. Offers are those built by NewCIDOffer and signed, keys are private keys without cached public half, a DHT publication has one identifier per offer."
  },
  {
   "property": "C210",
   "status": "partial",
   "theorems": [
    "js_keys_partial",
    "js_public_never_signs",
    "js_algorithm_refuted"
   ],
   "note": "Keys are read as in Go from hexadecimal text while the shared algorithm is 1, and public keys never sign. Refuted: setting the algorithm of any key read from a private key makes all later keys unreadable and leaves that key signing."
  },
  {
   "property": "C211",
   "status": "proved",
   "theorems": [
    "json_reader",
    "json_unambiguous",
    "layout_ignored",
    "accepted_json",
    "envelope_layout_ignored",
    "envelope_json",
    "printers_write_json",
    "base64_reader"
   ],
   "note": "The grammar of JSON and base64 is stated as relations between texts and values, independently of the parser of the model. Invalid UTF-8, which Go replaces, and nesting beyond 10000, which Go refuses, are not modelled. The printers are covered for values without fractions; the messages have none."
  },
  {
   "property": "C212",
   "status": "partial",
   "theorems": [
    "dht_limit_partial",
    "dht_order_for_all",
    "dht_limit_refuted"
   ],
   "note": "Orders are bounded by the limit whatever the network does, and a search through a gateway succeeds only if the order has digests for every gateway named. Refuted with a limit of one offer and two gateways that have some: the gateway panics and the client has paid. What is given when the limit is not exceeded is C197."
  },
  {
   "property": "C213",
   "status": "partial",
   "theorems": [
    "build_any_level_partial",
    "admin_build_any_level_partial",
    "build_silent_refuted"
   ],
   "note": "Proved for the seven levels of messages and for texts that are no level. Refuted for the empty level, which zerolog reads as one above all messages: nothing panics, and settings without a blockchain key are built. zerolog v1.23.0 is modelled from its documentation and source as remembered, not from files in the repository: events below the global level are nil and do nothing."
  },
  {
   "property": "C214",
   "status": "partial",
   "theorems": [
    "log_levels_partial",
    "level_set_later",
    "level_not_set",
    "documented_levels_refuted",
    "library_file_refuted"
   ],
   "note": "Proved for levels in small letters and for directories that can be made. Refuted: every documented level name is read as info, and the libraries lose everything when they are to log to a file. What zerolog makes of other texts is a variable."
  },
  {
   "property": "C215",
   "status": "partial",
   "theorems": [
    "single_instance_partial",
    "single_instance_refuted",
    "two_settings"
   ],
   "note": "Proved for a first call with one set of settings. Refuted: after a first call without settings every call gives nil; two sets of settings are refused only while the log level lets panics through."
  },
  {
   "property": "C216",
   "status": "partial",
   "theorems": [
    "js_settings_active_partial",
    "js_settings_use",
    "js_built_refuted"
   ],
   "note": "Proved for settings with an identifier; false for what buildSettings returns, which has none: no gateway is ever activated."
  },
  {
   "property": "C217",
   "status": "partial",
   "theorems": [
    "js_manager_searches_partial",
    "js_new_client_refuted"
   ],
   "note": "Proved once a payment manager has been put into the field of the client by hand; false as constructed: every search with an active gateway throws before anything is sent."
  },
  {
   "property": "C218",
   "status": "proved",
   "theorems": [
    "js_settings_given",
    "js_defaults_as_go"
   ],
   "note": ""
  },
  {
   "property": "C219",
   "status": "partial",
   "theorems": [
    "free_search_refuted",
    "free_search_partial"
   ],
   "note": "False: a voucher for nothing is refused whatever the price, so a client with prices of zero gets nothing, and tops its channel up each time. Proved: a gateway that asks for nothing serves clients that pay a positive amount."
  },
  {
   "property": "C22",
   "status": "partial",
   "theorems": [
    "decoded_ids_partial",
    "decoded_ids_refuted",
    "decoders_return_refuted"
   ],
   "note": "False: a malformed identifier is handed out as nil, in lists it crashes. Proved that an identifier handed out is either nil or of 32 bytes."
  },
  {
   "property": "C220",
   "status": "proved",
   "theorems": [
    "gateways_listed"
   ],
   "note": "For calls one after another; identifiers given have 32 bytes, as all constructors make them."
  },
  {
   "property": "C221",
   "status": "partial",
   "theorems": [
    "parts_exact",
    "main_check_partial",
    "main_check_refuted",
    "main_release_refuted"
   ],
   "note": "Proved: success exactly if every listed branch called main lists the commit, for versions without operators of regular expressions and while GitHub answers. Refuted: repositories without a branch main pass whatever the version, and modules required by a release never pass. Commits beyond the first page of GitHub are not seen."
  },
  {
   "property": "C222",
   "status": "partial",
   "theorems": [
    "parts_exact",
    "modules_reported",
    "modules_commit_refuted"
   ],
   "note": "Proved for what is matched: a commit whose name contains the version somewhere, a point matching anything. Refuted: the commit shown need not be the one required."
  },
  {
   "property": "C223",
   "status": "proved",
   "theorems": [
    "gateway_answers_signed",
    "reputation_answers_signed",
    "provider_answers_signed"
   ],
   "note": "Error answers carry no message. What was written before a panic is not covered."
  },
  {
   "property": "C224",
   "status": "proved",
   "theorems": [
    "gateway_requests_signed",
    "gateway_to_providers_signed",
    "provider_requests_signed"
   ],
   "note": "Requests one after another; a request that sets the key while another is served is not covered."
  },
  {
   "property": "C225",
   "status": "partial",
   "theorems": [
    "communicator_waits_refuted",
    "communicator_returns_partial",
    "communicator_own_answer",
    "communicator_exclusive"
   ],
   "note": "False: the lock is held while a server is waited for, so a call to a server that answers after a second can return after the timeout. Proved: at most one call is with its server, each has the answer of its own server, and all return within the time the servers take together, at most 180 seconds for each call."
  },
  {
   "property": "C226",
   "status": "partial",
   "theorems": [
    "mixed_answer_refuted",
    "stale_identifier_refuted",
    "mixed_gateway_refuted",
    "identity_parts_partial",
    "identity_kept_partial",
    "identity_set_partial",
    "answers_signed_partial"
   ],
   "note": "False: the three fields are assigned one by one without a lock. An answer can be signed with the new key and name the old version, and two overlapping initialisations can leave the gateway with the identifier of one and the key of the other. Proved: every part comes from one of the identities, nothing changes without an initialisation, a single one has full effect when it is over, and answers are signed with a key the gateway was given. Accesses are taken to happen in one order."
  },
  {
   "property": "C227",
   "status": "proved",
   "theorems": [
    "publications_recorded",
    "acknowledgements_recorded",
    "recording_goes_on",
    "recording_undisturbed"
   ],
   "note": "What follows the acceptance by a gateway, as goroutines; one that runs undisturbed does what the sequential model of the provider does. Offers are taken to have identifiers. The listing of offers for gateways, which also writes to the map of acknowledgements, is not among the goroutines."
  },
  {
   "property": "C228",
   "status": "proved",
   "theorems": [
    "one_manager",
    "made_once",
    "none_only_on_failure",
    "manager_calls_return"
   ],
   "note": "The accesses are taken to happen in one order; Go does not promise that for the first check, which is made without the lock."
  },
  {
   "property": "C229",
   "status": "partial",
   "theorems": [
    "admin_waits_refuted",
    "admin_queue_refuted",
    "admin_recorded",
    "asked_registered",
    "later_asks_find",
    "admin_outcomes",
    "admin_exclusive",
    "admin_goes_on",
    "asks_overlap_partial"
   ],
   "note": "False: the lock is held while a gateway is waited for, for writing when features are set and for reading otherwise, so an operation on one gateway can wait for the answer of another, in the second case when an initialisation is queued between them. Proved: the rest, and that operations on gateways do not wait for each other when none that adds a gateway has come to the lock. That gateways answer or fail at last is taken as given; the timeout of the HTTP client sees to it."
  },
  {
   "property": "C23",
   "status": "partial",
   "theorems": [
    "tcp_delivery_partial",
    "tcp_first_message",
    "tcp_read_sound",
    "tcp_read_returns",
    "tcp_delivery_refuted"
   ],
   "note": "False: a second message already buffered when the first was read is lost with the per-call buffered reader. Proved when the pieces of different messages do not arrive in one read; the first message always arrives intact."
  },
  {
   "property": "C230",
   "status": "partial",
   "theorems": [
    "refresh_left_behind_refuted",
    "second_stop_refuted",
    "only_left_behind_partial",
    "left_behind_for_ever",
    "taken_up_partial",
    "stopped_partial",
    "unanswered_only_stopped"
   ],
   "note": "False: a refresh that looked at the flag before a shutdown ended sends to a goroutine that is gone and waits for ever, and so does the second of two overlapping shutdowns. Proved: exactly such calls are lost, and for good; a refresh whose request was taken is answered; the rest of the statement. A manager that discovers gateways only; accesses to the flag are taken to happen in one order."
  },
  {
   "property": "C231",
   "status": "partial",
   "theorems": [
    "stale_answer_refuted",
    "own_answer_partial",
    "answers_once",
    "answers_checked",
    "removed_silent",
    "requests_return"
   ],
   "note": "False: after a timeout the lock of the connection is given back before the connection is removed, so a request that waits for the lock uses the connection and reads the late answer to the first; the requesters check the signature of the peer but not that the answer is to their request. Proved: own answers as long as no request gives up, and the rest. The connection is taken to keep order and answers to be read whole."
  },
  {
   "property": "C24",
   "status": "partial",
   "theorems": [
    "offer_store_answers_partial",
    "offer_store_live_partial",
    "expired_refused_refuted"
   ],
   "note": "Proved for every history: queries return exactly the live offers, repeated additions do nothing. False: an expired offer that is still stored is accepted again."
  },
  {
   "property": "C25",
   "status": "partial",
   "theorems": [
    "refused_invisible_partial",
    "kinds_apart",
    "refused_invisible_refuted"
   ],
   "note": "Sizes are respected and refused offers do not show up in answers; but they leave ring entries, which can make a later range query damage the ring and lose a stored offer."
  },
  {
   "property": "C26",
   "status": "partial",
   "theorems": [
    "concurrent_adds_partial",
    "add_alone",
    "concurrent_adds_refuted"
   ],
   "note": "False: two additions that share a new content identifier can lose one of the offers. Proved for any number of concurrent additions and any interleaving when shared identifiers already have an entry."
  },
  {
   "property": "C27",
   "status": "partial",
   "theorems": [
    "batch_publication_partial",
    "batch_publication_refuted"
   ],
   "note": "False for batches of two or more: every entry points to the loop variable, so all queries return the last offer."
  },
  {
   "property": "C28",
   "status": "partial",
   "theorems": [
    "sql_store_total",
    "sql_lookup_partial",
    "sql_lookup_copies_partial",
    "sql_fresh_live_partial",
    "sql_live_fresh_partial",
    "sql_digest_partial",
    "sql_lookup_twice_refuted",
    "sql_lookup_unexpired_refuted",
    "sql_large_price_refuted"
   ],
   "note": "Exact for all histories without failing statements; an offer listing an identifier twice is returned twice; prices >= 2^63, expiries after year 9999 and non-UTC hosts are refuted by witness. Digest collisions between different offers are excluded by hypothesis."
  },
  {
   "property": "C29",
   "status": "partial",
   "theorems": [
    "sql_crash_lookup_partial",
    "sql_crash_range_partial",
    "sql_crash_retry",
    "sql_crash_retry_digest",
    "sql_crash_digest_refuted",
    "sql_crash_truncated_refuted",
    "sql_failure_hidden_refuted"
   ],
   "note": "For all histories with failures and stops between any two statements: identifier and range lookups work, invent nothing, and a repeated store completes the offer. Refuted: digest lookup panics and truncated offers are served after a stop; a failed statement is hidden from the caller."
  },
  {
   "property": "C30",
   "status": "proved",
   "theorems": [
    "offer_digest_binds"
   ],
   "note": ""
  },
  {
   "property": "C31",
   "status": "partial",
   "theorems": [
    "digest_text_roundtrip_partial",
    "digest_text_rejects_refuted"
   ],
   "note": "Round trip proved; malformed text always decodes to some digest."
  },
  {
   "property": "C32",
   "status": "partial",
   "theorems": [
    "suboffer_inherits_partial",
    "suboffer_absent_refuted"
   ],
   "note": "Inheritance proved, and the proof given for an absent identifier does not verify; but it is not refused."
  },
  {
   "property": "C33",
   "status": "proved",
   "theorems": [
    "offer_terms_bound"
   ],
   "note": "Given unforgeability as a hypothesis on the verifier, and up to an explicit hash collision."
  },
  {
   "property": "C34",
   "status": "proved",
   "theorems": [
    "vouchers_never_exceed_funds"
   ],
   "note": ""
  },
  {
   "property": "C35",
   "status": "proved",
   "theorems": [
    "vouchers_count_and_accumulate"
   ],
   "note": "Nonces count modulo 2^64, as uint64 does."
  },
  {
   "property": "C36",
   "status": "proved",
   "theorems": [
    "credited_sum_of_lanes",
    "credited_within_balance"
   ],
   "note": ""
  },
  {
   "property": "C37",
   "status": "proved",
   "theorems": [
    "voucher_never_credited_twice"
   ],
   "note": "Within one run of the node; after a restart see C67, concurrently see C40, on another channel see C39."
  },
  {
   "property": "C38",
   "status": "proved",
   "theorems": [
    "pay_receive_agree"
   ],
   "note": "Positive amounts; receipts on other channels may be interleaved."
  },
  {
   "property": "C39",
   "status": "partial",
   "theorems": [
    "credited_signed_by_payer_partial",
    "foreign_channel_refuted"
   ],
   "note": "False of the code: the channel named in the voucher is never compared with the presented one, so a voucher is credited on every channel between the same parties. Proved: payer signature and payee are checked."
  },
  {
   "property": "C40",
   "status": "partial",
   "theorems": [
    "concurrent_calls_serializable_partial",
    "concurrent_topups_refuted",
    "concurrent_receipts_refuted"
   ],
   "note": "False when two calls both have to open the same channel (check under the read lock is not repeated under the write lock). Serializability proved for every schedule otherwise."
  },
  {
   "property": "C41",
   "status": "proved",
   "theorems": [
    "topup_and_pay_calls",
    "topup_and_pay_worth"
   ],
   "note": ""
  },
  {
   "property": "C42",
   "status": "partial",
   "theorems": [
    "standard_v2_paid_partial",
    "standard_offer_paid_partial",
    "gateway_v2_paid_partial",
    "dht_offer_paid_partial",
    "dht_v2_relays",
    "gateway_v2_underpaid_refuted",
    "gateway_offer_underpaid_refuted",
    "dht_v2_underpaid_refuted",
    "dht_offer_underpaid_refuted"
   ],
   "note": "Proved for the two standard requests of clients. False for the requests of other gateways (digests and sub-offers are sent with a flag asking for payment) and for the relayed requests of clients (an error is written and the request carried out)."
  },
  {
   "property": "C43",
   "status": "partial",
   "theorems": [
    "settings_life_partial",
    "gateway_offer_price_partial",
    "offer_price_changes_refuted"
   ],
   "note": "Search price and the other settings: proved over all histories. The offer price is multiplied by the number of digests in each paid request of another gateway."
  },
  {
   "property": "C44",
   "status": "proved",
   "theorems": [
    "expired_not_served"
   ],
   "note": "For the eight kinds of requests that carry a time to live; the others (requests for relayed offers, for offers by gateways, publications) carry none."
  },
  {
   "property": "C45",
   "status": "partial",
   "theorems": [
    "establishment_served_partial",
    "standard_served_partial",
    "standard_v2_served_partial",
    "handlers_panic_refuted"
   ],
   "note": "Seven requests that panic; three kinds of well-formed requests are always answered."
  },
  {
   "property": "C46",
   "status": "partial",
   "theorems": [
    "reputation_history_partial",
    "reputation_bounds_partial",
    "reputation_bounds_concurrent_partial",
    "reputation_independent",
    "reputation_unknown",
    "reputation_known",
    "reputation_bounds_refuted",
    "deposit_raises_refuted",
    "admin_sets_reputation",
    "admin_reads_reputation",
    "admin_reputation_total_refuted"
   ],
   "note": "Proved for all histories and interleavings when the admin sets values within the bounds; false otherwise: the admin handler sets any int64, and a later deposit then overflows. Independence between clients and absence of reputation before establishment hold without that condition."
  },
  {
   "property": "C47",
   "status": "partial",
   "theorems": [
    "near_cid_partial",
    "near_cid_excluding_partial",
    "near_cid_keeps_partial",
    "near_cid_few_refuted",
    "near_cid_refuted"
   ],
   "note": "False: a lookup below the smallest gateway stays in the ring and makes the next lookup fail, and asking for more gateways than there are leaves one out. Proved for at most as many as there are, in histories whose lookups avoid the ring faults."
  },
  {
   "property": "C48",
   "status": "partial",
   "theorems": [
    "locks_released_partial",
    "unknown_provider_refuted",
    "unknown_provider_blocks_refuted"
   ],
   "note": "False for the lookup of an unknown provider, which keeps the read lock so that later refreshes never end; proved for all other calls."
  },
  {
   "property": "C49",
   "status": "partial",
   "theorems": [
    "calls_progress_partial",
    "calls_bounded_partial",
    "calls_release_partial",
    "ordered_locks_progress",
    "range_lookup_deadlock_refuted"
   ],
   "note": "False for the CID range lookup, which takes the ring lock twice. Proved for any number of all other calls."
  },
  {
   "property": "C50",
   "status": "partial",
   "theorems": [
    "refresh_overlays_partial",
    "refresh_ends",
    "refresh_unavailable",
    "gateway_lookup_refreshes",
    "registered_gateway_found_partial",
    "list_all_partial",
    "removed_gateway_stays_refuted",
    "capital_gateway_refuted"
   ],
   "note": "False for nodes that left the register or are registered in capital letters; proved that answers replace what was known."
  },
  {
   "property": "C51",
   "status": "proved",
   "theorems": [
    "one_connection",
    "pooled_connection_open",
    "surplus_closed",
    "connection_exclusive",
    "pool_progress",
    "pool_bounded",
    "pool_locks_released"
   ],
   "note": "Any number of requests, any interleaving, any failures of dialling or requesting."
  },
  {
   "property": "C52",
   "status": "proved",
   "theorems": [
    "dispatch_registered",
    "start_once",
    "p2p_dispatch",
    "rest_dispatch"
   ],
   "note": "Handlers that answer from the received message; a peer frame that does not parse drops the connection without reply."
  },
  {
   "property": "C53",
   "status": "partial",
   "theorems": [
    "listing_partial",
    "listing_refuted"
   ],
   "note": "Batches of 1 to 50, everything listed was ordered, in all lives; exactly the nearest 500 live offers in orderly lives (one offer per request, clock not going back, no digest clash, no fault of the ring). False in general: two offers published together are stored as two pointers to the second."
  },
  {
   "property": "C54",
   "status": "partial",
   "theorems": [
    "acknowledged_listing_partial",
    "acknowledged_listing_refuted"
   ],
   "note": "Proved if some acknowledgement was recorded for the identifier before; otherwise the handler panics writing to a nil map."
  },
  {
   "property": "C55",
   "status": "proved",
   "theorems": [
    "published_genuine",
    "published_complete"
   ],
   "note": ""
  },
  {
   "property": "C56",
   "status": "partial",
   "theorems": [
    "notifications_ignored",
    "notifications_refuted"
   ],
   "note": "False: the list never changes, since the handler updates a copy of the slice header; proved that it is empty in all lives."
  },
  {
   "property": "C57",
   "status": "partial",
   "theorems": [
    "standard_v2_offers_verified_partial",
    "dht_offers_verified_partial",
    "standard_v2_offers_exact",
    "standard_offers_unverified_refuted",
    "dht_v2_offers_unverified_refuted"
   ],
   "note": "Proved for FindOffersDHTDiscovery and FindOffersStandardDiscoveryV2; the other two calls return offers whose checks failed or were not made."
  },
  {
   "property": "C58",
   "status": "partial",
   "theorems": [
    "standard_v2_limit_partial",
    "dht_v2_asks_limited",
    "dht_v2_stops",
    "standard_v2_limit_refuted",
    "dht_v2_limit_refuted"
   ],
   "note": "Proved for a positive maximum of standard discovery and for the number of offers asked and paid for through a gateway; a maximum of 0 does not limit, and the offers returned through a gateway are not counted."
  },
  {
   "property": "C59",
   "status": "partial",
   "theorems": [
    "dht_attribution_partial",
    "dht_v2_asks_partial",
    "dht_v2_attribution_refuted",
    "dht_v2_digests_refuted"
   ],
   "note": "Proved for the first version, and for the digests asked for in the second if no answer was left out; otherwise digests go to the wrong gateway, and all gateways get the offers of the last one."
  },
  {
   "property": "C60",
   "status": "partial",
   "theorems": [
    "active_in_use_partial",
    "active_was_in_use",
    "overlapping_calls_partial",
    "overlapping_removals",
    "overlapping_additions",
    "overlapping_calls_refuted"
   ],
   "note": "Proved for all lives without overlapping calls, and for overlapping calls unless a gateway is taken out of use while it is being made active."
  },
  {
   "property": "C61",
   "status": "partial",
   "theorems": [
    "active_authenticated_partial",
    "challenge_per_request",
    "challenge_refuted"
   ],
   "note": "Signature, name and challenge are proved over whole lives; the challenge is drawn from an unseeded generator, so that it repeats in every process."
  },
  {
   "property": "C62",
   "status": "proved",
   "theorems": [
    "ack_proves_publication"
   ],
   "note": ""
  },
  {
   "property": "C63",
   "status": "proved",
   "theorems": [
    "register_answers",
    "register_answers_all",
    "null_registered",
    "unreadable_stored"
   ],
   "note": ""
  },
  {
   "property": "C64",
   "status": "proved",
   "theorems": [
    "topup_asked_iff_short",
    "payment_made_otherwise"
   ],
   "note": ""
  },
  {
   "property": "C65",
   "status": "partial",
   "theorems": [
    "negative_payment_refuted"
   ],
   "note": "False of the code."
  },
  {
   "property": "C66",
   "status": "partial",
   "theorems": [
    "topup_recorded_partial",
    "topup_recorded_refuted"
   ],
   "note": "False when the receipt of a channel creation cannot be decoded; proved to be the only case."
  },
  {
   "property": "C67",
   "status": "partial",
   "theorems": [
    "replay_after_restart_refuted"
   ],
   "note": "False of the code: nothing is persisted."
  },
  {
   "property": "C68",
   "status": "partial",
   "theorems": [
    "paid_vouchers_unconditional_partial",
    "conditional_voucher_refuted"
   ],
   "note": "False of Receive; proved for vouchers issued by Pay."
  },
  {
   "property": "C69",
   "status": "partial",
   "theorems": [
    "configured_amount_kept_partial",
    "configured_amount_kept_refuted"
   ],
   "note": "Depends on spare capacity of the digit buffer of the configured amount; proved when there is none (big.NewInt), refuted when there is some (parsed large amounts)."
  },
  {
   "property": "C70",
   "status": "proved",
   "theorems": [
    "receipt_credited_iff"
   ],
   "note": ""
  },
  {
   "property": "C71",
   "status": "partial",
   "theorems": [
    "merkle_root_binds_partial",
    "merkle_root_binds_refuted"
   ],
   "note": "False when the last identifier of an odd list is repeated; proved for lists of equal length up to an explicit collision."
  },
  {
   "property": "C72",
   "status": "proved",
   "theorems": [
    "merkle_absent_rejected"
   ],
   "note": ""
  },
  {
   "property": "C73",
   "status": "partial",
   "theorems": [
    "merkle_verify_total_partial",
    "merkle_verify_total_refuted"
   ],
   "note": "Panics exactly when there are fewer indices than path elements."
  },
  {
   "property": "C74",
   "status": "partial",
   "theorems": [
    "signature_unique_refuted"
   ],
   "note": "False of the code: the recovery byte (and by C17 the version) is free."
  },
  {
   "property": "C75",
   "status": "proved",
   "theorems": [
    "message_wire_roundtrip"
   ],
   "note": "Strings are taken as byte strings; see DESIGN.md on UTF-8."
  },
  {
   "property": "C76",
   "status": "partial",
   "theorems": [
    "offer_expiry_partial",
    "offer_expiry_refuted"
   ],
   "note": "False for the last 62135596800 expiry values, which wrap around in time.Unix; proved for all others."
  },
  {
   "property": "C77",
   "status": "proved",
   "theorems": [
    "offer_wire_roundtrip",
    "suboffer_wire_roundtrip"
   ],
   "note": ""
  },
  {
   "property": "C78",
   "status": "partial",
   "theorems": [
    "offer_parse_total_partial",
    "offer_parse_total_refuted",
    "suboffer_check_total_refuted"
   ],
   "note": "False: a malformed content identifier panics in parsing, a malformed provider identifier in checking, a short proof index in the Merkle check. Proved for parsing when the content identifiers are well-formed."
  },
  {
   "property": "C79",
   "status": "proved",
   "theorems": [
    "new_offer_needs_content"
   ],
   "note": ""
  },
  {
   "property": "C80",
   "status": "partial",
   "theorems": [
    "decoders_return_partial",
    "decoders_return_refuted",
    "offer_parse_total_partial"
   ],
   "note": "False of decoders of identifier lists, offers and private keys; proved of all others."
  },
  {
   "property": "C81",
   "status": "partial",
   "theorems": [
    "id_json_roundtrip",
    "id_json_accepts",
    "id_array",
    "key_json_roundtrip",
    "key_json_total_partial",
    "key_json_total_refuted"
   ],
   "note": "All proved except that null and the empty string crash the parser of public keys."
  },
  {
   "property": "C82",
   "status": "proved",
   "theorems": [
    "node_id_of_key",
    "node_id_binds_key"
   ],
   "note": ""
  },
  {
   "property": "C83",
   "status": "proved",
   "theorems": [
    "id_signature_roundtrip",
    "id_signature_binds"
   ],
   "note": "Public key recovery of the curve library is a hypothesis of the round trip."
  },
  {
   "property": "C84",
   "status": "partial",
   "theorems": [
    "digest_lookup_partial",
    "digest_lookup_refuted"
   ],
   "note": "False: expired offers are returned until a content query removes them."
  },
  {
   "property": "C85",
   "status": "partial",
   "theorems": [
    "range_query_partial",
    "range_query_refuted"
   ],
   "note": "Proved for limits of at least one when the ring query hits no ring fault. A limit of zero returns an offer; equal bounds return one twice."
  },
  {
   "property": "C86",
   "status": "partial",
   "theorems": [
    "requests_reach_their_handler_partial",
    "requests_reach_their_handler_refuted"
   ],
   "note": "False for the gateway ping, whose type number is that of the group offer notification; proved for all other kinds."
  },
  {
   "property": "C87",
   "status": "partial",
   "theorems": [
    "failure_contained_partial",
    "no_failure_no_crash",
    "failure_contained_refuted"
   ],
   "note": "False: a request waiting for a connection that another one closes after a failure panics in SetDeadline. Proved when requests address different peers or none fails."
  },
  {
   "property": "C88",
   "status": "proved",
   "theorems": [
    "accepted_body_typed"
   ],
   "note": "Embedded offers, sub-offers and Merkle proofs have their own parsers, see C77 and C78."
  },
  {
   "property": "C89",
   "status": "partial",
   "theorems": [
    "shutdown_deletes_partial",
    "shutdown_stops_partial",
    "shutdown_deletes_all_refuted",
    "stop_unregisters_all_refuted"
   ],
   "note": "False: shutdown deletes all gateways and providers from the register; afterwards the register service finds none."
  },
  {
   "property": "C90",
   "status": "partial",
   "theorems": [
    "cid_range_partial",
    "cid_range_refuted"
   ],
   "note": "False with fewer than 16 other gateways; proved otherwise, in histories that avoid the ring faults."
  },
  {
   "property": "C91",
   "status": "partial",
   "theorems": [
    "refreshes_progress",
    "refreshes_bounded",
    "refresh_alone_partial",
    "refresh_overlap_refuted"
   ],
   "note": "False when refreshes overlap: they take each other's tokens. Proved for a refresh alone; refreshes never block each other."
  },
  {
   "property": "C92",
   "status": "partial",
   "theorems": [
    "update_alone_partial",
    "lookups_overlap_refuted"
   ],
   "note": "False: near-CID lookups change the ring under a read lock. Proved for updates."
  },
  {
   "property": "C93",
   "status": "partial",
   "theorems": [
    "sql_range_partial",
    "sql_range_wrap_refuted"
   ],
   "note": "Exact for ranges lo <= hi, all histories; the range does not wrap around zero."
  },
  {
   "property": "C94",
   "status": "partial",
   "theorems": [
    "reputation_no_panic_partial",
    "reputation_serial_partial",
    "reputation_no_panic_refuted",
    "reputation_serial_refuted"
   ],
   "note": "Proved for clients established beforehand, all interleavings; false for events of unknown clients (panic) and for simultaneous first challenges (one is lost)."
  },
  {
   "property": "C95",
   "status": "proved",
   "theorems": [
    "stored_vetted"
   ],
   "note": "All histories, any changes of the register between requests."
  },
  {
   "property": "C96",
   "status": "partial",
   "theorems": [
    "standard_checks_partial",
    "gateway_checks_partial",
    "offer_by_digest_unproved_refuted",
    "sql_crash_truncated_refuted"
   ],
   "note": "Proved for discovery by clients and gateways with a database that does not fail and no clash of digests; false after a crash while storing, and for offers asked for by digest together with an identifier they do not list."
  },
  {
   "property": "C97",
   "status": "partial",
   "theorems": [
    "published_found_partial",
    "published_lost_refuted"
   ],
   "note": "Proved if no statement fails in the publication itself (whatever fails in others); false otherwise: errors of all but the last statement are dropped."
  },
  {
   "property": "C98",
   "status": "proved",
   "theorems": [
    "publish_group_ack",
    "publish_dht_ack"
   ],
   "note": ""
  },
  {
   "property": "C99",
   "status": "proved",
   "theorems": [
    "dht_discover_relays",
    "dht_v2_relays",
    "dht_offer_paid_partial"
   ],
   "note": "All three relayed requests."
  }
 ]
}