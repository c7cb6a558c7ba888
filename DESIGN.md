# Formal model of fc-retrieval: design

The subject is the Go code in `/repo` (zenyuk/fc-retrieval at the pinned
commit).  The model is written in Rocq/Coq 8.16.1 under `rocq/theories`.  It is a
hand-written shallow model, function by function.  Nothing is extracted from, or
run against, the Go code; the correspondence is by reading, and every definition
carries the file and lines it models.

## Conventions

* Model files (`Ring.v`, `Payment.v`, `Gateway.v`, ...) hold only definitions.
  `*Spec.v` files hold the vocabulary in which properties are stated; it is
  independent of the helpers of the model.  `*Proofs.v`, `*Facts.v`, `*Lemmas.v`
  hold lemmas.  `Properties*.v` hold the final theorems, each followed by
  `Print Assumptions`, and concrete `Example`s that meet the hypotheses.
  `Toy*.v` hold the concrete worlds used by the examples.
* Go strings and byte slices are `list byte`; a slice that may be nil is an
  `option` where the code can tell the difference.  `int64`/`uint64` are `Z` with
  the wrap written out where the code can reach it.  `big.Int` is `Z`, except in
  `BigBuf.v`, which models the digit buffers that two numbers may share.
* A Go call that can panic or loop returns an `outcome` (`Ret`, `Panic`,
  `Diverge`).  Loops over pointer structures use fuel bounded by the number of
  allocated nodes; running out of fuel is the value `Diverge`.  Error returns are
  values (`result`: `OkR`, `ErrR`; or `option`).
* Maps are association lists.  Where the code ranges over a map, the order is an
  argument of the model, quantified over in the theorems.
* Concurrent code is modelled by small-step interleaving at the granularity of
  its locks (`PaymentConc.v`, `OfferConc.v`, `Pool.v`, `RegisterLocks.v`) or of its
  critical sections (`Reputation.v`).
* External primitives are Section variables, so they are universally quantified
  in the closed theorems; laws they must satisfy are visible hypotheses (for
  example `ecdsa_correct`), and the examples instantiate toy primitives that
  satisfy them.  Facts about hashes are of the form "or here is a collision".
* A property that is false of the code has a theorem `..._refuted` with a concrete
  witness computed on the faithful model, and where possible a theorem
  `..._partial` that proves the property under the weakest conditions found.  The
  manifest marks it `partial` and says what is missing.

## Trusted base

* Coq's kernel 8.16.1 (including `vm_compute`, used in examples and witnesses),
  and what `Print Assumptions` lists: all theorems are closed under the global
  context.  No axioms of our own.  The checker also lists the module parameters
  `Coq.ssr.ssrunder.Under_rel.*`, which belong to the standard library file
  `ssrunder` loaded by the tactic library; no theorem depends on them.
* The reading of the Go code recorded in the comments.
* The assumptions on what is not modelled, listed next.

### What is modelled, and what is assumed about its surroundings

| Code | Model | Assumed or simplified |
|------|-------|----------------------|
| `common/pkg/nodeid`, `cid`, `math/distance.go` | `Ids`, `IdWire` | `encoding/hex`, `math/big`; `hex.DecodeString` decodes in place into a fresh buffer |
| `common/pkg/dhtring` | `Ring` (pointer level: heap of nodes) | addresses of nodes are fresh |
| `common/pkg/fcrmerkletree` | `Merkle`, `MerkleWire` | the algorithm of `cbergoon/merkletree` v0.2.0 as read from its documentation and behaviour; SHA-256 is a variable |
| `common/pkg/fcrcrypto` | `Crypto` | secp256k1 signing, verification and key recovery, BLAKE2b, randomness are variables; `key_version`, signature text and key text are modelled in full; PRNGs are in `Prng` |
| `encoding/json`, `base64` as used | `Json`, `Schema` | modelled on bytes for objects, strings, integers, booleans, arrays and null; the parser is proved to read exactly the grammar of RFC 8259 and RFC 4648 (`JsonTextSpec`); not modelled: invalid UTF-8 and U+2028/9 escapes, Unicode case folding of keys, reuse of slices under duplicate keys |
| `common/pkg/fcrmessages` | `Message`, `Messages`, `Dump` | all message kinds |
| `common/pkg/cidoffer` | `Offer` | SHA-512/256 is a variable |
| `common/pkg/fcroffermgr` | `OfferStore`, `OfferConc` | one clock reading per call |
| `common/pkg/offermgr`, `database` | `SqlOffers` | SQLite: statements atomic and committed one by one, any of them may fail or the process crash between them, text compared bytewise, dates within range, row order arbitrary, integers from 2^63 refused; unclosed rows not modelled |
| `common/pkg/fcrp2pserver` | `Frame`, `Server`, `Pool` | a TCP connection is a list of pieces and idle periods; writes succeed or fail as a whole; a deadline set on a closed connection fails |
| `common/pkg/fcrrestserver` | `Server`, `Rest`, `Http` | go-json-rest v3.3.2 (the `DefaultDevStack`) is modelled as far as it recovers from panics and indents answers; HTTP carries bodies as they are |
| `common/pkg/request` (`SendMessage`) | `Http` | HTTP is a function from address and body to a response or none; `http_reaches_*` (C171) give the equation by which theorems about a client or an administrator and a node together connect the two (`reaches`), for messages whose integers fit in 32 bits, as all of Go's do |
| `common/pkg/request` (the lock) | `HttpConc` | time is counted in seconds and only passes while a server is waited for or nobody can do anything; all calls are made at second 0; who gets the lock is left to the schedule |
| `common/pkg/fcrregistermgr`, `register` | `Register`, `RegisterLocks` | answers of the register service are inputs; `sync.RWMutex` and channel rendezvous have their documented semantics |
| `register/internal/handlers`, requests of `common/pkg/register` | `RegisterService` | Redis executes each command at once and answers, or fails before or after executing it; a panic closes the connection of its request only; of the generated Swagger code, reading and printing of the models; routes are taken as configured |
| `common/pkg/fcrpaymentmgr` | `Payment`, `PaymentConc`, `BigBuf` | Lotus API and chain are an oracle; vouchers are checked by variables |
| `gateway/internal/reputation` | `Reputation` | a panic ends only the operation |
| `gateway/cmd/gateway`, `provider/cmd/provider` (routes) | `Routes` | |
| `gateway/config`, `provider/config`, `StartGateway` from `gateway/cmd/gateway` | `Config` | viper is a function from a name to a text or none, in the order flag, environment, default; texts are ASCII; decimal fractions of durations, which Go computes in floating point, are a variable; settings of logging left out |
| `common/pkg/fcrcrypto/prng*.go` | `Prng` | DRBG, digest, clock, interface addresses and system randomness are given; steps of overlapping draws are lines of the program, in sequential consistency |
| `{gateway,provider,register}/scripts/make-env-file` | `EnvFile` | files can be read and written; lines are below 4096 bytes |
| gateway identity under overlapping requests (`adminapi/initialise_key_handler*.go`, `clientapi/establishment_handler.go`) | `KeyConc` | a step is one access to one field of the core, and all accesses happen in one order, which Go does not promise; the handler for establishment stands for all that answer; the gateway has an identity before |
| provider records under overlapping publications (`publish_dht_offer_requester.go`, `publish_group_offer_requester.go`) | `RecordConc` | a step is one access to a lock or a map; the two requesters from the point at which the gateway's answer was accepted |
| `client/pkg/fcrclient` (`PaymentMgr` called at once) | `LazyConc` | a step is one access to the field or the lock, in one order; a manager is the number of the attempt that made it |
| `gateway-admin/pkg/fcrgatewayadmin` and `provider-admin/pkg/fcrprovideradmin` (operations called at once) | `AdminConc` | a step is one access to the lock or the map or one exchange; the lock is a reader-writer lock with waiting writers first, as in Go; identifiers and registrations are numbers; the lock of the HTTP communicator is left to `HttpConc` |
| `common/pkg/fcrregistermgr` (`Refresh` and `Shutdown` called at once) | `StopConc` | one of the two halves of the manager; the two channels as meetings, the flag accessed in one order; what a round does and the locks of the maps are left to `Register` and `RegisterLocks` |
| `common/pkg/fcrp2pserver` (requests that share a connection, and their answers) | `ReplyConc` | one connection that keeps order, one answer to a request, read whole or not at all; messages are numbers; getting and dropping channels is left to `Pool` |
| `itest/scripts/check-modules`, `itest/scripts/check-main-modules` | `ModuleCheck` | GitHub is two functions that do not change during a run; versions with operators of regular expressions are left to a variable; `go mod edit -json` is the list given |
| `gateway/internal/api/{clientapi,gatewayapi,providerapi}` | `Gateway` | requests one after another; a panic loses the changes of the handler; the network, the database fates, the clock and the payment chain are inputs; the register lookup inside the connection pool is not modelled |
| `gateway/internal/api/adminapi`, requests to providers | `GatewayAdmin` | goroutines that start requests are run at once, in the order of the map |
| `provider/internal` | `Provider` | requests one after another; errors of publication requests are only logged; payment manager not modelled |
| `client/pkg/fcrclient`, `client/pkg/api/clientapi` | `Client`, `ClientBuild` | calls one after another; the strings of the wallet and the chain are kept but their use is not modelled; `math/rand` is unseeded: what it gives depends only on what was drawn before |
| the gateway lists of `client/pkg/fcrclient` under overlapping calls | `ClientConc` | a step is a section protected by a lock; a registration looked up and an establishment are inputs |
| `client-js/src`: establishment, verification of messages, the gateway lists | `JsClient` | `JSON.parse` and `stringify` on byte strings; integers below 2^53; axios parses what it can and rejects codes other than 200; `Buffer.from(…, 'base64')` undoes encoding; the secp256k1 libraries of Go and JavaScript accept the same 64-byte signatures.  Signing by the TypeScript client is not modelled |
| `client-js/src`: the searches of `FilecoinRetrievalClient.ts`, `clientapi`, discovery messages | `JsSearch` | stubs as they are; values read from JSON have no methods; a payment manager has been set; `toString` of nested null elements as in arrays |
| `client-js/src/fcrMerkleTree`, `common/pkg/cid/cidadapter.go` | `JsMerkle` | the algorithm of `merkletreejs` 0.2.22 without options as published, confirmed by the root and proof in `tree.class.test.ts`; texts are their UTF-8 bytes; a leaf to verify is a hash; SHA-256 is a variable |
| `client-js/src/fcrcrypto`: signing, private keys, key versions | `JsSign` | the shared algorithm object is a number passed in; `Number()` of text without a zero character only for blanks and digits; keys of a message that look like indexes not modelled; the library signs with 64 bytes that verify |
| `client-js/src/fcrPaymentMgr`, the payments of `FilecoinRetrievalClient.ts` | `JsPayment` | top-ups are tasks that stop at each await; the answers of the chain and what really happened there are inputs; BN numbers are integers, nonces doubles; the signing library writes padded base64 of the voucher |
| `gateway-admin/pkg`, `provider-admin/pkg` | `Admin` | calls one after another; HTTP is a function from address and request to an answer or none, as in `SendMessage`; for theorems about administrator and node together it is the node's handler, and a handler that panics gives no answer; logging settings left out; registrations given are not nil |
| `itest/demo/client-cli` | `Cli` | accounts made on the chain are an input; texts of errors and the completion of commands left out; white space is ASCII; before each line the register manager may refresh |
| `itest/demo/provideradmin-cli`, `itest/demo/gatewayadmin-cli` | `AdminCli` | accounts, keys, random identifiers and the answers of the register are inputs; texts of errors and the completion of commands left out; white space is ASCII |
| `common/pkg/logging`, `GetSingleInstance` of gateway and provider, the logging of the three `Build` | `Logging` | zerolog v1.23.0: named levels as listed, other texts a variable; a message below the global level does nothing, also if it would panic or exit; writing succeeds; time formats, service names and file rotation left out |
| `client-js/src/config/settings.config.ts`, the constructor of `FilecoinRetrievalClient.ts` | `JsSettings` | values are undefined, null, texts, numbers, bn.js and NodeID objects, and `{}`; where a setting of another type than the code expects is used, the call is not modelled |


Not modelled: the test harnesses (rest of `itest`), Docker,
the messages logged elsewhere, the rest of the generated Swagger code
of the register service, real time (clock readings are inputs), Go memory-model effects below the
granularity of locks.  Go version 1.16: loop variables are shared by the
iterations of a loop, which `Provider`, `GatewayAdmin` and the client rely on.

### Lives

Theorems about gateways, providers and clients are about whole lives: lists of requests of
any kind from anybody, served one after another from the initial state, where
before each request the register manager may have changed in any way.

### Client and gateways together

`RetrievalSpec` joins the models: the gateway's interface for clients is one function
(routing by message type, then the handler), and what a client sends to the address of
a registration is answered by that function on some state of the gateway.  The
messages pass through the encoders and decoders of both sides, vouchers through their
text.  Theorems of `PropertiesRetrieval` are about this composition; loss and delay
enter as the cases in which the composition does not hold.

`DhtSpec` adds the gateways' interface for gateways in the same way; `PropertiesDht` is
about a client, the gateway it asks and all gateways that one asks in turn; `DhtPaidSpec` and
`PropertiesDhtPaid` add the payment channels between them, `DhtOfferSpec` and
`PropertiesDhtOffer` the offers bought through them; `DhtWholeSpec` and `PropertiesDhtWhole`
put both together from the client's call to its result; `PropertiesDhtLimit` is about the limit on the number of offers.
`MarketSpec` adds the gateways' interface for providers; `PropertiesMarket` follows an
offer from the order to publish it through provider and gateways to the clients that
find it.  `AckSpec` adds the providers' interface for clients; `PropertiesAck` is about a
client that asks a provider for a gateway's acknowledgement.

## Testing the theorems

`seeded/LOG.jsonl` records the wrong programs tried: each line is an edit of one
definition, made in a copy, the claim it breaks, the theorems or examples that no
longer compile, and what was tightened when none failed.

## Properties and theorems

| Id | Property | Status | Theorems | File |
|----|----|----|----|----|
| C01 | Identifier hex round-trip | proved | `id_hex_roundtrip`, `id_list_roundtrip`, `content_id_equality` | PropertiesIds.v |
| C02 | Identifier construction accepts exactly short-enough input and left-pads | proved | `id_from_bytes`, `id_from_hex`, `id_from_int`, `id_value_determines`, `id_list_malformed_panics` | PropertiesIds.v |
| C03 | Clockwise sort is a correct clockwise ordering | proved | `sort_clockwise` | PropertiesIds.v |
| C04 | Ring distance is a metric bounded by half the ring | proved | `distance_shorter_way`, `distance_is_metric`, `distance_steps`, `distance_ring` | PropertiesDistance.v, PropertiesIds.v |
| C05 | Ring insertions implement a sorted set | proved | `ring_insertions_sorted_set`, `ring_insert_adds` | PropertiesRing.v |
| C06 | Ring removal removes exactly the requested entry | partial | `ring_remove_exact_partial`, `ring_remove_smallest_stays`, `ring_remove_other_empties`, `ring_remove_exact_refuted` | PropertiesRing.v |
| C07 | Closest-entries query returns the nearest entries | partial | `ring_closest_nearest_partial`, `ring_closest_too_many`, `ring_closest_nearest_refuted` | PropertiesRing.v |
| C08 | Closest-entries query honours the exclusion | partial | `ring_closest_exclusion_partial`, `ring_closest_exclusion_refuted` | PropertiesRing.v |
| C09 | Ring queries leave the ring unchanged | partial | `ring_queries_preserve_partial`, `ring_queries_preserve_refuted`, `ring_range_preserve_refuted` | PropertiesRing.v |
| C10 | Range query returns exactly the closed clockwise interval | partial | `ring_range_exact_partial`, `ring_range_exact_refuted` | PropertiesRing.v |
| C11 | Malformed ring input is rejected without effect | proved | `ring_malformed_rejected`, `ring_valid_accepted` | PropertiesRing.v |
| C12 | Ring operations never crash | partial | `ring_never_crashes_partial`, `ring_updates_never_crash`, `ring_never_crashes_refuted` | PropertiesRing.v |
| C13 | Merkle proofs are complete | proved | `merkle_complete` | PropertiesMerkle.v |
| C14 | Merkle proofs are sound | partial | `merkle_sound_partial`, `merkle_sound_refuted` | PropertiesMerkle.v |
| C15 | Merkle proof wire round-trip | proved | `merkle_proof_wire_roundtrip`, `merkle_proof_parse_total` | PropertiesOffer.v |
| C16 | Signature envelope round-trip and key version extraction | partial | `signature_roundtrip`, `signature_verification_depends`, `signature_malformed_rejected_partial`, `signature_short_version_refuted` | PropertiesCrypto.v |
| C17 | Signatures bind the key version | partial | `key_version_bound_refuted`, `key_version_codec_partial` | PropertiesCrypto.v |
| C18 | Key codec round-trip and rejection | partial | `key_codec_roundtrip`, `key_codec_accepts`, `key_codec_total_partial`, `key_codec_total_refuted` | PropertiesCrypto.v |
| C19 | Signed messages verify and verification is non-destructive | partial | `message_sign_verify`, `message_signed_content`, `message_verify_keeps_partial`, `message_verify_keeps_refuted` | PropertiesCrypto.v |
| C20 | Message kinds are distinguishable by type | partial | `kinds_distinct_partial`, `kinds_distinct_refuted` | PropertiesMessages.v |
| C21 | Typed message encode/decode round-trip | partial | `ClientDHTDiscoverOfferRequest_roundtrip`, `ClientDHTDiscoverOfferResponse_roundtrip`, `ClientDHTDiscoverRequest_roundtrip`, `ClientDHTDiscoverRequestV2_roundtrip`, `ClientDHTDiscoverResponse_roundtrip`, `ClientDHTDiscoverResponseV2_roundtrip`, `ClientDHTOfferAckRequest_roundtrip`, `ClientDHTOfferAckResponse_roundtrip`, `ClientEstablishmentRequest_roundtrip`, `ClientEstablishmentResponse_roundtrip`, `ClientStandardDiscoverOfferRequest_roundtrip`, `ClientStandardDiscoverOfferResponse_roundtrip`, `ClientStandardDiscoverRequest_roundtrip`, `ClientStandardDiscoverRequestV2_roundtrip`, `ClientStandardDiscoverResponse_roundtrip`, `ClientStandardDiscoverResponseV2_roundtrip`, `GatewayDHTDiscoverOfferRequest_roundtrip`, `GatewayDHTDiscoverOfferResponse_roundtrip`, `GatewayDHTDiscoverRequest_roundtrip`, `GatewayDHTDiscoverRequestV2_roundtrip`, `GatewayDHTDiscoverResponse_roundtrip`, `GatewayDHTDiscoverResponseV2_roundtrip`, `GatewayListDHTOfferAck_roundtrip`, `GatewayListDHTOfferRequest_roundtrip`, `GatewayListDHTOfferResponse_roundtrip`, `GatewayNotifyProviderGroupCIDOfferSupportRequest_roundtrip`, `GatewayNotifyProviderGroupCIDOfferSupportResponse_roundtrip_partial`, `GatewayPingRequest_roundtrip`, `GatewayPingResponse_roundtrip_partial`, `ProviderPublishDHTOfferRequest_roundtrip`, `ProviderPublishDHTOfferResponse_roundtrip`, `ProviderPublishGroupOfferRequest_roundtrip`, `ProviderPublishGroupOfferResponse_roundtrip`, `GatewayAdminForceRefreshRequest_roundtrip`, `GatewayAdminForceRefreshResponse_roundtrip`, `GatewayAdminGetReputationRequest_roundtrip`, `GatewayAdminGetReputationResponse_roundtrip`, `GatewayAdminInitialiseKeyRequest_roundtrip`, `GatewayAdminInitialiseKeyRequestV2_roundtrip`, `GatewayAdminInitialiseKeyResponse_roundtrip`, `GatewayAdminListDHTOfferRequest_roundtrip`, `GatewayAdminListDHTOfferResponse_roundtrip`, `GatewayAdminSetReputationRequest_roundtrip`, `GatewayAdminSetReputationResponse_roundtrip`, `UpdateGatewayGroupCIDOfferSupportRequest_roundtrip`, `UpdateGatewayGroupCIDOfferSupportResponse_roundtrip`, `ProviderAdminForceRefreshRequest_roundtrip`, `ProviderAdminForceRefreshResponse_roundtrip`, `ProviderAdminGetPublishedOfferRequest_roundtrip`, `ProviderAdminGetPublishedOfferResponse_roundtrip`, `ProviderAdminInitialiseKeyRequest_roundtrip`, `ProviderAdminInitialiseKeyRequestV2_roundtrip`, `ProviderAdminInitialiseKeyResponse_roundtrip`, `ProviderAdminPublishDHTOfferRequest_roundtrip`, `ProviderAdminPublishDHTOfferResponse_roundtrip`, `ProviderAdminPublishGroupOfferRequest_roundtrip`, `ProviderAdminPublishGroupOfferResponse_roundtrip`, `InvalidMessageResponse_roundtrip`, `ProtocolChangeRequest_roundtrip`, `ProtocolChangeResponse_roundtrip`, `GatewayPingResponse_roundtrip_refuted`, `GatewayNotifyProviderGroupCIDOfferSupportResponse_roundtrip_refuted` | PropertiesMessages.v |
| C22 | Decoders reject malformed identifiers | partial | `decoded_ids_partial`, `decoded_ids_refuted`, `decoders_return_refuted` | PropertiesMessages.v |
| C23 | TCP framing delivers every message intact and in order | partial | `tcp_delivery_partial`, `tcp_first_message`, `tcp_read_sound`, `tcp_read_returns`, `tcp_delivery_refuted` | PropertiesFrame.v |
| C24 | Offer store returns exactly the live offers for a content identifier | partial | `offer_store_answers_partial`, `offer_store_live_partial`, `expired_refused_refuted` | PropertiesOfferStore.v |
| C25 | Group and single offers are kept apart by size | partial | `refused_invisible_partial`, `kinds_apart`, `refused_invisible_refuted` | PropertiesOfferStore.v |
| C26 | Concurrent offer additions lose nothing | partial | `concurrent_adds_partial`, `add_alone`, `concurrent_adds_refuted` | PropertiesOfferStore.v |
| C27 | Batch publication stores every offer under its own identifier | partial | `batch_publication_partial`, `batch_publication_refuted` | PropertiesOfferStore.v |
| C28 | Persistent offer store lookup correctness | partial | `sql_store_total`, `sql_lookup_partial`, `sql_lookup_copies_partial`, `sql_fresh_live_partial`, `sql_live_fresh_partial`, `sql_digest_partial`, `sql_lookup_twice_refuted`, `sql_lookup_unexpired_refuted`, `sql_large_price_refuted` | PropertiesSql.v |
| C29 | Persistent offer store is crash-atomic | partial | `sql_crash_lookup_partial`, `sql_crash_range_partial`, `sql_crash_retry`, `sql_crash_retry_digest`, `sql_crash_digest_refuted`, `sql_crash_truncated_refuted`, `sql_failure_hidden_refuted` | PropertiesSql.v |
| C30 | Offer digests identify offers | proved | `offer_digest_binds` | PropertiesOffer.v |
| C31 | Digest text round-trip | partial | `digest_text_roundtrip_partial`, `digest_text_rejects_refuted` | PropertiesOffer.v |
| C32 | Sub-offers inherit validity from the signed offer | partial | `suboffer_inherits_partial`, `suboffer_absent_refuted` | PropertiesOffer.v |
| C33 | Accepted offers cannot be altered | proved | `offer_terms_bound` | PropertiesOffer.v |
| C34 | Payer never issues vouchers beyond the channel balance | proved | `vouchers_never_exceed_funds` | PropertiesPayment.v |
| C35 | Vouchers on a lane have strictly increasing nonces and cumulative amounts | proved | `vouchers_count_and_accumulate` | PropertiesPayment.v |
| C36 | Payee never credits more than the channel holds | proved | `credited_sum_of_lanes`, `credited_within_balance` | PropertiesPayment.v |
| C37 | Vouchers cannot be replayed | proved | `voucher_never_credited_twice` | PropertiesPayment.v |
| C38 | Pay and Receive agree | proved | `pay_receive_agree` | PropertiesPayment.v |
| C39 | A voucher is only credited on the channel it is drawn on | partial | `credited_signed_by_payer_partial`, `foreign_channel_refuted` | PropertiesPayment.v |
| C40 | Concurrent top-ups and receipts lose or duplicate no money | partial | `concurrent_calls_serializable_partial`, `concurrent_topups_refuted`, `concurrent_receipts_refuted` | PropertiesPayment.v |
| C41 | Top-up-and-pay either pays or reports an error | proved | `topup_and_pay_calls`, `topup_and_pay_worth` | PropertiesPayment.v |
| C42 | Paid answers are only given against sufficient payment | partial | `standard_v2_paid_partial`, `standard_offer_paid_partial`, `gateway_v2_paid_partial`, `dht_offer_paid_partial`, `dht_v2_relays`, `gateway_v2_underpaid_refuted`, `gateway_offer_underpaid_refuted`, `dht_v2_underpaid_refuted`, `dht_offer_underpaid_refuted` | PropertiesGateway.v |
| C43 | Configured prices are constant | partial | `settings_life_partial`, `gateway_offer_price_partial`, `offer_price_changes_refuted` | PropertiesGateway.v |
| C44 | Expired requests are not served | proved | `expired_not_served` | PropertiesGateway.v |
| C45 | Handlers survive arbitrary requests | partial | `establishment_served_partial`, `standard_served_partial`, `standard_v2_served_partial`, `handlers_panic_refuted` | PropertiesGateway.v |
| C46 | Client reputation stays within bounds | partial | `reputation_history_partial`, `reputation_bounds_partial`, `reputation_bounds_concurrent_partial`, `reputation_independent`, `reputation_unknown`, `reputation_known`, `reputation_bounds_refuted`, `deposit_raises_refuted`, `admin_sets_reputation`, `admin_reads_reputation`, `admin_reputation_total_refuted` | PropertiesReputation.v |
| C47 | Near-CID lookup returns registered gateways | partial | `near_cid_partial`, `near_cid_excluding_partial`, `near_cid_keeps_partial`, `near_cid_few_refuted`, `near_cid_refuted` | PropertiesRegister.v |
| C48 | Lookups release their locks | partial | `locks_released_partial`, `unknown_provider_refuted`, `unknown_provider_blocks_refuted` | PropertiesProviderLock.v, PropertiesRegister.v |
| C49 | Lookups concurrent with refresh cannot deadlock | partial | `calls_progress_partial`, `calls_bounded_partial`, `calls_release_partial`, `ordered_locks_progress`, `range_lookup_deadlock_refuted` | PropertiesRegister.v |
| C50 | Refresh reflects the register | partial | `refresh_overlays_partial`, `refresh_ends`, `refresh_unavailable`, `gateway_lookup_refreshes`, `registered_gateway_found_partial`, `list_all_partial`, `removed_gateway_stays_refuted`, `capital_gateway_refuted` | PropertiesRegister.v, PropertiesRegisterService.v |
| C51 | One live connection per peer | proved | `one_connection`, `pooled_connection_open`, `surplus_closed`, `connection_exclusive`, `pool_progress`, `pool_bounded`, `pool_locks_released` | PropertiesPool.v |
| C52 | Requests are dispatched to exactly the registered handler | proved | `dispatch_registered`, `start_once`, `p2p_dispatch`, `rest_dispatch` | PropertiesFrame.v |
| C53 | Listing splits offers into complete batches | partial | `listing_partial`, `listing_refuted` | PropertiesProvider.v, PropertiesProviderListing.v |
| C54 | Acknowledged listings are recorded | partial | `acknowledged_listing_partial`, `acknowledged_listing_refuted` | PropertiesProvider.v, PropertiesProviderListing.v |
| C55 | Publication records exactly acknowledged offers | proved | `published_genuine`, `published_complete` | PropertiesProvider.v |
| C56 | Group-offer support notifications take effect | partial | `notifications_ignored`, `notifications_refuted` | PropertiesProvider.v, PropertiesProviderListing.v |
| C57 | Client returns only verified offers | partial | `standard_v2_offers_verified_partial`, `dht_offers_verified_partial`, `standard_v2_offers_exact`, `standard_offers_unverified_refuted`, `dht_v2_offers_unverified_refuted` | PropertiesClient.v |
| C58 | Offer limits are respected | partial | `standard_v2_limit_partial`, `dht_v2_asks_limited`, `dht_v2_stops`, `standard_v2_limit_refuted`, `dht_v2_limit_refuted` | PropertiesClient.v |
| C59 | DHT discovery attributes offers to the right gateways | partial | `dht_attribution_partial`, `dht_v2_asks_partial`, `dht_v2_attribution_refuted`, `dht_v2_digests_refuted` | PropertiesClient.v |
| C60 | Active gateways are gateways in use | partial | `active_in_use_partial`, `active_was_in_use`, `overlapping_calls_partial`, `overlapping_removals`, `overlapping_additions`, `overlapping_calls_refuted` | PropertiesClient.v |
| C61 | Establishment authenticates the gateway | partial | `active_authenticated_partial`, `challenge_per_request`, `challenge_refuted` | PropertiesClient.v |
| C62 | Offer acknowledgements prove publication | proved | `ack_proves_publication` | PropertiesClient.v |
| C63 | Register service keeps the last registration per node | proved | `register_answers`, `register_answers_all`, `null_registered`, `unreadable_stored` | PropertiesRegisterService.v |
| C64 | A payment asks for a top-up exactly when funds are short | proved | `topup_asked_iff_short`, `payment_made_otherwise` | PropertiesPayment.v |
| C65 | Negative payments are refused | partial | `negative_payment_refuted` | PropertiesPayment.v |
| C66 | Every top-up executed on chain is recorded | partial | `topup_recorded_partial`, `topup_recorded_refuted` | PropertiesPayment.v |
| C67 | Credited vouchers stay refused after a restart | partial | `replay_after_restart_refuted` | PropertiesPayment.v |
| C68 | Only unconditional vouchers are credited | partial | `paid_vouchers_unconditional_partial`, `conditional_voucher_refuted` | PropertiesPayment.v |
| C69 | Topping up does not change the configured amount | partial | `configured_amount_kept_partial`, `configured_amount_kept_refuted` | PropertiesPayment.v |
| C70 | Exactly the sound vouchers are credited | proved | `receipt_credited_iff` | PropertiesPayment.v |
| C71 | Merkle root determines the identifiers | partial | `merkle_root_binds_partial`, `merkle_root_binds_refuted` | PropertiesMerkle.v |
| C72 | No proof for identifiers outside the offer | proved | `merkle_absent_rejected` | PropertiesMerkle.v |
| C73 | Checking a received Merkle proof never crashes | partial | `merkle_verify_total_partial`, `merkle_verify_total_refuted` | PropertiesMerkle.v |
| C74 | Signature text is unique | partial | `signature_unique_refuted` | PropertiesCrypto.v |
| C75 | Message wire round-trip | proved | `message_wire_roundtrip` | PropertiesCrypto.v |
| C76 | Expiry is judged by time | partial | `offer_expiry_partial`, `offer_expiry_refuted` | PropertiesOffer.v |
| C77 | Offer wire round-trip | proved | `offer_wire_roundtrip`, `suboffer_wire_roundtrip` | PropertiesOffer.v |
| C78 | Parsing offers never crashes | partial | `offer_parse_total_partial`, `offer_parse_total_refuted`, `suboffer_check_total_refuted` | PropertiesOffer.v |
| C79 | Offers carry content | proved | `new_offer_needs_content` | PropertiesOffer.v |
| C80 | Decoders never crash | partial | `decoders_return_partial`, `decoders_return_refuted`, `offer_parse_total_partial` | PropertiesMessages.v, PropertiesOffer.v |
| C81 | Identifiers and public keys survive JSON | partial | `id_json_roundtrip`, `id_json_accepts`, `id_array`, `key_json_roundtrip`, `key_json_total_partial`, `key_json_total_refuted` | PropertiesIdWire.v |
| C82 | A node identifier determines its key | proved | `node_id_of_key`, `node_id_binds_key` | PropertiesIdWire.v |
| C83 | Signatures can be checked against an identifier | proved | `id_signature_roundtrip`, `id_signature_binds` | PropertiesIdWire.v |
| C84 | Digest lookup finds the live offer | partial | `digest_lookup_partial`, `digest_lookup_refuted` | PropertiesOfferStore.v |
| C85 | Range queries return the nearest live single offers | partial | `range_query_partial`, `range_query_refuted` | PropertiesOfferStore.v |
| C86 | Each request kind reaches its own handler | partial | `requests_reach_their_handler_partial`, `requests_reach_their_handler_refuted` | PropertiesFrame.v |
| C87 | A failed request does not take the node down | partial | `failure_contained_partial`, `no_failure_no_crash`, `failure_contained_refuted` | PropertiesPool.v |
| C88 | Decoders refuse wrongly typed bodies | proved | `accepted_body_typed` | PropertiesBody.v |
| C89 | Stopping a node leaves other registrations alone | partial | `shutdown_deletes_partial`, `shutdown_stops_partial`, `shutdown_deletes_all_refuted`, `stop_unregisters_all_refuted` | PropertiesRegister.v, PropertiesRegisterService.v |
| C90 | CID range spans the nearest gateways | partial | `cid_range_partial`, `cid_range_refuted` | PropertiesRegister.v |
| C91 | Refresh waits for a new pull | partial | `refreshes_progress`, `refreshes_bounded`, `refresh_alone_partial`, `refresh_overlap_refuted` | PropertiesRegister.v |
| C92 | Ring changes exclude each other | partial | `update_alone_partial`, `lookups_overlap_refuted` | PropertiesRegister.v |
| C93 | Gateway range lookup returns the stored offers in the range | partial | `sql_range_partial`, `sql_range_wrap_refuted` | PropertiesSql.v |
| C94 | No reputation event crashes the gateway or is lost | partial | `reputation_no_panic_partial`, `reputation_serial_partial`, `reputation_no_panic_refuted`, `reputation_serial_refuted` | PropertiesReputation.v |
| C95 | A gateway stores only offers vetted by a registered provider | proved | `stored_vetted` | PropertiesGateway.v |
| C96 | Sub-offers a gateway serves pass the checks of the client | partial | `standard_checks_partial`, `gateway_checks_partial`, `offer_by_digest_unproved_refuted`, `sql_crash_truncated_refuted` | PropertiesGateway.v, PropertiesSql.v |
| C97 | An acknowledged publication is found | partial | `published_found_partial`, `published_lost_refuted` | PropertiesGateway.v |
| C98 | Acknowledgements commit the gateway | proved | `publish_group_ack`, `publish_dht_ack` | PropertiesGateway.v |
| C99 | Relayed answers come from the gateways they are attributed to | proved | `dht_discover_relays`, `dht_v2_relays`, `dht_offer_paid_partial` | PropertiesGateway.v |
| C100 | Relayed requests are paid exactly | partial | `dht_v2_relays`, `dht_offer_relays_partial`, `dht_offer_underpaid_refuted` | PropertiesGateway.v |
| C101 | Only gateways that are asked are paid | partial | `dht_v2_relays`, `dht_v2_underpaid_refuted` | PropertiesGateway.v |
| C102 | Requests between gateways are authenticated | partial | `gateway_discover_answers_partial`, `gateway_v2_paid_partial`, `gateway_offer_unsigned_refuted` | PropertiesGateway.v |
| C103 | A stored offer belongs to its publisher | partial | `stored_vetted`, `published_for_another_refuted` | PropertiesGateway.v |
| C104 | Acknowledgements a provider keeps are genuine and complete | proved | `acks_genuine`, `acks_complete` | PropertiesProvider.v |
| C105 | Clients are shown the acknowledgement kept | proved | `ack_request_answered` | PropertiesProvider.v |
| C106 | Publication requests carry exactly what was ordered | proved | `requests_ordered` | PropertiesProvider.v |
| C107 | Single offers go to the gateways nearest to their identifier | partial | `nearest_asked_partial`, `near_only_refuted` | PropertiesProvider.v, PropertiesProviderListing.v |
| C108 | Group offers go to all gateways | proved | `group_asked` | PropertiesProvider.v |
| C109 | The administrator is told the truth about publication | partial | `told_published_refuted`, `requests_ordered` | PropertiesProvider.v, PropertiesProviderListing.v |
| C110 | The administrator is shown exactly what is published | proved | `published_shown`, `all_published_shown` | PropertiesProvider.v, PropertiesProviderAll.v |
| C111 | Failed initialisation leaves the provider's identity alone | partial | `identity_kept_partial`, `failed_init_refuted` | PropertiesKeyConc.v, PropertiesProviderListing.v |
| C112 | Publication works end to end | proved | `dht_publication`, `group_publication` | PropertiesProvider.v |
| C113 | Whatever a gateway stores came from a registered provider | proved | `stored_supplied` | PropertiesGatewayAdmin.v |
| C114 | What a gateway acknowledges in a listing is stored | partial | `listing_acknowledged_partial`, `acknowledged_unstored_refuted` | PropertiesGatewayAdmin.v |
| C115 | Listing works end to end | partial | `listing_recorded_partial`, `acknowledged_listing_refuted` | PropertiesGatewayAdmin.v, PropertiesProviderListing.v |
| C116 | Providers learn which group offers a gateway takes | partial | `support_silent_partial`, `support_unsent_refuted`, `notification_exact` | PropertiesGatewayAdmin.v, PropertiesSent.v |
| C117 | Only a successful initialisation changes who a gateway is | partial | `gateway_identity_kept_partial`, `gateway_identity_set_partial`, `gateway_identity_set_v2_partial`, `failed_key_refuted` | PropertiesGatewayAdmin.v |
| C118 | A gateway takes a voucher at most once | partial | `voucher_once_partial`, `voucher_again_refuted` | PropertiesGatewayAdmin.v |
| C119 | A gateway never credits more than the channel holds | partial | `income_backed_partial`, `voucher_again_refuted` | PropertiesGatewayAdmin.v |
| C120 | A gateway never overdraws its own channels | proved | `never_overdrawn` | PropertiesGatewayAdmin.v |
| C121 | The administrator makes a gateway list all providers | partial | `listing_asks_all_partial`, `listing_asks_none_refuted` | PropertiesGatewayAdmin.v |
| C122 | Gateways a client uses are registered | proved | `gateways_in_use_registered` | PropertiesClient.v |
| C123 | Counts of gateways added and removed are exact | proved | `gateways_added`, `registered_gateways_added`, `gateways_removed`, `gateways_activated`, `gateways_deactivated`, `all_gateways_removed`, `gateways_kept` | PropertiesClient.v |
| C124 | A client pays only the gateway it asks, at its own prices | partial | `standard_v2_bill_exact`, `dht_v2_bill_partial`, `unpaid_calls`, `dht_v2_bill_refuted` | PropertiesClient.v |
| C125 | Returned offers are for the content asked and live | partial | `answers_about_content_partial`, `standard_v2_offers_verified_partial`, `returned_offers_refuted` | PropertiesClient.v |
| C126 | Gateways are found by region up to a number | partial | `find_gateways_partial`, `find_gateways_refuted` | PropertiesClient.v |
| C127 | Calls of the client library return | partial | `removals_return_partial`, `calls_panic_refuted`, `calls_hang_refuted` | PropertiesClient.v |
| C128 | Overlapping calls that manage gateways finish | proved | `overlapping_calls_finish` | PropertiesClient.v |
| C129 | Registrations reach every manager as they were sent | proved | `registration_understood`, `registrations_arrive` | PropertiesRegisterService.v |
| C130 | A confirmed registration is found until replaced or deleted | proved | `gateway_confirmed_found`, `provider_confirmed_found` | PropertiesRegisterService.v |
| C131 | Deleting all nodes is one step | partial | `deleted_gateways_gone_partial`, `deleted_providers_gone_partial`, `deletion_atomic_refuted` | PropertiesRegisterService.v |
| C132 | The register invents nothing | proved | `found_was_registered`, `listed_was_registered` | PropertiesRegisterService.v |
| C133 | Gateways and providers are registered apart | proved | `sorts_apart` | PropertiesRegisterService.v |
| C134 | A node that is told it is registered is | partial | `gateway_told_partial`, `provider_told_refuted` | PropertiesRegisterService.v |
| C135 | A client that pays for digests gets these offers | partial | `standard_offer_served_partial`, `handlers_panic_refuted` | PropertiesGateway.v |
| C136 | An administrator's call asks its node for exactly that | proved | `call_asks`, `unknown_unasked` | PropertiesAdmin.v |
| C137 | An administrator is told of success only by the node | proved | `success_confirmed`, `reputation_confirmed`, `offers_confirmed` | PropertiesAdmin.v |
| C138 | The nodes in use are those initialised | proved | `session_nodes` | PropertiesAdmin.v |
| C139 | Initialising a gateway works end to end | proved | `gateway_initialised`, `gateway_initialised_v2` | PropertiesAdmin.v |
| C140 | Initialising a provider works end to end | proved | `provider_initialised`, `provider_initialised_v2` | PropertiesAdmin.v |
| C141 | A failed initialisation leaves the node as it was | partial | `init_taken_partial`, `init_v2_taken_partial`, `provider_init_taken_partial`, `provider_init_v2_taken_partial`, `init_failed_refuted` | PropertiesAdmin.v |
| C142 | A node that was initialised can be administered | partial | `known_after_init_partial`, `unknown_after_init_refuted` | PropertiesAdmin.v |
| C143 | A refresh that is confirmed took place | partial | `refreshed_partial`, `provider_refreshed_partial`, `refreshed_nothing_refuted` | PropertiesAdmin.v |
| C144 | Administrators set and read reputations | partial | `reputation_set`, `reputation_told`, `library_reputation_refuted` | PropertiesAdmin.v |
| C145 | Administrators choose whose group offers are taken | partial | `support_unconfirmed`, `support_refuted` | PropertiesAdmin.v |
| C146 | Administrators see what is published end to end | proved | `offers_told` | PropertiesAdmin.v |
| C147 | Publishing is reported only when the provider did it | proved | `group_published`, `dht_published` | PropertiesAdmin.v |
| C148 | Calls of the administrators' libraries return | partial | `calls_return_partial`, `answer_crashes_refuted` | PropertiesAdmin.v |
| C149 | Nodes obey only their administrator | partial | `signature_unused`, `provider_signature_unused`, `obeys_anyone_refuted` | PropertiesAdmin.v |
| C150 | Administrators use the key they were given | proved | `settings_built`, `admin_settings_chosen` | PropertiesAdmin.v, PropertiesBuild.v |
| C151 | A reachable gateway in use becomes active | proved | `gateway_activated` | PropertiesRetrieval.v |
| C152 | Discovery returns what the gateway has | proved | `standard_discovery_exact` | PropertiesRetrieval.v |
| C153 | Paid discovery delivers and charges exactly | proved | `paid_discovery_exact` | PropertiesRetrieval.v |
| C154 | What paying too little costs | proved | `underpaid_search_kept` | PropertiesRetrieval.v |
| C155 | Discovery through other gateways returns what the nearest have | proved | `dht_discovery_exact` | PropertiesDht.v |
| C156 | A group offer that is published is found | proved | `group_offer_found` | PropertiesMarket.v |
| C157 | An offer published to the nearest gateways is found through any gateway | proved | `dht_offer_found` | PropertiesMarket.v |
| C158 | A gateway charges the price configured | partial | `configured_number_partial`, `unreadable_default_partial`, `number_not_negative_partial`, `configured_price_charged_partial`, `price_misread_refuted` | PropertiesConfig.v |
| C159 | Timeouts and intervals are those configured | partial | `configured_duration_partial`, `timeout_refuted` | PropertiesConfig.v |
| C160 | The register is read at the interval configured | partial | `refresh_interval_refuted` | PropertiesConfig.v |
| C161 | Nodes start whatever the environment | partial | `gateway_settings_total`, `provider_starts_partial`, `provider_start_refuted` | PropertiesConfig.v |
| C162 | A refreshed environment file says what its source says | partial | `env_synced_partial`, `env_copied`, `env_kept`, `env_synced_refuted` | PropertiesEnvFile.v |
| C163 | The comparison of environment files reports what differs | partial | `env_report_partial`, `env_report_refuted` | PropertiesEnvFile.v |
| C164 | Random bytes are filled in, however they are drawn | proved | `random_filled`, `random_split` | PropertiesPrng.v |
| C165 | No random block is given out twice | proved | `random_blocks_distinct` | PropertiesPrng.v |
| C166 | Goroutines drawing at once get different bytes | partial | `serial_reads_partial`, `overlapping_reads_refuted` | PropertiesPrng.v |
| C167 | Output is unpredictable even if the DRBG is compromised | partial | `secret_state_matters_partial`, `prng_predicted_refuted` | PropertiesPrng.v |
| C168 | An entropy kick reseeds every generator | partial | `generators_stay`, `kick_reseeds_partial`, `kick_reseeds_refuted` | PropertiesPrng.v |
| C169 | Making a generator leaves the caller's bytes alone | partial | `domain_kept_partial`, `domain_kept_refuted`, `generator_seeded` | PropertiesPrng.v |
| C170 | A client uses the settings chosen | proved | `client_settings_chosen`, `client_builds`, `client_pays_chosen` | PropertiesBuild.v |
| C171 | A message over HTTP arrives as sent and is answered as written | proved | `http_carries`, `http_reaches_gateway`, `http_reaches_gateway_admin`, `http_reaches_provider_admin`, `http_reaches_provider` | PropertiesHttp.v |
| C172 | The acknowledgement of a published offer convinces clients | partial | `acknowledgement_convinces_partial`, `publication_convinces_partial`, `acknowledgement_convinces_refuted` | PropertiesAck.v |
| C173 | The JavaScript client establishes with Go gateways, and only with the right ones | proved | `js_established`, `js_establishment_sound`, `js_active`, `js_use` | PropertiesJs.v |
| C174 | The Go and JavaScript clients agree on which messages are signed | partial | `js_verify_partial`, `js_accepts_signed`, `js_lenient_refuted`, `js_strict_refuted` | PropertiesJs.v |
| C175 | Requests of the JavaScript client expire | partial | `js_expiry_partial`, `js_expiry_refuted` | PropertiesJs.v |
| C176 | The JavaScript client's vouchers stay within its funds and are credited by Go nodes | proved | `js_vouchers_within_funds`, `js_vouchers_accumulate`, `js_topup_asked_iff_short`, `js_vouchers_received` | PropertiesJsPayment.v |
| C177 | The JavaScript client counts as funds only what is in the channel | partial | `js_covered_partial`, `js_failed_topup_refuted`, `js_overlap_refuted`, `js_misdirected_refuted`, `js_nonce_zero` | PropertiesJsPayment.v |
| C178 | The JavaScript client writes vouchers as Go reads them | proved | `js_voucher_text_is_url` | PropertiesJsPayment.v |
| C179 | A JavaScript search is paid for | partial | `js_search_paid_partial`, `js_standard_never_paid`, `js_standard_topups`, `js_search_unpaid_refuted` | PropertiesJsPayment.v |
| C180 | A dump shows the message completely | proved | `dump_reads_back`, `dump_any` | PropertiesDump.v |
| C181 | The columns of a dump are aligned | partial | `dump_columns_partial`, `dump_columns_refuted` | PropertiesDump.v |
| C182 | What the client program does depends on the words typed | proved | `cli_words`, `cli_effect_needs_order` | PropertiesCli.v |
| C183 | The client program is silent until initialised | proved | `cli_silent_before_init`, `cli_waits_for_init` | PropertiesCli.v |
| C184 | Initialising the client program can be repeated until it succeeds | partial | `cli_init_partial`, `cli_init_stuck`, `cli_init_refuted` | PropertiesCli.v |
| C185 | add-active tells the truth | proved | `cli_active_authenticated`, `cli_add_active` | PropertiesCli.v |
| C186 | The client program keeps offers under their own signature | partial | `cli_offers_partial`, `cli_find_offer`, `cli_find_offer_dht`, `cli_lists`, `cli_offers_refuted` | PropertiesCli.v |
| C187 | The client program does not crash | partial | `cli_returns_partial`, `cli_crash_refuted` | PropertiesCli.v |
| C188 | The provider administrator's orders are carried out as typed | proved | `desk_publishes`, `desk_effect_needs_order`, `desk_published`, `desk_lists` | PropertiesAdminCli.v |
| C189 | A provider registered from the command line is initialised with its own new keys | proved | `desk_provider`, `desk_provider_life` | PropertiesAdminCli.v |
| C190 | Twenty gateways registered from the command line are initialised | proved | `desk_gateways`, `desk_gateway_ids`, `desk_gateways_served`, `desk_gateway_life` | PropertiesAdminCli.v |
| C191 | A node said to be registered is registered | partial | `desk_registered_partial`, `desk_registered_refuted` | PropertiesAdminCli.v |
| C192 | The demonstration gateways are spread evenly over the ring | partial | `desk_even_partial`, `desk_even_refuted` | PropertiesAdminCli.v |
| C193 | The administrators' programs do not crash | partial | `desk_provider_returns_partial`, `desk_gateway_returns_partial`, `desk_crash_refuted` | PropertiesAdminCli.v |
| C194 | A deletion reported is done | proved | `deletion_told` | PropertiesRegisterService.v |
| C195 | Paid discovery through other gateways delivers and settles | proved | `paid_dht_search_exact` | PropertiesDhtPaid.v |
| C196 | Offers bought through other gateways are delivered and settled | proved | `paid_dht_offers_exact` | PropertiesDhtOffer.v |
| C197 | A paid search through other gateways returns what each of them has | partial | `paid_dht_discovery_partial`, `paid_dht_discovery_refuted` | PropertiesDhtWhole.v |
| C198 | Key versions are counted upwards and return only after all others | proved | `key_versions_counted` | PropertiesKeyVersion.v |
| C199 | What overlapping calls of a client leave alone | partial | `removal_undisturbed`, `active_was_established`, `additions_keep_partial`, `additions_keep_refuted` | PropertiesClientConc.v |
| C200 | Every line of an environment file is read or refused | proved | `env_last_line`, `env_not_understood` | PropertiesEnvFile.v |
| C201 | Nodes announce addresses at which they listen | partial | `gateway_announces`, `provider_announces_partial`, `provider_announces_refuted` | PropertiesConfig.v |
| C202 | Seeds add to what is secret | proved | `seed_keeps_secret`, `seed_counts` | PropertiesPrng.v |
| C203 | The TypeScript client finds what it pays for | partial | `js_search_finds_refuted`, `js_search_returns`, `js_search_pays`, `js_search_refused`, `js_search_asks_nothing` | PropertiesJsSearch.v |
| C204 | Message bodies have the documented form | proved | `wire_format` | PropertiesWireFormat.v |
| C205 | Receivers go by the names of fields | proved | `unknown_fields_ignored`, `field_order_ignored` | PropertiesWireFormat.v |
| C206 | One bad answer does not spoil the others | partial | `one_bad_answer_refuted`, `one_bad_answer_partial`, `one_unpaid_answer`, `gathered_unique` | PropertiesDhtAnswers.v |
| C207 | Merkle trees of the TypeScript client prove their contents | partial | `js_merkle_complete`, `js_merkle_again`, `js_merkle_sound_partial`, `js_merkle_sound_refuted` | PropertiesJsMerkle.v |
| C208 | The TypeScript client and Go agree on Merkle roots | partial | `js_merkle_agrees_refuted`, `js_merkle_agrees_partial`, `js_merkle_differs` | PropertiesJsMerkle.v |
| C209 | Signatures made by the TypeScript client verify and bind | partial | `js_sign_verifies`, `js_version_spelt`, `js_sign_binds_refuted` | PropertiesJsSign.v |
| C210 | Keys of the TypeScript client are independent of each other | partial | `js_keys_partial`, `js_public_never_signs`, `js_algorithm_refuted` | PropertiesJsSign.v |
| C211 | The way JSON is written does not matter | proved | `json_reader`, `json_unambiguous`, `layout_ignored`, `accepted_json`, `envelope_layout_ignored`, `envelope_json`, `printers_write_json`, `base64_reader` | PropertiesJsonText.v |
| C212 | A limited DHT search still finds offers | partial | `dht_limit_partial`, `dht_order_for_all`, `dht_limit_refuted` | PropertiesDhtLimit.v |
| C213 | The log level does not change what the libraries do | partial | `build_any_level_partial`, `admin_build_any_level_partial`, `build_silent_refuted` | PropertiesLogging.v |
| C214 | Log settings mean what is documented | partial | `log_levels_partial`, `level_set_later`, `level_not_set`, `documented_levels_refuted`, `library_file_refuted` | PropertiesLogging.v |
| C215 | There is one instance, made of the settings given | partial | `single_instance_partial`, `single_instance_refuted`, `two_settings` | PropertiesLogging.v |
| C216 | A TypeScript client with the settings the library builds can activate gateways | partial | `js_settings_active_partial`, `js_settings_use`, `js_built_refuted` | PropertiesJsSettings.v |
| C217 | A TypeScript client that was constructed can search | partial | `js_manager_searches_partial`, `js_new_client_refuted` | PropertiesJsSettings.v |
| C218 | Settings of the TypeScript client are kept, and default to those of the Go client | proved | `js_settings_given`, `js_defaults_as_go` | PropertiesJsSettings.v |
| C219 | A gateway that asks for nothing serves clients that pay nothing | partial | `free_search_refuted`, `free_search_partial` | PropertiesFree.v |
| C220 | A client lists the gateways it uses | proved | `gateways_listed` | PropertiesListed.v |
| C221 | Success of check-main-modules means that modules are on branch main | partial | `parts_exact`, `main_check_partial`, `main_check_refuted`, `main_release_refuted` | PropertiesModuleCheck.v |
| C222 | check-modules names the branch of each module | partial | `parts_exact`, `modules_reported`, `modules_commit_refuted` | PropertiesModuleCheck.v |
| C223 | Whatever a node answers with is signed | proved | `gateway_answers_signed`, `reputation_answers_signed`, `provider_answers_signed` | PropertiesSigned.v |
| C224 | Whatever a node sends to other nodes is signed, and only the administrator changes its key | proved | `gateway_requests_signed`, `gateway_to_providers_signed`, `provider_requests_signed` | PropertiesSent.v |
| C225 | Calls through one communicator do not wait for the servers of others | partial | `communicator_waits_refuted`, `communicator_returns_partial`, `communicator_own_answer`, `communicator_exclusive` | PropertiesHttpConc.v |
| C226 | A gateway is one of the identities it was given, also while it is initialised | partial | `mixed_answer_refuted`, `stale_identifier_refuted`, `mixed_gateway_refuted`, `identity_parts_partial`, `identity_kept_partial`, `identity_set_partial`, `answers_signed_partial` | PropertiesKeyConc.v |
| C227 | Overlapping publications of a provider are all recorded | proved | `publications_recorded`, `acknowledgements_recorded`, `recording_goes_on`, `recording_undisturbed` | PropertiesRecordConc.v |
| C228 | A client has one payment manager, however its calls overlap | proved | `one_manager`, `made_once`, `none_only_on_failure`, `manager_calls_return` | PropertiesLazyConc.v |
| C229 | Overlapping operations of an administrator do not hinder each other | partial | `admin_waits_refuted`, `admin_queue_refuted`, `admin_recorded`, `asked_registered`, `later_asks_find`, `admin_outcomes`, `admin_exclusive`, `admin_goes_on`, `asks_overlap_partial` | PropertiesAdminConc.v |
| C230 | A refresh that overlaps a shutdown of the register manager returns | partial | `refresh_left_behind_refuted`, `second_stop_refuted`, `only_left_behind_partial`, `left_behind_for_ever`, `taken_up_partial`, `stopped_partial`, `unanswered_only_stopped` | PropertiesStopConc.v |
| C231 | A request over a pooled connection gets the answer to itself | partial | `stale_answer_refuted`, `own_answer_partial`, `answers_once`, `answers_checked`, `removed_silent`, `requests_return` | PropertiesReplyConc.v |
