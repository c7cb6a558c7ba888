{"id": "C01", "title": "Identifier hex round-trip", "statement": "For every 32-byte node or content identifier, printing it as hex and parsing the text back yields the same identifier; the text is always 64 lowercase hex digits, and two different identifiers never print the same.", "quantifier": "all 32-byte identifiers", "why_tests_cant": "2^256 identifiers; tests sample a few literals", "anchors": ["common/pkg/nodeid/nodeid.go: NewNodeIDFromHexString, ToString", "common/pkg/cid/cid.go: NewContentIDFromHexString, ToString"]}
{"id": "C02", "title": "Identifier construction accepts exactly short-enough input and left-pads", "statement": "Building an identifier from bytes or hex succeeds exactly when the input is (well-formed hex of) at most 32 bytes; the result always has 32 bytes and the same big-endian numeric value as the input, so leading zeros never change which identifier is meant.", "quantifier": "all byte strings and all text strings", "why_tests_cant": "unbounded inputs including odd-length, non-hex, empty and over-long ones", "anchors": ["common/pkg/nodeid/nodeid.go: NewNodeID, NewNodeIDFromHexString", "common/pkg/cid/cid.go: NewContentID, NewContentIDFromHexString"]}
{"id": "C03", "title": "Clockwise sort is a correct clockwise ordering", "statement": "Sorting node identifiers clockwise from a start identifier returns a permutation of the input ordered by clockwise distance (mod 2^256) from the start.", "quantifier": "all lists of 32-byte identifiers (with repetitions) and all start identifiers", "why_tests_cant": "ordering and permutation over all lists and starts, including starts beyond all elements", "anchors": ["common/pkg/nodeid/nodeid.go: SortClockwise"]}
{"id": "C04", "title": "Ring distance is a metric bounded by half the ring", "statement": "The distance between two points on the 256-bit ring is the shorter way round: symmetric, zero exactly for equal points, at most half the ring, equal to the smaller of the clockwise and counter-clockwise walks, and satisfies the triangle inequality.", "quantifier": "all pairs and triples of ring positions", "why_tests_cant": "2^512 pairs", "anchors": ["common/pkg/math/distance.go: GetDistance"]}
{"id": "C05", "title": "Ring insertions implement a sorted set", "statement": "Starting from an empty ring, after any sequence of insertions of arbitrary strings, the ring holds exactly the valid 64-digit hex strings inserted (first spelling per key), its reported size is their number, and walking it either way visits them in key order with correct gap distances.", "quantifier": "all finite sequences of arbitrary input strings", "why_tests_cant": "arbitrary-length histories over a pointer structure; invariants on every link and distance", "anchors": ["common/pkg/dhtring/dhtring.go: Insert, Size, validateInput, getDist"]}
{"id": "C06", "title": "Ring removal removes exactly the requested entry", "statement": "Removing an entry deletes exactly that entry: it is no longer reachable, all other entries stay reachable in order, and removing something that is not in the ring changes nothing.", "quantifier": "all rings reachable by insertions and removals, all arguments", "why_tests_cant": "needs every ring shape and every position (only entry, head, middle, tail, absent)", "anchors": ["common/pkg/dhtring/dhtring.go: Remove"]}
{"id": "C07", "title": "Closest-entries query returns the nearest entries", "statement": "A query for the num entries closest to a point returns min(num, size) distinct ring entries such that no entry left out is closer (circular distance) than one returned, in ring order; the queried point itself counts when it is an entry.", "quantifier": "all rings, points, and counts", "why_tests_cant": "optimality over all rings and points; ties and wrap-around", "anchors": ["common/pkg/dhtring/dhtring.go: GetClosest", "common/pkg/fcrregistermgr/register_manager.go: GetGatewaysNearCID"]}
{"id": "C08", "title": "Closest-entries query honours the exclusion", "statement": "A closest-entries query with an excluded entry never returns that entry, and otherwise behaves as on the ring without it.", "quantifier": "all rings, points, counts and excluded values", "why_tests_cant": "positions of the excluded entry (head, middle, tail, absent) times all query points", "anchors": ["common/pkg/dhtring/dhtring.go: GetClosest"]}
{"id": "C09", "title": "Ring queries leave the ring unchanged", "statement": "Closest-entries and range queries are read-only: afterwards the ring holds the same entries, in the same order with the same size, as before, and later queries give the same answers.", "quantifier": "all rings, all query arguments, all sequences of queries", "why_tests_cant": "queries insert and remove temporary entries; damage shows only in later operations and depends on where the argument falls", "anchors": ["common/pkg/dhtring/dhtring.go: GetClosest, GetWithinRange"]}
{"id": "C10", "title": "Range query returns exactly the closed clockwise interval", "statement": "A range query from start to end returns exactly the ring entries met walking clockwise from start to end inclusive, in that order, each once.", "quantifier": "all rings and all start/end pairs incl. wrap-around, absent and equal endpoints", "why_tests_cant": "all combinations of endpoints and ring contents", "anchors": ["common/pkg/dhtring/dhtring.go: GetWithinRange", "common/pkg/fcroffermgr/offer_manager.go: GetDHTOffersWithinRange"]}
{"id": "C11", "title": "Malformed ring input is rejected without effect", "statement": "Every ring operation given a string that is not exactly 64 hex digits leaves the ring unchanged and queries report an error; a valid 64-digit hex string is never rejected.", "quantifier": "all strings, all rings", "why_tests_cant": "all malformed strings", "anchors": ["common/pkg/dhtring/dhtring.go: validateInput, Insert, Remove, GetClosest, GetWithinRange"]}
{"id": "C12", "title": "Ring operations never crash", "statement": "No ring operation panics or loops forever on a ring obtained by insertions, whatever valid or invalid arguments it is given.", "quantifier": "all rings and arguments", "why_tests_cant": "crash freedom quantifies over all inputs and heap shapes", "anchors": ["common/pkg/dhtring/dhtring.go: Insert, Remove, GetClosest, GetWithinRange"]}
{"id": "C13", "title": "Merkle proofs are complete", "statement": "For every non-empty list of content identifiers, building the tree succeeds and the proof produced for any listed identifier verifies against the tree's root.", "quantifier": "all non-empty identifier lists, all members", "why_tests_cant": "all list lengths (odd/even at each level) and duplicates", "anchors": ["common/pkg/fcrmerkletree/tree.go: CreateMerkleTree, GenerateMerkleProof, GetMerkleRoot", "common/pkg/fcrmerkletree/proof.go: VerifyContent"]}
{"id": "C14", "title": "Merkle proofs are sound", "statement": "If a proof verifies for an identifier against the root of a tree over some list then the identifier is in the list, or a hash collision can be exhibited.", "quantifier": "all lists, identifiers and proofs (adversarial)", "why_tests_cant": "adversarial proofs of any shape and length", "anchors": ["common/pkg/fcrmerkletree/proof.go: VerifyContent", "common/pkg/cidoffer/subcidoffer.go: VerifyMerkleProof"]}
{"id": "C15", "title": "Merkle proof wire round-trip", "statement": "Serialising a Merkle proof and parsing it yields the same proof, and parsing arbitrary bytes never crashes.", "quantifier": "all proofs; all byte strings", "why_tests_cant": "binary format with length fields over arbitrary bytes", "anchors": ["common/pkg/fcrmerkletree/proof.go: MarshalJSON, UnmarshalJSON"]}
{"id": "C16", "title": "Signature envelope round-trip and key version extraction", "statement": "A message signed with any key and version verifies under the matching public key, the version can be read back from the signature, verification depends only on key, message and raw signature, and signature text that is malformed or shorter than the version prefix is rejected with an error rather than a crash.", "quantifier": "all keys, versions, messages and signature strings", "why_tests_cant": "all signature strings, incl. short ones", "anchors": ["common/pkg/fcrcrypto/msg_signing.go: SignMessage, VerifyMessage, ExtractKeyVersionFromMessage"]}
{"id": "C17", "title": "Signatures bind the key version", "statement": "Changing the key version carried in a valid signature makes it invalid.", "quantifier": "all signatures and versions", "why_tests_cant": "forall over versions and messages", "anchors": ["common/pkg/fcrcrypto/msg_signing.go: SignMessage, VerifyMessage"]}
{"id": "C18", "title": "Key codec round-trip and rejection", "statement": "Encoding then decoding a private or public key gives the same key, and decoding accepts exactly well-formed encodings of the right algorithm and length, returning an error (never crashing) otherwise.", "quantifier": "all keys; all strings", "why_tests_cant": "all malformed strings", "anchors": ["common/pkg/fcrcrypto/keypair_retrieval.go: EncodePrivateKey, DecodePrivateKey, EncodePublicKey, DecodePublicKey", "common/pkg/fcrcrypto/key_version.go"]}
{"id": "C19", "title": "Signed messages verify and verification is non-destructive", "statement": "A message signed with a key verifies under that key's public half for any type and body, and checking a message - whether it passes or fails - leaves the message as it was.", "quantifier": "all messages, keys and signatures", "why_tests_cant": "state after every failing and passing path", "anchors": ["common/pkg/fcrmessages/fcrmessage.go: Sign, Verify"]}
{"id": "C20", "title": "Message kinds are distinguishable by type", "statement": "Two different message kinds carry different type tags, so a decoder for one kind always rejects messages of another kind.", "quantifier": "all pairs of message kinds and all bodies", "why_tests_cant": "all pairs of ~50 kinds times all bodies", "anchors": ["common/pkg/fcrmessages/type.go", "common/pkg/fcrmessages/*.go: Decode*"]}
{"id": "C21", "title": "Typed message encode/decode round-trip", "statement": "For every message kind, decoding an encoded message returns exactly the field values that were encoded.", "quantifier": "all message kinds and all field values", "why_tests_cant": "all field values of ~50 kinds", "anchors": ["common/pkg/fcrmessages/*.go: Encode*, Decode*"]}
{"id": "C22", "title": "Decoders reject malformed identifiers", "statement": "If a received message carries an identifier field that is not a valid identifier, the decoder reports an error and does not crash or hand out a missing identifier.", "quantifier": "all message bodies", "why_tests_cant": "adversarial bodies", "anchors": ["common/pkg/fcrmessages/*.go: Decode*", "common/pkg/nodeid/nodeid.go: MapStringToNodeID", "common/pkg/cid/cid.go: MapStringToCID"]}
{"id": "C23", "title": "TCP framing delivers every message intact and in order", "statement": "Whatever messages one side writes on a connection, and however the bytes are split or batched by the network, the other side reads exactly those messages in order.", "quantifier": "all message sequences and all segmentations of the byte stream", "why_tests_cant": "all segmentations/timings of a byte stream", "anchors": ["common/pkg/fcrp2pserver/tcp_comms.go: sendTCPMessage, readTCPMessage"]}
{"id": "C24", "title": "Offer store returns exactly the live offers for a content identifier", "statement": "After any history of adding offers and querying at non-decreasing times, querying a content identifier returns exactly the added offers containing it that have not expired, each once; adding an already present offer is a no-op; adding an expired offer is refused.", "quantifier": "all histories of add/get with a monotone clock", "why_tests_cant": "unbounded histories interleaved with time", "anchors": ["common/pkg/fcroffermgr/offer_storage.go: add, get", "common/pkg/fcroffermgr/offer_manager.go: AddGroupOffer, GetGroupOffers, GetOffers"]}
{"id": "C25", "title": "Group and single offers are kept apart by size", "statement": "Only offers with two or more identifiers are stored as group offers and only offers with exactly one as single (DHT) offers; a refused offer changes nothing a query can see.", "quantifier": "all offers and histories", "why_tests_cant": "includes effects of refused additions on later range queries", "anchors": ["common/pkg/fcroffermgr/offer_manager.go: AddGroupOffer, AddDHTOffer, GetDHTOffersWithinRange"]}
{"id": "C26", "title": "Concurrent offer additions lose nothing", "statement": "When several offers are added concurrently, afterwards each successfully added live offer is returned for each of its content identifiers, whatever the interleaving.", "quantifier": "all interleavings of concurrent additions", "why_tests_cant": "schedules cannot be enumerated by tests", "anchors": ["common/pkg/fcroffermgr/offer_storage.go: add"]}
{"id": "C27", "title": "Batch publication stores every offer under its own identifier", "statement": "After an admin publishes a batch of single offers, querying each content identifier on the provider returns the offer published for it.", "quantifier": "all batches", "why_tests_cant": "batches of any size; aliasing between iterations", "anchors": ["provider/internal/api/adminapi/publish_dht_offer_handler.go: HandleProviderAdminPublishDHTOfferRequest"]}
{"id": "C28", "title": "Persistent offer store lookup correctness", "statement": "After any history of storing offers in the gateway's database, looking up a content identifier returns each stored unexpired offer that contains it, with all its fields, exactly once; looking up by digest returns that offer.", "quantifier": "all histories of stores and lookups", "why_tests_cant": "unbounded histories; SQL join semantics", "anchors": ["common/pkg/offermgr/offer_manager.go: AddGroupOffer, AddDHTOffer, GetOffers, GetOfferByDigest, GetDHTOffersWithinRange"]}
{"id": "C29", "title": "Persistent offer store is crash-atomic", "statement": "If the gateway stops at any point while storing an offer, then after restart the offer is either completely there or can be stored again and then completely there, and lookups do not fail or crash.", "quantifier": "all crash points between database statements", "why_tests_cant": "crash points", "anchors": ["common/pkg/offermgr/offer_manager.go: insertOffer, selectOffers"]}
{"id": "C30", "title": "Offer digests identify offers", "statement": "Two offers with the same digest agree on provider, content identifiers, price, expiry and quality of service, unless a hash collision can be exhibited.", "quantifier": "all pairs of offers", "why_tests_cant": "injectivity of an encoding over all offers", "anchors": ["common/pkg/cidoffer/cidoffer.go: GetMessageDigest"]}
{"id": "C31", "title": "Digest text round-trip", "statement": "Encoding an offer digest as text and decoding gives the same digest; malformed digest text is never mistaken for a valid digest.", "quantifier": "all digests; all strings", "why_tests_cant": "all malformed strings", "anchors": ["common/pkg/cidoffer/cidoffer.go: EncodeMessageDigest, DecodeMessageDigest"]}
{"id": "C32", "title": "Sub-offers inherit validity from the signed offer", "statement": "For any offer signed by its provider and any content identifier in it, the derived sub-offer carries the same terms, verifies under the provider's key and its Merkle proof verifies; asking for an identifier not in the offer is refused.", "quantifier": "all offers, keys and identifiers", "why_tests_cant": "all offers", "anchors": ["common/pkg/cidoffer/cidoffer.go: Sign, Verify, GenerateSubCIDOffer", "common/pkg/cidoffer/subcidoffer.go: Verify, VerifyMerkleProof"]}
{"id": "C33", "title": "Accepted offers cannot be altered", "statement": "If an offer or sub-offer verifies under a provider key, then its provider, terms and Merkle root are exactly those the provider signed (given unforgeable signatures).", "quantifier": "all offers and all alterations", "why_tests_cant": "adversarial alterations", "anchors": ["common/pkg/cidoffer/cidoffer.go: Sign, Verify", "common/pkg/cidoffer/subcidoffer.go: Verify"]}
{"id": "C34", "title": "Payer never issues vouchers beyond the channel balance", "statement": "For any history of top-ups and payments of non-negative amounts to any recipients on any lanes, the total value of the highest vouchers over all lanes of a channel never exceeds the funds put into the channel.", "quantifier": "all histories of Topup/Pay with all non-negative amounts, recipients, lanes, chain outcomes (negative amounts: C65)", "why_tests_cant": "unbounded histories", "anchors": ["common/pkg/fcrpaymentmgr/payment_manager.go: Topup, Pay"]}
{"id": "C35", "title": "Vouchers on a lane have strictly increasing nonces and cumulative amounts", "statement": "On each channel lane successive payments yield vouchers whose nonces increase by one and whose amount is the running total of the payments on that lane.", "quantifier": "all histories of payments", "why_tests_cant": "unbounded histories", "anchors": ["common/pkg/fcrpaymentmgr/payment_manager.go: Pay"]}
{"id": "C36", "title": "Payee never credits more than the channel holds", "statement": "For any sequence of received vouchers (adversarial), the total credited on a channel equals the sum over lanes of the largest accepted voucher amounts and never exceeds the channel's on-chain balance.", "quantifier": "all sequences of received vouchers and chain states", "why_tests_cant": "adversarial unbounded histories", "anchors": ["common/pkg/fcrpaymentmgr/payment_manager.go: Receive"]}
{"id": "C37", "title": "Vouchers cannot be replayed", "statement": "Once a voucher has been credited, presenting it (or any earlier voucher of that lane) again is refused, forever.", "quantifier": "all histories after acceptance", "why_tests_cant": "unbounded suffixes", "anchors": ["common/pkg/fcrpaymentmgr/payment_manager.go: Receive"]}
{"id": "C38", "title": "Pay and Receive agree", "statement": "If a payer's vouchers to a payee are delivered in order and the channel's balance on chain is what the payer put in, every voucher is accepted and credited at exactly the amount paid, for any mix of lanes and amounts.", "quantifier": "all payment histories over all lanes", "why_tests_cant": "product of two state machines over unbounded histories", "anchors": ["common/pkg/fcrpaymentmgr/payment_manager.go: Pay, Receive"]}
{"id": "C39", "title": "A voucher is only credited on the channel it is drawn on", "statement": "Presenting a voucher together with a channel address other than the one written in the voucher is refused.", "quantifier": "all vouchers and channel addresses", "why_tests_cant": "adversarial inputs", "anchors": ["common/pkg/fcrpaymentmgr/payment_manager.go: Receive"]}
{"id": "C40", "title": "Concurrent top-ups and receipts lose or duplicate no money", "statement": "When top-ups to one recipient, or receipts of vouchers on one channel, run concurrently, the outcome equals some sequential order: no funded balance is forgotten and no voucher is credited twice.", "quantifier": "all interleavings", "why_tests_cant": "schedules", "anchors": ["common/pkg/fcrpaymentmgr/payment_manager.go: Topup, Receive"]}
{"id": "C41", "title": "Top-up-and-pay either pays or reports an error", "statement": "The client's and gateway's top-up-and-pay helper either returns a voucher worth exactly the requested amount or an error, never an empty voucher without an error; it tops up at most twice.", "quantifier": "all payment manager behaviours", "why_tests_cant": "all combinations of inner failures", "anchors": ["client/pkg/fcrclient/filecoin_retrieval_client.go: topupAndPay", "gateway/internal/api/clientapi/dht_discover_handler_v2.go: topupAndPay"]}
{"id": "C42", "title": "Paid answers are only given against sufficient payment", "statement": "A gateway that charges for discovery or offers hands out digests or offers only when the received voucher is worth at least price times quantity; otherwise it answers that payment is required and hands out nothing.", "quantifier": "all requests, payments and stores", "why_tests_cant": "all combinations of payment and content", "anchors": ["gateway/internal/api/clientapi/standard_discover_handler_v2.go", "gateway/internal/api/clientapi/standard_discover_offer_handler.go", "gateway/internal/api/clientapi/dht_discover_handler_v2.go", "gateway/internal/api/gatewayapi/dht_discover_handler_v2.go", "gateway/internal/api/gatewayapi/dht_discover_offer_handler.go"]}
{"id": "C43", "title": "Configured prices are constant", "statement": "Serving requests never changes the gateway's configured search and offer prices.", "quantifier": "all request histories", "why_tests_cant": "unbounded histories", "anchors": ["gateway/internal/api/gatewayapi/dht_discover_offer_handler.go: HandleGatewayDHTOfferRequest"]}
{"id": "C44", "title": "Expired requests are not served", "statement": "A request whose time-to-live has passed is not served.", "quantifier": "all requests and clock values", "why_tests_cant": "all times", "anchors": ["gateway/internal/api/clientapi/*.go", "gateway/internal/api/gatewayapi/*.go"]}
{"id": "C45", "title": "Handlers survive arbitrary requests", "statement": "No request a client or peer can send makes a gateway handler crash.", "quantifier": "all requests", "why_tests_cant": "adversarial requests", "anchors": ["gateway/internal/api/clientapi/standard_discover_offer_handler.go", "gateway/internal/api/clientapi/dht_discover_offer_handler.go", "gateway/internal/api/gatewayapi/dht_discover_offer_handler.go"]}
{"id": "C46", "title": "Client reputation stays within bounds", "statement": "However clients behave, reputation always stays between the minimum and maximum, starts at the initial value when established, changes for one client never affect another, and a never-established client has none.", "quantifier": "all histories of establishment, reputation events and admin settings", "why_tests_cant": "unbounded histories", "anchors": ["gateway/internal/reputation/reputation.go", "gateway/internal/reputation/reputation_constants.go"]}
{"id": "C47", "title": "Near-CID lookup returns registered gateways", "statement": "After any sequence of register refreshes and lookups, the gateways-near-a-CID lookup succeeds and returns at most 16 gateways, all registered, and the nearest ones.", "quantifier": "all sequences of register contents and lookups", "why_tests_cant": "unbounded histories; interaction of ring and map", "anchors": ["common/pkg/fcrregistermgr/register_manager.go: GetGatewaysNearCID, updateGateways"]}
{"id": "C48", "title": "Lookups release their locks", "statement": "Every register lookup returns with all locks released, so later refreshes are never blocked.", "quantifier": "all lookups and register contents", "why_tests_cant": "lock state after each path", "anchors": ["common/pkg/fcrregistermgr/register_manager.go: GetGateway, GetProvider, GetAllGateways, GetGatewayCIDRange"]}
{"id": "C49", "title": "Lookups concurrent with refresh cannot deadlock", "statement": "Lookups running concurrently with register refreshes always complete.", "quantifier": "all interleavings of lookups and refreshes under writer-preferring locks", "why_tests_cant": "schedules", "anchors": ["common/pkg/fcrregistermgr/register_manager.go: GetGatewayCIDRange, GetGatewaysNearCID, updateGateways"]}
{"id": "C50", "title": "Refresh reflects the register", "statement": "After a refresh, the manager knows exactly the nodes in the register with their current information.", "quantifier": "all register contents and histories", "why_tests_cant": "unbounded histories", "anchors": ["common/pkg/fcrregistermgr/register_manager.go: updateGateways, updateProviders"]}
{"id": "C51", "title": "One live connection per peer", "statement": "However many requests to the same peer run concurrently, at most one connection per peer is kept and surplus connections are closed.", "quantifier": "all interleavings of connection requests and failures", "why_tests_cant": "schedules", "anchors": ["common/pkg/fcrp2pserver/pool.go: getGatewayConn, getProviderConn, registerGatewayConn, removeActive*"]}
{"id": "C52", "title": "Requests are dispatched to exactly the registered handler", "statement": "A request of a registered type reaches exactly the handler registered for that type on that interface; any other request is answered with an invalid-message or bad-request reply and no handler runs.", "quantifier": "all handler tables and requests", "why_tests_cant": "all tables and requests", "anchors": ["common/pkg/fcrp2pserver/server.go: handleIncomingConnection, AddHandler", "common/pkg/fcrrestserver/server.go: msgRouter, AddHandler"]}
{"id": "C53", "title": "Listing splits offers into complete batches", "statement": "When a gateway lists a provider's offers in a range, the offers sent are split into messages of at most 50 whose concatenation is exactly the (at most 500) live offers found, and an empty result sends no message.", "quantifier": "all offer lists", "why_tests_cant": "all list lengths around the batch boundary", "anchors": ["provider/internal/api/gatewayapi/list_dht_offer_handler.go: HandleGatewayListDHTOfferRequest"]}
{"id": "C54", "title": "Acknowledged listings are recorded", "statement": "When a gateway correctly acknowledges listed offers, the provider records an acknowledgement for every offer listed and can later present it to clients.", "quantifier": "all listings and prior states", "why_tests_cant": "all prior acknowledgement tables", "anchors": ["provider/internal/api/gatewayapi/list_dht_offer_handler.go: HandleGatewayListDHTOfferRequest", "provider/internal/api/clientapi/dht_offer_ack_handler.go"]}
{"id": "C55", "title": "Publication records exactly acknowledged offers", "statement": "A provider lists an offer as published to a gateway exactly when that gateway returned a correctly signed matching acknowledgement.", "quantifier": "all responses", "why_tests_cant": "adversarial responses", "anchors": ["provider/internal/api/providerapi/publish_group_offer_requester.go", "provider/internal/api/providerapi/publish_dht_offer_requester.go", "provider/internal/api/adminapi/get_published_offer_handler.go"]}
{"id": "C56", "title": "Group-offer support notifications take effect", "statement": "After a gateway notifies a provider that it supports (or no longer supports) group offers, the provider's list of supporting gateways contains (or no longer contains) that gateway, and other entries are unaffected.", "quantifier": "all notification histories", "why_tests_cant": "unbounded histories; slice aliasing", "anchors": ["provider/internal/api/gatewayapi/notify_group_cid_offer_supported.go: updateGatewaysSupportingGroupCIDOffer"]}
{"id": "C57", "title": "Client returns only verified offers", "statement": "Every offer a client's find-offers call returns has a valid signature of a registered provider and a valid Merkle proof.", "quantifier": "all gateway responses (adversarial) for each discovery variant", "why_tests_cant": "adversarial gateways", "anchors": ["client/pkg/fcrclient/filecoin_retrieval_client.go: FindOffersStandardDiscovery, FindOffersDHTDiscovery, FindOffersDHTDiscoveryV2, FindOffersStandardDiscoveryV2"]}
{"id": "C58", "title": "Offer limits are respected", "statement": "A find-offers call with a maximum returns no more than that many offers and pays for no more.", "quantifier": "all limits and responses", "why_tests_cant": "all limits incl. 0 and negatives", "anchors": ["client/pkg/fcrclient/filecoin_retrieval_client.go: FindOffersDHTDiscoveryV2, FindOffersStandardDiscoveryV2"]}
{"id": "C59", "title": "DHT discovery attributes offers to the right gateways", "statement": "DHT discovery asks each contacted gateway exactly for the digests that gateway advertised, and the returned map gives for each gateway the offers that gateway returned.", "quantifier": "all response combinations", "why_tests_cant": "all combinations of failing/succeeding gateways; aliasing", "anchors": ["client/pkg/fcrclient/filecoin_retrieval_client.go: FindOffersDHTDiscoveryV2", "gateway/internal/api/clientapi/dht_discover_offer_handler.go"]}
{"id": "C60", "title": "Active gateways are gateways in use", "statement": "The client's set of active gateways is always a subset of its gateways in use, for any history of add/remove calls.", "quantifier": "all histories (and interleavings) of gateway management calls", "why_tests_cant": "unbounded histories and schedules", "anchors": ["client/pkg/fcrclient/filecoin_retrieval_client.go: AddGatewaysToUse, RemoveGatewaysToUse, AddActiveGateways, RemoveActiveGateways"]}
{"id": "C61", "title": "Establishment authenticates the gateway", "statement": "A client activates a gateway only if the response is signed with the gateway's registered key, names that gateway and echoes the fresh challenge.", "quantifier": "all responses", "why_tests_cant": "adversarial responses", "anchors": ["client/pkg/api/clientapi/establishment_requester.go: RequestEstablishment", "client/pkg/fcrclient/filecoin_retrieval_client.go: AddActiveGateways"]}
{"id": "C62", "title": "Offer acknowledgements prove publication", "statement": "When the client reports an acknowledgement found for a content identifier, gateway and provider, there is a provider-signed publication containing that identifier which the gateway has countersigned.", "quantifier": "all responses", "why_tests_cant": "adversarial responses", "anchors": ["client/pkg/fcrclient/filecoin_retrieval_client.go: FindDHTOfferAck"]}
{"id": "C63", "title": "Register service keeps the last registration per node", "statement": "After any history of registrations and delete-alls, looking up a node returns its most recent registration since the last delete-all, and listing returns exactly those.", "quantifier": "all histories", "why_tests_cant": "unbounded histories", "anchors": ["register/internal/handlers/gateways_handler.go", "register/internal/handlers/providers_handler.go"]}
{"id": "C64", "title": "A payment asks for a top-up exactly when funds are short", "statement": "After any history, paying a recipient asks for a top-up exactly when no channel to that recipient was ever funded or the unspent funds are less than the amount; otherwise the payment yields the next voucher of the lane (or a signing error).", "quantifier": "all histories of top-ups and payments, all amounts and lanes", "why_tests_cant": "unbounded histories", "anchors": ["common/pkg/fcrpaymentmgr/payment_manager.go: Pay"]}
{"id": "C65", "title": "Negative payments are refused", "statement": "The payment manager never pays a negative amount.", "quantifier": "all histories and amounts", "why_tests_cant": "sign cases over histories", "anchors": ["common/pkg/fcrpaymentmgr/payment_manager.go: Pay"]}
{"id": "C66", "title": "Every top-up executed on chain is recorded", "statement": "A top-up whose transaction executed successfully on chain is added to the recorded channel balance (and one that did not is not).", "quantifier": "all histories and chain answers", "why_tests_cant": "failures injected at every point", "anchors": ["common/pkg/fcrpaymentmgr/payment_manager.go: Topup"]}
{"id": "C67", "title": "Credited vouchers stay refused after a restart", "statement": "A voucher credited before a shutdown and restart of the node is refused afterwards.", "quantifier": "all restart points", "why_tests_cant": "crash/restart points", "anchors": ["common/pkg/fcrpaymentmgr/payment_manager.go: NewFCRPaymentMgr, Shutdown, Receive"]}
{"id": "C68", "title": "Only unconditional vouchers are credited", "statement": "A voucher carrying redemption conditions (time lock, secret, extra call, merges) is not credited as money received, and vouchers issued by Pay carry none.", "quantifier": "all vouchers", "why_tests_cant": "all field combinations", "anchors": ["common/pkg/fcrpaymentmgr/payment_manager.go: Pay, Receive"]}
{"id": "C69", "title": "Topping up does not change the configured amount", "statement": "Topping up any number of times with the configured amount leaves the configured amount as it was.", "quantifier": "all amounts and histories of top-ups", "why_tests_cant": "depends on sharing of big-integer digit buffers and their capacity", "anchors": ["common/pkg/fcrpaymentmgr/payment_manager.go: Topup", "gateway/config/config.go: Map"]}
{"id": "C70", "title": "Exactly the sound vouchers are credited", "statement": "After any history of receipts, a voucher is credited exactly when it decodes, the chain state is readable and its balance has not shrunk, this node is the channel's recipient, the channel's payer signed it, its nonce is above the last accepted one of the lane, it exceeds the highest accepted amount of the lane, and the channel can cover it; the credit is the difference.", "quantifier": "all histories of receipts and all candidates", "why_tests_cant": "unbounded adversarial histories", "anchors": ["common/pkg/fcrpaymentmgr/payment_manager.go: Receive"]}
{"id": "C71", "title": "Merkle root determines the identifiers", "statement": "Two identifier lists whose trees have the same root are the same list, or a hash collision can be exhibited.", "quantifier": "all pairs of identifier lists", "why_tests_cant": "all lengths, duplicates, adversarial lists", "anchors": ["common/pkg/fcrmerkletree/tree.go: CreateMerkleTree, GetMerkleRoot", "common/pkg/cidoffer/cidoffer.go: NewCIDOffer"]}
{"id": "C72", "title": "No proof for identifiers outside the offer", "statement": "Asking a tree for a proof of an identifier it does not contain yields a proof that does not verify (unless the identifier is the root itself).", "quantifier": "all lists, all absent identifiers", "why_tests_cant": "all lists and identifiers", "anchors": ["common/pkg/fcrmerkletree/tree.go: GenerateMerkleProof", "common/pkg/cidoffer/cidoffer.go: GenerateSubCIDOffer"]}
{"id": "C73", "title": "Checking a received Merkle proof never crashes", "statement": "Verifying any proof that can be received (any path, any index list) against any identifier and root returns true or false; it never panics.", "quantifier": "all proofs, identifiers and roots (adversarial)", "why_tests_cant": "adversarial proofs with mismatched lengths", "anchors": ["common/pkg/fcrmerkletree/proof.go: VerifyContent, UnmarshalJSON"]}
{"id": "C74", "title": "Signature text is unique", "statement": "A signature text that verifies cannot be altered into a different text that still verifies for the same key and message.", "quantifier": "all signatures, keys and messages", "why_tests_cant": "malleability over all alterations", "anchors": ["common/pkg/fcrcrypto/secp256k1.go: secp256k1Verify", "common/pkg/fcrcrypto/msg_signing.go: VerifyMessage"]}
{"id": "C75", "title": "Message wire round-trip", "statement": "Serialising any message and parsing it gives the same message: type, versions, body and signature.", "quantifier": "all messages", "why_tests_cant": "all bodies and signature texts", "anchors": ["common/pkg/fcrmessages/fcrmessage.go: FCRMsgToBytes, FCRMsgFromBytes, MarshalJSON, UnmarshalJSON"]}
{"id": "C76", "title": "Expiry is judged by time", "statement": "An offer counts as expired exactly when its expiry instant lies before the current time, for every expiry an offer can carry.", "quantifier": "all expiry values and clock values", "why_tests_cant": "boundary nanoseconds and extreme expiry values", "anchors": ["common/pkg/cidoffer/cidoffer.go: HasExpired", "common/pkg/cidoffer/subcidoffer.go: HasExpired"]}
{"id": "C77", "title": "Offer wire round-trip", "statement": "Serialising an offer or sub-offer and parsing it gives the same offer, including Merkle root and proof.", "quantifier": "all well-formed offers and sub-offers", "why_tests_cant": "all identifier lists, terms and proofs", "anchors": ["common/pkg/cidoffer/cidoffer.go: MarshalJSON, UnmarshalJSON", "common/pkg/cidoffer/subcidoffer.go: MarshalJSON, UnmarshalJSON"]}
{"id": "C78", "title": "Parsing offers never crashes", "statement": "Whatever text is received in place of an offer, parsing it either yields an offer that can be checked or reports an error; neither parsing nor checking crashes.", "quantifier": "all texts", "why_tests_cant": "adversarial texts", "anchors": ["common/pkg/cidoffer/cidoffer.go: UnmarshalJSON, Verify", "common/pkg/cid/cid.go: MapStringToCID"]}
{"id": "C79", "title": "Offers carry content", "statement": "An offer can be created exactly from a non-empty list of identifiers, and then carries the given provider, identifiers and terms, unsigned.", "quantifier": "all arguments", "why_tests_cant": "all lists", "anchors": ["common/pkg/cidoffer/cidoffer.go: NewCIDOffer"]}
{"id": "C80", "title": "Decoders never crash", "statement": "Whatever body a received message carries, the decoder of every message kind returns a value or an error.", "quantifier": "all message kinds and all bodies", "why_tests_cant": "adversarial bodies for 60 decoders", "anchors": ["common/pkg/fcrmessages: every Decode function", "common/pkg/fcrcrypto/keypair_retrieval.go: DecodePrivateKey", "common/pkg/cid/cid.go: MapStringToCID"]}
{"id": "C81", "title": "Identifiers and public keys survive JSON", "statement": "Serialising an identifier or a public key to JSON and parsing it gives it back; any text that is not a 32-byte identifier is refused; parsing never crashes.", "quantifier": "all identifiers, keys and texts", "why_tests_cant": "all texts", "anchors": ["common/pkg/nodeid/nodeid.go: MarshalJSON, UnmarshalJSON", "common/pkg/cid/cid.go: MarshalJSON, UnmarshalJSON", "common/pkg/fcrcrypto/keypair_retrieval.go: MarshalJSON, UnmarshalJSON"]}
{"id": "C82", "title": "A node identifier determines its key", "statement": "The identifier derived from a key is a fixed-size function of the public half only, and two keys with the same identifier have the same public half unless a hash collision can be exhibited.", "quantifier": "all keys", "why_tests_cant": "all pairs of keys", "anchors": ["common/pkg/nodeid/nodeid.go: NewNodeIDFromPublicKey", "common/pkg/fcrcrypto/keypair_retrieval.go: HashPublicKey"]}
{"id": "C83", "title": "Signatures can be checked against an identifier", "statement": "A signature made by a key verifies against the identifier of that key, and a signature that verifies against an identifier recovers to the public key of that identifier, unless a hash collision can be exhibited.", "quantifier": "all keys, messages and signatures", "why_tests_cant": "adversarial signatures", "anchors": ["common/pkg/fcrcrypto/keypair_retrieval.go: RetrievalV1Verify, HashPublicKey"]}
{"id": "C84", "title": "Digest lookup finds the live offer", "statement": "Looking up an offer of the provider by its message digest returns the stored offer with that digest if it has not expired, and never an expired or different one.", "quantifier": "all histories and digests", "why_tests_cant": "all histories, map orders and clock values", "anchors": ["common/pkg/fcroffermgr/offer_manager.go: GetOfferByDigest", "common/pkg/fcroffermgr/offer_storage.go: GetByDigest"]}
{"id": "C85", "title": "Range queries return the nearest live single offers", "statement": "Asking the provider for the single offers between two identifiers returns those that have not expired, by clockwise distance from the first identifier, each once and at most as many as asked.", "quantifier": "all histories and ranges", "why_tests_cant": "wrap-around ranges, stale ring entries, limits", "anchors": ["common/pkg/fcroffermgr/offer_manager.go: GetDHTOffersWithinRange", "common/pkg/dhtring/dhtring.go: GetWithinRange"]}
{"id": "C86", "title": "Each request kind reaches its own handler", "statement": "On the interfaces a gateway or provider sets up at start, every request that the node offers to serve is handled by the handler of that request kind, and administration requests are never handled on the public or peer interfaces.", "quantifier": "all request kinds, interfaces and handler behaviours", "why_tests_cant": "60 message kinds on six interfaces, shared type numbers", "anchors": ["gateway/cmd/gateway/main.go: startGateway", "provider/cmd/provider/main.go: main", "common/pkg/fcrmessages/fcrmessage.go: message type constants"]}
{"id": "C87", "title": "A failed request does not take the node down", "statement": "Whatever requests run concurrently and whichever of them fail, a failing connection only makes its own requests fail; the process keeps running.", "quantifier": "all interleavings of requests and failures", "why_tests_cant": "schedules in which one request closes a connection another one is about to use", "anchors": ["common/pkg/fcrp2pserver/pool.go: removeActiveGateway, removeActiveProvider", "common/pkg/fcrp2pserver/server.go: requestGatewayFromGateway", "common/pkg/fcrp2pserver/tcp_comms.go: sendTCPMessage, readTCPMessage"]}
{"id": "C88", "title": "Decoders refuse wrongly typed bodies", "statement": "A decoder accepts a message only if every entry of its body that is named like one of its fields has the JSON type of that field, with integers within the range of the Go type.", "quantifier": "all message kinds and bodies", "why_tests_cant": "adversarial bodies for 60 decoders", "anchors": ["common/pkg/fcrmessages: every Decode function"]}
{"id": "C89", "title": "Stopping a node leaves other registrations alone", "statement": "When a node, or a client, shuts down its register manager, the registrations of other nodes stay in the register.", "quantifier": "all manager states", "why_tests_cant": "effects on a shared service", "anchors": ["common/pkg/fcrregistermgr/register_manager.go: Shutdown, shutdownGateways, shutdownProviders"]}
{"id": "C90", "title": "CID range spans the nearest gateways", "statement": "The content range of a gateway runs from the first to the last of the gateways nearest to it, and is defined whenever the gateway has neighbours.", "quantifier": "all sets of registered gateways and histories", "why_tests_cant": "all rings, wrap-around", "anchors": ["common/pkg/fcrregistermgr/register_manager.go: GetGatewayCIDRange"]}
{"id": "C91", "title": "Refresh waits for a new pull", "statement": "A forced refresh returns only after a pull from the register that began after the refresh was asked for, and concurrent refreshes all return.", "quantifier": "all interleavings of refreshes, rounds and timer events", "why_tests_cant": "schedules", "anchors": ["common/pkg/fcrregistermgr/register_manager.go: Refresh, updateGateways"]}
{"id": "C92", "title": "Ring changes exclude each other", "statement": "While one goroutine changes the ring or the maps of the register manager, no other one reads or changes them.", "quantifier": "all interleavings of calls", "why_tests_cant": "schedules; data races", "anchors": ["common/pkg/fcrregistermgr/register_manager.go: GetGatewaysNearCID, updateGateways", "common/pkg/dhtring/dhtring.go: GetClosest"]}
{"id": "C93", "title": "Gateway range lookup returns the stored offers in the range", "statement": "After any history of storing offers in the gateway's database, asking for the offers between two identifiers returns each stored unexpired offer having an identifier in the (wrapping) range exactly once, and no more than the given maximum of offers.", "quantifier": "all histories, ranges, maxima", "why_tests_cant": "text comparison in SQL standing in for number comparison; unbounded histories", "anchors": ["common/pkg/offermgr/offer_manager.go: GetDHTOffersWithinRange, selectOffersRange"]}
{"id": "C94", "title": "No reputation event crashes the gateway or is lost", "statement": "However many goroutines report events, establish clients and set reputations at once, none of these operations panics and the result is that of performing them one after the other in some order.", "quantifier": "all interleavings of operations", "why_tests_cant": "schedules; unbounded numbers of goroutines", "anchors": ["gateway/internal/reputation/reputation.go", "gateway/internal/reputation/reputation_store.go: changeClientReputation"]}
{"id": "C95", "title": "A gateway stores only offers vetted by a registered provider", "statement": "Over any history of requests, every offer a gateway tries to store was contained in a publish request that names a provider registered at that time, is signed with the registered key of that provider, and the offer itself is signed with that key.", "quantifier": "all histories of requests of all kinds, all changes of the register", "why_tests_cant": "unbounded histories, forged messages", "anchors": ["gateway/internal/api/providerapi/publish_group_offer_handler.go: HandleProviderPublishGroupOfferRequest", "gateway/internal/api/providerapi/publish_dht_offer_handler.go: HandleProviderPublishDHTOfferRequest"]}
{"id": "C96", "title": "Sub-offers a gateway serves pass the checks of the client", "statement": "Every sub-offer a gateway returns carries the signature of a provider registered when the offer was published, and a Merkle proof that the requested identifier is in the offer.", "quantifier": "all histories of requests and all later requests", "why_tests_cant": "unbounded histories; needs publication, storage and serving together", "anchors": ["gateway/internal/api/clientapi/standard_discover_handler.go", "gateway/internal/api/clientapi/standard_discover_offer_handler.go", "gateway/internal/api/gatewayapi/dht_discover_handler.go"]}
{"id": "C97", "title": "An acknowledged publication is found", "statement": "An offer whose publication a gateway acknowledged is found by every later lookup of one of its identifiers until it expires.", "quantifier": "all histories before and after, all database failures", "why_tests_cant": "unbounded histories; failures between statements", "anchors": ["gateway/internal/api/providerapi/publish_group_offer_handler.go", "gateway/internal/api/providerapi/publish_dht_offer_handler.go", "common/pkg/offermgr/offer_manager.go"]}
{"id": "C98", "title": "Acknowledgements commit the gateway", "statement": "The acknowledgement of a group offer carries the gateway identifier and the digest of the offer; that of DHT offers carries the nonce and a signature of the gateway over the body of the request, and is only given after all offers of the request went through storing.", "quantifier": "all publish requests", "why_tests_cant": "all requests and failures", "anchors": ["gateway/internal/api/providerapi/publish_group_offer_handler.go", "gateway/internal/api/providerapi/publish_dht_offer_handler.go"]}
{"id": "C99", "title": "Relayed answers come from the gateways they are attributed to", "statement": "When a gateway relays discovery, each gateway near the identifier is reported as either contacted or not, and each answer passed on is signed with the registered key of the gateway it is attributed to.", "quantifier": "all requests, networks and registers", "why_tests_cant": "all peer behaviours", "anchors": ["gateway/internal/api/clientapi/dht_discover_handler.go", "gateway/internal/api/clientapi/dht_discover_handler_v2.go", "gateway/internal/api/clientapi/dht_discover_offer_handler.go", "gateway/internal/api/gatewayapi/dht_discover_requester.go"]}
{"id": "C100", "title": "Relayed requests are paid exactly", "statement": "For a relayed paid request the gateway pays each gateway it selects exactly once, price times quantity, at its registered address, and the request carries the voucher of that payment.", "quantifier": "all requests, chains and payment histories", "why_tests_cant": "all combinations of top-ups and payments", "anchors": ["gateway/internal/api/clientapi/dht_discover_handler_v2.go", "gateway/internal/api/clientapi/dht_discover_offer_handler.go"]}
{"id": "C101", "title": "Only gateways that are asked are paid", "statement": "A gateway relaying a paid request pays only gateways to which it then sends the request.", "quantifier": "all requests and networks", "why_tests_cant": "network failures between payment and request", "anchors": ["gateway/internal/api/clientapi/dht_discover_handler_v2.go", "gateway/internal/api/clientapi/dht_discover_offer_handler.go"]}
{"id": "C102", "title": "Requests between gateways are authenticated", "statement": "A gateway answers a request of another gateway only if the request is signed with the registered key of the gateway it names.", "quantifier": "all requests", "why_tests_cant": "forged requests", "anchors": ["gateway/internal/api/gatewayapi/dht_discover_handler.go", "gateway/internal/api/gatewayapi/dht_discover_handler_v2.go", "gateway/internal/api/gatewayapi/dht_discover_offer_handler.go"]}
{"id": "C103", "title": "A stored offer belongs to its publisher", "statement": "The provider named in an offer a gateway stores is the provider whose registered key signed it.", "quantifier": "all publish requests", "why_tests_cant": "malicious providers", "anchors": ["gateway/internal/api/providerapi/publish_group_offer_handler.go", "gateway/internal/api/providerapi/publish_dht_offer_handler.go"]}
{"id": "C104", "title": "Acknowledgements a provider keeps are genuine and complete", "statement": "An acknowledgement a provider keeps for a content identifier and a gateway is a publication of an offer for that identifier together with a signature of it by the gateway's registered key, and one is kept for every publication a registered gateway accepted, whatever happens afterwards.", "quantifier": "all lives of a provider", "why_tests_cant": "adversarial responses over unbounded histories", "anchors": ["provider/internal/api/providerapi/publish_dht_offer_requester.go", "provider/internal/api/gatewayapi/list_dht_offer_handler.go"]}
{"id": "C105", "title": "Clients are shown the acknowledgement kept", "statement": "A client asking a provider for the acknowledgement of an identifier by a gateway gets a signed answer with exactly the request and acknowledgement kept for them, or the statement that there is none.", "quantifier": "all lives and requests", "why_tests_cant": "all acknowledgement tables", "anchors": ["provider/internal/api/clientapi/dht_offer_ack_handler.go"]}
{"id": "C106", "title": "Publication requests carry exactly what was ordered", "statement": "Every request a provider sends to a gateway is signed with its key and carries exactly the offers, with the identifiers, prices, expiries and qualities of service, that the administrator asked to publish in the request being served.", "quantifier": "all lives of a provider", "why_tests_cant": "slice indices and loop variables for all sizes of the request", "anchors": ["provider/internal/api/adminapi/publish_dht_offer_handler.go", "provider/internal/api/adminapi/publish_group_offer_handler.go"]}
{"id": "C107", "title": "Single offers go to the gateways nearest to their identifier", "statement": "Each offer published for a single content identifier is sent to the 16 gateways nearest to that identifier, and to no other.", "quantifier": "all registers and requests", "why_tests_cant": "all placements of gateways on the ring", "anchors": ["provider/internal/api/adminapi/publish_dht_offer_handler.go"]}
{"id": "C108", "title": "Group offers go to all gateways", "statement": "A group offer is sent to every reachable gateway that the register manager knows.", "quantifier": "all registers and requests", "why_tests_cant": "all registers", "anchors": ["provider/internal/api/adminapi/publish_group_offer_handler.go"]}
{"id": "C109", "title": "The administrator is told the truth about publication", "statement": "If the administrator is told that an offer was published then at least one gateway acknowledged it.", "quantifier": "all requests and networks", "why_tests_cant": "network failures", "anchors": ["provider/internal/api/adminapi/publish_dht_offer_handler.go", "provider/internal/api/adminapi/publish_group_offer_handler.go"]}
{"id": "C110", "title": "The administrator is shown exactly what is published", "statement": "An administrator asking for what is published at given gateways gets exactly the offers recorded as published there, in order, all of which the administrator had ordered.", "quantifier": "all lives and requests", "why_tests_cant": "unbounded histories", "anchors": ["provider/internal/api/adminapi/get_published_offer_handler.go"]}
{"id": "C111", "title": "Failed initialisation leaves the provider's identity alone", "statement": "A request that a provider answers with an error, and any request other than an initialisation, leaves its identifier, signing key and key version unchanged.", "quantifier": "all requests and states", "why_tests_cant": "failures in the middle of an initialisation", "anchors": ["provider/internal/api/adminapi/initialise_key_handler.go", "provider/internal/api/adminapi/initialise_key_handler_v2.go"]}
{"id": "C112", "title": "Publication works end to end", "statement": "If a gateway replies to a publication request of a provider as its handler does, with its registered key, then the offer is in the gateway's database and the provider records it as published there, with an acknowledgement for a single offer.", "quantifier": "all pairs of a life of a provider and a gateway", "why_tests_cant": "two programs and their wire format at once", "anchors": ["provider/internal/api/providerapi/publish_dht_offer_requester.go", "provider/internal/api/providerapi/publish_group_offer_requester.go", "gateway/internal/api/providerapi/publish_dht_offer_handler.go", "gateway/internal/api/providerapi/publish_group_offer_handler.go"]}
{"id": "C113", "title": "Whatever a gateway stores came from a registered provider", "statement": "Over any life of a gateway, its own listings of providers and administration included, every offer it tries to store was published by a provider registered at that time, or listed by the registered provider asked, with signatures of that provider on response, message and offer.", "quantifier": "all lives, all changes of the register", "why_tests_cant": "unbounded histories over all entry points", "anchors": ["gateway/internal/api/gatewayapi/list_dht_offer_requester.go: RequestListCIDOffer", "gateway/internal/api/providerapi/publish_dht_offer_handler.go", "gateway/internal/api/providerapi/publish_group_offer_handler.go"]}
{"id": "C114", "title": "What a gateway acknowledges in a listing is stored", "statement": "The acknowledgement of a listing has a signature of the gateway for exactly the messages in it that the provider signed, and the offers in these are stored.", "quantifier": "all responses of providers and database failures", "why_tests_cant": "adversarial responses", "anchors": ["gateway/internal/api/gatewayapi/list_dht_offer_requester.go: RequestListCIDOffer"]}
{"id": "C115", "title": "Listing works end to end", "statement": "If a provider answers the listing of a gateway as its handler does, and gets the acknowledgement the gateway then sends, the provider keeps an acknowledgement of that gateway for each offer listed and the gateway stores those offers.", "quantifier": "all lives of the provider, all states of the gateway", "why_tests_cant": "two programs and their wire format at once", "anchors": ["gateway/internal/api/gatewayapi/list_dht_offer_requester.go", "provider/internal/api/gatewayapi/list_dht_offer_handler.go"]}
{"id": "C116", "title": "Providers learn which group offers a gateway takes", "statement": "When the administrator says whose group offers a gateway takes, the gateway notifies the providers it knows, and answers with the response documented for the request.", "quantifier": "all requests and registers", "why_tests_cant": "needs the requester chosen for the request", "anchors": ["gateway/internal/api/adminapi/set_group_cid_support.go", "gateway/internal/api/gatewayapi/set_group_cid_support.go", "common/pkg/fcrp2pserver/server.go: RequestProvider"]}
{"id": "C117", "title": "Only a successful initialisation changes who a gateway is", "statement": "Identifier, signing key and key version of a gateway are those of the last initialisation that was answered without an error; requests answered with an error change nothing.", "quantifier": "all events and states", "why_tests_cant": "failures in the middle of an initialisation", "anchors": ["gateway/internal/api/adminapi/initialise_key_handler.go", "gateway/internal/api/adminapi/initialise_key_handler_v2.go"]}
{"id": "C118", "title": "A gateway takes a voucher at most once", "statement": "In the life of a gateway, the vouchers credited on one lane of a channel are for ever larger amounts; none is credited twice.", "quantifier": "all lives and vouchers", "why_tests_cant": "unbounded lives mixing all requests", "anchors": ["gateway/internal/api/clientapi", "gateway/internal/api/adminapi/initialise_key_handler_v2.go", "common/pkg/fcrpaymentmgr/payment_manager.go: Receive"]}
{"id": "C119", "title": "A gateway never credits more than the channel holds", "statement": "The amounts credited on a channel during the life of a gateway are, in sum, on the chain at some time of it.", "quantifier": "all lives", "why_tests_cant": "unbounded lives mixing all requests", "anchors": ["gateway/internal/api/clientapi", "gateway/internal/api/gatewayapi", "common/pkg/fcrpaymentmgr/payment_manager.go: Receive"]}
{"id": "C120", "title": "A gateway never overdraws its own channels", "statement": "In the life of a gateway, what it has promised on a channel to another node is never more than it has put into it.", "quantifier": "all lives, initialisations included", "why_tests_cant": "unbounded lives, failures of top-ups and payments", "anchors": ["gateway/internal/api/clientapi/dht_discover_handler_v2.go", "gateway/internal/api/clientapi/dht_discover_offer_handler.go", "common/pkg/fcrpaymentmgr/payment_manager.go: Pay, Topup"]}
{"id": "C121", "title": "The administrator makes a gateway list all providers", "statement": "If the administrator asks a gateway to list offers and is told that it does, every provider it knows is asked, once, for the offers of its range.", "quantifier": "all requests and registers", "why_tests_cant": "all registers and iteration orders", "anchors": ["gateway/internal/api/adminapi/list_dht_offer_handler.go", "common/pkg/fcrregistermgr/register_manager.go: GetGatewayCIDRange, GetAllProviders"]}
{"id": "C122", "title": "Gateways a client uses are registered", "statement": "Every gateway a client uses was registered at the time it was added, with all fields filled in and readable keys; the settings of a client never change.", "quantifier": "all lives of a client, register contents and answers", "why_tests_cant": "unbounded lives", "anchors": ["client/pkg/fcrclient/filecoin_retrieval_client.go: AddGatewaysToUse, RemoveGatewaysToUse", "client/pkg/fcrclient/register_validation.go"]}
{"id": "C123", "title": "Counts of gateways added and removed are exact", "statement": "The number returned by adding, removing, activating or deactivating gateways is the change of the set of gateways in use or active, exactly the gateways named are affected, and nothing else takes a gateway out of use.", "quantifier": "all lives and argument lists, repeated and unknown identifiers included", "why_tests_cant": "unbounded lists and lives", "anchors": ["client/pkg/fcrclient/filecoin_retrieval_client.go: AddGatewaysToUse, RemoveGatewaysToUse, AddActiveGateways, RemoveActiveGateways"]}
{"id": "C124", "title": "A client pays only the gateway it asks, at its own prices", "statement": "Every payment a discovery makes goes to the gateway asked, for searches at the configured price and for at most as many offers as allowed, and every request sent carries the voucher of such a payment.", "quantifier": "all answers of gateways and of the chain", "why_tests_cant": "all interactions with a gateway that cheats", "anchors": ["client/pkg/fcrclient/filecoin_retrieval_client.go: FindOffersStandardDiscoveryV2, FindOffersDHTDiscoveryV2, topupAndPay"]}
{"id": "C125", "title": "Returned offers are for the content asked and live", "statement": "Every offer returned by a discovery is for the content asked and has not expired.", "quantifier": "all answers of gateways", "why_tests_cant": "a gateway may answer anything", "anchors": ["client/pkg/fcrclient/filecoin_retrieval_client.go", "client/pkg/api/clientapi"]}
{"id": "C126", "title": "Gateways are found by region up to a number", "statement": "FindGateways returns the first gateways of the region, at most as many as asked, and all of them if there are fewer.", "quantifier": "all registers, iteration orders, regions and numbers", "why_tests_cant": "all registers and numbers", "anchors": ["client/pkg/fcrclient/filecoin_retrieval_client.go: FindGateways"]}
{"id": "C127", "title": "Calls of the client library return", "statement": "No call of the client library panics or hangs, whatever gateways answer.", "quantifier": "all answers and arguments", "why_tests_cant": "a gateway may answer anything", "anchors": ["client/pkg/fcrclient/filecoin_retrieval_client.go", "client/pkg/api/clientapi"]}
{"id": "C128", "title": "Overlapping calls that manage gateways finish", "statement": "However calls that add, remove, activate and deactivate gateways overlap, none waits for ever.", "quantifier": "all numbers of goroutines and all schedules", "why_tests_cant": "unbounded schedules", "anchors": ["client/pkg/fcrclient/filecoin_retrieval_client.go: GatewaysToUseLock, ActiveGatewaysLock"]}
{"id": "C129", "title": "Registrations reach every manager as they were sent", "statement": "A node that refreshes its register manager from the register service knows each node by the registration it sent last, field by field; nodes not registered it knows as before.", "quantifier": "all registrations, histories and managers", "why_tests_cant": "three programs and two encodings at once", "anchors": ["register/internal/handlers", "common/pkg/register/gateway_register.go", "common/pkg/register/provider_register.go", "common/pkg/fcrregistermgr/register_manager.go"]}
{"id": "C130", "title": "A confirmed registration is found until replaced or deleted", "statement": "Once the register service has confirmed a registration, every lookup it then serves finds it, however requests overlap and whichever commands to the store fail, unless nodes of its kind are deleted or one with its identifier is registered.", "quantifier": "all requests, schedules and failures", "why_tests_cant": "unbounded schedules", "anchors": ["register/internal/handlers"]}
{"id": "C131", "title": "Deleting all nodes is one step", "statement": "A deletion of all gateways or providers that is acknowledged removes those registered at some one moment while it was served, and no others.", "quantifier": "all requests, schedules and failures", "why_tests_cant": "interleavings of handlers between commands to the store", "anchors": ["register/internal/handlers/gateways_handler.go: DeleteGatewayRegisters", "register/internal/handlers/providers_handler.go: DeleteProviderRegisters"]}
{"id": "C132", "title": "The register invents nothing", "statement": "Every node that the register service finds or lists was registered by a request that was received before, under the identifier asked for, and each identifier is listed once.", "quantifier": "all requests, schedules and failures", "why_tests_cant": "unbounded schedules and failures in the middle of a request", "anchors": ["register/internal/handlers"]}
{"id": "C133", "title": "Gateways and providers are registered apart", "statement": "What the register service answers about gateways does not depend on any requests about providers, and the other way round.", "quantifier": "all requests, schedules and failures", "why_tests_cant": "non-interference over unbounded histories", "anchors": ["register/internal/handlers"]}
{"id": "C134", "title": "A node that is told it is registered is", "statement": "If registering reports no error then the register service has stored the registration.", "quantifier": "all requests, schedules and failures", "why_tests_cant": "failures of the store", "anchors": ["common/pkg/register/gateway_register.go: RegisterGateway", "common/pkg/register/provider_register.go: RegisterProvider", "common/pkg/request/request.go: SendJSON", "register/internal/handlers"]}
{"id": "C135", "title": "A client that pays for digests gets these offers", "statement": "A client asking a gateway for offers by digest and paying its price for each gets exactly these offers, restricted to the content asked, or is told that it paid too little.", "quantifier": "all databases, requests and vouchers", "why_tests_cant": "all contents of the database", "anchors": ["gateway/internal/api/clientapi/standard_discover_offer_handler.go", "common/pkg/fcroffermgr/offer_manager.go: GetOfferByDigest"]}
{"id": "C136", "title": "An administrator's call asks its node for exactly that", "statement": "A call of the administrators' libraries sends at most one request; it goes to the administration address of the node meant, is signed with the administrator's key, and says what the arguments say.  A node that is not in use is not asked.", "quantifier": "all calls, arguments and states", "why_tests_cant": "all arguments of 13 calls and their encodings", "anchors": ["gateway-admin/pkg/fcrgatewayadmin/filecoin-gateway-admin.go", "provider-admin/pkg/fcrprovideradmin/filecoin_provider_admin.go", "gateway-admin/pkg/api/adminapi", "provider-admin/pkg/api/adminapi"]}
{"id": "C137", "title": "An administrator is told of success only by the node", "statement": "A call reports success, a reputation or offers only if a response signed with the key registered for the node says so; the values returned are those of the response.", "quantifier": "all calls and all responses", "why_tests_cant": "a network may answer anything", "anchors": ["gateway-admin/pkg/fcrgatewayadmin/filecoin-gateway-admin.go", "provider-admin/pkg/fcrprovideradmin/filecoin_provider_admin.go", "gateway-admin/pkg/api/adminapi", "provider-admin/pkg/api/adminapi"]}
{"id": "C138", "title": "The nodes in use are those initialised", "statement": "After any calls, the nodes an administrator can address by identifier are exactly those put into use by a successful call, each with its last registration; the administrator's key does not change.", "quantifier": "all sequences of calls, each with any network", "why_tests_cant": "unbounded histories", "anchors": ["gateway-admin/pkg/fcrgatewayadmin/filecoin-gateway-admin.go", "provider-admin/pkg/fcrprovideradmin/filecoin_provider_admin.go"]}
{"id": "C139", "title": "Initialising a gateway works end to end", "statement": "Initialising a reachable gateway with the key it is registered with, in either version, succeeds: the gateway takes over identifier, key and version, in the second version a payment manager for the wallet, and nothing else changes.", "quantifier": "all states of the gateway, keys and registrations", "why_tests_cant": "two programs and their wire format at once", "anchors": ["gateway-admin/pkg/fcrgatewayadmin/filecoin-gateway-admin.go: InitialiseGateway, InitialiseGatewayV2", "gateway-admin/pkg/api/adminapi/initialise_key_requester.go", "gateway/internal/api/adminapi/initialise_key_handler.go", "gateway/internal/api/adminapi/initialise_key_handler_v2.go"]}
{"id": "C140", "title": "Initialising a provider works end to end", "statement": "Initialising a reachable provider with the key it is registered with, in either version, succeeds: the provider takes over identifier, key and version and nothing else changes.", "quantifier": "all states of the provider, keys and registrations", "why_tests_cant": "two programs and their wire format at once", "anchors": ["provider-admin/pkg/fcrprovideradmin/filecoin_provider_admin.go: InitialiseProvider, InitialiseProviderV2", "provider-admin/pkg/api/adminapi/initialise_key_requester.go", "provider/internal/api/adminapi/initialise_key_handler.go", "provider/internal/api/adminapi/initialise_key_handler_v2.go"]}
{"id": "C141", "title": "A failed initialisation leaves the node as it was", "statement": "A node takes over the identity that an administrator sends if and only if the administrator is told of success.", "quantifier": "all nodes, keys, wallets and registrations", "why_tests_cant": "failures after the change", "anchors": ["gateway-admin/pkg/fcrgatewayadmin/filecoin-gateway-admin.go", "provider-admin/pkg/fcrprovideradmin/filecoin_provider_admin.go", "gateway/internal/api/adminapi", "provider/internal/api/adminapi"]}
{"id": "C142", "title": "A node that was initialised can be administered", "statement": "After a successful initialisation, calls with the identifier of the node reach it.", "quantifier": "all registrations", "why_tests_cant": "all spellings of an identifier", "anchors": ["gateway-admin/pkg/fcrgatewayadmin/filecoin-gateway-admin.go: ForceUpdate, ListDHTOffer", "provider-admin/pkg/fcrprovideradmin/filecoin_provider_admin.go: ForceUpdate, PublishGroupCID"]}
{"id": "C143", "title": "A refresh that is confirmed took place", "statement": "If the administrator is told that a node was refreshed, the node knows every gateway and provider that the register lists.", "quantifier": "all nodes, registers and failures", "why_tests_cant": "failures of a third service", "anchors": ["gateway-admin/pkg/fcrgatewayadmin/filecoin-gateway-admin.go: ForceUpdate", "provider-admin/pkg/fcrprovideradmin/filecoin_provider_admin.go: ForceUpdate", "gateway/internal/api/adminapi/force_refresh_handler.go", "provider/internal/api/adminapi/force_refresh_handler.go", "common/pkg/fcrregistermgr/register_manager.go: Refresh"]}
{"id": "C144", "title": "Administrators set and read reputations", "statement": "Setting the reputation of a client known to a gateway succeeds, changes this reputation only, and reading it then gives the value set; for unknown clients both fail and nothing changes.", "quantifier": "all gateways, clients and values", "why_tests_cant": "two programs and their wire format at once", "anchors": ["gateway-admin/pkg/api/adminapi/set_reputation_requester.go", "gateway-admin/pkg/api/adminapi/get_reputation_requester.go", "gateway-admin/pkg/fcrgatewayadmin/filecoin-gateway-admin.go: SetClientReputation, ResetClientReputation", "gateway/internal/api/adminapi"]}
{"id": "C145", "title": "Administrators choose whose group offers are taken", "statement": "Changing the providers whose group offers a gateway takes is reported as done if and only if the gateway has taken over the list.", "quantifier": "all gateways and lists", "why_tests_cant": "two programs and their wire format at once", "anchors": ["gateway-admin/pkg/fcrgatewayadmin/filecoin-gateway-admin.go: UpdateGatewaySupportedFeatures", "gateway-admin/pkg/api/adminapi/set_group_cid_support.go", "gateway/internal/api/adminapi/set_group_cid_support.go"]}
{"id": "C146", "title": "Administrators see what is published end to end", "statement": "An administrator asking a provider in use for the offers published at some gateways gets exactly these, all of which had been ordered.", "quantifier": "all lives of the provider and all lists of gateways", "why_tests_cant": "two programs and their wire format at once", "anchors": ["provider-admin/pkg/fcrprovideradmin/filecoin_provider_admin.go: GetGroupCIDOffer", "provider-admin/pkg/api/adminapi/get_published_offer_requester.go", "provider/internal/api/adminapi/get_published_offer_handler.go"]}
{"id": "C147", "title": "Publishing is reported only when the provider did it", "statement": "If publishing an offer is reported as done, the provider in use has served a request to publish exactly the identifiers, prices, expiry dates and qualities given.", "quantifier": "all offers and states of the provider", "why_tests_cant": "two programs and their wire format at once", "anchors": ["provider-admin/pkg/fcrprovideradmin/filecoin_provider_admin.go: PublishGroupCID, PublishDHTCID", "provider-admin/pkg/api/adminapi", "provider/internal/api/adminapi"]}
{"id": "C148", "title": "Calls of the administrators' libraries return", "statement": "No call of the administrators' libraries panics, whatever nodes answer and whatever the registration says.", "quantifier": "all calls, responses and registrations", "why_tests_cant": "a node may answer anything", "anchors": ["gateway-admin/pkg/fcrgatewayadmin/filecoin-gateway-admin.go", "provider-admin/pkg/fcrprovideradmin/filecoin_provider_admin.go", "gateway-admin/pkg/api/adminapi", "provider-admin/pkg/api/adminapi"]}
{"id": "C149", "title": "Nodes obey only their administrator", "statement": "A gateway or provider changes nothing on an administration request that was not signed by its administrator.", "quantifier": "all requests and states", "why_tests_cant": "needs a request no administrator would send", "anchors": ["gateway/internal/api/adminapi", "provider/internal/api/adminapi"]}
{"id": "C150", "title": "Administrators use the key they were given", "statement": "Settings that were built have the blockchain key, register address and administrator's key and version given, or else a new key with version 1; without a blockchain key nothing is built.", "quantifier": "all settings", "why_tests_cant": "all combinations of settings", "anchors": ["gateway-admin/pkg/fcrgatewayadmin/builder.go: Build", "provider-admin/pkg/fcrprovideradmin/builder.go: Build"]}
{"id": "C151", "title": "A reachable gateway in use becomes active", "statement": "Adding a gateway in use to the active ones succeeds when its registration has its identifier and key and the request reaches it before it expires; the gateway does not change.", "quantifier": "all clients, gateways, registrations and challenges", "why_tests_cant": "two programs and their wire format at once", "anchors": ["client/pkg/fcrclient/filecoin_retrieval_client.go: AddActiveGateways", "client/pkg/api/clientapi/establishment_requester.go", "gateway/internal/api/clientapi/establishment_handler.go"]}
{"id": "C152", "title": "Discovery returns what the gateway has", "statement": "A client asking an active, reachable gateway for the offers of a content gets exactly those in the gateway's database that list the content and have not expired, each reduced to the content.", "quantifier": "all databases, contents and clients", "why_tests_cant": "two programs, a database and a wire format at once", "anchors": ["client/pkg/fcrclient/filecoin_retrieval_client.go: FindOffersStandardDiscovery", "client/pkg/api/clientapi/standard_discover_requester.go", "gateway/internal/api/clientapi/standard_discover_handler.go"]}
{"id": "C153", "title": "Paid discovery delivers and charges exactly", "statement": "A client whose prices are at least the gateway's and whose channel, or top-up for a channel, covers them gets the first offers on sale up to its maximum, except those that do not verify; the channel loses the price of the search and of each offer bought, and both sides count the same money afterwards.", "quantifier": "all databases, prices, channels and clients", "why_tests_cant": "three requests, two ledgers and a database at once", "anchors": ["client/pkg/fcrclient/filecoin_retrieval_client.go: FindOffersStandardDiscoveryV2", "client/pkg/api/clientapi/standard_discover_requester_v2.go", "client/pkg/api/clientapi/standard_discover_offer_requester.go", "gateway/internal/api/clientapi/standard_discover_handler_v2.go", "gateway/internal/api/clientapi/standard_discover_offer_handler.go", "common/pkg/fcrpaymentmgr/payment_manager.go"]}
{"id": "C154", "title": "What paying too little costs", "statement": "A client that pays less than a gateway's price for a search loses exactly the payment, or twice the payment and a top-up locked in the channel when it can top up, and gets no offers; in the second case the call reports success.", "quantifier": "all databases, prices, channels and clients", "why_tests_cant": "four requests, two ledgers and a chain at once", "anchors": ["client/pkg/fcrclient/filecoin_retrieval_client.go: FindOffersStandardDiscoveryV2", "gateway/internal/api/clientapi/standard_discover_handler_v2.go", "common/pkg/fcrpaymentmgr/payment_manager.go"]}
{"id": "C155", "title": "Discovery through other gateways returns what the nearest have", "statement": "A client asking an active, reachable gateway to ask others gets, for each of the gateways nearest to the content that answers, exactly the unexpired offers in that gateway's database for the content, except those that do not verify, and nothing else; neither database nor ledger of the gateway asked changes.", "quantifier": "all databases, contents, clients and sets of gateways of which any may be silent; no lookup may hit a fault of the ring and gateways that answer know and are known", "why_tests_cant": "any number of programs, a ring, databases and a wire format at once", "anchors": ["client/pkg/fcrclient/filecoin_retrieval_client.go: FindOffersDHTDiscovery", "client/pkg/api/clientapi/dht_discover_requester.go", "gateway/internal/api/clientapi/dht_discover_handler.go", "gateway/internal/api/gatewayapi/dht_discover_handler.go", "gateway/internal/api/gatewayapi/dht_discover_requester.go"]}
{"id": "C156", "title": "A group offer that is published is found", "statement": "A provider ordered to publish a group offer sends it to a gateway it knows; a working gateway that knows the provider and has no offer of the same digest keeps it, and until the offer expires every client that has the gateway active and knows the provider finds it there under each of its contents, verifying.", "quantifier": "all lives of the provider, states of the gateway, later clients and contents; prices, qualities and numbers of contents below 2^63", "why_tests_cant": "three programs, a database and two wire formats at once", "anchors": ["provider/internal/api/adminapi/publish_group_offer_handler.go", "gateway/internal/api/providerapi", "client/pkg/fcrclient/filecoin_retrieval_client.go: FindOffersStandardDiscovery", "gateway/internal/api/clientapi/standard_discover_handler.go"]}
{"id": "C157", "title": "An offer published to the nearest gateways is found through any gateway", "statement": "A provider ordered to publish an offer for one content to the nearest gateways sends it to the 16 nearest; if these work, know the provider and have no offer of the same digest, then until the offer expires a client asking any gateway with the same view of the network to ask up to 14 of the nearest others gets the offer from every one of these that answers.", "quantifier": "all lives of the provider, networks of 16 gateways or more, contents, clients and gateways asked, of which any may be silent", "why_tests_cant": "any number of programs, rings, databases and wire formats at once", "anchors": ["provider/internal/api/adminapi/publish_dht_offer_handler.go", "gateway/internal/api/providerapi", "common/pkg/dhtring", "client/pkg/fcrclient/filecoin_retrieval_client.go: FindOffersDHTDiscovery", "gateway/internal/api/clientapi/dht_discover_handler.go"]}
{"id": "C158", "title": "A gateway charges the price configured", "statement": "A gateway charges the search and offer prices in its environment; a price that cannot be read is replaced by the default and no price is negative.", "quantifier": "all environments and all lives of the gateway", "why_tests_cant": "all texts a price may be written as", "anchors": ["gateway/config/config.go: Map", "gateway/internal/api/clientapi/standard_discover_handler_v2.go"]}
{"id": "C159", "title": "Timeouts and intervals are those configured", "statement": "A duration in the environment of a gateway or provider is taken over exactly, in nanoseconds; one that cannot be read is replaced by the default and none is zero or negative.", "quantifier": "all environments", "why_tests_cant": "all texts a duration may be written as", "anchors": ["gateway/config/config.go: Map", "provider/config/config.go: Map"]}
{"id": "C160", "title": "The register is read at the interval configured", "statement": "A gateway reads the register at the interval that its environment configures.", "quantifier": "all environments", "why_tests_cant": "would have to wait and watch", "anchors": ["gateway/config/config.go: Map", "gateway/cmd/gateway/main.go: main"]}
{"id": "C161", "title": "Nodes start whatever the environment", "statement": "A gateway or provider starts, whatever its environment says, and offers its services at the addresses configured.", "quantifier": "all environments", "why_tests_cant": "all texts of all variables", "anchors": ["gateway/config/config.go: Map", "provider/config/config.go: Map"]}
{"id": "C162", "title": "A refreshed environment file says what its source says", "statement": "After a run of make-env-file that may overwrite, the environment file has the settings of its source; without leave to overwrite a file that exists stays as it is, and a missing one is copied.", "quantifier": "all files", "why_tests_cant": "all contents of two files", "anchors": ["{gateway,provider,register}/scripts/make-env-file/main.go: main, MakeEnv"]}
{"id": "C163", "title": "The comparison of environment files reports what differs", "statement": "make-env-file reports as equal, different and missing exactly the settings that are.", "quantifier": "all files", "why_tests_cant": "all contents of two files", "anchors": ["{gateway,provider,register}/scripts/make-env-file/main.go: CheckEnv, GetConfigDiff"]}
{"id": "C164", "title": "Random bytes are filled in, however they are drawn", "statement": "A generator fills in as many bytes as asked for; drawing whole blocks and then the rest gives the same as drawing all at once.", "quantifier": "all generators and lengths", "why_tests_cant": "all lengths and states", "anchors": ["common/pkg/fcrcrypto/prng.go: ReadBytes"]}
{"id": "C165", "title": "No random block is given out twice", "statement": "In the life of a generator, with any draws and reseedings, no two aligned blocks of 32 bytes given out are the same, unless the digest collides on what it was applied to; so no two random identifiers are.", "quantifier": "all lives of a generator", "why_tests_cant": "unbounded lives", "anchors": ["common/pkg/fcrcrypto/prng.go: ReadBytes, Reseed", "common/pkg/nodeid/nodeid.go: NewRandomNodeID", "common/pkg/cid/cid.go"]}
{"id": "C166", "title": "Goroutines drawing at once get different bytes", "statement": "Goroutines that draw a block from one generator at the same time get different blocks.", "quantifier": "all schedules", "why_tests_cant": "needs a rare schedule", "anchors": ["common/pkg/fcrcrypto/prng.go: ReadBytes"]}
{"id": "C167", "title": "Output is unpredictable even if the DRBG is compromised", "statement": "Someone who knows the state of the DRBG, the counter and the bytes given out so far cannot compute the next bytes.", "quantifier": "all generators and lengths", "why_tests_cant": "a claim about all attackers", "anchors": ["common/pkg/fcrcrypto/prng.go: ReadBytes"]}
{"id": "C168", "title": "An entropy kick reseeds every generator", "statement": "There is one public and one private generator, which are different and stay the same; PRNGEntropyKick reseeds every generator of the process.", "quantifier": "all sequences of calls", "why_tests_cant": "unbounded sequences", "anchors": ["common/pkg/fcrcrypto/prng_pool.go", "common/pkg/fcrcrypto/prng_public.go", "common/pkg/fcrcrypto/prng_private.go"]}
{"id": "C169", "title": "Making a generator leaves the caller's bytes alone", "statement": "Making a generator for a security domain does not change the array in which the caller keeps the domain.", "quantifier": "all slices", "why_tests_cant": "needs a slice with room behind it", "anchors": ["common/pkg/fcrcrypto/prng.go: NewPRNG"]}
{"id": "C170", "title": "A client uses the settings chosen", "statement": "A client that was built has the lifetime, register, keys, wallet and prices chosen last, and the defaults for what was not chosen; it keeps them in all that it does, and each payment to a gateway it asks is of the search price or a multiple of the offer price chosen. A blockchain key is all that is needed to build one.", "quantifier": "all sequences of choices and all lives of the client", "why_tests_cant": "all sequences of choices", "anchors": ["client/pkg/fcrclient/builder.go: Build", "client/pkg/fcrclient/client_settings.go", "client/pkg/fcrclient/filecoin_retrieval_client.go: NewFilecoinRetrievalClient"]}
{"id": "C171", "title": "A message over HTTP arrives as sent and is answered as written", "statement": "A message sent to an interface of a node over HTTP reaches, as it was sent, the handler registered for its type there, and the sender gets exactly the one message the handler wrote. No handler, an error, nothing or more than one message written, a panic or no end give the sender an error.", "quantifier": "all messages, sets of handlers and answers; for the interfaces of gateways and providers for clients and administrators", "why_tests_cant": "all messages through two encoders and two decoders", "anchors": ["common/pkg/request/request.go: SendMessage", "common/pkg/fcrrestserver/server.go: msgRouter, Start", "gateway/cmd/gateway/main.go", "provider/cmd/provider/main.go"]}
{"id": "C172", "title": "The acknowledgement of a published offer convinces clients", "statement": "A client that knows a provider and a gateway and asks the provider, through FindDHTOfferAck, whether the gateway acknowledged the publication of an offer for a content is told so if that happened, and told otherwise if it did not; the call fails in neither case.", "quantifier": "all lives of the provider, contents, gateways and clients", "why_tests_cant": "three programs and their wire formats at once, over the life of one", "anchors": ["client/pkg/fcrclient/filecoin_retrieval_client.go: FindDHTOfferAck", "client/pkg/api/clientapi/dht_offer_ack_requester.go", "provider/internal/api/clientapi/dht_offer_ack_handler.go", "provider/internal/api/gatewayapi/list_dht_offer_handler.go", "gateway/internal/api/providerapi"]}
{"id": "C173", "title": "The JavaScript client establishes with Go gateways, and only with the right ones", "statement": "The TypeScript client's requestEstablishment against a gateway that has its keys, over HTTP and in time, succeeds; when it succeeds against anyone, the registered key of the gateway signed a text which, as text of a Go message, is an establishment response of that gateway to this very challenge. addActiveGateways and addGatewaysToUse add exactly gateways that passed, keep the others and return the number added.", "quantifier": "all gateways, registers, client identifiers, challenges, times to live and answers", "why_tests_cant": "agreement of two implementations in two languages for all messages; adversarial answers", "anchors": ["client-js/src/clientapi/establishment_requester.ts: requestEstablishment", "client-js/src/FilecoinRetrievalClient.ts: addGatewaysToUse, addActiveGateways", "gateway/internal/api/clientapi/establishment_handler.go: HandleClientEstablishmentRequest"]}
{"id": "C174", "title": "The Go and JavaScript clients agree on which messages are signed", "statement": "For every message and registered key, the TypeScript client's verify accepts exactly the messages the Go library's verification accepts.", "quantifier": "all messages, signature texts and keys", "why_tests_cant": "all signature texts, including malformed ones", "anchors": ["client-js/src/fcrMessages/fcrMessage.class.ts: verify", "client-js/src/fcrcrypto/msg_signing.ts: extractKeyFromMessage, decodePublicKey", "common/pkg/fcrcrypto/msg_signing.go: VerifyMessage"]}
{"id": "C175", "title": "Requests of the JavaScript client expire", "statement": "An establishment request of the TypeScript client is not served once its time to live has passed since it was sent.", "quantifier": "all gateways, clocks and times to live", "why_tests_cant": "needs clocks far apart", "anchors": ["client-js/src/FilecoinRetrievalClient.ts: addActiveGateways", "gateway/internal/api/clientapi/establishment_handler.go: HandleClientEstablishmentRequest"]}
{"id": "C176", "title": "The JavaScript client's vouchers stay within its funds and are credited by Go nodes", "statement": "However payments and top-ups of the TypeScript payment manager interleave at their awaits, as long as no first top-up of a recipient is overlapped by another: the vouchers of all lanes together never exceed what top-ups put in, nonces count up from 0 and amounts accumulate per lane, a payment asks for a top-up exactly when funds are short, and a Go payment manager given the vouchers in order credits each with exactly the amount paid.", "quantifier": "all schedules of fewer than 2^53 steps, answers of the chain, recipients, lanes and amounts", "why_tests_cant": "all interleavings of asynchronous code; two implementations in two languages", "anchors": ["client-js/src/fcrPaymentMgr/payment_manager.class.ts: topup, updateExistingChannelState, createNewChannelState, pay", "common/pkg/fcrpaymentmgr/payment_manager.go: Receive"]}
{"id": "C177", "title": "The JavaScript client counts as funds only what is in the channel", "statement": "In every schedule, what the TypeScript payment manager counts as put into the channel it uses for a recipient, and so the vouchers on it, does not exceed what the chain put into that very channel; no money put in is forgotten.", "quantifier": "all schedules and all outcomes of messages on the chain", "why_tests_cant": "needs failing messages and overlapping calls", "anchors": ["client-js/src/fcrPaymentMgr/payment_manager.class.ts: topup, updateExistingChannelState, createNewChannelState", "client-js/src/filecoin/filecoin_rpc.class.ts: waitMessage"]}
{"id": "C178", "title": "The JavaScript client writes vouchers as Go reads them", "statement": "The text the TypeScript client makes of the base64 of a voucher is the unpadded URL-safe base64 of the same bytes, which the Go nodes read.", "quantifier": "all byte strings", "why_tests_cant": "all lengths and bytes", "anchors": ["client-js/src/fcrPaymentMgr/payment_manager.class.ts: pay", "common/pkg/fcrpaymentmgr/payment_manager.go: Receive"]}
{"id": "C179", "title": "A JavaScript search is paid for", "statement": "A search of the TypeScript client that finds its funds with the gateway short tops up and pays, as the Go client does.", "quantifier": "all states, recipients, prices and answers of the chain", "why_tests_cant": "the failure depends on the state of the channel", "anchors": ["client-js/src/FilecoinRetrievalClient.ts: findOffersDHTDiscoveryV2, findOffersStandardDiscoveryV2", "client-js/src/fcrPaymentMgr/payment_manager.class.ts: pay, topup"]}
{"id": "C180", "title": "A dump shows the message completely", "statement": "DumpMessage gives a text for every message and never panics; the bytes of the message's wire format can be read back from the hexadecimal column, and from them the message.", "quantifier": "all messages and byte strings", "why_tests_cant": "all lengths and bytes", "anchors": ["common/pkg/fcrmessages/dump.go: dumpMessage, dump, printable", "common/pkg/fcrmessages/fcrmessage.go: DumpMessage"]}
{"id": "C181", "title": "The columns of a dump are aligned", "statement": "In the dump of a message the bars between hexadecimal and characters stand in one column.", "quantifier": "all byte strings", "why_tests_cant": "all lengths", "anchors": ["common/pkg/fcrmessages/dump.go: dump, printable"]}
{"id": "C182", "title": "What the client program does depends on the words typed", "statement": "White space around a line typed at the client's command line does not matter; once initialised, messages are sent and gateways, offers or channels change only at the orders add-active, find-offer and find-offer-dht, each with texts that are identifiers.", "quantifier": "all lines, worlds and states", "why_tests_cant": "all texts", "anchors": ["itest/demo/client-cli/main.go: executor"]}
{"id": "C183", "title": "The client program is silent until initialised", "statement": "Before a successful init nothing is sent to any gateway and no other line than init has an effect, except exit which ends the program.", "quantifier": "all sequences of lines and worlds", "why_tests_cant": "all sequences of commands", "anchors": ["itest/demo/client-cli/main.go: executor"]}
{"id": "C184", "title": "Initialising the client program can be repeated until it succeeds", "statement": "init succeeds exactly when the register manager, the account, the keys and the wallet are available, leaving the client with the account just made as its wallet, the documented settings and no gateways or offers; after a failure the user can try again.", "quantifier": "all worlds and states", "why_tests_cant": "needs a wallet that fails once", "anchors": ["itest/demo/client-cli/main.go: executor", "client/pkg/fcrclient/retrieval_client_config_builder.go: Build"]}
{"id": "C185", "title": "add-active tells the truth", "statement": "Whatever was typed before, add-active adds at most the named gateway and only after it authenticated itself with the registered key; it says Added only if the gateway was not active and is now, with the channel to its address increased by exactly the configured top-up.", "quantifier": "all histories, worlds and gateways", "why_tests_cant": "gateways may answer anything", "anchors": ["itest/demo/client-cli/main.go: executor", "client/pkg/fcrclient/retrieval_client.go: AddGatewaysToUse, AddActiveGateways"]}
{"id": "C186", "title": "The client program keeps offers under their own signature", "statement": "find-offer asks every active gateway, shows and keeps exactly the proven offers of the gateways that answered, each under the offer's own signature, keeps the others held before and reports every gateway that failed.", "quantifier": "all histories, worlds and answers", "why_tests_cant": "needs gateways with several offers", "anchors": ["itest/demo/client-cli/main.go: executor"]}
{"id": "C187", "title": "The client program does not crash", "statement": "No line typed at the client's command line crashes it.", "quantifier": "all histories, lines and worlds", "why_tests_cant": "needs a gateway that leaves the register between two commands", "anchors": ["itest/demo/client-cli/main.go: executor", "client/pkg/fcrclient/retrieval_client.go: AddGatewaysToUse, AddActiveGateways"]}
{"id": "C188", "title": "The provider administrator's orders are carried out as typed", "statement": "At the provider administrator's command line a group or DHT offer is published only by an order that names a provider and contents with texts that are identifiers, and then exactly for that provider and those contents; nodes are changed by no other lines than the orders. When publication is reported as done, the provider confirmed it.", "quantifier": "all lines, worlds and states", "why_tests_cant": "all texts and answers", "anchors": ["itest/demo/provideradmin-cli/main.go: executor"]}
{"id": "C189", "title": "A provider registered from the command line is initialised with its own new keys", "statement": "register-pvd makes one provider entry with fresh keys and the documented addresses; the provider is in use afterwards exactly if it confirmed with its new key, and the administrator's other nodes stay as they were. In any life of the program only such providers are in use, and before init nothing is sent.", "quantifier": "all histories of lines, worlds and answers", "why_tests_cant": "providers may answer anything; unbounded histories", "anchors": ["itest/demo/provideradmin-cli/main.go: executor", "provider-admin/pkg/fcrprovideradmin/filecoin_provider_admin.go: InitialiseProvider"]}
{"id": "C190", "title": "Twenty gateways registered from the command line are initialised", "statement": "register-gw enrolls the gateways one after the other, with different identifiers and each with its own keys and account, until the first failure; if the gateways are reachable and accounts, keys and wallets available then all twenty end up initialised with the keys and address made for them, and only gateways that confirmed are in use.", "quantifier": "all histories of lines, worlds and answers", "why_tests_cant": "twenty nodes and one administrator at once", "anchors": ["itest/demo/gatewayadmin-cli/main.go: executor", "gateway-admin/pkg/fcrgatewayadmin/filecoin-gateway-admin.go: InitialiseGatewayV2", "gateway/internal/api/adminapi"]}
{"id": "C191", "title": "A node said to be registered is registered", "statement": "The administrators' programs say that a node has been registered only if the register accepted it.", "quantifier": "all lines and worlds", "why_tests_cant": "needs a register that refuses", "anchors": ["itest/demo/provideradmin-cli/main.go: executor", "itest/demo/gatewayadmin-cli/main.go: executor"]}
{"id": "C192", "title": "The demonstration gateways are spread evenly over the ring", "statement": "The identifiers of the twenty gateways divide the ring into twenty equal parts, up to rounding.", "quantifier": "the twenty identifiers", "why_tests_cant": "arithmetic on identifiers of 256 bits", "anchors": ["itest/demo/gatewayadmin-cli/main.go: executor"]}
{"id": "C193", "title": "The administrators' programs do not crash", "statement": "No line typed at an administrator's command line crashes the program.", "quantifier": "all lines, worlds and states", "why_tests_cant": "needs a failing chain or register", "anchors": ["itest/demo/provideradmin-cli/main.go: executor", "itest/demo/gatewayadmin-cli/main.go: executor"]}
{"id": "C194", "title": "A deletion reported is done", "statement": "If deleting all registrations of gateways or providers reports no error, none is found or listed afterwards, whichever commands of the store fail; an error is reported only if a command failed.", "quantifier": "all histories of requests and failures of the store", "why_tests_cant": "failures of the store at every command", "anchors": ["common/pkg/request/request.go: Delete", "register/internal/handlers/gateways_handler.go: DeleteGatewayRegisters", "register/internal/handlers/providers_handler.go: DeleteProviderRegisters"]}
{"id": "C195", "title": "Paid discovery through other gateways delivers and settles", "statement": "A paid search of a client through a gateway asks the gateways nearest to the content that the gateway knows, without itself, and pays each the gateway's price of a search; if the gateway credits the client's voucher with at least that price for each, and its channels hold it, the client gets from every one of them that answers the digests of exactly the offers on sale there, signed by that gateway, and both ends of every channel agree on what was paid; other channels and the offers of the gateway do not change.", "quantifier": "all gateways, registrations, prices, channels, contents and sets of silent gateways", "why_tests_cant": "a client, a gateway and up to sixteen further gateways with payment channels between them", "anchors": ["client/pkg/api/clientapi/dht_discover_requester_v2.go: RequestDHTDiscoverV2", "gateway/internal/api/clientapi/dht_discover_handler_v2.go: HandleClientDHTCIDDiscoverRequestV2", "gateway/internal/api/gatewayapi/dht_discover_requester_v2.go: RequestGatewayDHTDiscoverV2", "gateway/internal/api/gatewayapi/dht_discover_handler_v2.go: HandleGatewayDHTDiscoverRequestV2", "common/pkg/fcrpaymentmgr/payment_manager.go: Pay, Receive"]}
{"id": "C196", "title": "Offers bought through other gateways are delivered and settled", "statement": "When a client orders offers by digest from several gateways through one gateway, and that gateway credits the voucher with its price for every digest and holds it in its channels, each of the others is asked for the digests meant for it and paid for each; the client gets from every gateway that answers exactly the sub-offers with those digests, in the order asked, under that gateway's identifier, and both ends of every channel agree on what was paid; other channels, the offers, the register and the settings of the gateway do not change.", "quantifier": "all orders of any number of gateways and digests, prices, channels and sets of silent gateways", "why_tests_cant": "a client, a gateway and any number of further gateways with stores of offers and payment channels between them", "anchors": ["client/pkg/api/clientapi/dht_discover_offer_requester.go: RequestDHTOfferDiscover", "gateway/internal/api/clientapi/dht_discover_offer_handler.go: HandleClientDHTDiscoverOfferRequest", "gateway/internal/api/gatewayapi/dht_discover_offer_requester.go: RequestGatewayDHTDiscoverOffer", "gateway/internal/api/gatewayapi/dht_discover_offer_handler.go: HandleGatewayDHTOfferRequest", "common/pkg/fcrpaymentmgr/payment_manager.go: Pay, Receive"]}
{"id": "C197", "title": "A paid search through other gateways returns what each of them has", "statement": "When a client searches with FindOffersDHTDiscoveryV2 through a gateway whose price it pays, and the gateways nearest to the content that answer have offers on sale, together not more than the limit, the client gets under the identifier of each of them exactly the sub-offers for the content that are on sale there; it has spent the search price for each gateway to be asked and the offer price for each offer, and both ends of every channel agree on what was paid.", "quantifier": "all contents, numbers of gateways, stores of offers, prices, channels, limits and sets of silent gateways", "why_tests_cant": "a client, a gateway and any number of further gateways through two rounds of payments", "anchors": ["client/pkg/fcrclient/filecoin_retrieval_client.go: FindOffersDHTDiscoveryV2", "client/pkg/api/clientapi/dht_discover_requester_v2.go: RequestDHTDiscoverV2", "client/pkg/api/clientapi/dht_discover_offer_requester.go: RequestDHTOfferDiscover", "gateway/internal/api/clientapi/dht_discover_handler_v2.go: HandleClientDHTDiscoverRequestV2", "gateway/internal/api/clientapi/dht_discover_offer_handler.go: HandleClientDHTDiscoverOfferRequest", "gateway/internal/api/gatewayapi/dht_discover_handler_v2.go: HandleGatewayDHTDiscoverRequestV2", "gateway/internal/api/gatewayapi/dht_discover_offer_handler.go: HandleGatewayDHTOfferRequest"]}
{"id": "C198", "title": "Key versions are counted upwards and return only after all others", "statement": "Renewing a key version n times adds n to it as long as the sum is less than 2^32, and the version after n renewals is the one before exactly if n is a multiple of 2^32.", "quantifier": "all versions and numbers of renewals", "why_tests_cant": "2^32 versions", "anchors": ["common/pkg/fcrcrypto/key_version.go: NextKeyVersion"]}
{"id": "C199", "title": "What overlapping calls of a client leave alone", "statement": "However the calls that manage gateways overlap: while gateways are being taken out of use no other call changes what is in use; a gateway becomes active only after it answered an establishment; and a gateway in use keeps its registration when gateways are added.", "quantifier": "all numbers of goroutines, schedules and answers", "why_tests_cant": "unbounded schedules", "anchors": ["client/pkg/fcrclient/filecoin_retrieval_client.go: AddGatewaysToUse, RemoveGatewaysToUse, AddActiveGateways"]}
{"id": "C200", "title": "Every line of an environment file is read or refused", "statement": "The last line of an environment file counts whether or not a line feed follows it, and a line that is neither a setting, a remark nor blank makes the program give up without changing a file.", "quantifier": "all files", "why_tests_cant": "all contents and line ends", "anchors": ["gateway/scripts/make-env-file/main.go: ParseConfig, main"]}
{"id": "C201", "title": "Nodes announce addresses at which they listen", "statement": "The addresses a gateway or provider announces are the host given (on the command line, else in the environment, else the machine itself) followed by the port it listens on.", "quantifier": "all environments and flags", "why_tests_cant": "all combinations of settings", "anchors": ["gateway/config/config.go: Map, setValues", "provider/config/config.go: Map, setValues"]}
{"id": "C202", "title": "Seeds add to what is secret", "statement": "Adding a seed to a random number generator does not take away what it keeps secret: generators with different secret states give out different bytes after the same seed, and different seeds make the next bytes differ, unless the digest collides.", "quantifier": "all generators, states and seeds", "why_tests_cant": "cryptographic states cannot be enumerated", "anchors": ["common/pkg/fcrcrypto/prng.go: Reseed, QuickReseedKick"]}
{"id": "C203", "title": "The TypeScript client finds what it pays for", "statement": "A search of the TypeScript client with an active gateway that is paid for asks the gateway for the content, with the channel and voucher of the payment, and returns the offers the gateway holds; a DHT search does so through the gateways paid for, and an acknowledgement that a provider holds is found.", "quantifier": "all gateways, registers, answers, payment managers and contents", "why_tests_cant": "all answers of all servers", "anchors": ["client-js/src/FilecoinRetrievalClient.ts: findOffersStandardDiscoveryV2, findOffersDHTDiscoveryV2, FindDHTOfferAck", "client-js/src/clientapi/standard_discover_offer_requester.ts", "client-js/src/clientapi/standard_discover_requester_v2.ts"]}
{"id": "C204", "title": "Message bodies have the documented form", "statement": "The body of every message a node encodes is the JSON text of an object with exactly the fields of its kind, under their documented names, in order, and with values of their types.", "quantifier": "all 60 kinds of messages and all values encoded", "why_tests_cant": "unbounded values; the names are compared with a table written from the struct tags", "anchors": ["common/pkg/fcrmessages: all Encode functions", "common/pkg/cidoffer: MarshalJSON", "common/pkg/fcrmerkletree/proof.go: MarshalJSON"]}
{"id": "C205", "title": "Receivers go by the names of fields", "statement": "What a receiver makes of a message of any kind does not depend on fields it does not know, wherever they are, nor on the order of fields with different names.", "quantifier": "all kinds, bodies, added fields and positions", "why_tests_cant": "unbounded bodies", "anchors": ["common/pkg/fcrmessages: all Decode functions"]}
{"id": "C206", "title": "One bad answer does not spoil the others", "statement": "A client that orders offers of several gateways through one gateway (RequestDHTOfferDiscover) and gets a signed response with as many gateway identifiers as answers returns the sub-offers of exactly the gateways whose answer can be read and carries offers, in the order of the response; answers that are unreadable, of another type or empty cost only themselves. (False for answers that ask for payment: one of them makes the whole call fail, and offers the others sold are thrown away although the voucher is spent.)", "quantifier": "for all responses signed by the gateway asked, and all answers in them", "why_tests_cant": "Tests feed one answer, or answers that are all good; a response that mixes offers, unreadable messages and payment requests in some order is not tried.", "anchors": ["client/pkg/api/clientapi/dht_discover_offer_requester.go:41-102", "common/pkg/fcrmessages/gateway_dht_discover_offer_response.go:63-83"]}
{"id": "C207", "title": "Merkle trees of the TypeScript client prove their contents", "statement": "FCRMerkleTree makes a tree of any list of contents; the proof it makes for any of them is accepted by verifyContent with the hash of the content and the root; the array passed in keeps its elements, and gets a second copy of the last one only if its length is odd; a second tree from the same array is the same. A proof that is accepted is for the hash of a content. (The last part is false: the hash of an inner node is accepted too. It is a node of the tree, though, unless SHA-256 has a collision or a content itself begins or ends with such a hash.)", "quantifier": "for all lists of contents, all proofs and hashes", "why_tests_cant": "Tests use one list of five contents, which the first test extends to six for all the others.", "anchors": ["client-js/src/fcrMerkleTree/tree.class.ts:6-37", "client-js/src/fcrMerkleTree/proof.ts:12-15"]}
{"id": "C208", "title": "The TypeScript client and Go agree on Merkle roots", "statement": "For the same texts, FCRMerkleTree of the TypeScript client and CreateMerkleTree of Go over ContentIDAdapter values have the same root. (False unless the number of texts, rounded up to even, is a power of two: Go hashes an odd last node with itself on every level, TypeScript carries it up as it is. For every other number of texts the roots differ, unless SHA-256 has a collision or a text is itself two hashes in a row.)", "quantifier": "for all lists of texts", "why_tests_cant": "Each side is tested against a root of its own; the two tests use the same five texts and expect different roots, and both pass.", "anchors": ["client-js/src/fcrMerkleTree/tree.class.ts:13-27", "client-js/src/fcrMerkleTree/tree.class.test.ts:19", "common/pkg/fcrmerkletree/tree.go:30-41", "common/pkg/fcrmerkletree/tree_test.go:48", "common/pkg/cid/cidadapter.go:36-45"]}
{"id": "C209", "title": "Signatures made by the TypeScript client verify and bind", "statement": "A message signed with signMessage by a key read from its text verifies, in TypeScript and in Go, for the text that was signed; the key version can be read back from the signature; and messages that differ have different text to sign. (The last part is false: only the values are signed, without names or separators, so messages that differ can have the same signature. Reading the version back fails in TypeScript: for every version below 2^24 the result is NaN; Go reads it.)", "quantifier": "for all keys, versions, messages and raw signatures", "why_tests_cant": "Tests compare two signatures with fixed texts and read no version back.", "anchors": ["client-js/src/fcrcrypto/msg_signing.ts:12-18", "client-js/src/fcrcrypto/msg_signing.ts:75-87", "client-js/src/fcrcrypto/key_version.class.ts:15-33", "common/pkg/fcrcrypto/msg_signing.go:39-71"]}
{"id": "C210", "title": "Keys of the TypeScript client are independent of each other", "statement": "The bytes of private and public keys are read from hexadecimal text exactly as in Go; a key read from a public key never signs; and setting the algorithm of one key object affects only that key. (The last part is false: all keys read from private keys share one algorithm object. After the assignment in msg_signing.test.ts the key signs as before, but no key with the usual algorithm can be read any more.)", "quantifier": "for all keys, texts and numbers", "why_tests_cant": "The test that sets the algorithm expects an exception, and the exception it gets is that of its own failed comparison; it is the last test of its file, so nothing after it fails.", "anchors": ["client-js/src/fcrcrypto/key_pair.class.ts:3-27", "client-js/src/fcrcrypto/msg_signing.ts:21-63", "client-js/src/fcrcrypto/secp256k1.service.ts:15-22", "client-js/src/fcrcrypto/msg_signing.test.ts:101-111"]}
{"id": "C211", "title": "The way JSON is written does not matter", "statement": "A receiver reads a message, its body and the byte strings in it by the JSON value they stand for: texts are accepted exactly if they are JSON (RFC 8259) and base64 (RFC 4648), two texts that stand for the same value are read alike by every decoder, whatever blanks, escapes and line breaks they have, and the texts written by json.Marshal and by JSON.stringify, which escape different characters, stand for the value written.", "quantifier": "for all texts, values and kinds of messages", "why_tests_cant": "Tests decode what the same library has just encoded; other writings of the same value are not tried.", "anchors": ["common/pkg/fcrmessages/fcrmessage.go:131-138", "common/pkg/fcrmessages: all Decode functions", "client-js/src/fcrMessages/fcrMessage.class.ts"]}
{"id": "C212", "title": "A limited DHT search still finds offers", "statement": "A client that limits the number of offers of a DHT search orders at most that many, from as many gateways as it takes, and is given them. (The last part is false: when the limit is reached before the last gateway that answered, the order names all gateways but has digests for the first ones only, so the gateway panics on it after the voucher was received, and the client has paid for all searches and offers and gets an error. A search succeeds only if there is a list of digests for every gateway that answered.)", "quantifier": "for all clients, networks, limits and states of the gateway asked", "why_tests_cant": "The limit is never smaller than what there is in the tests, and the handler is only tested with lists that match the gateways.", "anchors": ["client/pkg/fcrclient/filecoin_retrieval_client.go:431-563", "gateway/internal/api/clientapi/dht_discover_offer_handler.go:52-102"]}
{"id": "C213", "title": "The log level does not change what the libraries do", "statement": "Settings without a blockchain key, or with a key that could not be made, are refused by the three settings builders whatever the log level; with complete settings the level changes nothing that is built. (False for the empty level: logging.ErrorAndPanic then returns, and the builders go on with nil or empty keys.)", "quantifier": "for all log levels, targets, builders and keys made", "why_tests_cant": "No test builds settings without keys, and logging.Panic is tested with the default level only.", "anchors": ["common/pkg/logging/logging.go:33-145", "client/pkg/fcrclient/builder.go:121-163", "gateway-admin/pkg/fcrgatewayadmin/builder.go:79-103", "provider-admin/pkg/fcrprovideradmin/builder.go:80-105"]}
{"id": "C214", "title": "Log settings mean what is documented", "statement": "With a log level, exactly the messages of this level and above are written, in order, to the target chosen. (False in two ways: the level names documented in the settings are not names, so NONE, ERROR, WARN, INFO and TRACE all show messages from info on; and a library told to log to a file writes nothing at all, because no directory is passed on.)", "quantifier": "for all settings and sequences of messages", "why_tests_cant": "Tests print the level after setting it and do not read what was written.", "anchors": ["common/pkg/logging/logging.go:33-112", "gateway/internal/util/settings/settings.go:41-43", "provider/internal/util/settings/settings.go:41-43"]}
{"id": "C215", "title": "There is one instance, made of the settings given", "statement": "The first call of GetSingleInstance makes the instance of a gateway or provider of exactly one set of settings or panics, and later calls give this instance. (False: the panic of a first call without settings uses up the sync.Once, and every later call gives nil, also with settings; and with an empty log level two sets of settings are not refused.)", "quantifier": "for all sequences of calls and log levels", "why_tests_cant": "Tests call it first with settings; the once cannot be reset between tests of a process.", "anchors": ["gateway/internal/core/core.go:95-140", "provider/internal/core/core.go:95-125"]}
{"id": "C216", "title": "A TypeScript client with the settings the library builds can activate gateways", "statement": "A client whose settings name it activates gateways under this name, with the time to live that is set or the default of 100; so does a client with the settings that buildSettings returns.", "quantifier": "For all register URLs, settings, gateways in use and active, identifiers asked for, and whatever gateways answer.", "why_tests_cant": "A test with one good gateway and hand-made settings never sees that buildSettings passes the identifier under another name; that no gateway can ever be activated then is a statement about all answers.", "anchors": ["client-js/src/config/settings.config.ts:80-92", "client-js/src/FilecoinRetrievalClient.ts:73-101", "client-js/src/fcrMessages/client_establishment.ts:24-35"]}
{"id": "C217", "title": "A TypeScript client that was constructed can search", "statement": "A client made by the constructor, whatever of its methods were called before, can search for offers with a gateway it has activated.", "quantifier": "For all settings, all sequences of calls of the methods, all gateways and contents.", "why_tests_cant": "Tests put a payment manager into the client by hand; that no method ever does so is a statement about all sequences of calls.", "anchors": ["client-js/src/FilecoinRetrievalClient.ts:26-37", "client-js/src/FilecoinRetrievalClient.ts:103-118", "client-js/src/FilecoinRetrievalClient.ts:267-279"]}
{"id": "C218", "title": "Settings of the TypeScript client are kept, and default to those of the Go client", "statement": "A setting that is given is kept, null included; one that is not given or undefined has its default; nothing else gets into the settings. Time to live, prices and top-up amount default to what the Go client uses.", "quantifier": "For all objects of settings and all names.", "why_tests_cant": "The set of possible objects is infinite and the defaults of the two languages live in different programs.", "anchors": ["client-js/src/config/settings.config.ts:4-78", "client/pkg/fcrclient/defaults.go:18-43", "client/pkg/fcrclient/builder.go:55-66"]}
{"id": "C219", "title": "A gateway that asks for nothing serves clients that pay nothing", "statement": "A gateway whose prices are zero gives the offers it has to a client whose prices are zero, as it does when the client pays something.", "quantifier": "For all clients, gateways, offers on sale, contents, channels and top-ups.", "why_tests_cant": "Tests use positive prices; the comparison that refuses a voucher for nothing is in another module than the price it defeats.", "anchors": ["common/pkg/fcrpaymentmgr/payment_manager.go:384-387", "gateway/internal/api/clientapi/standard_discover_handler_v2.go:54-80", "client/pkg/fcrclient/filecoin_retrieval_client.go:650-735"]}
{"id": "C220", "title": "A client lists the gateways it uses", "statement": "GetGatewaysToUse and GetActiveGateways give each gateway in use and each active gateway exactly once and nothing else; the active ones are among those in use.", "quantifier": "For all lives of a client: any sequence of its calls, whatever gateways, register and chain answer, and any order in which Go visits the maps.", "why_tests_cant": "Tests list after one addition; order of maps and histories with removals and re-additions are unbounded.", "anchors": ["client/pkg/fcrclient/filecoin_retrieval_client.go:194-209", "client/pkg/fcrclient/filecoin_retrieval_client.go:276-291"]}
{"id": "C221", "title": "Success of check-main-modules means that modules are on branch main", "statement": "The program ends with code 0 and reports success exactly if, for every module of the owner in go.mod, the repository has a branch main whose commits include the one required.", "quantifier": "For all go.mod files, all branches and commits of the repositories.", "why_tests_cant": "The program is run against GitHub as it is at the moment; repositories whose branch has another name, or required by release, do not come up.", "anchors": ["itest/scripts/check-main-modules/check-main-modules.go:95-201"]}
{"id": "C222", "title": "check-modules names the branch of each module", "statement": "For each module of the owner the program prints the first branch that has the required commit, with that commit, or that there is none.", "quantifier": "For all go.mod files, all branches and commits of the repositories.", "why_tests_cant": "The order of branches and commits and the texts searched for are unbounded.", "anchors": ["itest/scripts/check-modules/check-modules.go:96-206"]}
{"id": "C223", "title": "Whatever a node answers with is signed", "statement": "Every message a gateway or provider answers with, on any of its interfaces, verifies under the public key that belongs to the key the node has after the request; when it cannot sign it answers with no message.", "quantifier": "For all nodes, requests, networks and registers, and any correct signature scheme.", "why_tests_cant": "There are more than twenty handlers with many ways out each, and signing has to fail late to show an unsigned answer.", "anchors": ["gateway/internal/api/clientapi/establishment_handler.go:30-71", "gateway/internal/api/adminapi/initialise_key_handler.go:29-66", "provider/internal/api/adminapi/publish_dht_offer_handler.go:109-123", "provider/internal/api/gatewayapi/list_dht_offer_handler.go:33-161"]}
{"id": "C224", "title": "Whatever a node sends to other nodes is signed, and only the administrator changes its key", "statement": "Every request or acknowledgement a gateway or provider sends to other nodes verifies under the public key that belongs to the key it had when the request that caused it came in, and no request but the two that set the key changes it.", "quantifier": "For all nodes, requests, networks and registers, and any correct signature scheme.", "why_tests_cant": "The requests are sent from nested loops over gateways, identifiers and payments, whose length and failures are unbounded.", "anchors": ["gateway/internal/api/gatewayapi/dht_discover_requester.go:30-83", "gateway/internal/api/gatewayapi/list_dht_offer_requester.go:31-146", "provider/internal/api/providerapi/publish_dht_offer_requester.go:34-126"]}
{"id": "C225", "title": "Calls through one communicator do not wait for the servers of others", "statement": "However calls through one HTTP communicator overlap, each returns with the answer of its own server, or an error if the server takes 180 seconds or more, and returns as soon as that is decided.", "quantifier": "For all sets of overlapping calls, servers and schedules.", "why_tests_cant": "Blocking depends on the interleaving of goroutines and on servers that do not answer; a test would have to wait for real timeouts.", "anchors": ["common/pkg/request/request.go:38-56", "common/pkg/request/request.go:59-152"]}
{"id": "C226", "title": "A gateway is one of the identities it was given, also while it is initialised", "statement": "However requests to initialise a gateway overlap with each other and with requests of clients, at any time the gateway has the identifier, key and key version of one initialisation, and each answer carries an identifier, a signature and a key version that belong together.", "quantifier": "For all identities, numbers of requests and interleavings of the accesses to the fields of the core.", "why_tests_cant": "The window is between two assignments; tests send one request after another.", "anchors": ["gateway/internal/api/adminapi/initialise_key_handler.go:29-66", "gateway/internal/api/adminapi/initialise_key_handler_v2.go:30-74", "gateway/internal/api/clientapi/establishment_handler.go:30-71", "gateway/internal/core/core.go:46-61"]}
{"id": "C227", "title": "Overlapping publications of a provider are all recorded", "statement": "However publications of a provider to gateways overlap, once all are over each gateway is recorded to have exactly the offers it had and those it accepted, each as often as it accepted it, and for every single offer an acknowledgement of that gateway is kept; none of them waits forever.", "quantifier": "For all numbers of gateways, offers and acceptances and all interleavings of the accesses to the two maps and their locks.", "why_tests_cant": "Lost updates and deadlocks depend on the interleaving of goroutines.", "anchors": ["provider/internal/api/providerapi/publish_dht_offer_requester.go:102-124", "provider/internal/api/providerapi/publish_group_offer_requester.go:92-105", "provider/internal/core/core.go:82-88"]}
{"id": "C228", "title": "A client has one payment manager, however its calls overlap", "statement": "However calls that pay overlap, at most one payment manager is made, all the calls that get a manager get that one, a call gets none only if making one failed, and all return.", "quantifier": "For all numbers of calls, outcomes of the attempts to make a manager and interleavings of the accesses to the field and its lock.", "why_tests_cant": "A second manager would only appear in rare interleavings of the two checks.", "anchors": ["client/pkg/fcrclient/filecoin_retrieval_client.go:56-58", "client/pkg/fcrclient/filecoin_retrieval_client.go:78-95"]}
{"id": "C229", "title": "Overlapping operations of an administrator do not hinder each other", "statement": "However operations of an administrator overlap, an operation that returns without an error has added its gateway, a gateway whose initialisation has returned is found by every operation that begins later and is asked at a registration that was given for it, all operations return, and an operation on one gateway does not wait for the answer of another.", "quantifier": "For all numbers and kinds of operations, all answers of gateways and all interleavings of the accesses to the lock and the map.", "why_tests_cant": "Waiting on a reader-writer lock held over a network exchange depends on the interleaving and on a silent gateway.", "anchors": ["gateway-admin/pkg/fcrgatewayadmin/filecoin-gateway-admin.go:52-143", "provider-admin/pkg/fcrprovideradmin/filecoin_provider_admin.go:52-138"]}
{"id": "C230", "title": "A refresh that overlaps a shutdown of the register manager returns", "statement": "However refreshes and shutdowns of a register manager overlap, every refresh returns, with an answer of the update goroutine or because the manager is stopped, every shutdown returns, at most one of them stops the goroutine, and a refresh that begins after a shutdown has returned does nothing.", "quantifier": "For all numbers of refreshes and shutdowns and all interleavings of their meetings with the update goroutine and of the accesses to the flag.", "why_tests_cant": "A call that waits for ever needs a shutdown between its look at the flag and its send.", "anchors": ["common/pkg/fcrregistermgr/register_manager.go:116-128", "common/pkg/fcrregistermgr/register_manager.go:150-162", "common/pkg/fcrregistermgr/register_manager.go:394-411"]}
{"id": "C231", "title": "A request over a pooled connection gets the answer to itself", "statement": "However requests of a node to the same peer overlap, a request that returns an answer returns the answer to itself; no answer is returned twice; when the connection has been removed because of an error nobody gets an answer from it; and every request returns, whether the peer answers or not.", "quantifier": "For all numbers of requests that share a connection, all delays of the peer and all interleavings of sending, reading, giving up and removing.", "why_tests_cant": "A stale answer needs a late peer and a second request between the release of the lock and the removal of the connection.", "anchors": ["common/pkg/fcrp2pserver/server.go:163-245", "common/pkg/fcrp2pserver/pool.go:145-173", "gateway/internal/api/gatewayapi/dht_discover_requester.go:57-82"]}
