(** * Properties of the message kinds (C20, C21, C22, C80) *)
From Coq Require Import String List ZArith Bool Lia.
From Coq Require Import Init.Byte.
From Verif Require Import Base Ids Json Merkle MerkleWire Crypto Message
  Offer WireSpec Schema Messages MessagesSpec MessagesProofs.
Import ListNotations.
Open Scope Z_scope.

(** ** C21

    For every kind, what was encoded is what the decoder returns; the message has
    the type of type.go, the sender's protocol versions and no signature.  Each
    example gives the text of the body. *)

Definition body (o : outcome message) : outcome (option bytes) := obind o (fun m => Ret (m_body m)).
Definition id_of (n : Z) : bytes := be_bytes 32 n.
Definition ex_proof : proof := Proof [[x01]; [x02; x03]] [1; -1].
Definition ex_offer : offer := Offer (Some (id_of 500)) [id_of 501; id_of 502] 11 12 13 (gs "osig") [] (Tree [] []).
Definition ex_sub : suboffer := SubOffer (Some (id_of 600)) (Some (id_of 601)) (gs "root") ex_proof 21 22 23 (gs "ssig").
Definition ex_msg : message := Message 7 8 (Some [9; 10]) (Some [x01; x02; x03; x04]) (gs "msig").

Theorem ClientDHTDiscoverOfferRequest_roundtrip : forall version supported sha256 (pieceCID : bytes) (nonce : Z)
    (gatewaysDigests : option (list (option (list gostring)))) (gatewayIDs : list bytes) (paychAddr : gostring)
    (voucher : gostring),
  id32 pieceCID -> int64 nonce -> Forall id32 gatewayIDs ->
  exists m, EncodeClientDHTDiscoverOfferRequest version supported (Some pieceCID) nonce gatewaysDigests gatewayIDs
      paychAddr voucher = Ret m /\
    fresh version supported 114 m /\ DecodeClientDHTDiscoverOfferRequest sha256 m = Ret (OkR (Some pieceCID, nonce,
        gatewaysDigests, gatewayIDs, paychAddr, voucher)).
Proof. exact rt_ClientDHTDiscoverOfferRequest. Qed.
Example ClientDHTDiscoverOfferRequest_ex :
  body (EncodeClientDHTDiscoverOfferRequest 1 [1; 1] (Some (id_of 101)) (-102) (Some [Some [gs "a3"; gs "b"]; None; Some []]) [id_of 104; id_of 304] (gs "s5 ""q"" &") (gs "s6 ""q"" &")) =
  Ret (Some (gs "{""piece_cid"":""0000000000000000000000000000000000000000000000000000000000000065"",""nonce"":-102,""gateways_digests"":[[""a3"",""b""],null,[]],""gateway_ids"":[""0000000000000000000000000000000000000000000000000000000000000068"",""0000000000000000000000000000000000000000000000000000000000000130""],""payment_channel_address"":""s5 \""q\"" \u0026"",""voucher"":""s6 \""q\"" \u0026""}")).
Proof. vm_compute. reflexivity. Qed.

Theorem ClientDHTDiscoverOfferResponse_roundtrip : forall version supported sha256 (pieceCID : bytes) (nonce : Z)
    (gatewayIDs : list bytes) (response : option (list message)) (paymentRequired : bool) (paymentChannel : gostring),
  id32 pieceCID -> int64 nonce -> Forall id32 gatewayIDs -> each wire_message response ->
  exists m, EncodeClientDHTDiscoverOfferResponse version supported (Some pieceCID) nonce gatewayIDs response
      paymentRequired paymentChannel = Ret m /\
    fresh version supported 115 m /\ DecodeClientDHTDiscoverOfferResponse sha256 m = Ret (OkR (Some pieceCID, nonce,
        gatewayIDs, response, paymentRequired, paymentChannel)).
Proof. exact rt_ClientDHTDiscoverOfferResponse. Qed.
Example ClientDHTDiscoverOfferResponse_ex :
  body (EncodeClientDHTDiscoverOfferResponse 1 [1; 1] (Some (id_of 101)) (-102) [id_of 103; id_of 303] (Some [ex_msg]) false (gs "s6 ""q"" &")) =
  Ret (Some (gs "{""piece_cid"":""0000000000000000000000000000000000000000000000000000000000000065"",""nonce"":-102,""gateway_ids"":[""0000000000000000000000000000000000000000000000000000000000000067"",""000000000000000000000000000000000000000000000000000000000000012f""],""response"":[{""message_type"":7,""protocol_version"":8,""protocol_supported"":[9,10],""message_body"":""AQIDBA=="",""message_signature"":""msig""}],""payment_required"":false,""payment_channel"":""s6 \""q\"" \u0026""}")).
Proof. vm_compute. reflexivity. Qed.

Theorem ClientDHTDiscoverRequest_roundtrip : forall version supported sha256 (pieceCID : bytes) (nonce : Z) (ttl : Z)
    (numDHT : Z) (incrementalResults : bool) (paychAddr : gostring) (voucher : gostring),
  id32 pieceCID -> int64 nonce -> int64 ttl -> int64 numDHT ->
  exists m, EncodeClientDHTDiscoverRequest version supported (Some pieceCID) nonce ttl numDHT incrementalResults
      paychAddr voucher = Ret m /\
    fresh version supported 104 m /\ DecodeClientDHTDiscoverRequest sha256 m = Ret (OkR (Some pieceCID, nonce, ttl,
        numDHT, incrementalResults, paychAddr, voucher)).
Proof. exact rt_ClientDHTDiscoverRequest. Qed.
Example ClientDHTDiscoverRequest_ex :
  body (EncodeClientDHTDiscoverRequest 1 [1; 1] (Some (id_of 101)) (-102) (-103) (-104) false (gs "s6 ""q"" &") (gs "s7 ""q"" &")) =
  Ret (Some (gs "{""piece_cid"":""0000000000000000000000000000000000000000000000000000000000000065"",""nonce"":-102,""ttl"":-103,""num_dht"":-104,""incremental_results"":false,""payment_channel_address"":""s6 \""q\"" \u0026"",""voucher"":""s7 \""q\"" \u0026""}")).
Proof. vm_compute. reflexivity. Qed.

Theorem ClientDHTDiscoverRequestV2_roundtrip : forall version supported sha256 (pieceCID : bytes) (nonce : Z) (ttl :
    Z) (numDHT : Z) (incrementalResults : bool) (paychAddr : gostring) (voucher : gostring),
  id32 pieceCID -> int64 nonce -> int64 ttl -> int64 numDHT ->
  exists m, EncodeClientDHTDiscoverRequestV2 version supported (Some pieceCID) nonce ttl numDHT incrementalResults
      paychAddr voucher = Ret m /\
    fresh version supported 112 m /\ DecodeClientDHTDiscoverRequestV2 sha256 m = Ret (OkR (Some pieceCID, nonce, ttl,
        numDHT, incrementalResults, paychAddr, voucher)).
Proof. exact rt_ClientDHTDiscoverRequestV2. Qed.
Example ClientDHTDiscoverRequestV2_ex :
  body (EncodeClientDHTDiscoverRequestV2 1 [1; 1] (Some (id_of 101)) (-102) (-103) (-104) false (gs "s6 ""q"" &") (gs "s7 ""q"" &")) =
  Ret (Some (gs "{""piece_cid"":""0000000000000000000000000000000000000000000000000000000000000065"",""nonce"":-102,""ttl"":-103,""num_dht"":-104,""incremental_results"":false,""payment_channel_address"":""s6 \""q\"" \u0026"",""voucher"":""s7 \""q\"" \u0026""}")).
Proof. vm_compute. reflexivity. Qed.

Theorem ClientDHTDiscoverResponse_roundtrip : forall version supported sha256 (contacted : list bytes) (response :
    option (list message)) (unContactable : list bytes) (nonce : Z) (paymentRequired : bool) (paymentChannel :
    gostring),
  Forall id32 contacted -> each wire_message response -> Forall id32 unContactable -> int64 nonce ->
  exists m, EncodeClientDHTDiscoverResponse version supported contacted response unContactable nonce paymentRequired
      paymentChannel = Ret m /\
    fresh version supported 105 m /\ DecodeClientDHTDiscoverResponse sha256 m = Ret (OkR (contacted, response,
        unContactable, nonce, paymentRequired, paymentChannel)).
Proof. exact rt_ClientDHTDiscoverResponse. Qed.
Example ClientDHTDiscoverResponse_ex :
  body (EncodeClientDHTDiscoverResponse 1 [1; 1] [id_of 101; id_of 301] (Some [ex_msg]) [id_of 103; id_of 303] (-104) false (gs "s6 ""q"" &")) =
  Ret (Some (gs "{""contacted_gateways"":[""0000000000000000000000000000000000000000000000000000000000000065"",""000000000000000000000000000000000000000000000000000000000000012d""],""response"":[{""message_type"":7,""protocol_version"":8,""protocol_supported"":[9,10],""message_body"":""AQIDBA=="",""message_signature"":""msig""}],""uncontactable_gateways"":[""0000000000000000000000000000000000000000000000000000000000000067"",""000000000000000000000000000000000000000000000000000000000000012f""],""nonce"":-104,""payment_required"":false,""payment_channel"":""s6 \""q\"" \u0026""}")).
Proof. vm_compute. reflexivity. Qed.

Theorem ClientDHTDiscoverResponseV2_roundtrip : forall version supported sha256 (contacted : list bytes) (response :
    option (list message)) (unContactable : list bytes) (nonce : Z) (paymentRequired : bool) (paymentChannel :
    gostring),
  Forall id32 contacted -> each wire_message response -> Forall id32 unContactable -> int64 nonce ->
  exists m, EncodeClientDHTDiscoverResponseV2 version supported contacted response unContactable nonce
      paymentRequired paymentChannel = Ret m /\
    fresh version supported 113 m /\ DecodeClientDHTDiscoverResponseV2 sha256 m = Ret (OkR (contacted, response,
        unContactable, nonce, paymentRequired, paymentChannel)).
Proof. exact rt_ClientDHTDiscoverResponseV2. Qed.
Example ClientDHTDiscoverResponseV2_ex :
  body (EncodeClientDHTDiscoverResponseV2 1 [1; 1] [id_of 101; id_of 301] (Some [ex_msg]) [id_of 103; id_of 303] (-104) false (gs "s6 ""q"" &")) =
  Ret (Some (gs "{""contacted_gateways"":[""0000000000000000000000000000000000000000000000000000000000000065"",""000000000000000000000000000000000000000000000000000000000000012d""],""response"":[{""message_type"":7,""protocol_version"":8,""protocol_supported"":[9,10],""message_body"":""AQIDBA=="",""message_signature"":""msig""}],""uncontactable_gateways"":[""0000000000000000000000000000000000000000000000000000000000000067"",""000000000000000000000000000000000000000000000000000000000000012f""],""nonce"":-104,""payment_required"":false,""payment_channel"":""s6 \""q\"" \u0026""}")).
Proof. vm_compute. reflexivity. Qed.

Theorem ClientDHTOfferAckRequest_roundtrip : forall version supported sha256 (pieceCID : bytes) (gatewayID : bytes),
  id32 pieceCID -> id32 gatewayID ->
  exists m, EncodeClientDHTOfferAckRequest version supported (Some pieceCID) (Some gatewayID) = Ret m /\
    fresh version supported 106 m /\ DecodeClientDHTOfferAckRequest sha256 m = Ret (OkR (Some pieceCID, Some
        gatewayID)).
Proof. exact rt_ClientDHTOfferAckRequest. Qed.
Example ClientDHTOfferAckRequest_ex :
  body (EncodeClientDHTOfferAckRequest 1 [1; 1] (Some (id_of 101)) (Some (id_of 102))) =
  Ret (Some (gs "{""piece_cid"":""0000000000000000000000000000000000000000000000000000000000000065"",""gateway_id"":""0000000000000000000000000000000000000000000000000000000000000066""}")).
Proof. vm_compute. reflexivity. Qed.

Theorem ClientDHTOfferAckResponse_roundtrip : forall version supported sha256 (pieceCID : bytes) (gatewayID : bytes)
    (found : bool) (publishDHTOfferRequest : message) (publishDHTOfferResponse : message),
  id32 pieceCID -> id32 gatewayID -> wire_message publishDHTOfferRequest -> wire_message publishDHTOfferResponse ->
  exists m, EncodeClientDHTOfferAckResponse version supported (Some pieceCID) (Some gatewayID) found (Some
      publishDHTOfferRequest) (Some publishDHTOfferResponse) = Ret m /\
    fresh version supported 107 m /\ DecodeClientDHTOfferAckResponse sha256 m = Ret (OkR (Some pieceCID, Some
        gatewayID, found, Some publishDHTOfferRequest, Some publishDHTOfferResponse)).
Proof. exact rt_ClientDHTOfferAckResponse. Qed.
Example ClientDHTOfferAckResponse_ex :
  body (EncodeClientDHTOfferAckResponse 1 [1; 1] (Some (id_of 101)) (Some (id_of 102)) false (Some ex_msg) (Some (set_sig ex_msg []))) =
  Ret (Some (gs "{""piece_cid"":""0000000000000000000000000000000000000000000000000000000000000065"",""gateway_id"":""0000000000000000000000000000000000000000000000000000000000000066"",""found"":false,""publish_dht_offer_request"":{""message_type"":7,""protocol_version"":8,""protocol_supported"":[9,10],""message_body"":""AQIDBA=="",""message_signature"":""msig""},""publish_dht_offer_response"":{""message_type"":7,""protocol_version"":8,""protocol_supported"":[9,10],""message_body"":""AQIDBA=="",""message_signature"":""""}}")).
Proof. vm_compute. reflexivity. Qed.

Theorem ClientEstablishmentRequest_roundtrip : forall version supported sha256 (clientID : bytes) (challenge :
    gostring) (ttl : Z),
  id32 clientID -> int64 ttl ->
  exists m, EncodeClientEstablishmentRequest version supported (Some clientID) challenge ttl = Ret m /\
    fresh version supported 100 m /\ DecodeClientEstablishmentRequest sha256 m = Ret (OkR (Some clientID, challenge,
        ttl)).
Proof. exact rt_ClientEstablishmentRequest. Qed.
Example ClientEstablishmentRequest_ex :
  body (EncodeClientEstablishmentRequest 1 [1; 1] (Some (id_of 101)) (gs "s2 ""q"" &") (-103)) =
  Ret (Some (gs "{""client_id"":""0000000000000000000000000000000000000000000000000000000000000065"",""challenge"":""s2 \""q\"" \u0026"",""ttl"":-103}")).
Proof. vm_compute. reflexivity. Qed.

Theorem ClientEstablishmentResponse_roundtrip : forall version supported sha256 (gatewayID : bytes) (challenge :
    gostring),
  id32 gatewayID ->
  exists m, EncodeClientEstablishmentResponse version supported (Some gatewayID) challenge = Ret m /\
    fresh version supported 101 m /\ DecodeClientEstablishmentResponse sha256 m = Ret (OkR (Some gatewayID,
        challenge)).
Proof. exact rt_ClientEstablishmentResponse. Qed.
Example ClientEstablishmentResponse_ex :
  body (EncodeClientEstablishmentResponse 1 [1; 1] (Some (id_of 101)) (gs "s2 ""q"" &")) =
  Ret (Some (gs "{""gateway_id"":""0000000000000000000000000000000000000000000000000000000000000065"",""challenge"":""s2 \""q\"" \u0026""}")).
Proof. vm_compute. reflexivity. Qed.

Theorem ClientStandardDiscoverOfferRequest_roundtrip : forall version supported sha256 (pieceCID : bytes) (nonce : Z)
    (ttl : Z) (offerDigests : option (list gostring)) (paychAddr : gostring) (voucher : gostring),
  id32 pieceCID -> int64 nonce -> int64 ttl ->
  exists m, EncodeClientStandardDiscoverOfferRequest version supported (Some pieceCID) nonce ttl offerDigests
      paychAddr voucher = Ret m /\
    fresh version supported 110 m /\ DecodeClientStandardDiscoverOfferRequest sha256 m = Ret (OkR (Some pieceCID,
        nonce, ttl, offerDigests, paychAddr, voucher)).
Proof. exact rt_ClientStandardDiscoverOfferRequest. Qed.
Example ClientStandardDiscoverOfferRequest_ex :
  body (EncodeClientStandardDiscoverOfferRequest 1 [1; 1] (Some (id_of 101)) (-102) (-103) (Some [gs "a4"; []]) (gs "s5 ""q"" &") (gs "s6 ""q"" &")) =
  Ret (Some (gs "{""piece_cid"":""0000000000000000000000000000000000000000000000000000000000000065"",""nonce"":-102,""ttl"":-103,""offer_digests"":[""a4"",""""],""payment_channel_address"":""s5 \""q\"" \u0026"",""voucher"":""s6 \""q\"" \u0026""}")).
Proof. vm_compute. reflexivity. Qed.

Theorem ClientStandardDiscoverOfferResponse_roundtrip : forall version supported sha256 (pieceCID : bytes) (nonce :
    Z) (found : bool) (offers : option (list suboffer)) (fundedPaymentChannel : option (list bool)) (paymentRequired
    : bool) (paymentChannel : gostring),
  id32 pieceCID -> int64 nonce -> each wire_suboffer offers ->
  exists m, EncodeClientStandardDiscoverOfferResponse version supported (Some pieceCID) nonce found offers
      fundedPaymentChannel paymentRequired paymentChannel = Ret m /\
    fresh version supported 111 m /\ DecodeClientStandardDiscoverOfferResponse sha256 m = Ret (OkR (Some pieceCID,
        nonce, found, offers, fundedPaymentChannel, paymentRequired, paymentChannel)).
Proof. exact rt_ClientStandardDiscoverOfferResponse. Qed.
Example ClientStandardDiscoverOfferResponse_ex :
  body (EncodeClientStandardDiscoverOfferResponse 1 [1; 1] (Some (id_of 101)) (-102) false (Some [ex_sub]) (Some [true; false]) true (gs "s7 ""q"" &")) =
  Ret (Some (gs "{""piece_cid"":""0000000000000000000000000000000000000000000000000000000000000065"",""nonce"":-102,""found"":false,""sub_cid_offers"":[{""provider_id"":""0000000000000000000000000000000000000000000000000000000000000258"",""sub_cid"":""0000000000000000000000000000000000000000000000000000000000000259"",""merkle_root"":""root"",""merkle_proof"":""AAAAD1siQVE9PSIsIkFnTT0iXQAAAAZbMSwtMV0="",""price"":21,""expiry"":22,""qos"":23,""signature"":""ssig""}],""funded_payment_channel"":[true,false],""payment_required"":true,""payment_channel"":""s7 \""q\"" \u0026""}")).
Proof. vm_compute. reflexivity. Qed.

Theorem ClientStandardDiscoverRequest_roundtrip : forall version supported sha256 (pieceCID : bytes) (nonce : Z) (ttl
    : Z) (paychAddr : gostring) (voucher : gostring),
  id32 pieceCID -> int64 nonce -> int64 ttl ->
  exists m, EncodeClientStandardDiscoverRequest version supported (Some pieceCID) nonce ttl paychAddr voucher = Ret m
      /\
    fresh version supported 102 m /\ DecodeClientStandardDiscoverRequest sha256 m = Ret (OkR (Some pieceCID, nonce,
        ttl, paychAddr, voucher)).
Proof. exact rt_ClientStandardDiscoverRequest. Qed.
Example ClientStandardDiscoverRequest_ex :
  body (EncodeClientStandardDiscoverRequest 1 [1; 1] (Some (id_of 101)) (-102) (-103) (gs "s4 ""q"" &") (gs "s5 ""q"" &")) =
  Ret (Some (gs "{""piece_cid"":""0000000000000000000000000000000000000000000000000000000000000065"",""nonce"":-102,""ttl"":-103,""payment_channel_address"":""s4 \""q\"" \u0026"",""voucher"":""s5 \""q\"" \u0026""}")).
Proof. vm_compute. reflexivity. Qed.

Theorem ClientStandardDiscoverRequestV2_roundtrip : forall version supported sha256 (pieceCID : bytes) (nonce : Z)
    (ttl : Z) (paychAddr : gostring) (voucher : gostring),
  id32 pieceCID -> int64 nonce -> int64 ttl ->
  exists m, EncodeClientStandardDiscoverRequestV2 version supported (Some pieceCID) nonce ttl paychAddr voucher = Ret
      m /\
    fresh version supported 108 m /\ DecodeClientStandardDiscoverRequestV2 sha256 m = Ret (OkR (Some pieceCID, nonce,
        ttl, paychAddr, voucher)).
Proof. exact rt_ClientStandardDiscoverRequestV2. Qed.
Example ClientStandardDiscoverRequestV2_ex :
  body (EncodeClientStandardDiscoverRequestV2 1 [1; 1] (Some (id_of 101)) (-102) (-103) (gs "s4 ""q"" &") (gs "s5 ""q"" &")) =
  Ret (Some (gs "{""piece_cid"":""0000000000000000000000000000000000000000000000000000000000000065"",""nonce"":-102,""ttl"":-103,""payment_channel_address"":""s4 \""q\"" \u0026"",""voucher"":""s5 \""q\"" \u0026""}")).
Proof. vm_compute. reflexivity. Qed.

Theorem ClientStandardDiscoverResponse_roundtrip : forall version supported sha256 (pieceCID : bytes) (nonce : Z)
    (found : bool) (offers : option (list suboffer)) (fundedPaymentChannel : option (list bool)),
  id32 pieceCID -> int64 nonce -> each wire_suboffer offers ->
  exists m, EncodeClientStandardDiscoverResponse version supported (Some pieceCID) nonce found offers
      fundedPaymentChannel = Ret m /\
    fresh version supported 103 m /\ DecodeClientStandardDiscoverResponse sha256 m = Ret (OkR (Some pieceCID, nonce,
        found, offers, fundedPaymentChannel)).
Proof. exact rt_ClientStandardDiscoverResponse. Qed.
Example ClientStandardDiscoverResponse_ex :
  body (EncodeClientStandardDiscoverResponse 1 [1; 1] (Some (id_of 101)) (-102) false (Some [ex_sub]) (Some [true; false])) =
  Ret (Some (gs "{""piece_cid"":""0000000000000000000000000000000000000000000000000000000000000065"",""nonce"":-102,""found"":false,""sub_cid_offers"":[{""provider_id"":""0000000000000000000000000000000000000000000000000000000000000258"",""sub_cid"":""0000000000000000000000000000000000000000000000000000000000000259"",""merkle_root"":""root"",""merkle_proof"":""AAAAD1siQVE9PSIsIkFnTT0iXQAAAAZbMSwtMV0="",""price"":21,""expiry"":22,""qos"":23,""signature"":""ssig""}],""funded_payment_channel"":[true,false]}")).
Proof. vm_compute. reflexivity. Qed.

Theorem ClientStandardDiscoverResponseV2_roundtrip : forall version supported sha256 (pieceCID : bytes) (nonce : Z)
    (found : bool) (offersDigests : option (list gostring)) (fundedPaymentChannel : option (list bool))
    (paymentRequired : bool) (paymentChannel : gostring),
  id32 pieceCID -> int64 nonce ->
  exists m, EncodeClientStandardDiscoverResponseV2 version supported (Some pieceCID) nonce found offersDigests
      fundedPaymentChannel paymentRequired paymentChannel = Ret m /\
    fresh version supported 109 m /\ DecodeClientStandardDiscoverResponseV2 sha256 m = Ret (OkR (Some pieceCID,
        nonce, found, offersDigests, fundedPaymentChannel, paymentRequired, paymentChannel)).
Proof. exact rt_ClientStandardDiscoverResponseV2. Qed.
Example ClientStandardDiscoverResponseV2_ex :
  body (EncodeClientStandardDiscoverResponseV2 1 [1; 1] (Some (id_of 101)) (-102) false (Some [gs "a4"; []]) (Some [true; false]) true (gs "s7 ""q"" &")) =
  Ret (Some (gs "{""piece_cid"":""0000000000000000000000000000000000000000000000000000000000000065"",""nonce"":-102,""found"":false,""sub_cid_offer_digests"":[""a4"",""""],""funded_payment_channel"":[true,false],""payment_required"":true,""payment_channel"":""s7 \""q\"" \u0026""}")).
Proof. vm_compute. reflexivity. Qed.

Theorem GatewayDHTDiscoverOfferRequest_roundtrip : forall version supported sha256 (pieceCID : bytes) (nonce : Z)
    (offerDigests : option (list gostring)) (paychAddr : gostring) (voucher : gostring),
  id32 pieceCID -> int64 nonce ->
  exists m, EncodeGatewayDHTDiscoverOfferRequest version supported (Some pieceCID) nonce offerDigests paychAddr
      voucher = Ret m /\
    fresh version supported 209 m /\ DecodeGatewayDHTDiscoverOfferRequest sha256 m = Ret (OkR (Some pieceCID, nonce,
        offerDigests, paychAddr, voucher)).
Proof. exact rt_GatewayDHTDiscoverOfferRequest. Qed.
Example GatewayDHTDiscoverOfferRequest_ex :
  body (EncodeGatewayDHTDiscoverOfferRequest 1 [1; 1] (Some (id_of 101)) (-102) (Some [gs "a3"; []]) (gs "s4 ""q"" &") (gs "s5 ""q"" &")) =
  Ret (Some (gs "{""piece_cid"":""0000000000000000000000000000000000000000000000000000000000000065"",""nonce"":-102,""offer_digests"":[""a3"",""""],""payment_channel_address"":""s4 \""q\"" \u0026"",""voucher"":""s5 \""q\"" \u0026""}")).
Proof. vm_compute. reflexivity. Qed.

Theorem GatewayDHTDiscoverOfferResponse_roundtrip : forall version supported sha256 (pieceCID : bytes) (nonce : Z)
    (found : bool) (offers : option (list suboffer)) (fundedPaymentChannel : option (list bool)) (paymentRequired :
    bool) (paymentChannel : gostring),
  id32 pieceCID -> int64 nonce -> each wire_suboffer offers ->
  exists m, EncodeGatewayDHTDiscoverOfferResponse version supported (Some pieceCID) nonce found offers
      fundedPaymentChannel paymentRequired paymentChannel = Ret m /\
    fresh version supported 210 m /\ DecodeGatewayDHTDiscoverOfferResponse sha256 m = Ret (OkR (Some pieceCID, nonce,
        found, offers, fundedPaymentChannel, paymentRequired, paymentChannel)).
Proof. exact rt_GatewayDHTDiscoverOfferResponse. Qed.
Example GatewayDHTDiscoverOfferResponse_ex :
  body (EncodeGatewayDHTDiscoverOfferResponse 1 [1; 1] (Some (id_of 101)) (-102) false (Some [ex_sub]) (Some [true; false]) true (gs "s7 ""q"" &")) =
  Ret (Some (gs "{""piece_cid"":""0000000000000000000000000000000000000000000000000000000000000065"",""nonce"":-102,""found"":false,""sub_cid_offers"":[{""provider_id"":""0000000000000000000000000000000000000000000000000000000000000258"",""sub_cid"":""0000000000000000000000000000000000000000000000000000000000000259"",""merkle_root"":""root"",""merkle_proof"":""AAAAD1siQVE9PSIsIkFnTT0iXQAAAAZbMSwtMV0="",""price"":21,""expiry"":22,""qos"":23,""signature"":""ssig""}],""funded_payment_channel"":[true,false],""payment_required"":true,""payment_channel"":""s7 \""q\"" \u0026""}")).
Proof. vm_compute. reflexivity. Qed.

Theorem GatewayDHTDiscoverRequest_roundtrip : forall version supported sha256 (gatewayID : bytes) (pieceCID : bytes)
    (nonce : Z) (ttl : Z) (paychAddr : gostring) (voucher : gostring),
  id32 gatewayID -> id32 pieceCID -> int64 nonce -> int64 ttl ->
  exists m, EncodeGatewayDHTDiscoverRequest version supported (Some gatewayID) (Some pieceCID) nonce ttl paychAddr
      voucher = Ret m /\
    fresh version supported 203 m /\ DecodeGatewayDHTDiscoverRequest sha256 m = Ret (OkR (Some gatewayID, Some
        pieceCID, nonce, ttl, paychAddr, voucher)).
Proof. exact rt_GatewayDHTDiscoverRequest. Qed.
Example GatewayDHTDiscoverRequest_ex :
  body (EncodeGatewayDHTDiscoverRequest 1 [1; 1] (Some (id_of 101)) (Some (id_of 102)) (-103) (-104) (gs "s5 ""q"" &") (gs "s6 ""q"" &")) =
  Ret (Some (gs "{""gateway_id"":""0000000000000000000000000000000000000000000000000000000000000065"",""piece_cid"":""0000000000000000000000000000000000000000000000000000000000000066"",""nonce"":-103,""ttl"":-104,""payment_channel_address"":""s5 \""q\"" \u0026"",""voucher"":""s6 \""q\"" \u0026""}")).
Proof. vm_compute. reflexivity. Qed.

Theorem GatewayDHTDiscoverRequestV2_roundtrip : forall version supported sha256 (gatewayID : bytes) (pieceCID :
    bytes) (nonce : Z) (ttl : Z) (paychAddr : gostring) (voucher : gostring),
  id32 gatewayID -> id32 pieceCID -> int64 nonce -> int64 ttl ->
  exists m, EncodeGatewayDHTDiscoverRequestV2 version supported (Some gatewayID) (Some pieceCID) nonce ttl paychAddr
      voucher = Ret m /\
    fresh version supported 207 m /\ DecodeGatewayDHTDiscoverRequestV2 sha256 m = Ret (OkR (Some gatewayID, Some
        pieceCID, nonce, ttl, paychAddr, voucher)).
Proof. exact rt_GatewayDHTDiscoverRequestV2. Qed.
Example GatewayDHTDiscoverRequestV2_ex :
  body (EncodeGatewayDHTDiscoverRequestV2 1 [1; 1] (Some (id_of 101)) (Some (id_of 102)) (-103) (-104) (gs "s5 ""q"" &") (gs "s6 ""q"" &")) =
  Ret (Some (gs "{""gateway_id"":""0000000000000000000000000000000000000000000000000000000000000065"",""piece_cid"":""0000000000000000000000000000000000000000000000000000000000000066"",""nonce"":-103,""ttl"":-104,""payment_channel_address"":""s5 \""q\"" \u0026"",""voucher"":""s6 \""q\"" \u0026""}")).
Proof. vm_compute. reflexivity. Qed.

Theorem GatewayDHTDiscoverResponse_roundtrip : forall version supported sha256 (pieceCID : bytes) (nonce : Z) (found
    : bool) (offers : option (list suboffer)) (fundedPaymentChannel : option (list bool)),
  id32 pieceCID -> int64 nonce -> each wire_suboffer offers ->
  exists m, EncodeGatewayDHTDiscoverResponse version supported (Some pieceCID) nonce found offers
      fundedPaymentChannel = Ret m /\
    fresh version supported 204 m /\ DecodeGatewayDHTDiscoverResponse sha256 m = Ret (OkR (Some pieceCID, nonce,
        found, offers, fundedPaymentChannel)).
Proof. exact rt_GatewayDHTDiscoverResponse. Qed.
Example GatewayDHTDiscoverResponse_ex :
  body (EncodeGatewayDHTDiscoverResponse 1 [1; 1] (Some (id_of 101)) (-102) false (Some [ex_sub]) (Some [true; false])) =
  Ret (Some (gs "{""piece_cid"":""0000000000000000000000000000000000000000000000000000000000000065"",""nonce"":-102,""found"":false,""sub_cid_offers"":[{""provider_id"":""0000000000000000000000000000000000000000000000000000000000000258"",""sub_cid"":""0000000000000000000000000000000000000000000000000000000000000259"",""merkle_root"":""root"",""merkle_proof"":""AAAAD1siQVE9PSIsIkFnTT0iXQAAAAZbMSwtMV0="",""price"":21,""expiry"":22,""qos"":23,""signature"":""ssig""}],""funded_payment_channel"":[true,false]}")).
Proof. vm_compute. reflexivity. Qed.

Theorem GatewayDHTDiscoverResponseV2_roundtrip : forall version supported sha256 (pieceCID : bytes) (nonce : Z)
    (found : bool) (offers : option (list gostring)) (fundedPaymentChannel : option (list bool)) (paymentRequired :
    bool) (paymentChannel : gostring),
  id32 pieceCID -> int64 nonce ->
  exists m, EncodeGatewayDHTDiscoverResponseV2 version supported (Some pieceCID) nonce found offers
      fundedPaymentChannel paymentRequired paymentChannel = Ret m /\
    fresh version supported 208 m /\ DecodeGatewayDHTDiscoverResponseV2 sha256 m = Ret (OkR (Some pieceCID, nonce,
        found, offers, fundedPaymentChannel, paymentRequired, paymentChannel)).
Proof. exact rt_GatewayDHTDiscoverResponseV2. Qed.
Example GatewayDHTDiscoverResponseV2_ex :
  body (EncodeGatewayDHTDiscoverResponseV2 1 [1; 1] (Some (id_of 101)) (-102) false (Some [gs "a4"; []]) (Some [true; false]) true (gs "s7 ""q"" &")) =
  Ret (Some (gs "{""piece_cid"":""0000000000000000000000000000000000000000000000000000000000000065"",""nonce"":-102,""found"":false,""sub_cid_offer_digest"":[""a4"",""""],""funded_payment_channel"":[true,false],""payment_required"":true,""payment_channel"":""s7 \""q\"" \u0026""}")).
Proof. vm_compute. reflexivity. Qed.

Theorem GatewayListDHTOfferAck_roundtrip : forall version supported sha256 (publishedDHTOffersAck : option (list
    message)),
  each wire_message publishedDHTOffersAck ->
  exists m, EncodeGatewayListDHTOfferAck version supported publishedDHTOffersAck = Ret m /\
    fresh version supported 202 m /\ DecodeGatewayListDHTOfferAck sha256 m = Ret (OkR publishedDHTOffersAck).
Proof. exact rt_GatewayListDHTOfferAck. Qed.
Example GatewayListDHTOfferAck_ex :
  body (EncodeGatewayListDHTOfferAck 1 [1; 1] (Some [ex_msg])) =
  Ret (Some (gs "{""published_dht_offers_ack"":[{""message_type"":7,""protocol_version"":8,""protocol_supported"":[9,10],""message_body"":""AQIDBA=="",""message_signature"":""msig""}]}")).
Proof. vm_compute. reflexivity. Qed.

Theorem GatewayListDHTOfferRequest_roundtrip : forall version supported sha256 (gatewayID : bytes) (cidMin : bytes)
    (cidMax : bytes) (blockHash : gostring) (transactionReceipt : gostring) (merkleRoot : gostring) (merkleProof :
    proof),
  id32 gatewayID -> id32 cidMin -> id32 cidMax -> wire_proof merkleProof ->
  exists m, EncodeGatewayListDHTOfferRequest version supported (Some gatewayID) (Some cidMin) (Some cidMax) blockHash
      transactionReceipt merkleRoot (Some merkleProof) = Ret m /\
    fresh version supported 200 m /\ DecodeGatewayListDHTOfferRequest sha256 m = Ret (OkR (Some gatewayID, Some
        cidMin, Some cidMax, blockHash, transactionReceipt, merkleRoot, Some merkleProof)).
Proof. exact rt_GatewayListDHTOfferRequest. Qed.
Example GatewayListDHTOfferRequest_ex :
  body (EncodeGatewayListDHTOfferRequest 1 [1; 1] (Some (id_of 101)) (Some (id_of 102)) (Some (id_of 103)) (gs "s4 ""q"" &") (gs "s5 ""q"" &") (gs "s6 ""q"" &") (Some ex_proof)) =
  Ret (Some (gs "{""gateway_id"":""0000000000000000000000000000000000000000000000000000000000000065"",""cid_min"":""0000000000000000000000000000000000000000000000000000000000000066"",""cid_max"":""0000000000000000000000000000000000000000000000000000000000000067"",""block_hash"":""s4 \""q\"" \u0026"",""transaction_receipt"":""s5 \""q\"" \u0026"",""merkle_root"":""s6 \""q\"" \u0026"",""merkle_proof"":""AAAAD1siQVE9PSIsIkFnTT0iXQAAAAZbMSwtMV0=""}")).
Proof. vm_compute. reflexivity. Qed.

Theorem GatewayListDHTOfferResponse_roundtrip : forall version supported sha256 (publishedDHTOffers : option (list
    message)),
  each wire_message publishedDHTOffers ->
  exists m, EncodeGatewayListDHTOfferResponse version supported publishedDHTOffers = Ret m /\
    fresh version supported 201 m /\ DecodeGatewayListDHTOfferResponse sha256 m = Ret (OkR publishedDHTOffers).
Proof. exact rt_GatewayListDHTOfferResponse. Qed.
Example GatewayListDHTOfferResponse_ex :
  body (EncodeGatewayListDHTOfferResponse 1 [1; 1] (Some [ex_msg])) =
  Ret (Some (gs "{""published_dht_offers"":[{""message_type"":7,""protocol_version"":8,""protocol_supported"":[9,10],""message_body"":""AQIDBA=="",""message_signature"":""msig""}]}")).
Proof. vm_compute. reflexivity. Qed.

Theorem GatewayNotifyProviderGroupCIDOfferSupportRequest_roundtrip : forall version supported sha256 (gatewayID :
    bytes) (groupCIDOfferSupported : bool),
  id32 gatewayID ->
  exists m, EncodeGatewayNotifyProviderGroupCIDOfferSupportRequest version supported (Some gatewayID)
      groupCIDOfferSupported = Ret m /\
    fresh version supported 205 m /\ DecodeGatewayNotifyProviderGroupCIDOfferSupportRequest sha256 m = Ret (OkR (Some
        gatewayID, groupCIDOfferSupported)).
Proof. exact rt_GatewayNotifyProviderGroupCIDOfferSupportRequest. Qed.
Example GatewayNotifyProviderGroupCIDOfferSupportRequest_ex :
  body (EncodeGatewayNotifyProviderGroupCIDOfferSupportRequest 1 [1; 1] (Some (id_of 101)) true) =
  Ret (Some (gs "{""gateway_id"":""0000000000000000000000000000000000000000000000000000000000000065"",""group_cid_offer_supported"":true}")).
Proof. vm_compute. reflexivity. Qed.

Theorem GatewayNotifyProviderGroupCIDOfferSupportResponse_roundtrip_partial : forall version supported sha256,
  exists m, EncodeGatewayNotifyProviderGroupCIDOfferSupportResponse version supported true = Ret m /\
    fresh version supported 206 m /\ DecodeGatewayNotifyProviderGroupCIDOfferSupportResponse sha256 m = Ret (OkR
        true).
Proof. exact rt_GatewayNotifyProviderGroupCIDOfferSupportResponse. Qed.
Example GatewayNotifyProviderGroupCIDOfferSupportResponse_ex :
  body (EncodeGatewayNotifyProviderGroupCIDOfferSupportResponse 1 [1; 1] true) =
  Ret (Some (gs "{""acknowledged"":true}")).
Proof. vm_compute. reflexivity. Qed.

Theorem GatewayPingRequest_roundtrip : forall version supported sha256 (gatewayID : bytes) (nonce : Z) (ttl : Z),
  id32 gatewayID -> int64 nonce -> int64 ttl ->
  exists m, EncodeGatewayPingRequest version supported (Some gatewayID) nonce ttl = Ret m /\
    fresh version supported 205 m /\ DecodeGatewayPingRequest sha256 m = Ret (OkR (Some gatewayID, nonce, ttl)).
Proof. exact rt_GatewayPingRequest. Qed.
Example GatewayPingRequest_ex :
  body (EncodeGatewayPingRequest 1 [1; 1] (Some (id_of 101)) (-102) (-103)) =
  Ret (Some (gs "{""gateway_id"":""0000000000000000000000000000000000000000000000000000000000000065"",""nonce"":-102,""ttl"":-103}")).
Proof. vm_compute. reflexivity. Qed.

Theorem GatewayPingResponse_roundtrip_partial : forall version supported sha256 (nonce : Z),
  int64 nonce ->
  exists m, EncodeGatewayPingResponse version supported nonce true = Ret m /\
    fresh version supported 206 m /\ DecodeGatewayPingResponse sha256 m = Ret (OkR (nonce, true)).
Proof. exact rt_GatewayPingResponse. Qed.
Example GatewayPingResponse_ex :
  body (EncodeGatewayPingResponse 1 [1; 1] (-101) true) =
  Ret (Some (gs "{""nonce"":-101,""isAlive"":true}")).
Proof. vm_compute. reflexivity. Qed.

Theorem ProviderPublishDHTOfferRequest_roundtrip : forall version supported sha256 (providerID : bytes) (nonce : Z)
    (offers : option (list offer)),
  id32 providerID -> int64 nonce -> each (wire_offer sha256) offers -> each (fun o => length (o_cids o) = 1%nat)
      offers -> int64 (slice_len offers) ->
  exists m, EncodeProviderPublishDHTOfferRequest version supported (Some providerID) nonce offers = Ret m /\
    fresh version supported 302 m /\ DecodeProviderPublishDHTOfferRequest sha256 m = Ret (OkR (Some providerID,
        nonce, offers)).
Proof. exact rt_ProviderPublishDHTOfferRequest. Qed.
Example ProviderPublishDHTOfferRequest_ex :
  body (EncodeProviderPublishDHTOfferRequest 1 [1; 1] (Some (id_of 101)) (-102) (Some [ex_offer])) =
  Ret (Some (gs "{""provider_id"":""0000000000000000000000000000000000000000000000000000000000000065"",""nonce"":-102,""num_of_offers"":1,""single_offers"":[{""provider_id"":""00000000000000000000000000000000000000000000000000000000000001f4"",""cids"":[""00000000000000000000000000000000000000000000000000000000000001f5"",""00000000000000000000000000000000000000000000000000000000000001f6""],""price"":11,""expiry"":12,""qos"":13,""signature"":""osig""}]}")).
Proof. vm_compute. reflexivity. Qed.

Theorem ProviderPublishDHTOfferResponse_roundtrip : forall version supported sha256 (nonce : Z) (signature :
    gostring),
  int64 nonce ->
  exists m, EncodeProviderPublishDHTOfferResponse version supported nonce signature = Ret m /\
    fresh version supported 303 m /\ DecodeProviderPublishDHTOfferResponse sha256 m = Ret (OkR (nonce, signature)).
Proof. exact rt_ProviderPublishDHTOfferResponse. Qed.
Example ProviderPublishDHTOfferResponse_ex :
  body (EncodeProviderPublishDHTOfferResponse 1 [1; 1] (-101) (gs "s2 ""q"" &")) =
  Ret (Some (gs "{""nonce"":-101,""signature"":""s2 \""q\"" \u0026""}")).
Proof. vm_compute. reflexivity. Qed.

Theorem ProviderPublishGroupOfferRequest_roundtrip : forall version supported sha256 (providerID : bytes) (nonce : Z)
    (offer_ : offer),
  id32 providerID -> int64 nonce -> wire_offer sha256 offer_ ->
  exists m, EncodeProviderPublishGroupOfferRequest version supported (Some providerID) nonce (Some offer_) = Ret m /\
    fresh version supported 300 m /\ DecodeProviderPublishGroupOfferRequest sha256 m = Ret (OkR (Some providerID,
        nonce, Some offer_)).
Proof. exact rt_ProviderPublishGroupOfferRequest. Qed.
Example ProviderPublishGroupOfferRequest_ex :
  body (EncodeProviderPublishGroupOfferRequest 1 [1; 1] (Some (id_of 101)) (-102) (Some ex_offer)) =
  Ret (Some (gs "{""provider_id"":""0000000000000000000000000000000000000000000000000000000000000065"",""nonce"":-102,""offer"":{""provider_id"":""00000000000000000000000000000000000000000000000000000000000001f4"",""cids"":[""00000000000000000000000000000000000000000000000000000000000001f5"",""00000000000000000000000000000000000000000000000000000000000001f6""],""price"":11,""expiry"":12,""qos"":13,""signature"":""osig""}}")).
Proof. vm_compute. reflexivity. Qed.

Theorem ProviderPublishGroupOfferResponse_roundtrip : forall version supported sha256 (gatewayID : bytes) (digest :
    gostring),
  id32 gatewayID ->
  exists m, EncodeProviderPublishGroupOfferResponse version supported gatewayID digest = Ret m /\
    fresh version supported 301 m /\ DecodeProviderPublishGroupOfferResponse sha256 m = Ret (OkR (Some gatewayID,
        digest)).
Proof. exact rt_ProviderPublishGroupOfferResponse. Qed.
Example ProviderPublishGroupOfferResponse_ex :
  body (EncodeProviderPublishGroupOfferResponse 1 [1; 1] (id_of 101) (gs "s2 ""q"" &")) =
  Ret (Some (gs "{""gateway_id"":""0000000000000000000000000000000000000000000000000000000000000065"",""digest"":""s2 \""q\"" \u0026""}")).
Proof. vm_compute. reflexivity. Qed.

Theorem GatewayAdminForceRefreshRequest_roundtrip : forall version supported sha256 (refresh : bool),
  exists m, EncodeGatewayAdminForceRefreshRequest version supported refresh = Ret m /\
    fresh version supported 406 m /\ DecodeGatewayAdminForceRefreshRequest sha256 m = Ret (OkR refresh).
Proof. exact rt_GatewayAdminForceRefreshRequest. Qed.
Example GatewayAdminForceRefreshRequest_ex :
  body (EncodeGatewayAdminForceRefreshRequest 1 [1; 1] true) =
  Ret (Some (gs "{""refresh"":true}")).
Proof. vm_compute. reflexivity. Qed.

Theorem GatewayAdminForceRefreshResponse_roundtrip : forall version supported sha256 (refreshed : bool),
  exists m, EncodeGatewayAdminForceRefreshResponse version supported refreshed = Ret m /\
    fresh version supported 407 m /\ DecodeGatewayAdminForceRefreshResponse sha256 m = Ret (OkR refreshed).
Proof. exact rt_GatewayAdminForceRefreshResponse. Qed.
Example GatewayAdminForceRefreshResponse_ex :
  body (EncodeGatewayAdminForceRefreshResponse 1 [1; 1] true) =
  Ret (Some (gs "{""refreshed"":true}")).
Proof. vm_compute. reflexivity. Qed.

Theorem GatewayAdminGetReputationRequest_roundtrip : forall version supported sha256 (clientID : bytes),
  id32 clientID ->
  exists m, EncodeGatewayAdminGetReputationRequest version supported (Some clientID) = Ret m /\
    fresh version supported 402 m /\ DecodeGatewayAdminGetReputationRequest sha256 m = Ret (OkR (Some clientID)).
Proof. exact rt_GatewayAdminGetReputationRequest. Qed.
Example GatewayAdminGetReputationRequest_ex :
  body (EncodeGatewayAdminGetReputationRequest 1 [1; 1] (Some (id_of 101))) =
  Ret (Some (gs "{""client_id"":""0000000000000000000000000000000000000000000000000000000000000065""}")).
Proof. vm_compute. reflexivity. Qed.

Theorem GatewayAdminGetReputationResponse_roundtrip : forall version supported sha256 (clientID : bytes) (reputation
    : Z) (exists_ : bool),
  id32 clientID -> int64 reputation ->
  exists m, EncodeGatewayAdminGetReputationResponse version supported (Some clientID) reputation exists_ = Ret m /\
    fresh version supported 403 m /\ DecodeGatewayAdminGetReputationResponse sha256 m = Ret (OkR (Some clientID,
        reputation, exists_)).
Proof. exact rt_GatewayAdminGetReputationResponse. Qed.
Example GatewayAdminGetReputationResponse_ex :
  body (EncodeGatewayAdminGetReputationResponse 1 [1; 1] (Some (id_of 101)) (-102) false) =
  Ret (Some (gs "{""client_id"":""0000000000000000000000000000000000000000000000000000000000000065"",""reputation"":-102,""exists"":false}")).
Proof. vm_compute. reflexivity. Qed.

Theorem GatewayAdminInitialiseKeyRequest_roundtrip : forall version supported sha256 (nodeID : bytes) (privateKey :
    bytes) (keyVersion : Z),
  id32 nodeID -> length privateKey = 32%nat -> uint32 keyVersion ->
  exists m, EncodeGatewayAdminInitialiseKeyRequest version supported (Some nodeID) (Some (KeyPair (Some privateKey)
      None x01)) (Some keyVersion) = Ret m /\
    fresh version supported 400 m /\ DecodeGatewayAdminInitialiseKeyRequest sha256 m = Ret (OkR (Some nodeID, Some
        (KeyPair (Some privateKey) None x01), Some keyVersion)).
Proof. exact rt_GatewayAdminInitialiseKeyRequest. Qed.
Example GatewayAdminInitialiseKeyRequest_ex :
  body (EncodeGatewayAdminInitialiseKeyRequest 1 [1; 1] (Some (id_of 101)) (Some (KeyPair (Some (id_of 102)) None x01)) (Some 103)) =
  Ret (Some (gs "{""gateway_id"":""0000000000000000000000000000000000000000000000000000000000000065"",""private_key"":""010000000000000000000000000000000000000000000000000000000000000066"",""private_key_version"":103}")).
Proof. vm_compute. reflexivity. Qed.

Theorem GatewayAdminInitialiseKeyRequestV2_roundtrip : forall version supported sha256 (nodeID : bytes) (privateKey :
    bytes) (keyVersion : Z) (walletPrivateKey : gostring) (lotusAP : gostring) (lotusAuthToken : gostring),
  id32 nodeID -> length privateKey = 32%nat -> uint32 keyVersion ->
  exists m, EncodeGatewayAdminInitialiseKeyRequestV2 version supported (Some nodeID) (Some (KeyPair (Some privateKey)
      None x01)) (Some keyVersion) walletPrivateKey lotusAP lotusAuthToken = Ret m /\
    fresh version supported 412 m /\ DecodeGatewayAdminInitialiseKeyRequestV2 sha256 m = Ret (OkR (Some nodeID, Some
        (KeyPair (Some privateKey) None x01), Some keyVersion, walletPrivateKey, lotusAP, lotusAuthToken)).
Proof. exact rt_GatewayAdminInitialiseKeyRequestV2. Qed.
Example GatewayAdminInitialiseKeyRequestV2_ex :
  body (EncodeGatewayAdminInitialiseKeyRequestV2 1 [1; 1] (Some (id_of 101)) (Some (KeyPair (Some (id_of 102)) None x01)) (Some 103) (gs "s4 ""q"" &") (gs "s5 ""q"" &") (gs "s6 ""q"" &")) =
  Ret (Some (gs "{""gateway_id"":""0000000000000000000000000000000000000000000000000000000000000065"",""private_key"":""010000000000000000000000000000000000000000000000000000000000000066"",""private_key_version"":103,""wallet_private_key"":""s4 \""q\"" \u0026"",""lotus_ap"":""s5 \""q\"" \u0026"",""lotus_auth_token"":""s6 \""q\"" \u0026""}")).
Proof. vm_compute. reflexivity. Qed.

Theorem GatewayAdminInitialiseKeyResponse_roundtrip : forall version supported sha256 (success : bool),
  exists m, EncodeGatewayAdminInitialiseKeyResponse version supported success = Ret m /\
    fresh version supported 401 m /\ DecodeGatewayAdminInitialiseKeyResponse sha256 m = Ret (OkR success).
Proof. exact rt_GatewayAdminInitialiseKeyResponse. Qed.
Example GatewayAdminInitialiseKeyResponse_ex :
  body (EncodeGatewayAdminInitialiseKeyResponse 1 [1; 1] true) =
  Ret (Some (gs "{""success"":true}")).
Proof. vm_compute. reflexivity. Qed.

Theorem GatewayAdminListDHTOfferRequest_roundtrip : forall version supported sha256 (refresh : bool),
  exists m, EncodeGatewayAdminListDHTOfferRequest version supported refresh = Ret m /\
    fresh version supported 410 m /\ DecodeGatewayAdminListDHTOfferRequest sha256 m = Ret (OkR refresh).
Proof. exact rt_GatewayAdminListDHTOfferRequest. Qed.
Example GatewayAdminListDHTOfferRequest_ex :
  body (EncodeGatewayAdminListDHTOfferRequest 1 [1; 1] true) =
  Ret (Some (gs "{""refresh"":true}")).
Proof. vm_compute. reflexivity. Qed.

Theorem GatewayAdminListDHTOfferResponse_roundtrip : forall version supported sha256 (refreshed : bool),
  exists m, EncodeGatewayAdminListDHTOfferResponse version supported refreshed = Ret m /\
    fresh version supported 411 m /\ DecodeGatewayAdminListDHTOfferResponse sha256 m = Ret (OkR refreshed).
Proof. exact rt_GatewayAdminListDHTOfferResponse. Qed.
Example GatewayAdminListDHTOfferResponse_ex :
  body (EncodeGatewayAdminListDHTOfferResponse 1 [1; 1] true) =
  Ret (Some (gs "{""refreshed"":true}")).
Proof. vm_compute. reflexivity. Qed.

Theorem GatewayAdminSetReputationRequest_roundtrip : forall version supported sha256 (clientID : bytes) (reputation :
    Z),
  id32 clientID -> int64 reputation ->
  exists m, EncodeGatewayAdminSetReputationRequest version supported (Some clientID) reputation = Ret m /\
    fresh version supported 404 m /\ DecodeGatewayAdminSetReputationRequest sha256 m = Ret (OkR (Some clientID,
        reputation)).
Proof. exact rt_GatewayAdminSetReputationRequest. Qed.
Example GatewayAdminSetReputationRequest_ex :
  body (EncodeGatewayAdminSetReputationRequest 1 [1; 1] (Some (id_of 101)) (-102)) =
  Ret (Some (gs "{""client_id"":""0000000000000000000000000000000000000000000000000000000000000065"",""reputation"":-102}")).
Proof. vm_compute. reflexivity. Qed.

Theorem GatewayAdminSetReputationResponse_roundtrip : forall version supported sha256 (clientID : bytes) (reputation
    : Z) (exists_ : bool),
  id32 clientID -> int64 reputation ->
  exists m, EncodeGatewayAdminSetReputationResponse version supported (Some clientID) reputation exists_ = Ret m /\
    fresh version supported 405 m /\ DecodeGatewayAdminSetReputationResponse sha256 m = Ret (OkR (Some clientID,
        reputation, exists_)).
Proof. exact rt_GatewayAdminSetReputationResponse. Qed.
Example GatewayAdminSetReputationResponse_ex :
  body (EncodeGatewayAdminSetReputationResponse 1 [1; 1] (Some (id_of 101)) (-102) false) =
  Ret (Some (gs "{""client_id"":""0000000000000000000000000000000000000000000000000000000000000065"",""reputation"":-102,""exists"":false}")).
Proof. vm_compute. reflexivity. Qed.

Theorem UpdateGatewayGroupCIDOfferSupportRequest_roundtrip : forall version supported sha256 (nodeID : bytes)
    (providerIDs : list bytes),
  id32 nodeID -> Forall id32 providerIDs ->
  exists m, EncodeUpdateGatewayGroupCIDOfferSupportRequest version supported (Some nodeID) providerIDs = Ret m /\
    fresh version supported 408 m /\ DecodeUpdateGatewayGroupCIDOfferSupportRequest sha256 m = Ret (OkR (Some nodeID,
        providerIDs)).
Proof. exact rt_UpdateGatewayGroupCIDOfferSupportRequest. Qed.
Example UpdateGatewayGroupCIDOfferSupportRequest_ex :
  body (EncodeUpdateGatewayGroupCIDOfferSupportRequest 1 [1; 1] (Some (id_of 101)) [id_of 102; id_of 302]) =
  Ret (Some (gs "{""gateway_id"":""0000000000000000000000000000000000000000000000000000000000000065"",""provider_ids"":[""0000000000000000000000000000000000000000000000000000000000000066"",""000000000000000000000000000000000000000000000000000000000000012e""]}")).
Proof. vm_compute. reflexivity. Qed.

Theorem UpdateGatewayGroupCIDOfferSupportResponse_roundtrip : forall version supported sha256 (success : bool),
  exists m, EncodeUpdateGatewayGroupCIDOfferSupportResponse version supported success = Ret m /\
    fresh version supported 409 m /\ DecodeUpdateGatewayGroupCIDOfferSupportResponse sha256 m = Ret (OkR success).
Proof. exact rt_UpdateGatewayGroupCIDOfferSupportResponse. Qed.
Example UpdateGatewayGroupCIDOfferSupportResponse_ex :
  body (EncodeUpdateGatewayGroupCIDOfferSupportResponse 1 [1; 1] true) =
  Ret (Some (gs "{""success"":true}")).
Proof. vm_compute. reflexivity. Qed.

Theorem ProviderAdminForceRefreshRequest_roundtrip : forall version supported sha256 (refresh : bool),
  exists m, EncodeProviderAdminForceRefreshRequest version supported refresh = Ret m /\
    fresh version supported 508 m /\ DecodeProviderAdminForceRefreshRequest sha256 m = Ret (OkR refresh).
Proof. exact rt_ProviderAdminForceRefreshRequest. Qed.
Example ProviderAdminForceRefreshRequest_ex :
  body (EncodeProviderAdminForceRefreshRequest 1 [1; 1] true) =
  Ret (Some (gs "{""refresh"":true}")).
Proof. vm_compute. reflexivity. Qed.

Theorem ProviderAdminForceRefreshResponse_roundtrip : forall version supported sha256 (refreshed : bool),
  exists m, EncodeProviderAdminForceRefreshResponse version supported refreshed = Ret m /\
    fresh version supported 509 m /\ DecodeProviderAdminForceRefreshResponse sha256 m = Ret (OkR refreshed).
Proof. exact rt_ProviderAdminForceRefreshResponse. Qed.
Example ProviderAdminForceRefreshResponse_ex :
  body (EncodeProviderAdminForceRefreshResponse 1 [1; 1] true) =
  Ret (Some (gs "{""refreshed"":true}")).
Proof. vm_compute. reflexivity. Qed.

Theorem ProviderAdminGetPublishedOfferRequest_roundtrip : forall version supported sha256 (gatewayIDs : list bytes),
  Forall id32 gatewayIDs ->
  exists m, EncodeProviderAdminGetPublishedOfferRequest version supported gatewayIDs = Ret m /\
    fresh version supported 506 m /\ DecodeProviderAdminGetPublishedOfferRequest sha256 m = Ret (OkR gatewayIDs).
Proof. exact rt_ProviderAdminGetPublishedOfferRequest. Qed.
Example ProviderAdminGetPublishedOfferRequest_ex :
  body (EncodeProviderAdminGetPublishedOfferRequest 1 [1; 1] [id_of 101; id_of 301]) =
  Ret (Some (gs "{""gateway_id"":[""0000000000000000000000000000000000000000000000000000000000000065"",""000000000000000000000000000000000000000000000000000000000000012d""]}")).
Proof. vm_compute. reflexivity. Qed.

Theorem ProviderAdminGetPublishedOfferResponse_roundtrip : forall version supported sha256 (exists_ : bool) (offers :
    option (list offer)),
  each (wire_offer sha256) offers ->
  exists m, EncodeProviderAdminGetPublishedOfferResponse version supported exists_ offers = Ret m /\
    fresh version supported 507 m /\ DecodeProviderAdminGetPublishedOfferResponse sha256 m = Ret (OkR (exists_,
        offers)).
Proof. exact rt_ProviderAdminGetPublishedOfferResponse. Qed.
Example ProviderAdminGetPublishedOfferResponse_ex :
  body (EncodeProviderAdminGetPublishedOfferResponse 1 [1; 1] false (Some [ex_offer])) =
  Ret (Some (gs "{""exists"":false,""cid_offers"":[{""provider_id"":""00000000000000000000000000000000000000000000000000000000000001f4"",""cids"":[""00000000000000000000000000000000000000000000000000000000000001f5"",""00000000000000000000000000000000000000000000000000000000000001f6""],""price"":11,""expiry"":12,""qos"":13,""signature"":""osig""}]}")).
Proof. vm_compute. reflexivity. Qed.

Theorem ProviderAdminInitialiseKeyRequest_roundtrip : forall version supported sha256 (nodeID : bytes) (privateKey :
    bytes) (keyVersion : Z),
  id32 nodeID -> length privateKey = 32%nat -> uint32 keyVersion ->
  exists m, EncodeProviderAdminInitialiseKeyRequest version supported (Some nodeID) (Some (KeyPair (Some privateKey)
      None x01)) (Some keyVersion) = Ret m /\
    fresh version supported 500 m /\ DecodeProviderAdminInitialiseKeyRequest sha256 m = Ret (OkR (Some nodeID, Some
        (KeyPair (Some privateKey) None x01), Some keyVersion)).
Proof. exact rt_ProviderAdminInitialiseKeyRequest. Qed.
Example ProviderAdminInitialiseKeyRequest_ex :
  body (EncodeProviderAdminInitialiseKeyRequest 1 [1; 1] (Some (id_of 101)) (Some (KeyPair (Some (id_of 102)) None x01)) (Some 103)) =
  Ret (Some (gs "{""provider_id"":""0000000000000000000000000000000000000000000000000000000000000065"",""private_key"":""010000000000000000000000000000000000000000000000000000000000000066"",""private_key_version"":103}")).
Proof. vm_compute. reflexivity. Qed.

Theorem ProviderAdminInitialiseKeyRequestV2_roundtrip : forall version supported sha256 (nodeID : bytes) (privateKey
    : bytes) (keyVersion : Z) (walletPrivateKey : gostring) (lotusAP : gostring) (lotusAuthToken : gostring),
  id32 nodeID -> length privateKey = 32%nat -> uint32 keyVersion ->
  exists m, EncodeProviderAdminInitialiseKeyRequestV2 version supported (Some nodeID) (Some (KeyPair (Some
      privateKey) None x01)) (Some keyVersion) walletPrivateKey lotusAP lotusAuthToken = Ret m /\
    fresh version supported 510 m /\ DecodeProviderAdminInitialiseKeyRequestV2 sha256 m = Ret (OkR (Some nodeID, Some
        (KeyPair (Some privateKey) None x01), Some keyVersion, walletPrivateKey, lotusAP, lotusAuthToken)).
Proof. exact rt_ProviderAdminInitialiseKeyRequestV2. Qed.
Example ProviderAdminInitialiseKeyRequestV2_ex :
  body (EncodeProviderAdminInitialiseKeyRequestV2 1 [1; 1] (Some (id_of 101)) (Some (KeyPair (Some (id_of 102)) None x01)) (Some 103) (gs "s4 ""q"" &") (gs "s5 ""q"" &") (gs "s6 ""q"" &")) =
  Ret (Some (gs "{""provider_id"":""0000000000000000000000000000000000000000000000000000000000000065"",""private_key"":""010000000000000000000000000000000000000000000000000000000000000066"",""private_key_version"":103,""wallet_private_key"":""s4 \""q\"" \u0026"",""lotus_ap"":""s5 \""q\"" \u0026"",""lotus_auth_token"":""s6 \""q\"" \u0026""}")).
Proof. vm_compute. reflexivity. Qed.

Theorem ProviderAdminInitialiseKeyResponse_roundtrip : forall version supported sha256 (success : bool),
  exists m, EncodeProviderAdminInitialiseKeyResponse version supported success = Ret m /\
    fresh version supported 501 m /\ DecodeProviderAdminInitialiseKeyResponse sha256 m = Ret (OkR success).
Proof. exact rt_ProviderAdminInitialiseKeyResponse. Qed.
Example ProviderAdminInitialiseKeyResponse_ex :
  body (EncodeProviderAdminInitialiseKeyResponse 1 [1; 1] true) =
  Ret (Some (gs "{""success"":true}")).
Proof. vm_compute. reflexivity. Qed.

Theorem ProviderAdminPublishDHTOfferRequest_roundtrip : forall version supported sha256 (cids : list bytes) (price :
    option (list Z)) (expiry : option (list Z)) (qos : option (list Z)),
  Forall id32 cids -> each uint64 price -> each int64 expiry -> each uint64 qos ->
  exists m, EncodeProviderAdminPublishDHTOfferRequest version supported cids price expiry qos = Ret m /\
    fresh version supported 504 m /\ DecodeProviderAdminPublishDHTOfferRequest sha256 m = Ret (OkR (cids, price,
        expiry, qos)).
Proof. exact rt_ProviderAdminPublishDHTOfferRequest. Qed.
Example ProviderAdminPublishDHTOfferRequest_ex :
  body (EncodeProviderAdminPublishDHTOfferRequest 1 [1; 1] [id_of 101; id_of 301] (Some [102; 103]) (Some [103; -104]) (Some [104; 105])) =
  Ret (Some (gs "{""cids"":[""0000000000000000000000000000000000000000000000000000000000000065"",""000000000000000000000000000000000000000000000000000000000000012d""],""price"":[102,103],""expiry"":[103,-104],""qos"":[104,105]}")).
Proof. vm_compute. reflexivity. Qed.

Theorem ProviderAdminPublishDHTOfferResponse_roundtrip : forall version supported sha256 (received : bool),
  exists m, EncodeProviderAdminPublishDHTOfferResponse version supported received = Ret m /\
    fresh version supported 505 m /\ DecodeProviderAdminPublishDHTOfferResponse sha256 m = Ret (OkR received).
Proof. exact rt_ProviderAdminPublishDHTOfferResponse. Qed.
Example ProviderAdminPublishDHTOfferResponse_ex :
  body (EncodeProviderAdminPublishDHTOfferResponse 1 [1; 1] true) =
  Ret (Some (gs "{""received"":true}")).
Proof. vm_compute. reflexivity. Qed.

Theorem ProviderAdminPublishGroupOfferRequest_roundtrip : forall version supported sha256 (cids : list bytes) (price
    : Z) (expiry : Z) (qos : Z),
  Forall id32 cids -> uint64 price -> int64 expiry -> uint64 qos ->
  exists m, EncodeProviderAdminPublishGroupOfferRequest version supported cids price expiry qos = Ret m /\
    fresh version supported 502 m /\ DecodeProviderAdminPublishGroupOfferRequest sha256 m = Ret (OkR (cids, price,
        expiry, qos)).
Proof. exact rt_ProviderAdminPublishGroupOfferRequest. Qed.
Example ProviderAdminPublishGroupOfferRequest_ex :
  body (EncodeProviderAdminPublishGroupOfferRequest 1 [1; 1] [id_of 101; id_of 301] 102 (-103) 104) =
  Ret (Some (gs "{""cids"":[""0000000000000000000000000000000000000000000000000000000000000065"",""000000000000000000000000000000000000000000000000000000000000012d""],""price"":102,""expiry"":-103,""qos"":104}")).
Proof. vm_compute. reflexivity. Qed.

Theorem ProviderAdminPublishGroupOfferResponse_roundtrip : forall version supported sha256 (received : bool),
  exists m, EncodeProviderAdminPublishGroupOfferResponse version supported received = Ret m /\
    fresh version supported 503 m /\ DecodeProviderAdminPublishGroupOfferResponse sha256 m = Ret (OkR received).
Proof. exact rt_ProviderAdminPublishGroupOfferResponse. Qed.
Example ProviderAdminPublishGroupOfferResponse_ex :
  body (EncodeProviderAdminPublishGroupOfferResponse 1 [1; 1] true) =
  Ret (Some (gs "{""received"":true}")).
Proof. vm_compute. reflexivity. Qed.

Theorem InvalidMessageResponse_roundtrip : forall version supported sha256,
  exists m, EncodeInvalidMessageResponse version supported = Ret m /\
    fresh version supported 902 m /\ DecodeInvalidMessageResponse sha256 m = Ret (OkR tt).
Proof. exact rt_InvalidMessageResponse. Qed.
Example InvalidMessageResponse_ex :
  body (EncodeInvalidMessageResponse 1 [1; 1]) =
  Ret (Some (gs "{}")).
Proof. vm_compute. reflexivity. Qed.

Theorem ProtocolChangeRequest_roundtrip : forall version supported sha256 (desiredVersion : Z),
  int32 desiredVersion ->
  exists m, EncodeProtocolChangeRequest version supported desiredVersion = Ret m /\
    fresh version supported 900 m /\ DecodeProtocolChangeRequest sha256 m = Ret (OkR desiredVersion).
Proof. exact rt_ProtocolChangeRequest. Qed.
Example ProtocolChangeRequest_ex :
  body (EncodeProtocolChangeRequest 1 [1; 1] (-101)) =
  Ret (Some (gs "{""desired_version"":-101}")).
Proof. vm_compute. reflexivity. Qed.

Theorem ProtocolChangeResponse_roundtrip : forall version supported sha256 (success : bool),
  exists m, EncodeProtocolChangeResponse version supported success = Ret m /\
    fresh version supported 901 m /\ DecodeProtocolChangeResponse sha256 m = Ret (OkR success).
Proof. exact rt_ProtocolChangeResponse. Qed.
Example ProtocolChangeResponse_ex :
  body (EncodeProtocolChangeResponse 1 [1; 1] true) =
  Ret (Some (gs "{""success"":true}")).
Proof. vm_compute. reflexivity. Qed.

(** The two responses above whose flag is not [true]: the decoders return [true]
    whatever was sent. *)
Theorem GatewayPingResponse_roundtrip_refuted :
  exists m, EncodeGatewayPingResponse 1 [1; 1] 42 false = Ret m /\
    forall sha256, DecodeGatewayPingResponse sha256 m = Ret (OkR (42, true)).
Proof. eexists. split; [vm_compute; reflexivity|]. intros sha. vm_compute. reflexivity. Qed.
Theorem GatewayNotifyProviderGroupCIDOfferSupportResponse_roundtrip_refuted :
  exists m, EncodeGatewayNotifyProviderGroupCIDOfferSupportResponse 1 [1; 1] false = Ret m /\
    forall sha256, DecodeGatewayNotifyProviderGroupCIDOfferSupportResponse sha256 m = Ret (OkR true).
Proof. eexists. split; [vm_compute; reflexivity|]. intros sha. vm_compute. reflexivity. Qed.

(** Values meeting the conditions on embedded messages, offers and sub-offers. *)
Definition made_offer : offer :=
  match NewCIDOffer (fun x => x) (Some (id_of 500)) [id_of 501] 11 12 13 with
  | Ret (OkR o) => Offer (o_provider o) (o_cids o) (o_price o) (o_expiry o) (o_qos o) (gs "osig") (o_root o) (o_tree o)
  | _ => ex_offer
  end.
Example wire_values_ex :
  wire_message ex_msg /\ wire_suboffer ex_sub /\ wire_offer (fun x => x) made_offer /\
  each (fun o => length (o_cids o) = 1%nat) (Some [made_offer]) /\ int64 (slice_len (Some [made_offer])).
Proof.
  split; [|split; [|split; [|split]]].
  - unfold wire_message, int32. cbn [ex_msg m_type m_version m_supported each]. repeat split; try lia.
    repeat constructor; lia.
  - unfold wire_suboffer, wire_proof, int64, uint64, id32. cbn [ex_sub s_provider s_cid s_price s_expiry s_qos s_proof].
    split; [do 2 eexists; repeat split|]. split; [lia|]. split; [lia|]. split; [lia|].
    split; [repeat constructor; lia|]. split; vm_compute; reflexivity.
  - destruct (NewCIDOffer (fun x => x) (Some (id_of 500)) [id_of 501] 11 12 13) as [[o0|]| |] eqn:E;
      [|vm_compute in E; discriminate..].
    exists (id_of 500), [id_of 501], 11, 12, 13, o0. unfold id32, uint64, int64.
    split; [reflexivity|]. split; [repeat constructor|]. split; [lia|]. split; [lia|]. split; [lia|]. split; [exact E|].
    unfold made_offer. rewrite E. reflexivity.
  - repeat constructor.
  - unfold int64. change (slice_len _) with 1. lia.
Qed.

(** ** C20 *)

(** A message of any kind is rejected by the decoder of any other kind, except
    between the ping messages and the group-offer-support notifications. *)
Theorem kinds_distinct_partial : forall version supported sha256 k k' m,
  sends version supported k m -> k <> k' -> confused k k' = false -> rejects sha256 k' m.
Proof. exact kinds_distinct_pf. Qed.
Example kinds_distinct_ex :
  exists m, sends 1 [1; 1] KClientEstablishmentRequest m /\ rejects (fun x => x) KClientEstablishmentResponse m /\
    ~ rejects (fun x => x) KClientEstablishmentRequest m.
Proof.
  eexists. split; [exists (Some (id_of 1)), (gs "c"), 5; vm_compute; reflexivity|].
  split; vm_compute; [reflexivity|discriminate].
Qed.

(** A ping request is accepted as a notification, with the flag off, and the
    other way round; the same with the responses. *)
Theorem kinds_distinct_refuted :
  (exists m, EncodeGatewayPingRequest 1 [1; 1] (Some (id_of 7)) 8 9 = Ret m /\
     forall sha256, DecodeGatewayNotifyProviderGroupCIDOfferSupportRequest sha256 m = Ret (OkR (Some (id_of 7), false))) /\
  (exists m, EncodeGatewayNotifyProviderGroupCIDOfferSupportRequest 1 [1; 1] (Some (id_of 7)) true = Ret m /\
     forall sha256, DecodeGatewayPingRequest sha256 m = Ret (OkR (Some (id_of 7), 0, 0))) /\
  (exists m, EncodeGatewayPingResponse 1 [1; 1] 8 true = Ret m /\
     forall sha256, DecodeGatewayNotifyProviderGroupCIDOfferSupportResponse sha256 m = Ret (OkR true)) /\
  (exists m, EncodeGatewayNotifyProviderGroupCIDOfferSupportResponse 1 [1; 1] true = Ret m /\
     forall sha256, DecodeGatewayPingResponse sha256 m = Ret (OkR (0, true))).
Proof.
  split; [|split; [|split]]; eexists; (split; [vm_compute; reflexivity|intros sha; vm_compute; reflexivity]).
Qed.

(** ** C22 *)

(** Identifiers handed out by decoders are missing or of the right length. *)
Theorem decoded_ids_partial : forall sha256 k m, good_ids sha256 k m.
Proof. exact good_ids_pf. Qed.
Definition raw (tag : Z) (text : gostring) : message := Message tag 1 (Some [1; 1]) (Some text) [].
Example decoded_ids_ex :
  DecodeClientEstablishmentResponse (fun x => x) (raw 101 (gs "{""CHALLENGE"":""x"",""other"":[{}],""gateway_id"":""0A""}"))
  = Ret (OkR (Some (id_of 10), gs "x")).
Proof. vm_compute. reflexivity. Qed.

(** A malformed identifier is not an error: the decoder hands out a missing one. *)
Theorem decoded_ids_refuted : forall sha256,
  DecodeClientEstablishmentRequest sha256 (raw 100 (gs "{""client_id"":""no hex"",""challenge"":""x"",""ttl"":5}"))
  = Ret (OkR (None, gs "x", 5)).
Proof. intros sha. vm_compute. reflexivity. Qed.

(** ** C80 *)

(** Decoders other than those of [risky] kinds return on every message. *)
Theorem decoders_return_partial : forall sha256 k m, risky k = false -> returns sha256 k m.
Proof. exact returns_pf. Qed.
Example decoders_return_ex :
  risky KGatewayListDHTOfferRequest = false /\
  DecodeGatewayListDHTOfferRequest (fun x => x) (raw 200 (gs "{""cid_min"":[1,2"))  = Ret ErrR /\
  DecodeClientDHTOfferAckResponse (fun x => x) (raw 107 (gs "null"))
  = Ret (OkR (Some (id_of 0), Some (id_of 0), false, Some zero_message, Some zero_message)).
Proof. split; [reflexivity|]. split; vm_compute; reflexivity. Qed.

(** Among the others, an identifier that is not hexadecimal in a list, or an empty
    private key, crashes the decoder. *)
Theorem decoders_return_refuted : forall sha256,
  DecodeProviderAdminGetPublishedOfferRequest sha256 (raw 506 (gs "{""gateway_id"":[""zz""]}")) = Panic /\
  DecodeUpdateGatewayGroupCIDOfferSupportRequest sha256 (raw 408 (gs "{""node_id"":""00"",""provider_ids"":[""xyz""]}")) = Panic /\
  DecodeGatewayAdminInitialiseKeyRequest sha256 (raw 400 (gs "{}")) = Panic /\
  DecodeProviderAdminInitialiseKeyRequestV2 sha256 (raw 510 (gs "null")) = Panic /\
  DecodeProviderPublishGroupOfferRequest sha256 (raw 300 (gs "{""offer"":{""cids"":[""zz""]}}")) = Panic.
Proof. intros sha. repeat (split; [vm_compute; reflexivity|]). vm_compute; reflexivity. Qed.
Print Assumptions ClientDHTDiscoverOfferRequest_roundtrip.
Print Assumptions ClientDHTDiscoverOfferResponse_roundtrip.
Print Assumptions ClientDHTDiscoverRequest_roundtrip.
Print Assumptions ClientDHTDiscoverRequestV2_roundtrip.
Print Assumptions ClientDHTDiscoverResponse_roundtrip.
Print Assumptions ClientDHTDiscoverResponseV2_roundtrip.
Print Assumptions ClientDHTOfferAckRequest_roundtrip.
Print Assumptions ClientDHTOfferAckResponse_roundtrip.
Print Assumptions ClientEstablishmentRequest_roundtrip.
Print Assumptions ClientEstablishmentResponse_roundtrip.
Print Assumptions ClientStandardDiscoverOfferRequest_roundtrip.
Print Assumptions ClientStandardDiscoverOfferResponse_roundtrip.
Print Assumptions ClientStandardDiscoverRequest_roundtrip.
Print Assumptions ClientStandardDiscoverRequestV2_roundtrip.
Print Assumptions ClientStandardDiscoverResponse_roundtrip.
Print Assumptions ClientStandardDiscoverResponseV2_roundtrip.
Print Assumptions GatewayDHTDiscoverOfferRequest_roundtrip.
Print Assumptions GatewayDHTDiscoverOfferResponse_roundtrip.
Print Assumptions GatewayDHTDiscoverRequest_roundtrip.
Print Assumptions GatewayDHTDiscoverRequestV2_roundtrip.
Print Assumptions GatewayDHTDiscoverResponse_roundtrip.
Print Assumptions GatewayDHTDiscoverResponseV2_roundtrip.
Print Assumptions GatewayListDHTOfferAck_roundtrip.
Print Assumptions GatewayListDHTOfferRequest_roundtrip.
Print Assumptions GatewayListDHTOfferResponse_roundtrip.
Print Assumptions GatewayNotifyProviderGroupCIDOfferSupportRequest_roundtrip.
Print Assumptions GatewayNotifyProviderGroupCIDOfferSupportResponse_roundtrip_partial.
Print Assumptions GatewayPingRequest_roundtrip.
Print Assumptions GatewayPingResponse_roundtrip_partial.
Print Assumptions ProviderPublishDHTOfferRequest_roundtrip.
Print Assumptions ProviderPublishDHTOfferResponse_roundtrip.
Print Assumptions ProviderPublishGroupOfferRequest_roundtrip.
Print Assumptions ProviderPublishGroupOfferResponse_roundtrip.
Print Assumptions GatewayAdminForceRefreshRequest_roundtrip.
Print Assumptions GatewayAdminForceRefreshResponse_roundtrip.
Print Assumptions GatewayAdminGetReputationRequest_roundtrip.
Print Assumptions GatewayAdminGetReputationResponse_roundtrip.
Print Assumptions GatewayAdminInitialiseKeyRequest_roundtrip.
Print Assumptions GatewayAdminInitialiseKeyRequestV2_roundtrip.
Print Assumptions GatewayAdminInitialiseKeyResponse_roundtrip.
Print Assumptions GatewayAdminListDHTOfferRequest_roundtrip.
Print Assumptions GatewayAdminListDHTOfferResponse_roundtrip.
Print Assumptions GatewayAdminSetReputationRequest_roundtrip.
Print Assumptions GatewayAdminSetReputationResponse_roundtrip.
Print Assumptions UpdateGatewayGroupCIDOfferSupportRequest_roundtrip.
Print Assumptions UpdateGatewayGroupCIDOfferSupportResponse_roundtrip.
Print Assumptions ProviderAdminForceRefreshRequest_roundtrip.
Print Assumptions ProviderAdminForceRefreshResponse_roundtrip.
Print Assumptions ProviderAdminGetPublishedOfferRequest_roundtrip.
Print Assumptions ProviderAdminGetPublishedOfferResponse_roundtrip.
Print Assumptions ProviderAdminInitialiseKeyRequest_roundtrip.
Print Assumptions ProviderAdminInitialiseKeyRequestV2_roundtrip.
Print Assumptions ProviderAdminInitialiseKeyResponse_roundtrip.
Print Assumptions ProviderAdminPublishDHTOfferRequest_roundtrip.
Print Assumptions ProviderAdminPublishDHTOfferResponse_roundtrip.
Print Assumptions ProviderAdminPublishGroupOfferRequest_roundtrip.
Print Assumptions ProviderAdminPublishGroupOfferResponse_roundtrip.
Print Assumptions InvalidMessageResponse_roundtrip.
Print Assumptions ProtocolChangeRequest_roundtrip.
Print Assumptions ProtocolChangeResponse_roundtrip.
Print Assumptions GatewayPingResponse_roundtrip_refuted.
Print Assumptions GatewayNotifyProviderGroupCIDOfferSupportResponse_roundtrip_refuted.
Print Assumptions kinds_distinct_partial.
Print Assumptions kinds_distinct_refuted.
Print Assumptions decoded_ids_partial.
Print Assumptions decoded_ids_refuted.
Print Assumptions decoders_return_partial.
Print Assumptions decoders_return_refuted.
