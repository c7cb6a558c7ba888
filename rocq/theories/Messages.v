(** * The message kinds

    Models every [Encode]/[Decode] pair of common/pkg/fcrmessages, one file of
    that package after the other: the body struct, the encoder and the decoder.
    Pointers are options, an error result is [ErrR].  The decoders drop the errors
    of the identifier constructors, as the code does, which leaves nil pointers.
    Definitions only. *)
From Coq Require Import String List ZArith Bool.
From Coq Require Import Init.Byte.
From Verif Require Import Base Ids Json Merkle Crypto Message Offer Schema.
Import ListNotations.
Open Scope Z_scope.
Open Scope go_scope.

(** type.go L19-36: message types originating from Retrieval Client. *)
Definition ClientEstablishmentRequestType : Z := 100.
Definition ClientEstablishmentResponseType : Z := 101.
Definition ClientStandardDiscoverRequestType : Z := 102.
Definition ClientStandardDiscoverResponseType : Z := 103.
Definition ClientDHTDiscoverRequestType : Z := 104.
Definition ClientDHTDiscoverResponseType : Z := 105.
Definition ClientDHTOfferAckRequestType : Z := 106.
Definition ClientDHTOfferAckResponseType : Z := 107.
Definition ClientStandardDiscoverRequestV2Type : Z := 108.
Definition ClientStandardDiscoverResponseV2Type : Z := 109.
Definition ClientStandardDiscoverOfferRequestType : Z := 110.
Definition ClientStandardDiscoverOfferResponseType : Z := 111.
Definition ClientDHTDiscoverRequestV2Type : Z := 112.
Definition ClientDHTDiscoverResponseV2Type : Z := 113.
Definition ClientDHTDiscoverOfferRequestType : Z := 114.
Definition ClientDHTDiscoverOfferResponseType : Z := 115.

(** type.go L39-53: message types originating from Retrieval Gateway. *)
Definition GatewayListDHTOfferRequestType : Z := 200.
Definition GatewayListDHTOfferResponseType : Z := 201.
Definition GatewayListDHTOfferAckType : Z := 202.
Definition GatewayDHTDiscoverRequestType : Z := 203.
Definition GatewayDHTDiscoverResponseType : Z := 204.
Definition GatewayPingRequestType : Z := 205.
Definition GatewayPingResponseType : Z := 206.
Definition GatewayNotifyProviderGroupCIDOfferSupportedRequestType : Z := 205.
Definition GatewayNotifyProviderGroupCIDOfferSupportedResponseType : Z := 206.
Definition GatewayDHTDiscoverRequestV2Type : Z := 207.
Definition GatewayDHTDiscoverResponseV2Type : Z := 208.
Definition GatewayDHTDiscoverOfferRequestType : Z := 209.
Definition GatewayDHTDiscoverOfferResponseType : Z := 210.

(** type.go L56-61: message types originating from Retrieval Provider. *)
Definition ProviderPublishGroupOfferRequestType : Z := 300.
Definition ProviderPublishGroupOfferResponseType : Z := 301.
Definition ProviderPublishDHTOfferRequestType : Z := 302.
Definition ProviderPublishDHTOfferResponseType : Z := 303.

(** type.go L64-78: message types originating from Retrieval Gateway Admin. *)
Definition GatewayAdminInitialiseKeyRequestType : Z := 400.
Definition GatewayAdminInitialiseKeyResponseType : Z := 401.
Definition GatewayAdminGetReputationRequestType : Z := 402.
Definition GatewayAdminGetReputationResponseType : Z := 403.
Definition GatewayAdminSetReputationRequestType : Z := 404.
Definition GatewayAdminSetReputationResponseType : Z := 405.
Definition GatewayAdminForceRefreshRequestType : Z := 406.
Definition GatewayAdminForceRefreshResponseType : Z := 407.
Definition GatewayAdminUpdateGatewayGroupCIDOfferSupportRequestType : Z := 408.
Definition GatewayAdminUpdateGatewayGroupCIDOfferSupportResponseType : Z := 409.
Definition GatewayAdminListDHTOfferRequestType : Z := 410.
Definition GatewayAdminListDHTOfferResponseType : Z := 411.
Definition GatewayAdminInitialiseKeyRequestV2Type : Z := 412.

(** type.go L81-93: message types originating from Retrieval Provider Admin. *)
Definition ProviderAdminInitialiseKeyRequestType : Z := 500.
Definition ProviderAdminInitialiseKeyResponseType : Z := 501.
Definition ProviderAdminPublishGroupOfferRequestType : Z := 502.
Definition ProviderAdminPublishGroupOfferResponseType : Z := 503.
Definition ProviderAdminPublishDHTOfferRequestType : Z := 504.
Definition ProviderAdminPublishDHTOfferResponseType : Z := 505.
Definition ProviderAdminGetPublishedOfferRequestType : Z := 506.
Definition ProviderAdminGetPublishedOfferResponseType : Z := 507.
Definition ProviderAdminForceRefreshRequestType : Z := 508.
Definition ProviderAdminForceRefreshResponseType : Z := 509.
Definition ProviderAdminInitialiseKeyRequestV2Type : Z := 510.

(** type.go L96-100: messages for basic protocol. *)
Definition ProtocolChangeRequestType : Z := 900.
Definition ProtocolChangeResponseType : Z := 901.
Definition InvalidMessageResponseType : Z := 902.

Section messages.
  (** The package variables [protocolVersion] and [protocolSupported], and the hash
      of Merkle trees. *)
  Variable version : Z.
  Variable supported : list Z.
  Variable sha256 : bytes -> bytes.

  Notation encode := (encode version supported).
  Notation decode := (decode sha256).

  (** ** ClientDHTDiscoverOfferRequest *)

  (** client_dht_discover_offer_request.go L27-34 [clientDHTDiscoverOfferRequest]. *)
  Definition clientDHTDiscoverOfferRequest : schema :=
    [(gs "piece_cid", TStr);
     (gs "nonce", TI64);
     (gs "gateways_digests", TStrss);
     (gs "gateway_ids", TStrs);
     (gs "payment_channel_address", TStr);
     (gs "voucher", TStr)].

  (** client_dht_discover_offer_request.go L37-57 [EncodeClientDHTDiscoverOfferRequest]. *)
  Definition EncodeClientDHTDiscoverOfferRequest (pieceCID : option bytes) (nonce : Z)
     (gatewaysDigests : option (list (option (list gostring)))) (gatewayIDs : list bytes)
     (paychAddr : gostring) (voucher : gostring) : outcome message :=
    let* s1 := id_text pieceCID in
    encode ClientDHTDiscoverOfferRequestType clientDHTDiscoverOfferRequest
      (s1, (nonce, (gatewaysDigests, (ids_text gatewayIDs, (paychAddr, (voucher, tt)))))).

  (** client_dht_discover_offer_request.go L60-79 [DecodeClientDHTDiscoverOfferRequest]. *)
  Definition DecodeClientDHTDiscoverOfferRequest (fcrMsg : message)
      : outcome (result (option bytes * Z * option (list (option (list gostring))) * list bytes * gostring * gostring)) :=
    let! (f1, (f2, (f3, (f4, (f5, (f6, _)))))) := decode ClientDHTDiscoverOfferRequestType clientDHTDiscoverOfferRequest fcrMsg in
    let* ids1 := ids_of_text f4 in
    Ret (OkR (id_ptr f1, f2, f3, ids1, f5, f6)).

  (** ** ClientDHTDiscoverOfferResponse *)

  (** client_dht_discover_offer_response.go L27-34 [clientDHTDiscoverOfferResponse]. *)
  Definition clientDHTDiscoverOfferResponse : schema :=
    [(gs "piece_cid", TStr);
     (gs "nonce", TI64);
     (gs "gateway_ids", TStrs);
     (gs "response", TMsgs);
     (gs "payment_required", TBool);
     (gs "payment_channel", TStr)].

  (** client_dht_discover_offer_response.go L37-57 [EncodeClientDHTDiscoverOfferResponse]. *)
  Definition EncodeClientDHTDiscoverOfferResponse (pieceCID : option bytes) (nonce : Z)
     (gatewayIDs : list bytes) (response : option (list message)) (paymentRequired : bool)
     (paymentChannel : gostring) : outcome message :=
    let* s1 := id_text pieceCID in
    encode ClientDHTDiscoverOfferResponseType clientDHTDiscoverOfferResponse
      (s1, (nonce, (ids_text gatewayIDs, (response, (paymentRequired, (paymentChannel, tt)))))).

  (** client_dht_discover_offer_response.go L60-79 [DecodeClientDHTDiscoverOfferResponse]. *)
  Definition DecodeClientDHTDiscoverOfferResponse (fcrMsg : message)
      : outcome (result (option bytes * Z * list bytes * option (list message) * bool * gostring)) :=
    let! (f1, (f2, (f3, (f4, (f5, (f6, _)))))) := decode ClientDHTDiscoverOfferResponseType clientDHTDiscoverOfferResponse fcrMsg in
    let* ids1 := ids_of_text f3 in
    Ret (OkR (id_ptr f1, f2, ids1, f4, f5, f6)).

  (** ** ClientDHTDiscoverRequest *)

  (** client_dht_discover_request.go L26-34 [clientDHTDiscoverRequest]. *)
  Definition clientDHTDiscoverRequest : schema :=
    [(gs "piece_cid", TStr);
     (gs "nonce", TI64);
     (gs "ttl", TI64);
     (gs "num_dht", TI64);
     (gs "incremental_results", TBool);
     (gs "payment_channel_address", TStr);
     (gs "voucher", TStr)].

  (** client_dht_discover_request.go L37-59 [EncodeClientDHTDiscoverRequest]. *)
  Definition EncodeClientDHTDiscoverRequest (pieceCID : option bytes) (nonce : Z) (ttl : Z) (numDHT : Z)
     (incrementalResults : bool) (paychAddr : gostring) (voucher : gostring) : outcome message :=
    let* s1 := id_text pieceCID in
    encode ClientDHTDiscoverRequestType clientDHTDiscoverRequest
      (s1, (nonce, (ttl, (numDHT, (incrementalResults, (paychAddr, (voucher, tt))))))).

  (** client_dht_discover_request.go L62-82 [DecodeClientDHTDiscoverRequest]. *)
  Definition DecodeClientDHTDiscoverRequest (fcrMsg : message)
      : outcome (result (option bytes * Z * Z * Z * bool * gostring * gostring)) :=
    let! (f1, (f2, (f3, (f4, (f5, (f6, (f7, _))))))) := decode ClientDHTDiscoverRequestType clientDHTDiscoverRequest fcrMsg in
    Ret (OkR (id_ptr f1, f2, f3, f4, f5, f6, f7)).

  (** ** ClientDHTDiscoverRequestV2 *)

  (** client_dht_discover_request_v2.go L26-34 [clientDHTDiscoverRequestV2]. *)
  Definition clientDHTDiscoverRequestV2 : schema :=
    [(gs "piece_cid", TStr);
     (gs "nonce", TI64);
     (gs "ttl", TI64);
     (gs "num_dht", TI64);
     (gs "incremental_results", TBool);
     (gs "payment_channel_address", TStr);
     (gs "voucher", TStr)].

  (** client_dht_discover_request_v2.go L37-59 [EncodeClientDHTDiscoverRequestV2]. *)
  Definition EncodeClientDHTDiscoverRequestV2 (pieceCID : option bytes) (nonce : Z) (ttl : Z) (numDHT : Z)
     (incrementalResults : bool) (paychAddr : gostring) (voucher : gostring) : outcome message :=
    let* s1 := id_text pieceCID in
    encode ClientDHTDiscoverRequestV2Type clientDHTDiscoverRequestV2
      (s1, (nonce, (ttl, (numDHT, (incrementalResults, (paychAddr, (voucher, tt))))))).

  (** client_dht_discover_request_v2.go L62-82 [DecodeClientDHTDiscoverRequestV2]. *)
  Definition DecodeClientDHTDiscoverRequestV2 (fcrMsg : message)
      : outcome (result (option bytes * Z * Z * Z * bool * gostring * gostring)) :=
    let! (f1, (f2, (f3, (f4, (f5, (f6, (f7, _))))))) := decode ClientDHTDiscoverRequestV2Type clientDHTDiscoverRequestV2 fcrMsg in
    Ret (OkR (id_ptr f1, f2, f3, f4, f5, f6, f7)).

  (** ** ClientDHTDiscoverResponse *)

  (** client_dht_discover_response.go L26-33 [clientDHTDiscoverResponse]. *)
  Definition clientDHTDiscoverResponse : schema :=
    [(gs "contacted_gateways", TStrs);
     (gs "response", TMsgs);
     (gs "uncontactable_gateways", TStrs);
     (gs "nonce", TI64);
     (gs "payment_required", TBool);
     (gs "payment_channel", TStr)].

  (** client_dht_discover_response.go L36-56 [EncodeClientDHTDiscoverResponse]. *)
  Definition EncodeClientDHTDiscoverResponse (contacted : list bytes) (response : option (list message))
     (unContactable : list bytes) (nonce : Z) (paymentRequired : bool) (paymentChannel : gostring)
      : outcome message :=
    encode ClientDHTDiscoverResponseType clientDHTDiscoverResponse
      (ids_text contacted, (response, (ids_text unContactable, (nonce, (paymentRequired, (paymentChannel, tt)))))).

  (** client_dht_discover_response.go L59-77 [DecodeClientDHTDiscoverResponse]. *)
  Definition DecodeClientDHTDiscoverResponse (fcrMsg : message)
      : outcome (result (list bytes * option (list message) * list bytes * Z * bool * gostring)) :=
    let! (f1, (f2, (f3, (f4, (f5, (f6, _)))))) := decode ClientDHTDiscoverResponseType clientDHTDiscoverResponse fcrMsg in
    let* ids1 := ids_of_text f1 in
    let* ids2 := ids_of_text f3 in
    Ret (OkR (ids1, f2, ids2, f4, f5, f6)).

  (** ** ClientDHTDiscoverResponseV2 *)

  (** client_dht_discover_response_v2.go L26-33 [clientDHTDiscoverResponseV2]. *)
  Definition clientDHTDiscoverResponseV2 : schema :=
    [(gs "contacted_gateways", TStrs);
     (gs "response", TMsgs);
     (gs "uncontactable_gateways", TStrs);
     (gs "nonce", TI64);
     (gs "payment_required", TBool);
     (gs "payment_channel", TStr)].

  (** client_dht_discover_response_v2.go L36-56 [EncodeClientDHTDiscoverResponseV2]. *)
  Definition EncodeClientDHTDiscoverResponseV2 (contacted : list bytes) (response : option (list message))
     (unContactable : list bytes) (nonce : Z) (paymentRequired : bool) (paymentChannel : gostring)
      : outcome message :=
    encode ClientDHTDiscoverResponseV2Type clientDHTDiscoverResponseV2
      (ids_text contacted, (response, (ids_text unContactable, (nonce, (paymentRequired, (paymentChannel, tt)))))).

  (** client_dht_discover_response_v2.go L59-77 [DecodeClientDHTDiscoverResponseV2]. *)
  Definition DecodeClientDHTDiscoverResponseV2 (fcrMsg : message)
      : outcome (result (list bytes * option (list message) * list bytes * Z * bool * gostring)) :=
    let! (f1, (f2, (f3, (f4, (f5, (f6, _)))))) := decode ClientDHTDiscoverResponseV2Type clientDHTDiscoverResponseV2 fcrMsg in
    let* ids1 := ids_of_text f1 in
    let* ids2 := ids_of_text f3 in
    Ret (OkR (ids1, f2, ids2, f4, f5, f6)).

  (** ** ClientDHTOfferAckRequest *)

  (** client_dht_offer_ack_request.go L27-30 [clientDHTOfferAckRequest]. *)
  Definition clientDHTOfferAckRequest : schema :=
    [(gs "piece_cid", TStr);
     (gs "gateway_id", TStr)].

  (** client_dht_offer_ack_request.go L33-45 [EncodeClientDHTOfferAckRequest]. *)
  Definition EncodeClientDHTOfferAckRequest (pieceCID : option bytes) (gatewayID : option bytes)
      : outcome message :=
    let* s1 := id_text pieceCID in
    let* s2 := id_text gatewayID in
    encode ClientDHTOfferAckRequestType clientDHTOfferAckRequest (s1, (s2, tt)).

  (** client_dht_offer_ack_request.go L48-64 [DecodeClientDHTOfferAckRequest]. *)
  Definition DecodeClientDHTOfferAckRequest (fcrMsg : message)
      : outcome (result (option bytes * option bytes)) :=
    let! (f1, (f2, _)) := decode ClientDHTOfferAckRequestType clientDHTOfferAckRequest fcrMsg in
    Ret (OkR (id_ptr f1, id_ptr f2)).

  (** ** ClientDHTOfferAckResponse *)

  (** client_dht_offer_ack_response.go L27-33 [clientDHTOfferAckResponse]. *)
  Definition clientDHTOfferAckResponse : schema :=
    [(gs "piece_cid", TStr);
     (gs "gateway_id", TStr);
     (gs "found", TBool);
     (gs "publish_dht_offer_request", TMsg);
     (gs "publish_dht_offer_response", TMsg)].

  (** client_dht_offer_ack_response.go L36-54 [EncodeClientDHTOfferAckResponse]. *)
  Definition EncodeClientDHTOfferAckResponse (pieceCID : option bytes) (gatewayID : option bytes)
     (found : bool) (publishDHTOfferRequest : option message) (publishDHTOfferResponse : option message)
      : outcome message :=
    let* s1 := id_text pieceCID in
    let* s2 := id_text gatewayID in
    let* v3 := deref publishDHTOfferRequest in
    let* v4 := deref publishDHTOfferResponse in
    encode ClientDHTOfferAckResponseType clientDHTOfferAckResponse (s1, (s2, (found, (v3, (v4, tt))))).

  (** client_dht_offer_ack_response.go L57-76 [DecodeClientDHTOfferAckResponse]. *)
  Definition DecodeClientDHTOfferAckResponse (fcrMsg : message)
      : outcome (result (option bytes * option bytes * bool * option message * option message)) :=
    let! (f1, (f2, (f3, (f4, (f5, _))))) := decode ClientDHTOfferAckResponseType clientDHTOfferAckResponse fcrMsg in
    Ret (OkR (id_ptr f1, id_ptr f2, f3, Some f4, Some f5)).

  (** ** ClientEstablishmentRequest *)

  (** client_establishment_request.go L26-30 [clientEstablishmentRequest]. *)
  Definition clientEstablishmentRequest : schema :=
    [(gs "client_id", TStr);
     (gs "challenge", TStr);
     (gs "ttl", TI64)].

  (** client_establishment_request.go L33-47 [EncodeClientEstablishmentRequest]. *)
  Definition EncodeClientEstablishmentRequest (clientID : option bytes) (challenge : gostring) (ttl : Z)
      : outcome message :=
    let* s1 := id_text clientID in
    encode ClientEstablishmentRequestType clientEstablishmentRequest (s1, (challenge, (ttl, tt))).

  (** client_establishment_request.go L50-66 [DecodeClientEstablishmentRequest]. *)
  Definition DecodeClientEstablishmentRequest (fcrMsg : message)
      : outcome (result (option bytes * gostring * Z)) :=
    let! (f1, (f2, (f3, _))) := decode ClientEstablishmentRequestType clientEstablishmentRequest fcrMsg in
    Ret (OkR (id_ptr f1, f2, f3)).

  (** ** ClientEstablishmentResponse *)

  (** client_establishment_response.go L26-29 [clientEstablishmentResponse]. *)
  Definition clientEstablishmentResponse : schema :=
    [(gs "gateway_id", TStr);
     (gs "challenge", TStr)].

  (** client_establishment_response.go L32-44 [EncodeClientEstablishmentResponse]. *)
  Definition EncodeClientEstablishmentResponse (gatewayID : option bytes) (challenge : gostring)
      : outcome message :=
    let* s1 := id_text gatewayID in
    encode ClientEstablishmentResponseType clientEstablishmentResponse (s1, (challenge, tt)).

  (** client_establishment_response.go L47-62 [DecodeClientEstablishmentResponse]. *)
  Definition DecodeClientEstablishmentResponse (fcrMsg : message)
      : outcome (result (option bytes * gostring)) :=
    let! (f1, (f2, _)) := decode ClientEstablishmentResponseType clientEstablishmentResponse fcrMsg in
    Ret (OkR (id_ptr f1, f2)).

  (** ** ClientStandardDiscoverOfferRequest *)

  (** client_standard_discover_offer_request.go L26-33 [clientStandardDiscoverOfferRequest]. *)
  Definition clientStandardDiscoverOfferRequest : schema :=
    [(gs "piece_cid", TStr);
     (gs "nonce", TI64);
     (gs "ttl", TI64);
     (gs "offer_digests", TStrs);
     (gs "payment_channel_address", TStr);
     (gs "voucher", TStr)].

  (** client_standard_discover_offer_request.go L36-56 [EncodeClientStandardDiscoverOfferRequest]. *)
  Definition EncodeClientStandardDiscoverOfferRequest (pieceCID : option bytes) (nonce : Z) (ttl : Z)
     (offerDigests : option (list gostring)) (paychAddr : gostring) (voucher : gostring) : outcome message :=
    let* s1 := id_text pieceCID in
    encode ClientStandardDiscoverOfferRequestType clientStandardDiscoverOfferRequest
      (s1, (nonce, (ttl, (offerDigests, (paychAddr, (voucher, tt)))))).

  (** client_standard_discover_offer_request.go L59-78 [DecodeClientStandardDiscoverOfferRequest]. *)
  Definition DecodeClientStandardDiscoverOfferRequest (fcrMsg : message)
      : outcome (result (option bytes * Z * Z * option (list gostring) * gostring * gostring)) :=
    let! (f1, (f2, (f3, (f4, (f5, (f6, _)))))) := decode ClientStandardDiscoverOfferRequestType clientStandardDiscoverOfferRequest fcrMsg in
    Ret (OkR (id_ptr f1, f2, f3, f4, f5, f6)).

  (** ** ClientStandardDiscoverOfferResponse *)

  (** client_standard_discover_offer_response.go L27-35 [clientStandardDiscoverOfferResponse]. *)
  Definition clientStandardDiscoverOfferResponse : schema :=
    [(gs "piece_cid", TStr);
     (gs "nonce", TI64);
     (gs "found", TBool);
     (gs "sub_cid_offers", TSubs);
     (gs "funded_payment_channel", TBools);
     (gs "payment_required", TBool);
     (gs "payment_channel", TStr)].

  (** client_standard_discover_offer_response.go L38-60 [EncodeClientStandardDiscoverOfferResponse]. *)
  Definition EncodeClientStandardDiscoverOfferResponse (pieceCID : option bytes) (nonce : Z) (found : bool)
     (offers : option (list suboffer)) (fundedPaymentChannel : option (list bool)) (paymentRequired : bool)
     (paymentChannel : gostring) : outcome message :=
    let* s1 := id_text pieceCID in
    encode ClientStandardDiscoverOfferResponseType clientStandardDiscoverOfferResponse
      (s1, (nonce, (found, (offers, (fundedPaymentChannel, (paymentRequired, (paymentChannel, tt))))))).

  (** client_standard_discover_offer_response.go L63-83 [DecodeClientStandardDiscoverOfferResponse]. *)
  Definition DecodeClientStandardDiscoverOfferResponse (fcrMsg : message)
      : outcome (result (option bytes * Z * bool * option (list suboffer) * option (list bool) * bool * gostring)) :=
    let! (f1, (f2, (f3, (f4, (f5, (f6, (f7, _))))))) := decode ClientStandardDiscoverOfferResponseType clientStandardDiscoverOfferResponse fcrMsg in
    Ret (OkR (id_ptr f1, f2, f3, f4, f5, f6, f7)).

  (** ** ClientStandardDiscoverRequest *)

  (** client_standard_discover_request.go L26-32 [clientStandardDiscoverRequest]. *)
  Definition clientStandardDiscoverRequest : schema :=
    [(gs "piece_cid", TStr);
     (gs "nonce", TI64);
     (gs "ttl", TI64);
     (gs "payment_channel_address", TStr);
     (gs "voucher", TStr)].

  (** client_standard_discover_request.go L35-53 [EncodeClientStandardDiscoverRequest]. *)
  Definition EncodeClientStandardDiscoverRequest (pieceCID : option bytes) (nonce : Z) (ttl : Z)
     (paychAddr : gostring) (voucher : gostring) : outcome message :=
    let* s1 := id_text pieceCID in
    encode ClientStandardDiscoverRequestType clientStandardDiscoverRequest
      (s1, (nonce, (ttl, (paychAddr, (voucher, tt))))).

  (** client_standard_discover_request.go L56-74 [DecodeClientStandardDiscoverRequest]. *)
  Definition DecodeClientStandardDiscoverRequest (fcrMsg : message)
      : outcome (result (option bytes * Z * Z * gostring * gostring)) :=
    let! (f1, (f2, (f3, (f4, (f5, _))))) := decode ClientStandardDiscoverRequestType clientStandardDiscoverRequest fcrMsg in
    Ret (OkR (id_ptr f1, f2, f3, f4, f5)).

  (** ** ClientStandardDiscoverRequestV2 *)

  (** client_standard_discover_request_v2.go L26-32 [clientStandardDiscoverRequestV2]. *)
  Definition clientStandardDiscoverRequestV2 : schema :=
    [(gs "piece_cid", TStr);
     (gs "nonce", TI64);
     (gs "ttl", TI64);
     (gs "payment_channel_address", TStr);
     (gs "voucher", TStr)].

  (** client_standard_discover_request_v2.go L35-53 [EncodeClientStandardDiscoverRequestV2]. *)
  Definition EncodeClientStandardDiscoverRequestV2 (pieceCID : option bytes) (nonce : Z) (ttl : Z)
     (paychAddr : gostring) (voucher : gostring) : outcome message :=
    let* s1 := id_text pieceCID in
    encode ClientStandardDiscoverRequestV2Type clientStandardDiscoverRequestV2
      (s1, (nonce, (ttl, (paychAddr, (voucher, tt))))).

  (** client_standard_discover_request_v2.go L56-74 [DecodeClientStandardDiscoverRequestV2]. *)
  Definition DecodeClientStandardDiscoverRequestV2 (fcrMsg : message)
      : outcome (result (option bytes * Z * Z * gostring * gostring)) :=
    let! (f1, (f2, (f3, (f4, (f5, _))))) := decode ClientStandardDiscoverRequestV2Type clientStandardDiscoverRequestV2 fcrMsg in
    Ret (OkR (id_ptr f1, f2, f3, f4, f5)).

  (** ** ClientStandardDiscoverResponse *)

  (** client_standard_discover_response.go L27-33 [clientStandardDiscoverResponse]. *)
  Definition clientStandardDiscoverResponse : schema :=
    [(gs "piece_cid", TStr);
     (gs "nonce", TI64);
     (gs "found", TBool);
     (gs "sub_cid_offers", TSubs);
     (gs "funded_payment_channel", TBools)].

  (** client_standard_discover_response.go L36-54 [EncodeClientStandardDiscoverResponse]. *)
  Definition EncodeClientStandardDiscoverResponse (pieceCID : option bytes) (nonce : Z) (found : bool)
     (offers : option (list suboffer)) (fundedPaymentChannel : option (list bool)) : outcome message :=
    let* s1 := id_text pieceCID in
    encode ClientStandardDiscoverResponseType clientStandardDiscoverResponse
      (s1, (nonce, (found, (offers, (fundedPaymentChannel, tt))))).

  (** client_standard_discover_response.go L57-75 [DecodeClientStandardDiscoverResponse]. *)
  Definition DecodeClientStandardDiscoverResponse (fcrMsg : message)
      : outcome (result (option bytes * Z * bool * option (list suboffer) * option (list bool))) :=
    let! (f1, (f2, (f3, (f4, (f5, _))))) := decode ClientStandardDiscoverResponseType clientStandardDiscoverResponse fcrMsg in
    Ret (OkR (id_ptr f1, f2, f3, f4, f5)).

  (** ** ClientStandardDiscoverResponseV2 *)

  (** client_standard_discover_response_v2.go L26-34 [clientStandardDiscoverResponseV2]. *)
  Definition clientStandardDiscoverResponseV2 : schema :=
    [(gs "piece_cid", TStr);
     (gs "nonce", TI64);
     (gs "found", TBool);
     (gs "sub_cid_offer_digests", TStrs);
     (gs "funded_payment_channel", TBools);
     (gs "payment_required", TBool);
     (gs "payment_channel", TStr)].

  (** client_standard_discover_response_v2.go L37-59 [EncodeClientStandardDiscoverResponseV2]. *)
  Definition EncodeClientStandardDiscoverResponseV2 (pieceCID : option bytes) (nonce : Z) (found : bool)
     (offersDigests : option (list gostring)) (fundedPaymentChannel : option (list bool))
     (paymentRequired : bool) (paymentChannel : gostring) : outcome message :=
    let* s1 := id_text pieceCID in
    encode ClientStandardDiscoverResponseV2Type clientStandardDiscoverResponseV2
      (s1, (nonce, (found, (offersDigests, (fundedPaymentChannel, (paymentRequired, (paymentChannel, tt))))))).

  (** client_standard_discover_response_v2.go L62-82 [DecodeClientStandardDiscoverResponseV2]. *)
  Definition DecodeClientStandardDiscoverResponseV2 (fcrMsg : message)
      : outcome (result (option bytes * Z * bool * option (list gostring) * option (list bool) * bool * gostring)) :=
    let! (f1, (f2, (f3, (f4, (f5, (f6, (f7, _))))))) := decode ClientStandardDiscoverResponseV2Type clientStandardDiscoverResponseV2 fcrMsg in
    Ret (OkR (id_ptr f1, f2, f3, f4, f5, f6, f7)).

  (** ** GatewayDHTDiscoverOfferRequest *)

  (** gateway_dht_discover_offer_request.go L26-32 [gatewayDHTDiscoverOfferRequest]. *)
  Definition gatewayDHTDiscoverOfferRequest : schema :=
    [(gs "piece_cid", TStr);
     (gs "nonce", TI64);
     (gs "offer_digests", TStrs);
     (gs "payment_channel_address", TStr);
     (gs "voucher", TStr)].

  (** gateway_dht_discover_offer_request.go L35-53 [EncodeGatewayDHTDiscoverOfferRequest]. *)
  Definition EncodeGatewayDHTDiscoverOfferRequest (pieceCID : option bytes) (nonce : Z)
     (offerDigests : option (list gostring)) (paychAddr : gostring) (voucher : gostring) : outcome message :=
    let* s1 := id_text pieceCID in
    encode GatewayDHTDiscoverOfferRequestType gatewayDHTDiscoverOfferRequest
      (s1, (nonce, (offerDigests, (paychAddr, (voucher, tt))))).

  (** gateway_dht_discover_offer_request.go L56-74 [DecodeGatewayDHTDiscoverOfferRequest]. *)
  Definition DecodeGatewayDHTDiscoverOfferRequest (fcrMsg : message)
      : outcome (result (option bytes * Z * option (list gostring) * gostring * gostring)) :=
    let! (f1, (f2, (f3, (f4, (f5, _))))) := decode GatewayDHTDiscoverOfferRequestType gatewayDHTDiscoverOfferRequest fcrMsg in
    Ret (OkR (id_ptr f1, f2, f3, f4, f5)).

  (** ** GatewayDHTDiscoverOfferResponse *)

  (** gateway_dht_discover_offer_response.go L27-35 [gatewayDHTDiscoverOfferResponse]. *)
  Definition gatewayDHTDiscoverOfferResponse : schema :=
    [(gs "piece_cid", TStr);
     (gs "nonce", TI64);
     (gs "found", TBool);
     (gs "sub_cid_offers", TSubs);
     (gs "funded_payment_channel", TBools);
     (gs "payment_required", TBool);
     (gs "payment_channel", TStr)].

  (** gateway_dht_discover_offer_response.go L38-60 [EncodeGatewayDHTDiscoverOfferResponse]. *)
  Definition EncodeGatewayDHTDiscoverOfferResponse (pieceCID : option bytes) (nonce : Z) (found : bool)
     (offers : option (list suboffer)) (fundedPaymentChannel : option (list bool)) (paymentRequired : bool)
     (paymentChannel : gostring) : outcome message :=
    let* s1 := id_text pieceCID in
    encode GatewayDHTDiscoverOfferResponseType gatewayDHTDiscoverOfferResponse
      (s1, (nonce, (found, (offers, (fundedPaymentChannel, (paymentRequired, (paymentChannel, tt))))))).

  (** gateway_dht_discover_offer_response.go L63-83 [DecodeGatewayDHTDiscoverOfferResponse]. *)
  Definition DecodeGatewayDHTDiscoverOfferResponse (fcrMsg : message)
      : outcome (result (option bytes * Z * bool * option (list suboffer) * option (list bool) * bool * gostring)) :=
    let! (f1, (f2, (f3, (f4, (f5, (f6, (f7, _))))))) := decode GatewayDHTDiscoverOfferResponseType gatewayDHTDiscoverOfferResponse fcrMsg in
    Ret (OkR (id_ptr f1, f2, f3, f4, f5, f6, f7)).

  (** ** GatewayDHTDiscoverRequest *)

  (** gateway_dht_discover_request.go L27-34 [gatewayDHTDiscoverRequest]. *)
  Definition gatewayDHTDiscoverRequest : schema :=
    [(gs "gateway_id", TStr);
     (gs "piece_cid", TStr);
     (gs "nonce", TI64);
     (gs "ttl", TI64);
     (gs "payment_channel_address", TStr);
     (gs "voucher", TStr)].

  (** gateway_dht_discover_request.go L37-57 [EncodeGatewayDHTDiscoverRequest]. *)
  Definition EncodeGatewayDHTDiscoverRequest (gatewayID : option bytes) (pieceCID : option bytes) (nonce : Z)
     (ttl : Z) (paychAddr : gostring) (voucher : gostring) : outcome message :=
    let* s1 := id_text gatewayID in
    let* s2 := id_text pieceCID in
    encode GatewayDHTDiscoverRequestType gatewayDHTDiscoverRequest
      (s1, (s2, (nonce, (ttl, (paychAddr, (voucher, tt)))))).

  (** gateway_dht_discover_request.go L60-80 [DecodeGatewayDHTDiscoverRequest]. *)
  Definition DecodeGatewayDHTDiscoverRequest (fcrMsg : message)
      : outcome (result (option bytes * option bytes * Z * Z * gostring * gostring)) :=
    let! (f1, (f2, (f3, (f4, (f5, (f6, _)))))) := decode GatewayDHTDiscoverRequestType gatewayDHTDiscoverRequest fcrMsg in
    Ret (OkR (id_ptr f1, id_ptr f2, f3, f4, f5, f6)).

  (** ** GatewayDHTDiscoverRequestV2 *)

  (** gateway_dht_discover_request_v2.go L27-34 [gatewayDHTDiscoverRequestV2]. *)
  Definition gatewayDHTDiscoverRequestV2 : schema :=
    [(gs "gateway_id", TStr);
     (gs "piece_cid", TStr);
     (gs "nonce", TI64);
     (gs "ttl", TI64);
     (gs "payment_channel_address", TStr);
     (gs "voucher", TStr)].

  (** gateway_dht_discover_request_v2.go L37-57 [EncodeGatewayDHTDiscoverRequestV2]. *)
  Definition EncodeGatewayDHTDiscoverRequestV2 (gatewayID : option bytes) (pieceCID : option bytes)
     (nonce : Z) (ttl : Z) (paychAddr : gostring) (voucher : gostring) : outcome message :=
    let* s1 := id_text gatewayID in
    let* s2 := id_text pieceCID in
    encode GatewayDHTDiscoverRequestV2Type gatewayDHTDiscoverRequestV2
      (s1, (s2, (nonce, (ttl, (paychAddr, (voucher, tt)))))).

  (** gateway_dht_discover_request_v2.go L60-80 [DecodeGatewayDHTDiscoverRequestV2]. *)
  Definition DecodeGatewayDHTDiscoverRequestV2 (fcrMsg : message)
      : outcome (result (option bytes * option bytes * Z * Z * gostring * gostring)) :=
    let! (f1, (f2, (f3, (f4, (f5, (f6, _)))))) := decode GatewayDHTDiscoverRequestV2Type gatewayDHTDiscoverRequestV2 fcrMsg in
    Ret (OkR (id_ptr f1, id_ptr f2, f3, f4, f5, f6)).

  (** ** GatewayDHTDiscoverResponse *)

  (** gateway_dht_discover_response.go L27-33 [gatewayDHTDiscoverResponse]. *)
  Definition gatewayDHTDiscoverResponse : schema :=
    [(gs "piece_cid", TStr);
     (gs "nonce", TI64);
     (gs "found", TBool);
     (gs "sub_cid_offers", TSubs);
     (gs "funded_payment_channel", TBools)].

  (** gateway_dht_discover_response.go L36-54 [EncodeGatewayDHTDiscoverResponse]. *)
  Definition EncodeGatewayDHTDiscoverResponse (pieceCID : option bytes) (nonce : Z) (found : bool)
     (offers : option (list suboffer)) (fundedPaymentChannel : option (list bool)) : outcome message :=
    let* s1 := id_text pieceCID in
    encode GatewayDHTDiscoverResponseType gatewayDHTDiscoverResponse
      (s1, (nonce, (found, (offers, (fundedPaymentChannel, tt))))).

  (** gateway_dht_discover_response.go L57-75 [DecodeGatewayDHTDiscoverResponse]. *)
  Definition DecodeGatewayDHTDiscoverResponse (fcrMsg : message)
      : outcome (result (option bytes * Z * bool * option (list suboffer) * option (list bool))) :=
    let! (f1, (f2, (f3, (f4, (f5, _))))) := decode GatewayDHTDiscoverResponseType gatewayDHTDiscoverResponse fcrMsg in
    Ret (OkR (id_ptr f1, f2, f3, f4, f5)).

  (** ** GatewayDHTDiscoverResponseV2 *)

  (** gateway_dht_discover_response_v2.go L26-34 [gatewayDHTDiscoverResponseV2]. *)
  Definition gatewayDHTDiscoverResponseV2 : schema :=
    [(gs "piece_cid", TStr);
     (gs "nonce", TI64);
     (gs "found", TBool);
     (gs "sub_cid_offer_digest", TStrs);
     (gs "funded_payment_channel", TBools);
     (gs "payment_required", TBool);
     (gs "payment_channel", TStr)].

  (** gateway_dht_discover_response_v2.go L37-59 [EncodeGatewayDHTDiscoverResponseV2]. *)
  Definition EncodeGatewayDHTDiscoverResponseV2 (pieceCID : option bytes) (nonce : Z) (found : bool)
     (offers : option (list gostring)) (fundedPaymentChannel : option (list bool)) (paymentRequired : bool)
     (paymentChannel : gostring) : outcome message :=
    let* s1 := id_text pieceCID in
    encode GatewayDHTDiscoverResponseV2Type gatewayDHTDiscoverResponseV2
      (s1, (nonce, (found, (offers, (fundedPaymentChannel, (paymentRequired, (paymentChannel, tt))))))).

  (** gateway_dht_discover_response_v2.go L62-82 [DecodeGatewayDHTDiscoverResponseV2]. *)
  Definition DecodeGatewayDHTDiscoverResponseV2 (fcrMsg : message)
      : outcome (result (option bytes * Z * bool * option (list gostring) * option (list bool) * bool * gostring)) :=
    let! (f1, (f2, (f3, (f4, (f5, (f6, (f7, _))))))) := decode GatewayDHTDiscoverResponseV2Type gatewayDHTDiscoverResponseV2 fcrMsg in
    Ret (OkR (id_ptr f1, f2, f3, f4, f5, f6, f7)).

  (** ** GatewayListDHTOfferAck *)

  (** gateway_list_dht_offer_ack.go L24-26 [gatewayListDHTOfferAck]. *)
  Definition gatewayListDHTOfferAck : schema :=
    [(gs "published_dht_offers_ack", TMsgs)].

  (** gateway_list_dht_offer_ack.go L29-39 [EncodeGatewayListDHTOfferAck]. *)
  Definition EncodeGatewayListDHTOfferAck (publishedDHTOffersAck : option (list message)) : outcome message :=
    encode GatewayListDHTOfferAckType gatewayListDHTOfferAck (publishedDHTOffersAck, tt).

  (** gateway_list_dht_offer_ack.go L42-55 [DecodeGatewayListDHTOfferAck]. *)
  Definition DecodeGatewayListDHTOfferAck (fcrMsg : message) : outcome (result (option (list message))) :=
    let! (f1, _) := decode GatewayListDHTOfferAckType gatewayListDHTOfferAck fcrMsg in
    Ret (OkR f1).

  (** ** GatewayListDHTOfferRequest *)

  (** gateway_list_dht_offer_request.go L28-36 [gatewayListDHTOfferRequest]. *)
  Definition gatewayListDHTOfferRequest : schema :=
    [(gs "gateway_id", TStr);
     (gs "cid_min", TStr);
     (gs "cid_max", TStr);
     (gs "block_hash", TStr);
     (gs "transaction_receipt", TStr);
     (gs "merkle_root", TStr);
     (gs "merkle_proof", TProof)].

  (** gateway_list_dht_offer_request.go L39-61 [EncodeGatewayListDHTOfferRequest]. *)
  Definition EncodeGatewayListDHTOfferRequest (gatewayID : option bytes) (cidMin : option bytes)
     (cidMax : option bytes) (blockHash : gostring) (transactionReceipt : gostring) (merkleRoot : gostring)
     (merkleProof : option proof) : outcome message :=
    let* s1 := id_text gatewayID in
    let* s2 := id_text cidMin in
    let* s3 := id_text cidMax in
    let* v4 := deref merkleProof in
    encode GatewayListDHTOfferRequestType gatewayListDHTOfferRequest
      (s1, (s2, (s3, (blockHash, (transactionReceipt, (merkleRoot, (v4, tt))))))).

  (** gateway_list_dht_offer_request.go L64-86 [DecodeGatewayListDHTOfferRequest]. *)
  Definition DecodeGatewayListDHTOfferRequest (fcrMsg : message)
      : outcome (result (option bytes * option bytes * option bytes * gostring * gostring * gostring * option proof)) :=
    let! (f1, (f2, (f3, (f4, (f5, (f6, (f7, _))))))) := decode GatewayListDHTOfferRequestType gatewayListDHTOfferRequest fcrMsg in
    Ret (OkR (id_ptr f1, id_ptr f2, id_ptr f3, f4, f5, f6, Some f7)).

  (** ** GatewayListDHTOfferResponse *)

  (** gateway_list_dht_offer_response.go L24-26 [gatewayListDHTOfferResponse]. *)
  Definition gatewayListDHTOfferResponse : schema :=
    [(gs "published_dht_offers", TMsgs)].

  (** gateway_list_dht_offer_response.go L29-39 [EncodeGatewayListDHTOfferResponse]. *)
  Definition EncodeGatewayListDHTOfferResponse (publishedDHTOffers : option (list message))
      : outcome message :=
    encode GatewayListDHTOfferResponseType gatewayListDHTOfferResponse (publishedDHTOffers, tt).

  (** gateway_list_dht_offer_response.go L42-55 [DecodeGatewayListDHTOfferResponse]. *)
  Definition DecodeGatewayListDHTOfferResponse (fcrMsg : message)
      : outcome (result (option (list message))) :=
    let! (f1, _) := decode GatewayListDHTOfferResponseType gatewayListDHTOfferResponse fcrMsg in
    Ret (OkR f1).

  (** ** GatewayNotifyProviderGroupCIDOfferSupportRequest *)

  (** gateway_notify_provider_group_cid_offer_supported_request.go L25-28 [gatewayNotifyProviderGroupCIDOfferSupportRequest]. *)
  Definition gatewayNotifyProviderGroupCIDOfferSupportRequest : schema :=
    [(gs "gateway_id", TStr);
     (gs "group_cid_offer_supported", TBool)].

  (** gateway_notify_provider_group_cid_offer_supported_request.go L30-42 [EncodeGatewayNotifyProviderGroupCIDOfferSupportRequest]. *)
  Definition EncodeGatewayNotifyProviderGroupCIDOfferSupportRequest (gatewayID : option bytes)
     (groupCIDOfferSupported : bool) : outcome message :=
    let* s1 := id_text gatewayID in
    encode GatewayNotifyProviderGroupCIDOfferSupportedRequestType gatewayNotifyProviderGroupCIDOfferSupportRequest
      (s1, (groupCIDOfferSupported, tt)).

  (** gateway_notify_provider_group_cid_offer_supported_request.go L44-59 [DecodeGatewayNotifyProviderGroupCIDOfferSupportRequest]. *)
  Definition DecodeGatewayNotifyProviderGroupCIDOfferSupportRequest (fcrMsg : message)
      : outcome (result (option bytes * bool)) :=
    let! (f1, (f2, _)) := decode GatewayNotifyProviderGroupCIDOfferSupportedRequestType gatewayNotifyProviderGroupCIDOfferSupportRequest fcrMsg in
    Ret (OkR (id_ptr f1, f2)).

  (** ** GatewayNotifyProviderGroupCIDOfferSupportResponse *)

  (** gateway_notify_provider_group_cid_offer_supported_response.go L23-25 [gatewayNotifyProviderGroupCIDOfferSupportResponse]. *)
  Definition gatewayNotifyProviderGroupCIDOfferSupportResponse : schema :=
    [(gs "acknowledged", TBool)].

  (** gateway_notify_provider_group_cid_offer_supported_response.go L27-37 [EncodeGatewayNotifyProviderGroupCIDOfferSupportResponse]. *)
  Definition EncodeGatewayNotifyProviderGroupCIDOfferSupportResponse (acknowledged : bool)
      : outcome message :=
    encode GatewayNotifyProviderGroupCIDOfferSupportedResponseType gatewayNotifyProviderGroupCIDOfferSupportResponse
      (acknowledged, tt).

  (** gateway_notify_provider_group_cid_offer_supported_response.go L39-52 [DecodeGatewayNotifyProviderGroupCIDOfferSupportResponse]. *)
  Definition DecodeGatewayNotifyProviderGroupCIDOfferSupportResponse (fcrMsg : message)
      : outcome (result (bool)) :=
    let! (_, _) := decode GatewayNotifyProviderGroupCIDOfferSupportedResponseType gatewayNotifyProviderGroupCIDOfferSupportResponse fcrMsg in
    Ret (OkR true).

  (** ** GatewayPingRequest *)

  (** gateway_ping_request.go L27-31 [gatewayPingRequest]. *)
  Definition gatewayPingRequest : schema :=
    [(gs "gateway_id", TStr);
     (gs "nonce", TI64);
     (gs "ttl", TI64)].

  (** gateway_ping_request.go L34-45 [EncodeGatewayPingRequest]. *)
  Definition EncodeGatewayPingRequest (gatewayID : option bytes) (nonce : Z) (ttl : Z) : outcome message :=
    let* s1 := id_text gatewayID in
    encode GatewayPingRequestType gatewayPingRequest (s1, (nonce, (ttl, tt))).

  (** gateway_ping_request.go L48-67 [DecodeGatewayPingRequest]. *)
  Definition DecodeGatewayPingRequest (fcrMsg : message) : outcome (result (option bytes * Z * Z)) :=
    let! (f1, (f2, (f3, _))) := decode GatewayPingRequestType gatewayPingRequest fcrMsg in
    Ret (OkR (id_ptr f1, f2, f3)).

  (** ** GatewayPingResponse *)

  (** gateway_ping_response.go L24-27 [gatewayPingResponse]. *)
  Definition gatewayPingResponse : schema :=
    [(gs "nonce", TI64);
     (gs "isAlive", TBool)].

  (** gateway_ping_response.go L30-44 [EncodeGatewayPingResponse]. *)
  Definition EncodeGatewayPingResponse (nonce : Z) (alive : bool) : outcome message :=
    encode GatewayPingResponseType gatewayPingResponse (nonce, (alive, tt)).

  (** gateway_ping_response.go L47-64 [DecodeGatewayPingResponse]. *)
  Definition DecodeGatewayPingResponse (fcrMsg : message) : outcome (result (Z * bool)) :=
    let! (f1, (_, _)) := decode GatewayPingResponseType gatewayPingResponse fcrMsg in
    Ret (OkR (f1, true)).

  (** ** ProviderPublishDHTOfferRequest *)

  (** provider_publish_dht_offer_request.go L27-32 [providerPublishDHTOfferRequest]. *)
  Definition providerPublishDHTOfferRequest : schema :=
    [(gs "provider_id", TStr);
     (gs "nonce", TI64);
     (gs "num_of_offers", TI64);
     (gs "single_offers", TOffers)].

  (** provider_publish_dht_offer_request.go L35-50 [EncodeProviderPublishDHTOfferRequest]. *)
  Definition EncodeProviderPublishDHTOfferRequest (providerID : option bytes) (nonce : Z)
     (offers : option (list offer)) : outcome message :=
    let* s1 := id_text providerID in
    encode ProviderPublishDHTOfferRequestType providerPublishDHTOfferRequest
      (s1, (nonce, (slice_len offers, (offers, tt)))).

  (** provider_publish_dht_offer_request.go L53-75 [DecodeProviderPublishDHTOfferRequest]. *)
  Definition DecodeProviderPublishDHTOfferRequest (fcrMsg : message)
      : outcome (result (option bytes * Z * option (list offer))) :=
    let! (f1, (f2, (_, (f4, _)))) := decode ProviderPublishDHTOfferRequestType providerPublishDHTOfferRequest fcrMsg in
    if negb (forallb (fun o => Nat.eqb (length (o_cids o)) 1) (match f4 with Some l => l | None => [] end)) then Ret ErrR else
    Ret (OkR (id_ptr f1, f2, f4)).

  (** ** ProviderPublishDHTOfferResponse *)

  (** provider_publish_dht_offer_response.go L24-27 [providerPublishDHTOfferResponse]. *)
  Definition providerPublishDHTOfferResponse : schema :=
    [(gs "nonce", TI64);
     (gs "signature", TStr)].

  (** provider_publish_dht_offer_response.go L30-42 [EncodeProviderPublishDHTOfferResponse]. *)
  Definition EncodeProviderPublishDHTOfferResponse (nonce : Z) (signature : gostring) : outcome message :=
    encode ProviderPublishDHTOfferResponseType providerPublishDHTOfferResponse (nonce, (signature, tt)).

  (** provider_publish_dht_offer_response.go L45-59 [DecodeProviderPublishDHTOfferResponse]. *)
  Definition DecodeProviderPublishDHTOfferResponse (fcrMsg : message) : outcome (result (Z * gostring)) :=
    let! (f1, (f2, _)) := decode ProviderPublishDHTOfferResponseType providerPublishDHTOfferResponse fcrMsg in
    Ret (OkR (f1, f2)).

  (** ** ProviderPublishGroupOfferRequest *)

  (** provider_publish_group_offer_request.go L27-31 [providerPublishGroupOfferRequest]. *)
  Definition providerPublishGroupOfferRequest : schema :=
    [(gs "provider_id", TStr);
     (gs "nonce", TI64);
     (gs "offer", TOffer)].

  (** provider_publish_group_offer_request.go L34-48 [EncodeProviderPublishGroupOfferRequest]. *)
  Definition EncodeProviderPublishGroupOfferRequest (providerID : option bytes) (nonce : Z)
     (offer_ : option offer) : outcome message :=
    let* s1 := id_text providerID in
    let* v2 := deref offer_ in
    encode ProviderPublishGroupOfferRequestType providerPublishGroupOfferRequest (s1, (nonce, (v2, tt))).

  (** provider_publish_group_offer_request.go L51-67 [DecodeProviderPublishGroupOfferRequest]. *)
  Definition DecodeProviderPublishGroupOfferRequest (fcrMsg : message)
      : outcome (result (option bytes * Z * option offer)) :=
    let! (f1, (f2, (f3, _))) := decode ProviderPublishGroupOfferRequestType providerPublishGroupOfferRequest fcrMsg in
    Ret (OkR (id_ptr f1, f2, Some f3)).

  (** ** ProviderPublishGroupOfferResponse *)

  (** provider_publish_group_offer_response.go L26-29 [providerPublishGroupOfferResponse]. *)
  Definition providerPublishGroupOfferResponse : schema :=
    [(gs "gateway_id", TStr);
     (gs "digest", TStr)].

  (** provider_publish_group_offer_response.go L32-44 [EncodeProviderPublishGroupOfferResponse]. *)
  Definition EncodeProviderPublishGroupOfferResponse (gatewayID : bytes) (digest : gostring)
      : outcome message :=
    encode ProviderPublishGroupOfferResponseType providerPublishGroupOfferResponse
      (ToString gatewayID, (digest, tt)).

  (** provider_publish_group_offer_response.go L47-62 [DecodeProviderPublishGroupOfferResponse]. *)
  Definition DecodeProviderPublishGroupOfferResponse (fcrMsg : message)
      : outcome (result (option bytes * gostring)) :=
    let! (f1, (f2, _)) := decode ProviderPublishGroupOfferResponseType providerPublishGroupOfferResponse fcrMsg in
    Ret (OkR (id_ptr f1, f2)).

  (** ** GatewayAdminForceRefreshRequest *)

  (** gatewayadmin_force_refresh_request.go L24-26 [gatewayAdminForceRefreshRequest]. *)
  Definition gatewayAdminForceRefreshRequest : schema :=
    [(gs "refresh", TBool)].

  (** gatewayadmin_force_refresh_request.go L29-37 [EncodeGatewayAdminForceRefreshRequest]. *)
  Definition EncodeGatewayAdminForceRefreshRequest (refresh : bool) : outcome message :=
    encode GatewayAdminForceRefreshRequestType gatewayAdminForceRefreshRequest (refresh, tt).

  (** gatewayadmin_force_refresh_request.go L40-53 [DecodeGatewayAdminForceRefreshRequest]. *)
  Definition DecodeGatewayAdminForceRefreshRequest (fcrMsg : message) : outcome (result (bool)) :=
    let! (f1, _) := decode GatewayAdminForceRefreshRequestType gatewayAdminForceRefreshRequest fcrMsg in
    Ret (OkR f1).

  (** ** GatewayAdminForceRefreshResponse *)

  (** gatewayadmin_force_refresh_response.go L24-26 [gatewayAdminForceRefreshResponse]. *)
  Definition gatewayAdminForceRefreshResponse : schema :=
    [(gs "refreshed", TBool)].

  (** gatewayadmin_force_refresh_response.go L29-39 [EncodeGatewayAdminForceRefreshResponse]. *)
  Definition EncodeGatewayAdminForceRefreshResponse (refreshed : bool) : outcome message :=
    encode GatewayAdminForceRefreshResponseType gatewayAdminForceRefreshResponse (refreshed, tt).

  (** gatewayadmin_force_refresh_response.go L42-55 [DecodeGatewayAdminForceRefreshResponse]. *)
  Definition DecodeGatewayAdminForceRefreshResponse (fcrMsg : message) : outcome (result (bool)) :=
    let! (f1, _) := decode GatewayAdminForceRefreshResponseType gatewayAdminForceRefreshResponse fcrMsg in
    Ret (OkR f1).

  (** ** GatewayAdminGetReputationRequest *)

  (** gatewayadmin_get_reputation_request.go L26-28 [gatewayAdminGetReputationRequest]. *)
  Definition gatewayAdminGetReputationRequest : schema :=
    [(gs "client_id", TStr)].

  (** gatewayadmin_get_reputation_request.go L31-41 [EncodeGatewayAdminGetReputationRequest]. *)
  Definition EncodeGatewayAdminGetReputationRequest (clientID : option bytes) : outcome message :=
    let* s1 := id_text clientID in
    encode GatewayAdminGetReputationRequestType gatewayAdminGetReputationRequest (s1, tt).

  (** gatewayadmin_get_reputation_request.go L44-58 [DecodeGatewayAdminGetReputationRequest]. *)
  Definition DecodeGatewayAdminGetReputationRequest (fcrMsg : message) : outcome (result (option bytes)) :=
    let! (f1, _) := decode GatewayAdminGetReputationRequestType gatewayAdminGetReputationRequest fcrMsg in
    Ret (OkR (id_ptr f1)).

  (** ** GatewayAdminGetReputationResponse *)

  (** gatewayadmin_get_reputation_response.go L26-30 [gatewayAdminGetReputationResponse]. *)
  Definition gatewayAdminGetReputationResponse : schema :=
    [(gs "client_id", TStr);
     (gs "reputation", TI64);
     (gs "exists", TBool)].

  (** gatewayadmin_get_reputation_response.go L33-47 [EncodeGatewayAdminGetReputationResponse]. *)
  Definition EncodeGatewayAdminGetReputationResponse (clientID : option bytes) (reputation : Z)
     (exists_ : bool) : outcome message :=
    let* s1 := id_text clientID in
    encode GatewayAdminGetReputationResponseType gatewayAdminGetReputationResponse
      (s1, (reputation, (exists_, tt))).

  (** gatewayadmin_get_reputation_response.go L50-66 [DecodeGatewayAdminGetReputationResponse]. *)
  Definition DecodeGatewayAdminGetReputationResponse (fcrMsg : message)
      : outcome (result (option bytes * Z * bool)) :=
    let! (f1, (f2, (f3, _))) := decode GatewayAdminGetReputationResponseType gatewayAdminGetReputationResponse fcrMsg in
    Ret (OkR (id_ptr f1, f2, f3)).

  (** ** GatewayAdminInitialiseKeyRequest *)

  (** gatewayadmin_initialise_key_request.go L27-31 [gatewayAdminInitialiseKeyRequest]. *)
  Definition gatewayAdminInitialiseKeyRequest : schema :=
    [(gs "gateway_id", TStr);
     (gs "private_key", TStr);
     (gs "private_key_version", TU32)].

  (** gatewayadmin_initialise_key_request.go L34-48 [EncodeGatewayAdminInitialiseKeyRequest]. *)
  Definition EncodeGatewayAdminInitialiseKeyRequest (nodeID : option bytes) (privateKey : option keypair)
     (keyVersion : option Z) : outcome message :=
    let* s1 := id_text nodeID in
    let* v2 := deref privateKey in
    let* v3 := deref keyVersion in
    encode GatewayAdminInitialiseKeyRequestType gatewayAdminInitialiseKeyRequest
      (s1, (EncodePrivateKey v2, (v3, tt))).

  (** gatewayadmin_initialise_key_request.go L51-72 [DecodeGatewayAdminInitialiseKeyRequest]. *)
  Definition DecodeGatewayAdminInitialiseKeyRequest (fcrMsg : message)
      : outcome (result (option bytes * option keypair * option Z)) :=
    let! (f1, (f2, (f3, _))) := decode GatewayAdminInitialiseKeyRequestType gatewayAdminInitialiseKeyRequest fcrMsg in
    let! privKey := DecodePrivateKey f2 in
    Ret (OkR (id_ptr f1, Some privKey, Some f3)).

  (** ** GatewayAdminInitialiseKeyRequestV2 *)

  (** gatewayadmin_initialise_key_request_v2.go L28-35 [gatewayAdminInitialiseKeyRequestV2]. *)
  Definition gatewayAdminInitialiseKeyRequestV2 : schema :=
    [(gs "gateway_id", TStr);
     (gs "private_key", TStr);
     (gs "private_key_version", TU32);
     (gs "wallet_private_key", TStr);
     (gs "lotus_ap", TStr);
     (gs "lotus_auth_token", TStr)].

  (** gatewayadmin_initialise_key_request_v2.go L38-58 [EncodeGatewayAdminInitialiseKeyRequestV2]. *)
  Definition EncodeGatewayAdminInitialiseKeyRequestV2 (nodeID : option bytes) (privateKey : option keypair)
     (keyVersion : option Z) (walletPrivateKey : gostring) (lotusAP : gostring) (lotusAuthToken : gostring)
      : outcome message :=
    let* s1 := id_text nodeID in
    let* v2 := deref privateKey in
    let* v3 := deref keyVersion in
    encode GatewayAdminInitialiseKeyRequestV2Type gatewayAdminInitialiseKeyRequestV2
      (s1, (EncodePrivateKey v2, (v3, (walletPrivateKey, (lotusAP, (lotusAuthToken, tt)))))).

  (** gatewayadmin_initialise_key_request_v2.go L61-85 [DecodeGatewayAdminInitialiseKeyRequestV2]. *)
  Definition DecodeGatewayAdminInitialiseKeyRequestV2 (fcrMsg : message)
      : outcome (result (option bytes * option keypair * option Z * gostring * gostring * gostring)) :=
    let! (f1, (f2, (f3, (f4, (f5, (f6, _)))))) := decode GatewayAdminInitialiseKeyRequestV2Type gatewayAdminInitialiseKeyRequestV2 fcrMsg in
    let! privKey := DecodePrivateKey f2 in
    Ret (OkR (id_ptr f1, Some privKey, Some f3, f4, f5, f6)).

  (** ** GatewayAdminInitialiseKeyResponse *)

  (** gatewayadmin_initialise_key_response.go L24-26 [gatewayAdminInitialiseKeyResponse]. *)
  Definition gatewayAdminInitialiseKeyResponse : schema :=
    [(gs "success", TBool)].

  (** gatewayadmin_initialise_key_response.go L29-39 [EncodeGatewayAdminInitialiseKeyResponse]. *)
  Definition EncodeGatewayAdminInitialiseKeyResponse (success : bool) : outcome message :=
    encode GatewayAdminInitialiseKeyResponseType gatewayAdminInitialiseKeyResponse (success, tt).

  (** gatewayadmin_initialise_key_response.go L42-55 [DecodeGatewayAdminInitialiseKeyResponse]. *)
  Definition DecodeGatewayAdminInitialiseKeyResponse (fcrMsg : message) : outcome (result (bool)) :=
    let! (f1, _) := decode GatewayAdminInitialiseKeyResponseType gatewayAdminInitialiseKeyResponse fcrMsg in
    Ret (OkR f1).

  (** ** GatewayAdminListDHTOfferRequest *)

  (** gatewayadmin_list_dht_offer_request.go L24-26 [gatewayAdminListDHTOfferRequest]. *)
  Definition gatewayAdminListDHTOfferRequest : schema :=
    [(gs "refresh", TBool)].

  (** gatewayadmin_list_dht_offer_request.go L29-37 [EncodeGatewayAdminListDHTOfferRequest]. *)
  Definition EncodeGatewayAdminListDHTOfferRequest (refresh : bool) : outcome message :=
    encode GatewayAdminListDHTOfferRequestType gatewayAdminListDHTOfferRequest (refresh, tt).

  (** gatewayadmin_list_dht_offer_request.go L40-53 [DecodeGatewayAdminListDHTOfferRequest]. *)
  Definition DecodeGatewayAdminListDHTOfferRequest (fcrMsg : message) : outcome (result (bool)) :=
    let! (f1, _) := decode GatewayAdminListDHTOfferRequestType gatewayAdminListDHTOfferRequest fcrMsg in
    Ret (OkR f1).

  (** ** GatewayAdminListDHTOfferResponse *)

  (** gatewayadmin_list_dht_offer_response.go L24-26 [gatewayAdminListDHTOfferResponse]. *)
  Definition gatewayAdminListDHTOfferResponse : schema :=
    [(gs "refreshed", TBool)].

  (** gatewayadmin_list_dht_offer_response.go L29-37 [EncodeGatewayAdminListDHTOfferResponse]. *)
  Definition EncodeGatewayAdminListDHTOfferResponse (refreshed : bool) : outcome message :=
    encode GatewayAdminListDHTOfferResponseType gatewayAdminListDHTOfferResponse (refreshed, tt).

  (** gatewayadmin_list_dht_offer_response.go L40-53 [DecodeGatewayAdminListDHTOfferResponse]. *)
  Definition DecodeGatewayAdminListDHTOfferResponse (fcrMsg : message) : outcome (result (bool)) :=
    let! (f1, _) := decode GatewayAdminListDHTOfferResponseType gatewayAdminListDHTOfferResponse fcrMsg in
    Ret (OkR f1).

  (** ** GatewayAdminSetReputationRequest *)

  (** gatewayadmin_set_reputation_request.go L26-29 [gatewayAdminSetReputationRequest]. *)
  Definition gatewayAdminSetReputationRequest : schema :=
    [(gs "client_id", TStr);
     (gs "reputation", TI64)].

  (** gatewayadmin_set_reputation_request.go L32-44 [EncodeGatewayAdminSetReputationRequest]. *)
  Definition EncodeGatewayAdminSetReputationRequest (clientID : option bytes) (reputation : Z)
      : outcome message :=
    let* s1 := id_text clientID in
    encode GatewayAdminSetReputationRequestType gatewayAdminSetReputationRequest (s1, (reputation, tt)).

  (** gatewayadmin_set_reputation_request.go L47-62 [DecodeGatewayAdminSetReputationRequest]. *)
  Definition DecodeGatewayAdminSetReputationRequest (fcrMsg : message)
      : outcome (result (option bytes * Z)) :=
    let! (f1, (f2, _)) := decode GatewayAdminSetReputationRequestType gatewayAdminSetReputationRequest fcrMsg in
    Ret (OkR (id_ptr f1, f2)).

  (** ** GatewayAdminSetReputationResponse *)

  (** gatewayadmin_set_reputation_response.go L26-30 [gatewayAdminSetReputationResponse]. *)
  Definition gatewayAdminSetReputationResponse : schema :=
    [(gs "client_id", TStr);
     (gs "reputation", TI64);
     (gs "exists", TBool)].

  (** gatewayadmin_set_reputation_response.go L33-47 [EncodeGatewayAdminSetReputationResponse]. *)
  Definition EncodeGatewayAdminSetReputationResponse (clientID : option bytes) (reputation : Z)
     (exists_ : bool) : outcome message :=
    let* s1 := id_text clientID in
    encode GatewayAdminSetReputationResponseType gatewayAdminSetReputationResponse
      (s1, (reputation, (exists_, tt))).

  (** gatewayadmin_set_reputation_response.go L50-66 [DecodeGatewayAdminSetReputationResponse]. *)
  Definition DecodeGatewayAdminSetReputationResponse (fcrMsg : message)
      : outcome (result (option bytes * Z * bool)) :=
    let! (f1, (f2, (f3, _))) := decode GatewayAdminSetReputationResponseType gatewayAdminSetReputationResponse fcrMsg in
    Ret (OkR (id_ptr f1, f2, f3)).

  (** ** UpdateGatewayGroupCIDOfferSupportRequest *)

  (** gatewayadmin_update_group_cid_offer_support_request.go L25-28 [updateGatewayGroupCIDOfferSupportRequest]. *)
  Definition updateGatewayGroupCIDOfferSupportRequest : schema :=
    [(gs "gateway_id", TStr);
     (gs "provider_ids", TStrs)].

  (** gatewayadmin_update_group_cid_offer_support_request.go L30-42 [EncodeUpdateGatewayGroupCIDOfferSupportRequest]. *)
  Definition EncodeUpdateGatewayGroupCIDOfferSupportRequest (nodeID : option bytes) (providerIDs : list bytes)
      : outcome message :=
    let* s1 := id_text nodeID in
    encode GatewayAdminUpdateGatewayGroupCIDOfferSupportRequestType updateGatewayGroupCIDOfferSupportRequest
      (s1, (ids_text providerIDs, tt)).

  (** gatewayadmin_update_group_cid_offer_support_request.go L44-59 [DecodeUpdateGatewayGroupCIDOfferSupportRequest]. *)
  Definition DecodeUpdateGatewayGroupCIDOfferSupportRequest (fcrMsg : message)
      : outcome (result (option bytes * list bytes)) :=
    let! (f1, (f2, _)) := decode GatewayAdminUpdateGatewayGroupCIDOfferSupportRequestType updateGatewayGroupCIDOfferSupportRequest fcrMsg in
    let* ids1 := ids_of_text f2 in
    Ret (OkR (id_ptr f1, ids1)).

  (** ** UpdateGatewayGroupCIDOfferSupportResponse *)

  (** gatewayadmin_update_group_cid_offer_support_response.go L23-25 [updateGatewayGroupCIDOfferSupportResponse]. *)
  Definition updateGatewayGroupCIDOfferSupportResponse : schema :=
    [(gs "success", TBool)].

  (** gatewayadmin_update_group_cid_offer_support_response.go L27-37 [EncodeUpdateGatewayGroupCIDOfferSupportResponse]. *)
  Definition EncodeUpdateGatewayGroupCIDOfferSupportResponse (success : bool) : outcome message :=
    encode GatewayAdminUpdateGatewayGroupCIDOfferSupportResponseType updateGatewayGroupCIDOfferSupportResponse
      (success, tt).

  (** gatewayadmin_update_group_cid_offer_support_response.go L39-52 [DecodeUpdateGatewayGroupCIDOfferSupportResponse]. *)
  Definition DecodeUpdateGatewayGroupCIDOfferSupportResponse (fcrMsg : message) : outcome (result (bool)) :=
    let! (f1, _) := decode GatewayAdminUpdateGatewayGroupCIDOfferSupportResponseType updateGatewayGroupCIDOfferSupportResponse fcrMsg in
    Ret (OkR f1).

  (** ** ProviderAdminForceRefreshRequest *)

  (** provideradmin_force_refresh_request.go L24-26 [providerAdminForceRefreshRequest]. *)
  Definition providerAdminForceRefreshRequest : schema :=
    [(gs "refresh", TBool)].

  (** provideradmin_force_refresh_request.go L29-37 [EncodeProviderAdminForceRefreshRequest]. *)
  Definition EncodeProviderAdminForceRefreshRequest (refresh : bool) : outcome message :=
    encode ProviderAdminForceRefreshRequestType providerAdminForceRefreshRequest (refresh, tt).

  (** provideradmin_force_refresh_request.go L40-53 [DecodeProviderAdminForceRefreshRequest]. *)
  Definition DecodeProviderAdminForceRefreshRequest (fcrMsg : message) : outcome (result (bool)) :=
    let! (f1, _) := decode ProviderAdminForceRefreshRequestType providerAdminForceRefreshRequest fcrMsg in
    Ret (OkR f1).

  (** ** ProviderAdminForceRefreshResponse *)

  (** provideradmin_force_refresh_response.go L24-26 [providerAdminForceRefreshResponse]. *)
  Definition providerAdminForceRefreshResponse : schema :=
    [(gs "refreshed", TBool)].

  (** provideradmin_force_refresh_response.go L29-39 [EncodeProviderAdminForceRefreshResponse]. *)
  Definition EncodeProviderAdminForceRefreshResponse (refreshed : bool) : outcome message :=
    encode ProviderAdminForceRefreshResponseType providerAdminForceRefreshResponse (refreshed, tt).

  (** provideradmin_force_refresh_response.go L42-55 [DecodeProviderAdminForceRefreshResponse]. *)
  Definition DecodeProviderAdminForceRefreshResponse (fcrMsg : message) : outcome (result (bool)) :=
    let! (f1, _) := decode ProviderAdminForceRefreshResponseType providerAdminForceRefreshResponse fcrMsg in
    Ret (OkR f1).

  (** ** ProviderAdminGetPublishedOfferRequest *)

  (** provideradmin_get_published_offer_request.go L26-28 [providerAdminGetPublishedOfferRequest]. *)
  Definition providerAdminGetPublishedOfferRequest : schema :=
    [(gs "gateway_id", TStrs)].

  (** provideradmin_get_published_offer_request.go L31-41 [EncodeProviderAdminGetPublishedOfferRequest]. *)
  Definition EncodeProviderAdminGetPublishedOfferRequest (gatewayIDs : list bytes) : outcome message :=
    encode ProviderAdminGetPublishedOfferRequestType providerAdminGetPublishedOfferRequest
      (ids_text gatewayIDs, tt).

  (** provideradmin_get_published_offer_request.go L44-57 [DecodeProviderAdminGetPublishedOfferRequest]. *)
  Definition DecodeProviderAdminGetPublishedOfferRequest (fcrMsg : message) : outcome (result (list bytes)) :=
    let! (f1, _) := decode ProviderAdminGetPublishedOfferRequestType providerAdminGetPublishedOfferRequest fcrMsg in
    let* ids1 := ids_of_text f1 in
    Ret (OkR ids1).

  (** ** ProviderAdminGetPublishedOfferResponse *)

  (** provideradmin_get_published_offer_response.go L26-29 [providerAdminGetPublishedOfferResponse]. *)
  Definition providerAdminGetPublishedOfferResponse : schema :=
    [(gs "exists", TBool);
     (gs "cid_offers", TOffers)].

  (** provideradmin_get_published_offer_response.go L32-44 [EncodeProviderAdminGetPublishedOfferResponse]. *)
  Definition EncodeProviderAdminGetPublishedOfferResponse (exists_ : bool) (offers : option (list offer))
      : outcome message :=
    encode ProviderAdminGetPublishedOfferResponseType providerAdminGetPublishedOfferResponse
      (exists_, (offers, tt)).

  (** provideradmin_get_published_offer_response.go L47-61 [DecodeProviderAdminGetPublishedOfferResponse]. *)
  Definition DecodeProviderAdminGetPublishedOfferResponse (fcrMsg : message)
      : outcome (result (bool * option (list offer))) :=
    let! (f1, (f2, _)) := decode ProviderAdminGetPublishedOfferResponseType providerAdminGetPublishedOfferResponse fcrMsg in
    Ret (OkR (f1, f2)).

  (** ** ProviderAdminInitialiseKeyRequest *)

  (** provideradmin_initialise_key_request.go L27-31 [providerAdminInitialiseKeyRequest]. *)
  Definition providerAdminInitialiseKeyRequest : schema :=
    [(gs "provider_id", TStr);
     (gs "private_key", TStr);
     (gs "private_key_version", TU32)].

  (** provideradmin_initialise_key_request.go L34-48 [EncodeProviderAdminInitialiseKeyRequest]. *)
  Definition EncodeProviderAdminInitialiseKeyRequest (nodeID : option bytes) (privateKey : option keypair)
     (keyVersion : option Z) : outcome message :=
    let* s1 := id_text nodeID in
    let* v2 := deref privateKey in
    let* v3 := deref keyVersion in
    encode ProviderAdminInitialiseKeyRequestType providerAdminInitialiseKeyRequest
      (s1, (EncodePrivateKey v2, (v3, tt))).

  (** provideradmin_initialise_key_request.go L51-72 [DecodeProviderAdminInitialiseKeyRequest]. *)
  Definition DecodeProviderAdminInitialiseKeyRequest (fcrMsg : message)
      : outcome (result (option bytes * option keypair * option Z)) :=
    let! (f1, (f2, (f3, _))) := decode ProviderAdminInitialiseKeyRequestType providerAdminInitialiseKeyRequest fcrMsg in
    let! privKey := DecodePrivateKey f2 in
    Ret (OkR (id_ptr f1, Some privKey, Some f3)).

  (** ** ProviderAdminInitialiseKeyRequestV2 *)

  (** provideradmin_initialise_key_request_v2.go L28-35 [providerAdminInitialiseKeyRequestV2]. *)
  Definition providerAdminInitialiseKeyRequestV2 : schema :=
    [(gs "provider_id", TStr);
     (gs "private_key", TStr);
     (gs "private_key_version", TU32);
     (gs "wallet_private_key", TStr);
     (gs "lotus_ap", TStr);
     (gs "lotus_auth_token", TStr)].

  (** provideradmin_initialise_key_request_v2.go L38-58 [EncodeProviderAdminInitialiseKeyRequestV2]. *)
  Definition EncodeProviderAdminInitialiseKeyRequestV2 (nodeID : option bytes) (privateKey : option keypair)
     (keyVersion : option Z) (walletPrivateKey : gostring) (lotusAP : gostring) (lotusAuthToken : gostring)
      : outcome message :=
    let* s1 := id_text nodeID in
    let* v2 := deref privateKey in
    let* v3 := deref keyVersion in
    encode ProviderAdminInitialiseKeyRequestV2Type providerAdminInitialiseKeyRequestV2
      (s1, (EncodePrivateKey v2, (v3, (walletPrivateKey, (lotusAP, (lotusAuthToken, tt)))))).

  (** provideradmin_initialise_key_request_v2.go L61-85 [DecodeProviderAdminInitialiseKeyRequestV2]. *)
  Definition DecodeProviderAdminInitialiseKeyRequestV2 (fcrMsg : message)
      : outcome (result (option bytes * option keypair * option Z * gostring * gostring * gostring)) :=
    let! (f1, (f2, (f3, (f4, (f5, (f6, _)))))) := decode ProviderAdminInitialiseKeyRequestV2Type providerAdminInitialiseKeyRequestV2 fcrMsg in
    let! privKey := DecodePrivateKey f2 in
    Ret (OkR (id_ptr f1, Some privKey, Some f3, f4, f5, f6)).

  (** ** ProviderAdminInitialiseKeyResponse *)

  (** provideradmin_initialise_key_response.go L24-26 [providerAdminInitialiseKeyResponse]. *)
  Definition providerAdminInitialiseKeyResponse : schema :=
    [(gs "success", TBool)].

  (** provideradmin_initialise_key_response.go L29-39 [EncodeProviderAdminInitialiseKeyResponse]. *)
  Definition EncodeProviderAdminInitialiseKeyResponse (success : bool) : outcome message :=
    encode ProviderAdminInitialiseKeyResponseType providerAdminInitialiseKeyResponse (success, tt).

  (** provideradmin_initialise_key_response.go L42-55 [DecodeProviderAdminInitialiseKeyResponse]. *)
  Definition DecodeProviderAdminInitialiseKeyResponse (fcrMsg : message) : outcome (result (bool)) :=
    let! (f1, _) := decode ProviderAdminInitialiseKeyResponseType providerAdminInitialiseKeyResponse fcrMsg in
    Ret (OkR f1).

  (** ** ProviderAdminPublishDHTOfferRequest *)

  (** provideradmin_publish_dht_offer_request.go L26-31 [providerAdminPublishDHTOfferRequest]. *)
  Definition providerAdminPublishDHTOfferRequest : schema :=
    [(gs "cids", TStrs);
     (gs "price", TU64s);
     (gs "expiry", TI64s);
     (gs "qos", TU64s)].

  (** provideradmin_publish_dht_offer_request.go L34-50 [EncodeProviderAdminPublishDHTOfferRequest]. *)
  Definition EncodeProviderAdminPublishDHTOfferRequest (cids : list bytes) (price : option (list Z))
     (expiry : option (list Z)) (qos : option (list Z)) : outcome message :=
    encode ProviderAdminPublishDHTOfferRequestType providerAdminPublishDHTOfferRequest
      (ids_text cids, (price, (expiry, (qos, tt)))).

  (** provideradmin_publish_dht_offer_request.go L53-69 [DecodeProviderAdminPublishDHTOfferRequest]. *)
  Definition DecodeProviderAdminPublishDHTOfferRequest (fcrMsg : message)
      : outcome (result (list bytes * option (list Z) * option (list Z) * option (list Z))) :=
    let! (f1, (f2, (f3, (f4, _)))) := decode ProviderAdminPublishDHTOfferRequestType providerAdminPublishDHTOfferRequest fcrMsg in
    let* ids1 := ids_of_text f1 in
    Ret (OkR (ids1, f2, f3, f4)).

  (** ** ProviderAdminPublishDHTOfferResponse *)

  (** provideradmin_publish_dht_offer_response.go L24-26 [providerAdminPublishDHTOfferResponse]. *)
  Definition providerAdminPublishDHTOfferResponse : schema :=
    [(gs "received", TBool)].

  (** provideradmin_publish_dht_offer_response.go L29-39 [EncodeProviderAdminPublishDHTOfferResponse]. *)
  Definition EncodeProviderAdminPublishDHTOfferResponse (received : bool) : outcome message :=
    encode ProviderAdminPublishDHTOfferResponseType providerAdminPublishDHTOfferResponse (received, tt).

  (** provideradmin_publish_dht_offer_response.go L42-55 [DecodeProviderAdminPublishDHTOfferResponse]. *)
  Definition DecodeProviderAdminPublishDHTOfferResponse (fcrMsg : message) : outcome (result (bool)) :=
    let! (f1, _) := decode ProviderAdminPublishDHTOfferResponseType providerAdminPublishDHTOfferResponse fcrMsg in
    Ret (OkR f1).

  (** ** ProviderAdminPublishGroupOfferRequest *)

  (** provideradmin_publish_group_offer_request.go L26-31 [providerAdminPublishGroupOfferRequest]. *)
  Definition providerAdminPublishGroupOfferRequest : schema :=
    [(gs "cids", TStrs);
     (gs "price", TU64);
     (gs "expiry", TI64);
     (gs "qos", TU64)].

  (** provideradmin_publish_group_offer_request.go L34-50 [EncodeProviderAdminPublishGroupOfferRequest]. *)
  Definition EncodeProviderAdminPublishGroupOfferRequest (cids : list bytes) (price : Z) (expiry : Z)
     (qos : Z) : outcome message :=
    encode ProviderAdminPublishGroupOfferRequestType providerAdminPublishGroupOfferRequest
      (ids_text cids, (price, (expiry, (qos, tt)))).

  (** provideradmin_publish_group_offer_request.go L53-69 [DecodeProviderAdminPublishGroupOfferRequest]. *)
  Definition DecodeProviderAdminPublishGroupOfferRequest (fcrMsg : message)
      : outcome (result (list bytes * Z * Z * Z)) :=
    let! (f1, (f2, (f3, (f4, _)))) := decode ProviderAdminPublishGroupOfferRequestType providerAdminPublishGroupOfferRequest fcrMsg in
    let* ids1 := ids_of_text f1 in
    Ret (OkR (ids1, f2, f3, f4)).

  (** ** ProviderAdminPublishGroupOfferResponse *)

  (** provideradmin_publish_group_offer_response.go L24-26 [providerAdminPublishGroupOfferResponse]. *)
  Definition providerAdminPublishGroupOfferResponse : schema :=
    [(gs "received", TBool)].

  (** provideradmin_publish_group_offer_response.go L29-39 [EncodeProviderAdminPublishGroupOfferResponse]. *)
  Definition EncodeProviderAdminPublishGroupOfferResponse (received : bool) : outcome message :=
    encode ProviderAdminPublishGroupOfferResponseType providerAdminPublishGroupOfferResponse (received, tt).

  (** provideradmin_publish_group_offer_response.go L42-55 [DecodeProviderAdminPublishGroupOfferResponse]. *)
  Definition DecodeProviderAdminPublishGroupOfferResponse (fcrMsg : message) : outcome (result (bool)) :=
    let! (f1, _) := decode ProviderAdminPublishGroupOfferResponseType providerAdminPublishGroupOfferResponse fcrMsg in
    Ret (OkR f1).

  (** ** InvalidMessageResponse *)

  (** basic_invalid_message_response.go L24-25 [invalidMessageResponse]. *)
  Definition invalidMessageResponse : schema := [].

  (** basic_invalid_message_response.go L28-34 [EncodeInvalidMessageResponse]. *)
  Definition EncodeInvalidMessageResponse : outcome message :=
    encode InvalidMessageResponseType invalidMessageResponse tt.

  (** basic_invalid_message_response.go L37-43 [DecodeInvalidMessageResponse]. *)
  Definition DecodeInvalidMessageResponse (fcrMsg : message) : outcome (result (unit)) :=
    let! _ := decode InvalidMessageResponseType invalidMessageResponse fcrMsg in
    Ret (OkR tt).

  (** ** ProtocolChangeRequest *)

  (** basic_protocol_change_request.go L24-26 [protocolChangeRequest]. *)
  Definition protocolChangeRequest : schema :=
    [(gs "desired_version", TI32)].

  (** basic_protocol_change_request.go L29-39 [EncodeProtocolChangeRequest]. *)
  Definition EncodeProtocolChangeRequest (desiredVersion : Z) : outcome message :=
    encode ProtocolChangeRequestType protocolChangeRequest (desiredVersion, tt).

  (** basic_protocol_change_request.go L42-55 [DecodeProtocolChangeRequest]. *)
  Definition DecodeProtocolChangeRequest (fcrMsg : message) : outcome (result (Z)) :=
    let! (f1, _) := decode ProtocolChangeRequestType protocolChangeRequest fcrMsg in
    Ret (OkR f1).

  (** ** ProtocolChangeResponse *)

  (** basic_protocol_change_response.go L24-26 [protocolChangeResponse]. *)
  Definition protocolChangeResponse : schema :=
    [(gs "success", TBool)].

  (** basic_protocol_change_response.go L29-39 [EncodeProtocolChangeResponse]. *)
  Definition EncodeProtocolChangeResponse (success : bool) : outcome message :=
    encode ProtocolChangeResponseType protocolChangeResponse (success, tt).

  (** basic_protocol_change_response.go L42-55 [DecodeProtocolChangeResponse]. *)
  Definition DecodeProtocolChangeResponse (fcrMsg : message) : outcome (result (bool)) :=
    let! (f1, _) := decode ProtocolChangeResponseType protocolChangeResponse fcrMsg in
    Ret (OkR f1).

End messages.
