(** * The bodies of messages on the wire

    Written from the struct tags of common/pkg/fcrmessages, independently of [Messages]: for each kind, the names and
    types of the fields of its JSON object, in order.  Definitions only. *)
From Coq Require Import String List ZArith Bool.
From Coq Require Import Init.Byte.
From Verif Require Import Base Json Message Messages MessagesSpec.
Import ListNotations.
Open Scope Z_scope.

Inductive wtype := WStr | WInt | WBool | WBytes | WMessage | WOffer | WSubOffer | WList (t : wtype).

(** fcrmessages/fcrmessage.go [fcrMessageJson], cidoffer/cidoffer.go [cidOfferJson] and cidoffer/subcidoffer.go
    [subCIDOfferJson] in common/pkg.  A proof travels as bytes. *)
Definition message_fields : list (gostring * wtype) :=
  [(gs "message_type", WInt); (gs "protocol_version", WInt); (gs "protocol_supported", WList WInt); (gs "message_body", WBytes); (gs "message_signature", WStr)].
Definition offer_wire : list (gostring * wtype) :=
  [(gs "provider_id", WStr); (gs "cids", WList WStr); (gs "price", WInt); (gs "expiry", WInt); (gs "qos", WInt); (gs "signature", WStr)].
Definition suboffer_wire : list (gostring * wtype) :=
  [(gs "provider_id", WStr); (gs "sub_cid", WStr); (gs "merkle_root", WStr); (gs "merkle_proof", WBytes); (gs "price", WInt); (gs "expiry", WInt); (gs "qos", WInt);
   (gs "signature", WStr)].

Definition wire_fields (k : kind) : list (gostring * wtype) :=
  match k with
  | KClientDHTDiscoverOfferRequest => [(gs "piece_cid", WStr); (gs "nonce", WInt); (gs "gateways_digests", WList (WList WStr)); (gs "gateway_ids", WList WStr); (gs "payment_channel_address", WStr); (gs "voucher", WStr)]
  | KClientDHTDiscoverOfferResponse => [(gs "piece_cid", WStr); (gs "nonce", WInt); (gs "gateway_ids", WList WStr); (gs "response", WList WMessage); (gs "payment_required", WBool); (gs "payment_channel", WStr)]
  | KClientDHTDiscoverRequest => [(gs "piece_cid", WStr); (gs "nonce", WInt); (gs "ttl", WInt); (gs "num_dht", WInt); (gs "incremental_results", WBool); (gs "payment_channel_address", WStr); (gs "voucher", WStr)]
  | KClientDHTDiscoverRequestV2 => [(gs "piece_cid", WStr); (gs "nonce", WInt); (gs "ttl", WInt); (gs "num_dht", WInt); (gs "incremental_results", WBool); (gs "payment_channel_address", WStr); (gs "voucher", WStr)]
  | KClientDHTDiscoverResponse => [(gs "contacted_gateways", WList WStr); (gs "response", WList WMessage); (gs "uncontactable_gateways", WList WStr); (gs "nonce", WInt); (gs "payment_required", WBool); (gs "payment_channel", WStr)]
  | KClientDHTDiscoverResponseV2 => [(gs "contacted_gateways", WList WStr); (gs "response", WList WMessage); (gs "uncontactable_gateways", WList WStr); (gs "nonce", WInt); (gs "payment_required", WBool); (gs "payment_channel", WStr)]
  | KClientDHTOfferAckRequest => [(gs "piece_cid", WStr); (gs "gateway_id", WStr)]
  | KClientDHTOfferAckResponse => [(gs "piece_cid", WStr); (gs "gateway_id", WStr); (gs "found", WBool); (gs "publish_dht_offer_request", WMessage); (gs "publish_dht_offer_response", WMessage)]
  | KClientEstablishmentRequest => [(gs "client_id", WStr); (gs "challenge", WStr); (gs "ttl", WInt)]
  | KClientEstablishmentResponse => [(gs "gateway_id", WStr); (gs "challenge", WStr)]
  | KClientStandardDiscoverOfferRequest => [(gs "piece_cid", WStr); (gs "nonce", WInt); (gs "ttl", WInt); (gs "offer_digests", WList WStr); (gs "payment_channel_address", WStr); (gs "voucher", WStr)]
  | KClientStandardDiscoverOfferResponse => [(gs "piece_cid", WStr); (gs "nonce", WInt); (gs "found", WBool); (gs "sub_cid_offers", WList WSubOffer); (gs "funded_payment_channel", WList WBool); (gs "payment_required", WBool); (gs "payment_channel", WStr)]
  | KClientStandardDiscoverRequest => [(gs "piece_cid", WStr); (gs "nonce", WInt); (gs "ttl", WInt); (gs "payment_channel_address", WStr); (gs "voucher", WStr)]
  | KClientStandardDiscoverRequestV2 => [(gs "piece_cid", WStr); (gs "nonce", WInt); (gs "ttl", WInt); (gs "payment_channel_address", WStr); (gs "voucher", WStr)]
  | KClientStandardDiscoverResponse => [(gs "piece_cid", WStr); (gs "nonce", WInt); (gs "found", WBool); (gs "sub_cid_offers", WList WSubOffer); (gs "funded_payment_channel", WList WBool)]
  | KClientStandardDiscoverResponseV2 => [(gs "piece_cid", WStr); (gs "nonce", WInt); (gs "found", WBool); (gs "sub_cid_offer_digests", WList WStr); (gs "funded_payment_channel", WList WBool); (gs "payment_required", WBool); (gs "payment_channel", WStr)]
  | KGatewayDHTDiscoverOfferRequest => [(gs "piece_cid", WStr); (gs "nonce", WInt); (gs "offer_digests", WList WStr); (gs "payment_channel_address", WStr); (gs "voucher", WStr)]
  | KGatewayDHTDiscoverOfferResponse => [(gs "piece_cid", WStr); (gs "nonce", WInt); (gs "found", WBool); (gs "sub_cid_offers", WList WSubOffer); (gs "funded_payment_channel", WList WBool); (gs "payment_required", WBool); (gs "payment_channel", WStr)]
  | KGatewayDHTDiscoverRequest => [(gs "gateway_id", WStr); (gs "piece_cid", WStr); (gs "nonce", WInt); (gs "ttl", WInt); (gs "payment_channel_address", WStr); (gs "voucher", WStr)]
  | KGatewayDHTDiscoverRequestV2 => [(gs "gateway_id", WStr); (gs "piece_cid", WStr); (gs "nonce", WInt); (gs "ttl", WInt); (gs "payment_channel_address", WStr); (gs "voucher", WStr)]
  | KGatewayDHTDiscoverResponse => [(gs "piece_cid", WStr); (gs "nonce", WInt); (gs "found", WBool); (gs "sub_cid_offers", WList WSubOffer); (gs "funded_payment_channel", WList WBool)]
  | KGatewayDHTDiscoverResponseV2 => [(gs "piece_cid", WStr); (gs "nonce", WInt); (gs "found", WBool); (gs "sub_cid_offer_digest", WList WStr); (gs "funded_payment_channel", WList WBool); (gs "payment_required", WBool); (gs "payment_channel", WStr)]
  | KGatewayListDHTOfferAck => [(gs "published_dht_offers_ack", WList WMessage)]
  | KGatewayListDHTOfferRequest => [(gs "gateway_id", WStr); (gs "cid_min", WStr); (gs "cid_max", WStr); (gs "block_hash", WStr); (gs "transaction_receipt", WStr); (gs "merkle_root", WStr); (gs "merkle_proof", WBytes)]
  | KGatewayListDHTOfferResponse => [(gs "published_dht_offers", WList WMessage)]
  | KGatewayNotifyProviderGroupCIDOfferSupportRequest => [(gs "gateway_id", WStr); (gs "group_cid_offer_supported", WBool)]
  | KGatewayNotifyProviderGroupCIDOfferSupportResponse => [(gs "acknowledged", WBool)]
  | KGatewayPingRequest => [(gs "gateway_id", WStr); (gs "nonce", WInt); (gs "ttl", WInt)]
  | KGatewayPingResponse => [(gs "nonce", WInt); (gs "isAlive", WBool)]
  | KProviderPublishDHTOfferRequest => [(gs "provider_id", WStr); (gs "nonce", WInt); (gs "num_of_offers", WInt); (gs "single_offers", WList WOffer)]
  | KProviderPublishDHTOfferResponse => [(gs "nonce", WInt); (gs "signature", WStr)]
  | KProviderPublishGroupOfferRequest => [(gs "provider_id", WStr); (gs "nonce", WInt); (gs "offer", WOffer)]
  | KProviderPublishGroupOfferResponse => [(gs "gateway_id", WStr); (gs "digest", WStr)]
  | KGatewayAdminForceRefreshRequest => [(gs "refresh", WBool)]
  | KGatewayAdminForceRefreshResponse => [(gs "refreshed", WBool)]
  | KGatewayAdminGetReputationRequest => [(gs "client_id", WStr)]
  | KGatewayAdminGetReputationResponse => [(gs "client_id", WStr); (gs "reputation", WInt); (gs "exists", WBool)]
  | KGatewayAdminInitialiseKeyRequest => [(gs "gateway_id", WStr); (gs "private_key", WStr); (gs "private_key_version", WInt)]
  | KGatewayAdminInitialiseKeyRequestV2 => [(gs "gateway_id", WStr); (gs "private_key", WStr); (gs "private_key_version", WInt); (gs "wallet_private_key", WStr); (gs "lotus_ap", WStr); (gs "lotus_auth_token", WStr)]
  | KGatewayAdminInitialiseKeyResponse => [(gs "success", WBool)]
  | KGatewayAdminListDHTOfferRequest => [(gs "refresh", WBool)]
  | KGatewayAdminListDHTOfferResponse => [(gs "refreshed", WBool)]
  | KGatewayAdminSetReputationRequest => [(gs "client_id", WStr); (gs "reputation", WInt)]
  | KGatewayAdminSetReputationResponse => [(gs "client_id", WStr); (gs "reputation", WInt); (gs "exists", WBool)]
  | KUpdateGatewayGroupCIDOfferSupportRequest => [(gs "gateway_id", WStr); (gs "provider_ids", WList WStr)]
  | KUpdateGatewayGroupCIDOfferSupportResponse => [(gs "success", WBool)]
  | KProviderAdminForceRefreshRequest => [(gs "refresh", WBool)]
  | KProviderAdminForceRefreshResponse => [(gs "refreshed", WBool)]
  | KProviderAdminGetPublishedOfferRequest => [(gs "gateway_id", WList WStr)]
  | KProviderAdminGetPublishedOfferResponse => [(gs "exists", WBool); (gs "cid_offers", WList WOffer)]
  | KProviderAdminInitialiseKeyRequest => [(gs "provider_id", WStr); (gs "private_key", WStr); (gs "private_key_version", WInt)]
  | KProviderAdminInitialiseKeyRequestV2 => [(gs "provider_id", WStr); (gs "private_key", WStr); (gs "private_key_version", WInt); (gs "wallet_private_key", WStr); (gs "lotus_ap", WStr); (gs "lotus_auth_token", WStr)]
  | KProviderAdminInitialiseKeyResponse => [(gs "success", WBool)]
  | KProviderAdminPublishDHTOfferRequest => [(gs "cids", WList WStr); (gs "price", WList WInt); (gs "expiry", WList WInt); (gs "qos", WList WInt)]
  | KProviderAdminPublishDHTOfferResponse => [(gs "received", WBool)]
  | KProviderAdminPublishGroupOfferRequest => [(gs "cids", WList WStr); (gs "price", WInt); (gs "expiry", WInt); (gs "qos", WInt)]
  | KProviderAdminPublishGroupOfferResponse => [(gs "received", WBool)]
  | KInvalidMessageResponse => []
  | KProtocolChangeRequest => [(gs "desired_version", WInt)]
  | KProtocolChangeResponse => [(gs "success", WBool)]
  end.

(** A value of a type.  Integers: in the range of the Go type if the value sent was.  Bytes travel in base64; a nil slice is null. *)
Fixpoint simple (t : wtype) (j : json) : Prop :=
  match t with
  | WStr => exists s, j = JStr s
  | WInt => exists z, j = JNum z
  | WBool => exists b, j = JBool b
  | WBytes => j = JNull \/ exists b, j = JStr (b64_encode b)
  | WList t => j = JNull \/ exists l, j = JArr l /\ Forall (simple t) l
  | _ => False
  end.
Definition object_of (has : wtype -> json -> Prop) (fields : list (gostring * wtype)) (j : json) : Prop :=
  exists l, j = JObj l /\ Forall2 (fun f w => fst f = fst w /\ has (snd w) (snd f)) l fields.
Fixpoint has_type (t : wtype) (j : json) : Prop :=
  match t with
  | WMessage => object_of simple message_fields j
  | WOffer => object_of simple offer_wire j
  | WSubOffer => object_of simple suboffer_wire j
  | WList t => j = JNull \/ exists l, j = JArr l /\ Forall (has_type t) l
  | _ => simple t j
  end.

(** Two messages mean the same to the receiver of a kind. *)
Definition reads_same (sha256 : bytes -> bytes) (k : kind) (m m' : message) : Prop :=
  match k with
  | KClientDHTDiscoverOfferRequest => DecodeClientDHTDiscoverOfferRequest sha256 m = DecodeClientDHTDiscoverOfferRequest sha256 m'
  | KClientDHTDiscoverOfferResponse => DecodeClientDHTDiscoverOfferResponse sha256 m = DecodeClientDHTDiscoverOfferResponse sha256 m'
  | KClientDHTDiscoverRequest => DecodeClientDHTDiscoverRequest sha256 m = DecodeClientDHTDiscoverRequest sha256 m'
  | KClientDHTDiscoverRequestV2 => DecodeClientDHTDiscoverRequestV2 sha256 m = DecodeClientDHTDiscoverRequestV2 sha256 m'
  | KClientDHTDiscoverResponse => DecodeClientDHTDiscoverResponse sha256 m = DecodeClientDHTDiscoverResponse sha256 m'
  | KClientDHTDiscoverResponseV2 => DecodeClientDHTDiscoverResponseV2 sha256 m = DecodeClientDHTDiscoverResponseV2 sha256 m'
  | KClientDHTOfferAckRequest => DecodeClientDHTOfferAckRequest sha256 m = DecodeClientDHTOfferAckRequest sha256 m'
  | KClientDHTOfferAckResponse => DecodeClientDHTOfferAckResponse sha256 m = DecodeClientDHTOfferAckResponse sha256 m'
  | KClientEstablishmentRequest => DecodeClientEstablishmentRequest sha256 m = DecodeClientEstablishmentRequest sha256 m'
  | KClientEstablishmentResponse => DecodeClientEstablishmentResponse sha256 m = DecodeClientEstablishmentResponse sha256 m'
  | KClientStandardDiscoverOfferRequest => DecodeClientStandardDiscoverOfferRequest sha256 m = DecodeClientStandardDiscoverOfferRequest sha256 m'
  | KClientStandardDiscoverOfferResponse => DecodeClientStandardDiscoverOfferResponse sha256 m = DecodeClientStandardDiscoverOfferResponse sha256 m'
  | KClientStandardDiscoverRequest => DecodeClientStandardDiscoverRequest sha256 m = DecodeClientStandardDiscoverRequest sha256 m'
  | KClientStandardDiscoverRequestV2 => DecodeClientStandardDiscoverRequestV2 sha256 m = DecodeClientStandardDiscoverRequestV2 sha256 m'
  | KClientStandardDiscoverResponse => DecodeClientStandardDiscoverResponse sha256 m = DecodeClientStandardDiscoverResponse sha256 m'
  | KClientStandardDiscoverResponseV2 => DecodeClientStandardDiscoverResponseV2 sha256 m = DecodeClientStandardDiscoverResponseV2 sha256 m'
  | KGatewayDHTDiscoverOfferRequest => DecodeGatewayDHTDiscoverOfferRequest sha256 m = DecodeGatewayDHTDiscoverOfferRequest sha256 m'
  | KGatewayDHTDiscoverOfferResponse => DecodeGatewayDHTDiscoverOfferResponse sha256 m = DecodeGatewayDHTDiscoverOfferResponse sha256 m'
  | KGatewayDHTDiscoverRequest => DecodeGatewayDHTDiscoverRequest sha256 m = DecodeGatewayDHTDiscoverRequest sha256 m'
  | KGatewayDHTDiscoverRequestV2 => DecodeGatewayDHTDiscoverRequestV2 sha256 m = DecodeGatewayDHTDiscoverRequestV2 sha256 m'
  | KGatewayDHTDiscoverResponse => DecodeGatewayDHTDiscoverResponse sha256 m = DecodeGatewayDHTDiscoverResponse sha256 m'
  | KGatewayDHTDiscoverResponseV2 => DecodeGatewayDHTDiscoverResponseV2 sha256 m = DecodeGatewayDHTDiscoverResponseV2 sha256 m'
  | KGatewayListDHTOfferAck => DecodeGatewayListDHTOfferAck sha256 m = DecodeGatewayListDHTOfferAck sha256 m'
  | KGatewayListDHTOfferRequest => DecodeGatewayListDHTOfferRequest sha256 m = DecodeGatewayListDHTOfferRequest sha256 m'
  | KGatewayListDHTOfferResponse => DecodeGatewayListDHTOfferResponse sha256 m = DecodeGatewayListDHTOfferResponse sha256 m'
  | KGatewayNotifyProviderGroupCIDOfferSupportRequest => DecodeGatewayNotifyProviderGroupCIDOfferSupportRequest sha256 m = DecodeGatewayNotifyProviderGroupCIDOfferSupportRequest sha256 m'
  | KGatewayNotifyProviderGroupCIDOfferSupportResponse => DecodeGatewayNotifyProviderGroupCIDOfferSupportResponse sha256 m = DecodeGatewayNotifyProviderGroupCIDOfferSupportResponse sha256 m'
  | KGatewayPingRequest => DecodeGatewayPingRequest sha256 m = DecodeGatewayPingRequest sha256 m'
  | KGatewayPingResponse => DecodeGatewayPingResponse sha256 m = DecodeGatewayPingResponse sha256 m'
  | KProviderPublishDHTOfferRequest => DecodeProviderPublishDHTOfferRequest sha256 m = DecodeProviderPublishDHTOfferRequest sha256 m'
  | KProviderPublishDHTOfferResponse => DecodeProviderPublishDHTOfferResponse sha256 m = DecodeProviderPublishDHTOfferResponse sha256 m'
  | KProviderPublishGroupOfferRequest => DecodeProviderPublishGroupOfferRequest sha256 m = DecodeProviderPublishGroupOfferRequest sha256 m'
  | KProviderPublishGroupOfferResponse => DecodeProviderPublishGroupOfferResponse sha256 m = DecodeProviderPublishGroupOfferResponse sha256 m'
  | KGatewayAdminForceRefreshRequest => DecodeGatewayAdminForceRefreshRequest sha256 m = DecodeGatewayAdminForceRefreshRequest sha256 m'
  | KGatewayAdminForceRefreshResponse => DecodeGatewayAdminForceRefreshResponse sha256 m = DecodeGatewayAdminForceRefreshResponse sha256 m'
  | KGatewayAdminGetReputationRequest => DecodeGatewayAdminGetReputationRequest sha256 m = DecodeGatewayAdminGetReputationRequest sha256 m'
  | KGatewayAdminGetReputationResponse => DecodeGatewayAdminGetReputationResponse sha256 m = DecodeGatewayAdminGetReputationResponse sha256 m'
  | KGatewayAdminInitialiseKeyRequest => DecodeGatewayAdminInitialiseKeyRequest sha256 m = DecodeGatewayAdminInitialiseKeyRequest sha256 m'
  | KGatewayAdminInitialiseKeyRequestV2 => DecodeGatewayAdminInitialiseKeyRequestV2 sha256 m = DecodeGatewayAdminInitialiseKeyRequestV2 sha256 m'
  | KGatewayAdminInitialiseKeyResponse => DecodeGatewayAdminInitialiseKeyResponse sha256 m = DecodeGatewayAdminInitialiseKeyResponse sha256 m'
  | KGatewayAdminListDHTOfferRequest => DecodeGatewayAdminListDHTOfferRequest sha256 m = DecodeGatewayAdminListDHTOfferRequest sha256 m'
  | KGatewayAdminListDHTOfferResponse => DecodeGatewayAdminListDHTOfferResponse sha256 m = DecodeGatewayAdminListDHTOfferResponse sha256 m'
  | KGatewayAdminSetReputationRequest => DecodeGatewayAdminSetReputationRequest sha256 m = DecodeGatewayAdminSetReputationRequest sha256 m'
  | KGatewayAdminSetReputationResponse => DecodeGatewayAdminSetReputationResponse sha256 m = DecodeGatewayAdminSetReputationResponse sha256 m'
  | KUpdateGatewayGroupCIDOfferSupportRequest => DecodeUpdateGatewayGroupCIDOfferSupportRequest sha256 m = DecodeUpdateGatewayGroupCIDOfferSupportRequest sha256 m'
  | KUpdateGatewayGroupCIDOfferSupportResponse => DecodeUpdateGatewayGroupCIDOfferSupportResponse sha256 m = DecodeUpdateGatewayGroupCIDOfferSupportResponse sha256 m'
  | KProviderAdminForceRefreshRequest => DecodeProviderAdminForceRefreshRequest sha256 m = DecodeProviderAdminForceRefreshRequest sha256 m'
  | KProviderAdminForceRefreshResponse => DecodeProviderAdminForceRefreshResponse sha256 m = DecodeProviderAdminForceRefreshResponse sha256 m'
  | KProviderAdminGetPublishedOfferRequest => DecodeProviderAdminGetPublishedOfferRequest sha256 m = DecodeProviderAdminGetPublishedOfferRequest sha256 m'
  | KProviderAdminGetPublishedOfferResponse => DecodeProviderAdminGetPublishedOfferResponse sha256 m = DecodeProviderAdminGetPublishedOfferResponse sha256 m'
  | KProviderAdminInitialiseKeyRequest => DecodeProviderAdminInitialiseKeyRequest sha256 m = DecodeProviderAdminInitialiseKeyRequest sha256 m'
  | KProviderAdminInitialiseKeyRequestV2 => DecodeProviderAdminInitialiseKeyRequestV2 sha256 m = DecodeProviderAdminInitialiseKeyRequestV2 sha256 m'
  | KProviderAdminInitialiseKeyResponse => DecodeProviderAdminInitialiseKeyResponse sha256 m = DecodeProviderAdminInitialiseKeyResponse sha256 m'
  | KProviderAdminPublishDHTOfferRequest => DecodeProviderAdminPublishDHTOfferRequest sha256 m = DecodeProviderAdminPublishDHTOfferRequest sha256 m'
  | KProviderAdminPublishDHTOfferResponse => DecodeProviderAdminPublishDHTOfferResponse sha256 m = DecodeProviderAdminPublishDHTOfferResponse sha256 m'
  | KProviderAdminPublishGroupOfferRequest => DecodeProviderAdminPublishGroupOfferRequest sha256 m = DecodeProviderAdminPublishGroupOfferRequest sha256 m'
  | KProviderAdminPublishGroupOfferResponse => DecodeProviderAdminPublishGroupOfferResponse sha256 m = DecodeProviderAdminPublishGroupOfferResponse sha256 m'
  | KInvalidMessageResponse => DecodeInvalidMessageResponse sha256 m = DecodeInvalidMessageResponse sha256 m'
  | KProtocolChangeRequest => DecodeProtocolChangeRequest sha256 m = DecodeProtocolChangeRequest sha256 m'
  | KProtocolChangeResponse => DecodeProtocolChangeResponse sha256 m = DecodeProtocolChangeResponse sha256 m'
  end.
(** Names that Go takes for the same field. *)
Definition same_name (a b : gostring) : Prop := map lower a = map lower b.
