(** * The message kinds, as a type

    One constructor per pair of [Encode]/[Decode] functions, with what it means
    that some sender produced a message, that the receiver's decoder rejects it,
    and that the decoder of a kind is safe.  Definitions only. *)
From Coq Require Import List ZArith Bool.
From Coq Require Import Init.Byte.
From Verif Require Import Base Ids Json Merkle Crypto Message Offer Schema Messages.
Import ListNotations.
Open Scope Z_scope.

Inductive kind :=
| KClientDHTDiscoverOfferRequest
| KClientDHTDiscoverOfferResponse
| KClientDHTDiscoverRequest
| KClientDHTDiscoverRequestV2
| KClientDHTDiscoverResponse
| KClientDHTDiscoverResponseV2
| KClientDHTOfferAckRequest
| KClientDHTOfferAckResponse
| KClientEstablishmentRequest
| KClientEstablishmentResponse
| KClientStandardDiscoverOfferRequest
| KClientStandardDiscoverOfferResponse
| KClientStandardDiscoverRequest
| KClientStandardDiscoverRequestV2
| KClientStandardDiscoverResponse
| KClientStandardDiscoverResponseV2
| KGatewayDHTDiscoverOfferRequest
| KGatewayDHTDiscoverOfferResponse
| KGatewayDHTDiscoverRequest
| KGatewayDHTDiscoverRequestV2
| KGatewayDHTDiscoverResponse
| KGatewayDHTDiscoverResponseV2
| KGatewayListDHTOfferAck
| KGatewayListDHTOfferRequest
| KGatewayListDHTOfferResponse
| KGatewayNotifyProviderGroupCIDOfferSupportRequest
| KGatewayNotifyProviderGroupCIDOfferSupportResponse
| KGatewayPingRequest
| KGatewayPingResponse
| KProviderPublishDHTOfferRequest
| KProviderPublishDHTOfferResponse
| KProviderPublishGroupOfferRequest
| KProviderPublishGroupOfferResponse
| KGatewayAdminForceRefreshRequest
| KGatewayAdminForceRefreshResponse
| KGatewayAdminGetReputationRequest
| KGatewayAdminGetReputationResponse
| KGatewayAdminInitialiseKeyRequest
| KGatewayAdminInitialiseKeyRequestV2
| KGatewayAdminInitialiseKeyResponse
| KGatewayAdminListDHTOfferRequest
| KGatewayAdminListDHTOfferResponse
| KGatewayAdminSetReputationRequest
| KGatewayAdminSetReputationResponse
| KUpdateGatewayGroupCIDOfferSupportRequest
| KUpdateGatewayGroupCIDOfferSupportResponse
| KProviderAdminForceRefreshRequest
| KProviderAdminForceRefreshResponse
| KProviderAdminGetPublishedOfferRequest
| KProviderAdminGetPublishedOfferResponse
| KProviderAdminInitialiseKeyRequest
| KProviderAdminInitialiseKeyRequestV2
| KProviderAdminInitialiseKeyResponse
| KProviderAdminPublishDHTOfferRequest
| KProviderAdminPublishDHTOfferResponse
| KProviderAdminPublishGroupOfferRequest
| KProviderAdminPublishGroupOfferResponse
| KInvalidMessageResponse
| KProtocolChangeRequest
| KProtocolChangeResponse.

(** The message is one an encoder of this kind can make. *)
Definition sends (version : Z) (supported : list Z) (k : kind) (m : message) : Prop :=
  match k with
  | KClientDHTDiscoverOfferRequest => exists x0 x1 x2 x3 x4 x5, EncodeClientDHTDiscoverOfferRequest version supported x0 x1 x2 x3 x4 x5 = Ret m
  | KClientDHTDiscoverOfferResponse => exists x0 x1 x2 x3 x4 x5, EncodeClientDHTDiscoverOfferResponse version supported x0 x1 x2 x3 x4 x5 = Ret m
  | KClientDHTDiscoverRequest => exists x0 x1 x2 x3 x4 x5 x6, EncodeClientDHTDiscoverRequest version supported x0 x1 x2 x3 x4 x5 x6 = Ret m
  | KClientDHTDiscoverRequestV2 => exists x0 x1 x2 x3 x4 x5 x6, EncodeClientDHTDiscoverRequestV2 version supported x0 x1 x2 x3 x4 x5 x6 = Ret m
  | KClientDHTDiscoverResponse => exists x0 x1 x2 x3 x4 x5, EncodeClientDHTDiscoverResponse version supported x0 x1 x2 x3 x4 x5 = Ret m
  | KClientDHTDiscoverResponseV2 => exists x0 x1 x2 x3 x4 x5, EncodeClientDHTDiscoverResponseV2 version supported x0 x1 x2 x3 x4 x5 = Ret m
  | KClientDHTOfferAckRequest => exists x0 x1, EncodeClientDHTOfferAckRequest version supported x0 x1 = Ret m
  | KClientDHTOfferAckResponse => exists x0 x1 x2 x3 x4, EncodeClientDHTOfferAckResponse version supported x0 x1 x2 x3 x4 = Ret m
  | KClientEstablishmentRequest => exists x0 x1 x2, EncodeClientEstablishmentRequest version supported x0 x1 x2 = Ret m
  | KClientEstablishmentResponse => exists x0 x1, EncodeClientEstablishmentResponse version supported x0 x1 = Ret m
  | KClientStandardDiscoverOfferRequest => exists x0 x1 x2 x3 x4 x5, EncodeClientStandardDiscoverOfferRequest version supported x0 x1 x2 x3 x4 x5 = Ret m
  | KClientStandardDiscoverOfferResponse => exists x0 x1 x2 x3 x4 x5 x6, EncodeClientStandardDiscoverOfferResponse version supported x0 x1 x2 x3 x4 x5 x6 = Ret m
  | KClientStandardDiscoverRequest => exists x0 x1 x2 x3 x4, EncodeClientStandardDiscoverRequest version supported x0 x1 x2 x3 x4 = Ret m
  | KClientStandardDiscoverRequestV2 => exists x0 x1 x2 x3 x4, EncodeClientStandardDiscoverRequestV2 version supported x0 x1 x2 x3 x4 = Ret m
  | KClientStandardDiscoverResponse => exists x0 x1 x2 x3 x4, EncodeClientStandardDiscoverResponse version supported x0 x1 x2 x3 x4 = Ret m
  | KClientStandardDiscoverResponseV2 => exists x0 x1 x2 x3 x4 x5 x6, EncodeClientStandardDiscoverResponseV2 version supported x0 x1 x2 x3 x4 x5 x6 = Ret m
  | KGatewayDHTDiscoverOfferRequest => exists x0 x1 x2 x3 x4, EncodeGatewayDHTDiscoverOfferRequest version supported x0 x1 x2 x3 x4 = Ret m
  | KGatewayDHTDiscoverOfferResponse => exists x0 x1 x2 x3 x4 x5 x6, EncodeGatewayDHTDiscoverOfferResponse version supported x0 x1 x2 x3 x4 x5 x6 = Ret m
  | KGatewayDHTDiscoverRequest => exists x0 x1 x2 x3 x4 x5, EncodeGatewayDHTDiscoverRequest version supported x0 x1 x2 x3 x4 x5 = Ret m
  | KGatewayDHTDiscoverRequestV2 => exists x0 x1 x2 x3 x4 x5, EncodeGatewayDHTDiscoverRequestV2 version supported x0 x1 x2 x3 x4 x5 = Ret m
  | KGatewayDHTDiscoverResponse => exists x0 x1 x2 x3 x4, EncodeGatewayDHTDiscoverResponse version supported x0 x1 x2 x3 x4 = Ret m
  | KGatewayDHTDiscoverResponseV2 => exists x0 x1 x2 x3 x4 x5 x6, EncodeGatewayDHTDiscoverResponseV2 version supported x0 x1 x2 x3 x4 x5 x6 = Ret m
  | KGatewayListDHTOfferAck => exists x0, EncodeGatewayListDHTOfferAck version supported x0 = Ret m
  | KGatewayListDHTOfferRequest => exists x0 x1 x2 x3 x4 x5 x6, EncodeGatewayListDHTOfferRequest version supported x0 x1 x2 x3 x4 x5 x6 = Ret m
  | KGatewayListDHTOfferResponse => exists x0, EncodeGatewayListDHTOfferResponse version supported x0 = Ret m
  | KGatewayNotifyProviderGroupCIDOfferSupportRequest => exists x0 x1, EncodeGatewayNotifyProviderGroupCIDOfferSupportRequest version supported x0 x1 = Ret m
  | KGatewayNotifyProviderGroupCIDOfferSupportResponse => exists x0, EncodeGatewayNotifyProviderGroupCIDOfferSupportResponse version supported x0 = Ret m
  | KGatewayPingRequest => exists x0 x1 x2, EncodeGatewayPingRequest version supported x0 x1 x2 = Ret m
  | KGatewayPingResponse => exists x0 x1, EncodeGatewayPingResponse version supported x0 x1 = Ret m
  | KProviderPublishDHTOfferRequest => exists x0 x1 x2, EncodeProviderPublishDHTOfferRequest version supported x0 x1 x2 = Ret m
  | KProviderPublishDHTOfferResponse => exists x0 x1, EncodeProviderPublishDHTOfferResponse version supported x0 x1 = Ret m
  | KProviderPublishGroupOfferRequest => exists x0 x1 x2, EncodeProviderPublishGroupOfferRequest version supported x0 x1 x2 = Ret m
  | KProviderPublishGroupOfferResponse => exists x0 x1, EncodeProviderPublishGroupOfferResponse version supported x0 x1 = Ret m
  | KGatewayAdminForceRefreshRequest => exists x0, EncodeGatewayAdminForceRefreshRequest version supported x0 = Ret m
  | KGatewayAdminForceRefreshResponse => exists x0, EncodeGatewayAdminForceRefreshResponse version supported x0 = Ret m
  | KGatewayAdminGetReputationRequest => exists x0, EncodeGatewayAdminGetReputationRequest version supported x0 = Ret m
  | KGatewayAdminGetReputationResponse => exists x0 x1 x2, EncodeGatewayAdminGetReputationResponse version supported x0 x1 x2 = Ret m
  | KGatewayAdminInitialiseKeyRequest => exists x0 x1 x2, EncodeGatewayAdminInitialiseKeyRequest version supported x0 x1 x2 = Ret m
  | KGatewayAdminInitialiseKeyRequestV2 => exists x0 x1 x2 x3 x4 x5, EncodeGatewayAdminInitialiseKeyRequestV2 version supported x0 x1 x2 x3 x4 x5 = Ret m
  | KGatewayAdminInitialiseKeyResponse => exists x0, EncodeGatewayAdminInitialiseKeyResponse version supported x0 = Ret m
  | KGatewayAdminListDHTOfferRequest => exists x0, EncodeGatewayAdminListDHTOfferRequest version supported x0 = Ret m
  | KGatewayAdminListDHTOfferResponse => exists x0, EncodeGatewayAdminListDHTOfferResponse version supported x0 = Ret m
  | KGatewayAdminSetReputationRequest => exists x0 x1, EncodeGatewayAdminSetReputationRequest version supported x0 x1 = Ret m
  | KGatewayAdminSetReputationResponse => exists x0 x1 x2, EncodeGatewayAdminSetReputationResponse version supported x0 x1 x2 = Ret m
  | KUpdateGatewayGroupCIDOfferSupportRequest => exists x0 x1, EncodeUpdateGatewayGroupCIDOfferSupportRequest version supported x0 x1 = Ret m
  | KUpdateGatewayGroupCIDOfferSupportResponse => exists x0, EncodeUpdateGatewayGroupCIDOfferSupportResponse version supported x0 = Ret m
  | KProviderAdminForceRefreshRequest => exists x0, EncodeProviderAdminForceRefreshRequest version supported x0 = Ret m
  | KProviderAdminForceRefreshResponse => exists x0, EncodeProviderAdminForceRefreshResponse version supported x0 = Ret m
  | KProviderAdminGetPublishedOfferRequest => exists x0, EncodeProviderAdminGetPublishedOfferRequest version supported x0 = Ret m
  | KProviderAdminGetPublishedOfferResponse => exists x0 x1, EncodeProviderAdminGetPublishedOfferResponse version supported x0 x1 = Ret m
  | KProviderAdminInitialiseKeyRequest => exists x0 x1 x2, EncodeProviderAdminInitialiseKeyRequest version supported x0 x1 x2 = Ret m
  | KProviderAdminInitialiseKeyRequestV2 => exists x0 x1 x2 x3 x4 x5, EncodeProviderAdminInitialiseKeyRequestV2 version supported x0 x1 x2 x3 x4 x5 = Ret m
  | KProviderAdminInitialiseKeyResponse => exists x0, EncodeProviderAdminInitialiseKeyResponse version supported x0 = Ret m
  | KProviderAdminPublishDHTOfferRequest => exists x0 x1 x2 x3, EncodeProviderAdminPublishDHTOfferRequest version supported x0 x1 x2 x3 = Ret m
  | KProviderAdminPublishDHTOfferResponse => exists x0, EncodeProviderAdminPublishDHTOfferResponse version supported x0 = Ret m
  | KProviderAdminPublishGroupOfferRequest => exists x0 x1 x2 x3, EncodeProviderAdminPublishGroupOfferRequest version supported x0 x1 x2 x3 = Ret m
  | KProviderAdminPublishGroupOfferResponse => exists x0, EncodeProviderAdminPublishGroupOfferResponse version supported x0 = Ret m
  | KInvalidMessageResponse => EncodeInvalidMessageResponse version supported = Ret m
  | KProtocolChangeRequest => exists x0, EncodeProtocolChangeRequest version supported x0 = Ret m
  | KProtocolChangeResponse => exists x0, EncodeProtocolChangeResponse version supported x0 = Ret m
  end.

(** The decoder of this kind reports an error. *)
Definition rejects (sha256 : bytes -> bytes) (k : kind) (m : message) : Prop :=
  match k with
  | KClientDHTDiscoverOfferRequest => DecodeClientDHTDiscoverOfferRequest sha256 m = Ret ErrR
  | KClientDHTDiscoverOfferResponse => DecodeClientDHTDiscoverOfferResponse sha256 m = Ret ErrR
  | KClientDHTDiscoverRequest => DecodeClientDHTDiscoverRequest sha256 m = Ret ErrR
  | KClientDHTDiscoverRequestV2 => DecodeClientDHTDiscoverRequestV2 sha256 m = Ret ErrR
  | KClientDHTDiscoverResponse => DecodeClientDHTDiscoverResponse sha256 m = Ret ErrR
  | KClientDHTDiscoverResponseV2 => DecodeClientDHTDiscoverResponseV2 sha256 m = Ret ErrR
  | KClientDHTOfferAckRequest => DecodeClientDHTOfferAckRequest sha256 m = Ret ErrR
  | KClientDHTOfferAckResponse => DecodeClientDHTOfferAckResponse sha256 m = Ret ErrR
  | KClientEstablishmentRequest => DecodeClientEstablishmentRequest sha256 m = Ret ErrR
  | KClientEstablishmentResponse => DecodeClientEstablishmentResponse sha256 m = Ret ErrR
  | KClientStandardDiscoverOfferRequest => DecodeClientStandardDiscoverOfferRequest sha256 m = Ret ErrR
  | KClientStandardDiscoverOfferResponse => DecodeClientStandardDiscoverOfferResponse sha256 m = Ret ErrR
  | KClientStandardDiscoverRequest => DecodeClientStandardDiscoverRequest sha256 m = Ret ErrR
  | KClientStandardDiscoverRequestV2 => DecodeClientStandardDiscoverRequestV2 sha256 m = Ret ErrR
  | KClientStandardDiscoverResponse => DecodeClientStandardDiscoverResponse sha256 m = Ret ErrR
  | KClientStandardDiscoverResponseV2 => DecodeClientStandardDiscoverResponseV2 sha256 m = Ret ErrR
  | KGatewayDHTDiscoverOfferRequest => DecodeGatewayDHTDiscoverOfferRequest sha256 m = Ret ErrR
  | KGatewayDHTDiscoverOfferResponse => DecodeGatewayDHTDiscoverOfferResponse sha256 m = Ret ErrR
  | KGatewayDHTDiscoverRequest => DecodeGatewayDHTDiscoverRequest sha256 m = Ret ErrR
  | KGatewayDHTDiscoverRequestV2 => DecodeGatewayDHTDiscoverRequestV2 sha256 m = Ret ErrR
  | KGatewayDHTDiscoverResponse => DecodeGatewayDHTDiscoverResponse sha256 m = Ret ErrR
  | KGatewayDHTDiscoverResponseV2 => DecodeGatewayDHTDiscoverResponseV2 sha256 m = Ret ErrR
  | KGatewayListDHTOfferAck => DecodeGatewayListDHTOfferAck sha256 m = Ret ErrR
  | KGatewayListDHTOfferRequest => DecodeGatewayListDHTOfferRequest sha256 m = Ret ErrR
  | KGatewayListDHTOfferResponse => DecodeGatewayListDHTOfferResponse sha256 m = Ret ErrR
  | KGatewayNotifyProviderGroupCIDOfferSupportRequest => DecodeGatewayNotifyProviderGroupCIDOfferSupportRequest sha256 m = Ret ErrR
  | KGatewayNotifyProviderGroupCIDOfferSupportResponse => DecodeGatewayNotifyProviderGroupCIDOfferSupportResponse sha256 m = Ret ErrR
  | KGatewayPingRequest => DecodeGatewayPingRequest sha256 m = Ret ErrR
  | KGatewayPingResponse => DecodeGatewayPingResponse sha256 m = Ret ErrR
  | KProviderPublishDHTOfferRequest => DecodeProviderPublishDHTOfferRequest sha256 m = Ret ErrR
  | KProviderPublishDHTOfferResponse => DecodeProviderPublishDHTOfferResponse sha256 m = Ret ErrR
  | KProviderPublishGroupOfferRequest => DecodeProviderPublishGroupOfferRequest sha256 m = Ret ErrR
  | KProviderPublishGroupOfferResponse => DecodeProviderPublishGroupOfferResponse sha256 m = Ret ErrR
  | KGatewayAdminForceRefreshRequest => DecodeGatewayAdminForceRefreshRequest sha256 m = Ret ErrR
  | KGatewayAdminForceRefreshResponse => DecodeGatewayAdminForceRefreshResponse sha256 m = Ret ErrR
  | KGatewayAdminGetReputationRequest => DecodeGatewayAdminGetReputationRequest sha256 m = Ret ErrR
  | KGatewayAdminGetReputationResponse => DecodeGatewayAdminGetReputationResponse sha256 m = Ret ErrR
  | KGatewayAdminInitialiseKeyRequest => DecodeGatewayAdminInitialiseKeyRequest sha256 m = Ret ErrR
  | KGatewayAdminInitialiseKeyRequestV2 => DecodeGatewayAdminInitialiseKeyRequestV2 sha256 m = Ret ErrR
  | KGatewayAdminInitialiseKeyResponse => DecodeGatewayAdminInitialiseKeyResponse sha256 m = Ret ErrR
  | KGatewayAdminListDHTOfferRequest => DecodeGatewayAdminListDHTOfferRequest sha256 m = Ret ErrR
  | KGatewayAdminListDHTOfferResponse => DecodeGatewayAdminListDHTOfferResponse sha256 m = Ret ErrR
  | KGatewayAdminSetReputationRequest => DecodeGatewayAdminSetReputationRequest sha256 m = Ret ErrR
  | KGatewayAdminSetReputationResponse => DecodeGatewayAdminSetReputationResponse sha256 m = Ret ErrR
  | KUpdateGatewayGroupCIDOfferSupportRequest => DecodeUpdateGatewayGroupCIDOfferSupportRequest sha256 m = Ret ErrR
  | KUpdateGatewayGroupCIDOfferSupportResponse => DecodeUpdateGatewayGroupCIDOfferSupportResponse sha256 m = Ret ErrR
  | KProviderAdminForceRefreshRequest => DecodeProviderAdminForceRefreshRequest sha256 m = Ret ErrR
  | KProviderAdminForceRefreshResponse => DecodeProviderAdminForceRefreshResponse sha256 m = Ret ErrR
  | KProviderAdminGetPublishedOfferRequest => DecodeProviderAdminGetPublishedOfferRequest sha256 m = Ret ErrR
  | KProviderAdminGetPublishedOfferResponse => DecodeProviderAdminGetPublishedOfferResponse sha256 m = Ret ErrR
  | KProviderAdminInitialiseKeyRequest => DecodeProviderAdminInitialiseKeyRequest sha256 m = Ret ErrR
  | KProviderAdminInitialiseKeyRequestV2 => DecodeProviderAdminInitialiseKeyRequestV2 sha256 m = Ret ErrR
  | KProviderAdminInitialiseKeyResponse => DecodeProviderAdminInitialiseKeyResponse sha256 m = Ret ErrR
  | KProviderAdminPublishDHTOfferRequest => DecodeProviderAdminPublishDHTOfferRequest sha256 m = Ret ErrR
  | KProviderAdminPublishDHTOfferResponse => DecodeProviderAdminPublishDHTOfferResponse sha256 m = Ret ErrR
  | KProviderAdminPublishGroupOfferRequest => DecodeProviderAdminPublishGroupOfferRequest sha256 m = Ret ErrR
  | KProviderAdminPublishGroupOfferResponse => DecodeProviderAdminPublishGroupOfferResponse sha256 m = Ret ErrR
  | KInvalidMessageResponse => DecodeInvalidMessageResponse sha256 m = Ret ErrR
  | KProtocolChangeRequest => DecodeProtocolChangeRequest sha256 m = Ret ErrR
  | KProtocolChangeResponse => DecodeProtocolChangeResponse sha256 m = Ret ErrR
  end.

(** The decoder of this kind returns, with or without an error. *)
Definition returns (sha256 : bytes -> bytes) (k : kind) (m : message) : Prop :=
  match k with
  | KClientDHTDiscoverOfferRequest => exists r, DecodeClientDHTDiscoverOfferRequest sha256 m = Ret r
  | KClientDHTDiscoverOfferResponse => exists r, DecodeClientDHTDiscoverOfferResponse sha256 m = Ret r
  | KClientDHTDiscoverRequest => exists r, DecodeClientDHTDiscoverRequest sha256 m = Ret r
  | KClientDHTDiscoverRequestV2 => exists r, DecodeClientDHTDiscoverRequestV2 sha256 m = Ret r
  | KClientDHTDiscoverResponse => exists r, DecodeClientDHTDiscoverResponse sha256 m = Ret r
  | KClientDHTDiscoverResponseV2 => exists r, DecodeClientDHTDiscoverResponseV2 sha256 m = Ret r
  | KClientDHTOfferAckRequest => exists r, DecodeClientDHTOfferAckRequest sha256 m = Ret r
  | KClientDHTOfferAckResponse => exists r, DecodeClientDHTOfferAckResponse sha256 m = Ret r
  | KClientEstablishmentRequest => exists r, DecodeClientEstablishmentRequest sha256 m = Ret r
  | KClientEstablishmentResponse => exists r, DecodeClientEstablishmentResponse sha256 m = Ret r
  | KClientStandardDiscoverOfferRequest => exists r, DecodeClientStandardDiscoverOfferRequest sha256 m = Ret r
  | KClientStandardDiscoverOfferResponse => exists r, DecodeClientStandardDiscoverOfferResponse sha256 m = Ret r
  | KClientStandardDiscoverRequest => exists r, DecodeClientStandardDiscoverRequest sha256 m = Ret r
  | KClientStandardDiscoverRequestV2 => exists r, DecodeClientStandardDiscoverRequestV2 sha256 m = Ret r
  | KClientStandardDiscoverResponse => exists r, DecodeClientStandardDiscoverResponse sha256 m = Ret r
  | KClientStandardDiscoverResponseV2 => exists r, DecodeClientStandardDiscoverResponseV2 sha256 m = Ret r
  | KGatewayDHTDiscoverOfferRequest => exists r, DecodeGatewayDHTDiscoverOfferRequest sha256 m = Ret r
  | KGatewayDHTDiscoverOfferResponse => exists r, DecodeGatewayDHTDiscoverOfferResponse sha256 m = Ret r
  | KGatewayDHTDiscoverRequest => exists r, DecodeGatewayDHTDiscoverRequest sha256 m = Ret r
  | KGatewayDHTDiscoverRequestV2 => exists r, DecodeGatewayDHTDiscoverRequestV2 sha256 m = Ret r
  | KGatewayDHTDiscoverResponse => exists r, DecodeGatewayDHTDiscoverResponse sha256 m = Ret r
  | KGatewayDHTDiscoverResponseV2 => exists r, DecodeGatewayDHTDiscoverResponseV2 sha256 m = Ret r
  | KGatewayListDHTOfferAck => exists r, DecodeGatewayListDHTOfferAck sha256 m = Ret r
  | KGatewayListDHTOfferRequest => exists r, DecodeGatewayListDHTOfferRequest sha256 m = Ret r
  | KGatewayListDHTOfferResponse => exists r, DecodeGatewayListDHTOfferResponse sha256 m = Ret r
  | KGatewayNotifyProviderGroupCIDOfferSupportRequest => exists r, DecodeGatewayNotifyProviderGroupCIDOfferSupportRequest sha256 m = Ret r
  | KGatewayNotifyProviderGroupCIDOfferSupportResponse => exists r, DecodeGatewayNotifyProviderGroupCIDOfferSupportResponse sha256 m = Ret r
  | KGatewayPingRequest => exists r, DecodeGatewayPingRequest sha256 m = Ret r
  | KGatewayPingResponse => exists r, DecodeGatewayPingResponse sha256 m = Ret r
  | KProviderPublishDHTOfferRequest => exists r, DecodeProviderPublishDHTOfferRequest sha256 m = Ret r
  | KProviderPublishDHTOfferResponse => exists r, DecodeProviderPublishDHTOfferResponse sha256 m = Ret r
  | KProviderPublishGroupOfferRequest => exists r, DecodeProviderPublishGroupOfferRequest sha256 m = Ret r
  | KProviderPublishGroupOfferResponse => exists r, DecodeProviderPublishGroupOfferResponse sha256 m = Ret r
  | KGatewayAdminForceRefreshRequest => exists r, DecodeGatewayAdminForceRefreshRequest sha256 m = Ret r
  | KGatewayAdminForceRefreshResponse => exists r, DecodeGatewayAdminForceRefreshResponse sha256 m = Ret r
  | KGatewayAdminGetReputationRequest => exists r, DecodeGatewayAdminGetReputationRequest sha256 m = Ret r
  | KGatewayAdminGetReputationResponse => exists r, DecodeGatewayAdminGetReputationResponse sha256 m = Ret r
  | KGatewayAdminInitialiseKeyRequest => exists r, DecodeGatewayAdminInitialiseKeyRequest sha256 m = Ret r
  | KGatewayAdminInitialiseKeyRequestV2 => exists r, DecodeGatewayAdminInitialiseKeyRequestV2 sha256 m = Ret r
  | KGatewayAdminInitialiseKeyResponse => exists r, DecodeGatewayAdminInitialiseKeyResponse sha256 m = Ret r
  | KGatewayAdminListDHTOfferRequest => exists r, DecodeGatewayAdminListDHTOfferRequest sha256 m = Ret r
  | KGatewayAdminListDHTOfferResponse => exists r, DecodeGatewayAdminListDHTOfferResponse sha256 m = Ret r
  | KGatewayAdminSetReputationRequest => exists r, DecodeGatewayAdminSetReputationRequest sha256 m = Ret r
  | KGatewayAdminSetReputationResponse => exists r, DecodeGatewayAdminSetReputationResponse sha256 m = Ret r
  | KUpdateGatewayGroupCIDOfferSupportRequest => exists r, DecodeUpdateGatewayGroupCIDOfferSupportRequest sha256 m = Ret r
  | KUpdateGatewayGroupCIDOfferSupportResponse => exists r, DecodeUpdateGatewayGroupCIDOfferSupportResponse sha256 m = Ret r
  | KProviderAdminForceRefreshRequest => exists r, DecodeProviderAdminForceRefreshRequest sha256 m = Ret r
  | KProviderAdminForceRefreshResponse => exists r, DecodeProviderAdminForceRefreshResponse sha256 m = Ret r
  | KProviderAdminGetPublishedOfferRequest => exists r, DecodeProviderAdminGetPublishedOfferRequest sha256 m = Ret r
  | KProviderAdminGetPublishedOfferResponse => exists r, DecodeProviderAdminGetPublishedOfferResponse sha256 m = Ret r
  | KProviderAdminInitialiseKeyRequest => exists r, DecodeProviderAdminInitialiseKeyRequest sha256 m = Ret r
  | KProviderAdminInitialiseKeyRequestV2 => exists r, DecodeProviderAdminInitialiseKeyRequestV2 sha256 m = Ret r
  | KProviderAdminInitialiseKeyResponse => exists r, DecodeProviderAdminInitialiseKeyResponse sha256 m = Ret r
  | KProviderAdminPublishDHTOfferRequest => exists r, DecodeProviderAdminPublishDHTOfferRequest sha256 m = Ret r
  | KProviderAdminPublishDHTOfferResponse => exists r, DecodeProviderAdminPublishDHTOfferResponse sha256 m = Ret r
  | KProviderAdminPublishGroupOfferRequest => exists r, DecodeProviderAdminPublishGroupOfferRequest sha256 m = Ret r
  | KProviderAdminPublishGroupOfferResponse => exists r, DecodeProviderAdminPublishGroupOfferResponse sha256 m = Ret r
  | KInvalidMessageResponse => exists r, DecodeInvalidMessageResponse sha256 m = Ret r
  | KProtocolChangeRequest => exists r, DecodeProtocolChangeRequest sha256 m = Ret r
  | KProtocolChangeResponse => exists r, DecodeProtocolChangeResponse sha256 m = Ret r
  end.

(** An identifier handed out through a pointer: missing, or of 32 bytes. *)
Definition id_or_nil (p : option bytes) : Prop := forall b, p = Some b -> length b = 32%nat.
Definition ids_32 (l : list bytes) : Prop := Forall (fun b => length b = 32%nat) l.

(** The identifiers a decoder hands out. *)
Definition good_ids (sha256 : bytes -> bytes) (k : kind) (m : message) : Prop :=
  match k with
  | KClientDHTDiscoverOfferRequest => forall x0 x1 x2 x3 x4 x5, DecodeClientDHTDiscoverOfferRequest sha256 m = Ret (OkR (x0, x1, x2, x3, x4, x5)) ->
      id_or_nil x0 /\ ids_32 x3
  | KClientDHTDiscoverOfferResponse => forall x0 x1 x2 x3 x4 x5, DecodeClientDHTDiscoverOfferResponse sha256 m = Ret (OkR (x0, x1, x2, x3, x4, x5)) ->
      id_or_nil x0 /\ ids_32 x2
  | KClientDHTDiscoverRequest => forall x0 x1 x2 x3 x4 x5 x6, DecodeClientDHTDiscoverRequest sha256 m = Ret (OkR (x0, x1, x2, x3, x4, x5, x6)) ->
      id_or_nil x0
  | KClientDHTDiscoverRequestV2 => forall x0 x1 x2 x3 x4 x5 x6, DecodeClientDHTDiscoverRequestV2 sha256 m = Ret (OkR (x0, x1, x2, x3, x4, x5, x6)) ->
      id_or_nil x0
  | KClientDHTDiscoverResponse => forall x0 x1 x2 x3 x4 x5, DecodeClientDHTDiscoverResponse sha256 m = Ret (OkR (x0, x1, x2, x3, x4, x5)) ->
      ids_32 x0 /\ ids_32 x2
  | KClientDHTDiscoverResponseV2 => forall x0 x1 x2 x3 x4 x5, DecodeClientDHTDiscoverResponseV2 sha256 m = Ret (OkR (x0, x1, x2, x3, x4, x5)) ->
      ids_32 x0 /\ ids_32 x2
  | KClientDHTOfferAckRequest => forall x0 x1, DecodeClientDHTOfferAckRequest sha256 m = Ret (OkR (x0, x1)) ->
      id_or_nil x0 /\ id_or_nil x1
  | KClientDHTOfferAckResponse => forall x0 x1 x2 x3 x4, DecodeClientDHTOfferAckResponse sha256 m = Ret (OkR (x0, x1, x2, x3, x4)) ->
      id_or_nil x0 /\ id_or_nil x1
  | KClientEstablishmentRequest => forall x0 x1 x2, DecodeClientEstablishmentRequest sha256 m = Ret (OkR (x0, x1, x2)) ->
      id_or_nil x0
  | KClientEstablishmentResponse => forall x0 x1, DecodeClientEstablishmentResponse sha256 m = Ret (OkR (x0, x1)) ->
      id_or_nil x0
  | KClientStandardDiscoverOfferRequest => forall x0 x1 x2 x3 x4 x5, DecodeClientStandardDiscoverOfferRequest sha256 m = Ret (OkR (x0, x1, x2, x3, x4, x5)) ->
      id_or_nil x0
  | KClientStandardDiscoverOfferResponse => forall x0 x1 x2 x3 x4 x5 x6, DecodeClientStandardDiscoverOfferResponse sha256 m = Ret (OkR (x0, x1, x2, x3, x4, x5, x6)) ->
      id_or_nil x0
  | KClientStandardDiscoverRequest => forall x0 x1 x2 x3 x4, DecodeClientStandardDiscoverRequest sha256 m = Ret (OkR (x0, x1, x2, x3, x4)) ->
      id_or_nil x0
  | KClientStandardDiscoverRequestV2 => forall x0 x1 x2 x3 x4, DecodeClientStandardDiscoverRequestV2 sha256 m = Ret (OkR (x0, x1, x2, x3, x4)) ->
      id_or_nil x0
  | KClientStandardDiscoverResponse => forall x0 x1 x2 x3 x4, DecodeClientStandardDiscoverResponse sha256 m = Ret (OkR (x0, x1, x2, x3, x4)) ->
      id_or_nil x0
  | KClientStandardDiscoverResponseV2 => forall x0 x1 x2 x3 x4 x5 x6, DecodeClientStandardDiscoverResponseV2 sha256 m = Ret (OkR (x0, x1, x2, x3, x4, x5, x6)) ->
      id_or_nil x0
  | KGatewayDHTDiscoverOfferRequest => forall x0 x1 x2 x3 x4, DecodeGatewayDHTDiscoverOfferRequest sha256 m = Ret (OkR (x0, x1, x2, x3, x4)) ->
      id_or_nil x0
  | KGatewayDHTDiscoverOfferResponse => forall x0 x1 x2 x3 x4 x5 x6, DecodeGatewayDHTDiscoverOfferResponse sha256 m = Ret (OkR (x0, x1, x2, x3, x4, x5, x6)) ->
      id_or_nil x0
  | KGatewayDHTDiscoverRequest => forall x0 x1 x2 x3 x4 x5, DecodeGatewayDHTDiscoverRequest sha256 m = Ret (OkR (x0, x1, x2, x3, x4, x5)) ->
      id_or_nil x0 /\ id_or_nil x1
  | KGatewayDHTDiscoverRequestV2 => forall x0 x1 x2 x3 x4 x5, DecodeGatewayDHTDiscoverRequestV2 sha256 m = Ret (OkR (x0, x1, x2, x3, x4, x5)) ->
      id_or_nil x0 /\ id_or_nil x1
  | KGatewayDHTDiscoverResponse => forall x0 x1 x2 x3 x4, DecodeGatewayDHTDiscoverResponse sha256 m = Ret (OkR (x0, x1, x2, x3, x4)) ->
      id_or_nil x0
  | KGatewayDHTDiscoverResponseV2 => forall x0 x1 x2 x3 x4 x5 x6, DecodeGatewayDHTDiscoverResponseV2 sha256 m = Ret (OkR (x0, x1, x2, x3, x4, x5, x6)) ->
      id_or_nil x0
  | KGatewayListDHTOfferRequest => forall x0 x1 x2 x3 x4 x5 x6, DecodeGatewayListDHTOfferRequest sha256 m = Ret (OkR (x0, x1, x2, x3, x4, x5, x6)) ->
      id_or_nil x0 /\ id_or_nil x1 /\ id_or_nil x2
  | KGatewayNotifyProviderGroupCIDOfferSupportRequest => forall x0 x1, DecodeGatewayNotifyProviderGroupCIDOfferSupportRequest sha256 m = Ret (OkR (x0, x1)) ->
      id_or_nil x0
  | KGatewayPingRequest => forall x0 x1 x2, DecodeGatewayPingRequest sha256 m = Ret (OkR (x0, x1, x2)) ->
      id_or_nil x0
  | KProviderPublishDHTOfferRequest => forall x0 x1 x2, DecodeProviderPublishDHTOfferRequest sha256 m = Ret (OkR (x0, x1, x2)) ->
      id_or_nil x0
  | KProviderPublishGroupOfferRequest => forall x0 x1 x2, DecodeProviderPublishGroupOfferRequest sha256 m = Ret (OkR (x0, x1, x2)) ->
      id_or_nil x0
  | KProviderPublishGroupOfferResponse => forall x0 x1, DecodeProviderPublishGroupOfferResponse sha256 m = Ret (OkR (x0, x1)) ->
      id_or_nil x0
  | KGatewayAdminGetReputationRequest => forall x0, DecodeGatewayAdminGetReputationRequest sha256 m = Ret (OkR x0) ->
      id_or_nil x0
  | KGatewayAdminGetReputationResponse => forall x0 x1 x2, DecodeGatewayAdminGetReputationResponse sha256 m = Ret (OkR (x0, x1, x2)) ->
      id_or_nil x0
  | KGatewayAdminInitialiseKeyRequest => forall x0 x1 x2, DecodeGatewayAdminInitialiseKeyRequest sha256 m = Ret (OkR (x0, x1, x2)) ->
      id_or_nil x0
  | KGatewayAdminInitialiseKeyRequestV2 => forall x0 x1 x2 x3 x4 x5, DecodeGatewayAdminInitialiseKeyRequestV2 sha256 m = Ret (OkR (x0, x1, x2, x3, x4, x5)) ->
      id_or_nil x0
  | KGatewayAdminSetReputationRequest => forall x0 x1, DecodeGatewayAdminSetReputationRequest sha256 m = Ret (OkR (x0, x1)) ->
      id_or_nil x0
  | KGatewayAdminSetReputationResponse => forall x0 x1 x2, DecodeGatewayAdminSetReputationResponse sha256 m = Ret (OkR (x0, x1, x2)) ->
      id_or_nil x0
  | KUpdateGatewayGroupCIDOfferSupportRequest => forall x0 x1, DecodeUpdateGatewayGroupCIDOfferSupportRequest sha256 m = Ret (OkR (x0, x1)) ->
      id_or_nil x0 /\ ids_32 x1
  | KProviderAdminGetPublishedOfferRequest => forall x0, DecodeProviderAdminGetPublishedOfferRequest sha256 m = Ret (OkR x0) ->
      ids_32 x0
  | KProviderAdminInitialiseKeyRequest => forall x0 x1 x2, DecodeProviderAdminInitialiseKeyRequest sha256 m = Ret (OkR (x0, x1, x2)) ->
      id_or_nil x0
  | KProviderAdminInitialiseKeyRequestV2 => forall x0 x1 x2 x3 x4 x5, DecodeProviderAdminInitialiseKeyRequestV2 sha256 m = Ret (OkR (x0, x1, x2, x3, x4, x5)) ->
      id_or_nil x0
  | KProviderAdminPublishDHTOfferRequest => forall x0 x1 x2 x3, DecodeProviderAdminPublishDHTOfferRequest sha256 m = Ret (OkR (x0, x1, x2, x3)) ->
      ids_32 x0
  | KProviderAdminPublishGroupOfferRequest => forall x0 x1 x2 x3, DecodeProviderAdminPublishGroupOfferRequest sha256 m = Ret (OkR (x0, x1, x2, x3)) ->
      ids_32 x0
  | _ => True
  end.

(** Kinds whose decoders convert a list of identifiers, parse offers, or decode a
    private key. *)
Definition risky (k : kind) : bool :=
  match k with
  | KClientDHTDiscoverOfferRequest
  | KClientDHTDiscoverOfferResponse
  | KClientDHTDiscoverResponse
  | KClientDHTDiscoverResponseV2
  | KProviderPublishDHTOfferRequest
  | KProviderPublishGroupOfferRequest
  | KGatewayAdminInitialiseKeyRequest
  | KGatewayAdminInitialiseKeyRequestV2
  | KUpdateGatewayGroupCIDOfferSupportRequest
  | KProviderAdminGetPublishedOfferRequest
  | KProviderAdminGetPublishedOfferResponse
  | KProviderAdminInitialiseKeyRequest
  | KProviderAdminInitialiseKeyRequestV2
  | KProviderAdminPublishDHTOfferRequest
  | KProviderAdminPublishGroupOfferRequest => true
  | _ => false
  end.

(** The two pairs of kinds that share a type number. *)
Definition confused (k k' : kind) : bool :=
  match k, k' with
  | KGatewayPingRequest, KGatewayNotifyProviderGroupCIDOfferSupportRequest
  | KGatewayNotifyProviderGroupCIDOfferSupportRequest, KGatewayPingRequest
  | KGatewayPingResponse, KGatewayNotifyProviderGroupCIDOfferSupportResponse
  | KGatewayNotifyProviderGroupCIDOfferSupportResponse, KGatewayPingResponse => true
  | _, _ => false
  end.
