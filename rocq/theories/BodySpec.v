(** * Which JSON values message bodies may carry *)
From Coq Require Import List ZArith Bool.
From Coq Require Import Init.Byte.
From Verif Require Import Base Ids Json Merkle MerkleWire Crypto Message Offer Schema Messages MessagesSpec.
Import ListNotations.
Open Scope Z_scope.

Definition text_or_null (j : json) : Prop := j = JNull \/ exists s, j = JStr s.
Definition flag_or_null (j : json) : Prop := j = JNull \/ exists b, j = JBool b.
Definition num_or_null (lo hi : Z) (j : json) : Prop := j = JNull \/ exists z, j = JNum z /\ lo <= z <= hi.
Definition texts_or_null (j : json) : Prop := j = JNull \/ exists l, j = JArr l /\ Forall text_or_null l.
Definition object_or_null (j : json) : Prop := j = JNull \/ exists f, j = JObj f.
Definition array_or_null (P : json -> Prop) (j : json) : Prop := j = JNull \/ exists l, j = JArr l /\ Forall P l.

(** The JSON values a field of a type accepts; embedded offers and proofs have their
    own parsers (C77, C78). *)
Definition shape (t : ftype) (j : json) : Prop :=
  match t with
  | TStr => text_or_null j
  | TBool => flag_or_null j
  | TInt lo hi => num_or_null lo hi j
  | TStrs => array_or_null text_or_null j
  | TStrss => array_or_null texts_or_null j
  | TBools => array_or_null flag_or_null j
  | TInts lo hi => array_or_null (num_or_null lo hi) j
  | TMsg => object_or_null j
  | TMsgs => array_or_null object_or_null j
  | TProof | TOffer => True
  | TOffers | TSubs => array_or_null (fun _ => True) j
  end.

(** A body that fits the struct of a message kind: an object (or null) in which every
    entry named like a field, whatever the case, has the shape of that field. *)
Definition fits (s : schema) (body : option bytes) : Prop :=
  json_parse (slice body) = Some JNull \/
  exists f, json_parse (slice body) = Some (JObj f) /\
    forall name t key j, In (name, t) s -> In (key, j) f -> fold_eq key name = true -> shape t j.

(** The struct of each kind. *)
Definition struct_of (k : kind) : schema :=
  match k with
  | KClientDHTDiscoverOfferRequest => clientDHTDiscoverOfferRequest
  | KClientDHTDiscoverOfferResponse => clientDHTDiscoverOfferResponse
  | KClientDHTDiscoverRequest => clientDHTDiscoverRequest
  | KClientDHTDiscoverRequestV2 => clientDHTDiscoverRequestV2
  | KClientDHTDiscoverResponse => clientDHTDiscoverResponse
  | KClientDHTDiscoverResponseV2 => clientDHTDiscoverResponseV2
  | KClientDHTOfferAckRequest => clientDHTOfferAckRequest
  | KClientDHTOfferAckResponse => clientDHTOfferAckResponse
  | KClientEstablishmentRequest => clientEstablishmentRequest
  | KClientEstablishmentResponse => clientEstablishmentResponse
  | KClientStandardDiscoverOfferRequest => clientStandardDiscoverOfferRequest
  | KClientStandardDiscoverOfferResponse => clientStandardDiscoverOfferResponse
  | KClientStandardDiscoverRequest => clientStandardDiscoverRequest
  | KClientStandardDiscoverRequestV2 => clientStandardDiscoverRequestV2
  | KClientStandardDiscoverResponse => clientStandardDiscoverResponse
  | KClientStandardDiscoverResponseV2 => clientStandardDiscoverResponseV2
  | KGatewayDHTDiscoverOfferRequest => gatewayDHTDiscoverOfferRequest
  | KGatewayDHTDiscoverOfferResponse => gatewayDHTDiscoverOfferResponse
  | KGatewayDHTDiscoverRequest => gatewayDHTDiscoverRequest
  | KGatewayDHTDiscoverRequestV2 => gatewayDHTDiscoverRequestV2
  | KGatewayDHTDiscoverResponse => gatewayDHTDiscoverResponse
  | KGatewayDHTDiscoverResponseV2 => gatewayDHTDiscoverResponseV2
  | KGatewayListDHTOfferAck => gatewayListDHTOfferAck
  | KGatewayListDHTOfferRequest => gatewayListDHTOfferRequest
  | KGatewayListDHTOfferResponse => gatewayListDHTOfferResponse
  | KGatewayNotifyProviderGroupCIDOfferSupportRequest => gatewayNotifyProviderGroupCIDOfferSupportRequest
  | KGatewayNotifyProviderGroupCIDOfferSupportResponse => gatewayNotifyProviderGroupCIDOfferSupportResponse
  | KGatewayPingRequest => gatewayPingRequest
  | KGatewayPingResponse => gatewayPingResponse
  | KProviderPublishDHTOfferRequest => providerPublishDHTOfferRequest
  | KProviderPublishDHTOfferResponse => providerPublishDHTOfferResponse
  | KProviderPublishGroupOfferRequest => providerPublishGroupOfferRequest
  | KProviderPublishGroupOfferResponse => providerPublishGroupOfferResponse
  | KGatewayAdminForceRefreshRequest => gatewayAdminForceRefreshRequest
  | KGatewayAdminForceRefreshResponse => gatewayAdminForceRefreshResponse
  | KGatewayAdminGetReputationRequest => gatewayAdminGetReputationRequest
  | KGatewayAdminGetReputationResponse => gatewayAdminGetReputationResponse
  | KGatewayAdminInitialiseKeyRequest => gatewayAdminInitialiseKeyRequest
  | KGatewayAdminInitialiseKeyRequestV2 => gatewayAdminInitialiseKeyRequestV2
  | KGatewayAdminInitialiseKeyResponse => gatewayAdminInitialiseKeyResponse
  | KGatewayAdminListDHTOfferRequest => gatewayAdminListDHTOfferRequest
  | KGatewayAdminListDHTOfferResponse => gatewayAdminListDHTOfferResponse
  | KGatewayAdminSetReputationRequest => gatewayAdminSetReputationRequest
  | KGatewayAdminSetReputationResponse => gatewayAdminSetReputationResponse
  | KUpdateGatewayGroupCIDOfferSupportRequest => updateGatewayGroupCIDOfferSupportRequest
  | KUpdateGatewayGroupCIDOfferSupportResponse => updateGatewayGroupCIDOfferSupportResponse
  | KProviderAdminForceRefreshRequest => providerAdminForceRefreshRequest
  | KProviderAdminForceRefreshResponse => providerAdminForceRefreshResponse
  | KProviderAdminGetPublishedOfferRequest => providerAdminGetPublishedOfferRequest
  | KProviderAdminGetPublishedOfferResponse => providerAdminGetPublishedOfferResponse
  | KProviderAdminInitialiseKeyRequest => providerAdminInitialiseKeyRequest
  | KProviderAdminInitialiseKeyRequestV2 => providerAdminInitialiseKeyRequestV2
  | KProviderAdminInitialiseKeyResponse => providerAdminInitialiseKeyResponse
  | KProviderAdminPublishDHTOfferRequest => providerAdminPublishDHTOfferRequest
  | KProviderAdminPublishDHTOfferResponse => providerAdminPublishDHTOfferResponse
  | KProviderAdminPublishGroupOfferRequest => providerAdminPublishGroupOfferRequest
  | KProviderAdminPublishGroupOfferResponse => providerAdminPublishGroupOfferResponse
  | KInvalidMessageResponse => invalidMessageResponse
  | KProtocolChangeRequest => protocolChangeRequest
  | KProtocolChangeResponse => protocolChangeResponse
  end.

(** The decoder of this kind accepts the message. *)
Definition accepted (sha256 : bytes -> bytes) (k : kind) (m : message) : Prop :=
  match k with
  | KClientDHTDiscoverOfferRequest => exists v, DecodeClientDHTDiscoverOfferRequest sha256 m = Ret (OkR v)
  | KClientDHTDiscoverOfferResponse => exists v, DecodeClientDHTDiscoverOfferResponse sha256 m = Ret (OkR v)
  | KClientDHTDiscoverRequest => exists v, DecodeClientDHTDiscoverRequest sha256 m = Ret (OkR v)
  | KClientDHTDiscoverRequestV2 => exists v, DecodeClientDHTDiscoverRequestV2 sha256 m = Ret (OkR v)
  | KClientDHTDiscoverResponse => exists v, DecodeClientDHTDiscoverResponse sha256 m = Ret (OkR v)
  | KClientDHTDiscoverResponseV2 => exists v, DecodeClientDHTDiscoverResponseV2 sha256 m = Ret (OkR v)
  | KClientDHTOfferAckRequest => exists v, DecodeClientDHTOfferAckRequest sha256 m = Ret (OkR v)
  | KClientDHTOfferAckResponse => exists v, DecodeClientDHTOfferAckResponse sha256 m = Ret (OkR v)
  | KClientEstablishmentRequest => exists v, DecodeClientEstablishmentRequest sha256 m = Ret (OkR v)
  | KClientEstablishmentResponse => exists v, DecodeClientEstablishmentResponse sha256 m = Ret (OkR v)
  | KClientStandardDiscoverOfferRequest => exists v, DecodeClientStandardDiscoverOfferRequest sha256 m = Ret (OkR v)
  | KClientStandardDiscoverOfferResponse => exists v, DecodeClientStandardDiscoverOfferResponse sha256 m = Ret (OkR v)
  | KClientStandardDiscoverRequest => exists v, DecodeClientStandardDiscoverRequest sha256 m = Ret (OkR v)
  | KClientStandardDiscoverRequestV2 => exists v, DecodeClientStandardDiscoverRequestV2 sha256 m = Ret (OkR v)
  | KClientStandardDiscoverResponse => exists v, DecodeClientStandardDiscoverResponse sha256 m = Ret (OkR v)
  | KClientStandardDiscoverResponseV2 => exists v, DecodeClientStandardDiscoverResponseV2 sha256 m = Ret (OkR v)
  | KGatewayDHTDiscoverOfferRequest => exists v, DecodeGatewayDHTDiscoverOfferRequest sha256 m = Ret (OkR v)
  | KGatewayDHTDiscoverOfferResponse => exists v, DecodeGatewayDHTDiscoverOfferResponse sha256 m = Ret (OkR v)
  | KGatewayDHTDiscoverRequest => exists v, DecodeGatewayDHTDiscoverRequest sha256 m = Ret (OkR v)
  | KGatewayDHTDiscoverRequestV2 => exists v, DecodeGatewayDHTDiscoverRequestV2 sha256 m = Ret (OkR v)
  | KGatewayDHTDiscoverResponse => exists v, DecodeGatewayDHTDiscoverResponse sha256 m = Ret (OkR v)
  | KGatewayDHTDiscoverResponseV2 => exists v, DecodeGatewayDHTDiscoverResponseV2 sha256 m = Ret (OkR v)
  | KGatewayListDHTOfferAck => exists v, DecodeGatewayListDHTOfferAck sha256 m = Ret (OkR v)
  | KGatewayListDHTOfferRequest => exists v, DecodeGatewayListDHTOfferRequest sha256 m = Ret (OkR v)
  | KGatewayListDHTOfferResponse => exists v, DecodeGatewayListDHTOfferResponse sha256 m = Ret (OkR v)
  | KGatewayNotifyProviderGroupCIDOfferSupportRequest => exists v, DecodeGatewayNotifyProviderGroupCIDOfferSupportRequest sha256 m = Ret (OkR v)
  | KGatewayNotifyProviderGroupCIDOfferSupportResponse => exists v, DecodeGatewayNotifyProviderGroupCIDOfferSupportResponse sha256 m = Ret (OkR v)
  | KGatewayPingRequest => exists v, DecodeGatewayPingRequest sha256 m = Ret (OkR v)
  | KGatewayPingResponse => exists v, DecodeGatewayPingResponse sha256 m = Ret (OkR v)
  | KProviderPublishDHTOfferRequest => exists v, DecodeProviderPublishDHTOfferRequest sha256 m = Ret (OkR v)
  | KProviderPublishDHTOfferResponse => exists v, DecodeProviderPublishDHTOfferResponse sha256 m = Ret (OkR v)
  | KProviderPublishGroupOfferRequest => exists v, DecodeProviderPublishGroupOfferRequest sha256 m = Ret (OkR v)
  | KProviderPublishGroupOfferResponse => exists v, DecodeProviderPublishGroupOfferResponse sha256 m = Ret (OkR v)
  | KGatewayAdminForceRefreshRequest => exists v, DecodeGatewayAdminForceRefreshRequest sha256 m = Ret (OkR v)
  | KGatewayAdminForceRefreshResponse => exists v, DecodeGatewayAdminForceRefreshResponse sha256 m = Ret (OkR v)
  | KGatewayAdminGetReputationRequest => exists v, DecodeGatewayAdminGetReputationRequest sha256 m = Ret (OkR v)
  | KGatewayAdminGetReputationResponse => exists v, DecodeGatewayAdminGetReputationResponse sha256 m = Ret (OkR v)
  | KGatewayAdminInitialiseKeyRequest => exists v, DecodeGatewayAdminInitialiseKeyRequest sha256 m = Ret (OkR v)
  | KGatewayAdminInitialiseKeyRequestV2 => exists v, DecodeGatewayAdminInitialiseKeyRequestV2 sha256 m = Ret (OkR v)
  | KGatewayAdminInitialiseKeyResponse => exists v, DecodeGatewayAdminInitialiseKeyResponse sha256 m = Ret (OkR v)
  | KGatewayAdminListDHTOfferRequest => exists v, DecodeGatewayAdminListDHTOfferRequest sha256 m = Ret (OkR v)
  | KGatewayAdminListDHTOfferResponse => exists v, DecodeGatewayAdminListDHTOfferResponse sha256 m = Ret (OkR v)
  | KGatewayAdminSetReputationRequest => exists v, DecodeGatewayAdminSetReputationRequest sha256 m = Ret (OkR v)
  | KGatewayAdminSetReputationResponse => exists v, DecodeGatewayAdminSetReputationResponse sha256 m = Ret (OkR v)
  | KUpdateGatewayGroupCIDOfferSupportRequest => exists v, DecodeUpdateGatewayGroupCIDOfferSupportRequest sha256 m = Ret (OkR v)
  | KUpdateGatewayGroupCIDOfferSupportResponse => exists v, DecodeUpdateGatewayGroupCIDOfferSupportResponse sha256 m = Ret (OkR v)
  | KProviderAdminForceRefreshRequest => exists v, DecodeProviderAdminForceRefreshRequest sha256 m = Ret (OkR v)
  | KProviderAdminForceRefreshResponse => exists v, DecodeProviderAdminForceRefreshResponse sha256 m = Ret (OkR v)
  | KProviderAdminGetPublishedOfferRequest => exists v, DecodeProviderAdminGetPublishedOfferRequest sha256 m = Ret (OkR v)
  | KProviderAdminGetPublishedOfferResponse => exists v, DecodeProviderAdminGetPublishedOfferResponse sha256 m = Ret (OkR v)
  | KProviderAdminInitialiseKeyRequest => exists v, DecodeProviderAdminInitialiseKeyRequest sha256 m = Ret (OkR v)
  | KProviderAdminInitialiseKeyRequestV2 => exists v, DecodeProviderAdminInitialiseKeyRequestV2 sha256 m = Ret (OkR v)
  | KProviderAdminInitialiseKeyResponse => exists v, DecodeProviderAdminInitialiseKeyResponse sha256 m = Ret (OkR v)
  | KProviderAdminPublishDHTOfferRequest => exists v, DecodeProviderAdminPublishDHTOfferRequest sha256 m = Ret (OkR v)
  | KProviderAdminPublishDHTOfferResponse => exists v, DecodeProviderAdminPublishDHTOfferResponse sha256 m = Ret (OkR v)
  | KProviderAdminPublishGroupOfferRequest => exists v, DecodeProviderAdminPublishGroupOfferRequest sha256 m = Ret (OkR v)
  | KProviderAdminPublishGroupOfferResponse => exists v, DecodeProviderAdminPublishGroupOfferResponse sha256 m = Ret (OkR v)
  | KInvalidMessageResponse => exists v, DecodeInvalidMessageResponse sha256 m = Ret (OkR v)
  | KProtocolChangeRequest => exists v, DecodeProtocolChangeRequest sha256 m = Ret (OkR v)
  | KProtocolChangeResponse => exists v, DecodeProtocolChangeResponse sha256 m = Ret (OkR v)
  end.
