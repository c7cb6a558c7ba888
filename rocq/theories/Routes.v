(** * Which handler serves which message type

    Models the registrations of gateway/cmd/gateway/main.go and
    provider/cmd/provider/main.go.  A handler is named by the message kind it decodes
    first.  Definitions only. *)
From Coq Require Import List ZArith Bool.
From Coq Require Import Init.Byte.
From Verif Require Import Base Messages MessagesSpec Server FrameSpec.
Import ListNotations.
Open Scope Z_scope.

Section addresses.
  (** The bind settings. *)
  Variables BindAdminAPI BindRestAPI BindGatewayAPI BindProviderAPI : gostring.

  (** gateway/cmd/gateway/main.go L65-81. *)
  Definition gateway_rest : registrations kind :=
    [(BindRestAPI, ClientEstablishmentRequestType, KClientEstablishmentRequest);
     (BindRestAPI, ClientDHTDiscoverRequestType, KClientDHTDiscoverRequest);
     (BindRestAPI, ClientDHTDiscoverOfferRequestType, KClientDHTDiscoverOfferRequest);
     (BindRestAPI, ClientDHTDiscoverRequestV2Type, KClientDHTDiscoverRequestV2);
     (BindRestAPI, ClientStandardDiscoverOfferRequestType, KClientStandardDiscoverOfferRequest);
     (BindRestAPI, ClientStandardDiscoverRequestType, KClientStandardDiscoverRequest);
     (BindRestAPI, ClientStandardDiscoverRequestV2Type, KClientStandardDiscoverRequestV2);
     (BindAdminAPI, GatewayAdminInitialiseKeyRequestType, KGatewayAdminInitialiseKeyRequest);
     (BindAdminAPI, GatewayAdminInitialiseKeyRequestV2Type, KGatewayAdminInitialiseKeyRequestV2);
     (BindAdminAPI, GatewayAdminGetReputationRequestType, KGatewayAdminGetReputationRequest);
     (BindAdminAPI, GatewayAdminSetReputationRequestType, KGatewayAdminSetReputationRequest);
     (BindAdminAPI, GatewayAdminForceRefreshRequestType, KGatewayAdminForceRefreshRequest);
     (BindAdminAPI, GatewayAdminListDHTOfferRequestType, KGatewayAdminListDHTOfferRequest);
     (BindAdminAPI, GatewayAdminUpdateGatewayGroupCIDOfferSupportRequestType, KUpdateGatewayGroupCIDOfferSupportRequest)].

  (** gateway/cmd/gateway/main.go L97-109. *)
  Definition gateway_p2p : registrations kind :=
    [(BindGatewayAPI, GatewayDHTDiscoverRequestType, KGatewayDHTDiscoverRequest);
     (BindGatewayAPI, GatewayDHTDiscoverRequestV2Type, KGatewayDHTDiscoverRequestV2);
     (BindGatewayAPI, GatewayDHTDiscoverOfferRequestType, KGatewayDHTDiscoverOfferRequest);
     (BindProviderAPI, ProviderPublishGroupOfferRequestType, KProviderPublishGroupOfferRequest);
     (BindProviderAPI, ProviderPublishDHTOfferRequestType, KProviderPublishDHTOfferRequest)].

  (** provider/cmd/provider/main.go L66-75. *)
  Definition provider_rest : registrations kind :=
    [(BindRestAPI, ClientDHTOfferAckRequestType, KClientDHTOfferAckRequest);
     (BindAdminAPI, ProviderAdminInitialiseKeyRequestType, KProviderAdminInitialiseKeyRequest);
     (BindAdminAPI, ProviderAdminInitialiseKeyRequestV2Type, KProviderAdminInitialiseKeyRequestV2);
     (BindAdminAPI, ProviderAdminGetPublishedOfferRequestType, KProviderAdminGetPublishedOfferRequest);
     (BindAdminAPI, ProviderAdminPublishDHTOfferRequestType, KProviderAdminPublishDHTOfferRequest);
     (BindAdminAPI, ProviderAdminPublishGroupOfferRequestType, KProviderAdminPublishGroupOfferRequest);
     (BindAdminAPI, ProviderAdminForceRefreshRequestType, KProviderAdminForceRefreshRequest)].

  (** provider/cmd/provider/main.go L91-94. *)
  Definition provider_p2p : registrations kind :=
    [(BindGatewayAPI, GatewayListDHTOfferRequestType, KGatewayListDHTOfferRequest);
     (BindGatewayAPI, GatewayNotifyProviderGroupCIDOfferSupportedRequestType, KGatewayNotifyProviderGroupCIDOfferSupportRequest)].

  (** gateway/cmd/gateway/main.go L61-62, L91-94; provider/cmd/provider/main.go L63-64, L85-88. *)
  Definition gateway_rest_server : server kind := running [BindAdminAPI; BindRestAPI] gateway_rest.
  Definition gateway_p2p_server : server kind := running [BindGatewayAPI; BindProviderAPI] gateway_p2p.
  Definition provider_rest_server : server kind := running [BindAdminAPI; BindRestAPI] provider_rest.
  Definition provider_p2p_server : server kind := running [BindGatewayAPI] provider_p2p.
End addresses.

(** Which peers may send a request, by its name. *)
Inductive sender := ByClient | ByGateway | ByProvider | ByAdmin.
Inductive node := AtGateway | AtProvider.

(** Requests and who sends them to whom. *)
Definition request (k : kind) : option (node * sender) :=
  match k with
  | KClientEstablishmentRequest | KClientDHTDiscoverRequest | KClientDHTDiscoverOfferRequest | KClientDHTDiscoverRequestV2
  | KClientStandardDiscoverOfferRequest | KClientStandardDiscoverRequest | KClientStandardDiscoverRequestV2 =>
      Some (AtGateway, ByClient)
  | KClientDHTOfferAckRequest => Some (AtProvider, ByClient)
  | KGatewayAdminInitialiseKeyRequest | KGatewayAdminInitialiseKeyRequestV2 | KGatewayAdminGetReputationRequest
  | KGatewayAdminSetReputationRequest | KGatewayAdminForceRefreshRequest | KGatewayAdminListDHTOfferRequest
  | KUpdateGatewayGroupCIDOfferSupportRequest => Some (AtGateway, ByAdmin)
  | KProviderAdminInitialiseKeyRequest | KProviderAdminInitialiseKeyRequestV2 | KProviderAdminGetPublishedOfferRequest
  | KProviderAdminPublishDHTOfferRequest | KProviderAdminPublishGroupOfferRequest | KProviderAdminForceRefreshRequest =>
      Some (AtProvider, ByAdmin)
  | KGatewayDHTDiscoverRequest | KGatewayDHTDiscoverRequestV2 | KGatewayDHTDiscoverOfferRequest => Some (AtGateway, ByGateway)
  | KProviderPublishGroupOfferRequest | KProviderPublishDHTOfferRequest => Some (AtGateway, ByProvider)
  | KGatewayListDHTOfferRequest | KGatewayNotifyProviderGroupCIDOfferSupportRequest => Some (AtProvider, ByGateway)
  | _ => None
  end.

Definition same_node (a b : node) : bool := match a, b with AtGateway, AtGateway | AtProvider, AtProvider => true | _, _ => false end.
Definition same_sender (a b : sender) : bool :=
  match a, b with ByClient, ByClient | ByGateway, ByGateway | ByProvider, ByProvider | ByAdmin, ByAdmin => true | _, _ => false end.

(** What an interface of a node does with a message of type [t]; a provider has no
    interface for providers. *)
Definition routed (admin client gateway provider : gostring) (n : node) (w : sender) (t : Z) : option kind :=
  match n, w with
  | AtGateway, ByAdmin => handler_of (gateway_rest_server admin client) admin t
  | AtGateway, ByClient => handler_of (gateway_rest_server admin client) client t
  | AtGateway, ByGateway => handler_of (gateway_p2p_server gateway provider) gateway t
  | AtGateway, ByProvider => handler_of (gateway_p2p_server gateway provider) provider t
  | AtProvider, ByAdmin => handler_of (provider_rest_server admin client) admin t
  | AtProvider, ByClient => handler_of (provider_rest_server admin client) client t
  | AtProvider, ByGateway => handler_of (provider_p2p_server gateway) gateway t
  | AtProvider, ByProvider => None
  end.
