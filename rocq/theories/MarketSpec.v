(** * Offers on their way from a provider to clients

    The gateways' interface for providers as one function, and what it means that an offer
    which is published can reach the gateways and be believed by a client. *)
From Coq Require Import String List ZArith Bool.
From Coq Require Import Init.Byte.
From Verif Require Import Base Ids Crypto Message Offer Schema Messages MessagesSpec WireSpec Payment RingSpec Register OfferStoreSpec SqlOffers SqlOffersSpec Rest Routes
  Gateway GatewaySpec GatewayOfferSpec Client ClientSpec Provider RetrievalSpec DhtSpec.
Import ListNotations.
Open Scope Z_scope.

Section spec.
  Variable version : Z.
  Variable supported : list Z.
  Variable sha256 sha512_256 : bytes -> bytes.
  Variable pub_of : bytes -> bytes.
  Variable ec_sign : bytes -> bytes -> option bytes.
  Variable ec_verify : bytes -> bytes -> bytes -> bool.
  Variable blake : bytes -> bytes.
  Variables BindAdminAPI BindRestAPI BindGatewayAPI BindProviderAPI : gostring.

  (** The interface of a gateway for providers. *)
  Definition supplier_api (e : env) (g : gateway) (m : message) : outcome (gateway * Gateway.reply) :=
    match routed BindAdminAPI BindRestAPI BindGatewayAPI BindProviderAPI AtGateway ByProvider (m_type m) with
    | Some KProviderPublishGroupOfferRequest => HandlePublishGroup version supported sha256 sha512_256 pub_of ec_sign ec_verify blake e g m
    | Some KProviderPublishDHTOfferRequest => HandlePublishDHT version supported sha256 sha512_256 pub_of ec_sign ec_verify blake e g m
    | _ => Ret (g, Invalid)
    end.

  (** The register manager of a gateway has the provider [id] with the public half of [k]. *)
  Definition has_provider (m : manager info) (id : bytes) (k : keypair) : Prop :=
    start info m = true /\ providerDiscv info m = true /\
    exists i pk, aget bytes_eqb (providersMap info m) (ToString id) = Some i /\ DecodePublicKey (n_key i) = Ret (OkR pk) /\ matches pub_of pk k.
  (** So has the client's, in a registration that is complete. *)
  Definition client_has_provider (c : client) (id : bytes) (k : keypair) : Prop :=
    start reg (c_reg c) = true /\ providerDiscv reg (c_reg c) = true /\
    exists p pk, aget bytes_eqb (providersMap reg (c_reg c)) (ToString id) = Some p /\ complete_provider p /\
      DecodePublicKey (Client.r_key p) = Ret (OkR pk) /\ matches pub_of pk k.

  (** What the provider [pid] with the key [k] sends to the gateway [id] reaches it in the state [g]; the gateway
      has an identity, knows the provider, and its database works and has seen the attempts [hist]. *)
  Definition outlet (pe : penv) (pid : bytes) (k : keypair) (id : bytes) (e : env) (g : gateway) (hist : attempts) : Prop :=
    (forall n, pe_conn pe n id = true) /\ (forall n m, pe_net pe n id m = heard (supplier_api e g m)) /\
    ready ec_sign blake g /\ has_provider (g_reg g) pid k /\ (forall n i, e_fates e n i = Done) /\
    stocked sha256 sha512_256 g hist /\ all_undisturbed hist /\ sized hist.

  (** No offer seen has the digest of [o]. *)
  Definition new_in (hist : attempts) (o : offer) : Prop :=
    forall o' f, In (o', f) hist -> GetMessageDigest sha512_256 o' <> GetMessageDigest sha512_256 o.
End spec.

(** Identity, key, money and register manager of a gateway are as before. *)
Definition taken_up (g g' : gateway) : Prop :=
  g_id g' = g_id g /\ g_key g' = g_key g /\ g_ver g' = g_ver g /\ g_pay g' = g_pay g /\ g_reg g' = g_reg g.
