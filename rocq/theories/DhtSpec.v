(** * A client, a gateway and the gateways it asks

    The gateways' interface for gateways as one function, and what it means that
    programs know and reach each other. *)
From Coq Require Import String List ZArith Bool.
From Coq Require Import Init.Byte.
From Verif Require Import Base Ids Crypto Message Offer Schema Messages MessagesSpec WireSpec Payment RingSpec Register OfferStoreSpec SqlOffers SqlOffersSpec Rest Routes
  Gateway GatewaySpec GatewayOfferSpec Client ClientSpec RetrievalSpec.
From Verif Require AdminSpec.
Import ListNotations.
Open Scope Z_scope.

(** What a gateway gets over a network that carries messages as they are. *)
Definition heard {A} (o : outcome (A * Gateway.reply)) : option message :=
  match o with Ret (_, Reply r) => Some r | _ => None end.

Section spec.
  Variable version : Z.
  Variable supported : list Z.
  Variable sha256 sha512_256 : bytes -> bytes.
  Variable pub_of : bytes -> bytes.
  Variable ec_sign : bytes -> bytes -> option bytes.
  Variable ec_verify : bytes -> bytes -> bytes -> bool.
  Variable blake : bytes -> bytes.
  Variable verify : gostring -> voucher -> option bytes -> bool.
  Variable voucher_of : gostring -> option voucher.
  Variable is_address : gostring -> bool.
  Variable zone : Z.
  Variables BindAdminAPI BindRestAPI BindGatewayAPI BindProviderAPI : gostring.

  (** The interface of a gateway for gateways. *)
  Definition peer_api (e : env) (g : gateway) (m : message) : outcome (gateway * Gateway.reply) :=
    match routed BindAdminAPI BindRestAPI BindGatewayAPI BindProviderAPI AtGateway ByGateway (m_type m) with
    | Some KGatewayDHTDiscoverRequest => HandleGatewayDiscover version supported sha256 pub_of ec_sign ec_verify blake zone e g m
    | Some KGatewayDHTDiscoverRequestV2 =>
        HandleGatewayDiscoverV2 version supported sha256 sha512_256 pub_of ec_sign ec_verify blake verify voucher_of is_address zone e g m
    | Some KGatewayDHTDiscoverOfferRequest =>
        HandleGatewayOffer version supported sha256 ec_sign blake verify voucher_of is_address zone e g m
    | _ => Ret (g, Invalid)
    end.

  (** The register manager has the gateway [id] with the public half of [k]. *)
  Definition lists (m : manager info) (id : bytes) (k : keypair) : Prop :=
    start info m = true /\ gatewayDiscv info m = true /\
    exists i pk, aget bytes_eqb (gatewaysMap info m) (ToString id) = Some i /\ DecodePublicKey (n_key i) = Ret (OkR pk) /\ matches pub_of pk k.
  (** So does the client's, in a registration that is complete. *)
  Definition client_lists (c : client) (id : bytes) (k : keypair) : Prop :=
    start reg (c_reg c) = true /\ gatewayDiscv reg (c_reg c) = true /\
    exists gw, aget bytes_eqb (gatewaysMap reg (c_reg c)) (ToString id) = Some gw /\ validateGatewayInfo gw = Ret true /\ AdminSpec.registered_with pub_of gw k.

  (** A gateway when it is asked: its surroundings, its state, the attempts to store offers it has seen, its key. *)
  Record contact := Contact { at_env : env; at_state : gateway; at_hist : attempts; at_key : keypair }.

  (** The gateway [p] with the key [k] can be asked by the gateway [g] under [id]: they know each other, requests reach it in time. *)
  Definition linked (e : env) (g : gateway) (id : bytes) (ep : env) (p : gateway) (k : keypair) : Prop :=
    (forall n, e_conn e n id = true) /\ (forall n m, e_net e n id m = heard (peer_api ep p m)) /\ unix ep <= unix e + 10 /\
    g_key p = Some k /\ can_sign ec_sign blake k /\ lists (g_reg g) id k /\
    (exists i ki, g_id g = Some i /\ g_key g = Some ki /\ lists (g_reg p) i ki) /\ shuffle (e_rows ep).
  Definition peer (e : env) (g : gateway) (id : bytes) (x : contact) : Prop :=
    linked e g id (at_env x) (at_state x) (at_key x) /\
    stocked sha256 sha512_256 (at_state x) (at_hist x) /\ all_undisturbed (at_hist x) /\ sized (at_hist x).
  (** The gateway is not reached or does not answer. *)
  Definition silent (e : env) (id : bytes) : Prop := forall n, e_conn e n id = false \/ forall m, e_net e n id m = None.

  (** Registrations are kept under the identifiers they have. *)
  Definition self_named (m : manager info) : Prop := forall id i, aget bytes_eqb (gatewaysMap info m) id = Some i -> n_id i = id.

  (** [v] is among the [n] members nearest to the point. *)
  Definition near_one (members : list gostring) (p : gostring) (n : Z) (v : gostring) : Prop := exists l, closest_ok members p n l /\ In v l.
End spec.
