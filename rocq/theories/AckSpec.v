(** * A client, a provider and the acknowledgements it keeps

    The providers' interface for clients as one function, and what it means that a gateway
    acknowledged the publication of an offer. *)
From Coq Require Import String List ZArith Bool.
From Coq Require Import Init.Byte.
From Verif Require Import Base Ids Crypto Message Offer Schema Messages MessagesSpec WireSpec Register Provider ProviderSpec Rest Routes Gateway GatewaySpec Client ClientSpec.
From Verif Require AdminSpec.
Import ListNotations.
Open Scope Z_scope.

Section spec.
  Variable version : Z.
  Variable supported : list Z.
  Variable sha256 : bytes -> bytes.
  Variable pub_of : bytes -> bytes.
  Variable ec_sign : bytes -> bytes -> option bytes.
  Variable ec_verify : bytes -> bytes -> bytes -> bool.
  Variable blake : bytes -> bytes.
  Variables BindAdminAPI BindRestAPI BindGatewayAPI BindProviderAPI : gostring.

  (** The handlers of a provider for clients by the kind of request: the provider afterwards and what was written. *)
  Definition counter_handler (k : kind) (p : provider) (m : message) : outcome (provider * list Rest.answer) :=
    (match k with
     | KClientDHTOfferAckRequest => let* s := HandleOfferAck version supported sha256 ec_sign blake p m in Ret (p_after s, p_wrote s)
     | _ => Ret (p, [])
     end)%go.
  (** The interface of a provider for clients. *)
  Definition counter_api (p : provider) (m : message) : outcome (provider * list Rest.answer) :=
    match routed BindAdminAPI BindRestAPI BindGatewayAPI BindProviderAPI AtProvider ByClient (m_type m) with
    | Some k => counter_handler k p m
    | None => Ret (p, [])
    end.

  (** The client has the provider in a complete registration with the public half of [k]. *)
  Definition client_has (c : client) (id : bytes) (r : reg) (k : keypair) : Prop :=
    start reg (c_reg c) = true /\ providerDiscv reg (c_reg c) = true /\
    aget bytes_eqb (providersMap reg (c_reg c)) (ToString id) = Some r /\ complete_provider r /\ AdminSpec.registered_with pub_of r k.
  (** It has the gateway in a complete registration. *)
  Definition client_has_gateway (c : client) (id : bytes) (r : reg) : Prop :=
    start reg (c_reg c) = true /\ gatewayDiscv reg (c_reg c) = true /\
    aget bytes_eqb (gatewaysMap reg (c_reg c)) (ToString id) = Some r /\ complete r.

  (** Whenever the provider sent anything it had the key [k]. *)
  Definition one_key (ss : list pstep) (k : keypair) : Prop :=
    forall s, In s ss -> s_sent s <> [] -> p_key (s_before s) = Some k.
  (** The gateway had the registered key the client knows. *)
  Definition same_key (ss : list pstep) (id : bytes) (r : reg) : Prop :=
    forall s i, In s ss -> known s id i -> n_key i = Client.r_key r.
  (** No gateway listed the provider's offers. *)
  Definition unlisted (ss : list pstep) : Prop := forall s acks, In s ss -> s_kind s <> ListDHT acks.

  (** In step [s] the gateway [id] was asked to publish an offer for [c] alone, and its answer is signed and has
      its signature of the request. *)
  Definition acknowledged (s : pstep) (c id : bytes) (i : info) : Prop :=
    exists request response o, In (id, request, Some response) (s_sent s) /\
      GatewaySpec.signed_by pub_of ec_verify blake i response /\ ProviderSpec.countersigned sha256 pub_of ec_verify blake i request response /\
      carries_dht sha256 request o /\ o_cids o = [c].
End spec.
