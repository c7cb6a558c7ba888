(** * What is expected of the administrators' libraries *)
From Coq Require Import List ZArith Bool.
From Coq Require Import Init.Byte.
From Verif Require Import Base Ids Crypto Message Offer Schema Messages MessagesSpec WireSpec Register SqlOffers Rest Routes Reputation Gateway GatewaySpec GatewayAdmin Provider Admin.
From Verif Require Client.
Import ListNotations.
Open Scope Z_scope.

(** Of a value that may be nil. *)
Definition each_of {A} (P : A -> Prop) (o : option A) : Prop := match o with Some a => P a | None => True end.

(** What an administrator can ask. *)
Inductive call :=
| GInit (node : reg) (k : option keypair) (v : option Z)
| GInitV2 (node : reg) (k : option keypair) (v : option Z) (wallet ap token : gostring)
| GSupport (node : reg) (providers : list bytes)
| GUpdate (id : option bytes)
| GList (id : option bytes)
| GSetReputation (node : reg) (c : option bytes) (v : Z)
| GGetReputation (node : reg) (c : option bytes)
| PInit (node : reg) (k : option keypair) (v : option Z)
| PInitV2 (node : reg) (k : option keypair) (v : option Z) (wallet ap token : gostring)
| PPublishGroup (id : option bytes) (cids : list bytes) (price expiry qos : Z)
| PPublishDHT (id : option bytes) (cids : list bytes) (price expiry qos : option (list Z))
| PGetOffers (id : option bytes) (gateways : list bytes)
| PUpdate (id : option bytes).

(** The node a call is for. *)
Definition target (a : admin) (x : call) : option reg :=
  let known id := match id with Some i => aget bytes_eqb (ad_nodes a) (ToString i) | None => None end in
  match x with
  | GInit node _ _ | GInitV2 node _ _ _ _ _ | GSupport node _ | GSetReputation node _ _ | GGetReputation node _
  | PInit node _ _ | PInitV2 node _ _ _ _ _ => Some node
  | GUpdate id | GList id | PPublishGroup id _ _ _ _ | PPublishDHT id _ _ _ _ | PGetOffers id _ | PUpdate id => known id
  end.
(** The node a call puts into use. *)
Definition puts (x : call) : option reg :=
  match x with
  | GInit node _ _ | GInitV2 node _ _ _ _ _ | GSupport node _ | PInit node _ _ | PInitV2 node _ _ _ _ _ => Some node
  | _ => None
  end.
(** The node in use under the identifier after calls of which the successful are marked: the last one put into use. *)
Definition in_use (before : option reg) (h : list (call * bool)) (id : gostring) : option reg :=
  fold_left (fun cur y => match puts (fst y) with
    | Some node => if snd y && bytes_eqb (Client.r_id node) id then Some node else cur
    | None => cur
    end) h before.
(** Nothing given is nil. *)
Definition given (x : call) : Prop :=
  match x with
  | GInit _ k v | GInitV2 _ k v _ _ _ | PInit _ k v | PInitV2 _ k v _ _ _ => k <> None /\ v <> None
  | GSetReputation _ c _ | GGetReputation _ c => c <> None
  | GUpdate id | GList id | PPublishGroup id _ _ _ _ | PPublishDHT id _ _ _ _ | PGetOffers id _ | PUpdate id => id <> None
  | GSupport _ _ => True
  end.
(** A private key as [GenerateKey] makes them and [DecodePrivateKey] reads them. *)
Definition private (k : keypair) : Prop := k_alg k = x01 /\ exists p, k_priv k = Some p /\ length p = 32%nat.
(** The values have the ranges of their Go types. *)
Definition in_range (x : call) : Prop :=
  match x with
  | GInit _ k v | GInitV2 _ k v _ _ _ | PInit _ k v | PInitV2 _ k v _ _ _ => each_of private k /\ each_of uint32 v
  | GSupport _ ps => Forall id32 ps
  | GSetReputation _ c v => each_of id32 c /\ int64 v
  | GGetReputation _ c => each_of id32 c
  | PPublishGroup _ cids p e q => Forall id32 cids /\ uint64 p /\ int64 e /\ uint64 q
  | PPublishDHT _ cids p e q => Forall id32 cids /\ each uint64 p /\ each int64 e /\ each uint64 q
  | PGetOffers _ gs => Forall id32 gs
  | GUpdate _ | GList _ | PUpdate _ => True
  end.
(** Calls answered with identifiers or offers. *)
Definition hazardous (x : call) : bool := match x with GSetReputation _ _ _ | GGetReputation _ _ | PGetOffers _ _ => true | _ => false end.
(** Both are the same private key, whether or not the public half is known already. *)
Definition same_key (k k' : keypair) : Prop := k_priv k = k_priv k' /\ k_alg k = k_alg k'.
(** Who a node is. *)
Definition is_gateway (id : bytes) (k : keypair) (v : Z) (g : gateway) : Prop := g_id g = Some id /\ g_ver g = v /\ exists k', g_key g = Some k' /\ same_key k k'.
Definition is_provider (id : bytes) (k : keypair) (v : Z) (p : provider) : Prop := p_id p = Some id /\ p_ver p = v /\ exists k', p_key p = Some k' /\ same_key k k'.
(** Everything but who it is. *)
Definition gateway_rest (g : gateway) := (g_search g, g_offer g, g_topup g, g_db g, g_reg g).
Definition provider_rest (p : provider) := (p_reg p, p_heap p, p_offers p, p_published p, p_acks p, p_groups p).

(** A gateway with the rest of its process: reputations and the providers whose group offers it takes. *)
Record gnode := GNode { n_gw : gateway; n_reps : reps; n_groups : list bytes }.

(** What the administrator gets over a network that carries messages as they are: a handler that panics is answered
    with an error by the HTTP server. *)
Definition received {A} (o : outcome (A * list Rest.answer)) : option message :=
  match o with Ret (_, [Json r]) => Some r | _ => None end.

Section spec.
  Variable version : Z.
  Variable supported : list Z.
  Variable sha256 sha512_256 : bytes -> bytes.
  Variable pub_of : bytes -> bytes.
  Variable ec_sign : bytes -> bytes -> option bytes.
  Variable ec_verify : bytes -> bytes -> bytes -> bool.
  Variable blake : bytes -> bytes.

  Section calls.
    Variable http : gostring -> message -> option message.

    (** A call: did it succeed, the library afterwards and what was sent. *)
    Definition use (a : admin) (x : call) : outcome (bool * admin * list post) :=
      let flag (o : outcome (bool * list post)) := let* y := o in Ret (fst y, a, snd y) in
      let value {A} (o : outcome (result A * list post)) := let* y := o in Ret (match fst y with OkR _ => true | ErrR => false end, a, snd y) in
      (match x with
      | GInit node k v => InitialiseGateway version supported sha256 pub_of ec_sign ec_verify blake http a node k v
      | GInitV2 node k v w ap t => InitialiseGatewayV2 version supported sha256 pub_of ec_sign ec_verify blake http a node k v w ap t
      | GSupport node ps => UpdateGatewaySupportedFeatures version supported sha256 pub_of ec_sign ec_verify blake http a node ps
      | GUpdate id => flag (GwForceUpdate version supported sha256 pub_of ec_sign ec_verify blake http a id)
      | GList id => flag (ListDHTOffer version supported sha256 pub_of ec_sign ec_verify blake http a id)
      | GSetReputation node c v => flag (RequestSetReputation version supported sha256 pub_of ec_sign ec_verify blake http node c v (ad_key a) (ad_ver a))
      | GGetReputation node c => value (RequestGetReputation version supported sha256 pub_of ec_sign ec_verify blake http node c (ad_key a) (ad_ver a))
      | PInit node k v => InitialiseProvider version supported sha256 pub_of ec_sign ec_verify blake http a node k v
      | PInitV2 node k v w ap t => InitialiseProviderV2 version supported sha256 pub_of ec_sign ec_verify blake http a node k v w ap t
      | PPublishGroup id cids p e q => flag (PublishGroupCID version supported sha256 pub_of ec_sign ec_verify blake http a id cids p e q)
      | PPublishDHT id cids p e q => flag (PublishDHTCID version supported sha256 pub_of ec_sign ec_verify blake http a id cids p e q)
      | PGetOffers id gws => value (GetGroupCIDOffer version supported sha256 pub_of ec_sign ec_verify blake http a id gws)
      | PUpdate id => flag (PvForceUpdate version supported sha256 pub_of ec_sign ec_verify blake http a id)
      end)%go.
  End calls.

  (** Calls one after another, each with its own network; with each call its success. *)
  Fixpoint session (a : admin) (h : list ((gostring -> message -> option message) * call)) : outcome (admin * list (call * bool)) :=
    (match h with
    | [] => Ret (a, [])
    | (http, x) :: t =>
        let* y := use http a x in
        let* z := session (snd (fst y)) t in
        Ret (fst z, (x, fst (fst y)) :: snd z)
    end)%go.

  (** The administrator has a key and a version and can sign. *)
  Definition authority (a : admin) : Prop := exists k v, ad_key a = Some k /\ ad_ver a = Some v /\ can_sign ec_sign blake k.
  (** The message is signed with the key. *)
  Definition of_key (k : keypair) (m : message) : Prop := forall pk, matches pub_of pk k -> fst (MessageVerify pub_of ec_verify blake m pk) = true.
  (** The message is signed with the registered key. *)
  Definition of_node (node : reg) (m : message) : Prop :=
    exists pk, DecodePublicKey (Client.r_key node) = Ret (OkR pk) /\ fst (MessageVerify pub_of ec_verify blake m pk) = true.
  (** The registration has the public half of the key. *)
  Definition registered_with (node : reg) (k : keypair) : Prop :=
    exists pk, DecodePublicKey (Client.r_key node) = Ret (OkR pk) /\ matches pub_of pk k.
  (** A key a node can be given. *)
  Definition usable (k : keypair) : Prop := private k /\ can_sign ec_sign blake k.

  (** The request says what the call says. *)
  Definition asks (x : call) (m : message) : Prop :=
    let keyed node k (v : option Z) (P : option bytes * option keypair * option Z -> Prop) :=
      exists id kk vv, NewNodeIDFromHexString (r_id node) = OkR id /\ k = Some kk /\ v = Some vv /\
        P (Some id, Some (KeyPair (k_priv kk) None (k_alg kk)), Some vv) in
    match x with
    | GInit node k v => keyed node k v (fun y => DecodeGatewayAdminInitialiseKeyRequest sha256 m = Ret (OkR y))
    | GInitV2 node k v w ap t => keyed node k v (fun y => DecodeGatewayAdminInitialiseKeyRequestV2 sha256 m = Ret (OkR (y, w, ap, t)))
    | PInit node k v => keyed node k v (fun y => DecodeProviderAdminInitialiseKeyRequest sha256 m = Ret (OkR y))
    | PInitV2 node k v w ap t => keyed node k v (fun y => DecodeProviderAdminInitialiseKeyRequestV2 sha256 m = Ret (OkR (y, w, ap, t)))
    | GSupport node ps => exists id, NewNodeIDFromHexString (r_id node) = OkR id /\
        DecodeUpdateGatewayGroupCIDOfferSupportRequest sha256 m = Ret (OkR (Some id, ps))
    | GUpdate _ => DecodeGatewayAdminForceRefreshRequest sha256 m = Ret (OkR true)
    | GList _ => DecodeGatewayAdminListDHTOfferRequest sha256 m = Ret (OkR true)
    | GSetReputation _ c v => DecodeGatewayAdminSetReputationRequest sha256 m = Ret (OkR (c, v))
    | GGetReputation _ c => DecodeGatewayAdminGetReputationRequest sha256 m = Ret (OkR c)
    | PPublishGroup _ cids p e q => DecodeProviderAdminPublishGroupOfferRequest sha256 m = Ret (OkR (cids, p, e, q))
    | PPublishDHT _ cids p e q => DecodeProviderAdminPublishDHTOfferRequest sha256 m = Ret (OkR (cids, p, e, q))
    | PGetOffers _ gws => DecodeProviderAdminGetPublishedOfferRequest sha256 m = Ret (OkR gws)
    | PUpdate _ => DecodeProviderAdminForceRefreshRequest sha256 m = Ret (OkR true)
    end.
  (** The response says that it was done. *)
  Definition confirms (x : call) (r : message) : Prop :=
    match x with
    | GInit _ _ _ | GInitV2 _ _ _ _ _ _ => DecodeGatewayAdminInitialiseKeyResponse sha256 r = Ret (OkR true)
    | PInit _ _ _ | PInitV2 _ _ _ _ _ _ => DecodeProviderAdminInitialiseKeyResponse sha256 r = Ret (OkR true)
    | GSupport _ _ => DecodeUpdateGatewayGroupCIDOfferSupportResponse sha256 r = Ret (OkR true)
    | GUpdate _ => DecodeGatewayAdminForceRefreshResponse sha256 r = Ret (OkR true)
    | GList _ => DecodeGatewayAdminListDHTOfferResponse sha256 r = Ret (OkR true)
    | GSetReputation _ c v => exists c' d, c = Some d /\ ToString c' = ToString d /\ DecodeGatewayAdminSetReputationResponse sha256 r = Ret (OkR (Some c', v, true))
    | GGetReputation _ c => exists c' d v, c = Some d /\ ToString c' = ToString d /\ DecodeGatewayAdminGetReputationResponse sha256 r = Ret (OkR (Some c', v, true))
    | PPublishGroup _ _ _ _ _ => DecodeProviderAdminPublishGroupOfferResponse sha256 r = Ret (OkR true)
    | PPublishDHT _ _ _ _ _ => DecodeProviderAdminPublishDHTOfferResponse sha256 r = Ret (OkR true)
    | PGetOffers _ _ => exists found os, DecodeProviderAdminGetPublishedOfferResponse sha256 r = Ret (OkR (found, os))
    | PUpdate _ => DecodeProviderAdminForceRefreshResponse sha256 r = Ret (OkR true)
    end.

  Section nodes.
    Variables BindAdminAPI BindRestAPI BindGatewayAPI BindProviderAPI : gostring.

    (** The handlers of a gateway for its administrator by the kind of request: [e], [order] and [wallet] are the answers of
        its world. *)
    Definition gateway_handler (e : env) (order : list (gostring * info) -> list (gostring * info)) (wallet : gostring -> option gostring)
        (k : kind) (n : gnode) (m : message) : outcome (gnode * list Rest.answer) :=
      let with_gw g := GNode g (n_reps n) (n_groups n) in
      let g := n_gw n in
      (match k with
      | KGatewayAdminInitialiseKeyRequest =>
          let* s := GatewayAdmin.HandleAdminInitialiseKey version supported sha256 ec_sign blake g m in Ret (with_gw (after s), wrote s)
      | KGatewayAdminInitialiseKeyRequestV2 =>
          let* s := GatewayAdmin.HandleAdminInitialiseKeyV2 version supported sha256 ec_sign blake wallet g m in Ret (with_gw (after s), wrote s)
      | KGatewayAdminGetReputationRequest =>
          let* a := HandleGetReputation version supported sha256 ec_sign blake (g_key g) (g_ver g) (n_reps n) m in Ret (n, [a])
      | KGatewayAdminSetReputationRequest =>
          let* x := HandleSetReputation version supported sha256 ec_sign blake (g_key g) (g_ver g) (n_reps n) m in Ret (GNode g (snd x) (n_groups n), [fst x])
      | KGatewayAdminForceRefreshRequest =>
          let* s := GatewayAdmin.HandleAdminForceRefresh version supported sha256 ec_sign blake e g m in Ret (with_gw (after s), wrote s)
      | KGatewayAdminListDHTOfferRequest =>
          let* x := GatewayAdmin.HandleAdminListDHT version supported sha256 ec_sign blake order g m in Ret (with_gw (after (fst x)), wrote (fst x))
      | KUpdateGatewayGroupCIDOfferSupportRequest =>
          let* x := GatewayAdmin.HandleAdminSupport version supported sha256 ec_sign blake order g m in
          let '(s, ids, _) := x in
          Ret (GNode (after s) (n_reps n) (match ids with Some l => l | None => n_groups n end), wrote s)
      | _ => Ret (n, [])
      end)%go.

    (** The interface of a gateway for its administrator. *)
    Definition gateway_api (e : env) (order : list (gostring * info) -> list (gostring * info)) (wallet : gostring -> option gostring)
        (n : gnode) (m : message) : outcome (gnode * list Rest.answer) :=
      match routed BindAdminAPI BindRestAPI BindGatewayAPI BindProviderAPI AtGateway ByAdmin (m_type m) with
      | Some k => gateway_handler e order wallet k n m
      | None => Ret (n, [])
      end.

    (** The handlers of a provider for its administrator. *)
    Definition provider_handler (e : penv) (k : kind) (p : provider) (m : message) : outcome (provider * list Rest.answer) :=
      let done (o : outcome pserved) := let* s := o in Ret (p_after s, p_wrote s) in
      (match k with
      | KProviderAdminInitialiseKeyRequest => done (Provider.HandleAdminInitialiseKey version supported sha256 ec_sign blake p m)
      | KProviderAdminInitialiseKeyRequestV2 => done (Provider.HandleAdminInitialiseKeyV2 version supported sha256 ec_sign blake e p m)
      | KProviderAdminGetPublishedOfferRequest => done (HandleAdminGetPublished version supported sha256 ec_sign blake e p m)
      | KProviderAdminPublishDHTOfferRequest => done (HandleAdminPublishDHT version supported sha256 sha512_256 pub_of ec_sign ec_verify blake e p m)
      | KProviderAdminPublishGroupOfferRequest => done (HandleAdminPublishGroup version supported sha256 sha512_256 pub_of ec_sign ec_verify blake e p m)
      | KProviderAdminForceRefreshRequest => done (Provider.HandleAdminForceRefresh version supported sha256 ec_sign blake e p m)
      | _ => Ret (p, [])
      end)%go.

    (** The interface of a provider for its administrator. *)
    Definition provider_api (e : penv) (p : provider) (m : message) : outcome (provider * list Rest.answer) :=
      match routed BindAdminAPI BindRestAPI BindGatewayAPI BindProviderAPI AtProvider ByAdmin (m_type m) with
      | Some k => provider_handler e k p m
      | None => Ret (p, [])
      end.
  End nodes.

  (** What is sent to the node's interface for administrators reaches the node. *)
  Definition reaches {A} (http : gostring -> message -> option message) (node : reg) (api : message -> outcome (A * list Rest.answer)) : Prop :=
    forall m, http (r_admin_ap node) m = received (api m).
End spec.
