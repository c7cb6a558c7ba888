(** * The gateway's requests to providers and the administrator's requests

    Models gateway/internal/api/adminapi (initialise_key_handler.go,
    initialise_key_handler_v2.go, force_refresh_handler.go, list_dht_offer_handler.go,
    set_group_cid_support.go), gateway/internal/api/gatewayapi
    (list_dht_offer_requester.go, set_group_cid_support.go) and the choice of a requester
    in common/pkg/fcrp2pserver/server.go.  The handlers of the reputation are in
    [Reputation].  Definitions only. *)
From Coq Require Import String List ZArith Bool.
From Coq Require Import Init.Byte.
From Verif Require Import Base Ids Crypto Message Offer Merkle Schema Messages Payment Register SqlOffers Rest Gateway.
Import ListNotations.
Open Scope Z_scope.
Open Scope go_scope.

(** gateway/internal/core/core.go L108-123, L134-137. *)
Definition mockProof : proof := Proof [repeat x00 31 ++ [x01]] [1].
Definition todo : gostring := gs "TODO".

(** Assignments of identifier, key and payment manager,
    gateway/internal/api/adminapi/initialise_key_handler_v2.go L43-46. *)
Definition with_key (g : gateway) (id : option bytes) (k : option keypair) (v : Z) : gateway :=
  Gateway id k v (g_search g) (g_offer g) (g_topup g) (g_pay g) (g_db g) (g_reg g).
Definition with_mgr (g : gateway) (m : option mgr) : gateway :=
  Gateway (g_id g) (g_key g) (g_ver g) (g_search g) (g_offer g) (g_topup g) m (g_db g) (g_reg g).

(** The arguments given to a requester, with their dynamic types. *)
Inductive arg := ArgCID (c : option bytes) | ArgNode (n : option bytes) | ArgBool (b : bool).

(** What a request to a provider leaves behind: the gateway and what was sent. *)
Record asked := Asked { k_after : gateway; k_sent : list message }.

Section admin.
  Variable version : Z.
  Variable supported : list Z.
  Variable sha256 : bytes -> bytes.
  Variable sha512_256 : bytes -> bytes.
  Variable pub_of : bytes -> bytes.
  Variable ec_sign : bytes -> bytes -> option bytes.
  Variable ec_verify : bytes -> bytes -> bytes -> bool.
  Variable blake : bytes -> bytes.

  (** ** Listing the offers of a provider *)

  (** gatewayapi/list_dht_offer_requester.go L109-120: offers that do not verify or cannot be stored are skipped.
      [None]: the process stopped.  [n] numbers the offers stored. *)
  Fixpoint take_offers (e : env) (n : nat) (g : gateway) (k : keypair) (offers : list offer) : outcome (option nat * gateway) :=
    match offers with
    | [] => Ret (Some n, g)
    | o :: t =>
        let* good := OfferVerify pub_of ec_verify blake o k in
        if negb good then take_offers e n g k t
        else
          let* y := CoreAddOffer sha512_256 e n g o in
          match fst y with
          | None => Ret (None, snd y)
          | Some _ => take_offers e (S n) (snd y) k t
          end
    end.

  (** gatewayapi/list_dht_offer_requester.go L97-132: messages that do not verify or decode are skipped, the others
      signed.  [None]: an error ends the requester. *)
  Fixpoint take_messages (e : env) (n : nat) (g : gateway) (k : keypair) (msgs : list message)
      : outcome (option (list message) * gateway) :=
    match msgs with
    | [] => Ret (Some [], g)
    | m :: t =>
        let v := MessageVerify pub_of ec_verify blake m k in
        if negb (fst v) then take_messages e n g k t
        else
          let* d := DecodeProviderPublishDHTOfferRequest sha256 (snd v) in
          match d with
          | ErrR => take_messages e n g k t
          | OkR (_, nonce, cidOffers) =>
              let* x := take_offers e n g k (elems cidOffers) in
              match fst x with
              | None => Ret (None, snd x)
              | Some n =>
                  let g := snd x in
                  let* key := deref (g_key g) in
                  match SignMessage ec_sign blake key (g_ver g) (slice (m_body (snd v))) with
                  | ErrR => Ret (None, g)
                  | OkR sig =>
                      let* a := EncodeProviderPublishDHTOfferResponse version supported nonce sig in
                      let* r := take_messages e n g k t in
                      Ret (match fst r with None => None | Some acks => Some (a :: acks) end, snd r)
                  end
              end
          end
    end.

  (** gatewayapi/list_dht_offer_requester.go L31-146 [RequestListCIDOffer].  [answer] is what the provider answers to the
      request; the acknowledgement is sent on the same connection. *)
  Definition RequestListCIDOffer (e : env) (answer : message -> option message) (g : gateway) (args : list arg) : outcome asked :=
    match args with
    | [ArgCID cidMin; ArgCID cidMax; ArgNode providerID] =>
        let* request := EncodeGatewayListDHTOfferRequest version supported (g_id g) cidMin cidMax todo todo todo (Some mockProof) in
        let* s := SignWith ec_sign blake (g_key g) (g_ver g) request in
        if negb (fst s) then Ret (Asked g [])
        else
          let request := snd s in
          match answer request with
          | None => Ret (Asked g [request])
          | Some response =>
              let* x := CoreGetProvider g providerID in
              let (i, g) := x in
              match i with
              | None => Ret (Asked g [request])
              | Some i =>
                  let* pubKey := GetSigningKey i in
                  match pubKey with
                  | ErrR => Ret (Asked g [request])
                  | OkR pubKey =>
                      let v := MessageVerify pub_of ec_verify blake response pubKey in
                      if negb (fst v) then Ret (Asked g [request])
                      else
                        let* d := DecodeGatewayListDHTOfferResponse sha256 (snd v) in
                        match d with
                        | ErrR => Ret (Asked g [request])
                        | OkR msgs =>
                            let* y := take_messages e 0 g pubKey (elems msgs) in
                            let g := snd y in
                            match fst y with
                            | None => Ret (Asked g [request])
                            | Some acks =>
                                let* ack := EncodeGatewayListDHTOfferAck version supported (Some acks) in
                                let* s := SignWith ec_sign blake (g_key g) (g_ver g) ack in
                                Ret (Asked g (if fst s then [request; snd s] else [request]))
                            end
                        end
                  end
              end
          end
    | _ => Ret (Asked g [])
    end.

  (** gatewayapi/set_group_cid_support.go L27-70 [NotifyProviderGroupCIDOfferSupported]; its result is only logged. *)
  Definition NotifyProviderGroupCIDOfferSupported (answer : message -> option message) (g : gateway) (args : list arg) : outcome asked :=
    match args with
    | [ArgBool groupCIDOfferSupported] =>
        let* request := EncodeGatewayNotifyProviderGroupCIDOfferSupportRequest version supported (g_id g) groupCIDOfferSupported in
        let* s := SignWith ec_sign blake (g_key g) (g_ver g) request in
        if negb (fst s) then Ret (Asked g [])
        else
          let* _ := (match answer (snd s) with
                     | None => Ret (OkR false)
                     | Some response => DecodeGatewayNotifyProviderGroupCIDOfferSupportResponse sha256 response
                     end) in
          Ret (Asked g [snd s])
    | _ => Ret (Asked g [])
    end.

  (** common/pkg/fcrp2pserver/server.go L220-245 [RequestProvider] with the requesters of gateway/cmd/gateway/main.go
      L102-106 that talk to providers. *)
  Definition RequestProvider (e : env) (n : nat) (g : gateway) (id : bytes) (msgType : Z) (args : list arg) : outcome asked :=
    let answer := e_net e n id in
    if msgType =? GatewayListDHTOfferRequestType then
      if negb (e_conn e n id) then Ret (Asked g []) else RequestListCIDOffer e answer g args
    else if msgType =? GatewayNotifyProviderGroupCIDOfferSupportedRequestType then
      if negb (e_conn e n id) then Ret (Asked g []) else NotifyProviderGroupCIDOfferSupported answer g args
    else Ret (Asked g []).

  (** ** Requests of the administrator *)

  (** adminapi/list_dht_offer_handler.go L64-75, set_group_cid_support.go L70-79: identifiers that do not parse are
      skipped. *)
  Definition ids_of (infos : list info) : list bytes :=
    flat_map (fun i => match NewNodeIDFromHexString (n_id i) with OkR id => [id] | ErrR => [] end) infos.

  (** A request to a provider started in its own goroutine. *)
  Definition started := (bytes * Z * list arg)%type.

  (** adminapi/list_dht_offer_handler.go L31-104 [HandleGatewayAdminListDHTOffersRequest]: what is answered, and the
      requests started.  The goroutine that starts them is run at once; [order] is the map iteration order. *)
  Definition HandleAdminListDHT (order : list (gostring * info) -> list (gostring * info)) (g : gateway) (request : message)
      : outcome (served * list started) :=
    match g_key g with
    | None => let* s := quit g 400 in Ret (s, [])
    | Some _ =>
        let* d := DecodeGatewayAdminListDHTOfferRequest sha256 request in
        match d with
        | ErrR => let* s := quit g 400 in Ret (s, [])
        | OkR refresh =>
            let* x :=
              (if refresh : bool then
                 let* range := GetGatewayCIDRange info (g_reg g) (g_id g) in
                 let g := with_reg g (snd range) in
                 match fst range with
                 | ErrR => Ret (g, [])
                 | OkR (cidMin, cidMax) =>
                     let* pvds := GetAllProviders info order (g_reg g) in
                     Ret (with_reg g (snd pvds),
                          map (fun id => (id, GatewayListDHTOfferRequestType, [ArgCID (Some cidMin); ArgCID (Some cidMax); ArgNode (Some id)]))
                            (ids_of (match fst pvds with Some l => l | None => [] end)))
                 end
               else Ret (g, [])) in
            let* response := EncodeGatewayAdminListDHTOfferResponse version supported refresh in
            let* s := finish_rest ec_sign blake (fst x) response [] [] in
            Ret (s, snd x)
        end
    end.

  (** adminapi/set_group_cid_support.go L32-87 [HandleGatewayAdminUpdateGatewayGroupCIDOfferSupportRequest],
      [notifyProvidersOnSupportedGroupCIDOffer]: what is answered, the value of GroupCIDOfferSupportedForProviders if
      assigned, and the requests started. *)
  Definition HandleAdminSupport (order : list (gostring * info) -> list (gostring * info)) (g : gateway) (request : message)
      : outcome (served * option (list bytes) * list started) :=
    let* d := DecodeUpdateGatewayGroupCIDOfferSupportRequest sha256 request in
    match d with
    | ErrR => let* s := quit g 400 in Ret (s, None, [])
    | OkR (_, providerIDs) =>
        let* response := EncodeGatewayAdminInitialiseKeyResponse version supported true in
        let* a := SignAndWrite ec_sign blake (g_key g) (g_ver g) 500 response in
        match a with
        | HttpError _ => Ret (Served g [a] [], Some providerIDs, [])
        | Json _ =>
            let* pvds := GetAllProviders info order (g_reg g) in
            Ret (Served (with_reg g (snd pvds)) [a] [], Some providerIDs,
                 map (fun id => (id, GatewayListDHTOfferRequestType, [ArgNode (g_id g); ArgBool true]))
                   (ids_of (match fst pvds with Some l => l | None => [] end)))
        end
    end.

  (** adminapi/initialise_key_handler.go L29-66 [HandleGatewayAdminInitialiseKeyRequest]. *)
  Definition HandleAdminInitialiseKey (g : gateway) (request : message) : outcome served :=
    let* d := DecodeGatewayAdminInitialiseKeyRequest sha256 request in
    match d with
    | ErrR => quit g 400
    | OkR (nodeID, privKey, privKeyVer) =>
        let* ver := deref privKeyVer in
        let g := with_key g nodeID privKey ver in
        let* response := EncodeGatewayAdminInitialiseKeyResponse version supported true in
        finish_rest ec_sign blake g response [] []
    end.

  (** adminapi/initialise_key_handler_v2.go L30-74 [HandleGatewayAdminInitialiseKeyRequestV2]; [wallet] is the address
      of a wallet key if it has one, common/pkg/fcrpaymentmgr/payment_manager.go L89-114. *)
  Definition HandleAdminInitialiseKeyV2 (wallet : gostring -> option gostring) (g : gateway) (request : message) : outcome served :=
    let* d := DecodeGatewayAdminInitialiseKeyRequestV2 sha256 request in
    match d with
    | ErrR => quit g 400
    | OkR (nodeID, privKey, privKeyVer, walletPrivKey, _, _) =>
        let* ver := deref privKeyVer in
        let g := with_key g nodeID privKey ver in
        match wallet walletPrivKey with
        | None => quit (with_mgr g None) 400
        | Some addr =>
            let g := with_mgr g (Some (NewMgr addr)) in
            let* response := EncodeGatewayAdminInitialiseKeyResponse version supported true in
            finish_rest ec_sign blake g response [] []
        end
    end.

  (** adminapi/force_refresh_handler.go L35-79 [HandleGatewayAdminForceRefreshRequest]. *)
  Definition HandleAdminForceRefresh (e : env) (g : gateway) (request : message) : outcome served :=
    match g_key g with
    | None => quit g 400
    | Some _ =>
        let* d := DecodeGatewayAdminForceRefreshRequest sha256 request in
        match d with
        | ErrR => quit g 400
        | OkR refresh =>
            let* r := (if refresh : bool then Refresh info (g_reg g) (e_gateways e 0) (e_providers e 0) else Ret (g_reg g)) in
            let g := with_reg g r in
            let* response := EncodeGatewayAdminForceRefreshResponse version supported refresh in
            finish_rest ec_sign blake g response [] []
        end
    end.
End admin.
