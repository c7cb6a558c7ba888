(** * The provider's handlers

    Models provider/internal/core/core.go, provider/internal/api/adminapi,
    provider/internal/api/gatewayapi, provider/internal/api/clientapi and
    provider/internal/api/providerapi.  Definitions only.

    One call at a time.  The answers of the world are inputs; the offer store is that of
    [OfferStore], the register manager that of [Register]. *)
From Coq Require Import List ZArith Bool.
From Coq Require Import Init.Byte.
From Verif Require Import Base Ids Crypto Message Offer Ring OfferStore Schema Messages Register Rest Gateway.
Import ListNotations.
Open Scope Z_scope.
Open Scope go_scope.

(** provider/internal/core/core.go L45-48 [DHTAcknowledgement]. *)
Record acknowledgement := Acknowledgement { a_msg : message; a_ack : message }.

(** provider/internal/core/core.go L51-92 [Core].  The offer manager holds pointers into
    [p_heap]; the payment manager is never used and not modelled, nor are the settings. *)
Record provider := Provider {
  p_id : option bytes;
  p_key : option keypair;
  p_ver : Z;
  p_reg : manager info;
  p_heap : list offer;
  p_offers : offer_mgr;
  p_published : list (gostring * list offer);                     (* NodeOfferMap *)
  p_acks : list (gostring * list (gostring * acknowledgement));   (* AcknowledgementMap *)
  p_groups : list bytes                                           (* GroupOfferGatewayIDs *)
}.

(** Assignments to the fields of provider/internal/core/core.go L51-92. *)
Definition p_with_key (p : provider) (id : option bytes) (k : option keypair) (v : Z) : provider :=
  Provider id k v (p_reg p) (p_heap p) (p_offers p) (p_published p) (p_acks p) (p_groups p).
Definition p_with_reg (p : provider) (r : manager info) : provider :=
  Provider (p_id p) (p_key p) (p_ver p) r (p_heap p) (p_offers p) (p_published p) (p_acks p) (p_groups p).
Definition p_with_store (p : provider) (h : list offer) (m : offer_mgr) : provider :=
  Provider (p_id p) (p_key p) (p_ver p) (p_reg p) h m (p_published p) (p_acks p) (p_groups p).
Definition p_with_published (p : provider) (x : list (gostring * list offer)) : provider :=
  Provider (p_id p) (p_key p) (p_ver p) (p_reg p) (p_heap p) (p_offers p) x (p_acks p) (p_groups p).
Definition p_with_acks (p : provider) (x : list (gostring * list (gostring * acknowledgement))) : provider :=
  Provider (p_id p) (p_key p) (p_ver p) (p_reg p) (p_heap p) (p_offers p) (p_published p) x (p_groups p).
Definition p_with_groups (p : provider) (x : list bytes) : provider :=
  Provider (p_id p) (p_key p) (p_ver p) (p_reg p) (p_heap p) (p_offers p) (p_published p) (p_acks p) x.

(** provider/internal/core/core.go L99-125 [GetSingleInstance], and the register manager
    put there by main.go. *)
Definition NewProvider (r : manager info) : provider :=
  Provider None None 0 r [] NewFCROfferMgr [] [] [].

(** The answers of the world during one call.  Numbered answers are for the calls in a
    loop.  The time is in nanoseconds and read once. *)
Record penv := PEnv {
  pe_now : Z;
  pe_digests : digest_map -> digest_map;                                          (* map orders *)
  pe_nodes : list (gostring * info) -> list (gostring * info);
  pe_listed : list (gostring * list offer) -> list (gostring * list offer);
  pe_gateways : nat -> Register.answer info;
  pe_providers : nat -> Register.answer info;
  pe_conn : nat -> bytes -> bool;                                                 (* a connection is available *)
  pe_net : nat -> bytes -> message -> option message;                             (* what comes back on it *)
  pe_lotus : bool                                                                 (* the payment manager can be made *)
}.

(** A request sent to a gateway and what came back. *)
Definition exchange := (bytes * message * option message)%type.

(** What a handler leaves behind: the provider, what it wrote to its caller and the
    exchanges with gateways. *)
Record pserved := PServed { p_after : provider; p_wrote : list Rest.answer; p_sent : list exchange }.

(** Appending to the entry of a map of slices, publish_dht_offer_requester.go L105-110,
    publish_group_offer_requester.go L96-101. *)
Definition add_published (m : list (gostring * list offer)) (id : bytes) (o : offer) : list (gostring * list offer) :=
  let sentOffers := match aget bytes_eqb m (ToString id) with Some l => l | None => [] end in
  aset bytes_eqb m (ToString id) (sentOffers ++ [o]).

(** publish_dht_offer_requester.go L114-122. *)
Definition add_ack (m : list (gostring * list (gostring * acknowledgement))) (c id : bytes) (a : acknowledgement)
    : list (gostring * list (gostring * acknowledgement)) :=
  let cidMap := match aget bytes_eqb m (ToString c) with Some x => x | None => [] end in
  aset bytes_eqb m (ToString c) (aset bytes_eqb cidMap (ToString id) a).

(** publish_dht_offer_requester.go L102-124. *)
Fixpoint record_published (p : provider) (id : bytes) (request response : message) (offers : list offer) : outcome provider :=
  match offers with
  | [] => Ret p
  | o :: t =>
      let p := p_with_published p (add_published (p_published p) id o) in
      match o_cids o with
      | [] => Panic
      | c :: _ => record_published (p_with_acks p (add_ack (p_acks p) c id (Acknowledgement request response))) id request response t
      end
  end.

(** common/pkg/slice/slice.go L13-24 [Exists], called with a slice of identifiers and a
    pointer to an identifier: values of different types are never equal. *)
Definition Exists (l : list bytes) (item : option bytes) : bool * Z := (false, -1).

(** gatewayapi/notify_group_cid_offer_supported.go L77-98
    [updateGatewaysSupportingGroupCIDOffer]: the slice is passed by value, so only an
    element overwritten within its length is seen by the caller. *)
Definition updateGatewaysSupportingGroupCIDOffer (supported : bool) (saved : list bytes) (id : option bytes) : outcome (list bytes) :=
  let (exists_, foundIndex) := Exists saved id in
  if supported then
    let* _ := (if exists_ then Ret [] else deref id) in Ret saved
  else if exists_ then
    match rev saved with
    | [] => Panic
    | l :: _ => Ret (set_nth saved (Z.to_nat foundIndex) l)
    end
  else Ret saved.

Section provider.
  Variable version : Z.
  Variable supported : list Z.
  Variable sha256 : bytes -> bytes.
  Variable sha512_256 : bytes -> bytes.
  Variable pub_of : bytes -> bytes.
  Variable ec_sign : bytes -> bytes -> option bytes.
  Variable ec_verify : bytes -> bytes -> bytes -> bool.
  Variable blake : bytes -> bytes.

  (** [c.RegisterMgr.GetGateway], register_manager.go L177-195. *)
  Definition PGetGateway (e : penv) (n : nat) (p : provider) (id : option bytes) : outcome (option info * provider) :=
    let* x := GetGateway info (p_reg p) id (pe_gateways e n) (pe_providers e n) in
    Ret (fst x, p_with_reg p (snd x)).

  (** Handlers that end with an HTTP error. *)
  Definition p_quit (p : provider) (code : Z) : outcome pserved := Ret (PServed p [HttpError code] []).

  (** Sign the response and write it: the last lines of the REST handlers that answer 500
      when signing fails. *)
  Definition p_finish (p : provider) (response : message) : outcome pserved :=
    let* a := SignAndWrite ec_sign blake (p_key p) (p_ver p) 500 response in
    Ret (PServed p [a] []).

  (** ** Requests to gateways *)

  (** The common part of publish_dht_offer_requester.go L34-85 and publish_group_offer_requester.go L31-82, called
      through common/pkg/fcrp2pserver/server.go L192-217 [RequestGatewayFromProvider]: request, verified response and the
      gateway's key.  The register lookup made when a connection is opened is not modelled. *)
  Definition ask (e : penv) (n : nat) (p : provider) (id : bytes) (encoded : outcome message)
      : outcome (option (message * message * keypair) * provider * list exchange) :=
    if negb (pe_conn e n id) then Ret (None, p, [])
    else
      let* request := encoded in
      let* s := SignWith ec_sign blake (p_key p) (p_ver p) request in
      if negb (fst s) then Ret (None, p, [])
      else
        let request := snd s in
        let out := [(id, request, pe_net e n id request)] in
        match pe_net e n id request with
        | None => Ret (None, p, out)
        | Some response =>
            let* x := PGetGateway e n p (Some id) in
            let (i, p) := x in
            match i with
            | None => Ret (None, p, out)
            | Some i =>
                let* k := GetSigningKey i in
                match k with
                | ErrR => Ret (None, p, out)
                | OkR k =>
                    let v := MessageVerify pub_of ec_verify blake response k in
                    Ret (if fst v then Some (request, snd v, k) else None, p, out)
                end
            end
        end.

  (** publish_dht_offer_requester.go L34-126 [RequestProviderPublishDHTOffer]; its result is
      only logged. *)
  Definition RequestPublishDHT (e : penv) (n : nat) (p : provider) (id : bytes) (offers : list offer)
      : outcome (provider * list exchange) :=
    let* x := ask e n p id (EncodeProviderPublishDHTOfferRequest version supported (p_id p) 1 (Some offers)) in
    let '(r, p, out) := x in
    match r with
    | None => Ret (p, out)
    | Some (request, response, k) =>
        let* d := DecodeProviderPublishDHTOfferResponse sha256 response in
        match d with
        | ErrR => Ret (p, out)
        | OkR (_, sig) =>
            match fst (VerifyMessage pub_of ec_verify blake k sig (slice (m_body request))) with
            | OkR true => let* p := record_published p id request response offers in Ret (p, out)
            | _ => Ret (p, out)
            end
        end
    end.

  (** publish_group_offer_requester.go L31-106 [RequestProviderPublishGroupOffer]. *)
  Definition RequestPublishGroup (e : penv) (n : nat) (p : provider) (id : bytes) (o : offer)
      : outcome (provider * list exchange) :=
    let* x := ask e n p id (EncodeProviderPublishGroupOfferRequest version supported (p_id p) 1 (Some o)) in
    let '(r, p, out) := x in
    match r with
    | None => Ret (p, out)
    | Some (_, response, _) =>
        let* d := DecodeProviderPublishGroupOfferResponse sha256 response in
        match d with
        | ErrR => Ret (p, out)
        | OkR (_, candidate) =>
            let* digest := GetMessageDigest sha512_256 o in
            if bytes_eqb (DecodeMessageDigest candidate) digest
            then Ret (p_with_published p (add_published (p_published p) id o), out)
            else Ret (p, out)
        end
    end.

  (** ** Requests of the administrator *)

  (** adminapi/publish_dht_offer_handler.go L58-76: new offers, signed. *)
  Fixpoint make_offers (p : provider) (key : keypair) (cids : list bytes) (price expiry qos : list Z)
      : outcome (result (list offer)) :=
    match cids, price, expiry, qos with
    | c :: cids, pr :: price, ex :: expiry, q :: qos =>
        let* o := NewCIDOffer sha256 (p_id p) [c] pr ex q in
        match o with
        | ErrR => Ret ErrR
        | OkR o =>
            let* s := OfferSign ec_sign blake o key (p_ver p) in
            if negb (fst s) then Ret ErrR
            else
              let* r := make_offers p key cids price expiry qos in
              Ret (match r with ErrR => ErrR | OkR os => OkR (snd s :: os) end)
        end
    | _, _, _, _ => Ret (OkR [])
    end.

  (** adminapi/publish_dht_offer_handler.go L93-106: all offers to each of the gateways.  [Some]: the code of an error that
      ends the handler.  [n] numbers the requests. *)
  Fixpoint publish_to (e : penv) (n : nat) (p : provider) (offers : list offer) (gws : list info) (out : list exchange)
      : outcome (option Z * provider * list exchange * nat) :=
    match gws with
    | [] => Ret (None, p, out, n)
    | gw :: t =>
        match NewNodeIDFromHexString (n_id gw) with
        | ErrR => Ret (Some 400, p, out, n)
        | OkR id =>
            let* x := RequestPublishDHT e n p id offers in
            publish_to e (S n) (fst x) offers t (out ++ snd x)
        end
    end.

  (** adminapi/publish_dht_offer_handler.go L85-107: for each identifier, the gateways near it. *)
  Fixpoint publish_near (e : penv) (n : nat) (p : provider) (offers : list offer) (cids : list bytes) (out : list exchange)
      : outcome (option Z * provider * list exchange) :=
    match cids with
    | [] => Ret (None, p, out)
    | c :: t =>
        let* near := GetGatewaysNearCID info (p_reg p) (Some c) 16 None in
        let p := p_with_reg p (snd near) in
        match fst near with
        | ErrR => Ret (Some 500, p, out)
        | OkR gws =>
            let* x := publish_to e n p offers (map snd gws) out in
            let '(code, p, out, n) := x in
            match code with
            | Some _ => Ret (code, p, out)
            | None => publish_near e n p offers t out
            end
        end
    end.

  (** A nil slice has length 0. *)
  Definition values (o : option (list Z)) : list Z := match o with Some l => l | None => [] end.

  (** Sign the response and write it, or write nothing: adminapi/publish_dht_offer_handler.go L109-123,
      adminapi/publish_group_offer_handler.go L86-100. *)
  Definition p_finish_quietly (p : provider) (response : message) (out : list exchange) : outcome pserved :=
    let* s := SignWith ec_sign blake (p_key p) (p_ver p) response in
    Ret (PServed p (if fst s then [Json (snd s)] else []) out).

  (** adminapi/publish_dht_offer_handler.go L32-124 [HandleProviderAdminPublishDHTOfferRequest].  Errors of storing the
      offers are only logged. *)
  Definition HandleAdminPublishDHT (e : penv) (p : provider) (request : message) : outcome pserved :=
    match p_key p with
    | None => p_quit p 400
    | Some key =>
        let* d := DecodeProviderAdminPublishDHTOfferRequest sha256 request in
        match d with
        | ErrR => p_quit p 400
        | OkR (cids, price, expiry, qos) =>
            let n := length cids in
            if Nat.eqb n 0 || negb (Nat.eqb n (length (values price))) || negb (Nat.eqb n (length (values expiry)))
               || negb (Nat.eqb n (length (values qos))) then p_quit p 400
            else
              let* os := make_offers p key cids (values price) (values expiry) (values qos) in
              match os with
              | ErrR => p_quit p 500
              | OkR os =>
                  let* st := publish_offers sha512_256 (pe_now e) (p_heap p) (p_offers p) os in
                  let p := p_with_store p (fst st) (snd st) in
                  let* x := publish_near e 0 p os cids [] in
                  let '(code, p, out) := x in
                  match code with
                  | Some code => Ret (PServed p [HttpError code] out)
                  | None =>
                      let* response := EncodeProviderAdminPublishDHTOfferResponse version supported true in
                      p_finish_quietly p response out
                  end
              end
        end
    end.

  (** adminapi/publish_group_offer_handler.go L72-84. *)
  Fixpoint publish_group_to (e : penv) (n : nat) (p : provider) (o : offer) (gws : list info) (out : list exchange)
      : outcome (option Z * provider * list exchange) :=
    match gws with
    | [] => Ret (None, p, out)
    | gw :: t =>
        match NewNodeIDFromHexString (n_id gw) with
        | ErrR => Ret (Some 400, p, out)
        | OkR id =>
            let* x := RequestPublishGroup e n p id o in
            publish_group_to e (S n) (fst x) o t (out ++ snd x)
        end
    end.

  (** adminapi/publish_group_offer_handler.go L31-101 [HandleProviderAdminPublishGroupOfferRequest]. *)
  Definition HandleAdminPublishGroup (e : penv) (p : provider) (request : message) : outcome pserved :=
    match p_key p with
    | None => p_quit p 400
    | Some key =>
        let* d := DecodeProviderAdminPublishGroupOfferRequest sha256 request in
        match d with
        | ErrR => p_quit p 400
        | OkR (cids, price, expiry, qos) =>
            let* o := NewCIDOffer sha256 (p_id p) cids price expiry qos in
            match o with
            | ErrR => p_quit p 400
            | OkR o =>
                let* s := OfferSign ec_sign blake o key (p_ver p) in
                if negb (fst s) then p_quit p 400
                else
                  let o := snd s in
                  let heap := p_heap p ++ [o] in
                  let* st := AddGroupOffer sha512_256 (pe_now e) heap (p_offers p) (length (p_heap p)) in
                  let p := p_with_store p heap (snd st) in
                  let* g := GetAllGateways info (pe_nodes e) (p_reg p) in
                  let p := p_with_reg p (snd g) in
                  let* x := publish_group_to e 0 p o (match fst g with Some l => l | None => [] end) [] in
                  let '(code, p, out) := x in
                  match code with
                  | Some code => Ret (PServed p [HttpError code] out)
                  | None =>
                      let* response := EncodeProviderAdminPublishGroupOfferResponse version supported true in
                      p_finish_quietly p response out
                  end
            end
        end
    end.

  (** adminapi/get_published_offer_handler.go L29-90 [HandleProviderAdminGetPublishedOfferRequest]. *)
  Definition HandleAdminGetPublished (e : penv) (p : provider) (request : message) : outcome pserved :=
    match p_key p with
    | None => p_quit p 400
    | Some _ =>
        let* d := DecodeProviderAdminGetPublishedOfferRequest sha256 request in
        match d with
        | ErrR => p_quit p 400
        | OkR ids =>
            let offers :=
              match ids with
              | [] => flat_map snd (pe_listed e (p_published p))
              | _ => flat_map (fun id => match aget bytes_eqb (p_published p) (ToString id) with Some l => l | None => [] end) ids
              end in
            let* response := EncodeProviderAdminGetPublishedOfferResponse version supported (negb (is_nil offers)) (Some offers) in
            p_finish p response
        end
    end.

  (** adminapi/initialise_key_handler.go L29-65 [HandleProviderAdminInitialiseKeyRequest]. *)
  Definition HandleAdminInitialiseKey (p : provider) (request : message) : outcome pserved :=
    let* d := DecodeProviderAdminInitialiseKeyRequest sha256 request in
    match d with
    | ErrR => p_quit p 400
    | OkR (nodeID, privKey, privKeyVer) =>
        let* ver := deref privKeyVer in
        let p := p_with_key p nodeID privKey ver in
        let* response := EncodeProviderAdminInitialiseKeyResponse version supported true in
        p_finish p response
    end.

  (** adminapi/initialise_key_handler_v2.go L30-73 [HandleProviderAdminInitialiseKeyRequestV2]. *)
  Definition HandleAdminInitialiseKeyV2 (e : penv) (p : provider) (request : message) : outcome pserved :=
    let* d := DecodeProviderAdminInitialiseKeyRequestV2 sha256 request in
    match d with
    | ErrR => p_quit p 400
    | OkR (nodeID, privKey, privKeyVer, _, _, _) =>
        let* ver := deref privKeyVer in
        let p := p_with_key p nodeID privKey ver in
        if negb (pe_lotus e) then p_quit p 400
        else
          let* response := EncodeProviderAdminInitialiseKeyResponse version supported true in
          p_finish p response
    end.

  (** adminapi/force_refresh_handler.go L34-77 [HandleProviderAdminForceRefreshRequest]. *)
  Definition HandleAdminForceRefresh (e : penv) (p : provider) (request : message) : outcome pserved :=
    match p_key p with
    | None => p_quit p 400
    | Some _ =>
        let* d := DecodeProviderAdminForceRefreshRequest sha256 request in
        match d with
        | ErrR => p_quit p 400
        | OkR refresh =>
            let* r := (if refresh : bool then Refresh info (p_reg p) (pe_gateways e 0) (pe_providers e 0) else Ret (p_reg p)) in
            let p := p_with_reg p r in
            let* response := EncodeProviderAdminForceRefreshResponse version supported refresh in
            p_finish p response
        end
    end.

  (** ** Requests of clients *)

  (** clientapi/dht_offer_ack_handler.go L34-80 [HandleClientDHTOfferAckRequest]. *)
  Definition HandleOfferAck (p : provider) (request : message) : outcome pserved :=
    let* d := DecodeClientDHTOfferAckRequest sha256 request in
    match d with
    | ErrR => p_quit p 400
    | OkR (c, gatewayID) =>
        let* dummyMsg := EncodeProviderPublishDHTOfferRequest version supported (p_id p) 0 (Some []) in
        let* dummyAck := EncodeProviderPublishDHTOfferResponse version supported 0 [] in
        let* response := EncodeClientDHTOfferAckResponse version supported c gatewayID false (Some dummyMsg) (Some dummyAck) in
        let* c' := deref c in
        let* response :=
          (match aget bytes_eqb (p_acks p) (ToString c') with
           | None => Ret response
           | Some gateways =>
               let* id := deref gatewayID in
               match aget bytes_eqb gateways (ToString id) with
               | None => Ret response
               | Some a => EncodeClientDHTOfferAckResponse version supported c gatewayID true (Some (a_msg a)) (Some (a_ack a))
               end
           end) in
        p_finish p response
    end.

  (** ** Requests of gateways *)

  (** gatewayapi/list_dht_offer_handler.go L44-59, notify_group_cid_offer_supported.go L38-53: the key of the gateway the
      request names, if the request is signed with it. *)
  Definition asked_by (e : penv) (p : provider) (id : option bytes) (request : message) : outcome (option keypair * provider) :=
    let* x := PGetGateway e 0 p id in
    let (i, p) := x in
    match i with
    | None => let* _ := deref id in Ret (None, p)
    | Some i =>
        let* k := GetSigningKey i in
        match k with
        | ErrR => let* _ := deref id in Ret (None, p)
        | OkR k => Ret (if fst (MessageVerify pub_of ec_verify blake request k) then Some k else None, p)
        end
    end.

  (** gatewayapi/list_dht_offer_handler.go L77-101: at most 50 offers per message.  [None]: a message could not be
      signed.  [fuel] is the number of offers, at least the number of rounds. *)
  Fixpoint batches (p : provider) (fuel : nat) (offers : list offer) : outcome (option (list message)) :=
    match fuel with
    | O => Diverge
    | S fuel =>
        let more := Nat.ltb 50 (length offers) in
        let* msg := EncodeProviderPublishDHTOfferRequest version supported (p_id p) 1 (Some (if more then firstn 50 offers else offers)) in
        let* s := SignWith ec_sign blake (p_key p) (p_ver p) msg in
        if negb (fst s) then Ret None
        else if more then
          let* r := batches p fuel (skipn 50 offers) in
          Ret (match r with None => None | Some msgs => Some (snd s :: msgs) end)
        else Ret (Some [snd s])
    end.

  (** gatewayapi/list_dht_offer_handler.go L152-157: an assignment into a missing inner map panics. *)
  Fixpoint record_listed (m : list (gostring * list (gostring * acknowledgement))) (id : bytes) (a : acknowledgement) (offers : list offer)
      : outcome (list (gostring * list (gostring * acknowledgement))) :=
    match offers with
    | [] => Ret m
    | o :: t =>
        match o_cids o with
        | [] => Panic
        | c :: _ =>
            let* inner := deref (aget bytes_eqb m (ToString c)) in
            record_listed (aset bytes_eqb m (ToString c) (aset bytes_eqb inner (ToString id) a)) id a t
        end
    end.

  (** gatewayapi/list_dht_offer_handler.go L133-159; an error ends the handler and is not recorded. *)
  Fixpoint record_acks (m : list (gostring * list (gostring * acknowledgement))) (id : bytes) (k : keypair) (msgs acks : list message)
      : outcome (list (gostring * list (gostring * acknowledgement))) :=
    match msgs, acks with
    | msg :: msgs, ack :: acks =>
        let* d := DecodeProviderPublishDHTOfferResponse sha256 ack in
        match d with
        | ErrR => Ret m
        | OkR (_, signature) =>
            match fst (VerifyMessage pub_of ec_verify blake k signature (slice (m_body msg))) with
            | OkR true =>
                let* d := DecodeProviderPublishDHTOfferRequest sha256 msg in
                match d with
                | ErrR => Ret m
                | OkR (_, _, sentOffers) =>
                    let* m := record_listed m id (Acknowledgement msg ack) (match sentOffers with Some l => l | None => [] end) in
                    record_acks m id k msgs acks
                end
            | _ => Ret m
            end
        end
    | _, _ => Ret m
    end.

  (** gatewayapi/list_dht_offer_handler.go L33-161 [HandleGatewayListDHTOfferRequest].  [acks] is what the gateway answers
      to the response on the same connection. *)
  Definition HandleListDHT (e : penv) (acks : message -> option message) (p : provider) (request : message)
      : outcome (provider * reply) :=
    let* d := DecodeGatewayListDHTOfferRequest sha256 request in
    match d with
    | ErrR => Ret (p, Invalid)
    | OkR (gatewayID, cidMin, cidMax, _, _, _, _) =>
        let* x := asked_by e p gatewayID request in
        let (k, p) := x in
        match k with
        | None => Ret (p, Invalid)
        | Some k =>
            let* id := deref gatewayID in
            let* lo := deref cidMin in
            let* hi := deref cidMax in
            let* q := GetDHTOffersWithinRange sha512_256 (pe_digests e) (pe_now e) (p_heap p) (p_offers p) lo hi 500 in
            let '(offers, exists_, m) := q in
            let p := p_with_store p (p_heap p) m in
            if exists_ && negb (forallb (fun o => negb (is_nil (o_cids o))) offers) then Panic
            else
              let* msgs := (if exists_ : bool then batches p (S (length offers)) offers else Ret (Some [])) in
              match msgs with
              | None => Ret (p, Invalid)
              | Some msgs =>
                  let* response := EncodeGatewayListDHTOfferResponse version supported (Some msgs) in
                  let* s := SignWith ec_sign blake (p_key p) (p_ver p) response in
                  if negb (fst s) then Ret (p, Invalid)
                  else
                    let done := Reply (snd s) in
                    match acks (snd s) with
                    | None => Ret (p, done)
                    | Some a =>
                        let v := MessageVerify pub_of ec_verify blake a k in
                        if negb (fst v) then Ret (p, done)
                        else
                          let* d := DecodeGatewayListDHTOfferAck sha256 (snd v) in
                          let l := match d with OkR (Some l) => l | _ => [] end in
                          if negb (Nat.eqb (length l) (length msgs)) then Ret (p, done)
                          else
                            let* m := record_acks (p_acks p) id k msgs l in
                            Ret (p_with_acks p m, done)
                    end
              end
        end
    end.

  (** gatewayapi/notify_group_cid_offer_supported.go L27-74
      [HandleGatewayNotifyProviderGroupCIDOfferSupportRequest]. *)
  Definition HandleNotifyGroup (e : penv) (p : provider) (request : message) : outcome (provider * reply) :=
    let* d := DecodeGatewayNotifyProviderGroupCIDOfferSupportRequest sha256 request in
    match d with
    | ErrR => Ret (p, Invalid)
    | OkR (gatewayID, groupCIDOfferSupported) =>
        let* x := asked_by e p gatewayID request in
        let (k, p) := x in
        match k with
        | None => Ret (p, Invalid)
        | Some _ =>
            let* g := updateGatewaysSupportingGroupCIDOffer groupCIDOfferSupported (p_groups p) gatewayID in
            let p := p_with_groups p g in
            let* response := EncodeGatewayNotifyProviderGroupCIDOfferSupportResponse version supported true in
            let* s := SignWith ec_sign blake (p_key p) (p_ver p) response in
            Ret (p, if fst s then Reply (snd s) else Invalid)
        end
    end.
End provider.
