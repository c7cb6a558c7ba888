(** * The gateway's request handlers

    Models gateway/internal/api/clientapi, gatewayapi and providerapi (handlers and
    requesters) over the models of messages, payments, the offer database and the
    register manager.  What a call depends on outside the gateway (clock, chain, network,
    register service, database failures) comes in a record of answers.  Logging is left
    out; its arguments that can panic are not.  A panic loses what the handler changed
    before.  Definitions only. *)
From Coq Require Import String List ZArith Bool.
From Coq Require Import Init.Byte.
From Verif Require Import Base Ids Crypto Message Offer Schema Messages Payment Register SqlOffers Rest.
Import ListNotations.
Open Scope Z_scope.
Open Scope go_scope.

(** common/pkg/register/gateway_register.go L28-39, provider_register.go L28-39: what the
    handlers use of a registration. *)
Record info := Info { n_id : gostring; n_address : gostring; n_key : gostring }.

(** gateway/internal/core/core.go L46-92 [Core] with settings.go L66-68.  Identifier,
    key and payment manager are nil until the admin initialises the gateway; the nil key
    version of an uninitialised gateway is covered by the nil key. *)
Record gateway := Gateway {
  g_id : option bytes;
  g_key : option keypair;
  g_ver : Z;
  g_search : Z;
  g_offer : Z;
  g_topup : Z;
  g_pay : option mgr;
  g_db : db;
  g_reg : manager info
}.

Definition with_pay (g : gateway) (m : mgr) : gateway :=
  Gateway (g_id g) (g_key g) (g_ver g) (g_search g) (g_offer g) (g_topup g) (Some m) (g_db g) (g_reg g).
Definition with_db (g : gateway) (d : db) : gateway :=
  Gateway (g_id g) (g_key g) (g_ver g) (g_search g) (g_offer g) (g_topup g) (g_pay g) d (g_reg g).
Definition with_reg (g : gateway) (r : manager info) : gateway :=
  Gateway (g_id g) (g_key g) (g_ver g) (g_search g) (g_offer g) (g_topup g) (g_pay g) (g_db g) r.
Definition with_offer_price (g : gateway) (p : Z) : gateway :=
  Gateway (g_id g) (g_key g) (g_ver g) (g_search g) p (g_topup g) (g_pay g) (g_db g) (g_reg g).

(** The answers of the world during one call.  Numbered answers are for the calls in a
    loop.  The time is in nanoseconds and read once. *)
Record env := Env {
  e_now : Z;
  e_rows : list offer_row -> list offer_row;             (* order of database rows *)
  e_fates : nat -> nat -> fate;                          (* fate of the statements storing offer n *)
  e_chain : gostring -> option chain_state;
  e_gateways : nat -> Register.answer info;
  e_providers : nat -> Register.answer info;
  e_tx : nat -> tx;
  e_sign : voucher -> option bytes;
  e_conn : nat -> bytes -> bool;                         (* a connection is available *)
  e_net : nat -> bytes -> message -> option message      (* what comes back on it *)
}.

(** [time.Now().Unix()]. *)
Definition unix (e : env) : Z := e_now e / 1000000000.

(** What a handler on a TCP interface writes: [WriteInvalidMessage], a message, or nothing
    (an error is returned to the server, which closes the connection). *)
Inductive reply := Invalid | Reply (m : message) | NoReply.

(** What a handler on the REST interface leaves behind: the gateway, what it wrote to the
    client and the requests it sent to other gateways. *)
Record served := Served { after : gateway; wrote : list Rest.answer; sent : list (bytes * message) }.

Section gateway.
  Variable version : Z.
  Variable supported : list Z.
  Variable sha256 : bytes -> bytes.
  Variable sha512_256 : bytes -> bytes.
  Variable pub_of : bytes -> bytes.
  Variable ec_sign : bytes -> bytes -> option bytes.
  Variable ec_verify : bytes -> bytes -> bytes -> bool.
  Variable blake : bytes -> bytes.
  (** Lotus: signatures of accounts, text of vouchers, whether a text is an address. *)
  Variable verify : gostring -> voucher -> option bytes -> bool.
  Variable voucher_text : voucher -> gostring.
  Variable voucher_of : gostring -> option voucher.
  Variable is_address : gostring -> bool.
  (** Offset of the host's time zone in seconds. *)
  Variable zone : Z.

  (** [c.PaymentMgr.Receive], payment_manager.go L276-403: the amount, or an error.  With a
      nil manager it panics at L291. *)
  Definition CoreReceive (e : env) (g : gateway) (channel text : gostring) : outcome (option Z * gateway) :=
    match g_pay g with
    | None => if is_address channel then match voucher_of text with Some _ => Panic | None => Ret (None, g) end else Ret (None, g)
    | Some m =>
        let (m', r) := Receive verify m channel (voucher_of text) (if is_address channel then e_chain e channel else None) in
        match r with
        | Credited x => Ret (Some x, with_pay g m')
        | Refused => Ret (None, with_pay g m')
        | Crashed => Panic
        end
    end.

  (** [c.PaymentMgr.Pay], payment_manager.go L211-272; a nil manager panics at L217. *)
  Definition CorePay (e : env) (g : gateway) (recipient : gostring) (lane_id amount : Z) : outcome (pay_res * gateway) :=
    let* m := deref (g_pay g) in
    let (m', r) := Pay m recipient lane_id amount (e_sign e) in
    Ret (r, with_pay g m').

  (** [c.OffersMgr.GetOffers] and [GetOfferByDigest], common/pkg/offermgr/offer_manager.go L68-75. *)
  Definition CoreGetOffers (e : env) (g : gateway) (c : option bytes) : outcome (list offer * bool) :=
    let* c := deref c in
    selectOffersSingle sha256 (e_rows e) zone (e_now e) (g_db g) c.
  Definition CoreGetOfferByDigest (e : env) (g : gateway) (d : bytes) : outcome (option offer * bool) :=
    selectOffersDigest sha256 (e_rows e) zone (e_now e) (g_db g) d.

  (** [c.RegisterMgr.GetGateway], register_manager.go L177-195. *)
  Definition CoreGetGateway (e : env) (n : nat) (g : gateway) (id : option bytes) : outcome (option info * gateway) :=
    let* x := GetGateway info (g_reg g) id (e_gateways e n) (e_providers e n) in
    Ret (fst x, with_reg g (snd x)).

  (** [c.RegisterMgr.GetProvider], register_manager.go L198-217. *)
  Definition CoreGetProvider (g : gateway) (id : option bytes) : outcome (option info * gateway) :=
    let* x := GetProvider info (g_reg g) id in
    Ret (fst x, with_reg g (snd x)).

  (** gateway_register.go L103-105, provider_register.go L112-114 [GetSigningKey]. *)
  Definition GetSigningKey (i : info) : outcome (result keypair) := DecodePublicKey (n_key i).

  (** Sign the response and write it: the last lines of all handlers. *)
  Definition finish_rest (g : gateway) (response : message) (before : list Rest.answer) (sent : list (bytes * message))
      : outcome served :=
    let* a := SignAndWrite ec_sign blake (g_key g) (g_ver g) 500 response in
    Ret (Served g (before ++ [a]) sent).
  Definition finish_p2p (g : gateway) (response : message) : outcome (gateway * reply) :=
    let* s := SignWith ec_sign blake (g_key g) (g_ver g) response in
    Ret (g, if fst s then Reply (snd s) else Invalid).

  Definition quit (g : gateway) (code : Z) : outcome served := Ret (Served g [HttpError code] []).
  Definition drop (g : gateway) : outcome served := Ret (Served g [] []).

  (** ** Requests of clients *)

  (** clientapi/establishment_handler.go L30-71 [HandleClientEstablishmentRequest]. *)
  Definition HandleEstablishment (e : env) (g : gateway) (request : message) : outcome served :=
    let* d := DecodeClientEstablishmentRequest sha256 request in
    match d with
    | ErrR => quit g 400
    | OkR (clientID, challenge, ttl) =>
        let* _ := deref clientID in
        if unix e >? ttl then drop g
        else
          let* response := EncodeClientEstablishmentResponse version supported (g_id g) challenge in
          finish_rest g response [] []
    end.

  (** clientapi/standard_discover_handler.go L56-66: the sub-offers of the offers found. *)
  Definition suboffers_of (offers : list offer) (c : option bytes) : outcome (list suboffer) :=
    mapO (fun o => let* c := deref c in Ret (GenerateSubCIDOffer o c)) offers.
  Definition falses {A} (l : list A) : list bool := map (fun _ => false) l.

  (** clientapi/standard_discover_handler.go L32-89 [HandleClientStandardCIDDiscoverRequest]. *)
  Definition HandleStandardDiscover (e : env) (g : gateway) (request : message) : outcome served :=
    let* d := DecodeClientStandardDiscoverRequest sha256 request in
    match d with
    | ErrR => quit g 400
    | OkR (pieceCID, nonce, ttl, _, _) =>
        if unix e >? ttl then drop g
        else
          let* q := CoreGetOffers e g pieceCID in
          let* suboffers := suboffers_of (fst q) pieceCID in
          let* response := EncodeClientStandardDiscoverResponse version supported pieceCID nonce (snd q)
                             (Some suboffers) (Some (falses (fst q))) in
          finish_rest g response [] []
    end.

  (** clientapi/standard_discover_handler_v2.go L60-63, gatewayapi/dht_discover_handler_v2.go L74-77. *)
  Definition digests_of (offers : list offer) : outcome (list gostring) :=
    mapO (fun o => let* d := GetMessageDigest sha512_256 o in Ret (EncodeMessageDigest d)) offers.

  (** clientapi/standard_discover_handler_v2.go L31-97 [HandleClientStandardCIDDiscoverRequestV2]. *)
  Definition HandleStandardDiscoverV2 (e : env) (g : gateway) (request : message) : outcome served :=
    let* d := DecodeClientStandardDiscoverRequestV2 sha256 request in
    match d with
    | ErrR => quit g 400
    | OkR (pieceCID, nonce, ttl, channel, voucher) =>
        if unix e >? ttl then drop g
        else
          let* q := CoreGetOffers e g pieceCID in
          let* p := CoreReceive e g channel voucher in
          let (receive, g) := p in
          let* response :=
            (if match receive with Some x => x >=? g_search g | None => false end then
               let* digests := digests_of (fst q) in
               EncodeClientStandardDiscoverResponseV2 version supported pieceCID nonce (snd q)
                 (Some digests) (Some (falses (fst q))) false []
             else
               EncodeClientStandardDiscoverResponseV2 version supported pieceCID nonce (snd q) None None true channel) in
          finish_rest g response [] []
    end.

  (** A nil slice of digests has length 0. *)
  Definition elems {A} (o : option (list A)) : list A := match o with Some l => l | None => [] end.

  (** clientapi/standard_discover_offer_handler.go L61-73, gatewayapi/dht_discover_offer_handler.go L71-82: sub-offer and
      existence per digest; the method call on a nil offer panics. *)
  Definition offers_by_digest (e : env) (g : gateway) (digests : list gostring) (c : option bytes)
      : outcome (list (suboffer * bool)) :=
    mapO (fun digest =>
      let* q := CoreGetOfferByDigest e g (DecodeMessageDigest digest) in
      let* o := deref (fst q) in
      let* c := deref c in
      Ret (GenerateSubCIDOffer o c, snd q)) digests.

  (** clientapi/standard_discover_offer_handler.go L32-107 [HandleClientStandardDiscoverOfferRequest]. *)
  Definition HandleStandardOffer (e : env) (g : gateway) (request : message) : outcome served :=
    let* d := DecodeClientStandardDiscoverOfferRequest sha256 request in
    match d with
    | ErrR => quit g 400
    | OkR (pieceCID, nonce, ttl, offerDigests, channel, voucher) =>
        if unix e >? ttl then drop g
        else
          let* p := CoreReceive e g channel voucher in
          let (receive, g) := p in
          let expectedAmount := g_offer g * Z.of_nat (length (elems offerDigests)) in
          let* response :=
            (if match receive with Some x => x >=? expectedAmount | None => false end then
               let* l := offers_by_digest e g (elems offerDigests) pieceCID in
               EncodeClientStandardDiscoverOfferResponse version supported pieceCID nonce
                 (last (map snd l) false) (Some (map fst l)) (Some (map snd l)) false []
             else
               EncodeClientStandardDiscoverOfferResponse version supported pieceCID nonce false None None true channel) in
          finish_rest g response [] []
    end.

  (** ** Requests to other gateways *)

  (** The common part of gatewayapi/dht_discover_requester.go L30-83, dht_discover_requester_v2.go L30-91 and
      dht_discover_offer_requester.go L30-99, called through common/pkg/fcrp2pserver/server.go L164-189
      [RequestGatewayFromGateway]: the response, if it came and its signature is that of the gateway, and
      what was sent.  The register lookup made when a connection is opened is not modelled. *)
  Definition ask_gateway (e : env) (n : nat) (g : gateway) (id : bytes) (encoded : outcome message)
      : outcome (option message * gateway * list (bytes * message)) :=
    if negb (e_conn e n id) then Ret (None, g, [])
    else
      let* request := encoded in
      let* s := SignWith ec_sign blake (g_key g) (g_ver g) request in
      if negb (fst s) then Ret (None, g, [])
      else
        let out := [(id, snd s)] in
        match e_net e n id (snd s) with
        | None => Ret (None, g, out)
        | Some response =>
            let* x := CoreGetGateway e n g (Some id) in
            let (i, g) := x in
            match i with
            | None => Ret (None, g, out)
            | Some i =>
                let* k := GetSigningKey i in
                match k with
                | ErrR => Ret (None, g, out)
                | OkR k =>
                    let v := MessageVerify pub_of ec_verify blake response k in
                    Ret (if fst v then Some (snd v) else None, g, out)
                end
            end
        end.

  (** gatewayapi/dht_discover_requester.go L49: ten seconds to answer. *)
  Definition RequestDHTDiscover (e : env) (n : nat) (g : gateway) (id : bytes) (c : option bytes) :=
    ask_gateway e n g id (EncodeGatewayDHTDiscoverRequest version supported (g_id g) c 1 (unix e + 10) [] []).
  (** gatewayapi/dht_discover_requester_v2.go L57. *)
  Definition RequestDHTDiscoverV2 (e : env) (n : nat) (g : gateway) (id : bytes) (c : option bytes) (channel text : gostring) :=
    ask_gateway e n g id (EncodeGatewayDHTDiscoverRequestV2 version supported (g_id g) c 1 (unix e + 10) channel text).
  (** gatewayapi/dht_discover_offer_requester.go L64. *)
  Definition RequestDHTOffer (e : env) (n : nat) (g : gateway) (id : bytes) (c : option bytes) (nonce : Z)
      (digests : option (list gostring)) (channel text : gostring) :=
    ask_gateway e n g id (EncodeGatewayDHTDiscoverOfferRequest version supported c nonce digests channel text).

  (** ** Discovery through other gateways *)

  (** What the loops collect: gateways contacted, their responses, gateways not contacted,
      requests sent. *)
  Record gathered := Gathered {
    contacted : list bytes; responses : list message; unContactable : list bytes; out : list (bytes * message) }.

  (** clientapi/dht_discover_handler.go L82-87, dht_discover_handler_v2.go L110-115, dht_discover_offer_handler.go L95-101. *)
  Definition gather (w : gathered) (id : bytes) (r : option message) (o : list (bytes * message)) : gathered :=
    match r with
    | None => Gathered (contacted w) (responses w) (unContactable w ++ [id]) (out w ++ o)
    | Some m => Gathered (contacted w ++ [id]) (responses w ++ [m]) (unContactable w) (out w ++ o)
    end.
  Definition nothing : gathered := Gathered [] [] [] [].

  (** clientapi/dht_discover_handler.go L61-71: the identifiers; an error ends the handler. *)
  Fixpoint ids_of (l : list info) : result (list bytes) :=
    match l with
    | [] => OkR []
    | i :: t =>
        match NewNodeIDFromHexString (n_id i) with
        | ErrR => ErrR
        | OkR id => match ids_of t with ErrR => ErrR | OkR r => OkR (id :: r) end
        end
    end.

  (** clientapi/dht_discover_handler.go L80-88. *)
  Fixpoint discover_all (e : env) (n : nat) (g : gateway) (c : option bytes) (ids : list bytes) (w : gathered)
      : outcome (gathered * gateway) :=
    match ids with
    | [] => Ret (w, g)
    | id :: t =>
        let* x := RequestDHTDiscover e n g id c in
        let '(r, g, o) := x in
        discover_all e (S n) g c t (gather w id r o)
    end.

  (** clientapi/dht_discover_handler.go L36-109 [HandleClientDHTCIDDiscoverRequest]. *)
  Definition HandleDHTDiscover (e : env) (g : gateway) (request : message) : outcome served :=
    let* d := DecodeClientDHTDiscoverRequest sha256 request in
    match d with
    | ErrR => quit g 400
    | OkR (c, nonce, ttl, numDHT, _, _, _) =>
        if unix e >? ttl then drop g
        else
          let* near := GetGatewaysNearCID info (g_reg g) c numDHT (g_id g) in
          let g := with_reg g (snd near) in
          match fst near with
          | ErrR => quit g 400
          | OkR gateways =>
              match ids_of (map snd gateways) with
              | ErrR => quit g 400
              | OkR ids =>
                  let* x := discover_all e 0 g c ids nothing in
                  let (w, g) := x in
                  let* response := EncodeClientDHTDiscoverResponse version supported (contacted w) (Some (responses w))
                                     (unContactable w) nonce false [] in
                  finish_rest g response [] (out w)
              end
          end
    end.

  (** clientapi/dht_discover_handler_v2.go L139-162 [topupAndPay], with the answers of the chain
      for loop round [n]. *)
  Definition CoreTopupAndPay (e : env) (n : nat) (g : gateway) (recipient : gostring) (lane_id amount : Z)
      : outcome (result (gostring * voucher) * gateway) :=
    let* m := deref (g_pay g) in
    let (m', r) := topupAndPay m recipient lane_id amount (g_topup g) (e_tx e (2 * n)) (e_tx e (2 * n + 1)) (e_sign e) in
    Ret (r, with_pay g m').

  (** clientapi/dht_discover_handler_v2.go L83-116.  [inl] is the code of an error that ends the handler. *)
  Fixpoint discover_all_v2 (e : env) (n : nat) (g : gateway) (c : option bytes) (gws : list info) (w : gathered)
      : outcome ((Z + gathered) * gateway * list (bytes * message)) :=
    match gws with
    | [] => Ret (inr w, g, out w)
    | gw :: t =>
        match NewNodeIDFromHexString (n_id gw) with
        | ErrR => Ret (inl 400, g, out w)
        | OkR id =>
            let* p := CorePay e g (n_address gw) 0 (g_search g) in
            let (r, g) := p in
            let* y := (match r with
                       | PayError => Ret (inl 400, g)
                       | Paid ch v => Ret (inr (ch, voucher_text v), g)
                       | NeedTopup =>
                           let* q := CoreTopupAndPay e n g (n_address gw) 0 (g_search g) in
                           Ret (match fst q with ErrR => inl 500 | OkR (ch, v) => inr (ch, voucher_text v) end, snd q)
                       end) in
            let (y, g) := y in
            match y with
            | inl code => Ret (inl code, g, out w)
            | inr (ch, text) =>
                let* x := RequestDHTDiscoverV2 e n g id c ch text in
                let '(r, g, o) := x in
                discover_all_v2 e (S n) g c t (gather w id r o)
            end
        end
    end.

  (** clientapi/dht_discover_handler_v2.go L35-137 [HandleClientDHTCIDDiscoverRequestV2]; L70-74 do not
      return. *)
  Definition HandleDHTDiscoverV2 (e : env) (g : gateway) (request : message) : outcome served :=
    let* d := DecodeClientDHTDiscoverRequestV2 sha256 request in
    match d with
    | ErrR => quit g 400
    | OkR (c, nonce, ttl, numDHT, _, channel, voucher) =>
        if unix e >? ttl then drop g
        else
          let* near := GetGatewaysNearCID info (g_reg g) c numDHT (g_id g) in
          let g := with_reg g (snd near) in
          match fst near with
          | ErrR => quit g 400
          | OkR gateways =>
              let* p := CoreReceive e g channel voucher in
              let (amount, g) := p in
              match amount with
              | None => quit g 400
              | Some amount =>
                  let expectedAmount := g_search g * numDHT in
                  let warned := if amount <? expectedAmount then [HttpError 500] else [] in
                  let* x := discover_all_v2 e 0 g c (map snd gateways) nothing in
                  let '(r, g, o) := x in
                  match r with
                  | inl code => Ret (Served g (warned ++ [HttpError code]) o)
                  | inr w =>
                      let* response := EncodeClientDHTDiscoverResponseV2 version supported (contacted w) (Some (responses w))
                                         (unContactable w) nonce false [] in
                      finish_rest g response warned o
                  end
              end
          end
    end.

  (** clientapi/dht_discover_offer_handler.go L52-55: the digests asked for. *)
  Fixpoint units (l : list (option (list gostring))) : Z :=
    match l with [] => 0 | x :: t => Z.of_nat (length (elems x)) + units t end.

  (** clientapi/dht_discover_offer_handler.go L66-102: L67 panics when there are fewer lists of digests than
      gateways, L71 for an unknown gateway; L85 pays the search price. *)
  Fixpoint offers_all (e : env) (n : nat) (g : gateway) (c : option bytes) (nonce : Z)
      (digests : list (option (list gostring))) (ids : list bytes) (w : gathered)
      : outcome ((Z + gathered) * gateway * list (bytes * message)) :=
    match ids with
    | [] => Ret (inr w, g, out w)
    | id :: t =>
        let* these := deref (nth_error digests n) in
        let* i := CoreGetGateway e (2 * n) g (Some id) in
        let (i, g) := i in
        let toPay := Z.of_nat (length (elems these)) * g_offer g in
        let* i := deref i in
        let* p := CorePay e g (n_address i) 0 toPay in
        let (r, g) := p in
        let* y := (match r with
                   | PayError => Ret (inl 400, g)
                   | Paid ch v => Ret (inr (ch, voucher_text v), g)
                   | NeedTopup =>
                       let* m := deref (g_pay g) in
                       let (m', ok) := Topup m (n_address i) (g_topup g) (e_tx e n) in
                       let g := with_pay g m' in
                       if negb ok then Ret (inl 400, g)
                       else
                         let* p := CorePay e g (n_address i) 0 (g_search g) in
                         let (r, g) := p in
                         Ret (match r with
                              | PayError => inl 400
                              | Paid ch v => inr (ch, voucher_text v)
                              | NeedTopup => inr ([], [])
                              end, g)
                   end) in
        let (y, g) := y in
        match y with
        | inl code => Ret (inl code, g, out w)
        | inr (ch, text) =>
            let* x := RequestDHTOffer e (2 * n + 1) g id c nonce these ch text in
            let '(r, g, o) := x in
            offers_all e (S n) g c nonce digests t (gather w id r o)
        end
    end.

  (** clientapi/dht_discover_offer_handler.go L31-123 [HandleClientDHTDiscoverOfferRequest]; L57-61 do not
      return, and there is no time to live. *)
  Definition HandleDHTOffer (e : env) (g : gateway) (request : message) : outcome served :=
    let* d := DecodeClientDHTDiscoverOfferRequest sha256 request in
    match d with
    | ErrR => quit g 400
    | OkR (c, nonce, digests, ids, channel, voucher) =>
        let* p := CoreReceive e g channel voucher in
        let (amount, g) := p in
        match amount with
        | None => quit g 400
        | Some amount =>
            let expectedAmt := units (elems digests) * g_offer g in
            let warned := if amount <? expectedAmt then [HttpError 500] else [] in
            let* x := offers_all e 0 g c nonce (elems digests) ids nothing in
            let '(r, g, o) := x in
            match r with
            | inl code => Ret (Served g (warned ++ [HttpError code]) o)
            | inr w =>
                let* response := EncodeClientDHTDiscoverOfferResponse version supported c nonce (contacted w) (Some (responses w))
                                   false [] in
                finish_rest g response warned o
            end
        end
    end.

  (** ** Requests of other gateways *)

  (** gatewayapi/dht_discover_handler.go L44-60, dht_discover_handler_v2.go L39-55: is the request signed by the
      gateway it names?  The log messages panic for a nil identifier, as [GetGateway] does before. *)
  Definition from_gateway (e : env) (g : gateway) (id : option bytes) (request : message) : outcome (bool * gateway) :=
    let* x := CoreGetGateway e 0 g id in
    let (i, g) := x in
    match i with
    | None => let* _ := deref id in Ret (false, g)
    | Some i =>
        let* k := GetSigningKey i in
        match k with
        | ErrR => let* _ := deref id in Ret (false, g)
        | OkR k => Ret (fst (MessageVerify pub_of ec_verify blake request k), g)
        end
    end.

  (** gatewayapi/dht_discover_handler.go L34-99 [HandleGatewayDHTDiscoverRequest]. *)
  Definition HandleGatewayDiscover (e : env) (g : gateway) (request : message) : outcome (gateway * reply) :=
    let* d := DecodeGatewayDHTDiscoverRequest sha256 request in
    match d with
    | ErrR => Ret (g, Invalid)
    | OkR (gatewayID, pieceCID, nonce, ttl, _, _) =>
        let* x := from_gateway e g gatewayID request in
        let (ok, g) := x in
        if negb ok then Ret (g, Invalid)
        else if unix e >? ttl then Ret (g, Invalid)
        else
          let* q := CoreGetOffers e g pieceCID in
          let* suboffers := suboffers_of (fst q) pieceCID in
          let* response := EncodeGatewayDHTDiscoverResponse version supported pieceCID nonce (snd q)
                             (Some suboffers) (Some (falses (fst q))) in
          finish_p2p g response
    end.

  (** gatewayapi/dht_discover_handler_v2.go L29-103 [HandleGatewayDHTDiscoverRequestV2]. *)
  Definition HandleGatewayDiscoverV2 (e : env) (g : gateway) (request : message) : outcome (gateway * reply) :=
    let* d := DecodeGatewayDHTDiscoverRequestV2 sha256 request in
    match d with
    | ErrR => Ret (g, Invalid)
    | OkR (gatewayID, pieceCID, nonce, ttl, channel, voucher) =>
        let* x := from_gateway e g gatewayID request in
        let (ok, g) := x in
        if negb ok then Ret (g, Invalid)
        else if unix e >? ttl then Ret (g, Invalid)
        else
          let* p := CoreReceive e g channel voucher in
          let (amount, g) := p in
          match amount with
          | None => Ret (g, Invalid)
          | Some amount =>
              let* q := CoreGetOffers e g pieceCID in
              let* digests := digests_of (fst q) in
              let* response :=
                (if amount <? g_search g then
                   EncodeGatewayDHTDiscoverResponseV2 version supported pieceCID nonce (snd q)
                     (Some digests) (Some (falses (fst q))) true channel
                 else
                   EncodeGatewayDHTDiscoverResponseV2 version supported pieceCID nonce (snd q)
                     (Some digests) (Some (falses (fst q))) false []) in
              finish_p2p g response
          end
    end.

  (** gatewayapi/dht_discover_offer_handler.go L29-106 [HandleGatewayDHTOfferRequest]: no signature is checked,
      there is no time to live, and L65 [c.Settings.OfferPrice.Mul(c.Settings.OfferPrice, n)] stores the product
      in the setting. *)
  Definition HandleGatewayOffer (e : env) (g : gateway) (request : message) : outcome (gateway * reply) :=
    let* d := DecodeGatewayDHTDiscoverOfferRequest sha256 request in
    match d with
    | ErrR => Ret (g, Invalid)
    | OkR (pieceCID, nonce, offerDigests, channel, voucher) =>
        let* p := CoreReceive e g channel voucher in
        let (amount, g) := p in
        match amount with
        | None => Ret (g, Invalid)
        | Some amount =>
            let expectedAmount := g_offer g * Z.of_nat (length (elems offerDigests)) in
            let g := with_offer_price g expectedAmount in
            let* l := offers_by_digest e g (elems offerDigests) pieceCID in
            let* response :=
              (if amount <? expectedAmount then
                 EncodeGatewayDHTDiscoverOfferResponse version supported pieceCID nonce true
                   (Some (map fst l)) (Some (map snd l)) true channel
               else
                 EncodeGatewayDHTDiscoverOfferResponse version supported pieceCID nonce true
                   (Some (map fst l)) (Some (map snd l)) false []) in
            finish_p2p g response
        end
    end.

  (** ** Requests of providers *)

  (** providerapi/publish_group_offer_handler.go L39-54, publish_dht_offer_handler.go L42-57: the key of the
      provider the request names, if the request is signed with it. *)
  Definition from_provider (g : gateway) (id : option bytes) (request : message) : outcome (option keypair * gateway) :=
    let* x := CoreGetProvider g id in
    let (i, g) := x in
    match i with
    | None => let* _ := deref id in Ret (None, g)
    | Some i =>
        let* k := GetSigningKey i in
        match k with
        | ErrR => let* _ := deref id in Ret (None, g)
        | OkR k => Ret (if fst (MessageVerify pub_of ec_verify blake request k) then Some k else None, g)
        end
    end.

  (** [AddGroupOffer], [AddDHTOffer] of offer_manager.go L43-50.  [None]: the process stopped. *)
  Definition CoreAddOffer (e : env) (n : nat) (g : gateway) (o : offer) : outcome (option (result unit) * gateway) :=
    let* x := insertOffer sha512_256 (e_fates e n) (g_db g) o in
    Ret (fst x, with_db g (snd x)).

  (** providerapi/publish_group_offer_handler.go L28-85 [HandleProviderPublishGroupOfferRequest]. *)
  Definition HandlePublishGroup (e : env) (g : gateway) (request : message) : outcome (gateway * reply) :=
    let* d := DecodeProviderPublishGroupOfferRequest sha256 request in
    match d with
    | ErrR => Ret (g, Invalid)
    | OkR (providerID, _, offer) =>
        let* x := from_provider g providerID request in
        let (k, g) := x in
        match k with
        | None => Ret (g, Invalid)
        | Some k =>
            let* offer := deref offer in
            let* good := OfferVerify pub_of ec_verify blake offer k in
            if negb good then Ret (g, Invalid)
            else
              let* y := CoreAddOffer e 0 g offer in
              let (r, g) := y in
              match r with
              | None => Ret (g, NoReply)
              | Some ErrR => Ret (g, Invalid)
              | Some (OkR _) =>
                  let* me := deref (g_id g) in
                  let* dg := GetMessageDigest sha512_256 offer in
                  let* response := EncodeProviderPublishGroupOfferResponse version supported me (EncodeMessageDigest dg) in
                  finish_p2p g response
              end
        end
    end.

  (** providerapi/publish_dht_offer_handler.go L60-70: verified and stored one by one; [false] ends the handler.
      [None]: the process stopped. *)
  Fixpoint store_all (e : env) (n : nat) (g : gateway) (k : keypair) (offers : list offer) : outcome (option bool * gateway) :=
    match offers with
    | [] => Ret (Some true, g)
    | o :: t =>
        let* good := OfferVerify pub_of ec_verify blake o k in
        if negb good then Ret (Some false, g)
        else
          let* y := CoreAddOffer e n g o in
          let (r, g) := y in
          match r with
          | None => Ret (None, g)
          | Some ErrR => Ret (Some false, g)
          | Some (OkR _) => store_all e (S n) g k t
          end
    end.

  (** providerapi/publish_dht_offer_handler.go L32-92 [HandleProviderPublishDHTOfferRequest]. *)
  Definition HandlePublishDHT (e : env) (g : gateway) (request : message) : outcome (gateway * reply) :=
    let* d := DecodeProviderPublishDHTOfferRequest sha256 request in
    match d with
    | ErrR => Ret (g, Invalid)
    | OkR (providerID, nonce, offers) =>
        let* x := from_provider g providerID request in
        let (k, g) := x in
        match k with
        | None => Ret (g, Invalid)
        | Some k =>
            let* y := store_all e 0 g k (elems offers) in
            let (r, g) := y in
            match r with
            | None => Ret (g, NoReply)
            | Some false => Ret (g, Invalid)
            | Some true =>
                let* key := deref (g_key g) in
                match SignMessage ec_sign blake key (g_ver g) (slice (m_body request)) with
                | ErrR => Ret (g, Invalid)
                | OkR sig =>
                    let* response := EncodeProviderPublishDHTOfferResponse version supported nonce sig in
                    finish_p2p g response
                end
            end
        end
    end.
End gateway.
