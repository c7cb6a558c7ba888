(** * The client library

    Models client/pkg/fcrclient/filecoin_retrieval_client.go, register_validation.go and
    client/pkg/api/clientapi over the models of messages, payments and the register
    manager.  Calls run one after another, so the locks of the client are left out; for
    overlapping calls see [ClientConc].  What a call depends on outside the client
    (clock, network, chain, register service) comes in a record of answers.  Logging and
    the texts of errors are left out.  A panic loses what the call changed before.
    Definitions only. *)
From Coq Require Import String List ZArith Bool.
From Coq Require Import Init.Byte.
From Verif Require Import Base Ids Crypto Message Offer Schema Messages Payment Register Json.
Import ListNotations.
Open Scope Z_scope.
Open Scope go_scope.

(** common/pkg/register/gateway_register.go L28-39 [GatewayRegister] and provider_register.go
    L28-39 [ProviderRegister], which has no [r_provider_ap]. *)
Record reg := Reg {
  r_id : gostring; r_address : gostring; r_root : gostring; r_key : gostring; r_region : gostring;
  r_gateway_ap : gostring; r_provider_ap : gostring; r_client_ap : gostring; r_admin_ap : gostring
}.

(** The source of math/rand is never seeded (go 1.16 in client/go.mod: it then starts as if seeded with 1),
    so a value drawn depends on what the process drew before. *)
Inductive draw := DrawInt63 | DrawBytes32.

(** filecoin_retrieval_client.go L44-62 [FilecoinRetrievalClient] with the settings it uses
    (client_settings.go L26-41).  Prices are not nil. *)
Record client := Client {
  c_id : option bytes;
  c_ttl : Z;
  c_search : Z;
  c_offer : Z;
  c_topup : Z;
  c_use : list (gostring * reg);
  c_active : list (gostring * reg);
  c_pay : option mgr;
  c_reg : manager reg;
  c_drawn : list draw
}.

(** Replacing one field of the client. *)
Definition with_use (c : client) (u : list (gostring * reg)) : client :=
  Client (c_id c) (c_ttl c) (c_search c) (c_offer c) (c_topup c) u (c_active c) (c_pay c) (c_reg c) (c_drawn c).
Definition with_active (c : client) (a : list (gostring * reg)) : client :=
  Client (c_id c) (c_ttl c) (c_search c) (c_offer c) (c_topup c) (c_use c) a (c_pay c) (c_reg c) (c_drawn c).
Definition with_mgr (c : client) (m : mgr) : client :=
  Client (c_id c) (c_ttl c) (c_search c) (c_offer c) (c_topup c) (c_use c) (c_active c) (Some m) (c_reg c) (c_drawn c).
Definition with_manager (c : client) (r : manager reg) : client :=
  Client (c_id c) (c_ttl c) (c_search c) (c_offer c) (c_topup c) (c_use c) (c_active c) (c_pay c) r (c_drawn c).
Definition drew (c : client) (d : draw) : client :=
  Client (c_id c) (c_ttl c) (c_search c) (c_offer c) (c_topup c) (c_use c) (c_active c) (c_pay c) (c_reg c) (d :: c_drawn c).

(** filecoin_retrieval_client.go L65-76 [NewFilecoinRetrievalClient]. *)
Definition NewClient (id : option bytes) (ttl search offer topup : Z) (r : manager reg) : client :=
  Client id ttl search offer topup [] [] None r [].

(** The answers of the world during one call.  Numbered answers are for the calls in a
    loop.  The time is in seconds and read once. *)
Record cenv := CEnv {
  ce_now : Z;
  ce_http : nat -> gostring -> message -> option message;      (* what comes back on a request *)
  ce_gateways : nat -> option (list (option reg));
  ce_providers : nat -> option (list (option reg));
  ce_wallet : option gostring;                                 (* address of the payment manager *)
  ce_tx : nat -> tx;
  ce_sign : voucher -> option bytes;
  ce_order : list (gostring * reg) -> list (gostring * reg)    (* map order *)
}.

(** The register service's answer as the manager stores it: under the node identifier
    (common/pkg/fcrregistermgr/register_manager.go L373). *)
Definition under_ids (a : option (list (option reg))) : Register.answer reg :=
  match a with None => None | Some l => Some (map (option_map (fun r => (r_id r, r))) l) end.

(** filecoin_retrieval_client.go L39 and client/pkg/fcrclient/defaults.go L36. *)
Definition defaultPaymentLane : Z := 0.
Definition defaultSearchPrice : Z := 1000000000000000.

(** [strings.ToLower] on ASCII text. *)
Definition lower (s : gostring) : gostring :=
  map (fun b => if (65 <=? bz b) && (bz b <=? 90) then zb (bz b + 32) else b) s.

Definition empty (s : gostring) : bool := match s with [] => true | _ => false end.

(** A nil slice has no elements. *)
Definition items {A} (o : option (list A)) : list A := match o with Some l => l | None => [] end.

Section client.
  Variable version : Z.
  Variable supported : list Z.
  Variable sha256 : bytes -> bytes.
  Variable pub_of : bytes -> bytes.
  Variable ec_verify : bytes -> bytes -> bytes -> bool.
  Variable blake : bytes -> bytes.
  Variable voucher_text : voucher -> gostring.
  (** The values math/rand gives after other values were drawn. *)
  Variable rand_int : list draw -> Z.
  Variable rand_bytes : list draw -> bytes.

  (** common/pkg/register/gateway_register.go L98-105, provider_register.go L107-114: the keys of a registration. *)
  Definition GetRootSigningKey (r : reg) : outcome (result keypair) := DecodePublicKey (r_root r).
  Definition GetSigningKey (r : reg) : outcome (result keypair) := DecodePublicKey (r_key r).

  (** register_validation.go L55-64, L96-105: both keys can be read. *)
  Definition keys_readable (r : reg) : outcome bool :=
    let* k := GetRootSigningKey r in
    match k with
    | ErrR => Ret false
    | OkR _ => let* k := GetSigningKey r in Ret (match k with OkR _ => true | ErrR => false end)
    end.

  (** register_validation.go L25-66 [validateGatewayInfo]. *)
  Definition validateGatewayInfo (r : reg) : outcome bool :=
    if empty (r_id r) || empty (r_address r) || empty (r_gateway_ap r) || empty (r_provider_ap r)
       || empty (r_client_ap r) || empty (r_admin_ap r) || empty (r_region r)
    then Ret false else keys_readable r.

  (** register_validation.go L70-107 [validateProviderInfo]. *)
  Definition validateProviderInfo (r : reg) : outcome bool :=
    if empty (r_id r) || empty (r_address r) || empty (r_gateway_ap r)
       || empty (r_client_ap r) || empty (r_admin_ap r) || empty (r_region r)
    then Ret false else keys_readable r.

  (** [c.registerMgr.GetGateway] and [GetProvider], register_manager.go L177-217. *)
  Definition FindGateway (e : cenv) (n : nat) (c : client) (id : option bytes) : outcome (option reg * client) :=
    let* x := GetGateway reg (c_reg c) id (under_ids (ce_gateways e n)) (under_ids (ce_providers e n)) in
    Ret (fst x, with_manager c (snd x)).
  Definition FindProvider (c : client) (id : option bytes) : outcome (option reg * client) :=
    let* x := GetProvider reg (c_reg c) id in
    Ret (fst x, with_manager c (snd x)).

  (** filecoin_retrieval_client.go L78-94 [PaymentMgr]: made when first needed; nil when that fails. *)
  Definition PaymentMgr (e : cenv) (c : client) : client :=
    match c_pay c with
    | Some _ => c
    | None => match ce_wallet e with Some a => with_mgr c (NewMgr a) | None => c end
    end.

  (** [Pay] of the manager the client has, common/pkg/fcrpaymentmgr/payment_manager.go L211-272; a nil manager
      panics at L217. *)
  Definition PayNow (e : cenv) (c : client) (recipient : gostring) (amount : Z) : outcome (pay_res * client) :=
    let* m := deref (c_pay c) in
    let (m', r) := Pay m recipient defaultPaymentLane amount (ce_sign e) in
    Ret (r, with_mgr c m').

  (** filecoin_retrieval_client.go L768-791 [topupAndPay] with the chain's answers number 2k and 2k+1: channel and
      text of the voucher. *)
  Definition TopupAndPay (e : cenv) (k : nat) (c : client) (recipient : gostring) (amount : Z)
      : outcome (result (gostring * gostring) * client) :=
    let c := PaymentMgr e c in
    let* m := deref (c_pay c) in
    let (m', r) := topupAndPay m recipient defaultPaymentLane amount (c_topup c) (ce_tx e (2 * k)) (ce_tx e (2 * k + 1))
                     (ce_sign e) in
    Ret (match r with OkR (ch, v) => OkR (ch, voucher_text v) | ErrR => ErrR end, with_mgr c m').

  (** filecoin_retrieval_client.go L446-455, L520-529, L660-674, L715-726: pay, topping up when needed. *)
  Definition PayOrTopup (e : cenv) (k : nat) (c : client) (recipient : gostring) (amount : Z)
      : outcome (result (gostring * gostring) * client) :=
    let* p := PayNow e c recipient amount in
    let (r, c) := p in
    match r with
    | PayError => Ret (ErrR, c)
    | Paid ch v => Ret (OkR (ch, voucher_text v), c)
    | NeedTopup => TopupAndPay e k c recipient amount
    end.

  (** ** Requests to gateways and providers *)

  (** The common part of the requesters in client/pkg/api/clientapi: encode, send
      (common/pkg/request/request.go L99-135 [SendMessage]) to the interface for clients, verify the response with
      the registered key.  The response, if it came and is signed, and what was sent. *)
  Definition ask (e : cenv) (n : nat) (node : reg) (encoded : outcome message)
      : outcome (option message * list (gostring * message)) :=
    let* request := encoded in
    let out := [(r_client_ap node, request)] in
    match ce_http e n (r_client_ap node) request with
    | None => Ret (None, out)
    | Some response =>
        let* k := GetSigningKey node in
        match k with
        | ErrR => Ret (None, out)
        | OkR k =>
            let v := MessageVerify pub_of ec_verify blake response k in
            Ret (if fst v then Some (snd v) else None, out)
        end
    end.

  (** clientapi/establishment_requester.go L29-77 [RequestEstablishment]: was it established, and what was sent.
      A malformed identifier in the response is nil and L69 panics. *)
  Definition RequestEstablishment (e : cenv) (n : nat) (gw : reg) (challenge : bytes) (clientID : option bytes) (ttl : Z)
      : outcome (bool * list (gostring * message)) :=
    if negb (Nat.eqb (length challenge) 32) then Ret (false, [])
    else
      let b := b64_encode challenge in
      let* x := ask e n gw (EncodeClientEstablishmentRequest version supported clientID b ttl) in
      let (r, out) := x in
      match r with
      | None => Ret (false, out)
      | Some response =>
          let* d := DecodeClientEstablishmentResponse sha256 response in
          match d with
          | ErrR => Ret (false, out)
          | OkR (gatewayID, recvChallenge) =>
              let* id := deref gatewayID in
              Ret (bytes_eqb (r_id gw) (ToString id) && bytes_eqb recvChallenge b, out)
          end
      end.

  (** clientapi/standard_discover_requester.go L29-74 [RequestStandardDiscover]; L66 panics for a malformed
      identifier. *)
  Definition RequestStandardDiscover (e : cenv) (n : nat) (gw : reg) (contentID : option bytes) (nonce ttl : Z)
      : outcome (result (option (list suboffer)) * list (gostring * message)) :=
    let* x := ask e n gw (EncodeClientStandardDiscoverRequest version supported contentID nonce ttl [] []) in
    let (r, out) := x in
    match r with
    | None => Ret (ErrR, out)
    | Some response =>
        let* d := DecodeClientStandardDiscoverResponse sha256 response in
        match d with
        | ErrR => Ret (ErrR, out)
        | OkR (pieceCid, nonceRecv, _, offers, _) =>
            let* p := deref pieceCid in
            let* q := deref contentID in
            if negb (bytes_eqb (ToString p) (ToString q)) then Ret (ErrR, out)
            else if negb (nonce =? nonceRecv) then Ret (ErrR, out)
            else Ret (OkR offers, out)
        end
    end.

  (** clientapi/standard_discover_requester_v2.go L27-74 [RequestStandardDiscoverV2]: the digests and whether payment
      is required. *)
  Definition RequestStandardDiscoverV2 (e : cenv) (n : nat) (gw : reg) (contentID : option bytes) (nonce ttl : Z)
      (channel text : gostring) : outcome (result (option (list gostring) * bool) * list (gostring * message)) :=
    let* x := ask e n gw (EncodeClientStandardDiscoverRequestV2 version supported contentID nonce ttl channel text) in
    let (r, out) := x in
    match r with
    | None => Ret (ErrR, out)
    | Some response =>
        let* d := DecodeClientStandardDiscoverResponseV2 sha256 response in
        match d with
        | ErrR => Ret (ErrR, out)
        | OkR (cID, nonceRecv, _, digests, _, paymentRequired, _) =>
            let* p := deref cID in
            let* q := deref contentID in
            if negb (bytes_eqb (ToString p) (ToString q)) then Ret (ErrR, out)
            else if negb (nonce =? nonceRecv) then Ret (ErrR, out)
            else if paymentRequired then Ret (OkR (None, true), out)
            else Ret (OkR (digests, false), out)
        end
    end.

  (** clientapi/standard_discover_offer_requester.go L30-79 [RequestStandardDiscoverOffer]. *)
  Definition RequestStandardDiscoverOffer (e : cenv) (n : nat) (gw : reg) (contentID : option bytes) (nonce ttl : Z)
      (digests : option (list gostring)) (channel text : gostring)
      : outcome (result (option (list suboffer)) * list (gostring * message)) :=
    let* x := ask e n gw (EncodeClientStandardDiscoverOfferRequest version supported contentID nonce ttl digests channel text) in
    let (r, out) := x in
    match r with
    | None => Ret (ErrR, out)
    | Some response =>
        let* d := DecodeClientStandardDiscoverOfferResponse sha256 response in
        match d with
        | ErrR => Ret (ErrR, out)
        | OkR (cID, nonceRecv, _, offers, _, paymentRequired, _) =>
            let* p := deref cID in
            let* q := deref contentID in
            if negb (bytes_eqb (ToString p) (ToString q)) then Ret (ErrR, out)
            else if negb (nonce =? nonceRecv) then Ret (ErrR, out)
            else if paymentRequired then Ret (ErrR, out)
            else Ret (OkR offers, out)
        end
    end.

  (** clientapi/dht_discover_requester.go L30-79 [RequestDHTDiscover]: gateways contacted with their responses, and
      gateways not contacted. *)
  Definition RequestDHTDiscover (e : cenv) (n : nat) (gw : reg) (contentID : option bytes) (nonce ttl numDHT : Z)
      : outcome (result (list bytes * list message * list bytes) * list (gostring * message)) :=
    let* x := ask e n gw (EncodeClientDHTDiscoverRequest version supported contentID nonce ttl numDHT false [] []) in
    let (r, out) := x in
    match r with
    | None => Ret (ErrR, out)
    | Some response =>
        let* d := DecodeClientDHTDiscoverResponse sha256 response in
        match d with
        | ErrR => Ret (ErrR, out)
        | OkR (contacted, resp, unContactable, recvNonce, paymentRequired, _) =>
            if negb (recvNonce =? nonce) then Ret (ErrR, out)
            else if negb (Nat.eqb (length contacted) (length (items resp))) then Ret (ErrR, out)
            else if paymentRequired then Ret (ErrR, out)
            else Ret (OkR (contacted, items resp, unContactable), out)
        end
    end.

  (** clientapi/dht_discover_requester_v2.go L28-76 [RequestDHTDiscoverV2]: gateways contacted with their responses,
      whether payment is required, and the channel to top up. *)
  Definition RequestDHTDiscoverV2 (e : cenv) (n : nat) (gw : reg) (contentID : option bytes) (nonce ttl numDHT : Z)
      (channel text : gostring)
      : outcome (result (list bytes * list message * bool * gostring) * list (gostring * message)) :=
    let* x := ask e n gw (EncodeClientDHTDiscoverRequestV2 version supported contentID nonce ttl numDHT false channel text) in
    let (r, out) := x in
    match r with
    | None => Ret (ErrR, out)
    | Some response =>
        let* d := DecodeClientDHTDiscoverResponseV2 sha256 response in
        match d with
        | ErrR => Ret (ErrR, out)
        | OkR (contacted, resp, _, recvNonce, paymentRequired, toTopup) =>
            if negb (recvNonce =? nonce) then Ret (ErrR, out)
            else if negb (Nat.eqb (length contacted) (length (items resp))) then Ret (ErrR, out)
            else Ret (OkR (contacted, items resp, paymentRequired, if paymentRequired then toTopup else []), out)
        end
    end.

  (** clientapi/dht_discover_offer_requester.go L79-100: the sub-offers in the responses.  A response that cannot be
      decoded counts as one that found nothing; the signatures of the gateways are not checked. *)
  Fixpoint sub_responses (l : list (bytes * message)) : outcome (result (list (bytes * list suboffer))) :=
    match l with
    | [] => Ret (OkR [])
    | (id, m) :: t =>
        let* d := DecodeGatewayDHTDiscoverOfferResponse sha256 m in
        let '(found, offers, paymentRequired) :=
          match d with
          | OkR (_, _, found, offers, _, paymentRequired, _) => (found, items offers, paymentRequired)
          | ErrR => (false, [], false)
          end in
        if paymentRequired then Ret ErrR
        else
          let* r := sub_responses t in
          Ret (match r with
               | ErrR => ErrR
               | OkR r => OkR (if found && negb (Nat.eqb (length offers) 0) then (id, offers) :: r else r)
               end)
    end.

  (** clientapi/dht_discover_offer_requester.go L36-102 [RequestDHTOfferDiscover]; the content identifier and nonce of the
      response are not compared. *)
  Definition RequestDHTOfferDiscover (e : cenv) (n : nat) (gw : reg) (gatewayIDs : list bytes) (contentID : option bytes)
      (nonce : Z) (digests : option (list (option (list gostring)))) (channel text : gostring)
      : outcome (result (list (bytes * list suboffer)) * list (gostring * message)) :=
    let* x := ask e n gw (EncodeClientDHTDiscoverOfferRequest version supported contentID nonce digests gatewayIDs channel text) in
    let (r, out) := x in
    match r with
    | None => Ret (ErrR, out)
    | Some response =>
        let* d := DecodeClientDHTDiscoverOfferResponse sha256 response in
        match d with
        | ErrR => Ret (ErrR, out)
        | OkR (_, _, ids, messages, paymentRequired, _) =>
            if negb (Nat.eqb (length ids) (length (items messages))) then Ret (ErrR, out)
            else if paymentRequired then Ret (ErrR, out)
            else
              let* r := sub_responses (combine ids (items messages)) in
              Ret (r, out)
        end
    end.

  (** clientapi/dht_offer_ack_requester.go L29-64 [RequestDHTOfferAck]: found, publication and acknowledgement. *)
  Definition RequestDHTOfferAck (e : cenv) (n : nat) (pvd : reg) (contentID gatewayID : option bytes)
      : outcome (result (bool * option message * option message) * list (gostring * message)) :=
    let* x := ask e n pvd (EncodeClientDHTOfferAckRequest version supported contentID gatewayID) in
    let (r, out) := x in
    match r with
    | None => Ret (ErrR, out)
    | Some response =>
        let* d := DecodeClientDHTOfferAckResponse sha256 response in
        match d with
        | ErrR => Ret (ErrR, out)
        | OkR (_, _, found, req, res) => Ret (OkR (found, req, res), out)
        end
    end.

  (** ** Gateways to use *)

  (** filecoin_retrieval_client.go L107-121: the loop of [FindGateways]; the number is compared after adding. *)
  Fixpoint pick_region (location : gostring) (count max : Z) (l : list reg) : list bytes :=
    match l with
    | [] => []
    | r :: t =>
        if bytes_eqb (r_region r) location then
          match NewNodeIDFromHexString (r_id r) with
          | ErrR => pick_region location count max t
          | OkR id => id :: (if count + 1 >=? max then [] else pick_region location (count + 1) max t)
          end
        else pick_region location count max t
    end.

  (** filecoin_retrieval_client.go L98-123 [FindGateways]. *)
  Definition FindGateways (e : cenv) (c : client) (location : gostring) (max : Z) : outcome (result (list bytes) * client) :=
    let* x := GetAllGateways reg (ce_order e) (c_reg c) in
    let c := with_manager c (snd x) in
    Ret (match fst x with None => ErrR | Some l => OkR (pick_region location 0 max l) end, c).

  (** filecoin_retrieval_client.go L126-155 [AddGatewaysToUse]: the number added; [n] counts the lookups. *)
  Fixpoint AddGatewaysToUse (e : cenv) (n : nat) (c : client) (ids : list (option bytes)) : outcome (Z * client) :=
    match ids with
    | [] => Ret (0, c)
    | None :: t => AddGatewaysToUse e n c t
    | Some id :: t =>
        match aget bytes_eqb (c_use c) (ToString id) with
        | Some _ => AddGatewaysToUse e n c t
        | None =>
            let* x := FindGateway e n c (Some id) in
            let (i, c) := x in
            match i with
            | None => AddGatewaysToUse e (S n) c t
            | Some i =>
                let* ok := validateGatewayInfo i in
                if negb ok then AddGatewaysToUse e (S n) c t
                else
                  let* y := AddGatewaysToUse e (S n) (with_use c (aset bytes_eqb (c_use c) (ToString id) i)) t in
                  Ret (fst y + 1, snd y)
            end
        end
    end.

  (** filecoin_retrieval_client.go L159-176 [RemoveGatewaysToUse]. *)
  Fixpoint RemoveGatewaysToUse (c : client) (ids : list (option bytes)) : outcome (Z * client) :=
    match ids with
    | [] => Ret (0, c)
    | id :: t =>
        let* id := deref id in
        match aget bytes_eqb (c_use c) (ToString id) with
        | None => RemoveGatewaysToUse c t
        | Some _ =>
            let c := with_use c (adel bytes_eqb (c_use c) (ToString id)) in
            let* y := RemoveGatewaysToUse (with_active c (adel bytes_eqb (c_active c) (ToString id))) t in
            Ret (fst y + 1, snd y)
        end
    end.

  (** filecoin_retrieval_client.go L180-191 [RemoveAllGatewaysToUse]. *)
  Definition RemoveAllGatewaysToUse (c : client) : Z * client :=
    (Z.of_nat (length (c_use c)), with_active (with_use c []) []).

  (** filecoin_retrieval_client.go L198-206, L280-288: the identifiers that are keys of a map. *)
  Fixpoint key_ids (l : list gostring) : list bytes :=
    match l with
    | [] => []
    | k :: t => match NewNodeIDFromHexString k with ErrR => key_ids t | OkR id => id :: key_ids t end
    end.

  (** filecoin_retrieval_client.go L194-209 [GetGatewaysToUse], L276-291 [GetActiveGateways]. *)
  Definition GetGatewaysToUse (e : cenv) (c : client) : list bytes := key_ids (map fst (ce_order e (c_use c))).
  Definition GetActiveGateways (e : cenv) (c : client) : list bytes := key_ids (map fst (ce_order e (c_active c))).

  (** filecoin_retrieval_client.go L213-245 [AddActiveGateways]: the number added and what was sent. *)
  Fixpoint AddActiveGateways (e : cenv) (n : nat) (c : client) (ids : list (option bytes))
      : outcome (Z * client * list (gostring * message)) :=
    match ids with
    | [] => Ret (0, c, [])
    | id :: t =>
        let* id := deref id in
        match aget bytes_eqb (c_active c) (ToString id) with
        | Some _ => AddActiveGateways e n c t
        | None =>
            match aget bytes_eqb (c_use c) (lower (ToString id)) with
            | None => AddActiveGateways e n c t
            | Some gw =>
                let challenge := rand_bytes (c_drawn c) in
                let c := drew c DrawBytes32 in
                let* x := RequestEstablishment e n gw challenge (c_id c) (ce_now e + c_ttl c) in
                let (ok, out) := x in
                if negb ok then
                  let* y := AddActiveGateways e (S n) c t in
                  let '(k, c, o) := y in Ret (k, c, out ++ o)
                else
                  let* y := AddActiveGateways e (S n) (with_active c (aset bytes_eqb (c_active c) (ToString id) gw)) t in
                  let '(k, c, o) := y in Ret (k + 1, c, out ++ o)
            end
        end
    end.

  (** filecoin_retrieval_client.go L248-262 [RemoveActiveGateways]. *)
  Fixpoint RemoveActiveGateways (c : client) (ids : list (option bytes)) : outcome (Z * client) :=
    match ids with
    | [] => Ret (0, c)
    | id :: t =>
        let* id := deref id in
        match aget bytes_eqb (c_active c) (ToString id) with
        | None => RemoveActiveGateways c t
        | Some _ =>
            let* y := RemoveActiveGateways (with_active c (adel bytes_eqb (c_active c) (ToString id))) t in
            Ret (fst y + 1, snd y)
        end
    end.

  (** filecoin_retrieval_client.go L265-273 [RemoveAllActiveGateways]. *)
  Definition RemoveAllActiveGateways (c : client) : Z * client := (Z.of_nat (length (c_active c)), with_active c []).

  (** ** Finding offers *)

  (** filecoin_retrieval_client.go L310-336, L391-416, L730-756: the checks of one offer. *)
  Definition check_offer (c : client) (s : suboffer) : outcome (bool * client) :=
    let* x := FindProvider c (s_provider s) in
    let (p, c) := x in
    match p with
    | None => Ret (false, c)
    | Some p =>
        let* ok := validateProviderInfo p in
        if negb ok then Ret (false, c)
        else
          let* k := GetSigningKey p in
          match k with
          | ErrR => Ret (false, c)
          | OkR k =>
              let* good := SubOfferVerify pub_of ec_verify blake s k in
              if negb good then Ret (false, c)
              else let* proven := VerifyMerkleProof sha256 s in Ret (proven, c)
          end
    end.

  (** filecoin_retrieval_client.go L389-421: the offers that pass the checks. *)
  Fixpoint check_offers (c : client) (l : list suboffer) : outcome (list suboffer * client) :=
    match l with
    | [] => Ret ([], c)
    | s :: t =>
        let* x := check_offer c s in
        let (ok, c) := x in
        let* y := check_offers c t in
        Ret (if ok then s :: fst y else fst y, snd y)
    end.

  (** filecoin_retrieval_client.go L294-340 [FindOffersStandardDiscovery]: the offers are checked, but all are
      returned. *)
  Definition FindOffersStandardDiscovery (e : cenv) (c : client) (contentID gatewayID : option bytes)
      : outcome (result (list suboffer) * client * list (gostring * message)) :=
    let* id := deref gatewayID in
    match aget bytes_eqb (c_active c) (ToString id) with
    | None => Ret (ErrR, c, [])
    | Some gw =>
        let nonce := rand_int (c_drawn c) in
        let c := drew c DrawInt63 in
        let* x := RequestStandardDiscover e 0 gw contentID nonce (ce_now e + c_ttl c) in
        let (r, out) := x in
        match r with
        | ErrR => Ret (ErrR, c, out)
        | OkR offers =>
            let* y := check_offers c (items offers) in
            Ret (OkR (items offers), snd y, out)
        end
    end.

  (** filecoin_retrieval_client.go L368-386, L481-502: the key of the gateway said to have been contacted, if it
      signed the response. *)
  Definition check_response (e : cenv) (n : nat) (c : client) (id : bytes) (resp : message) : outcome (option message * client) :=
    let* x := FindGateway e n c (Some id) in
    let (g, c) := x in
    match g with
    | None => Ret (None, c)
    | Some g =>
        let* ok := validateGatewayInfo g in
        if negb ok then Ret (None, c)
        else
          let* k := GetSigningKey g in
          match k with
          | ErrR => Ret (None, c)
          | OkR k =>
              let v := MessageVerify pub_of ec_verify blake resp k in
              Ret (if fst v then Some (snd v) else None, c)
          end
    end.

  (** filecoin_retrieval_client.go L362-424: the responses of the gateways, one by one. *)
  Fixpoint take_responses (e : cenv) (n : nat) (c : client) (l : list (bytes * message)) (res : list (gostring * list suboffer))
      : outcome (list (gostring * list suboffer) * client) :=
    match l with
    | [] => Ret (res, c)
    | (id, resp) :: t =>
        let* x := check_response e n c id resp in
        let (resp, c) := x in
        match resp with
        | None => take_responses e (S n) c t res
        | Some resp =>
            let* d := DecodeGatewayDHTDiscoverResponse sha256 resp in
            match d with
            | ErrR => take_responses e (S n) c t res
            | OkR (_, _, _, offers, _) =>
                let* y := check_offers c (items offers) in
                take_responses e (S n) (snd y) t (aset bytes_eqb res (ToString id) (fst y))
            end
        end
    end.

  (** filecoin_retrieval_client.go L343-427 [FindOffersDHTDiscovery]. *)
  Definition FindOffersDHTDiscovery (e : cenv) (c : client) (contentID gatewayID : option bytes) (numDHT : Z)
      : outcome (result (list (gostring * list suboffer)) * client * list (gostring * message)) :=
    let* id := deref gatewayID in
    match aget bytes_eqb (c_active c) (ToString id) with
    | None => Ret (ErrR, c, [])
    | Some gw =>
        let nonce := rand_int (c_drawn c) in
        let c := drew c DrawInt63 in
        let* x := RequestDHTDiscover e 0 gw contentID nonce (ce_now e + c_ttl c) numDHT in
        let (r, out) := x in
        match r with
        | ErrR => Ret (ErrR, c, out)
        | OkR (contacted, responses, _) =>
            let* y := take_responses e 0 c (combine contacted responses) [] in
            Ret (OkR (fst y), snd y, out)
        end
    end.

  (** filecoin_retrieval_client.go L477-514: the digests advertised, up to the limit.  [inl]: the call returns here.
      L506 panics for a negative limit. *)
  Fixpoint take_digests (e : cenv) (n : nat) (c : client) (l : list (bytes * message)) (limit added : Z)
      : outcome ((result (list (gostring * list suboffer)) + list (option (list gostring))) * client) :=
    match l with
    | [] => Ret (inr [], c)
    | (id, resp) :: t =>
        let* x := check_response e n c id resp in
        let (resp, c) := x in
        match resp with
        | None => take_digests e (S n) c t limit added
        | Some resp =>
            let* d := DecodeGatewayDHTDiscoverResponseV2 sha256 resp in
            match d with
            | ErrR => take_digests e (S n) c t limit added
            | OkR (_, _, found, digests, _, paymentRequired, _) =>
                if paymentRequired then Ret (inl ErrR, c)
                else if negb found then Ret (inl (OkR []), c)
                else
                  let* digests :=
                    (if added + Z.of_nat (length (items digests)) >? limit then
                       if limit - added <? 0 then Panic
                       else Ret (option_map (firstn (Z.to_nat (limit - added))) digests)
                     else Ret digests) in
                  let added := added + Z.of_nat (length (items digests)) in
                  if added >=? limit then Ret (inr [digests], c)
                  else
                    let* y := take_digests e (S n) c t limit added in
                    Ret (match fst y with inl r => inl r | inr ds => inr (digests :: ds) end, snd y)
            end
        end
    end.

  (** filecoin_retrieval_client.go L517-520: the number of digests. *)
  Fixpoint count_digests (l : list (option (list gostring))) : Z :=
    match l with [] => 0 | d :: t => Z.of_nat (length (items d)) + count_digests t end.

  (** filecoin_retrieval_client.go L558-560: [entry] is one variable for the whole loop (go 1.16 in client/go.mod),
      so all values of the map point to the sub-offers of the last entry. *)
  Definition by_gateway (l : list (bytes * list suboffer)) : list (gostring * list suboffer) :=
    fold_left (fun res entry => aset bytes_eqb res (ToString (fst entry)) (snd (last l entry))) l [].

  (** [nil] for an empty slice that nothing was appended to. *)
  Definition appended {A} (l : list A) : option (list A) := match l with [] => None | _ => Some l end.

  (** filecoin_retrieval_client.go L431-563 [FindOffersDHTDiscoveryV2]; L465 pays to the channel named by the
      gateway. *)
  Definition FindOffersDHTDiscoveryV2 (e : cenv) (c : client) (contentID gatewayID : option bytes) (numDHT limit : Z)
      : outcome (result (list (gostring * list suboffer)) * client * list (gostring * message)) :=
    let* id := deref gatewayID in
    match aget bytes_eqb (c_active c) (ToString id) with
    | None => Ret (ErrR, c, [])
    | Some gw =>
        let c := PaymentMgr e c in
        let* p := PayOrTopup e 0 c (r_address gw) (numDHT * defaultSearchPrice) in
        let (p, c) := p in
        match p with
        | ErrR => Ret (ErrR, c, [])
        | OkR (channel, text) =>
            let nonce := rand_int (c_drawn c) in
            let c := drew c DrawInt63 in
            let ttl := ce_now e + c_ttl c in
            let* x := RequestDHTDiscoverV2 e 0 gw contentID nonce ttl numDHT channel text in
            let (r, out) := x in
            match r with
            | ErrR => Ret (ErrR, c, out)
            | OkR (contacted, responses, paymentRequired, toTopup) =>
                let* again :=
                  (if paymentRequired then
                     let* p := TopupAndPay e 1 c toTopup (c_search c) in
                     let (p, c) := p in
                     match p with
                     | ErrR => Ret (ErrR, c, [])
                     | OkR (channel, text) =>
                         let* x := RequestDHTDiscoverV2 e 1 gw contentID nonce ttl numDHT channel text in
                         Ret (match fst x with ErrR => ErrR | OkR (ids, resps, _, _) => OkR (ids, resps) end, c, snd x)
                     end
                   else Ret (OkR (contacted, responses), c, [])) in
                let '(r, c, out2) := again in
                match r with
                | ErrR => Ret (ErrR, c, out ++ out2)
                | OkR (contacted, responses) =>
                    let* y := take_digests e 0 c (combine contacted responses) limit 0 in
                    let (y, c) := y in
                    match y with
                    | inl r => Ret (r, c, out ++ out2)
                    | inr digests =>
                        let c := PaymentMgr e c in
                        let* p := PayOrTopup e 2 c (r_address gw) (count_digests digests * c_offer c) in
                        let (p, c) := p in
                        match p with
                        | ErrR => Ret (ErrR, c, out ++ out2)
                        | OkR (channel, text) =>
                            let* z := RequestDHTOfferDiscover e 2 gw contacted contentID nonce (appended digests) channel text in
                            Ret (match fst z with ErrR => ErrR | OkR l => OkR (by_gateway l) end, c, out ++ out2 ++ snd z)
                        end
                    end
                end
            end
        end
    end.

  (** filecoin_retrieval_client.go L729-763: the offers that pass the checks, up to the maximum; the number is
      compared after adding. *)
  Fixpoint take_offers (c : client) (l : list suboffer) (taken max : Z) : outcome (list suboffer * client) :=
    match l with
    | [] => Ret ([], c)
    | s :: t =>
        let* x := check_offer c s in
        let (ok, c) := x in
        if ok then
          if taken + 1 =? max then Ret ([s], c)
          else let* y := take_offers c t (taken + 1) max in Ret (s :: fst y, snd y)
        else take_offers c t taken max
    end.

  (** filecoin_retrieval_client.go L647-766 [FindOffersStandardDiscoveryV2]: L660 uses the payment manager without
      making it; L708 panics for a negative maximum; the error of L728 is not returned. *)
  Definition FindOffersStandardDiscoveryV2 (e : cenv) (c : client) (contentID gatewayID : option bytes) (maxOffers : Z)
      : outcome (result (list suboffer) * client * list (gostring * message)) :=
    let* id := deref gatewayID in
    match aget bytes_eqb (c_active c) (ToString id) with
    | None => Ret (ErrR, c, [])
    | Some gw =>
        let* p := PayOrTopup e 0 c (r_address gw) (c_search c) in
        let (p, c) := p in
        match p with
        | ErrR => Ret (ErrR, c, [])
        | OkR (channel, text) =>
            let nonce := rand_int (c_drawn c) in
            let c := drew c DrawInt63 in
            let* x := RequestStandardDiscoverV2 e 0 gw contentID nonce (ce_now e + c_ttl c) channel text in
            let (r, out) := x in
            match r with
            | ErrR => Ret (ErrR, c, out)
            | OkR (digests, paymentRequired) =>
                let* again :=
                  (if paymentRequired then
                     let* p := TopupAndPay e 1 c (r_address gw) (c_search c) in
                     let (p, c) := p in
                     match p with
                     | ErrR => Ret (ErrR, c, [])
                     | OkR (channel, text) =>
                         let nonce := rand_int (c_drawn c) in
                         let c := drew c DrawInt63 in
                         let* x := RequestStandardDiscoverV2 e 1 gw contentID nonce (ce_now e + c_ttl c) channel text in
                         Ret (match fst x with ErrR => ErrR | OkR (d, _) => OkR d end, c, snd x)
                     end
                   else Ret (OkR digests, c, [])) in
                let '(r, c, out2) := again in
                match r with
                | ErrR => Ret (ErrR, c, out ++ out2)
                | OkR digests =>
                    if Nat.eqb (length (items digests)) 0 then Ret (OkR [], c, out ++ out2)
                    else
                      let* digests :=
                        (if Z.of_nat (length (items digests)) >? maxOffers then
                           if maxOffers <? 0 then Panic else Ret (option_map (firstn (Z.to_nat maxOffers)) digests)
                         else Ret digests) in
                      let* p := PayOrTopup e 2 c (r_address gw) (Z.of_nat (length (items digests)) * c_offer c) in
                      let (p, c) := p in
                      match p with
                      | ErrR => Ret (ErrR, c, out ++ out2)
                      | OkR (channel, text) =>
                          let nonce := rand_int (c_drawn c) in
                          let c := drew c DrawInt63 in
                          let* z := RequestStandardDiscoverOffer e 2 gw contentID nonce (ce_now e + c_ttl c) digests channel text in
                          let offers := match fst z with OkR l => items l | ErrR => [] end in
                          let* y := take_offers c offers 0 maxOffers in
                          Ret (OkR (fst y), snd y, out ++ out2 ++ snd z)
                      end
                end
            end
        end
    end.

  (** filecoin_retrieval_client.go L566-644 [FindDHTOfferAck]; each published offer has an identifier (checked when
      decoding). *)
  Definition FindDHTOfferAck (e : cenv) (c : client) (contentID gatewayID providerID : option bytes)
      : outcome (result bool * client * list (gostring * message)) :=
    let* x := FindProvider c providerID in
    let (p, c) := x in
    match p with
    | None => Ret (ErrR, c, [])
    | Some p =>
        let* ok := validateProviderInfo p in
        if negb ok then Ret (ErrR, c, [])
        else
          let* x := RequestDHTOfferAck e 0 p contentID gatewayID in
          let (r, out) := x in
          match r with
          | ErrR => Ret (ErrR, c, out)
          | OkR (false, _, _) => Ret (OkR false, c, out)
          | OkR (true, request, ack) =>
              let* x := FindGateway e 0 c gatewayID in
              let (g, c) := x in
              match g with
              | None => Ret (ErrR, c, out)
              | Some g =>
                  let* ok := validateGatewayInfo g in
                  if negb ok then Ret (ErrR, c, out)
                  else
                    let* gk := GetSigningKey g in
                    let* pk := GetSigningKey p in
                    match gk, pk with
                    | OkR gk, OkR pk =>
                        let* request := deref request in
                        let v := MessageVerify pub_of ec_verify blake request pk in
                        if negb (fst v) then Ret (ErrR, c, out)
                        else
                          let* d := DecodeProviderPublishDHTOfferRequest sha256 (snd v) in
                          match d with
                          | ErrR => Ret (ErrR, c, out)
                          | OkR (_, _, offers) =>
                              let* contentID := deref contentID in
                              if negb (existsb (fun o => match o_cids o with
                                                         | i :: _ => bytes_eqb (ToString i) (ToString contentID)
                                                         | [] => false
                                                         end) (items offers))
                              then Ret (ErrR, c, out)
                              else
                                let* ack := deref ack in
                                let w := MessageVerify pub_of ec_verify blake ack gk in
                                if negb (fst w) then Ret (ErrR, c, out)
                                else
                                  let* d := DecodeProviderPublishDHTOfferResponse sha256 (snd w) in
                                  match d with
                                  | ErrR => Ret (ErrR, c, out)
                                  | OkR (_, signature) =>
                                      match fst (VerifyMessage pub_of ec_verify blake gk signature (slice (m_body (snd v)))) with
                                      | ErrR => Ret (ErrR, c, out)
                                      | OkR ok => Ret (OkR ok, c, out)
                                      end
                                  end
                          end
                    | _, _ => Ret (ErrR, c, out)
                    end
              end
          end
    end.
End client.
