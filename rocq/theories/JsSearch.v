(** * The client written in TypeScript: searches

    Models client-js/src: the searches of FilecoinRetrievalClient.ts, clientapi/standard_discover_requester_v2.ts,
    standard_discover_offer_requester.ts, find_offers_dht_discovery_v2.ts, request_dht_offer_discover.ts, dht_offer_ack_requester.ts,
    fcrMessages/client_standard_discover_offer.message.ts and client_dht_offer_ack.ts.  Definitions only.

    As in [JsClient], an exception or a rejected promise is [ErrR] and what is undefined is [None].  Some of the functions are
    stubs in the source and are modelled as they are.  Paying is that of [JsPayment]; the answers to a top-up that a search starts
    come later.  The parts of values of other types, such as the length of a string, are not modelled by [js_get]. *)
From Coq Require Import String List ZArith Bool.
From Coq Require Import Init.Byte.
From Verif Require Import Base Json Client Http Payment JsPayment JsClient.
Import ListNotations.
Open Scope Z_scope.

(** ** Values *)

(** [v.toString()]: throws for what is undefined or null, and for an object with a property of this name, which is data. *)
Definition js_toString (v : option json) : result gostring :=
  match v with
  | None | Some JNull => ErrR
  | Some (JObj l) => if existsb (fun kv => bytes_eqb (fst kv) (gs "toString")) l then ErrR else OkR (gs "[object Object]")
  | Some j => OkR (js_text j)
  end.

(** cid/cid.interface.ts L1-3: what is given as the content, an object with the identifier. *)
Definition content_id (id : gostring) : json := JObj [(gs "id", JStr id)].

(** The values a [for ... of] goes through: the elements of an array, the characters of a string; other values throw. *)
Definition iterate (v : option json) : result (list json) :=
  match v with
  | Some (JArr l) => OkR l
  | Some (JStr s) => OkR (map (fun c => JStr [c]) s)
  | _ => ErrR
  end.

(** [v.name()] for a value that was read from JSON text: [v.name] is data or undefined, which cannot be called. *)
Definition call_method (v : json) (name : gostring) : result gostring := ErrR.

(** ** Messages *)

(** clientapi/standard_discover_requester_v2.ts L43-56 [encodeClientStandardDiscoverRequestV2]: the body is empty. *)
Definition encodeClientStandardDiscoverRequestV2 : jsmsg := new_message (Some (JNum 108)) None None (Some (JStr (b64_encode []))) None.

(** clientapi/standard_discover_requester_v2.ts L37-41, L26: the digests of the answer, which is not looked at. *)
Definition responded_digests : option json := None.

(** fcrMessages/client_standard_discover_offer.message.ts L23-44 [encodeClientStandardDiscoverOfferRequest]. *)
Definition encodeClientStandardDiscoverOfferRequest (pieceCID : json) (nonce ttl : Z) (digests paychAddr voucher : option json) : jsmsg :=
  let body := js_print (js_object [(gs "pieceCID", Some pieceCID); (gs "nonce", Some (JNum nonce)); (gs "ttl", Some (JNum ttl));
                                   (gs "offerDigests", digests); (gs "paychAddr", paychAddr); (gs "voucher", voucher)]) in
  new_message (Some (JNum 110)) None None (Some (JStr (b64_encode body))) None.

(** fcrMessages/client_standard_discover_offer.message.ts L46-62 [decodeClientStandardDiscoverOfferResponse]: content, nonce and
    offers.  The body is parsed as it came, not decoded from base64 first. *)
Definition decodeClientStandardDiscoverOfferResponse (m : jsmsg) : result (option json * option json * option json) :=
  match j_type m, j_body m with
  | Some (JNum t), Some body =>
      if t =? 111 then
        match json_parse (js_text body) with
        | Some j =>
            match js_get j (gs "pieceCID"), js_get j (gs "nonce"), js_get j (gs "subCIDOffers") with
            | OkR c, OkR n, OkR o => OkR (c, n, o)
            | _, _, _ => ErrR
            end
        | None => ErrR
        end
      else ErrR
  | _, _ => ErrR
  end.

Section crypto.
  Variable js_ec : bytes -> bytes -> bytes -> bool.
  Variable blake : bytes -> bytes.
  (** The text the signing library gives for a voucher. *)
  Variable library_text : voucher -> gostring.

  (** clientapi/standard_discover_requester_v2.ts L8-27 [requestStandardDiscoverV2]: a verification that fails is not noticed, one
      that throws is. *)
  Definition requestStandardDiscoverV2 (post : gostring -> bytes -> option response) (gw : reg) : result (option json) :=
    match sendMessage post (r_client_ap gw) encodeClientStandardDiscoverRequestV2 with
    | ErrR => ErrR
    | OkR response =>
        match decodePublicKey (r_key gw) with
        | ErrR => ErrR
        | OkR pub => match js_verify js_ec blake response pub with ErrR => ErrR | OkR _ => OkR responded_digests end
        end
    end.

  (** clientapi/standard_discover_offer_requester.ts L10-58 [requestStandardDiscoverOffer]. *)
  Definition requestStandardDiscoverOffer (post : gostring -> bytes -> option response) (gw : reg) (content : json) (nonce ttl : Z)
      (digests paychAddr voucher : option json) : result (option json) :=
    match sendMessage post (r_client_ap gw) (encodeClientStandardDiscoverOfferRequest content nonce ttl digests paychAddr voucher) with
    | ErrR => ErrR
    | OkR response =>
        match decodePublicKey (r_key gw) with
        | ErrR => ErrR
        | OkR pub =>
            match js_verify js_ec blake response pub with
            | OkR true =>
                match decodeClientStandardDiscoverOfferResponse response with
                | OkR (c, n, offers) =>
                    match js_toString c, js_toString (Some content) with
                    | OkR a, OkR b => if bytes_eqb a b then match n with Some (JNum z) => if z =? nonce then OkR offers else ErrR | _ => ErrR end else ErrR
                    | _, _ => ErrR
                    end
                | ErrR => ErrR
                end
            | _ => ErrR
            end
        end
    end.

  (** FilecoinRetrievalClient.ts L300-318: the offers kept.  [find] is the register (register/register.service.ts L41-47
      [getProviderByID]).  Verifying is a call of a method too; in the class of offers those are stubs
      (cidoffer/subcidoffer.class.ts L75-79). *)
  Fixpoint keep_offers (find : gostring -> option reg) (max : Z) (kept : list json) (l : list json) : result (list json) :=
    match l with
    | [] => OkR kept
    | o :: t =>
        match call_method o (gs "getProviderID") with
        | ErrR => ErrR
        | OkR id =>
            match find id with
            | None => ErrR
            | Some _ =>
                match call_method o (gs "verify"), call_method o (gs "verifyMerkleProof") with
                | OkR _, OkR _ => if Z.of_nat (length (kept ++ [o])) >=? max then OkR (kept ++ [o]) else keep_offers find max (kept ++ [o]) t
                | _, _ => ErrR
                end
            end
        end
    end.

  (** fcrPaymentMgr/payment_manager.class.ts L141-185: the field [voucher] of a result; empty unless paid. *)
  Definition paid_voucher (p : pay_res) : option json :=
    match p with Paid _ v => Some (JStr (js_voucher_text (library_text v))) | _ => Some (JStr []) end.
  (** The field [paychAddrs] of a result (FilecoinRetrievalClient.ts L139, L207, L286 and L296), which has none: the channel's
      address is in the field [paychAddr]. *)
  Definition paid_channel (p : pay_res) : option json := None.

  (** What a search leaves behind: the payment manager, the requests sent, and the result: thrown, or what is returned. *)
  Record outcome_of (A : Type) := Searched { s_mgr : jsmgr; s_sent : list (gostring * bytes); s_result : result A }.
  Arguments Searched {A}. Arguments s_mgr {A}. Arguments s_sent {A}. Arguments s_result {A}.

  (** FilecoinRetrievalClient.ts L267-319 [findOffersStandardDiscoveryV2].  [post n] is the connection at request [n], [nonce n]
      the random number drawn for it.  A manager has been set (the constructor leaves an object that cannot pay). *)
  Definition findOffersStandardDiscoveryV2 (post : nat -> gostring -> bytes -> option response) (find : gostring -> option reg)
      (sg : voucher -> option bytes) (price cfg : Z) (active : list (gostring * reg)) (mgr : jsmgr) (nonce : nat -> Z) (now : Z)
      (cid : json) (id : gostring) (max : Z) : outcome_of (option (list json)) :=
    match aget bytes_eqb active id with
    | None => Searched mgr [] (OkR None)
    | Some gw =>
        let (mgr, p) := js_search_pay mgr (r_address gw) (r_id gw) 0 price cfg sg in
        let first := (r_client_ap gw, message_text encodeClientStandardDiscoverRequestV2) in
        match requestStandardDiscoverV2 (post 0%nat) gw with
        | ErrR => Searched mgr [first] ErrR
        | OkR digests =>
            let second := (r_client_ap gw,
              message_text (encodeClientStandardDiscoverOfferRequest cid (nonce 1%nat) now digests (paid_channel p) (paid_voucher p))) in
            Searched mgr [first; second]
              match requestStandardDiscoverOffer (post 1%nat) gw cid (nonce 1%nat) now digests (paid_channel p) (paid_voucher p) with
              | ErrR => ErrR
              | OkR offers =>
                  match iterate offers with
                  | ErrR => ErrR
                  | OkR l => match keep_offers find max [] l with OkR kept => OkR (Some kept) | ErrR => ErrR end
                  end
              end
        end
    end.

  (** clientapi/find_offers_dht_discovery_v2.ts L12-27 and clientapi/request_dht_offer_discover.ts L11-21: nothing is sent; no
      gateway was contacted, and there are no offers. *)
  Definition requestDHTDiscoverV2 : list (gostring * jsmsg) := [].
  Definition requestDHTOfferDiscover : list (gostring * list json) := [].

  (** FilecoinRetrievalClient.ts L103-216 [findOffersDHTDiscoveryV2]: the offers by gateway.  The loop of L145-181 is over the
      gateways contacted, none; so it adds no digests. *)
  Definition findOffersDHTDiscoveryV2 (sg : voucher -> option bytes) (price cfg : Z) (active : list (gostring * reg)) (mgr : jsmgr)
      (cid : json) (id : gostring) (numDHT : Z) : outcome_of (list (gostring * list json)) :=
    match aget bytes_eqb active id with
    | None => Searched mgr [] (OkR [])
    | Some gw =>
        let (mgr, p) := js_search_pay mgr (r_address gw) (r_address gw) 0 (numDHT * price) cfg sg in
        match p with
        | NeedTopup => Searched mgr [] (OkR [])
        | _ =>
            let (mgr, p) := js_search_pay mgr (r_address gw) (r_address gw) 0 (numDHT * price) cfg sg in
            match p with
            | NeedTopup => Searched mgr [] (OkR [])
            | _ => Searched mgr [] (OkR (fold_left (fun m e => aset bytes_eqb m (fst e) (snd e)) requestDHTOfferDiscover []))
            end
        end
    end.

  (** clientapi/dht_offer_ack_requester.ts L11-27 [requestDHTOfferAck] with fcrMessages/client_dht_offer_ack.ts L18-20 and L29-31:
      an empty object is sent; of the answer nothing is looked at, and what was found is undefined. *)
  Definition requestDHTOfferAck (post : gostring -> bytes -> option response) (provider : reg) : result (option json) :=
    match sendMessage post (r_client_ap provider) (JsMsg None None None None None) with
    | ErrR => ErrR
    | OkR response =>
        match decodePublicKey (r_key provider) with
        | ErrR => ErrR
        | OkR pub => match js_verify js_ec blake response pub with ErrR => ErrR | OkR _ => OkR None end
        end
    end.

  (** What counts as true. *)
  Definition truthy (v : option json) : bool :=
    match v with
    | None | Some JNull | Some (JBool false) | Some (JStr []) => false
    | Some (JNum z) => negb (z =? 0)
    | _ => true
    end.

  (** FilecoinRetrievalClient.ts L222-265 [FindDHTOfferAck]: if something was found, L248-254 throw in any case, if nothing before
      has.  [find_provider], [find_gateway] are the register. *)
  Definition FindDHTOfferAck (post : gostring -> bytes -> option response) (find_provider : gostring -> option reg)
      (id : gostring) : result bool :=
    match find_provider id with
    | None => ErrR
    | Some provider =>
        if validateInfo provider then
          match requestDHTOfferAck post provider with
          | ErrR => ErrR
          | OkR found => if truthy found then ErrR else OkR false
          end
        else ErrR
    end.
End crypto.
Arguments Searched {A}. Arguments s_mgr {A}. Arguments s_sent {A}. Arguments s_result {A}.
