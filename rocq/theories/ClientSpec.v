(** * What is expected of the client library *)
From Coq Require Import List ZArith Bool.
From Coq Require Import Init.Byte.
From Verif Require Import Base Ids Json Crypto Message Offer Schema Messages Payment PaymentSpec Register GatewaySpec Client.
Import ListNotations.
Open Scope Z_scope.

(** Registrations: known to the client's register manager before the call, or answered by the
    register service during it. *)
Definition gateway_known (e : cenv) (c : client) (id : gostring) (r : reg) : Prop :=
  aget bytes_eqb (gatewaysMap reg (c_reg c)) id = Some r \/
  exists n l, ce_gateways e n = Some l /\ In (Some r) l /\ r_id r = id.
Definition provider_known (e : cenv) (c : client) (id : gostring) (r : reg) : Prop :=
  aget bytes_eqb (providersMap reg (c_reg c)) id = Some r \/
  exists n l, ce_providers e n = Some l /\ In (Some r) l /\ r_id r = id.

(** The manager keeps registrations under the identifiers they name. *)
Definition filed (m : manager reg) : Prop :=
  (forall id r, aget bytes_eqb (gatewaysMap reg m) id = Some r -> r_id r = id) /\
  (forall id r, aget bytes_eqb (providersMap reg m) id = Some r -> r_id r = id).

(** A registration with everything filled in and readable keys. *)
Definition complete (r : reg) : Prop :=
  r_id r <> [] /\ r_address r <> [] /\ r_region r <> [] /\ r_gateway_ap r <> [] /\ r_provider_ap r <> [] /\
  r_client_ap r <> [] /\ r_admin_ap r <> [] /\
  (exists k, DecodePublicKey (r_root r) = Ret (OkR k)) /\ (exists k, DecodePublicKey (r_key r) = Ret (OkR k)).

Definition complete_provider (r : reg) : Prop :=
  r_id r <> [] /\ r_address r <> [] /\ r_region r <> [] /\ r_gateway_ap r <> [] /\
  r_client_ap r <> [] /\ r_admin_ap r <> [] /\
  (exists k, DecodePublicKey (r_root r) = Ret (OkR k)) /\ (exists k, DecodePublicKey (r_key r) = Ret (OkR k)).

Definition client_settings (c : client) := (c_id c, c_ttl c, c_search c, c_offer c, c_topup c).

(** The payment manager the client uses: the one it has or a new one. *)
Definition wallet (e : cenv) (c : client) : option mgr :=
  match c_pay c with Some m => Some m | None => option_map NewMgr (ce_wallet e) end.

(** Payments made: recipient, lane, amount, channel and voucher. *)
Definition payment : Type := gostring * Z * Z * gostring * voucher.
Definition to_whom (x : payment) : gostring := fst (fst (fst (fst x))).
Definition how_much (x : payment) : Z := snd (fst (fst x)).
Definition spent (e : cenv) (c c' : client) (l : list payment) : Prop :=
  (l = [] /\ c_pay c' = c_pay c) \/
  exists m m', wallet e c = Some m /\ c_pay c' = Some m' /\ pay_trace m m' l.

(** What a standard discovery may pay a gateway: the price of a search once or twice, and then for
    at most [max] offers. *)
Definition standard_bill (c : client) (gw : reg) (max : Z) (l : list payment) : Prop :=
  exists a b, l = a ++ b /\ (length a <= 2)%nat /\
    Forall (fun x => to_whom x = r_address gw /\ how_much x = c_search c) a /\
    (b = [] \/ exists x k, b = [x] /\ to_whom x = r_address gw /\ how_much x = k * c_offer c /\ 0 <= k <= max).

(** What a discovery through a gateway may pay: for the search of [num] gateways, once more the price of a
    search when asked to, and then for at most [limit] offers. *)
Definition dht_bill (c : client) (gw : reg) (num limit : Z) (l : list payment) : Prop :=
  exists a b d, l = a ++ b ++ d /\
    (a = [] \/ exists x, a = [x] /\ to_whom x = r_address gw /\ how_much x = num * defaultSearchPrice) /\
    (b = [] \/ exists x, b = [x] /\ how_much x = c_search c) /\
    (d = [] \/ exists x k, d = [x] /\ to_whom x = r_address gw /\ how_much x = k * c_offer c /\ 0 <= k <= Z.max 0 limit).

(** The identifiers of those of these gateways that are in this region. *)
Definition nearby (location : gostring) (l : list reg) : list bytes :=
  flat_map (fun r => match NewNodeIDFromHexString (r_id r) with OkR id => [id] | ErrR => [] end)
    (filter (fun r => bytes_eqb (r_region r) location) l).

(** Among the gateways named in a call. *)
Definition named (ids : list (option bytes)) (id : gostring) : Prop := exists i, In (Some i) ids /\ id = ToString i.

(** The calls of the library. *)
Inductive call :=
| CFindGateways (location : gostring) (max : Z)
| CAddGateways (ids : list (option bytes))
| CRemoveGateways (ids : list (option bytes))
| CRemoveAllGateways
| CAddActive (ids : list (option bytes))
| CRemoveActive (ids : list (option bytes))
| CRemoveAllActive
| CFindStandard (contentID gatewayID : option bytes)
| CFindStandardV2 (contentID gatewayID : option bytes) (max : Z)
| CFindDHT (contentID gatewayID : option bytes) (num : Z)
| CFindDHTV2 (contentID gatewayID : option bytes) (num limit : Z)
| CFindAck (contentID gatewayID providerID : option bytes).

Section spec.
  Variable version : Z.
  Variable supported : list Z.
  Variable sha256 : bytes -> bytes.
  Variable pub_of : bytes -> bytes.
  Variable ec_verify : bytes -> bytes -> bytes -> bool.
  Variable blake : bytes -> bytes.
  Variable voucher_text : voucher -> gostring.
  Variable rand_int : list draw -> Z.
  Variable rand_bytes : list draw -> bytes.

  (** Signed with the key of the registration. *)
  Definition signed_by (r : reg) (m : message) : Prop :=
    exists k, DecodePublicKey (r_key r) = Ret (OkR k) /\ fst (MessageVerify pub_of ec_verify blake m k) = true.

  (** The registered node answered this request with a message signed with its key. *)
  Definition answered (e : cenv) (n : nat) (r : reg) (request response : message) : Prop :=
    ce_http e n (r_client_ap r) request = Some response /\ signed_by r response.

  (** The sub-offer carries the signature of a registered provider and its content is in the
      offer signed. *)
  Definition proven (e : cenv) (c : client) (s : suboffer) : Prop :=
    exists id p k, s_provider s = Some id /\ provider_known e c (ToString id) p /\
      DecodePublicKey (r_key p) = Ret (OkR k) /\ SubOfferVerify pub_of ec_verify blake s k = Ret true /\
      VerifyMerkleProof sha256 s = Ret true.

  (** A search request, or a request of offers, with the channel and voucher of a payment; offers are paid for by the
      number asked. *)
  Definition search_with (cid : option bytes) (x : payment) (m : message) : Prop :=
    match x with (_, _, _, ch, v) =>
      exists nonce ttl, EncodeClientStandardDiscoverRequestV2 version supported cid nonce ttl ch (voucher_text v) = Ret m end.
  Definition offers_with (cid : option bytes) (price : Z) (x : payment) (m : message) : Prop :=
    match x with (_, _, amount, ch, v) =>
      exists nonce ttl ds, EncodeClientStandardDiscoverOfferRequest version supported cid nonce ttl ds ch (voucher_text v) = Ret m /\
        amount = Z.of_nat (length (items ds)) * price end.
  (** Everything sent went to the gateway and carried such a voucher. *)
  Definition all_paid (c : client) (gw : reg) (cid : option bytes) (l : list payment) (out : list (gostring * message)) : Prop :=
    forall url m, In (url, m) out -> url = r_client_ap gw /\ exists x, In x l /\ (search_with cid x m \/ offers_with cid (c_offer c) x m).

  (** The offers come from the gateway's signed answer to a request of offers for this content. *)
  Definition from_answer (e : cenv) (gw : reg) (cid : bytes) (out : list (gostring * message)) (offers : list suboffer) : Prop :=
    exists request response i nonce found l funded topup, In (r_client_ap gw, request) out /\ answered e 2 gw request response /\
      DecodeClientStandardDiscoverOfferResponse sha256 response = Ret (OkR (Some i, nonce, found, l, funded, false, topup)) /\
      ToString i = ToString cid /\ offers = items l.

  (** The offers a client should take: of a provider in its register manager with a complete registration, and
      proven. *)
  Definition acceptable (c : client) (s : suboffer) : Prop :=
    start reg (c_reg c) = true /\ providerDiscv reg (c_reg c) = true /\
    exists id p k, s_provider s = Some id /\ aget bytes_eqb (providersMap reg (c_reg c)) (ToString id) = Some p /\
      complete_provider p /\ DecodePublicKey (r_key p) = Ret (OkR k) /\
      SubOfferVerify pub_of ec_verify blake s k = Ret true /\ VerifyMerkleProof sha256 s = Ret true.

  (** What remains of a list after dropping the offers that are not acceptable. *)
  Inductive sifted (c : client) : list suboffer -> list suboffer -> Prop :=
  | sifted_nil : sifted c [] []
  | sifted_keep s l r : acceptable c s -> sifted c l r -> sifted c (s :: l) (s :: r)
  | sifted_drop s l r : ~ acceptable c s -> sifted c l r -> sifted c (s :: l) r.

  (** A gateway proves who it is: asked with a challenge, it answers with a signed message naming itself and
      the challenge. *)
  Definition authenticates (e : cenv) (r : reg) (challenge : bytes) : Prop :=
    exists n clientID ttl request response id,
      EncodeClientEstablishmentRequest version supported clientID (b64_encode challenge) ttl = Ret request /\
      ce_http e n (r_client_ap r) request = Some response /\ signed_by r response /\
      DecodeClientEstablishmentResponse sha256 response = Ret (OkR (Some id, b64_encode challenge)) /\
      ToString id = r_id r.

  (** Each establishment request carries what is drawn next, and nothing drawn before. *)
  Inductive challenges (i : option bytes) (ttl : Z) : list draw -> list (gostring * message) -> list draw -> Prop :=
  | challenges_nil d : challenges i ttl d [] d
  | challenges_send d url m l d' : EncodeClientEstablishmentRequest version supported i (b64_encode (rand_bytes d)) ttl = Ret m ->
      challenges i ttl (DrawBytes32 :: d) l d' -> challenges i ttl d ((url, m) :: l) d'
  | challenges_none d l d' : challenges i ttl (DrawBytes32 :: d) l d' -> challenges i ttl d l d'.

  (** A gateway's signed answer with these sub-offers. *)
  Definition advertised (e : cenv) (c : client) (id : bytes) (resp : message) (l : list suboffer) : Prop :=
    exists r cid nonce found funded offers, gateway_known e c (ToString id) r /\ signed_by r resp /\
      DecodeGatewayDHTDiscoverResponse sha256 resp = Ret (OkR (cid, nonce, found, offers, funded)) /\ l = items offers.

  (** A gateway's signed answer begins with these digests. *)
  Definition advertised_digests (e : cenv) (c : client) (x : bytes * message) (ds : option (list gostring)) : Prop :=
    exists r cid nonce all funded topup, gateway_known e c (ToString (fst x)) r /\ signed_by r (snd x) /\
      DecodeGatewayDHTDiscoverResponseV2 sha256 (snd x) = Ret (OkR (cid, nonce, true, all, funded, false, topup)) /\
      exists k, items ds = firstn k (items all).

  (** Digests taken from some of the answers, in order. *)
  Inductive picked (e : cenv) (c : client) : list (bytes * message) -> list (option (list gostring)) -> Prop :=
  | picked_end l : picked e c l []
  | picked_take x l d ds : advertised_digests e c x d -> picked e c l ds -> picked e c (x :: l) (d :: ds)
  | picked_skip x l ds : picked e c l ds -> picked e c (x :: l) ds.

  (** The sub-offers in a gateway's answer, as passed on. *)
  Definition returned (x : bytes * message) (offers : list suboffer) : Prop :=
    exists cid nonce l funded topup,
      DecodeGatewayDHTDiscoverOfferResponse sha256 (snd x) = Ret (OkR (cid, nonce, true, l, funded, false, topup)) /\ offers = items l.

  (** A request of offers to gateways through a gateway, with the channel and voucher of a payment. *)
  Definition gathers_with (cid : option bytes) (price : Z) (ids : list bytes) (ds : list (option (list gostring))) (x : payment) (m : message) : Prop :=
    match x with (_, _, amount, ch, v) =>
      exists nonce, EncodeClientDHTDiscoverOfferRequest version supported cid nonce (appended ds) ids ch (voucher_text v) = Ret m /\
        amount = count_digests ds * price end.
  Definition dht_search_with (cid : option bytes) (num : Z) (x : payment) (m : message) : Prop :=
    match x with (_, _, _, ch, v) =>
      exists nonce ttl, EncodeClientDHTDiscoverRequestV2 version supported cid nonce ttl num false ch (voucher_text v) = Ret m end.

  (** Everything sent went to the gateway and carried such a voucher. *)
  Definition offered_to (c : client) (gw : reg) (cid : option bytes) (num : Z) (l : list payment) (out : list (gostring * message)) : Prop :=
    forall url m, In (url, m) out -> url = r_client_ap gw /\ exists x, In x l /\
      (dht_search_with cid num x m \/ exists ids ds, gathers_with cid (c_offer c) ids ds x m).

  (** A provider's signed publication of the content, countersigned by the gateway. *)
  Definition countersigned (p g : reg) (contentID : bytes) : Prop :=
    exists request pid nonce l o i ack nonce' signature gk,
      signed_by p request /\ DecodeProviderPublishDHTOfferRequest sha256 request = Ret (OkR (pid, nonce, Some l)) /\
      In o l /\ o_cids o = [i] /\ ToString i = ToString contentID /\
      signed_by g ack /\ DecodeProviderPublishDHTOfferResponse sha256 ack = Ret (OkR (nonce', signature)) /\
      DecodePublicKey (r_key g) = Ret (OkR gk) /\
      fst (VerifyMessage pub_of ec_verify blake gk signature (slice (m_body request))) = OkR true.

  (** A call: the client afterwards and what was sent. *)
  Definition perform (e : cenv) (c : client) (k : call) : outcome (client * list (gostring * message)) :=
    (match k with
    | CFindGateways l n => let* x := FindGateways e c l n in Ret (snd x, [])
    | CAddGateways ids => let* x := AddGatewaysToUse e 0 c ids in Ret (snd x, [])
    | CRemoveGateways ids => let* x := RemoveGatewaysToUse c ids in Ret (snd x, [])
    | CRemoveAllGateways => Ret (snd (RemoveAllGatewaysToUse c), [])
    | CAddActive ids =>
        let* x := AddActiveGateways version supported sha256 pub_of ec_verify blake rand_bytes e 0 c ids in
        Ret (snd (fst x), snd x)
    | CRemoveActive ids => let* x := RemoveActiveGateways c ids in Ret (snd x, [])
    | CRemoveAllActive => Ret (snd (RemoveAllActiveGateways c), [])
    | CFindStandard i g =>
        let* x := FindOffersStandardDiscovery version supported sha256 pub_of ec_verify blake rand_int e c i g in
        Ret (snd (fst x), snd x)
    | CFindStandardV2 i g n =>
        let* x := FindOffersStandardDiscoveryV2 version supported sha256 pub_of ec_verify blake voucher_text rand_int e c i g n in
        Ret (snd (fst x), snd x)
    | CFindDHT i g n =>
        let* x := FindOffersDHTDiscovery version supported sha256 pub_of ec_verify blake rand_int e c i g n in
        Ret (snd (fst x), snd x)
    | CFindDHTV2 i g n l =>
        let* x := FindOffersDHTDiscoveryV2 version supported sha256 pub_of ec_verify blake voucher_text rand_int e c i g n l in
        Ret (snd (fst x), snd x)
    | CFindAck i g p =>
        let* x := FindDHTOfferAck version supported sha256 pub_of ec_verify blake e c i g p in
        Ret (snd (fst x), snd x)
    end)%go.

  (** A life of a client: calls one after another, before each of which the register manager may have changed in
      any way. *)
  Definition calls := list (manager reg * cenv * call).
  Fixpoint use_through (c : client) (h : calls) : outcome client :=
    match h with
    | [] => Ret c
    | (m, e, k) :: t => obind (perform e (with_manager c m) k) (fun x => use_through (fst x) t)
    end.

  (** At the time of a call: the gateway is registered, and it proves who it is. *)
  Definition registered_at (x : manager reg * cenv * call) (id : gostring) (r : reg) : Prop :=
    aget bytes_eqb (gatewaysMap reg (fst (fst x))) id = Some r \/
    exists n l, ce_gateways (snd (fst x)) n = Some l /\ In (Some r) l /\ r_id r = id.
  Definition authenticated_at (x : manager reg * cenv * call) (r : reg) : Prop :=
    exists ds, length (rand_bytes ds) = 32%nat /\ authenticates (snd (fst x)) r (rand_bytes ds).
End spec.
