(** * What is expected of the gateway's handlers *)
From Coq Require Import List ZArith Bool.
From Coq Require Import Init.Byte.
From Verif Require Import Base Ids Crypto Message Offer Schema Messages WireSpec Payment PaymentSpec Register OfferStoreSpec SqlOffers SqlOffersSpec Rest Gateway.
Import ListNotations.
Open Scope Z_scope.

(** What the operator configures. *)
Definition settings (g : gateway) := (g_id g, g_key g, g_ver g, g_search g, g_offer g, g_topup g).

(** The requests a gateway serves. *)
Inductive request_kind :=
| Establishment | StandardDiscover | StandardDiscoverV2 | StandardOffer | DHTDiscover | DHTDiscoverV2 | DHTOffer
| GatewayDiscover | GatewayDiscoverV2 | GatewayOffer | PublishGroup | PublishDHT.

(** Registration of a gateway: known before, or answered by the register service during
    the call. *)
Definition listed (e : env) (g : gateway) (id : bytes) (i : info) : Prop :=
  aget bytes_eqb (gatewaysMap info (g_reg g)) (ToString id) = Some i \/
  exists n l, e_gateways e n = Some l /\ In (Some (ToString id, i)) l.

Definition listed_provider (g : gateway) (id : bytes) (i : info) : Prop :=
  aget bytes_eqb (providersMap info (g_reg g)) (ToString id) = Some i.

(** The chain describes channels by account addresses. *)
Definition chain_clear (e : env) : Prop :=
  forall ch cs, e_chain e ch = Some cs -> ch_to cs <> NotText /\ ch_from cs <> NotText.

Section spec.
  Variable version : Z.
  Variable supported : list Z.
  Variable sha256 sha512_256 : bytes -> bytes.
  Variable pub_of : bytes -> bytes.
  Variable ec_sign : bytes -> bytes -> option bytes.
  Variable ec_verify : bytes -> bytes -> bytes -> bool.
  Variable blake : bytes -> bytes.
  Variable verify : gostring -> voucher -> option bytes -> bool.
  Variable voucher_text : voucher -> gostring.
  Variable voucher_of : gostring -> option voucher.
  Variable is_address : gostring -> bool.
  Variable zone : Z.

  (** The payment manager accepts the voucher on the channel for [x]. *)
  Definition credited (e : env) (g g' : gateway) (ch text : gostring) (x : Z) : Prop :=
    exists m v cs m', g_pay g = Some m /\ voucher_of text = Some v /\ is_address ch = true /\ e_chain e ch = Some cs /\
      Receive verify m ch (Some v) (Some cs) = (m', Credited x) /\ g_pay g' = Some m'.

  (** Initialised, with a key that signs. *)
  Definition ready (g : gateway) : Prop :=
    exists i k m, g_id g = Some i /\ id32 i /\ g_key g = Some k /\ can_sign ec_sign blake k /\ g_pay g = Some m.

  (** The database holds what some attempts to store offers left. *)
  Definition stocked (g : gateway) (hist : attempts) : Prop :=
    proper_attempts sha256 sha512_256 hist /\ db_after sha512_256 empty_db hist = Ret (g_db g).

  (** Signed with the key of the registration. *)
  Definition signed_by (i : info) (m : message) : Prop :=
    exists k, DecodePublicKey (n_key i) = Ret (OkR k) /\ fst (MessageVerify pub_of ec_verify blake m k) = true.
  Definition offer_signed_by (i : info) (o : offer) : Prop :=
    exists k, DecodePublicKey (n_key i) = Ret (OkR k) /\ OfferVerify pub_of ec_verify blake o k = Ret true.

  (** The message with a signature put on it. *)
  Definition with_signature (b m : message) : Prop := exists s, m = set_sig b s.

  (** The payments made, as recipient, lane, amount, channel and voucher. *)
  Definition paid (es : list payer_ev) : list (gostring * Z * Z * gostring * voucher) :=
    flat_map (fun ev => match ev with EPay r k a _ (Paid ch v) => [(r, k, a, ch, v)] | _ => [] end) es.

  (** A sequence of calls of the payment manager in which exactly these payments are made. *)
  Definition pay_trace (m m' : mgr) (l : list (gostring * Z * Z * gostring * voucher)) : Prop :=
    exists os es, payer_run m os = (m', es) /\ paid es = l.

  (** A payment to another gateway: registration, identifier, amount, channel and voucher. *)
  Definition row_paid (x : info * bytes * Z * gostring * voucher) : gostring * Z * Z * gostring * voucher :=
    match x with (i, _, a, ch, v) => (n_address i, 0, a, ch, v) end.
  Definition row_info (x : info * bytes * Z * gostring * voucher) : info := fst (fst (fst (fst x))).
  Definition row_id (x : info * bytes * Z * gostring * voucher) : bytes := snd (fst (fst (fst x))).
  Definition row_amount (x : info * bytes * Z * gostring * voucher) : Z := snd (fst (fst x)).

  (** The requests sent are signed messages carrying the channel and voucher of a payment
      made to the registered address of their recipient. *)
  Definition vouched (enc : bytes -> gostring -> gostring -> message -> Prop) (rows : list (info * bytes * Z * gostring * voucher))
      (sent : list (bytes * message)) : Prop :=
    forall id m, In (id, m) sent -> exists i a ch v b,
      In (i, id, a, ch, v) rows /\ enc id ch (voucher_text v) b /\ with_signature b m.

  (** The text of the offer's digest. *)
  Definition digest_text (o : offer) (d : gostring) : Prop :=
    exists h, GetMessageDigest sha512_256 o = Ret h /\ d = EncodeMessageDigest h.

  (** The message is signed by the gateway. *)
  Definition trusted (e : env) (g : gateway) (id : bytes) (m : message) : Prop :=
    exists i, listed e g id i /\ signed_by i m.

  (** What is asked of other gateways. *)
  Definition v2_request (i : option bytes) (c : option bytes) (e : env) (_ : bytes) (ch text : gostring) (b : message) : Prop :=
    EncodeGatewayDHTDiscoverRequestV2 version supported i c 1 (unix e + 10) ch text = Ret b.

  (** Serving a request: the gateway afterwards, the messages answered, the messages sent to other gateways. *)
  Definition act (e : env) (g : gateway) (k : request_kind) (m : message)
      : outcome (gateway * list message * list (bytes * message)) :=
    let rest (o : outcome served) :=
      let* s := o in
      Ret (after s, flat_map (fun a => match a with Json m => [m] | HttpError _ => [] end) (wrote s), sent s) in
    let p2p (o : outcome (gateway * reply)) :=
      let* s := o in Ret (fst s, match snd s with Reply m => [m] | _ => [] end, []) in
    (match k with
    | Establishment => rest (HandleEstablishment version supported sha256 ec_sign blake e g m)
    | StandardDiscover => rest (HandleStandardDiscover version supported sha256 ec_sign blake zone e g m)
    | StandardDiscoverV2 => rest (HandleStandardDiscoverV2 version supported sha256 sha512_256 ec_sign blake verify voucher_of is_address zone e g m)
    | StandardOffer => rest (HandleStandardOffer version supported sha256 ec_sign blake verify voucher_of is_address zone e g m)
    | DHTDiscover => rest (HandleDHTDiscover version supported sha256 pub_of ec_sign ec_verify blake e g m)
    | DHTDiscoverV2 => rest (HandleDHTDiscoverV2 version supported sha256 pub_of ec_sign ec_verify blake verify voucher_text voucher_of is_address e g m)
    | DHTOffer => rest (HandleDHTOffer version supported sha256 pub_of ec_sign ec_verify blake verify voucher_text voucher_of is_address e g m)
    | GatewayDiscover => p2p (HandleGatewayDiscover version supported sha256 pub_of ec_sign ec_verify blake zone e g m)
    | GatewayDiscoverV2 => p2p (HandleGatewayDiscoverV2 version supported sha256 sha512_256 pub_of ec_sign ec_verify blake verify voucher_of is_address zone e g m)
    | GatewayOffer => p2p (HandleGatewayOffer version supported sha256 ec_sign blake verify voucher_of is_address zone e g m)
    | PublishGroup => p2p (HandlePublishGroup version supported sha256 sha512_256 pub_of ec_sign ec_verify blake e g m)
    | PublishDHT => p2p (HandlePublishDHT version supported sha256 sha512_256 pub_of ec_sign ec_verify blake e g m)
    end)%go.

  (** A life of a gateway: requests one after another, before each of which the register manager may have
      changed in any way. *)
  Definition history := list (manager info * env * request_kind * message).
  Fixpoint live_through (g : gateway) (h : history) : outcome gateway :=
    match h with
    | [] => Ret g
    | (reg, e, k, m) :: t => obind (act e (with_reg g reg) k m) (fun x => live_through (fst (fst x)) t)
    end.

  (** The time after which the request must not be served, for the requests that have one. *)
  Definition deadline (k : request_kind) (m : message) : option Z :=
    match k with
    | Establishment => match DecodeClientEstablishmentRequest sha256 m with Ret (OkR (_, _, t)) => Some t | _ => None end
    | StandardDiscover => match DecodeClientStandardDiscoverRequest sha256 m with Ret (OkR (_, _, t, _, _)) => Some t | _ => None end
    | StandardDiscoverV2 => match DecodeClientStandardDiscoverRequestV2 sha256 m with Ret (OkR (_, _, t, _, _)) => Some t | _ => None end
    | StandardOffer => match DecodeClientStandardDiscoverOfferRequest sha256 m with Ret (OkR (_, _, t, _, _, _)) => Some t | _ => None end
    | DHTDiscover => match DecodeClientDHTDiscoverRequest sha256 m with Ret (OkR (_, _, t, _, _, _, _)) => Some t | _ => None end
    | DHTDiscoverV2 => match DecodeClientDHTDiscoverRequestV2 sha256 m with Ret (OkR (_, _, t, _, _, _, _)) => Some t | _ => None end
    | GatewayDiscover => match DecodeGatewayDHTDiscoverRequest sha256 m with Ret (OkR (_, _, _, t, _, _)) => Some t | _ => None end
    | GatewayDiscoverV2 => match DecodeGatewayDHTDiscoverRequestV2 sha256 m with Ret (OkR (_, _, _, t, _, _)) => Some t | _ => None end
    | _ => None
    end.

  (** The request asks, in the name of provider [id], to publish [o]. *)
  Definition publishes (k : request_kind) (m : message) (id : bytes) (o : offer) : Prop :=
    match k with
    | PublishGroup => exists nonce, DecodeProviderPublishGroupOfferRequest sha256 m = Ret (OkR (Some id, nonce, Some o))
    | PublishDHT => exists nonce l, DecodeProviderPublishDHTOfferRequest sha256 m = Ret (OkR (Some id, nonce, Some l)) /\ In o l
    | _ => False
    end.

  (** At that time [i] is the registration of the provider publishing [o], and its key signed
      the request and the offer. *)
  Definition vetted (reg : manager info) (k : request_kind) (m : message) (o : offer) (i : info) : Prop :=
    exists id, publishes k m id o /\ aget bytes_eqb (providersMap info reg) (ToString id) = Some i /\
      signed_by i m /\ offer_signed_by i o.

  (** The sub-offer for [c] is of an offer published before, and it passes the checks of a client that knows
      the registration of the provider at the time of the publication. *)
  Definition checks (h : history) (c : bytes) (s : suboffer) : Prop :=
    exists reg e k m o i key, In (reg, e, k, m) h /\ vetted reg k m o i /\ s = GenerateSubCIDOffer o c /\
      DecodePublicKey (n_key i) = Ret (OkR key) /\ SubOfferVerify pub_of ec_verify blake s key = Ret true /\
      VerifyMerkleProof sha256 s = Ret true.

  (** Published offers with different terms have different digests. *)
  Definition no_clashes (h : history) : Prop :=
    forall reg e k m id o reg' e' k' m' id' o', In (reg, e, k, m) h -> In (reg', e', k', m') h ->
      publishes k m id o -> publishes k' m' id' o' -> GetMessageDigest sha512_256 o = GetMessageDigest sha512_256 o' -> same_terms o o'.
  (** The database never fails. *)
  Definition reliable (h : history) : Prop := forall reg e k m n i, In (reg, e, k, m) h -> e_fates e n i = Done.
End spec.
