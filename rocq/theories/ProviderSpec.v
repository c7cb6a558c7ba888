(** * What is expected of the provider's handlers *)
From Coq Require Import List ZArith Bool Sorting.Sorted.
From Coq Require Import Init.Byte.
From Verif Require Import Base Ids Crypto Message Offer Schema Messages WireSpec Ring RingSpec Register OfferStore OfferStoreSpec Rest Gateway GatewaySpec Provider.
Import ListNotations.
Open Scope Z_scope.

(** The requests a provider serves.  A listing is acknowledged on the same connection. *)
Inductive provider_kind :=
| AdminPublishDHT | AdminPublishGroup | AdminGetPublished | AdminInitialiseKey | AdminInitialiseKeyV2 | AdminForceRefresh
| OfferAck | ListDHT (acks : message -> option message) | NotifyGroup.

(** One request served: the provider when it comes, the answers of the world, the provider afterwards, what was
    answered and the exchanges with gateways meanwhile. *)
Record pstep := PStep {
  s_before : provider; s_env : penv; s_kind : provider_kind; s_msg : message;
  s_after : provider; s_answers : list message; s_sent : list exchange }.

(** Registration of a gateway: known before, or answered by the register service meanwhile. *)
Definition known (s : pstep) (id : bytes) (i : info) : Prop :=
  aget bytes_eqb (gatewaysMap info (p_reg (s_before s))) (ToString id) = Some i \/
  exists n l, pe_gateways (s_env s) n = Some l /\ In (Some (ToString id, i)) l.

(** [i] is the registration of the gateway throughout. *)
Definition registered (s : pstep) (id : bytes) (i : info) : Prop :=
  start info (p_reg (s_before s)) = true /\ gatewayDiscv info (p_reg (s_before s)) = true /\
  aget bytes_eqb (gatewaysMap info (p_reg (s_before s))) (ToString id) = Some i /\
  forall j, known s id j -> j = i.

(** What the provider remembers to have published at a gateway, and the acknowledgement it keeps. *)
Definition published (p : provider) (id : bytes) : list offer :=
  match aget bytes_eqb (p_published p) (ToString id) with Some l => l | None => [] end.
Definition kept_ack (p : provider) (c id : bytes) : option acknowledgement :=
  match aget bytes_eqb (p_acks p) (ToString c) with Some m => aget bytes_eqb m (ToString id) | None => None end.

Section spec.
  Variable version : Z.
  Variable supported : list Z.
  Variable sha256 sha512_256 : bytes -> bytes.
  Variable pub_of : bytes -> bytes.
  Variable ec_sign : bytes -> bytes -> option bytes.
  Variable ec_verify : bytes -> bytes -> bytes -> bool.
  Variable blake : bytes -> bytes.

  (** Serving a request. *)
  Definition pact (e : penv) (p : provider) (k : provider_kind) (m : message) : outcome (provider * list message * list exchange) :=
    let rest (o : outcome pserved) :=
      let* s := o in
      Ret (p_after s, flat_map (fun a => match a with Json m => [m] | HttpError _ => [] end) (p_wrote s), p_sent s) in
    let p2p (o : outcome (provider * reply)) :=
      let* s := o in Ret (fst s, match snd s with Reply m => [m] | _ => [] end, []) in
    (match k with
    | AdminPublishDHT => rest (HandleAdminPublishDHT version supported sha256 sha512_256 pub_of ec_sign ec_verify blake e p m)
    | AdminPublishGroup => rest (HandleAdminPublishGroup version supported sha256 sha512_256 pub_of ec_sign ec_verify blake e p m)
    | AdminGetPublished => rest (HandleAdminGetPublished version supported sha256 ec_sign blake e p m)
    | AdminInitialiseKey => rest (HandleAdminInitialiseKey version supported sha256 ec_sign blake p m)
    | AdminInitialiseKeyV2 => rest (HandleAdminInitialiseKeyV2 version supported sha256 ec_sign blake e p m)
    | AdminForceRefresh => rest (HandleAdminForceRefresh version supported sha256 ec_sign blake e p m)
    | OfferAck => rest (HandleOfferAck version supported sha256 ec_sign blake p m)
    | ListDHT acks => p2p (HandleListDHT version supported sha256 sha512_256 pub_of ec_sign ec_verify blake e acks p m)
    | NotifyGroup => p2p (HandleNotifyGroup version supported sha256 pub_of ec_sign ec_verify blake e p m)
    end)%go.

  (** A life of a provider: requests one after another, before each of which the register manager may have changed
      in any way. *)
  Fixpoint lived (p : provider) (ss : list pstep) (p' : provider) : Prop :=
    match ss with
    | [] => p' = p
    | s :: t => (exists reg, s_before s = p_with_reg p reg) /\
        pact (s_env s) (s_before s) (s_kind s) (s_msg s) = Ret (s_after s, s_answers s, s_sent s) /\ lived (s_after s) t p'
    end.

  (** Numbers of identifiers in the administrator's requests that fit Go's int. *)
  Definition sized (ss : list pstep) : Prop :=
    forall s cids price expiry qos, In s ss ->
      DecodeProviderAdminPublishDHTOfferRequest sha256 (s_msg s) = Ret (OkR (cids, price, expiry, qos)) ->
      Z.of_nat (length cids) < 2 ^ 63.

  (** The message asks to publish [o], as a gateway reads it. *)
  Definition carries_dht (request : message) (o : offer) : Prop :=
    exists pid nonce l, DecodeProviderPublishDHTOfferRequest sha256 request = Ret (OkR (pid, nonce, Some l)) /\ In o l.
  Definition carries_group (request : message) (o : offer) : Prop :=
    exists pid nonce, DecodeProviderPublishGroupOfferRequest sha256 request = Ret (OkR (Some pid, nonce, Some o)).

  (** The acknowledgement has a signature of the request by the registered key. *)
  Definition countersigned (i : info) (request ack : message) : Prop :=
    exists k nonce sig, DecodePublicKey (n_key i) = Ret (OkR k) /\
      DecodeProviderPublishDHTOfferResponse sha256 ack = Ret (OkR (nonce, sig)) /\
      fst (VerifyMessage pub_of ec_verify blake k sig (slice (m_body request))) = OkR true.

  (** The response names the digest of the offer. *)
  Definition names (response : message) (o : offer) : Prop :=
    exists gid cand, DecodeProviderPublishGroupOfferResponse sha256 response = Ret (OkR (gid, cand)) /\
      GetMessageDigest sha512_256 o = Ret (DecodeMessageDigest cand).

  (** The gateway with registration [i] accepts the offer. *)
  Definition accepted (i : info) (request response : message) (o : offer) : Prop :=
    signed_by pub_of ec_verify blake i response /\
    (carries_dht request o /\ countersigned i request response \/ carries_group request o /\ names response o).

  (** How an acknowledgement came: as the answer to a publication, or among those of a listing. *)
  Definition came (s : pstep) (id : bytes) (i : info) (request ack : message) : Prop :=
    In (id, request, Some ack) (s_sent s) /\ signed_by pub_of ec_verify blake i ack \/
    exists acks m a msgs l, s_kind s = ListDHT acks /\ s_answers s = [m] /\ acks m = Some a /\ signed_by pub_of ec_verify blake i a /\
      DecodeGatewayListDHTOfferAck sha256 a = Ret (OkR (Some l)) /\
      DecodeGatewayListDHTOfferResponse sha256 m = Ret (OkR (Some msgs)) /\ length l = length msgs /\ In (request, ack) (combine msgs l).

  (** An acknowledgement that is what it claims. *)
  Definition genuine (s : pstep) (c id : bytes) (a : acknowledgement) : Prop :=
    exists i o, came s id i (a_msg a) (a_ack a) /\ known s id i /\ countersigned i (a_msg a) (a_ack a) /\
      carries_dht (a_msg a) o /\ o_cids o = [c].

  (** The offer the administrator describes, signed by the provider. *)
  Definition made_by (p : provider) (cids : list bytes) (price expiry qos : Z) (o : offer) : Prop :=
    exists pid k, p_id p = Some pid /\ p_key p = Some k /\
      o_provider o = Some pid /\ o_cids o = cids /\ o_price o = price /\ o_expiry o = expiry /\ o_qos o = qos /\
      forall pk, matches pub_of pk k -> OfferVerify pub_of ec_verify blake o pk = Ret true.

  (** The offers the administrator asked, in this step, to publish one by one. *)
  Definition ordered_batch (s : pstep) (os : list offer) : Prop :=
    exists cids price expiry qos, s_kind s = AdminPublishDHT /\
      DecodeProviderAdminPublishDHTOfferRequest sha256 (s_msg s) = Ret (OkR (cids, Some price, Some expiry, Some qos)) /\
      length os = length cids /\
      forall i o, nth_error os i = Some o -> exists c pr ex q,
        nth_error cids i = Some c /\ nth_error price i = Some pr /\ nth_error expiry i = Some ex /\ nth_error qos i = Some q /\
        made_by (s_before s) [c] pr ex q o.
  (** The group offer. *)
  Definition ordered_group (s : pstep) (o : offer) : Prop :=
    exists cids pr ex q, s_kind s = AdminPublishGroup /\
      DecodeProviderAdminPublishGroupOfferRequest sha256 (s_msg s) = Ret (OkR (cids, pr, ex, q)) /\
      made_by (s_before s) cids pr ex q o.
  Definition ordered (s : pstep) (o : offer) : Prop := (exists os, ordered_batch s os /\ In o os) \/ ordered_group s o.

  (** A life in which the clock does not go back, offers are published one at a time, expire before the clock library
      overflows and have digests of their own, and no listing hits a fault of the ring ([RingSpec]). *)
  Record orderly (ss : list pstep) : Prop := Orderly {
    od_clock : StronglySorted (fun s t => pe_now (s_env s) <= pe_now (s_env t)) ss;
    od_maps : forall s, In s ss -> shuffle (pe_digests (s_env s));
    od_single : forall s os, In s ss -> ordered_batch s os -> length os = 1%nat;
    od_expiry : forall s o, In s ss -> ordered s o -> o_expiry o <= 2 ^ 63 - 1 - 62135596800;
    od_digests : forall s o s' o', In s ss -> In s' ss -> ordered s o -> ordered s' o' ->
      GetMessageDigest sha512_256 o' = GetMessageDigest sha512_256 o -> same_terms o o';
    od_ring : forall s acks gid lo hi a b c d, In s ss -> s_kind s = ListDHT acks ->
      DecodeGatewayListDHTOfferRequest sha256 (s_msg s) = Ret (OkR (gid, Some lo, Some hi, a, b, c, d)) ->
      faultless (entries (dhtOfferRing (p_offers (s_before s)))) (OpRange (ToString lo) (ToString hi)) }.

  (** The history of the provider's offer store: only what was ordered was added, and all of it. *)
  Record stocked (ss : list pstep) (hist : OfferStoreSpec.history) : Prop := Stocked {
    st_time : forall t x, In (t, x) hist -> exists s, In s ss /\ t = pe_now (s_env s);
    st_from : forall t x o, In (t, x) hist -> added_offer x = Some o -> exists s, In s ss /\ t = pe_now (s_env s) /\
      (x = AddDHT o /\ ordered_batch s [o] \/ x = AddGroup o /\ ordered_group s o);
    st_dht : forall s, In s ss -> s_kind s = AdminPublishDHT -> s_answers s <> [] ->
      exists o, ordered_batch s [o] /\ In (pe_now (s_env s), AddDHT o) hist;
    st_group : forall s, In s ss -> s_kind s = AdminPublishGroup -> s_answers s <> [] ->
      exists o, ordered_group s o /\ In (pe_now (s_env s), AddGroup o) hist }.

  (** The message lists these offers of the provider, as a gateway reads it. *)
  Definition lists (p : provider) (m : message) (os : list offer) : Prop :=
    DecodeProviderPublishDHTOfferRequest sha256 m = Ret (OkR (p_id p, 1, Some os)).

  (** The message verifies under the provider's key. *)
  Definition own (p : provider) (m : message) : Prop :=
    exists k, p_key p = Some k /\ forall pk, matches pub_of pk k -> fst (MessageVerify pub_of ec_verify blake m pk) = true.

  (** A message of a listing. *)
  Definition batch (p : provider) (m : message) (b : list offer) : Prop := lists p m b /\ own p m /\ (1 <= length b <= 50)%nat.

  (** What comes back from the gateways was read from the wire. *)
  Definition wired (ss : list pstep) : Prop :=
    forall s id request r, In s ss -> In (id, request, Some r) (s_sent s) -> wire_message r.

  (** The provider has an identifier and a key it can sign with. *)
  Definition ready (p : provider) : Prop :=
    exists pid k, p_id p = Some pid /\ id32 pid /\ p_key p = Some k /\ can_sign ec_sign blake k.
End spec.
