(** * Properties of the gateway's handlers (C42-C45, C95-C103, C135)

    The handlers run over the models of messages, payments, the offer database and the
    register manager; clock, chain, network, register service and database failures are
    in [env]. *)
From Coq Require Import String List ZArith Bool Lia Sorting.Permutation.
From Coq Require Import Init.Byte.
From Verif Require Import Base Ids Crypto Message Offer Schema Messages WireSpec Payment PaymentSpec Register RegisterSpec OfferStoreSpec SqlOffers SqlOffersSpec
  Rest Gateway GatewaySpec GatewayOfferSpec GatewayProofs GatewayStoreProofs GatewayOfferProofs PropertiesMerkle PropertiesCrypto PropertiesSql ToyGateway.
Import ListNotations.
Open Scope Z_scope.

Section properties.
  Variable version : Z.
  Variable supported : list Z.
  Variable sha256 sha512_256 : bytes -> bytes.
  Variable pub_of : bytes -> bytes.
  Variable ec_sign : bytes -> bytes -> option bytes.
  Variable ec_verify : bytes -> bytes -> bytes -> bool.
  Variable blake : bytes -> bytes.
  Variable verify : gostring -> voucher -> option bytes -> bool.
  Variable voucher_text : voucher -> gostring.
  Variable voucher_of : gostring -> option voucher.
  Variable is_address : gostring -> bool.
  Variable zone : Z.

  Local Notation credited := (credited verify voucher_of is_address).
  Local Notation signed_by := (signed_by pub_of ec_verify blake).
  Local Notation trusted := (trusted pub_of ec_verify blake).
  Local Notation digest_text := (digest_text sha512_256).
  Local Notation publishes := (publishes sha256).
  Local Notation vetted := (vetted sha256 pub_of ec_verify blake).
  Local Notation checks := (checks sha256 pub_of ec_verify blake).
  Local Notation act := (act version supported sha256 sha512_256 pub_of ec_sign ec_verify blake verify voucher_text voucher_of is_address zone).
  Local Notation live_through := (live_through version supported sha256 sha512_256 pub_of ec_sign ec_verify blake verify voucher_text voucher_of is_address zone).

  (** ** C42 *)

  (** Full claim: whatever is handed out was paid for.  It holds for the two standard
      requests of clients, and is false for the other four, see below. *)
  Theorem standard_v2_paid_partial : forall e g request s m,
    HandleStandardDiscoverV2 version supported sha256 sha512_256 ec_sign blake verify voucher_of is_address zone e g request = Ret s ->
    In (Json m) (wrote s) ->
    exists c nonce ttl ch text,
      DecodeClientStandardDiscoverRequestV2 sha256 request = Ret (OkR (Some c, nonce, ttl, ch, text)) /\
      ((exists x, credited e g (after s) ch text x /\ g_search g <= x) \/
       (exists found, DecodeClientStandardDiscoverResponseV2 sha256 m = Ret (OkR (Some c, nonce, found, None, None, true, ch)))).
  Proof. intros. eapply standard_v2_paid_pf; eassumption. Qed.

  Theorem standard_offer_paid_partial : forall e g request s m,
    HandleStandardOffer version supported sha256 ec_sign blake verify voucher_of is_address zone e g request = Ret s ->
    In (Json m) (wrote s) ->
    exists c nonce ttl ds ch text,
      DecodeClientStandardDiscoverOfferRequest sha256 request = Ret (OkR (Some c, nonce, ttl, ds, ch, text)) /\
      ((exists x, credited e g (after s) ch text x /\ g_offer g * slice_len ds <= x) \/
       DecodeClientStandardDiscoverOfferResponse sha256 m = Ret (OkR (Some c, nonce, false, None, None, true, ch))).
  Proof. intros. eapply standard_offer_paid_pf; eassumption. Qed.

  (** Another gateway's discovery: something was received, and the flag says whether it was
      enough; the digests are sent in any case. *)
  Theorem gateway_v2_paid_partial : forall e g request g' m,
    HandleGatewayDiscoverV2 version supported sha256 sha512_256 pub_of ec_sign ec_verify blake verify voucher_of is_address zone e g request
      = Ret (g', Reply m) ->
    exists id c nonce ttl ch text i x found ds fs,
      DecodeGatewayDHTDiscoverRequestV2 sha256 request = Ret (OkR (Some id, Some c, nonce, ttl, ch, text)) /\
      unix e <= ttl /\ listed e g id i /\ signed_by i request /\ credited e g g' ch text x /\
      DecodeGatewayDHTDiscoverResponseV2 sha256 m =
        Ret (OkR (Some c, nonce, found, ds, fs, x <? g_search g, if x <? g_search g then ch else [])).
  Proof. intros. eapply gateway_v2_answers_pf; eassumption. Qed.

  (** The relayed requests: something was received; if it was too little the client is also
      told so. *)
  Theorem dht_offer_paid_partial : forall e g request s,
    HandleDHTOffer version supported sha256 pub_of ec_sign ec_verify blake verify voucher_text voucher_of is_address e g request = Ret s ->
    settings (after s) = settings g /\ g_db (after s) = g_db g /\
    (sent s <> [] \/ (exists m, In (Json m) (wrote s)) ->
      exists c nonce ds ids ch text g1 x,
        DecodeClientDHTDiscoverOfferRequest sha256 request = Ret (OkR (c, nonce, ds, ids, ch, text)) /\
        credited e g g1 ch text x /\ (forall id m, In (id, m) (sent s) -> In id ids) /\
        (x < units (elems ds) * g_offer g -> exists t, wrote s = HttpError 500 :: t) /\
        (forall m, In (Json m) (wrote s) -> exists b cs rs un, with_signature b m /\
          EncodeClientDHTDiscoverOfferResponse version supported c nonce cs (Some rs) false [] = Ret b /\
          Permutation ids (cs ++ un) /\ Forall2 (trusted e g) cs rs)).
  Proof. intros. eapply dht_offer_pf; eassumption. Qed.

  (** ** C43 *)

  (** Over a whole life the search price and everything else configured stays; the offer
      price as well if no other gateway asks for offers. *)
  Theorem settings_life_partial : forall h g g', live_through g h = Ret g' ->
    (g_id g', g_key g', g_ver g', g_search g', g_topup g') = (g_id g, g_key g, g_ver g, g_search g, g_topup g) /\
    ((forall reg e m, ~ In (reg, e, GatewayOffer, m) h) -> g_offer g' = g_offer g).
  Proof. intros. eapply life_settings; eassumption. Qed.

  (** What such a request does to the price. *)
  Theorem gateway_offer_price_partial : forall e g request g' r,
    HandleGatewayOffer version supported sha256 ec_sign blake verify voucher_of is_address zone e g request = Ret (g', r) ->
    match DecodeGatewayDHTDiscoverOfferRequest sha256 request with
    | Ret (OkR (c, nonce, ds, ch, text)) =>
        (r = Invalid /\ settings g' = settings g) \/
        exists x, credited e g g' ch text x /\ g_offer g' = g_offer g * slice_len ds /\ g_search g' = g_search g /\ r <> NoReply
    | _ => r = Invalid /\ g' = g
    end.
  Proof. intros. eapply gateway_offer_answers_pf; eassumption. Qed.

  (** ** C44 *)
  Theorem expired_not_served : forall e g k m t g' a s, deadline sha256 k m = Some t -> t < unix e -> act e g k m = Ret (g', a, s) ->
    a = [] /\ s = [] /\ settings g' = settings g /\ g_db g' = g_db g /\ g_pay g' = g_pay g.
  Proof. intros. eapply expired_pf; eassumption. Qed.

  (** ** C45 *)

  (** Full claim: no request makes a handler panic.  False, see below.  These requests are
      answered, by a gateway that is initialised. *)
  Theorem establishment_served_partial : forall e g request c challenge ttl, ready ec_sign blake g ->
    DecodeClientEstablishmentRequest sha256 request = Ret (OkR (Some c, challenge, ttl)) -> unix e <= ttl ->
    exists i m, HandleEstablishment version supported sha256 ec_sign blake e g request = Ret (Served g [Json m] []) /\
      g_id g = Some i /\ DecodeClientEstablishmentResponse sha256 m = Ret (OkR (Some i, challenge)).
  Proof. intros. eapply establishment_served_pf; eassumption. Qed.

  Theorem standard_served_partial : forall e g hist request c nonce ttl ch text, (forall x, length (sha256 x) = 32%nat) ->
    ready ec_sign blake g -> stocked sha256 sha512_256 g hist -> sized hist ->
    shuffle (e_rows e) -> DecodeClientStandardDiscoverRequest sha256 request = Ret (OkR (Some c, nonce, ttl, ch, text)) -> unix e <= ttl ->
    exists os found m, selectOffersSingle sha256 (e_rows e) zone (e_now e) (g_db g) c = Ret (os, found) /\
      HandleStandardDiscover version supported sha256 ec_sign blake zone e g request = Ret (Served g [Json m] []) /\
      DecodeClientStandardDiscoverResponse sha256 m =
        Ret (OkR (Some c, nonce, found, Some (map (fun o => GenerateSubCIDOffer o c) os), Some (falses os))).
  Proof. intros. eapply standard_served_exactly; eassumption. Qed.

  Theorem standard_v2_served_partial : forall e g hist request c nonce ttl ch text, ready ec_sign blake g -> stocked sha256 sha512_256 g hist ->
    shuffle (e_rows e) -> chain_clear e ->
    DecodeClientStandardDiscoverRequestV2 sha256 request = Ret (OkR (Some c, nonce, ttl, ch, text)) -> unix e <= ttl ->
    exists g' m os found,
      HandleStandardDiscoverV2 version supported sha256 sha512_256 ec_sign blake verify voucher_of is_address zone e g request
        = Ret (Served g' [Json m] []) /\ settings g' = settings g /\ g_db g' = g_db g /\ g_reg g' = g_reg g /\
      selectOffersSingle sha256 (e_rows e) zone (e_now e) (g_db g) c = Ret (os, found) /\
      ((exists x ds, credited e g g' ch text x /\ g_search g <= x /\ Forall2 digest_text os ds /\
         DecodeClientStandardDiscoverResponseV2 sha256 m = Ret (OkR (Some c, nonce, found, Some ds, Some (falses os), false, []))) \/
       ((forall x, credited e g g' ch text x -> x < g_search g) /\
         DecodeClientStandardDiscoverResponseV2 sha256 m = Ret (OkR (Some c, nonce, found, None, None, true, ch)))).
  Proof. intros. eapply standard_v2_served_pf; eassumption. Qed.

  (** ** C95 *)

  (** The database of a gateway is the outcome of attempts to store offers that were
      published by providers registered at the time, in requests signed by them, and
      signed by them. *)
  Theorem stored_vetted : forall h g g', live_through g h = Ret g' ->
    exists att, db_after sha512_256 (g_db g) att = Ret (g_db g') /\
      forall o f, In (o, f) att -> wire_offer sha256 o /\ exists reg e k m i n, In (reg, e, k, m) h /\ vetted reg k m o i /\ f = e_fates e n.
  Proof.
    intros h g g' H. eapply life_inv in H as (att & D & L & _); try eassumption. exists att. split; [exact D|].
    intros o f I0. destruct (L _ _ I0) as (W & _ & R). auto.
  Qed.

  (** ** C96 *)

  (** Full claim: every sub-offer a gateway serves, whatever failed before.  Here the
      database never failed, digests do not clash, and the request is one for discovery. *)
  Theorem standard_checks_partial : forall h g0 g e request s m,
    live_through g0 h = Ret g -> g_db g0 = empty_db -> no_clashes sha256 sha512_256 h -> reliable h -> shuffle (e_rows e) ->
    HandleStandardDiscover version supported sha256 ec_sign blake zone e g request = Ret s -> In (Json m) (wrote s) ->
    exists c nonce ttl ch text found subs fs b,
      DecodeClientStandardDiscoverRequest sha256 request = Ret (OkR (Some c, nonce, ttl, ch, text)) /\
      EncodeClientStandardDiscoverResponse version supported (Some c) nonce found (Some subs) (Some fs) = Ret b /\ with_signature b m /\
      Forall (checks h c) subs.
  Proof. intros. eapply standard_checks_pf; eassumption. Qed.
  Theorem gateway_checks_partial : forall h g0 g e request g' m,
    live_through g0 h = Ret g -> g_db g0 = empty_db -> no_clashes sha256 sha512_256 h -> reliable h -> shuffle (e_rows e) ->
    HandleGatewayDiscover version supported sha256 pub_of ec_sign ec_verify blake zone e g request = Ret (g', Reply m) ->
    exists id c nonce ttl ch text found subs fs b,
      DecodeGatewayDHTDiscoverRequest sha256 request = Ret (OkR (Some id, Some c, nonce, ttl, ch, text)) /\
      EncodeGatewayDHTDiscoverResponse version supported (Some c) nonce found (Some subs) (Some fs) = Ret b /\ with_signature b m /\
      Forall (checks h c) subs.
  Proof. intros. eapply gateway_checks_pf; eassumption. Qed.

  (** ** C97 *)

  (** An offer whose publication was answered is found later, whatever the requests before
      and after and whatever failed in them.  Full claim: also if statements failed in the
      publication itself; false, see below. *)
  Theorem published_found_partial : forall h1 reg e k m h2 g0 g1 x g id o e' c,
    live_through g0 (h1 ++ (reg, e, k, m) :: h2) = Ret g -> g_db g0 = empty_db ->
    no_clashes sha256 sha512_256 (h1 ++ (reg, e, k, m) :: h2) -> (forall n i, e_fates e n i = Done) ->
    live_through g0 h1 = Ret g1 -> act e (with_reg g1 reg) k m = Ret x -> snd (fst x) <> [] -> publishes k m id o ->
    shuffle (e_rows e') -> SqlOffers.fresh zone (e_now e') (o_expiry o) = true -> In c (o_cids o) ->
    exists os y, selectOffersSingle sha256 (e_rows e') zone (e_now e') (g_db g) c = Ret (os, true) /\ In y os /\ same_terms y o.
  Proof. intros. eapply published_found_pf; eassumption. Qed.

  (** ** C98 *)

  (** Acknowledgements: of the digest of the offer, or of the request's body with all its
      offers stored. *)
  Theorem publish_group_ack : forall e g m g' a,
    HandlePublishGroup version supported sha256 sha512_256 pub_of ec_sign ec_verify blake e g m = Ret (g', Reply a) ->
    exists o id pid nonce dg b, DecodeProviderPublishGroupOfferRequest sha256 m = Ret (OkR (Some pid, nonce, Some o)) /\
      db_after sha512_256 (g_db g) [(o, e_fates e 0)] = Ret (g_db g') /\ g_id g = Some id /\
      GetMessageDigest sha512_256 o = Ret dg /\ with_signature b a /\
      EncodeProviderPublishGroupOfferResponse version supported id (EncodeMessageDigest dg) = Ret b.
  Proof.
    intros e g m g' a H. apply publish_group_inv in H; [|assumption..]. destruct H as (_ & _ & att & (D & G) & R).
    destruct (R a eq_refl) as (o & id & dg & b & -> & R'). destruct (G o _ (or_introl eq_refl)) as ((_ & i & pid & (nonce & P) & _) & _).
    exists o, id, pid, nonce, dg, b. auto.
  Qed.
  Theorem publish_dht_ack : forall e g m g' a,
    HandlePublishDHT version supported sha256 sha512_256 pub_of ec_sign ec_verify blake e g m = Ret (g', Reply a) ->
    exists att id nonce l key sig b, DecodeProviderPublishDHTOfferRequest sha256 m = Ret (OkR (id, nonce, l)) /\
      db_after sha512_256 (g_db g) att = Ret (g_db g') /\ map fst att = elems l /\
      g_key g = Some key /\ SignMessage ec_sign blake key (g_ver g) (slice (m_body m)) = OkR sig /\ with_signature b a /\
      EncodeProviderPublishDHTOfferResponse version supported nonce sig = Ret b.
  Proof.
    intros e g m g' a H. apply publish_dht_inv in H; [|assumption..]. destruct H as (_ & _ & att & (D & G) & R).
    destruct (R a eq_refl) as (id & nonce & l & key & sig & b & R1 & R2 & R'). exists att, id, nonce, l, key, sig, b. auto.
  Qed.

  (** ** C99, C100 *)

  (** Relayed discovery: the gateways asked are the ones near the identifier; each is
      reported as contacted or not; the messages relayed are signed by the gateways they
      are attributed to. *)
  Theorem dht_discover_relays : forall e g request s,
    HandleDHTDiscover version supported sha256 pub_of ec_sign ec_verify blake e g request = Ret s ->
    settings (after s) = settings g /\ g_db (after s) = g_db g /\ g_pay (after s) = g_pay g /\
    (sent s <> [] \/ (exists m, In (Json m) (wrote s)) ->
      exists c nonce ttl num inc ch text near reg ids cs rs un,
        DecodeClientDHTDiscoverRequest sha256 request = Ret (OkR (c, nonce, ttl, num, inc, ch, text)) /\ unix e <= ttl /\
        GetGatewaysNearCID info (g_reg g) c num (g_id g) = Ret (OkR near, reg) /\
        Forall2 (fun x id => NewNodeIDFromHexString (n_id (snd x)) = OkR id) near ids /\
        Permutation ids (cs ++ un) /\ Forall2 (trusted e g) cs rs /\
        (forall m, In (Json m) (wrote s) -> exists b, with_signature b m /\
          EncodeClientDHTDiscoverResponse version supported cs (Some rs) un nonce false [] = Ret b) /\
        (forall id m, In (id, m) (sent s) -> In id ids /\
          exists b, EncodeGatewayDHTDiscoverRequest version supported (g_id g) c 1 (unix e + 10) [] [] = Ret b /\ with_signature b m)).
  Proof. intros. eapply dht_discover_pf; eassumption. Qed.

  (** The paid variant: in addition each gateway is paid the search price once, in order,
      at its registered address, and what is sent to it carries the voucher of a payment to
      it.  (An underpaid request is answered with an error first, and carried out all the
      same.) *)
  Theorem dht_v2_relays : forall e g request s,
    HandleDHTDiscoverV2 version supported sha256 pub_of ec_sign ec_verify blake verify voucher_text voucher_of is_address e g request = Ret s ->
    settings (after s) = settings g /\ g_db (after s) = g_db g /\
    (sent s <> [] \/ (exists m, In (Json m) (wrote s)) ->
      exists c nonce ttl num inc ch text near reg g1 x m1 m2 rows,
        DecodeClientDHTDiscoverRequestV2 sha256 request = Ret (OkR (c, nonce, ttl, num, inc, ch, text)) /\ unix e <= ttl /\
        GetGatewaysNearCID info (g_reg g) c num (g_id g) = Ret (OkR near, reg) /\
        credited e g g1 ch text x /\ g_pay g1 = Some m1 /\ g_pay (after s) = Some m2 /\
        pay_trace m1 m2 (map row_paid rows) /\ map row_info rows = firstn (length rows) (map snd near) /\
        Forall (fun y => row_amount y = g_search g /\ NewNodeIDFromHexString (n_id (row_info y)) = OkR (row_id y)) rows /\
        vouched voucher_text (v2_request version supported (g_id g) c e) rows (sent s) /\
        (x < g_search g * num -> exists t, wrote s = HttpError 500 :: t) /\
        (forall m, In (Json m) (wrote s) -> exists b cs rs un, with_signature b m /\
          EncodeClientDHTDiscoverResponseV2 version supported cs (Some rs) un nonce false [] = Ret b /\
          map row_info rows = map snd near /\ Permutation (map row_id rows) (cs ++ un) /\ Forall2 (trusted e g) cs rs)).
  Proof. intros. eapply dht_v2_pf; eassumption. Qed.

  (** The relayed request for offers: each gateway named is asked for its list of digests, in order, and paid
      once, by the number of digests, or the search price, or nothing; what is sent to it carries the voucher.
      Full claim (C100): paid exactly by the number; false after a top-up, see below. *)
  Theorem dht_offer_relays_partial : forall e g request s,
    HandleDHTOffer version supported sha256 pub_of ec_sign ec_verify blake verify voucher_text voucher_of is_address e g request = Ret s ->
    sent s <> [] \/ (exists m, In (Json m) (wrote s)) ->
    exists c nonce ds ids ch text g1 x m1 m2 rows,
      DecodeClientDHTDiscoverOfferRequest sha256 request = Ret (OkR (c, nonce, ds, ids, ch, text)) /\
      credited e g g1 ch text x /\ g_pay g1 = Some m1 /\ g_pay (after s) = Some m2 /\ pay_trace m1 m2 (flat_map asked_paid rows) /\
      asked_rightly e g (elems ds) ids rows /\ requests_for version supported voucher_text c nonce (elems ds) rows (sent s) /\
      ((exists m, In (Json m) (wrote s)) -> length rows = length ids).
  Proof. intros. eapply dht_offer_asked_pf; eassumption. Qed.

  (** ** C135 *)

  (** A client that pays for the digests of live offers gets these offers; one that pays less is told to
      pay.  Full claim: whatever failed in the database, and with an answer for digests of which there is no offer;
      these panic, see below. *)
  Theorem standard_offer_served_partial : forall e g hist request c nonce ttl ds ch text os,
    (forall x, length (sha256 x) = 32%nat) -> (forall x, length (sha512_256 x) = 32%nat) ->
    ready ec_sign blake g -> stocked sha256 sha512_256 g hist ->
    all_undisturbed hist -> sized hist -> shuffle (e_rows e) -> chain_clear e ->
    DecodeClientStandardDiscoverOfferRequest sha256 request = Ret (OkR (Some c, nonce, ttl, ds, ch, text)) -> unix e <= ttl ->
    Forall2 (fun o d => recorded hist o /\ SqlOffers.fresh zone (e_now e) (o_expiry o) = true /\ digest_text o d) os (elems ds) ->
    exists g' m, HandleStandardOffer version supported sha256 ec_sign blake verify voucher_of is_address zone e g request = Ret (Served g' [Json m] []) /\
      settings g' = settings g /\ g_db g' = g_db g /\ g_reg g' = g_reg g /\
      ((exists x, credited e g g' ch text x /\ g_offer g * slice_len ds <= x /\
          DecodeClientStandardDiscoverOfferResponse sha256 m =
            Ret (OkR (Some c, nonce, negb (Nat.eqb (length os) 0), Some (map (fun o => GenerateSubCIDOffer o c) os), Some (map (fun _ => true) os), false, []))) \/
       ((forall x, credited e g g' ch text x -> x < g_offer g * slice_len ds) /\
          DecodeClientStandardDiscoverOfferResponse sha256 m = Ret (OkR (Some c, nonce, false, None, None, true, ch)))).
  Proof. intros. eapply standard_offer_served_pf; eassumption. Qed.

  (** ** C102 *)

  (** Discovery requests are answered only to registered gateways, which signed them.  The
      full claim includes requests for offers, for which it is false, see below. *)
  Theorem gateway_discover_answers_partial : forall e g request g' m,
    HandleGatewayDiscover version supported sha256 pub_of ec_sign ec_verify blake zone e g request = Ret (g', Reply m) ->
    exists id c nonce ttl ch text i,
      DecodeGatewayDHTDiscoverRequest sha256 request = Ret (OkR (Some id, c, nonce, ttl, ch, text)) /\
      unix e <= ttl /\ listed e g id i /\ signed_by i request.
  Proof. intros. eapply gateway_discover_answers_pf; eassumption. Qed.
End properties.
Print Assumptions standard_v2_paid_partial.
Print Assumptions standard_offer_paid_partial.
Print Assumptions gateway_v2_paid_partial.
Print Assumptions dht_offer_paid_partial.
Print Assumptions settings_life_partial.
Print Assumptions gateway_offer_price_partial.
Print Assumptions expired_not_served.
Print Assumptions establishment_served_partial.
Print Assumptions standard_served_partial.
Print Assumptions standard_v2_served_partial.
Print Assumptions stored_vetted.
Print Assumptions standard_checks_partial.
Print Assumptions gateway_checks_partial.
Print Assumptions published_found_partial.
Print Assumptions publish_group_ack.
Print Assumptions publish_dht_ack.
Print Assumptions dht_discover_relays.
Print Assumptions dht_v2_relays.
Print Assumptions dht_offer_relays_partial.
Print Assumptions standard_offer_served_partial.
Print Assumptions gateway_discover_answers_partial.

(** ** The hypotheses hold in the toy world *)

(** What answered messages and requests to others look like. *)
Definition act_of {A} (e : env) (g : gateway) (k : request_kind) (m : message) (f : gateway -> list message -> list (bytes * message) -> A) : outcome A :=
  obind (toy_act e g k m) (fun x => Ret (f (fst (fst x)) (snd (fst x)) (snd x))).
Definition subs_of (x : outcome (result (option bytes * Z * bool * option (list suboffer) * option (list bool)))) : list Z :=
  match x with Ret (OkR (_, _, _, Some l, _)) => map s_price l | _ => [] end.
Definition subs_paid (x : outcome (result (option bytes * Z * bool * option (list suboffer) * option (list bool) * bool * gostring))) : list Z * bool :=
  match x with Ret (OkR (_, _, _, Some l, _, need, _)) => (map s_price l, need) | Ret (OkR (_, _, _, _, _, need, _)) => ([], need) | _ => ([], false) end.
Definition digests_paid (x : outcome (result (option bytes * Z * bool * option (list gostring) * option (list bool) * bool * gostring))) : list gostring * bool :=
  match x with Ret (OkR (_, _, _, Some l, _, need, _)) => (l, need) | Ret (OkR (_, _, _, _, _, need, _)) => ([], need) | _ => ([], false) end.
Definition paid_out (g : gateway) : list (gostring * Z) :=
  match g_pay g with Some m => map (fun x => (fst x, c_redeemed (snd x))) (m_out m) | None => [] end.
(** Gateways 10 and 20 answer, 30 cannot be reached. *)
Definition peers : env :=
  with_net (fun _ id => negb (bytes_eqb id (idn 30)))
    (fun _ id m => Some (signed (be_val id / 10) (EncodeGatewayDHTDiscoverResponse 1 [1] (Some (idn 2)) 9 false (Some []) (Some [])))) toy_env.

Example toy_ready : ready toy_sign toy_blake toy_gw.
Proof.
  exists (idn 50), (toy_key 5), (NewMgr (gs "gw")). repeat split; try reflexivity. intros msg. discriminate.
Qed.
Example group_decoded : DecodeProviderPublishGroupOfferRequest toy_hash (group_req 70 7 off1) = Ret (OkR (Some (idn 70), 9, Some off1)).
Proof. vm_compute. reflexivity. Qed.
Example dht_decoded : DecodeProviderPublishDHTOfferRequest toy_hash (dht_req 70 7 [off2]) = Ret (OkR (Some (idn 70), 9, Some [off2])).
Proof. vm_compute. reflexivity. Qed.
Lemma two_published sha sha' reg e m1 m2 o1 o2 p n :
  DecodeProviderPublishGroupOfferRequest sha m1 = Ret (OkR (p, n, Some o1)) ->
  DecodeProviderPublishDHTOfferRequest sha m2 = Ret (OkR (p, n, Some [o2])) ->
  GetMessageDigest sha' o1 <> GetMessageDigest sha' o2 -> (forall n i, e_fates e n i = Done) ->
  let h := [(reg, e, PublishGroup, m1); (reg, e, PublishDHT, m2)] in no_clashes sha sha' h /\ reliable h.
Proof.
  intros D1 D2 N F h. split.
  - assert (K : forall reg e k m id o, In (reg, e, k, m) h -> publishes sha k m id o -> o = o1 \/ o = o2).
    { intros reg' e' k m id o [E|[E|[]]]; injection E as <- <- <- <-; cbn [publishes].
      - rewrite D1. intros (n' & E). apply OfferProofs.ret_inj in E. injection E as _ _ E. auto.
      - rewrite D2. intros (n' & l & E & Io). apply OfferProofs.ret_inj in E. injection E as _ _ E. subst l. destruct Io as [->|[]]. auto. }
    intros reg1 e1 k m id o reg' e' k' m' id' o' I1 I2 P1 P2.
    destruct (K _ _ _ _ _ _ I1 P1) as [->| ->], (K _ _ _ _ _ _ I2 P2) as [->| ->]; try congruence; repeat split.
  - intros reg' e' k m n' i [E|[E|[]]]; injection E as <- <- <- <-; apply F.
Qed.
Example toy_history : no_clashes toy_hash toy_hash toy_hist /\ reliable toy_hist.
Proof. apply (two_published _ _ toy_reg toy_env _ _ _ _ _ _ group_decoded dht_decoded); [vm_compute; discriminate|reflexivity]. Qed.
Example toy_lives : exists g, toy_life toy_hist = Ret g /\ length (offer_t (g_db g)) = 2%nat /\ length (content_t (g_db g)) = 3%nat.
Proof. exists stocked_gw. vm_compute. auto. Qed.

(** C95: a forged offer, and offers in a request not signed by the provider it names, are refused. *)
Example forged_refused :
  act_of toy_env toy_gw PublishGroup (group_req 70 7 forged) (fun g ms s => (g_db g, ms)) = Ret (empty_db, []) /\
  act_of toy_env toy_gw PublishDHT (dht_req 70 8 [off2]) (fun g ms s => (g_db g, ms)) = Ret (empty_db, []) /\
  act_of toy_env toy_gw PublishDHT (dht_req 99 7 [off2]) (fun g ms s => (g_db g, ms)) = Ret (empty_db, []).
Proof. vm_compute. auto. Qed.

(** C96, C97: both published offers are served. *)
Example standard_ex : act_of toy_env stocked_gw StandardDiscover (std_req 2 50)
    (fun g ms s => (map (fun m => subs_of (DecodeClientStandardDiscoverResponse toy_hash m)) ms, s)) = Ret ([[10; 20]], []).
Proof. vm_compute. reflexivity. Qed.
Example gateway_ex : act_of toy_env stocked_gw GatewayDiscover (gw_req 20 2 2 50)
    (fun g ms s => (map (fun m => subs_of (DecodeGatewayDHTDiscoverResponse toy_hash m)) ms, s)) = Ret ([[10; 20]], []).
Proof. vm_compute. reflexivity. Qed.

(** C98 *)
Example ack_ex :
  act_of toy_env toy_gw PublishGroup (group_req 70 7 off1) (fun g ms s => map (DecodeProviderPublishGroupOfferResponse toy_hash) ms)
    = Ret [Ret (OkR (Some (idn 50), digest_of off1))] /\
  act_of toy_env toy_gw PublishDHT (dht_req 70 7 [off2; off2]) (fun g ms s => (length ms, length (offer_t (g_db g)))) = Ret (1%nat, 1%nat).
Proof. vm_compute. auto. Qed.

(** C42: exactly the price is enough, one less is not. *)
Example standard_v2_paid_ex :
  act_of toy_env stocked_gw StandardDiscoverV2 (std_v2_req 2 50 (gs "v3"))
    (fun g ms s => map (fun m => digests_paid (DecodeClientStandardDiscoverResponseV2 toy_hash m)) ms) = Ret [([digest_of off1; digest_of off2], false)] /\
  act_of toy_env stocked_gw StandardDiscoverV2 (std_v2_req 2 50 (gs "v2"))
    (fun g ms s => map (fun m => digests_paid (DecodeClientStandardDiscoverResponseV2 toy_hash m)) ms) = Ret [([], true)].
Proof. vm_compute. auto. Qed.
Example standard_offer_paid_ex :
  act_of toy_env stocked_gw StandardOffer (std_offer_req 2 50 [digest_of off1; digest_of off2] (gs "v4"))
    (fun g ms s => map (fun m => subs_paid (DecodeClientStandardDiscoverOfferResponse toy_hash m)) ms) = Ret [([10; 20], false)] /\
  act_of toy_env stocked_gw StandardOffer (std_offer_req 2 50 [digest_of off1; digest_of off2] (gs "v3"))
    (fun g ms s => map (fun m => subs_paid (DecodeClientStandardDiscoverOfferResponse toy_hash m)) ms) = Ret [([], true)].
Proof. vm_compute. auto. Qed.

(** C99, C100 *)
Example dht_discover_ex : act_of peers stocked_gw DHTDiscover (dht_disc_req 2 50 3)
    (fun g ms s => (map (fun m => match DecodeClientDHTDiscoverResponse toy_hash m with
                                  | Ret (OkR (cs, _, un, _, _, _)) => (map be_val cs, map be_val un) | _ => ([], []) end) ms,
                    map (fun x => be_val (fst x)) s)) = Ret ([([10; 20], [30])], [10; 20]).
Proof. vm_compute. reflexivity. Qed.

(** C100: when there are channels with funds, the gateways are paid 6 for three offers and 2 for one, and each is
    asked for its digests. *)
Definition funded_gw : gateway :=
  with_pay stocked_gw (fst (Topup (fst (Topup (NewMgr (gs "gw")) (gs "addr1") 10 (e_tx toy_env 0))) (gs "addr2") 10 (e_tx toy_env 1))).
Example dht_offer_ex :
  act_of peers funded_gw DHTOffer
    (dht_offer_req 2 [Some [digest_of off1; digest_of off2; digest_of off2]; Some [digest_of off2]] [idn 10; idn 20] (gs "v8"))
    (fun g ms s => (length ms, map (fun x => (be_val (fst x), match DecodeGatewayDHTDiscoverOfferRequest toy_hash (snd x) with
                                                              | Ret (OkR (_, _, ds, _, v)) => (elems ds, v) | _ => ([], []) end)) s, paid_out g))
  = Ret (1%nat, [(10, ([digest_of off1; digest_of off2; digest_of off2], gs "v6")); (20, ([digest_of off2], gs "v2"))],
         [(gs "addr1", 6); (gs "addr2", 2)]).
Proof. vm_compute. reflexivity. Qed.

(** C44: served at second 50, not at second 51. *)
Example expired_ex :
  deadline toy_hash StandardDiscover (std_req 2 50) = Some 50 /\
  act_of (at_time 50 toy_env) stocked_gw StandardDiscover (std_req 2 50) (fun g ms s => length ms) = Ret 1%nat /\
  act_of (at_time 51 toy_env) stocked_gw StandardDiscover (std_req 2 50) (fun g ms s => length ms) = Ret 0%nat.
Proof. vm_compute. auto. Qed.

(** ** Refuted *)

(** C42: for a voucher of 1, another gateway gets the digests of a search that costs 3 and
    the sub-offers of two offers that cost 2 each; the client's relayed requests, which
    cost 9 and 4, are carried out, and the gateway pays for them. *)
Theorem gateway_v2_underpaid_refuted :
  act_of toy_env stocked_gw GatewayDiscoverV2 (gw_v2_req 20 2 2 50 (gs "v1"))
    (fun g ms s => map (fun m => digests_paid (DecodeGatewayDHTDiscoverResponseV2 toy_hash m)) ms) = Ret [([digest_of off1; digest_of off2], true)].
Proof. vm_compute. reflexivity. Qed.
Print Assumptions gateway_v2_underpaid_refuted.
Theorem gateway_offer_underpaid_refuted :
  act_of toy_env stocked_gw GatewayOffer (gw_offer_req 2 [digest_of off1; digest_of off2] (gs "v1"))
    (fun g ms s => map (fun m => subs_paid (DecodeGatewayDHTDiscoverOfferResponse toy_hash m)) ms) = Ret [([10; 20], true)].
Proof. vm_compute. reflexivity. Qed.
Print Assumptions gateway_offer_underpaid_refuted.
(** Gateway 30, which cannot be reached, is paid as well (C101). *)
Theorem dht_v2_underpaid_refuted :
  act_of peers stocked_gw DHTDiscoverV2 (dht_v2_req 2 50 3 (gs "v1"))
    (fun g ms s => (map (fun m => match DecodeClientDHTDiscoverResponseV2 toy_hash m with
                                  | Ret (OkR (cs, _, un, _, _, _)) => (map be_val cs, map be_val un) | _ => ([], []) end) ms,
                    map (fun x => be_val (fst x)) s, paid_out g))
  = Ret ([([10; 20], [30])], [10; 20], [(gs "addr1", 3); (gs "addr2", 3); (gs "addr3", 3)]).
Proof. vm_compute. reflexivity. Qed.
Print Assumptions dht_v2_underpaid_refuted.
(** Both gateways are paid the search price 3 instead of 6 for three offers and 2 for one (C100). *)
Theorem dht_offer_underpaid_refuted :
  act_of peers stocked_gw DHTOffer
    (dht_offer_req 2 [Some [digest_of off1; digest_of off2; digest_of off2]; Some [digest_of off2]] [idn 10; idn 20] (gs "v1"))
    (fun g ms s => (length ms, map (fun x => be_val (fst x)) s, paid_out g)) = Ret (1%nat, [10; 20], [(gs "addr1", 3); (gs "addr2", 3)]).
Proof. vm_compute. reflexivity. Qed.
Print Assumptions dht_offer_underpaid_refuted.

(** C43: a request of anybody for no offers makes offers free for ever, one for two offers
    doubles the price. *)
Theorem offer_price_changes_refuted :
  act_of toy_env stocked_gw GatewayOffer (gw_offer_req 2 [] (gs "v1")) (fun g ms s => g_offer g) = Ret 0 /\
  act_of toy_env stocked_gw GatewayOffer (gw_offer_req 2 [digest_of off1; digest_of off2] (gs "v1")) (fun g ms s => g_offer g) = Ret 4.
Proof. vm_compute. auto. Qed.
Print Assumptions offer_price_changes_refuted.

(** C45: requests that make a handler panic: no identifier; an offer the gateway does not
    have (client and gateway interface); fewer lists of digests than gateways; an unknown
    gateway; a malformed gateway identifier; offers without provider. *)
Theorem handlers_panic_refuted :
  let none := ok_or zero_message in
  let bare := Message (m_type (std_req 2 50)) 1 (Some [1]) (Some (gs "{""piece_cid"":""xy"",""ttl"":50}")) [] in
  let bad_ids := Message (m_type (dht_offer_req 2 [] [] [])) 1 (Some [1]) (Some (gs "{""gateway_ids"":[""xy""]}")) [] in
  let no_offer := snd (MessageSign toy_sign toy_blake (Message (m_type (group_req 70 7 off1)) 1 (Some [1]) (Some (gs "{""provider_id"":""46""}")) []) (toy_key 7) 1) in
  toy_act toy_env stocked_gw StandardDiscover bare = Panic /\
  toy_act toy_env stocked_gw StandardOffer (std_offer_req 2 50 [gs "AAAA"] (gs "v9")) = Panic /\
  toy_act toy_env stocked_gw GatewayOffer (gw_offer_req 2 [gs "AAAA"] (gs "v1")) = Panic /\
  toy_act peers stocked_gw DHTOffer (dht_offer_req 2 [Some [digest_of off1]] [idn 10; idn 20] (gs "v9")) = Panic /\
  toy_act peers stocked_gw DHTOffer (dht_offer_req 2 [Some [digest_of off1]] [idn 11] (gs "v9")) = Panic /\
  toy_act peers stocked_gw DHTOffer bad_ids = Panic /\
  toy_act toy_env stocked_gw PublishGroup no_offer = Panic.
Proof. vm_compute. repeat split. Qed.
Print Assumptions handlers_panic_refuted.

(** C96: asked for an offer by digest and an identifier it does not have, the gateway
    serves a sub-offer whose proof fails. *)
Theorem offer_by_digest_unproved_refuted :
  act_of toy_env stocked_gw StandardOffer (std_offer_req 1 50 [digest_of off2] (gs "v4"))
    (fun g ms s => map (fun m => match DecodeClientStandardDiscoverOfferResponse toy_hash m with
       | Ret (OkR (_, _, _, Some l, _, _, _)) => map (VerifyMerkleProof toy_hash) l | _ => [] end) ms) = Ret [[Ret false]].
Proof. vm_compute. reflexivity. Qed.
Print Assumptions offer_by_digest_unproved_refuted.

(** C97: the statement storing the first identifier fails; the publication is acknowledged
    and the offer not found. *)
Theorem published_lost_refuted :
  act_of (with_fates (fun _ => fail_at 1) toy_env) toy_gw PublishGroup (group_req 70 7 off1)
    (fun g ms s => (map (DecodeProviderPublishGroupOfferResponse toy_hash) ms, seen (selectOffersSingle toy_hash (fun x => x) 0 0 (g_db g) (idn 1))))
  = Ret ([Ret (OkR (Some (idn 50), digest_of off1))], Ret ([], false)).
Proof. vm_compute. reflexivity. Qed.
Print Assumptions published_lost_refuted.

(** C102: sub-offers for a request without signature. *)
Theorem gateway_offer_unsigned_refuted :
  m_sig (gw_offer_req 2 [digest_of off1] (gs "v2")) = [] /\
  act_of toy_env stocked_gw GatewayOffer (gw_offer_req 2 [digest_of off1] (gs "v2"))
    (fun g ms s => map (fun m => subs_paid (DecodeGatewayDHTDiscoverOfferResponse toy_hash m)) ms) = Ret [([10], false)].
Proof. vm_compute. auto. Qed.
Print Assumptions gateway_offer_unsigned_refuted.

(** C103: provider 80 publishes, with its own key, an offer in the name of provider 70, and
    the gateway serves it as one of provider 70. *)
Theorem published_for_another_refuted :
  let o := toy_signed_offer 70 8 [idn 2] 1 100 in
  act_of toy_env toy_gw PublishGroup (group_req 80 8 o)
    (fun g ms s => (length ms, match selectOffersSingle toy_hash (fun x => x) 0 0 (g_db g) (idn 2) with
                               | Ret (l, _) => map (fun x => (o_provider x, o_price x)) l | _ => [] end)) = Ret (1%nat, [(Some (idn 70), 1)]).
Proof. vm_compute. reflexivity. Qed.
Print Assumptions published_for_another_refuted.
