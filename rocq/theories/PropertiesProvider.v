(** * Properties of the provider's handlers (C53-C56, C104-C112)

    About whole lives of a provider: requests of its administrator, of clients and of
    gateways, served one after another ([ProviderSpec.lived]). *)
From Coq Require Import String List ZArith Bool Lia Sorting.Permutation.
From Coq Require Import Init.Byte.
From Verif Require Import Base Ids Crypto Message Offer Schema Messages WireSpec Register RegisterSpec OfferStore OfferStoreSpec Ring RingSpec SqlOffers SqlOffersSpec
  Rest Gateway GatewaySpec GatewayStoreProofs Provider ProviderSpec ProviderProofs ProviderLifeProofs ProviderListProofs ProviderServeProofs ProviderAckProofs ProviderSendProofs
  PropertiesMerkle PropertiesCrypto PropertiesSql ToyGateway ToyProvider.
Import ListNotations.
Open Scope Z_scope.

Section properties.
  Variable version : Z.
  Variable supported : list Z.
  Variable sha256 sha512_256 : bytes -> bytes.
  Variable pub_of : bytes -> bytes.
  Variable ec_sign : bytes -> bytes -> option bytes.
  Variable ec_verify : bytes -> bytes -> bytes -> bool.
  Variable blake : bytes -> bytes.

  Local Notation signed_by := (signed_by pub_of ec_verify blake).
  Local Notation countersigned := (countersigned sha256 pub_of ec_verify blake).
  Local Notation accepted := (accepted sha256 sha512_256 pub_of ec_verify blake).
  Local Notation genuine := (genuine sha256 pub_of ec_verify blake).
  Local Notation pact := (pact version supported sha256 sha512_256 pub_of ec_sign ec_verify blake).
  Local Notation lived := (lived version supported sha256 sha512_256 pub_of ec_sign ec_verify blake).
  Local Notation sized := (sized sha256).
  Local Notation own := (own pub_of ec_verify blake).
  Local Notation lists := (lists sha256).
  Local Notation batch := (batch sha256 pub_of ec_verify blake).
  Local Notation ordered := (ordered sha256 pub_of ec_verify blake).
  Local Notation ordered_batch := (ordered_batch sha256 pub_of ec_verify blake).
  Local Notation ordered_group := (ordered_group sha256 pub_of ec_verify blake).
  Local Notation orderly := (orderly sha256 sha512_256 pub_of ec_verify blake).
  Local Notation stocked := (stocked sha256 pub_of ec_verify blake).
  Local Notation carries_dht := (carries_dht sha256).
  Local Notation ready := (ready ec_sign blake).

  (** ** C53 *)

  (** An answered listing: the gateway it names has signed the request; the answer is signed; it splits into messages
      of 1 to 50 offers, all of which the administrator ordered.  In an orderly life they are the 500 live offers
      nearest to the start of the range.  Full claim: in any life, see [listing_refuted]. *)
  Theorem listing_partial : forall reg ss s p' acks r,
    ecdsa_correct pub_of ec_sign ec_verify -> int32 version -> Forall int32 supported -> sized (ss ++ [s]) -> lived (NewProvider reg) (ss ++ [s]) p' ->
    s_kind s = ListDHT acks -> s_answers s = [r] -> shuffle (pe_digests (s_env s)) ->
    exists gid lo hi a b c d i msgs parts,
      DecodeGatewayListDHTOfferRequest sha256 (s_msg s) = Ret (OkR (Some gid, Some lo, Some hi, a, b, c, d)) /\
      ProviderSpec.known s gid i /\ signed_by i (s_msg s) /\ own (s_before s) r /\
      DecodeGatewayListDHTOfferResponse sha256 r = Ret (OkR (Some msgs)) /\ Forall2 (batch (s_before s)) msgs parts /\
      (forall o, In o (concat parts) -> exists s', In s' ss /\ ordered s' o) /\
      (orderly (ss ++ [s]) -> exists hist, stocked ss hist /\
         nearest lo 500 (concat parts) (fun o => single_offer hist o /\ live (pe_now (s_env s)) o /\ offset lo o <= cw (be_val lo) (be_val hi))).
  Proof. intros reg ss s p' acks r Law V1 V2. apply listed_pf; [exact Law|split; assumption]. Qed.

  (** ** C54 *)

  (** A listing as it is when the gateway does not answer, and the same with a correct acknowledgement of each message:
      an acknowledgement is recorded for each offer listed, if one was recorded for its identifier before.  Full claim:
      also if there was none before, see [acknowledged_listing_refuted]. *)
  Theorem acknowledged_listing_partial : forall reg ss s p' r gid lo hi x1 x2 x3 x4 i msgs acks a l,
    ecdsa_correct pub_of ec_sign ec_verify -> int32 version -> Forall int32 supported -> sized (ss ++ [s]) ->
    lived (NewProvider reg) (ss ++ [s]) p' -> s_kind s = ListDHT (fun _ => None) -> s_answers s = [r] -> shuffle (pe_digests (s_env s)) ->
    DecodeGatewayListDHTOfferRequest sha256 (s_msg s) = Ret (OkR (Some gid, lo, hi, x1, x2, x3, x4)) ->
    DecodeGatewayListDHTOfferResponse sha256 r = Ret (OkR (Some msgs)) -> registered s gid i ->
    acks r = Some a -> signed_by i a -> DecodeGatewayListDHTOfferAck sha256 a = Ret (OkR (Some l)) -> Forall2 (countersigned i) msgs l ->
    (forall msg o c, In msg msgs -> carries_dht msg o -> o_cids o = [c] -> exists id, kept_ack (s_before s) c id <> None) ->
    exists p2, pact (s_env s) (s_before s) (ListDHT acks) (s_msg s) = Ret (p2, [r], []) /\
      forall msg o c, In msg msgs -> carries_dht msg o -> o_cids o = [c] ->
        exists x, kept_ack p2 c gid = Some x /\ In (a_msg x, a_ack x) (combine msgs l).
  Proof. intros reg ss s p' r gid lo hi x1 x2 x3 x4 i msgs acks a l Law V1 V2. apply acked_pf; [exact Law|split; assumption]. Qed.

  (** ** C55 *)

  (** An offer is listed as published at a gateway exactly if the gateway, asked to publish it, accepted it. *)
  Theorem published_genuine : forall reg ss p id o,
    ecdsa_correct pub_of ec_sign ec_verify -> int32 version -> Forall int32 supported -> sized ss -> lived (NewProvider reg) ss p -> id32 id ->
    In o (published p id) ->
    exists s request response i, In s ss /\ In (id, request, Some response) (s_sent s) /\ ProviderSpec.known s id i /\ accepted i request response o.
  Proof.
    intros reg ss p id o Law V1 V2 Sz L I H.
    destruct (life_ok version supported sha256 sha512_256 pub_of ec_sign ec_verify blake ss Law (conj V1 V2) _ _ (proj1 (new_safe sha256 reg)) Sz L) as (_ & _ & _ & G & _).
    destruct (G id o I H) as [[]|X]. exact X.
  Qed.
  Theorem published_complete : forall reg ss p s id request response i o,
    ecdsa_correct pub_of ec_sign ec_verify -> int32 version -> Forall int32 supported -> sized ss -> lived (NewProvider reg) ss p ->
    In s ss -> In (id, request, Some response) (s_sent s) -> registered s id i -> accepted i request response o -> In o (published p id).
  Proof.
    intros reg ss p s id request response i o Law V1 V2 Sz L I S R A.
    destruct (life_ok version supported sha256 sha512_256 pub_of ec_sign ec_verify blake ss Law (conj V1 V2) _ _ (proj1 (new_safe sha256 reg)) Sz L) as (_ & _ & _ & _ & _ & _ & _ & C).
    exact (proj1 (C s id request response i o I S R A)).
  Qed.

  (** ** C104 *)

  (** An acknowledgement kept for an identifier and a gateway is a publication of an offer for the identifier with a
      signature of it by the gateway's registered key. *)
  Theorem acks_genuine : forall reg ss p c id a,
    ecdsa_correct pub_of ec_sign ec_verify -> int32 version -> Forall int32 supported -> sized ss -> lived (NewProvider reg) ss p -> id32 c -> id32 id ->
    kept_ack p c id = Some a -> exists s, In s ss /\ genuine s c id a.
  Proof.
    intros reg ss p c id a Law V1 V2 Sz L Ic Ii H.
    destruct (life_ok version supported sha256 sha512_256 pub_of ec_sign ec_verify blake ss Law (conj V1 V2) _ _ (proj1 (new_safe sha256 reg)) Sz L) as (_ & _ & _ & _ & _ & G & _).
    destruct (G c id a Ic Ii H) as [X|X]; [discriminate X|exact X].
  Qed.
  (** One is kept for each accepted publication, whatever happens afterwards. *)
  Theorem acks_complete : forall reg ss p s id request response i o c,
    ecdsa_correct pub_of ec_sign ec_verify -> int32 version -> Forall int32 supported -> sized ss -> lived (NewProvider reg) ss p ->
    In s ss -> In (id, request, Some response) (s_sent s) -> registered s id i -> accepted i request response o ->
    carries_dht request o -> o_cids o = [c] -> kept_ack p c id <> None.
  Proof.
    intros reg ss p s id request response i o c Law V1 V2 Sz L I S R A D O.
    destruct (life_ok version supported sha256 sha512_256 pub_of ec_sign ec_verify blake ss Law (conj V1 V2) _ _ (proj1 (new_safe sha256 reg)) Sz L) as (_ & _ & _ & _ & _ & _ & _ & C).
    exact (proj2 (C s id request response i o I S R A) D c O).
  Qed.

  (** ** C105 *)

  (** A client asking for the acknowledgement of an identifier by a gateway gets the one kept, or that there is none. *)
  Theorem ack_request_answered : forall reg ss p m c id,
    ecdsa_correct pub_of ec_sign ec_verify -> int32 version -> Forall int32 supported -> sized ss -> wired ss -> lived (NewProvider reg) ss p -> ready p ->
    DecodeClientDHTOfferAckRequest sha256 m = Ret (OkR (Some c, Some id)) ->
    exists r found rq ak, HandleOfferAck version supported sha256 ec_sign blake p m = Ret (PServed p [Json r] []) /\ own p r /\
      DecodeClientDHTOfferAckResponse sha256 r = Ret (OkR (Some c, Some id, found, Some rq, Some ak)) /\
      match kept_ack p c id with Some x => found = true /\ rq = a_msg x /\ ak = a_ack x | None => found = false end.
  Proof.
    intros reg ss p m c id Law V1 V2 Sz W L R D.
    assert (K : forall x, kept_ack p c id = Some x -> wire_message (a_msg x) /\ wire_message (a_ack x)).
    { intros x. destruct (ack_request_decoded sha256 m c id D) as (Ic & Ii).
      apply (kept_wire version supported sha256 sha512_256 pub_of ec_sign ec_verify blake reg ss p Law (conj V1 V2) Sz W L c id x Ic Ii). }
    destruct (offer_ack_total version supported sha256 sha512_256 pub_of ec_sign ec_verify blake p m c id (conj V1 V2) R K D) as (r & H).
    destruct (offer_ack_pf version supported sha256 sha512_256 pub_of ec_sign ec_verify blake p m _ r c id Law (conj V1 V2) K D H eq_refl) as (O & found & rq & ak & E & F).
    exists r, found, rq, ak. auto.
  Qed.

  (** ** C106 *)

  (** Every request to a gateway is signed and carries exactly the offers the administrator ordered in this step. *)
  Theorem requests_ordered : forall reg ss p s id request r,
    ecdsa_correct pub_of ec_sign ec_verify -> int32 version -> Forall int32 supported -> sized ss -> lived (NewProvider reg) ss p ->
    In s ss -> In (id, request, r) (s_sent s) -> own (s_before s) request /\
      ((exists os, lists (s_before s) request os /\ ordered_batch s os) \/
       (exists o, DecodeProviderPublishGroupOfferRequest sha256 request = Ret (OkR (p_id (s_before s), 1, Some o)) /\ ordered_group s o)).
  Proof.
    intros reg ss p s id request r Law V1 V2 Sz L I S.
    destruct (life2_ok version supported sha256 sha512_256 pub_of ec_sign ec_verify blake ss Law (conj V1 V2) _ _ (proj1 (new_safe sha256 reg)) Sz L) as (_ & _ & X).
    exact (X s id request r I S).
  Qed.

  (** ** C107 *)

  (** The offers of a batch go to each reachable one of the 16 gateways nearest to the first identifier.  Full claim:
      each offer to the gateways nearest to its identifier, and only there; see [near_only_refuted]. *)
  Theorem nearest_asked_partial : forall reg ss s p' c t price expiry qos members,
    ecdsa_correct pub_of ec_sign ec_verify -> int32 version -> Forall int32 supported -> sized ss -> lived (NewProvider reg) ss p' ->
    In s ss -> s_kind s = AdminPublishDHT -> s_answers s <> [] -> ready (s_before s) ->
    DecodeProviderAdminPublishDHTOfferRequest sha256 (s_msg s) = Ret (OkR (c :: t, price, expiry, qos)) ->
    managed info (p_reg (s_before s)) -> knows info (p_reg (s_before s)) members -> (16 <= length members)%nat ->
    exists res os, RegisterSpec.nearest info (p_reg (s_before s)) members (ToString c) 16 res /\ ordered_batch s os /\
      forall j gw id, nth_error res j = Some gw -> NewNodeIDFromHexString (n_id (snd gw)) = OkR id -> pe_conn (s_env s) j id = true ->
        exists request, In (id, request, pe_net (s_env s) j id request) (s_sent s) /\ lists (s_before s) request os.
  Proof.
    intros reg ss s p' c t price expiry qos members Law V1 V2 Sz L I K A R D M Kn N.
    eapply near_asked_pf; first [exact Law|split; [exact V1|exact V2]|exact L|eassumption].
  Qed.

  (** ** C108 *)

  (** A group offer goes to every reachable gateway the register manager knows. *)
  Theorem group_asked : forall reg ss s p',
    ecdsa_correct pub_of ec_sign ec_verify -> int32 version -> Forall int32 supported -> sized ss -> lived (NewProvider reg) ss p' ->
    In s ss -> s_kind s = AdminPublishGroup -> s_answers s <> [] -> ready (s_before s) -> shuffle (pe_nodes (s_env s)) ->
    start info (p_reg (s_before s)) = true -> gatewayDiscv info (p_reg (s_before s)) = true ->
    exists o gws, ordered_group s o /\ Permutation gws (map snd (gatewaysMap info (p_reg (s_before s)))) /\
      forall j gw id, nth_error gws j = Some gw -> NewNodeIDFromHexString (n_id gw) = OkR id -> pe_conn (s_env s) j id = true ->
        exists request, In (id, request, pe_net (s_env s) j id request) (s_sent s) /\
          DecodeProviderPublishGroupOfferRequest sha256 request = Ret (OkR (p_id (s_before s), 1, Some o)).
  Proof.
    intros reg ss s p' Law V1 V2 Sz L I K A R Sh St G.
    eapply group_asked_pf; first [exact Law|split; [exact V1|exact V2]|exact L|eassumption].
  Qed.

  (** ** C110 *)

  (** The administrator naming gateways is shown exactly what is published there; all of it was ordered. *)
  Theorem published_shown : forall reg ss p e m ids,
    ecdsa_correct pub_of ec_sign ec_verify -> int32 version -> Forall int32 supported -> sized ss -> lived (NewProvider reg) ss p -> ready p ->
    DecodeProviderAdminGetPublishedOfferRequest sha256 m = Ret (OkR ids) -> ids <> [] ->
    exists r, HandleAdminGetPublished version supported sha256 ec_sign blake e p m = Ret (PServed p [Json r] []) /\ own p r /\
      DecodeProviderAdminGetPublishedOfferResponse sha256 r = Ret (OkR (negb (is_nil (flat_map (published p) ids)), Some (flat_map (published p) ids))) /\
      forall id o, In id ids -> In o (published p id) -> exists s, In s ss /\ ordered s o.
  Proof.
    intros reg ss p e m ids Law V1 V2 Sz L R D N.
    pose proof (published_from version supported sha256 sha512_256 pub_of ec_sign ec_verify blake reg ss p Law (conj V1 V2) Sz L) as P.
    assert (W : forall id o, id32 id -> In o (published p id) -> wire_offer sha256 o) by (intros id o I H; exact (proj1 (P id o I H))).
    destruct (get_published_total version supported sha256 ec_sign blake e p m ids R N W D) as (r & H).
    destruct (get_published_pf version supported sha256 pub_of ec_sign ec_verify blake e p m _ r ids Law N W D H eq_refl) as (O & E).
    exists r. repeat split; auto. intros id o I X. refine (proj2 (P id o _ X)).
    pose proof (published_ids_decoded sha256 m ids D) as F. rewrite Forall_forall in F. apply F. exact I.
  Qed.

  (** ** C111 *)

  (** Only an initialisation changes the provider's identifier, key or key version.  Full claim: an initialisation
      answered with an error does not either; see [failed_init_refuted]. *)
  Theorem identity_kept_partial : forall p ss p' s,
    lived p ss p' -> In s ss -> s_kind s <> AdminInitialiseKey -> s_kind s <> AdminInitialiseKeyV2 ->
    p_id (s_after s) = p_id (s_before s) /\ p_key (s_after s) = p_key (s_before s) /\ p_ver (s_after s) = p_ver (s_before s).
  Proof.
    intros p ss p' s L I N1 N2. revert p L. induction ss as [|x t IH]; intros p L; [destruct I|]. destruct L as (_ & E & L).
    destruct I as [->|I]; [|exact (IH I _ L)].
    exact (identity_kept_pf version supported sha256 sha512_256 pub_of ec_sign ec_verify blake _ _ _ _ _ _ _ E N1 N2).
  Qed.

  (** ** C112 *)

  (** A gateway asked by the provider to publish, replying as [Gateway] models it, with its registered key: the offers
      are in its database and the provider lists them as published there. *)
  Theorem dht_publication : forall reg ss p s id request r i o e g g' k pk,
    ecdsa_correct pub_of ec_sign ec_verify -> int32 version -> Forall int32 supported -> sized ss -> lived (NewProvider reg) ss p ->
    In s ss -> In (id, request, Some r) (s_sent s) -> registered s id i ->
    HandlePublishDHT version supported sha256 sha512_256 pub_of ec_sign ec_verify blake e g request = Ret (g', Reply r) ->
    g_key g = Some k -> DecodePublicKey (n_key i) = Ret (OkR pk) -> matches pub_of pk k -> carries_dht request o ->
    In o (published p id) /\ (forall c, o_cids o = [c] -> kept_ack p c id <> None) /\
    exists att, db_after sha512_256 (g_db g) att = Ret (g_db g') /\ In o (map fst att).
  Proof.
    intros reg ss p s id request r i o e g g' k pk Law V1 V2 Sz L I S R H K D M C.
    pose proof (dht_accepted_pf version supported sha256 sha512_256 pub_of ec_sign ec_verify blake e g request g' r i k pk o Law H K D M C) as A.
    split; [eapply published_complete; eassumption|]. split; [intros c O; eapply acks_complete; eassumption|].
    apply (publish_dht_inv version supported sha256 sha512_256 pub_of ec_sign ec_verify blake (fun _ _ _ => true) (fun _ => None) (fun _ => true)) in H.
    destruct H as (_ & _ & att & (Da & _) & X). destruct (X r eq_refl) as (id' & nonce & l & key & sig & b & E & E2 & _).
    exists att. split; [exact Da|]. rewrite E2. destruct C as (pid & n & l' & E' & C). rewrite E in E'. injection E' as <- <- ->. exact C.
  Qed.
  Theorem group_publication : forall reg ss p s id request r i o e g gid g' k pk,
    ecdsa_correct pub_of ec_sign ec_verify -> (forall x, length (sha512_256 x) = 32%nat) -> int32 version -> Forall int32 supported -> sized ss -> lived (NewProvider reg) ss p ->
    In s ss -> In (id, request, Some r) (s_sent s) -> registered s id i ->
    HandlePublishGroup version supported sha256 sha512_256 pub_of ec_sign ec_verify blake e g request = Ret (g', Reply r) ->
    g_id g = Some gid -> id32 gid -> g_key g = Some k -> DecodePublicKey (n_key i) = Ret (OkR pk) -> matches pub_of pk k ->
    ProviderSpec.carries_group sha256 request o ->
    In o (published p id) /\ db_after sha512_256 (g_db g) [(o, e_fates e 0)] = Ret (g_db g').
  Proof.
    intros reg ss p s id request r i o e g gid g' k pk Law Hl V1 V2 Sz L I S R H Gi Ig K D M C.
    pose proof (group_accepted_pf version supported sha256 sha512_256 pub_of ec_sign ec_verify blake e g gid request g' r i k pk o Law Hl H Gi Ig K D M C) as A.
    split; [eapply published_complete; eassumption|].
    apply (publish_group_inv version supported sha256 sha512_256 pub_of ec_sign ec_verify blake (fun _ _ _ => true) (fun _ => None) (fun _ => true)) in H.
    destruct H as (_ & _ & att & (Da & G) & X). destruct (X r eq_refl) as (o' & id' & dg & b & -> & _).
    destruct (G o' _ (or_introl eq_refl)) as ((_ & i' & pid & (nonce & P) & _) & _). destruct C as (pid' & n' & E). rewrite P in E. injection E as _ _ <-. exact Da.
  Qed.
End properties.

(** ** C56 *)

(** No life of a provider ever puts a gateway into the list of those supporting group offers. *)
Theorem notifications_ignored : forall version supported sha256 sha512_256 pub_of ec_sign ec_verify blake reg ss p,
  ecdsa_correct pub_of ec_sign ec_verify -> int32 version -> Forall int32 supported -> sized sha256 ss ->
  lived version supported sha256 sha512_256 pub_of ec_sign ec_verify blake (NewProvider reg) ss p -> p_groups p = [].
Proof.
  intros version supported sha256 sha512_256 pub_of ec_sign ec_verify blake reg ss p Law V1 V2 Sz L.
  destruct (life_ok version supported sha256 sha512_256 pub_of ec_sign ec_verify blake ss Law (conj V1 V2) _ _ (proj1 (new_safe sha256 reg)) Sz L) as (_ & _ & G & _).
  exact G.
Qed.

Print Assumptions listing_partial.
Print Assumptions acknowledged_listing_partial.
Print Assumptions published_genuine.
Print Assumptions published_complete.
Print Assumptions acks_genuine.
Print Assumptions acks_complete.
Print Assumptions ack_request_answered.
Print Assumptions requests_ordered.
Print Assumptions nearest_asked_partial.
Print Assumptions group_asked.
Print Assumptions published_shown.
Print Assumptions identity_kept_partial.
Print Assumptions dht_publication.
Print Assumptions group_publication.
Print Assumptions notifications_ignored.

(** ** The hypotheses hold in the toy world *)

Local Notation toy f := (f 1 [1] toy_hash toy_hash toy_pub toy_sign PropertiesCrypto.toy_verify toy_blake) (only parsing).

(** A computed life is one; the numbers of identifiers are small. *)
Definition small (ss : list pstep) : bool :=
  forallb (fun s => match DecodeProviderAdminPublishDHTOfferRequest toy_hash (s_msg s) with
    Ret (OkR (cids, _, _, _)) => Nat.ltb (length cids) 1000 | _ => true end) ss.
Lemma small_sized ss : small ss = true -> sized toy_hash ss.
Proof.
  intros H s cids price expiry qos I D. unfold small in H. rewrite forallb_forall in H. specialize (H s I). rewrite D in H.
  apply Nat.ltb_lt in H. lia.
Qed.
Lemma toy_life_of l : is_ret (toy_plife l) = true -> small (steps_of (toy_plife l)) = true ->
  toy lived (NewProvider toy_reg) (steps_of (toy_plife l)) (end_of (toy_plife l)) /\ sized toy_hash (steps_of (toy_plife l)).
Proof. intros R S. split; [|apply small_sized; exact S]. apply (toy plife_lived _ _ _ _ (ret_of _ R)). Qed.
Lemma toy_versions : int32 1 /\ Forall int32 [1].
Proof. unfold int32. repeat constructor; lia. Qed.
Lemma toy_signs n : can_sign toy_sign toy_blake (toy_key n).
Proof. split; [reflexivity|]. intros msg. change (slice (k_priv (toy_key n))) with (be_bytes 32 n). unfold toy_sign. rewrite BaseProofs.be_bytes_length. discriminate. Qed.

(** The provider gets its key, publishes a group offer at the gateways 10, 20 and 30 and an offer for identifier 15
    at the gateways 20 and 30, and each accepts. *)
Example toy_lived : toy lived (NewProvider toy_reg) toy_steps toy_prov /\ sized toy_hash toy_steps /\
  map (fun s => length (s_answers s)) toy_steps = [1; 1; 1]%nat /\
  map (fun x => be_val (fst (fst x))) toy_exchanges = [10; 20; 30; 20; 30] /\
  flat_map s_sent toy_steps = toy_exchanges.
Proof.
  assert (E : end_of (toy_plife toy_requests) = toy_prov) by (vm_compute; reflexivity).
  destruct (toy_life_of toy_requests) as (L & S); [vm_compute; reflexivity..|]. rewrite E in L.
  split; [exact L|]. split; [exact S|]. vm_compute. repeat split.
Qed.

(** C55, C104: what it remembers. *)
Example toy_published :
  published toy_prov (idn 10) = [toy_group] /\ published toy_prov (idn 20) = [toy_group; toy_single] /\ published toy_prov (idn 30) = [toy_group; toy_single] /\
  kept_ack toy_prov (idn 15) (idn 10) = None /\ kept_ack toy_prov (idn 15) (idn 20) <> None /\ kept_ack toy_prov (idn 1) (idn 20) = None.
Proof. vm_compute. repeat split. discriminate. Qed.
Example toy_registered : forall s, In s toy_steps -> registered s (idn 20) (toy_info 20 2 (gs "addr2")).
Proof.
  intros s I. assert (R : p_reg (s_before s) = toy_reg /\ pe_gateways (s_env s) = fun _ => None).
  { destruct (toy_plife toy_requests) as [[ss p]| |] eqn:E; unfold toy_steps in I; rewrite E in I; cbn [steps_of] in I; try contradiction.
    unfold toy_plife, toy_requests in E. cbn [map fst snd plife] in E.
    repeat match type of E with context [pact ?a ?b ?c ?d ?e ?f ?g ?h ?i ?p ?k ?m] =>
      let F := fresh in destruct (pact a b c d e f g h i p k m) as [[[? ?] ?]| |] eqn:F; cbn [obind] in E; try discriminate E end.
    injection E as <- <-. cbn [fst In] in I. destruct I as [<-|[<-|[<-|[]]]]; split; reflexivity. }
  destruct R as (R0 & R). unfold registered, known. rewrite R0.
  split; [vm_compute; reflexivity|]. split; [vm_compute; reflexivity|].
  assert (A : aget bytes_eqb (gatewaysMap info toy_reg) (ToString (idn 20)) = Some (toy_info 20 2 (gs "addr2"))) by (vm_compute; reflexivity).
  split; [exact A|]. intros j [X|(n & l & X & _)]; [|rewrite R in X; discriminate X].
  rewrite A in X. injection X as <-. reflexivity.
Qed.
(** All offers ordered are accepted by each gateway that answers. *)
Example toy_accepted : forall id request r, In (id, request, Some r) toy_exchanges ->
  match DecodeProviderPublishDHTOfferRequest toy_hash request with
  | Ret (OkR (_, _, Some l)) => l = [toy_single]
  | _ => match DecodeProviderPublishGroupOfferRequest toy_hash request with Ret (OkR (_, _, Some o)) => o = toy_group | _ => False end
  end.
Proof. intros id request r H. cbn [In toy_exchanges] in H. repeat (destruct H as [H|H]; [injection H as <- <- <-; vm_compute; reflexivity|]). destruct H. Qed.

(** C105: what clients are told about identifier 15 at the gateways 20 and 10. *)
Example toy_ready : ready toy_sign toy_blake toy_prov.
Proof.
  exists (idn 70), (toy_key 7). split; [vm_compute; reflexivity|]. split; [unfold id32; vm_compute; reflexivity|].
  split; [vm_compute; reflexivity|]. apply toy_signs.
Qed.
Definition told (m : message) : list (bool * bool) :=
  match HandleOfferAck 1 [1] toy_hash toy_sign toy_blake toy_prov m with
  | Ret s => flat_map (fun a => match a with Json r =>
        match DecodeClientDHTOfferAckResponse toy_hash r with
        | Ret (OkR (_, _, found, Some rq, Some ak)) => [(found, match DecodeProviderPublishDHTOfferRequest toy_hash rq with Ret (OkR (_, _, Some [o])) => bytes_eqb (o_sig o) (o_sig toy_single) | _ => false end)]
        | _ => [] end | _ => [] end) (p_wrote s)
  | _ => []
  end.
Example toy_told : told (ack_req 15 20) = [(true, true)] /\ told (ack_req 15 10) = [(false, false)] /\ told (ack_req 99 20) = [(false, false)].
Proof. vm_compute. repeat split. Qed.

(** C110: what the administrator is shown of the gateways 10 and 20, and of a stranger. *)
Definition shown (m : message) : list (bool * list Z) :=
  match HandleAdminGetPublished 1 [1] toy_hash toy_sign toy_blake (toy_penv 43) toy_prov m with
  | Ret s => flat_map (fun a => match a with Json r =>
        match DecodeProviderAdminGetPublishedOfferResponse toy_hash r with Ret (OkR (found, Some l)) => [(found, map o_price l)] | _ => [] end | _ => [] end) (p_wrote s)
  | _ => []
  end.
Example toy_shown : shown (get_pub_req [10; 20]) = [(true, [10; 10; 20])] /\ shown (get_pub_req [99]) = [(false, [])].
Proof. vm_compute. repeat split. Qed.

(** C112: the gateway answering is the one of [Gateway], with the registered key. *)
Example toy_gateway_answers : forall request r, In (idn 20, request, Some r) toy_exchanges -> m_type request = ProviderPublishDHTOfferRequestType ->
  match HandlePublishDHT 1 [1] toy_hash toy_hash toy_pub toy_sign PropertiesCrypto.toy_verify toy_blake toy_env (toy_gw_at (idn 20)) request with
  | Ret (g', Reply a) => a = r /\ map r_price (offer_t (g_db g')) = [20]
  | _ => False
  end.
Proof.
  intros request r H T. cbn [In toy_exchanges] in H.
  destruct H as [H|[H|[H|[H|[H|[]]]]]]; pose proof (f_equal (fun x => fst (fst x)) H) as H1; pose proof (f_equal (fun x => snd (fst x)) H) as H2;
    pose proof (f_equal snd H) as H3; cbn [fst snd] in H1, H2, H3; clear H; subst request;
    try (vm_compute in T; discriminate T); try (vm_compute in H1; discriminate H1).
  injection H3 as <-. vm_compute. split; reflexivity.
Qed.
Example toy_gateway_key : g_key (toy_gw_at (idn 20)) = Some (toy_key 2) /\ DecodePublicKey (n_key (toy_info 20 2 (gs "addr2"))) = Ret (OkR (toy_pubkey 2)) /\
  matches toy_pub (toy_pubkey 2) (toy_key 2).
Proof.
  split; [vm_compute; reflexivity|]. split; [vm_compute; reflexivity|]. split; [reflexivity|]. exists (idn 2). split; [reflexivity|]. left. reflexivity.
Qed.
