(** * Properties of the gateway's requests to providers and of its administration (C113-C121)

    A life of a gateway now has all that can happen to it: requests served, listings of
    providers' offers and requests of the administrator.  The world is as in
    [PropertiesGateway]. *)
From Coq Require Import String List ZArith Bool Lia Sorting.Permutation.
From Coq Require Import Init.Byte.
From Verif Require Import Base Ids Crypto Message Offer Schema Messages WireSpec Payment PaymentSpec Register RegisterSpec OfferStore OfferStoreSpec SqlOffers SqlOffersSpec
  Rest Gateway GatewaySpec GatewayAdmin GatewayAdminSpec GatewayProofs GatewayStoreProofs GatewayAdminProofs GatewayMoneyProofs GatewayListProofs
  Provider ProviderSpec PropertiesMerkle PropertiesCrypto PropertiesSql ToyGateway ToyProvider PropertiesProvider PropertiesProviderListing.
Import ListNotations.
Open Scope Z_scope.

Section properties.
  Variable version : Z.
  Variable supported : list Z.
  Variable sha256 sha512_256 : bytes -> bytes.
  Variable pub_of : bytes -> bytes.
  Variable ec_sign : bytes -> bytes -> option bytes.
  Variable ec_verify : bytes -> bytes -> bytes -> bool.
  Variable blake : bytes -> bytes.
  Variable verify : gostring -> voucher -> option bytes -> bool.
  Variable voucher_text : voucher -> gostring.
  Variable voucher_of : gostring -> option voucher.
  Variable is_address : gostring -> bool.
  Variable zone : Z.

  Local Notation signed_by := (signed_by pub_of ec_verify blake).
  Local Notation offered := (offered sha256 pub_of ec_verify blake).
  Local Notation supplied := (supplied sha256 pub_of ec_verify blake).
  Local Notation acknowledges := (acknowledges sha256 ec_sign blake).
  Local Notation took := (took verify voucher_of is_address).
  Local Notation gact := (gact version supported sha256 sha512_256 pub_of ec_sign ec_verify blake verify voucher_text voucher_of is_address zone).
  Local Notation live_all := (live_all version supported sha256 sha512_256 pub_of ec_sign ec_verify blake verify voucher_text voucher_of is_address zone).
  Local Notation earns := (earns version supported sha256 sha512_256 pub_of ec_sign ec_verify blake verify voucher_text voucher_of is_address zone).
  Local Notation RequestListCIDOffer := (GatewayAdmin.RequestListCIDOffer version supported sha256 sha512_256 pub_of ec_sign ec_verify blake).
  Local Notation RequestProvider := (GatewayAdmin.RequestProvider version supported sha256 sha512_256 pub_of ec_sign ec_verify blake).
  Local Notation HandleAdminListDHT := (GatewayAdmin.HandleAdminListDHT version supported sha256 ec_sign blake).
  Local Notation HandleAdminSupport := (GatewayAdmin.HandleAdminSupport version supported sha256 ec_sign blake).
  Local Notation HandleAdminInitialiseKey := (GatewayAdmin.HandleAdminInitialiseKey version supported sha256 ec_sign blake).
  Local Notation HandleAdminInitialiseKeyV2 := (GatewayAdmin.HandleAdminInitialiseKeyV2 version supported sha256 ec_sign blake).

  (** ** C113 *)

  (** Whatever happens, the database is made by storing offers that came from registered
      providers, published by them or listed by the provider that was asked. *)
  Theorem stored_supplied : forall h g g', live_all g h = Ret g' ->
    exists att, db_after sha512_256 (g_db g) att = Ret (g_db g') /\
      forall o f, In (o, f) att -> wire_offer sha256 o /\ exists reg e ev n, In (reg, e, ev) h /\ supplied reg ev o /\ f = e_fates e n.
  Proof. intros. eapply live_all_inv; eassumption. Qed.

  (** ** C114 *)

  (** The acknowledgements a gateway sends are signatures of messages the provider signed,
      each such message is acknowledged, and the offers in them that the provider signed
      are those given to the database.  Full claim: what is acknowledged is stored; false,
      see below. *)
  Theorem listing_acknowledged_partial : forall e answer g lo hi pid a key request ack, int32 version -> Forall int32 supported ->
    RequestListCIDOffer e answer g [ArgCID lo; ArgCID hi; ArgNode pid] = Ret a -> g_key g = Some key -> k_sent a = [request; ack] ->
    exists p i response msgs acks att, pid = Some p /\ aget bytes_eqb (providersMap info (g_reg g)) (ToString p) = Some i /\
      answer request = Some response /\ signed_by i response /\ DecodeGatewayListDHTOfferResponse sha256 response = Ret (OkR msgs) /\
      DecodeGatewayListDHTOfferAck sha256 ack = Ret (OkR (Some acks)) /\
      (forall x, In x acks -> exists m, In m (elems msgs) /\ signed_by i m /\ acknowledges key (g_ver g) m x) /\
      (forall m y, In m (elems msgs) -> signed_by i m -> DecodeProviderPublishDHTOfferRequest sha256 m = Ret (OkR y) ->
         exists x, In x acks /\ acknowledges key (g_ver g) m x) /\
      db_after sha512_256 (g_db g) att = Ret (g_db (k_after a)) /\
      (forall o, In o (map fst att) -> wire_offer sha256 o /\ offered i response o) /\
      forall o, offered i response o -> bindable o = true -> In o (map fst att).
  Proof. intros. eapply listing_acks_pf; try eassumption. split; assumption. Qed.

  (** ** C115 *)

  (** Listing end to end: the provider has had any life before, it answers [r] to the request the
      gateway sends, the gateway answers [ack], and both have each other's registration.  Then
      the provider keeps an acknowledgement of the gateway for each offer it listed, and the
      gateway has tried to store each of them that is signed and fits the database.  Full
      claim: also for offers no gateway has acknowledged before; the provider forgets those,
      see [acknowledged_listing_refuted] of [PropertiesProviderListing]. *)
  Theorem listing_recorded_partial : forall reg ss s p' r e answer g l h pid a ack kp pkp ip gid kg pkg ig,
    ecdsa_correct pub_of ec_sign ec_verify -> int32 version -> Forall int32 supported -> sized sha256 (ss ++ [s]) ->
    lived version supported sha256 sha512_256 pub_of ec_sign ec_verify blake (NewProvider reg) (ss ++ [s]) p' ->
    s_kind s = ListDHT (fun _ => None) -> s_answers s = [r] -> shuffle (pe_digests (s_env s)) ->
    id32 l -> id32 h -> RequestListCIDOffer e answer g [ArgCID (Some l); ArgCID (Some h); ArgNode (Some pid)] = Ret a ->
    k_sent a = [s_msg s; ack] -> answer (s_msg s) = Some r ->
    p_key (s_before s) = Some kp -> aget bytes_eqb (providersMap info (g_reg g)) (ToString pid) = Some ip ->
    DecodePublicKey (n_key ip) = Ret (OkR pkp) -> matches pub_of pkp kp ->
    g_id g = Some gid -> id32 gid -> g_key g = Some kg -> registered s gid ig -> DecodePublicKey (n_key ig) = Ret (OkR pkg) -> matches pub_of pkg kg ->
    (forall o c, lists_offer sha256 r o -> o_cids o = [c] -> exists id, kept_ack (s_before s) c id <> None) ->
    (exists p2, pact version supported sha256 sha512_256 pub_of ec_sign ec_verify blake (s_env s) (s_before s) (ListDHT (fun _ => Some ack)) (s_msg s) = Ret (p2, [r], []) /\
       forall o c, lists_offer sha256 r o -> o_cids o = [c] -> kept_ack p2 c gid <> None) /\
    exists att, db_after sha512_256 (g_db g) att = Ret (g_db (k_after a)) /\
      forall o, lists_offer sha256 r o -> bindable o = true -> offer_signed_by pub_of ec_verify blake ip o -> In o (map fst att).
  Proof.
    intros reg ss s p' r e answer g l h pid a ack kp pkp ip gid kg pkg ig Law V1 V2. intros.
    eapply (listing_pf version supported sha256 sha512_256 pub_of ec_sign ec_verify blake reg ss s p' r e answer g l h pid a ack kp pkp ip gid kg pkg ig);
      first [exact (conj V1 V2)|assumption].
  Qed.

  (** ** C116 *)

  (** Full claim: providers are told when the administrator says whose group offers the
      gateway takes.  On the contrary, no request that is started sends anything, and the
      answer to the administrator is not one of the kind documented for the request. *)
  Theorem support_silent_partial : forall order g m x, HandleAdminSupport order g m = Ret x ->
    (forall id t args e n g1, In (id, t, args) (snd x) -> RequestProvider e n g1 id t args = Ret (Asked g1 [])) /\
    (forall r, In (Json r) (wrote (fst (fst x))) -> DecodeUpdateGatewayGroupCIDOfferSupportResponse sha256 r = Ret ErrR).
  Proof. intros order g m x H. split; intros; [eapply support_silent; eassumption|eapply support_answer; eassumption]. Qed.

  (** ** C117 *)

  (** Only requests to initialise change who the gateway is; they are refused without an effect, or
      what they say is taken over.  Full claim: a request that is refused has no effect;
      false, see below. *)
  Theorem gateway_identity_kept_partial : forall e g ev g' a, gact e g ev = Ret (g', a) ->
    (forall m, ev <> AdminKey m) -> (forall wallet m, ev <> AdminKeyV2 wallet m) ->
    (g_id g', g_key g', g_ver g') = (g_id g, g_key g, g_ver g).
  Proof. intros e g ev g' a H N1 N2. exact (gact_identity _ _ _ _ _ _ _ _ _ _ _ _ _ _ _ _ _ H N1 N2). Qed.
  Theorem gateway_identity_set_partial : forall g m s, HandleAdminInitialiseKey g m = Ret s ->
    (s = Served g [HttpError 400] [] /\ DecodeGatewayAdminInitialiseKeyRequest sha256 m = Ret ErrR) \/
    exists id k v, DecodeGatewayAdminInitialiseKeyRequest sha256 m = Ret (OkR (id, k, Some v)) /\
      (g_id (after s), g_key (after s), g_ver (after s)) = (id, k, v) /\
      g_pay (after s) = g_pay g /\ g_db (after s) = g_db g /\ g_reg (after s) = g_reg g /\
      (g_search (after s), g_offer (after s), g_topup (after s)) = (g_search g, g_offer g, g_topup g).
  Proof.
    intros g m s H. apply key_set in H as [H|(id & k & v & D & ->)]; [left; exact H|]. right. exists id, k, v. repeat split. exact D.
  Qed.
  Theorem gateway_identity_set_v2_partial : forall wallet g m s, HandleAdminInitialiseKeyV2 wallet g m = Ret s ->
    (s = Served g [HttpError 400] [] /\ DecodeGatewayAdminInitialiseKeyRequestV2 sha256 m = Ret ErrR) \/
    exists id k v w a b, DecodeGatewayAdminInitialiseKeyRequestV2 sha256 m = Ret (OkR (id, k, Some v, w, a, b)) /\
      (g_id (after s), g_key (after s), g_ver (after s)) = (id, k, v) /\ g_db (after s) = g_db g /\ g_reg (after s) = g_reg g /\
      (g_search (after s), g_offer (after s), g_topup (after s)) = (g_search g, g_offer g, g_topup g) /\
      match wallet w with
      | Some address => g_pay (after s) = Some (NewMgr address)
      | None => g_pay (after s) = None /\ wrote s = [HttpError 400]
      end.
  Proof.
    intros wallet g m s H. apply key_v2_set in H as [H|(id & k & v & w & a & b & D & A & W)]; [left; exact H|]. right. exists id, k, v, w, a, b.
    rewrite A. split; [exact D|]. split; [reflexivity|]. split; [reflexivity|]. split; [reflexivity|]. split; [reflexivity|].
    destruct (wallet w); [reflexivity|]. split; [reflexivity|]. apply W. reflexivity.
  Qed.

  (** ** C118 *)

  (** A voucher accepted once on a lane is not accepted again, nor one for less.  Full
      claim: whatever happens in between; false if the gateway is initialised anew, see
      below. *)
  Theorem voucher_once_partial : forall e1 g1 g1' ch t1 x1 v1 h g2 e2 g2' t2 x2 v2,
    took e1 g1 g1' ch t1 x1 -> uninitialised_in h -> live_all g1' h = Ret g2 -> took e2 g2 g2' ch t2 x2 ->
    voucher_of t1 = Some v1 -> voucher_of t2 = Some v2 -> v_lane v2 = v_lane v1 -> v_amount v1 < v_amount v2.
  Proof.
    intros e1 g1 g1' ch t1 x1 v1 h g2 e2 g2' t2 x2 v2 T1 N L T2 V1 V2 K.
    exact (once_pf version supported sha256 sha512_256 pub_of ec_sign ec_verify blake verify voucher_text voucher_of is_address zone
      e1 g1 g1' ch t1 x1 v1 h g2 e2 g2' t2 x2 v2 T1 N L T2 V1 V2 K).
  Qed.

  (** ** C119 *)

  (** What is accepted on a channel during a life is, in sum, on the chain at some event of it.
      Full claim: also across initialisations; false as before. *)
  Theorem income_backed_partial : forall ch g h g' xs own, earns ch g h g' xs -> g_pay g = Some (NewMgr own) -> uninitialised_in h ->
    xs <> [] -> exists reg e ev cs, In (reg, e, ev) h /\ e_chain e ch = Some cs /\ zsum xs <= ch_balance cs.
  Proof.
    intros ch g h g' xs own E P N X.
    destruct (earns_pf version supported sha256 sha512_256 pub_of ec_sign ec_verify blake verify voucher_text voucher_of is_address zone
      ch g h g' xs E _ P N) as [->|(reg & e & ev & cs & I0 & C & L)]; [contradiction|].
    exists reg, e, ev, cs. split; [exact I0|]. split; [exact C|exact L].
  Qed.

  (** ** C120 *)

  (** Whatever happens, initialisations included, the gateway never promises more on a
      channel than the channel holds. *)
  Theorem never_overdrawn : forall h g g', live_all g h = Ret g' -> sound_money g -> sound_money g'.
  Proof. intros. eapply solvent_pf; eassumption. Qed.

  (** ** C121 *)

  (** If the manager finds the gateway's range, all known providers are asked, each once.
      Full claim: whenever the administrator is told so; false, see below. *)
  Theorem listing_asks_all_partial : forall order g m x lo hi rg ids, HandleAdminListDHT order g m = Ret x ->
    (forall l, Permutation l (order l)) -> DecodeGatewayAdminListDHTOfferRequest sha256 m = Ret (OkR true) -> g_key g <> None ->
    GetGatewayCIDRange info (g_reg g) (g_id g) = Ret (OkR (lo, hi), rg) -> start info (g_reg g) = true -> providerDiscv info (g_reg g) = true ->
    Forall2 (fun p id => NewNodeIDFromHexString (n_id (snd p)) = OkR id) (providersMap info (g_reg g)) ids ->
    exists reqs, snd x = map (fun id => (id, GatewayListDHTOfferRequestType, reqs id)) (map fst (map fst (snd x))) /\
      Permutation ids (map fst (map fst (snd x))) /\
      forall id e n, e_conn e n id = true -> RequestProvider e n (after (fst x)) id GatewayListDHTOfferRequestType (reqs id) =
        RequestListCIDOffer e (e_net e n id) (after (fst x)) [ArgCID (Some lo); ArgCID (Some hi); ArgNode (Some id)].
  Proof.
    intros order g m x lo hi rg ids H Sh D K R St Pd F. destruct (admin_list_asks _ _ _ _ _ _ _ _ _ _ _ _ H Sh D K R St Pd) as (l & P & E).
    exists (fun id => [ArgCID (Some lo); ArgCID (Some hi); ArgNode (Some id)]). rewrite E. rewrite !map_map. cbn [fst]. rewrite map_id. split; [reflexivity|]. split.
    - replace ids with (ids_of (map snd (providersMap info (g_reg g)))); [exact P|]. clear -F. unfold ids_of. induction F as [|p id ps ids E F IH]; [reflexivity|]. cbn [map flat_map]. rewrite E, IH. reflexivity.
    - intros id e n C. unfold GatewayAdmin.RequestProvider. rewrite Z.eqb_refl, C. reflexivity.
  Qed.
End properties.

Print Assumptions stored_supplied.
Print Assumptions listing_acknowledged_partial.
Print Assumptions listing_recorded_partial.
Print Assumptions support_silent_partial.
Print Assumptions gateway_identity_kept_partial.
Print Assumptions gateway_identity_set_partial.
Print Assumptions gateway_identity_set_v2_partial.
Print Assumptions voucher_once_partial.
Print Assumptions income_backed_partial.
Print Assumptions never_overdrawn.
Print Assumptions listing_asks_all_partial.

(** ** The theorems in a small world *)

Local Notation toy f := (f 1 [1] toy_hash toy_hash toy_pub toy_sign PropertiesCrypto.toy_verify toy_blake) (only parsing).
(** Vouchers numbered by their amounts. *)
Definition numbered (t : gostring) : option voucher :=
  match t with
  | [x76; d] => Some (Voucher (gs "ch") 0 (bz d - 48) (bz d - 48) [] (Some (gs "client")))
  | _ => None
  end.
Definition toy_gact : env -> gateway -> gevent -> outcome (gateway * list message) := toy gact toy_pay_verify toy_text numbered toy_address 0.
Definition toy_all : gateway -> glife -> outcome gateway := toy live_all toy_pay_verify toy_text numbered toy_address 0.
Definition gw_of (o : outcome (gateway * list message)) : gateway := match o with Ret (g, _) => g | _ => toy_gw end.
Definition mgr_of (g : gateway) : mgr := match g_pay g with Some m => m | None => NewMgr [] end.

(** Gateway 10 lists the offers of provider 70 from 10 to 30; the provider answers [r]. *)
Definition lister : gateway := Eval vm_compute in toy_gw_at (idn 10).
Definition toy_asks (e : env) (r : message) : outcome asked :=
  toy GatewayAdmin.RequestListCIDOffer e (fun _ => Some r) lister [ArgCID (Some (idn 10)); ArgCID (Some (idn 30)); ArgNode (Some (idn 70))].
Definition in_db (g : gateway) : list Z := map r_price (offer_t (g_db g)).

(** C113: a published and a listed offer are stored, a forged one is not. *)
Example toy_all_ex :
  match toy_all lister [(toy_reg, toy_env, Serve PublishGroup (group_req 70 7 off1)); (toy_reg, toy_env, Serve PublishGroup (group_req 70 7 forged));
      (toy_reg, toy_env, ListOffers (Some (idn 10)) (Some (idn 30)) (Some (idn 70)) (fun _ => Some toy_listing))] with
  | Ret g => in_db g = [10; 20]
  | _ => False
  end.
Proof. vm_compute. reflexivity. Qed.

(** C114: the acknowledgement of the listing. *)
Definition acks_of (o : outcome asked) : list nat * list Z :=
  match o with
  | Ret a => (match k_sent a with
      | [_; ack] => match DecodeGatewayListDHTOfferAck toy_hash ack with Ret (OkR (Some l)) => [length l] | _ => [] end
      | _ => [] end, in_db (k_after a))
  | _ => ([], [])
  end.
Example listing_acknowledged_ex : acks_of (toy_asks toy_env toy_listing) = ([1%nat], [20]).
Proof. vm_compute. reflexivity. Qed.

(** C114 is false: a message with an offer nobody signed, and one whose offer could not be written to the database,
    are acknowledged all the same. *)
Definition listing_with (m : message) : message := signed 7 (EncodeGatewayListDHTOfferResponse 1 [1] (Some [m])).
Theorem acknowledged_unstored_refuted :
  acks_of (toy_asks toy_env (listing_with (dht_req 70 7 [forged]))) = ([1%nat], []) /\
  acks_of (toy_asks toy_env (listing_with (dht_req 70 7 [off2]))) = ([1%nat], [20]) /\
  acks_of (toy_asks (with_fates (fun _ _ => Failed) toy_env) (listing_with (dht_req 70 7 [off2]))) = ([1%nat], []).
Proof. vm_compute. repeat split. Qed.
Print Assumptions acknowledged_unstored_refuted.

(** C115: gateway 10 asks; the provider had published the offer to others. *)
Definition e2e_asked : outcome asked := toy_asks toy_env toy_listing.
Definition e2e_sent : list message := Eval vm_compute in match e2e_asked with Ret a => k_sent a | _ => [] end.
Definition e2e_after : gateway := Eval vm_compute in match e2e_asked with Ret a => k_after a | _ => lister end.
Definition e2e_answer : message := Eval vm_compute in first_answer (toy pact (toy_penv 43) (p_with_reg toy_prov toy_reg) (ListDHT (fun _ => None)) (nth 0 e2e_sent zero_message)).
Definition e2e_prov : provider := Eval vm_compute in then_provider (toy pact (toy_penv 43) (p_with_reg toy_prov toy_reg) (ListDHT (fun _ => None)) (nth 0 e2e_sent zero_message)).
Definition e2e_step : pstep :=
  PStep (p_with_reg toy_prov toy_reg) (toy_penv 43) (ListDHT (fun _ => None)) (nth 0 e2e_sent zero_message) e2e_prov [e2e_answer] [].
Example e2e_lived : toy lived (NewProvider toy_reg) (toy_steps ++ [e2e_step]) e2e_prov /\ sized toy_hash (toy_steps ++ [e2e_step]).
Proof.
  destruct toy_lived as (L & S & _).
  split. { apply (lived_app_toy _ _ _ _ _ L); [reflexivity|vm_compute; reflexivity|reflexivity]. }
  intros s cids price expiry qos I D. apply in_app_or in I. destruct I as [I|[<-|[]]]; [exact (S s cids price expiry qos I D)|]. vm_compute in D. discriminate D.
Qed.
Example e2e_hypotheses :
  toy_asks toy_env e2e_answer = Ret (Asked e2e_after [s_msg e2e_step; nth 1 e2e_sent zero_message]) /\
  shuffle (pe_digests (s_env e2e_step)) /\ id32 (idn 10) /\ id32 (idn 30) /\
  p_key (s_before e2e_step) = Some (toy_key 7) /\ aget bytes_eqb (providersMap info (g_reg lister)) (ToString (idn 70)) = Some (toy_info 70 7 (gs "addr7")) /\
  DecodePublicKey (key_text 7) = Ret (OkR (toy_pubkey 7)) /\ matches toy_pub (toy_pubkey 7) (toy_key 7) /\
  g_id lister = Some (idn 10) /\ g_key lister = Some (toy_key 1) /\ registered e2e_step (idn 10) (toy_info 10 1 (gs "addr1")) /\
  DecodePublicKey (key_text 1) = Ret (OkR (toy_pubkey 1)) /\ matches toy_pub (toy_pubkey 1) (toy_key 1) /\
  listed_cids e2e_answer = [[[15]]] /\ kept_ack (s_before e2e_step) (idn 15) (idn 20) <> None /\ kept_ack (s_before e2e_step) (idn 15) (idn 10) = None.
Proof.
  split; [vm_compute; reflexivity|]. split; [intros l; reflexivity|]. split; [reflexivity|]. split; [reflexivity|]. split; [vm_compute; reflexivity|].
  split; [vm_compute; reflexivity|]. split; [vm_compute; reflexivity|].
  split. { split; [reflexivity|]. exists (idn 7). split; [reflexivity|]. left. reflexivity. }
  split; [reflexivity|]. split; [vm_compute; reflexivity|].
  split. { split; [reflexivity|]. split; [reflexivity|]. assert (A : aget bytes_eqb (gatewaysMap info toy_reg) (ToString (idn 10)) = Some (toy_info 10 1 (gs "addr1"))) by (vm_compute; reflexivity).
    split; [exact A|]. intros j [J|(n & l & X & _)]; [|discriminate X]. change (p_reg (s_before e2e_step)) with toy_reg in J. rewrite A in J. injection J as <-. reflexivity. }
  split; [vm_compute; reflexivity|]. split. { split; [reflexivity|]. exists (idn 1). split; [reflexivity|]. left. reflexivity. }
  split; [vm_compute; reflexivity|]. split; [vm_compute; discriminate|vm_compute; reflexivity].
Qed.

(** C116: the administrator asks to support the group offers of provider 70; the providers 70 and 80 are to be told, and nothing is sent. *)
Definition support_req : message := ok_or zero_message (EncodeUpdateGatewayGroupCIDOfferSupportRequest 1 [1] (Some (idn 50)) [idn 70]).
Definition reachable : env := with_net (fun _ _ => true) (fun _ _ _ => None) toy_env.
Theorem support_unsent_refuted :
  match GatewayAdmin.HandleAdminSupport 1 [1] toy_hash toy_sign toy_blake (fun l => l) toy_gw support_req with
  | Ret (s, Some ids, reqs) => length (wrote s) = 1%nat /\ map be_val ids = [70] /\ map (fun r => be_val (fst (fst r))) reqs = [70; 80] /\
      map (fun r => match toy GatewayAdmin.RequestProvider reachable 0%nat (after s) (fst (fst r)) (snd (fst r)) (snd r) with Ret a => Some (length (k_sent a)) | _ => None end) reqs
        = [Some 0; Some 0]%nat /\
      map (fun a => match a with Json m => (m_type m =? GatewayAdminUpdateGatewayGroupCIDOfferSupportResponseType, match DecodeUpdateGatewayGroupCIDOfferSupportResponse toy_hash m with Ret ErrR => true | _ => false end)
                    | _ => (true, false) end) (wrote s) = [(false, true)]
  | _ => False
  end.
Proof. vm_compute. repeat split. Qed.
Print Assumptions support_unsent_refuted.
(** The requester for it, given what it wants, sends a notification. *)
Example notify_ex :
  match toy GatewayAdmin.RequestProvider reachable 0%nat toy_gw (idn 70) GatewayNotifyProviderGroupCIDOfferSupportedRequestType [ArgBool true] with
  | Ret a => map (DecodeGatewayNotifyProviderGroupCIDOfferSupportRequest toy_hash) (k_sent a) = [Ret (OkR (Some (idn 50), true))]
  | _ => False
  end.
Proof. vm_compute. reflexivity. Qed.

(** C117: a new identity is taken over; then everything else leaves it. *)
Definition key_req (id k : Z) : message := ok_or zero_message (EncodeGatewayAdminInitialiseKeyRequest 1 [1] (Some (idn id)) (Some (toy_key k)) (Some 4)).
Definition key_v2_req (id k : Z) (wallet : gostring) : message :=
  ok_or zero_message (EncodeGatewayAdminInitialiseKeyRequestV2 1 [1] (Some (idn id)) (Some (toy_key k)) (Some 4) wallet (gs "lotus") (gs "token")).
Definition toy_wallet (w : gostring) : option gostring := if bytes_eqb w (gs "wallet") then Some (gs "gw") else None.
Example identity_ex :
  match toy_all toy_gw [(toy_reg, toy_env, AdminKey (key_req 10 1)); (toy_reg, toy_env, Serve PublishGroup (group_req 70 7 off1)); (toy_reg, toy_env, AdminRefresh (key_req 20 2))] with
  | Ret g => g_id g = Some (idn 10) /\ g_key g = Some (toy_key 1) /\ g_ver g = 4 /\ in_db g = [10]
  | _ => False
  end.
Proof. vm_compute. repeat split. Qed.
(** C117 is false: the request is answered with an error, but the gateway has another identity and can neither pay nor be paid. *)
Theorem failed_key_refuted :
  match toy_gact toy_env toy_gw (AdminKeyV2 toy_wallet (key_v2_req 10 1 (gs "x"))) with
  | Ret (g, answers) => answers = [] /\ g_id g = Some (idn 10) /\ g_key g = Some (toy_key 1) /\ g_pay g = None
  | _ => False
  end.
Proof. vm_compute. repeat split. Qed.
Print Assumptions failed_key_refuted.

(** C118: the second of two vouchers must be for more. *)
Definition lean : env :=
  Env (e_now toy_env) (e_rows toy_env) (e_fates toy_env) (fun _ => Some (ChainState 7 (Account (gs "gw")) (Account (gs "client"))))
    (e_gateways toy_env) (e_providers toy_env) (e_tx toy_env) (e_sign toy_env) (e_conn toy_env) (e_net toy_env).
Definition pays_with (t : gostring) : gevent := Serve StandardDiscoverV2 (std_v2_req 2 50 t).
Definition gw1 : gateway := Eval vm_compute in gw_of (toy_gact lean toy_gw (pays_with (gs "v3"))).
Definition gw2 : gateway := Eval vm_compute in gw_of (toy_gact lean gw1 (pays_with (gs "v7"))).
Definition gw_paid : gateway := Eval vm_compute in gw_of (toy_gact lean toy_gw (pays_with (gs "v7"))).
Definition gw_reset : gateway := Eval vm_compute in gw_of (toy_gact lean gw_paid (AdminKeyV2 toy_wallet (key_v2_req 50 5 (gs "wallet")))).
Definition gw_repaid : gateway := Eval vm_compute in gw_of (toy_gact lean gw_reset (pays_with (gs "v7"))).
Definition toy_state : chain_state := ChainState 7 (Account (gs "gw")) (Account (gs "client")).
Definition lane0 (n : Z) : voucher := Voucher (gs "ch") 0 n n [] (Some (gs "client")).
Local Notation toy_took := (took toy_pay_verify numbered toy_address lean).
Example voucher_once_ex : toy_took toy_gw gw1 (gs "ch") (gs "v3") 3 /\ toy_took gw1 gw2 (gs "ch") (gs "v7") 4 /\
  snd (Receive toy_pay_verify (mgr_of gw1) (gs "ch") (numbered (gs "v3")) (Some toy_state)) <> Credited 3.
Proof.
  split; [exists (NewMgr (gs "gw")), (lane0 3), toy_state, (mgr_of gw1), (mgr_of gw1); vm_compute; repeat split|].
  split; [exists (mgr_of gw1), (lane0 7), toy_state, (mgr_of gw2), (mgr_of gw2); vm_compute; repeat split|]. vm_compute. discriminate.
Qed.
(** C118 and C119 are false across initialisations: on a channel of 7, the same voucher for 7 is credited twice. *)
Theorem voucher_again_refuted : exists a1 a2 a3,
  toy_gact lean toy_gw (pays_with (gs "v7")) = Ret (gw_paid, a1) /\ toy_took toy_gw gw_paid (gs "ch") (gs "v7") 7 /\
  toy_gact lean gw_paid (AdminKeyV2 toy_wallet (key_v2_req 50 5 (gs "wallet"))) = Ret (gw_reset, a2) /\
  toy_gact lean gw_reset (pays_with (gs "v7")) = Ret (gw_repaid, a3) /\ toy_took gw_reset gw_repaid (gs "ch") (gs "v7") 7.
Proof.
  exists (match toy_gact lean toy_gw (pays_with (gs "v7")) with Ret x => snd x | _ => [] end),
    (match toy_gact lean gw_paid (AdminKeyV2 toy_wallet (key_v2_req 50 5 (gs "wallet"))) with Ret x => snd x | _ => [] end),
    (match toy_gact lean gw_reset (pays_with (gs "v7")) with Ret x => snd x | _ => [] end).
  split; [vm_compute; reflexivity|]. split; [exists (NewMgr (gs "gw")), (lane0 7), toy_state, (mgr_of gw_paid), (mgr_of gw_paid); vm_compute; repeat split|].
  split; [vm_compute; reflexivity|]. split; [vm_compute; reflexivity|]. exists (NewMgr (gs "gw")), (lane0 7), toy_state, (mgr_of gw_repaid), (mgr_of gw_repaid). vm_compute. repeat split.
Qed.
Print Assumptions voucher_again_refuted.

(** C119: 7 in all, in two payments. *)
Definition answers_of (o : outcome (gateway * list message)) : list message := match o with Ret (_, l) => l | _ => [] end.
Example income_ex : toy earns toy_pay_verify toy_text numbered toy_address 0 (gs "ch") toy_gw
  [(toy_reg, lean, pays_with (gs "v3")); (toy_reg, lean, Serve PublishGroup (group_req 70 7 off1)); (toy_reg, lean, pays_with (gs "v7"))]
  (gw_of (toy_gact lean (gw_of (toy_gact lean gw1 (Serve PublishGroup (group_req 70 7 off1)))) (pays_with (gs "v7")))) [3; 4].
Proof.
  pose (g2 := gw_of (toy_gact lean gw1 (Serve PublishGroup (group_req 70 7 off1)))).
  pose (g3 := gw_of (toy_gact lean g2 (pays_with (gs "v7")))).
  apply (earns_some _ _ _ _ _ _ _ _ _ _ _ _ _ (gs "ch") toy_gw toy_reg lean _ gw1 (answers_of (toy_gact lean toy_gw (pays_with (gs "v3")))) _ _ _ (gs "v3") 3).
  { vm_compute. reflexivity. }
  { exists (NewMgr (gs "gw")), (lane0 3), toy_state, (mgr_of gw1), (mgr_of gw1). vm_compute. repeat split. }
  apply (earns_not _ _ _ _ _ _ _ _ _ _ _ _ _ (gs "ch") gw1 toy_reg lean _ g2 (answers_of (toy_gact lean gw1 (Serve PublishGroup (group_req 70 7 off1))))).
  { vm_compute. reflexivity. }
  apply (earns_some _ _ _ _ _ _ _ _ _ _ _ _ _ (gs "ch") g2 toy_reg lean _ g3 (answers_of (toy_gact lean g2 (pays_with (gs "v7")))) _ _ _ (gs "v7") 4).
  { vm_compute. reflexivity. }
  { exists (mgr_of g2), (lane0 7), toy_state, (mgr_of g3), (mgr_of g3). vm_compute. repeat split. }
  apply earns_nil.
Qed.

(** C120: the gateway pays three others the search price out of channels of 10. *)
Definition channels (g : gateway) : list (gostring * (Z * Z)) := map (fun x => (fst x, (c_redeemed (snd x), c_balance (snd x)))) (m_out (mgr_of g)).
Definition all_answer : env :=
  with_net (fun _ _ => true) (fun _ id m => Some (signed (be_val id / 10) (EncodeGatewayDHTDiscoverResponse 1 [1] (Some (idn 2)) 9 false (Some []) (Some [])))) toy_env.
Example overdrawn_ex : sound_money toy_gw /\
  match toy_all toy_gw [(toy_reg, all_answer, Serve DHTDiscoverV2 (dht_v2_req 2 50 2 (gs "v6"))); (toy_reg, all_answer, Serve DHTDiscoverV2 (dht_v2_req 2 50 2 (gs "v9")))] with
  | Ret g => channels g = [(gs "addr1", (6, 10)); (gs "addr2", (6, 10))]
  | _ => False
  end.
Proof.
  split; [|vm_compute; reflexivity]. split; [vm_compute; discriminate|]. split; [vm_compute; discriminate|]. split; [vm_compute; discriminate|].
  intros m [= <-] r c G. discriminate G.
Qed.

(** C121: with 20 gateways and two providers, both are asked for the range of the 16 gateways nearest to the gateway. *)
Definition big_reg : manager info := Eval vm_compute in ok_or toy_idle (Refresh info toy_idle (listing info crowd) (listing info toy_providers)).
Definition big_gw : gateway := with_reg (toy_gw_at (idn 10)) big_reg.
Definition list_admin_req : message := ok_or zero_message (EncodeGatewayAdminListDHTOfferRequest 1 [1] true).
Definition ask_view (r : started) : Z * list Z :=
  (be_val (fst (fst r)), map (fun a => match a with ArgCID (Some c) => be_val c | ArgNode (Some n) => be_val n | _ => -1 end) (snd r)).
Definition told (s : served) : list (outcome (result bool)) :=
  flat_map (fun a => match a with Json m => [DecodeGatewayAdminListDHTOfferResponse toy_hash m] | _ => [] end) (wrote s).
Example listing_asks_ex :
  match GatewayAdmin.HandleAdminListDHT 1 [1] toy_hash toy_sign toy_blake (fun l => l) big_gw list_admin_req with
  | Ret (s, reqs) => told s = [Ret (OkR true)] /\ map ask_view reqs = [(70, [2; 18; 70]); (80, [2; 18; 80])]
  | _ => False
  end.
Proof. vm_compute. repeat split. Qed.
(** C121 is false: alone, the gateway asks nobody, and says it did. *)
Definition few_reg : manager info := Eval vm_compute in
  ok_or toy_idle (Refresh info toy_idle (listing info [(ToString (idn 10), toy_info 10 1 (gs "addr1")); (ToString (idn 20), toy_info 20 2 (gs "addr2"))]) (listing info toy_providers)).
Theorem listing_asks_none_refuted :
  match GatewayAdmin.HandleAdminListDHT 1 [1] toy_hash toy_sign toy_blake (fun l => l) (with_reg (toy_gw_at (idn 10)) few_reg) list_admin_req with
  | Ret (s, reqs) => told s = [Ret (OkR true)] /\ reqs = [] /\ length (providersMap info few_reg) = 2%nat
  | _ => False
  end.
Proof. vm_compute. repeat split. Qed.
Print Assumptions listing_asks_none_refuted.
