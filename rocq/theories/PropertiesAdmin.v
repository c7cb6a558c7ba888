(** * What the administrators' libraries do, alone and with the nodes (C136-C150) *)
From Coq Require Import String List ZArith Bool Lia.
From Coq Require Import Init.Byte.
From Verif Require Import Base BaseProofs Ids Crypto CryptoProofs Message MessageProofs Offer OfferProofs OfferStore Schema Messages MessagesSpec MessagesProofs WireSpec Payment Register RegisterSpec RegisterProofs
  SqlOffers Rest Routes Reputation ReputationSpec Gateway GatewaySpec GatewayProofs GatewayAdmin Provider ProviderSpec ProviderListProofs ProviderAckProofs Admin AdminSpec AdminProofs AdminNodeProofs
  PropertiesMerkle PropertiesCrypto PropertiesSql ToyGateway ToyProvider PropertiesProvider PropertiesGatewayAdmin ToyClient.
From Verif Require Client.
Import ListNotations.
Open Scope Z_scope.

Section theorems.
  Variable version : Z.
  Variable supported : list Z.
  Variable sha256 sha512_256 : bytes -> bytes.
  Variable pub_of : bytes -> bytes.
  Variable ec_sign : bytes -> bytes -> option bytes.
  Variable ec_verify : bytes -> bytes -> bytes -> bool.
  Variable blake : bytes -> bytes.
  Variables BindAdminAPI BindRestAPI BindGatewayAPI BindProviderAPI : gostring.

  Local Notation use := (use version supported sha256 pub_of ec_sign ec_verify blake).
  Local Notation session := (session version supported sha256 pub_of ec_sign ec_verify blake).
  Local Notation of_key := (of_key pub_of ec_verify blake).
  Local Notation of_node := (of_node pub_of ec_verify blake).
  Local Notation authority := (authority ec_sign blake).
  Local Notation usable := (usable ec_sign blake).
  Local Notation registered_with := (registered_with pub_of).
  Local Notation asks := (asks sha256).
  Local Notation confirms := (confirms sha256).
  Local Notation lib f := (f version supported sha256 pub_of ec_sign ec_verify blake) (only parsing).
  Local Notation gateway_api := (gateway_api version supported sha256 ec_sign blake BindAdminAPI BindRestAPI BindGatewayAPI BindProviderAPI).
  Local Notation provider_api := (provider_api version supported sha256 sha512_256 pub_of ec_sign ec_verify blake BindAdminAPI BindRestAPI BindGatewayAPI BindProviderAPI).

  (** ** C136 *)

  (** A call sends nothing, or one request: to the node's interface for administrators, signed by the administrator,
      saying what the call says. *)
  Theorem call_asks : forall http a x ok a' out, ecdsa_correct pub_of ec_sign ec_verify -> use http a x = Ret (ok, a', out) ->
    out = [] \/ exists node k m, target a x = Some node /\ ad_key a = Some k /\ out = [(r_admin_ap node, m)] /\ of_key k m /\ (in_range x -> asks x m).
  Proof.
    intros http a x ok a' out Law H. destruct (use_inv _ _ _ _ _ _ _ _ _ _ _ _ _ H) as (S & _).
    destruct S as [(-> & _)|(node & k & v & req & s & pk & T & K & V & S & As & _ & O & _)]; [left; reflexivity|right].
    exists node, k, (set_sig req s). split; [exact T|]. split; [exact K|]. split; [exact O|].
    split; [exact (proj1 (sign_of _ _ _ _ _ _ _ _ Law S))|]. intros R. exact (asks_sig _ _ _ s (As R)).
  Qed.
  (** A node that is not in use is not asked. *)
  Theorem unknown_unasked : forall http a x ok a' out, use http a x = Ret (ok, a', out) -> target a x = None -> ok = false /\ out = [] /\ a' = a.
  Proof.
    intros http a x ok a' out H T. destruct (use_inv _ _ _ _ _ _ _ _ _ _ _ _ _ H) as (S & A).
    destruct S as [(-> & ->)|(node & k & v & req & s & pk & T' & _)]; [|rewrite T in T'; discriminate T'].
    split; [reflexivity|]. split; [reflexivity|]. rewrite A. destruct (puts x); reflexivity.
  Qed.

  (** ** C137 *)

  (** Success is reported only for a response that is signed with the registered key and says so. *)
  Theorem success_confirmed : forall http a x a' out, use http a x = Ret (true, a', out) ->
    exists node m r, target a x = Some node /\ out = [(r_admin_ap node, m)] /\ http (r_admin_ap node) m = Some r /\ of_node node r /\ confirms x r.
  Proof.
    intros http a x a' out H. destruct (use_inv _ _ _ _ _ _ _ _ _ _ _ _ _ H) as (S & _).
    destruct S as [(_ & Z)|(node & k & v & req & s & pk & T & K & V & S & As & P & O & Ok)]; [discriminate Z|].
    destruct (Ok eq_refl) as (r & X & Y & Z). exists node, (set_sig req s), r. split; [exact T|]. split; [exact O|]. split; [exact X|]. split; [exists pk; auto|exact Z].
  Qed.
  (** The reputation returned is the one in a response signed with the registered key, about this client. *)
  Theorem reputation_confirmed : forall http node c key ver v out, lib RequestGetReputation http node c key ver = Ret (OkR v, out) ->
    exists m r d t, out = [(r_admin_ap node, m)] /\ http (r_admin_ap node) m = Some r /\ of_node node r /\ c = Some d /\ ToString t = ToString d /\
      DecodeGatewayAdminGetReputationResponse sha256 r = Ret (OkR (Some t, v, true)).
  Proof.
    intros http node c key ver v out H. unfold RequestGetReputation in H. step H. destruct v0 as [[r'|] o]; [|apply ret_inj in H; discriminate H].
    destruct (contact_inv _ _ _ _ _ _ _ _ _ _ E) as [Z|(k & w & req & s & pk & Kk & W & Q & S & P & O & Rr)]; [discriminate Z|].
    step H. destruct v0 as [[[t rep] ex]|]; [|apply ret_inj in H; discriminate H].
    destruct t as [t|]; cbn [deref obind] in H; [|discriminate H]. destruct c as [d|]; cbn [deref obind] in H; [|discriminate H].
    apply ret_inj in H. destruct (bytes_eqb (ToString t) (ToString d)) eqn:B; [|discriminate H]. destruct ex; [|discriminate H]. cbn [andb] in H. injection H as -> <-.
    destruct (Rr _ eq_refl) as (X & Y).
    exists (set_sig req s), r', d, t. split; [exact O|]. split; [exact X|]. split; [exists pk; auto|]. split; [reflexivity|]. split; [apply bytes_eqb_eq; exact B|exact E0].
  Qed.
  (** The offers returned are those in a response signed with the registered key. *)
  Theorem offers_confirmed : forall http a id gws x out, lib GetGroupCIDOffer http a id gws = Ret (OkR x, out) ->
    exists node m r, target a (PGetOffers id gws) = Some node /\ out = [(r_admin_ap node, m)] /\ http (r_admin_ap node) m = Some r /\ of_node node r /\
      DecodeProviderAdminGetPublishedOfferResponse sha256 r = Ret (OkR x).
  Proof.
    intros http a id gws x out H. unfold GetGroupCIDOffer, with_used, id_text in H. destruct id as [i|]; cbn [deref obind] in H; [|discriminate H].
    destruct (aget bytes_eqb (ad_nodes a) (ToString i)) as [node|] eqn:T; [|apply ret_inj in H; discriminate H].
    unfold RequestGetPublishedOffer in H. step H. destruct v as [[r'|] o]; [|apply ret_inj in H; discriminate H].
    destruct (contact_inv _ _ _ _ _ _ _ _ _ _ E) as [Z|(k & w & req & s & pk & Kk & W & Q & S & P & O & Rr)]; [discriminate Z|].
    step H. apply ret_inj in H. injection H as -> <-. destruct (Rr _ eq_refl) as (X & Y).
    exists node, (set_sig req s), r'. split; [exact T|]. split; [exact O|]. split; [exact X|]. split; [exists pk; auto|exact E0].
  Qed.

  (** ** C138 *)

  (** After any calls the nodes in use are those put into use by successful calls, the last one for each identifier;
      key and version are the first ones. *)
  Theorem session_nodes : forall h a a' log, session a h = Ret (a', log) ->
    ad_key a' = ad_key a /\ ad_ver a' = ad_ver a /\ map fst log = map snd h /\
    forall id, aget bytes_eqb (ad_nodes a') id = AdminSpec.in_use (aget bytes_eqb (ad_nodes a) id) log id.
  Proof. apply session_pf. Qed.

  Section with_gateway.
    Hypothesis Law : ecdsa_correct pub_of ec_sign ec_verify.
    Hypothesis AC : BindAdminAPI <> BindRestAPI.
    Hypothesis GP : BindGatewayAPI <> BindProviderAPI.

    Lemma bare_gateway g id k v : is_gateway id k v (with_key g (Some id) (Some (KeyPair (k_priv k) None (k_alg k))) v).
    Proof using. split; [reflexivity|]. split; [reflexivity|]. eexists. split; [reflexivity|]. split; reflexivity. Qed.
    Lemma bare_provider p id k v : is_provider id k v (p_with_key p (Some id) (Some (KeyPair (k_priv k) None (k_alg k))) v).
    Proof using. split; [reflexivity|]. split; [reflexivity|]. eexists. split; [reflexivity|]. split; reflexivity. Qed.

    (** ** C139 *)

    (** A reachable gateway given the key it is registered with takes over identifier, key and version and nothing else
        changes; the call succeeds and the gateway is in use. *)
    Theorem gateway_initialised : forall e order wallet http n a node k v id,
      authority a -> usable k -> uint32 v -> registered_with node k -> NewNodeIDFromHexString (r_id node) = OkR id -> reaches http node (gateway_api e order wallet n) ->
      exists a' m n' r, lib InitialiseGateway http a node (Some k) (Some v) = Ret (true, a', [(r_admin_ap node, m)]) /\ gateway_api e order wallet n m = Ret (n', [Json r]) /\
        is_gateway id k v (n_gw n') /\ gateway_rest (n_gw n') = gateway_rest (n_gw n) /\ g_pay (n_gw n') = g_pay (n_gw n) /\ n_reps n' = n_reps n /\ n_groups n' = n_groups n /\
        aget bytes_eqb (ad_nodes a') (r_id node) = Some node.
    Proof using Law AC GP.
      intros e order wallet http n a node k v id Au U V Re I Rc.
      destruct (init_served version supported sha256 pub_of ec_sign ec_verify blake _ _ _ _ Law AC GP e order wallet http n a node k v id Au U V Re I Rc) as (m & r & E & A).
      exists (with_node a node), m; eexists; exists r. split; [exact E|]. split; [exact A|]. cbn [n_gw n_reps n_groups]. split; [apply bare_gateway|].
      split; [reflexivity|]. split; [reflexivity|]. split; [reflexivity|]. split; [reflexivity|]. cbn [with_node ad_nodes]. rewrite (aget_aset bytes_eqb bytes_eqb_eq), text_eq_refl. reflexivity.
    Qed.
    (** With the wallet's key the gateway also gets a new payment manager for the wallet's address. *)
    Theorem gateway_initialised_v2 : forall e order wallet http n a node k v w ap t id addr,
      authority a -> usable k -> uint32 v -> registered_with node k -> NewNodeIDFromHexString (r_id node) = OkR id -> wallet w = Some addr -> reaches http node (gateway_api e order wallet n) ->
      exists a' m n' r, lib InitialiseGatewayV2 http a node (Some k) (Some v) w ap t = Ret (true, a', [(r_admin_ap node, m)]) /\ gateway_api e order wallet n m = Ret (n', [Json r]) /\
        is_gateway id k v (n_gw n') /\ gateway_rest (n_gw n') = gateway_rest (n_gw n) /\ g_pay (n_gw n') = Some (NewMgr addr) /\ n_reps n' = n_reps n /\ n_groups n' = n_groups n /\
        aget bytes_eqb (ad_nodes a') (r_id node) = Some node.
    Proof using Law AC GP.
      intros e order wallet http n a node k v w ap t id addr Au U V Re I W Rc.
      destruct (init2_served version supported sha256 pub_of ec_sign ec_verify blake _ _ _ _ Law AC GP e order wallet http n a node k v w ap t id addr Au U V Re I W Rc) as (m & r & E & A).
      exists (with_node a node), m; eexists; exists r. split; [exact E|]. split; [exact A|]. cbn [n_gw n_reps n_groups]. split; [apply (bare_gateway (n_gw n) id k v)|].
      split; [reflexivity|]. split; [reflexivity|]. split; [reflexivity|]. split; [reflexivity|]. cbn [with_node ad_nodes]. rewrite (aget_aset bytes_eqb bytes_eqb_eq), text_eq_refl. reflexivity.
    Qed.

    (** ** C140 *)

    (** The same for providers. *)
    Theorem provider_initialised : forall e http p a node k v id,
      authority a -> usable k -> uint32 v -> registered_with node k -> NewNodeIDFromHexString (r_id node) = OkR id -> reaches http node (provider_api e p) ->
      exists a' m p' r, lib InitialiseProvider http a node (Some k) (Some v) = Ret (true, a', [(r_admin_ap node, m)]) /\ provider_api e p m = Ret (p', [Json r]) /\
        is_provider id k v p' /\ provider_rest p' = provider_rest p /\ aget bytes_eqb (ad_nodes a') (r_id node) = Some node.
    Proof using Law AC GP.
      intros e http p a node k v id Au U V Re I Rc.
      destruct (pinit_served version supported sha256 sha512_256 pub_of ec_sign ec_verify blake _ _ _ _ Law AC GP e http p a node k v id Au U V Re I Rc) as (m & r & E & A).
      exists (with_node a node), m; eexists; exists r. split; [exact E|]. split; [exact A|]. split; [apply bare_provider|]. split; [reflexivity|].
      cbn [with_node ad_nodes]. rewrite (aget_aset bytes_eqb bytes_eqb_eq), text_eq_refl. reflexivity.
    Qed.
    Theorem provider_initialised_v2 : forall e http p a node k v w ap t id,
      authority a -> usable k -> uint32 v -> registered_with node k -> NewNodeIDFromHexString (r_id node) = OkR id -> pe_lotus e = true -> reaches http node (provider_api e p) ->
      exists a' m p' r, lib InitialiseProviderV2 http a node (Some k) (Some v) w ap t = Ret (true, a', [(r_admin_ap node, m)]) /\ provider_api e p m = Ret (p', [Json r]) /\
        is_provider id k v p' /\ provider_rest p' = provider_rest p /\ aget bytes_eqb (ad_nodes a') (r_id node) = Some node.
    Proof using Law AC GP.
      intros e http p a node k v w ap t id Au U V Re I L Rc.
      destruct (pinit2_served version supported sha256 sha512_256 pub_of ec_sign ec_verify blake _ _ _ _ Law AC GP e http p a node k v w ap t id Au U V Re I L Rc) as (m & r & E & A).
      exists (with_node a node), m; eexists; exists r. split; [exact E|]. split; [exact A|]. split; [apply bare_provider|]. split; [reflexivity|].
      cbn [with_node ad_nodes]. rewrite (aget_aset bytes_eqb bytes_eqb_eq), text_eq_refl. reflexivity.
    Qed.
  End with_gateway.

  Section truth.
    Hypothesis AC : BindAdminAPI <> BindRestAPI.
    Hypothesis GP : BindGatewayAPI <> BindProviderAPI.

    (** ** C141 *)

    (** A gateway that gets an initialisation sent by the library takes over the identity given.  Full claim: it does so
        only if the administrator is told of success; see [init_failed_refuted]. *)
    Theorem init_taken_partial : forall e order wallet http n a node k v ok a' out p m n' ans,
      use http a (GInit node k v) = Ret (ok, a', out) -> in_range (GInit node k v) -> In (p, m) out -> gateway_api e order wallet n m = Ret (n', ans) ->
      exists id kk vv, NewNodeIDFromHexString (r_id node) = OkR id /\ k = Some kk /\ v = Some vv /\ is_gateway id kk vv (n_gw n').
    Proof using AC GP.
      intros e order wallet http n a node k v ok a' out p m n' ans H R I A.
      destruct (init_taken version supported sha256 pub_of ec_sign ec_verify blake _ _ _ _ AC GP _ _ _ _ _ _ _ _ _ _ _ _ _ _ _ _ H R I A) as (id & kk & vv & N & K & V & ->).
      exists id, kk, vv. split; [exact N|]. split; [exact K|]. split; [exact V|]. apply (bare_gateway (n_gw n) id kk vv).
    Qed.
    Theorem init_v2_taken_partial : forall e order wallet http n a node k v w ap t ok a' out p m n' ans,
      use http a (GInitV2 node k v w ap t) = Ret (ok, a', out) -> in_range (GInitV2 node k v w ap t) -> In (p, m) out -> gateway_api e order wallet n m = Ret (n', ans) ->
      exists id kk vv, NewNodeIDFromHexString (r_id node) = OkR id /\ k = Some kk /\ v = Some vv /\ is_gateway id kk vv (n_gw n') /\ g_pay (n_gw n') = option_map NewMgr (wallet w) /\
        (wallet w = None -> ans = [HttpError 400]).
    Proof using AC GP.
      intros e order wallet http n a node k v w ap t ok a' out p m n' ans H R I A.
      destruct (init2_taken version supported sha256 pub_of ec_sign ec_verify blake _ _ _ _ AC GP _ _ _ _ _ _ _ _ _ _ _ _ _ _ _ _ _ _ _ H R I A) as (id & kk & vv & N & K & V & -> & W).
      exists id, kk, vv. split; [exact N|]. split; [exact K|]. split; [exact V|]. split; [apply (bare_gateway (n_gw n) id kk vv)|]. split; [reflexivity|exact W].
    Qed.
    Theorem provider_init_taken_partial : forall e http q a node k v ok a' out p m q' ans,
      use http a (PInit node k v) = Ret (ok, a', out) -> in_range (PInit node k v) -> In (p, m) out -> provider_api e q m = Ret (q', ans) ->
      exists id kk vv, NewNodeIDFromHexString (r_id node) = OkR id /\ k = Some kk /\ v = Some vv /\ is_provider id kk vv q'.
    Proof using AC GP.
      intros e http q a node k v ok a' out p m q' ans H R I A.
      destruct (pinit_taken version supported sha256 sha512_256 pub_of ec_sign ec_verify blake _ _ _ _ AC GP _ _ _ _ _ _ _ _ _ _ _ _ _ _ H R I A) as (id & kk & vv & N & K & V & ->).
      exists id, kk, vv. split; [exact N|]. split; [exact K|]. split; [exact V|]. apply bare_provider.
    Qed.
    Theorem provider_init_v2_taken_partial : forall e http q a node k v w ap t ok a' out p m q' ans,
      use http a (PInitV2 node k v w ap t) = Ret (ok, a', out) -> in_range (PInitV2 node k v w ap t) -> In (p, m) out -> provider_api e q m = Ret (q', ans) ->
      exists id kk vv, NewNodeIDFromHexString (r_id node) = OkR id /\ k = Some kk /\ v = Some vv /\ is_provider id kk vv q' /\ (pe_lotus e = false -> ans = [HttpError 400]).
    Proof using AC GP.
      intros e http q a node k v w ap t ok a' out p m q' ans H R I A.
      destruct (pinit2_taken version supported sha256 sha512_256 pub_of ec_sign ec_verify blake _ _ _ _ AC GP _ _ _ _ _ _ _ _ _ _ _ _ _ _ _ _ _ H R I A) as (id & kk & vv & N & K & V & -> & W).
      exists id, kk, vv. split; [exact N|]. split; [exact K|]. split; [exact V|]. split; [apply bare_provider|exact W].
    Qed.

    (** ** C145 *)

    (** Whatever providers are listed, the change of supported features is never reported as done, although the gateway
        takes over the list. *)
    Theorem support_unconfirmed : forall e order wallet http n a node ps ok a' out,
      use http a (GSupport node ps) = Ret (ok, a', out) -> Forall id32 ps -> reaches http node (gateway_api e order wallet n) ->
      ok = false /\ a' = a /\ forall p m n' r, In (p, m) out -> gateway_api e order wallet n m = Ret (n', [Json r]) -> n_groups n' = ps.
    Proof using AC GP.
      intros e order wallet http n a node ps ok a' out H R Rc.
      exact (support_never version supported sha256 pub_of ec_sign ec_verify blake _ _ _ _ AC GP e order wallet http n a node ps ok a' out H R Rc).
    Qed.

    (** ** C147 *)

    (** If publishing a group offer is reported as done, the provider has served a request for exactly this offer. *)
    Theorem group_published : forall e http p a id cids price expiry qos a' out,
      use http a (PPublishGroup id cids price expiry qos) = Ret (true, a', out) -> Forall id32 cids -> uint64 price -> int64 expiry -> uint64 qos ->
      (forall node, target a (PPublishGroup id cids price expiry qos) = Some node -> reaches http node (provider_api e p)) ->
      exists node m p' r sent, target a (PPublishGroup id cids price expiry qos) = Some node /\ out = [(r_admin_ap node, m)] /\
        DecodeProviderAdminPublishGroupOfferRequest sha256 m = Ret (OkR (cids, price, expiry, qos)) /\
        pact version supported sha256 sha512_256 pub_of ec_sign ec_verify blake e p AdminPublishGroup m = Ret (p', [r], sent).
    Proof using AC GP.
      intros e http p a id cids price expiry qos a' out H R1 R2 R3 R4 Rc.
      destruct (published_by version supported sha256 sha512_256 pub_of ec_sign ec_verify blake _ _ _ _ AC GP e http p a _ AdminPublishGroup true a' out
        (or_introl (ex_intro _ id (ex_intro _ cids (ex_intro _ price (ex_intro _ expiry (ex_intro _ qos (conj eq_refl eq_refl))))))) H (conj R1 (conj R2 (conj R3 R4))) eq_refl Rc)
        as (node & m & p' & r & sent & T & O & As & P & _).
      exists node, m, p', r, sent. split; [exact T|]. split; [exact O|]. split; [exact As|exact P].
    Qed.
    Theorem dht_published : forall e http p a id cids price expiry qos a' out,
      use http a (PPublishDHT id cids price expiry qos) = Ret (true, a', out) -> Forall id32 cids -> each uint64 price -> each int64 expiry -> each uint64 qos ->
      (forall node, target a (PPublishDHT id cids price expiry qos) = Some node -> reaches http node (provider_api e p)) ->
      exists node m p' r sent, target a (PPublishDHT id cids price expiry qos) = Some node /\ out = [(r_admin_ap node, m)] /\
        DecodeProviderAdminPublishDHTOfferRequest sha256 m = Ret (OkR (cids, price, expiry, qos)) /\
        pact version supported sha256 sha512_256 pub_of ec_sign ec_verify blake e p AdminPublishDHT m = Ret (p', [r], sent).
    Proof using AC GP.
      intros e http p a id cids price expiry qos a' out H R1 R2 R3 R4 Rc.
      destruct (published_by version supported sha256 sha512_256 pub_of ec_sign ec_verify blake _ _ _ _ AC GP e http p a _ AdminPublishDHT true a' out
        (or_intror (ex_intro _ id (ex_intro _ cids (ex_intro _ price (ex_intro _ expiry (ex_intro _ qos (conj eq_refl eq_refl))))))) H (conj R1 (conj R2 (conj R3 R4))) eq_refl Rc)
        as (node & m & p' & r & sent & T & O & As & P & _).
      exists node, m, p', r, sent. split; [exact T|]. split; [exact O|]. split; [exact As|exact P].
    Qed.
  End truth.

  Section served.
    Hypothesis Law : ecdsa_correct pub_of ec_sign ec_verify.
    Hypothesis AC : BindAdminAPI <> BindRestAPI.
    Hypothesis GP : BindGatewayAPI <> BindProviderAPI.

    (** ** C142 *)

    (** A node initialised under the identifier as the libraries write it, is found by this identifier.  Full claim: for
        every registration that was initialised; see [unknown_after_init_refuted]. *)
    Theorem known_after_init_partial : forall http a x node ok a' out i y, use http a x = Ret (ok, a', out) -> puts x = Some node -> ok = true -> r_id node = ToString i ->
      In y [GUpdate (Some i); GList (Some i); PUpdate (Some i)] -> target a' y = Some node.
    Proof using.
      intros http a x node ok a' out i y H P -> N I. destruct (use_inv _ _ _ _ _ _ _ _ _ _ _ _ _ H) as (_ & A). rewrite P in A. subst a'.
      assert (G : aget bytes_eqb (ad_nodes (with_node a node)) (ToString i) = Some node).
      { cbn [with_node ad_nodes]. rewrite (aget_aset bytes_eqb bytes_eqb_eq), N, text_eq_refl. reflexivity. }
      destruct I as [<-|[<-|[<-|[]]]]; exact G.
    Qed.

    (** ** C143 *)

    (** A gateway told to refresh knows afterwards what the register lists, and the administrator is told so.  Full claim:
        whenever the administrator is told so; see [refreshed_nothing_refuted]. *)
    Theorem refreshed_partial : forall e order wallet http n a i node k gl pl,
      authority a -> aget bytes_eqb (ad_nodes a) (ToString i) = Some node -> g_key (n_gw n) = Some k -> can_sign ec_sign blake k -> registered_with node k ->
      managed info (g_reg (n_gw n)) -> gatewayDiscv info (g_reg (n_gw n)) = true -> providerDiscv info (g_reg (n_gw n)) = true -> providersLock info (g_reg (n_gw n)) = O ->
      e_gateways e 0 = listing info gl -> e_providers e 0 = listing info pl -> (forall x, In x gl -> canonical (fst x)) -> reaches http node (gateway_api e order wallet n) ->
      exists m n' r, lib GwForceUpdate http a (Some i) = Ret (true, [(r_admin_ap node, m)]) /\ gateway_api e order wallet n m = Ret (n', [Json r]) /\
        forall id, aget bytes_eqb (gatewaysMap info (g_reg (n_gw n'))) id = match latest info gl id with Some x => Some x | None => aget bytes_eqb (gatewaysMap info (g_reg (n_gw n))) id end /\
          aget bytes_eqb (providersMap info (g_reg (n_gw n'))) id = match latest info pl id with Some x => Some x | None => aget bytes_eqb (providersMap info (g_reg (n_gw n))) id end.
    Proof using Law AC GP.
      intros e order wallet http n a i node k gl pl Au Us K C Re M Gd Pd L Eg Ep Cn Rc.
      destruct (refresh_ok info (g_reg (n_gw n)) gl pl (managed_ginv info _ M) L Cn) as (rg & R).
      assert (R' : Refresh info (g_reg (n_gw n)) (e_gateways e 0) (e_providers e 0) = Ret rg) by (rewrite Eg, Ep; exact R).
      destruct (refresh_served version supported sha256 pub_of ec_sign ec_verify blake _ _ _ _ Law AC GP e order wallet http n a i node k rg Au Us K C Re R' Rc) as (m & r & E & A).
      exists m; eexists; exists r. split; [exact E|]. split; [exact A|]. cbn [n_gw with_reg g_reg]. intros id. exact (refresh_map info _ gl pl rg (g_start info _ (managed_ginv info _ M)) Gd Pd R id).
    Qed.
    Theorem provider_refreshed_partial : forall e http p a i node k gl pl,
      authority a -> aget bytes_eqb (ad_nodes a) (ToString i) = Some node -> p_key p = Some k -> can_sign ec_sign blake k -> registered_with node k ->
      managed info (p_reg p) -> gatewayDiscv info (p_reg p) = true -> providerDiscv info (p_reg p) = true -> providersLock info (p_reg p) = O ->
      pe_gateways e 0 = listing info gl -> pe_providers e 0 = listing info pl -> (forall x, In x gl -> canonical (fst x)) -> reaches http node (provider_api e p) ->
      exists m p' r, lib PvForceUpdate http a (Some i) = Ret (true, [(r_admin_ap node, m)]) /\ provider_api e p m = Ret (p', [Json r]) /\
        forall id, aget bytes_eqb (gatewaysMap info (p_reg p')) id = match latest info gl id with Some x => Some x | None => aget bytes_eqb (gatewaysMap info (p_reg p)) id end /\
          aget bytes_eqb (providersMap info (p_reg p')) id = match latest info pl id with Some x => Some x | None => aget bytes_eqb (providersMap info (p_reg p)) id end.
    Proof using Law AC GP.
      intros e http p a i node k gl pl Au Us K C Re M Gd Pd L Eg Ep Cn Rc.
      destruct (refresh_ok info (p_reg p) gl pl (managed_ginv info _ M) L Cn) as (rg & R).
      assert (R' : Refresh info (p_reg p) (pe_gateways e 0) (pe_providers e 0) = Ret rg) by (rewrite Eg, Ep; exact R).
      destruct (prefresh_served version supported sha256 sha512_256 pub_of ec_sign ec_verify blake _ _ _ _ Law AC GP e http p a i node k rg Au Us K C Re R' Rc) as (m & r & E & A).
      exists m; eexists; exists r. split; [exact E|]. split; [exact A|]. cbn [p_with_reg p_reg]. intros id. exact (refresh_map info _ gl pl rg (g_start info _ (managed_ginv info _ M)) Gd Pd R id).
    Qed.

    (** ** C144 *)

    (** Setting the reputation of a client the gateway knows succeeds; the gateway then has this reputation for this
        client, the reputations of others are the same.  For a client it does not know it fails and nothing changes. *)
    Theorem reputation_set : forall e order wallet http n a node k c v old seen,
      authority a -> g_key (n_gw n) = Some k -> can_sign ec_sign blake k -> registered_with node k -> id32 c -> int64 v ->
      GetClientReputation (n_reps n) (Some c) = Ret (old, seen) -> reaches http node (gateway_api e order wallet n) ->
      exists m n' r, lib RequestSetReputation http node (Some c) v (ad_key a) (ad_ver a) = Ret (seen, [(r_admin_ap node, m)]) /\
        gateway_api e order wallet n m = Ret (n', [Json r]) /\ n_gw n' = n_gw n /\ n_groups n' = n_groups n /\
        GetClientReputation (n_reps n') (Some c) = Ret (if seen then v else 0, seen) /\
        forall c', id32 c' -> c' <> c -> GetClientReputation (n_reps n') (Some c') = GetClientReputation (n_reps n) (Some c').
    Proof using Law AC GP.
      intros e order wallet http n a node k c v old seen Au K C Re Ic Iv G Rc.
      destruct (set_served version supported sha256 pub_of ec_sign ec_verify blake _ _ _ _ Law AC GP e order wallet http n a node k c v old seen Au K C Re Ic Iv G Rc) as (m & r & reps' & E & A & X & Y).
      exists m; eexists; exists r. split; [exact E|]. split; [exact A|]. split; [reflexivity|]. split; [reflexivity|]. split; [exact X|exact Y].
    Qed.
    (** The administrator is told the reputation the gateway has. *)
    Theorem reputation_told : forall e order wallet http n a node k c v seen,
      authority a -> g_key (n_gw n) = Some k -> can_sign ec_sign blake k -> registered_with node k -> id32 c -> int64 v ->
      GetClientReputation (n_reps n) (Some c) = Ret (v, seen) -> reaches http node (gateway_api e order wallet n) ->
      exists m r, lib RequestGetReputation http node (Some c) (ad_key a) (ad_ver a) = Ret (if seen then OkR v else ErrR, [(r_admin_ap node, m)]) /\
        gateway_api e order wallet n m = Ret (n, [Json r]).
    Proof using Law AC GP.
      intros e order wallet http n a node k c v seen Au K C Re Ic Iv G Rc.
      exact (get_served version supported sha256 pub_of ec_sign ec_verify blake _ _ _ _ Law AC GP e order wallet http n a node k c v seen Au K C Re Ic Iv G Rc).
    Qed.

    (** ** C146 *)

    (** The administrator naming gateways gets exactly the offers published there, all of which were ordered. *)
    Theorem offers_told : forall reg ss p e http a i node k ids,
      int32 version -> Forall int32 supported -> sized sha256 ss -> lived version supported sha256 sha512_256 pub_of ec_sign ec_verify blake (NewProvider reg) ss p -> ready ec_sign blake p ->
      authority a -> aget bytes_eqb (ad_nodes a) (ToString i) = Some node -> p_key p = Some k -> registered_with node k -> Forall id32 ids -> ids <> [] -> reaches http node (provider_api e p) ->
      exists m r, lib GetGroupCIDOffer http a (Some i) ids = Ret (OkR (negb (is_nil (flat_map (ProviderSpec.published p) ids)), Some (flat_map (ProviderSpec.published p) ids)), [(r_admin_ap node, m)]) /\
        provider_api e p m = Ret (p, [Json r]) /\
        forall id o, In id ids -> In o (ProviderSpec.published p id) -> exists s, In s ss /\ ordered sha256 pub_of ec_verify blake s o.
    Proof using Law AC GP.
      intros reg ss p e http a i node k ids V1 V2 Sz L R Au Us K Re F N Rc.
      pose proof (published_from version supported sha256 sha512_256 pub_of ec_sign ec_verify blake reg ss p Law (conj V1 V2) Sz L) as P.
      assert (W : forall id o, id32 id -> In o (ProviderSpec.published p id) -> wire_offer sha256 o) by (intros id o I H; exact (proj1 (P id o I H))).
      destruct (get_offers_served version supported sha256 sha512_256 pub_of ec_sign ec_verify blake _ _ _ _ Law AC GP e http p a i node k ids Au Us R K Re F N W Rc) as (m & r & E & A).
      exists m, r. split; [exact E|]. split; [exact A|]. intros id o I X. refine (proj2 (P id o _ X)). rewrite Forall_forall in F. exact (F id I).
    Qed.
  End served.

  (** ** C148 *)

  (** Calls whose answers carry neither identifiers nor offers return, whatever comes back.  Full claim: all calls with
      all registrations; see [answer_crashes_refuted]. *)
  Theorem calls_return_partial : forall http a x, authority a -> given x -> hazardous x = false -> (forall node, target a x = Some node -> Client.r_key node <> []) ->
    exists y, use http a x = Ret y.
  Proof. intros http a x Au G Hz N. eapply use_returns; eassumption. Qed.

  (** ** C149 *)

  (** What a node does on a request of its administrator does not depend on the signature. *)
  Theorem signature_unused : forall e order wallet n m s, gateway_api e order wallet n (set_sig m s) = gateway_api e order wallet n m.
  Proof.
    intros e order wallet n m s. unfold AdminSpec.gateway_api.
    assert (D0 : DecodeGatewayAdminInitialiseKeyRequest sha256 (set_sig m s) = DecodeGatewayAdminInitialiseKeyRequest sha256 m) by reflexivity. assert (D1 : DecodeGatewayAdminInitialiseKeyRequestV2 sha256 (set_sig m s) = DecodeGatewayAdminInitialiseKeyRequestV2 sha256 m) by reflexivity. assert (D2 : DecodeGatewayAdminGetReputationRequest sha256 (set_sig m s) = DecodeGatewayAdminGetReputationRequest sha256 m) by reflexivity. assert (D3 : DecodeGatewayAdminSetReputationRequest sha256 (set_sig m s) = DecodeGatewayAdminSetReputationRequest sha256 m) by reflexivity. assert (D4 : DecodeGatewayAdminForceRefreshRequest sha256 (set_sig m s) = DecodeGatewayAdminForceRefreshRequest sha256 m) by reflexivity. assert (D5 : DecodeGatewayAdminListDHTOfferRequest sha256 (set_sig m s) = DecodeGatewayAdminListDHTOfferRequest sha256 m) by reflexivity. assert (D6 : DecodeUpdateGatewayGroupCIDOfferSupportRequest sha256 (set_sig m s) = DecodeUpdateGatewayGroupCIDOfferSupportRequest sha256 m) by reflexivity.
    change (m_type (set_sig m s)) with (m_type m). destruct (routed _ _ _ _ _ _ (m_type m)) as [k|]; [|reflexivity].
    destruct k; try reflexivity; unfold GatewayAdmin.HandleAdminInitialiseKey, GatewayAdmin.HandleAdminInitialiseKeyV2, HandleGetReputation, HandleSetReputation, GatewayAdmin.HandleAdminForceRefresh, GatewayAdmin.HandleAdminListDHT, GatewayAdmin.HandleAdminSupport; rewrite ?D0; rewrite ?D1; rewrite ?D2; rewrite ?D3; rewrite ?D4; rewrite ?D5; rewrite ?D6; reflexivity.
  Qed.
  Theorem provider_signature_unused : forall e p m s, provider_api e p (set_sig m s) = provider_api e p m.
  Proof.
    intros e p m s. unfold AdminSpec.provider_api.
    assert (D0 : DecodeProviderAdminInitialiseKeyRequest sha256 (set_sig m s) = DecodeProviderAdminInitialiseKeyRequest sha256 m) by reflexivity. assert (D1 : DecodeProviderAdminInitialiseKeyRequestV2 sha256 (set_sig m s) = DecodeProviderAdminInitialiseKeyRequestV2 sha256 m) by reflexivity. assert (D2 : DecodeProviderAdminGetPublishedOfferRequest sha256 (set_sig m s) = DecodeProviderAdminGetPublishedOfferRequest sha256 m) by reflexivity. assert (D3 : DecodeProviderAdminPublishDHTOfferRequest sha256 (set_sig m s) = DecodeProviderAdminPublishDHTOfferRequest sha256 m) by reflexivity. assert (D4 : DecodeProviderAdminPublishGroupOfferRequest sha256 (set_sig m s) = DecodeProviderAdminPublishGroupOfferRequest sha256 m) by reflexivity. assert (D5 : DecodeProviderAdminForceRefreshRequest sha256 (set_sig m s) = DecodeProviderAdminForceRefreshRequest sha256 m) by reflexivity.
    change (m_type (set_sig m s)) with (m_type m). destruct (routed _ _ _ _ _ _ (m_type m)) as [k|]; [|reflexivity].
    destruct k; try reflexivity; unfold Provider.HandleAdminInitialiseKey, Provider.HandleAdminInitialiseKeyV2, HandleAdminGetPublished, HandleAdminPublishDHT, HandleAdminPublishGroup, Provider.HandleAdminForceRefresh; rewrite ?D0; rewrite ?D1; rewrite ?D2; rewrite ?D3; rewrite ?D4; rewrite ?D5; reflexivity.
  Qed.

  (** ** C150 *)

  (** The key given is used with its version, and otherwise a new one with version 1; without a blockchain key nothing is built. *)
  Theorem settings_built : forall b gen s, Build b gen = Ret s ->
    st_url s = b_url b /\ st_chain s = b_chain b /\ b_chain b <> None /\ ad_nodes (NewAdmin s) = [] /\
    match b_key b with
    | Some k => ad_key (NewAdmin s) = Some k /\ ad_ver (NewAdmin s) = b_ver b
    | None => exists k, gen = OkR k /\ ad_key (NewAdmin s) = Some k /\ ad_ver (NewAdmin s) = Some 1
    end.
  Proof.
    intros [u ch k v] gen s H. unfold Build in H. cbn [b_chain b_key b_ver b_url] in *. destruct ch as [ch|]; [|discriminate H].
    destruct k as [k|]; [|destruct gen as [g|]; [|discriminate H]]; apply ret_inj in H; subst s; (split; [reflexivity|]; split; [reflexivity|]; split; [discriminate|]; split; [reflexivity|]).
    - split; reflexivity.
    - exists g. split; [reflexivity|]. split; reflexivity.
  Qed.
End theorems.
Print Assumptions call_asks.
Print Assumptions unknown_unasked.
Print Assumptions success_confirmed.
Print Assumptions reputation_confirmed.
Print Assumptions offers_confirmed.
Print Assumptions session_nodes.
Print Assumptions gateway_initialised.
Print Assumptions gateway_initialised_v2.
Print Assumptions provider_initialised.
Print Assumptions provider_initialised_v2.
Print Assumptions init_taken_partial.
Print Assumptions init_v2_taken_partial.
Print Assumptions provider_init_taken_partial.
Print Assumptions provider_init_v2_taken_partial.
Print Assumptions known_after_init_partial.
Print Assumptions refreshed_partial.
Print Assumptions provider_refreshed_partial.
Print Assumptions reputation_set.
Print Assumptions reputation_told.
Print Assumptions support_unconfirmed.
Print Assumptions offers_told.
Print Assumptions group_published.
Print Assumptions dht_published.
Print Assumptions calls_return_partial.
Print Assumptions signature_unused.
Print Assumptions provider_signature_unused.
Print Assumptions settings_built.

(** ** Examples

    The administrator has key 9; gateway 10 is registered with key 1, provider 70 with key 7. *)
Local Notation lib f := (f 1 [1] toy_hash toy_pub toy_sign PropertiesCrypto.toy_verify toy_blake) (only parsing).
Local Notation papi := (provider_api 1 [1] toy_hash toy_hash toy_pub toy_sign PropertiesCrypto.toy_verify toy_blake (gs "9013") (gs "9010") (gs "9012") (gs "9011")).
Local Notation gapi e := (gateway_api 1 [1] toy_hash toy_sign toy_blake (gs "9013") (gs "9010") (gs "9012") (gs "9011") e (fun l => l) toy_wallet).
Definition toy_settings : settings := ok_or (Settings 0 [] None None None)
  (Build (SetRegisterURL (SetAdminPrivateKey (SetBlockchainPrivateKey CreateGatewaySettings (Some (toy_key 3))) (Some (toy_key 9)) (Some 2)) (gs "http://r")) ErrR).
Definition toy_admin : admin := Eval vm_compute in NewAdmin toy_settings.
(** A gateway that was just started; client 99 has the reputation 10. *)
Definition new_gw : gateway := Gateway None None 0 3 2 10 None empty_db toy_idle.
Definition new_node : gnode := GNode new_gw [(ToString (idn 99), 10)] [].
(** The network: at address "a" there is a gateway or a provider. *)
Definition at_a (api : message -> option message) (ap : gostring) (m : message) : option message := if bytes_eqb ap (gs "a") then api m else None.
Definition gnet (e : env) (n : gnode) := at_a (fun m => received (gapi e n m)).
Definition pnet (e : penv) (p : provider) := at_a (fun m => received (papi e p m)).
Definition said {A B C} (o : outcome (A * B * list C)) : option (A * nat) := match o with Ret (a, _, out) => Some (a, length out) | _ => None end.
Definition said2 {A C} (o : outcome (A * list C)) : option (A * nat) := match o with Ret (a, out) => Some (a, length out) | _ => None end.
Definition mail {A} (o : outcome (A * list post)) : message := match o with Ret (_, [(_, m)]) => m | _ => zero_message end.
Definition lib_of {A C} (o : outcome (A * admin * list C)) : admin := match o with Ret (_, a, _) => a | _ => toy_admin end.
Definition next (e : env) (n : gnode) (m : message) : gnode := match gapi e n m with Ret (n', _) => n' | _ => n end.
Definition pnext (e : penv) (p : provider) (m : message) : provider := match papi e p m with Ret (p', _) => p' | _ => p end.

Example toy_authority : authority toy_sign toy_blake toy_admin.
Proof. exists (toy_key 9), 2. split; [reflexivity|]. split; [reflexivity|]. apply toy_signs. Qed.
Example toy_usable n : usable toy_sign toy_blake (toy_key n).
Proof. split; [|apply toy_signs]. split; [reflexivity|]. exists (idn n). split; [reflexivity|]. apply Nat2Z.inj. unfold idn. rewrite be_bytes_length. reflexivity. Qed.
Lemma toy_registered (r : reg) n : DecodePublicKey (Client.r_key r) = Ret (OkR (toy_pubkey n)) -> registered_with toy_pub r (toy_key n).
Proof. intros D. exists (toy_pubkey n). split; [exact D|]. split; [reflexivity|]. exists (idn n). split; [reflexivity|]. left. reflexivity. Qed.
Example toy_gw10 : registered_with toy_pub gw10 (toy_key 1) /\ NewNodeIDFromHexString (r_id gw10) = OkR (idn 10) /\ r_id gw10 = ToString (idn 10).
Proof. split; [apply toy_registered; vm_compute; reflexivity|]. split; vm_compute; reflexivity. Qed.
Example toy_pvd70 : registered_with toy_pub pvd70 (toy_key 7) /\ NewNodeIDFromHexString (r_id pvd70) = OkR (idn 70).
Proof. split; [apply toy_registered; vm_compute; reflexivity|vm_compute; reflexivity]. Qed.
Example toy_reaches e n : reaches (gnet e n) gw10 (gapi e n).
Proof. intros m. reflexivity. Qed.
Example toy_preaches e p : reaches (pnet e p) pvd70 (papi e p).
Proof. intros m. reflexivity. Qed.

(** C136, C137, C139: the new gateway is initialised. *)
Definition init10 := lib InitialiseGateway (gnet toy_env new_node) toy_admin gw10 (Some (toy_key 1)) (Some 4).
Definition mail10 : message := Eval vm_compute in mail init10.
Definition node10 : gnode := Eval vm_compute in next toy_env new_node mail10.
Definition admin10 : admin := Eval vm_compute in lib_of init10.
Example gateway_initialised_ex : said init10 = Some (true, 1%nat) /\
  DecodeGatewayAdminInitialiseKeyRequest toy_hash mail10 = Ret (OkR (Some (idn 10), Some (toy_key 1), Some 4)) /\
  fst (MessageVerify toy_pub PropertiesCrypto.toy_verify toy_blake mail10 (toy_pubkey 9)) = true /\
  g_id (n_gw node10) = Some (idn 10) /\ g_key (n_gw node10) = Some (toy_key 1) /\ g_ver (n_gw node10) = 4 /\ map fst (ad_nodes admin10) = [ToString (idn 10)].
Proof. vm_compute. repeat split. Qed.
Definition init10_v2 := lib InitialiseGatewayV2 (gnet toy_env new_node) toy_admin gw10 (Some (toy_key 1)) (Some 4) (gs "wallet") (gs "lotus") (gs "token").
Example gateway_initialised_v2_ex : said init10_v2 = Some (true, 1%nat) /\ toy_wallet (gs "wallet") = Some (gs "gw") /\ g_pay (n_gw (next toy_env new_node (mail init10_v2))) = Some (NewMgr (gs "gw")).
Proof. vm_compute. repeat split. Qed.
(** A node that is not in use is not asked; a response signed by somebody else is not believed. *)
Example unknown_ex : said2 (lib GwForceUpdate (gnet toy_env node10) toy_admin (Some (idn 10))) = Some (false, 0%nat).
Proof. vm_compute. reflexivity. Qed.
Example other_key_ex : said (lib InitialiseGateway (gnet toy_env new_node) toy_admin (Client.Reg (r_id gw10) [] (key_text 2) (key_text 2) [] [] [] [] (gs "a")) (Some (toy_key 1)) (Some 4)) = Some (false, 1%nat).
Proof. vm_compute. reflexivity. Qed.

(** C138: initialising gateway 20 fails, that of gateway 10 does not. *)
Definition toy_session := session 1 [1] toy_hash toy_pub toy_sign PropertiesCrypto.toy_verify toy_blake toy_admin
  [((fun _ _ => None), GInit gw20 (Some (toy_key 2)) (Some 1)); (gnet toy_env new_node, GInit gw10 (Some (toy_key 1)) (Some 4)); (gnet toy_env node10, GUpdate (Some (idn 10)));
   (gnet toy_env node10, GUpdate (Some (idn 20)))].
Example session_ex : match toy_session with
  | Ret (a, log) => map snd log = [false; true; true; false] /\ map fst (ad_nodes a) = [ToString (idn 10)] /\ AdminSpec.in_use None log (ToString (idn 20)) = None
  | _ => False end.
Proof. vm_compute. repeat split. Qed.

(** C140: the same for provider 70. *)
Definition init70 := lib InitialiseProvider (pnet (toy_penv 40) (NewProvider toy_reg)) toy_admin pvd70 (Some (toy_key 7)) (Some 1).
Definition prov70 : provider := Eval vm_compute in pnext (toy_penv 40) (NewProvider toy_reg) (mail init70).
Definition admin70 : admin := Eval vm_compute in lib_of init70.
Example provider_initialised_ex : said init70 = Some (true, 1%nat) /\ p_id prov70 = Some (idn 70) /\ p_key prov70 = Some (toy_key 7) /\ p_ver prov70 = 1 /\ map fst (ad_nodes admin70) = [r_id pvd70].
Proof. vm_compute. repeat split. Qed.
Definition init70_v2 := lib InitialiseProviderV2 (pnet (toy_penv 40) (NewProvider toy_reg)) toy_admin pvd70 (Some (toy_key 7)) (Some 1) (gs "ab") (gs "lotus") (gs "token").
Example provider_initialised_v2_ex : said init70_v2 = Some (true, 1%nat) /\ pe_lotus (toy_penv 40) = true /\ p_id (pnext (toy_penv 40) (NewProvider toy_reg) (mail init70_v2)) = Some (idn 70).
Proof. vm_compute. repeat split. Qed.

(** C141 is false: the call fails, but the gateway and the provider have the new identity: with a key other than the
    registered one, with a wallet's key nobody can use, and if the provider has no payment manager. *)
Definition wrong_key := lib InitialiseGateway (gnet toy_env node10) admin10 gw10 (Some (toy_key 2)) (Some 5).
Definition wrong_wallet := lib InitialiseGatewayV2 (gnet toy_env node10) admin10 gw10 (Some (toy_key 1)) (Some 6) (gs "x") (gs "lotus") (gs "token").
Definition no_lotus := lib InitialiseProviderV2 (pnet (silent_penv 40) (NewProvider toy_reg)) toy_admin pvd70 (Some (toy_key 7)) (Some 8) (gs "ab") (gs "lotus") (gs "token").
Theorem init_failed_refuted :
  (said wrong_key = Some (false, 1%nat) /\ g_key (n_gw (next toy_env node10 (mail wrong_key))) = Some (toy_key 2)) /\
  (said wrong_wallet = Some (false, 1%nat) /\ g_ver (n_gw (next toy_env node10 (mail wrong_wallet))) = 6 /\ g_pay (n_gw (next toy_env node10 (mail wrong_wallet))) = None) /\
  (said no_lotus = Some (false, 1%nat) /\ p_ver (pnext (silent_penv 40) (NewProvider toy_reg) (mail no_lotus)) = 8).
Proof. vm_compute. repeat split. Qed.
Print Assumptions init_failed_refuted.

(** C142: gateway 10 can be asked by its identifier; it cannot if the registration has the identifier in capitals. *)
Example known_after_init_ex : said2 (lib GwForceUpdate (gnet toy_env node10) admin10 (Some (idn 10))) = Some (true, 1%nat).
Proof. vm_compute. reflexivity. Qed.
Definition capital : reg := Client.Reg (firstn 63 (r_id gw10) ++ gs "A") [] (key_text 1) (key_text 1) [] [] [] [] (gs "a").
Definition init_capital := lib InitialiseGateway (gnet toy_env new_node) toy_admin capital (Some (toy_key 1)) (Some 4).
Theorem unknown_after_init_refuted :
  NewNodeIDFromHexString (r_id capital) = OkR (idn 10) /\ said init_capital = Some (true, 1%nat) /\ g_id (n_gw (next toy_env new_node (mail init_capital))) = Some (idn 10) /\
  said2 (lib GwForceUpdate (gnet toy_env node10) (lib_of init_capital) (Some (idn 10))) = Some (false, 0%nat).
Proof. vm_compute. repeat split. Qed.
Print Assumptions unknown_after_init_refuted.

(** C143: the register lists the gateways 10, 20 and 30; while it cannot be reached success is reported all the same. *)
Definition listed_env : env :=
  Env (e_now toy_env) (e_rows toy_env) (e_fates toy_env) (e_chain toy_env) (fun _ => listing info toy_gateways) (fun _ => listing info toy_providers) (e_tx toy_env) (e_sign toy_env) (e_conn toy_env) (e_net toy_env).
Definition update (e : env) := lib GwForceUpdate (gnet e node10) admin10 (Some (idn 10)).
Definition knows_gateways (n : gnode) : list gostring := map fst (gatewaysMap info (g_reg (n_gw n))).
Example refreshed_ex : said2 (update listed_env) = Some (true, 1%nat) /\ length (knows_gateways (next listed_env node10 (mail (update listed_env)))) = 3%nat.
Proof. vm_compute. repeat split. Qed.
Example refreshed_hypotheses : managed info (g_reg (n_gw node10)) /\ gatewayDiscv info (g_reg (n_gw node10)) = true /\ providerDiscv info (g_reg (n_gw node10)) = true /\
  providersLock info (g_reg (n_gw node10)) = O /\ g_key (n_gw node10) = Some (toy_key 1) /\ aget bytes_eqb (ad_nodes admin10) (ToString (idn 10)) = Some gw10.
Proof. split; [exact (managed_start info true)|]. repeat split. Qed.
Theorem refreshed_nothing_refuted :
  e_gateways toy_env 0 = None /\ said2 (update toy_env) = Some (true, 1%nat) /\ knows_gateways (next toy_env node10 (mail (update toy_env))) = [] /\
  said2 (lib PvForceUpdate (pnet (toy_penv 41) prov70) admin70 (Some (idn 70))) = Some (true, 1%nat) /\ pe_gateways (toy_penv 41) 0 = None.
Proof. vm_compute. repeat split. Qed.
Print Assumptions refreshed_nothing_refuted.

(** C144: client 99 is known, client 98 is not; what the library itself offers for it does nothing. *)
Definition set_rep (c : Z) := lib RequestSetReputation (gnet toy_env node10) gw10 (Some (idn c)) 500 (ad_key admin10) (ad_ver admin10).
Definition node_rep : gnode := Eval vm_compute in next toy_env node10 (mail (set_rep 99)).
Definition get_rep (n : gnode) (c : Z) := lib RequestGetReputation (gnet toy_env n) gw10 (Some (idn c)) (ad_key admin10) (ad_ver admin10).
Example reputation_ex : said2 (set_rep 99) = Some (true, 1%nat) /\ said2 (get_rep node_rep 99) = Some (OkR 500, 1%nat) /\ said2 (get_rep node10 99) = Some (OkR 10, 1%nat) /\
  said2 (set_rep 98) = Some (false, 1%nat) /\ said2 (get_rep node_rep 98) = Some (ErrR, 1%nat).
Proof. vm_compute. repeat split. Qed.
Theorem library_reputation_refuted :
  said2 (set_rep 99) = Some (true, 1%nat) /\ said2 (LibSetClientReputation admin10 (Some (idn 99)) 500) = Some (false, 0%nat) /\ said2 (ResetClientReputation admin10 (Some (idn 99))) = Some (false, 0%nat).
Proof. vm_compute. repeat split. Qed.
Print Assumptions library_reputation_refuted.

(** C145 is false: the gateway supports the group offers of provider 70, but the call fails. *)
Definition support70 := lib UpdateGatewaySupportedFeatures (gnet toy_env node10) admin10 gw10 [idn 70].
Theorem support_refuted : said support70 = Some (false, 1%nat) /\ n_groups (next toy_env node10 (mail support70)) = [idn 70].
Proof. vm_compute. repeat split. Qed.
Print Assumptions support_refuted.

(** C146, C147: an offer is published and shown. *)
Definition publish70 := lib PublishGroupCID (pnet (toy_penv 41) prov70) admin70 (Some (idn 70)) [idn 1; idn 2] 10 100 1.
Definition prov70b : provider := Eval vm_compute in pnext (toy_penv 41) prov70 (mail publish70).
Example group_published_ex : said2 publish70 = Some (true, 1%nat) /\ map o_price (p_heap prov70b) = [10].
Proof. vm_compute. repeat split. Qed.
Definition publish70_dht := lib PublishDHTCID (pnet (toy_penv 42) prov70b) admin70 (Some (idn 70)) [idn 15] (Some [20]) (Some [100]) (Some [1]).
Example dht_published_ex : said2 publish70_dht = Some (true, 1%nat) /\ map o_price (p_heap (pnext (toy_penv 42) prov70b (mail publish70_dht))) = [10; 20].
Proof. vm_compute. repeat split. Qed.
Example offers_told_ex : match lib GetGroupCIDOffer (pnet (toy_penv 43) toy_prov) admin70 (Some (idn 70)) [idn 10; idn 20] with
  | Ret (OkR (found, Some l), out) => (found, map o_price l, length out) = (true, [10; 10; 20], 1%nat)
  | _ => False end.
Proof. vm_compute. reflexivity. Qed.

(** C148 is false: answers signed by the node with a malformed identifier crash the administrator's program, and so does
    a registration without a key. *)
Definition bad_set : message := signed 1 (encode 1 [1] GatewayAdminSetReputationResponseType gatewayAdminSetReputationResponse (gs "zz", (500, (true, tt)))).
Definition bad_get : message := signed 1 (encode 1 [1] GatewayAdminGetReputationResponseType gatewayAdminGetReputationResponse (gs "zz", (500, (true, tt)))).
Definition keyless : reg := Client.Reg (r_id gw10) [] [] [] [] [] [] [] (gs "a").
Theorem answer_crashes_refuted :
  lib RequestSetReputation (fun _ _ => Some bad_set) gw10 (Some (idn 99)) 500 (ad_key admin10) (ad_ver admin10) = Panic /\
  lib RequestGetReputation (fun _ _ => Some bad_get) gw10 (Some (idn 99)) (ad_key admin10) (ad_ver admin10) = Panic /\
  lib InitialiseGateway (fun _ _ => None) toy_admin keyless (Some (toy_key 1)) (Some 4) = Panic.
Proof. vm_compute. repeat split. Qed.
Print Assumptions answer_crashes_refuted.
Example calls_return_ex : is_ret (lib InitialiseGateway (fun _ _ => Some bad_set) toy_admin gw10 (Some (toy_key 1)) (Some 4)) = true.
Proof. vm_compute. reflexivity. Qed.

(** C149 is false: requests nobody signed give the gateway and the provider another key. *)
Definition unsigned_key : message := key_req 20 2.
Definition unsigned_pkey : message := init_req 80 8.
Theorem obeys_anyone_refuted :
  m_sig unsigned_key = [] /\ g_key (n_gw node10) = Some (toy_key 1) /\ g_key (n_gw (next toy_env node10 unsigned_key)) = Some (toy_key 2) /\
  m_sig unsigned_pkey = [] /\ p_key toy_prov = Some (toy_key 7) /\ p_key (pnext (toy_penv 43) toy_prov unsigned_pkey) = Some (toy_key 8).
Proof. vm_compute. repeat split. Qed.
Print Assumptions obeys_anyone_refuted.

(** C150: the settings of the examples; without a key given there is a new one. *)
Example settings_ex : st_url toy_settings = gs "http://r" /\ st_chain toy_settings = Some (toy_key 3) /\ st_key toy_settings = Some (toy_key 9) /\ st_ver toy_settings = Some 2 /\
  Build (SetBlockchainPrivateKey CreateProviderSettings (Some (toy_key 3))) (OkR (toy_key 4)) = Ret (Settings 0 (gs "http://register:9020") (Some (toy_key 3)) (Some (toy_key 4)) (Some 1)) /\
  Build CreateProviderSettings (OkR (toy_key 4)) = Panic.
Proof. vm_compute. repeat split. Qed.
