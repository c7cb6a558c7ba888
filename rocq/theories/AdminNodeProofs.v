(** * Proofs about administrators and nodes together *)
From Coq Require Import String List ZArith Bool Lia.
From Coq Require Import Init.Byte.
From Verif Require Import Base BaseProofs Ids Crypto CryptoProofs Message MessageProofs Offer OfferProofs Schema SchemaProofs Messages MessagesSpec MessagesProofs WireSpec Payment Register RegisterSpec RegisterProofs
  SqlOffers Rest Routes RoutesProofs Reputation ReputationSpec ReputationProofs Gateway GatewaySpec GatewayProofs GatewayAdmin GatewayAdminProofs Provider ProviderSpec ProviderProofs ProviderListProofs ProviderAckProofs Admin AdminSpec AdminProofs.
From Verif Require Import OfferStore.
From Verif Require Client.
Import ListNotations.
Open Scope Z_scope.

Section nodes.
  Variable version : Z.
  Variable supported : list Z.
  Variable sha256 sha512_256 : bytes -> bytes.
  Variable pub_of : bytes -> bytes.
  Variable ec_sign : bytes -> bytes -> option bytes.
  Variable ec_verify : bytes -> bytes -> bytes -> bool.
  Variable blake : bytes -> bytes.
  Variables BindAdminAPI BindRestAPI BindGatewayAPI BindProviderAPI : gostring.
  Hypothesis Law : ecdsa_correct pub_of ec_sign ec_verify.
  Hypothesis AC : BindAdminAPI <> BindRestAPI.
  Hypothesis GP : BindGatewayAPI <> BindProviderAPI.
  Implicit Types (a : admin) (node : reg) (m r : message).

  Local Notation of_key := (of_key pub_of ec_verify blake).
  Local Notation gateway_api := (gateway_api version supported sha256 ec_sign blake BindAdminAPI BindRestAPI BindGatewayAPI BindProviderAPI).
  Local Notation provider_api := (provider_api version supported sha256 sha512_256 pub_of ec_sign ec_verify blake BindAdminAPI BindRestAPI BindGatewayAPI BindProviderAPI).
  Local Notation routed := (routed BindAdminAPI BindRestAPI BindGatewayAPI BindProviderAPI).

  Lemma received_json {A} (o : outcome (A * list Rest.answer)) r : received o = Some r -> exists n, o = Ret (n, [Json r]).
  Proof. destruct o as [[n [|[c|r'] [|]]]| |]; cbn; try discriminate. intros H. injection H as <-. eauto. Qed.

  Lemma admin_route n k m : k <> KGatewayPingRequest -> m_type m = type_of k -> request k = Some (n, ByAdmin) -> routed n ByAdmin (m_type m) = Some k.
  Proof using AC GP. intros N T R. rewrite T, routed_type by assumption. rewrite R. destruct n; reflexivity. Qed.

  (** The type of a message that can be decoded. *)
  Lemma decoded_tag sch tag m x : decode sha256 tag sch m = Ret (OkR x) -> m_type m = tag.
  Proof using. intros H. destruct (Z.eq_dec (m_type m) tag) as [E|E]; [exact E|]. rewrite decode_tag in H by exact E. discriminate H. Qed.
  Ltac tagged H := apply rbind_inv in H; destruct H as (? & H & _); exact (decoded_tag _ _ _ _ H).

  Lemma finish_can g k response : g_key g = Some k -> can_sign ec_sign blake k ->
    exists s, finish_rest ec_sign blake g response [] [] = Ret (Served g [Json (set_sig response s)] []) /\ of_key k (set_sig response s).
  Proof using Law. intros K C. unfold finish_rest. rewrite K. destruct (write_can pub_of ec_sign ec_verify blake k (g_ver g) 500 response Law C) as (s & E & O). rewrite E. exists s. auto. Qed.
  Lemma finish_json g response s : finish_rest ec_sign blake g response [] [] = Ret s -> after s = g.
  Proof using. unfold finish_rest. intros H. step H. apply ret_inj in H. subst s. reflexivity. Qed.
  Lemma p_finish_can p k response : p_key p = Some k -> can_sign ec_sign blake k ->
    exists s, p_finish ec_sign blake p response = Ret (PServed p [Json (set_sig response s)] []) /\ of_key k (set_sig response s).
  Proof using Law. intros K C. unfold p_finish. rewrite K. destruct (write_can pub_of ec_sign ec_verify blake k (p_ver p) 500 response Law C) as (s & E & O). rewrite E. exists s. auto. Qed.

  Section gw.
    Variable e : env.
    Variable order : list (gostring * info) -> list (gostring * info).
    Variable wallet : gostring -> option gostring.
    Local Notation api := (gateway_api e order wallet).

    Lemma api_key n m id k v : DecodeGatewayAdminInitialiseKeyRequest sha256 m = Ret (OkR (id, Some k, Some v)) ->
      api n m = (let* s := GatewayAdmin.HandleAdminInitialiseKey version supported sha256 ec_sign blake (n_gw n) m in Ret (GNode (after s) (n_reps n) (n_groups n), wrote s))%go.
    Proof using AC GP. intros D. unfold AdminSpec.gateway_api. rewrite (admin_route AtGateway KGatewayAdminInitialiseKeyRequest); [reflexivity|discriminate|tagged D|reflexivity]. Qed.
    Lemma api_key_served n m id k v : can_sign ec_sign blake k -> DecodeGatewayAdminInitialiseKeyRequest sha256 m = Ret (OkR (id, Some k, Some v)) ->
      exists r, api n m = Ret (GNode (with_key (n_gw n) id (Some k) v) (n_reps n) (n_groups n), [Json r]) /\ of_key k r /\
        DecodeGatewayAdminInitialiseKeyResponse sha256 r = Ret (OkR true).
    Proof using AC GP Law.
      intros C D. rewrite (api_key _ _ _ _ _ D). unfold GatewayAdmin.HandleAdminInitialiseKey. rewrite D. cbn [obind deref].
      destruct (rt_GatewayAdminInitialiseKeyResponse version supported sha256 true) as (b & E & _ & B). rewrite E. cbn [obind].
      destruct (finish_can (with_key (n_gw n) id (Some k) v) k b eq_refl C) as (s & F & O). rewrite F. cbn [obind after wrote]. exists (set_sig b s). split; [reflexivity|]. split; [exact O|exact B].
    Qed.
    Lemma api_key_taken n m id k v n' ans : DecodeGatewayAdminInitialiseKeyRequest sha256 m = Ret (OkR (id, Some k, Some v)) -> api n m = Ret (n', ans) ->
      n' = GNode (with_key (n_gw n) id (Some k) v) (n_reps n) (n_groups n).
    Proof using AC GP.
      intros D H. rewrite (api_key _ _ _ _ _ D) in H. step H. apply ret_inj in H. injection H as <- _. f_equal.
      apply key_set in E. destruct E as [(_ & D')|(id' & k' & v' & D' & ->)]; rewrite D in D'; [discriminate D'|]. apply ret_inj in D'. injection D' as <- <- <-. reflexivity.
    Qed.

    Lemma api_key2 n m id k v w ap t : DecodeGatewayAdminInitialiseKeyRequestV2 sha256 m = Ret (OkR (id, Some k, Some v, w, ap, t)) ->
      api n m = (let* s := GatewayAdmin.HandleAdminInitialiseKeyV2 version supported sha256 ec_sign blake wallet (n_gw n) m in Ret (GNode (after s) (n_reps n) (n_groups n), wrote s))%go.
    Proof using AC GP. intros D. unfold AdminSpec.gateway_api. rewrite (admin_route AtGateway KGatewayAdminInitialiseKeyRequestV2); [reflexivity|discriminate|tagged D|reflexivity]. Qed.
    Lemma api_key2_served n m id k v w ap t addr : can_sign ec_sign blake k -> wallet w = Some addr -> DecodeGatewayAdminInitialiseKeyRequestV2 sha256 m = Ret (OkR (id, Some k, Some v, w, ap, t)) ->
      exists r, api n m = Ret (GNode (with_mgr (with_key (n_gw n) id (Some k) v) (Some (NewMgr addr))) (n_reps n) (n_groups n), [Json r]) /\ of_key k r /\
        DecodeGatewayAdminInitialiseKeyResponse sha256 r = Ret (OkR true).
    Proof using AC GP Law.
      intros C W D. rewrite (api_key2 _ _ _ _ _ _ _ _ D). unfold GatewayAdmin.HandleAdminInitialiseKeyV2. rewrite D. cbn [obind deref]. rewrite W.
      destruct (rt_GatewayAdminInitialiseKeyResponse version supported sha256 true) as (b & E & _ & B). rewrite E. cbn [obind].
      destruct (finish_can (with_mgr (with_key (n_gw n) id (Some k) v) (Some (NewMgr addr))) k b eq_refl C) as (s & F & O). rewrite F. cbn [obind after wrote]. exists (set_sig b s). split; [reflexivity|]. split; [exact O|exact B].
    Qed.
    Lemma api_key2_taken n m id k v w ap t n' ans : DecodeGatewayAdminInitialiseKeyRequestV2 sha256 m = Ret (OkR (id, Some k, Some v, w, ap, t)) -> api n m = Ret (n', ans) ->
      n' = GNode (with_mgr (with_key (n_gw n) id (Some k) v) (option_map NewMgr (wallet w))) (n_reps n) (n_groups n) /\ (wallet w = None -> ans = [HttpError 400]).
    Proof using AC GP.
      intros D H. rewrite (api_key2 _ _ _ _ _ _ _ _ D) in H. step H. apply ret_inj in H. injection H as <- <-.
      apply key_v2_set in E. destruct E as [(_ & D')|(id' & k' & v' & w' & ap' & t' & D' & A & W)]; rewrite D in D'; [discriminate D'|]. apply ret_inj in D'. injection D' as <- <- <- <- <- <-.
      rewrite A. split; [reflexivity|exact W].
    Qed.

    Lemma api_refresh n m b : DecodeGatewayAdminForceRefreshRequest sha256 m = Ret (OkR b) ->
      api n m = (let* s := GatewayAdmin.HandleAdminForceRefresh version supported sha256 ec_sign blake e (n_gw n) m in Ret (GNode (after s) (n_reps n) (n_groups n), wrote s))%go.
    Proof using AC GP. intros D. unfold AdminSpec.gateway_api. rewrite (admin_route AtGateway KGatewayAdminForceRefreshRequest); [reflexivity|discriminate|tagged D|reflexivity]. Qed.
    Lemma api_refresh_served n m k rg : g_key (n_gw n) = Some k -> can_sign ec_sign blake k -> Refresh info (g_reg (n_gw n)) (e_gateways e 0) (e_providers e 0) = Ret rg ->
      DecodeGatewayAdminForceRefreshRequest sha256 m = Ret (OkR true) ->
      exists r, api n m = Ret (GNode (with_reg (n_gw n) rg) (n_reps n) (n_groups n), [Json r]) /\ of_key k r /\ DecodeGatewayAdminForceRefreshResponse sha256 r = Ret (OkR true).
    Proof using AC GP Law.
      intros K C R D. rewrite (api_refresh _ _ _ D). unfold GatewayAdmin.HandleAdminForceRefresh. rewrite K, D. cbn [obind]. rewrite R. cbn [obind].
      destruct (rt_GatewayAdminForceRefreshResponse version supported sha256 true) as (b & E & _ & B). rewrite E. cbn [obind].
      destruct (finish_can (with_reg (n_gw n) rg) k b K C) as (s & F & O). rewrite F. cbn [obind after wrote]. exists (set_sig b s). split; [reflexivity|]. split; [exact O|exact B].
    Qed.

    Lemma api_list n m b : DecodeGatewayAdminListDHTOfferRequest sha256 m = Ret (OkR b) ->
      api n m = (let* x := GatewayAdmin.HandleAdminListDHT version supported sha256 ec_sign blake order (n_gw n) m in Ret (GNode (after (fst x)) (n_reps n) (n_groups n), wrote (fst x)))%go.
    Proof using AC GP. intros D. unfold AdminSpec.gateway_api. rewrite (admin_route AtGateway KGatewayAdminListDHTOfferRequest); [reflexivity|discriminate|tagged D|reflexivity]. Qed.

    Lemma api_get_rep n m c : DecodeGatewayAdminGetReputationRequest sha256 m = Ret (OkR c) ->
      api n m = (let* y := HandleGetReputation version supported sha256 ec_sign blake (g_key (n_gw n)) (g_ver (n_gw n)) (n_reps n) m in Ret (n, [y]))%go.
    Proof using AC GP. intros D. unfold AdminSpec.gateway_api. rewrite (admin_route AtGateway KGatewayAdminGetReputationRequest); [reflexivity|discriminate|tagged D|reflexivity]. Qed.
    Lemma api_set_rep n m c : DecodeGatewayAdminSetReputationRequest sha256 m = Ret (OkR c) ->
      api n m = (let* y := HandleSetReputation version supported sha256 ec_sign blake (g_key (n_gw n)) (g_ver (n_gw n)) (n_reps n) m in Ret (GNode (n_gw n) (snd y) (n_groups n), [fst y]))%go.
    Proof using AC GP. intros D. unfold AdminSpec.gateway_api. rewrite (admin_route AtGateway KGatewayAdminSetReputationRequest); [reflexivity|discriminate|tagged D|reflexivity]. Qed.
    Lemma api_support n m ids : DecodeUpdateGatewayGroupCIDOfferSupportRequest sha256 m = Ret (OkR ids) ->
      api n m = (let* x := GatewayAdmin.HandleAdminSupport version supported sha256 ec_sign blake order (n_gw n) m in
          let '(s, ids, _) := x in Ret (GNode (after s) (n_reps n) (match ids with Some l => l | None => n_groups n end), wrote s))%go.
    Proof using AC GP. intros D. unfold AdminSpec.gateway_api. rewrite (admin_route AtGateway KUpdateGatewayGroupCIDOfferSupportRequest); [reflexivity|discriminate|tagged D|reflexivity]. Qed.
    Lemma api_support_never n m id ps n' r : DecodeUpdateGatewayGroupCIDOfferSupportRequest sha256 m = Ret (OkR (id, ps)) -> api n m = Ret (n', [Json r]) ->
      n_groups n' = ps /\ DecodeUpdateGatewayGroupCIDOfferSupportResponse sha256 r = Ret ErrR.
    Proof using AC GP.
      intros D H. rewrite (api_support _ _ _ D) in H. step H. destruct v as [[s o] st]. apply ret_inj in H. injection H as <- W. cbn [n_groups].
      split; [|refine (proj2 (support_answer version supported sha256 ec_sign blake order (n_gw n) m (s, o, st) r E _)); cbn [fst]; rewrite W; left; reflexivity].
      unfold GatewayAdmin.HandleAdminSupport in E. rewrite D in E. cbn [obind] in E. step E. step E. destruct v0; [apply ret_inj in E; injection E as _ <- _; reflexivity|].
      step E. apply ret_inj in E. injection E as _ <- _. reflexivity.
    Qed.
  End gw.

  (** ** The libraries with a gateway *)
  Section with_gw.
    Variable e : env.
    Variable order : list (gostring * info) -> list (gostring * info).
    Variable wallet : gostring -> option gostring.
    Variable http : gostring -> message -> option message.
    Local Notation api := (gateway_api e order wallet).
    Local Notation authority := (authority ec_sign blake).
    Local Notation usable := (usable ec_sign blake).
    Local Notation registered_with := (registered_with pub_of).
    Local Notation use := (use version supported sha256 pub_of ec_sign ec_verify blake http).

    Lemma bare_can k : can_sign ec_sign blake k -> can_sign ec_sign blake (KeyPair (k_priv k) None (k_alg k)).
    Proof using. intros (A & B). split; [exact A|exact B]. Qed.

    Lemma init_served n a node k v id : authority a -> usable k -> uint32 v -> registered_with node k -> NewNodeIDFromHexString (r_id node) = OkR id -> reaches http node (api n) ->
      exists m r, InitialiseGateway version supported sha256 pub_of ec_sign ec_verify blake http a node (Some k) (Some v) = Ret (true, with_node a node, [(r_admin_ap node, m)]) /\
        api n m = Ret (GNode (with_key (n_gw n) (Some id) (Some (KeyPair (k_priv k) None (k_alg k))) v) (n_reps n) (n_groups n), [Json r]).
    Proof using AC GP Law.
      intros Au ((Al & p & P & L) & C) U Re I Rc. destruct (rt_GatewayAdminInitialiseKeyRequest version supported sha256 id p v (hex_id32 _ _ I) L U) as (req & Q & _ & D).
      assert (D' : forall s, DecodeGatewayAdminInitialiseKeyRequest sha256 (set_sig req s) = Ret (OkR (Some id, Some (KeyPair (k_priv k) None (k_alg k)), Some v))) by (intros s; rewrite P, Al; exact D).
      assert (En : for_node node (fun id => EncodeGatewayAdminInitialiseKeyRequest version supported id (Some k) (Some v)) = Ret (OkR req)).
      { unfold for_node. rewrite I. unfold EncodeGatewayAdminInitialiseKeyRequest in *. cbn [deref obind] in *. rewrite (encode_private k p Al P). unfold plainly. rewrite Q. reflexivity. }
      destruct (confirmed_served pub_of ec_sign ec_verify blake http node k a _ req (DecodeGatewayAdminInitialiseKeyResponse sha256) Law Au Re En) as (s & E).
      { intros s. destruct (api_key_served e order wallet n (set_sig req s) _ _ _ (bare_can k C) (D' s)) as (r & A & O & B). exists r. rewrite (Rc (set_sig req s)), A.
        split; [reflexivity|]. split; [exact (of_key_same _ _ _ (KeyPair (k_priv k) None (k_alg k)) k r eq_refl O)|exact B]. }
      destruct (api_key_served e order wallet n (set_sig req s) _ _ _ (bare_can k C) (D' s)) as (r & A & _ & _).
      exists (set_sig req s), r. split; [|exact A]. unfold InitialiseGateway, put_in_use, GwRequestInitialiseKey. rewrite E. reflexivity.
    Qed.
    Lemma init2_served n a node k v w ap t id addr : authority a -> usable k -> uint32 v -> registered_with node k -> NewNodeIDFromHexString (r_id node) = OkR id -> wallet w = Some addr -> reaches http node (api n) ->
      exists m r, InitialiseGatewayV2 version supported sha256 pub_of ec_sign ec_verify blake http a node (Some k) (Some v) w ap t = Ret (true, with_node a node, [(r_admin_ap node, m)]) /\
        api n m = Ret (GNode (with_mgr (with_key (n_gw n) (Some id) (Some (KeyPair (k_priv k) None (k_alg k))) v) (Some (NewMgr addr))) (n_reps n) (n_groups n), [Json r]).
    Proof using AC GP Law.
      intros Au ((Al & p & P & L) & C) U Re I W Rc. destruct (rt_GatewayAdminInitialiseKeyRequestV2 version supported sha256 id p v w ap t (hex_id32 _ _ I) L U) as (req & Q & _ & D).
      assert (D' : forall s, DecodeGatewayAdminInitialiseKeyRequestV2 sha256 (set_sig req s) = Ret (OkR (Some id, Some (KeyPair (k_priv k) None (k_alg k)), Some v, w, ap, t))) by (intros s; rewrite P, Al; exact D).
      assert (En : for_node node (fun id => EncodeGatewayAdminInitialiseKeyRequestV2 version supported id (Some k) (Some v) w ap t) = Ret (OkR req)).
      { unfold for_node. rewrite I. unfold EncodeGatewayAdminInitialiseKeyRequestV2 in *. cbn [deref obind] in *. rewrite (encode_private k p Al P). unfold plainly. rewrite Q. reflexivity. }
      destruct (confirmed_served pub_of ec_sign ec_verify blake http node k a _ req (DecodeGatewayAdminInitialiseKeyResponse sha256) Law Au Re En) as (s & E).
      { intros s. destruct (api_key2_served e order wallet n (set_sig req s) _ _ _ _ _ _ _ (bare_can k C) W (D' s)) as (r & A & O & B). exists r. rewrite (Rc (set_sig req s)), A.
        split; [reflexivity|]. split; [exact (of_key_same _ _ _ (KeyPair (k_priv k) None (k_alg k)) k r eq_refl O)|exact B]. }
      destruct (api_key2_served e order wallet n (set_sig req s) _ _ _ _ _ _ _ (bare_can k C) W (D' s)) as (r & A & _ & _).
      exists (set_sig req s), r. split; [|exact A]. unfold InitialiseGatewayV2, put_in_use, GwRequestInitialiseKeyV2. rewrite E. reflexivity.
    Qed.

    (** A call that is confirmed by the gateway, or only sent to it. *)
    Lemma asks_sig x m s : asks sha256 x m -> asks sha256 x (set_sig m s).
    Proof using. destruct x; cbn [asks]; exact (fun H => H). Qed.
    Lemma init_taken n a node k v ok a' out p m n' ans : use a (GInit node k v) = Ret (ok, a', out) -> in_range (GInit node k v) -> In (p, m) out -> api n m = Ret (n', ans) ->
      exists id kk vv, NewNodeIDFromHexString (r_id node) = OkR id /\ k = Some kk /\ v = Some vv /\
        n' = GNode (with_key (n_gw n) (Some id) (Some (KeyPair (k_priv kk) None (k_alg kk))) vv) (n_reps n) (n_groups n).
    Proof using AC GP.
      intros H R I A. destruct (use_inv _ _ _ _ _ _ _ _ _ _ _ _ _ H) as (S & _). destruct S as [(-> & _)|(nd & ka & va & req & s & pk & T & _ & _ & _ & As & _ & O & _)]; [destruct I|].
      subst out. destruct I as [I|[]]. injection I as <- <-. pose proof (asks_sig _ _ s (As R)) as D. destruct D as (id & kk & vv & N & K & V & D).
      exists id, kk, vv. split; [exact N|]. split; [exact K|]. split; [exact V|]. exact (api_key_taken _ _ _ _ _ _ _ _ _ _ D A).
    Qed.
    Lemma init2_taken n a node k v w ap t ok a' out p m n' ans : use a (GInitV2 node k v w ap t) = Ret (ok, a', out) -> in_range (GInitV2 node k v w ap t) -> In (p, m) out -> api n m = Ret (n', ans) ->
      exists id kk vv, NewNodeIDFromHexString (r_id node) = OkR id /\ k = Some kk /\ v = Some vv /\
        n' = GNode (with_mgr (with_key (n_gw n) (Some id) (Some (KeyPair (k_priv kk) None (k_alg kk))) vv) (option_map NewMgr (wallet w))) (n_reps n) (n_groups n) /\
        (wallet w = None -> ans = [HttpError 400]).
    Proof using AC GP.
      intros H R I A. destruct (use_inv _ _ _ _ _ _ _ _ _ _ _ _ _ H) as (S & _). destruct S as [(-> & _)|(nd & ka & va & req & s & pk & T & _ & _ & _ & As & _ & O & _)]; [destruct I|].
      subst out. destruct I as [I|[]]. injection I as <- <-. pose proof (asks_sig _ _ s (As R)) as D. destruct D as (id & kk & vv & N & K & V & D).
      exists id, kk, vv. split; [exact N|]. split; [exact K|]. split; [exact V|]. exact (api_key2_taken _ _ _ _ _ _ _ _ _ _ _ _ _ D A).
    Qed.

    Lemma support_never n a node ps ok a' out : use a (GSupport node ps) = Ret (ok, a', out) -> Forall id32 ps -> reaches http node (api n) ->
      ok = false /\ a' = a /\ forall p m n' r, In (p, m) out -> api n m = Ret (n', [Json r]) -> n_groups n' = ps.
    Proof using AC GP.
      intros H R Rc. destruct (use_inv _ _ _ _ _ _ _ _ _ _ _ _ _ H) as (S & A'). destruct S as [(-> & ->)|(nd & ka & va & req & s & pk & T & _ & _ & _ & As & _ & O & Ok)].
      { split; [reflexivity|]. split; [exact A'|]. intros p m n' r []. }
      injection T as <-. pose proof (asks_sig _ _ s (As R)) as D. destruct D as (id & N & D).
      assert (F : ok = false).
      { destruct ok; [|reflexivity]. destruct (Ok eq_refl) as (r & X & _ & Cf). rewrite (Rc (set_sig req s)) in X. apply received_json in X. destruct X as (n' & X).
        destruct (api_support_never _ _ _ _ _ _ _ _ _ D X) as (_ & Y). cbn [confirms] in Cf. rewrite Y in Cf. discriminate Cf. }
      subst ok. split; [reflexivity|]. split; [exact A'|]. intros p m n' r I X. subst out. destruct I as [I|[]]. injection I as <- <-. exact (proj1 (api_support_never _ _ _ _ _ _ _ _ _ D X)).
    Qed.

    Lemma refresh_served n a i node k rg : authority a -> aget bytes_eqb (ad_nodes a) (ToString i) = Some node -> g_key (n_gw n) = Some k -> can_sign ec_sign blake k -> registered_with node k ->
      Refresh info (g_reg (n_gw n)) (e_gateways e 0) (e_providers e 0) = Ret rg -> reaches http node (api n) ->
      exists m r, GwForceUpdate version supported sha256 pub_of ec_sign ec_verify blake http a (Some i) = Ret (true, [(r_admin_ap node, m)]) /\
        api n m = Ret (GNode (with_reg (n_gw n) rg) (n_reps n) (n_groups n), [Json r]).
    Proof using AC GP Law.
      intros Au Us K C Re R Rc. destruct (rt_GatewayAdminForceRefreshRequest version supported sha256 true) as (req & Q & _ & D).
      assert (Ap : forall s, exists r, api n (set_sig req s) = Ret (GNode (with_reg (n_gw n) rg) (n_reps n) (n_groups n), [Json r]) /\ of_key k r /\ DecodeGatewayAdminForceRefreshResponse sha256 r = Ret (OkR true)).
      { intros s. exact (api_refresh_served e order wallet n (set_sig req s) k rg K C R D). }
      destruct (confirmed_served pub_of ec_sign ec_verify blake http node k a (plainly (EncodeGatewayAdminForceRefreshRequest version supported true)) req (DecodeGatewayAdminForceRefreshResponse sha256) Law Au Re) as (s & E).
      { unfold plainly. rewrite Q. reflexivity. }
      { intros s. destruct (Ap s) as (r & A & O & B). exists r. rewrite (Rc (set_sig req s)), A. auto. }
      destruct (Ap s) as (r & A & _). exists (set_sig req s), r. split; [|exact A].
      unfold GwForceUpdate, with_used, id_text. cbn [deref obind]. rewrite Us. exact E.
    Qed.

    Lemma text_eq_refl (s : gostring) : bytes_eqb s s = true.
    Proof using. apply bytes_eqb_eq. reflexivity. Qed.
    Lemma set_served n a node k c v old seen : authority a -> g_key (n_gw n) = Some k -> can_sign ec_sign blake k -> registered_with node k -> id32 c -> int64 v ->
      GetClientReputation (n_reps n) (Some c) = Ret (old, seen) -> reaches http node (api n) ->
      exists m r reps', RequestSetReputation version supported sha256 pub_of ec_sign ec_verify blake http node (Some c) v (ad_key a) (ad_ver a) = Ret (seen, [(r_admin_ap node, m)]) /\
        api n m = Ret (GNode (n_gw n) reps' (n_groups n), [Json r]) /\
        GetClientReputation reps' (Some c) = Ret (if seen then v else 0, seen) /\
        (forall c', id32 c' -> c' <> c -> GetClientReputation reps' (Some c') = GetClientReputation (n_reps n) (Some c')).
    Proof using AC GP Law.
      intros Au K C Re Ic Iv G Rc. destruct (rt_GatewayAdminSetReputationRequest version supported sha256 c v Ic Iv) as (req & Q & _ & D).
      assert (Sg : forall r (_ : unit), exists y, SignAndWrite ec_sign blake (Some k) (g_ver (n_gw n)) 500 r = Ret (Json (set_sig r y)) /\ of_key k (set_sig r y)) by (intros r _; exact (write_can pub_of ec_sign ec_verify blake k _ 500 r Law C)).
      assert (Ap : forall s, exists r reps', api n (set_sig req s) = Ret (GNode (n_gw n) reps' (n_groups n), [Json r]) /\ of_key k r /\
        DecodeGatewayAdminSetReputationResponse sha256 r = Ret (OkR (Some c, if seen then v else 0, seen)) /\ GetClientReputation reps' (Some c) = Ret (if seen then v else 0, seen) /\
        (forall c', id32 c' -> c' <> c -> GetClientReputation reps' (Some c') = GetClientReputation (n_reps n) (Some c'))).
      { intros s. destruct (admin_set_seen_pf version supported sha256 ec_sign blake k (g_ver (n_gw n)) (n_reps n) c v req old seen C Ic Iv Q G) as (m & r' & E & B & X & Y).
        exists m, r'. rewrite (api_set_rep e order wallet n (set_sig req s) _ D), K.
        change (HandleSetReputation version supported sha256 ec_sign blake (Some k) (g_ver (n_gw n)) (n_reps n) (set_sig req s)) with (HandleSetReputation version supported sha256 ec_sign blake (Some k) (g_ver (n_gw n)) (n_reps n) req).
        rewrite E. cbn [obind fst snd]. split; [reflexivity|]. split; [|auto].
        unfold HandleSetReputation in E. rewrite D in E. cbn [obind] in E. step E. step E. step E. step E. apply ret_inj in E. injection E as -> _.
        match goal with Z : SignAndWrite _ _ _ _ _ ?b = Ret (Json m) |- _ => destruct (Sg b tt) as (y & F & O); rewrite F in Z; apply ret_inj in Z; injection Z as <-; exact O end. }
      destruct (contact_served pub_of ec_sign ec_verify blake http node k a (plainly (EncodeGatewayAdminSetReputationRequest version supported (Some c) v)) req Law Au Re) as (s & r & E & R).
      { unfold plainly. rewrite Q. reflexivity. }
      { intros s. destruct (Ap s) as (r & r' & A & O & _). exists r. rewrite (Rc (set_sig req s)), A. auto. }
      destruct (Ap s) as (r0 & reps' & A & O & B & X & Y). rewrite (Rc (set_sig req s)), A in R. injection R as <-. exists (set_sig req s), r0, reps'. split; [|auto].
      unfold RequestSetReputation. rewrite E. cbn [obind]. rewrite B. cbn [obind deref]. rewrite text_eq_refl. cbn [andb]. destruct seen; [rewrite Z.eqb_refl; reflexivity|reflexivity].
    Qed.
    Lemma get_served n a node k c v seen : authority a -> g_key (n_gw n) = Some k -> can_sign ec_sign blake k -> registered_with node k -> id32 c -> int64 v ->
      GetClientReputation (n_reps n) (Some c) = Ret (v, seen) -> reaches http node (api n) ->
      exists m r, RequestGetReputation version supported sha256 pub_of ec_sign ec_verify blake http node (Some c) (ad_key a) (ad_ver a) = Ret (if seen then OkR v else ErrR, [(r_admin_ap node, m)]) /\
        api n m = Ret (n, [Json r]).
    Proof using AC GP Law.
      intros Au K C Re Ic Iv G Rc. destruct (rt_GatewayAdminGetReputationRequest version supported sha256 c Ic) as (req & Q & _ & D).
      assert (Ap : forall s, exists r, api n (set_sig req s) = Ret (n, [Json r]) /\ of_key k r /\ DecodeGatewayAdminGetReputationResponse sha256 r = Ret (OkR (Some c, v, seen))).
      { intros s. destruct (admin_get_seen_pf version supported sha256 ec_sign blake k (g_ver (n_gw n)) (n_reps n) c req v seen C Ic Iv Q G) as (m & E & B).
        exists m. rewrite (api_get_rep e order wallet n (set_sig req s) _ D), K.
        change (HandleGetReputation version supported sha256 ec_sign blake (Some k) (g_ver (n_gw n)) (n_reps n) (set_sig req s)) with (HandleGetReputation version supported sha256 ec_sign blake (Some k) (g_ver (n_gw n)) (n_reps n) req).
        rewrite E. cbn [obind]. split; [reflexivity|]. split; [|exact B].
        unfold HandleGetReputation in E. rewrite D in E. cbn [obind] in E. rewrite G in E. cbn [obind fst snd] in E. step E.
        match goal with Z : SignAndWrite _ _ _ _ _ ?b = Ret (Json m) |- _ => destruct (write_can pub_of ec_sign ec_verify blake k (g_ver (n_gw n)) 500 b Law C) as (y & F & O); rewrite F in Z; apply ret_inj in Z; injection Z as <-; exact O end. }
      destruct (contact_served pub_of ec_sign ec_verify blake http node k a (plainly (EncodeGatewayAdminGetReputationRequest version supported (Some c))) req Law Au Re) as (s & r & E & R).
      { unfold plainly. rewrite Q. reflexivity. }
      { intros s. destruct (Ap s) as (r & A & O & _). exists r. rewrite (Rc (set_sig req s)), A. auto. }
      destruct (Ap s) as (r0 & A & O & B). rewrite (Rc (set_sig req s)), A in R. injection R as <-. exists (set_sig req s), r0. split; [|exact A].
      unfold RequestGetReputation. rewrite E. cbn [obind]. rewrite B. cbn [obind deref]. rewrite text_eq_refl. cbn [andb]. destruct seen; reflexivity.
    Qed.
  End with_gw.

  (** ** The libraries with a provider *)
  Section with_prov.
    Variable e : penv.
    Variable http : gostring -> message -> option message.
    Local Notation api := (provider_api e).
    Local Notation authority := (authority ec_sign blake).
    Local Notation usable := (usable ec_sign blake).
    Local Notation registered_with := (registered_with pub_of).
    Local Notation use := (use version supported sha256 pub_of ec_sign ec_verify blake http).
    Local Notation done := (fun o : outcome pserved => obind o (fun s => Ret (p_after s, p_wrote s))).

    Lemma papi_key p m id k v : DecodeProviderAdminInitialiseKeyRequest sha256 m = Ret (OkR (id, Some k, Some v)) ->
      api p m = done (Provider.HandleAdminInitialiseKey version supported sha256 ec_sign blake p m).
    Proof using AC GP. intros D. unfold AdminSpec.provider_api. rewrite (admin_route AtProvider KProviderAdminInitialiseKeyRequest); [reflexivity|discriminate|tagged D|reflexivity]. Qed.
    Lemma papi_key_served p m id k v : can_sign ec_sign blake k -> DecodeProviderAdminInitialiseKeyRequest sha256 m = Ret (OkR (id, Some k, Some v)) ->
      exists r, api p m = Ret (p_with_key p id (Some k) v, [Json r]) /\ of_key k r /\ DecodeProviderAdminInitialiseKeyResponse sha256 r = Ret (OkR true).
    Proof using AC GP Law.
      intros C D. rewrite (papi_key _ _ _ _ _ D). unfold Provider.HandleAdminInitialiseKey. rewrite D. cbn [obind deref].
      destruct (rt_ProviderAdminInitialiseKeyResponse version supported sha256 true) as (b & E & _ & B). rewrite E. cbn [obind].
      destruct (p_finish_can (p_with_key p id (Some k) v) k b eq_refl C) as (s & F & O). rewrite F. cbn [obind p_after p_wrote]. exists (set_sig b s). split; [reflexivity|]. split; [exact O|exact B].
    Qed.
    Lemma p_finish_after p response s : p_finish ec_sign blake p response = Ret s -> p_after s = p.
    Proof using. unfold p_finish. intros H. step H. apply ret_inj in H. subst s. reflexivity. Qed.
    Lemma papi_key_taken p m id k v p' ans : DecodeProviderAdminInitialiseKeyRequest sha256 m = Ret (OkR (id, Some k, Some v)) -> api p m = Ret (p', ans) -> p' = p_with_key p id (Some k) v.
    Proof using AC GP.
      intros D H. rewrite (papi_key _ _ _ _ _ D) in H. unfold Provider.HandleAdminInitialiseKey in H. rewrite D in H. cbn [obind deref] in H.
      step H. step E. apply ret_inj in H. injection H as <- _. exact (p_finish_after _ _ _ E).
    Qed.
    Lemma papi_key2 p m id k v w ap t : DecodeProviderAdminInitialiseKeyRequestV2 sha256 m = Ret (OkR (id, Some k, Some v, w, ap, t)) ->
      api p m = done (Provider.HandleAdminInitialiseKeyV2 version supported sha256 ec_sign blake e p m).
    Proof using AC GP. intros D. unfold AdminSpec.provider_api. rewrite (admin_route AtProvider KProviderAdminInitialiseKeyRequestV2); [reflexivity|discriminate|tagged D|reflexivity]. Qed.
    Lemma papi_key2_served p m id k v w ap t : pe_lotus e = true -> can_sign ec_sign blake k -> DecodeProviderAdminInitialiseKeyRequestV2 sha256 m = Ret (OkR (id, Some k, Some v, w, ap, t)) ->
      exists r, api p m = Ret (p_with_key p id (Some k) v, [Json r]) /\ of_key k r /\ DecodeProviderAdminInitialiseKeyResponse sha256 r = Ret (OkR true).
    Proof using AC GP Law.
      intros L C D. rewrite (papi_key2 _ _ _ _ _ _ _ _ D). unfold Provider.HandleAdminInitialiseKeyV2. rewrite D, L. cbn [obind deref negb].
      destruct (rt_ProviderAdminInitialiseKeyResponse version supported sha256 true) as (b & E & _ & B). rewrite E. cbn [obind].
      destruct (p_finish_can (p_with_key p id (Some k) v) k b eq_refl C) as (s & F & O). rewrite F. cbn [obind p_after p_wrote]. exists (set_sig b s). split; [reflexivity|]. split; [exact O|exact B].
    Qed.
    Lemma papi_key2_taken p m id k v w ap t p' ans : DecodeProviderAdminInitialiseKeyRequestV2 sha256 m = Ret (OkR (id, Some k, Some v, w, ap, t)) -> api p m = Ret (p', ans) ->
      p' = p_with_key p id (Some k) v /\ (pe_lotus e = false -> ans = [HttpError 400]).
    Proof using AC GP.
      intros D H. rewrite (papi_key2 _ _ _ _ _ _ _ _ D) in H. unfold Provider.HandleAdminInitialiseKeyV2 in H. rewrite D in H. cbn [obind deref] in H.
      destruct (pe_lotus e); cbn [negb] in H.
      - step H. step E. apply ret_inj in H. injection H as <- _. split; [exact (p_finish_after _ _ _ E)|discriminate].
      - apply ret_inj in H. injection H as <- <-. split; reflexivity.
    Qed.

    Lemma pinit_served p a node k v id : authority a -> usable k -> uint32 v -> registered_with node k -> NewNodeIDFromHexString (r_id node) = OkR id -> reaches http node (api p) ->
      exists m r, InitialiseProvider version supported sha256 pub_of ec_sign ec_verify blake http a node (Some k) (Some v) = Ret (true, with_node a node, [(r_admin_ap node, m)]) /\
        api p m = Ret (p_with_key p (Some id) (Some (KeyPair (k_priv k) None (k_alg k))) v, [Json r]).
    Proof using AC GP Law.
      intros Au ((Al & pk & P & L) & C) U Re I Rc. destruct (rt_ProviderAdminInitialiseKeyRequest version supported sha256 id pk v (hex_id32 _ _ I) L U) as (req & Q & _ & D).
      assert (D' : forall s, DecodeProviderAdminInitialiseKeyRequest sha256 (set_sig req s) = Ret (OkR (Some id, Some (KeyPair (k_priv k) None (k_alg k)), Some v))) by (intros s; rewrite P, Al; exact D).
      assert (En : for_node node (fun id => EncodeProviderAdminInitialiseKeyRequest version supported id (Some k) (Some v)) = Ret (OkR req)).
      { unfold for_node. rewrite I. unfold EncodeProviderAdminInitialiseKeyRequest in *. cbn [deref obind] in *. rewrite (encode_private k pk Al P). unfold plainly. rewrite Q. reflexivity. }
      destruct (confirmed_served pub_of ec_sign ec_verify blake http node k a _ req (DecodeProviderAdminInitialiseKeyResponse sha256) Law Au Re En) as (s & E).
      { intros s. destruct (papi_key_served p (set_sig req s) _ _ _ (bare_can k C) (D' s)) as (r & A & O & B). exists r. rewrite (Rc (set_sig req s)), A.
        split; [reflexivity|]. split; [exact (of_key_same _ _ _ (KeyPair (k_priv k) None (k_alg k)) k r eq_refl O)|exact B]. }
      destruct (papi_key_served p (set_sig req s) _ _ _ (bare_can k C) (D' s)) as (r & A & _ & _).
      exists (set_sig req s), r. split; [|exact A]. unfold InitialiseProvider, put_in_use, PvRequestInitialiseKey. rewrite E. reflexivity.
    Qed.
    Lemma pinit2_served p a node k v w ap t id : authority a -> usable k -> uint32 v -> registered_with node k -> NewNodeIDFromHexString (r_id node) = OkR id -> pe_lotus e = true -> reaches http node (api p) ->
      exists m r, InitialiseProviderV2 version supported sha256 pub_of ec_sign ec_verify blake http a node (Some k) (Some v) w ap t = Ret (true, with_node a node, [(r_admin_ap node, m)]) /\
        api p m = Ret (p_with_key p (Some id) (Some (KeyPair (k_priv k) None (k_alg k))) v, [Json r]).
    Proof using AC GP Law.
      intros Au ((Al & pk & P & L) & C) U Re I W Rc. destruct (rt_ProviderAdminInitialiseKeyRequestV2 version supported sha256 id pk v w ap t (hex_id32 _ _ I) L U) as (req & Q & _ & D).
      assert (D' : forall s, DecodeProviderAdminInitialiseKeyRequestV2 sha256 (set_sig req s) = Ret (OkR (Some id, Some (KeyPair (k_priv k) None (k_alg k)), Some v, w, ap, t))) by (intros s; rewrite P, Al; exact D).
      assert (En : for_node node (fun id => EncodeProviderAdminInitialiseKeyRequestV2 version supported id (Some k) (Some v) w ap t) = Ret (OkR req)).
      { unfold for_node. rewrite I. unfold EncodeProviderAdminInitialiseKeyRequestV2 in *. cbn [deref obind] in *. rewrite (encode_private k pk Al P). unfold plainly. rewrite Q. reflexivity. }
      destruct (confirmed_served pub_of ec_sign ec_verify blake http node k a _ req (DecodeProviderAdminInitialiseKeyResponse sha256) Law Au Re En) as (s & E).
      { intros s. destruct (papi_key2_served p (set_sig req s) _ _ _ _ _ _ W (bare_can k C) (D' s)) as (r & A & O & B). exists r. rewrite (Rc (set_sig req s)), A.
        split; [reflexivity|]. split; [exact (of_key_same _ _ _ (KeyPair (k_priv k) None (k_alg k)) k r eq_refl O)|exact B]. }
      destruct (papi_key2_served p (set_sig req s) _ _ _ _ _ _ W (bare_can k C) (D' s)) as (r & A & _ & _).
      exists (set_sig req s), r. split; [|exact A]. unfold InitialiseProviderV2, put_in_use, PvRequestInitialiseKeyV2. rewrite E. reflexivity.
    Qed.
    Lemma pinit_taken q a node k v ok a' out p m q' ans : use a (PInit node k v) = Ret (ok, a', out) -> in_range (PInit node k v) -> In (p, m) out -> api q m = Ret (q', ans) ->
      exists id kk vv, NewNodeIDFromHexString (r_id node) = OkR id /\ k = Some kk /\ v = Some vv /\ q' = p_with_key q (Some id) (Some (KeyPair (k_priv kk) None (k_alg kk))) vv.
    Proof using AC GP.
      intros H R I A. destruct (use_inv _ _ _ _ _ _ _ _ _ _ _ _ _ H) as (S & _). destruct S as [(-> & _)|(nd & ka & va & req & s & pk & T & _ & _ & _ & As & _ & O & _)]; [destruct I|].
      subst out. destruct I as [I|[]]. injection I as <- <-. pose proof (asks_sig _ _ s (As R)) as D. destruct D as (id & kk & vv & N & K & V & D).
      exists id, kk, vv. split; [exact N|]. split; [exact K|]. split; [exact V|]. exact (papi_key_taken _ _ _ _ _ _ _ D A).
    Qed.
    Lemma pinit2_taken q a node k v w ap t ok a' out p m q' ans : use a (PInitV2 node k v w ap t) = Ret (ok, a', out) -> in_range (PInitV2 node k v w ap t) -> In (p, m) out -> api q m = Ret (q', ans) ->
      exists id kk vv, NewNodeIDFromHexString (r_id node) = OkR id /\ k = Some kk /\ v = Some vv /\ q' = p_with_key q (Some id) (Some (KeyPair (k_priv kk) None (k_alg kk))) vv /\
        (pe_lotus e = false -> ans = [HttpError 400]).
    Proof using AC GP.
      intros H R I A. destruct (use_inv _ _ _ _ _ _ _ _ _ _ _ _ _ H) as (S & _). destruct S as [(-> & _)|(nd & ka & va & req & s & pk & T & _ & _ & _ & As & _ & O & _)]; [destruct I|].
      subst out. destruct I as [I|[]]. injection I as <- <-. pose proof (asks_sig _ _ s (As R)) as D. destruct D as (id & kk & vv & N & K & V & D).
      exists id, kk, vv. split; [exact N|]. split; [exact K|]. split; [exact V|]. exact (papi_key2_taken _ _ _ _ _ _ _ _ _ _ D A).
    Qed.

    Lemma papi_refresh p m b : DecodeProviderAdminForceRefreshRequest sha256 m = Ret (OkR b) -> api p m = done (Provider.HandleAdminForceRefresh version supported sha256 ec_sign blake e p m).
    Proof using AC GP. intros D. unfold AdminSpec.provider_api. rewrite (admin_route AtProvider KProviderAdminForceRefreshRequest); [reflexivity|discriminate|tagged D|reflexivity]. Qed.
    Lemma papi_refresh_served p m k rg : p_key p = Some k -> can_sign ec_sign blake k -> Refresh info (p_reg p) (pe_gateways e 0) (pe_providers e 0) = Ret rg ->
      DecodeProviderAdminForceRefreshRequest sha256 m = Ret (OkR true) ->
      exists r, api p m = Ret (p_with_reg p rg, [Json r]) /\ of_key k r /\ DecodeProviderAdminForceRefreshResponse sha256 r = Ret (OkR true).
    Proof using AC GP Law.
      intros K C R D. rewrite (papi_refresh _ _ _ D). unfold Provider.HandleAdminForceRefresh. rewrite K, D. cbn [obind]. rewrite R. cbn [obind].
      destruct (rt_ProviderAdminForceRefreshResponse version supported sha256 true) as (b & E & _ & B). rewrite E. cbn [obind].
      destruct (p_finish_can (p_with_reg p rg) k b K C) as (s & F & O). rewrite F. cbn [obind p_after p_wrote]. exists (set_sig b s). split; [reflexivity|]. split; [exact O|exact B].
    Qed.
    Lemma prefresh_served p a i node k rg : authority a -> aget bytes_eqb (ad_nodes a) (ToString i) = Some node -> p_key p = Some k -> can_sign ec_sign blake k -> registered_with node k ->
      Refresh info (p_reg p) (pe_gateways e 0) (pe_providers e 0) = Ret rg -> reaches http node (api p) ->
      exists m r, PvForceUpdate version supported sha256 pub_of ec_sign ec_verify blake http a (Some i) = Ret (true, [(r_admin_ap node, m)]) /\ api p m = Ret (p_with_reg p rg, [Json r]).
    Proof using AC GP Law.
      intros Au Us K C Re R Rc. destruct (rt_ProviderAdminForceRefreshRequest version supported sha256 true) as (req & Q & _ & D).
      assert (Ap : forall s, exists r, api p (set_sig req s) = Ret (p_with_reg p rg, [Json r]) /\ of_key k r /\ DecodeProviderAdminForceRefreshResponse sha256 r = Ret (OkR true)).
      { intros s. exact (papi_refresh_served p (set_sig req s) k rg K C R D). }
      destruct (confirmed_served pub_of ec_sign ec_verify blake http node k a (plainly (EncodeProviderAdminForceRefreshRequest version supported true)) req (DecodeProviderAdminForceRefreshResponse sha256) Law Au Re) as (s & E).
      { unfold plainly. rewrite Q. reflexivity. }
      { intros s. destruct (Ap s) as (r & A & O & B). exists r. rewrite (Rc (set_sig req s)), A. auto. }
      destruct (Ap s) as (r & A & _). exists (set_sig req s), r. split; [|exact A].
      unfold PvForceUpdate, with_used, id_text. cbn [deref obind]. rewrite Us. exact E.
    Qed.

    (** What is told published. *)
    Lemma papi_get p m ids : DecodeProviderAdminGetPublishedOfferRequest sha256 m = Ret (OkR ids) -> api p m = done (HandleAdminGetPublished version supported sha256 ec_sign blake e p m).
    Proof using AC GP. intros D. unfold AdminSpec.provider_api. rewrite (admin_route AtProvider KProviderAdminGetPublishedOfferRequest); [reflexivity|discriminate|tagged D|reflexivity]. Qed.
    Lemma get_offers_served p a i node k ids : authority a -> aget bytes_eqb (ad_nodes a) (ToString i) = Some node -> ready ec_sign blake p -> p_key p = Some k -> registered_with node k ->
      Forall id32 ids -> ids <> [] -> (forall id o, id32 id -> In o (published p id) -> wire_offer sha256 o) -> reaches http node (api p) ->
      exists m r, GetGroupCIDOffer version supported sha256 pub_of ec_sign ec_verify blake http a (Some i) ids =
          Ret (OkR (negb (is_nil (flat_map (published p) ids)), Some (flat_map (published p) ids)), [(r_admin_ap node, m)]) /\ api p m = Ret (p, [Json r]).
    Proof using AC GP Law.
      intros Au Us Rd K Re F Ne W Rc. destruct (rt_ProviderAdminGetPublishedOfferRequest version supported sha256 ids F) as (req & Q & _ & D).
      assert (Ap : forall s, exists r, api p (set_sig req s) = Ret (p, [Json r]) /\ of_key k r /\
        DecodeProviderAdminGetPublishedOfferResponse sha256 r = Ret (OkR (negb (is_nil (flat_map (published p) ids)), Some (flat_map (published p) ids)))).
      { intros s. destruct (get_published_total version supported sha256 ec_sign blake e p (set_sig req s) ids Rd Ne W D) as (r & H).
        destruct (get_published_pf version supported sha256 pub_of ec_sign ec_verify blake e p (set_sig req s) _ r ids Law Ne W D H eq_refl) as ((k' & K' & O) & B).
        exists r. rewrite (papi_get p (set_sig req s) ids D), H. cbn [obind p_after p_wrote]. split; [reflexivity|]. rewrite K in K'. injection K' as <-. split; [exact O|exact B]. }
      destruct (contact_served pub_of ec_sign ec_verify blake http node k a (plainly (EncodeProviderAdminGetPublishedOfferRequest version supported ids)) req Law Au Re) as (s & r & E & R).
      { unfold plainly. rewrite Q. reflexivity. }
      { intros s. destruct (Ap s) as (r & A & O & _). exists r. rewrite (Rc (set_sig req s)), A. auto. }
      destruct (Ap s) as (r0 & A & O & B). rewrite (Rc (set_sig req s)), A in R. injection R as <-. exists (set_sig req s), r0. split; [|exact A].
      unfold GetGroupCIDOffer, with_used, id_text. cbn [deref obind]. rewrite Us. unfold RequestGetPublishedOffer. rewrite E. cbn [obind]. rewrite B. reflexivity.
    Qed.

    (** Publishing. *)
    Lemma papi_group p m x : DecodeProviderAdminPublishGroupOfferRequest sha256 m = Ret (OkR x) ->
      api p m = done (HandleAdminPublishGroup version supported sha256 sha512_256 pub_of ec_sign ec_verify blake e p m).
    Proof using AC GP. intros D. unfold AdminSpec.provider_api. rewrite (admin_route AtProvider KProviderAdminPublishGroupOfferRequest); [reflexivity|discriminate|tagged D|reflexivity]. Qed.
    Lemma papi_dht p m x : DecodeProviderAdminPublishDHTOfferRequest sha256 m = Ret (OkR x) ->
      api p m = done (HandleAdminPublishDHT version supported sha256 sha512_256 pub_of ec_sign ec_verify blake e p m).
    Proof using AC GP. intros D. unfold AdminSpec.provider_api. rewrite (admin_route AtProvider KProviderAdminPublishDHTOfferRequest); [reflexivity|discriminate|tagged D|reflexivity]. Qed.
    Lemma published_by p a x k ok a' out : (exists id cids pr ex q, x = PPublishGroup id cids pr ex q /\ k = AdminPublishGroup) \/ (exists id cids pr ex q, x = PPublishDHT id cids pr ex q /\ k = AdminPublishDHT) ->
      use a x = Ret (ok, a', out) -> in_range x -> ok = true -> (forall node, target a x = Some node -> reaches http node (api p)) ->
      exists node m p' r sent, target a x = Some node /\ out = [(r_admin_ap node, m)] /\ asks sha256 x m /\
        pact version supported sha256 sha512_256 pub_of ec_sign ec_verify blake e p k m = Ret (p', [r], sent) /\ api p m = Ret (p', [Json r]).
    Proof using AC GP.
      intros X H R -> Rc. destruct (use_inv _ _ _ _ _ _ _ _ _ _ _ _ _ H) as (S & _). destruct S as [(_ & Z)|(node & ka & va & req & s & pk & T & _ & _ & _ & As & _ & O & Ok)]; [discriminate Z|].
      destruct (Ok eq_refl) as (r & Y & _ & _). rewrite (Rc node T (set_sig req s)) in Y. apply received_json in Y. destruct Y as (p' & Y).
      pose proof (asks_sig _ _ s (As R)) as D.
      exists node, (set_sig req s), p', r. destruct X as [(id & cids & pr & ex & q & -> & ->)|(id & cids & pr & ex & q & -> & ->)]; cbn [asks] in D.
      - rewrite (papi_group _ _ _ D) in Y. step Y. apply ret_inj in Y. injection Y as <- W. exists (p_sent v). split; [exact T|]. split; [exact O|]. split; [exact D|].
        split; [cbn [pact]; rewrite E; cbn [obind]; rewrite W; reflexivity|]. rewrite (papi_group _ _ _ D), E. cbn [obind]. rewrite W. reflexivity.
      - rewrite (papi_dht _ _ _ D) in Y. step Y. apply ret_inj in Y. injection Y as <- W. exists (p_sent v). split; [exact T|]. split; [exact O|]. split; [exact D|].
        split; [cbn [pact]; rewrite E; cbn [obind]; rewrite W; reflexivity|]. rewrite (papi_dht _ _ _ D), E. cbn [obind]. rewrite W. reflexivity.
    Qed.
  End with_prov.
End nodes.
