(** * C156-C157: from the provider to the client

    Provider, gateways and client together: what is published is found. *)
From Coq Require Import String List ZArith Bool Lia Sorting.Sorted.
From Coq Require Import Init.Byte.
From Verif Require Import Base BaseProofs Ids IdsProofs Crypto Message Offer OfferProofs Schema Messages MessagesSpec WireSpec Payment Ring RingSpec Register RegisterSpec Provider ProviderSpec OfferStoreSpec SqlOffers SqlOffersSpec Json Rest
  Gateway GatewaySpec GatewayOfferSpec Client ClientSpec RetrievalSpec DhtSpec MarketSpec MarketProofs PropertiesMerkle PropertiesCrypto PropertiesSql ToyGateway ToyProvider ToyClient PropertiesRetrieval PropertiesDht.
From Verif Require AdminSpec PropertiesProvider PropertiesProviderListing OfferStoreProofs RegisterProofs.
Import ListNotations.
Open Scope Z_scope.

Section properties.
  Variable version : Z.
  Variable supported : list Z.
  Variable sha256 sha512_256 : bytes -> bytes.
  Variable pub_of : bytes -> bytes.
  Variable ec_sign : bytes -> bytes -> option bytes.
  Variable ec_verify : bytes -> bytes -> bytes -> bool.
  Variable blake : bytes -> bytes.
  Variable verify : gostring -> voucher -> option bytes -> bool.
  Variable voucher_text : voucher -> gostring.
  Variable voucher_of : gostring -> option voucher.
  Variable is_address : gostring -> bool.
  Variable zone : Z.
  Variables BindAdminAPI BindRestAPI BindGatewayAPI BindProviderAPI : gostring.
  Variable rand_int : list draw -> Z.
  (** Signatures verify; the four interfaces have addresses of their own; hashes, random numbers and
      version numbers have their sizes. *)
  Hypothesis Law : ecdsa_correct pub_of ec_sign ec_verify.
  Hypothesis admin_rest : BindAdminAPI <> BindRestAPI.
  Hypothesis gateway_provider : BindGatewayAPI <> BindProviderAPI.
  Hypothesis sha256_len : forall x, length (sha256 x) = 32%nat.
  Hypothesis rand_int_64 : forall l, int64 (rand_int l).
  Hypothesis version_32 : int32 version.
  Hypothesis supported_32 : Forall int32 supported.
  Local Notation api := (client_api version supported sha256 sha512_256 pub_of ec_sign ec_verify blake verify voucher_text voucher_of is_address zone BindAdminAPI BindRestAPI BindGatewayAPI BindProviderAPI).
  Local Notation sapi := (supplier_api version supported sha256 sha512_256 pub_of ec_sign ec_verify blake BindAdminAPI BindRestAPI BindGatewayAPI BindProviderAPI).
  Local Notation outlet := (outlet version supported sha256 sha512_256 pub_of ec_sign ec_verify blake BindAdminAPI BindRestAPI BindGatewayAPI BindProviderAPI).
  Local Notation linked := (linked version supported sha256 sha512_256 pub_of ec_sign ec_verify blake verify voucher_of is_address zone BindAdminAPI BindRestAPI BindGatewayAPI BindProviderAPI).
  Local Notation lived := (ProviderSpec.lived version supported sha256 sha512_256 pub_of ec_sign ec_verify blake).
  Local Notation acceptable := (acceptable sha256 pub_of ec_verify blake).
  Local Notation new_in := (new_in sha512_256).
  Local Notation stocked := (GatewaySpec.stocked sha256 sha512_256).

  (** ** C156 *)

  (** A group offer an administrator orders and the provider confirms: a gateway that works, knows the provider and is known to
      it has the offer afterwards, and until it expires a client that asks this gateway for any content of the offer
      finds it and can believe it.  The offer must be new to the gateway and its numbers below 2^63. *)
  Theorem group_offer_found : forall reg ss s p' pid k gid i e g hist cids pr ex q,
    ProviderSpec.sized sha256 ss -> lived (NewProvider reg) ss p' ->
    In s ss -> s_kind s = AdminPublishGroup -> s_answers s <> [] ->
    p_id (s_before s) = Some pid -> id32 pid -> p_key (s_before s) = Some k -> can_sign ec_sign blake k ->
    DecodeProviderAdminPublishGroupOfferRequest sha256 (s_msg s) = Ret (OkR (cids, pr, ex, q)) -> pr < 2 ^ 63 -> q < 2 ^ 63 -> Z.of_nat (length cids) < 2 ^ 63 ->
    shuffle (pe_nodes (s_env s)) -> start info (p_reg (s_before s)) = true -> gatewayDiscv info (p_reg (s_before s)) = true ->
    aget bytes_eqb (gatewaysMap info (p_reg (s_before s))) (ToString gid) = Some i -> n_id i = ToString gid -> id32 gid ->
    outlet (s_env s) pid k gid e g hist ->
    exists o, ordered_group sha256 pub_of ec_verify blake s o /\
      (new_in hist o -> exists request r g', In (gid, request, Some r) (s_sent s) /\ sapi e g request = Ret (g', Reply r) /\ taken_up g g' /\
        stocked g' (hist ++ [(o, e_fates e 0)]) /\
        forall ce c gw e2 cid gid2, In cid cids -> represents pub_of gw g' -> reaches (ce_http ce 0) gw (api e2 g') ->
          aget bytes_eqb (c_active c) (ToString gid2) = Some gw -> shuffle (e_rows e2) -> int64 (ce_now ce + c_ttl c) -> unix e2 <= ce_now ce + c_ttl c ->
          keyed c -> client_has_provider pub_of c pid k -> SqlOffers.fresh zone (e_now e2) ex = true ->
          exists found c' sent, FindOffersStandardDiscovery version supported sha256 pub_of ec_verify blake rand_int ce c (Some cid) (Some gid2) = Ret (OkR found, c', sent) /\
            In (GenerateSubCIDOffer o cid) found /\ acceptable c (GenerateSubCIDOffer o cid)).
  Proof using Law admin_rest gateway_provider sha256_len rand_int_64 version_32 supported_32. intros. eapply group_found_pf; eassumption. Qed.

  (** ** C157 *)

  (** An offer for one content that goes to the 16 nearest gateways: if these work, know the provider and are known to it, then
      until the offer expires a client asking any gateway with the same view of the network for up to 14 of
      the nearest gets the offer from every one of these that answers.  [at_first] are the gateways before the offer
      comes, [after] those afterwards. *)
  Theorem dht_offer_found : forall reg ss s p' pid k cid pr ex q members at_first,
    ProviderSpec.sized sha256 ss -> lived (NewProvider reg) ss p' ->
    In s ss -> s_kind s = AdminPublishDHT -> s_answers s <> [] ->
    p_id (s_before s) = Some pid -> id32 pid -> p_key (s_before s) = Some k -> can_sign ec_sign blake k ->
    DecodeProviderAdminPublishDHTOfferRequest sha256 (s_msg s) = Ret (OkR ([cid], Some [pr], Some [ex], Some [q])) -> pr < 2 ^ 63 -> q < 2 ^ 63 ->
    managed info (p_reg (s_before s)) -> self_named (p_reg (s_before s)) -> knows info (p_reg (s_before s)) members -> (16 <= length members)%nat ->
    (forall id, id32 id -> near_one members (ToString cid) 16 (ToString id) -> outlet (s_env s) pid k id (at_env (at_first id)) (at_state (at_first id)) (at_hist (at_first id))) ->
    exists o, ordered_batch sha256 pub_of ec_verify blake s [o] /\
      forall after, (forall id, id32 id -> near_one members (ToString cid) 16 (ToString id) -> new_in (at_hist (at_first id)) o) ->
      (forall id request r, In (id, request, r) (s_sent s) -> exists a, sapi (at_env (at_first id)) (at_state (at_first id)) request = Ret (after id, a)) ->
      forall ce c gw e g gid num i met, represents pub_of gw g -> ready ec_sign blake g -> reaches (ce_http ce 0) gw (api e g) ->
        aget bytes_eqb (c_active c) (ToString gid) = Some gw -> g_id g = Some i ->
        managed info (g_reg g) -> self_named (g_reg g) -> knows info (g_reg g) members -> harmless info (g_reg g) cid num (Some i) -> 1 <= num <= 14 ->
        int64 (ce_now ce + c_ttl c) -> unix e <= ce_now ce + c_ttl c -> int64 (unix e + 10) -> keyed c -> client_has_provider pub_of c pid k ->
        (forall id, id32 id -> near_one (without (ToString i) members) (ToString cid) num (ToString id) ->
           match met id with
           | Some (e', k') => linked e g id e' (after id) k' /\ client_lists pub_of c id k' /\ SqlOffers.fresh zone (e_now e') ex = true
           | None => silent e id end) ->
        exists ids res c' sent, FindOffersDHTDiscovery version supported sha256 pub_of ec_verify blake rand_int ce c (Some cid) (Some gid) num = Ret (OkR res, c', sent) /\
          closest_ok (without (ToString i) members) (ToString cid) num (map ToString ids) /\
          forall id, In id ids -> match met id with
            | Some _ => exists l, aget bytes_eqb res (ToString id) = Some l /\ In (GenerateSubCIDOffer o cid) l
            | None => aget bytes_eqb res (ToString id) = None end.
  Proof using Law admin_rest gateway_provider sha256_len rand_int_64 version_32 supported_32. intros. eapply dht_found_pf; eassumption. Qed.
End properties.
Print Assumptions group_offer_found.
Print Assumptions dht_offer_found.

(** ** Provider 70, gateway 10, client 99 *)

Definition toy_supplier_api (e : env) (g : gateway) (m : message) :=
  supplier_api 1 [1] toy_hash toy_hash toy_pub toy_sign PropertiesCrypto.toy_verify toy_blake (gs "9013") (gs "9011") (gs "9012") (gs "9014") e g m.
(** Second [t]; everybody can be reached. *)
Definition market_penv (t : Z) (gws : bytes -> gateway) : penv :=
  PEnv (t * 1000000000) (fun x => x) (fun x => x) (fun x => x) (fun _ => None) (fun _ => None) (fun _ _ => true)
    (fun _ id m => heard (toy_supplier_api toy_env (gws id) m)) true.
Definition group_requests : list (penv * provider_kind * message) := [(market_penv 40 toy_gw_at, AdminInitialiseKey, init_req 70 7); (market_penv 41 toy_gw_at, AdminPublishGroup, pub_group_req [1; 2] 10 100)].
Definition group_life := toy_plife group_requests.
Definition group_sent : list exchange := Eval vm_compute in flat_map s_sent (steps_of group_life).
(** A gateway after what was sent to it. *)
Definition served_by (gws : bytes -> gateway) (sent : list exchange) (id : bytes) : gateway :=
  match find (fun x => bytes_eqb (fst (fst x)) id) sent with
  | Some (_, m, _) => match toy_supplier_api toy_env (gws id) m with Ret (g', _) => g' | _ => gws id end
  | None => gws id
  end.
Definition shop10 : gateway := Eval vm_compute in served_by toy_gw_at group_sent (idn 10).
Example group_ex : map (fun x => be_val (fst (fst x))) group_sent = [10; 20; 30] /\
  told (t_Standard (shop_net (fun _ => shop10) (fun _ => shop_env) opens) active 2 10) = Some (Some [10], [], 1%nat).
Proof. vm_compute. repeat split. Qed.

(** The hypotheses hold. *)
Lemma toy_outlet pe id : id32 id -> (forall n, pe_conn pe n id = true) -> (forall n m, pe_net pe n id m = heard (toy_supplier_api toy_env (toy_gw_at id) m)) ->
  outlet 1 [1] toy_hash toy_hash toy_pub toy_sign PropertiesCrypto.toy_verify toy_blake (gs "9013") (gs "9011") (gs "9012") (gs "9014") pe (idn 70) (toy_key 7) id toy_env (toy_gw_at id) [].
Proof.
  intros H C N. split; [exact C|]. split; [exact N|].
  split. { exists id, (toy_key (be_val id / 10)), (NewMgr (gs "gw")). split; [reflexivity|]. split; [exact H|]. split; [reflexivity|]. split; [apply PropertiesProvider.toy_signs|reflexivity]. }
  split. { split; [reflexivity|]. split; [reflexivity|]. exists (toy_info 70 7 (gs "addr7")), (KeyPair None (Some (toy_pub (idn 7))) x01). split; [vm_compute; reflexivity|]. split; [vm_compute; reflexivity|apply toy_matches]. }
  split; [reflexivity|]. split; [split; [split; [intros ? ? []|intros ? ? ? ? []]|reflexivity]|]. split; intros ? ? [].
Qed.
(** The requests of a computed life. *)
Lemma plife_step reg0 l : forall p ss p' n s e k m, plife 1 [1] toy_hash toy_hash toy_pub toy_sign PropertiesCrypto.toy_verify toy_blake p
    (map (fun x => (reg0, fst (fst x), snd (fst x), snd x)) l) = Ret (ss, p') -> nth_error ss n = Some s -> nth_error l n = Some (e, k, m) ->
  s_env s = e /\ s_kind s = k /\ s_msg s = m /\ p_reg (s_before s) = reg0.
Proof.
  induction l as [|[[e0 k0] m0] t IH]; intros p ss p' n s e k m H Ns Nl; [destruct n; discriminate|]. cbn [map plife fst snd] in H.
  destruct (pact _ _ _ _ _ _ _ _ _ _ _ _) as [[[q answers] sent]| |]; try discriminate. cbn [obind] in H.
  destruct (plife _ _ _ _ _ _ _ _ _ _) as [[ts r]| |] eqn:F; try discriminate. cbn [obind] in H. apply ret_inj in H. injection H as <- <-.
  destruct n as [|n]; cbn [nth_error] in Ns, Nl; [|eapply IH; eassumption].
  injection Ns as <-. injection Nl as <- <- <-. repeat split; reflexivity.
Qed.
Lemma toy_plife_step l n s e k m : is_ret (toy_plife l) = true -> nth_error (steps_of (toy_plife l)) n = Some s -> nth_error l n = Some (e, k, m) ->
  ProviderSpec.lived 1 [1] toy_hash toy_hash toy_pub toy_sign PropertiesCrypto.toy_verify toy_blake (NewProvider toy_reg) (steps_of (toy_plife l)) (end_of (toy_plife l)) /\
  In s (steps_of (toy_plife l)) /\ s_env s = e /\ s_kind s = k /\ s_msg s = m /\ p_reg (s_before s) = toy_reg.
Proof.
  intros R N L. pose proof (ret_of _ R) as E. split; [exact (plife_lived _ _ _ _ _ _ _ _ _ _ _ _ E)|]. split; [exact (nth_error_In _ _ N)|].
  exact (plife_step toy_reg l _ _ _ n s e k m E N L).
Qed.

Example group_open : exists s,
  ProviderSpec.lived 1 [1] toy_hash toy_hash toy_pub toy_sign PropertiesCrypto.toy_verify toy_blake (NewProvider toy_reg) (steps_of group_life) (end_of group_life) /\
  In s (steps_of group_life) /\ s_kind s = AdminPublishGroup /\ length (s_answers s) = 1%nat /\ p_id (s_before s) = Some (idn 70) /\ p_key (s_before s) = Some (toy_key 7) /\
  p_reg (s_before s) = toy_reg /\ shuffle (pe_nodes (s_env s)) /\
  outlet 1 [1] toy_hash toy_hash toy_pub toy_sign PropertiesCrypto.toy_verify toy_blake (gs "9013") (gs "9011") (gs "9012") (gs "9014") (s_env s) (idn 70) (toy_key 7) (idn 10) toy_env (toy_gw_at (idn 10)) [] /\
  client_has_provider toy_pub active (idn 70) (toy_key 7).
Proof.
  assert (P : option_map (fun s => (p_id (s_before s), p_key (s_before s), length (s_answers s))) (nth_error (steps_of group_life) 1) = Some (Some (idn 70), Some (toy_key 7), 1%nat)) by (vm_compute; reflexivity).
  assert (R : is_ret group_life = true) by (vm_compute; reflexivity).
  destruct (nth_error (steps_of group_life) 1) as [s|] eqn:N; [|discriminate P]. cbn [option_map] in P.
  assert (P1 : p_id (s_before s) = Some (idn 70)) by congruence. assert (P2 : p_key (s_before s) = Some (toy_key 7)) by congruence. assert (P3 : length (s_answers s) = 1%nat) by congruence. clear P.
  destruct (toy_plife_step group_requests 1 s (market_penv 41 toy_gw_at) AdminPublishGroup (pub_group_req [1; 2] 10 100) R N eq_refl) as (L & I & E1 & E2 & _ & E4).
  exists s. split; [exact L|]. split; [exact I|]. split; [exact E2|]. split; [exact P3|]. split; [exact P1|]. split; [exact P2|]. split; [exact E4|]. rewrite E1.
  split; [intros l; apply Permutation.Permutation_refl|]. split; [apply toy_outlet; [reflexivity|reflexivity|intros n m; reflexivity]|].
  split; [reflexivity|]. split; [reflexivity|]. exists pvd70, (KeyPair None (Some (toy_pub (idn 7))) x01). split; [vm_compute; reflexivity|]. split; [|split; [vm_compute; reflexivity|apply toy_matches]].
  split; [discriminate|]. split; [discriminate|]. split; [discriminate|]. split; [discriminate|]. split; [discriminate|]. split; [discriminate|].
  split; exists (KeyPair None (Some (toy_pub (idn 7))) x01); vm_compute; reflexivity.
Qed.

(** ** Twenty gateways, with the identifiers 1 to 20 and keys of the same numbers *)

Definition wide_reg : manager info := Eval vm_compute in ok_or toy_idle (Refresh info toy_idle (listing info crowd) (listing info toy_providers)).
Definition wide_gw (id : bytes) : gateway :=
  Gateway (Some id) (Some (toy_key (be_val id))) 1 3 2 10 (Some (NewMgr (gs "gw"))) empty_db wide_reg.
(** The message that goes to the 16 nearest to content 5. *)
Definition off5 : offer := Eval vm_compute in toy_signed_offer 70 7 [idn 5] 20 100.
Definition wide_message : message := Eval vm_compute in signed 7 (EncodeProviderPublishDHTOfferRequest 1 [1] (Some (idn 70)) 1 (Some [off5])).
Definition wide_after (id : bytes) : gateway := match toy_supplier_api toy_env (wide_gw id) wide_message with Ret (g', _) => g' | _ => wide_gw id end.

(** Client 99 knows all of them; gateway 10 is active. *)
Definition wide_creg (n : Z) : reg := creg n n (gs "addr") (gs "au").
Definition wide_cmgr : manager reg := Eval vm_compute in
  ok_or toy_cidle (Refresh reg toy_cidle (under_ids (Some (map (fun n => Some (wide_creg (Z.of_nat n))) (seq 1 20)))) (under_ids (Some [Some pvd70]))).
Definition wide_gw10 : reg := Eval vm_compute in wide_creg 10.
Definition wide_client : client := Client (Some (idn 99)) 5 3 2 top [] [(ToString (idn 10), wide_gw10)] None wide_cmgr [].
Definition wide_env (silent_one : Z) : env :=
  with_net (fun _ id => negb (be_val id =? silent_one)) (fun _ id m => heard (toy_peer_api far_env (wide_after id) m)) shop_env.
Definition wide_hub : gateway := wide_gw (idn 10).
Definition wide_net (silent_one : Z) : cenv :=
  CEnv 40 (fun _ url m => if bytes_eqb url (r_client_ap wide_gw10) then AdminSpec.received (toy_api (wide_env silent_one) wide_hub m) else None) (fun _ => None) (fun _ => None) (Some (gs "me"))
    (fun _ => TxRefused) (fun _ => None) (fun x => x).
Definition short (o : option (list (gostring * list Z) * nat)) : list (Z * list Z) := match o with Some (l, _) => map (fun x => (hex_val (fst x), snd x)) l | None => [] end.
(** Of the four nearest to content 5, gateway 4 is silent; the others have the offer. *)
Example wide_ex : short (found (t_DHT (wide_net 4) wide_client 5 10 4)) = [(3, [20]); (5, [20]); (6, [20])].
Proof. vm_compute. reflexivity. Qed.

(** The hypotheses hold. *)
Lemma wide_outlet pe id : id32 id -> (forall n, pe_conn pe n id = true) -> (forall n m, pe_net pe n id m = heard (toy_supplier_api toy_env (wide_gw id) m)) ->
  outlet 1 [1] toy_hash toy_hash toy_pub toy_sign PropertiesCrypto.toy_verify toy_blake (gs "9013") (gs "9011") (gs "9012") (gs "9014") pe (idn 70) (toy_key 7) id toy_env (wide_gw id) [].
Proof.
  intros H C N. split; [exact C|]. split; [exact N|].
  split. { exists id, (toy_key (be_val id)), (NewMgr (gs "gw")). split; [reflexivity|]. split; [exact H|]. split; [reflexivity|]. split; [apply PropertiesProvider.toy_signs|reflexivity]. }
  split. { split; [reflexivity|]. split; [reflexivity|]. exists (toy_info 70 7 (gs "addr7")), (KeyPair None (Some (toy_pub (idn 7))) x01). split; [vm_compute; reflexivity|]. split; [vm_compute; reflexivity|apply toy_matches]. }
  split; [reflexivity|]. split; [split; [split; [intros ? ? []|intros ? ? ? ? []]|reflexivity]|]. split; intros ? ? [].
Qed.
Lemma wide_lists n : aget bytes_eqb (gatewaysMap info wide_reg) (ToString (idn n)) = Some (toy_info n n (gs "addr")) ->
  DecodePublicKey (key_text n) = Ret (OkR (KeyPair None (Some (toy_pub (idn n))) x01)) -> lists toy_pub wide_reg (idn n) (toy_key n).
Proof. intros G D. split; [reflexivity|]. split; [reflexivity|]. exists (toy_info n n (gs "addr")), (KeyPair None (Some (toy_pub (idn n))) x01). split; [exact G|]. split; [exact D|apply toy_matches]. Qed.
Example wide_open : represents toy_pub wide_gw10 wide_hub /\ reaches (ce_http (wide_net 4) 0) wide_gw10 (toy_api (wide_env 4) wide_hub) /\ managed info wide_reg /\ self_named wide_reg /\
  knows info wide_reg (map fst crowd) /\ client_has_provider toy_pub wide_client (idn 70) (toy_key 7) /\ silent (wide_env 4) (idn 4) /\
  forall n, In n [3; 5; 6] ->
    linked 1 [1] toy_hash toy_hash toy_pub toy_sign PropertiesCrypto.toy_verify toy_blake toy_pay_verify vof toy_address 0 (gs "9013") (gs "9011") (gs "9012") (gs "9014")
      (wide_env 4) wide_hub (idn n) far_env (wide_after (idn n)) (toy_key n) /\
    client_lists toy_pub wide_client (idn n) (toy_key n).
Proof.
  split. { exists (idn 10), (toy_key 10). split; [reflexivity|]. split; [reflexivity|]. split; [reflexivity|]. exists (KeyPair None (Some (toy_pub (idn 10))) x01). split; [vm_compute; reflexivity|apply toy_matches]. }
  split. { intros m. unfold wide_net. cbn [ce_http]. rewrite (proj2 (bytes_eqb_eq _ _) eq_refl). reflexivity. }
  assert (G : gatewaysMap info wide_reg = crowd) by (vm_compute; reflexivity).
  split. { apply (managed_refresh info toy_idle (listing info crowd) (listing info toy_providers)); [apply managed_start| |vm_compute; reflexivity].
    intros x I. cbn [listing crowd map seq] in I. repeat (destruct I as [I|I]; [injection I as <-; eexists; split; [|reflexivity]; vm_compute; reflexivity|]). destruct I. }
  split. { intros id i H. apply (aget_In bytes_eqb bytes_eqb_eq) in H. assert (B : forallb (fun x => bytes_eqb (n_id (snd x)) (fst x)) (gatewaysMap info wide_reg) = true) by (vm_compute; reflexivity).
    rewrite forallb_forall in B. specialize (B _ H). apply bytes_eqb_eq in B. exact B. }
  split. { destruct PropertiesProviderListing.crowd_managed as (_ & K & _). unfold knows. rewrite G. exact K. }
  split. { split; [reflexivity|]. split; [reflexivity|]. exists pvd70, (KeyPair None (Some (toy_pub (idn 7))) x01). split; [vm_compute; reflexivity|]. split; [|split; [vm_compute; reflexivity|apply toy_matches]].
    split; [discriminate|]. split; [discriminate|]. split; [discriminate|]. split; [discriminate|]. split; [discriminate|]. split; [discriminate|].
    split; exists (KeyPair None (Some (toy_pub (idn 7))) x01); vm_compute; reflexivity. }
  split; [intros n; left; reflexivity|].
  assert (X : forall n, lists toy_pub wide_reg (idn n) (toy_key n) -> be_val (idn n) = n -> negb (n =? 4) = true -> g_reg (wide_after (idn n)) = wide_reg -> g_key (wide_after (idn n)) = Some (toy_key n) ->
    linked 1 [1] toy_hash toy_hash toy_pub toy_sign PropertiesCrypto.toy_verify toy_blake toy_pay_verify vof toy_address 0 (gs "9013") (gs "9011") (gs "9012") (gs "9014")
      (wide_env 4) wide_hub (idn n) far_env (wide_after (idn n)) (toy_key n)).
  { intros n Ln V N R K. split; [intros j; unfold wide_env; cbn [e_conn with_net]; rewrite V; exact N|]. split; [intros j m; reflexivity|]. split; [vm_compute; discriminate|]. split; [exact K|].
    split; [apply PropertiesProvider.toy_signs|]. split; [exact Ln|]. split; [|intros l; apply Permutation.Permutation_refl].
    exists (idn 10), (toy_key 10). split; [reflexivity|]. split; [reflexivity|]. rewrite R. apply wide_lists; vm_compute; reflexivity. }
  assert (Y : forall n gw, aget bytes_eqb (gatewaysMap reg wide_cmgr) (ToString (idn n)) = Some gw -> validateGatewayInfo gw = Ret true -> 
    DecodePublicKey (Client.r_key gw) = Ret (OkR (KeyPair None (Some (toy_pub (idn n))) x01)) -> client_lists toy_pub wide_client (idn n) (toy_key n)).
  { intros n gw A V D. split; [reflexivity|]. split; [reflexivity|]. exists gw. split; [exact A|]. split; [exact V|]. exists (KeyPair None (Some (toy_pub (idn n))) x01). split; [exact D|apply toy_matches]. }
  intros n [<-|[<-|[<-|[]]]]; (split; [apply X; [apply wide_lists; vm_compute; reflexivity|reflexivity|reflexivity|vm_compute; reflexivity|vm_compute; reflexivity]|eapply Y; vm_compute; reflexivity]).
Qed.
