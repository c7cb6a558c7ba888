(** * C155: a client, a gateway and the gateways it asks

    All programs on a network that delivers what they send, except to and from gateways
    that are silent. *)
From Coq Require Import String List ZArith Bool Lia Sorting.Sorted.
From Coq Require Import Init.Byte.
From Verif Require Import Base BaseProofs Ids Crypto Message Offer OfferProofs Schema Messages MessagesSpec WireSpec Payment Ring RingSpec Register RegisterSpec OfferStoreSpec SqlOffers SqlOffersSpec Json Rest
  Gateway GatewaySpec GatewayOfferSpec Client ClientSpec RetrievalSpec RetrievalProofs DhtSpec DhtProofs PropertiesMerkle PropertiesCrypto PropertiesSql ToyGateway ToyClient PropertiesRetrieval.
From Verif Require AdminSpec PropertiesProvider OfferStoreProofs.
Import ListNotations.
Open Scope Z_scope.

Section properties.
  Variable version : Z.
  Variable supported : list Z.
  Variable sha256 sha512_256 : bytes -> bytes.
  Variable pub_of : bytes -> bytes.
  Variable ec_sign : bytes -> bytes -> option bytes.
  Variable ec_verify : bytes -> bytes -> bytes -> bool.
  Variable blake : bytes -> bytes.
  Variable verify : gostring -> voucher -> option bytes -> bool.
  Variable voucher_text : voucher -> gostring.
  Variable voucher_of : gostring -> option voucher.
  Variable is_address : gostring -> bool.
  Variable zone : Z.
  Variables BindAdminAPI BindRestAPI BindGatewayAPI BindProviderAPI : gostring.
  Variable rand_int : list draw -> Z.
  (** Signatures verify; the four interfaces have addresses of their own; hashes, random numbers and
      version numbers have their sizes. *)
  Hypothesis Law : ecdsa_correct pub_of ec_sign ec_verify.
  Hypothesis admin_rest : BindAdminAPI <> BindRestAPI.
  Hypothesis gateway_provider : BindGatewayAPI <> BindProviderAPI.
  Hypothesis sha256_len : forall x, length (sha256 x) = 32%nat.
  Hypothesis rand_int_64 : forall l, int64 (rand_int l).
  Hypothesis version_32 : int32 version.
  Hypothesis supported_32 : Forall int32 supported.
  Local Notation api := (client_api version supported sha256 sha512_256 pub_of ec_sign ec_verify blake verify voucher_text voucher_of is_address zone BindAdminAPI BindRestAPI BindGatewayAPI BindProviderAPI).
  Local Notation peer := (peer version supported sha256 sha512_256 pub_of ec_sign ec_verify blake verify voucher_of is_address zone BindAdminAPI BindRestAPI BindGatewayAPI BindProviderAPI).
  Local Notation FindDHT := (FindOffersDHTDiscovery version supported sha256 pub_of ec_verify blake rand_int).

  (** ** C155 *)

  (** Discovery through other gateways: of the gateways the one asked knows, the [num] nearest to the
      content (16 at most) are asked, without the one asking.  The client gets for each that answers
      the offers on sale there, except those that do not verify, and nothing for those that are silent or
      were not to be asked.  It suffices that no lookup has hit a fault of the ring, that there are enough
      gateways, and that those of the nearest that answer know and are known. *)
  Theorem dht_discovery_exact : forall ce c gw e g cid gid num i members met,
    represents pub_of gw g -> ready ec_sign blake g -> reaches (ce_http ce 0) gw (api e g) ->
    aget bytes_eqb (c_active c) (ToString gid) = Some gw -> g_id g = Some i ->
    managed info (g_reg g) -> self_named (g_reg g) -> knows info (g_reg g) members -> harmless info (g_reg g) cid num (Some i) ->
    length members <> 1%nat -> 1 <= num -> Z.min num 16 <= Z.of_nat (length (without (ToString i) members)) -> int64 num ->
    int64 (ce_now ce + c_ttl c) -> unix e <= ce_now ce + c_ttl c -> int64 (unix e + 10) -> keyed c ->
    (forall id, id32 id -> near_one (without (ToString i) members) (ToString cid) (Z.min num 16) (ToString id) ->
       match met id with Some x => peer e g id x /\ client_lists pub_of c id (at_key x) | None => silent e id end) ->
    exists ids res c' m g' r, FindDHT ce c (Some cid) (Some gid) num = Ret (OkR res, c', [(r_client_ap gw, m)]) /\
      closest_ok (without (ToString i) members) (ToString cid) (Z.min num 16) (map ToString ids) /\ Forall id32 ids /\ NoDup ids /\
      (forall id, In id ids -> match met id with
         | Some x => exists os l, aget bytes_eqb res (ToString id) = Some l /\ on_sale zone (at_hist x) (e_now (at_env x)) cid os /\
             sifted sha256 pub_of ec_verify blake c (map (fun o => GenerateSubCIDOffer o cid) os) l
         | None => aget bytes_eqb res (ToString id) = None end) /\
      (forall key, ~ In key (map ToString ids) -> aget bytes_eqb res key = None) /\
      api e g m = Ret (g', [Json r]) /\ g_db g' = g_db g /\ g_pay g' = g_pay g.
  Proof using Law admin_rest gateway_provider sha256_len rand_int_64 version_32 supported_32. intros. eapply found_dht_pf; eassumption. Qed.
End properties.
Print Assumptions dht_discovery_exact.

(** ** Client 99 asks gateway 20, which knows 10 and 30 *)

(** Gateway 10 has an offer for content 25 and one its provider did not sign; gateway 30 is silent. *)
Definition off25 : offer := Eval vm_compute in toy_signed_offer 70 7 [idn 25; idn 2] 10 100.
Definition bad25 : offer := Eval vm_compute in toy_signed_offer 70 8 [idn 25] 1 100.
Definition stock25 : attempts := [(off25, well); (bad25, well)].
Definition db25 : db := Eval vm_compute in ok_or empty_db (db_after toy_hash empty_db stock25).
Definition far : gateway := Gateway (Some (idn 10)) (Some (toy_key 1)) 1 3 2 10 (Some (NewMgr (gs "addr1"))) db25 toy_reg.
Definition hub : gateway := Gateway (Some (idn 20)) (Some (toy_key 2)) 1 3 2 10 (Some (NewMgr (gs "addr2"))) empty_db toy_reg.
Definition toy_peer_api (e : env) (g : gateway) (m : message) :=
  peer_api 1 [1] toy_hash toy_hash toy_pub toy_sign PropertiesCrypto.toy_verify toy_blake toy_pay_verify vof toy_address 0 (gs "9013") (gs "9011") (gs "9012") (gs "9014") e g m.
Definition far_env : env := at_time 45 shop_env.
Definition hub_env : env :=
  with_net (fun _ id => bytes_eqb id (idn 10)) (fun _ id m => if bytes_eqb id (idn 10) then heard (toy_peer_api far_env far m) else None) shop_env.
Definition hub_net : cenv :=
  CEnv 40 (fun _ url m => if bytes_eqb url (r_client_ap gw20) then AdminSpec.received (toy_api hub_env hub m) else None) (fun _ => None) (fun _ => None) (Some (gs "me"))
    (fun _ => TxRefused) (fun _ => None) (fun x => x).
Definition found (o : outcome (result (list (gostring * list suboffer)) * client * list (gostring * message))) : option (list (gostring * list Z) * nat) :=
  match o with Ret (OkR l, _, out) => Some (map (fun x => (fst x, map s_price (snd x))) l, length out) | _ => None end.
Example dht_ex : found (t_DHT hub_net active 25 20 2) = Some ([(ToString (idn 10), [10])], 1%nat).
Proof. vm_compute. reflexivity. Qed.

(** The hypotheses hold. *)
Definition known3 : list gostring := map (fun z => ToString (idn z)) [10; 20; 30].
Definition met10 (id : bytes) : option contact := if bytes_eqb id (idn 10) then Some (Contact far_env far stock25 (toy_key 1)) else None.
Lemma toy_matches n : matches toy_pub (KeyPair None (Some (toy_pub (idn n))) x01) (toy_key n).
Proof. split; [reflexivity|]. exists (idn n). split; [reflexivity|left; reflexivity]. Qed.
Lemma toy_lists id key address : aget bytes_eqb (gatewaysMap info toy_reg) (ToString (idn id)) = Some (toy_info id key address) ->
  DecodePublicKey (key_text key) = Ret (OkR (KeyPair None (Some (toy_pub (idn key))) x01)) -> lists toy_pub toy_reg (idn id) (toy_key key).
Proof. intros G D. split; [reflexivity|]. split; [reflexivity|]. exists (toy_info id key address), (KeyPair None (Some (toy_pub (idn key))) x01). split; [exact G|]. split; [exact D|apply toy_matches]. Qed.
Example far_stocked : stocked toy_hash toy_hash far stock25 /\ all_undisturbed stock25 /\ sized stock25.
Proof.
  split.
  { split; [|vm_compute; reflexivity]. split.
    - intros o f [E|[E|[]]]; injection E as <- <-; (split; [|vm_compute; split; reflexivity]).
      + exists (idn 70), [idn 25; idn 2], 10, 100, 1, (ok_or zero_offer (obind (NewCIDOffer toy_hash (Some (idn 70)) [idn 25; idn 2] 10 100 1) (fun r => Ret (match r with OkR o => o | ErrR => zero_offer end)))).
        split; [reflexivity|]. split; [repeat constructor|]. repeat split; vm_compute; try reflexivity; discriminate.
      + exists (idn 70), [idn 25], 1, 100, 1, (ok_or zero_offer (obind (NewCIDOffer toy_hash (Some (idn 70)) [idn 25] 1 100 1) (fun r => Ret (match r with OkR o => o | ErrR => zero_offer end)))).
        split; [reflexivity|]. split; [repeat constructor|]. repeat split; vm_compute; try reflexivity; discriminate.
    - assert (D : GetMessageDigest toy_hash off25 <> GetMessageDigest toy_hash bad25) by (vm_compute; discriminate).
      intros o f o' f' [E|[E|[]]] [E'|[E'|[]]] G; injection E as <- <-; injection E' as <- <-; [apply OfferStoreProofs.same_terms_refl|destruct (D G)|destruct (D (eq_sym G))|apply OfferStoreProofs.same_terms_refl]. }
  split. { intros o f [E|[E|[]]] i _; injection E as <- <-; reflexivity. }
  intros o f [E|[E|[]]]; injection E as <- <-; reflexivity.
Qed.
Example hub_open : represents toy_pub gw20 hub /\ ready toy_sign toy_blake hub /\ reaches (ce_http hub_net 0) gw20 (toy_api hub_env hub) /\
  aget bytes_eqb (c_active active) (ToString (idn 20)) = Some gw20 /\ managed info (g_reg hub) /\ self_named (g_reg hub) /\ knows info (g_reg hub) known3 /\
  harmless info (g_reg hub) (idn 25) 2 (Some (idn 20)) /\ Z.min 2 16 <= Z.of_nat (length (without (ToString (idn 20)) known3)) /\
  (forall id, id32 id -> near_one (without (ToString (idn 20)) known3) (ToString (idn 25)) (Z.min 2 16) (ToString id) ->
     match met10 id with
     | Some x => peer 1 [1] toy_hash toy_hash toy_pub toy_sign PropertiesCrypto.toy_verify toy_blake toy_pay_verify vof toy_address 0 (gs "9013") (gs "9011") (gs "9012") (gs "9014") hub_env hub id x /\
         client_lists toy_pub active id (at_key x)
     | None => silent hub_env id
     end).
Proof.
  split. { exists (idn 20), (toy_key 2). split; [reflexivity|]. split; [reflexivity|]. split; [reflexivity|]. exists (KeyPair None (Some (toy_pub (idn 2))) x01). split; [vm_compute; reflexivity|apply toy_matches]. }
  split. { exists (idn 20), (toy_key 2), (NewMgr (gs "addr2")). split; [reflexivity|]. split; [reflexivity|]. split; [reflexivity|]. split; [apply PropertiesProvider.toy_signs|reflexivity]. }
  split. { intros m. unfold hub_net. cbn [ce_http]. rewrite (proj2 (bytes_eqb_eq _ _) eq_refl). reflexivity. }
  split; [vm_compute; reflexivity|].
  split. { apply (managed_refresh info toy_idle (listing info toy_gateways) (listing info toy_providers)); [apply managed_start| |vm_compute; reflexivity].
    intros x X. unfold listing, toy_gateways in X. cbn [map In] in X. destruct X as [E|[E|[E|[]]]]; injection E as <-; eexists; (split; [|reflexivity]); reflexivity. }
  split. { intros id i H. apply (aget_In bytes_eqb bytes_eqb_eq) in H. assert (B : forallb (fun x => bytes_eqb (n_id (snd x)) (fst x)) (gatewaysMap info toy_reg) = true) by (vm_compute; reflexivity).
    rewrite forallb_forall in B. specialize (B _ H). apply bytes_eqb_eq in B. exact B. }
  assert (Kn : knows info (g_reg hub) known3).
  { split; [unfold known3; cbn [map]; repeat constructor; vm_compute; reflexivity|]. intros v. split.
    - intros [<-|[<-|[<-|[]]]]; eexists; vm_compute; reflexivity.
    - intros [i H]. apply (aget_In bytes_eqb bytes_eqb_eq), (in_map fst) in H. cbn [fst] in H. assert (E : map fst (gatewaysMap info (g_reg hub)) = known3) by (vm_compute; reflexivity). rewrite <- E. exact H. }
  split; [exact Kn|].
  split. { split; [reflexivity|]. split; [intros n [= <-]; reflexivity|]. split; [lia|]. intros members K.
    assert (In10 : In (ToString (idn 10)) members) by (apply K; eexists; vm_compute; reflexivity). split.
    - right. right. exists (ToString (idn 10)). split; [|vm_compute; reflexivity]. apply filter_In. split; [exact In10|vm_compute; reflexivity].
    - intros _ H. destruct members as [|v l]; [discriminate|]. injection H as ->. destruct K as [S _]. apply StronglySorted_inv in S. destruct S as [_ S]. rewrite Forall_forall in S.
      destruct In10 as [E|I]; [vm_compute in E; discriminate|]. specialize (S _ I). vm_compute in S. discriminate. }
  split; [vm_compute; discriminate|].
  intros id L I. unfold met10. destruct (bytes_eqb id (idn 10)) eqn:E.
  - apply bytes_eqb_eq in E. subst id. cbn [at_key]. split.
    + cbn [at_state at_hist at_env at_key].
      split.
      { split; [intros n; reflexivity|]. split; [intros n m; reflexivity|]. split; [vm_compute; discriminate|]. split; [reflexivity|]. split; [apply PropertiesProvider.toy_signs|].
        split; [apply toy_lists with (gs "addr1"); vm_compute; reflexivity|].
        split; [exists (idn 20), (toy_key 2); split; [reflexivity|]; split; [reflexivity|]; apply toy_lists with (gs "addr2"); vm_compute; reflexivity|].
        intros l. apply Permutation.Permutation_refl. }
      exact far_stocked.
    + split; [reflexivity|]. split; [reflexivity|]. exists gw10. split; [vm_compute; reflexivity|]. split; [vm_compute; reflexivity|].
      exists (KeyPair None (Some (toy_pub (idn 1))) x01). split; [vm_compute; reflexivity|apply toy_matches].
  - intros n. left. exact E.
Qed.
