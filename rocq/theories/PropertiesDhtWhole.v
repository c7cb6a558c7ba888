(** * C197: the whole of a paid search through other gateways

    The client, the gateway it asks and the gateways that are paid, on a network that delivers what they send, except to
    and from gateways that are silent. *)
From Coq Require Import String List ZArith Bool Lia Sorting.Sorted.
From Coq Require Import Init.Byte.
From Verif Require Import Base BaseProofs Ids Crypto Message Offer OfferProofs Schema Messages MessagesSpec WireSpec Payment Ring RingSpec Register RegisterSpec OfferStoreSpec SqlOffers SqlOffersSpec Json Rest
  Gateway GatewaySpec GatewayOfferSpec Client ClientSpec RetrievalSpec RetrievalProofs DhtSpec DhtProofs DhtPaidSpec DhtPaidProofs DhtOfferSpec DhtWholeSpec DhtWholeProofs PropertiesMerkle PropertiesCrypto PropertiesSql ToyGateway ToyClient PropertiesRetrieval PropertiesDht PropertiesDhtPaid.
From Verif Require AdminSpec PropertiesProvider PropertiesClient.
Import ListNotations.
Open Scope Z_scope.

Section properties.
  Variable version : Z.
  Variable supported : list Z.
  Variable sha256 sha512_256 : bytes -> bytes.
  Variable pub_of : bytes -> bytes.
  Variable ec_sign : bytes -> bytes -> option bytes.
  Variable ec_verify : bytes -> bytes -> bytes -> bool.
  Variable blake : bytes -> bytes.
  Variable verify : gostring -> voucher -> option bytes -> bool.
  Variable voucher_text : voucher -> gostring.
  Variable voucher_of : gostring -> option voucher.
  Variable is_address : gostring -> bool.
  Variable zone : Z.
  Variable rand_int : list draw -> Z.
  Variables BindAdminAPI BindRestAPI BindGatewayAPI BindProviderAPI : gostring.
  Hypothesis Law : ecdsa_correct pub_of ec_sign ec_verify.
  Hypothesis admin_rest : BindAdminAPI <> BindRestAPI.
  Hypothesis gateway_provider : BindGatewayAPI <> BindProviderAPI.
  Hypothesis version_32 : int32 version.
  Hypothesis supported_32 : Forall int32 supported.
  Hypothesis sha256_len : forall x, length (sha256 x) = 32%nat.
  Hypothesis sha512_256_len : forall x, length (sha512_256 x) = 32%nat.
  Hypothesis voucher_readable : forall v, v_terms v = [] -> voucher_of (voucher_text v) = Some v.
  Hypothesis rand_int_64 : forall d, int64 (rand_int d).
  Local Notation api := (client_api version supported sha256 sha512_256 pub_of ec_sign ec_verify blake verify voucher_text voucher_of is_address zone BindAdminAPI BindRestAPI BindGatewayAPI BindProviderAPI).
  Local Notation papi := (peer_api version supported sha256 sha512_256 pub_of ec_sign ec_verify blake verify voucher_of is_address zone BindAdminAPI BindRestAPI BindGatewayAPI BindProviderAPI).
  Local Notation payable := (payable version supported sha256 sha512_256 pub_of ec_sign ec_verify blake verify voucher_of is_address zone BindAdminAPI BindRestAPI BindGatewayAPI BindProviderAPI).
  Local Notation client_lists := (client_lists pub_of).
  Local Notation account := (account verify is_address).
  Local Notation solvent := (solvent verify is_address).
  Local Notation at_hand := (at_hand version supported sha256 sha512_256 pub_of ec_sign ec_verify blake verify voucher_of is_address zone BindAdminAPI BindRestAPI BindGatewayAPI BindProviderAPI).
  Local Notation paid_for := (paid_for version supported sha256 sha512_256 pub_of ec_sign ec_verify blake verify voucher_of is_address zone BindAdminAPI BindRestAPI BindGatewayAPI BindProviderAPI).

  (** ** C197 *)

  (** A paid search through a gateway, from the call to what the client is given.  The gateway pays those nearest to the content; of those that answer, each
      is left in a state [mid] and has told the digests of what it has on [sale].  If one has nothing, the client is given nothing, and the searches are paid.  If each has something, and together not more than the limit, then the offers are bought from them
      with a second payment, and both ends of every channel agree afterwards.  The client spends [defaultSearchPrice] for every gateway that was to be asked and its
      price for every offer; what it gets under the identifier of each gateway are the offers of the last one. *)
  Theorem paid_dht_discovery_partial : forall ce c gw e g cid gid num limit i members met funds chn,
    represents pub_of gw g -> ready ec_sign blake g -> reaches (ce_http ce 0) gw (api e g) ->
    aget bytes_eqb (c_active c) (ToString gid) = Some gw -> g_id g = Some i ->
    managed info (g_reg g) -> self_named (g_reg g) -> knows info (g_reg g) members -> harmless info (g_reg g) cid num (Some i) ->
    length members <> 1%nat -> 1 <= num -> Z.min num 16 <= Z.of_nat (length (without (ToString i) members)) -> int64 num ->
    int64 (ce_now ce + c_ttl c) -> unix e <= ce_now ce + c_ttl c -> int64 (unix e + 10) ->
    solvent ce e 0 c gw g funds chn -> num * defaultSearchPrice <= funds -> 0 < g_search g <= defaultSearchPrice -> consults g -> addresses_differ g ->
    (forall id address, id32 id -> near_one (without (ToString i) members) (ToString cid) (Z.min num 16) (ToString id) -> pays_at g id address ->
       payable met e g address id /\ match met id with Some x => client_lists c id (at_key x) | None => True end) ->
    exists ids sale mid m g1 r1,
      closest_ok (without (ToString i) members) (ToString cid) (Z.min num 16) (map ToString ids) /\ Forall id32 ids /\ NoDup ids /\ api e g m = Ret (g1, [Json r1]) /\
      (forall id x, In id ids -> met id = Some x -> on_sale zone (at_hist x) (e_now (at_env x)) cid (sale id) /\ exists q r, papi (at_env x) (at_state x) q = Ret (mid id, Reply r)) /\
      let asked := filter (met_one met) ids in
      (total sale asked < limit -> (exists id, In id asked /\ sale id = []) -> exists c' mg ch,
         FindOffersDHTDiscoveryV2 version supported sha256 pub_of ec_verify blake voucher_text rand_int ce c (Some cid) (Some gid) num limit = Ret (OkR [], c', [(r_client_ap gw, m)]) /\
         account ce e c' gw g1 mg ch /\ left_in ch = funds - num * defaultSearchPrice) /\
      (asked <> [] -> (forall id, In id asked -> sale id <> []) -> total sale asked <= limit -> forall e2 env2,
       reaches (ce_http ce 2) gw (api e2 g1) -> e_chain e2 chn = e_chain e chn -> e_sign e2 = e_sign e ->
       0 < g_offer g <= c_offer c -> num * defaultSearchPrice + total sale asked * c_offer c <= funds ->
       (forall id x, In id asked -> met id = Some x -> at_hand g e2 id x (env2 id) (mid id) (sale id)) ->
       exists c' m2 g2 r2 mg ch,
         FindOffersDHTDiscoveryV2 version supported sha256 pub_of ec_verify blake voucher_text rand_int ce c (Some cid) (Some gid) num limit =
           Ret (OkR (map (fun id => (ToString id, map (fun o => GenerateSubCIDOffer o cid) (sale (last asked [])))) asked), c', [(r_client_ap gw, m); (r_client_ap gw, m2)]) /\
         api e2 g1 m2 = Ret (g2, [Json r2]) /\
         account ce e2 c' gw g2 mg ch /\ left_in ch = funds - num * defaultSearchPrice - total sale asked * c_offer c /\
         (forall id, In id asked -> paid_for e2 g g2 id (env2 id) (mid id) (sale id))).
  Proof using Law admin_rest gateway_provider version_32 supported_32 sha256_len sha512_256_len voucher_readable rand_int_64. intros. eapply whole_pf; eassumption. Qed.
End properties.
Print Assumptions paid_dht_discovery_partial.

(** ** Gateway 20 buys from gateway 10 and from gateway 30 *)
Definition off30 : offer := Eval vm_compute in toy_signed_offer 70 7 [idn 25] 5 100.
Definition stock30 : attempts := [(off30, well)].
Definition db30 : db := Eval vm_compute in ok_or empty_db (db_after toy_hash empty_db stock30).
Definition far3 : gateway := Gateway (Some (idn 30)) (Some (toy_key 3)) 1 3 2 10 (Some (NewMgr (gs "addr3"))) db30 toy_reg.
Definition ledger (a : gostring) : option chain_state :=
  if bytes_eqb a (gs "c1") then Some (ChainState 10 (Account (gs "addr1")) (Account (gs "addr2")))
  else if bytes_eqb a (gs "c3") then Some (ChainState 10 (Account (gs "addr3")) (Account (gs "addr2")))
  else if bytes_eqb a (gs "cc") then Some (ChainState (3 * defaultSearchPrice) (Account (gs "addr2")) (Account (gs "me"))) else None.
Definition far_env3 : env := with_chain ledger (fun _ => None) far_env.
Definition street (p10 p30 : gateway) : env :=
  with_chain ledger (fun _ => Some (gs "addr2"))
    (with_net (fun _ _ => true) (fun _ id m => if bytes_eqb id (idn 10) then heard (toy_peer_api far_env3 p10 m) else heard (toy_peer_api far_env3 p30 m)) shop_env).
Definition net_of (http : nat -> message -> option message) : cenv :=
  CEnv 40 (fun n url m => if bytes_eqb url (r_client_ap gw20) then http n m else None) (fun _ => None) (fun _ => None) (Some (gs "me")) (fun _ => TxRefused) (fun _ => Some (gs "me")) (fun x => x).
Definition payer : client := with_mgr active (Mgr (gs "me") [(r_address gw20, Chan (gs "cc") (3 * defaultSearchPrice) 0 [])] []).
Definition whole_of (ce : cenv) :=
  FindOffersDHTDiscoveryV2 1 [1] toy_hash toy_pub PropertiesCrypto.toy_verify toy_blake vtext toy_int ce payer (Some (idn 25)) (Some (idn 20)) 2 5.

(** The search leaves gateway 20 as [hub_then] and the others as [far_then] and [far3_then]. *)
Definition first_net : cenv := net_of (fun n m => match n with O => AdminSpec.received (toy_api (street far far3) hub20 m) | _ => None end).
Definition asked_for : message := Eval vm_compute in match whole_of first_net with Ret (_, _, (_, m) :: _) => m | _ => group_req 70 7 off1 end.
Definition hub_then : gateway := Eval vm_compute in match toy_api (street far far3) hub20 asked_for with Ret (g, _) => g | _ => hub20 end.
Definition passed_on : list (bytes * message) := Eval vm_compute in
  match HandleDHTDiscoverV2 1 [1] toy_hash toy_pub toy_sign PropertiesCrypto.toy_verify toy_blake toy_pay_verify vtext vof toy_address (street far far3) hub20 asked_for with Ret s => sent s | _ => [] end.
Definition then_of (id : Z) (p : gateway) : gateway :=
  match aget bytes_eqb passed_on (idn id) with Some q => match toy_peer_api far_env3 p q with Ret (p', _) => p' | _ => p end | None => p end.
Definition far_then : gateway := Eval vm_compute in then_of 10 far.
Definition far3_then : gateway := Eval vm_compute in then_of 30 far3.
Definition whole_net : cenv := net_of (fun n m => match n with
  | O => AdminSpec.received (toy_api (street far far3) hub20 m) | _ => AdminSpec.received (toy_api (street far_then far3_then) hub_then m) end).
Definition gone_from (c : client) : option Z := match c_pay c with Some m => option_map left_in (aget bytes_eqb (m_out m) (r_address gw20)) | None => None end.

(** Gateway 30 has an offer with price 5, but those of gateway 10 are returned under its identifier; 3 offers cost 2 each, besides the 2 searches. *)
Theorem paid_dht_discovery_refuted : exists l c' out, whole_of whole_net = Ret (OkR l, c', out) /\
  aget bytes_eqb l (ToString (idn 30)) = Some (map (fun o => GenerateSubCIDOffer o (idn 25)) [off25; bad25]) /\
  ~ In off30 [off25; bad25] /\ recorded stock30 off30 /\ gone_from c' = Some (3 * defaultSearchPrice - 2 * defaultSearchPrice - 3 * 2).
Proof.
  destruct (PropertiesClient.ret_case (fun x => match x with
      | (OkR l, c', _) => aget bytes_eqb l (ToString (idn 30)) = Some (map (fun o => GenerateSubCIDOffer o (idn 25)) [off25; bad25]) /\ gone_from c' = Some (3 * defaultSearchPrice - 2 * defaultSearchPrice - 3 * 2)
      | _ => False end) (whole_of whole_net)) as ([[[l|] c'] out] & E & X); [vm_compute; split; reflexivity| |contradiction].
  destruct X as (X1 & X2). exists l, c', out. split; [exact E|]. split; [exact X1|]. split; [|split; [|exact X2]].
  - intros [D|[D|[]]]; apply (f_equal o_price) in D; vm_compute in D; discriminate.
  - exists [], well, []. split; [reflexivity|]. split; [reflexivity|]. intros o' f' [].
Qed.
Print Assumptions paid_dht_discovery_refuted.

(** The hypotheses hold. *)
Definition met_both (id : bytes) : option contact :=
  if bytes_eqb id (idn 10) then Some (Contact far_env3 far stock25 (toy_key 1)) else if bytes_eqb id (idn 30) then Some (Contact far_env3 far3 stock30 (toy_key 3)) else None.
Example far3_stocked : stocked toy_hash toy_hash far3 stock30 /\ all_undisturbed stock30 /\ sized stock30.
Proof.
  split.
  { split; [|vm_compute; reflexivity]. split.
    - intros o f [E|[]]; injection E as <- <-; (split; [|vm_compute; split; reflexivity]).
      exists (idn 70), [idn 25], 5, 100, 1, (ok_or zero_offer (obind (NewCIDOffer toy_hash (Some (idn 70)) [idn 25] 5 100 1) (fun r => Ret (match r with OkR o => o | ErrR => zero_offer end)))).
      split; [reflexivity|]. split; [repeat constructor|]. repeat split; vm_compute; try reflexivity; discriminate.
    - intros o f o' f' [E|[]] [E'|[]] G; injection E as <- <-; injection E' as <- <-; apply OfferStoreProofs.same_terms_refl. }
  split. { intros o f [E|[]] i _; injection E as <- <-; reflexivity. }
  intros o f [E|[]]; injection E as <- <-; reflexivity.
Qed.
Local Notation toy_payable := (payable 1 [1] toy_hash toy_hash toy_pub toy_sign PropertiesCrypto.toy_verify toy_blake toy_pay_verify vof toy_address 0 (gs "9013") (gs "9011") (gs "9012") (gs "9014")).
Local Notation toy_at_hand := (at_hand 1 [1] toy_hash toy_hash toy_pub toy_sign PropertiesCrypto.toy_verify toy_blake toy_pay_verify vof toy_address 0 (gs "9013") (gs "9011") (gs "9012") (gs "9014")).
Example whole_open : represents toy_pub gw20 hub20 /\ ready toy_sign toy_blake hub20 /\ reaches (ce_http whole_net 0) gw20 (toy_api (street far far3) hub20) /\
  aget bytes_eqb (c_active payer) (ToString (idn 20)) = Some gw20 /\ solvent toy_pay_verify toy_address whole_net (street far far3) 0 payer gw20 hub20 (3 * defaultSearchPrice) (gs "cc") /\
  consults hub20 /\ addresses_differ hub20 /\
  (forall id address, id32 id -> near_one (without (ToString (idn 20)) known3) (ToString (idn 25)) (Z.min 2 16) (ToString id) -> pays_at hub20 id address ->
     toy_payable met_both (street far far3) hub20 address id /\ match met_both id with Some x => client_lists toy_pub payer id (at_key x) | None => True end).
Proof.
  destruct paid_dht_open as (R & Rd & _ & _ & _ & Ad & _).
  split; [exact R|]. split; [exact Rd|]. split. { intros m. unfold whole_net, net_of. cbn [ce_http]. rewrite (proj2 (bytes_eqb_eq _ _) eq_refl). reflexivity. }
  split; [vm_compute; reflexivity|]. split.
  { left. exists (Mgr (gs "me") [(r_address gw20, Chan (gs "cc") (3 * defaultSearchPrice) 0 [])] []), (Chan (gs "cc") (3 * defaultSearchPrice) 0 []). split; [|split; reflexivity].
    exists purse20, (gs "me"), (3 * defaultSearchPrice). split; [reflexivity|]. split; [reflexivity|]. split; [reflexivity|]. split; [split; [vm_compute; discriminate|vm_compute; repeat split]|]. split; [reflexivity|].
    split; [intros v _; exists (gs "me"); split; reflexivity|]. reflexivity. }
  split; [split; vm_compute; reflexivity|]. split; [exact Ad|].
  intros id a L N P.
  assert (Q : (id = idn 10 /\ a = gs "addr1") \/ (id = idn 30 /\ a = gs "addr3")).
  { assert (All : In (ToString id, a) (map (fun x => (fst x, n_address (snd x))) toy_gateways)).
    { destruct P as (i & G & <-). apply (aget_In bytes_eqb bytes_eqb_eq) in G. assert (E : gatewaysMap info (g_reg hub20) = toy_gateways) by (vm_compute; reflexivity). rewrite E in G.
      apply (in_map (fun x => (fst x, n_address (snd x)))) in G. exact G. }
    assert (Same : forall n, ToString (idn n) = ToString id -> length (idn n) = 32%nat -> id = idn n) by (intros n E H; symmetry; exact (proj2 (proj2 (proj2 (IdsProofs.id_hex_roundtrip_pf id L))) (idn n) H E)).
    cbn [map fst snd toy_gateways toy_info n_address In] in All. destruct All as [Q|[Q|[Q|[]]]]; apply pair_equal_spec in Q; destruct Q as [Q Qa].
    - left. split; [exact (Same 10 Q eq_refl)|symmetry; exact Qa].
    - exfalso. destruct N as (l & C & I). destruct C as (_ & others & Ro & _). apply rotation_perm in Ro.
      assert (X : In (ToString id) (without (ToString (idn 20)) known3)) by (apply (Permutation.Permutation_in (ToString id) (Permutation.Permutation_sym Ro)), in_or_app; left; exact I).
      rewrite <- Q in X. revert X. vm_compute. intros [X|[X|[]]]; discriminate.
    - right. split; [exact (Same 30 Q eq_refl)|symmetry; exact Qa]. }
  assert (D30 : bytes_eqb (idn 30) (idn 10) = false) by (vm_compute; reflexivity).
  unfold payable, met_both. destruct Q as [(-> & ->)|(-> & ->)].
  - rewrite (proj2 (bytes_eqb_eq _ _) eq_refl). cbn [at_env at_state at_key]. split; [split; [|split; [vm_compute; discriminate|]]|].
    + split; [|exact far_stocked]. cbn [at_env at_state at_key].
      split; [intros n; reflexivity|]. split; [intros n m; reflexivity|]. split; [vm_compute; discriminate|]. split; [reflexivity|]. split; [apply PropertiesProvider.toy_signs|].
      split; [apply toy_lists with (gs "addr1"); vm_compute; reflexivity|].
      split; [exists (idn 20), (toy_key 2); split; [reflexivity|]; split; [reflexivity|]; apply toy_lists with (gs "addr2"); vm_compute; reflexivity|].
      intros l. apply Permutation.Permutation_refl.
    + exists (chan_to "c1"). split; [|vm_compute; discriminate]. split; [exists purse20; split; reflexivity|].
      exists (NewMgr (gs "addr1")), (gs "addr2"), 10. split; [reflexivity|]. split; [split; [vm_compute; discriminate|vm_compute; repeat split]|]. split; [reflexivity|].
      split; [intros v _; exists (gs "addr2"); split; reflexivity|]. reflexivity.
    + split; [reflexivity|]. split; [reflexivity|]. exists gw10. split; [vm_compute; reflexivity|]. split; [vm_compute; reflexivity|].
      exists (KeyPair None (Some (toy_pub (idn 1))) x01). split; [vm_compute; reflexivity|apply toy_matches].
  - rewrite D30, (proj2 (bytes_eqb_eq _ _) eq_refl). cbn [at_env at_state at_key]. split; [split; [|split; [vm_compute; discriminate|]]|].
    + split; [|exact far3_stocked]. cbn [at_env at_state at_key].
      split; [intros n; reflexivity|]. split; [intros n m; unfold street, with_chain, with_net; cbn [e_net]; rewrite D30; reflexivity|]. split; [vm_compute; discriminate|]. split; [reflexivity|]. split; [apply PropertiesProvider.toy_signs|].
      split; [apply toy_lists with (gs "addr3"); vm_compute; reflexivity|].
      split; [exists (idn 20), (toy_key 2); split; [reflexivity|]; split; [reflexivity|]; apply toy_lists with (gs "addr2"); vm_compute; reflexivity|].
      intros l. apply Permutation.Permutation_refl.
    + exists (chan_to "c3"). split; [|vm_compute; discriminate]. split; [exists purse20; split; reflexivity|].
      exists (NewMgr (gs "addr3")), (gs "addr2"), 10. split; [reflexivity|]. split; [split; [vm_compute; discriminate|vm_compute; repeat split]|]. split; [reflexivity|].
      split; [intros v _; exists (gs "addr2"); split; reflexivity|]. reflexivity.
    + split; [reflexivity|]. split; [reflexivity|]. exists gw30. split; [vm_compute; reflexivity|]. split; [vm_compute; reflexivity|].
      exists (KeyPair None (Some (toy_pub (idn 3))) x01). split; [vm_compute; reflexivity|apply toy_matches].
Qed.
(** So do those of the second stage. *)
Example whole_open_then : reaches (ce_http whole_net 2) gw20 (toy_api (street far_then far3_then) hub_then) /\ 0 < g_offer hub20 <= c_offer payer /\
  (forall id x p os, In (id, p, os) [(idn 10, far_then, [off25; bad25]); (idn 30, far3_then, [off30])] -> met_both id = Some x ->
     toy_at_hand hub20 (street far_then far3_then) id x far_env3 p os).
Proof.
  assert (D30 : bytes_eqb (idn 30) (idn 10) = false) by (vm_compute; reflexivity).
  split. { intros m. unfold whole_net, net_of. cbn [ce_http]. rewrite (proj2 (bytes_eqb_eq _ _) eq_refl). reflexivity. }
  split; [split; vm_compute; [reflexivity|discriminate]|].
  intros id x p os I M. unfold met_both in M. destruct I as [E|[E|[]]]; apply pair_equal_spec in E; destruct E as [E <-]; apply pair_equal_spec in E; destruct E as [<- <-].
  - rewrite (proj2 (bytes_eqb_eq _ _) eq_refl) in M. injection M as <-. split; [|split; [|split]].
    + split; [intros n; reflexivity|]. split; [intros n m; reflexivity|]. split; [vm_compute; discriminate|]. intros l. apply Permutation.Permutation_refl.
    + split; [|reflexivity]. intros o [<-|[<-|[]]]; vm_compute; reflexivity.
    + vm_compute. discriminate.
    + exists (gs "addr1"), (chan_to "c1"). split; [eexists; split; vm_compute; reflexivity|]. split; [exists purse20; split; reflexivity|vm_compute; discriminate].
  - rewrite D30, (proj2 (bytes_eqb_eq _ _) eq_refl) in M. injection M as <-. split; [|split; [|split]].
    + split; [intros n; reflexivity|]. split; [intros n m; unfold street, with_chain, with_net; cbn [e_net]; rewrite D30; reflexivity|]. split; [vm_compute; discriminate|]. intros l. apply Permutation.Permutation_refl.
    + split; [|reflexivity]. intros o [<-|[]]; vm_compute; reflexivity.
    + vm_compute. discriminate.
    + exists (gs "addr3"), (chan_to "c3"). split; [eexists; split; vm_compute; reflexivity|]. split; [exists purse20; split; reflexivity|vm_compute; discriminate].
Qed.
