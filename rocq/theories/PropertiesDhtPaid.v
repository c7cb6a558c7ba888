(** * C195: a client, a gateway and the gateways it pays

    All programs on a network that delivers what they send, except to and from gateways
    that are silent. *)
From Coq Require Import String List ZArith Bool Lia Sorting.Sorted.
From Coq Require Import Init.Byte.
From Verif Require Import Base BaseProofs Ids Crypto Message Offer OfferProofs Schema Messages MessagesSpec WireSpec Payment Ring RingSpec Register RegisterSpec OfferStoreSpec SqlOffers SqlOffersSpec Json Rest
  Gateway GatewaySpec GatewayOfferSpec Client ClientSpec RetrievalSpec RetrievalProofs DhtSpec DhtProofs DhtPaidSpec DhtPaidProofs PropertiesMerkle PropertiesCrypto PropertiesSql ToyGateway ToyClient PropertiesRetrieval PropertiesDht.
From Verif Require AdminSpec PropertiesProvider.
Import ListNotations.
Open Scope Z_scope.

Section properties.
  Variable version : Z.
  Variable supported : list Z.
  Variable sha256 sha512_256 : bytes -> bytes.
  Variable pub_of : bytes -> bytes.
  Variable ec_sign : bytes -> bytes -> option bytes.
  Variable ec_verify : bytes -> bytes -> bytes -> bool.
  Variable blake : bytes -> bytes.
  Variable verify : gostring -> voucher -> option bytes -> bool.
  Variable voucher_text : voucher -> gostring.
  Variable voucher_of : gostring -> option voucher.
  Variable is_address : gostring -> bool.
  Variable zone : Z.
  Variables BindAdminAPI BindRestAPI BindGatewayAPI BindProviderAPI : gostring.
  (** Signatures verify; the four interfaces have addresses of their own; version numbers have their sizes; vouchers can be read. *)
  Hypothesis Law : ecdsa_correct pub_of ec_sign ec_verify.
  Hypothesis admin_rest : BindAdminAPI <> BindRestAPI.
  Hypothesis gateway_provider : BindGatewayAPI <> BindProviderAPI.
  Hypothesis version_32 : int32 version.
  Hypothesis supported_32 : Forall int32 supported.
  Hypothesis voucher_readable : forall v, v_terms v = [] -> voucher_of (voucher_text v) = Some v.
  Local Notation api := (client_api version supported sha256 sha512_256 pub_of ec_sign ec_verify blake verify voucher_text voucher_of is_address zone BindAdminAPI BindRestAPI BindGatewayAPI BindProviderAPI).
  Local Notation payable := (payable version supported sha256 sha512_256 pub_of ec_sign ec_verify blake verify voucher_of is_address zone BindAdminAPI BindRestAPI BindGatewayAPI BindProviderAPI).
  Local Notation bought := (bought version supported sha256 sha512_256 pub_of ec_sign ec_verify blake verify voucher_of is_address zone BindAdminAPI BindRestAPI BindGatewayAPI BindProviderAPI).

  (** ** C195 *)

  (** A search that the client pays for: of the gateways the one asked knows, the [num] nearest to the content (16 at most) are asked, without
      the one asking, and paid the price of a search each.  The client gets the responses of those that answer, each with the digests of the offers on
      sale there, signed by that gateway; both ends of each channel agree afterwards.  The price is also spent on gateways that are silent. *)
  Theorem paid_dht_search_exact : forall ce n gw e g cid nonce ttl num i members met channel text x g1,
    represents pub_of gw g -> ready ec_sign blake g -> reaches (ce_http ce n) gw (api e g) -> g_id g = Some i ->
    managed info (g_reg g) -> self_named (g_reg g) -> knows info (g_reg g) members -> harmless info (g_reg g) cid num (Some i) ->
    length members <> 1%nat -> 1 <= num -> Z.min num 16 <= Z.of_nat (length (without (ToString i) members)) -> int64 num ->
    int64 nonce -> int64 ttl -> unix e <= ttl -> int64 (unix e + 10) ->
    CoreReceive verify voucher_of is_address e g channel text = Ret (Some x, g1) -> g_search g * num <= x -> 0 < g_search g -> addresses_differ g ->
    (forall id address, id32 id -> near_one (without (ToString i) members) (ToString cid) (Z.min num 16) (ToString id) -> pays_at g id address -> payable met e g address id) ->
    exists ids cs m g' r,
      Client.RequestDHTDiscoverV2 version supported sha256 pub_of ec_verify blake ce n gw (Some cid) nonce ttl num channel text =
        Ret (OkR (map fst cs, map snd cs, false, []), [(r_client_ap gw, m)]) /\
      closest_ok (without (ToString i) members) (ToString cid) (Z.min num 16) (map ToString ids) /\ Forall id32 ids /\ NoDup ids /\
      map fst cs = filter (met_one met) ids /\
      (forall id, In id ids -> exists address, pays_at g id address /\ bought met cid e g g' address cs id) /\
      api e g m = Ret (g', [Json r]) /\ g_db g' = g_db g /\ settings g' = settings g /\
      (forall address ch, (forall id, In id ids -> ~ pays_at g id address) -> (channel_to g' address ch <-> channel_to g address ch)) /\
      same_gateways g g' /\
      exists m1 m2, g_pay g1 = Some m1 /\ g_pay g' = Some m2 /\ m_in m2 = m_in m1 /\ m_addr m2 = m_addr m1.
  Proof using Law admin_rest gateway_provider version_32 supported_32 voucher_readable. intros. eapply searched_paid_pf; eassumption. Qed.
End properties.
Print Assumptions paid_dht_search_exact.

(** ** A client asks gateway 20, which has channels to 10 and 30 and a price of 3 *)
Definition chan_to (a : string) : chan := Chan (gs a) 10 0 [].
Definition purse20 : mgr := Mgr (gs "addr2") [(gs "addr1", chan_to "c1"); (gs "addr3", chan_to "c3")] [].
Definition hub20 : gateway := with_pay hub purse20.
Definition with_chain (f : gostring -> option chain_state) (s : voucher -> option bytes) (e : env) : env :=
  Env (e_now e) (e_rows e) (e_fates e) f (e_gateways e) (e_providers e) (e_tx e) s (e_conn e) (e_net e).
Definition far20 : env := with_chain (fun a => if bytes_eqb a (gs "c1") then Some (ChainState 10 (Account (gs "addr1")) (Account (gs "addr2"))) else None) (fun _ => None) far_env.
Definition env20 : env :=
  with_chain (fun a => if bytes_eqb a (gs "cc") then Some (ChainState 100 (Account (gs "addr2")) (Account (gs "me"))) else None) (fun _ => Some (gs "addr2"))
    (with_net (fun _ id => bytes_eqb id (idn 10)) (fun _ id m => if bytes_eqb id (idn 10) then heard (toy_peer_api far20 far m) else None) shop_env).
Definition net20 : cenv :=
  CEnv 40 (fun _ url m => if bytes_eqb url (r_client_ap gw20) then AdminSpec.received (toy_api env20 hub20 m) else None) (fun _ => None) (fun _ => None) (Some (gs "me"))
    (fun _ => TxRefused) (fun _ => None) (fun x => x).
Definition voucher20 : gostring := Eval vm_compute in vtext (Voucher (gs "cc") 0 0 6 [] (Some (gs "me"))).
Definition search20 := Client.RequestDHTDiscoverV2 1 [1] toy_hash toy_pub PropertiesCrypto.toy_verify toy_blake net20 0 gw20 (Some (idn 25)) 7 50 2 (gs "cc") voucher20.
Definition left20 (a : string) (o : outcome (gateway * list Rest.answer)) : option Z :=
  match o with Ret (g, _) => match g_pay g with Some m => option_map left_in (aget bytes_eqb (m_out m) (gs a)) | None => None end | _ => None end.

(** Gateway 10 sells two digests for 3; gateway 30 is silent and 3 are spent on it too. *)
Example paid_dht_ex : match search20 with
  | Ret (OkR (ids, [r], false, _), [(_, m)]) => ids = [idn 10] /\
      match DecodeGatewayDHTDiscoverResponseV2 toy_hash r with
      | Ret (OkR (_, _, found, Some ds, _, required, _)) => found = true /\ required = false /\ ds = [digest_of off25; digest_of bad25]
      | _ => False
      end /\ left20 "addr1" (toy_api env20 hub20 m) = Some 7 /\ left20 "addr3" (toy_api env20 hub20 m) = Some 7
  | _ => False
  end.
Proof. vm_compute. repeat split. Qed.

(** The hypotheses hold. *)
Definition met20 (id : bytes) : option contact := if bytes_eqb id (idn 10) then Some (Contact far20 far stock25 (toy_key 1)) else None.
Example paid_dht_open : represents toy_pub gw20 hub20 /\ ready toy_sign toy_blake hub20 /\ reaches (ce_http net20 0) gw20 (toy_api env20 hub20) /\
  (exists g1, CoreReceive toy_pay_verify vof toy_address env20 hub20 (gs "cc") voucher20 = Ret (Some 6, g1)) /\ g_search hub20 * 2 <= 6 /\ addresses_differ hub20 /\
  (forall id address, id32 id -> near_one (without (ToString (idn 20)) known3) (ToString (idn 25)) (Z.min 2 16) (ToString id) -> pays_at hub20 id address ->
     payable 1 [1] toy_hash toy_hash toy_pub toy_sign PropertiesCrypto.toy_verify toy_blake toy_pay_verify vof toy_address 0 (gs "9013") (gs "9011") (gs "9012") (gs "9014") met20 env20 hub20 address id).
Proof.
  destruct hub_open as (R & (i0 & k0 & m0 & H1 & H2 & H3 & H4 & _) & _).
  split; [exact R|]. split. { exists i0, k0, purse20. repeat (split; [assumption|]). reflexivity. }
  split. { intros m. unfold net20. cbn [ce_http]. rewrite (proj2 (bytes_eqb_eq _ _) eq_refl). reflexivity. }
  split. { eexists. vm_compute. reflexivity. }
  split; [vm_compute; discriminate|].
  assert (All : forall id a, pays_at hub20 id a -> In (ToString id, a) (map (fun x => (fst x, n_address (snd x))) toy_gateways)).
  { intros id a (i & G & <-). apply (aget_In bytes_eqb bytes_eqb_eq) in G. assert (E : gatewaysMap info (g_reg hub20) = toy_gateways) by (vm_compute; reflexivity). rewrite E in G.
    apply (in_map (fun x => (fst x, n_address (snd x)))) in G. exact G. }
  split.
  { intros id id' a P P'. apply All in P, P'. cbn [map fst snd toy_gateways toy_info n_address In] in P, P'.
    destruct P as [E|[E|[E|[]]]], P' as [E'|[E'|[E'|[]]]]; apply pair_equal_spec in E, E'; destruct E as [E Ea], E' as [E' Ea']; rewrite <- E, <- E'; try reflexivity;
      exfalso; rewrite <- Ea in Ea'; revert Ea'; vm_compute; discriminate. }
  intros id a L N P. apply All in P. unfold payable, met20. destruct (bytes_eqb id (idn 10)) eqn:E.
  - apply bytes_eqb_eq in E. subst id. assert (a = gs "addr1").
    { cbn [map fst snd toy_gateways toy_info n_address In] in P. destruct P as [E|[E|[E|[]]]]; apply pair_equal_spec in E; destruct E as [E Ea]; [symmetry; exact Ea|exfalso; revert E; vm_compute; discriminate|exfalso; revert E; vm_compute; discriminate]. }
    subst a. cbn [at_env at_state]. split; [|split; [vm_compute; discriminate|]].
    + split; [|exact far_stocked]. cbn [at_env at_state at_key].
      split; [intros n; reflexivity|]. split; [intros n m; reflexivity|]. split; [vm_compute; discriminate|]. split; [reflexivity|]. split; [apply PropertiesProvider.toy_signs|].
      split; [apply toy_lists with (gs "addr1"); vm_compute; reflexivity|].
      split; [exists (idn 20), (toy_key 2); split; [reflexivity|]; split; [reflexivity|]; apply toy_lists with (gs "addr2"); vm_compute; reflexivity|].
      intros l. apply Permutation.Permutation_refl.
    + exists (chan_to "c1"). split; [|vm_compute; discriminate]. split; [exists purse20; split; reflexivity|].
      exists (NewMgr (gs "addr1")), (gs "addr2"), 10. split; [reflexivity|]. split; [split; [vm_compute; discriminate|vm_compute; repeat split]|]. split; [reflexivity|].
      split; [intros v _; exists (gs "addr2"); split; reflexivity|]. reflexivity.
  - split; [intros n; left; exact E|]. split; [intros v _; discriminate|]. exists (chan_to (if bytes_eqb a (gs "addr1") then "c1" else "c3")).
    assert (Q : a = gs "addr3").
    { cbn [map fst snd toy_gateways toy_info n_address In] in P. destruct P as [Q|[Q|[Q|[]]]]; apply pair_equal_spec in Q; destruct Q as [Q Qa]; [| |symmetry; exact Qa]; exfalso.
      - assert (id = idn 10); [|subst id; revert E; vm_compute; discriminate]. symmetry. apply (proj2 (proj2 (proj2 (IdsProofs.id_hex_roundtrip_pf id L)))); [reflexivity|exact Q].
      - destruct N as (l & C & I). destruct C as (_ & others & Ro & _). apply rotation_perm in Ro.
        assert (X : In (ToString id) (without (ToString (idn 20)) known3)) by (apply (Permutation.Permutation_in (ToString id) (Permutation.Permutation_sym Ro)), in_or_app; left; exact I).
        rewrite <- Q in X. revert X. vm_compute. intros [X|[X|[]]]; discriminate. }
    subst a. split; [exists purse20; split; reflexivity|vm_compute; discriminate].
Qed.
