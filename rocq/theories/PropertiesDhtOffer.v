(** * C196: a client, a gateway and the gateways it buys offers from

    All programs on a network that delivers what they send, except to and from gateways
    that are silent. *)
From Coq Require Import String List ZArith Bool Lia.
From Coq Require Import Init.Byte.
From Verif Require Import Base BaseProofs Ids Crypto Message Offer OfferProofs Schema Messages MessagesSpec WireSpec Payment Ring RingSpec Register RegisterSpec OfferStoreSpec SqlOffers SqlOffersSpec Json Rest
  Gateway GatewaySpec GatewayOfferSpec Client ClientSpec RetrievalSpec RetrievalProofs DhtSpec DhtProofs DhtPaidSpec DhtPaidProofs DhtOfferSpec DhtOfferProofs PropertiesMerkle PropertiesCrypto PropertiesSql ToyGateway ToyClient
  PropertiesRetrieval PropertiesDht PropertiesDhtPaid.
From Verif Require AdminSpec PropertiesProvider.
Import ListNotations.
Open Scope Z_scope.

Section properties.
  Variable version : Z.
  Variable supported : list Z.
  Variable sha256 sha512_256 : bytes -> bytes.
  Variable pub_of : bytes -> bytes.
  Variable ec_sign : bytes -> bytes -> option bytes.
  Variable ec_verify : bytes -> bytes -> bytes -> bool.
  Variable blake : bytes -> bytes.
  Variable verify : gostring -> voucher -> option bytes -> bool.
  Variable voucher_text : voucher -> gostring.
  Variable voucher_of : gostring -> option voucher.
  Variable is_address : gostring -> bool.
  Variable zone : Z.
  Variables BindAdminAPI BindRestAPI BindGatewayAPI BindProviderAPI : gostring.
  (** Signatures verify; the four interfaces have addresses of their own; version numbers and hashes have their sizes; vouchers can be read. *)
  Hypothesis Law : ecdsa_correct pub_of ec_sign ec_verify.
  Hypothesis admin_rest : BindAdminAPI <> BindRestAPI.
  Hypothesis gateway_provider : BindGatewayAPI <> BindProviderAPI.
  Hypothesis version_32 : int32 version.
  Hypothesis supported_32 : Forall int32 supported.
  Hypothesis sha256_len : forall x, length (sha256 x) = 32%nat.
  Hypothesis sha512_256_len : forall x, length (sha512_256 x) = 32%nat.
  Hypothesis voucher_readable : forall v, v_terms v = [] -> voucher_of (voucher_text v) = Some v.
  Local Notation api := (client_api version supported sha256 sha512_256 pub_of ec_sign ec_verify blake verify voucher_text voucher_of is_address zone BindAdminAPI BindRestAPI BindGatewayAPI BindProviderAPI).
  Local Notation orderable := (orderable version supported sha256 sha512_256 pub_of ec_sign ec_verify blake verify voucher_of is_address zone BindAdminAPI BindRestAPI BindGatewayAPI BindProviderAPI).
  Local Notation charged := (charged version supported sha256 sha512_256 pub_of ec_sign ec_verify blake verify voucher_of is_address zone BindAdminAPI BindRestAPI BindGatewayAPI BindProviderAPI).

  (** ** C196 *)

  (** Offers bought through a gateway: with the price of all the digests received, the gateway asks each of the others for the digests meant
      for it, and pays its price for each.  The client gets, from each gateway that answers, the sub-offers with these digests in the order asked; both ends
      of each channel agree afterwards.  The money is also spent on gateways that are silent, and the gateways that sell multiply their price. *)
  Theorem paid_dht_offers_exact : forall ce n gw e g cid nonce (rows : list order) met channel text x g1,
    represents pub_of gw g -> ready ec_sign blake g -> reaches (ce_http ce n) gw (api e g) ->
    consults g -> addresses_differ g -> NoDup (map fst rows) -> Forall id32 (map fst rows) -> id32 cid -> int64 nonce -> 0 < g_offer g ->
    CoreReceive verify voucher_of is_address e g channel text = Ret (Some x, g1) -> price_of_all g rows <= x ->
    (forall id ds, In (id, ds) rows -> ds <> [] /\ exists address, pays_at g id address /\ orderable met e g address id ds) ->
    exists m g' r,
      RequestDHTOfferDiscover version supported sha256 pub_of ec_verify blake ce n gw (map fst rows) (Some cid) nonce (Some (map (fun r : order => Some (snd r)) rows)) channel text =
        Ret (OkR (delivery met cid rows), [(r_client_ap gw, m)]) /\
      (forall id ds, In (id, ds) rows -> exists address, pays_at g id address /\ charged met e g g' address id ds) /\
      api e g m = Ret (g', [Json r]) /\ g_db g' = g_db g /\ g_reg g' = g_reg g /\ settings g' = settings g /\
      (forall address ch, (forall id, In id (map fst rows) -> ~ pays_at g id address) -> (channel_to g' address ch <-> channel_to g address ch)) /\
      exists m1 m2, g_pay g1 = Some m1 /\ g_pay g' = Some m2 /\ m_in m2 = m_in m1 /\ m_addr m2 = m_addr m1.
  Proof using Law admin_rest gateway_provider version_32 supported_32 sha256_len sha512_256_len voucher_readable. intros. eapply ordered_pf; eassumption. Qed.
End properties.
Print Assumptions paid_dht_offers_exact.

(** ** A client buys two offers of gateway 10 and one of gateway 30 from gateway 20 *)
Definition orders20 : list order := [(idn 10, [digest_of off25; digest_of bad25]); (idn 30, [digest_of off25])].
Definition voucher20b : gostring := Eval vm_compute in vtext (Voucher (gs "cc") 0 0 (price_of_all hub20 orders20) [] (Some (gs "me"))).
Definition buy20 := RequestDHTOfferDiscover 1 [1] toy_hash toy_pub PropertiesCrypto.toy_verify toy_blake net20 0 gw20 (map fst orders20) (Some (idn 25)) 7
  (Some (map (fun r : order => Some (snd r)) orders20)) (gs "cc") voucher20b.

(** Gateway 10 delivers both for 4; gateway 30 is silent and 2 are spent on it too. *)
Example paid_dht_offers_ex : match buy20 with
  | Ret (OkR l, [(_, m)]) => l = [(idn 10, [GenerateSubCIDOffer off25 (idn 25); GenerateSubCIDOffer bad25 (idn 25)])] /\
      left20 "addr1" (toy_api env20 hub20 m) = Some 6 /\ left20 "addr3" (toy_api env20 hub20 m) = Some 8
  | _ => False
  end.
Proof. vm_compute. repeat split. Qed.

(** The hypotheses hold. *)
Definition sold20 (id : bytes) : option (contact * list offer) := if bytes_eqb id (idn 10) then Some (Contact far20 far stock25 (toy_key 1), [off25; bad25]) else None.
Example paid_dht_offers_open : represents toy_pub gw20 hub20 /\ ready toy_sign toy_blake hub20 /\ reaches (ce_http net20 0) gw20 (toy_api env20 hub20) /\
  consults hub20 /\ addresses_differ hub20 /\ NoDup (map fst orders20) /\ Forall id32 (map fst orders20) /\ 0 < g_offer hub20 /\
  (exists g1, CoreReceive toy_pay_verify vof toy_address env20 hub20 (gs "cc") voucher20b = Ret (Some (price_of_all hub20 orders20), g1)) /\
  (forall id ds, In (id, ds) orders20 -> ds <> [] /\ exists address, pays_at hub20 id address /\
     orderable 1 [1] toy_hash toy_hash toy_pub toy_sign PropertiesCrypto.toy_verify toy_blake toy_pay_verify vof toy_address 0 (gs "9013") (gs "9011") (gs "9012") (gs "9014") sold20 env20 hub20 address id ds).
Proof.
  destruct paid_dht_open as (R & Rd & Re & _ & _ & Ad & _).
  split; [exact R|]. split; [exact Rd|]. split; [exact Re|]. split; [split; vm_compute; reflexivity|]. split; [exact Ad|].
  split. { constructor; [|constructor; [intros []|constructor]]. intros [E|[]]. revert E. vm_compute. discriminate. }
  split; [repeat constructor|]. split; [vm_compute; reflexivity|]. split. { eexists. vm_compute. reflexivity. }
  intros id ds [E|[E|[]]]; apply pair_equal_spec in E; destruct E as [<- <-]; (split; [discriminate|]).
  - exists (gs "addr1"). split; [eexists; split; vm_compute; reflexivity|]. unfold orderable, sold20. rewrite (proj2 (bytes_eqb_eq _ _) eq_refl).
    split; [|split; [|split; [vm_compute; discriminate|]]].
    + split; [|exact far_stocked]. cbn [at_env at_state at_key].
      split; [intros n; reflexivity|]. split; [intros n m; reflexivity|]. split; [vm_compute; discriminate|]. split; [reflexivity|]. split; [apply PropertiesProvider.toy_signs|].
      split; [apply toy_lists with (gs "addr1"); vm_compute; reflexivity|].
      split; [exists (idn 20), (toy_key 2); split; [reflexivity|]; split; [reflexivity|]; apply toy_lists with (gs "addr2"); vm_compute; reflexivity|].
      intros l. apply Permutation.Permutation_refl.
    + unfold in_stock. cbn [at_env at_hist]. constructor; [|constructor; [|constructor]]; (split; [|split; [vm_compute; reflexivity|eexists; split; vm_compute; reflexivity]]).
      * exists [], well, [(bad25, well)]. split; [reflexivity|]. split; [reflexivity|]. intros o' f' [].
      * exists [(off25, well)], well, []. split; [reflexivity|]. split; [reflexivity|]. intros o' f' [E|[]] (_ & _ & T & _). apply (f_equal fst) in E. cbn [fst] in E. subst o'. exfalso. revert T. vm_compute. discriminate.
    + exists (chan_to "c1"). split; [|vm_compute; discriminate]. split; [exists purse20; split; reflexivity|].
      exists (NewMgr (gs "addr1")), (gs "addr2"), 10. split; [reflexivity|]. split; [split; [vm_compute; discriminate|vm_compute; repeat split]|]. split; [reflexivity|].
      split; [intros v _; exists (gs "addr2"); split; reflexivity|]. reflexivity.
  - exists (gs "addr3"). split; [eexists; split; vm_compute; reflexivity|]. unfold orderable, sold20. replace (bytes_eqb (idn 30) (idn 10)) with false by (vm_compute; reflexivity).
    split; [intros n; left; reflexivity|]. split; [intros v _; discriminate|]. exists (chan_to "c3"). split; [exists purse20; split; reflexivity|vm_compute; discriminate].
Qed.
