(** * Proofs about a client and a gateway together *)
From Coq Require Import String List ZArith Bool Lia Permutation.
From Coq Require Import Init.Byte.
From Verif Require Import Base BaseProofs Ids Crypto CryptoProofs Message MessageProofs Offer OfferProofs Schema SchemaProofs Messages MessagesSpec MessagesProofs WireSpec Payment PaymentProofs Register
  OfferStoreSpec SqlOffers SqlOffersSpec SqlOffersProofs Json Rest Routes RoutesProofs Gateway GatewaySpec GatewayProofs GatewayStoreProofs GatewayOfferSpec GatewayOfferProofs Client ClientSpec ClientProofs ClientFindProofs RetrievalSpec.
From Verif Require AdminSpec AdminProofs AdminNodeProofs.
Import ListNotations.
Open Scope Z_scope.

Section meet.
  Variable version : Z.
  Variable supported : list Z.
  Variable sha256 sha512_256 : bytes -> bytes.
  Variable pub_of : bytes -> bytes.
  Variable ec_sign : bytes -> bytes -> option bytes.
  Variable ec_verify : bytes -> bytes -> bytes -> bool.
  Variable blake : bytes -> bytes.
  Variable verify : gostring -> voucher -> option bytes -> bool.
  Variable voucher_text : voucher -> gostring.
  Variable voucher_of : gostring -> option voucher.
  Variable is_address : gostring -> bool.
  Variable zone : Z.
  Variables BindAdminAPI BindRestAPI BindGatewayAPI BindProviderAPI : gostring.
  Variable rand_int : list draw -> Z.
  Variable rand_bytes : list draw -> bytes.
  Hypothesis Law : ecdsa_correct pub_of ec_sign ec_verify.
  Hypothesis AC : BindAdminAPI <> BindRestAPI.
  Hypothesis GP : BindGatewayAPI <> BindProviderAPI.
  Hypothesis sha256_len : forall x, length (sha256 x) = 32%nat.
  Hypothesis sha512_256_len : forall x, length (sha512_256 x) = 32%nat.
  Hypothesis rand_int_64 : forall l, int64 (rand_int l).
  Hypothesis rand_bytes_32 : forall l, length (rand_bytes l) = 32%nat.
  Hypothesis voucher_readable : forall v, v_terms v = [] -> voucher_of (voucher_text v) = Some v.
  Implicit Types (c : client) (g : gateway) (gw : reg) (e : env) (ce : cenv) (m : message).

  Local Notation api := (client_api version supported sha256 sha512_256 pub_of ec_sign ec_verify blake verify voucher_text voucher_of is_address zone BindAdminAPI BindRestAPI BindGatewayAPI BindProviderAPI).
  Local Notation routed := (routed BindAdminAPI BindRestAPI BindGatewayAPI BindProviderAPI).
  Local Notation of_key := (AdminSpec.of_key pub_of ec_verify blake).
  Local Notation represents := (represents pub_of).
  Local Notation receive := (CoreReceive verify voucher_of is_address).
  Local Notation account := (account verify is_address).
  Local Notation sifted := (ClientSpec.sifted sha256 pub_of ec_verify blake).
  Local Notation acceptable := (ClientSpec.acceptable sha256 pub_of ec_verify blake).
  Local Notation check_offer := (Client.check_offer sha256 pub_of ec_verify blake).
  Local Notation check_offers := (Client.check_offers sha256 pub_of ec_verify blake).
  Local Notation take_offers := (Client.take_offers sha256 pub_of ec_verify blake).

  Lemma client_route n k m : k <> KGatewayPingRequest -> m_type m = type_of k -> request k = Some (n, ByClient) -> routed n ByClient (m_type m) = Some k.
  Proof using AC GP. intros N T R. rewrite T, routed_type by assumption. rewrite R. destruct n; reflexivity. Qed.
  Ltac tagged H := apply rbind_inv in H; destruct H as (? & H & _); exact (AdminNodeProofs.decoded_tag _ _ _ _ _ H).

  (** ** Asking *)
  Lemma ask_served ce n gw k encoded request r : AdminSpec.registered_with pub_of gw k -> encoded = Ret request ->
    ce_http ce n (r_client_ap gw) request = Some r -> of_key k r ->
    ask pub_of ec_verify blake ce n gw encoded = Ret (Some r, [(r_client_ap gw, request)]).
  Proof using.
    intros (pk & P & M) -> H O. unfold ask. cbn [obind]. rewrite H. unfold GetSigningKey. rewrite P. cbn [obind].
    rewrite message_verify_state. rewrite (O pk M). reflexivity.
  Qed.

  (** ** Establishment *)
  Lemma api_establishment e g m i ch ttl : DecodeClientEstablishmentRequest sha256 m = Ret (OkR (i, ch, ttl)) ->
    api e g m = (let* s := HandleEstablishment version supported sha256 ec_sign blake e g m in Ret (after s, wrote s))%go.
  Proof using AC GP. intros D. unfold client_api. rewrite (client_route AtGateway KClientEstablishmentRequest); [reflexivity|discriminate|tagged D|reflexivity]. Qed.

  Lemma established_pf ce n c gw e g i challenge ttl k : represents gw g -> ready ec_sign blake g -> g_key g = Some k -> reaches (ce_http ce n) gw (api e g) ->
    length challenge = 32%nat -> c_id c = Some i -> id32 i -> int64 ttl -> unix e <= ttl ->
    exists m r, RequestEstablishment version supported sha256 pub_of ec_verify blake ce n gw challenge (c_id c) ttl = Ret (true, [(r_client_ap gw, m)]) /\ api e g m = Ret (g, [Json r]).
  Proof using Law AC GP.
    clear sha256_len sha512_256_len rand_int_64 rand_bytes_32 voucher_readable.
    intros (id & k' & Gi & Ri & Gk & Rk) (id' & k'' & mg & Gi' & Hi & Gk' & Cs & Gp) K R L Ci Ii It T.
    assert (k' = k) by congruence. assert (k'' = k) by congruence. assert (id' = id) by congruence. subst k' k'' id'.
    unfold RequestEstablishment. rewrite L. cbn [Nat.eqb negb]. rewrite Ci.
    destruct (rt_ClientEstablishmentRequest version supported sha256 i (b64_encode challenge) ttl Ii It) as (m & En & _ & D).
    destruct (rt_ClientEstablishmentResponse version supported sha256 id (b64_encode challenge) Hi) as (b & Eb & _ & Db).
    destruct (AdminNodeProofs.finish_can pub_of ec_sign ec_verify blake Law g k b Gk Cs) as (s & F & O).
    assert (A : api e g m = Ret (g, [Json (set_sig b s)])).
    { rewrite (api_establishment _ _ _ _ _ _ D). unfold HandleEstablishment. rewrite D. cbn [obind deref]. replace (unix e >? ttl) with false by lia.
      rewrite Gi, Eb. cbn [obind]. rewrite F. reflexivity. }
    assert (H : ce_http ce n (r_client_ap gw) m = Some (set_sig b s)) by (rewrite R, A; reflexivity).
    exists m, (set_sig b s). split; [|exact A]. rewrite (ask_served ce n gw k _ m _ Rk En H O). cbn [obind].
    change (DecodeClientEstablishmentResponse sha256 (set_sig b s)) with (DecodeClientEstablishmentResponse sha256 b). rewrite Db. cbn [obind deref].
    rewrite Ri. rewrite !AdminNodeProofs.text_eq_refl. reflexivity.
  Qed.

  Lemma activated_pf ce n c gw e g id i : represents gw g -> ready ec_sign blake g -> reaches (ce_http ce n) gw (api e g) ->
    aget bytes_eqb (c_active c) (ToString id) = None -> aget bytes_eqb (c_use c) (lower (ToString id)) = Some gw ->
    c_id c = Some i -> id32 i -> int64 (ce_now ce + c_ttl c) -> unix e <= ce_now ce + c_ttl c ->
    exists m r, AddActiveGateways version supported sha256 pub_of ec_verify blake rand_bytes ce n c [Some id] =
        Ret (1, with_active (drew c DrawBytes32) (aset bytes_eqb (c_active c) (ToString id) gw), [(r_client_ap gw, m)]) /\ api e g m = Ret (g, [Json r]).
  Proof using Law AC GP rand_bytes_32.
    intros Rp Rd Re Na U Ci Ii It T. assert (Rd' := Rd). destruct Rd' as (id' & k & mg & _ & _ & Gk & _ & _).
    destruct (established_pf ce n c gw e g i (rand_bytes (c_drawn c)) (ce_now ce + c_ttl c) k Rp Rd Gk Re (rand_bytes_32 _) Ci Ii It T) as (m & r & E & A).
    exists m, r. split; [|exact A]. cbn [AddActiveGateways deref obind]. rewrite Na, U. cbn [c_id drew c_ttl]. rewrite E. cbn [obind negb]. reflexivity.
  Qed.

  (** ** Checking offers *)
  Lemma verify_returns s i : s_provider s = Some i -> forall k, exists b, SubOfferVerify pub_of ec_verify blake s k = Ret b.
  Proof using. intros E k. unfold SubOfferVerify, SubOfferToSign. rewrite E. cbn [deref obind]. destruct (fst _) as [[|]|]; eauto. Qed.
  Lemma check_returns c s i b : keyed c -> s_provider s = Some i -> VerifyMerkleProof sha256 s = Ret b ->
    exists ok c', check_offer c s = Ret (ok, c').
  Proof using.
    intros K P M. unfold Client.check_offer, FindProvider. rewrite P.
    assert (G : exists x mm, GetProvider reg (c_reg c) (Some i) = Ret (x, mm) /\ (x = None \/ x = aget bytes_eqb (providersMap reg (c_reg c)) (ToString i))).
    { unfold GetProvider. destruct (negb _ || negb _); [eauto|]. cbn [deref obind RLock RUnlock]. destruct (aget _ _ _) as [p|] eqn:G; cbn [obind]; eauto. }
    destruct G as (x & mm & -> & [->|G]); cbn [obind fst snd]; [eauto|]. destruct x as [p|]; [|eauto].
    destruct (K _ p (eq_sym G)) as [K1 K2]. destruct (decode_keys_total _ K1) as (_ & k1 & D1). destruct (decode_keys_total _ K2) as (_ & k2 & D2).
    unfold validateProviderInfo, keys_readable, GetRootSigningKey, GetSigningKey. rewrite D1, D2.
    destruct (_ || _); cbn [obind negb]; [eauto|]. destruct k1 as [k1|]; cbn [obind negb]; [|eauto]. destruct k2 as [k2|]; cbn [obind negb]; [|eauto].
    destruct (verify_returns s i P k2) as (ok & ->). cbn [obind]. destruct ok; cbn [negb]; [|eauto]. rewrite M. cbn [obind]. eauto.
  Qed.
  Lemma keyed_same c c' : same_providers c c' -> keyed c -> keyed c'.
  Proof using. intros (_ & _ & E) K id p. rewrite E. apply K. Qed.
  Definition checkable (s : suboffer) : Prop := exists i b, s_provider s = Some i /\ VerifyMerkleProof sha256 s = Ret b.
  Lemma checks_return l : Forall checkable l -> forall c, keyed c -> exists r c', check_offers c l = Ret (r, c').
  Proof using.
    induction 1 as [|s l (i & b & P & M) F IH]; intros c K; cbn [Client.check_offers]; [eauto|].
    destruct (check_returns c s i b K P M) as (ok & c1 & E). rewrite E. cbn [obind]. destruct (check_offer_exact _ _ _ _ _ _ _ _ E) as (S & _).
    destruct (IH c1 (keyed_same _ _ S K)) as (r & c2 & E2). rewrite E2. cbn [obind]. eauto.
  Qed.
  Lemma takes_return l : Forall checkable l -> forall c taken max, keyed c -> exists r c', take_offers c l taken max = Ret (r, c').
  Proof using.
    induction 1 as [|s l (i & b & P & M) F IH]; intros c taken max K; cbn [Client.take_offers]; [eauto|].
    destruct (check_returns c s i b K P M) as (ok & c1 & E). rewrite E. cbn [obind]. destruct (check_offer_exact _ _ _ _ _ _ _ _ E) as (S & _).
    assert (K1 := keyed_same _ _ S K). destruct ok; [|apply IH; exact K1]. destruct (_ =? _); [eauto|].
    destruct (IH c1 (taken + 1) max K1) as (r & c2 & E2). rewrite E2. cbn [obind]. eauto.
  Qed.

  (** Offers on sale can be checked by clients. *)
  Lemma sale_recorded hist now cid os o : on_sale zone hist now cid os -> In o os -> recorded hist o /\ SqlOffers.fresh zone now (o_expiry o) = true /\ In cid (o_cids o).
  Proof using.
    intros (l & _ & M & P) I. apply (Permutation_in _ P), in_flat_map in I. destruct I as (y & Y & I). apply copies_in in I. destruct I as [-> I].
    destruct (proj1 (M y) Y) as [R F]. split; [exact R|]. split; [exact F|exact I].
  Qed.
  Lemma sale_checkable hist now cid os : proper_attempts sha256 sha512_256 hist -> on_sale zone hist now cid os -> Forall checkable (map (fun o => GenerateSubCIDOffer o cid) os).
  Proof using.
    intros [P _] S. apply Forall_forall. intros s I. apply in_map_iff in I. destruct I as (o & <- & I). destruct (sale_recorded _ _ _ _ _ S I) as (R & _ & C).
    destruct (GatewayProofs.recorded_in _ _ R) as (f & If). destruct (P _ _ If) as (W & _). assert (Pv := wire_provider sha256 o W).
    destruct (o_provider o) as [i|] eqn:Ei; [|congruence]. exists i, true. split; [exact Ei|]. apply sub_proves; assumption.
  Qed.
  Lemma stock_on_sale e g hist cid : stocked sha256 sha512_256 g hist -> all_undisturbed hist -> shuffle (e_rows e) -> id32 cid ->
    exists os found, selectOffersSingle sha256 (e_rows e) zone (e_now e) (g_db g) cid = Ret (os, found) /\ on_sale zone hist (e_now e) cid os /\ (found = true <-> os <> []).
  Proof using.
    intros [P D] U S C. destruct (sql_single_exact_pf sha256 sha512_256 hist (g_db g) zone (e_now e) (e_rows e) cid P U D S C) as (os & found & l & Q & N & M & Pm & F).
    exists os, found. split; [exact Q|]. split; [exists l; auto|exact F].
  Qed.

  (** ** Standard discovery *)
  Lemma api_standard e g m x : DecodeClientStandardDiscoverRequest sha256 m = Ret (OkR x) ->
    api e g m = (let* s := HandleStandardDiscover version supported sha256 ec_sign blake zone e g m in Ret (after s, wrote s))%go.
  Proof using AC GP. intros D. destruct x as ((((x1 & x2) & x3) & x4) & x5). unfold client_api. rewrite (client_route AtGateway KClientStandardDiscoverRequest); [reflexivity|discriminate|tagged D|reflexivity]. Qed.

  Lemma found_standard_pf ce c gw e g hist cid gid : represents gw g -> ready ec_sign blake g -> reaches (ce_http ce 0) gw (api e g) ->
    aget bytes_eqb (c_active c) (ToString gid) = Some gw -> stocked sha256 sha512_256 g hist -> all_undisturbed hist -> sized hist -> shuffle (e_rows e) ->
    id32 cid -> int64 (ce_now ce + c_ttl c) -> unix e <= ce_now ce + c_ttl c -> keyed c ->
    exists os c' m r, FindOffersStandardDiscovery version supported sha256 pub_of ec_verify blake rand_int ce c (Some cid) (Some gid) =
        Ret (OkR (map (fun o => GenerateSubCIDOffer o cid) os), c', [(r_client_ap gw, m)]) /\
      on_sale zone hist (e_now e) cid os /\ api e g m = Ret (g, [Json r]).
  Proof using Law AC GP sha256_len rand_int_64.
    clear sha512_256_len rand_bytes_32 voucher_readable.
    intros (id & k' & Gi & Ri & Gk & Rk) (id' & k & mg & Gi' & Hi & Gk' & Cs & Gp) Re Ac St U Sz Sh Hc It T Ky.
    assert (k' = k) by congruence. subst k'.
    destruct (stock_on_sale e g hist cid St U Sh Hc) as (os & found & Q & S & _).
    destruct (rt_ClientStandardDiscoverRequest version supported sha256 cid (rand_int (c_drawn c)) (ce_now ce + c_ttl c) [] [] Hc (rand_int_64 _) It) as (m & En & _ & D).
    destruct (rt_ClientStandardDiscoverResponse version supported sha256 cid (rand_int (c_drawn c)) found (Some (map (fun o => GenerateSubCIDOffer o cid) os)) (Some (falses os)) Hc (rand_int_64 _))
      as (b & Eb & _ & Db).
    { cbn [each]. apply Forall_forall. intros s I. apply in_map_iff in I. destruct I as (o & <- & I). destruct (sale_recorded _ _ _ _ _ S I) as (R & _).
      destruct St as [P _]. apply (recorded_wire sha256 sha512_256 sha256_len hist); assumption. }
    destruct (AdminNodeProofs.finish_can pub_of ec_sign ec_verify blake Law g k b Gk Cs) as (s & F & O).
    assert (A : api e g m = Ret (g, [Json (set_sig b s)])).
    { rewrite (api_standard _ _ _ _ D). unfold HandleStandardDiscover. rewrite D. cbn [obind deref]. replace (unix e >? (ce_now ce + c_ttl c)) with false by lia.
      unfold CoreGetOffers. cbn [deref obind]. rewrite Q. cbn [obind fst snd]. rewrite suboffers_total. cbn [obind]. rewrite Eb. cbn [obind]. rewrite F. reflexivity. }
    assert (H : ce_http ce 0 (r_client_ap gw) m = Some (set_sig b s)) by (rewrite Re, A; reflexivity).
    destruct (checks_return _ (sale_checkable _ _ _ _ (proj1 St) S) (drew c DrawInt63) Ky) as (rr & c' & Ck).
    exists os, c', m, (set_sig b s). split; [|split; [exact S|exact A]].
    unfold FindOffersStandardDiscovery. cbn [deref obind]. rewrite Ac. unfold RequestStandardDiscover. cbn [c_ttl drew].
    rewrite (ask_served ce 0 gw k _ m _ Rk En H O). cbn [obind].
    change (DecodeClientStandardDiscoverResponse sha256 (set_sig b s)) with (DecodeClientStandardDiscoverResponse sha256 b). rewrite Db. cbn [obind deref].
    rewrite AdminNodeProofs.text_eq_refl, Z.eqb_refl. cbn [negb obind items]. fold (drew c DrawInt63). rewrite Ck. reflexivity.
  Qed.
  (** ** Paying *)
  Lemma aset_get {A} (l : list (gostring * A)) k v : aget bytes_eqb (aset bytes_eqb l k v) k = Some v.
  Proof using. rewrite (aget_aset bytes_eqb bytes_eqb_eq). rewrite AdminNodeProofs.text_eq_refl. reflexivity. Qed.

  (** The voucher the client makes is worth to the gateway what the client counts. *)
  Lemma paid_and_received ce e c gw g mg ch a : account ce e c gw g mg ch -> 0 < a -> a <= left_in ch ->
    exists v mg' ch' g' n', PayNow ce c (r_address gw) a = Ret (Paid (c_addr ch) v, with_mgr c mg') /\ receive e g (c_addr ch) (voucher_text v) = Ret (Some a, g') /\ g' = with_pay g n' /\
      left_in ch' = left_in ch - a /\ c_addr ch' = c_addr ch /\ account ce e (with_mgr c mg') gw g' mg' ch'.
  Proof using voucher_readable blake ec_sign ec_verify pub_of sha256 sha512_256.
    clear sha256_len sha512_256_len rand_int_64 rand_bytes_32 Law AC GP.
    intros (n & from & b & Cp & Gp & Go & (Lb & St) & Ad & Sg & Ch) Pa Le. unfold left_in in Le.
    set (ls := get_lane ch 0) in *. set (sv := Voucher (c_addr ch) 0 (l_nonce ls) (l_redeemed ls + a) [] None).
    destruct (Sg sv eq_refl) as (s & Es & Vs). set (v := Voucher (c_addr ch) 0 (l_nonce ls) (l_redeemed ls + a) [] (Some s)).
    set (ch' := Chan (c_addr ch) (c_balance ch) (c_redeemed ch + a) (aset Z.eqb (c_lanes ch) 0 (Lane (incr64 (l_nonce ls)) (l_redeemed ls + a) (l_vouchers ls ++ [v])))).
    set (mg' := Mgr (m_addr mg) (aset bytes_eqb (m_out mg) (r_address gw) ch') (m_in mg)).
    assert (P : PayNow ce c (r_address gw) a = Ret (Paid (c_addr ch) v, with_mgr c mg')).
    { unfold PayNow. rewrite Cp. cbn [deref obind]. unfold Pay, defaultPaymentLane. rewrite Go. replace (c_balance ch <? c_redeemed ch + a) with false by lia.
      fold ls. fold sv. rewrite Es. reflexivity. }
    set (d := match aget bytes_eqb (m_in n) (c_addr ch) with Some d => Chan (c_addr d) b (c_redeemed d) (c_lanes d) | None => Chan (c_addr ch) b 0 [] end).
    assert (Ed : c_balance d = b /\ c_redeemed d = c_redeemed ch /\ l_redeemed (get_lane d 0) = l_redeemed ls /\ l_nonce (get_lane d 0) = l_nonce ls).
    { unfold d. destruct (aget bytes_eqb (m_in n) (c_addr ch)) as [d0|].
      - destruct St as (_ & S1 & S2 & S3). split; [reflexivity|]. split; [exact S1|]. split; [exact S2|exact S3].
      - destruct St as (S1 & S2 & S3). rewrite S1, S2, S3. repeat split. }
    destruct Ed as (D1 & D2 & D3 & D4).
    set (dl := Lane (incr64 (l_nonce ls)) (l_redeemed ls + a) (l_vouchers (get_lane d 0) ++ [v])).
    set (d' := Chan (c_addr d) b (c_redeemed ch + a) (aset Z.eqb (c_lanes d) 0 dl)).
    assert (On : ReceiveOn verify (m_addr n) d v (ChainState b (Account (m_addr n)) (Account from)) = (d', Credited a)).
    { unfold ReceiveOn. cbn [ch_to ch_from]. rewrite AdminNodeProofs.text_eq_refl. cbn [negb]. change (unsigned v) with sv. cbn [v_sig v]. rewrite Vs. cbn [negb].
      cbn [v_lane v_nonce v_amount v]. rewrite D4, D3. rewrite Z.ltb_irrefl. replace (l_redeemed ls + a <=? l_redeemed ls) with false by lia.
      replace (l_redeemed ls + a - l_redeemed ls) with a by lia. rewrite D1, D2. replace (b <? c_redeemed ch + a) with false by lia. reflexivity. }
    set (n' := put_in n (c_addr ch) d').
    assert (R : Receive verify n (c_addr ch) (Some v) (Some (ChainState b (Account (m_addr n)) (Account from))) = (n', Credited a)).
    { unfold Receive. unfold d in *. destruct (aget bytes_eqb (m_in n) (c_addr ch)) as [d0|].
      - unfold ReceiveUpdate. cbn [ch_balance]. destruct St as (S0 & _). replace (b <? c_balance d0) with false by lia. rewrite On. reflexivity.
      - unfold ReceiveCreate. cbn [ch_balance]. rewrite On. reflexivity. }
    exists v, mg', ch', (with_pay g n'), n'. split; [exact P|]. split.
    { unfold CoreReceive. rewrite Gp, Ad, (voucher_readable v eq_refl), Ch, R. reflexivity. }
    split; [reflexivity|]. split; [unfold left_in, ch'; cbn [c_balance c_redeemed]; lia|]. split; [reflexivity|].
    exists n', from, b. split; [reflexivity|]. split; [reflexivity|]. split; [apply aset_get|]. split.
    { split; [exact Lb|]. change (c_addr ch') with (c_addr ch). unfold n', put_in. cbn [m_in]. rewrite aset_get. unfold d', ch'. rewrite !get_lane_set, Z.eqb_refl.
      cbn [c_balance c_redeemed l_redeemed l_nonce]. split; [lia|]. split; [reflexivity|]. split; reflexivity. }
    split; [exact Ad|]. split; [exact Sg|exact Ch].
  Qed.

  Lemma pay_or_topup_paid ce k c gw a chn v c' : PayNow ce c (r_address gw) a = Ret (Paid chn v, c') -> PayOrTopup voucher_text ce k c (r_address gw) a = Ret (OkR (chn, voucher_text v), c').
  Proof using. intros H. unfold PayOrTopup. rewrite H. reflexivity. Qed.
  Lemma account_env ce ce' e e' c c' gw g g' mg ch : account ce e c gw g mg ch -> c_pay c' = c_pay c -> g_pay g' = g_pay g -> ce_sign ce' = ce_sign ce ->
    e_chain e' (c_addr ch) = e_chain e (c_addr ch) -> account ce' e' c' gw g' mg ch.
  Proof using.
    intros (n & from & b & Cp & Gp & Go & S & Ad & Sg & Ch) E1 E2 E3 E4. exists n, from, b. rewrite E1, E2, E4. repeat (split; [assumption|]).
    split; [|exact Ch]. intros v Hv. rewrite E3. exact (Sg v Hv).
  Qed.

  (** A first payment opens the channel. *)
  Lemma topup_account ce k c gw g mg e n from b a x : c_pay c = Some mg -> g_pay g = Some n -> aget bytes_eqb (m_out mg) (r_address gw) = None ->
    ce_tx ce (2 * k) = TxDone (Some a) -> is_address a = true -> aget bytes_eqb (m_in n) a = None -> signs_for verify ce from ->
    e_chain e a = Some (ChainState b (Account (m_addr n)) (Account from)) -> c_topup c <= b -> 0 <= x -> x <= c_topup c ->
    let mg' := Mgr (m_addr mg) (aset bytes_eqb (m_out mg) (r_address gw) (Chan a (c_topup c) 0 [])) (m_in mg) in
    account ce e (with_mgr c mg') gw g mg' (Chan a (c_topup c) 0 []) /\
    forall v mg2, PayNow ce (with_mgr c mg') (r_address gw) x = Ret (Paid a v, with_mgr (with_mgr c mg') mg2) ->
      PayOrTopup voucher_text ce k c (r_address gw) x = Ret (OkR (a, voucher_text v), with_mgr c mg2).
  Proof using.
    intros Cp Gp Go Tx Ad In Sg Ch Le X0 X1 mg'. split.
    - exists n, from, b. split; [reflexivity|]. split; [exact Gp|]. split; [apply aset_get|]. split; [|auto].
      split; [exact Le|]. cbn [c_addr]. rewrite In. repeat split.
    - intros v mg2 P. unfold PayOrTopup, PayNow in *. rewrite Cp. cbn [deref obind c_pay with_mgr] in *.
      unfold Pay at 1. rewrite Go. cbn [obind]. unfold TopupAndPay, PaymentMgr. cbn [c_pay with_mgr]. cbn [deref obind].
      unfold topupAndPay. unfold Topup at 1. rewrite Go. cbn [c_topup with_mgr]. unfold TopupCreate. rewrite Tx. fold mg'. cbn [negb].
      destruct (Pay mg' (r_address gw) defaultPaymentLane x (ce_sign ce)) as [m2 p2]. apply ret_inj in P. injection P as -> P. subst m2. reflexivity.
  Qed.

  Lemma paid_first ce e k c gw g funds chn a : solvent verify is_address ce e k c gw g funds chn -> 0 < a -> a <= funds ->
    exists v mg' ch' g' n', PayOrTopup voucher_text ce k c (r_address gw) a = Ret (OkR (chn, voucher_text v), with_mgr c mg') /\ receive e g chn (voucher_text v) = Ret (Some a, g') /\ g' = with_pay g n' /\ left_in ch' = funds - a /\ c_addr ch' = chn /\ account ce e (with_mgr c mg') gw g' mg' ch'.
  Proof using voucher_readable blake ec_sign ec_verify pub_of sha256 sha512_256.
    intros [(mg & ch & A & -> & ->)|(mg & n & from & b & Cp & Gp & Go & Tx & Ad & In & Sg & Ch & Le & ->)] P0 P1.
    - destruct (paid_and_received ce e c gw g mg ch a A P0 P1) as (v & mg1 & ch1 & g1 & n1 & P & R). exists v, mg1, ch1, g1, n1. split; [exact (pay_or_topup_paid ce k c gw _ _ _ _ P)|exact R].
    - destruct (topup_account ce k c gw g mg e n from b chn a Cp Gp Go Tx Ad In Sg Ch Le (Z.lt_le_incl _ _ P0) P1) as [A T].
      destruct (paid_and_received ce e _ gw g _ _ a A P0) as (v & mg1 & ch1 & g1 & n1 & P & R & G & L & Ad1 & A1); [unfold left_in; cbn [c_balance c_redeemed]; rewrite Z.sub_0_r; exact P1|].
      exists v, mg1, ch1, g1, n1. split; [exact (T _ _ P)|]. split; [exact R|]. split; [exact G|]. split; [rewrite L; unfold left_in; cbn [c_balance c_redeemed]; now rewrite Z.sub_0_r|].
      split; [exact Ad1|exact A1].
  Qed.

  (** ** Paid discovery *)
  Lemma api_standard_v2 e g m x : DecodeClientStandardDiscoverRequestV2 sha256 m = Ret (OkR x) ->
    api e g m = (let* s := HandleStandardDiscoverV2 version supported sha256 sha512_256 ec_sign blake verify voucher_of is_address zone e g m in Ret (after s, wrote s))%go.
  Proof using AC GP. intros D. destruct x as ((((x1 & x2) & x3) & x4) & x5). unfold client_api. rewrite (client_route AtGateway KClientStandardDiscoverRequestV2); [reflexivity|discriminate|tagged D|reflexivity]. Qed.
  Lemma api_standard_offer e g m x : DecodeClientStandardDiscoverOfferRequest sha256 m = Ret (OkR x) ->
    api e g m = (let* s := HandleStandardOffer version supported sha256 ec_sign blake verify voucher_of is_address zone e g m in Ret (after s, wrote s))%go.
  Proof using AC GP. intros D. destruct x as (((((x1 & x2) & x3) & x4) & x5) & x6). unfold client_api. rewrite (client_route AtGateway KClientStandardDiscoverOfferRequest); [reflexivity|discriminate|tagged D|reflexivity]. Qed.

  (** The gateway's answer to a search for which the voucher is worth [x]. *)
  Lemma search_answered e g k m cid nonce ttl chn text x g' os found : g_key g = Some k -> can_sign ec_sign blake k ->
    DecodeClientStandardDiscoverRequestV2 sha256 m = Ret (OkR (Some cid, nonce, ttl, chn, text)) -> id32 cid -> int64 nonce -> unix e <= ttl ->
    receive e g chn text = Ret (Some x, g') -> selectOffersSingle sha256 (e_rows e) zone (e_now e) (g_db g) cid = Ret (os, found) -> (forall o, In o os -> o_provider o <> None) ->
    exists r, api e g m = Ret (g', [Json r]) /\ of_key k r /\
      if x >=? g_search g then exists ds, Forall2 (digest_text sha512_256) os ds /\ DecodeClientStandardDiscoverResponseV2 sha256 r = Ret (OkR (Some cid, nonce, found, Some ds, Some (falses os), false, []))
      else DecodeClientStandardDiscoverResponseV2 sha256 r = Ret (OkR (Some cid, nonce, found, None, None, true, chn)).
  Proof using Law AC GP.
    intros Gk Cs D Hc Hn T Er Q Pv. rewrite (api_standard_v2 _ _ _ _ D). unfold HandleStandardDiscoverV2. rewrite D. cbn [obind].
    replace (unix e >? ttl) with false by (rewrite Z.gtb_ltb; symmetry; apply Z.ltb_ge; exact T). unfold CoreGetOffers. cbn [deref obind]. rewrite Q. cbn [obind fst snd]. rewrite Er. cbn [obind].
    destruct (receive_inv verify voucher_of is_address _ _ _ _ _ _ Er) as (Se & _). destruct (settings_key _ _ Se) as (Kk & _ & Ks & _). rewrite Ks. rewrite <- Kk in Gk.
    destruct (x >=? g_search g).
    - destruct (digests_total sha512_256 os Pv) as (ds & Ed & Fd). rewrite Ed. cbn [obind].
      destruct (rt_ClientStandardDiscoverResponseV2 version supported sha256 cid nonce found (Some ds) (Some (falses os)) false [] Hc Hn) as (b & Eb & _ & Db). rewrite Eb. cbn [obind].
      destruct (AdminNodeProofs.finish_can pub_of ec_sign ec_verify blake Law g' k b Gk Cs) as (s & F & O). rewrite F. cbn [obind after wrote].
      exists (set_sig b s). split; [reflexivity|]. split; [exact O|]. exists ds. split; [exact Fd|exact Db].
    - destruct (rt_ClientStandardDiscoverResponseV2 version supported sha256 cid nonce found None None true chn Hc Hn) as (b & Eb & _ & Db). rewrite Eb. cbn [obind].
      destruct (AdminNodeProofs.finish_can pub_of ec_sign ec_verify blake Law g' k b Gk Cs) as (s & F & O). rewrite F. cbn [obind after wrote].
      exists (set_sig b s). split; [reflexivity|]. split; [exact O|exact Db].
  Qed.

  (** The gateway's answer to a request of offers paid for. *)
  Lemma offers_answered e g k m cid nonce ttl chn text x g' hist os ds : g_key g = Some k -> can_sign ec_sign blake k ->
    DecodeClientStandardDiscoverOfferRequest sha256 m = Ret (OkR (Some cid, nonce, ttl, ds, chn, text)) -> id32 cid -> int64 nonce -> unix e <= ttl ->
    receive e g chn text = Ret (Some x, g') -> stocked sha256 sha512_256 g hist -> all_undisturbed hist -> sized hist -> shuffle (e_rows e) ->
    Forall2 (fun o d => recorded hist o /\ SqlOffers.fresh zone (e_now e) (o_expiry o) = true /\ digest_text sha512_256 o d) os (elems ds) ->
    g_offer g * Z.of_nat (length (elems ds)) <= x ->
    exists r, api e g m = Ret (g', [Json r]) /\ of_key k r /\
      DecodeClientStandardDiscoverOfferResponse sha256 r =
        Ret (OkR (Some cid, nonce, negb (Nat.eqb (length os) 0), Some (map (fun o => GenerateSubCIDOffer o cid) os), Some (map (fun _ => true) os), false, [])).
  Proof using Law AC GP sha256_len sha512_256_len.
    intros Gk Cs D Hc Hn T Er St U Sz Sh F Px. rewrite (api_standard_offer _ _ _ _ D). unfold HandleStandardOffer. rewrite D. cbn [obind].
    replace (unix e >? ttl) with false by (rewrite Z.gtb_ltb; symmetry; apply Z.ltb_ge; exact T). rewrite Er. cbn [obind].
    destruct (receive_inv verify voucher_of is_address _ _ _ _ _ _ Er) as (Se & Db & _). destruct (settings_key _ _ Se) as (Kk & _ & _ & Ko). rewrite Ko. rewrite <- Kk in Gk.
    replace (x >=? g_offer g * Z.of_nat (length (elems ds))) with true by (symmetry; apply Z.geb_le; exact Px).
    assert (St' : stocked sha256 sha512_256 g' hist) by (destruct St as [A B]; split; [exact A|rewrite Db; exact B]).
    rewrite (by_digest_total sha256 sha512_256 zone sha512_256_len e g' hist cid St' U Sh os (elems ds) F). cbn [obind]. rewrite !map_map. cbn [fst snd]. rewrite last_flags.
    destruct (rt_ClientStandardDiscoverOfferResponse version supported sha256 cid nonce (negb (Nat.eqb (length os) 0))
      (Some (map (fun o => GenerateSubCIDOffer o cid) os)) (Some (map (fun _ => true) os)) false [] Hc Hn) as (b & Eb & _ & Db').
    { cbn [each]. apply Forall_forall. intros s S. apply in_map_iff in S. destruct S as (o & <- & Io). destruct St as [P _].
      apply (recorded_wire sha256 sha512_256 sha256_len hist); [exact P|exact Sz| |exact Hc]. clear -F Io.
      induction F as [|o' d l l' (R & _) F IH]; [destruct Io|]. destruct Io as [->|Io]; auto. }
    rewrite Eb. cbn [obind]. destruct (AdminNodeProofs.finish_can pub_of ec_sign ec_verify blake Law g' k b Gk Cs) as (s & F' & O). rewrite F'. cbn [obind after wrote].
    exists (set_sig b s). split; [reflexivity|]. split; [exact O|exact Db'].
  Qed.

  (** The requests of the client, answered so. *)
  Lemma search_asked ce n gw g e k cid nonce ttl chn text x g' os found : AdminSpec.registered_with pub_of gw k -> g_key g = Some k -> can_sign ec_sign blake k ->
    reaches (ce_http ce n) gw (api e g) -> id32 cid -> int64 nonce -> int64 ttl -> unix e <= ttl ->
    receive e g chn text = Ret (Some x, g') -> selectOffersSingle sha256 (e_rows e) zone (e_now e) (g_db g) cid = Ret (os, found) -> (forall o, In o os -> o_provider o <> None) ->
    exists m r d, RequestStandardDiscoverV2 version supported sha256 pub_of ec_verify blake ce n gw (Some cid) nonce ttl chn text = Ret (OkR d, [(r_client_ap gw, m)]) /\ api e g m = Ret (g', [Json r]) /\
      if x >=? g_search g then exists ds, Forall2 (digest_text sha512_256) os ds /\ d = (Some ds, false) else d = (None, true).
  Proof using Law AC GP.
    intros Rk Gk Cs Re Hc Hn Ht T Er Q Pv.
    destruct (rt_ClientStandardDiscoverRequestV2 version supported sha256 cid nonce ttl chn text Hc Hn Ht) as (m & En & _ & D).
    destruct (search_answered e g k m cid nonce ttl chn text x g' os found Gk Cs D Hc Hn T Er Q Pv) as (r & A & O & W).
    assert (H : ce_http ce n (r_client_ap gw) m = Some r) by (rewrite Re, A; reflexivity).
    unfold RequestStandardDiscoverV2. rewrite (ask_served ce n gw k _ m _ Rk En H O). cbn [obind].
    destruct (x >=? g_search g).
    - destruct W as (ds & Fd & Dr). rewrite Dr. cbn [obind deref]. rewrite AdminNodeProofs.text_eq_refl, Z.eqb_refl. cbn [negb].
      exists m, r, (Some ds, false). split; [reflexivity|]. split; [exact A|]. eauto.
    - rewrite W. cbn [obind deref]. rewrite AdminNodeProofs.text_eq_refl, Z.eqb_refl. cbn [negb].
      exists m, r, (None, true). split; [reflexivity|]. split; [exact A|reflexivity].
  Qed.

  Lemma offers_asked ce n gw g e k cid nonce ttl chn text x g' hist os ds : AdminSpec.registered_with pub_of gw k -> g_key g = Some k -> can_sign ec_sign blake k ->
    reaches (ce_http ce n) gw (api e g) -> id32 cid -> int64 nonce -> int64 ttl -> unix e <= ttl ->
    receive e g chn text = Ret (Some x, g') -> stocked sha256 sha512_256 g hist -> all_undisturbed hist -> sized hist -> shuffle (e_rows e) ->
    Forall2 (fun o d => recorded hist o /\ SqlOffers.fresh zone (e_now e) (o_expiry o) = true /\ digest_text sha512_256 o d) os (elems ds) ->
    g_offer g * Z.of_nat (length (elems ds)) <= x ->
    exists m r, RequestStandardDiscoverOffer version supported sha256 pub_of ec_verify blake ce n gw (Some cid) nonce ttl ds chn text =
        Ret (OkR (Some (map (fun o => GenerateSubCIDOffer o cid) os)), [(r_client_ap gw, m)]) /\ api e g m = Ret (g', [Json r]).
  Proof using Law AC GP sha256_len sha512_256_len.
    intros Rk Gk Cs Re Hc Hn Ht T Er St U Sz Sh F Px.
    destruct (rt_ClientStandardDiscoverOfferRequest version supported sha256 cid nonce ttl ds chn text Hc Hn Ht) as (m & En & _ & D).
    destruct (offers_answered e g k m cid nonce ttl chn text x g' hist os ds Gk Cs D Hc Hn T Er St U Sz Sh F Px) as (r & A & O & Dr).
    assert (H : ce_http ce n (r_client_ap gw) m = Some r) by (rewrite Re, A; reflexivity).
    unfold RequestStandardDiscoverOffer. rewrite (ask_served ce n gw k _ m _ Rk En H O). cbn [obind]. rewrite Dr. cbn [obind deref].
    rewrite AdminNodeProofs.text_eq_refl, Z.eqb_refl. cbn [negb]. exists m, r. split; [reflexivity|exact A].
  Qed.

  Lemma firstn_forall2 {A B} (R : A -> B -> Prop) : forall n l l', Forall2 R l l' -> Forall2 R (firstn n l) (firstn n l').
  Proof using. induction n as [|n IH]; intros l l' F; [constructor|]. destruct F; cbn [firstn]; constructor; auto. Qed.

  Lemma forall2_count {A B} (R : A -> B -> Prop) l l' : Forall2 R l l' -> length l' = length l.
  Proof using. induction 1; cbn [length]; congruence. Qed.
  Lemma firstn_within {A} : forall n (l : list A) x, In x (firstn n l) -> In x l.
  Proof using. induction n as [|n IH]; intros [|a l] x; cbn [firstn In]; [intros []|intros []|intros []|]. intros [H|H]; [left|right]; auto. Qed.

  Lemma found_paid_pf ce c gw e g hist cid gid max funds chn : represents gw g -> ready ec_sign blake g -> reaches (ce_http ce 0) gw (api e g) ->
    aget bytes_eqb (c_active c) (ToString gid) = Some gw -> stocked sha256 sha512_256 g hist -> all_undisturbed hist -> sized hist -> shuffle (e_rows e) ->
    id32 cid -> int64 (ce_now ce + c_ttl c) -> unix e <= ce_now ce + c_ttl c -> keyed c -> 0 < max ->
    solvent verify is_address ce e 0 c gw g funds chn -> 0 < c_search c -> g_search g <= c_search c -> 0 < c_offer c -> g_offer g <= c_offer c -> c_search c + max * c_offer c <= funds ->
    exists os m r g1, on_sale zone hist (e_now e) cid os /\ api e g m = Ret (g1, [Json r]) /\
      (os = [] -> exists c' mg' ch', FindOffersStandardDiscoveryV2 version supported sha256 pub_of ec_verify blake voucher_text rand_int ce c (Some cid) (Some gid) max = Ret (OkR [], c', [(r_client_ap gw, m)]) /\
         account ce e c' gw g1 mg' ch' /\ left_in ch' = funds - c_search c) /\
      (os <> [] -> forall e2, reaches (ce_http ce 2) gw (api e2 g1) -> shuffle (e_rows e2) -> unix e2 <= ce_now ce + c_ttl c -> e_chain e2 chn = e_chain e chn ->
         (forall o, In o (chosen max os) -> SqlOffers.fresh zone (e_now e2) (o_expiry o) = true) ->
         exists found c' m2 r2 g2 mg' ch', FindOffersStandardDiscoveryV2 version supported sha256 pub_of ec_verify blake voucher_text rand_int ce c (Some cid) (Some gid) max =
             Ret (OkR found, c', [(r_client_ap gw, m); (r_client_ap gw, m2)]) /\ sifted c (map (fun o => GenerateSubCIDOffer o cid) (chosen max os)) found /\
           api e2 g1 m2 = Ret (g2, [Json r2]) /\ account ce e2 c' gw g2 mg' ch' /\ left_in ch' = funds - (c_search c + Z.of_nat (length (chosen max os)) * c_offer c)).
  Proof using Law AC GP sha256_len sha512_256_len rand_int_64 voucher_readable.
    intros (id & k' & Gi & Ri & Gk & Rk) (id' & k & mg0 & Gi' & Hi & Gk' & Cs & Gp) Re Ac St U Sz Sh Hc It T Ky Mx Acc P1 P2 P3 P4 Fu.
    assert (k' = k) by congruence. subst k'.
    destruct (stock_on_sale e g hist cid St U Sh Hc) as (os & found & Q & S & Fo).
    destruct (paid_first ce e 0 c gw g funds chn (c_search c) Acc P1) as (v & mg1 & ch1 & g1 & n1 & Pn & Er & Eg1 & L1 & A1 & Acc1); [nia|].
    destruct (receive_inv verify voucher_of is_address _ _ _ _ _ _ Er) as (Se & Db & _). destruct (settings_key _ _ Se) as (Kk & _ & Ks & Ko).
    assert (Pv : forall o, In o os -> o_provider o <> None).
    { intros o I. destruct (sale_recorded _ _ _ _ _ S I) as (R & _). destruct (GatewayProofs.recorded_in _ _ R) as (f & If). destruct St as [[P _] _]. destruct (P _ _ If) as (W & _). exact (wire_provider sha256 o W). }
    destruct (search_asked ce 0 gw g e k cid (rand_int (c_drawn c)) (ce_now ce + c_ttl c) chn (voucher_text v) (c_search c) g1 os found Rk Gk Cs Re Hc (rand_int_64 _) It T Er Q Pv)
      as (m & r & d & Rq & A & W).
    replace (c_search c >=? g_search g) with true in W by lia. destruct W as (ds & Fd & ->).
    assert (Len : length ds = length os) by (exact (forall2_count _ _ _ Fd)).
    set (c1 := with_mgr c mg1) in *. set (c2 := drew c1 DrawInt63).
    exists os, m, r, g1. split; [exact S|]. split; [exact A|].
    assert (Start : forall X, FindOffersStandardDiscoveryV2 version supported sha256 pub_of ec_verify blake voucher_text rand_int ce c (Some cid) (Some gid) max = X <->
      (let* digests := (if Z.of_nat (length ds) >? max then if max <? 0 then Panic else Ret (option_map (firstn (Z.to_nat max)) (Some ds)) else Ret (Some ds)) in
       if Nat.eqb (length ds) 0 then Ret (OkR [], c2, [(r_client_ap gw, m)]) else
       let* p := PayOrTopup voucher_text ce 2 c2 (r_address gw) (Z.of_nat (length (items digests)) * c_offer c2) in
       let (p, c) := p in
       match p with
       | ErrR => Ret (ErrR, c, [(r_client_ap gw, m)])
       | OkR (channel, text) =>
           let nonce := rand_int (c_drawn c) in
           let c := drew c DrawInt63 in
           let* z := RequestStandardDiscoverOffer version supported sha256 pub_of ec_verify blake ce 2 gw (Some cid) nonce (ce_now ce + c_ttl c) digests channel text in
           let offers := match fst z with OkR l => items l | ErrR => [] end in
           let* y := take_offers c offers 0 max in
           Ret (OkR (fst y), snd y, [(r_client_ap gw, m)] ++ snd z)
       end)%go = X).
    { intros X. unfold FindOffersStandardDiscoveryV2. cbn [deref obind]. rewrite Ac. rewrite Pn. cbn [obind].
      cbn [c_drawn with_mgr c1 drew c_ttl]. rewrite Rq. cbn [obind items]. fold c1. fold c2. destruct (Nat.eqb (length ds) 0) eqn:E0.
      - apply Nat.eqb_eq in E0. rewrite E0. replace (Z.of_nat 0 >? max) with false by lia. reflexivity.
      - reflexivity. }
    split.
    - intros ->. destruct ds as [|? ?]; [|discriminate Len]. exists c2, mg1, ch1. split; [|split; [exact (account_env ce ce e e c1 c2 gw g1 g1 mg1 ch1 Acc1 eq_refl eq_refl eq_refl eq_refl)|exact L1]].
      apply Start. replace (Z.of_nat (length (@nil gostring)) >? max) with false by (cbn [length]; lia). reflexivity.
    - intros Ne e2 Re2 Sh2 T2 Ch2 Fr. set (cs := chosen max os) in *.
      assert (Sub : forall o, In o cs -> In o os) by (intros o I; apply (firstn_within _ _ _ I)).
      set (ds' := firstn (Z.to_nat max) ds).
      assert (Ed : (if Z.of_nat (length ds) >? max then if max <? 0 then Panic else Ret (option_map (firstn (Z.to_nat max)) (Some ds)) else Ret (Some ds)) = Ret (Some ds')).
      { destruct (Z.of_nat (length ds) >? max) eqn:G; [replace (max <? 0) with false by lia; reflexivity|]. unfold ds'. rewrite firstn_all2 by lia. reflexivity. }
      assert (F2 : Forall2 (fun o d => recorded hist o /\ SqlOffers.fresh zone (e_now e2) (o_expiry o) = true /\ digest_text sha512_256 o d) cs ds').
      { assert (F := firstn_forall2 _ (Z.to_nat max) _ _ Fd). fold ds' in F. change (firstn (Z.to_nat max) os) with cs in F.
        assert (X : forall o, In o cs -> recorded hist o /\ SqlOffers.fresh zone (e_now e2) (o_expiry o) = true).
        { intros o I. split; [exact (proj1 (sale_recorded _ _ _ _ _ S (Sub o I)))|exact (Fr o I)]. }
        clear -F X. induction F as [|o d l l' R F IH]; constructor; [destruct (X o (or_introl eq_refl)); auto|]. apply IH. intros o' I. apply X. right. exact I. }
      assert (Ln : length ds' = length cs) by (exact (forall2_count _ _ _ F2)).
      assert (Lm : Z.of_nat (length cs) <= max /\ 0 < Z.of_nat (length cs)).
      { unfold cs, chosen. rewrite firstn_length. destruct os as [|o t]; [congruence|]. cbn [length]. lia. }
      assert (Nz : Nat.eqb (length ds) 0 = false) by (apply Nat.eqb_neq; rewrite Len; destruct os; [congruence|discriminate]).
      assert (Acc2 : account ce e2 c2 gw g1 mg1 ch1) by (apply (account_env ce ce e e2 c1 c2 gw g1 g1 mg1 ch1 Acc1); [reflexivity|reflexivity|reflexivity|rewrite A1; exact Ch2]).
      destruct (paid_and_received ce e2 c2 gw g1 mg1 ch1 (Z.of_nat (length cs) * c_offer c) Acc2) as (v2 & mg2 & ch2 & g2 & n2 & Pn2 & Er2 & Eg2 & L2 & A2 & Acc3); [nia|rewrite L1; nia|].
      set (c3 := with_mgr c2 mg2) in *. set (c4 := drew c3 DrawInt63).
      assert (St1 : stocked sha256 sha512_256 g1 hist) by (destruct St as [X Y]; split; [exact X|rewrite Db; exact Y]).
      destruct (offers_asked ce 2 gw g1 e2 k cid (rand_int (c_drawn c3)) (ce_now ce + c_ttl c) (c_addr ch1) (voucher_text v2) (Z.of_nat (length cs) * c_offer c) g2 hist cs (Some ds') Rk)
        as (m2 & r2 & Rq2 & Ap2); try assumption; [congruence|apply rand_int_64|cbn [elems]; rewrite Ko, Ln; nia|].
      assert (K4 : keyed c4) by exact Ky.
      assert (Cb : Forall checkable (map (fun o => GenerateSubCIDOffer o cid) cs)).
      { assert (X := sale_checkable _ _ _ _ (proj1 St) S). rewrite Forall_forall in *. intros s I. apply X. apply in_map_iff in I. destruct I as (o & <- & I). apply in_map_iff. exists o. split; [reflexivity|exact (Sub o I)]. }
      destruct (takes_return _ Cb c4 0 max K4) as (got & c5 & Tk).
      destruct (take_offers_exact sha256 pub_of ec_verify blake ce _ _ 0 max got c5 Mx Tk) as (Dr & Py & _ & _ & all & rest & Sf & El & Lg & Lr).
      assert (rest = []).
      { destruct rest as [|s t]; [reflexivity|]. exfalso. assert (Y : (length all >= length got)%nat) by (clear -Sf; induction Sf; cbn [length]; lia).
        assert (Z.of_nat (length got) = max) by (destruct (Z.lt_ge_cases (0 + Z.of_nat (length got)) max) as [X|X]; [apply Lr in X; discriminate X|lia]).
        assert (X := f_equal (@length suboffer) El). rewrite map_length, app_length in X. cbn [length] in X. lia. }
      subst rest. rewrite app_nil_r in El. subst all.
      exists got, c5, m2, r2, g2, mg2, ch2. split; [|split; [|split; [exact Ap2|split]]].
      + apply Start. rewrite Ed. cbn [obind]. rewrite Nz. cbn [items]. rewrite Ln. change (c_offer c2) with (c_offer c). rewrite (pay_or_topup_paid ce 2 c2 gw _ _ _ _ Pn2). cbn [obind].
        fold c3. fold c4. change (c_ttl c4) with (c_ttl c). rewrite Rq2. cbn [obind fst snd items]. rewrite Tk. reflexivity.
      + eapply sifted_same; [|exact Sf]. repeat split.
      + apply (account_env ce ce e2 e2 c3 c5 gw g2 g2 mg2 ch2 Acc3); [exact Py|reflexivity|reflexivity|reflexivity].
      + rewrite L2, L1. lia.
  Qed.
  (** ** Prices that do not meet *)
  Lemma refilled ce k c gw g mg ch e e1 t x : account ce e c gw g mg ch -> 0 <= c_topup c -> ce_tx ce (2 * k) = TxDone t ->
    (forall b to from, e_chain e (c_addr ch) = Some (ChainState b to from) -> e_chain e1 (c_addr ch) = Some (ChainState (b + c_topup c) to from)) ->
    let ch' := Chan (c_addr ch) (c_balance ch + c_topup c) (c_redeemed ch) (c_lanes ch) in
    let mg' := Mgr (m_addr mg) (aset bytes_eqb (m_out mg) (r_address gw) ch') (m_in mg) in
    account ce e1 (with_mgr c mg') gw g mg' ch' /\
    forall v mg2, PayNow ce (with_mgr c mg') (r_address gw) x = Ret (Paid (c_addr ch) v, with_mgr (with_mgr c mg') mg2) ->
      TopupAndPay voucher_text ce k c (r_address gw) x = Ret (OkR (c_addr ch, voucher_text v), with_mgr c mg2).
  Proof using.
    clear sha256_len sha512_256_len rand_int_64 rand_bytes_32 voucher_readable Law AC GP.
    intros (n & from & b & Cp & Gp & Go & (Lb & St) & Ad & Sg & Ch) T0 Tx Up ch' mg'. split.
    - exists n, from, (b + c_topup c). split; [reflexivity|]. split; [exact Gp|]. split; [apply aset_get|]. split; [|auto].
      split; [cbn [ch' c_balance]; apply Z.add_le_mono_r; exact Lb|]. change (c_addr ch') with (c_addr ch). destruct (aget bytes_eqb (m_in n) (c_addr ch)) as [d|].
      + destruct St as (S0 & S). split; [|exact S]. apply (Z.le_trans _ _ _ S0). rewrite <- (Z.add_0_r b) at 1. apply Z.add_le_mono_l. exact T0.
      + exact St.
    - intros v mg2 P. unfold TopupAndPay, PaymentMgr, PayNow in *. rewrite Cp. cbn [c_pay with_mgr]. rewrite Cp. cbn [deref obind c_pay with_mgr] in *.
      unfold topupAndPay. unfold Topup at 1. rewrite Go. unfold TopupAdd. rewrite Tx. fold ch'. fold mg'. cbn [negb].
      destruct (Pay mg' (r_address gw) defaultPaymentLane x (ce_sign ce)) as [m2 p2]. apply ret_inj in P. injection P as -> P. subst m2. reflexivity.
  Qed.

  Lemma refused_topup ce k c gw g mg ch e x : account ce e c gw g mg ch -> ce_tx ce (2 * k) = TxRefused ->
    TopupAndPay voucher_text ce k c (r_address gw) x = Ret (ErrR, with_mgr c mg).
  Proof using.
    intros (n & from & b & Cp & Gp & Go & _) Tx. unfold TopupAndPay, PaymentMgr. rewrite Cp. cbn [deref obind]. rewrite Cp. cbn [deref obind]. unfold topupAndPay. unfold Topup at 1.
    rewrite Go. unfold TopupAdd. rewrite Tx. reflexivity.
  Qed.

  Lemma underpaid_pf ce c gw e g hist cid gid max mg ch : represents gw g -> ready ec_sign blake g -> reaches (ce_http ce 0) gw (api e g) ->
    aget bytes_eqb (c_active c) (ToString gid) = Some gw -> stocked sha256 sha512_256 g hist -> all_undisturbed hist -> shuffle (e_rows e) ->
    id32 cid -> int64 (ce_now ce + c_ttl c) -> unix e <= ce_now ce + c_ttl c ->
    account ce e c gw g mg ch -> 0 < c_search c < g_search g -> c_search c <= left_in ch -> 0 <= c_topup c ->
    exists m r g1 mg1 ch1, api e g m = Ret (g1, [Json r]) /\ account ce e (with_mgr c mg1) gw g1 mg1 ch1 /\ c_addr ch1 = c_addr ch /\ left_in ch1 = left_in ch - c_search c /\
      (ce_tx ce 2 = TxRefused -> exists c', c_pay c' = Some mg1 /\
         FindOffersStandardDiscoveryV2 version supported sha256 pub_of ec_verify blake voucher_text rand_int ce c (Some cid) (Some gid) max = Ret (ErrR, c', [(r_client_ap gw, m)])) /\
      (forall e1 t, ce_tx ce 2 = TxDone t -> 2 * c_search c <= left_in ch + c_topup c -> reaches (ce_http ce 1) gw (api e1 g1) -> shuffle (e_rows e1) -> unix e1 <= ce_now ce + c_ttl c ->
         (forall b to from, e_chain e (c_addr ch) = Some (ChainState b to from) -> e_chain e1 (c_addr ch) = Some (ChainState (b + c_topup c) to from)) ->
         exists c' m2 r2 g2 mg2 ch2, api e1 g1 m2 = Ret (g2, [Json r2]) /\ account ce e1 c' gw g2 mg2 ch2 /\ left_in ch2 = left_in ch + c_topup c - 2 * c_search c /\
           FindOffersStandardDiscoveryV2 version supported sha256 pub_of ec_verify blake voucher_text rand_int ce c (Some cid) (Some gid) max = Ret (OkR [], c', [(r_client_ap gw, m); (r_client_ap gw, m2)])).
  Proof using Law AC GP sha256_len sha512_256_len rand_int_64 voucher_readable.
    intros (id & k' & Gi & Ri & Gk & Rk) (id' & k & mg0 & Gi' & Hi & Gk' & Cs & Gp) Re Ac St U Sh Hc It T Acc (P1 & P2) Fu T0.
    assert (k' = k) by congruence. subst k'.
    assert (Pv : forall e os, on_sale zone hist (e_now e) cid os -> forall o, In o os -> o_provider o <> None).
    { intros e0 os S o I. destruct (sale_recorded _ _ _ _ _ S I) as (R & _). destruct (GatewayProofs.recorded_in _ _ R) as (f & If). destruct St as [[P _] _]. destruct (P _ _ If) as (W & _). exact (wire_provider sha256 o W). }
    destruct (stock_on_sale e g hist cid St U Sh Hc) as (os & found & Q & S & _).
    destruct (paid_and_received ce e c gw g mg ch (c_search c) Acc P1 Fu) as (v & mg1 & ch1 & g1 & n1 & Pn & Er & Eg1 & L1 & A1 & Acc1).
    destruct (receive_inv verify voucher_of is_address _ _ _ _ _ _ Er) as (Se & Db & _). destruct (settings_key _ _ Se) as (Kk & _ & Ks & _).
    destruct (search_asked ce 0 gw g e k cid (rand_int (c_drawn c)) (ce_now ce + c_ttl c) (c_addr ch) (voucher_text v) (c_search c) g1 os found Rk Gk Cs Re Hc (rand_int_64 _) It T Er Q (Pv e os S))
      as (m & r & d & Rq & A & W).
    replace (c_search c >=? g_search g) with false in W by (clear -P2; lia). subst d.
    set (c1 := with_mgr c mg1) in *. set (c2 := drew c1 DrawInt63).
    assert (Acc2 : account ce e c2 gw g1 mg1 ch1) by exact (account_env ce ce e e c1 c2 gw g1 g1 mg1 ch1 Acc1 eq_refl eq_refl eq_refl eq_refl).
    exists m, r, g1, mg1, ch1. split; [exact A|]. split; [exact Acc1|]. split; [exact A1|]. split; [exact L1|].
    assert (Start : FindOffersStandardDiscoveryV2 version supported sha256 pub_of ec_verify blake voucher_text rand_int ce c (Some cid) (Some gid) max =
      (let* again :=
         (let* p := TopupAndPay voucher_text ce 1 c2 (r_address gw) (c_search c) in
          let (p, c) := p in
          match p with
          | ErrR => Ret (ErrR, c, [])
          | OkR (channel, text) =>
              let nonce := rand_int (c_drawn c) in
              let c := drew c DrawInt63 in
              let* x := RequestStandardDiscoverV2 version supported sha256 pub_of ec_verify blake ce 1 gw (Some cid) nonce (ce_now ce + c_ttl c) channel text in
              Ret (match fst x with ErrR => ErrR | OkR (d, _) => OkR d end, c, snd x)
          end) in
       let '(r, c, out2) := again in
       match r with
       | ErrR => Ret (ErrR, c, [(r_client_ap gw, m)] ++ out2)
       | OkR digests =>
           if Nat.eqb (length (items digests)) 0 then Ret (OkR [], c, [(r_client_ap gw, m)] ++ out2)
           else
             let* digests :=
               (if Z.of_nat (length (items digests)) >? max then
                  if max <? 0 then Panic else Ret (option_map (firstn (Z.to_nat max)) digests)
                else Ret digests) in
             let* p := PayOrTopup voucher_text ce 2 c (r_address gw) (Z.of_nat (length (items digests)) * c_offer c) in
             let (p, c) := p in
             match p with
             | ErrR => Ret (ErrR, c, [(r_client_ap gw, m)] ++ out2)
             | OkR (channel, text) =>
                 let nonce := rand_int (c_drawn c) in
                 let c := drew c DrawInt63 in
                 let* z := RequestStandardDiscoverOffer version supported sha256 pub_of ec_verify blake ce 2 gw (Some cid) nonce (ce_now ce + c_ttl c) digests channel text in
                 let offers := match fst z with OkR l => items l | ErrR => [] end in
                 let* y := take_offers c offers 0 max in
                 Ret (OkR (fst y), snd y, [(r_client_ap gw, m)] ++ out2 ++ snd z)
             end
       end)%go).
    { unfold FindOffersStandardDiscoveryV2. cbn [deref obind]. rewrite Ac. rewrite (pay_or_topup_paid ce 0 c gw _ _ _ _ Pn). cbn [obind].
      cbn [c_drawn with_mgr c1 drew c_ttl]. rewrite Rq. cbn [obind]. reflexivity. }
    split.
    - intros Tx. exists (with_mgr c2 mg1). split; [reflexivity|]. rewrite Start. rewrite (refused_topup ce 1 c2 gw g1 mg1 ch1 e (c_search c) Acc2 Tx). reflexivity.
    - intros e1 t Tx Fu2 Re1 Sh1 T1 Up.
      assert (Up' : forall b to from, e_chain e (c_addr ch1) = Some (ChainState b to from) -> e_chain e1 (c_addr ch1) = Some (ChainState (b + c_topup c2) to from)) by (rewrite A1; exact Up).
      destruct (refilled ce 1 c2 gw g1 mg1 ch1 e e1 t (c_search c) Acc2 T0 Tx Up') as [Acc3 Tp].
      set (chr := Chan (c_addr ch1) (c_balance ch1 + c_topup c2) (c_redeemed ch1) (c_lanes ch1)) in *. set (mgr' := Mgr (m_addr mg1) (aset bytes_eqb (m_out mg1) (r_address gw) chr) (m_in mg1)) in *.
      assert (Lr : left_in chr = left_in ch1 + c_topup c) by (unfold left_in, chr; cbn [c_balance c_redeemed]; change (c_topup c2) with (c_topup c); ring).
      destruct (paid_and_received ce e1 (with_mgr c2 mgr') gw g1 mgr' chr (c_search c) Acc3 P1) as (v2 & mg2 & ch2 & g2 & n2 & Pn2 & Er2 & Eg2 & L2 & A2 & Acc4); [rewrite Lr, L1; clear -Fu2; lia|].
      assert (St1 : stocked sha256 sha512_256 g1 hist) by (destruct St as [X Y]; split; [exact X|rewrite Db; exact Y]).
      destruct (stock_on_sale e1 g1 hist cid St1 U Sh1 Hc) as (os1 & found1 & Q1 & S1 & _).
      set (c3 := with_mgr c2 mg2).
      destruct (search_asked ce 1 gw g1 e1 k cid (rand_int (c_drawn c3)) (ce_now ce + c_ttl c) (c_addr ch1) (voucher_text v2) (c_search c) g2 os1 found1 Rk (eq_trans Kk Gk) Cs Re1 Hc (rand_int_64 _) It T1 Er2 Q1 (Pv e1 os1 S1))
        as (m2 & r2 & d & Rq2 & Ap2 & W2).
      replace (c_search c >=? g_search g1) with false in W2 by (rewrite Ks; clear -P2; lia). subst d.
      exists (drew c3 DrawInt63), m2, r2, g2, mg2, ch2. split; [exact Ap2|]. split; [|split].
      + exact (account_env ce ce e1 e1 _ (drew c3 DrawInt63) gw g2 g2 mg2 ch2 Acc4 eq_refl eq_refl eq_refl eq_refl).
      + rewrite L2, Lr, L1. ring.
      + rewrite Start. rewrite (Tp _ _ Pn2). cbn [obind]. fold c3. change (c_ttl (drew c3 DrawInt63)) with (c_ttl c). rewrite Rq2. reflexivity.
  Qed.
  (** ** A price of nothing *)
  Definition taken (n : mgr) (chn : gostring) (l : Z) : Z := match aget bytes_eqb (m_in n) chn with Some d => l_redeemed (get_lane d l) | None => 0 end.
  Lemma stale_declined e g n chn text v : g_pay g = Some n -> voucher_of text = Some v -> v_amount v <= taken n chn (v_lane v) ->
    (forall s, e_chain e chn = Some s -> ch_to s <> NotText /\ ch_from s <> NotText) ->
    exists n', receive e g chn text = Ret (None, with_pay g n') /\ forall l, taken n' chn l = taken n chn l.
  Proof using blake ec_sign ec_verify is_address pub_of sha256 sha512_256 verify voucher_of voucher_text zone.
    clear sha256_len sha512_256_len rand_int_64 rand_bytes_32 voucher_readable Law AC GP.
    intros Gp Vo St Ch. unfold CoreReceive. rewrite Gp, Vo.
    assert (On : forall own d cs, v_amount v <= l_redeemed (get_lane d (v_lane v)) -> ch_to cs <> NotText -> ch_from cs <> NotText ->
      exists d', ReceiveOn verify own d v cs = (d', Refused) /\ forall l, l_redeemed (get_lane d' l) = l_redeemed (get_lane d l)).
    { intros own d cs A T F. unfold ReceiveOn. destruct (ch_to cs) as [| |to]; [destruct (T eq_refl)|eauto|]. destruct (negb (bytes_eqb to own)); [eauto|].
      destruct (ch_from cs) as [| |from]; [destruct (F eq_refl)|eauto|]. destruct (negb _); [eauto|].
      assert (K : forall l, l_redeemed (get_lane (Chan (c_addr d) (c_balance d) (c_redeemed d) (aset Z.eqb (c_lanes d) (v_lane v) (get_lane d (v_lane v)))) l) = l_redeemed (get_lane d l)).
      { intros l. rewrite get_lane_set. destruct (Z.eqb_spec l (v_lane v)) as [->|_]; reflexivity. }
      destruct (v_nonce v <? _); [eauto|]. replace (v_amount v <=? l_redeemed (get_lane d (v_lane v))) with true by lia. eauto. }
    destruct (is_address chn); [|exists n; split; reflexivity].
    destruct (e_chain e chn) as [cs|]; [|exists n; split; reflexivity]. destruct (Ch cs eq_refl) as [T F].
    unfold Receive. unfold taken in St. destruct (aget bytes_eqb (m_in n) chn) as [d|] eqn:E.
    - unfold ReceiveUpdate. destruct (ch_balance cs <? c_balance d); [exists n; split; reflexivity|].
      destruct (On (m_addr n) (Chan (c_addr d) (ch_balance cs) (c_redeemed d) (c_lanes d)) cs St T F) as (d' & R & K). rewrite R.
      eexists. split; [reflexivity|]. intros l. unfold taken, put_in. cbn [m_in]. rewrite aset_get, E. exact (K l).
    - unfold ReceiveCreate. destruct (On (m_addr n) (Chan chn (ch_balance cs) 0 []) cs St T F) as (d' & R & K). rewrite R.
      eexists. split; [reflexivity|]. intros l. unfold taken, put_in. cbn [m_in]. rewrite aset_get, E. exact (K l).
  Qed.

  Lemma search_declined ce n gw g e k cid nonce ttl chn text g' os found : AdminSpec.registered_with pub_of gw k -> g_key g = Some k -> can_sign ec_sign blake k ->
    reaches (ce_http ce n) gw (api e g) -> id32 cid -> int64 nonce -> int64 ttl -> unix e <= ttl ->
    receive e g chn text = Ret (None, g') -> selectOffersSingle sha256 (e_rows e) zone (e_now e) (g_db g) cid = Ret (os, found) ->
    exists m r, RequestStandardDiscoverV2 version supported sha256 pub_of ec_verify blake ce n gw (Some cid) nonce ttl chn text = Ret (OkR (None, true), [(r_client_ap gw, m)]) /\ api e g m = Ret (g', [Json r]).
  Proof using Law AC GP.
    intros Rk Gk Cs Re Hc Hn Ht T Er Q.
    destruct (rt_ClientStandardDiscoverRequestV2 version supported sha256 cid nonce ttl chn text Hc Hn Ht) as (m & En & _ & D).
    destruct (receive_inv verify voucher_of is_address _ _ _ _ _ _ Er) as (Se & _). destruct (settings_key _ _ Se) as (Kk & _). rewrite <- Kk in Gk.
    destruct (rt_ClientStandardDiscoverResponseV2 version supported sha256 cid nonce found None None true chn Hc Hn) as (b & Eb & _ & Db).
    destruct (AdminNodeProofs.finish_can pub_of ec_sign ec_verify blake Law g' k b Gk Cs) as (s & F & O).
    assert (A : api e g m = Ret (g', [Json (set_sig b s)])).
    { rewrite (api_standard_v2 _ _ _ _ D). unfold HandleStandardDiscoverV2. rewrite D. cbn [obind].
      replace (unix e >? ttl) with false by (rewrite Z.gtb_ltb; symmetry; apply Z.ltb_ge; exact T). unfold CoreGetOffers. cbn [deref obind]. rewrite Q. cbn [obind fst snd]. rewrite Er. cbn [obind].
      rewrite Eb. cbn [obind]. rewrite F. reflexivity. }
    assert (H : ce_http ce n (r_client_ap gw) m = Some (set_sig b s)) by (rewrite Re, A; reflexivity).
    exists m, (set_sig b s). split; [|exact A].
    unfold RequestStandardDiscoverV2. rewrite (ask_served ce n gw k _ m _ Rk En H O). cbn [obind].
    change (DecodeClientStandardDiscoverResponseV2 sha256 (set_sig b s)) with (DecodeClientStandardDiscoverResponseV2 sha256 b).
    rewrite Db. cbn [obind deref]. rewrite AdminNodeProofs.text_eq_refl, Z.eqb_refl. reflexivity.
  Qed.

  (** A payment of nothing from a channel the client has. *)
  Lemma paid_nothing ce c gw mg ch : c_pay c = Some mg -> aget bytes_eqb (m_out mg) (r_address gw) = Some ch -> 0 <= left_in ch ->
    (forall v, v_sig v = None -> exists s, ce_sign ce v = Some s) ->
    exists v mg' ch', PayNow ce c (r_address gw) 0 = Ret (Paid (c_addr ch) v, with_mgr c mg') /\ v_terms v = [] /\ v_lane v = 0 /\ v_amount v = l_redeemed (get_lane ch 0) /\
      aget bytes_eqb (m_out mg') (r_address gw) = Some ch' /\ c_addr ch' = c_addr ch /\ left_in ch' = left_in ch /\ l_redeemed (get_lane ch' 0) = l_redeemed (get_lane ch 0).
  Proof using blake ec_sign ec_verify is_address pub_of sha256 sha512_256 verify voucher_of voucher_text zone.
    clear sha256_len sha512_256_len rand_int_64 rand_bytes_32 voucher_readable Law AC GP.
    intros Cp Go Le Sg. unfold left_in in Le. destruct (Sg (Voucher (c_addr ch) 0 (l_nonce (get_lane ch 0)) (l_redeemed (get_lane ch 0) + 0) [] None) eq_refl) as (s & Es).
    do 3 eexists. split.
    { unfold PayNow. rewrite Cp. cbn [deref obind]. unfold Pay, defaultPaymentLane. rewrite Go. replace (c_balance ch <? c_redeemed ch + 0) with false by lia. rewrite Es. reflexivity. }
    split; [reflexivity|]. split; [reflexivity|]. split; [cbn [v_amount]; lia|]. split; [apply aset_get|]. split; [reflexivity|].
    split; [unfold left_in; cbn [c_balance c_redeemed]; lia|]. rewrite get_lane_set. cbn [Z.eqb l_redeemed]. lia.
  Qed.

  Lemma free_pf ce c gw e g hist cid gid max funds chn : represents gw g -> ready ec_sign blake g -> reaches (ce_http ce 0) gw (api e g) ->
    aget bytes_eqb (c_active c) (ToString gid) = Some gw -> stocked sha256 sha512_256 g hist -> all_undisturbed hist -> shuffle (e_rows e) ->
    id32 cid -> int64 (ce_now ce + c_ttl c) -> unix e <= ce_now ce + c_ttl c ->
    solvent verify is_address ce e 0 c gw g funds chn -> c_search c = 0 -> 0 <= funds -> 0 <= c_topup c ->
    exists m r g1 mg1 ch1, api e g m = Ret (g1, [Json r]) /\ aget bytes_eqb (m_out mg1) (r_address gw) = Some ch1 /\ c_addr ch1 = chn /\ left_in ch1 = funds /\
      (ce_tx ce 2 = TxRefused -> exists c', c_pay c' = Some mg1 /\
         FindOffersStandardDiscoveryV2 version supported sha256 pub_of ec_verify blake voucher_text rand_int ce c (Some cid) (Some gid) max = Ret (ErrR, c', [(r_client_ap gw, m)])) /\
      (forall e1 t, ce_tx ce 2 = TxDone t -> reaches (ce_http ce 1) gw (api e1 g1) -> shuffle (e_rows e1) -> unix e1 <= ce_now ce + c_ttl c ->
         (forall b to from, e_chain e chn = Some (ChainState b to from) -> e_chain e1 chn = Some (ChainState (b + c_topup c) to from)) ->
         exists c' m2 r2 g2 mg2 ch2, api e1 g1 m2 = Ret (g2, [Json r2]) /\ c_pay c' = Some mg2 /\ aget bytes_eqb (m_out mg2) (r_address gw) = Some ch2 /\ left_in ch2 = funds + c_topup c /\
           FindOffersStandardDiscoveryV2 version supported sha256 pub_of ec_verify blake voucher_text rand_int ce c (Some cid) (Some gid) max = Ret (OkR [], c', [(r_client_ap gw, m); (r_client_ap gw, m2)])).
  Proof using Law AC GP sha256_len sha512_256_len rand_int_64 voucher_readable.
    intros (id & k' & Gi & Ri & Gk & Rk) (id' & k & mg0 & Gi' & Hi & Gk' & Cs & Gp) Re Ac St U Sh Hc It T So Z0 F0 T0.
    assert (k' = k) by congruence. subst k'.
    destruct (stock_on_sale e g hist cid St U Sh Hc) as (os & found & Q & S & _).
    assert (First : exists v mg1 ch1 n from b, PayOrTopup voucher_text ce 0 c (r_address gw) 0 = Ret (OkR (chn, voucher_text v), with_mgr c mg1) /\ v_terms v = [] /\ v_lane v = 0 /\
      g_pay g = Some n /\ v_amount v = taken n chn 0 /\ aget bytes_eqb (m_out mg1) (r_address gw) = Some ch1 /\ c_addr ch1 = chn /\ left_in ch1 = funds /\ l_redeemed (get_lane ch1 0) = taken n chn 0 /\
      (forall v, v_sig v = None -> exists s, ce_sign ce v = Some s) /\ e_chain e chn = Some (ChainState b (Account (m_addr n)) (Account from))).
    { destruct So as [(mg & ch & (n & from & b & Cp & Gn & Go & (Lb & Is) & Ad & Sg & Ch) & -> & ->)|(mg & n & from & b & Cp & Gn & Go & Tx & Ad & In & Sg & Ch & Le & ->)].
      - assert (Sg' : forall v, v_sig v = None -> exists s, ce_sign ce v = Some s) by (intros v Hv; destruct (Sg v Hv) as (s & E & _); eauto).
        destruct (paid_nothing ce c gw mg ch Cp Go F0 Sg') as (v & mg1 & ch1 & P & V1 & V2 & V3 & A1 & A2 & A3 & A4).
        assert (Tk : l_redeemed (get_lane ch 0) = taken n (c_addr ch) 0).
        { unfold taken. destruct (aget bytes_eqb (m_in n) (c_addr ch)) as [d|]; [destruct Is as (_ & _ & -> & _); reflexivity|destruct Is as (_ & -> & _); reflexivity]. }
        exists v, mg1, ch1, n, from, b. split; [exact (pay_or_topup_paid ce 0 c gw _ _ _ _ P)|]. repeat (split; [first [assumption|congruence]|]). exact Ch.
      - assert (Sg' : forall v, v_sig v = None -> exists s, ce_sign ce v = Some s) by (intros v Hv; destruct (Sg v Hv) as (s & E & _); eauto).
        destruct (topup_account ce 0 c gw g mg e n from b chn 0 Cp Gn Go Tx Ad In Sg Ch Le (Z.le_refl 0) F0) as [_ Tp].
        set (mgo := Mgr (m_addr mg) (aset bytes_eqb (m_out mg) (r_address gw) (Chan chn (c_topup c) 0 [])) (m_in mg)) in *.
        destruct (paid_nothing ce (with_mgr c mgo) gw mgo (Chan chn (c_topup c) 0 []) eq_refl (aset_get _ _ _)) as (v & mg1 & ch1 & P & V1 & V2 & V3 & A1 & A2 & A3 & A4);
          [unfold left_in; cbn [c_balance c_redeemed]; lia|exact Sg'|].
        assert (Tk : taken n chn 0 = 0) by (unfold taken; rewrite In; reflexivity).
        exists v, mg1, ch1, n, from, b. split; [exact (Tp _ _ P)|]. rewrite Tk. split; [exact V1|]. split; [exact V2|]. split; [exact Gn|]. split; [exact V3|]. split; [exact A1|]. split; [exact A2|].
        split; [rewrite A3; unfold left_in; cbn [c_balance c_redeemed]; lia|]. split; [exact A4|]. split; [exact Sg'|exact Ch]. }
    destruct First as (v & mg1 & ch1 & n & from & b & P & V1 & V2 & Gn & V3 & A1 & A2 & A3 & A4 & Sg & Ch).
    destruct (stale_declined e g n chn (voucher_text v) v Gn (voucher_readable v V1)) as (n1 & Er & K1); [rewrite V2, V3; apply Z.le_refl|intros s E; rewrite Ch in E; injection E as <-; split; discriminate|].
    set (g1 := with_pay g n1) in *.
    destruct (search_declined ce 0 gw g e k cid (rand_int (c_drawn c)) (ce_now ce + c_ttl c) chn (voucher_text v) g1 os found Rk Gk Cs Re Hc (rand_int_64 _) It T Er Q) as (m & r & Rq & A).
    set (c1 := with_mgr c mg1) in *. set (c2 := drew c1 DrawInt63).
    exists m, r, g1, mg1, ch1. split; [exact A|]. split; [exact A1|]. split; [exact A2|]. split; [exact A3|].
    assert (Start : forall p c3, TopupAndPay voucher_text ce 1 c2 (r_address gw) 0 = Ret (p, c3) ->
      FindOffersStandardDiscoveryV2 version supported sha256 pub_of ec_verify blake voucher_text rand_int ce c (Some cid) (Some gid) max =
      match p with
      | ErrR => Ret (ErrR, c3, [(r_client_ap gw, m)])
      | OkR (channel, text) =>
          match RequestStandardDiscoverV2 version supported sha256 pub_of ec_verify blake ce 1 gw (Some cid) (rand_int (c_drawn c3)) (ce_now ce + c_ttl (drew c3 DrawInt63)) channel text with
          | Ret (OkR (None, _), out) => Ret (OkR [], drew c3 DrawInt63, [(r_client_ap gw, m)] ++ out)
          | _ => FindOffersStandardDiscoveryV2 version supported sha256 pub_of ec_verify blake voucher_text rand_int ce c (Some cid) (Some gid) max
          end
      end).
    { intros p c3 Tp. destruct p as [[channel text]|].
      - destruct (RequestStandardDiscoverV2 version supported sha256 pub_of ec_verify blake ce 1 gw (Some cid) (rand_int (c_drawn c3)) (ce_now ce + c_ttl (drew c3 DrawInt63)) channel text) as [[[[[d|] q]|] out]| |] eqn:Rq2; try reflexivity.
        unfold FindOffersStandardDiscoveryV2. cbn [deref obind]. rewrite Ac, Z0, P. cbn [obind].
        cbn [c_drawn with_mgr c1 drew c_ttl]. rewrite Rq. cbn [obind]. cbn [c_search]. rewrite ?Z0. fold c2. change (c_search c2) with (c_search c). rewrite ?Z0, Tp. cbn [obind].
        change (ce_now ce + c_ttl (drew c3 DrawInt63)) with (ce_now ce + c_ttl c3) in Rq2. cbn [c_ttl drew]. rewrite Rq2. reflexivity.
      - unfold FindOffersStandardDiscoveryV2. cbn [deref obind]. rewrite Ac, Z0, P. cbn [obind].
        cbn [c_drawn with_mgr c1 drew c_ttl]. rewrite Rq. cbn [obind]. cbn [c_search]. rewrite ?Z0. fold c2. change (c_search c2) with (c_search c). rewrite ?Z0, Tp. reflexivity. }
    split.
    - intros Tx. assert (Tp : TopupAndPay voucher_text ce 1 c2 (r_address gw) 0 = Ret (ErrR, with_mgr c2 mg1)).
      { unfold TopupAndPay, PaymentMgr. cbn [c_pay c2 c1 drew with_mgr deref obind]. unfold topupAndPay. unfold Topup at 1. rewrite A1. unfold TopupAdd.
        change (ce_tx ce (2 * 1)) with (ce_tx ce 2). rewrite Tx. reflexivity. }
      exists (with_mgr c2 mg1). split; [reflexivity|]. exact (Start _ _ Tp).
    - intros e1 t Tx Re1 Sh1 T1 Up.
      set (chr := Chan (c_addr ch1) (c_balance ch1 + c_topup c) (c_redeemed ch1) (c_lanes ch1)). set (mgr' := Mgr (m_addr mg1) (aset bytes_eqb (m_out mg1) (r_address gw) chr) (m_in mg1)).
      assert (Lr : left_in chr = funds + c_topup c) by (unfold left_in, chr in *; cbn [c_balance c_redeemed]; lia).
      destruct (paid_nothing ce (with_mgr c2 mgr') gw mgr' chr eq_refl (aset_get _ _ _)) as (v2 & mg2 & ch2 & P2 & W1 & W2 & W3 & B1 & B2 & B3 & B4); [lia|exact Sg|].
      assert (Tp : TopupAndPay voucher_text ce 1 c2 (r_address gw) 0 = Ret (OkR (chn, voucher_text v2), with_mgr c2 mg2)).
      { unfold PayNow in P2. cbn [c_pay with_mgr deref obind] in P2.
        unfold TopupAndPay, PaymentMgr. cbn [c_pay c2 c1 drew with_mgr deref obind]. unfold topupAndPay. unfold Topup at 1. rewrite A1. unfold TopupAdd.
        change (ce_tx ce (2 * 1)) with (ce_tx ce 2). rewrite Tx. change (c_topup c2) with (c_topup c). fold chr. fold mgr'. cbn [negb].
        destruct (Pay mgr' (r_address gw) defaultPaymentLane 0 (ce_sign ce)) as [m2 p2]. apply ret_inj in P2. injection P2 as -> P2. subst m2. change (c_addr chr) with (c_addr ch1). rewrite A2. reflexivity. }
      assert (St1 : stocked sha256 sha512_256 g1 hist) by exact St.
      destruct (stock_on_sale e1 g1 hist cid St1 U Sh1 Hc) as (os1 & found1 & Q1 & S1 & _).
      destruct (stale_declined e1 g1 n1 chn (voucher_text v2) v2 eq_refl (voucher_readable v2 W1)) as (n2 & Er2 & K2).
      { rewrite W2, W3, K1. change (get_lane chr 0) with (get_lane ch1 0). rewrite A4. apply Z.le_refl. }
      { intros s E. rewrite (Up _ _ _ Ch) in E. injection E as <-. split; discriminate. }
      set (c3 := with_mgr c2 mg2) in *.
      destruct (search_declined ce 1 gw g1 e1 k cid (rand_int (c_drawn c3)) (ce_now ce + c_ttl c) chn (voucher_text v2) (with_pay g1 n2) os1 found1 Rk Gk Cs Re1 Hc (rand_int_64 _) It T1 Er2 Q1) as (m2 & r2 & Rq2 & Ap2).
      exists (drew c3 DrawInt63), m2, r2, (with_pay g1 n2), mg2, ch2. split; [exact Ap2|]. split; [reflexivity|]. split; [exact B1|]. split; [lia|].
      rewrite (Start _ _ Tp). change (c_ttl (drew c3 DrawInt63)) with (c_ttl c). rewrite Rq2. reflexivity.
  Qed.
End meet.
