(** * Proofs about a client, a gateway and the gateways it buys offers from *)
From Coq Require Import String List ZArith Bool Lia Permutation.
From Coq Require Import Init.Byte.
From Verif Require Import Base BaseProofs Ids IdsProofs Crypto CryptoProofs Message MessageProofs Offer OfferProofs Schema SchemaProofs Messages MessagesSpec MessagesProofs WireSpec Payment PaymentProofs Ring RingSpec Register RegisterSpec RegisterProofs
  OfferStoreSpec SqlOffers SqlOffersSpec SqlOffersProofs Json Rest Routes RoutesProofs Gateway GatewaySpec GatewayProofs GatewayStoreProofs GatewayMoneyProofs GatewayOfferSpec GatewayOfferProofs Client ClientSpec ClientProofs RetrievalSpec RetrievalProofs DhtSpec DhtProofs DhtPaidSpec DhtPaidProofs DhtOfferSpec.
From Verif Require AdminSpec AdminProofs AdminNodeProofs.
Import ListNotations.
Open Scope Z_scope.

Lemma units_price (g : gateway) (rows : list order) : units (map (fun r : order => Some (snd r)) rows) * g_offer g = price_of_all g rows.
Proof. induction rows as [|(id & ds) rows IH]; [reflexivity|]. cbn [map units elems snd price_of_all fold_right]. fold (price_of_all g rows). rewrite <- IH. unfold price_of. lia. Qed.

Section bought.
  Variable version : Z.
  Variable supported : list Z.
  Variable sha256 sha512_256 : bytes -> bytes.
  Variable pub_of : bytes -> bytes.
  Variable ec_sign : bytes -> bytes -> option bytes.
  Variable ec_verify : bytes -> bytes -> bytes -> bool.
  Variable blake : bytes -> bytes.
  Variable verify : gostring -> voucher -> option bytes -> bool.
  Variable voucher_text : voucher -> gostring.
  Variable voucher_of : gostring -> option voucher.
  Variable is_address : gostring -> bool.
  Variable zone : Z.
  Variables BindAdminAPI BindRestAPI BindGatewayAPI BindProviderAPI : gostring.
  Hypothesis Law : ecdsa_correct pub_of ec_sign ec_verify.
  Hypothesis AC : BindAdminAPI <> BindRestAPI.
  Hypothesis GP : BindGatewayAPI <> BindProviderAPI.
  Hypothesis version_32 : int32 version.
  Hypothesis supported_32 : Forall int32 supported.
  Hypothesis sha256_len : forall x, length (sha256 x) = 32%nat.
  Hypothesis sha512_256_len : forall x, length (sha512_256 x) = 32%nat.
  Hypothesis voucher_readable : forall v, v_terms v = [] -> voucher_of (voucher_text v) = Some v.
  Implicit Types (g : gateway) (e : env) (ce : cenv).

  Local Notation api := (client_api version supported sha256 sha512_256 pub_of ec_sign ec_verify blake verify voucher_text voucher_of is_address zone BindAdminAPI BindRestAPI BindGatewayAPI BindProviderAPI).
  Local Notation papi := (peer_api version supported sha256 sha512_256 pub_of ec_sign ec_verify blake verify voucher_of is_address zone BindAdminAPI BindRestAPI BindGatewayAPI BindProviderAPI).
  Local Notation peer := (peer version supported sha256 sha512_256 pub_of ec_sign ec_verify blake verify voucher_of is_address zone BindAdminAPI BindRestAPI BindGatewayAPI BindProviderAPI).
  Local Notation of_key := (AdminSpec.of_key pub_of ec_verify blake).
  Local Notation lists := (lists pub_of).
  Local Notation receive := (CoreReceive verify voucher_of is_address).
  Local Notation settled := (settled verify is_address).
  Local Notation orderable := (orderable version supported sha256 sha512_256 pub_of ec_sign ec_verify blake verify voucher_of is_address zone BindAdminAPI BindRestAPI BindGatewayAPI BindProviderAPI).
  Local Notation charged := (charged version supported sha256 sha512_256 pub_of ec_sign ec_verify blake verify voucher_of is_address zone BindAdminAPI BindRestAPI BindGatewayAPI BindProviderAPI).
  Ltac tagged H := apply rbind_inv in H; destruct H as (? & H & _); exact (AdminNodeProofs.decoded_tag _ _ _ _ _ H).

  (** ** The gateway asked *)
  Lemma api_gateway_offer e g m z : DecodeGatewayDHTDiscoverOfferRequest sha256 m = Ret (OkR z) ->
    papi e g m = HandleGatewayOffer version supported sha256 ec_sign blake verify voucher_of is_address zone e g m.
  Proof using AC GP.
    intros D. destruct z as ((((x1 & x2) & x3) & x4) & x5). unfold peer_api.
    assert (T : m_type m = type_of KGatewayDHTDiscoverOfferRequest) by tagged D. rewrite T, routed_type by (assumption || discriminate). reflexivity.
  Qed.

  Lemma peer_sells_offers e g id (x : contact) cid nonce k chn text a n' os ds : peer e g id x -> in_stock sha512_256 zone x os ds ->
    g_key g = Some k -> can_sign ec_sign blake k -> id32 cid -> int64 nonce ->
    receive (at_env x) (at_state x) chn text = Ret (Some a, with_pay (at_state x) n') -> g_offer (at_state x) * Z.of_nat (length ds) <= a ->
    forall n, exists r o q p', RequestDHTOffer version supported pub_of ec_sign ec_verify blake e n g id (Some cid) nonce (Some ds) chn text = Ret (Some r, g, o) /\
      DecodeGatewayDHTDiscoverOfferResponse sha256 r = Ret (OkR (Some cid, nonce, true, Some (map (fun o => GenerateSubCIDOffer o cid) os), Some (map (fun _ => true) os), false, [])) /\
      wire_message r /\ papi (at_env x) (at_state x) q = Ret (p', Reply r) /\ p' = with_offer_price (with_pay (at_state x) n') (g_offer (at_state x) * Z.of_nat (length ds)).
  Proof using Law AC GP version_32 supported_32 sha256_len sha512_256_len.
    clear voucher_readable. intros ((Cn & Net & T & Pk & Pc & Gl & _ & Sh) & St & U & Sz) Is Gk Cs Hc In Er Pr n.
    destruct x as [ep p hist kp]. unfold in_stock in Is. cbn [at_env at_state at_hist at_key] in *.
    destruct (rt_GatewayDHTDiscoverOfferRequest version supported sha256 cid nonce (Some ds) chn text Hc In) as (b & Eb & _ & Db).
    destruct (sign_with_can pub_of ec_sign ec_verify blake Law k (g_ver g) b Cs) as (s & Es & Os).
    set (p1 := with_offer_price (with_pay p n') (g_offer p * Z.of_nat (length ds))).
    assert (Q : offers_by_digest sha256 zone ep p1 ds (Some cid) = Ret (map (fun o => (GenerateSubCIDOffer o cid, true)) os)).
    { apply (by_digest_total sha256 sha512_256 zone sha512_256_len ep p1 hist cid); [exact St|exact U|exact Sh|exact Is]. }
    destruct (rt_GatewayDHTDiscoverOfferResponse version supported sha256 cid nonce true (Some (map (fun o => GenerateSubCIDOffer o cid) os)) (Some (map (fun _ => true) os)) false [] Hc In) as (y & Ea & Fa & Da).
    { cbn [each]. apply Forall_forall. intros z Z. apply in_map_iff in Z. destruct Z as (o & <- & I). apply (recorded_wire sha256 sha512_256 sha256_len hist); [exact (proj1 St)|exact Sz| |exact Hc].
      clear -Is I. induction Is as [|o' d os ds (R & _) _ IH]; [contradiction|]. destruct I as [<-|I]; auto. }
    destruct (sign_with_can pub_of ec_sign ec_verify blake Law kp (g_ver p) y Pc) as (t & Et & Ot).
    assert (A : papi ep p (set_sig b s) = Ret (p1, Reply (set_sig y t))).
    { rewrite (api_gateway_offer ep p (set_sig b s) (Some cid, nonce, Some ds, chn, text) Db). unfold HandleGatewayOffer.
      change (DecodeGatewayDHTDiscoverOfferRequest sha256 (set_sig b s)) with (DecodeGatewayDHTDiscoverOfferRequest sha256 b). rewrite Db. cbn [obind].
      rewrite Er. cbn [obind elems]. change (g_offer (with_pay p n')) with (g_offer p). fold p1. rewrite Q. cbn [obind]. rewrite !map_map. cbn [fst snd].
      replace (a <? g_offer p * Z.of_nat (length ds)) with false by lia. rewrite Ea. cbn [obind]. unfold finish_p2p. change (g_key p1) with (g_key p). change (g_ver p1) with (g_ver p). rewrite Pk, Et. reflexivity. }
    exists (set_sig y t). eexists. exists (set_sig b s), p1. split.
    - unfold RequestDHTOffer, ask_gateway. rewrite Cn. cbn [negb]. rewrite Eb. cbn [obind]. rewrite Gk, Es. cbn [obind fst snd negb]. rewrite Net, A. cbn [heard].
      destruct (core_known pub_of e n g id kp Gl) as (ii & pk & Ec & Ek & Em). rewrite Ec. cbn [obind]. unfold Gateway.GetSigningKey. rewrite Ek. cbn [obind].
      rewrite message_verify_state, (Ot pk Em). reflexivity.
    - split; [exact Da|]. split; [|split; [exact A|reflexivity]].
      destruct Fa as (F1 & F2 & F3 & _). unfold wire_message. cbn [set_sig m_type m_version m_supported]. rewrite F1, F2, F3. cbn [each]. split; [unfold int32; lia|]. auto.
  Qed.

  Lemma silent_none_offer e g id cid nonce k ds chn text : silent e id -> g_key g = Some k -> can_sign ec_sign blake k -> id32 cid -> int64 nonce ->
    forall n, exists o, RequestDHTOffer version supported pub_of ec_sign ec_verify blake e n g id (Some cid) nonce ds chn text = Ret (None, g, o).
  Proof using Law sha256.
    clear voucher_readable AC GP version_32 supported_32 sha256_len sha512_256_len. intros Si Gk Cs Hc In n. unfold RequestDHTOffer, ask_gateway.
    destruct (Si n) as [->|N]; [eexists; reflexivity|]. destruct (e_conn e n id); [|eexists; reflexivity]. cbn [negb].
    destruct (rt_GatewayDHTDiscoverOfferRequest version supported sha256 cid nonce ds chn text Hc In) as (b & Eb & _ & _).
    destruct (sign_with_can pub_of ec_sign ec_verify blake Law k (g_ver g) b Cs) as (s & Es & _). rewrite Eb. cbn [obind]. rewrite Gk, Es. cbn [obind fst snd negb]. rewrite N. eexists. reflexivity.
  Qed.

  (** ** The gateway asking *)
  Lemma orderable_keeps met e g m m' a id ds : aget bytes_eqb (m_out m') a = aget bytes_eqb (m_out m) a ->
    orderable met e (with_pay g m) a id ds -> orderable met e (with_pay g m') a id ds.
  Proof using.
    intros E P. unfold DhtOfferSpec.orderable in *. destruct (met id) as [(x & os)|].
    - destruct P as (A & B & D & ch & C & L). split; [exact A|]. split; [exact B|]. split; [exact D|]. exists ch. split; [exact (settled_keeps _ _ _ _ _ _ _ _ _ _ E C)|exact L].
    - destruct P as (A & B & ch & C & D). split; [exact A|]. split; [exact B|]. exists ch. split; [exact (channel_keeps _ _ _ _ _ E C)|exact D].
  Qed.
  Lemma charged_keeps met e g m0 m0' m m' a id ds :
    aget bytes_eqb (m_out m0') a = aget bytes_eqb (m_out m0) a -> aget bytes_eqb (m_out m') a = aget bytes_eqb (m_out m) a ->
    charged met e (with_pay g m0) (with_pay g m) a id ds -> charged met e (with_pay g m0') (with_pay g m') a id ds.
  Proof using.
    intros E0 E B. unfold DhtOfferSpec.charged in *. destruct (met id) as [(x & os)|].
    - destruct B as (q & p' & r & ch & ch' & B1 & B2 & B3 & B4 & B5). exists q, p', r, ch, ch'. split; [exact B1|].
      split; [exact (channel_keeps _ _ _ _ _ E0 B2)|]. split; [exact (settled_keeps _ _ _ _ _ _ _ _ _ _ E B3)|]. split; [exact B4|exact B5].
    - destruct B as (ch & ch' & B1 & B2 & B3). exists ch, ch'. split; [exact (channel_keeps _ _ _ _ _ E0 B1)|]. split; [exact (channel_keeps _ _ _ _ _ E B2)|exact B3].
  Qed.

  Lemma known_address e n g id a : consults g -> pays_at g id a -> exists i, CoreGetGateway e n g (Some id) = Ret (Some i, g) /\ n_address i = a.
  Proof using.
    intros (S & D) (i & G & A). exists i. split; [|exact A]. unfold CoreGetGateway. rewrite (get_known _ _ _ _ _ S D G). cbn [obind fst snd]. destruct g. reflexivity.
  Qed.

  (** The response holds these offers. *)
  Definition holds (cid : bytes) (nonce : Z) (r : message) (os : list offer) : Prop :=
    DecodeGatewayDHTDiscoverOfferResponse sha256 r = Ret (OkR (Some cid, nonce, true, Some (map (fun o => GenerateSubCIDOffer o cid) os), Some (map (fun _ => true) os), false, [])).

  Lemma sub_responses_all cid nonce : forall l (os : list (list offer)), Forall2 (fun y o => holds cid nonce (snd y) o /\ o <> []) l os ->
    sub_responses sha256 l = Ret (OkR (map (fun z => (fst (fst z), map (fun o => GenerateSubCIDOffer o cid) (snd z))) (combine l os))).
  Proof using.
    intros l os F. induction F as [|[id r] o l os (H & N) F IH]; [reflexivity|]. cbn [sub_responses snd] in *. unfold holds in H. rewrite H. cbn [obind]. rewrite IH. cbn [obind items].
    rewrite map_length. destruct o as [|o0 o]; [congruence|]. reflexivity.
  Qed.

  Lemma purchases met e g cid nonce k : consults g -> g_key g = Some k -> can_sign ec_sign blake k -> id32 cid -> int64 nonce -> 0 < g_offer g ->
    forall (rows : list order) (addr : bytes -> gostring), NoDup (map (fun r => addr (fst r)) rows) -> (forall r, In r rows -> pays_at g (fst r) (addr (fst r))) ->
    forall m, (forall id ds, In (id, ds) rows -> ds <> [] /\ orderable met e (with_pay g m) (addr id) id ds) ->
    forall pre w, exists cs un o m', offers_all version supported pub_of ec_sign ec_verify blake voucher_text e (length pre) (with_pay g m) (Some cid) nonce (pre ++ map (fun r : order => Some (snd r)) rows) (map fst rows) w =
        Ret (inr (Gathered (contacted w ++ map fst (map fst cs)) (responses w ++ map snd (map fst cs)) (unContactable w ++ un) (out w ++ o)), with_pay g m', out w ++ o) /\
      map (fun z => (fst (fst z), map (fun o => GenerateSubCIDOffer o cid) (snd z))) cs = delivery met cid rows /\
      Forall (fun z => holds cid nonce (snd (fst z)) (snd z) /\ snd z <> [] /\ wire_message (snd (fst z)) /\ In (fst (fst z)) (map fst rows)) cs /\
      (forall id ds, In (id, ds) rows -> charged met e (with_pay g m) (with_pay g m') (addr id) id ds) /\
      (forall b, ~ In b (map (fun r => addr (fst r)) rows) -> aget bytes_eqb (m_out m') b = aget bytes_eqb (m_out m) b) /\ m_in m' = m_in m /\ m_addr m' = m_addr m.
  Proof using Law AC GP version_32 supported_32 voucher_readable sha256_len sha512_256_len.
    intros Co Gk Cs Hc In Ps rows addr. induction rows as [|(id & ds) rows IH]; intros Nd Pa m P pre w.
    { exists [], [], [], m. cbn [offers_all map]. rewrite !app_nil_r. split; [destruct w; reflexivity|]. split; [reflexivity|]. split; [constructor|].
      split; [contradiction|]. split; [reflexivity|]. split; reflexivity. }
    cbn [map fst] in Nd. inversion Nd as [|? ? Na Nd']; subst.
    destruct (P id ds (or_introl eq_refl)) as (Dn & P0).
    assert (Pp : 0 < price_of g ds).
    { unfold price_of. destruct ds; [congruence|]. cbn [length]. nia. }
    assert (Step : exists v chn m1 r o, CorePay e (with_pay g m) (addr id) 0 (price_of g ds) = Ret (Paid chn v, with_pay (with_pay g m) m1) /\
      RequestDHTOffer version supported pub_of ec_sign ec_verify blake e (2 * length pre + 1) (with_pay g m1) id (Some cid) nonce (Some ds) chn (voucher_text v) = Ret (r, with_pay g m1, o) /\
      match r with Some r => exists x os, met id = Some (x, os) /\ holds cid nonce r os /\ os <> [] /\ wire_message r | None => met id = None end /\
      charged met e (with_pay g m) (with_pay g m1) (addr id) id ds /\
      (m_in m1 = m_in m /\ m_addr m1 = m_addr m) /\ (forall b, b <> addr id -> aget bytes_eqb (m_out m1) b = aget bytes_eqb (m_out m) b)).
    { unfold DhtOfferSpec.orderable in P0. unfold DhtOfferSpec.charged. destruct (met id) as [(x & os)|].
      - destruct P0 as (Pe & Is & Le & ch & St & Lf).
        destruct (paid_over_frame sha256 sha512_256 pub_of ec_sign ec_verify blake verify voucher_text voucher_of is_address voucher_readable e (with_pay g m) m (addr id) (at_env x) (at_state x) ch (price_of g ds) eq_refl St Pp Lf)
          as (v & m1 & ch' & n' & Cp & Rc & St' & L' & Mi & Ma & Fr).
        destruct (peer_sells_offers e (with_pay g m1) id x cid nonce k (c_addr ch) (voucher_text v) (price_of g ds) n' os ds Pe Is Gk Cs Hc In Rc) with (n := (2 * length pre + 1)%nat) as (r & o & q & p' & Rq & Da & Wm & Pq & ->).
        { unfold price_of. rewrite (Z.mul_comm (Z.of_nat _)). apply Z.mul_le_mono_nonneg_r; [lia|exact Le]. }
        exists v, (c_addr ch), m1, (Some r), o. split; [exact Cp|]. split; [exact Rq|]. split.
        + exists x, os. split; [reflexivity|]. split; [exact Da|]. split; [|exact Wm]. intros ->. inversion Is. congruence.
        + split; [|split; [split; assumption|assumption]]. exists q, (with_offer_price (with_pay (at_state x) n') (g_offer (at_state x) * Z.of_nat (length ds))), r, ch, ch'.
          split; [exact Pq|]. split; [exact (proj1 St)|]. split; [exact St'|]. split; [exact L'|reflexivity].
      - destruct P0 as (Si & Sg & ch & (m0 & Gp & G) & Lf). cbn [with_pay g_pay] in Gp. injection Gp as <-.
        destruct (paid_out e (with_pay g m) m (addr id) (price_of g ds) ch eq_refl G Lf Sg) as (v & m1 & ch' & Cp & G' & L' & _ & Mi & Ma & Fr).
        destruct (silent_none_offer e (with_pay g m1) id cid nonce k (Some ds) (c_addr ch) (voucher_text v) Si Gk Cs Hc In (2 * length pre + 1)) as (o & Rq).
        exists v, (c_addr ch), m1, None, o. split; [exact Cp|]. split; [exact Rq|]. split; [reflexivity|]. split; [|split; [split; assumption|assumption]].
        exists ch, ch'. split; [exists m; split; [reflexivity|exact G]|]. split; [exists m1; split; [reflexivity|exact G']|exact L']. }
    destruct Step as (v & chn & m1 & r & o1 & Cp & Rq & Re & Ch & (Mi & Ma) & Fr).
    assert (Nb : forall id' ds', List.In (id', ds') rows -> addr id' <> addr id).
    { intros id' ds' I E. apply Na. rewrite <- E. apply in_map_iff. exists (id', ds'). split; [reflexivity|exact I]. }
    assert (P1 : forall id' ds', List.In (id', ds') rows -> ds' <> [] /\ orderable met e (with_pay g m1) (addr id') id' ds').
    { intros id' ds' I. destruct (P id' ds' (or_intror I)) as (D & Q). split; [exact D|]. apply (orderable_keeps met e g m m1); [|exact Q]. apply Fr. exact (Nb _ _ I). }
    destruct (IH Nd' (fun r I => Pa r (or_intror I)) m1 P1 (pre ++ [Some ds]) (gather w id r o1)) as (cs & un & o & m' & Da & Ed & Fw & Bo & Fr' & Mi' & Ma').
    assert (Start : offers_all version supported pub_of ec_sign ec_verify blake voucher_text e (length pre) (with_pay g m) (Some cid) nonce (pre ++ Some ds :: map (fun r : order => Some (snd r)) rows) (id :: map fst rows) w =
      offers_all version supported pub_of ec_sign ec_verify blake voucher_text e (length (pre ++ [Some ds])) (with_pay g m1) (Some cid) nonce ((pre ++ [Some ds]) ++ map (fun r : order => Some (snd r)) rows) (map fst rows) (gather w id r o1)).
    { rewrite <- app_assoc, app_length. cbn [app length]. replace (length pre + 1)%nat with (S (length pre)) by (clear; lia). cbn [offers_all].
      rewrite nth_error_app2, Nat.sub_diag by (clear; lia). cbn [nth_error deref obind].
      destruct (known_address e (2 * length pre) (with_pay g m) id (addr id) Co (Pa (id, ds) (or_introl eq_refl))) as (i & Eg & Ea). rewrite Eg. cbn [obind deref].
      rewrite Ea. change (Z.of_nat (length (elems (Some ds))) * g_offer (with_pay g m)) with (price_of g ds). rewrite Cp. cbn [obind].
      change (with_pay (with_pay g m) m1) with (with_pay g m1). rewrite Rq. reflexivity. }
    assert (Fe : forall b, ~ List.In b (addr id :: map (fun r => addr (fst r)) rows) -> aget bytes_eqb (m_out m') b = aget bytes_eqb (m_out m) b).
    { intros b N. rewrite Fr' by (intros I; apply N; right; exact I). apply Fr. intros E. apply N. left. symmetry. exact E. }
    assert (Be : forall id' ds', List.In (id', ds') ((id, ds) :: rows) -> charged met e (with_pay g m) (with_pay g m') (addr id') id' ds').
    { intros id' ds' [E|I].
      - injection E as <- <-. apply (charged_keeps met e g m m m1 m'); [reflexivity|exact (Fr' _ Na)|exact Ch].
      - apply (charged_keeps met e g m1 m m' m'); [symmetry; apply Fr; exact (Nb _ _ I)|reflexivity|exact (Bo _ _ I)]. }
    cbn [map fst snd]. rewrite Start, Da. destruct r as [r|].
    - destruct Re as (x & os & Me & Ho & No & Wm). exists (((id, r), os) :: cs), un, (o1 ++ o), m'.
      cbn [gather contacted responses unContactable out map fst snd]. rewrite <- !app_assoc. split; [reflexivity|].
      split; [unfold delivery; cbn [flat_map fst]; rewrite Me; cbn [app]; f_equal; exact Ed|]. split; [|split; [exact Be|split; [exact Fe|split; congruence]]].
      constructor; [cbn [fst snd]; split; [exact Ho|]; split; [exact No|]; split; [exact Wm|left; reflexivity]|].
      eapply Forall_impl; [|exact Fw]. intros z (A & B & C & D). split; [exact A|]. split; [exact B|]. split; [exact C|right; exact D].
    - exists cs, (id :: un), (o1 ++ o), m'. cbn [gather contacted responses unContactable out map fst snd]. rewrite <- !app_assoc. split; [reflexivity|].
      split; [unfold delivery; cbn [flat_map fst]; rewrite Re; exact Ed|]. split; [|split; [exact Be|split; [exact Fe|split; congruence]]].
      eapply Forall_impl; [|exact Fw]. intros z (A & B & C & D). split; [exact A|]. split; [exact B|]. split; [exact C|right; exact D].
  Qed.

  Lemma api_dht_offer e g m z : DecodeClientDHTDiscoverOfferRequest sha256 m = Ret (OkR z) ->
    api e g m = (let* s := HandleDHTOffer version supported sha256 pub_of ec_sign ec_verify blake verify voucher_text voucher_of is_address e g m in Ret (after s, wrote s))%go.
  Proof using AC GP.
    intros D. destruct z as (((((x1 & x2) & x3) & x4) & x5) & x6). unfold client_api.
    assert (T : m_type m = type_of KClientDHTDiscoverOfferRequest) by tagged D. rewrite T, routed_type by (assumption || discriminate). reflexivity.
  Qed.

  Lemma ordered_pf ce n gw e g cid nonce (rows : list order) met channel text x g1 : represents pub_of gw g -> ready ec_sign blake g -> reaches (ce_http ce n) gw (api e g) ->
    consults g -> addresses_differ g -> NoDup (map fst rows) -> Forall id32 (map fst rows) -> id32 cid -> int64 nonce -> 0 < g_offer g ->
    receive e g channel text = Ret (Some x, g1) -> price_of_all g rows <= x ->
    (forall id ds, In (id, ds) rows -> ds <> [] /\ exists address, pays_at g id address /\ orderable met e g address id ds) ->
    exists m g' r,
      RequestDHTOfferDiscover version supported sha256 pub_of ec_verify blake ce n gw (map fst rows) (Some cid) nonce (Some (map (fun r : order => Some (snd r)) rows)) channel text =
        Ret (OkR (delivery met cid rows), [(r_client_ap gw, m)]) /\
      (forall id ds, In (id, ds) rows -> exists address, pays_at g id address /\ charged met e g g' address id ds) /\
      api e g m = Ret (g', [Json r]) /\ g_db g' = g_db g /\ g_reg g' = g_reg g /\ settings g' = settings g /\
      (forall address ch, (forall id, In id (map fst rows) -> ~ pays_at g id address) -> (channel_to g' address ch <-> channel_to g address ch)) /\
      exists m1 m2, g_pay g1 = Some m1 /\ g_pay g' = Some m2 /\ m_in m2 = m_in m1 /\ m_addr m2 = m_addr m1.
  Proof using Law AC GP version_32 supported_32 voucher_readable sha256_len sha512_256_len.
    intros (i & k' & Gi & Ri & Gk & Rk) (i' & k & mg & Gi' & Hi & Gk' & Cs & Gp) Re Co Ad Nd Fi Hc In Ps Er Px Met.
    assert (k' = k) by congruence. subst k'. clear Gk'.
    destruct (receive_reg verify voucher_of is_address e g (g_reg g) _ _ _ _ Er) as (m0 & m1 & Gp0 & Er' & Eg1 & Mo).
    assert (Eg : with_reg g (g_reg g) = g) by (destruct g; reflexivity). rewrite Eg in Er'.
    set (addr := fun id : bytes => match aget bytes_eqb (gatewaysMap info (g_reg g)) (ToString id) with Some i => n_address i | None => [] end).
    assert (Ea : forall id a, pays_at g id a -> addr id = a).
    { intros id a (q & G & A). unfold addr. rewrite G. exact A. }
    assert (Pa : forall r : order, List.In r rows -> pays_at g (fst r) (addr (fst r))).
    { intros (id & ds) I. destruct (Met id ds I) as (_ & a & A & _). cbn [fst]. rewrite (Ea id a A). exact A. }
    assert (Na : NoDup (map (fun r => addr (fst r)) rows)).
    { clear -Nd Pa Ad Fi. induction rows as [|(id & ds) rows IH]; [constructor|]. cbn [map fst] in *. inversion Nd as [|? ? Nn Nd']; subst. inversion Fi as [|? ? Hid Fi']; subst.
      constructor; [|apply IH; [exact Nd'|exact Fi'|intros r I; apply Pa; right; exact I]].
      intros I. apply in_map_iff in I. destruct I as ((id' & ds') & E & I). cbn [fst] in E. apply Nn. apply in_map_iff. exists (id', ds'). split; [|exact I]. cbn [fst].
      assert (A := Pa (id, ds) (or_introl eq_refl)). assert (A' := Pa (id', ds') (or_intror I)). cbn [fst] in A, A'. rewrite E in A'.
      assert (T := Ad _ _ _ A' A). assert (Hid' : id32 id') by (rewrite Forall_forall in Fi'; apply Fi'; apply in_map_iff; exists (id', ds'); split; [reflexivity|exact I]).
      exact (proj2 (proj2 (proj2 (id_hex_roundtrip_pf id Hid))) id' Hid' T). }
    assert (Ch : forall address ch m', channel_to (with_pay g m') address ch <-> aget bytes_eqb (m_out m') address = Some ch).
    { intros a ch m'. split; [intros (y & E & H); cbn [with_pay g_pay] in E; congruence|intros H; exists m'; split; [reflexivity|exact H]]. }
    assert (Ch0 : forall address ch, channel_to g address ch <-> aget bytes_eqb (m_out m1) address = Some ch).
    { intros a ch. rewrite Mo. split; [intros (y & E & H); congruence|intros H; exists m0; split; [exact Gp0|exact H]]. }
    assert (Or : forall id ds, List.In (id, ds) rows -> ds <> [] /\ orderable met e (with_pay g m1) (addr id) id ds).
    { intros id ds I. destruct (Met id ds I) as (D & a & A & O). split; [exact D|]. rewrite (Ea id a A). unfold DhtOfferSpec.orderable in *. destruct (met id) as [(y & os)|].
      - destruct O as (Pe & Is & Le & ch & (C1 & C2) & Lf). split; [exact Pe|]. split; [exact Is|]. split; [exact Le|]. exists ch. split; [split; [apply Ch, Ch0; exact C1|exact C2]|exact Lf].
      - destruct O as (Si & Sg & ch & C1 & Lf). split; [exact Si|]. split; [exact Sg|]. exists ch. split; [apply Ch, Ch0; exact C1|exact Lf]. }
    destruct (rt_ClientDHTDiscoverOfferRequest version supported sha256 cid nonce (Some (map (fun r : order => Some (snd r)) rows)) (map fst rows) channel text Hc In Fi) as (m & En & _ & D).
    destruct (purchases met e g cid nonce k Co Gk Cs Hc In Ps rows addr Na Pa m1 Or [] nothing) as (cs & un & o & m' & Da & Ed & Fw & Bo & Fr & Mi & Ma).
    cbn [nothing contacted responses unContactable out app length] in Da.
    destruct (rt_ClientDHTDiscoverOfferResponse version supported sha256 cid nonce (map fst (map fst cs)) (Some (map snd (map fst cs))) false []) as (b & Eb & _ & Db); [exact Hc|exact In| | |].
    { apply Forall_forall. intros j I. apply in_map_iff in I. destruct I as (z & <- & I). apply in_map_iff in I. destruct I as (y & <- & I). rewrite Forall_forall in Fw, Fi. apply Fi. exact (proj2 (proj2 (proj2 (Fw _ I)))). }
    { cbn [each]. apply Forall_forall. intros q I. apply in_map_iff in I. destruct I as (z & <- & I). apply in_map_iff in I. destruct I as (y & <- & I). rewrite Forall_forall in Fw. exact (proj1 (proj2 (proj2 (Fw _ I)))). }
    destruct (AdminProofs.write_can pub_of ec_sign ec_verify blake k (g_ver g) 500 b Law Cs) as (s & F & O).
    assert (A : api e g m = Ret (with_pay g m', [Json (set_sig b s)])).
    { rewrite (api_dht_offer _ _ _ _ D). unfold HandleDHTOffer. rewrite D. cbn [obind]. rewrite Er'. cbn [obind elems]. change (g_offer (with_pay g m1)) with (g_offer g).
      rewrite units_price. replace (x <? price_of_all g rows) with false by (clear -Px; lia).
      rewrite Da. cbn [obind contacted responses]. rewrite Eb. cbn [obind]. unfold finish_rest. change (g_key (with_pay g m')) with (g_key g). change (g_ver (with_pay g m')) with (g_ver g). rewrite Gk, F. reflexivity. }
    assert (H : ce_http ce n (r_client_ap gw) m = Some (set_sig b s)) by (rewrite Re, A; reflexivity).
    exists m, (with_pay g m'), (set_sig b s). split.
    { unfold RequestDHTOfferDiscover. rewrite (ask_served pub_of ec_verify blake ce n gw k _ m _ Rk En H O). cbn [obind].
      change (DecodeClientDHTDiscoverOfferResponse sha256 (set_sig b s)) with (DecodeClientDHTDiscoverOfferResponse sha256 b). rewrite Db. cbn [obind items].
      rewrite !map_length, Nat.eqb_refl. cbn [negb].
      assert (Ec : combine (map fst (map fst cs)) (map snd (map fst cs)) = map fst cs) by (clear; induction cs as [|((a & b) & c) cs IH]; [reflexivity|]; cbn [map fst snd combine]; f_equal; exact IH).
      rewrite Ec, (sub_responses_all cid nonce (map fst cs) (map snd cs)).
      - cbn [obind]. assert (Ec2 : combine (map fst cs) (map snd cs) = cs) by (clear; induction cs as [|(a & b) cs IH]; [reflexivity|]; cbn [map fst snd combine]; f_equal; exact IH). rewrite Ec2, Ed. reflexivity.
      - clear -Fw. induction Fw as [|z cs (A & B & _) _ IH]; constructor; auto. }
    split. { intros id ds I. exists (addr id). split; [exact (Pa (id, ds) I)|]. specialize (Bo _ _ I). unfold DhtOfferSpec.charged in *. destruct (met id) as [(y & os)|].
      - destruct Bo as (q & p' & r & ch & ch' & B1 & B2 & B3 & B4 & B5). exists q, p', r, ch, ch'. split; [exact B1|]. split; [apply Ch0, (Ch _ _ m1); exact B2|]. auto.
      - destruct Bo as (ch & ch' & B1 & B2 & B3). exists ch, ch'. split; [apply Ch0, (Ch _ _ m1); exact B1|]. auto. }
    split; [exact A|]. split; [reflexivity|]. split; [reflexivity|]. split; [reflexivity|]. split.
    { intros a ch N. rewrite Ch, Ch0, Fr; [reflexivity|]. intros I. apply in_map_iff in I. destruct I as (r & <- & I). exact (N (fst r) (in_map fst _ _ I) (Pa r I)). }
    exists m1, m'. subst g1. split; [reflexivity|]. split; [reflexivity|]. split; [exact Mi|exact Ma].
  Qed.
End bought.
