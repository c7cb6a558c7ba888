(** * Proofs about a client, a gateway and the gateways it asks *)
From Coq Require Import String List ZArith Bool Lia Permutation Sorting.Sorted.
From Coq Require Import Init.Byte.
From Verif Require Import Base BaseProofs Ids IdsProofs Crypto CryptoProofs Message MessageProofs Offer OfferProofs Schema SchemaProofs Messages MessagesSpec MessagesProofs WireSpec Payment Ring RingSpec Register RegisterSpec RegisterProofs
  OfferStoreSpec SqlOffers SqlOffersSpec SqlOffersProofs Json Rest Routes RoutesProofs Gateway GatewaySpec GatewayProofs GatewayStoreProofs GatewayOfferSpec GatewayOfferProofs Client ClientSpec ClientProofs ClientFindProofs RetrievalSpec RetrievalProofs DhtSpec.
From Verif Require AdminSpec AdminProofs AdminNodeProofs.
Import ListNotations.
Open Scope Z_scope.

Section ring.
  Lemma rotation_perm {A} (a b : list A) : rotation a b -> Permutation a b.
  Proof. intros (u & v & -> & ->). apply Permutation_app_comm. Qed.
  Lemma closest_nodup members p n ids : NoDup members -> closest_ok members p n ids -> NoDup ids.
  Proof.
    intros N (_ & others & R & _). apply rotation_perm in R. apply (Permutation_NoDup R) in N. clear R. induction ids as [|a t IH]; [constructor|].
    cbn [app] in N. inversion N as [|? ? H N' ]; subst. constructor; [|auto]. intros I. apply H, in_or_app. left. exact I.
  Qed.
  Lemma sorted_nodup l : StronglySorted (fun a b => hex_val a < hex_val b) l -> NoDup l.
  Proof.
    induction 1 as [|a t S IH F]; constructor; [|exact IH]. intros I. rewrite Forall_forall in F. specialize (F _ I). lia.
  Qed.
  Lemma without_nodup x l : NoDup l -> NoDup (without x l).
  Proof. intros N. apply NoDup_filter. exact N. Qed.
End ring.

Section known.
  Context {Info : Type}.
  Lemma get_known (m : manager Info) id i ga pa : start Info m = true -> gatewayDiscv Info m = true -> aget bytes_eqb (gatewaysMap Info m) (ToString id) = Some i ->
    GetGateway Info m (Some id) ga pa = Ret (Some i, m).
  Proof.
    intros S D G. unfold GetGateway. rewrite S, D. cbn [negb orb deref obind RLock RUnlock]. rewrite G. destruct m. reflexivity.
  Qed.
  Lemma near_same (m : manager Info) c num ex r m' : GetGatewaysNearCID Info m c num ex = Ret (r, m') ->
    gatewaysMap Info m' = gatewaysMap Info m /\ start Info m' = start Info m /\ gatewayDiscv Info m' = gatewayDiscv Info m.
  Proof.
    unfold GetGatewaysNearCID. intros H. step H. step H; [discriminate|]. step H. cbn [RLock RUnlock obind] in H.
    apply ret_inj in H. injection H as <- <-. repeat split.
  Qed.
End known.

Section dht.
  Variable version : Z.
  Variable supported : list Z.
  Variable sha256 sha512_256 : bytes -> bytes.
  Variable pub_of : bytes -> bytes.
  Variable ec_sign : bytes -> bytes -> option bytes.
  Variable ec_verify : bytes -> bytes -> bytes -> bool.
  Variable blake : bytes -> bytes.
  Variable verify : gostring -> voucher -> option bytes -> bool.
  Variable voucher_text : voucher -> gostring.
  Variable voucher_of : gostring -> option voucher.
  Variable is_address : gostring -> bool.
  Variable zone : Z.
  Variables BindAdminAPI BindRestAPI BindGatewayAPI BindProviderAPI : gostring.
  Variable rand_int : list draw -> Z.
  Hypothesis Law : ecdsa_correct pub_of ec_sign ec_verify.
  Hypothesis AC : BindAdminAPI <> BindRestAPI.
  Hypothesis GP : BindGatewayAPI <> BindProviderAPI.
  Hypothesis sha256_len : forall x, length (sha256 x) = 32%nat.
  Hypothesis rand_int_64 : forall l, int64 (rand_int l).
  Hypothesis version_32 : int32 version.
  Hypothesis supported_32 : Forall int32 supported.
  Implicit Types (c : client) (g : gateway) (gw : reg) (e : env) (ce : cenv) (m : message) (x : contact).

  Local Notation api := (client_api version supported sha256 sha512_256 pub_of ec_sign ec_verify blake verify voucher_text voucher_of is_address zone BindAdminAPI BindRestAPI BindGatewayAPI BindProviderAPI).
  Local Notation papi := (peer_api version supported sha256 sha512_256 pub_of ec_sign ec_verify blake verify voucher_of is_address zone BindAdminAPI BindRestAPI BindGatewayAPI BindProviderAPI).
  Local Notation peer := (peer version supported sha256 sha512_256 pub_of ec_sign ec_verify blake verify voucher_of is_address zone BindAdminAPI BindRestAPI BindGatewayAPI BindProviderAPI).
  Local Notation routed := (routed BindAdminAPI BindRestAPI BindGatewayAPI BindProviderAPI).
  Local Notation of_key := (AdminSpec.of_key pub_of ec_verify blake).
  Local Notation represents := (represents pub_of).
  Local Notation lists := (lists pub_of).
  Local Notation client_lists := (client_lists pub_of).
  Local Notation sifted := (ClientSpec.sifted sha256 pub_of ec_verify blake).
  Local Notation check_offers := (Client.check_offers sha256 pub_of ec_verify blake).
  Local Notation checkable := (RetrievalProofs.checkable sha256).
  Local Notation subs cid os := (map (fun o => GenerateSubCIDOffer o cid) os).
  Ltac tagged H := apply rbind_inv in H; destruct H as (? & H & _); exact (AdminNodeProofs.decoded_tag _ _ _ _ _ H).

  (** ** The gateway asked *)
  Lemma sign_with_can k v m : can_sign ec_sign blake k -> exists s, SignWith ec_sign blake (Some k) v m = Ret (true, set_sig m s) /\ of_key k (set_sig m s).
  Proof using Law.
    intros C. destruct (AdminProofs.sign_can ec_sign blake k v m C) as (m' & E). destruct (AdminProofs.sign_of pub_of ec_sign ec_verify blake _ _ _ _ Law E) as (O & s & ->).
    exists s. split; [|exact O]. unfold SignWith. cbn [deref obind]. rewrite E. reflexivity.
  Qed.
  Lemma core_known e n g id k : lists (g_reg g) id k -> exists i pk, CoreGetGateway e n g (Some id) = Ret (Some i, g) /\ DecodePublicKey (n_key i) = Ret (OkR pk) /\ matches pub_of pk k.
  Proof using.
    intros (S & D & i & pk & G & K & M). exists i, pk. split; [|auto]. unfold CoreGetGateway. rewrite (get_known _ _ _ _ _ S D G). cbn [obind fst snd]. destruct g. reflexivity.
  Qed.
  Lemma find_known ce n c id k : client_lists c id k -> exists gw, FindGateway ce n c (Some id) = Ret (Some gw, c) /\ validateGatewayInfo gw = Ret true /\ AdminSpec.registered_with pub_of gw k.
  Proof using.
    intros (S & D & gw & G & V & R). exists gw. split; [|auto]. unfold FindGateway. rewrite (get_known _ _ _ _ _ S D G). cbn [obind fst snd]. destruct c. reflexivity.
  Qed.

  Lemma api_gateway_discover e g m z : DecodeGatewayDHTDiscoverRequest sha256 m = Ret (OkR z) ->
    papi e g m = HandleGatewayDiscover version supported sha256 pub_of ec_sign ec_verify blake zone e g m.
  Proof using AC GP.
    intros D. destruct z as (((((x1 & x2) & x3) & x4) & x5) & x6). unfold peer_api.
    assert (T : m_type m = type_of KGatewayDHTDiscoverRequest) by tagged D. rewrite T, routed_type by (assumption || discriminate). reflexivity.
  Qed.

  Definition answer_of (cid : bytes) (x : contact) (r : message) : Prop :=
    of_key (at_key x) r /\ wire_message r /\ exists os nonce found flags, on_sale zone (at_hist x) (e_now (at_env x)) cid os /\
      DecodeGatewayDHTDiscoverResponse sha256 r = Ret (OkR (Some cid, nonce, found, Some (subs cid os), flags)).

  Lemma peer_answers e g id x cid i k : peer e g id x -> g_id g = Some i -> g_key g = Some k -> can_sign ec_sign blake k -> id32 i -> id32 cid -> int64 (unix e + 10) ->
    forall n, exists r o, Gateway.RequestDHTDiscover version supported pub_of ec_sign ec_verify blake e n g id (Some cid) = Ret (Some r, g, o) /\ answer_of cid x r.
  Proof using Law AC GP sha256_len version_32 supported_32.
    clear rand_int_64. intros ((Cn & Net & T & Pk & Pc & Gl & (i' & k' & Gi' & Gk' & Pl) & Sh) & St & U & Sz) Gi Gk Cs Hi Hc It n.
    assert (i' = i) by congruence. assert (k' = k) by congruence. subst i' k'. destruct x as [ep p hist kp]. cbn [at_env at_state at_hist at_key] in *.
    assert (I1 : int64 1) by (unfold int64; lia).
    destruct (rt_GatewayDHTDiscoverRequest version supported sha256 i cid 1 (unix e + 10) [] [] Hi Hc I1 It) as (b & Eb & _ & Db).
    destruct (sign_with_can k (g_ver g) b Cs) as (s & Es & Os).
    destruct (stock_on_sale sha256 sha512_256 zone ep p hist cid St U Sh Hc) as (os & found & Q & S & _).
    destruct (rt_GatewayDHTDiscoverResponse version supported sha256 cid 1 found (Some (subs cid os)) (Some (falses os)) Hc I1) as (a & Ea & Fa & Da).
    { cbn [each]. apply Forall_forall. intros y I. apply in_map_iff in I. destruct I as (o & <- & I). destruct (sale_recorded zone _ _ _ _ _ S I) as (R & _).
      destruct St as [P _]. apply (recorded_wire sha256 sha512_256 sha256_len hist); assumption. }
    destruct (sign_with_can kp (g_ver p) a Pc) as (t & Et & Ot).
    assert (A : papi ep p (set_sig b s) = Ret (p, Reply (set_sig a t))).
    { rewrite (api_gateway_discover ep p (set_sig b s) (Some i, Some cid, 1, unix e + 10, [], []) Db). unfold HandleGatewayDiscover.
      change (DecodeGatewayDHTDiscoverRequest sha256 (set_sig b s)) with (DecodeGatewayDHTDiscoverRequest sha256 b). rewrite Db. cbn [obind].
      unfold from_gateway. destruct (core_known ep 0 p i k Pl) as (ii & pk & Ec & Ek & Em). rewrite Ec. cbn [obind]. unfold Gateway.GetSigningKey. rewrite Ek. cbn [obind].
      rewrite (Os pk Em). cbn [negb]. replace (unix ep >? unix e + 10) with false by lia. unfold CoreGetOffers. cbn [deref obind]. rewrite Q. cbn [obind fst snd].
      rewrite suboffers_total. cbn [obind]. rewrite Ea. cbn [obind]. unfold finish_p2p. rewrite Pk, Et. reflexivity. }
    exists (set_sig a t). eexists. split.
    - unfold Gateway.RequestDHTDiscover, ask_gateway. rewrite Cn. cbn [negb]. rewrite Gi, Eb. cbn [obind]. rewrite Gk, Es. cbn [obind fst snd negb]. rewrite Net, A. cbn [heard].
      destruct (core_known e n g id kp Gl) as (ii & pk & Ec & Ek & Em). rewrite Ec. cbn [obind]. unfold Gateway.GetSigningKey. rewrite Ek. cbn [obind].
      rewrite message_verify_state, (Ot pk Em). reflexivity.
    - split; [exact Ot|]. split.
      + destruct Fa as (F1 & F2 & F3 & _). unfold wire_message. cbn [set_sig m_type m_version m_supported]. rewrite F1, F2, F3. cbn [each]. split; [unfold int32; lia|]. auto.
      + exists os, 1, found, (Some (falses os)). split; [exact S|exact Da].
  Qed.
  Lemma silent_none e g id cid i k : silent e id -> g_id g = Some i -> g_key g = Some k -> can_sign ec_sign blake k -> id32 i -> id32 cid -> int64 (unix e + 10) ->
    forall n, exists o, Gateway.RequestDHTDiscover version supported pub_of ec_sign ec_verify blake e n g id (Some cid) = Ret (None, g, o).
  Proof using Law sha256 sha512_256 is_address verify voucher_of.
    clear rand_int_64 sha256_len AC GP version_32 supported_32. intros Si Gi Gk Cs Hi Hc It n. unfold Gateway.RequestDHTDiscover, ask_gateway.
    destruct (Si n) as [->|N]; [eexists; reflexivity|]. destruct (e_conn e n id); [|eexists; reflexivity]. cbn [negb].
    assert (I1 : int64 1) by (unfold int64; lia).
    destruct (rt_GatewayDHTDiscoverRequest version supported sha256 i cid 1 (unix e + 10) [] [] Hi Hc I1 It) as (b & Eb & _ & _).
    destruct (sign_with_can k (g_ver g) b Cs) as (s & Es & _). rewrite Gi, Eb. cbn [obind]. rewrite Gk, Es. cbn [obind fst snd negb]. rewrite N. eexists. reflexivity.
  Qed.

  (** ** The gateway asking *)
  Definition met_ok (met : bytes -> option contact) e g id : Prop := match met id with Some x => peer e g id x | None => silent e id end.
  Inductive talk (met : bytes -> option contact) (cid : bytes) : list bytes -> list (bytes * message) -> list bytes -> Prop :=
  | talk_nil : talk met cid [] [] []
  | talk_heard id x r t cs un : met id = Some x -> answer_of cid x r -> talk met cid t cs un -> talk met cid (id :: t) ((id, r) :: cs) un
  | talk_silent id t cs un : met id = None -> talk met cid t cs un -> talk met cid (id :: t) cs (id :: un).

  Lemma discovered met e g cid i k : g_id g = Some i -> g_key g = Some k -> can_sign ec_sign blake k -> id32 i -> id32 cid -> int64 (unix e + 10) ->
    forall ids, (forall id, In id ids -> met_ok met e g id) -> forall n w, exists cs un o, talk met cid ids cs un /\
      discover_all version supported pub_of ec_sign ec_verify blake e n g (Some cid) ids w =
        Ret (Gathered (contacted w ++ map fst cs) (responses w ++ map snd cs) (unContactable w ++ un) (out w ++ o), g).
  Proof using Law AC GP sha256_len version_32 supported_32.
    intros Gi Gk Cs Hi Hc It. induction ids as [|id t IH]; intros M n w.
    { exists [], [], []. split; [constructor|]. cbn [discover_all map]. rewrite !app_nil_r. destruct w. reflexivity. }
    assert (M' : forall y, In y t -> met_ok met e g y) by (intros y Y; apply M; right; exact Y).
    specialize (M id (or_introl eq_refl)). unfold met_ok in M. cbn [discover_all]. destruct (met id) as [x|] eqn:E.
    - destruct (peer_answers e g id x cid i k M Gi Gk Cs Hi Hc It n) as (r & o & -> & A). cbn [obind].
      destruct (IH M' (S n) (gather w id (Some r) o)) as (cs & un & o' & T & ->). exists ((id, r) :: cs), un, (o ++ o'). split; [econstructor; eauto|].
      cbn [gather contacted responses unContactable out map fst snd]. rewrite <- !app_assoc. reflexivity.
    - destruct (silent_none e g id cid i k M Gi Gk Cs Hi Hc It n) as (o & ->). cbn [obind].
      destruct (IH M' (S n) (gather w id None o)) as (cs & un & o' & T & ->). exists cs, (id :: un), (o ++ o'). split; [constructor; auto|].
      cbn [gather contacted responses unContactable out]. rewrite <- !app_assoc. reflexivity.
  Qed.

  Lemma talk_in met cid ids cs un : talk met cid ids cs un ->
    (forall id r, In (id, r) cs -> In id ids /\ exists x, met id = Some x /\ answer_of cid x r) /\ (forall id, In id un -> In id ids /\ met id = None) /\
    (forall id, In id ids -> In id un \/ exists r, In (id, r) cs).
  Proof using.
    induction 1 as [|id x r t cs un M A T (I1 & I2 & I3)|id t cs un M T (I1 & I2 & I3)].
    - repeat split; try contradiction.
    - split; [|split].
      + intros j q [E|I]; [injection E as <- <-; split; [left; reflexivity|eauto]|]. destruct (I1 _ _ I) as (Ij & J). split; [right; exact Ij|exact J].
      + intros j I. destruct (I2 _ I) as (Ij & J). split; [right; exact Ij|exact J].
      + intros j [->|I]; [right; exists r; left; reflexivity|]. destruct (I3 _ I) as [J|(q & J)]; [left; exact J|right; exists q; right; exact J].
    - split; [|split].
      + intros j q I. destruct (I1 _ _ I) as (Ij & J). split; [right; exact Ij|exact J].
      + intros j [<-|I]; [split; [left; reflexivity|exact M]|]. destruct (I2 _ I) as (Ij & J). split; [right; exact Ij|exact J].
      + intros j [->|I]; [left; left; reflexivity|]. destruct (I3 _ I) as [J|(q & J)]; [left; right; exact J|right; exists q; exact J].
  Qed.
  Lemma talk_nodup met cid ids cs un : talk met cid ids cs un -> NoDup (map ToString ids) -> NoDup (map (fun p => ToString (fst p)) cs).
  Proof using.
    induction 1 as [|id x r t cs un M A T IH|id t cs un M T IH]; intros N; [constructor| |]; cbn [map] in N; inversion N as [|? ? H N']; subst; [|auto].
    cbn [map fst]. constructor; [|auto]. intros I. apply in_map_iff in I. destruct I as ((j & q) & E & I). cbn [fst] in E.
    destruct (talk_in _ _ _ _ _ T) as (I1 & _). apply H. apply in_map_iff. exists j. split; [exact E|exact (proj1 (I1 _ _ I))].
  Qed.

  (** ** The client *)
  Definition same_gateways c c' : Prop :=
    start reg (c_reg c') = start reg (c_reg c) /\ gatewayDiscv reg (c_reg c') = gatewayDiscv reg (c_reg c) /\ gatewaysMap reg (c_reg c') = gatewaysMap reg (c_reg c).
  Lemma check_offer_gateways c s ok c' : Client.check_offer sha256 pub_of ec_verify blake c s = Ret (ok, c') -> same_gateways c c'.
  Proof using.
    unfold Client.check_offer, FindProvider. intros H. step H. destruct v as [p c1]. step E. destruct v as [p1 m1]. cbn [fst snd] in E. apply ret_inj in E. injection E as <- <-.
    assert (S : same_gateways c (with_manager c m1)).
    { destruct (provider_same reg _ _ _ _ E0) as (_ & _ & A & B & _ & D & _). split; [exact A|]. split; [exact B|exact D]. }
    steps H; apply ret_inj in H; injection H as <- <-; exact S.
  Qed.
  Lemma check_offers_gateways l : forall c r c', check_offers c l = Ret (r, c') -> same_gateways c c'.
  Proof using.
    induction l as [|s t IH]; intros c r c' H; cbn [Client.check_offers] in H.
    - apply ret_inj in H. injection H as <- <-. repeat split.
    - step H. destruct v as [ok c1]. step H. destruct v as [r1 c2]. cbn [fst snd] in H. apply ret_inj in H. injection H as <- <-.
      destruct (check_offer_gateways _ _ _ _ E) as (A & B & D). destruct (IH _ _ _ E0) as (A' & B' & D'). repeat split; congruence.
  Qed.
  Lemma client_lists_same c c' id k : same_gateways c c' -> client_lists c id k -> client_lists c' id k.
  Proof using. intros (A & B & D) (S & G & L). unfold DhtSpec.client_lists. rewrite A, B, D. auto. Qed.

  Definition delivered c (p : bytes * message) : Prop :=
    exists k z1 z2 z3 z4 l, client_lists c (fst p) k /\ of_key k (snd p) /\
      DecodeGatewayDHTDiscoverResponse sha256 (snd p) = Ret (OkR (z1, z2, z3, Some l, z4)) /\ Forall checkable l.

  Lemma responses_taken ce cs : forall n c res, Forall (delivered c) cs -> keyed c -> NoDup (map (fun p => ToString (fst p)) cs) ->
    exists res' c', take_responses sha256 pub_of ec_verify blake ce n c cs res = Ret (res', c') /\
      (forall id r, In (id, r) cs -> exists z1 z2 z3 z4 l taken, DecodeGatewayDHTDiscoverResponse sha256 r = Ret (OkR (z1, z2, z3, Some l, z4)) /\
         aget bytes_eqb res' (ToString id) = Some taken /\ sifted c l taken) /\
      (forall key, ~ In key (map (fun p => ToString (fst p)) cs) -> aget bytes_eqb res' key = aget bytes_eqb res key).
  Proof using.
    induction cs as [|[id r] cs IH]; intros n c res F K N.
    { exists res, c. split; [reflexivity|]. split; [contradiction|reflexivity]. }
    inversion F as [|? ? (k & z1 & z2 & z3 & z4 & l & L & O & D & Ck) F']; subst. cbn [fst snd] in *. cbn [map fst] in N. inversion N as [|? ? Nn N']; subst.
    destruct (find_known ce n c id k L) as (gw & Ef & Ev & pk & Ek & Em).
    destruct (checks_return sha256 pub_of ec_verify blake l Ck c K) as (taken & c1 & Ec).
    destruct (check_offers_exact sha256 pub_of ec_verify blake _ _ _ _ Ec) as (Sp & Sf). assert (Sg := check_offers_gateways _ _ _ _ Ec).
    destruct (IH (S n) c1 (aset bytes_eqb res (ToString id) taken)) as (res' & c' & Et & R1 & R2); [| |exact N'|].
    { eapply Forall_impl; [|exact F']. intros p (k' & y1 & y2 & y3 & y4 & l' & L' & Y). exists k', y1, y2, y3, y4, l'. split; [exact (client_lists_same _ _ _ _ Sg L')|exact Y]. }
    { exact (keyed_same c c1 Sp K). }
    exists res', c'. split; [|split].
    - cbn [take_responses]. unfold check_response. rewrite Ef. cbn [obind]. rewrite Ev. cbn [obind negb]. unfold Client.GetSigningKey. rewrite Ek. cbn [obind].
      rewrite message_verify_state, (O pk Em). cbn [obind]. rewrite D. cbn [obind items]. rewrite Ec. cbn [obind fst snd]. exact Et.
    - intros j q [E|I].
      + injection E as <- <-. exists z1, z2, z3, z4, l, taken. split; [exact D|]. split; [|exact Sf]. rewrite R2 by exact Nn. apply aset_get.
      + destruct (R1 _ _ I) as (y1 & y2 & y3 & y4 & l' & tk & Dq & Aq & Sq). exists y1, y2, y3, y4, l', tk. split; [exact Dq|]. split; [exact Aq|]. exact (sifted_same _ _ _ _ _ _ _ _ Sp Sq).
    - intros key Nk. cbn [map fst] in Nk. rewrite R2 by (intros I; apply Nk; right; exact I). rewrite (aget_aset bytes_eqb bytes_eqb_eq).
      destruct (bytes_eqb _ _) eqn:B; [|reflexivity]. apply bytes_eqb_eq in B. exfalso. apply Nk. left. congruence.
  Qed.

  (** ** The identifiers *)
  Lemma named_ids (m : manager info) : self_named m -> forall near, (forall id i, In (id, i) near -> canonical id /\ aget bytes_eqb (gatewaysMap info m) id = Some i) ->
    exists ids, ids_of (map snd near) = OkR ids /\ map ToString ids = map fst near /\ Forall id32 ids.
  Proof using.
    intros Sn. induction near as [|[id i] t IH]; intros A.
    { exists []. repeat split. constructor. }
    destruct (A id i (or_introl eq_refl)) as ((b & Lb & ->) & G). assert (Ei := Sn _ _ G). destruct IH as (ids & E & Mp & F); [intros j q I; apply A; right; exact I|].
    exists (b :: ids). cbn [map fst snd ids_of]. rewrite Ei, (proj1 (id_hex_roundtrip_pf b Lb)), E. split; [reflexivity|]. rewrite Mp. split; [reflexivity|]. constructor; [exact Lb|exact F].
  Qed.

  Lemma api_dht e g m z : DecodeClientDHTDiscoverRequest sha256 m = Ret (OkR z) ->
    api e g m = (let* s := HandleDHTDiscover version supported sha256 pub_of ec_sign ec_verify blake e g m in Ret (after s, wrote s))%go.
  Proof using AC GP.
    intros D. destruct z as ((((((x1 & x2) & x3) & x4) & x5) & x6) & x7). unfold client_api.
    assert (T : m_type m = type_of KClientDHTDiscoverRequest) by tagged D. rewrite T, routed_type by (assumption || discriminate). reflexivity.
  Qed.

  Lemma found_dht_pf ce c gw e g cid gid num i members met : represents gw g -> ready ec_sign blake g -> reaches (ce_http ce 0) gw (api e g) ->
    aget bytes_eqb (c_active c) (ToString gid) = Some gw -> g_id g = Some i ->
    managed info (g_reg g) -> self_named (g_reg g) -> knows info (g_reg g) members -> harmless info (g_reg g) cid num (Some i) ->
    length members <> 1%nat -> 1 <= num -> Z.min num 16 <= Z.of_nat (length (without (ToString i) members)) -> int64 num ->
    int64 (ce_now ce + c_ttl c) -> unix e <= ce_now ce + c_ttl c -> int64 (unix e + 10) -> keyed c ->
    (forall id, id32 id -> near_one (without (ToString i) members) (ToString cid) (Z.min num 16) (ToString id) ->
       match met id with Some x => peer e g id x /\ client_lists c id (at_key x) | None => silent e id end) ->
    exists ids res c' m g' r,
      FindOffersDHTDiscovery version supported sha256 pub_of ec_verify blake rand_int ce c (Some cid) (Some gid) num = Ret (OkR res, c', [(r_client_ap gw, m)]) /\
      closest_ok (without (ToString i) members) (ToString cid) (Z.min num 16) (map ToString ids) /\ Forall id32 ids /\ NoDup ids /\
      (forall id, In id ids -> match met id with
         | Some x => exists os l, aget bytes_eqb res (ToString id) = Some l /\ on_sale zone (at_hist x) (e_now (at_env x)) cid os /\ sifted c (subs cid os) l
         | None => aget bytes_eqb res (ToString id) = None end) /\
      (forall key, ~ In key (map ToString ids) -> aget bytes_eqb res key = None) /\
      api e g m = Ret (g', [Json r]) /\ g_db g' = g_db g /\ g_pay g' = g_pay g.
  Proof using Law AC GP sha256_len rand_int_64 version_32 supported_32.
    intros (id & k' & Gi & Ri & Gk & Rk) (id' & k & mg & Gi' & Hi & Gk' & Cs & Gp) Re Ac Gi2 Mg Sn Kn Hm Ln N1 N2 Inum It T Ie Ky Met.
    assert (k' = k) by congruence. assert (id' = i) by congruence. assert (id = i) by congruence. subst k' id' id. clear Gi' Gi2.
    assert (Gv := managed_ginv info _ Mg).
    destruct (near_ok_excluding info (g_reg g) cid num i members Gv Hm Kn Ln N1 N2) as (near & reg' & Nr & (Cl & Ng) & _).
    destruct (near_same _ _ _ _ _ _ Nr) as (S1 & S2 & S3).
    assert (Hc : id32 cid) by exact (proj1 Hm).
    destruct (named_ids (g_reg g) Sn near) as (ids & Ei & Em & Fi).
    { intros j q I. assert (G := Ng _ _ I). split; [exact (g_canon _ _ Gv _ _ G)|exact G]. }
    assert (Nd : NoDup (map ToString ids)).
    { rewrite Em. apply (closest_nodup _ _ _ _ (without_nodup _ _ (sorted_nodup _ (proj1 Kn))) Cl). }
    assert (Ni : NoDup ids) by exact (NoDup_map_inv _ _ Nd).
    set (g1 := with_reg g reg').
    assert (Lm : forall j q, lists (g_reg g) j q -> lists (g_reg g1) j q).
    { intros j q (A & B & D). unfold g1, DhtSpec.lists. cbn [g_reg with_reg]. rewrite S1, S2, S3. auto. }
    assert (Mi : forall j, In j ids -> id32 j /\ near_one (without (ToString i) members) (ToString cid) (Z.min num 16) (ToString j)).
    { intros j I. split; [rewrite Forall_forall in Fi; exact (Fi _ I)|]. exists (map fst near). split; [exact Cl|]. rewrite <- Em. apply in_map_iff. eauto. }
    assert (Mt : forall j, In j ids -> met_ok met e g1 j).
    { intros j I. destruct (Mi _ I) as (A & B). specialize (Met j A B). unfold met_ok. destruct (met j) as [x|]; [|exact Met]. destruct Met as (((P1 & P2 & P3 & P4 & P5 & P6 & P7) & Ps) & _).
      split; [|exact Ps]. split; [exact P1|]. split; [exact P2|]. split; [exact P3|]. split; [exact P4|]. split; [exact P5|]. split; [exact (Lm _ _ P6)|exact P7]. }
    destruct (rt_ClientDHTDiscoverRequest version supported sha256 cid (rand_int (c_drawn c)) (ce_now ce + c_ttl c) num false [] [] Hc (rand_int_64 _) It Inum) as (m & En & _ & D).
    destruct (discovered met e g1 cid i k Gi Gk Cs Hi Hc Ie ids Mt 0 nothing) as (cs & un & o & Tk & Da). cbn [nothing contacted responses unContactable out app] in Da.
    destruct (talk_in _ _ _ _ _ Tk) as (T1 & T2 & T3).
    destruct (rt_ClientDHTDiscoverResponse version supported sha256 (map fst cs) (Some (map snd cs)) un (rand_int (c_drawn c)) false []) as (b & Eb & _ & Db).
    { apply Forall_forall. intros j I. apply in_map_iff in I. destruct I as ((j' & q) & <- & I). exact (proj1 (Mi _ (proj1 (T1 _ _ I)))). }
    { cbn [each]. apply Forall_forall. intros q I. apply in_map_iff in I. destruct I as ((j' & q') & <- & I). destruct (T1 _ _ I) as (_ & x & _ & (_ & W & _)). exact W. }
    { apply Forall_forall. intros j I. exact (proj1 (Mi _ (proj1 (T2 _ I)))). }
    { apply rand_int_64. }
    destruct (AdminProofs.write_can pub_of ec_sign ec_verify blake k (g_ver g) 500 b Law Cs) as (s & F & O).
    assert (A : api e g m = Ret (g1, [Json (set_sig b s)])).
    { rewrite (api_dht _ _ _ _ D). unfold HandleDHTDiscover. rewrite D. cbn [obind]. replace (unix e >? (ce_now ce + c_ttl c)) with false by lia.
      rewrite Gi, Nr. cbn [obind fst snd]. fold g1. rewrite Ei. rewrite Da. cbn [obind contacted responses unContactable out]. rewrite Eb. cbn [obind].
      unfold finish_rest. cbn [g1 with_reg g_key g_ver]. rewrite Gk, F. reflexivity. }
    assert (H : ce_http ce 0 (r_client_ap gw) m = Some (set_sig b s)) by (rewrite Re, A; reflexivity).
    assert (Dl : Forall (delivered (drew c DrawInt63)) cs).
    { apply Forall_forall. intros (j & q) I. destruct (T1 _ _ I) as (Ij & x & Ex & (Ok & _ & os & z2 & z3 & z4 & S & Dq)). destruct (Mi _ Ij) as (Z1 & Z2). specialize (Met j Z1 Z2). rewrite Ex in Met.
      destruct Met as ((_ & St & _) & Cl'). exists (at_key x). do 4 eexists. exists (subs cid os). split; [exact Cl'|]. split; [exact Ok|]. split; [exact Dq|].
      exact (sale_checkable sha256 sha512_256 zone _ _ _ _ (proj1 St) S). }
    assert (Nc := talk_nodup _ _ _ _ _ Tk Nd).
    destruct (responses_taken ce cs 0 (drew c DrawInt63) [] Dl Ky Nc) as (res & c' & Et & R1 & R2).
    exists ids, res, c', m, g1, (set_sig b s). split.
    { unfold FindOffersDHTDiscovery. cbn [deref obind]. rewrite Ac. unfold Client.RequestDHTDiscover. cbn [c_ttl drew].
      rewrite (ask_served pub_of ec_verify blake ce 0 gw k _ m _ Rk En H O). cbn [obind].
      change (DecodeClientDHTDiscoverResponse sha256 (set_sig b s)) with (DecodeClientDHTDiscoverResponse sha256 b). rewrite Db. cbn [obind items].
      rewrite Z.eqb_refl, !map_length, Nat.eqb_refl. cbn [negb]. cbn [obind]. fold (drew c DrawInt63).
      replace (combine (map fst cs) (map snd cs)) with cs by (clear; induction cs as [|[a q] t IH]; cbn; congruence). rewrite Et. reflexivity. }
    split; [rewrite Em; exact Cl|]. split; [exact Fi|]. split; [exact Ni|]. split.
    { intros j I. destruct (T3 _ I) as [U|(q & Iq)].
      - destruct (T2 _ U) as (_ & ->). rewrite R2; [reflexivity|]. intros X. apply in_map_iff in X. destruct X as ((j' & q) & E & X). cbn [fst] in E.
        destruct (T1 _ _ X) as (Ij' & x & Ex & _). destruct (id_hex_roundtrip_pf j (proj1 (Mi _ I))) as (_ & _ & _ & Inj). assert (j' = j) by exact (Inj j' (proj1 (Mi _ Ij')) E). subst j'.
        destruct (T2 _ U) as (_ & Nn). congruence.
      - destruct (T1 _ _ Iq) as (_ & x & -> & (_ & _ & os & z2 & z3 & z4 & S & Dq)). destruct (R1 _ _ Iq) as (y1 & y2 & y3 & y4 & l & tk & Dq' & Aq & Sq).
        rewrite Dq in Dq'. apply ret_inj in Dq'. injection Dq' as <- <- <- <- <-. exists os, tk. split; [exact Aq|]. split; [exact S|]. refine (sifted_same _ _ _ _ c (drew c DrawInt63) _ _ _ Sq). repeat split. }
    split.
    { intros key Nk. rewrite R2; [reflexivity|]. intros X. apply Nk. apply in_map_iff in X. destruct X as ((j & q) & <- & X). apply in_map_iff. exists j. split; [reflexivity|exact (proj1 (T1 _ _ X))]. }
    split; [exact A|]. split; reflexivity.
  Qed.
End dht.
