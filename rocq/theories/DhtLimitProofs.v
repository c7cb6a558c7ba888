(** * Proofs about the limit on the number of offers *)
From Coq Require Import String List ZArith Bool Lia.
From Coq Require Import Init.Byte.
From Verif Require Import Base BaseProofs OfferProofs Ids Crypto Message Offer Schema Messages MessagesSpec MessagesProofs Payment Json Rest
  Gateway GatewaySpec GatewayProofs GatewayOfferSpec GatewayOfferProofs Client ClientSpec ClientProofs RetrievalSpec DhtOfferProofs.
From Verif Require AdminSpec AdminNodeProofs.
Import ListNotations.
Open Scope Z_scope.

Section proofs.
  Variable version : Z.
  Variable supported : list Z.
  Variable sha256 sha512_256 : bytes -> bytes.
  Variable pub_of : bytes -> bytes.
  Variable ec_sign : bytes -> bytes -> option bytes.
  Variable ec_verify : bytes -> bytes -> bytes -> bool.
  Variable blake : bytes -> bytes.
  Variable verify : gostring -> voucher -> option bytes -> bool.
  Variable voucher_text : voucher -> gostring.
  Variable voucher_of : gostring -> option voucher.
  Variable is_address : gostring -> bool.
  Variable zone : Z.
  Variable rand_int : list draw -> Z.
  Variables BindAdminAPI BindRestAPI BindGatewayAPI BindProviderAPI : gostring.
  Hypothesis AC : BindAdminAPI <> BindRestAPI.
  Hypothesis GP : BindGatewayAPI <> BindProviderAPI.
  Local Notation api := (client_api version supported sha256 sha512_256 pub_of ec_sign ec_verify blake verify voucher_text voucher_of is_address zone BindAdminAPI BindRestAPI BindGatewayAPI BindProviderAPI).
  Local Notation digests_to_order := (take_digests sha256 pub_of ec_verify blake).
  Local Notation find := (FindOffersDHTDiscoveryV2 version supported sha256 pub_of ec_verify blake voucher_text rand_int).

  (** A gateway that answers an order has found a list of digests for every gateway. *)
  Lemma answered_order e g m g' r c nonce ds ids ch text : DecodeClientDHTDiscoverOfferRequest sha256 m = Ret (OkR (c, nonce, ds, ids, ch, text)) ->
    api e g m = Ret (g', r) -> (exists x, In (Json x) r) -> (length ids <= length (elems ds))%nat.
  Proof.
    intros D H X. rewrite (api_dht_offer _ _ _ _ _ _ _ _ _ _ _ _ _ _ _ _ _ AC GP _ _ _ _ D) in H.
    destruct (HandleDHTOffer version supported sha256 pub_of ec_sign ec_verify blake verify voucher_text voucher_of is_address e g m) as [s| |] eqn:E; cbn [obind] in H; try discriminate H.
    apply ret_inj in H. injection H as _ <-.
    destruct (dht_offer_asked_pf _ _ _ _ _ _ _ _ _ _ _ _ _ _ _ E (or_intror X)) as (c0 & n0 & ds0 & ids0 & ch0 & t0 & g1 & x & m1 & m2 & rows & D0 & _ & _ & _ & _ & Ar & _ & L).
    rewrite D in D0. injection D0 as <- <- <- <- <- <-. specialize (L X).
    destruct (length ids) as [|k] eqn:Ek; [lia|].
    destruct (nth_error rows k) as [[[i id] p]|] eqn:En; [|apply nth_error_None in En; lia].
    destruct (Ar _ _ _ _ En) as (_ & _ & d & Ed & _). assert (B : nth_error (elems ds) k <> None) by congruence. apply nth_error_Some in B. lia.
  Qed.

  (** Not more digests are ordered than the limit, nor more lists than gateways that answered. *)
  Lemma taken e : forall l n c limit added ds c', 0 <= added <= limit -> digests_to_order e n c l limit added = Ret (inr ds, c') ->
    added + count_digests ds <= limit /\ (length ds <= length l)%nat.
  Proof.
    induction l as [|[id resp] l IH]; intros n c limit added ds c' A H; cbn [take_digests] in H.
    - apply ret_inj in H. injection H as <- _. cbn [count_digests length]. lia.
    - step H. destruct v as [rp c1]. step H.
      2:{ destruct (IH _ _ _ _ _ _ A H). cbn [length]. lia. }
      step H. step H. 2:{ destruct (IH _ _ _ _ _ _ A H). cbn [length]. lia. }
      destruct a as [[[[[[x1 x2] found] digests] x5] pr] x7]. subst.
      step H; [apply ret_inj in H; discriminate|]. step H; [apply ret_inj in H; discriminate|].
      step H.
      assert (B : added + Z.of_nat (length (items v)) <= limit).
      { destruct (added + Z.of_nat (length (items digests)) >? limit) eqn:G.
        - destruct (limit - added <? 0) eqn:N; [discriminate|]. match goal with E : Ret _ = Ret v |- _ => apply ret_inj in E; subst v end.
          destruct digests as [d|]; cbn [option_map items length]; [rewrite firstn_length|]; lia.
        - match goal with E : Ret _ = Ret v |- _ => apply ret_inj in E; subst v end. lia. }
      step H.
      + apply ret_inj in H. injection H as <- _. cbn [count_digests length]. lia.
      + step H. destruct v0 as [[y|ds1] c2]; cbn [fst snd] in H; apply ret_inj in H; [discriminate|]. injection H as <- _.
        match goal with E : digests_to_order _ _ _ _ _ _ = _ |- _ => apply IH in E; [|lia] end. cbn [count_digests length]. lia.
  Qed.

  Lemma asked_one e n node enc r out : ask pub_of ec_verify blake e n node enc = Ret (r, out) ->
    exists m, enc = Ret m /\ out = [(r_client_ap node, m)] /\ (r <> None -> ce_http e n (r_client_ap node) m <> None).
  Proof.
    unfold ask. intros H. step H. exists v. split; [reflexivity|].
    destruct (ce_http e n (r_client_ap node) v) eqn:Eh.
    - step H. step H; apply ret_inj in H; injection H as _ <-; (split; [reflexivity|congruence]).
    - apply ret_inj in H. injection H as <- <-. split; [reflexivity|congruence].
  Qed.

  Lemma searched e n gw cid nonce ttl num ch text r out : RequestDHTDiscoverV2 version supported sha256 pub_of ec_verify blake e n gw cid nonce ttl num ch text = Ret (r, out) ->
    forall url m, In (url, m) out -> m_type m = ClientDHTDiscoverRequestV2Type.
  Proof.
    unfold RequestDHTDiscoverV2. intros H url m I. step H. destruct v as [x o]. destruct (asked_one _ _ _ _ _ _ E) as (m0 & Em & Eo & _).
    assert (O : out = o).
    { destruct x; [|apply ret_inj in H; congruence]. step H. step H; [|apply ret_inj in H; congruence].
      destruct a as [[[[[a1 a2] a3] a4] a5] a6]. subst. step H; [apply ret_inj in H; congruence|]. step H; apply ret_inj in H; congruence. }
    subst o. rewrite O in I. destruct I as [I|[]]. injection I as _ <-. unfold EncodeClientDHTDiscoverRequestV2 in Em. step Em. exact (encode_type _ _ _ _ _ _ Em).
  Qed.

  Lemma ordered_one e n gw ids cid nonce ds ch text r out : RequestDHTOfferDiscover version supported sha256 pub_of ec_verify blake e n gw ids cid nonce ds ch text = Ret (r, out) ->
    exists m, EncodeClientDHTDiscoverOfferRequest version supported cid nonce ds ids ch text = Ret m /\ out = [(r_client_ap gw, m)] /\
      (r <> ErrR -> ce_http e n (r_client_ap gw) m <> None).
  Proof.
    unfold RequestDHTOfferDiscover. intros H. step H. destruct v as [x o]. destruct (asked_one _ _ _ _ _ _ E) as (m0 & Em & Eo & Hn).
    exists m0. split; [exact Em|]. rewrite <- Eo. destruct x; [|apply ret_inj in H; injection H as <- <-; split; [reflexivity|congruence]].
    split; [|intros _; apply Hn; discriminate].
    step H. step H; [|apply ret_inj in H; congruence].
    destruct a as [[[[[a1 a2] a3] a4] a5] a6]. subst v. step H; [apply ret_inj in H; congruence|]. step H; [apply ret_inj in H; congruence|]. step H. apply ret_inj in H. congruence.
  Qed.

  (** What is sent: searches, and perhaps one order. *)
  Lemma sent_by_search ce c cid gid num limit res c' out gw : 0 <= limit -> aget bytes_eqb (c_active c) (ToString gid) = Some gw ->
    find ce c cid (Some gid) num limit = Ret (res, c', out) ->
    forall url m, In (url, m) out -> m_type m = ClientDHTDiscoverOfferRequestType ->
    (exists nonce ds ids ch text, EncodeClientDHTDiscoverOfferRequest version supported cid nonce ds ids ch text = Ret m /\
       count_digests (items ds) <= limit /\ (length (items ds) <= length ids)%nat) /\
    (res <> ErrR -> ce_http ce 2 (r_client_ap gw) m <> None).
  Proof.
    intros L Ag H url m I T. unfold FindOffersDHTDiscoveryV2 in H. cbn [deref obind] in H. rewrite Ag in H.
    assert (No : forall o, (forall u x, In (u, x) o -> m_type x = ClientDHTDiscoverRequestV2Type) -> ~ In (url, m) o).
    { intros o F J. apply F in J. rewrite T in J. discriminate. }
    step H. destruct v as [p c1]. step H; [|apply ret_inj in H; injection H as _ _ <-; destruct I].
    destruct a as [ch text]. step H. destruct v as [r o1]. pose proof (searched _ _ _ _ _ _ _ _ _ _ _ E1) as S1.
    step H; [|apply ret_inj in H; injection H as _ _ <-; destruct (No _ S1 I)].
    destruct a as [[[contacted responses] pr] top].
    step H. destruct v as [[r2 c2] o2].
    assert (S2 : forall u x, In (u, x) (o1 ++ o2) -> m_type x = ClientDHTDiscoverRequestV2Type).
    { intros u x J. apply in_app_or in J. destruct J as [J|J]; [exact (S1 _ _ J)|]. destruct pr.
      - step E3. destruct v as [p2 c3]. step E3; [|apply ret_inj in E3; injection E3 as _ _ <-; destruct J].
        destruct a as [ch2 text2]. step E3. destruct v as [r3 o3]. apply ret_inj in E3. cbn [fst snd] in E3. injection E3 as _ _ <-. exact (searched _ _ _ _ _ _ _ _ _ _ _ E6 _ _ J).
      - apply ret_inj in E3. injection E3 as _ _ <-. destruct J. }
    step H; [|apply ret_inj in H; injection H as _ _ <-; destruct (No _ S2 I)].
    destruct a as [contacted2 responses2]. step H. destruct v as [y c3]. step H; [apply ret_inj in H; injection H as _ _ <-; destruct (No _ S2 I)|].
    step H. destruct v as [p2 c4]. step H; [|apply ret_inj in H; injection H as _ _ <-; destruct (No _ S2 I)].
    destruct a as [ch2 text2]. step H. destruct v as [z o3]. apply ret_inj in H. cbn [fst snd] in H. injection H as Hr _ Ho.
    match goal with E : RequestDHTOfferDiscover _ _ _ _ _ _ _ _ _ _ _ _ _ _ _ = _ |- _ => destruct (ordered_one _ _ _ _ _ _ _ _ _ _ _ E) as (mo & Em & Eo & Hn) end.
    rewrite <- Ho, Eo, app_assoc in I. apply in_app_or in I. destruct I as [I|[I|[]]]; [destruct (No _ S2 I)|]. injection I as _ <-.
    split; [|intros N; apply Hn; destruct z; congruence].
    match goal with E : digests_to_order _ _ _ _ _ _ = _ |- _ => destruct (taken _ _ _ _ _ _ _ _ (conj (Z.le_refl 0) L) E) as (B1 & B2) end.
    rewrite combine_length in B2.
    eexists _, _, _, _, _. split; [exact Em|]. unfold appended. destruct l; cbn [items length count_digests] in *; lia.
  Qed.
End proofs.
