(** * Proofs about a client and a provider together *)
From Coq Require Import String List ZArith Bool Lia.
From Coq Require Import Init.Byte.
From Verif Require Import Base BaseProofs Ids Crypto CryptoProofs Message MessageProofs Offer OfferProofs Schema SchemaProofs Messages MessagesSpec MessagesProofs WireSpec Payment Register
  Provider ProviderSpec ProviderAckProofs Rest Routes RoutesProofs Gateway GatewaySpec GatewayProofs Client ClientSpec ClientProofs ClientFindProofs RetrievalSpec AckSpec.
From Verif Require AdminSpec AdminProofs AdminNodeProofs RetrievalProofs DhtProofs PropertiesProvider.
Import ListNotations.
Open Scope Z_scope.

Section meet.
  Variable version : Z.
  Variable supported : list Z.
  Variable sha256 sha512_256 : bytes -> bytes.
  Variable pub_of : bytes -> bytes.
  Variable ec_sign : bytes -> bytes -> option bytes.
  Variable ec_verify : bytes -> bytes -> bytes -> bool.
  Variable blake : bytes -> bytes.
  Variables BindAdminAPI BindRestAPI BindGatewayAPI BindProviderAPI : gostring.
  Hypothesis Law : ecdsa_correct pub_of ec_sign ec_verify.
  Hypothesis AC : BindAdminAPI <> BindRestAPI.
  Hypothesis GP : BindGatewayAPI <> BindProviderAPI.
  Hypothesis Hv : int32 version.
  Hypothesis Hs : Forall int32 supported.

  Local Notation api := (counter_api version supported sha256 ec_sign blake BindAdminAPI BindRestAPI BindGatewayAPI BindProviderAPI).
  Local Notation lived := (lived version supported sha256 sha512_256 pub_of ec_sign ec_verify blake).
  Local Notation find := (FindDHTOfferAck version supported sha256 pub_of ec_verify blake).
  Local Notation acknowledged := (acknowledged sha256 pub_of ec_verify blake).

  Lemma api_ack p m x : DecodeClientDHTOfferAckRequest sha256 m = Ret (OkR x) ->
    api p m = (let* s := HandleOfferAck version supported sha256 ec_sign blake p m in Ret (p_after s, p_wrote s))%go.
  Proof using AC GP.
    intros D. unfold counter_api.
    rewrite (RetrievalProofs.client_route BindAdminAPI BindRestAPI BindGatewayAPI BindProviderAPI AC GP AtProvider KClientDHTOfferAckRequest); [reflexivity|discriminate| |reflexivity].
    apply rbind_inv in D. destruct D as (? & D & _). exact (AdminNodeProofs.decoded_tag _ _ _ _ _ D).
  Qed.

  Lemma provider_known c id r k : client_has pub_of c id r k -> FindProvider c (Some id) = Ret (Some r, c).
  Proof using.
    intros (S & D & G & _). unfold FindProvider, GetProvider. rewrite S, D. cbn [negb orb deref obind RLock RUnlock]. rewrite G. cbn [obind fst snd].
    destruct c as [? ? ? ? ? ? ? ? m ?]. cbn in *. destruct m. reflexivity.
  Qed.

  Lemma confirmed_pf reg ss p c gid pid k ce cl pr gr : sized sha256 ss -> wired ss -> lived (NewProvider reg) ss p -> ProviderSpec.ready ec_sign blake p ->
    p_key p = Some k -> one_key ss k -> unlisted ss -> client_has pub_of cl pid pr k -> reaches (ce_http ce 0) pr (api p) ->
    client_has_gateway cl gid gr -> same_key ss gid gr -> id32 c -> id32 gid ->
    exists b out, find ce cl (Some c) (Some gid) (Some pid) = Ret (OkR b, cl, out) /\
      (b = true -> exists s i, In s ss /\ known s gid i /\ acknowledged s c gid i) /\
      (forall s i, In s ss -> registered s gid i -> acknowledged s c gid i -> b = true).
  Proof using Law AC GP Hv Hs.
    intros Sz W L R K Ok Ul Hp Re Hg Sk Ic Ig.
    destruct (rt_ClientDHTOfferAckRequest version supported sha256 c gid Ic Ig) as (m & En & _ & D).
    destruct (PropertiesProvider.ack_request_answered version supported sha256 sha512_256 pub_of ec_sign ec_verify blake reg ss p m c gid Law Hv Hs Sz W L R D) as (r & found & rq & ak & H & (k' & K' & O) & De & F).
    assert (k' = k) by congruence. subst k'.
    assert (A : api p m = Ret (p, [Json r])) by (rewrite (api_ack p m _ D), H; reflexivity).
    assert (Ht : ce_http ce 0 (r_client_ap pr) m = Some r) by (rewrite Re, A; reflexivity).
    assert (Hp' := Hp). destruct Hp' as (Ps & Pd & Pg & Pc & Pr).
    assert (Ask := RetrievalProofs.ask_served pub_of ec_verify blake ce 0 pr k _ m r Pr En Ht O).
    assert (Gk : forall s i x, In s ss -> known s gid i -> GatewaySpec.signed_by pub_of ec_verify blake i x -> exists pk, DecodePublicKey (Client.r_key gr) = Ret (OkR pk) /\ fst (MessageVerify pub_of ec_verify blake x pk) = true).
    { intros s i x I Kn (pk & P & V). exists pk. rewrite <- (Sk s i I Kn). auto. }
    unfold FindDHTOfferAck. rewrite (provider_known _ _ _ _ Hp). cbn [obind]. rewrite (proj2 (validate_provider_iff pr) Pc). cbn [obind negb].
    unfold RequestDHTOfferAck. rewrite Ask. cbn [obind]. rewrite De. cbn [obind].
    destruct (kept_ack p c gid) as [x|] eqn:Ke.
    2: { subst found. eexists false, _. split; [reflexivity|]. split; [discriminate|]. intros s i I Rg (rq' & rs' & o & S & Sg & Cs & Ca & Oc).
         exfalso. refine (PropertiesProvider.acks_complete version supported sha256 sha512_256 pub_of ec_sign ec_verify blake reg ss p s gid rq' rs' i o c Law Hv Hs Sz L I S Rg _ Ca Oc Ke).
         split; [exact Sg|]. left. auto. }
    destruct F as (-> & -> & ->).
    destruct (PropertiesProvider.acks_genuine version supported sha256 sha512_256 pub_of ec_sign ec_verify blake reg ss p c gid x Law Hv Hs Sz L Ic Ig Ke) as (s & I & i & o & Cm & Kn & Cs & Ca & Oc).
    destruct Cm as [(S & Sg)|(acks & m' & a & msgs & l & Kd & _)]; [|exfalso; exact (Ul s acks I Kd)].
    destruct Hg as (Gs & Gd & Gg & Gc).
    assert (Fg : FindGateway ce 0 cl (Some gid) = Ret (Some gr, cl)).
    { unfold FindGateway. rewrite (DhtProofs.get_known _ _ _ _ _ Gs Gd Gg). cbn [obind fst snd]. destruct cl. reflexivity. }
    rewrite Fg. cbn [obind]. rewrite (proj2 (validate_gateway_iff gr) Gc). cbn [obind negb].
    destruct (Gk s i _ I Kn Sg) as (gk & Dg & Vg). destruct Pr as (pk & Dp & Mp).
    unfold GetSigningKey. rewrite Dg, Dp. cbn [obind deref].
    destruct (proj1 (PropertiesProvider.requests_ordered version supported sha256 sha512_256 pub_of ec_sign ec_verify blake reg ss p s gid _ _ Law Hv Hs Sz L I S)) as (k2 & K2 & O2).
    rewrite (Ok s I) in K2 by (intros Z; rewrite Z in S; destruct S). injection K2 as <-.
    rewrite !message_verify_state. rewrite (O2 pk Mp). cbn [negb]. destruct Ca as (pid' & nonce & l & Dr & Io). rewrite Dr. cbn [obind items].
    replace (existsb _ l) with true by (symmetry; apply existsb_exists; exists o; split; [exact Io|]; rewrite Oc; apply bytes_eqb_eq; reflexivity).
    cbn [negb]. rewrite Vg. cbn [negb]. destruct Cs as (gk' & nonce' & sig & Dg' & Da & Va). rewrite Da. cbn [obind].
    rewrite (Sk s i I Kn), Dg in Dg'. injection Dg' as <-. rewrite Va.
    eexists true, _. split; [reflexivity|]. split.
    - intros _. exists s, i. split; [exact I|]. split; [exact Kn|]. exists (a_msg x), (a_ack x), o. split; [exact S|]. split; [exact Sg|].
      split; [exists gk, nonce', sig; rewrite (Sk s i I Kn); auto|]. split; [exists pid', nonce, l; auto|exact Oc].
    - auto.
  Qed.
End meet.
