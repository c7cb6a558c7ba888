(** * C172: the acknowledgement of a published offer convinces clients *)
From Coq Require Import String List ZArith Bool Lia.
From Coq Require Import Init.Byte.
From Verif Require Import Base BaseProofs Ids Crypto Message Offer OfferProofs Schema Messages MessagesSpec WireSpec Payment Register Provider ProviderSpec Json Rest Routes
  Gateway GatewaySpec Client ClientSpec ClientFindProofs RetrievalSpec AckSpec AckProofs PropertiesMerkle PropertiesCrypto ToyGateway ToyProvider ToyClient PropertiesProvider.
From Verif Require AdminSpec ProviderSendProofs ProviderAckProofs PropertiesProviderListing.
Import ListNotations.
Open Scope Z_scope.

Section properties.
  Variable version : Z.
  Variable supported : list Z.
  Variable sha256 sha512_256 : bytes -> bytes.
  Variable pub_of : bytes -> bytes.
  Variable ec_sign : bytes -> bytes -> option bytes.
  Variable ec_verify : bytes -> bytes -> bytes -> bool.
  Variable blake : bytes -> bytes.
  Variables BindAdminAPI BindRestAPI BindGatewayAPI BindProviderAPI : gostring.
  (** Signatures verify; the four interfaces have addresses of their own; version numbers have their sizes. *)
  Hypothesis Law : ecdsa_correct pub_of ec_sign ec_verify.
  Hypothesis admin_rest : BindAdminAPI <> BindRestAPI.
  Hypothesis gateway_provider : BindGatewayAPI <> BindProviderAPI.
  Hypothesis version_32 : int32 version.
  Hypothesis supported_32 : Forall int32 supported.
  Local Notation api := (counter_api version supported sha256 ec_sign blake BindAdminAPI BindRestAPI BindGatewayAPI BindProviderAPI).
  Local Notation lived := (ProviderSpec.lived version supported sha256 sha512_256 pub_of ec_sign ec_verify blake).
  Local Notation find := (FindDHTOfferAck version supported sha256 pub_of ec_verify blake).
  Local Notation acknowledged := (AckSpec.acknowledged sha256 pub_of ec_verify blake).

  (** A provider has lived through [ss]; a client that knows it and the gateway asks whether the gateway acknowledged the
      publication of an offer for [c].  The client is told so if that happened, and only then.  Nothing is said when
      gateways listed the provider's offers meanwhile, or keys were changed. *)
  Theorem acknowledgement_convinces_partial : forall reg ss p c gid pid k ce cl pr gr,
    sized sha256 ss -> wired ss -> lived (NewProvider reg) ss p -> ProviderSpec.ready ec_sign blake p ->
    p_key p = Some k -> one_key ss k -> unlisted ss -> client_has pub_of cl pid pr k -> reaches (ce_http ce 0) pr (api p) ->
    client_has_gateway cl gid gr -> same_key ss gid gr -> id32 c -> id32 gid ->
    exists b out, find ce cl (Some c) (Some gid) (Some pid) = Ret (OkR b, cl, out) /\
      (b = true -> exists s i, In s ss /\ known s gid i /\ acknowledged s c gid i) /\
      (forall s i, In s ss -> registered s gid i -> acknowledged s c gid i -> b = true).
  Proof using Law admin_rest gateway_provider version_32 supported_32.
    apply confirmed_pf; assumption.
  Qed.

  (** So when the gateway answered the provider's request as [Gateway] models it. *)
  Theorem publication_convinces_partial : forall reg ss p c gid pid k ce cl pr gr s i o request r e g g' kg pk,
    sized sha256 ss -> wired ss -> lived (NewProvider reg) ss p -> ProviderSpec.ready ec_sign blake p ->
    p_key p = Some k -> one_key ss k -> unlisted ss -> client_has pub_of cl pid pr k -> reaches (ce_http ce 0) pr (api p) ->
    client_has_gateway cl gid gr -> same_key ss gid gr -> id32 c -> id32 gid ->
    In s ss -> In (gid, request, Some r) (s_sent s) -> registered s gid i ->
    HandlePublishDHT version supported sha256 sha512_256 pub_of ec_sign ec_verify blake e g request = Ret (g', Reply r) ->
    g_key g = Some kg -> DecodePublicKey (n_key i) = Ret (OkR pk) -> matches pub_of pk kg -> carries_dht sha256 request o -> o_cids o = [c] ->
    exists out, find ce cl (Some c) (Some gid) (Some pid) = Ret (OkR true, cl, out).
  Proof using Law admin_rest gateway_provider version_32 supported_32.
    intros reg ss p c gid pid k ce cl pr gr s i o request r e g g' kg pk Sz W L R K Ok Ul Hp Re Hg Sk Ic Ig I S Rg H Gk D M C O.
    destruct (acknowledgement_convinces_partial reg ss p c gid pid k ce cl pr gr Sz W L R K Ok Ul Hp Re Hg Sk Ic Ig) as (b & out & F & _ & B).
    pose proof (ProviderSendProofs.dht_accepted_pf version supported sha256 sha512_256 pub_of ec_sign ec_verify blake e g request g' r i kg pk o Law H Gk D M C) as (Sg & A).
    exists out. rewrite F. rewrite (B s i I Rg); [reflexivity|]. exists request, r, o. split; [exact S|]. split; [exact Sg|].
    split; [|split; [exact C|exact O]]. destruct A as [(_ & X)|(X & _)]; [exact X|].
    exfalso. destruct C as (? & ? & ? & C & _). destruct X as (? & ? & X). exact (ProviderAckProofs.not_both sha256 request _ _ C X).
  Qed.
End properties.

Print Assumptions acknowledgement_convinces_partial.
Print Assumptions publication_convinces_partial.

(** ** The hypotheses hold in the toy world *)

Local Notation toy f := (f 1 [1] toy_hash toy_hash toy_pub toy_sign PropertiesCrypto.toy_verify toy_blake) (only parsing).
Definition toy_counter := counter_api 1 [1] toy_hash toy_sign toy_blake (gs "a") (gs "b") (gs "c") (gs "d").
Definition asking (p : provider) : cenv :=
  CEnv 40 (fun n _ m => AdminSpec.received (toy_counter p m)) (fun _ => None) (fun _ => None) None (fun _ => TxRefused) (fun _ => None) (fun x => x).

Example toy_clients : client_has toy_pub toy_client (idn 70) pvd70 (toy_key 7) /\ client_has_gateway toy_client (idn 20) gw20 /\
  client_has_gateway toy_client (idn 10) gw10.
Proof.
  assert (P : validateProviderInfo pvd70 = Ret true) by (vm_compute; reflexivity).
  assert (G : validateGatewayInfo gw20 = Ret true /\ validateGatewayInfo gw10 = Ret true) by (vm_compute; split; reflexivity).
  apply validate_provider_iff in P. destruct G as (G2 & G1). apply validate_gateway_iff in G1, G2.
  split; [|split]; (split; [reflexivity|]); (split; [reflexivity|]); (split; [vm_compute; reflexivity|]); [split; [exact P|]|exact G2|exact G1].
  exists (toy_pubkey 7). split; [vm_compute; reflexivity|]. split; [reflexivity|]. exists (idn 7). split; [reflexivity|]. left. reflexivity.
Qed.
(** The keys were the same throughout, and what came back was read from the wire. *)
Lemma exchanges_wired : forall id request r, In (id, request, Some r) toy_exchanges -> wire_message r.
Proof.
  assert (X : forallb (fun x => match snd x with
      | Some r => match m_supported r with Some [v] => (v =? 1) && (m_version r =? 1) && (0 <=? m_type r) && (m_type r <? 1000) | _ => false end
      | None => true end) toy_exchanges = true) by (vm_compute; reflexivity).
  rewrite forallb_forall in X. intros id request r I. specialize (X _ I). cbn [snd] in X. unfold wire_message, int32, each.
  destruct (m_supported r) as [[|v [|? ?]]|]; try discriminate X. rewrite !andb_true_iff in X. destruct X as (((X1 & X2) & X3) & X4).
  split; [lia|]. split; [lia|]. constructor; [lia|constructor].
Qed.
Example toy_keys : one_key toy_steps (toy_key 7) /\ unlisted toy_steps /\ same_key toy_steps (idn 20) gw20 /\ wired toy_steps /\ p_key toy_prov = Some (toy_key 7).
Proof.
  assert (K : map (fun s => p_key (s_before s)) toy_steps = [None; Some (toy_key 7); Some (toy_key 7)]) by (vm_compute; reflexivity).
  assert (N : map (fun s => length (s_sent s)) toy_steps = [0; 3; 2]%nat) by (vm_compute; reflexivity).
  destruct toy_lived as (_ & _ & _ & _ & E).
  assert (W : wired toy_steps).
  { intros s id request r I S. apply (exchanges_wired id request). rewrite <- E. exact (proj2 (in_flat_map _ _ _) (ex_intro _ s (conj I S))). }
  split; [|split; [|split; [|split; [exact W|vm_compute; reflexivity]]]]; clear W E;
    destruct PropertiesProviderListing.toy_shape as (q1 & q2 & q3 & q4 & a1 & a2 & a3 & x1 & x2 & x3 & E & _); rewrite E in *.
  - intros s I S. cbn [map] in K, N. injection K as K1 K2. injection N as N0 _ _. destruct I as [<-|[<-|[<-|[]]]]; [|exact K1|exact K2].
    exfalso. apply S. cbn [s_sent] in *. destruct x1; [reflexivity|discriminate N0].
  - intros s acks I. destruct I as [<-|[<-|[<-|[]]]]; discriminate.
  - intros s i I Kn. assert (R : known s (idn 20) i -> n_key i = Client.r_key gw20); [|exact (R Kn)]. clear Kn.
    assert (A : aget bytes_eqb (gatewaysMap info toy_reg) (ToString (idn 20)) = Some (toy_info 20 2 (gs "addr2"))) by (vm_compute; reflexivity).
    assert (B : n_key (toy_info 20 2 (gs "addr2")) = Client.r_key gw20) by (vm_compute; reflexivity).
    destruct I as [<-|[<-|[<-|[]]]]; intros [X|(n & l & X & _)]; try discriminate X; cbn [s_before p_with_reg p_reg] in X; rewrite A in X; injection X as <-; exact B.
Qed.
Definition told_of (p : provider) (cid gid : Z) : option (result bool) :=
  match t_Ack (asking p) toy_client cid gid 70 with Ret (r, _, _) => Some r | _ => None end.
Example toy_convinced : told_of toy_prov 15 20 = Some (OkR true) /\ told_of toy_prov 15 10 = Some (OkR false) /\ told_of toy_prov 1 20 = Some (OkR false).
Proof. vm_compute. repeat split. Qed.

(** ** What is false *)

(** Gateway 20, which acknowledged the publication of the offer for identifier 15, lists the offers of the provider and
    acknowledges them as [GatewayAdmin] models it. *)
Definition relisted : provider := Eval vm_compute in
  PropertiesProviderListing.then_provider (PropertiesProviderListing.list_of toy_prov (toy_list_ack (idn 20))).
Definition relist_step : pstep :=
  PStep (p_with_reg toy_prov toy_reg) (toy_penv 43) (ListDHT (toy_list_ack (idn 20))) (list_req 20 2 10 30) relisted [PropertiesProviderListing.toy_listing] [].
Lemma toy_acked : exists s, In s toy_steps /\ AckSpec.acknowledged toy_hash toy_pub PropertiesCrypto.toy_verify toy_blake s (idn 15) (idn 20) (toy_info 20 2 (gs "addr2")).
Proof.
  destruct toy_lived as (_ & _ & _ & _ & E).
  assert (X : match nth_error toy_exchanges 3 with
    | Some (id, rq, Some r) => id = idn 20 /\ match DecodeProviderPublishDHTOfferRequest toy_hash rq, DecodeProviderPublishDHTOfferResponse toy_hash r with
        | Ret (OkR (_, _, Some [o])), Ret (OkR (_, sig)) => o_cids o = [idn 15] /\
            fst (MessageVerify toy_pub PropertiesCrypto.toy_verify toy_blake r (toy_pubkey 2)) = true /\
            fst (VerifyMessage toy_pub PropertiesCrypto.toy_verify toy_blake (toy_pubkey 2) sig (slice (m_body rq))) = OkR true
        | _, _ => False end
    | _ => False end) by (vm_compute; repeat split).
  assert (K : DecodePublicKey (n_key (toy_info 20 2 (gs "addr2"))) = Ret (OkR (toy_pubkey 2))) by (vm_compute; reflexivity).
  destruct (nth_error toy_exchanges 3) as [[[id rq] [r|]]|] eqn:N; try contradiction. destruct X as (-> & X).
  destruct (DecodeProviderPublishDHTOfferRequest toy_hash rq) as [[[[pid nonce] [[|o [|? ?]]|]]|]| |] eqn:D; try contradiction.
  destruct (DecodeProviderPublishDHTOfferResponse toy_hash r) as [[[nonce' sig]|]| |] eqn:D'; try contradiction. destruct X as (O & M & V).
  apply nth_error_In in N. rewrite <- E in N. destruct (proj1 (in_flat_map _ _ _) N) as (s & I & S). exists s. split; [exact I|].
  exists rq, r, o. split; [exact S|]. split; [exists (toy_pubkey 2); split; [exact K|exact M]|].
  split; [exists (toy_pubkey 2), nonce', sig; split; [exact K|]; split; [exact D'|exact V]|].
  split; [exists pid, nonce, [o]; split; [exact D|left; reflexivity]|exact O].
Qed.

(** The provider replaces the acknowledgement it has by that of the listing, which has no signature of its own: the client, whose library takes it from
    the provider, fails, though the gateway acknowledged twice. *)
Theorem acknowledgement_convinces_refuted : exists ss p s i ce out,
  sized toy_hash ss /\ wired ss /\ toy lived (NewProvider toy_reg) ss p /\ ProviderSpec.ready toy_sign toy_blake p /\
  p_key p = Some (toy_key 7) /\ one_key ss (toy_key 7) /\ same_key ss (idn 20) gw20 /\
  client_has toy_pub toy_client (idn 70) pvd70 (toy_key 7) /\ client_has_gateway toy_client (idn 20) gw20 /\ reaches (ce_http ce 0) pvd70 (toy_counter p) /\
  In s ss /\ registered s (idn 20) i /\ AckSpec.acknowledged toy_hash toy_pub PropertiesCrypto.toy_verify toy_blake s (idn 15) (idn 20) i /\
  t_Ack ce toy_client 15 20 70 = Ret (ErrR, toy_client, out).
Proof.
  pose proof (proj1 toy_lived) as L. pose proof (proj1 (proj2 toy_lived)) as Sz. destruct toy_keys as (K1 & _ & K3 & W & _). destruct toy_clients as (C1 & C2 & _). destruct toy_acked as (s & I & A).
  assert (T : told_of relisted 15 20 = Some ErrR) by (vm_compute; reflexivity).
  assert (U : match t_Ack (asking relisted) toy_client 15 20 70 with Ret (_, c, _) => c = toy_client | _ => True end) by (vm_compute; reflexivity).
  unfold told_of in T. destruct (t_Ack (asking relisted) toy_client 15 20 70) as [[[r c] out]| |] eqn:F; try discriminate T. injection T as ->. subst c.
  exists (toy_steps ++ [relist_step]), relisted, s, (toy_info 20 2 (gs "addr2")), (asking relisted), out.
  split. { intros s' cids price expiry qos J D. apply in_app_or in J. destruct J as [J|[<-|[]]]; [exact (Sz s' cids price expiry qos J D)|]. vm_compute in D. discriminate D. }
  split. { intros s' id rq r J S. apply in_app_or in J. destruct J as [J|[<-|[]]]; [exact (W s' id rq r J S)|]. destruct S. }
  split. { apply (PropertiesProviderListing.lived_app_toy _ _ _ _ _ L); [reflexivity|vm_compute; reflexivity|reflexivity]. }
  split. { exists (idn 70), (toy_key 7). split; [vm_compute; reflexivity|]. split; [unfold id32; vm_compute; reflexivity|]. split; [vm_compute; reflexivity|]. apply toy_signs. }
  split; [vm_compute; reflexivity|].
  split. { intros s' J S. apply in_app_or in J. destruct J as [J|[<-|[]]]; [exact (K1 s' J S)|]. exfalso. apply S. reflexivity. }
  split. { intros s' i J Kn. apply in_app_or in J. destruct J as [J|[<-|[]]]; [exact (K3 s' i J Kn)|]. destruct Kn as [X|(n & l & X & _)]; [|discriminate X].
    cbn [relist_step s_before p_with_reg p_reg] in X. assert (Y : aget bytes_eqb (gatewaysMap info toy_reg) (ToString (idn 20)) = Some (toy_info 20 2 (gs "addr2"))) by (vm_compute; reflexivity).
    rewrite Y in X. injection X as <-. vm_compute. reflexivity. }
  split; [exact C1|]. split; [exact C2|]. split; [intros m; reflexivity|]. split; [apply in_or_app; left; exact I|]. split; [exact (toy_registered s I)|]. split; [exact A|exact F].
Qed.
Print Assumptions acknowledgement_convinces_refuted.
