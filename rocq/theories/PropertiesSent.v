(** * C224: whatever a node sends to other nodes is signed with its key, and serving never changes the key of a gateway *)
From Coq Require Import String List ZArith Bool Lia.
From Coq Require Import Init.Byte.
From Verif Require Import Base BaseProofs Ids Crypto Message MessageProofs WireSpec OfferProofs Messages MessagesSpec Payment Register Reputation
  Gateway GatewaySpec GatewayProofs GatewayAdmin GatewayAdminSpec Provider ProviderSpec HttpNodeProofs GatewayAdminProofs ProviderListProofs ProviderSendProofs PropertiesSigned.
From Verif Require Import PropertiesCrypto PropertiesMerkle ToyGateway ToyProvider.
From Verif Require Rest Offer AdminProofs PropertiesMessages.
Import ListNotations.
Open Scope Z_scope.
Open Scope go_scope.

Section sent.
  Variable version : Z.
  Variable supported : list Z.
  Variable sha256 sha512_256 : bytes -> bytes.
  Variable pub_of : bytes -> bytes.
  Variable ec_sign : bytes -> bytes -> option bytes.
  Variable ec_verify : bytes -> bytes -> bytes -> bool.
  Variable blake : bytes -> bytes.
  Variable verify : gostring -> voucher -> option bytes -> bool.
  Variable voucher_text : voucher -> gostring.
  Variable voucher_of : gostring -> option voucher.
  Variable is_address : gostring -> bool.
  Variable zone : Z.
  Hypothesis Law : ecdsa_correct pub_of ec_sign ec_verify.
  Local Notation signed_as := (signed_as pub_of ec_verify blake).
  Local Notation sign_good := (sign_good pub_of ec_sign ec_verify blake Law).

  Definition same {A} (key : option keypair) (x : A * gateway) : Prop := g_key (snd x) = key.
  Definition signed_out {A} (key : option keypair) (x : A * gateway * list (bytes * message)) : Prop :=
    g_key (snd (fst x)) = key /\ Forall (signed_as key) (map snd (snd x)).

  Lemma find_same e n g id : sat (same (g_key g)) (CoreGetGateway e n g id).
  Proof using. unfold CoreGetGateway. apply sat_bind. intros x _. reflexivity. Qed.
  Lemma provider_same g id : sat (same (g_key g)) (CoreGetProvider g id).
  Proof using. unfold CoreGetProvider. apply sat_bind. intros x _. reflexivity. Qed.
  Lemma pay_same e g r l a : sat (same (g_key g)) (CorePay e g r l a).
  Proof using. unfold CorePay. apply sat_bind. intros m _. destruct (Pay _ _ _ _ _). reflexivity. Qed.
  Lemma topup_same e n g r l a : sat (same (g_key g)) (CoreTopupAndPay e n g r l a).
  Proof using. unfold CoreTopupAndPay. apply sat_bind. intros m _. destruct (topupAndPay _ _ _ _ _ _ _ _). reflexivity. Qed.
  Lemma receive_same e g c t : sat (same (g_key g)) (CoreReceive verify voucher_of is_address e g c t).
  Proof using.
    unfold CoreReceive. destruct (g_pay g) as [m|].
    - destruct (Receive _ _ _ _ _) as [m' [x| |]]; cbn; reflexivity || exact I.
    - destruct (is_address c); [destruct (voucher_of t)|]; cbn; reflexivity || exact I.
  Qed.
  Lemma gateway_same e g id m : sat (same (g_key g)) (from_gateway pub_of ec_verify blake e g id m).
  Proof using.
    unfold from_gateway. eapply sat_then; [apply find_same|]. intros [[i|] g'] S; unfold same in S; cbn [snd] in S.
    - apply sat_bind. intros [k|] _; [exact S|]. apply sat_bind. intros b _. exact S.
    - apply sat_bind. intros b _. exact S.
  Qed.
  Lemma from_same g id m : sat (same (g_key g)) (from_provider pub_of ec_verify blake g id m).
  Proof using.
    unfold from_provider. eapply sat_then; [apply provider_same|]. intros [[i|] g'] S; unfold same in S; cbn [snd] in S.
    - apply sat_bind. intros [k|] _; [exact S|]. apply sat_bind. intros b _. exact S.
    - apply sat_bind. intros b _. exact S.
  Qed.
  Lemma add_same e n g o : sat (same (g_key g)) (CoreAddOffer sha512_256 e n g o).
  Proof using. unfold CoreAddOffer. apply sat_bind. intros x _. reflexivity. Qed.
  Lemma store_same e k os : forall n g, sat (same (g_key g)) (store_all sha512_256 pub_of ec_verify blake e n g k os).
  Proof using.
    induction os as [|o t IH]; intros n g; cbn [store_all]; [reflexivity|]. apply sat_bind. intros good _. destruct good; cbn [negb]; [|reflexivity].
    eapply sat_then; [apply add_same|]. intros [[[u|]|] g'] S; unfold same in S; cbn [snd] in S; [rewrite <- S; apply IH|exact S|exact S].
  Qed.

  Lemma ask_signed e n g id enc : sat (signed_out (g_key g)) (ask_gateway pub_of ec_sign ec_verify blake e n g id enc).
  Proof using Law.
    unfold ask_gateway. destruct (e_conn e n id); cbn [negb]; [|split; [reflexivity|constructor]]. apply sat_bind. intros request _. apply sat_bind. intros [[|] m] S; cbn [fst snd negb]; [|split; [reflexivity|constructor]].
    assert (F : Forall (signed_as (g_key g)) (map snd [(id, m)])) by (constructor; [exact (sign_good _ _ _ _ S)|constructor]).
    destruct (e_net e n id m); [|split; [reflexivity|exact F]]. eapply sat_then; [apply find_same|]. intros [[i|] g'] G; unfold same in G; cbn [snd] in G; [|split; [exact G|exact F]].
    apply sat_bind. intros [k|] _; split; assumption.
  Qed.

  Definition collected (key : option keypair) (w : gathered) : Prop := Forall (signed_as key) (map snd (out w)).
  Lemma gather_signed key w id r o : collected key w -> Forall (signed_as key) (map snd o) -> collected key (gather w id r o).
  Proof using. intros C F. unfold collected, gather. destruct r; cbn [out]; rewrite map_app; apply Forall_app; auto. Qed.

  Lemma all_signed e c ids : forall n g w, collected (g_key g) w ->
    sat (fun x => g_key (snd x) = g_key g /\ collected (g_key g) (fst x)) (discover_all version supported pub_of ec_sign ec_verify blake e n g c ids w).
  Proof using Law.
    induction ids as [|id t IH]; intros n g w C; cbn [discover_all]; [split; [reflexivity|exact C]|]. unfold RequestDHTDiscover.
    eapply sat_then; [apply ask_signed|]. intros [[r g'] o] [G F]. cbn [fst snd] in G, F. rewrite <- G in *. apply IH. apply gather_signed; assumption.
  Qed.
  Lemma all_v2_signed e c gws : forall n g w, collected (g_key g) w ->
    sat (signed_out (g_key g)) (discover_all_v2 version supported pub_of ec_sign ec_verify blake voucher_text e n g c gws w).
  Proof using Law.
    induction gws as [|i t IH]; intros n g w C; cbn [discover_all_v2]; [split; [reflexivity|exact C]|]. destruct (NewNodeIDFromHexString (n_id i)); [|split; [reflexivity|exact C]].
    eapply sat_then; [apply pay_same|]. intros [r g1] G. unfold same in G. cbn [snd] in G.
    eapply (sat_then (same (g_key g))).
    - destruct r; try exact G. eapply sat_then; [apply topup_same|]. intros [q g2] G2. unfold same in *. cbn [snd sat] in *. congruence.
    - intros [[code|[ch text]] g2] G2; unfold same in G2; cbn [snd] in G2; [split; [exact G2|exact C]|]. unfold RequestDHTDiscoverV2.
      eapply sat_then; [apply ask_signed|]. intros [[r2 g3] o] [G3 F]. cbn [fst snd] in G3, F. rewrite G2 in G3, F. rewrite <- G3 in *. apply IH. apply gather_signed; assumption.
  Qed.
  Lemma offers_signed e c nonce ds ids : forall n g w, collected (g_key g) w ->
    sat (signed_out (g_key g)) (offers_all version supported pub_of ec_sign ec_verify blake voucher_text e n g c nonce ds ids w).
  Proof using Law.
    induction ids as [|id t IH]; intros n g w C; cbn [offers_all]; [split; [reflexivity|exact C]|]. apply sat_bind. intros these _.
    eapply sat_then; [apply find_same|]. intros [j g0] G0. unfold same in G0. cbn [snd] in G0. cbv zeta. apply sat_bind. intros k _.
    eapply sat_then; [apply pay_same|]. intros [r g1] G. unfold same in G. cbn [snd] in G.
    eapply (sat_then (same (g_key g))).
    - destruct r; try (unfold same; cbn [sat snd]; congruence). apply sat_bind. intros mg _. destruct (Topup mg _ _ _) as [m' ok]. destruct ok; cbn [negb]; [|unfold same; cbn [sat snd with_pay g_key]; congruence].
      eapply sat_then; [apply pay_same|]. intros [q g2] G2. unfold same in *. cbn [snd sat with_pay g_key] in *. congruence.
    - intros [[code|[ch text]] g2] G2; unfold same in G2; cbn [snd] in G2; [split; [exact G2|exact C]|]. unfold RequestDHTOffer.
      eapply sat_then; [apply ask_signed|]. intros [[r2 g3] o] [G3 F]. cbn [fst snd] in G3, F. rewrite G2 in G3, F. rewrite <- G3 in *. apply IH. apply gather_signed; assumption.
  Qed.

  Definition kept (key : option keypair) (s : served) : Prop := g_key (after s) = key /\ Forall (signed_as key) (map snd (sent s)).
  Lemma finish_kept g m before o : Forall (signed_as (g_key g)) (map snd o) -> sat (kept (g_key g)) (finish_rest ec_sign blake g m before o).
  Proof using. intros F. unfold finish_rest. apply sat_bind. intros a _. split; [reflexivity|exact F]. Qed.
  Lemma told_same g m : sat (fun x => g_key (fst x) = g_key g) (finish_p2p ec_sign blake g m).
  Proof using. unfold finish_p2p. apply sat_bind. intros a _. reflexivity. Qed.

  Ltac go := cbv zeta; repeat match goal with
    | |- sat _ (obind (CoreReceive _ _ _ _ _ _ _) _) => eapply sat_then; [apply receive_same|intros [? ?] ?G; unfold same in G; cbn [snd with_reg with_pay with_db with_offer_price g_key] in G; rewrite <- G in *; clear G]
    | |- sat _ (obind (from_gateway _ _ _ _ _ _ _) _) => eapply sat_then; [apply gateway_same|intros [? ?] ?G; unfold same in G; cbn [snd with_reg with_pay with_db with_offer_price g_key] in G; rewrite <- G in *; clear G]
    | |- sat _ (obind (from_provider _ _ _ _ _ _) _) => eapply sat_then; [apply from_same|intros [? ?] ?G; unfold same in G; cbn [snd with_reg with_pay with_db with_offer_price g_key] in G; rewrite <- G in *; clear G]
    | |- sat _ (obind (CoreAddOffer _ _ _ _ _) _) => eapply sat_then; [apply add_same|intros [? ?] ?G; unfold same in G; cbn [snd with_reg with_pay with_db with_offer_price g_key] in G; rewrite <- G in *; clear G]
    | |- sat _ (obind (store_all _ _ _ _ _ _ _ _ _) _) => eapply sat_then; [apply store_same|intros [? ?] ?G; unfold same in G; cbn [snd with_reg with_pay with_db with_offer_price g_key] in G; rewrite <- G in *; clear G]
    | |- sat _ (obind (discover_all _ _ _ _ _ _ _ _ ?g _ _ _) _) =>
        eapply sat_then; [apply all_signed; constructor|intros [? ?] [?G ?F]; cbn [fst snd with_reg with_pay with_db with_offer_price g_key] in G, F; rewrite <- G in *; clear G]
    | |- sat _ (obind (discover_all_v2 _ _ _ _ _ _ _ _ _ ?g _ _ _) _) =>
        eapply sat_then; [apply all_v2_signed; constructor|intros [[? ?] ?] [?G ?F]; cbn [fst snd with_reg with_pay with_db with_offer_price g_key] in G, F; rewrite <- G in *; clear G]
    | |- sat _ (obind (offers_all _ _ _ _ _ _ _ _ _ ?g _ _ _ _ _) _) =>
        eapply sat_then; [apply offers_signed; constructor|intros [[? ?] ?] [?G ?F]; cbn [fst snd with_reg with_pay with_db with_offer_price g_key] in G, F; rewrite <- G in *; clear G]
    | |- sat _ (obind _ _) => apply sat_bind; intros ? ?
    | |- sat (kept _) (quit _ _) => split; [reflexivity|constructor]
    | |- sat (kept _) (drop _) => split; [reflexivity|constructor]
    | |- sat (kept _) (Ret _) => split; [reflexivity|assumption]
    | |- sat (kept _) (finish_rest _ _ _ _ _ _) => apply finish_kept; first [assumption|constructor]
    | |- sat _ (finish_p2p _ _ ?x ?r) => exact (told_same x r)
    | |- sat _ (Ret (_, _)) => reflexivity
    | |- sat _ (match ?x with _ => _ end) => destruct x eqn:?
    end.

  Local Notation act := (act version supported sha256 sha512_256 pub_of ec_sign ec_verify blake verify voucher_text voucher_of is_address zone).

  Lemma rest_kept g {A} (o : outcome served) (f : served -> A) : sat (kept (g_key g)) o ->
    sat (fun x => g_key (fst (fst x)) = g_key g /\ Forall (signed_as (g_key g)) (map snd (snd x))) (let* s := o in Ret (after s, f s, sent s)).
  Proof using. intros H. eapply sat_then; [exact H|]. intros s S. exact S. Qed.
  Lemma told_kept g {A} (o : outcome (gateway * reply)) (f : gateway * reply -> A) : sat (fun x => g_key (fst x) = g_key g) o ->
    sat (fun x => g_key (fst (fst x)) = g_key g /\ Forall (signed_as (g_key g)) (map snd (snd x))) (let* s := o in Ret (fst s, f s, ([] : list (bytes * message)))).
  Proof using. intros H. eapply sat_then; [exact H|]. intros s S. split; [exact S|constructor]. Qed.

  (** A gateway keeps its key when it serves clients, gateways and providers, and every request it sends to others
      meanwhile verifies under it. *)
  Theorem gateway_requests_signed : forall e g k m g' l out, act e g k m = Ret (g', l, out) ->
    g_key g' = g_key g /\ Forall (signed_as (g_key g)) (map snd out).
  Proof using Law.
    intros e g k m g' l out H.
    assert (S : sat (fun x => g_key (fst (fst x)) = g_key g /\ Forall (signed_as (g_key g)) (map snd (snd x))) (act e g k m)); [|rewrite H in S; exact S]. clear H g' l out.
    unfold GatewaySpec.act. destruct k; first [apply rest_kept|apply (told_kept g _ (fun s => match snd s with Reply m => [m] | _ => [] end))].
    - unfold HandleEstablishment. go.
    - unfold HandleStandardDiscover. go.
    - unfold HandleStandardDiscoverV2. go.
    - unfold HandleStandardOffer. go.
    - unfold HandleDHTDiscover. go.
    - unfold HandleDHTDiscoverV2. go.
    - unfold HandleDHTOffer. go.
    - unfold HandleGatewayDiscover. go.
    - unfold HandleGatewayDiscoverV2. go.
    - unfold HandleGatewayOffer. go.
    - unfold HandlePublishGroup. go.
    - unfold HandlePublishDHT. go.
  Qed.

  (** So do the requests and acknowledgements it sends to providers. *)
  Theorem gateway_to_providers_signed : forall e n g id t args a,
    RequestProvider version supported sha256 sha512_256 pub_of ec_sign ec_verify blake e n g id t args = Ret a -> g_key (k_after a) = g_key g /\ Forall (signed_as (g_key g)) (k_sent a).
  Proof using Law.
    assert (N : forall g, g_key (k_after (Asked g [])) = g_key g /\ Forall (signed_as (g_key g)) (k_sent (Asked g []))) by (intros g; split; [reflexivity|constructor]).
    intros e n g id t args a H. unfold RequestProvider in H.
    destruct (t =? GatewayListDHTOfferRequestType).
    - destruct (e_conn e n id); cbn [negb] in H; [|apply ret_inj in H; subst a; apply N].
      assert (Other : Ret (Asked g []) = Ret a -> g_key (k_after a) = g_key g /\ Forall (signed_as (g_key g)) (k_sent a)) by (intros X; apply ret_inj in X; subst a; apply N).
      destruct args as [|[lo|x|x] [|[hi|y|y] [|[z|pid|z] [|w args]]]]; try (exact (Other H)).
      destruct (list_inv _ _ _ _ _ _ _ _ (fun _ _ _ => false) (fun _ => None) (fun _ => false) _ _ _ _ _ _ _ H) as (S & _ & att & _ & [->|(b & rq & _ & S1 & K)]).
      + split; [apply (settings_same _ _ S)|constructor].
      + split; [apply (settings_same _ _ S)|]. pose proof (sign_good _ _ _ _ S1) as G1.
        destruct K as [->|(ack & p & i & pk & response & msgs & acks & c & -> & _ & _ & _ & _ & _ & _ & _ & _ & _ & S2)]; [constructor; [exact G1|constructor]|].
        constructor; [exact G1|]. constructor; [exact (sign_good _ _ _ _ S2)|constructor].
    - destruct (t =? GatewayNotifyProviderGroupCIDOfferSupportedRequestType); [|apply ret_inj in H; subst a; apply N].
      destruct (e_conn e n id); cbn [negb] in H; [|apply ret_inj in H; subst a; apply N].
      assert (S : sat (fun a => g_key (k_after a) = g_key g /\ Forall (signed_as (g_key g)) (k_sent a)) (NotifyProviderGroupCIDOfferSupported version supported sha256 ec_sign blake (e_net e n id) g args)); [|rewrite H in S; exact S].
      unfold NotifyProviderGroupCIDOfferSupported. destruct args as [|[x|x|b] [|y args]]; try apply N. apply sat_bind. intros rq _. apply sat_bind. intros [[|] m] S; cbn [fst snd negb]; [|apply N].
      apply sat_bind. intros x _. split; [reflexivity|]. constructor; [exact (sign_good _ _ _ _ S)|constructor].
  Qed.

  Local Notation pact := (pact version supported sha256 sha512_256 pub_of ec_sign ec_verify blake).
  Definition psent (key : option keypair) (out : list exchange) : Prop := Forall (signed_as key) (map (fun x => snd (fst x)) out).
  Lemma made_signed p enc out : Forall (made_with ec_sign blake p enc) out -> psent (p_key p) out.
  Proof using Law. intros F. unfold psent. induction F as [|x t (b & _ & S) F IH]; constructor; [exact (sign_good _ _ _ _ S)|exact IH]. Qed.

  (** Every request a provider sends to gateways verifies under the key of the provider, which only the administrator
      changes. *)
  Theorem provider_requests_signed : forall e p k m p' l out, pact e p k m = Ret (p', l, out) ->
    psent (p_key p) out /\ (k <> AdminInitialiseKey -> k <> AdminInitialiseKeyV2 -> p_key p' = p_key p).
  Proof using Law.
    intros e p k m p' l out H. split; [|intros N1 N2; destruct (identity_kept_pf _ _ _ _ _ _ _ _ _ _ _ _ _ _ _ H N1 N2) as (_ & K & _); exact K].
    assert (Rest_ : forall o : outcome pserved, sat (fun s => psent (p_key p) (p_sent s)) o ->
       sat (fun x => psent (p_key p) (snd x)) (let* s := o in Ret (p_after s, messages (p_wrote s), p_sent s))).
    { intros o S. eapply sat_then; [exact S|]. intros s X. exact X. }
    assert (P2p : forall o : outcome (provider * reply), sat (fun x => psent (p_key p) (snd x)) (let* s := o in Ret (fst s, match snd s with Reply m => [m] | _ => [] end, ([] : list exchange)))).
    { intros o. apply sat_bind. intros s _. constructor. }
    assert (S : sat (fun x => psent (p_key p) (snd x)) (pact e p k m)); [|rewrite H in S; exact S]. clear H p' l out.
    assert (Fin : forall q r, sat (fun s => psent (p_key p) (p_sent s)) (p_finish ec_sign blake q r)) by (intros q r; unfold p_finish; apply sat_bind; intros a _; constructor).
    assert (Quiet : forall q r out, psent (p_key p) out -> sat (fun s => psent (p_key p) (p_sent s)) (p_finish_quietly ec_sign blake q r out)) by (intros q r out F; unfold p_finish_quietly; apply sat_bind; intros a _; exact F).
    unfold ProviderSpec.pact. destruct k; first [apply Rest_|apply P2p].
    - unfold HandleAdminPublishDHT. cbv zeta. destruct (p_key p) as [key|] eqn:K; [|constructor]. apply sat_bind. intros [[[[cids pr] ex] q]|] _; [|constructor].
      destruct (_ || _); [constructor|]. apply sat_bind. intros [os|] _; [|constructor]. apply sat_bind. intros st _. apply sat_bind. intros [[code p1] out] E.
      destruct (publish_near_made _ _ _ _ _ _ _ _ _ _ _ _ _ _ _ _ E) as (_ & new & En & F & _). cbn [app] in En. subst new. apply made_signed in F.
      change (p_key (p_with_store p (fst st) (snd st))) with (p_key p) in F. rewrite K in F. destruct code; [exact F|]. apply sat_bind. intros r _. apply Quiet, F.
    - unfold HandleAdminPublishGroup. cbv zeta. destruct (p_key p) as [key|] eqn:K; [|constructor]. apply sat_bind. intros [[[[cids pr] ex] q]|] _; [|constructor].
      apply sat_bind. intros [o|] _; [|constructor]. apply sat_bind. intros s _. destruct (negb (fst s)); [constructor|]. apply sat_bind. intros st _. apply sat_bind. intros gs _. apply sat_bind. intros [[code p1] out] E.
      destruct (publish_group_to_made _ _ _ _ _ _ _ _ _ _ _ _ _ _ _ _ _ E) as (_ & new & En & F & _). cbn [app] in En. subst new. apply made_signed in F.
      match type of F with psent ?a _ => change a with (p_key p) in F end. rewrite K in F. destruct code; [exact F|]. apply sat_bind. intros r _. apply Quiet, F.
    - unfold HandleAdminGetPublished. destruct (p_key p); [|constructor]. apply sat_bind. intros [x|] _; [|constructor]. cbv zeta. apply sat_bind. intros r _. apply Fin.
    - unfold Provider.HandleAdminInitialiseKey. apply sat_bind. intros [[[x y] z]|] _; [|constructor]. repeat (apply sat_bind; intros ? _). constructor.
    - unfold Provider.HandleAdminInitialiseKeyV2. apply sat_bind. intros [[[[[[x y] z] u] v] w]|] _; [|constructor]. cbv zeta. apply sat_bind. intros ver _.
      match goal with |- sat _ (match ?x with _ => _ end) => destruct x end; try constructor; apply sat_bind; intros r _; apply Fin.
    - unfold Provider.HandleAdminForceRefresh. destruct (p_key p); [|constructor]. apply sat_bind. intros [x|] _; [|constructor]. repeat (apply sat_bind; intros ? _). constructor.
    - unfold HandleOfferAck. apply sat_bind. intros [[c g]|] _; [|constructor]. repeat (apply sat_bind; intros ? _). constructor.
  Qed.

  (** The notification about group offers, when it is sent: one message, which the provider reads as the identifier of
      the gateway and the flag given.  A notification that was sent is in PropertiesGatewayAdmin.notify_ex. *)
  Theorem notification_exact : forall e n g id b a me k,
    RequestProvider version supported sha256 sha512_256 pub_of ec_sign ec_verify blake e n g id GatewayNotifyProviderGroupCIDOfferSupportedRequestType [ArgBool b] = Ret a ->
    e_conn e n id = true -> g_id g = Some me -> id32 me -> g_key g = Some k -> Rest.can_sign ec_sign blake k ->
    k_after a = g /\ exists m, k_sent a = [m] /\ DecodeGatewayNotifyProviderGroupCIDOfferSupportRequest sha256 m = Ret (OkR (Some me, b)) /\ signed_as (g_key g) m.
  Proof using Law.
    intros e n g id b a me k H C Ei I Ek S. destruct (PropertiesMessages.GatewayNotifyProviderGroupCIDOfferSupportRequest_roundtrip version supported sha256 me b I) as (m0 & E & _ & D).
    destruct (gateway_to_providers_signed _ _ _ _ _ _ _ H) as (_ & F).
    unfold RequestProvider in H. change (GatewayNotifyProviderGroupCIDOfferSupportedRequestType =? GatewayListDHTOfferRequestType) with false in H. rewrite Z.eqb_refl, C in H.
    cbn [negb] in H. unfold NotifyProviderGroupCIDOfferSupported in H. rewrite Ei, E in H. cbn [obind] in H.
    destruct (AdminProofs.sign_can ec_sign blake k (g_ver g) m0 S) as (m' & E').
    assert (W : with_signature m0 m'). { apply (sign_with_inv ec_sign blake (Some k) (g_ver g) m0 true m'). unfold Rest.SignWith. cbn [Offer.deref obind]. rewrite E'. reflexivity. }
    rewrite Ek in H. unfold Rest.SignWith in H. cbn [Offer.deref obind] in H. rewrite E' in H. cbn [fst snd negb] in H.
    match type of H with obind ?c _ = _ => destruct c as [v| |] eqn:R; try discriminate H end. cbn [obind] in H. apply ret_inj in H. subst a. split; [reflexivity|].
    exists m'. split; [reflexivity|]. split; [|inversion F; assumption]. destruct W as [sg ->]. exact D.
  Qed.
End sent.
Print Assumptions gateway_requests_signed.
Print Assumptions gateway_to_providers_signed.
Print Assumptions provider_requests_signed.

(** What a provider sent when it published, and a gateway when it searched for a client. *)
Example provider_sent_ex : verified 7 (map (fun x => snd (fst x)) toy_exchanges) = map (fun _ => true) toy_exchanges /\ (2 <= length toy_exchanges)%nat /\
  verified 5 (map (fun x => snd (fst x)) toy_exchanges) = map (fun _ => false) toy_exchanges.
Proof. vm_compute. repeat split; repeat constructor. Qed.
Example gateway_sent_ex : match toy_act (with_net (fun _ _ => true) (fun _ _ _ => None) toy_env) stocked_gw DHTDiscover (dht_disc_req 2 50 2) with
  | Ret (_, [_], out) => verified 5 (map snd out) = map (fun _ => true) out /\ (1 <= length out)%nat
  | _ => False
  end.
Proof. vm_compute. repeat split; repeat constructor. Qed.
Print Assumptions notification_exact.
