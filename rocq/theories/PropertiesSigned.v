(** * C223: whatever a node answers with is signed with its key *)
From Coq Require Import String List ZArith Bool Lia.
From Coq Require Import Init.Byte.
From Verif Require Import Base BaseProofs Ids Crypto Message MessageProofs WireSpec OfferProofs Messages Payment Register Reputation
  Gateway GatewaySpec GatewayProofs GatewayAdmin GatewayAdminSpec Provider ProviderSpec HttpNodeProofs.
From Verif Require Import PropertiesCrypto PropertiesMerkle ToyGateway ToyProvider.
From Verif Require Rest Offer.
Import ListNotations.
Open Scope Z_scope.
Open Scope go_scope.

Section signed.
  Variable version : Z.
  Variable supported : list Z.
  Variable sha256 sha512_256 : bytes -> bytes.
  Variable pub_of : bytes -> bytes.
  Variable ec_sign : bytes -> bytes -> option bytes.
  Variable ec_verify : bytes -> bytes -> bytes -> bool.
  Variable blake : bytes -> bytes.
  Variable verify : gostring -> voucher -> option bytes -> bool.
  Variable voucher_text : voucher -> gostring.
  Variable voucher_of : gostring -> option voucher.
  Variable is_address : gostring -> bool.
  Variable zone : Z.
  Hypothesis Law : ecdsa_correct pub_of ec_sign ec_verify.

  (** The message verifies under the public key that belongs to the key. *)
  Definition signed_as (key : option keypair) (m : message) : Prop :=
    exists k, key = Some k /\ fst (MessageVerify pub_of ec_verify blake m (KeyPair None (Some (pub_of (slice (k_priv k)))) x01)) = true.
  Definition messages (l : list Rest.answer) : list message := flat_map (fun a => match a with Rest.Json m => [m] | Rest.HttpError _ => [] end) l.
  Definition good (s : served) : Prop := Forall (signed_as (g_key (after s))) (messages (wrote s)).
  Definition pgood (s : pserved) : Prop := Forall (signed_as (p_key (p_after s))) (messages (p_wrote s)).
  Definition told (x : gateway * reply) : Prop := match snd x with Reply m => signed_as (g_key (fst x)) m | _ => True end.
  Definition ptold (x : provider * reply) : Prop := match snd x with Reply m => signed_as (p_key (fst x)) m | _ => True end.

  Lemma sign_good key ver m m' : Rest.SignWith ec_sign blake key ver m = Ret (true, m') -> signed_as key m'.
  Proof using Law.
    unfold Rest.SignWith. destruct key as [k|]; [|discriminate]. cbn [Offer.deref obind]. intros H. apply ret_inj in H. exists k. split; [reflexivity|].
    destruct (message_sign_verify_pf pub_of ec_sign ec_verify blake m k ver m' (KeyPair None (Some (pub_of (slice (k_priv k)))) x01) Law H eq_refl eq_refl) as [V _]. rewrite V. reflexivity.
  Qed.
  Lemma write_good key ver code m : sat (fun a => Forall (signed_as key) (messages [a])) (Rest.SignAndWrite ec_sign blake key ver code m).
  Proof using Law. unfold Rest.SignAndWrite. apply sat_bind. intros [[|] m'] S; cbn; constructor; [exact (sign_good _ _ _ _ S)|constructor]. Qed.
  Lemma finish_good g m before out : messages before = [] -> sat good (finish_rest ec_sign blake g m before out).
  Proof using Law.
    intros B. unfold finish_rest. eapply sat_then; [apply write_good|]. intros a A. unfold good. cbn [sat after wrote]. unfold messages in *. rewrite flat_map_app, B. exact A.
  Qed.
  Lemma p_finish_good p m : sat pgood (p_finish ec_sign blake p m).
  Proof using Law. unfold p_finish. eapply sat_then; [apply write_good|]. intros a A. exact A. Qed.
  Lemma p_quiet_good p m out : sat pgood (p_finish_quietly ec_sign blake p m out).
  Proof using Law. unfold p_finish_quietly. apply sat_bind. intros [[|] m'] S; cbn; constructor; [exact (sign_good _ _ _ _ S)|constructor]. Qed.
  Lemma p2p_good g m : sat told (finish_p2p ec_sign blake g m).
  Proof using Law. unfold finish_p2p. apply sat_bind. intros [[|] m'] S; cbn; [exact (sign_good _ _ _ _ S)|exact I]. Qed.

  Ltac go := repeat match goal with
    | |- sat _ (obind _ _) => apply sat_bind; intros ? ?
    | |- sat good (quit _ _) => constructor
    | |- sat good (drop _) => constructor
    | |- sat pgood (p_quit _ _) => constructor
    | |- sat told (Ret (_, _)) => exact I
    | |- sat ptold (Ret (_, Invalid)) => exact I
    | |- sat good (finish_rest _ _ _ _ _ _) => apply finish_good; try reflexivity
    | |- sat pgood (p_finish _ _ _ _) => apply p_finish_good
    | |- sat pgood (p_finish_quietly _ _ _ _ _) => apply p_quiet_good
    | |- sat told (finish_p2p _ _ _ _) => apply p2p_good
    | |- sat _ (match ?x with _ => _ end) => destruct x eqn:?
    end; try (constructor; fail).

  Lemma rest_good {A} (o : outcome served) (f : served -> A) : sat good o ->
    sat (fun x => Forall (signed_as (g_key (fst (fst x)))) (snd (fst x))) (let* s := o in Ret (after s, messages (wrote s), f s)).
  Proof using. intros H. eapply sat_then; [exact H|]. intros s S. exact S. Qed.
  Lemma told_good {A} (o : outcome (gateway * reply)) (a : A) : sat told o ->
    sat (fun x => Forall (signed_as (g_key (fst (fst x)))) (snd (fst x))) (let* s := o in Ret (fst s, match snd s with Reply m => [m] | _ => [] end, a)).
  Proof using. intros H. eapply sat_then; [exact H|]. intros [g [|m|]] S; cbn; constructor; [exact S|constructor]. Qed.
  Lemma prest_good {A} (o : outcome pserved) (f : pserved -> A) : sat pgood o ->
    sat (fun x => Forall (signed_as (p_key (fst (fst x)))) (snd (fst x))) (let* s := o in Ret (p_after s, messages (p_wrote s), f s)).
  Proof using. intros H. eapply sat_then; [exact H|]. intros s S. exact S. Qed.
  Lemma ptold_good {A} (o : outcome (provider * reply)) (a : A) : sat ptold o ->
    sat (fun x => Forall (signed_as (p_key (fst (fst x)))) (snd (fst x))) (let* s := o in Ret (fst s, match snd s with Reply m => [m] | _ => [] end, a)).
  Proof using. intros H. eapply sat_then; [exact H|]. intros [g [|m|]] S; cbn; constructor; [exact S|constructor]. Qed.

  Local Notation act := (act version supported sha256 sha512_256 pub_of ec_sign ec_verify blake verify voucher_text voucher_of is_address zone).
  Lemma act_good e g k m : sat (fun x => Forall (signed_as (g_key (fst (fst x)))) (snd (fst x))) (act e g k m).
  Proof using Law.
    unfold GatewaySpec.act. destruct k; first [apply rest_good|apply told_good].
    - unfold HandleEstablishment. go.
    - unfold HandleStandardDiscover. go.
    - unfold HandleStandardDiscoverV2. go.
    - unfold HandleStandardOffer. go.
    - unfold HandleDHTDiscover. go.
    - unfold HandleDHTDiscoverV2. cbv zeta. go; try (destruct (_ <? _); reflexivity); destruct (_ <? _); constructor.
    - unfold HandleDHTOffer. cbv zeta. go; try (destruct (_ <? _); reflexivity); destruct (_ <? _); constructor.
    - unfold HandleGatewayDiscover. go.
    - unfold HandleGatewayDiscoverV2. go.
    - unfold HandleGatewayOffer. go.
    - unfold HandlePublishGroup. go.
    - unfold HandlePublishDHT. go.
  Qed.

  Local Notation gact := (gact version supported sha256 sha512_256 pub_of ec_sign ec_verify blake verify voucher_text voucher_of is_address zone).
  Local Notation pact := (pact version supported sha256 sha512_256 pub_of ec_sign ec_verify blake).

  (** Every message a gateway answers with, to clients, other gateways, providers and its administrator, verifies under
      the key the gateway has after the request. *)
  Theorem gateway_answers_signed : forall e g ev g' l, gact e g ev = Ret (g', l) -> Forall (signed_as (g_key g')) l.
  Proof using Law.
    intros e g ev g' l H. assert (S : sat (fun x => Forall (signed_as (g_key (fst x))) (snd x)) (gact e g ev)); [|rewrite H in S; exact S]. clear H g' l.
    assert (Q : forall o : outcome served, sat good o -> sat (fun x => Forall (signed_as (g_key (fst x))) (snd x)) (let* s := o in Ret (after s, messages (wrote s)))).
    { intros o G. eapply sat_then; [exact G|]. intros s S. exact S. }
    unfold GatewayAdminSpec.gact. destruct ev; try apply Q.
    - eapply sat_then; [apply act_good|]. intros [[g' l] x] S. exact S.
    - apply sat_bind. intros a _. constructor.
    - eapply (sat_then (fun x => good (fst x))); [|intros x S; exact S]. unfold HandleAdminListDHT. destruct (g_key g); [|constructor].
      apply sat_bind. intros [refresh|] _; [|constructor]. apply sat_bind. intros x _. apply sat_bind. intros resp _.
      eapply sat_then; [apply finish_good; reflexivity|]. intros s S. exact S.
    - eapply (sat_then (fun x => good (fst (fst x)))); [|intros x S; exact S]. unfold HandleAdminSupport.
      apply sat_bind. intros [[x ids]|] _; [|constructor]. apply sat_bind. intros resp _. eapply sat_then; [apply write_good|].
      intros [c|r] S; [constructor|]. apply sat_bind. intros pv _. exact S.
    - unfold GatewayAdmin.HandleAdminInitialiseKey. go.
    - unfold GatewayAdmin.HandleAdminInitialiseKeyV2. go.
    - unfold GatewayAdmin.HandleAdminForceRefresh. go.
  Qed.

  (** So is what it answers about reputations. *)
  Theorem reputation_answers_signed : forall key ver r m a,
    HandleGetReputation version supported sha256 ec_sign blake key ver r m = Ret a \/
    (exists r', HandleSetReputation version supported sha256 ec_sign blake key ver r m = Ret (a, r')) ->
    forall m', a = Rest.Json m' -> signed_as key m'.
  Proof using Law.
    intros key ver r m a H m' ->.
    assert (G : sat (fun a => Forall (signed_as key) (messages [a])) (HandleGetReputation version supported sha256 ec_sign blake key ver r m)).
    { unfold HandleGetReputation. destruct key as [k|]; [|constructor]. apply sat_bind. intros [c|] _; [|constructor]. apply sat_bind. intros x _. apply sat_bind. intros y _. apply write_good. }
    assert (S : sat (fun x => Forall (signed_as key) (messages [fst x])) (HandleSetReputation version supported sha256 ec_sign blake key ver r m)).
    { unfold HandleSetReputation. destruct key as [k|]; [|constructor]. apply sat_bind. intros [[c v]|] _; [|constructor]. apply sat_bind. intros ex _. apply sat_bind. intros r' _. cbv zeta.
      apply sat_bind. intros y _. eapply sat_then; [apply write_good|]. intros z Z. exact Z. }
    destruct H as [H|[r' H]]; [rewrite H in G; inversion G; assumption|rewrite H in S; inversion S; assumption].
  Qed.

  (** Every message a provider answers with verifies under the key the provider has after the request; it answers with
      nothing when it cannot sign. *)
  Theorem provider_answers_signed : forall e p k m p' l out, pact e p k m = Ret (p', l, out) -> Forall (signed_as (p_key p')) l.
  Proof using Law.
    intros e p k m p' l out H. assert (S : sat (fun x => Forall (signed_as (p_key (fst (fst x)))) (snd (fst x))) (pact e p k m)); [|rewrite H in S; exact S]. clear H p' l out.
    unfold ProviderSpec.pact. destruct k; first [apply prest_good|apply ptold_good].
    - unfold HandleAdminPublishDHT. cbv zeta. go.
    - unfold HandleAdminPublishGroup. cbv zeta. go.
    - unfold HandleAdminGetPublished. go.
    - unfold Provider.HandleAdminInitialiseKey. go.
    - unfold Provider.HandleAdminInitialiseKeyV2. go.
    - unfold Provider.HandleAdminForceRefresh. go.
    - unfold HandleOfferAck. go.
    - unfold HandleListDHT. cbv zeta. go; match goal with
      | H : Rest.SignWith _ _ _ _ _ = Ret ?s, E : negb (fst ?s) = false |- _ => destruct s as [[|] m']; [exact (sign_good _ _ _ _ H)|discriminate E]
      end.
    - unfold HandleNotifyGroup. go. match goal with
      | H : Rest.SignWith _ _ _ _ _ = Ret ?s |- _ => destruct s as [[|] m']; [exact (sign_good _ _ _ _ H)|exact I]
      end.
  Qed.
End signed.
Print Assumptions gateway_answers_signed.
Print Assumptions reputation_answers_signed.
Print Assumptions provider_answers_signed.

(** A gateway asked for content, for a stale and for a forged request, and what a provider answered in a life: the
    answers verify under the key of the node and not under another. *)
Definition verified (key : Z) (l : list message) : list bool := map (fun m => fst (MessageVerify toy_pub PropertiesCrypto.toy_verify toy_blake m (toy_pubkey key))) l.
Definition toy_gact (ev : gevent) : list message :=
  match gact 1 [1] toy_hash toy_hash toy_pub toy_sign PropertiesCrypto.toy_verify toy_blake toy_pay_verify toy_text toy_voucher toy_address 0 toy_env stocked_gw ev with Ret (_, l) => l | _ => [] end.
Example gateway_signed_ex :
  (verified 5 (toy_gact (Serve StandardDiscover (std_req 2 50))), verified 7 (toy_gact (Serve StandardDiscover (std_req 2 50)))) = ([true], [false]) /\
  verified 5 (toy_gact (Serve StandardDiscover (std_req 2 1))) = [] /\ verified 5 (toy_gact (Serve PublishGroup (group_req 70 8 off1))) = [] /\
  verified 5 (toy_gact (Serve PublishGroup (group_req 70 7 off1))) = [true].
Proof. vm_compute. repeat split. Qed.
Example provider_signed_ex : map (fun s => verified 7 (s_answers s)) toy_steps = [[true]; [true]; [true]] /\ map (fun s => verified 5 (s_answers s)) toy_steps = [[false]; [false]; [false]].
Proof. vm_compute. repeat split. Qed.

