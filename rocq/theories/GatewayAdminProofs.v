(** * Proofs about the gateway's requests to providers and its administration *)
From Coq Require Import List ZArith Bool Lia ZifyBool ZifyNat.
From Coq Require Import Init.Byte.
From Verif Require Import Base BaseProofs Ids Json Merkle Crypto CryptoProofs Message MessageProofs Offer OfferProofs Schema SchemaProofs Messages MessagesProofs WireSpec Payment PaymentSpec Register
  OfferStoreSpec SqlOffers SqlOffersSpec SqlOffersProofs Rest Gateway GatewaySpec GatewayProofs GatewayStoreProofs GatewayAdmin GatewayAdminSpec.
Import ListNotations.
Open Scope Z_scope.
Open Scope go_scope.

Section ga.
  Variable version : Z.
  Variable supported : list Z.
  Variable sha256 sha512_256 : bytes -> bytes.
  Variable pub_of : bytes -> bytes.
  Variable ec_sign : bytes -> bytes -> option bytes.
  Variable ec_verify : bytes -> bytes -> bytes -> bool.
  Variable blake : bytes -> bytes.
  Variable verify : gostring -> voucher -> option bytes -> bool.
  Variable voucher_text : voucher -> gostring.
  Variable voucher_of : gostring -> option voucher.
  Variable is_address : gostring -> bool.
  Variable zone : Z.

  Local Notation take_offers := (take_offers sha512_256 pub_of ec_verify blake).
  Local Notation take_messages := (take_messages version supported sha256 sha512_256 pub_of ec_sign ec_verify blake).
  Local Notation OfferVerify := (OfferVerify pub_of ec_verify blake).
  Local Notation grows := (grows sha512_256).
  Local Notation acknowledges := (acknowledges sha256 ec_sign blake).
  Local Notation signed_by := (signed_by pub_of ec_verify blake).
  Local Notation offered := (offered sha256 pub_of ec_verify blake).

  Lemma add_offer_tried e n g o r g' : CoreAddOffer sha512_256 e n g o = Ret (r, g') ->
    settings g' = settings g /\ g_reg g' = g_reg g /\ g_pay g' = g_pay g /\
    db_after sha512_256 (g_db g) (if bindable o then [(o, e_fates e n)] else []) = Ret (g_db g').
  Proof.
    unfold CoreAddOffer. intros H. step H. apply ret_inj in H. injection H as <- <-. cbn [settings with_db g_reg g_pay g_db]. repeat split.
    destruct (bindable o) eqn:B; cbn [db_after].
    - rewrite E. reflexivity.
    - unfold insertOffer in E. step E. step E. rewrite B in E. cbn [negb] in E. destruct (e_fates e n O); apply ret_inj in E; subst v; reflexivity.
  Qed.

  Definition sound_for (k : keypair) (o : offer) : bool := match OfferVerify o k with Ret true => bindable o | _ => false end.

  Lemma take_offers_inv e k : forall l n g r g', take_offers e n g k l = Ret (r, g') ->
    settings g' = settings g /\ g_reg g' = g_reg g /\ g_pay g' = g_pay g /\
    exists att, grows (fun o => In o l /\ OfferVerify o k = Ret true) e g g' att /\
      (forall n', r = Some n' -> map fst att = filter (sound_for k) l).
  Proof.
    induction l as [|o l IH]; intros n g r g' H; cbn [GatewayAdmin.take_offers] in H.
    - apply ret_inj in H. injection H as <- <-. repeat split. exists []. split; [split; [reflexivity|intros ? ? []]|reflexivity].
    - step H. destruct v; cbn [negb] in H.
      + step H. destruct v as [r1 g1]. cbn [fst snd] in H. destruct (add_offer_tried _ _ _ _ _ _ E0) as (A & B & C & D).
        assert (X : exists att : attempts, att = (if bindable o then [(o, e_fates e n)] else []) /\ db_after sha512_256 (g_db g) att = Ret (g_db g1))
          by (eexists; split; [reflexivity|exact D]).
        clear D. destruct X as (att & Ett & D).
        assert (G : grows (fun x => In x (o :: l) /\ OfferVerify x k = Ret true) e g g1 att).
        { split; [exact D|]. intros x f I0. rewrite Ett in I0. destruct (bindable o) eqn:Bi; [|destruct I0]. destruct I0 as [[= <- <-]|[]]. cbn. eauto 6. }
        destruct r1 as [u|]; [|apply ret_inj in H; injection H as <- <-; repeat split; auto; exists att; split; [exact G|discriminate]].
        destruct (IH _ _ _ _ H) as (A' & B' & C' & att' & (D' & G') & K'). repeat split; try congruence.
        exists (att ++ att'). split.
        * split; [rewrite db_after_app, D; exact D'|]. intros x f I0. apply in_app_or in I0 as [I0|I0]; [apply G; exact I0|].
          destruct (G' _ _ I0) as ((I1 & V) & R). cbn. auto.
        * intros n' ->. rewrite map_app, (K' _ eq_refl). cbn [filter]. unfold sound_for at 2. rewrite E, Ett. destruct (bindable o); reflexivity.
      + destruct (IH _ _ _ _ H) as (A & B & C & att & (D & G) & K). repeat split; auto. exists att. split.
        * split; [exact D|]. intros x f I0. destruct (G _ _ I0) as ((I1 & V) & R). split; [split; [right; exact I1|exact V]|exact R].
        * intros n' E'. cbn [filter]. unfold sound_for at 1. rewrite E. exact (K n' E').
  Qed.

  (** Messages a gateway takes: signed by the provider and decodable. *)
  Definition good (k : keypair) (m : message) : bool :=
    fst (MessageVerify pub_of ec_verify blake m k) && match DecodeProviderPublishDHTOfferRequest sha256 m with Ret (OkR _) => true | _ => false end.
  Definition offers_in (m : message) : list offer :=
    match DecodeProviderPublishDHTOfferRequest sha256 m with Ret (OkR (_, _, l)) => elems l | _ => [] end.

  Lemma dht_nonce m id nonce l : DecodeProviderPublishDHTOfferRequest sha256 m = Ret (OkR (id, nonce, l)) -> int64 nonce.
  Proof.
    intros H. apply rbind_inv in H. destruct H as ((f1 & f2 & f3 & f4 & []) & E & H). apply decode_ranged in E.
    step H; [discriminate|]. apply ret_inj in H. injection H as <- <- <-. cbn in E. unfold int64. lia.
  Qed.

  Lemma settings_same g g' : settings g' = settings g -> g_key g' = g_key g /\ g_ver g' = g_ver g /\ g_id g' = g_id g.
  Proof. unfold settings. intros H. injection H as A B C _ _ _. auto. Qed.

  Lemma take_messages_inv e k : forall msgs n g r g', take_messages e n g k msgs = Ret (r, g') ->
    settings g' = settings g /\ g_reg g' = g_reg g /\ g_pay g' = g_pay g /\
    exists att, grows (fun o => exists m, In m msgs /\ good k m = true /\ In o (offers_in m) /\ OfferVerify o k = Ret true) e g g' att /\
      (forall acks, r = Some acks -> map fst att = flat_map (fun m => filter (sound_for k) (offers_in m)) (filter (good k) msgs) /\
         (filter (good k) msgs <> [] -> g_key g <> None) /\
         forall key, g_key g = Some key -> Forall2 (acknowledges key (g_ver g)) (filter (good k) msgs) acks /\
           Forall (fun a => exists nonce sig, EncodeProviderPublishDHTOfferResponse version supported nonce sig = Ret a) acks).
  Proof.
    induction msgs as [|m msgs IH]; intros n g r g' H; cbn [GatewayAdmin.take_messages] in H.
    - apply ret_inj in H. injection H as <- <-. repeat split. exists []. split; [split; [reflexivity|intros ? ? []]|].
      intros acks [= <-]. split; [reflexivity|]. split; [intros X; exfalso; apply X; reflexivity|]. intros key _. split; constructor.
    - assert (Skip : take_messages e n g k msgs = Ret (r, g') -> good k m = false ->
        settings g' = settings g /\ g_reg g' = g_reg g /\ g_pay g' = g_pay g /\
        exists att, grows (fun o => exists m0, In m0 (m :: msgs) /\ good k m0 = true /\ In o (offers_in m0) /\ OfferVerify o k = Ret true) e g g' att /\
          (forall acks, r = Some acks -> map fst att = flat_map (fun m => filter (sound_for k) (offers_in m)) (filter (good k) (m :: msgs)) /\
            (filter (good k) (m :: msgs) <> [] -> g_key g <> None) /\
            forall key, g_key g = Some key -> Forall2 (acknowledges key (g_ver g)) (filter (good k) (m :: msgs)) acks /\
              Forall (fun a => exists nonce sig, EncodeProviderPublishDHTOfferResponse version supported nonce sig = Ret a) acks)).
      { intros H' Bad. destruct (IH _ _ _ _ H') as (A & B & C & att & (D & G) & K). repeat split; auto. exists att. split.
        - split; [exact D|]. intros x f I0. destruct (G _ _ I0) as ((m0 & I1 & R1) & R). split; [exists m0; split; [right; exact I1|exact R1]|exact R].
        - intros acks Ea. cbn [filter]. rewrite Bad. exact (K acks Ea). }
      destruct (MessageVerify pub_of ec_verify blake m k) as [ok m'] eqn:V. cbn [fst snd] in H. destruct ok; cbn [negb] in H; [|apply Skip; [exact H|unfold good; rewrite V; reflexivity]].
      pose proof (verify_same _ _ _ _ _ _ V) as ->. step H. destruct v as [[[pid nonce] l]|]; [|apply Skip; [exact H|unfold good; rewrite E, andb_false_r; reflexivity]].
      assert (Gd : good k m = true) by (unfold good; rewrite V, E; reflexivity).
      assert (Of : offers_in m = elems l) by (unfold offers_in; rewrite E; reflexivity).
      step H. destruct v as [r1 g1]. cbn [fst snd] in H. destruct (take_offers_inv _ _ _ _ _ _ _ E0) as (A & B & C & att & (D & G) & K).
      assert (G1 : grows (fun o => exists m0, In m0 (m :: msgs) /\ good k m0 = true /\ In o (offers_in m0) /\ OfferVerify o k = Ret true) e g g1 att).
      { split; [exact D|]. intros x f I0. destruct (G _ _ I0) as ((I1 & Vx) & R). split; [|exact R]. exists m. rewrite Of. split; [left; reflexivity|auto]. }
      destruct r1 as [n1|]; [|apply ret_inj in H; injection H as <- <-; repeat split; auto; exists att; split; [exact G1|discriminate]].
      destruct (settings_same _ _ A) as (Ak & Av & _). destruct (g_key g1) as [key|] eqn:Ek; [|discriminate H]. cbn [deref obind] in H.
      destruct (SignMessage ec_sign blake key (g_ver g1) (slice (m_body m))) as [sig|] eqn:Es;
        [|apply ret_inj in H; injection H as <- <-; repeat split; auto; exists att; split; [exact G1|discriminate]].
      step H. rename v into a. rename E1 into Ea. step H. destruct v as [r2 g2]. apply ret_inj in H. cbn [fst snd] in H. injection H as <- <-.
      destruct (IH _ _ _ _ E1) as (A2 & B2 & C2 & att2 & (D2 & G2) & K2). repeat split; try congruence.
      exists (att ++ att2). split.
      + split; [rewrite db_after_app, D; exact D2|]. intros x f I0. apply in_app_or in I0 as [I0|I0]; [apply G1; exact I0|].
        destruct (G2 _ _ I0) as ((m0 & I1 & R1) & R). split; [exists m0; split; [right; exact I1|exact R1]|exact R].
      + destruct r2 as [acks2|]; [|discriminate]. intros acks [= <-]. destruct (K2 _ eq_refl) as (K3 & _ & K5). cbn [filter]. rewrite Gd.
        split; [rewrite map_app, (K n1 eq_refl), K3; cbn [flat_map]; rewrite Of; reflexivity|]. split; [congruence|].
        intros key' Ek'. rewrite <- Ak in Ek'. injection Ek' as <-. rewrite Ek in K5. destruct (K5 _ eq_refl) as (F1 & F2). rewrite Av in F1, Es. split.
        * constructor; [|exact F1]. exists sig, pid, nonce, l. split; [exact E|]. split; [exact Es|].
          destruct (rt_ProviderPublishDHTOfferResponse version supported sha256 nonce sig) as (b2 & Eb2 & _ & Db); [eapply dht_nonce; eauto|].
          rewrite Ea in Eb2. apply ret_inj in Eb2. subst b2. exact Db.
        * constructor; [|exact F2]. exists nonce, sig. exact Ea.
  Qed.

  Lemma get_provider_found g id i g' : CoreGetProvider g id = Ret (Some i, g') ->
    exists d, id = Some d /\ aget bytes_eqb (providersMap info (g_reg g)) (ToString d) = Some i.
  Proof.
    unfold CoreGetProvider, GetProvider. intros E. step E. apply ret_inj in E. injection E as E _.
    step E0; [apply ret_inj in E0; subst v; discriminate|]. destruct id as [d|]; [|discriminate]. cbn [deref obind] in E0.
    exists d. split; [reflexivity|]. destruct (aget _ _ _).
    - step E0. apply ret_inj in E0. subst v. exact E.
    - step E0. apply ret_inj in E0. subst v. discriminate.
  Qed.

  Lemma response_fresh nonce sig a : EncodeProviderPublishDHTOfferResponse version supported nonce sig = Ret a ->
    m_type a = 303 /\ m_version a = version /\ m_supported a = Some supported.
  Proof. unfold EncodeProviderPublishDHTOfferResponse. intros H. apply ret_inj in H. subst a. repeat split. Qed.

  Local Notation RequestListCIDOffer := (RequestListCIDOffer version supported sha256 sha512_256 pub_of ec_sign ec_verify blake).
  Definition list_case e answer g lo hi pid a : Prop :=
    settings (k_after a) = settings g /\ g_pay (k_after a) = g_pay g /\
    exists att, grows (fun o => wire_offer sha256 o /\ exists p i request response, pid = Some p /\
        aget bytes_eqb (providersMap info (g_reg g)) (ToString p) = Some i /\ answer request = Some response /\ offered i response o) e g (k_after a) att /\
      (k_sent a = [] \/ exists b request, EncodeGatewayListDHTOfferRequest version supported (g_id g) lo hi todo todo todo (Some mockProof) = Ret b /\
         SignWith ec_sign blake (g_key g) (g_ver g) b = Ret (true, request) /\
         (k_sent a = [request] \/ exists ack p i pk response msgs acks c, k_sent a = [request; ack] /\ pid = Some p /\
            aget bytes_eqb (providersMap info (g_reg g)) (ToString p) = Some i /\ DecodePublicKey (n_key i) = Ret (OkR pk) /\
            answer request = Some response /\ fst (MessageVerify pub_of ec_verify blake response pk) = true /\
            DecodeGatewayListDHTOfferResponse sha256 response = Ret (OkR msgs) /\
            map fst att = flat_map (fun m => filter (sound_for pk) (offers_in m)) (filter (good pk) (elems msgs)) /\
            (forall key, g_key g = Some key -> Forall2 (acknowledges key (g_ver g)) (filter (good pk) (elems msgs)) acks /\
               Forall (fun a => exists nonce sig, EncodeProviderPublishDHTOfferResponse version supported nonce sig = Ret a) acks) /\
            EncodeGatewayListDHTOfferAck version supported (Some acks) = Ret c /\
            SignWith ec_sign blake (g_key g) (g_ver g) c = Ret (true, ack))).
  Lemma list_inv e answer g lo hi pid a : RequestListCIDOffer e answer g [ArgCID lo; ArgCID hi; ArgNode pid] = Ret a -> list_case e answer g lo hi pid a.
  Proof.
    unfold GatewayAdmin.RequestListCIDOffer. intros H. step H. rename v into b. step H. destruct v as [ok rq]. cbn [fst snd] in H.
    set (P := fun o => wire_offer sha256 o /\ exists p i request response, pid = Some p /\
        aget bytes_eqb (providersMap info (g_reg g)) (ToString p) = Some i /\ answer request = Some response /\ offered i response o).
    assert (N0 : forall g1, settings g1 = settings g -> g_db g1 = g_db g -> g_pay g1 = g_pay g ->
      settings g1 = settings g /\ g_pay g1 = g_pay g /\ grows P e g g1 []).
    { intros g1 A B C. repeat split; auto; [cbn; congruence|destruct H0|destruct H0|destruct H0]. }
    destruct ok; cbn [negb] in H; [|apply ret_inj in H; subst a; unfold list_case; cbn [k_after k_sent]; destruct (N0 g eq_refl eq_refl eq_refl) as (A & B & C); split; [exact A|]; split; [exact B|]; exists []; split; [exact C|left; reflexivity]].
    assert (N1 : forall g1, settings g1 = settings g -> g_db g1 = g_db g -> g_pay g1 = g_pay g -> Ret (Asked g1 [rq]) = Ret a -> list_case e answer g lo hi pid a).
    { intros g1 A B C Ea. unfold list_case. apply ret_inj in Ea. subst a. cbn [k_after k_sent]. destruct (N0 g1 A B C) as (A' & B' & C'). split; [exact A'|]. split; [exact B'|]. exists []. split; [exact C'|].
      right. exists b, rq. split; [exact E|]. split; [exact E0|]. left. reflexivity. }
    destruct (answer rq) as [response|] eqn:An; [|apply (N1 g); auto].
    step H. destruct v as [i g1]. destruct (get_provider_inv _ _ _ _ E1) as (A & B & C). destruct i as [i|]; [|apply (N1 g1); auto].
    destruct (get_provider_found _ _ _ _ E1) as (p & -> & L).
    step H. destruct v as [pk|]; [|apply (N1 g1); auto]. unfold GetSigningKey in E2.
    destruct (MessageVerify pub_of ec_verify blake response pk) as [good' rsp'] eqn:V. cbn [fst snd] in H. destruct good'; cbn [negb] in H; [|apply (N1 g1); auto].
    pose proof (verify_same _ _ _ _ _ _ V) as ->. step H. destruct v as [msgs|]; [|apply (N1 g1); auto].
    step H. destruct v as [r g2]. destruct (take_messages_inv _ _ _ _ _ _ _ E4) as (A2 & B2 & C2 & att & (D2 & G2) & K2).
    assert (G : grows P e g g2 att).
    { split; [rewrite <- B; exact D2|]. intros o f I0. destruct (G2 _ _ I0) as ((m & I1 & Gm & Io & Vo) & R). split; [|exact R].
      unfold good in Gm. apply andb_prop in Gm. destruct Gm as (Vm & Dm). unfold offers_in in Io.
      destruct (DecodeProviderPublishDHTOfferRequest sha256 m) as [[[[q nonce] l]|]| |] eqn:Dq; try discriminate Dm.
      destruct l as [l|]; [|destruct Io]. cbn [elems] in Io. split.
      - assert (Sl : each (sound_offer sha256) (Some l)) by (eapply dht_sound; first [exact Dq|assumption]). cbn [each] in Sl. rewrite Forall_forall in Sl.
        apply (proj1 (Sl _ Io)). eapply verified_provider; eauto.
      - exists p, i, rq, response. split; [reflexivity|]. split; [exact L|]. split; [exact An|].
        destruct msgs as [msgs|]; [|destruct I1]. cbn [elems] in I1. exists msgs, m, q, nonce, l.
        split; [exists pk; rewrite V; auto|]. split; [exact E3|]. split; [exact I1|]. split; [exists pk; auto|]. split; [exact Dq|]. split; [exact Io|]. exists pk. auto. }
    cbv zeta in H. cbn [fst snd] in H. destruct (settings_same _ _ A) as (Ak & Av & Ai). destruct (settings_same _ _ A2) as (Ak2 & Av2 & Ai2).
    assert (Se : settings g2 = settings g) by congruence. assert (Pa : g_pay g2 = g_pay g) by congruence.
    destruct r as [acks|].
    2: { apply ret_inj in H. subst a. unfold list_case. cbn [k_after k_sent]. split; [exact Se|]. split; [exact Pa|]. exists att. split; [exact G|]. right. exists b, rq. auto. }
    step H. rename v into c. step H. destruct v as [ok2 ack]. apply ret_inj in H. subst a. unfold list_case. cbn [fst snd k_after k_sent]. split; [exact Se|]. split; [exact Pa|].
    exists att. split; [exact G|]. right. exists b, rq. split; [exact E|]. split; [exact E0|].
    destruct ok2; [|left; reflexivity]. right. exists ack, p, i, pk, response, msgs, acks, c.
    destruct (K2 _ eq_refl) as (K3 & _ & K5). rewrite Ak, Av in K5. rewrite V. repeat (split; [first [reflexivity|assumption]|]).
    rewrite Ak2, Av2, Ak, Av in E6. exact E6.
  Qed.

  (** ** The database over a whole life *)
  Local Notation gact := (gact version supported sha256 sha512_256 pub_of ec_sign ec_verify blake verify voucher_text voucher_of is_address zone).
  Local Notation live_all := (live_all version supported sha256 sha512_256 pub_of ec_sign ec_verify blake verify voucher_text voucher_of is_address zone).
  Local Notation supplied := (supplied sha256 pub_of ec_verify blake).

  Lemma admin_list_kept order g m x : HandleAdminListDHT version supported sha256 ec_sign blake order g m = Ret x ->
    kept g (after (fst x)) /\ g_pay (after (fst x)) = g_pay g.
  Proof.
    unfold HandleAdminListDHT, quit. intros H. destruct (g_key g); [|apply ret_inj in H; subst x; cbn; split; [apply kept_refl|reflexivity]].
    step H. destruct v as [refresh|]; [|apply ret_inj in H; subst x; cbn; split; [apply kept_refl|reflexivity]].
    step H. destruct v as [g1 st]. cbn [fst snd] in H. step H. step H. apply ret_inj in H. subst x. cbn [fst].
    apply finish_rest_inv in E2. destruct E2 as (-> & _).
    destruct refresh; [|apply ret_inj in E0; injection E0 as <- <-; split; [apply kept_refl|reflexivity]].
    step E0. destruct v1 as [[[lo hi]|] rg]; cbn [fst snd] in E0; [|apply ret_inj in E0; injection E0 as <- <-; split; [split; reflexivity|reflexivity]].
    step E0. apply ret_inj in E0. injection E0 as <- <-. split; [split; reflexivity|reflexivity].
  Qed.
  Lemma admin_support_kept order g m x : HandleAdminSupport version supported sha256 ec_sign blake order g m = Ret x ->
    kept g (after (fst (fst x))) /\ g_pay (after (fst (fst x))) = g_pay g.
  Proof.
    unfold HandleAdminSupport, quit. intros H. step H. destruct v as [[b ids]|]; [|apply ret_inj in H; subst x; cbn; split; [apply kept_refl|reflexivity]].
    step H. step H. destruct v0 as [code|r]; [apply ret_inj in H; subst x; cbn; split; [apply kept_refl|reflexivity]|].
    step H. apply ret_inj in H. subst x. cbn. split; [split; reflexivity|reflexivity].
  Qed.
  Lemma admin_refresh_kept e g m s : HandleAdminForceRefresh version supported sha256 ec_sign blake e g m = Ret s ->
    kept g (after s) /\ g_pay (after s) = g_pay g.
  Proof.
    unfold HandleAdminForceRefresh, quit. intros H. destruct (g_key g); [|apply ret_inj in H; subst s; cbn; split; [apply kept_refl|reflexivity]].
    step H. destruct v as [refresh|]; [|apply ret_inj in H; subst s; cbn; split; [apply kept_refl|reflexivity]].
    step H. step H. apply finish_rest_inv in H. destruct H as (-> & _). split; [split; reflexivity|reflexivity].
  Qed.
  Lemma admin_key_db g m s : HandleAdminInitialiseKey version supported sha256 ec_sign blake g m = Ret s -> g_db (after s) = g_db g.
  Proof.
    unfold HandleAdminInitialiseKey, quit. intros H. step H. destruct v as [[[id pk] kv]|]; [|apply ret_inj in H; subst s; reflexivity].
    step H. step H. apply finish_rest_inv in H. destruct H as (-> & _). reflexivity.
  Qed.
  Lemma admin_key_v2_db wallet g m s : HandleAdminInitialiseKeyV2 version supported sha256 ec_sign blake wallet g m = Ret s -> g_db (after s) = g_db g.
  Proof.
    unfold HandleAdminInitialiseKeyV2, quit. intros H. step H. destruct v as [[[[[[id pk] kv] w] la] lt]|]; [|apply ret_inj in H; subst s; reflexivity].
    step H. destruct (wallet w); [|apply ret_inj in H; subst s; reflexivity].
    step H. apply finish_rest_inv in H. destruct H as (-> & _). reflexivity.
  Qed.

  Lemma gact_grows e g ev x : gact e g ev = Ret x ->
    exists att, grows (fun o => wire_offer sha256 o /\ supplied (g_reg g) ev o) e g (fst x) att.
  Proof.
    assert (Same : forall g', g_db g' = g_db g -> exists att, grows (fun o => wire_offer sha256 o /\ supplied (g_reg g) ev o) e g g' att).
    { intros g' D. exists []. split; [cbn; congruence|intros ? ? []]. }
    intros H. destruct ev; unfold GatewayAdminSpec.gact in H; cbv zeta in H; step H; apply ret_inj in H; subst x; cbn [fst].
    - destruct v as [[g1 a] s]. apply act_grows in E. destruct E as (att & G & _). exists att. exact G.
    - apply list_inv in E. destruct E as (_ & _ & att & (D & G) & _). exists att. split; [exact D|]. intros o f I0.
      destruct (G _ _ I0) as ((W & p & i & rq & rs & -> & L & A & O) & R). split; [|exact R]. split; [exact W|]. exists i, rq, rs. auto.
    - apply Same. apply admin_list_kept in E. destruct E as ((_ & D) & _). exact D.
    - apply Same. apply admin_support_kept in E. destruct E as ((_ & D) & _). exact D.
    - apply Same. apply admin_key_db in E. exact E.
    - apply Same. apply admin_key_v2_db in E. exact E.
    - apply Same. apply admin_refresh_kept in E. destruct E as ((_ & D) & _). exact D.
  Qed.

  Lemma live_all_inv : forall h g g', live_all g h = Ret g' ->
    exists att, db_after sha512_256 (g_db g) att = Ret (g_db g') /\
      forall o f, In (o, f) att -> wire_offer sha256 o /\ exists reg e ev n, In (reg, e, ev) h /\ supplied reg ev o /\ f = e_fates e n.
  Proof.
    induction h as [|[[reg e] ev] h IH]; intros g g' H; cbn [GatewayAdminSpec.live_all] in H.
    - apply ret_inj in H. subst. exists []. split; [reflexivity|intros ? ? []].
    - step H. destruct (gact_grows _ _ _ _ E) as (att & D & G). destruct (IH _ _ H) as (att' & D' & L). exists (att ++ att'). split.
      + change (g_db (with_reg g reg)) with (g_db g) in D. rewrite db_after_app, D. exact D'.
      + intros o f I0. apply in_app_or in I0 as [I0|I0].
        * destruct (G _ _ I0) as ((W & S) & _ & n & ->). split; [exact W|]. exists reg, e, ev, n. split; [left; reflexivity|]. split; [exact S|reflexivity].
        * destruct (L _ _ I0) as (W & r & e' & v' & n & I1 & R). split; [exact W|]. exists r, e', v', n. split; [right; exact I1|exact R].
  Qed.

  (** ** Identity *)
  Definition identity (g : gateway) := (g_id g, g_key g, g_ver g).

  Lemma gact_identity e g ev x : gact e g ev = Ret x -> (forall m, ev <> AdminKey m) -> (forall wallet m, ev <> AdminKeyV2 wallet m) ->
    identity (fst x) = identity g.
  Proof.
    intros H N1 N2. assert (S : forall g', settings g' = settings g -> identity g' = identity g) by (intros g' S; destruct (settings_same _ _ S) as (A & B & C); unfold identity; congruence).
    destruct ev; unfold GatewayAdminSpec.gact in H; cbv zeta in H; step H; apply ret_inj in H; subst x; cbn [fst].
    - destruct v as [[g1 a] s]. pose (h := [(g_reg g, e, k, m)]).
      assert (L : live_through version supported sha256 sha512_256 pub_of ec_sign ec_verify blake verify voucher_text voucher_of is_address zone g h = Ret g1).
      { unfold h. cbn [live_through]. replace (with_reg g (g_reg g)) with g by (destruct g; reflexivity). rewrite E. reflexivity. }
      apply life_settings in L. destruct L as (L & _). cbn [fst]. unfold identity. congruence.
    - apply list_inv in E. apply S. apply E.
    - apply admin_list_kept in E. apply S. apply E.
    - apply admin_support_kept in E. apply S. apply E.
    - exfalso. eapply N1. reflexivity.
    - exfalso. eapply N2. reflexivity.
    - apply admin_refresh_kept in E. apply S. apply E.
  Qed.

  (** ** Requests started for the administrator *)
  Lemma ids_in l id : In id (ids_of l) <-> exists i, In i l /\ NewNodeIDFromHexString (n_id i) = OkR id.
  Proof.
    unfold ids_of. rewrite in_flat_map. split; intros (i & I0 & J); exists i; (split; [exact I0|]).
    - destruct (NewNodeIDFromHexString (n_id i)); [destruct J as [<-|[]]; reflexivity|destruct J].
    - rewrite J. left. reflexivity.
  Qed.

  Lemma range_map g (mg : manager info) r m' : GetGatewayCIDRange info mg g = Ret (r, m') ->
    start info m' = start info mg /\ providerDiscv info m' = providerDiscv info mg /\ providersMap info m' = providersMap info mg.
  Proof.
    unfold GetGatewayCIDRange. intros H. step H. destruct (NewNodeIDFromHexString (ToString v)) as [c|].
    - step H. step H. apply ret_inj in H. injection H as <- <-. destruct v0 as [q mq]. cbn [snd] in *.
      unfold GetGatewaysNearCID in E0. cbn [deref obind] in E0. destruct (negb _); [discriminate E0|].
      step E0. step E0. step E0. apply ret_inj in E0. injection E0 as <- <-. auto.
    - step H. apply ret_inj in H. injection H as <- <-. auto.
  Qed.

  Lemma admin_list_asks order g m x lo hi rg : HandleAdminListDHT version supported sha256 ec_sign blake order g m = Ret x ->
    (forall l, Permutation.Permutation l (order l)) -> DecodeGatewayAdminListDHTOfferRequest sha256 m = Ret (OkR true) -> g_key g <> None ->
    GetGatewayCIDRange info (g_reg g) (g_id g) = Ret (OkR (lo, hi), rg) -> start info (g_reg g) = true -> providerDiscv info (g_reg g) = true ->
    (exists ids, Permutation.Permutation (ids_of (map snd (providersMap info (g_reg g)))) ids /\
       snd x = map (fun id => (id, GatewayListDHTOfferRequestType, [ArgCID (Some lo); ArgCID (Some hi); ArgNode (Some id)])) ids).
  Proof.
    unfold HandleAdminListDHT. intros H Sh D K R St Pd. destruct (range_map _ _ _ _ R) as (St' & Pd' & Pm). rewrite <- St' in St. rewrite <- Pd' in Pd. rewrite <- Pm. destruct (g_key g); [|congruence]. rewrite D in H. cbn [obind] in H. rewrite R in H. cbn [obind fst snd] in H.
    cbn [with_reg g_reg] in H. unfold GetAllProviders in H. rewrite St, Pd in H. cbn [negb orb] in H.
    step H. step H. step H. apply ret_inj in H. subst x. cbn [snd]. step E. match goal with X : obind (RUnlock _) _ = Ret _ |- _ => step X; apply ret_inj in X; subst end. apply ret_inj in E. subst v. cbn [fst snd]. cbn [fst]. eexists. split; [|reflexivity].
    unfold ids_of. apply Permutation.Permutation_flat_map, Permutation.Permutation_map, Sh.
  Qed.


  Lemma support_starts order g m x id t args : HandleAdminSupport version supported sha256 ec_sign blake order g m = Ret x ->
    In (id, t, args) (snd x) -> t = GatewayListDHTOfferRequestType /\ args = [ArgNode (g_id g); ArgBool true].
  Proof.
    unfold HandleAdminSupport. intros H I0. step H. destruct v as [[b l]|]; [|steps H; apply ret_inj in H; subst x; destruct I0].
    step H. step H. destruct v0; [apply ret_inj in H; subst x; destruct I0|]. step H. apply ret_inj in H. subst x. cbn [snd] in I0.
    apply in_map_iff in I0 as (i & Q & _). injection Q as _ <- <-. auto.
  Qed.
  Lemma support_silent order g m x id t args e n g1 : HandleAdminSupport version supported sha256 ec_sign blake order g m = Ret x ->
    In (id, t, args) (snd x) ->
    RequestProvider version supported sha256 sha512_256 pub_of ec_sign ec_verify blake e n g1 id t args = Ret (Asked g1 []).
  Proof.
    intros H I0. destruct (support_starts _ _ _ _ _ _ _ H I0) as (-> & ->). unfold RequestProvider. rewrite Z.eqb_refl. destruct (e_conn e n id); reflexivity.
  Qed.
  Lemma support_answer order g m x r : HandleAdminSupport version supported sha256 ec_sign blake order g m = Ret x ->
    In (Json r) (wrote (fst (fst x))) -> m_type r = GatewayAdminInitialiseKeyResponseType /\
      DecodeUpdateGatewayGroupCIDOfferSupportResponse sha256 r = Ret ErrR.
  Proof.
    intros H I0. assert (T : m_type r = GatewayAdminInitialiseKeyResponseType).
    { unfold HandleAdminSupport in H. step H. destruct v as [[b l]|].
      - step H. step H. unfold SignAndWrite in E1. step E1. destruct v1 as [ok s]. apply ret_inj in E1. subst v0.
        assert (T : m_type s = m_type v) by (apply sign_with_inv in E2; unfold with_signature in E2; destruct E2 as (q & ->); reflexivity).
        assert (T2 : m_type v = GatewayAdminInitialiseKeyResponseType) by (apply ret_inj in E0; subst v; reflexivity).
        destruct ok; cbn [fst snd] in H.
        + step H. apply ret_inj in H. subst x. destruct I0 as [Q|[]]. injection Q as <-. congruence.
        + apply ret_inj in H. subst x. destruct I0 as [Q|[]]. discriminate Q.
      - steps H. apply ret_inj in E0. subst v. apply ret_inj in H. subst x. destruct I0 as [Q|[]]. discriminate Q. }
    split; [exact T|]. unfold DecodeUpdateGatewayGroupCIDOfferSupportResponse, decode. rewrite T. reflexivity.
  Qed.

  (** ** Initialisation *)
  Lemma key_set g m s : HandleAdminInitialiseKey version supported sha256 ec_sign blake g m = Ret s ->
    s = Served g [HttpError 400] [] /\ DecodeGatewayAdminInitialiseKeyRequest sha256 m = Ret ErrR \/
    exists id k v, DecodeGatewayAdminInitialiseKeyRequest sha256 m = Ret (OkR (id, k, Some v)) /\ after s = with_key g id k v.
  Proof.
    unfold HandleAdminInitialiseKey. intros H. step H. destruct v as [[[id k] v]|].
    - right. exists id, k. destruct v as [v|]; [|discriminate H]. cbn [deref obind] in H. step H. exists v. split; [reflexivity|].
      unfold finish_rest in H. step H. apply ret_inj in H. subst s. reflexivity.
    - left. apply ret_inj in H. subst s. auto.
  Qed.
  Lemma key_v2_set wallet g m s : HandleAdminInitialiseKeyV2 version supported sha256 ec_sign blake wallet g m = Ret s ->
    s = Served g [HttpError 400] [] /\ DecodeGatewayAdminInitialiseKeyRequestV2 sha256 m = Ret ErrR \/
    exists id k v w a b, DecodeGatewayAdminInitialiseKeyRequestV2 sha256 m = Ret (OkR (id, k, Some v, w, a, b)) /\
      after s = with_mgr (with_key g id k v) (option_map NewMgr (wallet w)) /\ (wallet w = None -> wrote s = [HttpError 400]).
  Proof.
    unfold HandleAdminInitialiseKeyV2. intros H. step H. destruct v as [[[[[[id k] v] w] a] b]|].
    - right. exists id, k. destruct v as [v|]; [|discriminate H]. cbn [deref obind] in H. exists v, w, a, b. split; [reflexivity|].
      destruct (wallet w) as [ad|].
      + step H. unfold finish_rest in H. step H. apply ret_inj in H. subst s. split; [reflexivity|discriminate].
      + apply ret_inj in H. subst s. split; reflexivity.
    - left. apply ret_inj in H. subst s. auto.
  Qed.
End ga.
