(** * Proofs about the list of everything a provider has published *)
From Coq Require Import List ZArith Bool Lia Permutation ZifyBool ZifyNat.
From Coq Require Import Init.Byte.
From Verif Require Import Base BaseProofs Ids IdsProofs Json Crypto Message MessageProofs Offer OfferProofs Schema SchemaProofs Merkle Messages MessagesProofs WireSpec
  Ring RingSpec Register RegisterProofs OfferStore OfferStoreSpec OfferStoreProofs OfferStoreHist OfferStoreFacts Rest Gateway GatewaySpec GatewayProofs GatewayStoreProofs
  Provider ProviderSpec ProviderProofs ProviderLifeProofs ProviderListProofs ProviderServeProofs ProviderAckProofs.
Import ListNotations.
Open Scope Z_scope.
Open Scope go_scope.

(** Only additions under identifiers. *)
Inductive grown : list (gostring * list offer) -> list (gostring * list offer) -> Prop :=
| grown_same m : grown m m
| grown_add m m' id o : grown m m' -> id32 id -> grown m (add_published m' id o).
Lemma grown_trans a b c : grown a b -> grown b c -> grown a c.
Proof. intros A B. induction B as [|m m' id o B IH I]; [exact A|]. apply grown_add; auto. Qed.

(** Keys are texts of identifiers, once each, with something under them. *)
Definition tidy (m : list (gostring * list offer)) : Prop :=
  NoDup (map fst m) /\ forall k l, In (k, l) m -> l <> [] /\ exists id, id32 id /\ k = ToString id.
Lemma aset_In (m : list (gostring * list offer)) k v x : In x (aset bytes_eqb m k v) -> In x m \/ x = (k, v).
Proof.
  induction m as [|[k' v'] t IH]; cbn; [intros [<-|[]]; auto|]. destruct (bytes_eqb k k') eqn:E.
  - intros [<-|I]; [|auto]. apply bytes_eqb_eq in E. subst. auto.
  - intros [<-|I]; [auto|]. destruct (IH I); auto.
Qed.
Lemma grown_tidy a b : grown a b -> tidy a -> tidy b.
Proof.
  induction 1 as [|m m' id o G IH I]; [auto|]. intros T. destruct (IH T) as [N K]. unfold add_published. split.
  - apply aset_NoDup; [apply bytes_eqb_eq|exact N].
  - intros k l J. apply aset_In in J. destruct J as [J|J]; [exact (K _ _ J)|]. injection J as -> ->. split; [|eauto].
    intros X. apply app_eq_nil in X. destruct X; discriminate.
Qed.

Section all.
  Variable version : Z.
  Variable supported : list Z.
  Variable sha256 sha512_256 : bytes -> bytes.
  Variable pub_of : bytes -> bytes.
  Variable ec_sign : bytes -> bytes -> option bytes.
  Variable ec_verify : bytes -> bytes -> bytes -> bool.
  Variable blake : bytes -> bytes.

  Notation pact := (ProviderSpec.pact version supported sha256 sha512_256 pub_of ec_sign ec_verify blake).
  Notation lived := (ProviderSpec.lived version supported sha256 sha512_256 pub_of ec_sign ec_verify blake).
  Notation ready := (ProviderSpec.ready ec_sign blake).
  Notation own := (ProviderSpec.own pub_of ec_verify blake).

  Lemma finish_published p r v : p_finish ec_sign blake p r = Ret v -> p_published (p_after v) = p_published p.
  Proof. unfold p_finish. intros H. step H. apply ret_inj in H. subst v. reflexivity. Qed.
  Lemma quietly_published p r out v : p_finish_quietly ec_sign blake p r out = Ret v -> p_published (p_after v) = p_published p.
  Proof. unfold p_finish_quietly. intros H. step H. apply ret_inj in H. subst v. reflexivity. Qed.
  Lemma pget_published e n p id i p' : PGetGateway e n p id = Ret (i, p') -> p_published p' = p_published p.
  Proof. unfold PGetGateway. intros H. step H. apply ret_inj in H. injection H as <- <-. reflexivity. Qed.
  Lemma ask_published e n p id enc r p' out : ask pub_of ec_sign ec_verify blake e n p id enc = Ret (r, p', out) -> p_published p' = p_published p.
  Proof.
    unfold ask. intros H. step H; [apply ret_inj in H; injection H as <- <- <-; reflexivity|]. step H. step H. step H; [apply ret_inj in H; injection H as <- <- <-; reflexivity|].
    destruct (pe_net e n id (snd v0)) as [resp|]; [|apply ret_inj in H; injection H as <- <- <-; reflexivity]. step H. destruct v1 as [i p1].
    pose proof (pget_published _ _ _ _ _ _ E3) as P. destruct i as [i|]; [|apply ret_inj in H; injection H as <- <- <-; exact P].
    step H. destruct v1 as [k|]; apply ret_inj in H; injection H as <- <- <-; exact P.
  Qed.
  Lemma record_grown id rq rs : id32 id -> forall offers p p', record_published p id rq rs offers = Ret p' -> grown (p_published p) (p_published p').
  Proof.
    intros I. induction offers as [|o t IH]; intros p p' H; cbn [record_published] in H; [apply ret_inj in H; subst; constructor|].
    destruct (o_cids o) as [|c cs]; [discriminate|]. apply IH in H. cbn [p_with_acks p_with_published p_published] in H.
    eapply grown_trans; [|exact H]. apply grown_add; [constructor|exact I].
  Qed.
  Lemma request_dht_grown e n p id offers p' out : id32 id -> RequestPublishDHT version supported sha256 pub_of ec_sign ec_verify blake e n p id offers = Ret (p', out) ->
    grown (p_published p) (p_published p').
  Proof.
    intros I H. unfold RequestPublishDHT in H. step H. destruct v as [[r p1] o1]. pose proof (ask_published _ _ _ _ _ _ _ _ E) as P. rewrite <- P.
    destruct r as [[[rq rs] k]|]; [|apply ret_inj in H; injection H as <- <-; constructor]. step H. destruct v as [[x sig]|]; [|apply ret_inj in H; injection H as <- <-; constructor].
    destruct (fst (VerifyMessage pub_of ec_verify blake k sig (slice (m_body rq)))) as [[|]|]; try (apply ret_inj in H; injection H as <- <-; constructor).
    step H. apply ret_inj in H. injection H as <- <-. eapply record_grown; eassumption.
  Qed.
  Lemma request_group_grown e n p id o p' out : id32 id -> RequestPublishGroup version supported sha256 sha512_256 pub_of ec_sign ec_verify blake e n p id o = Ret (p', out) ->
    grown (p_published p) (p_published p').
  Proof.
    intros I H. unfold RequestPublishGroup in H. step H. destruct v as [[r p1] o1]. pose proof (ask_published _ _ _ _ _ _ _ _ E) as P. rewrite <- P.
    destruct r as [[[rq rs] k]|]; [|apply ret_inj in H; injection H as <- <-; constructor]. step H. destruct v as [[x sig]|]; [|apply ret_inj in H; injection H as <- <-; constructor].
    step H. step H; apply ret_inj in H; injection H as <- <-; [|constructor]. cbn [p_with_published p_published]. apply grown_add; [constructor|exact I].
  Qed.
  Lemma to_grown e offers : forall gws n p out c p' out' n', publish_to version supported sha256 pub_of ec_sign ec_verify blake e n p offers gws out = Ret (c, p', out', n') ->
    grown (p_published p) (p_published p').
  Proof.
    induction gws as [|gw t IH]; intros n p out c p' out' n' H; cbn [publish_to] in H; [apply ret_inj in H; injection H as <- <- <- <-; constructor|].
    destruct (NewNodeIDFromHexString (n_id gw)) as [id|] eqn:Id; [|apply ret_inj in H; injection H as <- <- <- <-; constructor].
    step H. destruct v as [p1 o1]. apply request_dht_grown in E; [|eapply hex_id32; exact Id]. eapply grown_trans; [exact E|]. eapply IH. exact H.
  Qed.
  Lemma near_grown e offers : forall cids n p out c p' out', publish_near version supported sha256 pub_of ec_sign ec_verify blake e n p offers cids out = Ret (c, p', out') ->
    grown (p_published p) (p_published p').
  Proof.
    induction cids as [|ci t IH]; intros n p out c p' out' H; cbn [publish_near] in H; [apply ret_inj in H; injection H as <- <- <-; constructor|].
    step H. destruct (fst v) as [gws|]; [|apply ret_inj in H; injection H as <- <- <-; constructor].
    step H. destruct v0 as [[[code p1] o1] n1]. apply to_grown in E0. cbn [p_with_reg p_published] in E0.
    destruct code; [apply ret_inj in H; injection H as <- <- <-; exact E0|]. eapply grown_trans; [exact E0|]. eapply IH. exact H.
  Qed.
  Lemma group_to_grown e o : forall gws n p out c p' out', publish_group_to version supported sha256 sha512_256 pub_of ec_sign ec_verify blake e n p o gws out = Ret (c, p', out') ->
    grown (p_published p) (p_published p').
  Proof.
    induction gws as [|gw t IH]; intros n p out c p' out' H; cbn [publish_group_to] in H; [apply ret_inj in H; injection H as <- <- <-; constructor|].
    destruct (NewNodeIDFromHexString (n_id gw)) as [id|] eqn:Id; [|apply ret_inj in H; injection H as <- <- <-; constructor].
    step H. destruct v as [p1 o1]. apply request_group_grown in E; [|eapply hex_id32; exact Id]. eapply grown_trans; [exact E|]. eapply IH. exact H.
  Qed.

  Lemma pact_grown e p k m p' ans out : int32 version /\ Forall int32 supported -> pact e p k m = Ret (p', ans, out) -> grown (p_published p) (p_published p').
  Proof.
    intros Vs H. unfold ProviderSpec.pact in H.
    assert (Q : forall v, p_published (p_after v) = p_published p -> grown (p_published p) (p_published (p_after v))) by (intros v ->; constructor).
    destruct k; (step H; match type of H with Ret _ = Ret _ => apply ret_inj in H; injection H as <- <- <- end).
    - unfold HandleAdminPublishDHT in E. destruct (p_key p) as [key|]; [|apply ret_inj in E; subst v; constructor].
      step E. destruct v0 as [[[[cids price] expiry] qos]|]; [|apply ret_inj in E; subst v; constructor]. step E; [apply ret_inj in E; subst v; constructor|].
      step E. destruct v0 as [os|]; [|apply ret_inj in E; subst v; constructor]. step E. step E. destruct v1 as [[code p1] o1]. apply near_grown in E4. cbn [p_with_store p_published] in E4.
      destruct code; [apply ret_inj in E; subst v; exact E4|]. step E. apply quietly_published in E. rewrite E. exact E4.
    - unfold HandleAdminPublishGroup in E. destruct (p_key p) as [key|]; [|apply ret_inj in E; subst v; constructor].
      step E. destruct v0 as [[[[cids price] expiry] qos]|]; [|apply ret_inj in E; subst v; constructor].
      step E. destruct v0 as [o|]; [|apply ret_inj in E; subst v; constructor]. step E. step E; [apply ret_inj in E; subst v; constructor|].
      step E. step E. step E. destruct v3 as [[code p1] o1]. apply group_to_grown in E6. cbn [p_with_store p_with_reg p_published] in E6.
      destruct code; [apply ret_inj in E; subst v; exact E6|]. step E. apply quietly_published in E. rewrite E. exact E6.
    - unfold HandleAdminGetPublished in E. destruct (p_key p); [|apply ret_inj in E; subst v; constructor]. step E. destruct v0; [|apply ret_inj in E; subst v; constructor].
      step E. apply finish_published in E. apply Q, E.
    - unfold HandleAdminInitialiseKey in E. step E. destruct v0 as [[[id key] ver]|]; [|apply ret_inj in E; subst v; constructor]. step E. step E. apply finish_published in E. apply Q, E.
    - unfold HandleAdminInitialiseKeyV2 in E. step E. destruct v0 as [[[[[[id key] ver] x1] x2] x3]|]; [|apply ret_inj in E; subst v; constructor]. step E.
      step E; [apply ret_inj in E; subst v; constructor|]. step E. apply finish_published in E. apply Q, E.
    - unfold HandleAdminForceRefresh in E. destruct (p_key p); [|apply ret_inj in E; subst v; constructor]. step E. destruct v0; [|apply ret_inj in E; subst v; constructor].
      step E. step E. apply finish_published in E. apply Q, E.
    - unfold HandleOfferAck in E. step E. destruct v0 as [[c gid]|]; [|apply ret_inj in E; subst v; constructor]. step E. step E. step E. step E. step E. apply finish_published in E. apply Q, E.
    - destruct v as [p1 r]. cbn [fst]. destruct (list_dht_rel _ _ _ _ _ _ _ _ _ _ _ _ _ _ Vs E) as (reg & h & mm & ackm & -> & _). constructor.
    - destruct v as [p1 r]. cbn [fst]. unfold HandleNotifyGroup in E.
      step E. destruct v as [[gid sup]|]; [|apply ret_inj in E; injection E as <- <-; constructor].
      step E. destruct v as [key p2]. destruct (asked_by_rel _ _ _ _ _ _ _ _ _ E1) as (reg & -> & R & _).
      destruct key; [|apply ret_inj in E; injection E as <- <-; constructor].
      step E. step E. step E. apply ret_inj in E. injection E as <- <-. constructor.
  Qed.

  Lemma lived_tidy : int32 version /\ Forall int32 supported -> forall ss p p', lived p ss p' -> tidy (p_published p) -> tidy (p_published p').
  Proof.
    intros Vs. induction ss as [|s t IH]; intros p p' L T; cbn [ProviderSpec.lived] in L; [subst; exact T|].
    destruct L as ((reg & B) & A & L). apply (IH _ _ L). apply (grown_tidy (p_published (s_before s))); [eapply pact_grown; eassumption|]. rewrite B. exact T.
  Qed.
  Lemma new_tidy reg : tidy (p_published (NewProvider reg)).
  Proof. split; [constructor|intros k l []]. Qed.

  (** The gateways with something under them. *)
  Lemma tidy_ids m : tidy m -> exists ids, map fst m = map ToString ids /\ Forall id32 ids /\ NoDup ids.
  Proof.
    intros [N K]. induction m as [|[k l] t IH]; [exists []; repeat constructor|]. cbn [map fst] in N. inversion N as [|? ? N1 N2]; subst.
    destruct IH as (ids & A & B & C); [exact N2|intros k' l' I; apply K; right; exact I|].
    destruct (K k l (or_introl eq_refl)) as (_ & id & I & ->). exists (id :: ids). cbn. rewrite A. split; [reflexivity|]. split; [constructor; assumption|].
    constructor; [|exact C]. intros J. apply N1. rewrite A. apply in_map. exact J.
  Qed.
  Lemma flat_map_same {A B} (f g : A -> list B) : forall l, (forall x, In x l -> f x = g x) -> flat_map f l = flat_map g l.
  Proof. induction l as [|x t IH]; intros H; [reflexivity|]. cbn. rewrite (H x (or_introl eq_refl)), IH; [reflexivity|]. intros y Y. apply H. right. exact Y. Qed.
  Lemma flat_published : forall (m : list (gostring * list offer)) ids, NoDup (map fst m) -> map fst m = map ToString ids ->
    flat_map snd m = flat_map (fun id => match aget bytes_eqb m (ToString id) with Some l => l | None => [] end) ids.
  Proof.
    induction m as [|[k l] t IH]; intros ids N E; destruct ids as [|id ids]; try discriminate; [reflexivity|]. cbn [map fst] in *. injection E as -> E. inversion N as [|? ? N1 N2]; subst.
    cbn [flat_map snd aget]. replace (bytes_eqb (ToString id) (ToString id)) with true by (symmetry; apply bytes_eqb_eq; reflexivity). f_equal. rewrite (IH ids N2 E).
    apply flat_map_same. intros x X. destruct (bytes_eqb (ToString x) (ToString id)) eqn:Eq; [|reflexivity]. apply bytes_eqb_eq in Eq. exfalso. apply N1. rewrite E, <- Eq. apply in_map. exact X.
  Qed.

  Lemma all_published_pf e p m l : ecdsa_correct pub_of ec_sign ec_verify -> ready p -> Forall (wire_offer sha256) l -> l = flat_map snd (pe_listed e (p_published p)) ->
    DecodeProviderAdminGetPublishedOfferRequest sha256 m = Ret (OkR []) ->
    exists r, HandleAdminGetPublished version supported sha256 ec_sign blake e p m = Ret (PServed p [Json r] []) /\ own p r /\
      DecodeProviderAdminGetPublishedOfferResponse sha256 r = Ret (OkR (negb (is_nil l), Some l)).
  Proof.
    intros Law (pid & k & Pid & Ip & K & Cs) W El D. unfold HandleAdminGetPublished. rewrite K, D. cbn [obind]. rewrite <- El.
    destruct (rt_ProviderAdminGetPublishedOfferResponse version supported sha256 (negb (is_nil l)) (Some l) W) as (b & Eb & _ & Db). rewrite Eb. cbn [obind].
    destruct (finish_total ec_sign blake p k b K Cs) as (r & Er). exists r. rewrite Er. split; [reflexivity|].
    unfold p_finish in Er. step Er. apply ret_inj in Er. injection Er as ->. unfold SignAndWrite in E. step E. destruct v as [ok mm]. cbn [fst snd] in E. destruct ok; [|apply ret_inj in E; discriminate].
    apply ret_inj in E. injection E as <-. split; [eapply sign_own; eauto|]. apply sign_with_inv in E0. destruct E0 as (g & ->). exact Db.
  Qed.
End all.
