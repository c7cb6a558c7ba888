(** * Proofs about the lives of a provider *)
From Coq Require Import List ZArith Bool Lia Permutation ZifyBool ZifyNat.
From Coq Require Import Init.Byte.
From Verif Require Import Base BaseProofs Ids IdsProofs Json Crypto Message Offer OfferProofs Schema SchemaProofs Merkle Messages MessagesProofs WireSpec
  Register RegisterProofs OfferStore OfferStoreSpec OfferStoreProofs Rest Gateway GatewaySpec GatewayProofs GatewayStoreProofs Provider ProviderSpec ProviderProofs.
Import ListNotations.
Open Scope Z_scope.
Open Scope go_scope.

Section life.
  Variable version : Z.
  Variable supported : list Z.
  Variable sha256 sha512_256 : bytes -> bytes.
  Variable pub_of : bytes -> bytes.
  Variable ec_sign : bytes -> bytes -> option bytes.
  Variable ec_verify : bytes -> bytes -> bytes -> bool.
  Variable blake : bytes -> bytes.

  Local Notation signed_by := (signed_by pub_of ec_verify blake).
  Local Notation countersigned := (countersigned sha256 pub_of ec_verify blake).
  Local Notation carries_dht := (carries_dht sha256).
  Local Notation accepted := (accepted sha256 sha512_256 pub_of ec_verify blake).
  Local Notation pact := (pact version supported sha256 sha512_256 pub_of ec_sign ec_verify blake).
  Local Notation lived := (lived version supported sha256 sha512_256 pub_of ec_sign ec_verify blake).
  Local Notation came := (came sha256 pub_of ec_verify blake).
  Local Notation sized := (sized sha256).
  Local Notation pub_rel := (pub_rel sha256 sha512_256 pub_of ec_verify blake).
  Local Notation safe_heap := (safe_heap sha256).
  Local Notation versions := (versions version supported).

  Local Notation genuine := (genuine sha256 pub_of ec_verify blake).

  (** What one request does. *)
  Record step_rel (s : pstep) : Prop := StepRel {
    sr_id : safe_id (s_after s);
    sr_heap : safe_heap (s_before s) -> safe_heap (s_after s);
    sr_groups : p_groups (s_after s) = p_groups (s_before s);
    sr_pub : forall id o, id32 id -> In o (published (s_after s) id) -> In o (published (s_before s) id) \/
      exists request response i, In (id, request, Some response) (s_sent s) /\ ProviderSpec.known s id i /\ accepted i request response o;
    sr_pub_keep : forall id o, In o (published (s_before s) id) -> In o (published (s_after s) id);
    sr_ack : forall c id a, id32 c -> id32 id -> kept_ack (s_after s) c id = Some a -> kept_ack (s_before s) c id = Some a \/ genuine s c id a;
    sr_ack_keep : forall c id, kept_ack (s_before s) c id <> None -> kept_ack (s_after s) c id <> None;
    sr_done : forall id request response i o, In (id, request, Some response) (s_sent s) -> registered s id i ->
      accepted i request response o -> In o (published (s_after s) id) /\
      (carries_dht request o -> forall c, o_cids o = [c] -> kept_ack (s_after s) c id <> None)
  }.

  Lemma idle_rel s : safe_id (s_after s) -> p_heap (s_after s) = p_heap (s_before s) -> p_groups (s_after s) = p_groups (s_before s) ->
    p_published (s_after s) = p_published (s_before s) -> p_acks (s_after s) = p_acks (s_before s) -> s_sent s = [] -> step_rel s.
  Proof.
    intros A B C D E F. split; auto; unfold ProviderProofs.safe_heap, published, kept_ack; rewrite ?B, ?D, ?E, ?F; auto.
    intros id request response i o [].
  Qed.

  Lemma moved_rel s p1 : pub_rel (s_env s) (s_sent s) p1 (s_after s) -> p_reg p1 = p_reg (s_before s) -> p_id p1 = p_id (s_before s) ->
    p_groups p1 = p_groups (s_before s) -> p_published p1 = p_published (s_before s) -> p_acks p1 = p_acks (s_before s) ->
    safe_id (s_before s) -> (forall x, In x (p_heap p1) -> In x (p_heap (s_before s)) \/ wire_offer sha256 x) -> step_rel s.
  Proof.
    intros [Q R P1 P2 A1 A2 D] Hr Hi Hg Hp Ha Safe Hh. destruct Q as (Q1 & Q2 & Q3 & Q4 & Q5 & Q6).
    assert (Kn : forall id i, knownR (s_env s) (p_reg p1) id i -> ProviderSpec.known s id i) by (rewrite Hr; intros id i K; exact K).
    split.
    - intros b B. apply Safe. congruence.
    - intros F. unfold ProviderProofs.safe_heap. rewrite Q4, Forall_forall. intros x X. destruct (Hh x X) as [Y|Y]; [|exact Y].
      unfold ProviderProofs.safe_heap in F. rewrite Forall_forall in F. auto.
    - congruence.
    - intros id o I H. destruct (P1 _ _ I H) as [X|(r & a & i & X & K & Y)].
      + left. unfold published in *. rewrite <- Hp. exact X.
      + right. exists r, a, i. auto.
    - intros id o H. apply P2. unfold published in *. rewrite Hp. exact H.
    - intros c id a Ic I H. destruct (A1 _ _ _ Ic I H) as [X|(i & o & X & K & S & Y)].
      + left. unfold kept_ack in *. rewrite <- Ha. exact X.
      + right. exists i, o. split; [left; auto|]. auto.
    - intros c id H. apply A2. unfold kept_ack in *. rewrite Ha. exact H.
    - intros id request response i o X S Y. eapply D; eauto. unfold soleR. rewrite Hr. exact S.
  Qed.

  Lemma init_decoded m id k v : DecodeProviderAdminInitialiseKeyRequest sha256 m = Ret (OkR (id, k, v)) -> forall b, id = Some b -> id32 b.
  Proof.
    intros H. apply rbind_inv in H. destruct H as ([f1 [f2 [f3 u]]] & E & H). apply rbind_inv in H. destruct H as (k' & _ & H). apply ret_inj in H. injection H as <- <- <-. intros b. apply id_ptr_id32.
  Qed.
  Lemma init2_decoded m id k v a b c : DecodeProviderAdminInitialiseKeyRequestV2 sha256 m = Ret (OkR (id, k, v, a, b, c)) -> forall b, id = Some b -> id32 b.
  Proof.
    intros H. apply rbind_inv in H. destruct H as ([f1 [f2 [f3 [f4 [f5 [f6 u]]]]]] & E & H). apply rbind_inv in H. destruct H as (k' & _ & H). apply ret_inj in H. injection H as <- <- <- <- <- <-. intros b'. apply id_ptr_id32.
  Qed.

  Lemma step_ok s : ecdsa_correct pub_of ec_sign ec_verify -> versions -> safe_id (s_before s) -> sized1 sha256 (s_msg s) ->
    pact (s_env s) (s_before s) (s_kind s) (s_msg s) = Ret (s_after s, s_answers s, s_sent s) -> step_rel s.
  Proof.
    intros Law Vs Safe Sz H. destruct s as [p e k m p' ans out]. cbn [s_before s_env s_kind s_msg s_after s_answers s_sent] in *.
    unfold ProviderSpec.pact in H. destruct k.
    - step H. apply ret_inj in H. injection H as <- <- <-.
      destruct (admin_dht_rel _ _ _ _ _ _ _ _ _ _ _ _ Law Safe Sz E) as [(A & B & _)|(cids & price & expiry & qos & os & h & mm & code & _ & _ & _ & W & _ & _ & _ & P & _ & R & _)].
      + apply idle_rel; cbn [s_before s_env s_kind s_msg s_after s_answers s_sent]; rewrite ?A, ?B; auto.
      + eapply moved_rel with (p1 := p_with_store p h mm); cbn [s_before s_env s_kind s_msg s_after s_answers s_sent]; auto.
        cbn [p_with_store p_heap]. intros x X. destruct (publish_offers_heap _ _ _ _ _ _ _ P x X) as [Y|Y]; [auto|]. right. rewrite Forall_forall in W. auto.
    - step H. apply ret_inj in H. injection H as <- <- <-.
      destruct (admin_group_rel _ _ _ _ _ _ _ _ _ _ _ _ Law Safe E) as [(A & B & _)|(cids & price & expiry & qos & o & mm & reg & gws & code & x & _ & _ & W & _ & _ & _ & _ & R & _)].
      + apply idle_rel; cbn [s_before s_env s_kind s_msg s_after s_answers s_sent]; rewrite ?A, ?B; auto.
      + eapply moved_rel with (p1 := p_with_store p (p_heap p ++ [o]) mm); cbn [s_before s_env s_kind s_msg s_after s_answers s_sent]; auto.
        cbn [p_with_store p_heap]. intros y Y. apply in_app_or in Y. destruct Y as [Y|[<-|[]]]; auto.
    - step H. apply ret_inj in H. injection H as <- <- <-. unfold HandleAdminGetPublished in E. destruct (p_key p); [|apply ret_inj in E; subst v; apply idle_rel; auto].
      step E. destruct v0; [|apply ret_inj in E; subst v; apply idle_rel; auto]. step E. apply p_finish_inv in E. destruct E as (A & B & _).
      apply idle_rel; cbn [s_before s_env s_kind s_msg s_after s_answers s_sent]; rewrite ?A, ?B; auto.
    - step H. apply ret_inj in H. injection H as <- <- <-. unfold HandleAdminInitialiseKey in E. step E. destruct v0 as [[[id key] ver]|]; [|apply ret_inj in E; subst v; apply idle_rel; auto].
      step E. step E. apply p_finish_inv in E. destruct E as (A & B & _). pose proof (init_decoded _ _ _ _ E0).
      apply idle_rel; cbn [s_before s_env s_kind s_msg s_after s_answers s_sent]; rewrite ?A, ?B; auto.
    - step H. apply ret_inj in H. injection H as <- <- <-. unfold HandleAdminInitialiseKeyV2 in E. step E. destruct v0 as [[[[[[id key] ver] x1] x2] x3]|]; [|apply ret_inj in E; subst v; apply idle_rel; auto].
      pose proof (init2_decoded _ _ _ _ _ _ _ E0). step E. step E; [apply ret_inj in E; subst v; apply idle_rel; auto|]. step E. apply p_finish_inv in E. destruct E as (A & B & _).
      apply idle_rel; cbn [s_before s_env s_kind s_msg s_after s_answers s_sent]; rewrite ?A, ?B; auto.
    - step H. apply ret_inj in H. injection H as <- <- <-. unfold HandleAdminForceRefresh in E. destruct (p_key p); [|apply ret_inj in E; subst v; apply idle_rel; auto].
      step E. destruct v0; [|apply ret_inj in E; subst v; apply idle_rel; auto]. step E. step E. apply p_finish_inv in E. destruct E as (A & B & _).
      apply idle_rel; cbn [s_before s_env s_kind s_msg s_after s_answers s_sent]; rewrite ?A, ?B; auto.
    - step H. apply ret_inj in H. injection H as <- <- <-. unfold HandleOfferAck in E.
      step E. destruct v0 as [[c gid]|]; [|apply ret_inj in E; subst v; apply idle_rel; auto]. step E. step E. step E. step E. step E. apply p_finish_inv in E. destruct E as (A & B & _).
      apply idle_rel; cbn [s_before s_env s_kind s_msg s_after s_answers s_sent]; rewrite ?A, ?B; auto.
    - step H. destruct v as [p1 r]. apply ret_inj in H. injection H as <- <- <-. cbn [fst snd].
      destruct (list_dht_rel _ _ _ _ _ _ _ _ _ _ _ _ _ _ Vs E) as (reg & h & mm & ackm & -> & -> & R & A & B).
      split; cbn [s_before s_env s_kind s_msg s_after s_answers s_sent]; auto.
      + intros c id a Ic I K. destruct (A _ _ _ Ic I K) as [Y|(resp & a0 & msgs & l & i & o & -> & Ea & Ki & Si & D1 & D2 & L & Ix & Cs & Ca & Co)]; [left; exact Y|].
        right. exists i, o. split; [|auto]. right. exists acks, resp, a0, msgs, l. cbn [s_kind s_answers]. auto 9.
      + intros id request response i o [].
    - step H. destruct v as [p1 r]. apply ret_inj in H. injection H as <- <- <-. cbn [fst snd]. unfold HandleNotifyGroup in E.
      step E. destruct v as [[gid sup]|]; [|apply ret_inj in E; injection E as <- <-; apply idle_rel; auto].
      step E. destruct v as [key p2]. destruct (asked_by_rel _ _ _ _ _ _ _ _ _ E1) as (reg & -> & R & _).
      destruct key; [|apply ret_inj in E; injection E as <- <-; apply idle_rel; auto].
      step E. rename v into g. assert (g = p_groups p).
      { unfold updateGatewaysSupportingGroupCIDOffer, Exists in E2. cbn [p_with_reg p_groups] in E2. destruct sup; [step E2|]; apply ret_inj in E2; congruence. }
      subst g. step E. step E. apply ret_inj in E. injection E as <- <-. apply idle_rel; auto.
  Qed.

  Lemma with_reg_published p r id : published (p_with_reg p r) id = published p id. Proof. reflexivity. Qed.
  Lemma with_reg_kept p r c id : kept_ack (p_with_reg p r) c id = kept_ack p c id. Proof. reflexivity. Qed.

  Lemma life_ok ss : ecdsa_correct pub_of ec_sign ec_verify -> versions ->
    forall p p', safe_id p -> sized ss -> lived p ss p' ->
    safe_id p' /\ (safe_heap p -> safe_heap p') /\ p_groups p' = p_groups p /\
    (forall id o, id32 id -> In o (published p' id) -> In o (published p id) \/ exists s request response i, In s ss /\
       In (id, request, Some response) (s_sent s) /\ ProviderSpec.known s id i /\ accepted i request response o) /\
    (forall id o, In o (published p id) -> In o (published p' id)) /\
    (forall c id a, id32 c -> id32 id -> kept_ack p' c id = Some a -> kept_ack p c id = Some a \/ exists s, In s ss /\ genuine s c id a) /\
    (forall c id, kept_ack p c id <> None -> kept_ack p' c id <> None) /\
    (forall s id request response i o, In s ss -> In (id, request, Some response) (s_sent s) -> registered s id i ->
      accepted i request response o -> In o (published p' id) /\
      (carries_dht request o -> forall c, o_cids o = [c] -> kept_ack p' c id <> None)).
  Proof.
    intros Law Vs. induction ss as [|s t IH]; intros p p' Safe Sz H; cbn [ProviderSpec.lived] in H.
    - subst p'. split; [exact Safe|]. split; [auto|]. split; [reflexivity|]. split; [auto|]. split; [auto|]. split; [auto|]. split; [auto|].
      intros s id request response i o [].
    - destruct H as ((reg & B) & P & L).
      assert (Sz1 : sized1 sha256 (s_msg s)) by (intros cids price expiry qos D; eapply Sz; [left; reflexivity|exact D]).
      assert (Safe1 : safe_id (s_before s)) by (rewrite B; exact Safe).
      destruct (step_ok s Law Vs Safe1 Sz1 P) as [R1 R2 R3 R4 R5 R6 R7 R8].
      assert (Sz2 : sized t) by (intros s' cids price expiry qos I D; eapply Sz; [right; exact I|exact D]).
      destruct (IH (s_after s) p' R1 Sz2 L) as (Q1 & Q2 & Q3 & Q4 & Q5 & Q6 & Q7 & Q8).
      rewrite B in R2, R3, R4, R5, R6, R7. split; [exact Q1|]. split; [intros F; apply Q2, R2; exact F|]. split; [rewrite Q3, R3; reflexivity|].
      split; [|split; [|split; [|split]]].
      + intros id o I X. destruct (Q4 _ _ I X) as [Y|(s' & r & a & i & J & Z)].
        * destruct (R4 _ _ I Y) as [Z|(r & a & i & Z)]; [left; exact Z|]. right. exists s, r, a, i. split; [left; reflexivity|exact Z].
        * right. exists s', r, a, i. split; [right; exact J|exact Z].
      + intros id o X. apply Q5, R5, X.
      + intros c id a Ic I X. destruct (Q6 _ _ _ Ic I X) as [Y|(s' & J & Z)].
        * destruct (R6 _ _ _ Ic I Y) as [Z|Z]; [left; exact Z|]. right. exists s. split; [left; reflexivity|exact Z].
        * right. exists s'. split; [right; exact J|exact Z].
      + intros c id X. apply Q7, R7, X.
      + intros s' id r a i o [<-|J] X S Acc; [|eapply Q8; eauto]. destruct (R8 _ _ _ _ _ X S Acc) as [Y Z]. split; [apply Q5, Y|].
        intros Ca c Co. apply Q7. eapply Z; eauto.
  Qed.
End life.
