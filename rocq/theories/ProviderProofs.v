(** * Proofs about the provider's handlers *)
From Coq Require Import List ZArith Bool Lia Permutation ZifyBool ZifyNat.
From Coq Require Import Init.Byte.
From Verif Require Import Base BaseProofs Ids IdsProofs Json Crypto Message Offer OfferProofs Schema SchemaProofs Merkle Messages MessagesProofs WireSpec
  Register RegisterProofs OfferStore OfferStoreSpec OfferStoreProofs Rest Gateway GatewaySpec GatewayProofs GatewayStoreProofs Provider ProviderSpec.
Import ListNotations.
Open Scope Z_scope.
Open Scope go_scope.

Lemma aget_set {A} (m : list (gostring * A)) k v q : aget bytes_eqb (aset bytes_eqb m k v) q = if bytes_eqb q k then Some v else aget bytes_eqb m q.
Proof. apply (aget_aset bytes_eqb bytes_eqb_eq). Qed.

Lemma beq_refl k : bytes_eqb k k = true. Proof. apply bytes_eqb_eq. reflexivity. Qed.

(** ** Looking up gateways *)

(** The register service's answers. *)
Definition served_by (e : penv) (k : gostring) (i : info) : Prop := exists n l, pe_gateways e n = Some l /\ In (Some (k, i)) l.

(** What may happen to the register during a call. *)
Record reg_rel (e : penv) (r r' : manager info) : Prop := RegRel {
  rr_start : start info r' = start info r;
  rr_disc : gatewayDiscv info r' = gatewayDiscv info r;
  rr_from : forall k i, aget bytes_eqb (gatewaysMap info r') k = Some i -> aget bytes_eqb (gatewaysMap info r) k = Some i \/ served_by e k i;
  rr_keep : forall k, aget bytes_eqb (gatewaysMap info r) k <> None -> aget bytes_eqb (gatewaysMap info r') k <> None }.

Lemma reg_refl e r : reg_rel e r r. Proof. split; auto. Qed.
Lemma reg_same e r r' : start info r' = start info r -> gatewayDiscv info r' = gatewayDiscv info r -> gatewaysMap info r' = gatewaysMap info r -> reg_rel e r r'.
Proof. intros A B C. split; auto; intros k; rewrite C; auto. Qed.
Lemma reg_trans e r1 r2 r3 : reg_rel e r1 r2 -> reg_rel e r2 r3 -> reg_rel e r1 r3.
Proof.
  intros [A1 B1 C1 D1] [A2 B2 C2 D2]. split; [congruence|congruence| |auto].
  intros k i H. destruct (C2 _ _ H) as [H'|H']; auto.
Qed.

Lemma add_gateways_keep l : forall m m', add_gateways info m l = Ret m' ->
  start info m' = start info m /\ gatewayDiscv info m' = gatewayDiscv info m /\
  forall k, aget bytes_eqb (gatewaysMap info m) k <> None -> aget bytes_eqb (gatewaysMap info m') k <> None.
Proof.
  induction l as [|(k, v) t IH]; intros m m' H; cbn [add_gateways] in H; [apply ret_inj in H; subst; auto|].
  step H. assert (G : forall q, aget bytes_eqb (gatewaysMap info m) q <> None -> aget bytes_eqb (aset bytes_eqb (gatewaysMap info m) k v) q <> None).
  { intros q. rewrite aget_set. destruct (bytes_eqb q k); [discriminate|auto]. }
  step H; [|step H; step H]; destruct (IH _ _ H) as (A & B & C); auto.
Qed.
Lemma add_providers_keep l : forall m m', add_providers info m l = Ret m' ->
  start info m' = start info m /\ gatewayDiscv info m' = gatewayDiscv info m /\ gatewaysMap info m' = gatewaysMap info m.
Proof.
  induction l as [|(k, v) t IH]; intros m m' H; cbn [add_providers] in H; [apply ret_inj in H; subst; auto|].
  step H. apply IH in H. exact H.
Qed.
Lemma refresh_rel e n r pa r' : Refresh info r (pe_gateways e n) pa = Ret r' -> reg_rel e r r'.
Proof.
  unfold Refresh. intros H. step H; [apply ret_inj in H; subst; apply reg_refl|]. step H.
  assert (A : reg_rel e r v).
  { unfold updateGateways in E0. step E0; [apply ret_inj in E0; subst; apply reg_refl|]. step E0.
    destruct (add_gateways_keep _ _ _ E0) as (A & B & C). split; auto. intros k i K.
    destruct (add_gateways_in _ _ _ _ _ E0 K) as [X|X]; [auto|]. right.
    destruct (GatewayProofs.pulled_in _ _ _ E2 X) as (l0 & L & I0). exists n, l0. auto. }
  eapply reg_trans; [exact A|]. unfold updateProviders in H. step H; [apply ret_inj in H; subst; apply reg_refl|]. step H.
  destruct (add_providers_keep _ _ _ H) as (A1 & B1 & C1). apply reg_same; auto.
Qed.
Lemma get_gateway_rel e n r id pa x r' : GetGateway info r (Some id) (pe_gateways e n) pa = Ret (x, r') ->
  reg_rel e r r' /\ (forall i, x = Some i -> aget bytes_eqb (gatewaysMap info r) (ToString id) = Some i \/ served_by e (ToString id) i) /\
  (start info r = true -> gatewayDiscv info r = true -> aget bytes_eqb (gatewaysMap info r) (ToString id) <> None ->
    x = aget bytes_eqb (gatewaysMap info r) (ToString id)).
Proof.
  unfold GetGateway. intros H. step H.
  { apply ret_inj in H. injection H as <- <-. split; [apply reg_refl|]. split; [discriminate|]. intros S D. rewrite S, D in E. discriminate. }
  cbn [deref obind RLock RUnlock] in H. destruct (aget bytes_eqb (gatewaysMap info r) (ToString id)) as [i|] eqn:Ea.
  - apply ret_inj in H. injection H as <- <-. split; [apply reg_same; reflexivity|]. split; [intros j [= <-]; auto|auto].
  - step H. apply ret_inj in H. injection H as <- <-. apply refresh_rel in E0.
    assert (R : reg_rel e r v) by (destruct E0; split; assumption).
    split; [eapply reg_trans; [exact R|apply reg_same; reflexivity]|]. split; [|congruence].
    intros i K. destruct (rr_from _ _ _ R _ _ K) as [X|X]; [congruence|auto].
Qed.
Lemma near_rel e (m : manager info) c num ex r m' : GetGatewaysNearCID info m c num ex = Ret (r, m') -> reg_rel e m m'.
Proof.
  unfold GetGatewaysNearCID. intros H. step H. step H; [discriminate|]. step H. cbn [RLock RUnlock obind] in H.
  apply ret_inj in H. injection H as <- <-. apply reg_same; reflexivity.
Qed.
Lemma all_rel e f (m : manager info) r m' : GetAllGateways info f m = Ret (r, m') -> reg_rel e m m'.
Proof.
  unfold GetAllGateways. intros H. step H; [apply ret_inj in H; injection H as <- <-; apply reg_refl|]. cbn [RLock RUnlock obind] in H.
  apply ret_inj in H. injection H as <- <-. apply reg_same; reflexivity.
Qed.

(** Registrations as in the specification, by the register. *)
Definition knownR (e : penv) (r : manager info) (id : bytes) (i : info) : Prop :=
  aget bytes_eqb (gatewaysMap info r) (ToString id) = Some i \/ served_by e (ToString id) i.
Definition soleR (e : penv) (r : manager info) (id : bytes) (i : info) : Prop :=
  start info r = true /\ gatewayDiscv info r = true /\ aget bytes_eqb (gatewaysMap info r) (ToString id) = Some i /\
  forall j, knownR e r id j -> j = i.

Lemma known_rel e r r' id i : reg_rel e r r' -> knownR e r' id i -> knownR e r id i.
Proof. intros R [A|A]; [|right; exact A]. apply (rr_from _ _ _ R). exact A. Qed.
Lemma sole_rel e r r' id i : reg_rel e r r' -> soleR e r id i -> soleR e r' id i.
Proof.
  intros R (A & B & C & D). unfold soleR. rewrite (rr_start _ _ _ R), (rr_disc _ _ _ R). split; [exact A|]. split; [exact B|].
  assert (U : forall j, knownR e r' id j -> j = i) by (intros j J; apply D; eapply known_rel; eauto).
  split; [|exact U]. destruct (aget bytes_eqb (gatewaysMap info r') (ToString id)) as [j|] eqn:E.
  - f_equal. apply U. left. exact E.
  - exfalso. apply (rr_keep _ _ _ R (ToString id)); congruence.
Qed.

(** ** Maps *)

Lemma published_add p m id0 o0 id : published (p_with_published p (add_published m id0 o0)) id =
  if bytes_eqb (ToString id) (ToString id0)
  then match aget bytes_eqb m (ToString id0) with Some l => l | None => [] end ++ [o0]
  else match aget bytes_eqb m (ToString id) with Some l => l | None => [] end.
Proof.
  unfold published, add_published. cbn [p_with_published p_published]. rewrite aget_set. destruct (bytes_eqb _ _); reflexivity.
Qed.
Lemma kept_add p m c0 id0 a c id : kept_ack (p_with_acks p (add_ack m c0 id0 a)) c id =
  if bytes_eqb (ToString c) (ToString c0) && bytes_eqb (ToString id) (ToString id0) then Some a
  else match aget bytes_eqb m (ToString c) with Some x => aget bytes_eqb x (ToString id) | None => None end.
Proof.
  unfold kept_ack, add_ack. cbn [p_with_acks p_acks]. rewrite aget_set. destruct (bytes_eqb (ToString c) (ToString c0)) eqn:E; [|reflexivity].
  apply bytes_eqb_eq in E. rewrite E, aget_set. destruct (bytes_eqb (ToString id) (ToString id0)); cbn [andb]; [reflexivity|].
  destruct (aget bytes_eqb m (ToString c0)); reflexivity.
Qed.

Lemma ids_text_id32 f ids : ids_of_text f = Ret ids -> Forall id32 ids.
Proof. apply map_ids. Qed.

Lemma set_nth_in {A} (l : list A) i (x y : A) : In y (set_nth l i x) -> y = x \/ In y l.
Proof.
  revert i. induction l as [|a l IH]; intros [|i]; cbn; auto.
  - intros [H|H]; auto.
  - intros [H|H]; auto. destruct (IH _ H); auto.
Qed.

Section prov.
  Variable version : Z.
  Variable supported : list Z.
  Variable sha256 sha512_256 : bytes -> bytes.
  Variable pub_of : bytes -> bytes.
  Variable ec_sign : bytes -> bytes -> option bytes.
  Variable ec_verify : bytes -> bytes -> bytes -> bool.
  Variable blake : bytes -> bytes.

  Local Notation signed_by := (signed_by pub_of ec_verify blake).
  Local Notation countersigned := (countersigned sha256 pub_of ec_verify blake).
  Local Notation carries_dht := (carries_dht sha256).
  Local Notation carries_group := (carries_group sha256).
  Local Notation names := (names sha256 sha512_256).
  Local Notation accepted := (accepted sha256 sha512_256 pub_of ec_verify blake).
  Local Notation ask := (ask pub_of ec_sign ec_verify blake).

  (** What a call may do to the provider with the exchanges [out]. *)
  Record pub_rel (e : penv) (out : list exchange) (p p' : provider) : Prop := PubRel {
    pr_same : p_id p' = p_id p /\ p_key p' = p_key p /\ p_ver p' = p_ver p /\ p_heap p' = p_heap p /\ p_offers p' = p_offers p /\ p_groups p' = p_groups p;
    pr_reg : reg_rel e (p_reg p) (p_reg p');
    pr_pub : forall id o, id32 id -> In o (published p' id) -> In o (published p id) \/
      exists request response i, In (id, request, Some response) out /\ knownR e (p_reg p) id i /\ accepted i request response o;
    pr_pub_keep : forall id o, In o (published p id) -> In o (published p' id);
    pr_ack : forall c id a, id32 c -> id32 id -> kept_ack p' c id = Some a -> kept_ack p c id = Some a \/
      exists i o, In (id, a_msg a, Some (a_ack a)) out /\ knownR e (p_reg p) id i /\ signed_by i (a_ack a) /\
        countersigned i (a_msg a) (a_ack a) /\ carries_dht (a_msg a) o /\ o_cids o = [c];
    pr_ack_keep : forall c id, kept_ack p c id <> None -> kept_ack p' c id <> None;
    pr_done : forall id request response i o, In (id, request, Some response) out -> soleR e (p_reg p) id i ->
      accepted i request response o -> In o (published p' id) /\
      (carries_dht request o -> forall c, o_cids o = [c] -> kept_ack p' c id <> None)
  }.

  Lemma pub_refl e p : pub_rel e [] p p.
  Proof. split; auto using reg_refl; [repeat split|]. intros id request response i o []. Qed.
  Lemma pub_reg e p r : reg_rel e (p_reg p) r -> pub_rel e [] p (p_with_reg p r).
  Proof. intros R. split; auto; [repeat split|]. intros id request response i o []. Qed.
  Lemma pub_trans e o1 o2 p1 p2 p3 : pub_rel e o1 p1 p2 -> pub_rel e o2 p2 p3 -> pub_rel e (o1 ++ o2) p1 p3.
  Proof.
    intros [A1 B1 C1 D1 E1 F1 G1] [A2 B2 C2 D2 E2 F2 G2]. split.
    - destruct A1 as (a & b & c & d & f & g), A2 as (a' & b' & c' & d' & f' & g'). repeat split; congruence.
    - eapply reg_trans; eauto.
    - intros id o I H. destruct (C2 _ _ I H) as [H1|(r & a & i & X & K & Y)].
      + destruct (C1 _ _ I H1) as [H2|(r & a & i & X & K & Y)]; [auto|]. right. exists r, a, i. split; [apply in_or_app; auto|auto].
      + right. exists r, a, i. split; [apply in_or_app; auto|]. split; [eapply known_rel; eauto|exact Y].
    - auto.
    - intros c id a Ic I H. destruct (E2 _ _ _ Ic I H) as [H1|(i & o & X & K & Y)].
      + destruct (E1 _ _ _ Ic I H1) as [H2|(i & o & X & K & Y)]; [auto|]. right. exists i, o. split; [apply in_or_app; auto|auto].
      + right. exists i, o. split; [apply in_or_app; auto|]. split; [eapply known_rel; eauto|exact Y].
    - auto.
    - intros id request response i o X S Y. apply in_app_or in X. destruct X as [X|X].
      + destruct (G1 _ _ _ _ _ X S Y) as [P Q]. split; [auto|]. intros K c C. apply F2. apply Q; auto.
      + eapply G2; eauto. eapply sole_rel; eauto.
  Qed.

  (** ** One request *)

  Lemma ask_rel e n p id enc r p' out : ask e n p id enc = Ret (r, p', out) ->
    exists reg, p' = p_with_reg p reg /\ reg_rel e (p_reg p) reg /\
    ((r = None /\ out = []) \/
     exists b request answer, enc = Ret b /\ with_signature b request /\ out = [(id, request, answer)] /\
       match r with
       | None => forall response i, answer = Some response -> soleR e (p_reg p) id i -> ~ signed_by i response
       | Some (request', response, k) => request' = request /\ answer = Some response /\
           exists i, knownR e (p_reg p) id i /\ DecodePublicKey (n_key i) = Ret (OkR k) /\
             fst (MessageVerify pub_of ec_verify blake response k) = true /\ (forall j, soleR e (p_reg p) id j -> j = i)
       end).
  Proof.
    assert (Same : forall q, p_with_reg q (p_reg q) = q) by (intros []; reflexivity).
    unfold ask. intros H. step H.
    { apply ret_inj in H. injection H as <- <- <-. exists (p_reg p). rewrite Same. split; [reflexivity|]. split; [apply reg_refl|auto]. }
    step H. step H. destruct v0 as [ok m]. pose proof (sign_with_inv _ _ _ _ _ _ _ E1) as W. cbn [fst snd] in H. step H.
    { apply ret_inj in H. injection H as <- <- <-. exists (p_reg p). rewrite Same. split; [reflexivity|]. split; [apply reg_refl|auto]. }
    step H.
    2:{ apply ret_inj in H. injection H as <- <- <-. exists (p_reg p). rewrite Same. split; [reflexivity|]. split; [apply reg_refl|].
        right. exists v, m, None. repeat (split; [auto|]). discriminate. }
    rename m0 into response. step H. destruct v0 as [i p1]. unfold PGetGateway in E4. step E4. destruct v0 as [i' r1]. apply ret_inj in E4. cbn [fst snd] in E4. injection E4 as <- <-.
    destruct (get_gateway_rel _ _ _ _ _ _ _ E5) as (R & L & D). exists r1.
    assert (U : forall j, soleR e (p_reg p) id j -> i' = Some j).
    { intros j (S1 & S2 & S3 & _). rewrite <- S3. apply D; auto. congruence. }
    destruct i' as [i|].
    2:{ apply ret_inj in H. injection H as <- <- <-. split; [reflexivity|]. split; [exact R|]. right. exists v, m, (Some response).
        repeat (split; [auto|]). intros resp j [= <-] S. apply U in S. discriminate. }
    step H. unfold GetSigningKey in E4. destruct v0 as [k|].
    2:{ apply ret_inj in H. injection H as <- <- <-. split; [reflexivity|]. split; [exact R|]. right. exists v, m, (Some response).
        repeat (split; [auto|]). intros resp j [= <-] S. apply U in S. injection S as <-. intros (k & K & _). congruence. }
    apply ret_inj in H. injection H as <- <- <-. split; [reflexivity|]. split; [exact R|]. right. exists v, m, (Some response).
    split; [reflexivity|]. split; [exact W|]. split; [reflexivity|].
    destruct (MessageVerify pub_of ec_verify blake response k) as [good m1] eqn:V. cbn [fst snd]. destruct good.
    - assert (m1 = response) by (eapply verify_same; eauto). subst m1. split; [reflexivity|]. split; [reflexivity|].
      exists i. split; [apply L; reflexivity|]. split; [exact E4|]. rewrite V. split; [reflexivity|].
      intros j S. apply U in S. congruence.
    - intros resp j [= <-] S. apply U in S. injection S as <-. intros (k' & K & Vk). rewrite E4 in K. apply ret_inj in K. injection K as <-.
      rewrite V in Vk. discriminate.
  Qed.

  Lemma decode_sig tag s m g : decode sha256 tag s (set_sig m g) = decode sha256 tag s m.
  Proof. destruct m. reflexivity. Qed.
  Lemma decode_tag tag s m : m_type m <> tag -> decode sha256 tag s m = Ret ErrR.
  Proof. intros N. unfold decode. destruct (m_type m =? tag) eqn:E; [lia|reflexivity]. Qed.

  (** The publication messages, as read. *)
  Lemma dht_message pid offers b request : id32 pid -> Forall (wire_offer sha256) offers -> Forall (fun o => length (o_cids o) = 1%nat) offers ->
    Z.of_nat (length offers) < 2 ^ 63 ->
    EncodeProviderPublishDHTOfferRequest version supported (Some pid) 1 (Some offers) = Ret b -> with_signature b request ->
    DecodeProviderPublishDHTOfferRequest sha256 request = Ret (OkR (Some pid, 1, Some offers)) /\ m_type request = 302.
  Proof.
    intros A B C D H (g & ->). destruct (rt_ProviderPublishDHTOfferRequest version supported sha256 pid 1 (Some offers)) as (m & E & F & G); auto.
    - unfold int64. lia.
    - unfold int64, slice_len. lia.
    - rewrite H in E. apply ret_inj in E. subst m. split; [exact G|]. destruct F as (F & _). destruct b. exact F.
  Qed.
  Lemma group_message pid o b request : id32 pid -> wire_offer sha256 o ->
    EncodeProviderPublishGroupOfferRequest version supported (Some pid) 1 (Some o) = Ret b -> with_signature b request ->
    DecodeProviderPublishGroupOfferRequest sha256 request = Ret (OkR (Some pid, 1, Some o)) /\ m_type request = 300.
  Proof.
    intros A B H (g & ->). destruct (rt_ProviderPublishGroupOfferRequest version supported sha256 pid 1 o) as (m & E & F & G); auto.
    - unfold int64. lia.
    - rewrite H in E. apply ret_inj in E. subst m. split; [exact G|]. destruct F as (F & _). destruct b. exact F.
  Qed.
  Lemma dht_not_group m o : carries_dht m o -> ~ carries_group m o.
  Proof.
    intros (pid & n & l & A & _) (pid' & n' & B). apply rbind_inv in A. destruct A as (v & A & _). apply rbind_inv in B. destruct B as (w & B & _).
    destruct (Z.eq_dec (m_type m) 302); [rewrite decode_tag in B|rewrite decode_tag in A]; try discriminate; unfold ProviderPublishGroupOfferRequestType, ProviderPublishDHTOfferRequestType in *; lia.
  Qed.

  Lemma record_rel id request response offers : id32 id ->
    forall p p', record_published p id request response offers = Ret p' ->
    (p_id p' = p_id p /\ p_key p' = p_key p /\ p_ver p' = p_ver p /\ p_heap p' = p_heap p /\ p_offers p' = p_offers p /\ p_groups p' = p_groups p /\ p_reg p' = p_reg p) /\
    (forall id' o, In o (published p' id') <-> In o (published p id') \/ ToString id' = ToString id /\ In o offers) /\
    (forall c id' a, kept_ack p' c id' = Some a -> kept_ack p c id' = Some a \/
       a = Acknowledgement request response /\ ToString id' = ToString id /\ exists o c0 r, In o offers /\ o_cids o = c0 :: r /\ ToString c = ToString c0) /\
    (forall c id', kept_ack p c id' <> None -> kept_ack p' c id' <> None) /\
    (forall o c r, In o offers -> o_cids o = c :: r -> kept_ack p' c id <> None).
  Proof.
    intros Iid. induction offers as [|o t IH]; intros p p' H; cbn [record_published] in H.
    - apply ret_inj in H. subst. split; [repeat split|]. split; [intros; split; [auto|intros [A|[_ []]]; exact A]|]. split; [auto|]. split; [auto|]. intros o c r [].
    - destruct (o_cids o) as [|c0 r0] eqn:C; [discriminate|]. apply IH in H. clear IH. cbn [p_with_acks p_with_published p_id p_key p_ver p_heap p_offers p_groups p_reg] in H.
      set (p1 := p_with_acks (p_with_published p (add_published (p_published p) id o)) (add_ack (p_acks (p_with_published p (add_published (p_published p) id o))) c0 id (Acknowledgement request response))) in *.
      destruct H as (S & P & K & M & N). split; [exact S|].
      assert (P1 : forall id', published p1 id' = if bytes_eqb (ToString id') (ToString id) then published p id ++ [o] else published p id').
      { intros id'. exact (published_add p (p_published p) id o id'). }
      assert (K1 : forall c id', kept_ack p1 c id' = if bytes_eqb (ToString c) (ToString c0) && bytes_eqb (ToString id') (ToString id) then Some (Acknowledgement request response) else kept_ack p c id').
      { intros c id'. exact (kept_add (p_with_published p (add_published (p_published p) id o)) (p_acks p) c0 id (Acknowledgement request response) c id'). }
      assert (Keep : forall c id', kept_ack p c id' <> None -> kept_ack p1 c id' <> None) by (intros c id'; rewrite K1; destruct (_ && _); [discriminate|auto]).
      split; [|split; [|split]].
      + intros id' o'. rewrite P, P1. destruct (bytes_eqb (ToString id') (ToString id)) eqn:E.
        * apply bytes_eqb_eq in E. unfold published at 2. rewrite E. fold (published p id). rewrite in_app_iff. cbn [In]. tauto.
        * assert (ToString id' <> ToString id) by (intros Q; rewrite (proj2 (bytes_eqb_eq _ _) Q) in E; discriminate). cbn [In]. tauto.
      + intros c id' a Ha. destruct (K _ _ _ Ha) as [Hb|(A & B & o' & c' & r' & X & Y & Z)].
        * rewrite K1 in Hb. destruct (bytes_eqb (ToString c) (ToString c0)) eqn:E1; cbn [andb] in Hb; [|auto].
          destruct (bytes_eqb (ToString id') (ToString id)) eqn:E2; [|auto]. injection Hb as <-. apply bytes_eqb_eq in E1, E2.
          right. split; [reflexivity|]. split; [exact E2|]. exists o, c0, r0. split; [left; reflexivity|auto].
        * right. split; [exact A|]. split; [exact B|]. exists o', c', r'. split; [right; exact X|auto].
      + intros c id' Hk. apply M, Keep, Hk.
      + intros o' c r [<-|X] Y; [|eapply N; eauto]. apply M. rewrite C in Y. injection Y as <- <-. rewrite K1, !beq_refl. discriminate.
  Qed.

  Definition one (o : offer) : Prop := length (o_cids o) = 1%nat.
  Lemma one_cid o c r : one o -> o_cids o = c :: r -> o_cids o = [c].
  Proof. unfold one. intros L E. rewrite E in *. destruct r; [reflexivity|discriminate]. Qed.
  Lemma wire_cids o c : wire_offer sha256 o -> In c (o_cids o) -> id32 c.
  Proof.
    intros (pid & ids & price & expiry & qos & o0 & A & B & C & D & F & N & ->) I. cbn [o_cids] in I.
    apply new_offer_shape in N. destruct N as (_ & t & _ & ->). cbn [o_cids] in I. rewrite Forall_forall in B. auto.
  Qed.

  Lemma publish_dht_rel e n p id offers p' out : id32 id -> (exists pid, p_id p = Some pid /\ id32 pid) ->
    Forall (wire_offer sha256) offers -> Forall one offers -> Z.of_nat (length offers) < 2 ^ 63 ->
    RequestPublishDHT version supported sha256 pub_of ec_sign ec_verify blake e n p id offers = Ret (p', out) -> pub_rel e out p p'.
  Proof.
    intros Iid (pid & Pid & Ipid) W C L H. unfold RequestPublishDHT in H. rewrite Pid in H. step H. destruct v as [[r p1] out1].
    destruct (ask_rel _ _ _ _ _ _ _ _ E) as (reg & -> & R & [[-> ->]|(b & request & answer & Eb & Wb & -> & Hr)]).
    { apply ret_inj in H. injection H as <- <-. apply pub_reg, R. }
    destruct (dht_message _ _ _ _ Ipid W C L Eb Wb) as [Dec Typ].
    assert (Not : forall o, ~ carries_group request o).
    { intros o (pid' & n' & B). apply rbind_inv in B. destruct B as (w & B & _). rewrite decode_tag in B; [discriminate|]. rewrite Typ. discriminate. }
    assert (Fail : (forall response i o, answer = Some response -> soleR e (p_reg p) id i -> ~ accepted i request response o) ->
      pub_rel e [(id, request, answer)] p (p_with_reg p reg)).
    { intros N. split; auto; [repeat split|]. intros id' r' a' i o [[= <- <- X]|[]] S A. exfalso. eapply N; eauto. }
    destruct r as [[[request' response] k]|].
    2:{ apply ret_inj in H. injection H as <- <-. apply Fail. intros response i o A S (X & _). eapply Hr; eauto. }
    destruct Hr as (-> & -> & i & Ki & Hk & V & U). step H.
    assert (Fail2 : (forall nonce sg, v = OkR (nonce, sg) -> fst (VerifyMessage pub_of ec_verify blake k sg (slice (m_body request))) <> OkR true) ->
      pub_rel e [(id, request, Some response)] p (p_with_reg p reg)).
    { intros N. apply Fail. intros resp j o [= <-] S (_ & [(_ & k' & nonce & sg & K & D & Vr)|(X & _)]); [|eapply Not; eauto].
      apply U in S. subst j. rewrite Hk in K. apply ret_inj in K. injection K as <-. rewrite E0 in D. apply ret_inj in D. subst v. eapply N; eauto. }
    destruct v as [[nonce sg]|]; [|apply ret_inj in H; injection H as <- <-; apply Fail2; discriminate].
    destruct (fst (VerifyMessage pub_of ec_verify blake k sg (slice (m_body request)))) as [[|]|] eqn:Vr;
      try (apply ret_inj in H; injection H as <- <-; apply Fail2; intros n0 s0 [= <- <-]; congruence).
    step H. rename v into p2. apply ret_inj in H. injection H as <- <-.
    assert (Sg : signed_by i response) by (exists k; auto).
    assert (Cs : countersigned i request response) by (exists k, nonce, sg; auto).
    assert (Ca : forall o, In o offers -> carries_dht request o) by (intros o I; exists (Some pid), 1, offers; auto).
    destruct (record_rel _ _ _ _ Iid _ _ E1) as ((S1 & S2 & S3 & S4 & S5 & S6 & S7) & P & K & M & N).
    cbn [p_with_reg p_id p_key p_ver p_heap p_offers p_groups p_reg] in *.
    rewrite Forall_forall in C, W. split.
    - repeat split; assumption.
    - rewrite S7. exact R.
    - intros id' o I Ho. apply P in Ho. destruct Ho as [Ho|[T Ho]]; [left; exact Ho|]. right. apply ToString_inj in T; auto. subst id'.
      exists request, response, i. split; [left; reflexivity|]. split; [exact Ki|]. split; [exact Sg|]. left. auto.
    - intros id' o Ho. apply P. left. exact Ho.
    - intros c id' a Ic I Ha. destruct (K _ _ _ Ha) as [Hb|(-> & T & o & c0 & r0 & X & Y & Z)]; [left; exact Hb|]. right.
      apply ToString_inj in T; auto. subst id'. assert (Ic0 : id32 c0) by (eapply wire_cids; [apply W; exact X|rewrite Y; left; reflexivity]).
      apply ToString_inj in Z; auto. subst c0. exists i, o. cbn [a_msg a_ack]. split; [left; reflexivity|]. split; [exact Ki|]. split; [exact Sg|]. split; [exact Cs|].
      split; [apply Ca, X|eapply one_cid; eauto]. 
    - intros c id' Hk'. apply M. exact Hk'.
    - intros id' r' a' j o [[= <- <- <-]|[]] S (_ & [((pid' & n' & l & D & X) & _)|(X & _)]); [|exfalso; eapply Not; eauto].
      rewrite Dec in D. apply ret_inj in D. injection D as <- <- <-. split; [apply P; auto|]. intros _ c Hc. eapply N; eauto.
  Qed.

  Lemma publish_group_rel e n p id o p' out : id32 id -> (exists pid, p_id p = Some pid /\ id32 pid) -> wire_offer sha256 o ->
    RequestPublishGroup version supported sha256 sha512_256 pub_of ec_sign ec_verify blake e n p id o = Ret (p', out) -> pub_rel e out p p'.
  Proof.
    intros Iid (pid & Pid & Ipid) W H. unfold RequestPublishGroup in H. rewrite Pid in H. step H. destruct v as [[r p1] out1].
    destruct (ask_rel _ _ _ _ _ _ _ _ E) as (reg & -> & R & [[-> ->]|(b & request & answer & Eb & Wb & -> & Hr)]).
    { apply ret_inj in H. injection H as <- <-. apply pub_reg, R. }
    destruct (group_message _ _ _ _ Ipid W Eb Wb) as [Dec Typ].
    assert (Not : forall o, ~ carries_dht request o).
    { intros o1 (pid' & n' & l & B & _). apply rbind_inv in B. destruct B as (w & B & _). rewrite decode_tag in B; [discriminate|]. rewrite Typ. discriminate. }
    assert (Fail : (forall response i o, answer = Some response -> soleR e (p_reg p) id i -> ~ accepted i request response o) ->
      pub_rel e [(id, request, answer)] p (p_with_reg p reg)).
    { intros N. split; auto; [repeat split|]. intros id' r' a' i o1 [[= <- <- X]|[]] S A. exfalso. eapply N; eauto. }
    destruct r as [[[request' response] k]|].
    2:{ apply ret_inj in H. injection H as <- <-. apply Fail. intros response i o1 A S (X & _). eapply Hr; eauto. }
    destruct Hr as (-> & -> & i & Ki & Hk & V & U). step H.
    assert (Fail2 : (forall gid cand, v = OkR (gid, cand) -> GetMessageDigest sha512_256 o <> Ret (DecodeMessageDigest cand)) ->
      pub_rel e [(id, request, Some response)] p (p_with_reg p reg)).
    { intros N. apply Fail. intros resp j o1 [= <-] S (_ & [(X & _)|((pid' & n' & D) & gid & cand & Dr & Dg)]); [eapply Not; eauto|].
      rewrite Dec in D. apply ret_inj in D. injection D as <- <- <-. rewrite E0 in Dr. apply ret_inj in Dr. subst v. eapply N; eauto. }
    destruct v as [[gid cand]|]; [|apply ret_inj in H; injection H as <- <-; apply Fail2; discriminate].
    step H. rename v into digest. destruct (bytes_eqb (DecodeMessageDigest cand) digest) eqn:Ed.
    2:{ apply ret_inj in H. injection H as <- <-. apply Fail2. intros g c [= <- <-] Q. apply ret_inj in Q. subst. rewrite beq_refl in Ed. discriminate. }
    apply bytes_eqb_eq in Ed. subst digest. apply ret_inj in H. injection H as <- <-.
    assert (Acc : accepted i request response o) by (split; [exists k; auto|]; right; split; [exists pid, 1; exact Dec|exists gid, cand; auto]).
    pose proof (published_add (p_with_reg p reg) (p_published p) id o) as P. fold (published p id) in P.
    assert (P' : forall id' o', In o' (published (p_with_published (p_with_reg p reg) (add_published (p_published (p_with_reg p reg)) id o)) id') <->
      In o' (published p id') \/ ToString id' = ToString id /\ o' = o).
    { intros id' o'. cbn [p_with_reg p_published]. cbn [p_with_reg] in P. rewrite P. destruct (bytes_eqb (ToString id') (ToString id)) eqn:Eq.
      - apply bytes_eqb_eq in Eq. unfold published at 2. rewrite Eq. fold (published p id). rewrite in_app_iff. cbn [In].
        split; [intros [A|[A|[]]]; auto|intros [A|[_ A]]; auto].
      - assert (ToString id' <> ToString id) by (intros Q; rewrite (proj2 (bytes_eqb_eq _ _) Q) in Eq; discriminate). fold (published p id'). tauto. }
    split.
    - repeat split.
    - exact R.
    - intros id' o' I Ho. apply P' in Ho. destruct Ho as [Ho|[T ->]]; [left; exact Ho|]. right. apply ToString_inj in T; auto. subst id'.
      exists request, response, i. split; [left; reflexivity|]. auto.
    - intros id' o' Ho. apply P'. left. exact Ho.
    - intros c id' a Ic I Ha. left. exact Ha.
    - intros c id' Hk'. exact Hk'.
    - intros id' r' a' j o' [[= <- <- <-]|[]] S (_ & [(X & _)|((pid' & n' & D) & _)]); [exfalso; eapply Not; eauto|].
      rewrite Dec in D. apply ret_inj in D. injection D as <- <- <-. split; [apply P'; auto|]. intros X. exfalso. eapply Not; eauto.
  Qed.

  (** ** The loops *)

  Definition has_id (p : provider) : Prop := exists pid, p_id p = Some pid /\ id32 pid.
  Lemma has_id_rel e out p p' : pub_rel e out p p' -> has_id p -> has_id p'.
  Proof. intros [(A & _) _ _ _ _ _ _] (pid & B & C). exists pid. split; [congruence|exact C]. Qed.

  Local Notation publish_to := (publish_to version supported sha256 pub_of ec_sign ec_verify blake).
  Local Notation publish_near := (publish_near version supported sha256 pub_of ec_sign ec_verify blake).
  Local Notation publish_group_to := (publish_group_to version supported sha256 sha512_256 pub_of ec_sign ec_verify blake).

  Lemma publish_to_rel e offers gws : Forall (wire_offer sha256) offers -> Forall one offers -> Z.of_nat (length offers) < 2 ^ 63 ->
    forall n p out code p' out' n', has_id p -> publish_to e n p offers gws out = Ret (code, p', out', n') ->
    exists new, out' = out ++ new /\ pub_rel e new p p'.
  Proof.
    intros W C L. induction gws as [|gw t IH]; intros n p out code p' out' n' I H; cbn [Provider.publish_to] in H.
    - apply ret_inj in H. injection H as <- <- <- <-. exists []. rewrite app_nil_r. split; [reflexivity|apply pub_refl].
    - destruct (NewNodeIDFromHexString (n_id gw)) as [id|] eqn:Eid.
      + step H. destruct v as [p1 o1]. cbn [fst snd] in H. apply publish_dht_rel in E; auto; [|eapply hex_id32; eauto].
        apply IH in H; [|eapply has_id_rel; eauto]. destruct H as (new & -> & R). exists (o1 ++ new). rewrite app_assoc. split; [reflexivity|eapply pub_trans; eauto].
      + apply ret_inj in H. injection H as <- <- <- <-. exists []. rewrite app_nil_r. split; [reflexivity|apply pub_refl].
  Qed.

  Lemma publish_near_rel e offers cids : Forall (wire_offer sha256) offers -> Forall one offers -> Z.of_nat (length offers) < 2 ^ 63 ->
    forall n p out code p' out', has_id p -> publish_near e n p offers cids out = Ret (code, p', out') ->
    exists new, out' = out ++ new /\ pub_rel e new p p'.
  Proof.
    intros W C L. induction cids as [|c t IH]; intros n p out code p' out' I H; cbn [Provider.publish_near] in H.
    - apply ret_inj in H. injection H as <- <- <-. exists []. rewrite app_nil_r. split; [reflexivity|apply pub_refl].
    - step H. destruct v as [near reg]. cbn [fst snd] in H. apply (near_rel e) in E. assert (R0 := pub_reg e p reg E).
      destruct near as [gws|].
      + step H. destruct v as [[[cd p1] o1] n1]. apply publish_to_rel in E0; auto. destruct E0 as (new & -> & R).
        assert (R1 := pub_trans _ _ _ _ _ _ R0 R). cbn [app] in R1. step H.
        * apply ret_inj in H. injection H as <- <- <-. exists new. auto.
        * apply IH in H; [|eapply has_id_rel; eauto]. destruct H as (new' & -> & R'). exists (new ++ new'). rewrite app_assoc. split; [reflexivity|eapply pub_trans; eauto].
      + apply ret_inj in H. injection H as <- <- <-. exists []. rewrite app_nil_r. auto.
  Qed.

  Lemma publish_group_to_rel e o gws : wire_offer sha256 o ->
    forall n p out code p' out', has_id p -> publish_group_to e n p o gws out = Ret (code, p', out') ->
    exists new, out' = out ++ new /\ pub_rel e new p p'.
  Proof.
    intros W. induction gws as [|gw t IH]; intros n p out code p' out' I H; cbn [Provider.publish_group_to] in H.
    - apply ret_inj in H. injection H as <- <- <-. exists []. rewrite app_nil_r. split; [reflexivity|apply pub_refl].
    - destruct (NewNodeIDFromHexString (n_id gw)) as [id|] eqn:Eid.
      + step H. destruct v as [p1 o1]. cbn [fst snd] in H. apply publish_group_rel in E; auto; [|eapply hex_id32; eauto].
        apply IH in H; [|eapply has_id_rel; eauto]. destruct H as (new & -> & R). exists (o1 ++ new). rewrite app_assoc. split; [reflexivity|eapply pub_trans; eauto].
      + apply ret_inj in H. injection H as <- <- <-. exists []. rewrite app_nil_r. split; [reflexivity|apply pub_refl].
  Qed.

  (** ** New offers *)

  Local Notation made_by := (made_by pub_of ec_verify blake).

  Lemma sign_made p key cids price expiry qos o o' : ecdsa_correct pub_of ec_sign ec_verify ->
    p_key p = Some key -> (forall b, p_id p = Some b -> id32 b) -> Forall id32 cids -> uint64 price -> int64 expiry -> uint64 qos ->
    NewCIDOffer sha256 (p_id p) cids price expiry qos = Ret (OkR o) -> OfferSign ec_sign blake o key (p_ver p) = Ret (true, o') ->
    made_by p cids price expiry qos o' /\ wire_offer sha256 o' /\ has_id p.
  Proof.
    intros Law K I Fc Up Ix Uq N S. destruct (p_id p) as [pid|] eqn:Pid.
    2:{ apply new_offer_shape in N. destruct N as (_ & t & _ & ->). discriminate S. }
    assert (V : forall pk, matches pub_of pk key -> OfferVerify pub_of ec_verify blake o' pk = Ret true).
    { intros pk M. apply (suboffer_spec sha256 pub_of ec_sign ec_verify blake _ _ _ _ _ _ _ _ _ _ Law Fc N S M). }
    pose proof N as N0. apply new_offer_shape in N. destruct N as (NE & t & T & ->).
    unfold OfferSign in S. unfold OfferToSign in S. cbn [o_provider deref obind] in S. destruct (SignMessage _ _ _ _ _) as [sg|]; [|discriminate].
    apply ret_inj in S. injection S as <-. cbn [o_provider o_cids o_price o_expiry o_qos o_root o_tree] in *.
    split; [|split].
    - exists pid, key. cbn [o_provider o_cids o_price o_expiry o_qos]. repeat (split; [auto|]). exact V.
    - exists pid, cids, price, expiry, qos, (Offer (Some pid) cids price expiry qos [] (GetMerkleRoot t) t). cbn [o_sig o_provider o_cids o_price o_expiry o_qos o_root o_tree].
      do 5 (split; [auto|]). split; [exact N0|reflexivity].
    - exists pid. auto.
  Qed.

  (** A list described by parallel lists. *)
  Inductive described (p : provider) : list bytes -> list Z -> list Z -> list Z -> list offer -> Prop :=
  | described_nil price expiry qos : described p [] price expiry qos []
  | described_cons c cids pr price ex expiry q qos o os : made_by p [c] pr ex q o -> described p cids price expiry qos os ->
      described p (c :: cids) (pr :: price) (ex :: expiry) (q :: qos) (o :: os).

  Lemma make_rel p key : ecdsa_correct pub_of ec_sign ec_verify -> p_key p = Some key -> (forall b, p_id p = Some b -> id32 b) ->
    forall cids price expiry qos os, Forall id32 cids -> Forall uint64 price -> Forall int64 expiry -> Forall uint64 qos ->
    length price = length cids -> length expiry = length cids -> length qos = length cids ->
    make_offers sha256 ec_sign blake p key cids price expiry qos = Ret (OkR os) ->
    described p cids price expiry qos os /\ Forall (wire_offer sha256) os /\ Forall one os /\ length os = length cids /\ (cids <> [] -> has_id p).
  Proof.
    intros Law K I. induction cids as [|c cids IH]; intros [|pr price] [|ex expiry] [|q qos] os Fc Fp Fe Fq Lp Le Lq H; try discriminate; cbn [make_offers] in H.
    - apply ret_inj in H. injection H as <-. split; [constructor|]. split; [constructor|]. split; [constructor|]. split; [reflexivity|congruence].
    - inversion Fc; subst. inversion Fp; subst. inversion Fe; subst. inversion Fq; subst. step H. destruct v as [o|]; [|discriminate].
      step H. destruct v as [ok o']. cbn [fst snd] in H. destruct ok; cbn [negb] in H; [|discriminate]. step H. destruct v as [os'|]; [|discriminate].
      apply ret_inj in H. injection H as <-. destruct (IH price expiry qos os') as (A & B & C & D & _); auto.
      destruct (sign_made p key [c] pr ex q o o' Law K I) as (M & W & P); auto.
      split; [constructor; auto|]. split; [constructor; auto|]. split; [constructor; auto|]. 
      + destruct M as (pid & k & _ & _ & _ & M & _). unfold one. rewrite M. reflexivity.
      + split; [cbn [length]; congruence|auto].
  Qed.

  Lemma admin_dht_decoded m cids price expiry qos : DecodeProviderAdminPublishDHTOfferRequest sha256 m = Ret (OkR (cids, price, expiry, qos)) ->
    Forall id32 cids /\ Forall uint64 (values price) /\ Forall int64 (values expiry) /\ Forall uint64 (values qos).
  Proof.
    intros H. apply rbind_inv in H. destruct H as ((f1 & f2 & f3 & f4 & []) & E & H). apply decode_ranged in E. step H. apply ret_inj in H.
    injection H as <- <- <- <-. split; [eapply ids_text_id32; eauto|]. destruct E as (_ & E2 & E3 & E4 & _). cbn [fst snd franged] in E2, E3, E4.
    split; [|split]; [specialize (E2 ltac:(lia)); destruct f2|specialize (E3 ltac:(lia)); destruct f3|specialize (E4 ltac:(lia)); destruct f4];
      cbn [values each] in *; try constructor; assumption.
  Qed.
  Lemma admin_group_decoded m cids price expiry qos : DecodeProviderAdminPublishGroupOfferRequest sha256 m = Ret (OkR (cids, price, expiry, qos)) ->
    Forall id32 cids /\ uint64 price /\ int64 expiry /\ uint64 qos.
  Proof.
    intros H. apply rbind_inv in H. destruct H as ((f1 & f2 & f3 & f4 & []) & E & H). apply decode_ranged in E. step H. apply ret_inj in H.
    injection H as <- <- <- <-. split; [eapply ids_text_id32; eauto|]. destruct E as (_ & E2 & E3 & E4 & _). cbn [fst snd franged] in E2, E3, E4.
    unfold uint64, int64. lia.
  Qed.

  (** ** Publishing *)

  Lemma publish_loop_heap now os : forall h m q h' m', (q < length h)%nat -> publish_loop sha512_256 now h m q os = Ret (h', m') ->
    length h' = length h /\ forall x, In x h' -> In x h \/ In x os.
  Proof.
    induction os as [|o t IH]; intros h m q h' m' L H; cbn [publish_loop] in H.
    - apply ret_inj in H. injection H as <- <-. auto.
    - step H. destruct v as [r m1]. cbn [fst snd] in H. apply IH in H; [|rewrite set_nth_length; exact L]. destruct H as [A B]. rewrite set_nth_length in A.
      split; [exact A|]. intros x X. destruct (B x X) as [Y|Y]; [|right; right; exact Y]. apply set_nth_in in Y. destruct Y as [->|Y]; [right; left; reflexivity|left; exact Y].
  Qed.
  Lemma publish_offers_heap now h m os h' m' : publish_offers sha512_256 now h m os = Ret (h', m') -> forall x, In x h' -> In x h \/ In x os.
  Proof.
    unfold publish_offers. destruct os as [|o t]; intros H x X; [apply ret_inj in H; injection H as <- <-; auto|].
    apply publish_loop_heap in H; [|rewrite app_length; cbn; lia]. destruct H as [_ H]. destruct (H x X) as [Y|Y]; [|auto].
    apply in_app_or in Y. destruct Y as [Y|[<-|[]]]; [auto|right; left; reflexivity].
  Qed.

  Definition safe_id (p : provider) : Prop := forall b, p_id p = Some b -> id32 b.
  Definition safe_heap (p : provider) : Prop := Forall (wire_offer sha256) (p_heap p).
  Definition sized1 (m : message) : Prop := forall cids price expiry qos,
    DecodeProviderAdminPublishDHTOfferRequest sha256 m = Ret (OkR (cids, price, expiry, qos)) -> Z.of_nat (length cids) < 2 ^ 63.

  Local Notation admin_dht := (HandleAdminPublishDHT version supported sha256 sha512_256 pub_of ec_sign ec_verify blake).
  Local Notation admin_group := (HandleAdminPublishGroup version supported sha256 sha512_256 pub_of ec_sign ec_verify blake).

  Lemma finish_quietly_inv p response out s : p_finish_quietly ec_sign blake p response out = Ret s -> p_after s = p /\ p_sent s = out /\
    (p_wrote s = [] \/ exists m, p_wrote s = [Json m] /\ with_signature response m).
  Proof.
    unfold p_finish_quietly. intros H. step H. destruct v as [ok m]. apply sign_with_inv in E. apply ret_inj in H. subst s. cbn [p_after p_sent p_wrote fst snd].
    split; [reflexivity|]. split; [reflexivity|]. destruct ok; eauto.
  Qed.
  Lemma p_finish_inv p response s : p_finish ec_sign blake p response = Ret s -> p_after s = p /\ p_sent s = [] /\
    (p_wrote s = [HttpError 500] \/ exists m, p_wrote s = [Json m] /\ with_signature response m).
  Proof.
    unfold p_finish, SignAndWrite. intros H. step H. step E. destruct v0 as [ok m]. apply sign_with_inv in E0. apply ret_inj in E, H. subst. cbn [p_after p_sent p_wrote fst snd].
    split; [reflexivity|]. split; [reflexivity|]. destruct ok; eauto.
  Qed.

  Lemma admin_dht_rel e p m s : ecdsa_correct pub_of ec_sign ec_verify -> safe_id p -> sized1 m -> admin_dht e p m = Ret s ->
    (p_after s = p /\ p_sent s = [] /\ exists code, p_wrote s = [HttpError code]) \/
    exists cids price expiry qos os h mm code,
      DecodeProviderAdminPublishDHTOfferRequest sha256 m = Ret (OkR (cids, price, expiry, qos)) /\ cids <> [] /\
      described p cids (values price) (values expiry) (values qos) os /\ Forall (wire_offer sha256) os /\ Forall one os /\ length os = length cids /\ has_id p /\
      publish_offers sha512_256 (pe_now e) (p_heap p) (p_offers p) os = Ret (h, mm) /\
      publish_near e 0 (p_with_store p h mm) os cids [] = Ret (code, p_after s, p_sent s) /\
      pub_rel e (p_sent s) (p_with_store p h mm) (p_after s) /\ (forall r, In (Json r) (p_wrote s) -> code = None).
  Proof.
    intros Law I Sz H. unfold HandleAdminPublishDHT in H.
    assert (Quit : forall code, p_quit p code = Ret s -> p_after s = p /\ p_sent s = [] /\ exists code, p_wrote s = [HttpError code]).
    { intros code Q. apply ret_inj in Q. subst s. cbn. eauto. }
    destruct (p_key p) as [key|] eqn:K; [|left; eapply Quit; eauto]. step H. destruct v as [[[[cids price] expiry] qos]|]; [|left; eapply Quit; eauto].
    step H; [left; eapply Quit; eauto|]. step H. destruct v as [os|]; [|left; eapply Quit; eauto]. step H. destruct v as [h mm]. cbn [fst snd] in H.
    step H. destruct v as [[code p1] out]. right. pose proof (admin_dht_decoded _ _ _ _ _ E) as (Fc & Fp & Fe & Fq).
    assert (cids <> []) by (destruct cids; [discriminate E0|discriminate]).
    destruct (make_rel p key Law K I cids _ _ _ os Fc Fp Fe Fq) as (D & W & O & L & P); auto; try lia. specialize (P ltac:(assumption)).
    assert (Lb : Z.of_nat (length os) < 2 ^ 63) by (rewrite L; eapply Sz; eauto).
    destruct (publish_near_rel _ _ _ W O Lb _ _ _ _ _ _ (P : has_id (p_with_store p h mm)) E3) as (new & N & R). cbn [app] in N. subst new.
    exists cids, price, expiry, qos, os, h, mm, code.
    assert (Q : p_after s = p1 /\ p_sent s = out /\ (forall r, In (Json r) (p_wrote s) -> code = None)).
    { destruct code; [apply ret_inj in H; subst s; split; [reflexivity|split; [reflexivity|intros r [X|[]]; discriminate]]|]. step H. apply finish_quietly_inv in H. tauto. }
    destruct Q as (-> & -> & Qc). do 9 (split; [first [assumption|reflexivity]|]). split; [exact R|exact Qc].
  Qed.

  Lemma admin_group_rel e p m s : ecdsa_correct pub_of ec_sign ec_verify -> safe_id p -> admin_group e p m = Ret s ->
    (p_after s = p /\ p_sent s = [] /\ exists code, p_wrote s = [HttpError code]) \/
    exists cids price expiry qos o mm reg gws code x,
      DecodeProviderAdminPublishGroupOfferRequest sha256 m = Ret (OkR (cids, price, expiry, qos)) /\
      made_by p cids price expiry qos o /\ wire_offer sha256 o /\ has_id p /\
      AddGroupOffer sha512_256 (pe_now e) (p_heap p ++ [o]) (p_offers p) (length (p_heap p)) = Ret (x, mm) /\
      GetAllGateways info (pe_nodes e) (p_reg p) = Ret (gws, reg) /\
      publish_group_to e 0 (p_with_reg (p_with_store p (p_heap p ++ [o]) mm) reg) o (match gws with Some l => l | None => [] end) [] = Ret (code, p_after s, p_sent s) /\
      pub_rel e (p_sent s) (p_with_store p (p_heap p ++ [o]) mm) (p_after s) /\ (forall r, In (Json r) (p_wrote s) -> code = None).
  Proof.
    intros Law I H. unfold HandleAdminPublishGroup in H.
    assert (Quit : forall code, p_quit p code = Ret s -> p_after s = p /\ p_sent s = [] /\ exists code, p_wrote s = [HttpError code]).
    { intros code Q. apply ret_inj in Q. subst s. cbn. eauto. }
    destruct (p_key p) as [key|] eqn:K; [|left; eapply Quit; eauto]. step H. destruct v as [[[[cids price] expiry] qos]|]; [|left; eapply Quit; eauto].
    step H. destruct v as [o0|]; [|left; eapply Quit; eauto]. step H. destruct v as [ok o]. cbn [fst snd] in H. destruct ok; cbn [negb] in H; [|left; eapply Quit; eauto].
    step H. destruct v as [x mm]. cbn [fst snd] in H. step H. destruct v as [gws reg]. cbn [fst snd] in H. step H. destruct v as [[code p1] out]. right.
    pose proof (admin_group_decoded _ _ _ _ _ E) as (Fc & Fp & Fe & Fq).
    destruct (sign_made p key cids price expiry qos o0 o Law K I Fc Fp Fe Fq E0 E1) as (M & W & P).
    assert (R0 : pub_rel e [] (p_with_store p (p_heap p ++ [o]) mm) (p_with_reg (p_with_store p (p_heap p ++ [o]) mm) reg)) by (apply pub_reg; eapply all_rel; exact E3).
    destruct (publish_group_to_rel _ _ _ W _ _ _ _ _ _ (P : has_id (p_with_reg (p_with_store p (p_heap p ++ [o]) mm) reg)) E4) as (new & N & R). cbn [app] in N. subst new.
    exists cids, price, expiry, qos, o, mm, reg, gws, code, x.
    assert (Q : p_after s = p1 /\ p_sent s = out /\ (forall r, In (Json r) (p_wrote s) -> code = None)).
    { destruct code; [apply ret_inj in H; subst s; split; [reflexivity|split; [reflexivity|intros r [X|[]]; discriminate]]|]. step H. apply finish_quietly_inv in H. tauto. }
    destruct Q as (-> & -> & Qc). do 7 (split; [first [assumption|reflexivity]|]). split; [exact (pub_trans _ _ _ _ _ _ R0 R)|exact Qc].
  Qed.

  (** ** Listing *)

  Lemma load_in h m : forall os, load_offers h m = Ret os -> forall o, In o os -> In o h.
  Proof.
    induction m as [|[d q] t IH]; cbn [load_offers]; intros os H o I; [apply ret_inj in H; subst; destruct I|].
    step H. step H. apply ret_inj in H. subst os. destruct I as [<-|I]; [|eapply IH; eauto].
    unfold cell in E. destruct (nth_error h q) eqn:N; [|discriminate]. apply ret_inj in E. subst. eapply nth_error_In; eauto.
  Qed.
  Lemma take_in max new : forall acc acc' full, take_offers max acc new = (acc', full) -> forall o, In o acc' -> In o acc \/ In o new.
  Proof.
    induction new as [|x t IH]; cbn [take_offers]; intros acc acc' full H o I; [injection H as <- <-; auto|].
    destruct (max <=? _).
    - injection H as <- <-. apply in_app_or in I. destruct I as [I|[<-|[]]]; [auto|right; left; reflexivity].
    - destruct (IH _ _ _ H o I) as [J|J]; [|right; right; exact J]. apply in_app_or in J. destruct J as [J|[<-|[]]]; [auto|right; left; reflexivity].
  Qed.
  Lemma collect_in order now h max es : forall s acc r f s', collect sha512_256 order now h max es s acc = Ret (r, f, s') ->
    forall o, In o r -> In o acc \/ In o h.
  Proof.
    induction es as [|x t IH]; cbn [collect]; intros s acc r f s' H o I; [apply ret_inj in H; injection H as <- <- <-; auto|].
    step H; [|apply ret_inj in H; injection H as <- <- <-; auto]. step H. destruct v as [os s1]. cbn [fst snd] in H. destruct (take_offers max acc os) as [acc1 full] eqn:T.
    assert (A : In o acc1 -> In o acc \/ In o h).
    { intros J. destruct (take_in _ _ _ _ _ T o J) as [K|K]; [auto|]. right. unfold store_get in E0. step E0.
      - step E0. step E0. apply ret_inj in E0. injection E0 as <- <-. apply filter_In in K. eapply load_in; [eassumption|apply K].
      - apply ret_inj in E0. injection E0 as <- <-. destruct K. }
    destruct full; [apply ret_inj in H; injection H as <- <- <-; auto|]. destruct (IH _ _ _ _ _ H o I) as [J|J]; auto.
  Qed.
  Lemma range_in order now h m lo hi max r f m' : GetDHTOffersWithinRange sha512_256 order now h m lo hi max = Ret (r, f, m') -> forall o, In o r -> In o h.
  Proof.
    unfold GetDHTOffersWithinRange. intros H o I. step H. destruct v as [[es|] rg]; [|apply ret_inj in H; injection H as <- <- <-; destruct I].
    step H. destruct v as [[r1 f1] s1]. apply ret_inj in H. injection H as <- <- <-. destruct (collect_in _ _ _ _ _ _ _ _ _ _ E0 o I) as [[]|J]. exact J.
  Qed.

  Local Notation batches := (batches version supported ec_sign blake).
  Local Notation list_dht := (HandleListDHT version supported sha256 sha512_256 pub_of ec_sign ec_verify blake).

  Definition versions : Prop := int32 version /\ Forall int32 supported.

  Lemma batches_wire p fuel : versions -> forall offers msgs, batches p fuel offers = Ret (Some msgs) -> Forall wire_message msgs.
  Proof.
    intros (V & Vs). induction fuel as [|fuel IH]; intros offers msgs H; [discriminate|]. cbn [Provider.batches] in H. step H. step H. destruct v0 as [ok m]. cbn [fst snd] in H.
    destruct ok; cbn [negb] in H; [|discriminate]. apply sign_with_inv in E0. destruct E0 as (g & ->).
    assert (W : wire_message (set_sig v g)).
    { unfold EncodeProviderPublishDHTOfferRequest, encode in E. step E. step E. apply ret_inj in E. subst v. unfold wire_message. split; [|split; [exact V|exact Vs]]. unfold int32. change (- 2 ^ 31 <= 302 <= 2 ^ 31 - 1). lia. }
    step H; [|apply ret_inj in H; injection H as <-; constructor; [exact W|constructor]].
    step H. destruct v0 as [r|]; [|discriminate]. apply ret_inj in H. injection H as <-. constructor; eauto.
  Qed.

  Definition ack_keys (m : list (gostring * list (gostring * acknowledgement))) (c id : bytes) : option acknowledgement :=
    match aget bytes_eqb m (ToString c) with Some x => aget bytes_eqb x (ToString id) | None => None end.

  Lemma record_listed_rel id a offers : forall m m', record_listed m id a offers = Ret m' ->
    (forall c id' x, ack_keys m' c id' = Some x -> ack_keys m c id' = Some x \/ x = a /\ ToString id' = ToString id /\
       exists o c0 r, In o offers /\ o_cids o = c0 :: r /\ ToString c = ToString c0) /\
    (forall c id', ack_keys m c id' <> None -> ack_keys m' c id' <> None) /\
    (forall o c r, In o offers -> o_cids o = c :: r -> ack_keys m' c id <> None).
  Proof.
    induction offers as [|o t IH]; intros m m' H; cbn [record_listed] in H.
    - apply ret_inj in H. subst. split; [auto|]. split; [auto|]. intros o c r [].
    - destruct (o_cids o) as [|c0 r0] eqn:C; [discriminate|]. destruct (aget bytes_eqb m (ToString c0)) as [inner|] eqn:G; [|discriminate]. cbn [deref obind] in H.
      apply IH in H. set (m1 := aset bytes_eqb m (ToString c0) (aset bytes_eqb inner (ToString id) a)) in *. destruct H as (A & B & D).
      assert (K : forall c id', ack_keys m1 c id' = if bytes_eqb (ToString c) (ToString c0) && bytes_eqb (ToString id') (ToString id) then Some a else ack_keys m c id').
      { intros c id'. unfold ack_keys, m1. rewrite aget_set. destruct (bytes_eqb (ToString c) (ToString c0)) eqn:E; [|reflexivity].
        apply bytes_eqb_eq in E. rewrite E, G, aget_set. destruct (bytes_eqb _ _); reflexivity. }
      assert (Keep : forall c id', ack_keys m c id' <> None -> ack_keys m1 c id' <> None) by (intros c id'; rewrite K; destruct (_ && _); [discriminate|auto]).
      split; [|split].
      + intros c id' x X. destruct (A _ _ _ X) as [Y|(-> & T & o' & c' & r' & I & Co & Tc)].
        * rewrite K in Y. destruct (bytes_eqb (ToString c) (ToString c0)) eqn:E1; cbn [andb] in Y; [|auto].
          destruct (bytes_eqb (ToString id') (ToString id)) eqn:E2; [|auto]. injection Y as <-. apply bytes_eqb_eq in E1, E2.
          right. split; [reflexivity|]. split; [exact E2|]. exists o, c0, r0. split; [left; reflexivity|auto].
        * right. split; [reflexivity|]. split; [exact T|]. exists o', c', r'. split; [right; exact I|auto].
      + auto.
      + intros o' c r [<-|I] Co; [|eapply D; eauto]. apply B. rewrite C in Co. injection Co as <- <-. rewrite K, !beq_refl. discriminate.
  Qed.

  Definition vouches (k : keypair) (msg ack : message) : Prop := exists nonce sg,
    DecodeProviderPublishDHTOfferResponse sha256 ack = Ret (OkR (nonce, sg)) /\
    fst (VerifyMessage pub_of ec_verify blake k sg (slice (m_body msg))) = OkR true.

  Local Notation record_acks := (record_acks sha256 pub_of ec_verify blake).

  Lemma record_acks_rel id k msgs : forall acks m m', record_acks m id k msgs acks = Ret m' ->
    (forall c id' x, ack_keys m' c id' = Some x -> ack_keys m c id' = Some x \/ ToString id' = ToString id /\ In (a_msg x, a_ack x) (combine msgs acks) /\
       vouches k (a_msg x) (a_ack x) /\ exists o c0 r, carries_dht (a_msg x) o /\ o_cids o = c0 :: r /\ ToString c = ToString c0) /\
    (forall c id', ack_keys m c id' <> None -> ack_keys m' c id' <> None) /\
    ((forall msg ack, In (msg, ack) (combine msgs acks) -> vouches k msg ack) ->
     forall msg ack o c, In (msg, ack) (combine msgs acks) -> carries_dht msg o -> In c (o_cids o) ->
       (forall msg', In msg' msgs -> exists pid nonce l, DecodeProviderPublishDHTOfferRequest sha256 msg' = Ret (OkR (pid, nonce, l))) ->
       o_cids o = [c] -> ack_keys m' c id <> None).
  Proof.
    induction msgs as [|msg msgs IH]; intros acks m m' H; cbn [Provider.record_acks] in H.
    - apply ret_inj in H. subst. split; [auto|]. split; [auto|]. intros _ msg ack o c [].
    - destruct acks as [|ack acks]. { apply ret_inj in H. subst. split; [auto|]. split; [auto|]. intros _ msg' ack o c []. }
      step H. destruct v as [[nonce sg]|].
      2:{ apply ret_inj in H. subst m'. split; [auto|]. split; [auto|]. intros V. destruct (V msg ack (or_introl eq_refl)) as (n & g & D & _). congruence. }
      assert (Bad : fst (VerifyMessage pub_of ec_verify blake k sg (slice (m_body msg))) <> OkR true ->
        ~ (forall msg0 ack0, In (msg0, ack0) (combine (msg :: msgs) (ack :: acks)) -> vouches k msg0 ack0)).
      { intros N V. destruct (V msg ack (or_introl eq_refl)) as (n & g & D & W). rewrite E in D. apply ret_inj in D. injection D as <- <-. congruence. }
      destruct (fst (VerifyMessage pub_of ec_verify blake k sg (slice (m_body msg)))) as [[|]|] eqn:Vr;
        try (apply ret_inj in H; subst m'; split; [auto|]; split; [auto|]; intros V; exfalso; apply Bad; [discriminate|exact V]).
      step H. destruct v as [[[pid n] sent]|].
      2:{ apply ret_inj in H. subst m'. split; [auto|]. split; [auto|]. intros _ m0 a0 o c _ _ _ Dc. destruct (Dc msg (or_introl eq_refl)) as (? & ? & ? & D). congruence. }
      step H. destruct (record_listed_rel _ _ _ _ _ E1) as (A1 & B1 & D1). destruct (IH _ _ _ H) as (A & B & D).
      split; [|split].
      + intros c id' x X. destruct (A _ _ _ X) as [Y|(T & I & V & Q)].
        * destruct (A1 _ _ _ Y) as [Z|(-> & T & o & c0 & r & I & Co & Tc)]; [auto|]. right. split; [exact T|]. cbn [a_msg a_ack]. split; [left; reflexivity|].
          split; [exists nonce, sg; auto|]. exists o, c0, r. split; [|auto]. destruct sent as [l|]; [exists pid, n, l; auto|destruct I].
        * right. split; [exact T|]. split; [right; exact I|]. auto.
      + auto.
      + intros V msg' ack' o c I Ca Ic Dc Co. destruct I as [[= <- <-]|I].
        * apply B. destruct Ca as (pid' & n' & l & Dl & Il). rewrite E0 in Dl. apply ret_inj in Dl. injection Dl as <- <- ->. eapply D1; eauto.
        * eapply D; eauto. intros m0 a0 I0. apply V. right. exact I0. intros m0 I0. apply Dc. right. exact I0.
  Qed.

  Lemma asked_by_rel e p id request k p' : asked_by pub_of ec_verify blake e p id request = Ret (k, p') ->
    exists reg, p' = p_with_reg p reg /\ (reg_rel e (p_reg p) reg) /\
    forall k', k = Some k' -> exists d i, id = Some d /\ knownR e (p_reg p) d i /\ DecodePublicKey (n_key i) = Ret (OkR k') /\
      fst (MessageVerify pub_of ec_verify blake request k') = true.
  Proof.
    unfold asked_by, PGetGateway. intros H. step H. step E. destruct v0 as [i reg]. apply ret_inj in E. subst v. cbn [fst snd] in H. destruct id as [d|].
    - destruct (get_gateway_rel _ _ _ _ _ _ _ E0) as (R & L & _). exists reg. destruct i as [i|]; [|apply ret_inj in H; injection H as <- <-; split; [reflexivity|]; split; [exact R|discriminate]].
      step H. unfold GetSigningKey in E. destruct v as [k0|]; [|apply ret_inj in H; injection H as <- <-; split; [reflexivity|]; split; [exact R|discriminate]].
      apply ret_inj in H. injection H as <- <-. split; [reflexivity|]. split; [exact R|]. intros k'. destruct (fst (MessageVerify _ _ _ _ _)) eqn:V; [|discriminate].
      intros [= <-]. exists d, i. split; [reflexivity|]. split; [apply L; reflexivity|]. auto.
    - unfold GetGateway in E0. step E0; [|discriminate]. apply ret_inj in E0. injection E0 as <- <-. discriminate H.
  Qed.

  Lemma sent_sound m id nonce l : DecodeProviderPublishDHTOfferRequest sha256 m = Ret (OkR (id, nonce, l)) -> each (sound_offer sha256) l.
  Proof.
    intros H. apply rbind_inv in H. destruct H as ((f1 & f2 & f3 & f4 & []) & E & H). apply decode_sound in E.
    step H; [discriminate|]. apply ret_inj in H. injection H as <- <- <-. cbn in E. tauto.
  Qed.
  Lemma list_request_decoded m id lo hi a b c d : DecodeGatewayListDHTOfferRequest sha256 m = Ret (OkR (id, lo, hi, a, b, c, d)) ->
    (forall x, id = Some x -> id32 x) /\ (forall x, lo = Some x -> id32 x) /\ (forall x, hi = Some x -> id32 x).
  Proof.
    intros H. apply rbind_inv in H. destruct H as ((f1 & f2 & f3 & f4 & f5 & f6 & f7 & []) & E & H). apply ret_inj in H. injection H as <- <- <- <- <- <- <-.
    split; [|split]; intros x; apply id_ptr_id32.
  Qed.

  Lemma list_dht_rel e acks p m p' r : versions -> list_dht e acks p m = Ret (p', r) ->
    exists reg h mm ackm, p' = Provider (p_id p) (p_key p) (p_ver p) reg h mm (p_published p) ackm (p_groups p) /\ h = p_heap p /\ reg_rel e (p_reg p) reg /\
    (forall c id x, id32 c -> id32 id -> ack_keys ackm c id = Some x -> ack_keys (p_acks p) c id = Some x \/
       exists resp a msgs l i o, r = Reply resp /\ acks resp = Some a /\ knownR e (p_reg p) id i /\ signed_by i a /\
         DecodeGatewayListDHTOfferAck sha256 a = Ret (OkR (Some l)) /\
         DecodeGatewayListDHTOfferResponse sha256 resp = Ret (OkR (Some msgs)) /\ length l = length msgs /\ In (a_msg x, a_ack x) (combine msgs l) /\
         countersigned i (a_msg x) (a_ack x) /\ carries_dht (a_msg x) o /\ o_cids o = [c]) /\
    (forall c id, ack_keys (p_acks p) c id <> None -> ack_keys ackm c id <> None).
  Proof.
    intros Vs H. unfold HandleListDHT in H.
    assert (Stay : forall reg mm, reg_rel e (p_reg p) reg -> p' = p_with_store (p_with_reg p reg) (p_heap p) mm ->
      exists reg h mm ackm, p' = Provider (p_id p) (p_key p) (p_ver p) reg h mm (p_published p) ackm (p_groups p) /\ h = p_heap p /\ reg_rel e (p_reg p) reg /\
      (forall c id x, id32 c -> id32 id -> ack_keys ackm c id = Some x -> ack_keys (p_acks p) c id = Some x \/
       exists resp a msgs l i o, r = Reply resp /\ acks resp = Some a /\ knownR e (p_reg p) id i /\ signed_by i a /\
         DecodeGatewayListDHTOfferAck sha256 a = Ret (OkR (Some l)) /\
         DecodeGatewayListDHTOfferResponse sha256 resp = Ret (OkR (Some msgs)) /\ length l = length msgs /\ In (a_msg x, a_ack x) (combine msgs l) /\
         countersigned i (a_msg x) (a_ack x) /\ carries_dht (a_msg x) o /\ o_cids o = [c]) /\
      (forall c id, ack_keys (p_acks p) c id <> None -> ack_keys ackm c id <> None)).
    { intros reg mm R ->. exists reg, (p_heap p), mm, (p_acks p). split; [reflexivity|]. split; [reflexivity|]. split; [exact R|]. split; auto. }
    assert (Self : forall reg, p_with_store (p_with_reg p reg) (p_heap p) (p_offers p) = p_with_reg p reg) by reflexivity.
    step H. destruct v as [[[[[[[gid lo] hi] x1] x2] x3] x4]|].
    2:{ apply ret_inj in H. injection H as <- <-. apply (Stay (p_reg p) (p_offers p)); [apply reg_refl|destruct p; reflexivity]. }
    step H. destruct v as [k p1]. destruct (asked_by_rel _ _ _ _ _ _ E0) as (reg & -> & R & K). destruct (list_request_decoded _ _ _ _ _ _ _ _ E) as (Id & _ & _).
    destruct k as [k|]; [|apply ret_inj in H; injection H as <- <-; apply (Stay reg (p_offers p)); auto].
    destruct (K k eq_refl) as (d & i & -> & Ki & Hk & Vr). cbn [deref obind] in H. step H. step H. step H. destruct v1 as [[offers found] mm].
    cbn [p_with_reg p_heap p_offers] in E3. step H; [discriminate|]. clear E4. step H. destruct v1 as [msgs|].
    2:{ apply ret_inj in H. injection H as <- <-. apply (Stay reg mm); auto. }
    step H. step H. destruct v2 as [ok resp]. cbn [fst snd] in H. destruct ok; cbn [negb] in H; [|apply ret_inj in H; injection H as <- <-; apply (Stay reg mm); auto].
    apply sign_with_inv in E6. destruct E6 as (g & ->).
    assert (Wm : Forall wire_message msgs).
    { destruct found; [eapply batches_wire; eauto|]. apply ret_inj in E4. injection E4 as <-. constructor. }
    destruct (rt_GatewayListDHTOfferResponse version supported sha256 (Some msgs) Wm) as (m0 & M0 & _ & Dm). rewrite E5 in M0. apply ret_inj in M0. subst m0.
    destruct (acks (set_sig v1 g)) as [a|] eqn:Ea; [|apply ret_inj in H; injection H as <- <-; apply (Stay reg mm); auto].
    destruct (MessageVerify pub_of ec_verify blake a k) as [good a'] eqn:Va. cbn [fst snd] in H. destruct good; cbn [negb] in H; [|apply ret_inj in H; injection H as <- <-; apply (Stay reg mm); auto].
    assert (a' = a) by (eapply verify_same; eauto). subst a'. step H.
    step H; [apply ret_inj in H; injection H as <- <-; apply (Stay reg mm); auto|]. step H. rename v3 into am. apply ret_inj in H. injection H as <- <-.
    destruct (record_acks_rel _ _ _ _ _ _ E8) as (A & B & _). cbn [p_with_store p_with_reg p_acks] in A, B.
    exists reg, (p_heap p), mm, am. split; [reflexivity|]. split; [reflexivity|]. split; [exact R|]. split; [|exact B].
    intros c id x Ic I X. destruct (A _ _ _ X) as [Y|(T & Ix & (nonce & sg & Dn & Vn) & o & c0 & rr & Ca & Co & Tc)]; [auto|]. right.
    apply ToString_inj in T; [|exact I|apply Id; reflexivity]. subst id.
    destruct Ca as (pid & n & l & Dl & Il). pose proof (sent_sound _ _ _ _ Dl) as So. cbn [each] in So. rewrite Forall_forall in So. destruct (So o Il) as [_ So'].
    assert (One : o_cids o = [c0]).
    { apply rbind_inv in Dl. destruct Dl as ((f1 & f2 & f3 & f4 & []) & _ & Dl). step Dl; [discriminate|]. apply ret_inj in Dl. injection Dl as _ _ ->.
      apply negb_false_iff in E9. rewrite forallb_forall in E9. specialize (E9 o Il). apply Nat.eqb_eq in E9. rewrite Co in *. destruct rr; [reflexivity|discriminate]. }
    assert (c = c0). { apply ToString_inj; auto. rewrite Co in So'. inversion So'; assumption. } subst c0.
    destruct v2 as [[l0|]|]; try (destruct msgs; [destruct Ix|discriminate E7]).
    exists (set_sig v1 g), a, msgs, l0, i, o. split; [reflexivity|]. split; [exact Ea|]. split; [exact Ki|]. split; [exists k; split; [exact Hk|rewrite Va; reflexivity]|].
    split; [exact E6|]. split; [exact Dm|]. split; [lia|]. split; [exact Ix|]. split; [exists k, nonce, sg; auto|]. split; [exists pid, n, l; auto|exact One].
  Qed.
End prov.
