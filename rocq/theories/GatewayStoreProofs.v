(** * Proofs about what a gateway stores and serves over its life *)
From Coq Require Import List ZArith Bool Lia ZifyBool ZifyNat.
From Coq Require Import Init.Byte.
From Verif Require Import Base Ids Json Merkle MerkleProofs MerkleWireProofs Crypto Message Offer OfferProofs Schema SchemaProofs Messages WireSpec Payment PaymentSpec Register
  OfferStoreSpec SqlOffers SqlOffersSpec SqlOffersProofs Rest Gateway GatewaySpec GatewayProofs.
Import ListNotations.
Open Scope Z_scope.
Open Scope go_scope.

(** ** Decoded offers *)

Definition sound_offer (sha : bytes -> bytes) (o : offer) : Prop := (o_provider o <> None -> wire_offer sha o) /\ Forall id32 (o_cids o).
Definition fsound (sha : bytes -> bytes) (t : ftype) : fval t -> Prop :=
  match t return fval t -> Prop with TOffer => sound_offer sha | TOffers => each (sound_offer sha) | _ => fun _ => True end.
Fixpoint sound (sha : bytes -> bytes) (s : schema) : vals s -> Prop :=
  match s with [] => fun _ => True | (_, t) :: r => fun v => fsound sha t (fst v) /\ sound sha r (snd v) end.

Lemma map_ids l : forall ids, MapStringToID l = Ret ids -> Forall id32 ids.
Proof.
  induction l as [|x l IH]; intros ids H; cbn in H; [apply ret_inj in H; subst; constructor|].
  step H; [|discriminate]. step H. apply ret_inj in H. subst. constructor; [eapply hex_id32; eauto|auto].
Qed.

Lemma unmarshal_offer_sound sha p o : UnmarshalOffer sha p = Ret (OkR o) -> sound_offer sha o.
Proof.
  unfold UnmarshalOffer, unmarshal, sound_offer. intros H.
  assert (K : forall prov cids price expiry qos sig, uint64 price -> int64 expiry -> uint64 qos ->
    (let* ids := MapStringToID cids in let* t := CreateMerkleTree sha ids in
     match t with ErrR => Ret ErrR | OkR t => Ret (OkR (Offer (id_ptr prov) ids price expiry qos sig (GetMerkleRoot t) t)) end) = Ret (OkR o) ->
    (o_provider o <> None -> wire_offer sha o) /\ Forall id32 (o_cids o)).
  { clear H. intros prov cids price expiry qos sig Hp He Hq H. step H. step H. step H; [|discriminate]. apply ret_inj in H. injection H as <-.
    cbn [o_provider o_cids]. split; [intros Np|eapply map_ids; eauto]. destruct (id_ptr prov) as [i|] eqn:Ei; [|congruence].
    exists i, v, price, expiry, qos, (Offer (Some i) v price expiry qos [] (GetMerkleRoot a) a).
    split; [eapply id_ptr_id32; eauto|]. split; [eapply map_ids; eauto|]. repeat (split; [assumption|]). split; [|reflexivity].
    unfold NewCIDOffer. destruct v as [|c v]; [discriminate E0|]. rewrite E0. reflexivity. }
  destruct (json_parse p) as [j|]; [|discriminate].
  assert (G : forall r, offer_fields j = Some r -> match r with (prov, cids, price, expiry, qos, sig) => uint64 price /\ int64 expiry /\ uint64 qos end).
  { intros r E. destruct j; try discriminate. unfold offer_fields in E.
    repeat match type of E with match ?x with _ => _ end = _ => let F := fresh "F" in destruct x eqn:F; [|discriminate] end.
    injection E as <-. unfold dec_u64, dec_i64 in *. apply int_range in F1, F2, F3; unfold uint64, int64; lia. }
  assert (H' : match offer_fields j with Some (prov, cids, price, expiry, qos, sig) =>
     (let* ids := MapStringToID cids in let* t := CreateMerkleTree sha ids in
     match t with ErrR => Ret ErrR | OkR t => Ret (OkR (Offer (id_ptr prov) ids price expiry qos sig (GetMerkleRoot t) t)) end) = Ret (OkR o) | None => j = JNull end).
  { destruct (offer_fields j) as [[[[[[a b] c] d] e] f]|] eqn:E; [|destruct j; auto; discriminate]. destruct j; try discriminate; exact H. }
  destruct (offer_fields j) as [[[[[[a b] c] d] e] f]|] eqn:E.
  - destruct (G _ eq_refl) as (A & B & C). exact (K a b c d e f A B C H').
  - subst j. exfalso. cbn in H. discriminate.
Qed.

Lemma customO_inv {A} (P : A -> Prop) (dec : json -> outcome (result A)) zero name f x :
  P zero -> (forall j a, dec j = Ret (OkR a) -> P a) -> jcustomO dec zero name f = Ret (Some x) -> P x.
Proof.
  intros Z D. unfold jcustomO.
  assert (G : forall f acc, (forall a, acc = Ret (Some a) -> P a) -> forall x, fold_left (fun acc kv =>
    let* a := acc in if fold_eq (fst kv) name then let* r := dec (snd kv) in
      Ret (match a, r with Some _, OkR x => Some x | _, _ => None end) else Ret a) f acc = Ret (Some x) -> P x).
  { clear x f. induction f as [|kv t IH]; intros acc Ha x; cbn [fold_left]; [apply Ha|]. apply IH. intros a H.
    step H. step H; [|apply ret_inj in H; subst; apply Ha; reflexivity]. step H. apply ret_inj in H. destruct v as [y|]; [|discriminate].
    destruct v0; [|discriminate]. injection H as <-. eapply D; eauto. }
  apply G. intros a H. apply ret_inj in H. injection H as <-. exact Z.
Qed.
Lemma all_ok_inv {A} (P : A -> Prop) (dec : json -> outcome (result A)) :
  (forall j a, dec j = Ret (OkR a) -> P a) -> forall l rs x, mapO dec l = Ret rs -> all_ok rs = Some x -> Forall P x.
Proof.
  intros D. induction l as [|j l IH]; intros rs x H K; cbn in H.
  - apply ret_inj in H. subst. injection K as <-. constructor.
  - step H. step H. apply ret_inj in H. subst. cbn in K. destruct v; [|discriminate]. destruct (all_ok v0) eqn:E'; [|discriminate].
    injection K as <-. constructor; eauto.
Qed.
Lemma sliceO_inv {A} (P : A -> Prop) (dec : json -> outcome (result A)) name f x :
  (forall j a, dec j = Ret (OkR a) -> P a) -> jsliceO dec name f = Ret (Some x) -> each P x.
Proof.
  intros D. unfold jsliceO.
  assert (G : forall f acc, (forall a, acc = Ret (Some a) -> each P a) -> forall x, fold_left (fun acc kv =>
    let* a := acc in if fold_eq (fst kv) name then
      match snd kv with
      | JNull => Ret (match a with Some _ => Some None | None => None end)
      | JArr l => let* rs := mapO dec l in Ret (match a, all_ok rs with Some _, Some x => Some (Some x) | _, _ => None end)
      | _ => Ret None end else Ret a) f acc = Ret (Some x) -> each P x).
  { clear x f. induction f as [|kv t IH]; intros acc Ha x; cbn [fold_left]; [apply Ha|]. apply IH. intros a H.
    step H. step H; [|apply ret_inj in H; subst; apply Ha; reflexivity]. destruct (snd kv); try discriminate.
    - apply ret_inj in H. destruct v; [|discriminate]. injection H as <-. exact I.
    - step H. apply ret_inj in H. destruct v; [|discriminate]. destruct (all_ok v0) eqn:E'; [|discriminate]. injection H as <-. cbn. eapply all_ok_inv; eauto. }
  apply G. intros a H. apply ret_inj in H. injection H as <-. exact I.
Qed.

Lemma zero_sound sha : sound_offer sha zero_offer.
Proof. split; [intros H; cbn in H; congruence|constructor]. Qed.
Lemma fdec_sound sha t name f x : fdec sha t name f = Ret (Some x) -> fsound sha t x.
Proof.
  destruct t; cbn [fsound]; auto; cbn [fdec]; intros H.
  - eapply (customO_inv (sound_offer sha)); [apply zero_sound| |exact H]. intros j a. apply unmarshal_offer_sound.
  - eapply (sliceO_inv (sound_offer sha)); [|exact H]. intros j a. apply unmarshal_offer_sound.
Qed.
Lemma dec_sound sha s f v : dec_fields sha s f = Ret (Some v) -> sound sha s v.
Proof.
  revert v. induction s as [|(k, t) r IH]; intros v H; cbn in *; [exact I|].
  destruct (fdec sha t k f) as [a| |] eqn:Ea; try discriminate. cbn [obind] in H.
  destruct (dec_fields sha r f) as [b| |] eqn:Eb; try discriminate. cbn [obind] in H. apply ret_inj in H.
  destruct a as [x|]; [|discriminate]. destruct b as [y|]; [|discriminate]. injection H as <-. cbn.
  split; [eapply fdec_sound; eauto|auto].
Qed.
Lemma zeros_sound sha s : sound sha s (zeros s).
Proof. induction s as [|(k, t) r IH]; cbn; auto. split; [destruct t; cbn; auto; apply zero_sound|exact IH]. Qed.
Lemma decode_sound sha tag s m v : decode sha tag s m = Ret (OkR v) -> sound sha s v.
Proof.
  unfold decode, unmarshal_body. destruct (negb _); [discriminate|]. destruct (json_parse _) as [[| | | | | |fs]|]; try discriminate.
  - intros H. apply ret_inj in H. injection H as <-. apply zeros_sound.
  - destruct (dec_fields sha s fs) as [[x|]| |] eqn:E; cbn [obind]; try discriminate.
    intros H. apply ret_inj in H. injection H as <-. eapply dec_sound; eauto.
Qed.

Section gw.
  Variable version : Z.
  Variable supported : list Z.
  Variable sha256 sha512_256 : bytes -> bytes.
  Variable pub_of : bytes -> bytes.
  Variable ec_sign : bytes -> bytes -> option bytes.
  Variable ec_verify : bytes -> bytes -> bytes -> bool.
  Variable blake : bytes -> bytes.
  Variable verify : gostring -> voucher -> option bytes -> bool.
  Variable voucher_text : voucher -> gostring.
  Variable voucher_of : gostring -> option voucher.
  Variable is_address : gostring -> bool.
  Variable zone : Z.

  Local Notation act := (act version supported sha256 sha512_256 pub_of ec_sign ec_verify blake verify voucher_text voucher_of is_address zone).
  Local Notation live_through := (live_through version supported sha256 sha512_256 pub_of ec_sign ec_verify blake verify voucher_text voucher_of is_address zone).
  Local Notation deadline := (deadline sha256).
  Local Notation publishes := (publishes sha256).
  Local Notation vetted := (vetted sha256 pub_of ec_verify blake).
  Local Notation checks := (checks sha256 pub_of ec_verify blake).
  Local Notation signed_by := (signed_by pub_of ec_verify blake).
  Local Notation offer_signed_by := (offer_signed_by pub_of ec_verify blake).

  Lemma group_sound m id nonce o : DecodeProviderPublishGroupOfferRequest sha256 m = Ret (OkR (id, nonce, o)) ->
    exists x, o = Some x /\ sound_offer sha256 x.
  Proof.
    intros H. apply rbind_inv in H. destruct H as ((f1 & f2 & f3 & []) & E & H). apply decode_sound in E. apply ret_inj in H. injection H as <- <- <-.
    cbn in E. exists f3. tauto.
  Qed.
  Lemma dht_sound m id nonce l : DecodeProviderPublishDHTOfferRequest sha256 m = Ret (OkR (id, nonce, l)) -> each (sound_offer sha256) l.
  Proof.
    intros H. apply rbind_inv in H. destruct H as ((f1 & f2 & f3 & f4 & []) & E & H). apply decode_sound in E.
    step H; [discriminate|]. apply ret_inj in H. injection H as <- <- <-. cbn in E. tauto.
  Qed.

  Lemma verified_provider o k b : OfferVerify pub_of ec_verify blake o k = Ret b -> o_provider o <> None.
  Proof. unfold OfferVerify, OfferToSign. destruct (o_provider o); [discriminate|]. cbn. discriminate. Qed.

  Lemma from_provider_inv g id request k g' : from_provider pub_of ec_verify blake g id request = Ret (k, g') ->
    settings g' = settings g /\ g_db g' = g_db g /\ g_pay g' = g_pay g /\
    (forall p, k = Some p -> exists d i, id = Some d /\ aget bytes_eqb (providersMap info (g_reg g)) (ToString d) = Some i /\
      DecodePublicKey (n_key i) = Ret (OkR p) /\ fst (MessageVerify pub_of ec_verify blake request p) = true).
  Proof.
    unfold from_provider. intros H. step H. destruct v as [i g1]. destruct (get_provider_inv _ _ _ _ E) as (A & B & C).
    step H; [|step H; apply ret_inj in H; injection H as <- <-; repeat split; auto; discriminate].
    assert (L : exists d, id = Some d /\ aget bytes_eqb (providersMap info (g_reg g)) (ToString d) = i).
    { clear H. unfold CoreGetProvider, GetProvider in E. step E. apply ret_inj in E. injection E as E _. subst i.
      step E1; [apply ret_inj in E1; subst v; discriminate|]. destruct id as [d|]; [|discriminate]. cbn [deref obind] in E1.
      exists d. split; [reflexivity|]. destruct (aget _ _ _).
      - step E1. apply ret_inj in E1. subst v. exact E.
      - step E1. apply ret_inj in E1. subst v. discriminate. }
    step H. step H; [|step H; apply ret_inj in H; injection H as <- <-; repeat split; auto; discriminate].
    apply ret_inj in H. injection H as <- <-. repeat split; auto. destruct (fst (MessageVerify _ _ _ _ _)) eqn:V; [|discriminate].
    intros p [= <-]. destruct L as (d & -> & L). exists d, i0. subst. auto.
  Qed.

  (** One attempt, or none if it is too large for the database. *)
  Lemma add_offer_db e n g o r g' : CoreAddOffer sha512_256 e n g o = Ret (r, g') ->
    settings g' = settings g /\ g_reg g' = g_reg g /\ g_pay g' = g_pay g /\
    exists att, db_after sha512_256 (g_db g) att = Ret (g_db g') /\
      (att = [(o, e_fates e n)] /\ bindable o = true \/ att = [] /\ r <> Some (OkR tt)).
  Proof.
    unfold CoreAddOffer. intros H. step H. apply ret_inj in H. injection H as <- <-. cbn [settings with_db g_reg g_pay g_db]. repeat split.
    destruct (bindable o) eqn:B.
    - exists [(o, e_fates e n)]. cbn [db_after]. rewrite E. cbn [obind]. auto.
    - exists []. cbn [db_after]. unfold insertOffer in E. step E. step E. rewrite B in E. cbn [negb] in E.
      destruct (e_fates e n O); apply ret_inj in E; subst v; cbn; split; auto; right; split; auto; discriminate.
  Qed.

  Lemma db_after_app d a b : db_after sha512_256 d (a ++ b) = obind (db_after sha512_256 d a) (fun d' => db_after sha512_256 d' b).
  Proof.
    revert d. induction a as [|(o, f) a IH]; intros d; cbn [app db_after obind]; [reflexivity|].
    destruct (insertOffer sha512_256 f d o); cbn [obind]; auto.
  Qed.

  (** Attempts over offers for which [P] holds. *)
  Definition grows (P : offer -> Prop) (e : env) (g g' : gateway) (att : attempts) : Prop :=
    db_after sha512_256 (g_db g) att = Ret (g_db g') /\
    forall o f, In (o, f) att -> P o /\ bindable o = true /\ exists n, f = e_fates e n.

  Lemma store_all_inv e k : forall l n g r g', store_all sha512_256 pub_of ec_verify blake e n g k l = Ret (r, g') ->
    settings g' = settings g /\ g_reg g' = g_reg g /\ g_pay g' = g_pay g /\
    exists att, grows (fun o => In o l /\ OfferVerify pub_of ec_verify blake o k = Ret true) e g g' att /\
      (r = Some true -> map fst att = l).
  Proof.
    induction l as [|o l IH]; intros n g r g' H; cbn [store_all] in H.
    - apply ret_inj in H. injection H as <- <-. repeat split. exists []. split; [split; [reflexivity|intros ? ? []]|reflexivity].
    - step H. step H.
      { apply ret_inj in H. injection H as <- <-. repeat split. exists []. split; [split; [reflexivity|intros ? ? []]|discriminate]. }
      step H. destruct v0 as [r1 g1]. destruct (add_offer_db _ _ _ _ _ _ E1) as (A & B & C & att & D & K).
      destruct v; [|discriminate].
      assert (G : grows (fun x => In x (o :: l) /\ OfferVerify pub_of ec_verify blake x k = Ret true) e g g1 att).
      { split; [exact D|]. intros x f I0. destruct K as [[-> Bi]|[-> _]]; [|destruct I0]. destruct I0 as [[= <- <-]|[]]. cbn. eauto 6. }
      step H; [|apply ret_inj in H; injection H as <- <-; repeat split; auto; exists att; split; [exact G|discriminate]].
      step H; [|apply ret_inj in H; injection H as <- <-; repeat split; auto; exists att; split; [exact G|discriminate]].
      destruct (IH _ _ _ _ H) as (A' & B' & C' & att' & (D' & G') & K'). clear IH H. repeat split; try congruence.
      exists (att ++ att'). split.
      + split; [rewrite db_after_app, D; exact D'|]. intros x f I0. apply in_app_or in I0 as [I0|I0]; [apply G; exact I0|].
        destruct (G' _ _ I0) as ((I1 & V) & R). cbn. auto.
      + intros ->. rewrite map_app, (K' eq_refl). destruct K as [[-> _]|[_ K]]; [reflexivity|]. destruct a, K. reflexivity.
  Qed.

  Lemma publish_group_inv e g m g' r :
    HandlePublishGroup version supported sha256 sha512_256 pub_of ec_sign ec_verify blake e g m = Ret (g', r) ->
    settings g' = settings g /\ g_pay g' = g_pay g /\
    exists att, grows (fun o => wire_offer sha256 o /\ exists i, vetted (g_reg g) PublishGroup m o i) e g g' att /\
      (forall a, r = Reply a -> exists o id dg b, att = [(o, e_fates e 0)] /\ g_id g = Some id /\
        GetMessageDigest sha512_256 o = Ret dg /\ with_signature b a /\
        EncodeProviderPublishGroupOfferResponse version supported id (EncodeMessageDigest dg) = Ret b).
  Proof.
    unfold HandlePublishGroup. intros H.
    assert (N0 : forall g1, settings g1 = settings g -> g_db g1 = g_db g -> g_pay g1 = g_pay g ->
      settings g1 = settings g /\ g_pay g1 = g_pay g /\
      exists att, grows (fun o => wire_offer sha256 o /\ exists i, vetted (g_reg g) PublishGroup m o i) e g g1 att /\
      (forall a, Invalid = Reply a -> exists o id dg b, att = [(o, e_fates e 0)] /\ g_id g = Some id /\
        GetMessageDigest sha512_256 o = Ret dg /\ with_signature b a /\
        EncodeProviderPublishGroupOfferResponse version supported id (EncodeMessageDigest dg) = Ret b)).
    { intros g1 A B C. repeat split; auto. exists []. split; [split; [cbn; congruence|intros ? ? []]|discriminate]. }
    step H. step H; [|apply ret_inj in H; injection H as <- <-; auto]. destruct a as [[id nonce] o]. subst v.
    step H. destruct v as [k g1]. destruct (from_provider_inv _ _ _ _ _ E0) as (A & B & C & K).
    step H; [|apply ret_inj in H; injection H as <- <-; auto]. rename k0 into p. destruct (K _ eq_refl) as (d & i & Eid & L & Dk & V).
    destruct (group_sound _ _ _ _ E) as (x & Eo & Sx). subst o. cbn [deref obind] in H.
    step H. step H; [apply ret_inj in H; injection H as <- <-; auto|]. destruct v; [|discriminate].
    assert (Vx : wire_offer sha256 x /\ exists i, vetted (g_reg g) PublishGroup m x i).
    { split; [apply Sx; eapply verified_provider; eauto|]. exists i, d. subst id. split; [exists nonce; exact E|]. split; [exact L|].
      split; exists p; auto. }
    step H. destruct v as [r1 g2]. destruct (add_offer_db _ _ _ _ _ _ E4) as (A2 & B2 & C2 & att & D2 & K2).
    assert (G : grows (fun o => wire_offer sha256 o /\ exists i, vetted (g_reg g) PublishGroup m o i) e g g2 att).
    { split; [rewrite <- B; exact D2|]. intros y f I0. destruct K2 as [[-> Bi]|[-> _]]; [|destruct I0]. destruct I0 as [[= <- <-]|[]]. eauto 6. }
    step H; [|apply ret_inj in H; injection H as <- <-; repeat split; try congruence; exists att; split; [exact G|discriminate]].
    step H; [|apply ret_inj in H; injection H as <- <-; repeat split; try congruence; exists att; split; [exact G|discriminate]].
    step H. step H. step H. destruct (finish_p2p_inv _ _ _ _ _ _ H) as (-> & R). repeat split; try congruence.
    exists att. split; [exact G|]. intros z ->. destruct R as [|(y & [= <-] & S)]; [discriminate|].
    destruct a. subst. destruct K2 as [[-> _]|[_ K2]]; [|destruct K2; reflexivity].
    assert (Gi : g_id g2 = g_id g). { unfold settings in *. congruence. }
    destruct (g_id g2) as [i0|] eqn:Ei; [|discriminate]. cbn in E7. apply ret_inj in E7. subst v. exists x, i0, v0, v1. auto 6.
  Qed.

  Lemma publish_dht_inv e g m g' r :
    HandlePublishDHT version supported sha256 sha512_256 pub_of ec_sign ec_verify blake e g m = Ret (g', r) ->
    settings g' = settings g /\ g_pay g' = g_pay g /\
    exists att, grows (fun o => wire_offer sha256 o /\ exists i, vetted (g_reg g) PublishDHT m o i) e g g' att /\
      (forall a, r = Reply a -> exists id nonce l key sig b,
        DecodeProviderPublishDHTOfferRequest sha256 m = Ret (OkR (id, nonce, l)) /\ map fst att = elems l /\
        g_key g = Some key /\ SignMessage ec_sign blake key (g_ver g) (slice (m_body m)) = OkR sig /\ with_signature b a /\
        EncodeProviderPublishDHTOfferResponse version supported nonce sig = Ret b).
  Proof.
    unfold HandlePublishDHT. intros H.
    assert (N0 : forall g1, settings g1 = settings g -> g_db g1 = g_db g -> g_pay g1 = g_pay g ->
      settings g1 = settings g /\ g_pay g1 = g_pay g /\
      exists att, grows (fun o => wire_offer sha256 o /\ exists i, vetted (g_reg g) PublishDHT m o i) e g g1 att /\
      (forall a, Invalid = Reply a -> exists id nonce l key sig b,
        DecodeProviderPublishDHTOfferRequest sha256 m = Ret (OkR (id, nonce, l)) /\ map fst att = elems l /\
        g_key g = Some key /\ SignMessage ec_sign blake key (g_ver g) (slice (m_body m)) = OkR sig /\ with_signature b a /\
        EncodeProviderPublishDHTOfferResponse version supported nonce sig = Ret b)).
    { intros g1 A B C. repeat split; auto. exists []. split; [split; [cbn; congruence|intros ? ? []]|discriminate]. }
    step H. step H; [|apply ret_inj in H; injection H as <- <-; auto]. destruct a as [[id nonce] l]. subst v.
    step H. destruct v as [k g1]. destruct (from_provider_inv _ _ _ _ _ E0) as (A & B & C & K).
    step H; [|apply ret_inj in H; injection H as <- <-; auto]. rename k0 into p. destruct (K _ eq_refl) as (d & i & Eid & L & Dk & V).
    assert (Sl := dht_sound _ _ _ _ E).
    step H. destruct v as [r1 g2]. destruct (store_all_inv _ _ _ _ _ _ _ E2) as (A2 & B2 & C2 & att & (D2 & G2) & K2).
    assert (G : grows (fun o => wire_offer sha256 o /\ exists i, vetted (g_reg g) PublishDHT m o i) e g g2 att).
    { split; [rewrite <- B; exact D2|]. intros y f I0. destruct (G2 _ _ I0) as ((Iy & Vy) & R). split; [|exact R].
      destruct l as [l|]; [|destruct Iy]. cbn [elems] in Iy. cbn [each] in Sl. rewrite Forall_forall in Sl.
      split; [apply (proj1 (Sl _ Iy)); eapply verified_provider; eauto|]. exists i, d. subst id. split; [exists nonce, l; auto|]. split; [exact L|].
      split; exists p; auto. }
    step H; [|apply ret_inj in H; injection H as <- <-; repeat split; try congruence; exists att; split; [exact G|discriminate]].
    step H; [|apply ret_inj in H; injection H as <- <-; repeat split; try congruence; exists att; split; [exact G|discriminate]].
    step H. assert (Gk : g_key g2 = g_key g /\ g_ver g2 = g_ver g). { unfold settings in *. split; congruence. } destruct Gk as [Gk Gv].
    step H; [|apply ret_inj in H; injection H as <- <-; repeat split; try congruence; exists att; split; [exact G|discriminate]].
    step H. destruct (finish_p2p_inv _ _ _ _ _ _ H) as (-> & R). repeat split; try congruence.
    exists att. split; [exact G|]. intros z ->. destruct R as [|(y & [= <-] & S)]; [discriminate|]. subst.
    destruct (g_key g2) as [k0|] eqn:Ek; [|discriminate]. cbn in E5. apply ret_inj in E5. subst v.
    exists (Some d), nonce, l, k0, a, v0. rewrite <- Gv. rewrite (K2 eq_refl). auto 8.
  Qed.

  (** ** Handlers that store nothing *)

  Definition kept (g g' : gateway) : Prop := settings g' = settings g /\ g_db g' = g_db g.
  Lemma kept_refl g : kept g g. Proof. split; reflexivity. Qed.
  Lemma kept_trans g1 g2 g3 : kept g1 g2 -> kept g2 g3 -> kept g1 g3.
  Proof. intros (A & B) (C & D). split; congruence. Qed.
  Lemma quit_kept g c s : quit g c = Ret s -> kept g (after s).
  Proof. unfold quit. intros H. done H. apply kept_refl. Qed.
  Lemma drop_kept g s : drop g = Ret s -> kept g (after s).
  Proof. unfold drop. intros H. done H. apply kept_refl. Qed.
  Lemma finish_kept g r b o s : finish_rest ec_sign blake g r b o = Ret s -> kept g (after s).
  Proof. intros H. apply finish_rest_inv in H. destruct H as (-> & _). apply kept_refl. Qed.
  Lemma finish_p2p_kept g r g' a : finish_p2p ec_sign blake g r = Ret (g', a) -> kept g g'.
  Proof. intros H. apply finish_p2p_inv in H. destruct H as (-> & _). apply kept_refl. Qed.
  Lemma receive_kept e g ch t r g' : CoreReceive verify voucher_of is_address e g ch t = Ret (r, g') -> kept g g'.
  Proof. intros H. apply receive_inv in H. destruct H as (A & B & _). split; assumption. Qed.
  Lemma from_gateway_kept e g id m r g' : from_gateway pub_of ec_verify blake e g id m = Ret (r, g') -> kept g g'.
  Proof. intros H. apply from_gateway_inv in H. destruct H as (A & B & _). split; assumption. Qed.

  Ltac keep H :=
    repeat match type of H with
    | quit _ _ = Ret _ => apply quit_kept in H
    | drop _ = Ret _ => apply drop_kept in H
    | finish_rest _ _ _ _ _ _ = Ret _ => apply finish_kept in H
    | finish_p2p _ _ _ _ = Ret _ => apply finish_p2p_kept in H
    | Ret _ = Ret _ => apply ret_inj in H; injection H as <- <-
    | _ => step H
    end;
    repeat match goal with
    | E : CoreReceive _ _ _ _ _ _ _ = Ret (_, _) |- _ => apply receive_kept in E
    | E : from_gateway _ _ _ _ _ _ _ = Ret (_, _) |- _ => apply from_gateway_kept in E
    | E : ?v = (_, _) |- _ => is_var v; subst v
    end;
    eauto using kept_trans, kept_refl.

  Lemma establishment_kept e g m s : HandleEstablishment version supported sha256 ec_sign blake e g m = Ret s -> kept g (after s).
  Proof. unfold HandleEstablishment. intros H. keep H. Qed.
  Lemma standard_kept e g m s : HandleStandardDiscover version supported sha256 ec_sign blake zone e g m = Ret s -> kept g (after s).
  Proof. unfold HandleStandardDiscover. intros H. keep H. Qed.
  Lemma standard_v2_kept e g m s :
    HandleStandardDiscoverV2 version supported sha256 sha512_256 ec_sign blake verify voucher_of is_address zone e g m = Ret s -> kept g (after s).
  Proof. unfold HandleStandardDiscoverV2. intros H. keep H. Qed.
  Lemma standard_offer_kept e g m s :
    HandleStandardOffer version supported sha256 ec_sign blake verify voucher_of is_address zone e g m = Ret s -> kept g (after s).
  Proof. unfold HandleStandardOffer. intros H. keep H. Qed.
  Lemma gateway_discover_kept e g m g' r :
    HandleGatewayDiscover version supported sha256 pub_of ec_sign ec_verify blake zone e g m = Ret (g', r) -> kept g g'.
  Proof. unfold HandleGatewayDiscover. intros H. keep H. Qed.
  Lemma gateway_discover_v2_kept e g m g' r :
    HandleGatewayDiscoverV2 version supported sha256 sha512_256 pub_of ec_sign ec_verify blake verify voucher_of is_address zone e g m = Ret (g', r) -> kept g g'.
  Proof. unfold HandleGatewayDiscoverV2. intros H. keep H. Qed.
  Lemma gateway_offer_kept e g m g' r :
    HandleGatewayOffer version supported sha256 ec_sign blake verify voucher_of is_address zone e g m = Ret (g', r) ->
    g_db g' = g_db g /\ (g_id g', g_key g', g_ver g', g_search g', g_topup g') = (g_id g, g_key g, g_ver g, g_search g, g_topup g).
  Proof.
    unfold HandleGatewayOffer. intros H. step H. step H; [|apply ret_inj in H; injection H as <- <-; auto]. destruct a as [[[[c n] ds] ch] t].
    step H. destruct v0 as [am g1]. apply receive_kept in E1. destruct E1 as (A & B). unfold settings in A.
    step H; [|apply ret_inj in H; injection H as <- <-; split; congruence]. step H. step H.
    apply finish_p2p_kept in H. destruct H as (C & D). unfold settings in C. cbn in C, D. split; congruence.
  Qed.

  (** ** Lives *)

  Lemma act_kept e g k m g' a s : act e g k m = Ret (g', a, s) ->
    match k with GatewayOffer | PublishGroup | PublishDHT => True | _ => kept g g' end.
  Proof.
    intros H. destruct k; try exact I; unfold GatewaySpec.act in H; step H; apply ret_inj in H; injection H as <- <- <-.
    - eapply establishment_kept; eauto.
    - eapply standard_kept; eauto.
    - eapply standard_v2_kept; eauto.
    - eapply standard_offer_kept; eauto.
    - apply dht_discover_pf in E; [split; tauto|assumption..].
    - apply dht_v2_pf in E; [split; tauto|assumption..].
    - apply dht_offer_pf in E; [split; tauto|assumption..].
    - destruct v. eapply gateway_discover_kept; eauto.
    - destruct v. eapply gateway_discover_v2_kept; eauto.
  Qed.

  Lemma act_grows e g k m g' a s : act e g k m = Ret (g', a, s) ->
    exists att, grows (fun o => wire_offer sha256 o /\ exists i, vetted (g_reg g) k m o i) e g g' att /\
      (a <> [] -> forall id o, publishes k m id o -> exists n, In (o, e_fates e n) att).
  Proof.
    intros H. assert (K := act_kept _ _ _ _ _ _ _ H).
    destruct k; try (destruct K as (_ & K); exists []; split; [split; [cbn; congruence|intros ? ? []]|intros _ ? ? []]).
    - unfold GatewaySpec.act in H. step H. apply ret_inj in H. injection H as <- <- <-. destruct v as [g1 r]. apply gateway_offer_kept in E. destruct E as (E & _).
      exists []. split; [split; [cbn in *; congruence|intros ? ? []]|intros _ ? ? []].
    - unfold GatewaySpec.act in H. step H. apply ret_inj in H. injection H as <- <- <-. destruct v as [g1 r].
      destruct (publish_group_inv _ _ _ _ _ E) as (_ & _ & att & G & R). exists att. split; [exact G|]. cbn [snd]. intros N id o (nonce & D).
      destruct r as [|x|]; try congruence. destruct (R x eq_refl) as (y & j & dg & b & -> & _). exists O. left. f_equal.
      destruct (proj2 G y (e_fates e 0) (or_introl eq_refl)) as ((_ & i & d & P & _) & _). destruct P as (n' & P). congruence.
    - unfold GatewaySpec.act in H. step H. apply ret_inj in H. injection H as <- <- <-. destruct v as [g1 r].
      destruct (publish_dht_inv _ _ _ _ _ E) as (_ & _ & att & G & R). exists att. split; [exact G|]. cbn [snd]. intros N id o (nonce & l & D & Io).
      destruct r as [|x|]; try congruence. destruct (R x eq_refl) as (j & n' & l' & key & sig & b & D' & Ma & _). rewrite D in D'.
      apply ret_inj in D'. injection D' as <- <- <-. cbn [elems] in Ma. rewrite <- Ma in Io. apply in_map_iff in Io as ((o', f) & <- & If).
      destruct (proj2 G _ _ If) as (_ & _ & n & ->). exists n. exact If.
  Qed.

  (** The attempts of a life. *)
  Definition life_of (h : history) (att : attempts) : Prop :=
    forall o f, In (o, f) att -> wire_offer sha256 o /\ bindable o = true /\
      exists reg e k m i n, In (reg, e, k, m) h /\ vetted reg k m o i /\ f = e_fates e n.

  Lemma life_inv : forall h g g', live_through g h = Ret g' ->
    exists att, db_after sha512_256 (g_db g) att = Ret (g_db g') /\ life_of h att /\
      (forall h1 reg e k m h2 g1 x id o, h = h1 ++ (reg, e, k, m) :: h2 -> live_through g h1 = Ret g1 ->
         act e (with_reg g1 reg) k m = Ret x -> snd (fst x) <> [] -> publishes k m id o -> exists n, In (o, e_fates e n) att).
  Proof.
    induction h as [|[[[reg e] k] m] h IH]; intros g g' H; cbn [GatewaySpec.live_through] in H.
    - apply ret_inj in H. subst. exists []. split; [reflexivity|]. split; [intros ? ? []|]. intros h1 reg e k m h2 g1 x id o Q. destruct h1; discriminate.
    - step H. destruct v as [[g1 a] s]. destruct (act_grows _ _ _ _ _ _ _ E) as (att & (D & G) & R).
      destruct (IH _ _ H) as (att' & D' & L & R'). exists (att ++ att'). cbn [fst] in D'. split.
      { change (g_db (with_reg g reg)) with (g_db g) in D. rewrite db_after_app, D. exact D'. }
      split.
      + intros o f I0. apply in_app_or in I0 as [I0|I0].
        * destruct (G _ _ I0) as ((W & i & V) & B & n & F). split; [exact W|]. split; [exact B|].
          exists reg, e, k, m, i, n. split; [left; reflexivity|]. split; [exact V|exact F].
        * destruct (L _ _ I0) as (W & B & reg' & e' & k' & m' & i & n & I1 & V & F). split; [exact W|]. split; [exact B|].
          exists reg', e', k', m', i, n. split; [right; exact I1|]. auto.
      + intros h1 reg' e' k' m' h2 g2 x id o Q Lv Ac Nx P. destruct h1 as [|y h1]; cbn [app] in Q.
        * injection Q as <- <- <- <- <-. cbn in Lv. apply ret_inj in Lv. subst g2. rewrite E in Ac. apply ret_inj in Ac. subst x.
          destruct (R Nx _ _ P) as (n & I0). exists n. apply in_or_app. left. exact I0.
        * injection Q as <- ->. cbn [GatewaySpec.live_through] in Lv. rewrite E in Lv. cbn [obind fst] in Lv.
          destruct (R' _ _ _ _ _ _ _ _ _ _ eq_refl Lv Ac Nx P) as (n & I0). exists n. apply in_or_app. right. exact I0.
  Qed.

  Lemma life_stocked h g g' att : g_db g = empty_db -> no_clashes sha256 sha512_256 h ->
    db_after sha512_256 (g_db g) att = Ret (g_db g') -> life_of h att -> stocked sha256 sha512_256 g' att.
  Proof.
    intros Ed Nc D L. split; [|rewrite <- Ed; exact D]. split.
    - intros o f I0. destruct (L _ _ I0) as (W & B & _). unfold bindable in B. split; [exact W|lia].
    - intros o f o' f' I0 I1 Eq. destruct (L _ _ I0) as (_ & _ & reg & e & k & m & i & n & J0 & (d & P0 & _) & _).
      destruct (L _ _ I1) as (_ & _ & reg' & e' & k' & m' & i' & n' & J1 & (d' & P1 & _) & _).
      exact (Nc _ _ _ _ _ _ _ _ _ _ _ _ J0 J1 P0 P1 Eq).
  Qed.
  Lemma life_undisturbed h att : reliable h -> life_of h att -> all_undisturbed att.
  Proof.
    intros R L o f I0 j _. destruct (L _ _ I0) as (_ & _ & reg & e & k & m & i & n & J & _ & ->). eapply R; eauto.
  Qed.

  Lemma sub_verifies o c k : OfferVerify pub_of ec_verify blake o k = Ret true -> SubOfferVerify pub_of ec_verify blake (GenerateSubCIDOffer o c) k = Ret true.
  Proof. intros H. exact H. Qed.
  Lemma sub_proves o c : wire_offer sha256 o -> In c (o_cids o) -> VerifyMerkleProof sha256 (GenerateSubCIDOffer o c) = Ret true.
  Proof.
    intros (p & ids & price & ex & qos & o0 & P & F & _ & _ & _ & N & E) I0. apply new_offer_shape in N. destruct N as (Ne & t & T & ->).
    rewrite E in *. cbn [o_cids o_provider o_price o_expiry o_qos o_root o_tree] in *. destruct (complete_pf sha256 ids Ne F) as (t' & T' & V).
    rewrite T in T'. injection T' as <-. unfold VerifyMerkleProof, GenerateSubCIDOffer. cbn [s_cid s_proof s_root o_tree o_root deref obind]. apply V, I0.
  Qed.

  Lemma found_checks h g0 g e c os found : live_through g0 h = Ret g -> g_db g0 = empty_db -> no_clashes sha256 sha512_256 h -> reliable h ->
    shuffle (e_rows e) -> id32 c -> selectOffersSingle sha256 (e_rows e) zone (e_now e) (g_db g) c = Ret (os, found) ->
    Forall (fun o => checks h c (GenerateSubCIDOffer o c)) os.
  Proof.
    intros H E0 Nc R Sh Hc Q. destruct (life_inv _ _ _ H) as (att & D & L & _).
    destruct (life_stocked _ _ _ _ E0 Nc D L) as (Pr & Da).
    destruct (sql_single_exact_pf sha256 sha512_256 att (g_db g) zone (e_now e) (e_rows e) c Pr (life_undisturbed _ _ R L) Da Sh Hc)
      as (os' & found' & l & Q' & _ & M & Pm & _). rewrite Q in Q'. apply ret_inj in Q'. injection Q' as <- <-.
    apply Forall_forall. intros o I0. apply (Permutation.Permutation_in _ Pm), in_flat_map in I0. destruct I0 as (y & Y & I0).
    apply copies_in in I0. destruct I0 as [-> I0]. apply M in Y. destruct Y as [Y _]. destruct (SqlOffersProofs.recorded_in _ _ Y) as (f & Yf & _). clear Y. rename Yf into Y.
    destruct (L _ _ Y) as (W & _ & reg & e' & k & m & i & n & J & V & _). destruct V as (d & P & Lp & S & (key & K & V)).
    exists reg, e', k, m, y, i, key. split; [exact J|]. split; [exists d; repeat split; auto; exists key; auto|]. split; [reflexivity|].
    split; [exact K|]. split; [apply sub_verifies; exact V|]. apply sub_proves; assumption.
  Qed.

  Lemma suboffers_ret os c : forall l, suboffers_of os c = Ret l -> os = [] /\ l = [] \/ exists b, c = Some b /\ l = map (fun o => GenerateSubCIDOffer o b) os.
  Proof.
    unfold suboffers_of. induction os as [|o os IH]; intros l H; cbn [mapO] in H; [apply ret_inj in H; subst; auto|].
    step H. step H. apply ret_inj in H. subst l. destruct c as [b|]; [|discriminate E]. cbn in E. apply ret_inj in E. subst v. right. exists b.
    split; [reflexivity|]. destruct (IH _ eq_refl) as [(-> & ->)|(b' & [= <-] & ->)]; reflexivity.
  Qed.

  (** Standard discovery. *)
  Lemma standard_checks_pf h g0 g e request s m : live_through g0 h = Ret g -> g_db g0 = empty_db -> no_clashes sha256 sha512_256 h -> reliable h ->
    shuffle (e_rows e) ->
    HandleStandardDiscover version supported sha256 ec_sign blake zone e g request = Ret s -> In (Json m) (wrote s) ->
    exists c nonce ttl ch text found subs fs b,
      DecodeClientStandardDiscoverRequest sha256 request = Ret (OkR (Some c, nonce, ttl, ch, text)) /\
      EncodeClientStandardDiscoverResponse version supported (Some c) nonce found (Some subs) (Some fs) = Ret b /\ with_signature b m /\
      Forall (checks h c) subs.
  Proof.
    intros H E0 Nc R Sh Hs Im. unfold HandleStandardDiscover in Hs. step Hs. step Hs; [|unfold quit in Hs; apply ret_inj in Hs; subst s; destruct Im as [|[]]; discriminate].
    destruct a as [[[[c nonce] ttl] ch] text]. subst v. step Hs; [unfold drop in Hs; apply ret_inj in Hs; subst s; destruct Im|].
    step Hs. destruct v as [os found]. cbn [fst snd] in Hs. unfold CoreGetOffers in E2. step E2. destruct c as [c|]; [|discriminate]. cbn in E3. apply ret_inj in E3. subst v.
    step Hs. step Hs. destruct (standard_decoded _ _ _ _ _ _ _ E) as (Hc & _). specialize (Hc c eq_refl).
    destruct (finish_rest_inv _ _ _ _ _ _ _ Hs) as (_ & _ & an & W & K). rewrite W in Im. cbn in Im. destruct Im as [->|[]].
    destruct K as [|(m' & [= <-] & S)]; [discriminate|]. exists c, nonce, ttl, ch, text, found, v, (falses os), v0.
    split; [first [reflexivity|exact E]|]. split; [exact E4|]. split; [exact S|]. assert (F := found_checks h g0 g e c os found H E0 Nc R Sh Hc E2).
    destruct (suboffers_ret _ _ _ E3) as [(-> & ->)|(b & [= <-] & ->)]; [constructor|].
    rewrite Forall_forall in *. intros x Ix. apply in_map_iff in Ix as (o & <- & Io). auto.
  Qed.

  (** DHT discovery by another gateway. *)
  Lemma gateway_checks_pf h g0 g e request g' m : live_through g0 h = Ret g -> g_db g0 = empty_db -> no_clashes sha256 sha512_256 h -> reliable h ->
    shuffle (e_rows e) ->
    HandleGatewayDiscover version supported sha256 pub_of ec_sign ec_verify blake zone e g request = Ret (g', Reply m) ->
    exists id c nonce ttl ch text found subs fs b,
      DecodeGatewayDHTDiscoverRequest sha256 request = Ret (OkR (Some id, Some c, nonce, ttl, ch, text)) /\
      EncodeGatewayDHTDiscoverResponse version supported (Some c) nonce found (Some subs) (Some fs) = Ret b /\ with_signature b m /\
      Forall (checks h c) subs.
  Proof.
    intros H E0 Nc R Sh Hs. assert (Hs0 := Hs). eapply gateway_discover_answers_pf in Hs0; [|assumption..]. destruct Hs0 as (id & c & nonce & ttl & ch & text & i & D & _).
    unfold HandleGatewayDiscover in Hs. rewrite D in Hs. cbn [obind] in Hs. step Hs. destruct v as [ok g1]. apply from_gateway_kept in E. destruct E as (_ & Db).
    step Hs; [apply ret_inj in Hs; discriminate|]. step Hs; [apply ret_inj in Hs; discriminate|]. step Hs. destruct v as [os found]. cbn [fst snd] in Hs.
    unfold CoreGetOffers in E2. step E2. destruct c as [c|]; [|discriminate]. cbn in E3. apply ret_inj in E3. subst v. rewrite Db in E2.
    step Hs. step Hs. apply finish_p2p_inv in Hs. destruct Hs as (_ & [|(m' & [= <-] & S)]); [discriminate|].
    assert (Hc : id32 c).
    { clear - D. apply rbind_inv in D. destruct D as ((f1 & f2 & f3 & f4 & f5 & f6 & []) & E & H). apply ret_inj in H. injection H as _ E' _ _ _ _. eapply id_ptr_id32; eauto. }
    exists id, c, nonce, ttl, ch, text, found, v, (falses os), v0.
    split; [exact D|]. split; [exact E4|]. split; [exact S|]. assert (F := found_checks h g0 g e c os found H E0 Nc R Sh Hc E2).
    destruct (suboffers_ret _ _ _ E3) as [(-> & ->)|(b & [= <-] & ->)]; [constructor|].
    rewrite Forall_forall in *. intros x Ix. apply in_map_iff in Ix as (o & <- & Io). auto.
  Qed.

  (** An acknowledged offer is found. *)
  Lemma published_found_pf h1 reg e k m h2 g0 g1 x g id o e' c :
    live_through g0 (h1 ++ (reg, e, k, m) :: h2) = Ret g -> g_db g0 = empty_db ->
    no_clashes sha256 sha512_256 (h1 ++ (reg, e, k, m) :: h2) -> (forall n i, e_fates e n i = Done) ->
    live_through g0 h1 = Ret g1 -> act e (with_reg g1 reg) k m = Ret x -> snd (fst x) <> [] -> publishes k m id o ->
    shuffle (e_rows e') -> SqlOffers.fresh zone (e_now e') (o_expiry o) = true -> In c (o_cids o) ->
    exists os y, selectOffersSingle sha256 (e_rows e') zone (e_now e') (g_db g) c = Ret (os, true) /\ In y os /\ same_terms y o.
  Proof.
    intros H E0 Nc R H1 Ac Na P Sh Fr Ic. destruct (life_inv _ _ _ H) as (att & D & L & K).
    destruct (life_stocked _ _ _ _ E0 Nc D L) as (Pr & Da). destruct (K _ _ _ _ _ _ _ _ _ _ eq_refl H1 Ac Na P) as (n & I0).
    apply in_split in I0. destruct I0 as (a1 & a2 & ->).
    destruct (sql_retry_lookup_pf sha256 sha512_256 a1 o (e_fates e n) a2 (g_db g) zone (e_now e') (e_rows e') c Pr) as (os & y & Q & Iy & _ & T); auto.
    { intros j _. apply R. }
    eauto.
  Qed.

  (** ** Expired requests *)
  Lemma expired_pf e g k m t g' a s : deadline k m = Some t -> t < unix e -> act e g k m = Ret (g', a, s) ->
    a = [] /\ s = [] /\ settings g' = settings g /\ g_db g' = g_db g /\ g_pay g' = g_pay g.
  Proof.
    intros D T H. destruct k; try discriminate D; unfold GatewaySpec.deadline in D;
      match type of D with match ?x with _ => _ end = _ => destruct x as [[y|]| |] eqn:Dx; try discriminate end;
      repeat match type of y with (_ * _)%type => let b := fresh "b" in destruct y as [y b] end;
      injection D as ->; unfold GatewaySpec.act in H; step H;
      apply ret_inj in H; injection H as <- <- <-;
      match type of E with
      | ?h _ _ _ _ _ _ _ _ = _ => idtac
      | _ => idtac
      end.
    all: try (unfold HandleEstablishment in E; rewrite Dx in E; cbn [obind] in E; step E; replace (unix e >? t) with true in E by lia; apply ret_inj in E; subst v; auto 6).
    all: try (unfold HandleStandardDiscover in E; rewrite Dx in E; cbn [obind] in E; replace (unix e >? t) with true in E by lia; apply ret_inj in E; subst v; auto 6).
    all: try (unfold HandleStandardDiscoverV2 in E; rewrite Dx in E; cbn [obind] in E; replace (unix e >? t) with true in E by lia; apply ret_inj in E; subst v; auto 6).
    all: try (unfold HandleStandardOffer in E; rewrite Dx in E; cbn [obind] in E; replace (unix e >? t) with true in E by lia; apply ret_inj in E; subst v; auto 6).
    all: try (unfold HandleDHTDiscover in E; rewrite Dx in E; cbn [obind] in E; replace (unix e >? t) with true in E by lia; apply ret_inj in E; subst v; auto 6).
    all: try (unfold HandleDHTDiscoverV2 in E; rewrite Dx in E; cbn [obind] in E; replace (unix e >? t) with true in E by lia; apply ret_inj in E; subst v; auto 6).
    - unfold HandleGatewayDiscover in E. rewrite Dx in E. cbn [obind] in E. step E. destruct v0 as [ok g1]. apply from_gateway_inv in E0. destruct E0 as (A & B & C & _).
      replace (unix e >? t) with true in E by lia. destruct ok; cbn [negb] in E; apply ret_inj in E; subst v; auto 6.
    - unfold HandleGatewayDiscoverV2 in E. rewrite Dx in E. cbn [obind] in E. step E. destruct v0 as [ok g1]. apply from_gateway_inv in E0. destruct E0 as (A & B & C & _).
      replace (unix e >? t) with true in E by lia. destruct ok; cbn [negb] in E; apply ret_inj in E; subst v; auto 6.
  Qed.

  (** ** Settings *)
  Lemma life_settings : forall h g g', live_through g h = Ret g' ->
    (g_id g', g_key g', g_ver g', g_search g', g_topup g') = (g_id g, g_key g, g_ver g, g_search g, g_topup g) /\
    ((forall reg e m, ~ In (reg, e, GatewayOffer, m) h) -> g_offer g' = g_offer g).
  Proof.
    induction h as [|[[[reg e] k] m] h IH]; intros g g' H; cbn [GatewaySpec.live_through] in H.
    - apply ret_inj in H. subst. auto.
    - step H. destruct v as [[g1 a] s]. destruct (IH _ _ H) as (A & B). cbn [fst] in A, B.
      assert (K : (g_id g1, g_key g1, g_ver g1, g_search g1, g_topup g1) = (g_id g, g_key g, g_ver g, g_search g, g_topup g) /\ (k <> GatewayOffer -> g_offer g1 = g_offer g)).
      { assert (K := act_kept _ _ _ _ _ _ _ E).
        assert (S : settings g1 = settings (with_reg g reg) \/ k = GatewayOffer).
        { destruct k; try (left; exact (proj1 K)); [right; reflexivity| |]; left; unfold GatewaySpec.act in E; step E; apply ret_inj in E; injection E as <- <- <-; destruct v as [g2 r].
          - apply publish_group_inv in E0. tauto.
          - apply publish_dht_inv in E0. tauto. }
        destruct S as [S|S].
        - unfold settings in S. cbn in S. injection S as -> -> -> -> -> ->. auto.
        - subst k. split; [|congruence]. unfold GatewaySpec.act in E. step E. apply ret_inj in E. injection E as <- <- <-. destruct v as [g2 r]. apply gateway_offer_kept in E0. exact (proj2 E0). }
      destruct K as (K1 & K2). split; [congruence|]. intros N. rewrite B; [|intros ? ? ? I0; eapply N; right; exact I0].
      apply K2. intros ->. eapply N. left. reflexivity.
  Qed.
End gw.
