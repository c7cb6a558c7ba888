(** * Proofs about the bodies of messages on the wire *)
From Coq Require Import String List ZArith Bool Lia.
From Coq Require Import Init.Byte.
From Verif Require Import Base BaseProofs Ids Json JsonProofs Merkle MerkleWire MerkleWireProofs Crypto Message WireSpec Offer OfferProofs MessageProofs Schema SchemaProofs Messages MessagesSpec MessagesProofs
  WireFormatSpec.
Import ListNotations.
Open Scope Z_scope.

Definition wt (t : ftype) : wtype :=
  match t with
  | TStr => WStr | TBool => WBool | TInt _ _ => WInt | TStrs => WList WStr | TStrss => WList (WList WStr) | TBools => WList WBool | TInts _ _ => WList WInt
  | TMsg => WMessage | TMsgs => WList WMessage | TProof => WBytes | TOffer => WOffer | TOffers => WList WOffer | TSubs => WList WSubOffer
  end.

Lemma slice_form {A} (enc : A -> json) (P : json -> Prop) o : (forall a, P (enc a)) -> json_slice enc o = JNull \/ exists l, json_slice enc o = JArr l /\ Forall P l.
Proof.
  intros H. destruct o as [l|]; [right|left; reflexivity]. exists (map enc l). split; [reflexivity|]. induction l; constructor; auto.
Qed.
Lemma slice_formO {A} (enc : A -> outcome json) (P : json -> Prop) o j : (forall a j, enc a = Ret j -> P j) -> enc_sliceO enc o = Ret j -> j = JNull \/ exists l, j = JArr l /\ Forall P l.
Proof.
  intros H. destruct o as [l|]; cbn [enc_sliceO]; [|intros E; apply ret_inj in E; auto]. destruct (mapO enc l) as [js| |] eqn:M; cbn [obind]; try discriminate.
  intros E. apply ret_inj in E. subst j. right. exists js. split; [reflexivity|]. revert js M. induction l as [|a l IH]; cbn [mapO]; intros js M; [apply ret_inj in M; subst; constructor|].
  destruct (enc a) as [b| |] eqn:B; cbn [obind] in M; try discriminate. destruct (mapO enc l) as [r| |]; cbn [obind] in M; try discriminate. apply ret_inj in M. subst js.
  constructor; [exact (H _ _ B)|now apply IH].
Qed.

Lemma message_form m : object_of simple message_fields (enc_message m).
Proof.
  eexists. split; [reflexivity|]. constructor; [split; [reflexivity|cbn; eauto]|]. constructor; [split; [reflexivity|cbn; eauto]|].
  constructor; [split; [reflexivity|]|]. { cbn [snd simple]. apply (slice_form JNum). eauto. }
  constructor; [split; [reflexivity|]|]. { cbn [snd simple]. destruct (m_body m); cbn [json_blob]; eauto. }
  constructor; [split; [reflexivity|cbn; eauto]|]. constructor.
Qed.
Lemma proof_form p : exists b, proof_json p = JStr (b64_encode b).
Proof. eexists. unfold proof_json, MarshalProof, json_bytes. rewrite json_roundtrip by reflexivity. reflexivity. Qed.
Lemma offer_form o j : enc_offer o = Ret j -> object_of simple offer_wire j.
Proof.
  unfold enc_offer, MarshalOffer. destruct (o_provider o) as [p|]; cbn [deref obind]; [|discriminate]. intros E. apply ret_inj in E. subst j.
  rewrite embed_obj by (cbn [forallb snd no_float]; rewrite no_float_strs; reflexivity). eexists. split; [reflexivity|].
  constructor; [split; [reflexivity|cbn; eauto]|]. constructor; [split; [reflexivity|]|].
  { cbn [snd simple]. right. eexists. split; [reflexivity|]. apply Forall_map, Forall_forall. eauto. }
  repeat (constructor; [split; [reflexivity|cbn; eauto]|]). constructor.
Qed.
Lemma suboffer_form s j : enc_sub s = Ret j -> object_of simple suboffer_wire j.
Proof.
  unfold enc_sub, MarshalSubOffer. destruct (s_provider s) as [p|]; cbn [deref obind]; [|discriminate]. destruct (s_cid s) as [c|]; cbn [deref obind]; [|discriminate].
  intros E. apply ret_inj in E. subst j. destruct (proof_form (s_proof s)) as (b & P). rewrite P. rewrite embed_obj by reflexivity. eexists. split; [reflexivity|].
  do 3 (constructor; [split; [reflexivity|cbn; eauto]|]). constructor; [split; [reflexivity|cbn [snd simple]; eauto]|].
  repeat (constructor; [split; [reflexivity|cbn; eauto]|]). constructor.
Qed.

Lemma field_form t v j : fenc t v = Ret j -> has_type (wt t) j.
Proof.
  destruct t; cbn [fenc wt has_type simple]; intros E.
  all: try (apply ret_inj in E; subst j; eauto; fail).
  all: try (apply ret_inj in E; subst j; apply slice_form; eauto; fail).
  - apply ret_inj in E; subst j. apply (slice_form (json_slice JStr)). intros a. apply (slice_form JStr). eauto.
  - apply ret_inj in E; subst j. apply message_form.
  - apply ret_inj in E; subst j. apply (slice_form enc_message). intros a. apply message_form.
  - apply ret_inj in E; subst j. right. apply proof_form.
  - exact (offer_form _ _ E).
  - refine (slice_formO enc_offer _ _ _ _ E). intros a b. apply offer_form.
  - refine (slice_formO enc_sub _ _ _ _ E). intros a b. apply suboffer_form.
Qed.
Lemma fields_form : forall s v fs, enc_fields s v = Ret fs -> Forall2 (fun f w => fst f = fst w /\ has_type (snd w) (snd f)) fs (map (fun kt => (fst kt, wt (snd kt))) s).
Proof.
  induction s as [|[k t] s IH]; intros v fs; cbn [enc_fields].
  - intros E. apply ret_inj in E. subst fs. constructor.
  - destruct (fenc t (fst v)) as [j| |] eqn:F; cbn [obind]; try discriminate. destruct (enc_fields s (snd v)) as [r| |] eqn:R; cbn [obind]; try discriminate.
    intros E. apply ret_inj in E. subst fs. constructor; [split; [reflexivity|exact (field_form _ _ _ F)]|exact (IH _ _ R)].
Qed.
Lemma encode_form version supported tag s v m : encode version supported tag s v = Ret m -> exists j, m_body m = Some (json_print j) /\ object_of has_type (map (fun kt => (fst kt, wt (snd kt))) s) j.
Proof.
  unfold encode, marshal_body. destruct (enc_fields s v) as [fs| |] eqn:E; cbn [obind]; try discriminate. intros M. apply ret_inj in M. subst m.
  exists (JObj fs). split; [reflexivity|]. exists fs. split; [reflexivity|exact (fields_form _ _ _ E)].
Qed.
Lemma body_form version supported k m : sends version supported k m -> exists j, m_body m = Some (json_print j) /\ object_of has_type (wire_fields k) j.
Proof.
  destruct k; cbn [sends wire_fields]; intros H; repeat match type of H with exists _, _ => destruct H as (? & H) end;
  match type of H with ?e = _ => let h := head e in unfold h in H end; strip H; apply encode_form in H; exact H.
Qed.

(** ** Which fields count *)
Lemma fold_filter {B} (g : B -> gostring * json -> B) name f : forall init,
  (forall b kv, named name kv = false -> g b kv = b) -> fold_left g f init = fold_left g (filter (named name) f) init.
Proof.
  induction f as [|kv f IH]; intros init G; cbn [filter fold_left]; [reflexivity|]. destruct (named name kv) eqn:E; cbn [fold_left]; [now apply IH|].
  rewrite G by exact E. now apply IH.
Qed.
Lemma fdec_filter sha t name f f' : filter (named name) f = filter (named name) f' -> fdec sha t name f = fdec sha t name f'.
Proof.
  intros H. destruct t; cbn [fdec]; unfold jfield, jslice, jcustom, jcustomO, jsliceO;
  rewrite (fold_filter _ name f) by skip_step; rewrite (fold_filter _ name f') by skip_step; rewrite H; reflexivity.
Qed.
Lemma dec_fields_filter sha f f' : forall s, (forall kt, In kt s -> filter (named (fst kt)) f = filter (named (fst kt)) f') -> dec_fields sha s f = dec_fields sha s f'.
Proof.
  induction s as [|[k t] s IH]; intros H; [reflexivity|]. cbn [dec_fields]. rewrite (fdec_filter sha t k f f' (H (k, t) (or_introl eq_refl))). rewrite IH; [reflexivity|].
  intros kt I. apply H. now right.
Qed.
Definition agree_on (names : list (gostring * wtype)) (f f' : list (gostring * json)) : Prop := forall w, In w names -> filter (named (fst w)) f = filter (named (fst w)) f'.
Lemma decode_filter sha tag s m m' f f' : m_type m = m_type m' -> json_parse (slice (m_body m)) = Some (JObj f) -> json_parse (slice (m_body m')) = Some (JObj f') ->
  agree_on (map (fun kt => (fst kt, wt (snd kt))) s) f f' -> decode sha tag s m = decode sha tag s m'.
Proof.
  intros T P P' A. unfold decode. rewrite T. destruct (negb (m_type m' =? tag)); [reflexivity|]. unfold unmarshal_body. rewrite P, P'.
  rewrite (dec_fields_filter sha f f' s); [reflexivity|]. intros kt I. apply (A (fst kt, wt (snd kt))). apply in_map_iff. exists kt. auto.
Qed.
Lemma same_pf sha k m m' f f' : m_type m = m_type m' -> json_parse (slice (m_body m)) = Some (JObj f) -> json_parse (slice (m_body m')) = Some (JObj f') ->
  agree_on (wire_fields k) f f' -> reads_same sha k m m'.
Proof.
  intros T P P' A. destruct k; cbn [reads_same];
  match goal with |- ?e = _ => let h := head e in unfold h end; unfold rbind;
  match goal with |- context [decode sha ?t ?s m] => rewrite (decode_filter sha t s m m' f f' T P P' A); reflexivity end.
Qed.
Lemma named_not x j name : ~ same_name x name -> named name (x, j) = false.
Proof. intros N. unfold named, fold_eq. cbn [fst]. destruct (bytes_eqb _ _) eqn:E; [|reflexivity]. apply bytes_eqb_eq in E. contradiction. Qed.
