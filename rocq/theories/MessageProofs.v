(** Lemmas about [Message.v]. *)
From Coq Require Import String List ZArith Bool Lia ZifyBool ZifyNat.
From Coq Require Import Init.Byte.
From Verif Require Import Base BaseProofs Json JsonProofs MerkleWireProofs Crypto CryptoProofs Message WireSpec.
Import ListNotations.
Open Scope Z_scope.

(** Evaluates the key comparisons of [jfield], [jslice] and [jcustom] on a given
    object. *)
Ltac eval_fields :=
  unfold jfield, jslice, jcustom; cbn [fold_left fst snd];
  repeat match goal with
  | |- context [fold_eq ?a ?b] =>
      let v := eval vm_compute in (fold_eq a b) in change (fold_eq a b) with v
  end; cbv iota.

Lemma no_float_nums l : forallb no_float (map JNum l) = true.
Proof. induction l; [reflexivity|assumption]. Qed.

Lemma no_float_strs l : forallb no_float (map JStr l) = true.
Proof. induction l; [reflexivity|assumption]. Qed.

Lemma no_float_message m s : no_float (message_json m s) = true.
Proof.
  unfold message_json. cbn [no_float forallb snd].
  destruct (m_supported m) as [l|]; destruct (m_body m); cbn [json_slice json_blob no_float];
    rewrite ?no_float_nums; reflexivity.
Qed.

Lemma dec_elems_nums lo hi l : Forall (fun z => lo <= z <= hi) l ->
  dec_elems (dec_int lo hi) 0 (map JNum l) = Some l.
Proof.
  induction 1 as [|z l H _ IH]; [reflexivity|]. cbn [map dec_elems dec_int]. rewrite IH.
  replace (_ && _) with true by lia. reflexivity.
Qed.

Lemma dec_elems_strs l : dec_elems dec_str [] (map JStr l) = Some l.
Proof. induction l as [|z l IH]; [reflexivity|]. cbn [map dec_elems dec_str]. rewrite IH. reflexivity. Qed.

Lemma dec_int_ok lo hi z : lo <= z <= hi -> dec_int lo hi (JNum z) = Some z.
Proof. intros H. cbn [dec_int]. replace (_ && _) with true by lia. reflexivity. Qed.

Notation i32 := int32 (only parsing).

Lemma message_wire_pf m : i32 (m_type m) -> i32 (m_version m) ->
  match m_supported m with Some l => Forall i32 l | None => True end ->
  FCRMsgFromBytes (FCRMsgToBytes m) = OkR m.
Proof.
  intros Ht Hv Hs. unfold FCRMsgFromBytes, FCRMsgToBytes.
  rewrite unmarshal_json; [|apply no_float_message|discriminate].
  destruct m as [t v s b g]. cbn [m_type m_version m_supported m_body m_sig] in *.
  unfold message_json, message_of_json. cbn [m_type m_version m_supported m_body m_sig].
  eval_fields. unfold dec_i32. rewrite !dec_int_ok by assumption.
  destruct s as [l|]; destruct b as [b|]; cbn [json_slice json_blob dec_list];
    rewrite ?dec_bytes_enc, ?(dec_elems_nums _ _ _ Hs); reflexivity.
Qed.

Lemma b64_encode_inj a b : b64_encode a = b64_encode b -> a = b.
Proof. intros H. assert (A := b64_roundtrip a). rewrite H, b64_roundtrip in A. congruence. Qed.

Lemma map_JNum_inj l l' : map JNum l = map JNum l' -> l = l'.
Proof. revert l'. induction l as [|a l IH]; intros [|a' l'] [=]; [reflexivity|]. subst. f_equal. auto. Qed.

Lemma message_to_sign_inj m m' : MessageToSign m = MessageToSign m' ->
  m_type m = m_type m' /\ m_version m = m_version m' /\ m_supported m = m_supported m' /\ m_body m = m_body m'.
Proof.
  intros H. apply json_print_inj in H; [|apply no_float_message|apply no_float_message].
  unfold message_json in H. injection H as H1 H2 H3 H4. split; [exact H1|]. split; [exact H2|]. split.
  - destruct (m_supported m), (m_supported m'); cbn [json_slice] in H3; try discriminate; [|reflexivity].
    injection H3 as H3. apply map_JNum_inj in H3. congruence.
  - destruct (m_body m), (m_body m'); cbn [json_blob] in H4; try discriminate; [|reflexivity].
    injection H4 as H4. apply b64_encode_inj in H4. congruence.
Qed.

Lemma to_sign_set_sig m s : MessageToSign (set_sig m s) = MessageToSign m.
Proof. reflexivity. Qed.

Section sign.
  Variable pub_of : bytes -> bytes.
  Variable ec_sign : bytes -> bytes -> option bytes.
  Variable ec_verify : bytes -> bytes -> bytes -> bool.
  Variable blake : bytes -> bytes.

  Notation MessageSign := (MessageSign ec_sign blake).
  Notation MessageVerify := (MessageVerify pub_of ec_verify blake).

  Lemma set_sig_self m : set_sig (set_sig m []) (m_sig m) = m.
  Proof. destruct m. reflexivity. Qed.

  Lemma message_verify_iff m k : fst (MessageVerify m k) = true <->
    fst (VerifyMessage pub_of ec_verify blake k (m_sig m) (MessageToSign m)) = OkR true.
  Proof.
    unfold Message.MessageVerify. rewrite to_sign_set_sig.
    destruct (fst (VerifyMessage _ _ _ _ _ _)) as [[|]|]; cbn [fst]; split; congruence.
  Qed.

  Lemma message_verify_state m k : snd (MessageVerify m k) =
    if fst (MessageVerify m k) then m else set_sig m [].
  Proof.
    unfold Message.MessageVerify. destruct (fst (VerifyMessage _ _ _ _ _ _)) as [[|]|]; cbn [fst snd];
      [apply set_sig_self|reflexivity|reflexivity].
  Qed.

  Lemma message_sign_verify_pf m k ver m' pk :
    (forall sk d s, ec_sign sk d = Some s -> length s = 65%nat /\ ec_verify (pub_of sk) d (firstn 64 s) = true) ->
    MessageSign m k ver = (true, m') -> k_alg pk = x01 -> public_half pub_of pk = pub_of (slice (k_priv k)) ->
    MessageVerify m' pk = (true, m') /\
    m_type m' = m_type m /\ m_version m' = m_version m /\ m_supported m' = m_supported m /\ m_body m' = m_body m.
  Proof.
    intros Law HS HA HP. unfold Message.MessageSign in HS.
    destruct (SignMessage ec_sign blake k ver _) as [s|] eqn:E; [|discriminate]. injection HS as <-.
    split; [|repeat split].
    assert (V : fst (MessageVerify (set_sig (set_sig m []) s) pk) = true).
    { apply message_verify_iff. cbn [m_sig set_sig]. rewrite !to_sign_set_sig in *.
      eapply sign_verify_pf; eassumption. }
    rewrite (surjective_pairing (MessageVerify _ _)), message_verify_state, V. reflexivity.
  Qed.
End sign.

Lemma message_roundtrip_pf pub_of ec_sign ec_verify blake m k ver m' pk :
  ecdsa_correct pub_of ec_sign ec_verify -> matches pub_of pk k ->
  MessageSign ec_sign blake m k ver = (true, m') ->
  MessageVerify pub_of ec_verify blake m' pk = (true, m') /\
  m_type m' = m_type m /\ m_version m' = m_version m /\ m_supported m' = m_supported m /\ m_body m' = m_body m.
Proof. intros L M S. destruct (matches_half _ _ _ M) as [A P]. eapply message_sign_verify_pf; eassumption. Qed.

Lemma verify_keeps_pf pub_of ec_verify blake m k ok m' :
  MessageVerify pub_of ec_verify blake m k = (ok, m') ->
  m_type m' = m_type m /\ m_version m' = m_version m /\ m_supported m' = m_supported m /\ m_body m' = m_body m /\
  m_sig m' = if ok then m_sig m else [].
Proof.
  intros H. assert (S := message_verify_state pub_of ec_verify blake m k). rewrite H in S. cbn [fst snd] in S.
  subst m'. destruct ok; repeat split.
Qed.

Lemma message_wire_pf' m : int32 (m_type m) -> int32 (m_version m) ->
  (forall l, m_supported m = Some l -> Forall int32 l) -> FCRMsgFromBytes (FCRMsgToBytes m) = OkR m.
Proof. intros A B C. apply message_wire_pf; try assumption. destruct (m_supported m); [apply C; reflexivity|exact I]. Qed.
