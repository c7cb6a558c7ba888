(** Lemmas about [Crypto.v]. *)
From Coq Require Import List ZArith Bool Lia ZifyBool ZifyNat.
From Coq Require Import Init.Byte.
From Verif Require Import Base BaseProofs Crypto WireSpec.
Import ListNotations.
Open Scope Z_scope.

Lemma firstn_app_len {A} (a b : list A) n : length a = n -> firstn n (a ++ b) = a.
Proof. intros <-. rewrite firstn_app, Nat.sub_diag, firstn_all. cbn [firstn]. apply app_nil_r. Qed.

Lemma skipn_app_len {A} (a b : list A) n : length a = n -> skipn n (a ++ b) = b.
Proof. intros <-. rewrite skipn_app, Nat.sub_diag, skipn_all. reflexivity. Qed.

Lemma version_roundtrip_pf v rest : 0 <= v < 2 ^ 32 ->
  DecodeKeyVersionFromBytes (EncodeKeyVersionAsBytes v ++ rest) = OkR v.
Proof.
  intros Hv. unfold DecodeKeyVersionFromBytes, EncodeKeyVersionAsBytes.
  assert (L : length (be_bytes 4 v) = 4%nat) by apply be_bytes_length.
  rewrite app_length, L. cbn [Nat.ltb Nat.leb Nat.add].
  rewrite firstn_app_len by exact L. rewrite be_val_be_bytes; [reflexivity|]. change (256 ^ Z.of_nat 4) with (2 ^ 32). lia.
Qed.

Lemma hex_decode_short s b : hex_decode s = Some b -> (length b < 4)%nat ->
  exists v, ExtractKeyVersionFromMessage s = OkR v.
Proof.
  intros E H. unfold ExtractKeyVersionFromMessage, decode_buffer. rewrite E.
  unfold DecodeKeyVersionFromBytes. rewrite firstn_length, !app_length. cbn [length].
  replace (Nat.ltb _ 4) with false; [eauto|]. symmetry. apply Nat.ltb_ge. lia.
Qed.

Section crypto.
  Variable pub_of : bytes -> bytes.
  Variable ec_sign : bytes -> bytes -> option bytes.
  Variable ec_verify : bytes -> bytes -> bytes -> bool.
  Variable blake : bytes -> bytes.

  Notation SignMessage := (SignMessage ec_sign blake).
  Notation VerifyMessage := (VerifyMessage pub_of ec_verify blake).

  Lemma sign_shape k ver msg sig : SignMessage k ver msg = OkR sig ->
    exists raw, k_alg k = x01 /\ ec_sign (slice (k_priv k)) (blake msg) = Some raw /\
      sig = hex_encode (EncodeKeyVersionAsBytes ver ++ raw).
  Proof.
    unfold Crypto.SignMessage, KeySign. destruct (Byte.eqb (k_alg k) x01) eqn:E; [|discriminate].
    apply byte_eqb_eq in E. destruct (ec_sign _ _) as [raw|] eqn:ES; [|discriminate].
    intros [= <-]. eauto.
  Qed.

  Lemma verify_hex k ver raw msg :
    VerifyMessage k (hex_encode (EncodeKeyVersionAsBytes ver ++ raw)) msg = KeyVerify pub_of ec_verify blake k raw msg.
  Proof.
    unfold Crypto.VerifyMessage. rewrite hex_decode_encode.
    assert (L : length (EncodeKeyVersionAsBytes ver) = 4%nat) by apply be_bytes_length.
    rewrite app_length, L. cbn [Nat.ltb Nat.leb Nat.add].
    rewrite skipn_app_len by exact L. reflexivity.
  Qed.

  Lemma sign_verify_pf (ec_law : ecdsa_correct pub_of ec_sign ec_verify) k pk ver msg sig :
    SignMessage k ver msg = OkR sig -> k_alg pk = x01 -> public_half pub_of pk = pub_of (slice (k_priv k)) ->
    fst (VerifyMessage pk sig msg) = OkR true.
  Proof.
    intros HS HA HP. destruct (sign_shape _ _ _ _ HS) as (raw & _ & ES & ->).
    destruct (ec_law _ _ _ ES) as [L V]. rewrite verify_hex. unfold KeyVerify.
    rewrite HA. cbn [Byte.eqb]. replace (Byte.eqb x01 x01) with true by reflexivity. cbn [fst].
    unfold secp256k1Verify. rewrite L, Nat.eqb_refl, HP, V. reflexivity.
  Qed.

  Lemma version_read_pf k ver msg sig : 0 <= ver < 2 ^ 32 ->
    SignMessage k ver msg = OkR sig -> ExtractKeyVersionFromMessage sig = OkR ver.
  Proof.
    intros Hv HS. destruct (sign_shape _ _ _ _ HS) as (raw & _ & ES & ->).
    unfold ExtractKeyVersionFromMessage, decode_buffer. rewrite hex_decode_encode.
    set (rest := skipn _ _ ++ _).
    assert (L : length (EncodeKeyVersionAsBytes ver) = 4%nat) by apply be_bytes_length.
    rewrite <- app_assoc, firstn_app_len by exact L.
    rewrite <- (app_nil_r (EncodeKeyVersionAsBytes ver)). apply version_roundtrip_pf, Hv.
  Qed.

  Lemma verify_raw_only k s s' b b' msg :
    hex_decode s = Some b -> hex_decode s' = Some b' -> (4 <= length b)%nat -> (4 <= length b')%nat ->
    skipn 4 b = skipn 4 b' -> VerifyMessage k s msg = VerifyMessage k s' msg.
  Proof.
    clear ec_sign. intros E E' L L' H. unfold Crypto.VerifyMessage. rewrite E, E', H.
    destruct (Nat.ltb_spec (length b) 4); [lia|]. destruct (Nat.ltb_spec (length b') 4); [lia|]. reflexivity.
  Qed.

  Lemma verify_rejects k s msg :
    (hex_decode s = None \/ (length s < 8)%nat) -> fst (VerifyMessage k s msg) = ErrR.
  Proof.
    clear ec_sign. intros H. unfold Crypto.VerifyMessage. destruct (hex_decode s) as [b|] eqn:E; [|reflexivity].
    destruct H as [H|H]; [discriminate|]. apply hex_decode_length in E.
    destruct (Nat.ltb_spec (length b) 4); [reflexivity|lia].
  Qed.

  Lemma version_unbound k ver ver' raw msg :
    VerifyMessage k (hex_encode (EncodeKeyVersionAsBytes ver ++ raw)) msg =
    VerifyMessage k (hex_encode (EncodeKeyVersionAsBytes ver' ++ raw)) msg.
  Proof. now rewrite !verify_hex. Qed.

  Lemma recovery_unbound k ver rs v v' msg : length rs = 64%nat ->
    VerifyMessage k (hex_encode (EncodeKeyVersionAsBytes ver ++ rs ++ [v])) msg =
    VerifyMessage k (hex_encode (EncodeKeyVersionAsBytes ver ++ rs ++ [v'])) msg.
  Proof.
    intros L. rewrite !verify_hex. unfold KeyVerify, secp256k1Verify. rewrite !app_length, L. cbn [length Nat.add Nat.eqb].
    rewrite !firstn_app_len by exact L. reflexivity.
  Qed.

  (** Key codec. *)
  Lemma private_roundtrip_pf k sk : k_priv k = Some sk -> k_alg k = x01 -> length sk = 32%nat ->
    DecodePrivateKey (EncodePrivateKey k) = Ret (OkR (KeyPair (Some sk) None x01)) /\
    exists t, EncodeRawPrivateKey k = OkR t /\ DecodeRawPrivateKey t = OkR (KeyPair (Some sk) None x01).
  Proof.
    intros P A L. unfold DecodePrivateKey, EncodePrivateKey, EncodeRawPrivateKey, DecodeRawPrivateKey.
    rewrite P, A, hex_decode_encode. cbn [slice]. change (Byte.eqb x01 x01) with true. cbv iota.
    unfold decodeSecP256K1PrivateKey. rewrite L, Nat.eqb_refl. split; [reflexivity|].
    eexists. split; [reflexivity|]. rewrite hex_decode_encode, L, Nat.eqb_refl. reflexivity.
  Qed.

  Lemma public_roundtrip_pf k : k_alg k = x01 -> length (public_half pub_of k) = 65%nat ->
    exists t, fst (EncodePublicKey pub_of k) = OkR t /\
      DecodePublicKey t = Ret (OkR (KeyPair None (Some (public_half pub_of k)) x01)).
  Proof.
    intros A L. unfold EncodePublicKey. rewrite A. change (Byte.eqb x01 x01) with true. cbv iota.
    eexists. split; [reflexivity|]. unfold DecodePublicKey. rewrite hex_decode_encode.
    change (Byte.eqb x01 x01) with true. cbv iota. unfold decodeSecP256K1PublicKey.
    rewrite L, Nat.eqb_refl. reflexivity.
  Qed.
End crypto.

Lemma is_hex_digits s : Forall is_hex s <-> Forall (fun c => hex_digit c <> None) s.
Proof.
  rewrite !Forall_forall. split; intros H c Hc; specialize (H c Hc).
  - destruct H as [d Hd]. congruence.
  - unfold is_hex. destruct (hex_digit c) as [d|]; [eauto|contradiction].
Qed.

(** Text of a key: [n] bytes after the algorithm byte 1, in hex digits. *)
Lemma key_text n s : (exists b, hex_decode s = Some (x01 :: b) /\ length b = n) <->
  (length s = 2 * n + 2)%nat /\ Forall (fun c => hex_digit c <> None) s /\ hex_val (firstn 2 s) = 1.
Proof.
  split.
  - intros (b & E & L). assert (LS := hex_decode_length _ _ E). cbn [length] in LS.
    split; [lia|]. split; [apply is_hex_digits; exact (proj2 (proj1 (hex_decode_iff s) (ex_intro _ _ E)))|].
    destruct s as [|c1 [|c2 s]]; try discriminate. cbn [hex_decode firstn] in *.
    destruct (hex_digit c1) as [x|] eqn:E1; [|discriminate]. destruct (hex_digit c2) as [y|] eqn:E2; [|discriminate].
    destruct (hex_decode s); [|discriminate]. injection E as E _.
    apply hex_digit_range in E1 as R1. apply hex_digit_range in E2 as R2.
    assert (V : bz (zb (x * 16 + y)) = 1) by (rewrite E; reflexivity). rewrite bz_zb in V by lia.
    unfold hex_val. cbn [fold_left]. rewrite E1, E2. lia.
  - intros (L & F & V).
    assert (Nat.even (length s) = true).
    { rewrite L. replace (2 * n + 2)%nat with (2 * (n + 1))%nat by lia. apply Nat.even_spec. exists (n + 1)%nat. reflexivity. }
    destruct (proj2 (hex_decode_iff s)) as (bs & E); [split; [assumption|apply is_hex_digits; exact F]|].
    assert (LS := hex_decode_length _ _ E). destruct bs as [|a b]; [cbn in LS; lia|].
    exists b. cbn [length] in LS. split; [|lia]. rewrite E. do 2 f_equal.
    destruct s as [|c1 [|c2 s]]; try discriminate. cbn [hex_decode firstn] in *.
    destruct (hex_digit c1) as [x|] eqn:E1; [|discriminate]. destruct (hex_digit c2) as [y|] eqn:E2; [|discriminate].
    destruct (hex_decode s); [|discriminate]. injection E as <- _.
    unfold hex_val in V. cbn [fold_left] in V. rewrite E1, E2 in V.
    apply bz_inj. change (bz x01) with 1. rewrite bz_zb; lia.
Qed.

Lemma decode_private_iff s k : DecodePrivateKey s = Ret (OkR k) <->
  exists sk, hex_decode s = Some (x01 :: sk) /\ length sk = 32%nat /\ k = KeyPair (Some sk) None x01.
Proof.
  unfold DecodePrivateKey, decodeSecP256K1PrivateKey. split.
  - destruct (hex_decode s) as [[|a b]|]; try discriminate.
    destruct (Byte.eqb a x01) eqn:E; [|discriminate]. apply byte_eqb_eq in E as ->.
    destruct (Nat.eqb_spec (length b) 32); [|discriminate]. intros [= <-]. eauto.
  - intros (sk & -> & L & ->). rewrite L. reflexivity.
Qed.

Lemma decode_public_iff s k : DecodePublicKey s = Ret (OkR k) <->
  exists pk, hex_decode s = Some (x01 :: pk) /\ length pk = 65%nat /\ k = KeyPair None (Some pk) x01.
Proof.
  unfold DecodePublicKey, decodeSecP256K1PublicKey. split.
  - destruct (hex_decode s) as [[|a b]|]; try discriminate.
    destruct (Byte.eqb a x01) eqn:E; [|discriminate]. apply byte_eqb_eq in E as ->.
    destruct (Nat.eqb_spec (length b) 65); [|discriminate]. intros [= <-]. eauto.
  - intros (sk & -> & L & ->). rewrite L. reflexivity.
Qed.

Lemma decode_private_accepts s : (exists k, DecodePrivateKey s = Ret (OkR k)) <->
  length s = 66%nat /\ Forall (fun c => hex_digit c <> None) s /\ hex_val (firstn 2 s) = 1.
Proof.
  rewrite <- (key_text 32 s). split.
  - intros (k & H). apply decode_private_iff in H as (sk & ? & ? & _). eauto.
  - intros (b & ? & ?). eexists. apply decode_private_iff. eauto.
Qed.

Lemma decode_public_accepts s : (exists k, DecodePublicKey s = Ret (OkR k)) <->
  length s = 132%nat /\ Forall (fun c => hex_digit c <> None) s /\ hex_val (firstn 2 s) = 1.
Proof.
  rewrite <- (key_text 65 s). split.
  - intros (k & H). apply decode_public_iff in H as (sk & ? & ? & _). eauto.
  - intros (b & ? & ?). eexists. apply decode_public_iff. eauto.
Qed.

Lemma decode_keys_total s : s <> [] ->
  (exists r, DecodePrivateKey s = Ret r) /\ (exists r, DecodePublicKey s = Ret r).
Proof.
  intros N. unfold DecodePrivateKey, DecodePublicKey.
  destruct (hex_decode s) as [[|a b]|] eqn:E; [|destruct (Byte.eqb a x01); eauto|eauto].
  apply hex_decode_length in E. destruct s; [congruence|discriminate].
Qed.

Lemma hex_decode_bad s : Nat.odd (length s) = true \/ Exists (fun c => hex_digit c = None) s -> hex_decode s = None.
Proof.
  intros H. destruct (hex_decode s) as [b|] eqn:E; [|reflexivity].
  destruct (proj1 (hex_decode_iff s) (ex_intro _ _ E)) as [He Hh].
  destruct H as [H|H]; [unfold Nat.odd in H; rewrite He in H; discriminate|].
  apply Exists_exists in H as (c & I & N). rewrite Forall_forall in Hh. destruct (Hh c I) as [d Hd]. congruence.
Qed.

Lemma malformed_pf pub_of ec_verify blake k s msg :
  ((length s < 8)%nat \/ Nat.odd (length s) = true \/ Exists (fun c => hex_digit c = None) s ->
     fst (VerifyMessage pub_of ec_verify blake k s msg) = ErrR) /\
  (Nat.odd (length s) = true \/ Exists (fun c => hex_digit c = None) s ->
     ExtractKeyVersionFromMessage s = ErrR).
Proof.
  split.
  - intros H. apply verify_rejects. destruct H as [H|H]; [right; exact H|left; apply hex_decode_bad, H].
  - intros H. unfold ExtractKeyVersionFromMessage, decode_buffer. rewrite hex_decode_bad by exact H. reflexivity.
Qed.

Lemma version_codec_pf v : uint32 v ->
  DecodeKeyVersionFromBytes (EncodeKeyVersionAsBytes v) = OkR v /\ uint32 (NextKeyVersion v) /\ NextKeyVersion v <> v.
Proof.
  unfold uint32, NextKeyVersion. intros H. split.
  - rewrite <- (app_nil_r (EncodeKeyVersionAsBytes v)). apply version_roundtrip_pf. lia.
  - Z.div_mod_to_equations. lia.
Qed.

Lemma matches_half pub_of pk k : matches pub_of pk k ->
  k_alg pk = x01 /\ public_half pub_of pk = pub_of (slice (k_priv k)).
Proof.
  intros (A & sk & P & H). split; [exact A|]. unfold public_half. rewrite P. cbn [slice].
  destruct H as [->|[-> ->]]; reflexivity.
Qed.

Lemma signature_roundtrip_pf pub_of ec_sign ec_verify blake k pk ver msg sig :
  ecdsa_correct pub_of ec_sign ec_verify -> matches pub_of pk k -> uint32 ver ->
  SignMessage ec_sign blake k ver msg = OkR sig ->
  fst (VerifyMessage pub_of ec_verify blake pk sig msg) = OkR true /\
  ExtractKeyVersionFromMessage sig = OkR ver.
Proof.
  intros L M V S. destruct (matches_half _ _ _ M) as [A P]. split.
  - eapply sign_verify_pf; eassumption.
  - eapply version_read_pf; [|exact S]. unfold uint32 in V. lia.
Qed.

Lemma key_codec_pf pub_of k :
  (forall sk, k_priv k = Some sk -> k_alg k = x01 -> length sk = 32%nat ->
     DecodePrivateKey (EncodePrivateKey k) = Ret (OkR (KeyPair (Some sk) None x01)) /\
     exists t, EncodeRawPrivateKey k = OkR t /\ DecodeRawPrivateKey t = OkR (KeyPair (Some sk) None x01)) /\
  (forall pk, (k_pub k = Some pk \/ k_pub k = None /\ exists sk, k_priv k = Some sk /\ pk = pub_of sk) ->
     k_alg k = x01 -> length pk = 65%nat ->
     exists t, fst (EncodePublicKey pub_of k) = OkR t /\
       DecodePublicKey t = Ret (OkR (KeyPair None (Some pk) x01))).
Proof.
  split.
  - intros. eapply private_roundtrip_pf; eassumption.
  - intros pk H A L. assert (E : public_half pub_of k = pk).
    { unfold public_half. destruct H as [->|(-> & sk & -> & ->)]; reflexivity. }
    rewrite <- E. apply public_roundtrip_pf; [exact A|]. rewrite E. exact L.
Qed.

Lemma key_accepts_pf s :
  ((exists k, DecodePrivateKey s = Ret (OkR k)) <->
     length s = 66%nat /\ Forall (fun c => hex_digit c <> None) s /\ hex_val (firstn 2 s) = 1) /\
  ((exists k, DecodePublicKey s = Ret (OkR k)) <->
     length s = 132%nat /\ Forall (fun c => hex_digit c <> None) s /\ hex_val (firstn 2 s) = 1) /\
  ((exists k, DecodeRawPrivateKey s = OkR k) <->
     length s = 64%nat /\ Forall (fun c => hex_digit c <> None) s).
Proof.
  split; [apply decode_private_accepts|]. split; [apply decode_public_accepts|].
  unfold DecodeRawPrivateKey, decodeSecP256K1PrivateKey. split.
  - intros (k & H). destruct (hex_decode s) as [b|] eqn:E; [|discriminate].
    destruct (Nat.eqb_spec (length b) 32) as [L|]; [|discriminate].
    split; [rewrite (hex_decode_length _ _ E), L; reflexivity|].
    apply is_hex_digits. exact (proj2 (proj1 (hex_decode_iff s) (ex_intro _ _ E))).
  - intros (L & F). destruct (proj2 (hex_decode_iff s)) as (b & E).
    { split; [rewrite L; reflexivity|apply is_hex_digits; exact F]. }
    rewrite E. apply hex_decode_length in E. replace (length b) with 32%nat by lia. cbn. eauto.
Qed.
