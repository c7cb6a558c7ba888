(** * C209, C210: signatures and keys of the TypeScript client *)
From Coq Require Import String List ZArith Bool Lia.
From Coq Require Import Init.Byte.
From Verif Require Import Base BaseProofs Json Crypto CryptoProofs JsClient JsClientProofs JsSign PropertiesMerkle.
Import ListNotations.
Open Scope Z_scope.

Lemma version_bytes v : 0 <= v < 2 ^ 32 -> js_version_bytes v = be_bytes 4 v.
Proof.
  intros H. unfold js_version_bytes. cbn [map be_bytes app]. rewrite !Z.shiftr_div_pow2 by lia. rewrite !Z.div_div by lia.
  change (2 ^ 24) with (256 * (256 * 256)). change (2 ^ 16) with (256 * 256). change (2 ^ 8) with 256. change (2 ^ 0) with 1. rewrite Z.div_1_r. reflexivity.
Qed.

(** Text that begins with a zero character is no number. *)
Lemma skip_keeps l : exists l', skip_blanks (l ++ [x00]) = l' ++ [x00].
Proof.
  assert (bz x00 = 0) as Z0 by (vm_compute; reflexivity). induction l as [|c t IH]; cbn [app skip_blanks]; [rewrite Z0; exists []; reflexivity|].
  destruct (_ || _); [exact IH|exists (c :: t); reflexivity].
Qed.
Lemma zero_no_number t : js_Number (x00 :: t) = None.
Proof.
  assert (bz x00 = 0) as Z0 by (vm_compute; reflexivity). unfold js_Number. cbn [rev]. destruct (skip_keeps (rev t)) as (l & ->). rewrite rev_app_distr. cbn [rev app skip_blanks].
  rewrite Z0. cbn [Z.leb Z.compare andb orb Z.eqb]. cbn [digits_of]. unfold digit_of. rewrite Z0. reflexivity.
Qed.
Lemma small_version v : 0 <= v < 2 ^ 24 -> exists t, be_bytes 4 v = x00 :: t.
Proof.
  intros H. cbn [be_bytes app]. rewrite !Z.div_div by lia. rewrite (Z.div_small v (256 * (256 * 256))) by lia. eexists. reflexivity.
Qed.

(** Four characters give a number below 10000. *)
Lemma skip_length l : (length (skip_blanks l) <= length l)%nat.
Proof. induction l as [|c t IH]; cbn [skip_blanks length]; [lia|]. destruct (_ || _); cbn [length]; lia. Qed.
Lemma digits_bound : forall s acc n, 0 <= acc -> digits_of acc s = Some n -> acc * 10 ^ Z.of_nat (length s) <= n < (acc + 1) * 10 ^ Z.of_nat (length s).
Proof.
  induction s as [|c t IH]; intros acc n A H; cbn [digits_of] in H; [injection H as <-; cbn [length Z.of_nat]; lia|].
  destruct (digit_of c) as [d|] eqn:D; [|discriminate H]. assert (0 <= d <= 9) as B.
  { unfold digit_of in D. destruct (_ && _) eqn:E in D; [|discriminate D]. injection D as <-. apply andb_prop in E. destruct E as (E1 & E2). apply Z.leb_le in E1. apply Z.leb_le in E2. lia. }
  apply IH in H; [|lia]. cbn [length]. rewrite Nat2Z.inj_succ, Z.pow_succ_r by lia.
  pose proof (Z.pow_pos_nonneg 10 (Z.of_nat (length t)) ltac:(lia) ltac:(lia)). nia.
Qed.
Lemma number_bound s n : (length s <= 4)%nat -> js_Number s = Some n -> 0 <= n < 10000.
Proof.
  intros L H. unfold js_Number in H. apply digits_bound in H; [|lia]. pose proof (skip_length (rev (skip_blanks (rev s)))) as B1. rewrite rev_length in B1.
  pose proof (skip_length (rev s)) as B2. rewrite rev_length in B2.
  pose proof (Z.pow_le_mono_r 10 (Z.of_nat (length (skip_blanks (rev (skip_blanks (rev s)))))) 4 ltac:(lia) ltac:(lia)) as M. change (10 ^ 4) with 10000 in M. lia.
Qed.

Section properties.
  Variable pub_of : bytes -> bytes.
  Variable js_ec_sign : bytes -> bytes -> option bytes.
  Variable ec_verify : bytes -> bytes -> bytes -> bool.
  Variable blake : bytes -> bytes.
  (** The library signs with 64 bytes that verify under the public key. *)
  Hypothesis Law : forall sk d s, length sk = 32%nat -> js_ec_sign sk d = Some s -> length s = 64%nat /\ ec_verify (pub_of sk) d s = true.

  (** ** C209 *)

  (** A key read from its text signs; the signature verifies in TypeScript and in Go for the text made of the values of the message, and Go finds the
      key version in it.  TypeScript never does: it finds no number for versions below 2^24, and another number, or none, for all others. *)
  Theorem js_sign_verifies : forall sk version msg raw, length sk = 32%nat -> length (pub_of sk) = 65%nat -> 0 <= version < 2 ^ 32 ->
    js_ec_sign sk (blake (getToBeSigned msg)) = Some raw ->
    exists key pub signature, js_private 1 (hex_encode (x01 :: sk)) = OkR key /\ js_public 1 (hex_encode (x01 :: pub_of sk)) = OkR pub /\
      js_signMessage js_ec_sign blake key version msg = OkR signature /\
      js_verifyMessage ec_verify blake pub signature (getToBeSigned msg) = OkR true /\
      fst (VerifyMessage pub_of ec_verify blake (KeyPair None (Some (pub_of sk)) x01) signature (getToBeSigned msg)) = OkR true /\
      ExtractKeyVersionFromMessage signature = OkR version /\
      (version < 2 ^ 24 -> js_extract_version signature = OkR None) /\
      js_extract_version signature <> OkR (Some version).
  Proof using Law.
    intros sk version msg raw S32 P65 V E. destruct (Law _ _ _ S32 E) as (R & Vf).
    pose proof (js_hex _ _ (hex_decode_encode (x01 :: sk))) as D1. pose proof (js_hex _ _ (hex_decode_encode (x01 :: pub_of sk))) as D2.
    set (sb := be_bytes 4 version ++ raw ++ [x00]). pose proof (js_hex _ _ (hex_decode_encode sb)) as D3.
    exists (JsKey sk [] Shared), (JsKey [] (pub_of sk) (Number 1)), (hex_encode sb).
    assert (length (be_bytes 4 version) = 4%nat) as L4 by apply be_bytes_length.
    split; [unfold js_private; rewrite D1, S32; reflexivity|]. split; [unfold js_public; rewrite D2, P65; reflexivity|].
    split; [unfold js_signMessage, js_key_sign; cbn [jk_alg jk_priv]; rewrite E, version_bytes by exact V; reflexivity|].
    assert (skipn 4 sb = raw ++ [x00]) as K4 by (unfold sb; rewrite skipn_app, L4, skipn_all2 by lia; reflexivity).
    assert (length sb = 69%nat) as L69 by (unfold sb; rewrite !app_length, L4, R; reflexivity).
    assert (firstn 64 (raw ++ [x00]) = raw) as F64 by (rewrite firstn_app, R, firstn_all2 by lia; cbn [Nat.sub firstn]; apply app_nil_r).
    split.
    { unfold js_verifyMessage, extractKeyFromMessage. rewrite D3, L69, K4. cbn [Nat.ltb Nat.leb Nat.sub]. rewrite F64. cbn [jk_pub]. rewrite Vf. reflexivity. }
    split.
    { unfold VerifyMessage. rewrite hex_decode_encode, L69. cbn [Nat.ltb Nat.leb]. unfold KeyVerify. cbn [k_alg]. change (Byte.eqb x01 x01) with true. cbn [fst].
      unfold secp256k1Verify. rewrite K4, app_length, R. cbn [length Nat.add Nat.eqb]. unfold public_half. cbn [k_pub]. rewrite F64, Vf. reflexivity. }
    split.
    { unfold ExtractKeyVersionFromMessage, decode_buffer. rewrite hex_decode_encode. unfold sb. rewrite <- app_assoc, firstn_app, L4. rewrite firstn_all2 by lia. cbn [Nat.sub firstn].
      rewrite app_nil_r. rewrite <- (app_nil_r (be_bytes 4 version)). apply version_roundtrip_pf. exact V. }
    assert (js_extract_version (hex_encode sb) = OkR (js_Number (be_bytes 4 version))) as X.
    { unfold js_extract_version. rewrite D3. unfold sb. rewrite firstn_app, L4, firstn_all2 by lia. cbn [Nat.sub firstn]. rewrite app_nil_r. unfold js_version_of. rewrite L4. reflexivity. }
    assert (version < 2 ^ 24 -> js_extract_version (hex_encode sb) = OkR None) as Small.
    { intros V24. rewrite X. f_equal. destruct (small_version version ltac:(lia)) as (t & ->). apply zero_no_number. }
    split; [exact Small|]. intros Q. destruct (Z.lt_ge_cases version (2 ^ 24)) as [V24|V24]; [rewrite (Small V24) in Q; discriminate Q|].
    assert (js_Number (be_bytes 4 version) = Some version) as Q2 by congruence. apply number_bound in Q2; [lia|]. rewrite L4. reflexivity.
  Qed.
End properties.
Print Assumptions js_sign_verifies.

(** The version whose four bytes are digits is read as the decimal number they spell. *)
Theorem js_version_spelt : forall a b c d, 0 <= a <= 9 -> 0 <= b <= 9 -> 0 <= c <= 9 -> 0 <= d <= 9 ->
  js_version_of [zb (48 + a); zb (48 + b); zb (48 + c); zb (48 + d)] = OkR (Some (1000 * a + 100 * b + 10 * c + d)).
Proof.
  intros a b c d A B C D. unfold js_version_of, js_Number. cbn [length Nat.ltb Nat.leb rev app].
  assert (forall x t, 0 <= x <= 9 -> skip_blanks (zb (48 + x) :: t) = zb (48 + x) :: t) as K.
  { intros x t X. cbn [skip_blanks]. rewrite bz_zb by lia. destruct (Z.leb_spec 9 (48 + x)), (Z.leb_spec (48 + x) 13), (Z.eqb_spec (48 + x) 32); try lia; reflexivity. }
  rewrite K by exact D. cbn [rev app]. rewrite K by exact A. cbn [digits_of]. unfold digit_of. rewrite !bz_zb by lia.
  repeat match goal with |- context [(48 <=? 48 + ?x) && (48 + ?x <=? 57)] => replace ((48 <=? 48 + x) && (48 + x <=? 57)) with true by lia end.
  do 2 f_equal. lia.
Qed.
Print Assumptions js_version_spelt.

(** Refuted: a signature does not bind the message.  Whatever the functions, messages with the same values in a row have the same signature: names are left out
    and nothing separates the values. *)
Theorem js_sign_binds_refuted : exists m1 m2 : list (gostring * json), m1 <> m2 /\
  forall js_ec_sign blake key version, js_signMessage js_ec_sign blake key version m1 = js_signMessage js_ec_sign blake key version m2.
Proof.
  exists [(gs "message_type", JNum 1); (gs "nonce", JNum 12)], [(gs "message_type", JNum 11); (gs "nonce", JNum 2)].
  split; [intros H; discriminate H|]. intros sign blake key version. unfold js_signMessage.
  replace (getToBeSigned [(gs "message_type", JNum 1); (gs "nonce", JNum 12)]) with (getToBeSigned [(gs "message_type", JNum 11); (gs "nonce", JNum 2)]) by (vm_compute; reflexivity).
  reflexivity.
Qed.
Print Assumptions js_sign_binds_refuted.

(** ** C210 *)

(** Refuted: the algorithm set in one key is that of all.  Setting it changes nothing for this key, which signs as before; but keys with the
    algorithm they all have are no longer read, neither private nor public ones, and texts with the other number are. *)
Theorem js_algorithm_refuted : forall current k n, js_private current (hex_encode (zb current :: jk_priv k)) = OkR k -> 0 <= current < 256 -> 0 <= n < 256 -> n <> current ->
  exists now, set_algorithm k n = OkR now /\
    (forall key, js_private now (hex_encode (zb current :: key)) = ErrR /\ js_public now (hex_encode (zb current :: key)) = ErrR) /\
    (forall key, length key = 32%nat -> exists k', js_private now (hex_encode (zb n :: key)) = OkR k' /\ jk_priv k' = key) /\
    forall js_ec_sign blake version msg raw, js_ec_sign (jk_priv k) (blake (getToBeSigned msg)) = Some raw ->
      exists signature, js_signMessage js_ec_sign blake k version msg = OkR signature.
Proof.
  intros current k n H C N D. unfold js_private in H. rewrite (js_hex _ _ (hex_decode_encode _)) in H.
  destruct (_ && _) eqn:B in H; [|discriminate H]. injection H as <-. exists n. cbn [set_algorithm jk_alg]. split; [reflexivity|]. split.
  - intros key. unfold js_private, js_public. rewrite (js_hex _ _ (hex_decode_encode _)), bz_zb by lia. destruct (Z.eqb_spec current n) as [X|X]; [lia|]. cbn [andb]. auto.
  - split.
    + intros key L. unfold js_private. rewrite (js_hex _ _ (hex_decode_encode _)), bz_zb by lia. rewrite Z.eqb_refl, L. eexists. split; reflexivity.
    + intros sign blake version msg raw E. unfold js_signMessage, js_key_sign. cbn [jk_alg jk_priv] in *. rewrite E. eauto.
Qed.
Print Assumptions js_algorithm_refuted.

(** A key read from the text of a public key does not sign, and has no algorithm that could be set. *)
Theorem js_public_never_signs : forall current text k, js_public current text = OkR k ->
  (forall js_ec_sign blake version msg, js_signMessage js_ec_sign blake k version msg = ErrR) /\ forall n, set_algorithm k n = ErrR.
Proof.
  intros current text k H. unfold js_public in H. destruct (decodeStringAsHexArray text) as [|a key]; [discriminate H|]. destruct (_ && _); [|discriminate H].
  injection H as <-. split; reflexivity.
Qed.
Print Assumptions js_public_never_signs.

(** As long as nobody sets it, the bytes of keys are read from hexadecimal text as in Go. *)
Theorem js_keys_partial : forall b key,
  ((exists k, js_public 1 (hex_encode b) = OkR k /\ jk_pub k = key) <-> DecodePublicKey (hex_encode b) = Ret (OkR (KeyPair None (Some key) x01))) /\
  ((exists k, js_private 1 (hex_encode b) = OkR k /\ jk_priv k = key) <-> DecodePrivateKey (hex_encode b) = Ret (OkR (KeyPair (Some key) None x01))).
Proof.
  intros b key. unfold js_public, DecodePublicKey, js_private, DecodePrivateKey. rewrite (js_hex _ _ (hex_decode_encode _)), hex_decode_encode. destruct b as [|a rest].
  - split; (split; [intros (k & H & _); discriminate H|intros H; discriminate H]).
  - unfold decodeSecP256K1PublicKey, decodeSecP256K1PrivateKey. replace (bz a =? 1) with (Byte.eqb a x01).
    + destruct (Byte.eqb a x01); cbn [andb]; [|split; (split; [intros (k & H & _); discriminate H|intros H; discriminate H])].
      split.
      * destruct (Nat.eqb (length rest) 65); (split; [intros (k & H & E)|intros H]); try discriminate H.
        -- injection H as <-. cbn in E. subst key. reflexivity.
        -- injection H as <-. eexists. split; reflexivity.
      * destruct (Nat.eqb (length rest) 32); (split; [intros (k & H & E)|intros H]); try discriminate H.
        -- injection H as <-. cbn in E. subst key. reflexivity.
        -- injection H as <-. eexists. split; reflexivity.
    + destruct (Z.eqb_spec (bz a) 1) as [E|E].
      * apply byte_eqb_eq. rewrite <- (zb_bz a), E. vm_compute. reflexivity.
      * destruct (Byte.eqb a x01) eqn:A; [|reflexivity]. apply byte_eqb_eq in A. subst a. exfalso. apply E. vm_compute. reflexivity.
Qed.
Print Assumptions js_keys_partial.

(** ** Examples *)
Definition toy_pub65 (sk : bytes) : bytes := x04 :: sk ++ sk.
Definition toy_sign64 (sk d : bytes) : option bytes := Some (sk ++ toy_hash (sk ++ d)).
Definition toy_ec64 (pk d s : bytes) : bool := let sk := firstn 32 (skipn 1 pk) in bytes_eqb s (sk ++ toy_hash (sk ++ d)).
(** msg_signing.test.ts L77-81: a message of two numbers. *)
Definition toy_msg : list (gostring * json) := [(gs "message_type", JNum 7); (gs "challenge", JStr (gs "a4b2"))].
Definition toy_text : gostring := Eval vm_compute in hex_encode (x01 :: idn 5).
Definition signature5 : gostring := Eval vm_compute in
  match js_private 1 toy_text with OkR k => match js_signMessage toy_sign64 toy_hash k 3 toy_msg with OkR s => s | ErrR => [] end | ErrR => [] end.
Definition key5 (now : Z) : result js_key := js_public now (hex_encode (x01 :: toy_pub65 (idn 5))).
Example js_signed : getToBeSigned toy_msg = gs "7a4b2" /\ length signature5 = 138%nat /\ js_extract_version signature5 = OkR None /\
  ExtractKeyVersionFromMessage signature5 = OkR 3 /\
  match key5 1 with OkR k => js_verifyMessage toy_ec64 toy_hash k signature5 (gs "7a4b2") = OkR true /\ js_verifyMessage toy_ec64 toy_hash k signature5 (gs "7a4b3") = OkR false
  | ErrR => False end.
Proof. vm_compute. repeat split. Qed.
(** The version whose bytes are digits is read as a decimal number. *)
Example js_version_digits : js_version_of (js_version_bytes 808464433) = OkR (Some 1) /\ js_version_of (js_version_bytes 1) = OkR None /\ js_version_of [x00] = ErrR.
Proof. vm_compute. repeat split. Qed.
(** What the test does (msg_signing.test.ts L101-111): the key still signs, and afterwards its text is refused. *)
Example js_set : match js_private 1 toy_text with
  | OkR k => match set_algorithm k 2 with
             | OkR now => now = 2 /\ js_private now toy_text = ErrR /\ key5 now = ErrR /\ js_signMessage toy_sign64 toy_hash k 3 toy_msg = OkR signature5
             | ErrR => False end
  | ErrR => False end.
Proof. vm_compute. repeat split. Qed.
Lemma toy_law : forall sk d s, length sk = 32%nat -> toy_sign64 sk d = Some s -> length s = 64%nat /\ toy_ec64 (toy_pub65 sk) d s = true.
Proof.
  intros sk d s L H. injection H as <-. split; [rewrite app_length, L, toy_hash_32; reflexivity|]. unfold toy_ec64, toy_pub65. cbn [skipn].
  rewrite firstn_app, L, firstn_all2 by lia. cbn [Nat.sub firstn]. rewrite app_nil_r. apply bytes_eqb_eq. reflexivity.
Qed.
