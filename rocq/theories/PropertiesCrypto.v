(** * Properties of signatures, keys and signed messages (C16-C19, C74, C75) *)
From Coq Require Import String List ZArith Bool Lia.
From Coq Require Import Init.Byte.
From Verif Require Import Base BaseProofs Json Crypto CryptoProofs Message MessageProofs WireSpec PropertiesIds.
Import ListNotations.
Open Scope Z_scope.

(** A toy signature scheme for the examples: public keys reveal the private key. *)
Definition toy_pub (sk : bytes) : bytes := x04 :: be_bytes 64 (be_val sk).
Definition toy_sign (sk d : bytes) : option bytes :=
  if Nat.eqb (length sk) 32 then Some (be_bytes 64 (be_val sk * 1000003 + be_val d) ++ [x01]) else None.
Definition toy_verify (pk d s : bytes) : bool :=
  bytes_eqb s (be_bytes 64 (be_val (tl pk) * 1000003 + be_val d)).
Definition toy_blake (b : bytes) : bytes := be_bytes 32 (fold_left (fun a c => (a * 257 + bz c) mod 65521) b 1).

Example toy_correct : ecdsa_correct toy_pub toy_sign toy_verify.
Proof.
  intros sk d s. unfold toy_sign. destruct (Nat.eqb_spec (length sk) 32) as [L|]; [|discriminate].
  intros E. assert (E' : be_bytes 64 (be_val sk * 1000003 + be_val d) ++ [x01] = s) by congruence. subst s.
  split; [rewrite app_length, be_bytes_length; reflexivity|].
  rewrite firstn_app_len by apply be_bytes_length. unfold toy_verify, toy_pub. cbn [tl].
  rewrite be_val_be_bytes; [apply bytes_eqb_refl|].
  generalize (be_val_range sk). rewrite L. change (256 ^ Z.of_nat 32) with (2 ^ 256). change (256 ^ Z.of_nat 64) with (2 ^ 512).
  intros [H1 H2]. split; [exact H1|]. eapply Z.lt_trans; [exact H2|]. reflexivity.
Qed.

Definition toy_key (n : Z) : keypair := KeyPair (Some (idn n)) None x01.
Definition toy_pubkey (n : Z) : keypair := KeyPair None (Some (toy_pub (idn n))) x01.

(** ** C16 *)
Theorem signature_roundtrip : forall pub_of ec_sign ec_verify blake k pk ver msg sig,
  ecdsa_correct pub_of ec_sign ec_verify -> matches pub_of pk k -> uint32 ver ->
  SignMessage ec_sign blake k ver msg = OkR sig ->
  fst (VerifyMessage pub_of ec_verify blake pk sig msg) = OkR true /\
  ExtractKeyVersionFromMessage sig = OkR ver.
Proof. exact signature_roundtrip_pf. Qed.
Print Assumptions signature_roundtrip.

Example signature_roundtrip_ex :
  match SignMessage toy_sign toy_blake (toy_key 7) 258 (gs "hello") with
  | OkR sig => fst (VerifyMessage toy_pub toy_verify toy_blake (toy_pubkey 7) sig (gs "hello")) = OkR true /\
      fst (VerifyMessage toy_pub toy_verify toy_blake (toy_pubkey 8) sig (gs "hello")) = OkR false /\
      fst (VerifyMessage toy_pub toy_verify toy_blake (toy_pubkey 7) sig (gs "hellp")) = OkR false /\
      ExtractKeyVersionFromMessage sig = OkR 258 /\ firstn 8 sig = gs "00000102"
  | ErrR => False
  end.
Proof. vm_compute. repeat split. Qed.

(** What a signature text is checked against: key, message and raw signature. *)
Theorem signature_verification_depends : forall pub_of ec_verify blake k s s' b b' msg,
  hex_decode s = Some b -> hex_decode s' = Some b' -> (4 <= length b)%nat -> (4 <= length b')%nat ->
  skipn 4 b = skipn 4 b' ->
  VerifyMessage pub_of ec_verify blake k s msg = VerifyMessage pub_of ec_verify blake k s' msg.
Proof. exact (fun pub_of ec_verify blake => verify_raw_only pub_of ec_verify blake). Qed.
Print Assumptions signature_verification_depends.

(** Malformed text is an error everywhere; text shorter than the version prefix is
    an error for verification.  Missing: version extraction, see below. *)
Theorem signature_malformed_rejected_partial : forall pub_of ec_verify blake k s msg,
  ((length s < 8)%nat \/ Nat.odd (length s) = true \/ Exists (fun c => hex_digit c = None) s ->
     fst (VerifyMessage pub_of ec_verify blake k s msg) = ErrR) /\
  (Nat.odd (length s) = true \/ Exists (fun c => hex_digit c = None) s ->
     ExtractKeyVersionFromMessage s = ErrR).
Proof. exact malformed_pf. Qed.
Print Assumptions signature_malformed_rejected_partial.

Example signature_malformed_ex :
  fst (VerifyMessage toy_pub toy_verify toy_blake (toy_pubkey 7) (gs "000001") (gs "x")) = ErrR /\
  fst (VerifyMessage toy_pub toy_verify toy_blake (toy_pubkey 7) (gs "00000001") (gs "x")) = OkR false /\
  ExtractKeyVersionFromMessage (gs "0000000g") = ErrR.
Proof. vm_compute. repeat split. Qed.

(** Every well-formed text too short to hold a version still yields one. *)
Theorem signature_short_version_refuted : forall s b, hex_decode s = Some b -> (length b < 4)%nat ->
  exists v, ExtractKeyVersionFromMessage s = OkR v.
Proof. exact hex_decode_short. Qed.
Print Assumptions signature_short_version_refuted.

Example signature_short_version_ex :
  ExtractKeyVersionFromMessage [] = OkR 0 /\ ExtractKeyVersionFromMessage (gs "ab") = OkR 2875326464.
Proof. vm_compute. split; reflexivity. Qed.

(** ** C17: false, any version can be put in front of any raw signature *)
Theorem key_version_bound_refuted : forall pub_of ec_verify blake k ver ver' raw msg,
  VerifyMessage pub_of ec_verify blake k (hex_encode (EncodeKeyVersionAsBytes ver ++ raw)) msg =
  VerifyMessage pub_of ec_verify blake k (hex_encode (EncodeKeyVersionAsBytes ver' ++ raw)) msg.
Proof. exact version_unbound. Qed.
Print Assumptions key_version_bound_refuted.

Example key_version_bound_ex :
  match SignMessage toy_sign toy_blake (toy_key 7) 1 (gs "m") with
  | OkR sig =>
      let forged := gs "ffffffff" ++ skipn 8 sig in
      ExtractKeyVersionFromMessage forged = OkR 4294967295 /\
      fst (VerifyMessage toy_pub toy_verify toy_blake (toy_pubkey 7) forged (gs "m")) = OkR true
  | ErrR => False
  end.
Proof. vm_compute. split; reflexivity. Qed.

(** Versions themselves survive their byte form, and successive ones differ. *)
Theorem key_version_codec_partial : forall v, uint32 v ->
  DecodeKeyVersionFromBytes (EncodeKeyVersionAsBytes v) = OkR v /\ uint32 (NextKeyVersion v) /\ NextKeyVersion v <> v.
Proof. exact version_codec_pf. Qed.
Print Assumptions key_version_codec_partial.

Example key_version_codec_ex : NextKeyVersion InitialKeyVersion = 2 /\ NextKeyVersion 4294967295 = 0.
Proof. split; reflexivity. Qed.

(** ** C74: false, the last byte of a raw signature is not checked *)
Theorem signature_unique_refuted : forall pub_of ec_verify blake k ver rs v v' msg, length rs = 64%nat ->
  VerifyMessage pub_of ec_verify blake k (hex_encode (EncodeKeyVersionAsBytes ver ++ rs ++ [v])) msg =
  VerifyMessage pub_of ec_verify blake k (hex_encode (EncodeKeyVersionAsBytes ver ++ rs ++ [v'])) msg.
Proof. exact recovery_unbound. Qed.
Print Assumptions signature_unique_refuted.

Example signature_unique_ex :
  match SignMessage toy_sign toy_blake (toy_key 7) 1 (gs "m") with
  | OkR sig =>
      let other := firstn 136 sig ++ gs "77" in
      bytes_eqb other sig = false /\
      fst (VerifyMessage toy_pub toy_verify toy_blake (toy_pubkey 7) other (gs "m")) = OkR true
  | ErrR => False
  end.
Proof. vm_compute. split; reflexivity. Qed.

(** ** C18 *)
Theorem key_codec_roundtrip : forall pub_of k,
  (forall sk, k_priv k = Some sk -> k_alg k = x01 -> length sk = 32%nat ->
     DecodePrivateKey (EncodePrivateKey k) = Ret (OkR (KeyPair (Some sk) None x01)) /\
     exists t, EncodeRawPrivateKey k = OkR t /\ DecodeRawPrivateKey t = OkR (KeyPair (Some sk) None x01)) /\
  (forall pk, (k_pub k = Some pk \/ k_pub k = None /\ exists sk, k_priv k = Some sk /\ pk = pub_of sk) ->
     k_alg k = x01 -> length pk = 65%nat ->
     exists t, fst (EncodePublicKey pub_of k) = OkR t /\
       DecodePublicKey t = Ret (OkR (KeyPair None (Some pk) x01))).
Proof. exact key_codec_pf. Qed.
Print Assumptions key_codec_roundtrip.

Example key_codec_ex :
  EncodePrivateKey (toy_key 255) = gs "0100000000000000000000000000000000000000000000000000000000000000ff" /\
  DecodePrivateKey (gs "0100000000000000000000000000000000000000000000000000000000000000ff") = Ret (OkR (toy_key 255)) /\
  match fst (EncodePublicKey toy_pub (toy_key 9)) with
  | OkR t => DecodePublicKey t = Ret (OkR (toy_pubkey 9))
  | ErrR => False
  end.
Proof. vm_compute. repeat split. Qed.

(** Exactly the texts of the right length, in hex, starting with algorithm 1 are
    accepted. *)
Theorem key_codec_accepts : forall s,
  ((exists k, DecodePrivateKey s = Ret (OkR k)) <->
     length s = 66%nat /\ Forall (fun c => hex_digit c <> None) s /\ hex_val (firstn 2 s) = 1) /\
  ((exists k, DecodePublicKey s = Ret (OkR k)) <->
     length s = 132%nat /\ Forall (fun c => hex_digit c <> None) s /\ hex_val (firstn 2 s) = 1) /\
  ((exists k, DecodeRawPrivateKey s = OkR k) <->
     length s = 64%nat /\ Forall (fun c => hex_digit c <> None) s).
Proof. exact key_accepts_pf. Qed.
Print Assumptions key_codec_accepts.

Example key_codec_rejects_ex :
  DecodePrivateKey (gs "02" ++ hex_encode (idn 5)) = Ret ErrR /\ DecodePublicKey (gs "01ff") = Ret ErrR /\
  DecodePrivateKey (gs "0x") = Ret ErrR.
Proof. vm_compute. repeat split. Qed.

(** Decoding returns normally on every text but the empty one. *)
Theorem key_codec_total_partial : forall s, s <> [] ->
  (exists r, DecodePrivateKey s = Ret r) /\ (exists r, DecodePublicKey s = Ret r).
Proof. exact decode_keys_total. Qed.
Print Assumptions key_codec_total_partial.

Theorem key_codec_total_refuted : DecodePrivateKey [] = Panic /\ DecodePublicKey [] = Panic.
Proof. vm_compute. split; reflexivity. Qed.
Print Assumptions key_codec_total_refuted.

(** ** C19 *)
Theorem message_sign_verify : forall pub_of ec_sign ec_verify blake m k ver m' pk,
  ecdsa_correct pub_of ec_sign ec_verify -> matches pub_of pk k ->
  MessageSign ec_sign blake m k ver = (true, m') ->
  MessageVerify pub_of ec_verify blake m' pk = (true, m') /\
  m_type m' = m_type m /\ m_version m' = m_version m /\ m_supported m' = m_supported m /\ m_body m' = m_body m.
Proof. exact message_roundtrip_pf. Qed.
Print Assumptions message_sign_verify.

Definition toy_msg : message := CreateFCRMessage 1 [1; 1] 104 (gs "{""nonce"":42}").

Example message_sign_verify_ex :
  let (ok, m) := MessageSign toy_sign toy_blake toy_msg (toy_key 7) 1 in
  ok = true /\ m_sig m <> [] /\
  MessageVerify toy_pub toy_verify toy_blake m (toy_pubkey 7) = (true, m) /\
  MessageVerify toy_pub toy_verify toy_blake (Message 105 1 (m_supported m) (m_body m) (m_sig m)) (toy_pubkey 7)
    = (false, Message 105 1 (m_supported m) (m_body m) []).
Proof. vm_compute. split; [reflexivity|]. split; [discriminate|]. split; reflexivity. Qed.

(** A check that passes leaves the message alone; one that fails erases the
    signature and nothing else. *)
Theorem message_verify_keeps_partial : forall pub_of ec_verify blake m k ok m',
  MessageVerify pub_of ec_verify blake m k = (ok, m') ->
  m_type m' = m_type m /\ m_version m' = m_version m /\ m_supported m' = m_supported m /\ m_body m' = m_body m /\
  m_sig m' = if ok then m_sig m else [].
Proof. exact verify_keeps_pf. Qed.
Print Assumptions message_verify_keeps_partial.

Theorem message_verify_keeps_refuted : exists m k k',
  fst (MessageVerify toy_pub toy_verify toy_blake m k) = true /\
  (let m' := snd (MessageVerify toy_pub toy_verify toy_blake m k') in
   fst (MessageVerify toy_pub toy_verify toy_blake m' k) = false).
Proof.
  exists (snd (MessageSign toy_sign toy_blake toy_msg (toy_key 7) 1)), (toy_pubkey 7), (toy_pubkey 8).
  vm_compute. split; reflexivity.
Qed.
Print Assumptions message_verify_keeps_refuted.

(** Everything but the signature is covered by the signature. *)
Theorem message_signed_content : forall m m', MessageToSign m = MessageToSign m' ->
  m_type m = m_type m' /\ m_version m = m_version m' /\ m_supported m = m_supported m' /\ m_body m = m_body m'.
Proof. exact message_to_sign_inj. Qed.
Print Assumptions message_signed_content.

Example message_signed_content_ex :
  MessageToSign toy_msg = gs "{""message_type"":104,""protocol_version"":1,""protocol_supported"":[1,1],""message_body"":""eyJub25jZSI6NDJ9"",""message_signature"":""""}".
Proof. vm_compute. reflexivity. Qed.

(** ** C75 *)
Theorem message_wire_roundtrip : forall m, int32 (m_type m) -> int32 (m_version m) ->
  (forall l, m_supported m = Some l -> Forall int32 l) ->
  FCRMsgFromBytes (FCRMsgToBytes m) = OkR m.
Proof. exact message_wire_pf'. Qed.
Print Assumptions message_wire_roundtrip.

Example message_wire_ex :
  FCRMsgFromBytes (FCRMsgToBytes (set_sig toy_msg (gs "00ff<""&"))) = OkR (set_sig toy_msg (gs "00ff<""&")) /\
  FCRMsgFromBytes (gs "{""Message_Type"":7,""message_body"":null,""extra"":[{}]}") = OkR (Message 7 0 None None []) /\
  FCRMsgFromBytes (gs "{""message_type"":2147483648}") = ErrR.
Proof. vm_compute. repeat split. Qed.
