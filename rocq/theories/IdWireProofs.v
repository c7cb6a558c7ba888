(** Lemmas about [IdWire.v]. *)
From Coq Require Import String List ZArith Bool Lia.
From Coq Require Import Init.Byte.
From Verif Require Import Base BaseProofs Ids IdsProofs Json JsonProofs MerkleWire MerkleWireProofs Crypto CryptoProofs
  WireSpec IdWire.
Import ListNotations.
Open Scope Z_scope.

Lemma unmarshal_id_iff p id : UnmarshalID p = OkR id <->
  length id = 32%nat /\ exists t, json_parse p = Some (JStr t) /\ b64_decode t = (id, true).
Proof.
  unfold UnmarshalID, unmarshal. split.
  - destruct (json_parse p) as [j|]; [|discriminate]. destruct j; cbn [dec_bytes]; try discriminate.
    destruct (b64_decode s) as [d [|]] eqn:E; [|discriminate].
    destruct (Nat.eqb_spec (length d) WordSize) as [L|]; [|discriminate]. intros [= <-]. split; [exact L|]. eauto.
  - intros (L & t & -> & D). cbn [dec_bytes]. rewrite D. rewrite L. reflexivity.
Qed.

Lemma id_json_pf id : length id = 32%nat -> UnmarshalID (MarshalID id) = OkR id.
Proof.
  intros L. apply unmarshal_id_iff. split; [exact L|]. exists (b64_encode id). split.
  - unfold MarshalID, json_bytes. now apply json_roundtrip.
  - apply b64_roundtrip.
Qed.

Lemma key_json_pf pub_of k : k_alg k = x01 -> length (public_half pub_of k) = 65%nat ->
  exists t, MarshalKey pub_of k = OkR t /\ UnmarshalKey t = Ret (OkR (KeyPair None (Some (public_half pub_of k)) x01)).
Proof.
  intros A L. destruct (public_roundtrip_pf pub_of k A L) as (t & E & D). unfold MarshalKey. rewrite E.
  eexists. split; [reflexivity|]. unfold UnmarshalKey. rewrite unmarshal_json; [exact D|reflexivity|discriminate].
Qed.

Lemma key_json_panics p : UnmarshalKey p = Panic <->
  json_parse p = Some JNull \/ json_parse p = Some (JStr []).
Proof.
  unfold UnmarshalKey, unmarshal, DecodePublicKey. split.
  - destruct (json_parse p) as [j|]; [|discriminate]. destruct j; cbn [dec_str]; try discriminate; auto.
    destruct s as [|a s]; [auto|]. intros H. exfalso. destruct (hex_decode (a :: s)) as [[|c b]|] eqn:E; try discriminate H.
    + assert (L := hex_decode_length _ _ E). cbn [length] in L. lia.
    + destruct (Byte.eqb c x01); discriminate.
  - intros [-> | ->]; reflexivity.
Qed.

Lemma node_id_pf pub_of blake k : (forall m, length (blake m) = 32%nat) -> k_alg k = x01 ->
  NewNodeIDFromPublicKey pub_of blake k = OkR (blake (x01 :: public_half pub_of k)).
Proof.
  intros B A. unfold NewNodeIDFromPublicKey, HashPublicKey. rewrite A. change (Byte.eqb x01 x01) with true. cbn [fst].
  unfold NewNodeIDFromBytes. rewrite B. cbn [Nat.ltb Nat.leb WordSize]. unfold left_pad. rewrite B. reflexivity.
Qed.

Lemma node_id_unknown pub_of blake k : k_alg k <> x01 -> NewNodeIDFromPublicKey pub_of blake k = ErrR.
Proof.
  intros A. unfold NewNodeIDFromPublicKey, HashPublicKey. destruct (Byte.eqb (k_alg k) x01) eqn:E; [|reflexivity].
  apply byte_eqb_eq in E. congruence.
Qed.

Lemma node_id_binds_pf pub_of blake k k' id : (forall m, length (blake m) = 32%nat) ->
  NewNodeIDFromPublicKey pub_of blake k = OkR id -> NewNodeIDFromPublicKey pub_of blake k' = OkR id ->
  public_half pub_of k = public_half pub_of k' \/ collision blake.
Proof.
  intros B H H'.
  assert (A : k_alg k = x01).
  { destruct (Byte.eqb (k_alg k) x01) eqn:E; [now apply byte_eqb_eq in E|].
    rewrite node_id_unknown in H; [discriminate|]. intros X. rewrite X in E. discriminate. }
  assert (A' : k_alg k' = x01).
  { destruct (Byte.eqb (k_alg k') x01) eqn:E; [now apply byte_eqb_eq in E|].
    rewrite node_id_unknown in H'; [discriminate|]. intros X. rewrite X in E. discriminate. }
  rewrite (node_id_pf _ _ _ B A) in H. rewrite (node_id_pf _ _ _ B A') in H'. injection H as <-. injection H' as H'.
  destruct (bytes_eqb_spec (public_half pub_of k) (public_half pub_of k')) as [E|N]; [auto|right].
  exists (x01 :: public_half pub_of k), (x01 :: public_half pub_of k'). split; congruence.
Qed.

Lemma verify_hash_pf pub_of ec_sign blake ec_recover k msg sig id :
  (forall sk d s, ec_sign sk d = Some s -> ec_recover d s = Some (pub_of sk)) ->
  (forall m, length (blake m) = 32%nat) ->
  k_pub k = None ->
  KeySign ec_sign blake k msg = OkR sig -> NewNodeIDFromPublicKey pub_of blake k = OkR id ->
  RetrievalV1Verify blake ec_recover sig msg id = OkR true.
Proof.
  intros R B P S N. unfold KeySign in S. destruct (Byte.eqb (k_alg k) x01) eqn:A; [|discriminate].
  apply byte_eqb_eq in A. destruct (ec_sign _ _) as [s|] eqn:E; [|discriminate]. injection S as <-.
  rewrite (node_id_pf _ _ _ B A) in N. injection N as <-. unfold RetrievalV1Verify. rewrite (R _ _ _ E).
  unfold public_half. rewrite P. f_equal. apply bytes_eqb_eq. reflexivity.
Qed.

Lemma verify_hash_binds pub_of blake ec_recover pk sig msg id :
  (forall m, length (blake m) = 32%nat) ->
  NewNodeIDFromPublicKey pub_of blake pk = OkR id ->
  RetrievalV1Verify blake ec_recover sig msg id = OkR true ->
  ec_recover (blake msg) sig = Some (public_half pub_of pk) \/ collision blake.
Proof.
  intros B N V. unfold RetrievalV1Verify in V. destruct (ec_recover (blake msg) sig) as [p|]; [|discriminate].
  injection V as V. apply bytes_eqb_eq in V.
  assert (A : k_alg pk = x01).
  { destruct (Byte.eqb (k_alg pk) x01) eqn:E; [now apply byte_eqb_eq in E|].
    rewrite node_id_unknown in N; [discriminate|]. intros X. rewrite X in E. discriminate. }
  rewrite (node_id_pf _ _ _ B A) in N. injection N as <-.
  destruct (bytes_eqb_spec p (public_half pub_of pk)) as [->|D]; [auto|right].
  exists (x01 :: p), (x01 :: public_half pub_of pk). split; congruence.
Qed.

Lemma as_bytes32_pf id : length id = 32%nat -> AsBytes32 id = id.
Proof.
  intros L. unfold AsBytes32, WordSize. rewrite L, Nat.sub_diag. cbn [repeat]. rewrite app_nil_r, <- L. apply firstn_all.
Qed.
