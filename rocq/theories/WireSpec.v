(** * Vocabulary for keys, messages and offers

    Ranges of Go's integers, what is asked of the signature scheme, and what two
    matching keys are. *)
From Coq Require Import List ZArith Bool.
From Coq Require Import Init.Byte.
From Verif Require Import Base Json Merkle MerkleWire Crypto Message Offer.
Import ListNotations.
Open Scope Z_scope.

Definition int32 (z : Z) : Prop := - 2 ^ 31 <= z <= 2 ^ 31 - 1.
Definition int64 (z : Z) : Prop := - 2 ^ 63 <= z <= 2 ^ 63 - 1.
Definition uint32 (z : Z) : Prop := 0 <= z <= 2 ^ 32 - 1.
Definition uint64 (z : Z) : Prop := 0 <= z <= 2 ^ 64 - 1.
Definition id32 (b : bytes) : Prop := length b = 32%nat.

(** What ECDSA promises: signatures have 65 bytes, and without the last one they
    verify under the signer's public key. *)
Definition ecdsa_correct (pub_of : bytes -> bytes) (ec_sign : bytes -> bytes -> option bytes)
    (ec_verify : bytes -> bytes -> bytes -> bool) : Prop :=
  forall sk d s, ec_sign sk d = Some s ->
    length s = 65%nat /\ ec_verify (pub_of sk) d (firstn 64 s) = true.

(** [pk] is a usable key whose public half belongs to the private key of [k]:
    either the public key itself, or the private key it is derived from. *)
Definition matches (pub_of : bytes -> bytes) (pk k : keypair) : Prop :=
  k_alg pk = x01 /\
  exists sk, k_priv k = Some sk /\
    (k_pub pk = Some (pub_of sk) \/ (k_pub pk = None /\ k_priv pk = Some sk)).

(** The values an offer of the system holds. *)
Definition well_formed (o : offer) : Prop :=
  (exists p, o_provider o = Some p /\ id32 p) /\ Forall id32 (o_cids o) /\
  uint64 (o_price o) /\ int64 (o_expiry o) /\ uint64 (o_qos o).

(** Two different inputs with the same hash. *)
Definition collision (hash : bytes -> bytes) : Prop := exists x y, x <> y /\ hash x = hash y.

(** Each element of a slice, nil slices included. *)
Definition each {A} (P : A -> Prop) (o : option (list A)) : Prop :=
  match o with Some l => Forall P l | None => True end.

(** Messages, proofs, offers and sub-offers as the system makes them: integers in
    range, identifiers of 32 bytes, proofs below 4 GiB, offers built by
    [NewCIDOffer] and then possibly signed. *)
Definition wire_message (m : message) : Prop :=
  int32 (m_type m) /\ int32 (m_version m) /\ each int32 (m_supported m).
Definition wire_proof (p : proof) : Prop :=
  Forall int64 (p_index p) /\
  Z.of_nat (length (json_print (json_path (p_path p)))) < 2 ^ 32 /\
  Z.of_nat (length (json_print (json_index (p_index p)))) < 2 ^ 32.
Definition wire_offer (sha256 : bytes -> bytes) (o : offer) : Prop :=
  exists p ids price expiry qos o0,
    id32 p /\ Forall id32 ids /\ uint64 price /\ int64 expiry /\ uint64 qos /\
    NewCIDOffer sha256 (Some p) ids price expiry qos = Ret (OkR o0) /\
    o = Offer (o_provider o0) (o_cids o0) (o_price o0) (o_expiry o0) (o_qos o0) (o_sig o) (o_root o0) (o_tree o0).
Definition wire_suboffer (s : suboffer) : Prop :=
  (exists p c, s_provider s = Some p /\ s_cid s = Some c /\ id32 p /\ id32 c) /\
  uint64 (s_price s) /\ int64 (s_expiry s) /\ uint64 (s_qos s) /\ wire_proof (s_proof s).

(** A message just made by an encoder: its type, the protocol versions of the
    sender, no signature. *)
Definition fresh (version : Z) (supported : list Z) (tag : Z) (m : message) : Prop :=
  m_type m = tag /\ m_version m = version /\ m_supported m = Some supported /\ m_sig m = [].
