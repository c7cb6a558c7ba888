(** * Identifiers and public keys as JSON, identifiers of keys

    Models nodeid.go L84-90, L121-139, cid.go L98-116 and keypair_retrieval.go
    L158-210.  The public key recovered from a signature ([secp256k1EcRecover],
    secp256k1.go L91-93) is a Section variable.  Definitions only. *)
From Coq Require Import List ZArith Bool.
From Coq Require Import Init.Byte.
From Verif Require Import Base Ids Json MerkleWire Crypto.
Import ListNotations.
Open Scope Z_scope.
Open Scope go_scope.

(** nodeid.go L121-123 [MarshalJSON], cid.go L98-100. *)
Definition MarshalID (id : bytes) : gostring := json_print (json_bytes id).

(** nodeid.go L126-139 [UnmarshalJSON], cid.go L103-116. *)
Definition UnmarshalID (p : gostring) : result bytes :=
  match unmarshal dec_bytes [] p with
  | None => ErrR
  | Some id => if Nat.eqb (length id) WordSize then OkR id else ErrR
  end.

Section keys.
  Variable pub_of : bytes -> bytes.
  Variable blake : bytes -> bytes.
  Variable ec_recover : bytes -> bytes -> option bytes.

  (** nodeid.go L84-90 [NewNodeIDFromPublicKey]. *)
  Definition NewNodeIDFromPublicKey (k : keypair) : result bytes :=
    match fst (HashPublicKey pub_of blake k) with ErrR => ErrR | OkR h => NewNodeIDFromBytes h end.

  (** keypair_retrieval.go L188-194 [MarshalJSON]. *)
  Definition MarshalKey (k : keypair) : result gostring :=
    match fst (EncodePublicKey pub_of k) with ErrR => ErrR | OkR s => OkR (json_print (JStr s)) end.

  (** keypair_retrieval.go L197-210 [UnmarshalJSON] into a fresh key. *)
  Definition UnmarshalKey (p : gostring) : outcome (result keypair) :=
    match unmarshal dec_str [] p with None => Ret ErrR | Some s => DecodePublicKey s end.

  (** keypair_retrieval.go L158-169 [RetrievalV1Verify]. *)
  Definition RetrievalV1Verify (signature toBeSigned hashedPublicKey : bytes) : result bool :=
    match ec_recover (blake toBeSigned) signature with
    | None => ErrR
    | Some pk => OkR (bytes_eqb (blake (x01 :: pk)) hashedPublicKey)
    end.
End keys.
