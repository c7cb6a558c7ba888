(** * Properties of identifiers and keys on the wire (C81, C82, C83) *)
From Coq Require Import String List ZArith Bool Lia.
From Coq Require Import Init.Byte.
From Verif Require Import Base Ids Json MerkleWire Crypto WireSpec IdWire IdWireProofs PropertiesIds PropertiesCrypto.
Import ListNotations.
Open Scope Z_scope.

(** ** C81 *)
Theorem id_json_roundtrip : forall id, id32 id -> UnmarshalID (MarshalID id) = OkR id.
Proof. exact id_json_pf. Qed.
Print Assumptions id_json_roundtrip.

(** Accepted is exactly base64 text of 32 bytes. *)
Theorem id_json_accepts : forall p id, UnmarshalID p = OkR id <->
  id32 id /\ exists t, json_parse p = Some (JStr t) /\ b64_decode t = (id, true).
Proof. exact unmarshal_id_iff. Qed.
Print Assumptions id_json_accepts.

Example id_json_ex :
  MarshalID (idn 258) = gs """AAAAAAAAAAAAAAAAAAAAAAAAAAAAAAAAAAAAAAAAAQI=""" /\
  UnmarshalID (gs " ""AAAAAAAAAAAAAAAAAAAAAAAAAAAAAAAAAAAAAAAAAQI=""") = OkR (idn 258) /\
  UnmarshalID (gs """AAAA""") = ErrR /\ UnmarshalID (gs "null") = ErrR /\ UnmarshalID (gs "[1]") = ErrR.
Proof. repeat (split; [vm_compute; reflexivity|]). vm_compute; reflexivity. Qed.

(** The fixed-size array of an identifier. *)
Theorem id_array : forall id, id32 id -> AsBytes32 id = id.
Proof. exact as_bytes32_pf. Qed.
Print Assumptions id_array.
Example id_array_ex : AsBytes32 (idn 77) = idn 77 /\ AsBytes32 [] = repeat x00 32.
Proof. split; vm_compute; reflexivity. Qed.

Theorem key_json_roundtrip : forall pub_of k, k_alg k = x01 -> length (public_half pub_of k) = 65%nat ->
  exists t, MarshalKey pub_of k = OkR t /\ UnmarshalKey t = Ret (OkR (KeyPair None (Some (public_half pub_of k)) x01)).
Proof. exact key_json_pf. Qed.
Print Assumptions key_json_roundtrip.

(** Parsing a key crashes on exactly null and the empty string. *)
Theorem key_json_total_partial : forall p, UnmarshalKey p = Panic <->
  json_parse p = Some JNull \/ json_parse p = Some (JStr []).
Proof. exact key_json_panics. Qed.
Print Assumptions key_json_total_partial.
Theorem key_json_total_refuted : UnmarshalKey (gs "null") = Panic /\ UnmarshalKey (gs """""") = Panic.
Proof. split; vm_compute; reflexivity. Qed.
Print Assumptions key_json_total_refuted.

Example key_json_ex :
  match MarshalKey toy_pub (toy_key 9) with
  | OkR t => UnmarshalKey t = Ret (OkR (toy_pubkey 9)) /\ length t = 134%nat
  | ErrR => False
  end /\ UnmarshalKey (gs """01zz""") = Ret ErrR.
Proof. vm_compute. repeat split. Qed.

(** ** C82 *)
Theorem node_id_of_key : forall pub_of blake k, (forall m, length (blake m) = 32%nat) ->
  (k_alg k = x01 -> NewNodeIDFromPublicKey pub_of blake k = OkR (blake (x01 :: public_half pub_of k))) /\
  (k_alg k <> x01 -> NewNodeIDFromPublicKey pub_of blake k = ErrR).
Proof. intros pub blake k B. split; [apply node_id_pf; exact B|apply node_id_unknown]. Qed.
Print Assumptions node_id_of_key.

Theorem node_id_binds_key : forall pub_of blake k k' id, (forall m, length (blake m) = 32%nat) ->
  NewNodeIDFromPublicKey pub_of blake k = OkR id -> NewNodeIDFromPublicKey pub_of blake k' = OkR id ->
  public_half pub_of k = public_half pub_of k' \/ collision blake.
Proof. exact node_id_binds_pf. Qed.
Print Assumptions node_id_binds_key.

Example node_id_ex :
  (forall m, length (toy_blake m) = 32%nat) /\
  NewNodeIDFromPublicKey toy_pub toy_blake (toy_key 9) = NewNodeIDFromPublicKey toy_pub toy_blake (toy_pubkey 9) /\
  NewNodeIDFromPublicKey toy_pub toy_blake (toy_key 9) <> NewNodeIDFromPublicKey toy_pub toy_blake (toy_key 8) /\
  NewNodeIDFromPublicKey toy_pub toy_blake (KeyPair None None x02) = ErrR.
Proof.
  split; [intros m; apply BaseProofs.be_bytes_length|]. split; [vm_compute; reflexivity|].
  split; [vm_compute; discriminate|reflexivity].
Qed.

(** ** C83 *)

(** [ec_recover] is asked to find the signer's public key. *)
Theorem id_signature_roundtrip : forall pub_of ec_sign blake ec_recover k msg sig id,
  (forall sk d s, ec_sign sk d = Some s -> ec_recover d s = Some (pub_of sk)) ->
  (forall m, length (blake m) = 32%nat) -> k_pub k = None ->
  KeySign ec_sign blake k msg = OkR sig -> NewNodeIDFromPublicKey pub_of blake k = OkR id ->
  RetrievalV1Verify blake ec_recover sig msg id = OkR true.
Proof. exact verify_hash_pf. Qed.
Print Assumptions id_signature_roundtrip.

Theorem id_signature_binds : forall pub_of blake ec_recover pk sig msg id,
  (forall m, length (blake m) = 32%nat) ->
  NewNodeIDFromPublicKey pub_of blake pk = OkR id ->
  RetrievalV1Verify blake ec_recover sig msg id = OkR true ->
  ec_recover (blake msg) sig = Some (public_half pub_of pk) \/ collision blake.
Proof. exact verify_hash_binds. Qed.
Print Assumptions id_signature_binds.

(** A toy signature that carries its key. *)
Definition toy_rsign (sk d : bytes) : option bytes := Some (sk ++ d).
Definition toy_recover (d s : bytes) : option bytes :=
  if bytes_eqb d (skipn (length s - length d) s) then Some (toy_pub (firstn (length s - length d) s)) else None.
Example id_signature_ex :
  match KeySign toy_rsign toy_blake (toy_key 7) (gs "hi"), NewNodeIDFromPublicKey toy_pub toy_blake (toy_key 7),
        NewNodeIDFromPublicKey toy_pub toy_blake (toy_key 8) with
  | OkR sig, OkR id, OkR id' =>
      RetrievalV1Verify toy_blake toy_recover sig (gs "hi") id = OkR true /\
      RetrievalV1Verify toy_blake toy_recover sig (gs "hi") id' = OkR false /\
      RetrievalV1Verify toy_blake toy_recover sig (gs "ho") id = ErrR
  | _, _, _ => False
  end.
Proof. vm_compute. repeat split. Qed.
