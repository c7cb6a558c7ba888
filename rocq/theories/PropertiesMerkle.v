(** * Merkle tree properties: C13, C14, C71, C72, C73

    [hash] is SHA-256, any function; where its output length matters that is a
    hypothesis, and the Examples use a toy function with 32-byte output. *)
From Coq Require Import List ZArith Bool Lia.
From Coq Require Import Init.Byte.
From Verif Require Import Base Ids Merkle MerkleSpec MerkleProofs.
Import ListNotations.
Open Scope Z_scope.

(** A toy hash with 32-byte output, for the Examples. *)
Definition toy_sum (n : Z) (x : bytes) : Z := fold_left (fun a b => (a * 257 + bz b) mod 65521) x n.
Definition toy_hash (x : bytes) : bytes := be_bytes 32 (toy_sum 7 x).
Definition idn (z : Z) : bytes := be_bytes 32 z.

(** ** C13 *)
Theorem merkle_complete : forall (hash : bytes -> bytes) (ids : list bytes),
  ids <> [] -> Forall (fun x => length x = 32%nat) ids ->
  exists t, CreateMerkleTree hash ids = Ret (OkR t) /\
    forall c, In c ids ->
      VerifyContent hash (GenerateMerkleProof t c) c (GetMerkleRoot t) = Ret true.
Proof. exact complete_pf. Qed.
Print Assumptions merkle_complete.

Example merkle_complete_example :
  let ids := [idn 1; idn 2; idn 3; idn 4; idn 5] in
  match CreateMerkleTree toy_hash ids with
  | Ret (OkR t) =>
      let p := GenerateMerkleProof t (idn 5) in
      p_index p = [1; 1; 0] /\ length (p_path p) = 3%nat /\
      VerifyContent toy_hash p (idn 5) (GetMerkleRoot t) = Ret true /\
      VerifyContent toy_hash p (idn 4) (GetMerkleRoot t) = Ret false
  | _ => False
  end.
Proof. vm_compute. repeat split. Qed.

(** ** C14

    A proof that verifies is for a member, unless the identifier is itself one of
    the values hashed into the tree above the leaves, or a member is itself the
    hash of something checked by the proof, or the tree and the proof between them
    contain a collision.  The first two exceptions are what keeps this partial. *)
Theorem merkle_sound_partial : forall (hash : bytes -> bytes),
  (forall x, length (hash x) = 32%nat) ->
  forall ids t id mp,
  Forall (fun x => length x = 32%nat) ids -> length id = 32%nat ->
  CreateMerkleTree hash ids = Ret (OkR t) ->
  VerifyContent hash mp id (GetMerkleRoot t) = Ret true ->
  In id ids \/
  In id (map hash (tree_inputs hash ids)) \/
  (exists y, In y (proof_inputs hash (p_path mp) (p_index mp) id) /\ In (hash y) ids) \/
  collision_in hash (tree_inputs hash ids) (proof_inputs hash (p_path mp) (p_index mp) id).
Proof. exact sound_pf. Qed.
Print Assumptions merkle_sound_partial.

Lemma toy_hash_32 : forall x, length (toy_hash x) = 32%nat.
Proof. intro x. unfold toy_hash. generalize (toy_sum 7 x). intro z.
  assert (H : forall n w, length (be_bytes n w) = n).
  { induction n as [|n IH]; intros w; [reflexivity|]. cbn [be_bytes]. rewrite app_length, IH. cbn. lia. }
  apply H.
Qed.

Example merkle_sound_example :
  let ids := [idn 1; idn 2; idn 3] in
  match CreateMerkleTree toy_hash ids with
  | Ret (OkR t) =>
      VerifyContent toy_hash (GenerateMerkleProof t (idn 2)) (idn 2) (GetMerkleRoot t) = Ret true /\
      tree_inputs toy_hash ids = [idn 1 ++ idn 2; idn 3 ++ idn 3;
        toy_hash (idn 1 ++ idn 2) ++ toy_hash (idn 3 ++ idn 3)] /\
      proof_inputs toy_hash (p_path (GenerateMerkleProof t (idn 2))) [0; 1] (idn 2) =
        [idn 1 ++ idn 2; toy_hash (idn 1 ++ idn 2) ++ toy_hash (idn 3 ++ idn 3)]
  | _ => False
  end.
Proof. vm_compute. repeat split. Qed.

(** Leaves are not hashed, so an inner node passes for a member: for four
    identifiers, the hash of the first two verifies although it is not listed. *)
Theorem merkle_sound_refuted : exists (hash : bytes -> bytes) ids t id mp,
  (forall x, length (hash x) = 32%nat) /\
  Forall (fun x => length x = 32%nat) ids /\ length id = 32%nat /\
  CreateMerkleTree hash ids = Ret (OkR t) /\
  VerifyContent hash mp id (GetMerkleRoot t) = Ret true /\
  ~ In id ids.
Proof.
  exists toy_hash, [idn 1; idn 2; idn 3; idn 4].
  exists (Tree [idn 1; idn 2; idn 3; idn 4]
    [[idn 1; idn 2; idn 3; idn 4];
     [toy_hash (idn 1 ++ idn 2); toy_hash (idn 3 ++ idn 4)];
     [toy_hash (toy_hash (idn 1 ++ idn 2) ++ toy_hash (idn 3 ++ idn 4))]]).
  exists (toy_hash (idn 1 ++ idn 2)), (Proof [toy_hash (idn 3 ++ idn 4)] [1]).
  split; [exact toy_hash_32|].
  split. { repeat constructor. }
  split; [reflexivity|]. split; [vm_compute; reflexivity|]. split; [vm_compute; reflexivity|].
  vm_compute. intros H. repeat (destruct H as [H|H]; [discriminate H|]). exact H.
Qed.
Print Assumptions merkle_sound_refuted.

(** ** C71: the root determines the identifiers *)
Theorem merkle_root_binds_partial : forall (hash : bytes -> bytes),
  (forall x, length (hash x) = 32%nat) ->
  forall ids ids' t t',
  length ids = length ids' ->
  Forall (fun x => length x = 32%nat) ids -> Forall (fun x => length x = 32%nat) ids' ->
  CreateMerkleTree hash ids = Ret (OkR t) -> CreateMerkleTree hash ids' = Ret (OkR t') ->
  GetMerkleRoot t = GetMerkleRoot t' ->
  ids = ids' \/ collision_in hash (tree_inputs hash ids) (tree_inputs hash ids').
Proof. exact root_binds_pf. Qed.
Print Assumptions merkle_root_binds_partial.

Example merkle_root_binds_example :
  match CreateMerkleTree toy_hash [idn 1; idn 2; idn 3], CreateMerkleTree toy_hash [idn 1; idn 3; idn 2] with
  | Ret (OkR t), Ret (OkR t') => bytes_eqb (GetMerkleRoot t) (GetMerkleRoot t') = false
  | _, _ => False
  end.
Proof. vm_compute. reflexivity. Qed.

(** Repeating the last identifier of an odd list changes the list, not the root:
    true for every hash function. *)
Theorem merkle_root_binds_refuted : forall (hash : bytes -> bytes) (a b c : bytes),
  exists t t', CreateMerkleTree hash [a; b; c] = Ret (OkR t) /\
    CreateMerkleTree hash [a; b; c; c] = Ret (OkR t') /\ GetMerkleRoot t = GetMerkleRoot t'.
Proof. intros. do 2 eexists. split; [reflexivity|]. split; reflexivity. Qed.
Print Assumptions merkle_root_binds_refuted.

(** ** C72: identifiers outside the list *)
Theorem merkle_absent_rejected : forall (hash : bytes -> bytes) ids t c,
  Forall (fun x => length x = 32%nat) ids -> length c = 32%nat -> ~ In c ids ->
  CreateMerkleTree hash ids = Ret (OkR t) ->
  VerifyContent hash (GenerateMerkleProof t c) c (GetMerkleRoot t) =
    Ret (bytes_eqb (hex_encode c) (GetMerkleRoot t)).
Proof. exact absent_pf. Qed.
Print Assumptions merkle_absent_rejected.

Example merkle_absent_example :
  match CreateMerkleTree toy_hash [idn 1; idn 2; idn 3] with
  | Ret (OkR t) =>
      GenerateMerkleProof t (idn 9) = Proof [] [] /\
      VerifyContent toy_hash (GenerateMerkleProof t (idn 9)) (idn 9) (GetMerkleRoot t) = Ret false
  | _ => False
  end.
Proof. vm_compute. repeat split. Qed.

(** ** C73: checking a received proof never crashes *)
Theorem merkle_verify_total_partial : forall (hash : bytes -> bytes) mp c root,
  (length (p_path mp) <= length (p_index mp))%nat -> exists b, VerifyContent hash mp c root = Ret b.
Proof. exact (fun hash mp c root => proj1 (verify_panics_pf hash mp c root)). Qed.
Print Assumptions merkle_verify_total_partial.

Example merkle_verify_total_example :
  VerifyContent toy_hash (Proof [idn 3] [0; 5; 7]) (idn 1) [] = Ret false.
Proof. vm_compute. reflexivity. Qed.

Theorem merkle_verify_total_refuted : forall (hash : bytes -> bytes) mp c root,
  (length (p_index mp) < length (p_path mp))%nat -> VerifyContent hash mp c root = Panic.
Proof. exact (fun hash mp c root => proj2 (verify_panics_pf hash mp c root)). Qed.
Print Assumptions merkle_verify_total_refuted.

Example merkle_verify_crash_example : VerifyContent toy_hash (Proof [idn 2] []) (idn 1) [x30] = Panic.
Proof. vm_compute. reflexivity. Qed.
