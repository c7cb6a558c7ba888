(** * Merkle trees over content identifiers

    Models common/pkg/fcrmerkletree/tree.go and proof.go (L33-50), together with
    the parts of github.com/cbergoon/merkletree v0.2.0 they call ([NewTree],
    [buildWithContent], [buildIntermediate], [GetMerklePath]).  That library is
    not in the repository; the model follows its published source.  A tree node
    is its hash, a tree is the list of its levels from the leaves up, and node
    [j] of a level is the parent of nodes [2j] and [2j+1] of the level below,
    which is how [buildIntermediate] sets the [Parent] pointers.  SHA-256 is the
    Section variable [hash].  Definitions only. *)
From Coq Require Import List ZArith Bool.
From Coq Require Import Init.Byte.
From Verif Require Import Base Ids.
Import ListNotations.
Open Scope Z_scope.
Open Scope go_scope.

Section merkle.
  Variable hash : bytes -> bytes.

  (** cid.go L119-121 [CalculateHash]: the identifier itself. *)
  Definition CalculateHash (id : bytes) : bytes := id.

  (** One round of merkletree [buildIntermediate]: neighbours are hashed together,
      a last node without neighbour is hashed with itself. *)
  Fixpoint pair_up (l : list bytes) : list bytes :=
    match l with
    | [] => []
    | [a] => [hash (a ++ a)]
    | a :: b :: t => hash (a ++ b) :: pair_up t
    end.

  (** merkletree [buildIntermediate]: rounds until a round had two nodes.  The
      fuel given is the number of leaves; [Diverge] if that were not enough. *)
  Fixpoint buildIntermediate (fuel : nat) (nl : list bytes) : outcome (list (list bytes)) :=
    match fuel with
    | O => Diverge
    | S fuel' =>
        if Nat.eqb (length nl) 2 then Ret [nl; pair_up nl]
        else
          let* rest := buildIntermediate fuel' (pair_up nl) in
          Ret (nl :: rest)
    end.

  (** tree.go L25-27 [FCRMerkleTree]: the contents of the leaves and the levels. *)
  Record tree := Tree { t_leafs : list bytes; t_levels : list (list bytes) }.

  (** tree.go L30-36 [CreateMerkleTree], merkletree [buildWithContent]: an odd
      number of leaves is completed with a copy of the last one. *)
  Definition CreateMerkleTree (contents : list bytes) : outcome (result tree) :=
    match contents with
    | [] => Ret ErrR
    | c :: _ =>
        let leafs := if Nat.odd (length contents) then contents ++ [last contents c]
                     else contents in
        let* ls := buildIntermediate (length leafs) (map CalculateHash leafs) in
        Ret (OkR (Tree leafs ls))
    end.

  (** tree.go L39-41 [GetMerkleRoot]. *)
  Definition GetMerkleRoot (t : tree) : gostring := hex_encode (hd [] (last (t_levels t) [])).

  (** proof.go L32-35 [FCRMerkleProof]. *)
  Record proof := Proof { p_path : list bytes; p_index : list Z }.

  (** merkletree [GetMerklePath], the climb from leaf [i]: [current] is the hash of
      the node reached, [ls] its level and those above it. *)
  Fixpoint climb (ls : list (list bytes)) (i : nat) (current : bytes) : list bytes * list Z :=
    match ls with
    | lvl :: ((_ :: _) as up) =>
        let j := (i / 2)%nat in
        let left := nth (2 * j) lvl [] in
        let right := nth (2 * j + 1) lvl left in
        let here := if bytes_eqb left current then (right, 1) else (left, 0) in
        let rest := climb up j (nth j (hd [] up) []) in
        (fst here :: fst rest, snd here :: snd rest)
    | _ => ([], [])
    end.

  (** merkletree [GetMerklePath]: the first leaf equal to the content; none gives
      two nil slices and no error. *)
  Fixpoint find_leaf (leafs : list bytes) (content : bytes) : option nat :=
    match leafs with
    | [] => None
    | c :: t =>
        if ContentIDEquals c content then Some O
        else match find_leaf t content with Some i => Some (S i) | None => None end
    end.

  (** tree.go L44-50 [GenerateMerkleProof]; the error is always nil. *)
  Definition GenerateMerkleProof (t : tree) (content : bytes) : proof :=
    match find_leaf (t_leafs t) content with
    | None => Proof [] []
    | Some i =>
        let pi := climb (t_levels t) i (nth i (hd [] (t_levels t)) []) in
        Proof (fst pi) (snd pi)
    end.

  (** proof.go L39-48, the loop of [VerifyContent].  [mp.index[i]] is out of range
      when there are fewer indices than path elements. *)
  Fixpoint verify_loop (path : list bytes) (index : list Z) (current : bytes) : outcome bytes :=
    match path with
    | [] => Ret current
    | p :: path' =>
        match index with
        | [] => Panic
        | i :: index' =>
            verify_loop path' index'
              (hash (if i =? 1 then current ++ p else p ++ current))
        end
    end.

  (** proof.go L38-50 [VerifyContent]. *)
  Definition VerifyContent (mp : proof) (content : bytes) (root : gostring) : outcome bool :=
    let* h := verify_loop (p_path mp) (p_index mp) (CalculateHash content) in
    Ret (bytes_eqb (hex_encode h) root).
End merkle.
