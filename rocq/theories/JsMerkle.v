(** * The Merkle tree of the TypeScript client

    Models client-js/src/fcrMerkleTree/tree.class.ts and proof.ts with the parts of merkletreejs 0.2.22 (package-lock.json) that they call: the
    constructor ([createHashes]), [getRoot], [getProof], [verify] and [bufferify].  That library is not in the repository; the model follows its published source.
    It is used without options, so an odd last node of a layer is carried up as it is.  Texts are their UTF-8 bytes; SHA-256 (crypto-js) is the Section variable
    [sha256].  Also the Go type common/pkg/cid/cidadapter.go, whose trees the Go tests compare.  Definitions only. *)
From Coq Require Import List ZArith Bool.
From Coq Require Import Init.Byte.
From Verif Require Import Base Merkle.
Import ListNotations.
Open Scope Z_scope.
Open Scope go_scope.

Section js_merkle.
  Variable sha256 : bytes -> bytes.

  (** tree.class.ts L14-16: the array of the caller, which gets a copy of its last element if its length is odd. *)
  Definition filled (contents : list gostring) : list gostring :=
    if Nat.odd (length contents) then contents ++ [last contents []] else contents.

  (** merkletreejs [createHashes], one layer from the one below. *)
  Fixpoint layer_above (nodes : list bytes) : list bytes :=
    match nodes with
    | [] => []
    | [a] => [a]
    | a :: b :: t => sha256 (a ++ b) :: layer_above t
    end.

  (** merkletreejs [createHashes]: the layers, the leaves first, up to one with at most one node.  The fuel given is the number of leaves; [Diverge] if that were
      not enough. *)
  Fixpoint createHashes (fuel : nat) (nodes : list bytes) : outcome (list (list bytes)) :=
    if Nat.leb (length nodes) 1 then Ret [nodes]
    else match fuel with
         | O => Diverge
         | S fuel' => let* up := createHashes fuel' (layer_above nodes) in Ret (nodes :: up)
         end.

  (** tree.class.ts L6-7 [FCRMerkleTree]: the layers; the leaves are the first. *)
  Definition js_tree : Type := list (list bytes).

  (** tree.class.ts L13-19 [constructor]: the tree, and the array passed in afterwards. *)
  Definition js_new_tree (contents : list gostring) : outcome (js_tree * list gostring) :=
    let contents := filled contents in
    let* t := createHashes (length contents) (map sha256 contents) in
    Ret (t, contents).

  (** tree.class.ts L25-27 [getMerkleRoot]; merkletreejs [getRoot]: no bytes for a tree without leaves. *)
  Definition js_root (t : js_tree) : gostring := hex_encode (hd [] (last t [])).

  (** A step of a proof (proof.ts L4-10 [MerkleProof]): is the other node on the left, and its hash. *)
  Definition js_step : Type := (bool * bytes)%type.

  (** merkletreejs [getProof]: the last leaf equal to the hash. *)
  Fixpoint last_index (leaf : bytes) (leaves : list bytes) : option nat :=
    match leaves with
    | [] => None
    | x :: t => match last_index leaf t with
                | Some i => Some (S i)
                | None => if bytes_eqb leaf x then Some O else None
                end
    end.

  (** merkletreejs [getProof]: the neighbours on the way up; a node without one adds no step. *)
  Fixpoint neighbours_up (layers : js_tree) (index : nat) : list js_step :=
    match layers with
    | [] => []
    | layer :: up =>
        let isRightNode := Nat.odd index in
        let pairIndex := if isRightNode then Nat.pred index else S index in
        match nth_error layer pairIndex with
        | Some x => (isRightNode, x) :: neighbours_up up (Nat.div2 index)
        | None => neighbours_up up (Nat.div2 index)
        end
    end.

  (** tree.class.ts L34-36 [generateMerkleProof]; a content that is not in the tree gets a proof without steps. *)
  Definition js_proof (t : js_tree) (content : gostring) : list js_step :=
    match last_index (sha256 content) (hd [] t) with
    | None => []
    | Some i => neighbours_up t i
    end.

  (** Node's [Buffer.from(s, 'hex')] for hex digits; a single digit at the end is dropped. *)
  Fixpoint buffer_hex (s : gostring) : bytes :=
    match s with
    | a :: b :: t =>
        match hex_digit a, hex_digit b with
        | Some x, Some y => zb (x * 16 + y) :: buffer_hex t
        | _, _ => []
        end
    | _ => []
    end.
  Definition hex_digits (s : gostring) : bool := forallb (fun b => match hex_digit b with Some _ => true | None => false end) s.
  (** merkletreejs [isHexString], [bufferify] for a text: hex digits, perhaps after 0x, stand for bytes, other text for itself. *)
  Definition bufferify (s : gostring) : bytes :=
    let digits := match s with "0"%byte :: "x"%byte :: t => t | _ => s end in
    if hex_digits digits then buffer_hex digits else s.

  (** merkletreejs [verify], one step. *)
  Definition js_join (h : bytes) (s : js_step) : bytes := sha256 (if fst s then snd s ++ h else h ++ snd s).
  (** proof.ts L12-15 [verifyContent]; the leaf is a hash, as crypto-js returns it (proof.test.ts L20, L23). *)
  Definition js_verify (proof : list js_step) (leaf : bytes) (root : gostring) : bool :=
    bytes_eqb (fold_left js_join proof leaf) (bufferify root).

  (** common/pkg/cid/cidadapter.go L36-45 [CalculateHash]; L48-50 [Equals] and L53-55 [ToString] are not needed for roots.  A tree uses a content only through its
      hash, so the Go tree over adapters with these texts is that over their hashes. *)
  Definition adapter_tree (texts : list gostring) : outcome (result tree) := CreateMerkleTree sha256 (map sha256 texts).
End js_merkle.
