(** * Vocabulary for the Merkle tree properties

    Independent of the model's tree and proof construction: what is hashed while
    a tree over a list is computed, what is hashed while a proof is checked, and
    what a collision is. *)
From Coq Require Import List ZArith Bool.
From Coq Require Import Init.Byte.
From Verif Require Import Base.
Import ListNotations.
Open Scope Z_scope.

Section spec.
  Variable hash : bytes -> bytes.

  (** Neighbours of a row, the last one with itself when it has none. *)
  Fixpoint neighbours (l : list bytes) : list bytes :=
    match l with
    | [] => []
    | [a] => [a ++ a]
    | a :: b :: t => (a ++ b) :: neighbours t
    end.

  (** Every byte string hashed while reducing a row, round after round, to a
      single value; [n] bounds the number of rounds. *)
  Fixpoint row_inputs (n : nat) (l : list bytes) : list bytes :=
    match n with
    | O => []
    | S n' =>
        match neighbours l with
        | [] => []
        | [x] => [x]
        | xs => xs ++ row_inputs n' (map hash xs)
        end
    end.

  (** Everything hashed for the tree over [ids]; each round at least halves the
      row, so [length ids] rounds are enough. *)
  Definition tree_inputs (ids : list bytes) : list bytes := row_inputs (length ids) ids.

  (** Everything hashed while a proof for [cur] is checked. *)
  Fixpoint proof_inputs (path : list bytes) (index : list Z) (cur : bytes) : list bytes :=
    match path, index with
    | p :: path', i :: index' =>
        let x := if i =? 1 then cur ++ p else p ++ cur in
        x :: proof_inputs path' index' (hash x)
    | _, _ => []
    end.

  (** Two different inputs, one from each list, with the same hash. *)
  Definition collision_in (xs ys : list bytes) : Prop :=
    exists x y, In x xs /\ In y ys /\ x <> y /\ hash x = hash y.
End spec.
