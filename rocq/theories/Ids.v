(** * Node and content identifiers, ring distance

    Models common/pkg/nodeid/nodeid.go, common/pkg/cid/cid.go and
    common/pkg/math/distance.go.  An identifier object is its byte slice [id].
    Content identifiers have the same constructors line by line (cid.go L42-143)
    and share these definitions.  Definitions only. *)
From Coq Require Import List ZArith Bool.
From Coq Require Import Init.Byte.
From Verif Require Import Base.
Import ListNotations.
Open Scope Z_scope.
Open Scope go_scope.

(** nodeid.go L32, cid.go L33. *)
Definition WordSize : nat := 32.

(** Go [big.Int.Bytes]: minimal big-endian bytes of the absolute value. *)
Definition int_bytes (z : Z) : bytes :=
  let a := Z.abs z in
  if a =? 0 then [] else be_bytes (S (Z.to_nat (Z.log2 a / 8))) a.

(** [make([]byte, WordSize)] followed by [copy(n.id[WordSize-l:], b)]. *)
Definition left_pad (b : bytes) : bytes := repeat x00 (WordSize - length b) ++ b.

(** nodeid.go L56-65 [NewNodeIDFromBytes], cid.go L55-64. *)
Definition NewNodeIDFromBytes (b : bytes) : result bytes :=
  if Nat.ltb WordSize (length b) then ErrR else OkR (left_pad b).

(** nodeid.go L43-53 [NewNodeID], cid.go L42-52. *)
Definition NewNodeID (z : Z) : result bytes :=
  let b := int_bytes z in
  if Nat.ltb WordSize (length b) then ErrR else OkR (left_pad b).

(** nodeid.go L68-81 [NewNodeIDFromHexString], cid.go L67-73. *)
Definition NewNodeIDFromHexString (s : gostring) : result bytes :=
  match hex_decode s with
  | None => ErrR
  | Some d => if Nat.ltb WordSize (length d) then ErrR else OkR (left_pad d)
  end.

(** nodeid.go L101-107 [ToString], cid.go L84-90. *)
Definition ToString (id : bytes) : gostring :=
  let str := hex_encode id in
  if bytes_eqb str [] then [x30; x30] else str.

(** nodeid.go L115-118 [AsBytes32]. *)
Definition AsBytes32 (id : bytes) : bytes :=
  firstn WordSize id ++ repeat x00 (WordSize - length id).

(** cid.go L124-126 [Equals]. *)
Definition ContentIDEquals (a b : bytes) : bool := bytes_eqb (ToString a) (ToString b).

(** nodeid.go L173-179 [MapNodeIDToString], cid.go L129-135. *)
Definition MapIDToString (ids : list bytes) : list gostring := map ToString ids.

(** nodeid.go L182-189 [MapStringToNodeID], cid.go L138-145: a string that does
    not decode leaves a nil pointer, dereferenced on the next line. *)
Fixpoint MapStringToID (ss : list gostring) : outcome (list bytes) :=
  match ss with
  | [] => Ret []
  | s :: t =>
      match NewNodeIDFromHexString s with
      | ErrR => Panic
      | OkR id => let* r := MapStringToID t in Ret (id :: r)
      end
  end.

(** Go [sort.Slice] with [bytes.Compare(..) < 0] (nodeid.go L141-147), as an
    insertion sort.  Elements that compare equal are equal byte strings, so the
    algorithm used by Go makes no difference. *)
Fixpoint sort_insert (x : bytes) (l : list bytes) : list bytes :=
  match l with
  | [] => [x]
  | y :: t => match bytes_cmp y x with Lt => y :: sort_insert x t | _ => x :: l end
  end.
Definition sortByteArrays (l : list bytes) : list bytes := fold_right sort_insert [] l.

(** nodeid.go L157-166: index of the first element not below the start, 0 when
    there is none. *)
Fixpoint start_index (start : bytes) (l : list bytes) : option nat :=
  match l with
  | [] => None
  | v :: t =>
      match bytes_cmp start v with
      | Gt => match start_index start t with Some i => Some (S i) | None => None end
      | _ => Some O
      end
  end.

(** nodeid.go L150-170 [SortClockwise]. *)
Definition SortClockwise (start : bytes) (ids : list bytes) : list bytes :=
  if Nat.ltb (length ids) 2 then ids
  else
    let s := sortByteArrays ids in
    let i := match start_index start s with Some i => i | None => O end in
    skipn i s ++ firstn i s.

(** distance.go L26-42 [GetDistance]; the error is always nil. *)
Definition GetDistance (a b : bytes) (cardinality : Z) : Z :=
  let x := be_val a in
  let y := be_val b in
  let dist1 := Z.abs (y - x) in
  let dist2 := Z.abs (cardinality - dist1) in
  if dist1 <? dist2 then dist1 else dist2.
