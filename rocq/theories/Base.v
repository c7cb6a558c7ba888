(** * Base vocabulary of the model

    Go values used throughout: byte strings, outcomes of calls that may panic
    or loop, big-endian integers, hexadecimal text, and association-list maps.
    This file holds definitions only; lemmas are in [BaseProofs.v]. *)
From Coq Require Import List ZArith NArith Bool String Ascii.
From Coq Require Import Init.Byte Strings.Byte.
Import ListNotations.
Open Scope Z_scope.

(** A Go [string] or [[]byte]: a finite sequence of bytes. *)
Notation gostring := (list byte).
Notation bytes := (list byte).

(** Literals: the UTF-8 bytes of a Coq string literal. *)
Definition gs (s : string) : gostring := list_byte_of_string s.

(** Result of a Go call: normal return, run-time panic (nil dereference,
    index out of range, explicit panic), or non-termination. *)
Inductive outcome (A : Type) : Type :=
| Ret (a : A)
| Panic
| Diverge.
Arguments Ret {A} a.
Arguments Panic {A}.
Arguments Diverge {A}.

Definition obind {A B} (x : outcome A) (f : A -> outcome B) : outcome B :=
  match x with
  | Ret a => f a
  | Panic => Panic
  | Diverge => Diverge
  end.

Declare Scope go_scope.
Delimit Scope go_scope with go.
Notation "'let*' x ':=' e 'in' k" := (obind e (fun x => k))
  (at level 200, x pattern, e at level 200, k at level 200, right associativity) : go_scope.
Open Scope go_scope.

(** Go's two-valued returns [(v, error)]: [OkR v] when [err == nil]. *)
Inductive result (A : Type) : Type :=
| OkR (a : A)
| ErrR.
Arguments OkR {A} a.
Arguments ErrR {A}.

(** Value of a byte as an integer 0..255. *)
Definition bz (b : byte) : Z := Z.of_N (Byte.to_N b).

(** Byte with a given value, [x00] outside 0..255. *)
Definition zb (z : Z) : byte :=
  match Byte.of_N (Z.to_N z) with Some b => b | None => x00 end.

(** String equality, Go [==] on strings. *)
Fixpoint bytes_eqb (a b : bytes) : bool :=
  match a, b with
  | [], [] => true
  | x :: a', y :: b' => Byte.eqb x y && bytes_eqb a' b'
  | _, _ => false
  end.

(** Lexicographic comparison, Go [bytes.Compare] and [<] on strings. *)
Fixpoint bytes_cmp (a b : bytes) : comparison :=
  match a, b with
  | [], [] => Eq
  | [], _ :: _ => Lt
  | _ :: _, [] => Gt
  | x :: a', y :: b' =>
      match bz x ?= bz y with
      | Eq => bytes_cmp a' b'
      | c => c
      end
  end.

(** Big-endian value of a byte string, Go [big.Int.SetBytes]. *)
Definition be_val (bs : bytes) : Z := fold_left (fun acc b => acc * 256 + bz b) bs 0.

(** [n] lowest bytes of [z], big-endian ([binary.BigEndian.PutUint32],
    [PutUint64] for n = 4, 8). *)
Fixpoint be_bytes (n : nat) (z : Z) : bytes :=
  match n with
  | O => []
  | S n' => be_bytes n' (z / 256) ++ [zb (z mod 256)]
  end.

(** ** Hexadecimal text: Go [encoding/hex] *)

(** Value of one hex digit of either case ([hex.fromHexChar]). *)
Definition hex_digit (b : byte) : option Z :=
  let v := bz b in
  if (48 <=? v) && (v <=? 57) then Some (v - 48)
  else if (97 <=? v) && (v <=? 102) then Some (v - 87)
  else if (65 <=? v) && (v <=? 70) then Some (v - 55)
  else None.

(** Lowercase digit for a value 0..15 ([hextable]). *)
Definition digit_hex (z : Z) : byte := if z <? 10 then zb (48 + z) else zb (87 + z).

(** [hex.EncodeToString]. *)
Fixpoint hex_encode (bs : bytes) : gostring :=
  match bs with
  | [] => []
  | b :: t => digit_hex (bz b / 16) :: digit_hex (bz b mod 16) :: hex_encode t
  end.

(** [hex.DecodeString]: [None] on a non-digit or an odd length. *)
Fixpoint hex_decode (s : gostring) : option bytes :=
  match s with
  | [] => Some []
  | [_] => None
  | a :: b :: t =>
      match hex_digit a, hex_digit b, hex_decode t with
      | Some x, Some y, Some r => Some (zb (x * 16 + y) :: r)
      | _, _, _ => None
      end
  end.

(** Value of hex text, [big.Int.SetString(s, 16)] for text made of hex digits;
    a non-digit counts as 0 (the callers validate first). *)
Definition hex_val (s : gostring) : Z :=
  fold_left (fun acc b => acc * 16 + match hex_digit b with Some d => d | None => 0 end) s 0.

(** ** Lists *)

(** Slice element assignment. *)
Fixpoint set_nth {A} (l : list A) (i : nat) (x : A) : list A :=
  match l, i with
  | [], _ => []
  | _ :: t, O => x :: t
  | y :: t, S i' => y :: set_nth t i' x
  end.

(** ** Maps: Go [map[K]V] as association lists with unique keys *)
Section amap.
  Context {K V : Type} (eqb : K -> K -> bool).

  Fixpoint aget (m : list (K * V)) (k : K) : option V :=
    match m with
    | [] => None
    | (k', v) :: t => if eqb k k' then Some v else aget t k
    end.

  Fixpoint aset (m : list (K * V)) (k : K) (v : V) : list (K * V) :=
    match m with
    | [] => [(k, v)]
    | (k', v') :: t => if eqb k k' then (k, v) :: t else (k', v') :: aset t k v
    end.

  Fixpoint adel (m : list (K * V)) (k : K) : list (K * V) :=
    match m with
    | [] => []
    | (k', v') :: t => if eqb k k' then t else (k', v') :: adel t k
    end.
End amap.
