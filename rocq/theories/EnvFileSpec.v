(** * What an environment file says *)
From Coq Require Import String List ZArith Bool.
From Coq Require Import Init.Byte.
From Verif Require Import Base.
Import ListNotations.
Open Scope Z_scope.

(** A file is a list of lines, each a setting or a remark. *)
Inductive line := Set_ (name value : gostring) | Remark (text : gostring).
Definition line_text (l : line) : gostring := match l with Set_ n v => n ++ x3d :: v | Remark t => t end.
(** [ends] says which lines end in a carriage return and a line feed; the others end in a line feed. *)
Fixpoint file_text (ends : list bool) (ls : list line) : gostring :=
  match ls with
  | [] => []
  | l :: r => line_text l ++ (if hd false ends then [x0d] else []) ++ x0a :: file_text (tl ends) r
  end.
Definition says (ls : list line) : list (gostring * gostring) := flat_map (fun l => match l with Set_ n v => [(n, v)] | Remark _ => [] end) ls.

Definition within_line (s : gostring) : Prop := ~ In x0a s /\ ~ In x0d s.
(** Neither names, values nor remarks contain the separator; a remark is empty or starts with a hash sign. *)
Definition plain (l : line) : Prop :=
  match l with
  | Set_ n v => within_line n /\ within_line v /\ ~ In x3d n /\ ~ In x3d v
  | Remark t => within_line t /\ ~ In x3d t /\ (t = [] \/ exists r, t = x23 :: r)
  end.
