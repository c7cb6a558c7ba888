(** * How a dump is read

    Line by line: what comes before the first colon is passed over, then pairs
    of hexadecimal digits are read up to the bar. *)
From Coq Require Import List ZArith Bool Init.Byte Strings.Byte.
From Verif Require Import Base.
Import ListNotations.
Open Scope Z_scope.

Fixpoint split_lines (cur : gostring) (s : gostring) : list gostring :=
  match s with
  | [] => []
  | c :: t => if Byte.eqb c x0a then rev cur :: split_lines [] t else split_lines (c :: cur) t
  end.

Fixpoint past_colon (s : gostring) : gostring :=
  match s with [] => [] | c :: t => if Byte.eqb c x3a then t else past_colon t end.

Fixpoint read_pairs (s : gostring) : bytes :=
  match s with
  | [] => []
  | c :: t =>
      if Byte.eqb c x20 then read_pairs t
      else if Byte.eqb c x7c then []
      else match t with
        | d :: t' => match hex_decode [c; d] with Some b => b ++ read_pairs t' | None => [] end
        | [] => []
        end
  end.

Definition read_dump (s : gostring) : bytes := flat_map (fun l => read_pairs (past_colon l)) (split_lines [] s).

(** The column at which the bar stands. *)
Fixpoint bar_at (s : gostring) : nat :=
  match s with [] => 0 | c :: t => if Byte.eqb c x7c then 0 else S (bar_at t) end.
Definition bars (s : gostring) : list nat := map bar_at (split_lines [] s).
