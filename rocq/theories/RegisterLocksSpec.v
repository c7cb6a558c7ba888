(** * What is expected of overlapping calls of the register manager *)
From Coq Require Import List Bool Arith.
From Verif Require Import RegisterLocks.
Import ListNotations.

(** [n] steps of some threads lead from [s] to [s']. *)
Inductive lock_moves (s : list thread) : nat -> list thread -> Prop :=
| lm_zero : lock_moves s 0 s
| lm_step n s' i s'' : lock_moves s n s' -> lock_step s' i = Some s'' -> lock_moves s (S n) s''.

Definition ended (t : thread) : Prop := prog t = [].
Definition all_ended (ts : list thread) : Prop := forall t, In t ts -> ended t.

(** A program that takes locks in increasing order and releases them in the opposite
    order, starting with the locks [h]. *)
Fixpoint orderly (h : list (nat * bool)) (p : list act) : Prop :=
  match p with
  | [] => h = []
  | RL k :: p => (forall x, In x h -> fst x < k) /\ orderly ((k, false) :: h) p
  | WL k :: p => (forall x, In x h -> fst x < k) /\ orderly ((k, true) :: h) p
  | RU k :: p => match h with (j, false) :: h => j = k /\ orderly h p | _ => False end
  | WU k :: p => match h with (j, true) :: h => j = k /\ orderly h p | _ => False end
  end.

(** The calls other than the range lookup and the lookup of an unknown provider. *)
Definition safe_call (c : call) : Prop :=
  match c with CCIDRange | CGetProvider false false => False | _ => True end.

(** Runs of refreshes. *)
Inductive refresh_moves (s : refreshing) : list event -> refreshing -> Prop :=
| rm_zero : refresh_moves s [] s
| rm_step es s' e s'' : refresh_moves s es s' -> refresh_step s' e = Some s'' -> refresh_moves s (es ++ [e]) s''.

Definition meets (e : event) : bool := match e with EFinishRound | ETimer => false | _ => true end.
