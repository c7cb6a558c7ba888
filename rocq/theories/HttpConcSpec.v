(** * What overlapping calls should see

    Independent of the model: a server's answer counts if it is there before the timeout. *)
From Coq Require Import List Arith.
From Verif Require Import Base HttpConc.
Import ListNotations.

(** The answer a call is to have, by itself. *)
Inductive answers : call -> result bytes -> Prop :=
| in_time d b : d < 180 -> answers (Call (Some d) b) (OkR b)
| too_late d b : 180 <= d -> answers (Call (Some d) b) ErrR
| never b : answers (Call None b) ErrR.

(** The seconds a server keeps a call waiting. *)
Inductive takes : call -> nat -> Prop :=
| takes_some d b : takes (Call (Some d) b) (Nat.min d 180)
| takes_never b : takes (Call None b) 180.

(** All the servers together. *)
Inductive take_together : list call -> nat -> Prop :=
| together_nil : take_together [] 0
| together_cons c l n m : takes c n -> take_together l m -> take_together (c :: l) (n + m).

(** A call is with its server. *)
Definition asking (x : call * phase) : Prop := exists n, snd x = Asking n.
Definition returned (x : call * phase) : Prop := exists t r, snd x = Returned t r.
