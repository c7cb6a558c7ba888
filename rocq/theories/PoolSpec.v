(** * What is expected of the connection pool *)
From Coq Require Import List ZArith Bool.
From Coq Require Import Init.Byte.
From Verif Require Import Base Pool.
Import ListNotations.

(** The states of a node after its requests have been scheduled in some way. *)
Definition pool_reachable (peers : list gostring) (s : pool) : Prop :=
  exists sched, s = pool_run (new_pool peers) sched.

(** Connection [c] is an open connection to [p]. *)
Definition connected (s : pool) (p : gostring) (c : nat) : Prop :=
  exists ch, nth_error (p_chans s) c = Some ch /\ ch_peer ch = p /\ ch_open ch = true.

(** Request [i] is at a point of its work. *)
Definition at_ (s : pool) (i : nat) (pc : req_pc) : Prop := exists p, nth_error (p_reqs s) i = Some (Request p pc).
Definition to_ (s : pool) (i : nat) (p : gostring) : Prop := exists pc, nth_error (p_reqs s) i = Some (Request p pc).

Definition all_done (s : pool) : Prop := forall i pc, at_ s i pc -> exists ok, pc = RDone ok.

(** [n] steps that each changed something. *)
Inductive pool_moves : pool -> nat -> pool -> Prop :=
| moves_none s : pool_moves s 0 s
| moves_more s i ok n s' : pool_step s i ok <> s -> pool_moves (pool_step s i ok) n s' -> pool_moves s (S n) s'.
