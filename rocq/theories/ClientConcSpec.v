(** * What overlapping calls of a client leave alone *)
From Coq Require Import List ZArith Bool.
From Verif Require Import Base Client ClientConc.
Import ListNotations.

(** The calls that put gateways to use. *)
Definition adds_use (t : goroutine) : bool := match t with AddUse _ => true | _ => false end.
(** At step [k] of the execution with the steps [l] and the states [r], a goroutine asked the gateway and the gateway answered properly. *)
Definition established_at (l : list (nat * given)) (r : list cstate) (k : nat) (id : gostring) : Prop :=
  exists i g x y ids, nth_error l k = Some (i, g) /\ nth_error r k = Some x /\ nth_error (cs_threads x) i = Some (AddActiveAsk id y ids) /\ established g = true.
