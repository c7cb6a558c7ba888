(** * Who a gateway may be while it is initialised

    Independent of how the goroutines run. *)
From Coq Require Import List ZArith.
From Verif Require Import Base Crypto Message Gateway KeyConc.
Import ListNotations.

(** No goroutine has begun, or it is an initialisation that is over. *)
Definition unbegun (g : goroutine) : Prop := match g with SetID _ | GetID _ | IsSet _ => True | _ => False end.
(** The identities the gateway is to be given. *)
Fixpoint given (l : list goroutine) : list identity :=
  match l with [] => [] | SetID i :: r => i :: given r | _ :: r => given r end.

(** Each part of an identity is that of one of some. *)
Definition composed (l : list identity) (i : identity) : Prop :=
  (exists a, In a l /\ f_id i = f_id a) /\ (exists a, In a l /\ f_key i = f_key a) /\ (exists a, In a l /\ f_ver i = f_ver a).

(** What a handler that is through has read. *)
Definition has_read (s : core) (request : message) (i : identity) : Prop := In (Got request i) (goroutines s).
