(** * The payment manager of a client, made when it is first needed

    Models client/pkg/fcrclient/filecoin_retrieval_client.go L78-94 [PaymentMgr] as it is called by
    goroutines that overlap.  Definitions only.

    A step is one access to the field or the lock, or making a manager; the accesses are taken to happen in one
    order, which Go does not promise for the first check, made without the lock.  A manager is the number of
    the attempt that made it. *)
From Coq Require Import List Arith.
From Verif Require Import Base.
Import ListNotations.

(** Where a call is: at L80, at L81, at L83, at L84, at L89, at the return of L93 with the lock, at that of L87,
    at that of L93 without the lock, or returned. *)
Inductive place := Check | AtLock | Recheck | Make | Store (made : nat) | Leave | LeaveNil | Look | Back (r : option nat).

Record lazy := Lazy { manager : option nat; held : bool; attempts : nat; places : list place }.

Section lazy.
  (** Whether an attempt of [NewFCRPaymentMgr] succeeds (common/pkg/fcrpaymentmgr/payment_manager.go L89-114). *)
  Variable works : nat -> bool.

  (** One step of the call at a place, if it is possible. *)
  Definition lazy_move (s : lazy) (p : place) : option (lazy * place) :=
    match p with
    | Check => Some (s, match manager s with None => AtLock | Some _ => Look end)
    | AtLock => if held s then None else Some (Lazy (manager s) true (attempts s) (places s), Recheck)
    | Recheck => Some (s, match manager s with None => Make | Some _ => Leave end)
    | Make => Some (Lazy (manager s) (held s) (S (attempts s)) (places s), if works (attempts s) then Store (attempts s) else LeaveNil)
    | Store m => Some (Lazy (Some m) (held s) (attempts s) (places s), Leave)
    | Leave => Some (Lazy (manager s) false (attempts s) (places s), Back (manager s))
    | LeaveNil => Some (Lazy (manager s) false (attempts s) (places s), Back None)
    | Look => Some (s, Back (manager s))
    | Back _ => None
    end.
  Definition lazy_step (s : lazy) (i : nat) : option lazy :=
    match nth_error (places s) i with
    | None => None
    | Some p => match lazy_move s p with
                | Some (s', p') => Some (Lazy (manager s') (held s') (attempts s') (set_nth (places s) i p'))
                | None => None
                end
    end.
  Fixpoint lazy_run (s : lazy) (l : list nat) : option lazy :=
    match l with
    | [] => Some s
    | i :: l => match lazy_step s i with Some s => lazy_run s l | None => None end
    end.
End lazy.

(** A new client (L57-58, L66-74) and a number of calls. *)
Definition new_client (calls : nat) : lazy := Lazy None false 0 (repeat Check calls).
