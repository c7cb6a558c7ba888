(** * An administrator whose operations overlap

    Models gateway-admin/pkg/fcrgatewayadmin/filecoin-gateway-admin.go L52-143 (and, with providers in place of
    gateways, provider-admin/pkg/fcrprovideradmin/filecoin_provider_admin.go L52-138, which has no operation that
    holds the lock for writing over the network) as its operations are called by goroutines that overlap.
    Definitions only.

    A step is one access to the lock or the map, or one exchange with a gateway, whose outcome comes with the step.
    The lock is Go's [sync.RWMutex]: a goroutine that wants to write announces it, from then on nobody can begin
    to read, and it goes on when the last reader has left.  Identifiers and registrations are numbers. *)
From Coq Require Import List Arith.
From Verif Require Import Base.
Import ListNotations.

(** [InitialiseGateway] (L53-64) and [InitialiseGatewayV2] (L67-94); [ForceUpdate] (L112-120) and [ListDHTOffer] (L123-131);
    [UpdateGatewaySupportedFeatures] (L133-143). *)
Inductive admin_op := Initialise (id reg : nat) | Ask (id : nat) | Features (id reg : nat).

(** What an operation returns: nothing wrong; the error of the exchange; no such gateway; the outcome of the exchange with
    the gateway found. *)
Inductive admin_result := Accepted | Refused | Unknown | Asked (reg : nat) (ok : bool).

(** Where an operation is: before its exchange with the gateway (L54, L136); before the lock (L60, L113, L134); waiting for
    the readers to leave (there too); before the map (L61, L141); before looking in the map (L115); before the exchange
    with the gateway found (L119); before giving the lock back (L62, L114, L135); returned. *)
Inductive stage := Exchange | Want | Drain | Put | Find | Contact (reg : nat) | GiveBack (r : admin_result) | Returned (r : admin_result).

Record admin := Admin { known : list (nat * nat); announced : bool; readers : nat; tasks : list (admin_op * stage) }.

Definition with_lock (s : admin) (w : bool) (r : nat) : admin := Admin (known s) w r (tasks s).

(** The part of L60-62 and L134-141 in which both writing operations agree. *)
Definition write_move (s : admin) (id reg : nat) (p : stage) (inside : stage) : option (admin * stage) :=
  match p with
  | Want => if announced s then None else Some (with_lock s true (readers s), Drain)
  | Drain => match readers s with 0 => Some (s, inside) | S _ => None end
  | Put => Some (Admin (aset Nat.eqb (known s) id reg) (announced s) (readers s) (tasks s), GiveBack Accepted)
  | GiveBack r => Some (with_lock s false (readers s), Returned r)
  | _ => None
  end.

(** One step of an operation, if it is possible; [ok] is the outcome of an exchange. *)
Definition admin_move (s : admin) (o : admin_op) (p : stage) (ok : bool) : option (admin * stage) :=
  match o with
  | Initialise id reg =>
      match p with
      | Exchange => Some (s, if ok then Want else Returned Refused)
      | _ => write_move s id reg p Put
      end
  | Features id reg =>
      match p with
      | Exchange => Some (s, if ok then Put else GiveBack Refused)
      | _ => write_move s id reg p Exchange
      end
  | Ask id =>
      match p with
      | Want => if announced s then None else Some (with_lock s false (S (readers s)), Find)
      | Find => Some (s, match aget Nat.eqb (known s) id with None => GiveBack Unknown | Some reg => Contact reg end)
      | Contact reg => Some (s, GiveBack (Asked reg ok))
      | GiveBack r => Some (with_lock s (announced s) (pred (readers s)), Returned r)
      | _ => None
      end
  end.

Definition admin_step (s : admin) (e : nat * bool) : option admin :=
  match nth_error (tasks s) (fst e) with
  | None => None
  | Some (o, p) => match admin_move s o p (snd e) with
                   | Some (s', p') => Some (Admin (known s') (announced s') (readers s') (set_nth (tasks s) (fst e) (o, p')))
                   | None => None
                   end
  end.
Fixpoint admin_run (s : admin) (l : list (nat * bool)) : option admin :=
  match l with
  | [] => Some s
  | e :: l => match admin_step s e with Some s => admin_run s l | None => None end
  end.

(** A new administrator (L43-50) and a number of operations. *)
Definition first_stage (o : admin_op) : stage := match o with Initialise _ _ => Exchange | _ => Want end.
Definition new_admin (l : list admin_op) : admin := Admin [] false 0 (map (fun o => (o, first_stage o)) l).
