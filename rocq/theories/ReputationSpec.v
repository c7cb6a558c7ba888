(** * What reputation should be

    A client's reputation as a function of what happened to that client alone.
    Definitions only. *)
From Coq Require Import List ZArith Bool Sorting.Permutation.
From Verif Require Import Base Ids WireSpec Reputation.
Import ListNotations.
Open Scope Z_scope.

Definition limited (z : Z) : Z := Z.max (-10000) (Z.min 10000 z).

Definition worth (e : event) : Z :=
  match e with
  | OnChainDeposit => 1000
  | ClientStdDiscOneCidOffer | ClientDhtDiscOneCidOffer => 10
  | ClientStdDiscNoCidOffers | ClientDhtDiscNoCidOffers => 1
  | ClientStdDiscLateCidOffers | ClientDhtDiscLateCidOffers => 1
  | ClientMicroPayment => 1
  | ClientInvalidMessage => -10
  | ClientStdDiscNonPayment => -100
  | ClientDhtDiscNonPayment => -300
  end.

Definition target (o : op) : option bytes :=
  match o with Challenge i | Reported i _ | SetTo i _ | AdminSetTo i _ => i end.

(** What one operation does to the reputation of its client. *)
Definition effect (cur : option Z) (o : op) : option Z :=
  match o, cur with
  | Challenge _, None => Some 9
  | Challenge _, Some v => Some (limited (v - 1))
  | Reported _ e, Some v => Some (limited (v + worth e))
  | Reported _ _, None => None
  | SetTo _ v, _ => Some v
  | AdminSetTo _ v, Some _ => Some v
  | AdminSetTo _ _, None => None
  end.

Definition about (c : bytes) (o : op) : bool :=
  match target o with Some i => bytes_eqb i c | None => false end.

Definition reputation (h : list op) (c : bytes) : option Z := fold_left effect (filter (about c) h) None.

(** Identifiers are nil or 32 bytes long. *)
Definition proper_op (o : op) : Prop := match target o with Some i => id32 i | None => True end.
Definition in_bounds (v : Z) : Prop := -10000 <= v <= 10000.
(** Settings within the bounds; settings that leave room for one more event. *)
Definition bounded_op (o : op) : Prop :=
  match o with SetTo _ v | AdminSetTo _ v => in_bounds v | _ => True end.
Definition roomy_op (o : op) : Prop :=
  match o with SetTo _ v | AdminSetTo _ v => - 2 ^ 62 <= v <= 2 ^ 62 | _ => True end.
(** Makes a client known. *)
Definition establishes (c : bytes) (o : op) : bool :=
  match o with
  | Challenge (Some i) | SetTo (Some i) _ => bytes_eqb i c
  | _ => false
  end.

(** What [GetClientReputation] returns. *)
Definition shown (v : option Z) : Z * bool := match v with Some x => (x, true) | None => (0, false) end.

(** Everything in the map is within the bounds. *)
Definition all_in_bounds (r : reps) : Prop :=
  forall c v, GetClientReputation r (Some c) = Ret (v, true) -> in_bounds v.

(** The operation is for a client of the map. *)
Definition known (r : reps) (o : op) : Prop :=
  exists c v, target o = Some c /\ GetClientReputation r (Some c) = Ret (v, true).

(** Reported events concern known clients and nothing concerns a nil identifier. *)
Definition harmless (r : reps) (o : op) : Prop :=
  target o <> None /\ (forall i e, o = Reported i e -> known r o).

(** No goroutine has anything left to do. *)
Definition finished (s : system) : Prop := Forall (fun t => t = Thread Idle []) (s_threads s).
