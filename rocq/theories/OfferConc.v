(** * Concurrent additions to the offer store

    Models common/pkg/fcroffermgr/offer_storage.go L48-94 [add] run by several
    goroutines at once.  A step is one section protected by a lock (or one clock
    reading); the maps are shared, digest maps are reached through pointers.
    Definitions only. *)
From Coq Require Import List ZArith Bool.
From Coq Require Import Init.Byte.
From Verif Require Import Base Ids Merkle MerkleWire Crypto Offer OfferStore.
Import ListNotations.
Open Scope Z_scope.
Open Scope go_scope.

(** offer_storage.go L33-37: [cidMap] holds pointers to digest maps. *)
Record cstore := CStore { cidMap : list (gostring * nat); dMaps : list digest_map }.

(** Where a goroutine stands. *)
Inductive add_pc :=
| AtCheck                                  (* L56 *)
| AtCheckDigest (dm : nat)                 (* L60 *)
| AtExpiry                                 (* L69 *)
| AtLoop (rest : list bytes)               (* L73-77 *)
| AtCreate (c : bytes) (rest : list bytes) (* L80 *)
| AtWrite (dm : nat) (c : bytes) (rest : list bytes) (* L89 *)
| AtEnd (r : result unit).

(** A goroutine adding the offer [a_offer], whose pointer is [a_ptr] and whose
    digest [a_digest] was computed at L55. *)
Record adder := Adder { a_offer : offer; a_ptr : nat; a_digest : bytes; a_pc : add_pc }.

Definition at_pc (a : adder) (pc : add_pc) : adder := Adder (a_offer a) (a_ptr a) (a_digest a) pc.

(** L48-55: what is done before anything shared is touched. *)
Definition start_add (o : offer) (p : nat) (d : bytes) : adder :=
  Adder o p d (match o_cids o with [] => AtEnd ErrR | _ => AtCheck end).

Definition dmap (s : cstore) (dm : nat) : digest_map := nth dm (dMaps s) [].

(** One step of [add]. *)
Definition add_step (now : Z) (s : cstore) (a : adder) : cstore * adder :=
  match a_pc a with
  | AtCheck =>
      match o_cids (a_offer a) with
      | [] => (s, a)
      | c :: _ =>
          match aget bytes_eqb (cidMap s) (ToString c) with
          | Some dm => (s, at_pc a (AtCheckDigest dm))
          | None => (s, at_pc a AtExpiry)
          end
      end
  | AtCheckDigest dm =>
      match aget bytes_eqb (dmap s dm) (a_digest a) with
      | Some _ => (s, at_pc a (AtEnd (OkR tt)))
      | None => (s, at_pc a AtExpiry)
      end
  | AtExpiry =>
      if HasExpired (o_expiry (a_offer a)) now then (s, at_pc a (AtEnd ErrR))
      else (s, at_pc a (AtLoop (o_cids (a_offer a))))
  | AtLoop [] => (s, at_pc a (AtEnd (OkR tt)))
  | AtLoop (c :: rest) =>
      match aget bytes_eqb (cidMap s) (ToString c) with
      | Some dm => (s, at_pc a (AtWrite dm c rest))
      | None => (s, at_pc a (AtCreate c rest))
      end
  | AtCreate c rest =>
      (CStore (aset bytes_eqb (cidMap s) (ToString c) (length (dMaps s))) (dMaps s ++ [[]]),
       at_pc a (AtWrite (length (dMaps s)) c rest))
  | AtWrite dm _ rest =>
      (CStore (cidMap s) (set_nth (dMaps s) dm (aset bytes_eqb (dmap s dm) (a_digest a) (a_ptr a))),
       at_pc a (AtLoop rest))
  | AtEnd _ => (s, a)
  end.

(** The scheduler lets goroutine [i] take its next step, with the clock at [now]. *)
Definition sys_step (s : cstore) (ts : list adder) (i : nat) (now : Z) : cstore * list adder :=
  match nth_error ts i with
  | None => (s, ts)
  | Some a => let (s, a) := add_step now s a in (s, set_nth ts i a)
  end.

Fixpoint sys_run (s : cstore) (ts : list adder) (sched : list (nat * Z)) : cstore * list adder :=
  match sched with
  | [] => (s, ts)
  | (i, now) :: sched => let (s, ts) := sys_step s ts i now in sys_run s ts sched
  end.

(** The shared maps as a [storage] that [OfferStore] queries. *)
Definition flatten (s : cstore) : storage := map (fun e => (fst e, dmap s (snd e))) (cidMap s).

(** [n] steps of a goroutine nobody interrupts. *)
Fixpoint alone (now : Z) (n : nat) (s : cstore) (a : adder) : cstore * adder :=
  match n with
  | O => (s, a)
  | S n => let (s, a) := add_step now s a in alone now n s a
  end.
