(** * What random numbers should be *)
From Coq Require Import String List ZArith Bool.
From Verif Require Import Base Prng.
Import ListNotations.
Open Scope Z_scope.
Open Scope go_scope.

(** The blocks of 32 bytes that are all in [b]. *)
Fixpoint cut_blocks (fuel : nat) (b : bytes) : list bytes :=
  match fuel with
  | O => []
  | S fuel => if (32 <=? List.length b)%nat then firstn 32 b :: cut_blocks fuel (skipn 32 b) else []
  end.
Definition whole_blocks (b : bytes) : list bytes := cut_blocks (List.length b) b.
(** The last [n] bytes. *)
Definition last_bytes (n : nat) (b : bytes) : bytes := skipn (List.length b - n) b.

Section life.
  Context {D : Type}.
  Variable drbg_read : D -> nat -> option (bytes * D).
  Variable drbg_reseed : D -> bytes -> D.
  Variable hash : bytes -> bytes.

  (** The life of a generator: bytes drawn and seeds added.  The bytes of each draw. *)
  Inductive use := Draw (n : nat) | Seed (s : bytes).
  Fixpoint uses (r : prng D) (l : list use) : outcome (list bytes * prng D) :=
    match l with
    | [] => Ret ([], r)
    | Draw n :: t => let* x := ReadBytes drbg_read hash r n in let* y := uses (snd x) t in Ret (fst x :: fst y, snd y)
    | Seed s :: t => uses (Reseed drbg_reseed hash r s) t
    end.

  (** What the digest is applied to in [k] blocks. *)
  Fixpoint hashed (k : nat) (r : prng D) : list bytes * prng D :=
    match k with
    | O => ([], r)
    | S k =>
        match drbg_read (drbg r) 32 with
        | None => ([], r)
        | Some (x, d) =>
            let i := big_bytes (prfCounter r + 1) ++ x ++ prfState r in
            let (t, r') := hashed k (Prng d (hash i) (prfCounter r + 1)) in (i :: t, r')
        end
    end.
  (** And in a life. *)
  Fixpoint hashed_in (r : prng D) (l : list use) : list bytes :=
    match l with
    | [] => []
    | Draw n :: t => let (a, r') := hashed ((n + 31) / 32) r in a ++ hashed_in r' t
    | Seed s :: t => hashed_in (Reseed drbg_reseed hash r s) t
    end.
  Definition no_collision (l : list bytes) : Prop := forall x y, In x l -> In y l -> hash x = hash y -> x = y.
End life.

(** Calls of the package by its users; they may also make a generator of their own, and draw from or reseed any generator, which leaves it
    in some state. *)
Section calls.
  Context {D : Type}.
  Variable drbg_new : bytes -> bytes -> D.
  Variable drbg_reseed : D -> bytes -> D.
  Variable hash : bytes -> bytes.
  Inductive call :=
  | AskPublic (b : birth) | AskPrivate (b : birth) | AskNew (domain : slice) (b : birth) | MakeApart (domain : slice) (b : birth)
  | UseIt (i : nat) (r : prng D) | Kick (times : nat -> Z).
  Definition called (p : package D) (c : call) : package D :=
    match c with
    | AskPublic b => snd (GetPublicPRNG drbg_new p b)
    | AskPrivate b => snd (GetPrivatePRNG drbg_new p b)
    | AskNew s b => snd (NewPrivatePRNG drbg_new p s b)
    | MakeApart s b => make drbg_new p s b
    | UseIt i r => Package (update (made p) i r) (prngPool p) (publicPRNG p) (privatePRNG p)
    | Kick times => PRNGEntropyKick drbg_reseed hash p times
    end.
  Definition after_calls (l : list call) : package D := fold_left called l (Package [] [] None None).
  Definition apart (c : call) : bool := match c with MakeApart _ _ => true | _ => false end.
End calls.
