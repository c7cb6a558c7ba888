(** * Random numbers

    common/pkg/fcrcrypto/prng.go, prng_pool.go, prng_public.go and prng_private.go.  The DRBG, the digest (BLAKE2b-256) and the
    clock are given; [drbg_read] gives [None] when the DRBG reports an error. *)
From Coq Require Import String List ZArith Bool.
From Verif Require Import Base.
Import ListNotations.
Open Scope Z_scope.
Open Scope go_scope.

(** [big.Int.Bytes]: the absolute value, big-endian, without leading zeros. *)
Definition big_bytes (z : Z) : bytes := if z =? 0 then [] else be_bytes (Z.to_nat (Z.log2 (Z.abs z) / 8 + 1)) (Z.abs z).

Section prng.
  Context {D : Type}.
  Variable drbg_new : bytes -> bytes -> D.
  Variable drbg_read : D -> nat -> option (bytes * D).
  Variable drbg_reseed : D -> bytes -> D.
  Variable hash : bytes -> bytes.

  (** prng.go L48-53 [randomImpl]; the hasher is empty between calls. *)
  Record prng := Prng { drbg : D; prfState : bytes; prfCounter : Z }.

  (** prng.go L73-108 [ReadBytes]: the loop, for the [n] bytes still to fill, [lpi] at a time; digests have [lpi] bytes. *)
  Fixpoint fill (fuel : nat) (lpi n : nat) (r : prng) : outcome (bytes * prng) :=
    match n with
    | O => Ret ([], r)
    | _ =>
        match fuel with
        | O => Diverge
        | S fuel =>
            let counter := prfCounter r + 1 in
            match drbg_read (drbg r) lpi with
            | None => Panic
            | Some (drbgBytes, d) =>
                let hashOutput := hash (big_bytes counter ++ drbgBytes ++ prfState r) in
                let* x := fill fuel lpi (n - lpi) (Prng d hashOutput counter) in
                Ret (firstn n hashOutput ++ fst x, snd x)
            end
        end
    end.
  Definition ReadBytes (r : prng) (n : nat) : outcome (bytes * prng) := fill n (List.length (prfState r)) n r.

  (** prng.go L117-126 [Reseed]. *)
  Definition Reseed (r : prng) (seed : bytes) : prng := Prng (drbg_reseed (drbg r) seed) (hash (seed ++ prfState r)) (prfCounter r).

  (** prng.go L141-149 [nanotime], for the time [now] in nanoseconds. *)
  Definition nanotime (now : Z) : bytes := be_bytes 8 (now mod 2 ^ 64).
  (** prng.go L131-133 [QuickReseedKick]. *)
  Definition QuickReseedKick (r : prng) (now : Z) : prng := Reseed r (nanotime now).

  (** A slice of [len] bytes at the start of an array. *)
  Record slice := Slice { array : bytes; len : nat }.
  Definition content (s : slice) : bytes := firstn (len s) (array s).
  (** [append]: in place if the array has room, which its owner sees, and otherwise in a new array.  The array of the owner afterwards
      and the slice. *)
  Definition append (owner : bytes) (shared : bool) (s : slice) (x : bytes) : bytes * bool * slice :=
    if (len s + List.length x <=? List.length (array s))%nat then
      let a := firstn (len s) (array s) ++ x ++ skipn (len s + List.length x) (array s) in
      (if shared then a else owner, shared, Slice a (len s + List.length x))
    else let a := content s ++ x in (owner, false, Slice a (List.length a)).

  (** prng.go L58-70 [NewPRNG]: the array of the security domain afterwards, and the generator.  [mac], [now], [now'], [entropy] and
      [random] are what the addresses of the network interfaces, the clock and the operating system give.  An array that [append] makes
      has no room left. *)
  Definition NewPRNG (securityDomain : slice) (mac : bytes) (now now' : Z) (entropy random : bytes) : bytes * prng :=
    let '(o, sh, s) := append (array securityDomain) true securityDomain mac in
    let '(o, _, s) := append o sh s (nanotime now) in
    (o, Prng (drbg_new entropy (content s)) random now').

  (** ** The generators of a process *)

  (** What the system gives to a new generator. *)
  Record birth := Birth { b_mac : bytes; b_now : Z; b_counter : Z; b_entropy : bytes; b_random : bytes }.
  (** The generators, in the order in which they were made, and the package's variables: prng_pool.go L19, prng_public.go L31-32,
      prng_private.go L34-35.  A generator is its place in [made]. *)
  Record package := Package { made : list prng; prngPool : list nat; publicPRNG : option nat; privatePRNG : option nat }.
  Definition make (p : package) (domain : slice) (b : birth) : package :=
    Package (made p ++ [snd (NewPRNG domain (b_mac b) (b_now b) (b_counter b) (b_entropy b) (b_random b))]) (prngPool p) (publicPRNG p) (privatePRNG p).
  Definition whole (b : bytes) : slice := Slice b (List.length b).

  (** prng_public.go L36-42 [GetPublicPRNG]. *)
  Definition GetPublicPRNG (p : package) (b : birth) : nat * package :=
    match publicPRNG p with
    | Some i => (i, p)
    | None =>
        let i := List.length (made p) in
        let q := make p (whole (gs "public")) b in
        (i, Package (made q) (prngPool q ++ [i]) (Some i) (privatePRNG q))
    end.
  (** prng_private.go L39-45 [GetPrivatePRNG]. *)
  Definition GetPrivatePRNG (p : package) (b : birth) : nat * package :=
    match privatePRNG p with
    | Some i => (i, p)
    | None =>
        let i := List.length (made p) in
        let q := make p (whole (gs "private")) b in
        (i, Package (made q) (prngPool q ++ [i]) (publicPRNG q) (Some i))
    end.
  (** prng_private.go L50-54 [NewPrivatePRNG]. *)
  Definition NewPrivatePRNG (p : package) (domain : slice) (b : birth) : nat * package :=
    let i := List.length (made p) in
    let q := make p domain b in
    (i, Package (made q) (prngPool q ++ [i]) (publicPRNG q) (privatePRNG q)).

  (** What is stored at a place of [made]. *)
  Fixpoint update (l : list prng) (i : nat) (r : prng) : list prng :=
    match l, i with [], _ => [] | _ :: t, O => r :: t | x :: t, S i => x :: update t i r end.
  (** prng_pool.go L26-30 [PRNGEntropyKick]; each reseeding reads the clock. *)
  Fixpoint kick (m : list prng) (pool : list nat) (times : nat -> Z) : list prng :=
    match pool with
    | [] => m
    | i :: t => kick (match nth_error m i with Some r => update m i (QuickReseedKick r (times O)) | None => m end) t (fun k => times (S k))
    end.
  Definition PRNGEntropyKick (p : package) (times : nat -> Z) : package :=
    Package (kick (made p) (prngPool p) times) (prngPool p) (publicPRNG p) (privatePRNG p).

  (** ** Reads that overlap

      prng.go L78-105, for reads of one block: the steps of the goroutines that share a generator, of which nothing is locked. *)
  Inductive at_line := L79 | L81 | L86 | L89 (drbgBytes : bytes) | L92 | L93 | L96 (out : bytes) | Done (out : bytes).
  Record shared := Shared { sh_prng : prng; written : bytes; threads : list at_line }.
  Definition race_step (s : shared) (i : nat) : option shared :=
    let r := sh_prng s in
    let set_at r w t := Some (Shared r w (firstn i (threads s) ++ t :: skipn (S i) (threads s))) in
    match nth_error (threads s) i with
    | Some L79 => set_at r [] L81
    | Some L81 => set_at (Prng (drbg r) (prfState r) (prfCounter r + 1)) (written s ++ big_bytes (prfCounter r + 1)) L86
    | Some L86 => match drbg_read (drbg r) (List.length (prfState r)) with Some (x, d) => set_at (Prng d (prfState r) (prfCounter r)) (written s) (L89 x) | None => None end
    | Some (L89 x) => set_at r (written s ++ x) L92
    | Some L92 => set_at r (written s ++ prfState r) L93
    | Some L93 => set_at r (written s) (L96 (hash (written s)))
    | Some (L96 out) => set_at (Prng (drbg r) out (prfCounter r)) (written s) (Done out)
    | _ => None
    end.
  Fixpoint race (s : shared) (schedule : list nat) : option shared :=
    match schedule with [] => Some s | i :: t => match race_step s i with Some s' => race s' t | None => None end end.
End prng.
Arguments prng : clear implicits.
Arguments package : clear implicits.
Arguments shared : clear implicits.
