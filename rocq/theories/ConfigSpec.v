(** * Numbers and durations as people write them *)
From Coq Require Import String List ZArith Bool.
From Coq Require Import Init.Byte.
From Verif Require Import Base.
Import ListNotations.
Open Scope Z_scope.

(** The digit [d], and a row of digits. *)
Definition digit (d : Z) : byte := zb (48 + d).
Definition row (ds : list Z) : gostring := map digit ds.
Definition digits_ok (ds : list Z) : Prop := forall d, In d ds -> 0 <= d <= 9.
Definition value (ds : list Z) : Z := fold_left (fun a d => a * 10 + d) ds 0.

(** Digits in groups, separated by underscores: 1_000_000. *)
Fixpoint grouped (g : list Z) (gs : list (list Z)) : gostring :=
  match gs with [] => row g | g' :: r => row g ++ x5f :: grouped g' r end.

Definition blank (s : gostring) : Prop := forall c, In c s -> c = x20 \/ c = x09 \/ c = x0a \/ c = x0d.
Definition whole_number (s : gostring) (n : Z) : Prop :=
  exists b1 g gs b2, blank b1 /\ blank b2 /\ s = b1 ++ grouped g gs ++ b2 /\
    digits_ok (concat (g :: gs)) /\ (forall x, In x (g :: gs) -> x <> []) /\ hd 0 g <> 0 /\ n = value (concat (g :: gs)).

(** A duration is a row of numbers with units: 1m30s.  Units in nanoseconds. *)
Definition units : list (gostring * Z) :=
  [(gs "ns", 1); (gs "us", 10 ^ 3); (gs "ms", 10 ^ 6); (gs "s", 10 ^ 9); (gs "m", 60 * 10 ^ 9); (gs "h", 3600 * 10 ^ 9)].
Definition part := (list Z * gostring * Z)%type.
Definition part_ok (p : part) : Prop := let '(ds, u, n) := p in ds <> [] /\ digits_ok ds /\ In (u, n) units.
Definition part_text (p : part) : gostring := let '(ds, u, _) := p in row ds ++ u.
Definition part_time (p : part) : Z := let '(ds, _, n) := p in value ds * n.
Definition total (ps : list part) : Z := fold_right (fun p a => part_time p + a) 0 ps.
Definition duration (s : gostring) (d : Z) : Prop :=
  exists ps, ps <> [] /\ (forall p, In p ps -> part_ok p) /\ s = concat (map part_text ps) /\ d = total ps.
