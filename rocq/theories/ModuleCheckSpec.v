(** * What is expected of the programs that check modules *)
From Coq Require Import String List ZArith Bool.
From Coq Require Import Init.Byte.
From Verif Require Import Base ModuleCheck.
Import ListNotations.
Open Scope Z_scope.

(** A piece of the text agrees with the pattern, in which a point stands for anything but a line feed. *)
Definition agrees (p a : byte) : Prop := (p = x2e /\ a <> x0a) \/ (p <> x2e /\ p = a).
Definition found_in (re s : gostring) : Prop := exists a m b, s = a ++ m ++ b /\ Forall2 agrees re m.

(** The text after the last separator, or all of it. *)
Definition after_last (sep : byte) (s part : gostring) : Prop :=
  ~ In sep part /\ (s = part \/ exists a, s = a ++ sep :: part).

Section spec.
  Variable branches : gostring -> option (list branch).
  Variable commits : gostring -> gostring -> option (list commit).

  (** The commit of the package is among those GitHub lists for the branch. *)
  Definition holds (pkg : require) (b : branch) : Prop :=
    exists cs c, commits (repo_of pkg) (b_sha b) = Some cs /\ In c cs /\ found_in (version_of pkg) (k_sha c).
  (** The versions of the owner's packages can be read as patterns without operators, and GitHub answers. *)
  Definition readable (l : list require) : Prop := forall pkg, In pkg l -> owned pkg = true -> plain (version_of pkg) = true.
  Definition answered (l : list require) : Prop := forall pkg, In pkg l -> owned pkg = true ->
    exists bs, branches (repo_of pkg) = Some bs /\ forall b, In b bs -> commits (repo_of pkg) (b_sha b) <> None.

  (** What is printed for a package: the first branch that holds its commit. *)
  Definition reported (pkg : require) (out : list line) : Prop :=
    (owned pkg = false /\ out = [Skipped (q_path pkg)]) \/
    (owned pkg = true /\ exists bs what, branches (repo_of pkg) = Some bs /\ out = [Package (repo_of pkg) (version_of pkg); what] /\
       ((what = NoBranch /\ forall b, In b bs -> ~ holds pkg b) \/
        exists pre b post before c after, bs = pre ++ b :: post /\ (forall b', In b' pre -> ~ holds pkg b') /\
          commits (repo_of pkg) (b_sha b) = Some (before ++ c :: after) /\ (forall c', In c' before -> ~ found_in (version_of pkg) (k_sha c')) /\
          found_in (version_of pkg) (k_sha c) /\
          what = if zero_branch b then NoBranch else OnBranch (b_name b) (k_author c) (k_date c) (gs "https://github.com/ConsenSys/" ++ repo_of pkg ++ gs "/tree/" ++ k_sha c))).
End spec.
