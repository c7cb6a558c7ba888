(** * The programs that check the versions of modules

    itest/scripts/check-modules/check-modules.go and itest/scripts/check-main-modules/check-main-modules.go.  What GitHub
    answers does not change while a program runs; an answer that is no list reads as the empty list, since errors of the
    decoder are dropped.  The lists GitHub gives may be shorter than the repository's (the first page). *)
From Coq Require Import String List ZArith Bool.
From Coq Require Import Init.Byte.
From Verif Require Import Base.
Import ListNotations.
Open Scope Z_scope.
Open Scope go_scope.

(** check-modules.go L30-34 [ModRequire], L47-52 [BranchData], L54-58 [BranchCommit] (GitHub gives a text for the flag, which
    then stays false), L60-64 [Commit], L66-75. *)
Record require := Require_ { q_path : gostring; q_version : gostring }.
Record branch := Branch { b_name : gostring; b_sha : gostring; b_url : bool; b_protected : bool }.
Record commit := Commit { k_sha : gostring; k_author : gostring; k_date : gostring }.

(** What is printed; beginnings and request counters are left out. *)
Inductive line :=
| Skipped (path : gostring)
| Package (repo version : gostring)
| OnBranch (name author date url : gostring)
| NoBranch
| MainFound (repo : gostring)
| MainMissing (repo : gostring)
| AllOnMain
| NotOnMain (n : nat).

(** [strings.Split(s, sep)] for one byte, and its last element. *)
Fixpoint split_on (sep : byte) (cur s : gostring) : list gostring :=
  match s with
  | [] => [rev cur]
  | a :: t => if Byte.eqb a sep then rev cur :: split_on sep [] t else split_on sep (a :: cur) t
  end.
Definition last_part (sep : byte) (s : gostring) : gostring := last (split_on sep [] s) [].

(** Does the text begin with the pattern, a point standing for any byte but a line feed? *)
Fixpoint fits (re s : gostring) : bool :=
  match re, s with
  | [], _ => true
  | p :: re, a :: s => (if Byte.eqb p x2e then negb (Byte.eqb a x0a) else Byte.eqb p a) && fits re s
  | _ :: _, [] => false
  end.
(** [FindStringSubmatch]: anywhere in the text. *)
Fixpoint occurs (re s : gostring) : bool :=
  fits re s || match s with [] => false | _ :: t => occurs re t end.
(** Texts in which no character but the point means anything but itself in a regular expression.  (The point would match
    a whole UTF-8 sequence; names of commits are ASCII.) *)
Definition literal (a : byte) : bool :=
  (bz a <? 128) && negb (existsb (Byte.eqb a) [x5c; x2b; x2a; x3f; x28; x29; x7c; x5b; x5d; x7b; x7d; x5e; x24]).
Definition plain (re : gostring) : bool := forallb literal re.

Section programs.
  (** Other regular expressions; [Panic] when [MustCompile] does. *)
  Variable compile : gostring -> outcome (gostring -> bool).
  (** GitHub: the branches of a repository, and the commits of a repository from one on; [None] when it is not reached
      or, for branches, answers with a status other than 200: the program ends with code 1. *)
  Variable branches : gostring -> option (list branch).
  Variable commits : gostring -> gostring -> option (list commit).

  (** check-modules.go L162, check-main-modules.go L149. *)
  Definition MustCompile (re : gostring) : outcome (gostring -> bool) := if plain re then Ret (occurs re) else compile re.

  (** check-modules.go L184-187, check-main-modules.go L172-175. *)
  Definition owned (pkg : require) : bool := occurs (gs "ConsenSys") (q_path pkg).
  (** check-modules.go L99-102, check-main-modules.go L97-100. *)
  Definition repo_of (pkg : require) : gostring := last_part x2f (q_path pkg).
  Definition version_of (pkg : require) : gostring := last_part x2d (q_version pkg).

  (** check-modules.go L160-169, check-main-modules.go L146-156 [findInBranch]. *)
  Fixpoint findInBranch (version : gostring) (l : list commit) : outcome (option commit) :=
    match l with
    | [] => Ret None
    | c :: t => let* m := MustCompile version in if m (k_sha c) then Ret (Some c) else findInBranch version t
    end.

  (** check-modules.go L148-157 [findInBranches]; [None] when the program ends. *)
  Fixpoint findInBranches (repo version : gostring) (l : list branch) : outcome (option (option (branch * commit))) :=
    match l with
    | [] => Ret (Some None)
    | b :: t =>
        match commits repo (b_sha b) with
        | None => Ret None
        | Some cs =>
            let* f := findInBranch version cs in
            match f with Some c => Ret (Some (Some (b, c))) | None => findInBranches repo version t end
        end
    end.

  (** check-modules.go L196: [branch != BranchData{}]. *)
  Definition zero_branch (b : branch) : bool := bytes_eqb (b_name b) [] && bytes_eqb (b_sha b) [] && negb (b_url b) && negb (b_protected b).

  (** check-modules.go L180-206 [main]: what is printed and the code. *)
  Fixpoint check_modules (l : list require) : outcome (list line * Z) :=
    match l with
    | [] => Ret ([], 0)
    | pkg :: t =>
        if negb (owned pkg) then let* r := check_modules t in Ret (Skipped (q_path pkg) :: fst r, snd r)
        else
          match branches (repo_of pkg) with
          | None => Ret ([], 1)
          | Some bs =>
              let head := Package (repo_of pkg) (version_of pkg) in
              let* f := findInBranches (repo_of pkg) (version_of pkg) bs in
              match f with
              | None => Ret ([head], 1)
              | Some x =>
                  let what := match x with
                    | Some (b, c) => if zero_branch b then NoBranch
                        else OnBranch (b_name b) (k_author c) (k_date c) (gs "https://github.com/ConsenSys/" ++ repo_of pkg ++ gs "/tree/" ++ k_sha c)
                    | None => NoBranch end in
                  let* r := check_modules t in Ret (head :: what :: fst r, snd r)
              end
          end
    end.

  (** check-main-modules.go L181-192: the branches of one repository; [None] when the program ends, else the number of
      errors. *)
  Fixpoint main_branches (repo version : gostring) (l : list branch) : outcome (list line * option nat) :=
    match l with
    | [] => Ret ([], Some O)
    | b :: t =>
        if bytes_eqb (b_name b) (gs "main") then
          match commits repo (b_sha b) with
          | None => Ret ([], None)
          | Some cs =>
              let* f := findInBranch version cs in
              let* r := main_branches repo version t in
              match f with
              | None => Ret (MainMissing repo :: fst r, option_map S (snd r))
              | Some _ => Ret (MainFound repo :: fst r, snd r)
              end
          end
        else main_branches repo version t
    end.

  (** check-main-modules.go L171-193. *)
  Fixpoint main_packages (l : list require) : outcome (list line * option nat) :=
    match l with
    | [] => Ret ([], Some O)
    | pkg :: t =>
        if negb (owned pkg) then let* r := main_packages t in Ret (Skipped (q_path pkg) :: fst r, snd r)
        else
          match branches (repo_of pkg) with
          | None => Ret ([], None)
          | Some bs =>
              let* r := main_branches (repo_of pkg) (version_of pkg) bs in
              match snd r with
              | None => Ret r
              | Some k => let* q := main_packages t in Ret (fst r ++ fst q, option_map (Nat.add k) (snd q))
              end
          end
    end.

  (** check-main-modules.go L167-201 [main]. *)
  Definition check_main_modules (l : list require) : outcome (list line * Z) :=
    let* r := main_packages l in
    match snd r with
    | None => Ret (fst r, 1)
    | Some O => Ret (fst r ++ [AllOnMain], 0)
    | Some k => Ret (fst r ++ [NotOnMain k], 1)
    end.
End programs.
