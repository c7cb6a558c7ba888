(** * The program that makes the environment file of a service

    gateway/scripts/make-env-file/main.go; the copies under provider and register are the same.  A file is its content, or [None] if
    there is none; reading and writing succeed.  Lines are shorter than the 4096 bytes of the reader's buffer. *)
From Coq Require Import String List ZArith Bool.
From Coq Require Import Init.Byte.
From Verif Require Import Base.
Import ListNotations.
Open Scope Z_scope.

(** L28-32 [Config]: name and value. *)
Definition config := (gostring * gostring)%type.

(** [bufio.Reader.ReadLine]: the lines of a file, without the line feed and a carriage return before it; what follows the last
    line feed is a line unless empty.  [cur] is the line read so far, backwards. *)
Definition chomp (cur : gostring) : gostring := rev (match cur with x0d :: r => r | _ => cur end).
Fixpoint read_lines (s cur : gostring) : list gostring :=
  match s with
  | [] => match cur with [] => [] | _ => [rev cur] end
  | x0a :: r => chomp cur :: read_lines r []
  | c :: r => read_lines r (c :: cur)
  end.

(** [strings.Split] at the separator: the part up to the first one, and the rest after it if there is one. *)
Fixpoint cut (s : gostring) : gostring * option gostring :=
  match s with
  | [] => ([], None)
  | x3d :: r => ([], Some r)
  | c :: r => let (a, b) := cut r in (c :: a, b)
  end.

(** L26: a comment or a line of white space. *)
Definition white (c : byte) : bool := (bz c =? 9) || (bz c =? 10) || (bz c =? 12) || (bz c =? 13) || (bz c =? 32).
Definition reComment (line : gostring) : bool := match line with x23 :: _ => true | _ => forallb white line end.

(** L70-92, one line: a line with a separator is a setting, with the value up to the next separator; [ErrR] for a line not understood. *)
Definition parse_line (line : gostring) : result (option config) :=
  match cut line with
  | (name, Some rest) => OkR (Some (name, fst (cut rest)))
  | (_, None) => if reComment line then OkR None else ErrR
  end.
Fixpoint parse_lines (ls : list gostring) : result (list config) :=
  match ls with
  | [] => OkR []
  | l :: r =>
      match parse_line l with
      | ErrR => ErrR
      | OkR x => match parse_lines r with ErrR => ErrR | OkR y => OkR (match x with Some c => c :: y | None => y end) end
      end
  end.
(** L58-95 [ParseConfig]. *)
Definition ParseConfig (content : gostring) : result (list config) := parse_lines (read_lines content []).

(** L104-118: the first setting of this name in [dest] and [dest] without it. *)
Fixpoint take_named (name : gostring) (dest : list config) : option (config * list config) :=
  match dest with
  | [] => None
  | d :: r => if bytes_eqb name (fst d) then Some (d, r) else match take_named name r with Some (x, t) => Some (x, d :: t) | None => None end
  end.

(** L98-127 [GetConfigDiff]: found, not equal, not found, left over. *)
Fixpoint GetConfigDiff (source dest : list config) : list config * list config * list config * list config :=
  match source with
  | [] => ([], [], [], dest)
  | s :: r =>
      match take_named (fst s) dest with
      | Some (d, dest') =>
          let '(found, ne, nf, rest) := GetConfigDiff r dest' in
          (s :: found, (if bytes_eqb (snd s) (snd d) then ne else s :: ne), nf, rest)
      | None => let '(found, ne, nf, rest) := GetConfigDiff r dest in (found, ne, s :: nf, rest)
      end
  end.

(** L35-41 [Report]. *)
Record report := Report { DestExists : bool; Equals : list config; NotEquals : list config; SourceNotFound : list config; DestNotFound : list config }.

(** L155-195 [CheckEnv]. *)
Definition CheckEnv (source dest : option gostring) : result report :=
  match source with
  | None => ErrR
  | Some s =>
      match ParseConfig s with
      | ErrR => ErrR
      | OkR sc =>
          match dest with
          | None => OkR (Report false [] sc [] [])
          | Some d =>
              match ParseConfig d with
              | ErrR => ErrR
              | OkR dc => let '(found, ne, nf, rest) := GetConfigDiff sc dc in OkR (Report true found ne nf rest)
              end
          end
      end
  end.

Definition is_nil {A} (l : list A) : bool := match l with [] => true | _ => false end.
(** L198-238 [MakeEnv]: the destination afterwards. *)
Definition MakeEnv (source dest : option gostring) (overwrite : bool) (r : report) : option gostring :=
  if negb (DestExists r) then source
  else if negb (is_nil (NotEquals r)) || negb (is_nil (SourceNotFound r)) || negb (is_nil (DestNotFound r)) then
    if overwrite then source else dest
  else dest.

(** L240-257 [main]: [ErrR] if the program gives up, which leaves the files alone. *)
Definition Main (source dest : option gostring) (overwrite : bool) : result (option gostring) :=
  match CheckEnv source dest with ErrR => ErrR | OkR r => OkR (MakeEnv source dest overwrite r) end.
