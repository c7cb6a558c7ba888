(** * Refreshing a register manager while it is shut down

    Models common/pkg/fcrregistermgr/register_manager.go L116-128 [Shutdown] and L150-162 [Refresh] against the
    update goroutine L394-411, for a manager that discovers gateways only; [RegisterLocks] has the refreshes alone.
    Definitions only.

    The two channels are unbuffered: whoever sends meets whoever receives.  Both calls look at the field [start]
    first, without a lock; the accesses to it are taken to happen in one order.  The locks of the maps and what
    a round does are left out. *)
From Coq Require Import List Arith.
From Verif Require Import Base.
Import ListNotations.

(** A refresh: at L151, at L155, at L156, or returned, either after an answer or because of L152. *)
Inductive refreshed := NCheck | NSend | NWait | NDone (answered : bool).
(** A shutdown: at L118, at L122, at L127, or returned, either after stopping the goroutine or because of L119. *)
Inductive stopping := SCheck | SSend | SClear | SDone (stopped : bool).
(** The update goroutine: in a round (asked for or not), at L395, at L399, or over (L410). *)
Inductive updating := InRound (asked : bool) | Answering | Selecting | Over.

Record managing := Managing { started : bool; goroutine : updating; refreshes : list refreshed; stops : list stopping }.

Inductive occurrence :=
| RoundEnds                 (** L371-394 *)
| TimeUp                    (** L404 *)
| RefreshLooks (i : nat)    (** L151 *)
| RequestTaken (i : nat)    (** L155 meets L400 *)
| AnswerTaken (i : nat)     (** L395 meets L156 *)
| Crossed (i j : nat)       (** L155 of refresh [i] meets L156 of refresh [j] *)
| StopLooks (k : nat)       (** L118 *)
| StopTaken (k : nat)       (** L122 meets L406 *)
| StopEnds (k : nat).       (** L127 *)

Definition occurs (s : managing) (e : occurrence) : option managing :=
  match e with
  | RoundEnds =>
      match goroutine s with
      | InRound asked => Some (Managing (started s) (if asked then Answering else Selecting) (refreshes s) (stops s))
      | _ => None
      end
  | TimeUp => match goroutine s with Selecting => Some (Managing (started s) (InRound false) (refreshes s) (stops s)) | _ => None end
  | RefreshLooks i =>
      match nth_error (refreshes s) i with
      | Some NCheck => Some (Managing (started s) (goroutine s) (set_nth (refreshes s) i (if started s then NSend else NDone false)) (stops s))
      | _ => None
      end
  | RequestTaken i =>
      match goroutine s, nth_error (refreshes s) i with
      | Selecting, Some NSend => Some (Managing (started s) (InRound true) (set_nth (refreshes s) i NWait) (stops s))
      | _, _ => None
      end
  | AnswerTaken i =>
      match goroutine s, nth_error (refreshes s) i with
      | Answering, Some NWait => Some (Managing (started s) Selecting (set_nth (refreshes s) i (NDone true)) (stops s))
      | _, _ => None
      end
  | Crossed i j =>
      match nth_error (refreshes s) i, nth_error (refreshes s) j with
      | Some NSend, Some NWait => Some (Managing (started s) (goroutine s) (set_nth (set_nth (refreshes s) i NWait) j (NDone true)) (stops s))
      | _, _ => None
      end
  | StopLooks k =>
      match nth_error (stops s) k with
      | Some SCheck => Some (Managing (started s) (goroutine s) (refreshes s) (set_nth (stops s) k (if started s then SSend else SDone false)))
      | _ => None
      end
  | StopTaken k =>
      match goroutine s, nth_error (stops s) k with
      | Selecting, Some SSend => Some (Managing (started s) Over (refreshes s) (set_nth (stops s) k SClear))
      | _, _ => None
      end
  | StopEnds k =>
      match nth_error (stops s) k with
      | Some SClear => Some (Managing false (goroutine s) (refreshes s) (set_nth (stops s) k (SDone true)))
      | _ => None
      end
  end.
Fixpoint occur (s : managing) (l : list occurrence) : option managing :=
  match l with
  | [] => Some s
  | e :: l => match occurs s e with Some s => occur s l | None => None end
  end.

(** A started manager (L102-114), a number of refreshes and a number of shutdowns. *)
Definition managing0 (n m : nat) : managing := Managing true (InRound false) (repeat NCheck n) (repeat SCheck m).
