(** * The register manager under concurrent calls

    Models the use of locks and of the refresh channel in
    common/pkg/fcrregistermgr/register_manager.go.  Definitions only. *)
From Coq Require Import List Bool Arith.
Import ListNotations.

(** ** Locks

    [sync.RWMutex]: a writer first announces itself, which keeps new readers out, and then
    waits for the readers inside.  Which of several waiting threads goes first is up to the
    scheduler. *)
Inductive act := RL (k : nat) | RU (k : nat) | WL (k : nat) | WU (k : nat).

(** A thread: the locks it holds (with [true] for writing; the last one taken first),
    whether it has announced itself for the lock it is about to take, and its remaining
    lock operations. *)
Record thread := Thread { held : list (nat * bool); announced : bool; prog : list act }.

Definition wants_write (k : nat) (t : thread) : bool :=
  announced t && match prog t with WL j :: _ => j =? k | _ => false end.
Definition holds_write (k : nat) (t : thread) : bool := existsb (fun h => (fst h =? k) && snd h) (held t).
Definition holds (k : nat) (t : thread) : bool := existsb (fun h => fst h =? k) (held t).

(** One step of thread [i], or [None] when it has to wait or has ended. *)
Definition thread_step (ts : list thread) (i : nat) : option thread :=
  match nth_error ts i with
  | None => None
  | Some t =>
      match prog t with
      | [] => None
      | RL k :: p =>
          if existsb (fun u => wants_write k u || holds_write k u) ts then None
          else Some (Thread ((k, false) :: held t) false p)
      | WL k :: p =>
          if announced t then
            if existsb (holds k) ts then None else Some (Thread ((k, true) :: held t) false p)
          else
            if existsb (fun u => wants_write k u || holds_write k u) ts then None
            else Some (Thread (held t) true (WL k :: p))
      | RU k :: p =>
          match held t with
          | (j, false) :: h => if j =? k then Some (Thread h false p) else None
          | _ => None
          end
      | WU k :: p =>
          match held t with
          | (j, true) :: h => if j =? k then Some (Thread h false p) else None
          | _ => None
          end
      end
  end.

(** Replaces element [i]. *)
Fixpoint put {A} (i : nat) (x : A) (l : list A) : list A :=
  match l, i with
  | [], _ => []
  | _ :: t, O => x :: t
  | y :: t, S i => y :: put i x t
  end.

Definition lock_step (ts : list thread) (i : nat) : option (list thread) :=
  match thread_step ts i with Some t => Some (put i t ts) | None => None end.

(** The locks: of the ring, of the gateways and of the providers (register_manager.go L59-70). *)
Definition ringL := 0.
Definition gatewaysL := 1.
Definition providersL := 2.

(** What an update round meets (register_manager.go L371-392). *)
Inductive pulled_node := NewNode | ChangedNode.

(** The calls of the manager in register_manager.go. *)
Inductive call :=
| CGetGateway (found : bool)
| CGetProvider (first second : bool)
| CGetAllGateways
| CGetAllProviders
| CNearCID
| CCIDRange
| CGatewaysRound (l : list pulled_node)
| CProvidersRound (l : list pulled_node)
| CShutdown.

(** Their lock operations: register_manager.go L177-195, L198-217, L220-232, L235-247, L326-354, L298-323 with
    L306, L371-392, L421-439, L462-500. *)
Definition calls_locks (c : call) : list act :=
  match c with
  | CGetGateway true => [RL gatewaysL; RU gatewaysL]
  | CGetGateway false => [RL gatewaysL; RU gatewaysL; RL gatewaysL; RU gatewaysL]
  | CGetProvider true _ => [RL providersL; RU providersL]
  | CGetProvider false true => [RL providersL; RU providersL; RL providersL; RU providersL]
  | CGetProvider false false => [RL providersL; RU providersL; RL providersL]
  | CGetAllGateways => [RL gatewaysL; RU gatewaysL]
  | CGetAllProviders => [RL providersL; RU providersL]
  | CNearCID => [RL ringL; RL gatewaysL; RU gatewaysL; RU ringL]
  | CCIDRange => [RL ringL; RL ringL; RL gatewaysL; RU gatewaysL; RU ringL; RU ringL]
  | CGatewaysRound l =>
      flat_map (fun n => match n with
        | NewNode => [RL gatewaysL; RU gatewaysL; WL gatewaysL; WU gatewaysL; WL ringL; WU ringL]
        | ChangedNode => [RL gatewaysL; RU gatewaysL; WL gatewaysL; WU gatewaysL]
        end) l
  | CProvidersRound l =>
      flat_map (fun _ => [RL providersL; RU providersL; WL providersL; WU providersL]) l
  | CShutdown => [WL gatewaysL; WU gatewaysL; WL providersL; WU providersL]
  end.

(** One thread per call. *)
Definition calling (cs : list call) : list thread := map (fun c => Thread [] false (calls_locks c)) cs.

(** ** The refresh channel

    One unbuffered channel carries the requests to the update goroutine and its answers
    (register_manager.go L150-162, L393-405): whoever sends meets whoever receives. *)

(** A refresh, with the number of finished update rounds when it was taken up and when it
    returned. *)
Inductive refresher := RSend | RWait (at_request : nat) | RDone (at_request at_return : nat).

(** The update goroutine: before or in a round (asked for or not), handing back an answer,
    or waiting for a request or the time. *)
Inductive updater := URound (asked : bool) | UAnswer | USelect.

Record refreshing := Refreshing { rounds : nat; upd : updater; refs : list refresher }.

Inductive event :=
| EFinishRound
| ETimer
| ETake (i : nat)          (** the goroutine takes the request of refresh [i] *)
| EAnswer (j : nat)        (** refresh [j] takes the answer *)
| EMeet (i j : nat).       (** refresh [j] takes the request of refresh [i] for its answer *)

Definition refresh_step (s : refreshing) (e : event) : option refreshing :=
  match e with
  | EFinishRound =>
      match upd s with
      | URound asked => Some (Refreshing (S (rounds s)) (if asked then UAnswer else USelect) (refs s))
      | _ => None
      end
  | ETimer => match upd s with USelect => Some (Refreshing (rounds s) (URound false) (refs s)) | _ => None end
  | ETake i =>
      match upd s, nth_error (refs s) i with
      | USelect, Some RSend => Some (Refreshing (rounds s) (URound true) (put i (RWait (rounds s)) (refs s)))
      | _, _ => None
      end
  | EAnswer j =>
      match upd s, nth_error (refs s) j with
      | UAnswer, Some (RWait a) => Some (Refreshing (rounds s) USelect (put j (RDone a (rounds s)) (refs s)))
      | _, _ => None
      end
  | EMeet i j =>
      match nth_error (refs s) i, nth_error (refs s) j with
      | Some RSend, Some (RWait a) =>
          Some (Refreshing (rounds s) (upd s) (put j (RDone a (rounds s)) (put i (RWait (rounds s)) (refs s))))
      | _, _ => None
      end
  end.

(** [n] goroutines call [Refresh] on a started manager. *)
Definition refreshing0 (n : nat) : refreshing := Refreshing 0 (URound false) (repeat RSend n).
