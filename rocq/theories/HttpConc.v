(** * Overlapping calls of one HTTP communicator

    Models the lock of [HttpCommunicator], common/pkg/request/request.go: each of its four
    operations takes the lock first and gives it back when it returns.  Definitions only.

    Time is counted in whole seconds, and only waiting for a server takes any: what an operation
    computes is immediate, and so is taking a free lock.  Who of those waiting gets the lock is
    left to the schedule.  All the calls are made at second 0. *)
From Coq Require Import List Arith Bool.
From Verif Require Import Base.
Import ListNotations.

(** request.go L51-56 [NewHttpCommunicator]: [Timeout: 180 * time.Second], from sending the
    request to having read the answer. *)
Definition timeout : nat := 180.

(** A call: after how many seconds the server has answered ([None]: never) and with what. *)
Record call := Call { delay : option nat; reply : bytes }.

(** [c.httpClient.Do]: how long it takes and what it results in (L62, L86, L112, L145). *)
Definition lasts (c : call) : nat :=
  match delay c with Some d => Nat.min d timeout | None => timeout end.
Definition Do (c : call) : result bytes :=
  match delay c with Some d => if Nat.ltb d timeout then OkR (reply c) else ErrR | None => ErrR end.

(** A goroutine in one of [GetJSON], [SendJSON], [SendMessage] and [Delete] (L59-75, L78-96,
    L99-135, L138-152): at [c.Lock()], waiting for the server with some seconds to go, or
    returned, when and with what. *)
Inductive phase := AtLock | Asking (left : nat) | Returned (at_ : nat) (r : result bytes).

Record comm := Comm { clock : nat; locked : bool; calls : list (call * phase) }.

(** L51-56: the lock is free; then the calls are made. *)
Definition NewHttpCommunicator (l : list call) : comm := Comm 0 false (map (fun c => (c, AtLock)) l).

Inductive event := Lock (i : nat) | Unlock (i : nat) | Second.

Definition at_lock (x : call * phase) : bool := match snd x with AtLock => true | _ => false end.
Definition due (x : call * phase) : bool := match snd x with Asking O => true | _ => false end.
Definition older (x : call * phase) : call * phase :=
  match x with (c, Asking (S n)) => (c, Asking n) | _ => x end.

(** One event, if it is possible.  A goroutine passes [c.Lock()] if the lock is free and sends its
    request; one whose wait is over runs the deferred [c.Unlock()] and returns; and a second passes
    if nobody can do either. *)
Definition comm_step (s : comm) (e : event) : option comm :=
  match e with
  | Lock i =>
      match nth_error (calls s) i with
      | Some (c, AtLock) =>
          if locked s then None
          else Some (Comm (clock s) true (set_nth (calls s) i (c, Asking (lasts c))))
      | _ => None
      end
  | Unlock i =>
      match nth_error (calls s) i with
      | Some (c, Asking O) => Some (Comm (clock s) false (set_nth (calls s) i (c, Returned (clock s) (Do c))))
      | _ => None
      end
  | Second =>
      if existsb due (calls s) || (negb (locked s) && existsb at_lock (calls s)) then None
      else Some (Comm (S (clock s)) (locked s) (map older (calls s)))
  end.

(** A schedule; [None] if it is not possible. *)
Fixpoint comm_run (s : comm) (l : list event) : option comm :=
  match l with
  | [] => Some s
  | e :: r => match comm_step s e with Some s' => comm_run s' r | None => None end
  end.
