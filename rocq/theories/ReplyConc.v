(** * Requests that share a pooled connection

    Models common/pkg/fcrp2pserver/server.go L177-188 (and L205-216, L233-244, the same) with pool.go L146-158 for
    requests that have got the same channel from the pool, and requesters that send one request and read one answer
    (such as gateway/internal/api/gatewayapi/dht_discover_requester.go L57-82).  [Pool] has how the channel is got and
    dropped.  Definitions only.

    The connection keeps the order of what is sent over it, and the peer answers the requests in order
    (server.go L129-160); how long it takes is open.  A request is its number, and so is the answer to it.  An answer
    is taken whole or not at all.  The lock of the map, under which the connection is closed, is left out. *)
From Coq Require Import List Arith.
From Verif Require Import Base.
Import ListNotations.

(** A request: before the lock (L177), waiting for an answer (L181), back with an answer (L188), before the removal of the
    connection (L185), back with an error (L186). *)
Inductive asking := Queueing | Awaiting | Got (answer : nat) | Failed | Back.

(** Whether the connection is open, whether its lock is held, the requests that the peer has not answered yet, the answers that
    have arrived and are not read yet. *)
Record wire := Wire { open : bool; busy : bool; unanswered : list nat; arrived : list nat; askings : list asking }.

Inductive happening :=
| Send (i : nat)                 (** L177-181: takes the lock and sends; over a closed connection that fails (L182, L183) *)
| Answer                         (** the peer answers the next request *)
| Take (i : nat) (ok : bool)     (** reads an answer, which passes the checks of the requester or not, and gives the lock back (L181, L182) *)
| GiveUp (i : nat)               (** the time is up, and the lock is given back (L181, L182) *)
| Remove (i : nat).              (** pool.go L147-157 *)

Definition happens (s : wire) (e : happening) : option wire :=
  match e with
  | Send i =>
      match nth_error (askings s) i, busy s with
      | Some Queueing, false =>
          if open s then Some (Wire true true (unanswered s ++ [i]) (arrived s) (set_nth (askings s) i Awaiting))
          else Some (Wire false false (unanswered s) (arrived s) (set_nth (askings s) i Failed))
      | _, _ => None
      end
  | Answer =>
      match unanswered s with
      | a :: l => Some (Wire (open s) (busy s) l (arrived s ++ [a]) (askings s))
      | [] => None
      end
  | Take i ok =>
      match nth_error (askings s) i, arrived s, open s with
      | Some Awaiting, a :: l, true => Some (Wire true false (unanswered s) l (set_nth (askings s) i (if ok then Got a else Failed)))
      | _, _, _ => None
      end
  | GiveUp i =>
      match nth_error (askings s) i with
      | Some Awaiting => Some (Wire (open s) false (unanswered s) (arrived s) (set_nth (askings s) i Failed))
      | _ => None
      end
  | Remove i =>
      match nth_error (askings s) i, busy s with
      | Some Failed, false => Some (Wire false false (unanswered s) (arrived s) (set_nth (askings s) i Back))
      | _, _ => None
      end
  end.
Fixpoint happen (s : wire) (l : list happening) : option wire :=
  match l with
  | [] => Some s
  | e :: l => match happens s e with Some s => happen s l | None => None end
  end.

(** A new connection (pool.go L80, L90-94) that a number of requests have got. *)
Definition wire0 (n : nat) : wire := Wire true false [] [] (repeat Queueing n).
