(** * The pool of outgoing connections, used concurrently

    Models common/pkg/fcrp2pserver/pool.go and the request functions of
    common/pkg/fcrp2pserver/server.go.  The two maps of the pool (gateways and
    providers) are used in the same way by separate functions; this is one of them.
    Definitions only.

    A step is one section under a lock of the map, taking the lock of a channel, or
    the run of a requester (which holds the lock of its channel all the time).  Whether
    dialling or the requester succeeds is chosen by the scheduler. *)
From Coq Require Import List ZArith Bool.
From Coq Require Import Init.Byte.
From Verif Require Import Base.
Import ListNotations.

(** pool.go L43-46 [communicationChannel]: a connection, and who holds its lock. *)
Record channel := Channel { ch_peer : gostring; ch_open : bool; ch_lock : option nat }.

(** Where a request stands. *)
Inductive req_pc :=
| RLookup               (* pool.go L61-63 *)
| RDial                 (* pool.go L68, L80 *)
| RStore (c : nat)      (* pool.go L86-101 *)
| RAcquire (c : nat)    (* server.go L177 *)
| RCall (c : nat)       (* server.go L179-182 *)
| RRemove               (* pool.go L147-149 *)
| RClose (c : nat)      (* pool.go L151-156 *)
| RDone (ok : bool).

Record request_ := Request { r_peer : gostring; r_pc : req_pc }.

(** pool.go L49-57 [communicationPool]: the map, and who holds its lock across steps;
    [crashed]: a panic has ended the process. *)
Record pool := Pool {
  p_chans : list channel;
  p_active : list (gostring * nat);
  p_lock : option nat;
  p_reqs : list request_;
  p_crashed : bool
}.

Definition new_pool (peers : list gostring) : pool :=
  Pool [] [] None (map (fun p => Request p RLookup) peers) false.

Definition set_req (s : pool) (i : nat) (pc : req_pc) : pool :=
  match nth_error (p_reqs s) i with
  | None => s
  | Some r => Pool (p_chans s) (p_active s) (p_lock s) (set_nth (p_reqs s) i (Request (r_peer r) pc)) (p_crashed s)
  end.
Definition set_chan (s : pool) (c : nat) (ch : channel) : pool :=
  Pool (set_nth (p_chans s) c ch) (p_active s) (p_lock s) (p_reqs s) (p_crashed s).
Definition set_active (s : pool) (a : list (gostring * nat)) : pool :=
  Pool (p_chans s) a (p_lock s) (p_reqs s) (p_crashed s).
Definition set_lock (s : pool) (l : option nat) : pool :=
  Pool (p_chans s) (p_active s) l (p_reqs s) (p_crashed s).
Definition crash (s : pool) : pool :=
  Pool (p_chans s) (p_active s) (p_lock s) (p_reqs s) true.

(** Request [i] takes its next step, if it is not blocked. *)
Definition pool_step (s : pool) (i : nat) (ok : bool) : pool :=
  if p_crashed s then s
  else
    match nth_error (p_reqs s) i with
    | None => s
    | Some r =>
        let id := r_peer r in
        match r_pc r with
        | RLookup =>
            match p_lock s with
            | Some _ => s
            | None =>
                match aget bytes_eqb (p_active s) id with
                | Some c => set_req s i (RAcquire c)
                | None => set_req s i RDial
                end
            end
        | RDial =>
            if ok then
              set_req (Pool (p_chans s ++ [Channel id true None]) (p_active s) (p_lock s) (p_reqs s) (p_crashed s))
                i (RStore (length (p_chans s)))
            else set_req s i (RDone false)
        | RStore c =>
            match p_lock s with
            | Some _ => s
            | None =>
                match aget bytes_eqb (p_active s) id with
                | None => set_req (set_active s (aset bytes_eqb (p_active s) id c)) i (RAcquire c)
                | Some c' => set_req (set_chan s c (Channel id false None)) i (RAcquire c')
                end
            end
        | RAcquire c =>
            match nth_error (p_chans s) c with
            | Some (Channel p o None) => set_req (set_chan s c (Channel p o (Some i))) i (RCall c)
            | _ => s
            end
        | RCall c =>
            match nth_error (p_chans s) c with
            | None => s
            (* tcp_comms.go L41-43, L73-75: setting a deadline on a closed connection panics *)
            | Some (Channel _ false _) => crash s
            | Some (Channel p true _) =>
                set_req (set_chan s c (Channel p true None)) i (if ok then RDone true else RRemove)
            end
        | RRemove =>
            match p_lock s with
            | Some _ => s
            | None =>
                match aget bytes_eqb (p_active s) id with
                | None => set_req s i (RDone false)
                | Some c => set_req (set_lock s (Some i)) i (RClose c)
                end
            end
        | RClose c =>
            match nth_error (p_chans s) c with
            | Some (Channel p o None) =>
                if o then
                  set_req (set_lock (set_active (set_chan s c (Channel p false None)) (adel bytes_eqb (p_active s) id)) None)
                    i (RDone false)
                else crash s (* L153-155 *)
            | _ => s
            end
        | RDone _ => s
        end
    end.

Fixpoint pool_run (s : pool) (sched : list (nat * bool)) : pool :=
  match sched with
  | [] => s
  | (i, ok) :: sched => pool_run (pool_step s i ok) sched
  end.
