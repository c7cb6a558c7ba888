(** * Properties of the connection pool (C51, C87) *)
From Coq Require Import String List ZArith Bool Lia.
From Coq Require Import Init.Byte.
From Verif Require Import Base BaseProofs Pool PoolSpec PoolProofs.
Import ListNotations.
Local Open Scope nat_scope.

(** ** C51: one live connection per peer *)

(** At every moment an open connection is the pooled one of its peer, or a request has
    just dialled it and is about to decide whether to keep it. *)
Theorem one_connection : forall peers s p c, pool_reachable peers s -> connected s p c ->
  aget bytes_eqb (p_active s) p = Some c \/ exists i, to_ s i p /\ at_ s i (RStore c).
Proof. exact one_connection_pf. Qed.
Print Assumptions one_connection.

(** The pooled connection of a peer is an open connection to that peer. *)
Theorem pooled_connection_open : forall peers s p c, pool_reachable peers s ->
  aget bytes_eqb (p_active s) p = Some c -> connected s p c.
Proof. exact pooled_open_pf. Qed.
Print Assumptions pooled_connection_open.

(** Once all requests have ended, a peer has at most one open connection. *)
Theorem surplus_closed : forall peers s p c c', pool_reachable peers s -> all_done s ->
  connected s p c -> connected s p c' -> c = c'.
Proof.
  intros peers s p c c' R D H H'.
  assert (W : forall k, connected s p k -> aget bytes_eqb (p_active s) p = Some k).
  { intros k K. destruct (one_connection_pf _ _ _ _ R K) as [?|(i & _ & A)]; [assumption|].
    destruct (D _ _ A). discriminate. }
  apply W in H, H'. congruence.
Qed.
Print Assumptions surplus_closed.

(** Two requests never use the same connection at the same time. *)
Theorem connection_exclusive : forall peers s i j c, pool_reachable peers s ->
  at_ s i (RCall c) -> at_ s j (RCall c) -> i = j.
Proof. exact exclusive_pf. Qed.
Print Assumptions connection_exclusive.

(** Requests do not block each other for ever: some request can go on, whatever its
    outcome, and a run has at most seven steps per request (and the crash). *)
Theorem pool_progress : forall peers s, pool_reachable peers s -> p_crashed s = false -> ~ all_done s ->
  exists i, forall ok, pool_step s i ok <> s.
Proof. exact progress_pf. Qed.
Print Assumptions pool_progress.

Theorem pool_bounded : forall peers n s, pool_moves (new_pool peers) n s -> n <= 7 * List.length peers + 1.
Proof. exact bounded_pf. Qed.
Print Assumptions pool_bounded.

(** All locks are released at the end. *)
Theorem pool_locks_released : forall peers s, pool_reachable peers s -> all_done s ->
  p_lock s = None /\ forall c ch, nth_error (p_chans s) c = Some ch -> ch_lock ch = None.
Proof. exact locks_free_pf. Qed.
Print Assumptions pool_locks_released.

(** Two requests dial the same peer at once; the second connection is closed and both
    use the first. *)
Definition both : list gostring := [gs "p"; gs "p"].
Definition race : list (nat * bool) := map (fun i => (i, true)) [0; 1; 0; 1; 0; 1; 0; 0; 1; 1].
Example one_connection_ex :
  let s := pool_run (new_pool both) race in
  map r_pc (p_reqs s) = [RDone true; RDone true] /\ map ch_open (p_chans s) = [true; false] /\
  p_active s = [(gs "p", 0)] /\ p_crashed s = false.
Proof. vm_compute. auto. Qed.
(** Midway both connections are open. *)
Example one_connection_mid :
  let s := pool_run (new_pool both) (firstn 4 race) in
  map ch_open (p_chans s) = [true; true] /\ map r_pc (p_reqs s) = [RStore 0; RStore 1].
Proof. vm_compute. auto. Qed.
(** The second request waits for the first one's lock. *)
Example connection_exclusive_ex :
  let s := pool_run (new_pool both) (map (fun i => (i, true)) [0; 1; 0; 1; 0; 1; 0; 1]) in
  map r_pc (p_reqs s) = [RCall 0; RAcquire 0] /\ pool_step s 1 true = s /\ pool_step s 0 true <> s.
Proof. vm_compute. split; [auto|split; [auto|discriminate]]. Qed.
(** A failed request closes the pooled connection, and a later one dials again. *)
Example pool_redial :
  let s := pool_run (new_pool both) (map (fun i => (i, true)) [0; 0; 0; 0] ++ [(0, false); (0, true); (0, true)] ++ map (fun i => (i, true)) [1; 1; 1; 1; 1]) in
  map r_pc (p_reqs s) = [RDone false; RDone true] /\ map ch_open (p_chans s) = [false; true] /\ p_active s = [(gs "p", 1)].
Proof. vm_compute. auto. Qed.

(** ** C87: a failed request does not take the node down *)

(** Proved when no two requests address the same peer, or when no request fails. *)
Theorem failure_contained_partial : forall peers s, pool_reachable peers s -> p_crashed s = true ->
  exists p i j, i <> j /\ nth_error peers i = Some p /\ nth_error peers j = Some p.
Proof. exact crash_needs_sharing. Qed.
Print Assumptions failure_contained_partial.

Theorem no_failure_no_crash : forall peers is_,
  p_crashed (pool_run (new_pool peers) (map (fun i => (i, true)) is_)) = false.
Proof. exact calm_run. Qed.
Print Assumptions no_failure_no_crash.

(** Two requests to the same peer share the pooled connection.  The first one fails (say,
    by a timeout) and closes it; the second one, which was waiting for it, then sets a
    deadline on a closed connection and panics. *)
Definition bad_race : list (nat * bool) :=
  [(0, true); (0, true); (0, true); (1, true); (0, true); (0, false); (0, true); (0, true); (1, true); (1, true)].
Theorem failure_contained_refuted :
  p_crashed (pool_run (new_pool both) bad_race) = true /\
  map r_pc (p_reqs (pool_run (new_pool both) bad_race)) = [RDone false; RCall 0].
Proof. vm_compute. auto. Qed.
Print Assumptions failure_contained_refuted.

(** With different peers the same schedule is harmless. *)
Example failure_contained_ex :
  let s := pool_run (new_pool [gs "p"; gs "q"]) (bad_race ++ [(1, true); (1, true); (1, true)]) in
  p_crashed s = false /\ map r_pc (p_reqs s) = [RDone false; RDone true].
Proof. vm_compute. auto. Qed.
