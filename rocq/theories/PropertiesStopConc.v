(** * C230: refreshing a register manager while it is shut down *)
From Coq Require Import List Arith Bool Lia.
From Verif Require Import Base BaseProofs StopConc StopConcProofs.
Import ListNotations.

(** It is false that a refresh returns.  It looks whether the manager runs, then the manager is shut down, and from then on nobody takes
    its request: whatever happens, it never returns.  Nothing else is left to happen in this state. *)
Theorem refresh_left_behind_refuted : exists es s, occur (managing0 1 1) es = Some s /\ stops s = [SDone true] /\ refreshes s = [NSend] /\
  (forall e, occurs s e = None) /\ forall more s', occur (managing0 1 1) (es ++ more) = Some s' -> refreshes s' = [NSend].
Proof.
  exists [RefreshLooks 0; StopLooks 0; RoundEnds; StopTaken 0; StopEnds 0]. eexists. split; [vm_compute; reflexivity|]. split; [reflexivity|]. split; [reflexivity|].
  assert (Z : forall e, occurs (Managing false Over [NSend] [SDone true]) e = None).
  { intros [ | |[|[|i]]|[|[|i]]|[|[|i]]|[|[|i]] [|[|j]]|[|[|k]]|[|[|k]]|[|[|k]]]; cbn; try reflexivity; try destruct i; try destruct j; try destruct k; reflexivity. }
  split; [exact Z|]. intros more s' H. cbn in H. destruct more as [|e more]; cbn [occur] in H; [inversion H; reflexivity|]. rewrite Z in H. discriminate.
Qed.
Print Assumptions refresh_left_behind_refuted.

(** Nor does every shutdown return: of two that overlap one waits for ever. *)
Theorem second_stop_refuted : exists es s, occur (managing0 0 2) es = Some s /\ stops s = [SDone true; SSend] /\
  forall more s', occur (managing0 0 2) (es ++ more) = Some s' -> nth_error (stops s') 1 = Some SSend.
Proof.
  exists [StopLooks 0; StopLooks 1; RoundEnds; StopTaken 0; StopEnds 0]. eexists. split; [vm_compute; reflexivity|]. split; [reflexivity|]. intros more s' H.
  assert (V : inv (Managing false Over [] [SDone true; SSend])) by (apply (inv_run (managing0 0 2) [StopLooks 0; StopLooks 1; RoundEnds; StopTaken 0; StopEnds 0]); [apply inv_start|reflexivity]).
  destruct (over_run more _ s' V eq_refl H) as (_ & K). apply K. reflexivity.
Qed.
Print Assumptions second_stop_refuted.

(** Exactly these are lost: when nothing but the time can happen any more, every call has returned, or the goroutine is over and the call is one
    that had looked whether the manager runs and whose request was not taken. *)
Theorem only_left_behind_partial : forall n m es s, occur (managing0 n m) es = Some s -> (forall e, e <> TimeUp -> occurs s e = None) ->
  (forall i r, nth_error (refreshes s) i = Some r -> (exists b, r = NDone b) \/ (goroutine s = Over /\ r = NSend)) /\
  (forall k c, nth_error (stops s) k = Some c -> (exists b, c = SDone b) \/ (goroutine s = Over /\ c = SSend)).
Proof.
  intros n m es s H Z. destruct (inv_run _ _ _ (inv_start n m) H) as (W & _).
  assert (G : goroutine s = Over \/ goroutine s = Selecting).
  { pose proof (Z RoundEnds ltac:(discriminate)) as Q. cbn in Q. destruct (goroutine s) as [a| | |] eqn:E; auto; [discriminate|]. exfalso.
    destruct (sum_pos waits (refreshes s)) as (i & r & N & P); [rewrite W; cbn; discriminate|]. destruct r; cbn in P; try congruence.
    pose proof (Z (AnswerTaken i) ltac:(discriminate)) as T. cbn in T. rewrite E, N in T. discriminate. }
  assert (NW : forall i, nth_error (refreshes s) i <> Some NWait) by (intros i N; apply (sum_nth waits) in N; rewrite W in N; destruct G as [G|G]; rewrite G in N; cbn in N; lia).
  split.
  - intros i r N. destruct r as [ | | |b]; eauto.
    + pose proof (Z (RefreshLooks i) ltac:(discriminate)) as T. cbn in T. rewrite N in T. discriminate.
    + destruct G as [G|G]; [auto|]. pose proof (Z (RequestTaken i) ltac:(discriminate)) as T. cbn in T. rewrite G, N in T. discriminate.
    + exfalso. exact (NW i N).
  - intros k c N. destruct c as [ | | |b]; eauto.
    + pose proof (Z (StopLooks k) ltac:(discriminate)) as T. cbn in T. rewrite N in T. discriminate.
    + destruct G as [G|G]; [auto|]. pose proof (Z (StopTaken k) ltac:(discriminate)) as T. cbn in T. rewrite G, N in T. discriminate.
    + pose proof (Z (StopEnds k) ltac:(discriminate)) as T. cbn in T. rewrite N in T. discriminate.
Qed.
Print Assumptions only_left_behind_partial.

(** And they are lost for good. *)
Theorem left_behind_for_ever : forall n m es s more s', occur (managing0 n m) es = Some s -> goroutine s = Over -> occur s more = Some s' ->
  (forall i, nth_error (refreshes s) i = Some NSend -> nth_error (refreshes s') i = Some NSend) /\
  (forall k, nth_error (stops s) k = Some SSend -> nth_error (stops s') k = Some SSend).
Proof. intros n m es s more s' H G M. exact (over_run more s s' (inv_run _ _ _ (inv_start n m) H) G M). Qed.
Print Assumptions left_behind_for_ever.

(** A refresh whose request was taken is answered: the goroutine cannot be stopped before, and at the end of its round it has the answer ready. *)
Theorem taken_up_partial : forall n m es s i, occur (managing0 n m) es = Some s -> nth_error (refreshes s) i = Some NWait ->
  (forall k, occurs s (StopTaken k) = None) /\
  exists more s', (more = [AnswerTaken i] \/ more = [RoundEnds; AnswerTaken i]) /\ occur s more = Some s' /\ nth_error (refreshes s') i = Some (NDone true).
Proof.
  intros n m es s i H N. destruct (inv_run _ _ _ (inv_start n m) H) as (W & _). pose proof (sum_nth waits _ _ _ N) as Q. rewrite W in Q.
  assert (L : i < length (refreshes s)) by (apply nth_error_Some; congruence).
  destruct (goroutine s) as [[|]| | |] eqn:G; cbn in Q; try lia; (split; [intros k; cbn; rewrite G; reflexivity|]).
  - exists [RoundEnds; AnswerTaken i]. eexists. split; [auto|]. cbn. rewrite G. cbn. rewrite N. split; [reflexivity|]. cbn. apply nth_error_set_eq, L.
  - exists [AnswerTaken i]. eexists. split; [auto|]. cbn. rewrite G, N. split; [reflexivity|]. cbn. apply nth_error_set_eq, L.
Qed.
Print Assumptions taken_up_partial.

(** At most one shutdown stops the goroutine; when one has returned the manager does not run, the goroutine is over, and a refresh or a shutdown that
    begins then returns at once. *)
Theorem stopped_partial : forall n m es s k b, occur (managing0 n m) es = Some s -> nth_error (stops s) k = Some (SDone b) ->
  started s = false /\ goroutine s = Over /\
  (forall j j', nth_error (stops s) j = Some (SDone true) -> nth_error (stops s) j' = Some (SDone true) -> j = j') /\
  (forall i, nth_error (refreshes s) i = Some NCheck -> exists s', occurs s (RefreshLooks i) = Some s' /\ nth_error (refreshes s') i = Some (NDone false)) /\
  forall j, nth_error (stops s) j = Some SCheck -> exists s', occurs s (StopLooks j) = Some s' /\ nth_error (stops s') j = Some (SDone false).
Proof.
  intros n m es s k b H N. destruct (inv_run _ _ _ (inv_start n m) H) as (_ & C & B & D & _). pose proof (D k b N) as F. pose proof (B F) as G. split; [exact F|]. split; [exact G|]. split.
  - intros j j' J J'. destruct (Nat.eq_dec j j') as [E|E]; [exact E|]. pose proof (sum_two cleared _ _ _ _ _ J J' E) as Q. rewrite C, G in Q. cbn in Q. lia.
  - split; intros i I; cbn; rewrite I, F; eexists; (split; [reflexivity|]); cbn; apply nth_error_set_eq, nth_error_Some; congruence.
Qed.
Print Assumptions stopped_partial.
(** A refresh goes unanswered only when the manager has been stopped. *)
Theorem unanswered_only_stopped : forall n m es s i, occur (managing0 n m) es = Some s -> nth_error (refreshes s) i = Some (NDone false) ->
  started s = false /\ exists k, nth_error (stops s) k = Some (SDone true) \/ nth_error (stops s) k = Some SClear.
Proof.
  intros n m es s i H N. destruct (inv_run _ _ _ (inv_start n m) H) as (_ & C & B & _ & D). pose proof (D i N) as F. split; [exact F|]. rewrite (B F) in C.
  destruct (sum_pos cleared (stops s)) as (k & c & K & Q); [rewrite C; discriminate|]. exists k. destruct c as [ | | |[]]; cbn in Q; try congruence; auto.
Qed.
Print Assumptions unanswered_only_stopped.

(** Three refreshes and two shutdowns: one refresh is answered, one is lost, one comes too late, and so does the second shutdown. *)
Example stop_ex : occur (managing0 3 2) [RefreshLooks 0; RefreshLooks 1; StopLooks 0; RoundEnds; RequestTaken 1; RoundEnds; AnswerTaken 1; TimeUp; RoundEnds; StopTaken 0; StopEnds 0; RefreshLooks 2; StopLooks 1]
  = Some (Managing false Over [NSend; NDone true; NDone false] [SDone true; SDone false]).
Proof. vm_compute. reflexivity. Qed.
(** The request of a refresh is taken by another that waits for an answer. *)
Example crossed_ex : occur (managing0 2 0) [RefreshLooks 0; RefreshLooks 1; RoundEnds; RequestTaken 0; Crossed 1 0; RoundEnds; AnswerTaken 1]
  = Some (Managing true Selecting [NDone true; NDone true] []).
Proof. vm_compute. reflexivity. Qed.
