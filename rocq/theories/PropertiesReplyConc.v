(** * C231: requests that share a pooled connection and the answers they get *)
From Coq Require Import List Arith Bool Lia.
From Verif Require Import Base BaseProofs StopConcProofs ReplyConc ReplyConcProofs.
Import ListNotations.

(** It is false that a request gets the answer to itself: the lock of the connection is given back before the connection is removed.  The first request gives
    up, the second gets the lock before the first removes the connection, and reads the late answer to the first; so does the third with that to the second. *)
Theorem stale_answer_refuted : exists es s, happen (wire0 3) es = Some s /\ askings s = [Back; Got 0; Got 1].
Proof. exists [Send 0; GiveUp 0; Send 1; Answer; Take 1 true; Send 2; Answer; Take 2 true; Remove 0]. eexists. split; [vm_compute; reflexivity|reflexivity]. Qed.
Print Assumptions stale_answer_refuted.

(** True as long as no request gives up; answers that fail the checks of a requester do no harm.  Missing: requests that give up. *)
Theorem own_answer_partial : forall n es s i a, happen (wire0 n) es = Some s -> (forall j, ~ In (GiveUp j) es) -> nth_error (askings s) i = Some (Got a) -> a = i.
Proof. intros n es s i a H N G. destruct (tidy_run es _ _ (inv_start n) (tidy_start n) N H) as (_ & _ & T). exact (T i a G). Qed.
Print Assumptions own_answer_partial.

(** In any case an answer is one to a request that was sent, and no two requests get the same. *)
Theorem answers_once : forall n es s i j a, happen (wire0 n) es = Some s -> nth_error (askings s) i = Some (Got a) ->
  (exists r, nth_error (askings s) a = Some r /\ r <> Queueing) /\ (nth_error (askings s) j = Some (Got a) -> i = j).
Proof.
  intros n es s i j a H G. destruct (inv_run _ _ _ (inv_start n) H) as (_ & _ & C & Q). pose proof (sum_nth (got a) _ _ _ G) as P. cbn in P. rewrite Nat.eqb_refl in P. split; [apply Q; lia|].
  intros J. destruct (Nat.eq_dec i j) as [D|D]; [exact D|]. pose proof (sum_two (got a) _ _ _ _ _ G J D) as S. cbn in S. rewrite Nat.eqb_refl in S. specialize (C a). lia.
Qed.
Print Assumptions answers_once.

(** A request returns only an answer that it read and that passed its checks. *)
Theorem answers_checked : forall n es s i a, happen (wire0 n) es = Some s -> nth_error (askings s) i = Some (Got a) -> In (Take i true) es.
Proof.
  intros n es s i a H G. assert (Z : forall es s0 s, happen s0 es = Some s -> nth_error (askings s) i = Some (Got a) -> nth_error (askings s0) i = Some (Got a) \/ In (Take i true) es).
  { clear. induction es as [|e es IH]; cbn; intros s0 s H G; [inversion H; subst; auto|]. destruct (happens s0 e) as [s1|] eqn:E; [|discriminate]. destruct (IH s1 s H G) as [N|N]; [|auto].
    destruct e as [k| |k ok|k|k]; cbn in E.
    - destruct (nth_error (askings s0) k) as [[]|]; try discriminate. destruct (busy s0); [discriminate|]. destruct (open s0); inversion E; subst s1; cbn in N; apply nth_set_cases in N; (destruct N as [(_ & N)|N]; [discriminate|auto]).
    - destruct (unanswered s0); [discriminate|]. inversion E; subst s1. cbn in N. auto.
    - destruct (nth_error (askings s0) k) as [[]|]; try discriminate. destruct (arrived s0); [discriminate|]. destruct (open s0); [|discriminate]. inversion E; subst s1; cbn in N. apply nth_set_cases in N.
      destruct N as [(-> & N)|N]; [|auto]. destruct ok; [auto|discriminate].
    - destruct (nth_error (askings s0) k) as [[]|]; try discriminate. inversion E; subst s1; cbn in N. apply nth_set_cases in N. destruct N as [(_ & N)|N]; [discriminate|auto].
    - destruct (nth_error (askings s0) k) as [[]|]; try discriminate. destruct (busy s0); [discriminate|]. inversion E; subst s1; cbn in N. apply nth_set_cases in N. destruct N as [(_ & N)|N]; [discriminate|auto]. }
  destruct (Z es _ s H G) as [N|N]; [|exact N]. apply nth_error_In, repeat_spec in N. discriminate.
Qed.
Print Assumptions answers_checked.

(** When the connection is removed nobody gets an answer from it any more. *)
Theorem removed_silent : forall n es s more s' i a, happen (wire0 n) es = Some s -> In Back (askings s) -> happen s more = Some s' ->
  nth_error (askings s') i = Some (Got a) -> nth_error (askings s) i = Some (Got a).
Proof.
  intros n es s more s' i a H B M G. apply (closed_run more s s' i a); auto; [exact (inv_run _ _ _ (inv_start n) H)|].
  assert (Z : forall es s0 s, happen s0 es = Some s -> (In Back (askings s0) -> open s0 = false) -> In Back (askings s) -> open s = false).
  { clear. induction es as [|e es IH]; cbn; intros s0 s H Q; [inversion H; subst; exact Q|]. destruct (happens s0 e) as [s1|] eqn:E; [|discriminate]. apply (IH s1 s H). intros B.
    destruct e as [k| |k ok|k|k]; cbn in E.
    - destruct (nth_error (askings s0) k) as [[]|]; try discriminate. destruct (busy s0); [discriminate|]. destruct (open s0); inversion E; subst s1; cbn in *; [|reflexivity]. apply in_set in B. destruct B as [B|B]; [discriminate|auto].
    - destruct (unanswered s0); [discriminate|]. inversion E; subst s1. cbn in *. auto.
    - destruct (nth_error (askings s0) k) as [[]|]; try discriminate. destruct (arrived s0); [discriminate|]. destruct (open s0); [|discriminate]. inversion E; subst s1; cbn in *. apply in_set in B. destruct B as [B|B]; [destruct ok; discriminate|auto].
    - destruct (nth_error (askings s0) k) as [[]|]; try discriminate. inversion E; subst s1; cbn in *. apply in_set in B. destruct B as [B|B]; [discriminate|auto].
    - destruct (nth_error (askings s0) k) as [[]|]; try discriminate. destruct (busy s0); [discriminate|]. inversion E; subst s1. reflexivity. }
  apply (Z es (wire0 n) s H); [|exact B]. cbn. intros I. apply repeat_spec in I. discriminate.
Qed.
Print Assumptions removed_silent.

(** All requests return, with an answer or an error, even if the peer never answers: four steps for each are enough, and as long as one has not returned
    a step other than one of the peer is possible. *)
Theorem requests_return : forall n es s, happen (wire0 n) es = Some s ->
  length es <= 4 * n /\ (Forall (fun r => (exists a, r = Got a) \/ r = Back) (askings s) \/ exists e s', e <> Answer /\ happens s e = Some s').
Proof.
  intros n es s H. split.
  - pose proof (ahead_run es _ _ H) as K. cbn [wire0 askings unanswered length] in K. assert (E : forall k, sum ahead (repeat Queueing k) = 4 * k) by (induction k; cbn [repeat sum ahead]; lia). rewrite E in K. lia.
  - destruct (can_go s (inv_run _ _ _ (inv_start n) H)) as [D|D]; [left; apply Forall_forall, D|right; exact D].
Qed.
Print Assumptions requests_return.

(** Three requests share a connection: one is answered, the answer to one fails its checks, and the last finds the connection closed. *)
Example shared_ex : happen (wire0 3) [Send 1; Answer; Take 1 true; Send 0; Answer; Take 0 false; Remove 0; Send 2; Remove 2] = Some (Wire false false [] [] [Back; Got 1; Back]).
Proof. vm_compute. reflexivity. Qed.
(** While a request waits no other is sent and the connection is not removed. *)
Example one_at_a_time_ex : happen (wire0 2) [Send 0; Send 1] = None /\ happen (wire0 2) [Send 0; GiveUp 0; Send 1; Remove 0] = None.
Proof. vm_compute. split; reflexivity. Qed.
