(** * C228: a client has one payment manager, however its calls overlap *)
From Coq Require Import List Arith Bool Lia.
From Verif Require Import Base BaseProofs LazyConc LazyConcProofs.
Import ListNotations.

(** All the calls that get a manager get the same, which was made by an attempt that succeeded, and the field keeps it: any
    further steps leave it in place. *)
Theorem one_manager : forall works n es s i x, lazy_run works (new_client n) es = Some s -> nth_error (places s) i = Some (Back (Some x)) ->
  works x = true /\ manager s = Some x /\
  (forall j y, nth_error (places s) j = Some (Back (Some y)) -> y = x) /\
  forall more s', lazy_run works (new_client n) (es ++ more) = Some s' -> manager s' = Some x.
Proof.
  intros works n es s i x H E. pose proof (inv_run _ _ _ _ (inv_start works n) H) as (Hh & F & T). pose proof (F _ (nth_error_In _ _ E)) as M. cbn in M. split; [|split; [exact M|split]].
  - destruct (existsb storing (places s)) eqn:S.
    + apply existsb_exists in S. destruct S as (p & I & S). destruct p; try discriminate. apply F in I. cbn in I. destruct I as (I & _). congruence.
    + specialize (T eq_refl). rewrite M in T. apply T.
  - intros j y J. pose proof (F _ (nth_error_In _ _ J)) as Q. cbn in Q. congruence.
  - intros more s' K. pose proof (inv_run _ _ _ _ (inv_start works n) K) as (_ & F' & _).
    assert (Q : nth_error (places s') i = Some (Back (Some x))).
    { assert (R : lazy_run works s more = Some s').
      { clear - H K. revert H K. generalize (new_client n). induction es as [|e es IH]; cbn; intros c H K; [inversion H; subst; exact K|]. destruct (lazy_step works c e); [eauto|discriminate]. }
      clear - R E. revert s E R. induction more as [|e more IH]; cbn; intros s E R; [inversion R; subst; exact E|]. destruct (lazy_step works s e) as [s1|] eqn:S; [|discriminate]. apply (IH s1); [|exact R].
      unfold lazy_step in S. destruct (nth_error (places s) e) as [p|] eqn:N; [|discriminate]. destruct (lazy_move works s p) as [[s2 p2]|] eqn:M; [|discriminate]. inversion S; subst s1. cbn [places].
      destruct (Nat.eq_dec e i) as [->|D]; [rewrite E in N; inversion N; subst p; discriminate M|]. rewrite nth_error_set_neq by exact D. exact E. }
    exact (F' _ (nth_error_In _ _ Q)).
Qed.
Print Assumptions one_manager.

(** At most one manager is ever made, so no second one can spend what the first has spent. *)
Theorem made_once : forall works n es s j k, lazy_run works (new_client n) es = Some s -> j < attempts s -> k < attempts s ->
  works j = true -> works k = true -> j = k.
Proof. intros works n es s j k H. apply successes. exact (inv_run _ _ _ _ (inv_start works n) H). Qed.
Print Assumptions made_once.

(** A call gets nothing only if an attempt failed. *)
Theorem none_only_on_failure : forall works n es s i, lazy_run works (new_client n) es = Some s -> nth_error (places s) i = Some (Back None) ->
  exists k, k < attempts s /\ works k = false.
Proof. intros works n es s i H E. destruct (inv_run _ _ _ _ (inv_start works n) H) as (_ & F & _). exact (F _ (nth_error_In _ _ E)). Qed.
Print Assumptions none_only_on_failure.

(** All the calls return: six steps for each are enough, and as long as one has not returned a step is possible. *)
Theorem manager_calls_return : forall works n es s, lazy_run works (new_client n) es = Some s ->
  length es <= 6 * n /\ (Forall (fun p => exists r, p = Back r) (places s) \/ exists i s', lazy_run works (new_client n) (es ++ [i]) = Some s').
Proof.
  intros works n es s H. split.
  - pose proof (ahead_run _ _ _ _ H) as K. assert (E : forall k, sum ahead (repeat Check k) = 6 * k) by (induction k; cbn [repeat sum ahead]; lia). cbn [new_client places] in K. rewrite E in K. lia.
  - destruct (can_go works s (inv_run _ _ _ _ (inv_start works n) H)) as [D|(i & s' & S)]; [left; apply Forall_forall, D|]. right. exists i, s'.
    revert H. generalize (new_client n). induction es as [|e es IH]; cbn; intros c H; [inversion H; subst; rewrite S; reflexivity|]. destruct (lazy_step works c e); [apply IH, H|discriminate].
Qed.
Print Assumptions manager_calls_return.

(** Three calls all find no manager at first; the first attempt fails, the second succeeds, and the third call uses what it made. *)
Definition second_works (k : nat) : bool := Nat.eqb k 1.
Example three_calls_ex : lazy_run second_works (new_client 3) [0; 1; 2; 1; 1; 1; 1; 0; 0; 0; 0; 0; 2; 2; 2]
  = Some (Lazy (Some 1) false 2 [Back (Some 1); Back None; Back (Some 1)]).
Proof. vm_compute. reflexivity. Qed.
Example no_second_lock_ex : lazy_run second_works (new_client 2) [0; 1; 0; 1] = None.
Proof. vm_compute. reflexivity. Qed.
