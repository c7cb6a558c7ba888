(** * Overlapping calls of one HTTP communicator *)
From Coq Require Import String List Arith Bool Lia.
From Verif Require Import Base BaseProofs HttpConc HttpConcSpec HttpConcProofs.
Import ListNotations.

(** Of all the calls, at most one is with its server. *)
Theorem communicator_exclusive : forall l es s i j x y,
  comm_run (NewHttpCommunicator l) es = Some s ->
  nth_error (calls s) i = Some x -> nth_error (calls s) j = Some y -> asking x -> asking y -> i = j.
Proof.
  intros l es s i j x y H X Y (n & Ax) (m & Ay). destruct (reached _ _ _ H) as (_ & O1 & _). clear H.
  assert (P : sum one (calls s) <= 1) by (destruct (locked s); lia). clear O1.
  revert i j X Y. induction (calls s) as [|z k IH]; intros [|i] [|j] X Y; cbn in X, Y; try discriminate; try reflexivity.
  - exfalso. inversion X; subst z. apply nth_error_In, in_split in Y. destruct Y as (a & b & ->). cbn in P. rewrite sum_app in P. cbn in P.
    unfold one, is_asking in P. rewrite Ax, Ay in P. lia.
  - exfalso. inversion Y; subst z. apply nth_error_In, in_split in X. destruct X as (a & b & ->). cbn in P. rewrite sum_app in P. cbn in P.
    unfold one, is_asking in P. rewrite Ax, Ay in P. lia.
  - f_equal. apply IH; auto. cbn in P. lia.
Qed.
Print Assumptions communicator_exclusive.

(** Each call has the answer of its own server, whatever the others do: the calls are those made, in
    their places, and the answer is that of the server if it came in time. *)
Theorem communicator_own_answer : forall l es s i c t r,
  comm_run (NewHttpCommunicator l) es = Some s -> nth_error (calls s) i = Some (c, Returned t r) ->
  nth_error l i = Some c /\ answers c r /\ forall n, takes c n -> n <= t.
Proof.
  intros l es s i c t r H E. destruct (reached _ _ _ H) as (F & _ & _ & _ & R). destruct (R c t r (nth_error_In _ _ E)) as (-> & T & _).
  split; [rewrite <- F; apply (map_nth_error fst) in E; exact E|]. split; [apply Do_answers|]. intros n K. apply takes_lasts in K. lia.
Qed.
Print Assumptions communicator_own_answer.

(** Every call returns, after at most the seconds all the servers take together, which is at most 180
    for each call: the calls that returned did so within that time, as long as one has not returned no
    more time has passed and no more events than that and two for each call have happened, and something can
    always happen.
    Missing: that a call waits for its own server only. *)
Theorem communicator_returns_partial : forall l es s n,
  comm_run (NewHttpCommunicator l) es = Some s -> take_together l n ->
  n <= 180 * length l /\
  (forall c t r, In (c, Returned t r) (calls s) -> t <= n) /\
  (forall x, In x (calls s) -> ~ returned x -> clock s <= n /\ length es <= n + 2 * length l) /\
  exists e s', comm_run (NewHttpCommunicator l) (es ++ [e]) = Some s'.
Proof.
  intros l es s n H T. split; [apply together_bound, T|]. pose proof (reached _ _ _ H) as G. pose proof G as (F & _ & _ & C & R).
  rewrite <- F in T. apply together_cost in T. split; [|split].
  - intros c t r I. destruct (R c t r I) as (_ & ? & _). lia.
  - intros x I N. pose proof (C (open_in _ _ I N)) as K. pose proof (spent_cost (calls s)). apply weight_run in H. rewrite weight_start in H.
    pose proof (weight_le (calls s)). rewrite <- F, map_length. cbn in H. lia.
  - destruct (can_go _ _ G) as (e & s' & S'). exists e, s'. clear - H S'. revert H. generalize (NewHttpCommunicator l). induction es as [|x es IH]; cbn; intros k H.
    + inversion H; subst. rewrite S'. reflexivity.
    + destruct (comm_step k x); [apply IH, H|discriminate].
Qed.
Print Assumptions communicator_returns_partial.

(** The second call is to a server that answers after one second, and returns after 181, past the timeout: the first
    call is to a server that never answers. *)
Definition mute : call := Call None [].
Definition prompt : call := Call (Some 1) (gs "answer").
Definition slow_first : list event := Lock 0 :: repeat Second 180 ++ [Unlock 0; Lock 1; Second; Unlock 1].
Theorem communicator_waits_refuted : exists es s, comm_run (NewHttpCommunicator [mute; prompt]) es = Some s /\
  takes prompt 1 /\ nth_error (calls s) 1 = Some (prompt, Returned 181 (OkR (gs "answer"))).
Proof. exists slow_first. eexists. split; [vm_compute; reflexivity|]. split; [constructor|reflexivity]. Qed.
Print Assumptions communicator_waits_refuted.

(** Three calls, the last of which gets the lock first. *)
Example communicator_ex :
  option_map (fun s => map snd (calls s)) (comm_run (NewHttpCommunicator [prompt; Call (Some 200) (gs "late"); Call (Some 2) (gs "x")])
    (Lock 2 :: [Second; Second; Unlock 2; Lock 0; Second; Unlock 0; Lock 1] ++ repeat Second 180 ++ [Unlock 1]))
  = Some [Returned 3 (OkR (gs "answer")); Returned 183 ErrR; Returned 2 (OkR (gs "x"))].
Proof. vm_compute. reflexivity. Qed.
Example communicator_held_ex : comm_run (NewHttpCommunicator [mute; prompt]) [Lock 0; Second; Lock 1] = None.
Proof. vm_compute. reflexivity. Qed.
