From Coq Require Import List Arith Bool Lia.
From Verif Require Import Base BaseProofs StopConc.
Import ListNotations.

Section sums.
  Context {A : Type}.
  Fixpoint sum (f : A -> nat) (l : list A) : nat := match l with [] => 0 | x :: r => f x + sum f r end.
  Lemma sum_app f a b : sum f (a ++ b) = sum f a + sum f b.
  Proof. induction a; cbn; lia. Qed.
  Lemma set_mid (a : list A) x b y : set_nth (a ++ x :: b) (length a) y = a ++ y :: b.
  Proof. induction a; cbn; congruence. Qed.
  Lemma sum_set f (l : list A) i x y : nth_error l i = Some x -> sum f (set_nth l i y) + f x = sum f l + f y.
  Proof. intros N. apply nth_error_split in N. destruct N as (a & b & -> & <-). rewrite set_mid, !sum_app. cbn. lia. Qed.
  Lemma sum_nth f (l : list A) i x : nth_error l i = Some x -> f x <= sum f l.
  Proof. intros N. apply nth_error_split in N. destruct N as (a & b & -> & <-). rewrite sum_app. cbn. lia. Qed.
  Lemma sum_two f (l : list A) i j x y : nth_error l i = Some x -> nth_error l j = Some y -> i <> j -> f x + f y <= sum f l.
  Proof.
    revert i j. induction l as [|z l IH]; intros i j N M D; [destruct i; discriminate|]. destruct i as [|i], j as [|j]; cbn in N, M |- *; [lia| | |].
    - inversion N; subst. apply (sum_nth f) in M. lia.
    - inversion M; subst. apply (sum_nth f) in N. lia.
    - specialize (IH i j N M). lia.
  Qed.
  Lemma sum_zero f (l : list A) : (forall x, In x l -> f x = 0) -> sum f l = 0.
  Proof. induction l as [|z l IH]; cbn; intros H; [reflexivity|]. rewrite H, IH; auto. Qed.
  Lemma sum_pos f (l : list A) : sum f l <> 0 -> exists i r, nth_error l i = Some r /\ f r <> 0.
  Proof. induction l as [|x l IH]; cbn; [tauto|]. intros H. destruct (Nat.eq_dec (f x) 0) as [E|E]; [|exists 0, x; auto]. destruct IH as (i & r & I & Q); [lia|]. exists (S i), r. auto. Qed.
  Lemma in_set (l : list A) i x y : In x (set_nth l i y) -> x = y \/ In x l.
  Proof. revert i. induction l as [|z l IH]; intros [|i]; cbn; [tauto|tauto| |]; intros [->|H]; auto. apply IH in H. tauto. Qed.
End sums.

Definition waits (r : refreshed) : nat := match r with NWait => 1 | _ => 0 end.
Definition asked (u : updating) : nat := match u with InRound true | Answering => 1 | _ => 0 end.
Definition cleared (k : stopping) : nat := match k with SClear | SDone true => 1 | _ => 0 end.
Definition over (u : updating) : nat := match u with Over => 1 | _ => 0 end.
Definition inv (s : managing) : Prop :=
  sum waits (refreshes s) = asked (goroutine s) /\ sum cleared (stops s) = over (goroutine s) /\ (started s = false -> goroutine s = Over) /\
  (forall k b, nth_error (stops s) k = Some (SDone b) -> started s = false) /\
  (forall i, nth_error (refreshes s) i = Some (NDone false) -> started s = false).

Lemma inv_start n m : inv (managing0 n m).
Proof.
  unfold inv, managing0. cbn [refreshes stops goroutine started asked over].
  rewrite !sum_zero by (intros x I; apply repeat_spec in I; subst; reflexivity). repeat split; try congruence.
  - intros k b N. apply nth_error_In, repeat_spec in N. discriminate.
  - intros i N. apply nth_error_In, repeat_spec in N. discriminate.
Qed.

Lemma nth_set_cases {A} (l : list A) i j x y : nth_error (set_nth l i x) j = Some y -> (i = j /\ y = x) \/ nth_error l j = Some y.
Proof.
  destruct (Nat.eq_dec i j) as [->|D]; [|rewrite nth_error_set_neq by exact D; auto]. intros N.
  destruct (nth_error l j) as [z|] eqn:E.
  - rewrite nth_error_set_eq in N by (apply nth_error_Some; congruence). inversion N. auto.
  - exfalso. revert j E N. induction l as [|w l IH]; intros [|j] E N; cbn in *; try discriminate. eauto.
Qed.

Lemma inv_step s e s' : inv s -> occurs s e = Some s' -> inv s'.
Proof.
  intros (W & C & B & D & N) E. destruct s as [st go rs ss]. cbn [started goroutine refreshes stops] in *.
  destruct e as [ | |i|i|i|i j|k|k|k]; cbn [occurs started goroutine refreshes stops] in E.
  - destruct go as [a| | |]; try discriminate. inversion E; subst s'. unfold inv. cbn [started goroutine refreshes stops]. destruct a; cbn in *; repeat split; auto; intros; exfalso; discriminate (B H).
  - destruct go as [a| | |]; try discriminate. inversion E; subst s'. unfold inv. cbn [started goroutine refreshes stops]. cbn in *; repeat split; auto; intros; exfalso; discriminate (B H).
  - destruct (nth_error rs i) as [[]|] eqn:X; try discriminate. inversion E; subst s'. unfold inv. cbn [started goroutine refreshes stops]. split; [|split; [exact C|split; [exact B|split; [exact D|]]]].
    + pose proof (sum_set waits rs i _ (if st then NSend else NDone false) X) as Q. destruct st; cbn in Q; lia.
    + intros j Y. apply nth_set_cases in Y. destruct Y as [(_ & Y)|Y]; [destruct st; [discriminate|reflexivity]|eauto].
  - destruct go; try discriminate. destruct (nth_error rs i) as [[]|] eqn:X; try discriminate. inversion E; subst s'. unfold inv. cbn [started goroutine refreshes stops]. split; [|split; [exact C|split; [|split; [exact D|]]]].
    + pose proof (sum_set waits rs i _ NWait X) as Q. cbn in *. lia.
    + intros Z. discriminate (B Z).
    + intros j Y. apply nth_set_cases in Y. destruct Y as [(_ & Y)|Y]; [discriminate|eauto].
  - destruct go; try discriminate. destruct (nth_error rs i) as [[]|] eqn:X; try discriminate. inversion E; subst s'. unfold inv. cbn [started goroutine refreshes stops]. split; [|split; [exact C|split; [|split; [exact D|]]]].
    + pose proof (sum_set waits rs i _ (NDone true) X) as Q. cbn in *. lia.
    + intros Z. discriminate (B Z).
    + intros j Y. apply nth_set_cases in Y. destruct Y as [(_ & Y)|Y]; [discriminate|eauto].
  - destruct (nth_error rs i) as [[]|] eqn:X; try discriminate. destruct (nth_error rs j) as [[]|] eqn:Y; try discriminate. inversion E; subst s'. unfold inv. cbn [started goroutine refreshes stops].
    assert (NE : i <> j) by congruence. split; [|split; [exact C|split; [exact B|split; [exact D|]]]].
    + pose proof (sum_set waits rs i _ NWait X) as Q. assert (Y' : nth_error (set_nth rs i NWait) j = Some NWait) by (rewrite nth_error_set_neq by exact NE; exact Y).
      pose proof (sum_set waits _ j _ (NDone true) Y') as Q'. cbn in *. lia.
    + intros z Z. apply nth_set_cases in Z. destruct Z as [(_ & Z)|Z]; [discriminate|]. apply nth_set_cases in Z. destruct Z as [(_ & Z)|Z]; [discriminate|eauto].
  - destruct (nth_error ss k) as [[]|] eqn:X; try discriminate. inversion E; subst s'. unfold inv. cbn [started goroutine refreshes stops]. split; [exact W|split; [|split; [exact B|split; [|exact N]]]].
    + pose proof (sum_set cleared ss k _ (if st then SSend else SDone false) X) as Q. destruct st; cbn in Q; lia.
    + intros j b Y. apply nth_set_cases in Y. destruct Y as [(_ & Y)|Y]; [destruct st; [discriminate|reflexivity]|eauto].
  - destruct go; try discriminate. destruct (nth_error ss k) as [[]|] eqn:X; try discriminate. inversion E; subst s'. unfold inv. cbn [started goroutine refreshes stops]. split; [exact W|split; [|split; [auto|split; [|exact N]]]].
    + pose proof (sum_set cleared ss k _ SClear X) as Q. cbn in *. lia.
    + intros j b Y. apply nth_set_cases in Y. destruct Y as [(_ & Y)|Y]; [discriminate|eauto].
  - destruct (nth_error ss k) as [[]|] eqn:X; try discriminate. inversion E; subst s'. unfold inv. cbn [started goroutine refreshes stops].
    assert (G : go = Over). { pose proof (sum_nth cleared ss k _ X) as Q. cbn in Q. destruct go; cbn in C; try lia. reflexivity. }
    split; [exact W|split; [|split; [auto|split; auto]]]. pose proof (sum_set cleared ss k _ (SDone true) X) as Q. cbn in *. lia.
Qed.
Lemma inv_run s es s' : inv s -> occur s es = Some s' -> inv s'.
Proof.
  revert s. induction es as [|e es IH]; cbn; intros s G H; [inversion H; subst; exact G|]. destruct (occurs s e) eqn:E; [|discriminate]. eapply IH; [eapply inv_step; eassumption|exact H].
Qed.

(** Whoever waits for the goroutine when it is over waits for ever. *)
Lemma over_step s e s' : inv s -> goroutine s = Over -> occurs s e = Some s' -> goroutine s' = Over /\
  (forall i, nth_error (refreshes s) i = Some NSend -> nth_error (refreshes s') i = Some NSend) /\
  (forall k, nth_error (stops s) k = Some SSend -> nth_error (stops s') k = Some SSend).
Proof.
  intros (W & _) G E. rewrite G in W. cbn in W.
  assert (NW : forall j, nth_error (refreshes s) j <> Some NWait) by (intros j X; apply (sum_nth waits) in X; cbn in X; lia).
  destruct e as [ | |i|i|i|i j|k|k|k]; cbn [occurs] in E; rewrite ?G in E; try discriminate.
  - destruct (nth_error (refreshes s) i) as [[]|] eqn:X; try discriminate. inversion E; subst s'. cbn [goroutine refreshes stops]. split; [reflexivity|split; [|auto]]. intros z Z.
    rewrite nth_error_set_neq; [exact Z|congruence].
  - destruct (nth_error (refreshes s) i) as [[]|] eqn:X; try discriminate. destruct (nth_error (refreshes s) j) as [[]|] eqn:Y; try discriminate. exfalso. exact (NW _ Y).
  - destruct (nth_error (stops s) k) as [[]|] eqn:X; try discriminate. inversion E; subst s'. cbn [goroutine refreshes stops]. split; [reflexivity|split; [auto|]]. intros z Z.
    rewrite nth_error_set_neq; [exact Z|congruence].
  - destruct (nth_error (stops s) k) as [[]|] eqn:X; try discriminate. inversion E; subst s'. cbn [goroutine refreshes stops]. split; [reflexivity|split; [auto|]]. intros z Z.
    rewrite nth_error_set_neq; [exact Z|congruence].
Qed.
Lemma over_run es : forall s s', inv s -> goroutine s = Over -> occur s es = Some s' ->
  (forall i, nth_error (refreshes s) i = Some NSend -> nth_error (refreshes s') i = Some NSend) /\
  (forall k, nth_error (stops s) k = Some SSend -> nth_error (stops s') k = Some SSend).
Proof.
  induction es as [|e es IH]; cbn; intros s s' V G H; [inversion H; subst; auto|]. destruct (occurs s e) as [s1|] eqn:E; [|discriminate].
  destruct (over_step s e s1 V G E) as (G1 & R1 & K1). destruct (IH s1 s' (inv_step _ _ _ V E) G1 H) as (R2 & K2). auto.
Qed.
