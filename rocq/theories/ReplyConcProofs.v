From Coq Require Import List Arith Bool Lia.
From Verif Require Import Base BaseProofs StopConcProofs ReplyConc.
Import ListNotations.

Definition awaits (r : asking) : nat := match r with Awaiting => 1 | _ => 0 end.
Definition got (a : nat) (r : asking) : nat := match r with Got b => if Nat.eqb b a then 1 else 0 | _ => 0 end.
Definition on_wire (s : wire) : list nat := arrived s ++ unanswered s.
Definition b2n (b : bool) : nat := if b then 1 else 0.
Definition occ (a : nat) (l : list nat) : nat := count_occ Nat.eq_dec l a.
Lemma occ_app a l l' : occ a (l ++ l') = occ a l + occ a l'.
Proof. apply count_occ_app. Qed.
Lemma occ_cons a b l : occ a (b :: l) = (if Nat.eqb b a then 1 else 0) + occ a l.
Proof. unfold occ. cbn. destruct (Nat.eq_dec b a) as [->|D]; [rewrite Nat.eqb_refl; reflexivity|]. apply Nat.eqb_neq in D. rewrite D. reflexivity. Qed.

Definition inv (s : wire) : Prop :=
  sum awaits (askings s) = b2n (busy s) /\ (busy s = true -> open s = true) /\
  (forall a, sum (got a) (askings s) + occ a (on_wire s) <= 1) /\
  (forall a, sum (got a) (askings s) + occ a (on_wire s) <> 0 -> exists r, nth_error (askings s) a = Some r /\ r <> Queueing).

Lemma inv_start n : inv (wire0 n).
Proof.
  unfold inv, wire0, on_wire. cbn [askings busy open arrived unanswered app b2n].
  assert (Z : forall f : asking -> nat, f Queueing = 0 -> sum f (repeat Queueing n) = 0) by (intros f F; apply sum_zero; intros x I; apply repeat_spec in I; subst; exact F).
  rewrite Z by reflexivity. split; [reflexivity|]. split; [discriminate|]. split; intros a; rewrite Z by reflexivity; cbn; [lia|congruence].
Qed.

Lemma moved (l : list asking) i r (a : nat) x : (exists y, nth_error l a = Some y /\ y <> Queueing) -> nth_error l i = Some x -> r <> Queueing -> exists y, nth_error (set_nth l i r) a = Some y /\ y <> Queueing.
Proof.
  intros (y & N & Q) X R. destruct (Nat.eq_dec i a) as [->|D]; [|rewrite nth_error_set_neq by exact D; eauto]. exists r. split; [apply nth_error_set_eq, nth_error_Some; congruence|exact R].
Qed.

Lemma inv_step s e s' : inv s -> happens s e = Some s' -> inv s'.
Proof.
  intros (A & O & C & Q) E. destruct s as [op bu un ar rs]. unfold on_wire in *. cbn [open busy unanswered arrived askings] in *.
  destruct e as [i| |i ok|i|i]; cbn [happens open busy unanswered arrived askings] in E.
  - destruct (nth_error rs i) as [[]|] eqn:X; try discriminate. destruct bu; [discriminate|]. destruct op; inversion E; subst s'; clear E; unfold inv, on_wire; cbn [open busy unanswered arrived askings].
    + assert (G : forall a, sum (got a) (set_nth rs i Awaiting) = sum (got a) rs) by (intros a; pose proof (sum_set (got a) rs i _ Awaiting X) as Y; cbn in Y; lia).
      pose proof (sum_set awaits rs i _ Awaiting X) as Y. cbn in Y, A.
      assert (Z : sum (got i) rs + occ i (ar ++ un) = 0).
      { destruct (Nat.eq_dec (sum (got i) rs + occ i (ar ++ un)) 0) as [Z|Z]; [exact Z|]. destruct (Q i Z) as (r & R & NR). congruence. }
      split; [cbn; lia|]. split; [reflexivity|]. split; intros a; rewrite G, app_assoc, occ_app, occ_cons; change (occ a []) with 0.
      * specialize (C a). destruct (Nat.eqb i a) eqn:D; [apply Nat.eqb_eq in D; subst a|]; lia.
      * intros P. destruct (Nat.eqb i a) eqn:D.
        -- apply Nat.eqb_eq in D. subst a. exists Awaiting. split; [apply nth_error_set_eq, nth_error_Some; congruence|discriminate].
        -- eapply moved; [apply Q; lia|exact X|discriminate].
    + assert (G : forall a, sum (got a) (set_nth rs i Failed) = sum (got a) rs) by (intros a; pose proof (sum_set (got a) rs i _ Failed X) as Y; cbn in Y; lia).
      pose proof (sum_set awaits rs i _ Failed X) as Y. cbn in Y, A. split; [cbn; lia|]. split; [discriminate|]. split; intros a; rewrite G; [apply C|]. intros P. eapply moved; [apply Q, P|exact X|discriminate].
  - destruct un as [|a un]; [discriminate|]. inversion E; subst s'; clear E. unfold inv, on_wire; cbn [open busy unanswered arrived askings]. rewrite <- app_assoc. cbn [app]. auto.
  - destruct (nth_error rs i) as [[]|] eqn:X; try discriminate. destruct ar as [|b ar]; [discriminate|]. destruct op; [|discriminate]. inversion E; subst s'; clear E. unfold inv, on_wire; cbn [open busy unanswered arrived askings].
    pose proof (sum_set awaits rs i _ (if ok then Got b else Failed) X) as Y. pose proof (sum_nth awaits rs i _ X) as B. cbn in B. destruct bu; cbn in A; [|lia].
    assert (G : forall a, sum (got a) (set_nth rs i (if ok then Got b else Failed)) + occ a (ar ++ un) <= sum (got a) rs + occ a ((b :: ar) ++ un)).
    { intros a. pose proof (sum_set (got a) rs i _ (if ok then Got b else Failed) X) as Z. cbn [app]. rewrite occ_cons. destruct ok; cbn [got] in Z; lia. }
    split; [destruct ok; cbn in *; lia|]. split; [discriminate|]. split; intros a; specialize (G a).
    + specialize (C a). lia.
    + intros P. eapply moved; [apply Q; lia|exact X|destruct ok; discriminate].
  - destruct (nth_error rs i) as [[]|] eqn:X; try discriminate. inversion E; subst s'; clear E. unfold inv, on_wire; cbn [open busy unanswered arrived askings].
    assert (G : forall a, sum (got a) (set_nth rs i Failed) = sum (got a) rs) by (intros a; pose proof (sum_set (got a) rs i _ Failed X) as Y; cbn in Y; lia).
    pose proof (sum_set awaits rs i _ Failed X) as Y. pose proof (sum_nth awaits rs i _ X) as B. cbn in B, Y. destruct bu; cbn in A; [|lia].
    split; [cbn; lia|]. split; [discriminate|]. split; intros a; rewrite G; [apply C|]. intros P. eapply moved; [apply Q, P|exact X|discriminate].
  - destruct (nth_error rs i) as [[]|] eqn:X; try discriminate. destruct bu; [discriminate|]. inversion E; subst s'; clear E. unfold inv, on_wire; cbn [open busy unanswered arrived askings].
    assert (G : forall a, sum (got a) (set_nth rs i Back) = sum (got a) rs) by (intros a; pose proof (sum_set (got a) rs i _ Back X) as Y; cbn in Y; lia).
    pose proof (sum_set awaits rs i _ Back X) as Y. cbn in Y, A. split; [cbn; lia|]. split; [discriminate|]. split; intros a; rewrite G; [apply C|]. intros P. eapply moved; [apply Q, P|exact X|discriminate].
Qed.
Lemma inv_run s es s' : inv s -> happen s es = Some s' -> inv s'.
Proof.
  revert s. induction es as [|e es IH]; cbn; intros s G H; [inversion H; subst; exact G|]. destruct (happens s e) eqn:E; [|discriminate]. eapply IH; [eapply inv_step; eassumption|exact H].
Qed.

(** When nobody has given up, what is on the wire is for the request that waits. *)
Definition tidy (s : wire) : Prop :=
  (busy s = false -> on_wire s = []) /\ (forall i, nth_error (askings s) i = Some Awaiting -> on_wire s = [i]) /\
  (forall i a, nth_error (askings s) i = Some (Got a) -> a = i).
Lemma tidy_start n : tidy (wire0 n).
Proof. split; [reflexivity|]. split; intros i; [|intros a]; intros N; apply nth_error_In, repeat_spec in N; discriminate. Qed.
Lemma tidy_step s e s' : inv s -> tidy s -> (forall i, e <> GiveUp i) -> happens s e = Some s' -> tidy s'.
Proof.
  intros (A & O & _) (T & W & G) NG E. destruct s as [op bu un ar rs]. unfold tidy, on_wire in *. cbn [open busy unanswered arrived askings] in *.
  assert (ONE : forall i j, nth_error rs i = Some Awaiting -> nth_error rs j = Some Awaiting -> i = j).
  { intros i j I J. destruct (Nat.eq_dec i j) as [D|D]; [exact D|]. pose proof (sum_two awaits rs i j _ _ I J D) as Y. cbn in Y. destruct bu; cbn in A; lia. }
  assert (NO : bu = false -> forall j, nth_error rs j <> Some Awaiting) by (intros -> j J; apply (sum_nth awaits) in J; cbn in A, J; lia).
  destruct e as [i| |i ok|i|i]; cbn [happens open busy unanswered arrived askings] in E.
  - destruct (nth_error rs i) as [[]|] eqn:X; try discriminate. destruct bu; [discriminate|]. specialize (T eq_refl). apply app_eq_nil in T. destruct T as (-> & ->).
    destruct op; inversion E; subst s'; clear E; cbn [open busy unanswered arrived askings app].
    + split; [discriminate|]. split.
      * intros j J. apply nth_set_cases in J. destruct J as [(-> & _)|J]; [reflexivity|]. exfalso. exact (NO eq_refl _ J).
      * intros j a J. apply nth_set_cases in J. destruct J as [(_ & J)|J]; [discriminate|eauto].
    + split; [reflexivity|]. split.
      * intros j J. apply nth_set_cases in J. destruct J as [(_ & J)|J]; [discriminate|]. exfalso. exact (NO eq_refl _ J).
      * intros j a J. apply nth_set_cases in J. destruct J as [(_ & J)|J]; [discriminate|eauto].
  - destruct un as [|a un]; [discriminate|]. inversion E; subst s'; clear E. cbn [open busy unanswered arrived askings]. rewrite <- app_assoc. cbn [app]. auto.
  - destruct (nth_error rs i) as [[]|] eqn:X; try discriminate. destruct ar as [|b ar]; [discriminate|]. destruct op; [|discriminate]. inversion E; subst s'; clear E. cbn [open busy unanswered arrived askings].
    specialize (W i X). cbn [app] in W. inversion W as [[Wb Wl]]. subst b. rewrite Wl. split; [reflexivity|]. split.
    + intros j J. exfalso. destruct (Nat.eq_dec i j) as [->|D].
      * rewrite nth_error_set_eq in J by (apply nth_error_Some; congruence). destruct ok; discriminate.
      * rewrite nth_error_set_neq in J by exact D. exact (D (ONE _ _ X J)).
    + intros j a J. apply nth_set_cases in J. destruct J as [(-> & J)|J]; [destruct ok; inversion J; reflexivity|eauto].
  - exfalso. exact (NG i eq_refl).
  - destruct (nth_error rs i) as [[]|] eqn:X; try discriminate. destruct bu; [discriminate|]. inversion E; subst s'; clear E. cbn [open busy unanswered arrived askings]. split; [exact T|]. split.
    + intros j J. apply nth_set_cases in J. destruct J as [(_ & J)|J]; [discriminate|eauto].
    + intros j a J. apply nth_set_cases in J. destruct J as [(_ & J)|J]; [discriminate|eauto].
Qed.
Lemma tidy_run es : forall s s', inv s -> tidy s -> (forall i, ~ In (GiveUp i) es) -> happen s es = Some s' -> tidy s'.
Proof.
  induction es as [|e es IH]; cbn; intros s s' V T N H; [inversion H; subst; exact T|]. destruct (happens s e) as [s1|] eqn:E; [|discriminate].
  apply (IH s1); [eapply inv_step; eassumption| |intros i I; apply (N i); auto|exact H]. eapply tidy_step; try eassumption. intros i ->. apply (N i). auto.
Qed.

(** Over a closed connection nobody gets anything. *)
Lemma closed_run es : forall s s' i a, inv s -> open s = false -> happen s es = Some s' -> nth_error (askings s') i = Some (Got a) -> nth_error (askings s) i = Some (Got a).
Proof.
  induction es as [|e es IH]; cbn; intros s s' i a V O H N; [inversion H; subst; exact N|]. destruct (happens s e) as [s1|] eqn:E; [|discriminate].
  assert (Q : open s1 = false /\ (nth_error (askings s1) i = Some (Got a) -> nth_error (askings s) i = Some (Got a))).
  { clear - O E. destruct e as [k| |k ok|k|k]; cbn in E; rewrite ?O in E.
    - destruct (nth_error (askings s) k) as [[]|]; try discriminate. destruct (busy s); [discriminate|]. inversion E; subst s1. cbn. split; [reflexivity|]. intros N. apply nth_set_cases in N. destruct N as [(_ & N)|N]; [discriminate|exact N].
    - destruct (unanswered s); [discriminate|]. inversion E; subst s1. cbn. auto.
    - destruct (nth_error (askings s) k) as [[]|]; try discriminate. destruct (arrived s); discriminate.
    - destruct (nth_error (askings s) k) as [[]|]; try discriminate. inversion E; subst s1. cbn. split; [auto|]. intros N. apply nth_set_cases in N. destruct N as [(_ & N)|N]; [discriminate|exact N].
    - destruct (nth_error (askings s) k) as [[]|]; try discriminate. destruct (busy s); [discriminate|]. inversion E; subst s1. cbn. split; [reflexivity|]. intros N. apply nth_set_cases in N. destruct N as [(_ & N)|N]; [discriminate|exact N]. }
  destruct Q as (O1 & Q). apply Q. exact (IH s1 s' i a (inv_step _ _ _ V E) O1 H N).
Qed.

Definition finished (r : asking) : Prop := (exists a, r = Got a) \/ r = Back.
Lemma can_go s : inv s -> (forall r, In r (askings s) -> finished r) \/ exists e s', e <> Answer /\ happens s e = Some s'.
Proof.
  intros (A & O & _). destruct (busy s) eqn:B.
  - right. destruct (sum_pos awaits (askings s)) as (i & r & N & Q); [rewrite A; discriminate|]. destruct r; cbn in Q; try congruence. exists (GiveUp i). cbn. rewrite N. eexists. split; [discriminate|reflexivity].
  - assert (D : forall r, {finished r} + {~ finished r}).
    { intros []; try (right; intros [(a0 & Q)|Q]; discriminate Q); left; unfold finished; eauto. }
    destruct (Forall_Exists_dec _ D (askings s)) as [F|F]; [left; apply Forall_forall, F|]. right. apply Exists_exists in F. destruct F as (r & I & Q). apply In_nth_error in I. destruct I as (i & N).
    destruct r as [ | |a| | ].
    + exists (Send i). cbn. rewrite N, B. destruct (open s); eexists; (split; [discriminate|reflexivity]).
    + exfalso. apply (sum_nth awaits) in N. cbn in N, A. lia.
    + exfalso. apply Q. left. eauto.
    + exists (Remove i). cbn. rewrite N, B. eexists; (split; [discriminate|reflexivity]).
    + exfalso. apply Q. right. reflexivity.
Qed.
Definition ahead (r : asking) : nat := match r with Queueing => 4 | Awaiting => 2 | Failed => 1 | _ => 0 end.
Lemma ahead_run es : forall s s', happen s es = Some s' -> length es + (sum ahead (askings s') + length (unanswered s')) <= sum ahead (askings s) + length (unanswered s).
Proof.
  induction es as [|e es IH]; cbn; intros s s' H; [inversion H; subst; lia|]. destruct (happens s e) as [s1|] eqn:E; [|discriminate]. apply IH in H.
  assert (sum ahead (askings s1) + length (unanswered s1) < sum ahead (askings s) + length (unanswered s)); [|lia]. clear - E.
  destruct e as [k| |k ok|k|k]; cbn in E.
  - destruct (nth_error (askings s) k) as [[]|] eqn:N; try discriminate. destruct (busy s); [discriminate|]. destruct (open s); inversion E; subst s1; cbn [askings unanswered].
    + pose proof (sum_set ahead _ k _ Awaiting N) as Q. cbn in Q. rewrite app_length. cbn. lia.
    + pose proof (sum_set ahead _ k _ Failed N) as Q. cbn in Q. lia.
  - destruct (unanswered s) eqn:U; [discriminate|]. inversion E; subst s1; cbn. lia.
  - destruct (nth_error (askings s) k) as [[]|] eqn:N; try discriminate. destruct (arrived s); [discriminate|]. destruct (open s); [|discriminate]. inversion E; subst s1; cbn [askings unanswered].
    pose proof (sum_set ahead _ k _ (if ok then Got n else Failed) N) as Q. destruct ok; cbn in Q; lia.
  - destruct (nth_error (askings s) k) as [[]|] eqn:N; try discriminate. inversion E; subst s1; cbn [askings unanswered]. pose proof (sum_set ahead _ k _ Failed N) as Q. cbn in Q. lia.
  - destruct (nth_error (askings s) k) as [[]|] eqn:N; try discriminate. destruct (busy s); [discriminate|]. inversion E; subst s1; cbn [askings unanswered]. pose proof (sum_set ahead _ k _ Back N) as Q. cbn in Q. lia.
Qed.
