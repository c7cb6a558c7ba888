From Coq Require Import List Arith Bool Lia.
From Verif Require Import Base BaseProofs HttpConc HttpConcSpec.
Import ListNotations.

Definition spent (x : call * phase) : nat :=
  match x with (c, AtLock) => 0 | (c, Asking n) => lasts c - n | (c, Returned _ _) => lasts c end.
Definition is_asking (x : call * phase) : bool := match snd x with Asking _ => true | _ => false end.
Fixpoint sum (f : call * phase -> nat) (l : list (call * phase)) : nat :=
  match l with [] => 0 | x :: r => f x + sum f r end.
Definition one (x : call * phase) : nat := if is_asking x then 1 else 0.
Definition cost (x : call * phase) : nat := lasts (fst x).
Definition open_ (x : call * phase) : nat := match snd x with Returned _ _ => 0 | _ => 1 end.

Lemma sum_app f a b : sum f (a ++ b) = sum f a + sum f b.
Proof. induction a; cbn; lia. Qed.
Lemma set_nth_mid {A} (a : list A) x b y : set_nth (a ++ x :: b) (length a) y = a ++ y :: b.
Proof. induction a; cbn; congruence. Qed.

Definition good (l : list call) (s : comm) : Prop :=
  map fst (calls s) = l /\
  sum one (calls s) = (if locked s then 1 else 0) /\
  (forall c n, In (c, Asking n) (calls s) -> n <= lasts c) /\
  (sum open_ (calls s) <> 0 -> clock s = sum spent (calls s)) /\
  (forall c t r, In (c, Returned t r) (calls s) -> r = Do c /\ lasts c <= t <= sum cost (calls s) /\ t <= clock s).

Lemma spent_cost l : sum spent l <= sum cost l.
Proof. induction l as [|[c [|n|t r]] l IH]; cbn in *; unfold cost in *; cbn in *; lia. Qed.
Lemma sum_older f l : (forall x, f (older x) = f x) -> sum f (map older l) = sum f l.
Proof. intros H. induction l; cbn; [reflexivity|]. rewrite H. lia. Qed.
Lemma fst_older l : map fst (map older l) = map fst l.
Proof. induction l as [|[c [|[|n]|t r]] l IH]; cbn; congruence. Qed.

Lemma older_spent l : existsb due l = false -> (forall c n, In (c, Asking n) l -> n <= lasts c) -> sum spent (map older l) = sum spent l + sum one l.
Proof.
  induction l as [|[c [|[|n]|t r]] l IH]; cbn [existsb due snd orb map older sum spent one is_asking]; intros E B; try discriminate; try reflexivity.
  - rewrite IH; [reflexivity|exact E|]. intros c' n' I. apply B. right. exact I.
  - rewrite IH; [|exact E|intros c' n' I; apply B; right; exact I]. pose proof (B c (S n) (or_introl eq_refl)). unfold one. cbn. lia.
  - rewrite IH; [|exact E|intros c' n' I; apply B; right; exact I]. unfold one. cbn. lia.
Qed.

Lemma open_free l : existsb at_lock l = false -> sum one l = 0 -> sum open_ l = 0.
Proof. induction l as [|[c [|n|t r]] l IH]; cbn; intros E B; try discriminate; auto. Qed.

Lemma in_older c p l : In (c, p) (map older l) -> match p with Asking n => In (c, Asking (S n)) l \/ In (c, Asking n) l | _ => In (c, p) l end.
Proof.
  intros H. apply in_map_iff in H. destruct H as ([c' [|[|n]|t r]] & E & I); cbn in E; inversion E; subst; auto.
Qed.

Lemma good_start l : good l (NewHttpCommunicator l).
Proof.
  assert (Z : forall f, (forall c, f (c, AtLock) = 0) -> sum f (map (fun c => (c, AtLock)) l) = 0). { intros f H. induction l; cbn; [reflexivity|]. rewrite H, IHl. reflexivity. }
  unfold good, NewHttpCommunicator. cbn [calls locked clock].
  assert (N : forall c p, In (c, p) (map (fun c => (c, AtLock)) l) -> p = AtLock). { intros c p I. apply in_map_iff in I. destruct I as (y & E & _). congruence. }
  repeat split; intros.
  - rewrite map_map. cbn. apply map_id.
  - apply Z. reflexivity.
  - apply N in H. discriminate.
  - symmetry. apply Z. reflexivity.
  - apply N in H. discriminate.
  - apply N in H. discriminate.
  - apply N in H. discriminate.
  - apply N in H. discriminate.
Qed.

Lemma good_step l s e s' : good l s -> comm_step s e = Some s' -> good l s'.
Proof.
  intros (F & O1 & B & C & R) H. destruct e as [i|i|]; cbn in H.
  - destruct (nth_error (calls s) i) as [[c p]|] eqn:E; [|discriminate]. destruct p; try discriminate. destruct (locked s) eqn:L; [discriminate|].
    inversion H; subst s'; clear H. apply nth_error_split in E. destruct E as (a & b & E & <-).
    unfold good. cbn [calls locked clock]. rewrite E, set_nth_mid in *. rewrite ?map_app, ?sum_app in *. cbn [map fst sum] in *.
    split; [exact F|]. split; [unfold one in *; cbn in *; lia|]. split; [|split].
    + intros c' n I. apply in_app_iff in I. cbn in I. destruct I as [I|[I|I]].
      * apply B, in_app_iff. auto.
      * inversion I. subst. lia.
      * apply B, in_app_iff. cbn. auto.
    + intros _. rewrite C by (unfold open_; cbn; lia). cbn. lia.
    + intros c' t r I. assert (I' : In (c', Returned t r) (a ++ (c, AtLock) :: b)).
      { apply in_app_iff in I. apply in_app_iff. cbn in *. destruct I as [I|[I|I]]; [auto|discriminate|auto]. }
      exact (R _ _ _ I').
  - destruct (nth_error (calls s) i) as [[c p]|] eqn:E; [|discriminate]. destruct p as [|[|n]|]; try discriminate.
    inversion H; subst s'; clear H. apply nth_error_split in E. destruct E as (a & b & E & <-).
    unfold good. cbn [calls locked clock]. rewrite E, set_nth_mid in *. rewrite ?map_app, ?sum_app in *. cbn [map fst sum] in *.
    assert (L : clock s = sum spent a + (spent (c, Asking 0) + sum spent b)). { apply C. unfold open_. cbn. lia. }
    split; [exact F|]. split; [destruct (locked s); unfold one in *; cbn in *; lia|]. split; [|split].
    + intros c' n I. apply in_app_iff in I. cbn in I. destruct I as [I|[I|I]]; [|discriminate|]; apply B, in_app_iff; cbn; auto.
    + intros _. rewrite L. cbn. lia.
    + intros c' t r I. apply in_app_iff in I. cbn in I. destruct I as [I|[I|I]].
      * refine (R c' t r _). apply in_app_iff. auto.
      * inversion I; subst; clear I. split; [reflexivity|]. rewrite L. pose proof (spent_cost a). pose proof (spent_cost b). unfold cost at 2. cbn. lia.
      * refine (R c' t r _). apply in_app_iff. cbn. auto.
  - destruct (existsb due (calls s)) eqn:D; cbn [orb] in H; [discriminate|].
    destruct (negb (locked s) && existsb at_lock (calls s)) eqn:X; [discriminate|]. inversion H; subst s'; clear H.
    unfold good. cbn [calls locked clock]. rewrite fst_older.
    assert (K : sum cost (map older (calls s)) = sum cost (calls s)) by (apply sum_older; intros [c [|[|n]|t r]]; reflexivity).
    split; [exact F|]. split; [rewrite sum_older; [exact O1|intros [c [|[|n]|t r]]; reflexivity]|]. split; [|split].
    + intros c n I. apply in_older in I. destruct I as [I|I]; apply B in I; lia.
    + rewrite sum_older by (intros [c [|[|n]|t r]]; reflexivity). intros N. rewrite older_spent by assumption. rewrite <- (C N). rewrite O1.
      destruct (locked s) eqn:L; [lia|]. cbn in X. exfalso. apply N. apply open_free; assumption.
    + intros c t r I. apply in_older in I. rewrite K. destruct (R c t r I) as (? & ? & ?). repeat split; try assumption; lia.
Qed.

Lemma good_run l s es s' : good l s -> comm_run s es = Some s' -> good l s'.
Proof.
  revert s. induction es as [|e es IH]; cbn; intros s G H; [inversion H; subst; exact G|].
  destruct (comm_step s e) eqn:E; [|discriminate]. eapply IH; [eapply good_step; eassumption|exact H].
Qed.
Lemma reached l es s : comm_run (NewHttpCommunicator l) es = Some s -> good l s.
Proof. apply good_run, good_start. Qed.

Lemma takes_lasts c n : takes c n -> n = lasts c.
Proof. intros H. inversion H; reflexivity. Qed.
Lemma Do_answers c : answers c (Do c).
Proof.
  destruct c as [[d|] b]; unfold Do; cbn [delay reply]; [|constructor]. destruct (Nat.ltb_spec d timeout); constructor; assumption.
Qed.
Lemma together_cost l n : take_together (map fst l) n -> n = sum cost l.
Proof.
  revert n. induction l as [|x l IH]; cbn; intros n H; inversion H; subst; [reflexivity|]. unfold cost at 1. apply IH in H4. apply takes_lasts in H2. lia.
Qed.

(** Something can happen as long as a call has not returned. *)
Lemma can_go l s : good l s -> exists e s', comm_step s e = Some s'.
Proof.
  intros (_ & O1 & _). destruct (existsb due (calls s)) eqn:D.
  - apply existsb_exists in D. destruct D as ([c p] & I & E). destruct p as [|[|n]|]; try discriminate. apply In_nth_error in I. destruct I as (i & I).
    exists (Unlock i). cbn. rewrite I. eauto.
  - destruct (locked s) eqn:L; [|destruct (existsb at_lock (calls s)) eqn:X].
    + exists Second. cbn. rewrite D, L. cbn. eauto.
    + apply existsb_exists in X. destruct X as ([c p] & I & E). destruct p; try discriminate. apply In_nth_error in I. destruct I as (i & I).
      exists (Lock i). cbn. rewrite I, L. eauto.
    + exists Second. cbn. rewrite D, L, X. cbn. eauto.
Qed.

(** ** Events so far *)
Definition weight (x : call * phase) : nat := match snd x with AtLock => 0 | Asking _ => 1 | Returned _ _ => 2 end.
Lemma weight_step s e s' : comm_step s e = Some s' -> clock s' + sum weight (calls s') = S (clock s + sum weight (calls s)).
Proof.
  intros H. destruct e as [i|i|]; cbn in H.
  - destruct (nth_error (calls s) i) as [[c p]|] eqn:E; [|discriminate]. destruct p; try discriminate. destruct (locked s) eqn:L; [discriminate|].
    inversion H; subst s'; clear H. apply nth_error_split in E. destruct E as (a & b & E & <-). cbn [calls clock]. rewrite E, set_nth_mid, !sum_app. cbn. lia.
  - destruct (nth_error (calls s) i) as [[c p]|] eqn:E; [|discriminate]. destruct p as [|[|n]|]; try discriminate.
    inversion H; subst s'; clear H. apply nth_error_split in E. destruct E as (a & b & E & <-). cbn [calls clock]. rewrite E, set_nth_mid, !sum_app. cbn. lia.
  - destruct (existsb due (calls s) || _); [discriminate|]. inversion H; subst s'; clear H. cbn [calls clock].
    rewrite sum_older by (intros [c [|[|n]|t r]]; reflexivity). lia.
Qed.
Lemma weight_run s es s' : comm_run s es = Some s' -> clock s' + sum weight (calls s') = length es + (clock s + sum weight (calls s)).
Proof.
  revert s. induction es as [|e es IH]; cbn; intros s H; [inversion H; subst; lia|].
  destruct (comm_step s e) eqn:E; [|discriminate]. apply IH in H. apply weight_step in E. lia.
Qed.
Lemma weight_start l : sum weight (calls (NewHttpCommunicator l)) = 0.
Proof. cbn. induction l; cbn; auto. Qed.
Lemma weight_le l : sum weight l <= 2 * length l.
Proof. induction l as [|[c [|n|t r]] l IH]; cbn in *; lia. Qed.

Lemma open_in x l : In x l -> ~ returned x -> sum open_ l <> 0.
Proof.
  intros I N. apply in_split in I. destruct I as (a & b & ->). rewrite sum_app. cbn. destruct x as [c [|n|t r]]; cbn; try lia. exfalso. apply N. unfold returned. cbn. eauto.
Qed.
Lemma together_bound l n : take_together l n -> n <= 180 * length l.
Proof. induction 1 as [|c l n m T _ IH]; cbn [length]; [lia|]. inversion T; subst; lia. Qed.
