From Coq Require Import List Arith Bool Lia.
From Verif Require Import Base BaseProofs LazyConc.
Import ListNotations.

Definition holds (p : place) : nat := match p with Recheck | Make | Store _ | Leave | LeaveNil => 1 | _ => 0 end.
Fixpoint sum (f : place -> nat) (l : list place) : nat := match l with [] => 0 | x :: r => f x + sum f r end.
Lemma sum_app f a b : sum f (a ++ b) = sum f a + sum f b.
Proof. induction a; cbn; lia. Qed.
Lemma sum_in f x l : In x l -> f x <= sum f l.
Proof. induction l as [|y l IH]; cbn; [tauto|]. intros [->|H]; [lia|]. apply IH in H. lia. Qed.
Lemma set_mid {A} (a : list A) x b y : set_nth (a ++ x :: b) (length a) y = a ++ y :: b.
Proof. induction a; cbn; congruence. Qed.

Section proofs.
  Variable works : nat -> bool.

  (** What holds at a place. *)
  Definition fits (m : option nat) (n : nat) (p : place) : Prop :=
    match p with
    | Make => m = None /\ forall k, k < n -> works k = false
    | Store x => m = None /\ n = S x /\ works x = true /\ forall k, k < x -> works k = false
    | Leave | Look => m <> None
    | LeaveNil => exists k, k < n /\ works k = false
    | Back (Some x) => m = Some x
    | Back None => exists k, k < n /\ works k = false
    | _ => True
    end.
  (** What is known of the manager and the attempts when nobody is about to store one. *)
  Definition settled (m : option nat) (n : nat) : Prop :=
    match m with Some x => n = S x /\ works x = true /\ forall k, k < x -> works k = false | None => forall k, k < n -> works k = false end.
  Definition storing (p : place) : bool := match p with Store _ => true | _ => false end.
  Definition inv (s : lazy) : Prop :=
    sum holds (places s) = (if held s then 1 else 0) /\ (forall p, In p (places s) -> fits (manager s) (attempts s) p) /\
    (existsb storing (places s) = false -> settled (manager s) (attempts s)).

  Lemma inv_start n : inv (new_client n).
  Proof using.
    unfold inv, new_client. cbn [places held manager attempts]. split; [|split].
    - induction n; cbn; auto.
    - intros p I. apply repeat_spec in I. subst p. exact Logic.I.
    - intros _ k K. lia.
  Qed.

  Lemma fits_mono m n m' n' p : holds p = 0 -> n <= n' -> (m <> None -> m' = m) -> fits m n p -> fits m' n' p.
  Proof using.
    intros H L M F. destruct p as [ | | | |x| | | |[x|]]; cbn in *; try discriminate; auto.
    - intros E. rewrite M in E; auto.
    - subst m. apply M. discriminate.
    - destruct F as (k & K & W). exists k. split; [lia|exact W].
  Qed.

  Lemma not_storing l : (forall q, In q l -> holds q = 0) -> existsb storing l = false.
  Proof using.
    intros H. destruct (existsb storing l) eqn:Y; [|reflexivity]. apply existsb_exists in Y. destruct Y as (q & Q & Y). apply H in Q. destruct q; cbn in *; discriminate.
  Qed.

  Lemma inv_step s i s' : inv s -> lazy_step works s i = Some s' -> inv s'.
  Proof using.
    intros (H & F & T) E. unfold lazy_step in E. destruct (nth_error (places s) i) as [p|] eqn:N; [|discriminate].
    destruct (lazy_move works s p) as [[s1 p1]|] eqn:M; [|discriminate]. inversion E; subst s'; clear E.
    apply nth_error_split in N. destruct N as (a & b & N & <-). rewrite N in *. rewrite set_mid. destruct s as [mg hd at_ pl]. cbn [manager held attempts places] in *. subst pl.
    rewrite sum_app in H. cbn [sum] in H. pose proof (F p (in_elt p a b)) as Fp. rewrite existsb_app in T. cbn [existsb] in T.
    assert (O : holds p = 1 -> forall q, In q a \/ In q b -> holds q = 0).
    { intros X q Q. destruct hd; destruct Q as [Q|Q]; apply (sum_in holds) in Q; lia. }
    assert (OS : holds p = 1 -> existsb storing a = false /\ existsb storing b = false).
    { intros X. split; apply not_storing; intros q Q; apply (O X); auto. }
    assert (FR : forall m' n', (forall q, In q a \/ In q b -> fits m' n' q) -> fits m' n' p1 -> forall q, In q (a ++ p1 :: b) -> fits m' n' q).
    { intros m' n' A B q I. apply in_app_iff in I. cbn in I. destruct I as [I|[<-|I]]; auto. }
    assert (SAME : forall q, In q a \/ In q b -> fits mg at_ q). { intros q Q. apply F, in_app_iff. cbn. tauto. }
    unfold inv. cbn [manager held attempts places]. rewrite sum_app, existsb_app. cbn [sum existsb].
    destruct p as [ | | | |x| | | |r]; cbn [lazy_move manager held attempts places] in M.
    - inversion M; subst s1 p1; clear M. cbn [manager held attempts] in *. destruct mg as [y|]; cbn [holds storing] in *; (split; [lia|]); (split; [apply FR; [exact SAME|cbn; congruence || exact Logic.I]|exact T]).
    - destruct hd; [discriminate|]. inversion M; subst s1 p1; clear M. cbn [manager held attempts holds storing] in *. split; [lia|]. split; [apply FR; [exact SAME|exact Logic.I]|exact T].
    - inversion M; subst s1 p1; clear M. cbn [manager held attempts] in *. destruct (OS eq_refl) as (Sa & Sb). cbn [storing orb] in T. rewrite Sa, Sb in T. specialize (T eq_refl).
      destruct mg as [y|]; cbn [holds storing] in *; (split; [lia|]); (split; [apply FR; [exact SAME|]|rewrite Sa, Sb; intros _; exact T]).
      + cbn. discriminate.
      + cbn. split; [reflexivity|exact T].
    - inversion M; subst s1 p1; clear M. cbn [manager held attempts] in *. destruct Fp as (-> & Z). destruct (OS eq_refl) as (Sa & Sb).
      assert (FO : forall q, In q a \/ In q b -> fits None (S at_) q). { intros q Q. apply (fits_mono None at_); [apply O; [reflexivity|exact Q]|lia|auto|apply SAME, Q]. }
      destruct (works at_) eqn:W; cbn [holds storing] in *; (split; [lia|]); (split; [apply FR; [exact FO|]|]).
      + cbn. auto.
      + rewrite Sa. cbn. discriminate.
      + cbn. exists at_. split; [lia|exact W].
      + intros _ k K. destruct (Nat.eq_dec k at_) as [->|]; [exact W|]. apply Z. lia.
    - inversion M; subst s1 p1; clear M. cbn [manager held attempts holds storing] in *. destruct Fp as (-> & -> & W & Z). split; [lia|].
      split; [apply FR; [|cbn; discriminate]|intros _; cbn; auto]. intros q Q. apply (fits_mono None (S x)); [apply O; [reflexivity|exact Q]|lia|congruence|apply SAME, Q].
    - inversion M; subst s1 p1; clear M. cbn [manager held attempts holds storing] in *. split; [destruct hd; lia|]. split; [apply FR; [exact SAME|]|exact T]. cbn in *. destruct mg; congruence.
    - inversion M; subst s1 p1; clear M. cbn [manager held attempts holds storing] in *. split; [destruct hd; lia|]. split; [apply FR; [exact SAME|exact Fp]|exact T].
    - inversion M; subst s1 p1; clear M. cbn [manager held attempts holds storing] in *. split; [lia|]. split; [apply FR; [exact SAME|]|exact T]. cbn in *. destruct mg; congruence.
    - discriminate.
  Qed.
  Lemma inv_run s es s' : inv s -> lazy_run works s es = Some s' -> inv s'.
  Proof using.
    revert s. induction es as [|e es IH]; cbn; intros s G H; [inversion H; subst; exact G|]. destruct (lazy_step works s e) eqn:E; [|discriminate]. eapply IH; [eapply inv_step; eassumption|exact H].
  Qed.

  Lemma successes s : inv s -> forall j k, j < attempts s -> k < attempts s -> works j = true -> works k = true -> j = k.
  Proof using.
    intros (_ & F & T) j k J K Wj Wk. assert (Q : exists x, attempts s = S x /\ forall k, k < x -> works k = false).
    { destruct (existsb storing (places s)) eqn:E.
      - apply existsb_exists in E. destruct E as (p & I & E). destruct p; try discriminate. apply F in I. cbn in I. destruct I as (_ & A & _ & B). eauto.
      - specialize (T eq_refl). destruct (manager s) as [x|]; cbn in T; [exists x; tauto|]. rewrite (T j J) in Wj. discriminate. }
    destruct Q as (x & A & B). destruct (Nat.eq_dec j x) as [->|Nj]; [|rewrite B in Wj by lia; discriminate]. destruct (Nat.eq_dec k x) as [->|Nk]; [reflexivity|]. rewrite B in Wk by lia. discriminate.
  Qed.

  (** Somebody can go on. *)
  Lemma sum_pos f l : sum f l <> 0 -> exists r, In r l /\ f r <> 0.
  Proof using. induction l as [|x l IH]; cbn; [tauto|]. intros H. destruct (Nat.eq_dec (f x) 0) as [E|E]; [|exists x; auto]. destruct IH as (r & I & Q); [lia|]. exists r. auto. Qed.
  Lemma can_go s : inv s -> (forall p, In p (places s) -> exists r, p = Back r) \/ exists i s', lazy_step works s i = Some s'.
  Proof using.
    intros (H & _). assert (GO : forall p, In p (places s) -> (exists x, lazy_move works s p = Some x) -> exists i s', lazy_step works s i = Some s').
    { intros p I ([s1 p1] & X). apply In_nth_error in I. destruct I as (i & I). exists i. unfold lazy_step. rewrite I, X. eauto. }
    destruct (held s) eqn:L.
    - right. destruct (sum_pos holds (places s)) as (p & I & Q); [lia|]. apply (GO p I). destruct p; cbn in Q |- *; try congruence; eauto.
    - assert (D : forall p, {exists r, p = Back r} + {~ exists r, p = Back r}) by (intros []; try (right; intros (r0 & Q); discriminate Q); left; eauto).
      destruct (Forall_Exists_dec _ D (places s)) as [F|F]; [left; apply Forall_forall, F|]. right. apply Exists_exists in F. destruct F as (p & I & Q). apply (GO p I).
      destruct p; cbn; rewrite ?L; eauto. exfalso. apply Q. eauto.
  Qed.

  Definition ahead (p : place) : nat := match p with Check => 6 | AtLock => 5 | Recheck => 4 | Make => 3 | Store _ => 2 | Leave | LeaveNil | Look => 1 | Back _ => 0 end.
  Lemma ahead_run s es s' : lazy_run works s es = Some s' -> length es + sum ahead (places s') <= sum ahead (places s).
  Proof using.
    revert s. induction es as [|e es IH]; cbn; intros s H; [inversion H; subst; lia|]. destruct (lazy_step works s e) as [s1|] eqn:E; [|discriminate]. apply IH in H.
    unfold lazy_step in E. destruct (nth_error (places s) e) as [p|] eqn:N; [|discriminate]. destruct (lazy_move works s p) as [[s2 p2]|] eqn:M; [|discriminate]. inversion E; subst s1; clear E.
    apply nth_error_split in N. destruct N as (a & b & N & <-). cbn [places] in H. rewrite N, set_mid, !sum_app in *. cbn [sum] in *.
    assert (ahead p2 < ahead p); [|lia]. clear - M. destruct p; cbn in M; try discriminate; try (destruct (held s); [discriminate|]); inversion M; subst; cbn; try lia.
    - destruct (manager s2); cbn; lia.
    - destruct (manager s2); cbn; lia.
    - destruct (works (attempts s)); cbn; lia.
  Qed.
End proofs.
