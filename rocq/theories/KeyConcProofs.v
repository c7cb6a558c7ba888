From Coq Require Import List ZArith Lia.
From Verif Require Import Base BaseProofs Crypto Message Gateway KeyConc.
Import ListNotations.

Section parts.
  Variable PI : option bytes -> Prop.
  Variable PK : option keypair -> Prop.
  Variable PV : Z -> Prop.
  Definition parts (i : identity) : Prop := PI (f_id i) /\ PK (f_key i) /\ PV (f_ver i).
  Definition gparts (g : goroutine) : Prop :=
    match g with
    | SetID i | SetKey i | SetVersion i | Got _ i => parts i
    | GetID _ | IsSet _ => True
    | GetKey _ id => PI id
    | GetVersion _ id k => PI id /\ PK k
    end.
  Definition sparts (s : core) : Prop := parts (fields s) /\ forall i g, nth_error (goroutines s) i = Some g -> gparts g.
  Lemma parts_step s i : sparts s -> sparts (core_step s i).
  Proof.
    intros (F & G). unfold core_step. destruct (nth_error (goroutines s) i) as [g|] eqn:E; [|split; assumption].
    assert (A : parts (fst (access (fields s) g)) /\ gparts (snd (access (fields s) g))).
    { pose proof (G i g E) as P. destruct F as (F1 & F2 & F3). destruct g; cbn in *; unfold parts in *; cbn; tauto. }
    destruct A as (A & B). split; cbn [fields goroutines]; [exact A|]. intros j h H.
    destruct (Nat.eq_dec i j) as [<-|N].
    - rewrite nth_error_set_eq in H; [inversion H; subst; exact B|]. apply nth_error_Some. congruence.
    - rewrite nth_error_set_neq in H by exact N. exact (G j h H).
  Qed.
  Lemma parts_run l s : sparts s -> sparts (core_run s l).
  Proof. unfold core_run. revert s. induction l as [|i l IH]; cbn; intros s H; [exact H|]. apply IH, parts_step, H. Qed.
End parts.

(** One initialisation, at place [j]. *)
Definition alone (f n : identity) (j : nat) (s : core) : Prop :=
  (exists g, nth_error (goroutines s) j = Some g /\
    ((g = SetID n /\ fields s = f) \/ (g = SetKey n /\ fields s = Identity (f_id n) (f_key f) (f_ver f)) \/
     (g = SetVersion n /\ fields s = Identity (f_id n) (f_key n) (f_ver f)) \/ (g = IsSet n /\ fields s = n))) /\
  forall i g, i <> j -> nth_error (goroutines s) i = Some g -> match g with SetID _ | SetKey _ | SetVersion _ | IsSet _ => False | _ => True end.
Lemma alone_step f n j s i : alone f n j s -> alone f n j (core_step s i).
Proof.
  intros ((g & E & K) & O). unfold core_step. destruct (nth_error (goroutines s) i) as [h|] eqn:H; [|split; [exists g; tauto|exact O]].
  assert (L : (i < length (goroutines s))%nat) by (apply nth_error_Some; congruence).
  destruct (Nat.eq_dec i j) as [->|N].
  - rewrite E in H. inversion H; subst h. split.
    + exists (snd (access (fields s) g)). cbn [goroutines fields]. rewrite nth_error_set_eq by exact L. split; [reflexivity|].
      destruct f, n. destruct K as [(-> & ->)|[(-> & ->)|[(-> & ->)|(-> & ->)]]]; cbn; tauto.
    + cbn [goroutines]. intros i g' N Q. rewrite nth_error_set_neq in Q by congruence. exact (O i g' N Q).
  - pose proof (O i h N H) as Z. assert (FF : fst (access (fields s) h) = fields s) by (destruct h; cbn in *; tauto). split.
    + exists g. cbn [goroutines fields]. rewrite nth_error_set_neq by exact N. rewrite FF. split; [exact E|exact K].
    + cbn [goroutines]. intros i' g' N' Q. destruct (Nat.eq_dec i i') as [<-|N2].
      * rewrite nth_error_set_eq in Q by exact L. inversion Q; subst g'. destruct h; cbn in *; tauto.
      * rewrite nth_error_set_neq in Q by exact N2. exact (O i' g' N' Q).
Qed.
Lemma alone_run f n j l s : alone f n j s -> alone f n j (core_run s l).
Proof. unfold core_run. revert s. induction l as [|i l IH]; cbn; intros s H; [exact H|]. apply IH, alone_step, H. Qed.
