From Coq Require Import List Arith Bool Lia.
From Verif Require Import Base BaseProofs AdminConc.
Import ListNotations.

Notation task := (admin_op * stage)%type.
Fixpoint sum (f : task -> nat) (l : list task) : nat := match l with [] => 0 | x :: r => f x + sum f r end.
Lemma sum_app f a b : sum f (a ++ b) = sum f a + sum f b.
Proof. induction a; cbn; lia. Qed.
Lemma sum_in f x l : In x l -> f x <= sum f l.
Proof. induction l as [|y l IH]; cbn; [tauto|]. intros [->|H]; [lia|]. apply IH in H. lia. Qed.
Lemma sum_pos f l : sum f l <> 0 -> exists r, In r l /\ f r <> 0.
Proof. induction l as [|x l IH]; cbn; [tauto|]. intros H. destruct (Nat.eq_dec (f x) 0) as [E|E]; [|exists x; auto]. destruct IH as (r & I & Q); [lia|]. exists r. auto. Qed.
Lemma set_mid {A} (a : list A) x b y : set_nth (a ++ x :: b) (length a) y = a ++ y :: b.
Proof. induction a; cbn; congruence. Qed.

(** An operation has the lock for writing, or is next; has it for writing; has it for reading. *)
Definition writes (t : task) : nat :=
  match t with
  | (Initialise _ _, (Drain | Put | GiveBack _)) | (Features _ _, (Drain | Exchange | Put | GiveBack _)) => 1
  | _ => 0
  end.
Definition inside (t : task) : nat :=
  match t with
  | (Initialise _ _, (Put | GiveBack _)) | (Features _ _, (Exchange | Put | GiveBack _)) => 1
  | _ => 0
  end.
Definition reads (t : task) : nat := match t with (Ask _, (Find | Contact _ | GiveBack _)) => 1 | _ => 0 end.

(** The stages an operation goes through, and what it returns. *)
Definition fits (t : task) : Prop :=
  match t with
  | (Initialise _ _, (Find | Contact _)) | (Features _ _, (Find | Contact _)) | (Ask _, (Exchange | Drain | Put)) => False
  | (Initialise _ _, (GiveBack r)) => r = Accepted
  | (Initialise _ _, Returned r) | (Features _ _, (GiveBack r | Returned r)) => r = Accepted \/ r = Refused
  | (Ask _, (GiveBack r | Returned r)) => r = Unknown \/ exists g ok, r = Asked g ok
  | _ => True
  end.
(** An operation has put a registration in the map. *)
Definition put (id reg : nat) (t : task) : Prop := (fst t = Initialise id reg \/ fst t = Features id reg) /\ (snd t = GiveBack Accepted \/ snd t = Returned Accepted).
(** What an operation that has looked in the map has found was put there. *)
Definition found (l : list task) (t : task) : Prop :=
  match t with
  | (Ask id, (Contact g | GiveBack (Asked g _) | Returned (Asked g _))) => exists q, In q l /\ put id g q
  | _ => True
  end.

Definition inv (s : admin) : Prop :=
  sum writes (tasks s) = (if announced s then 1 else 0) /\ sum reads (tasks s) = readers s /\ (sum inside (tasks s) <> 0 -> readers s = 0) /\
  (forall t, In t (tasks s) -> fits t /\ found (tasks s) t) /\
  (forall id reg, aget Nat.eqb (known s) id = Some reg -> exists t, In t (tasks s) /\ put id reg t) /\
  (forall id reg t, In t (tasks s) -> put id reg t -> aget Nat.eqb (known s) id <> None).

Lemma inv_start l : inv (new_admin l).
Proof.
  unfold inv, new_admin. cbn [tasks announced readers known].
  assert (Z : forall f, (forall o, f (o, first_stage o) = 0) -> sum f (map (fun o => (o, first_stage o)) l) = 0) by (intros f F; induction l; cbn; rewrite ?F; auto).
  rewrite !Z by (intros []; reflexivity). split; [reflexivity|]. split; [reflexivity|]. split; [congruence|]. split; [|split].
  - intros t I. apply in_map_iff in I. destruct I as (o & <- & _). destruct o; cbn; auto.
  - intros id reg E. discriminate.
  - intros id reg t I. apply in_map_iff in I. destruct I as (o & <- & _). intros (_ & [Q|Q]); destruct o; discriminate.
Qed.

Lemma aget_put (m : list (nat * nat)) k v j : aget Nat.eqb (aset Nat.eqb m k v) j = if Nat.eqb k j then Some v else aget Nat.eqb m j.
Proof. rewrite (aget_aset Nat.eqb Nat.eqb_eq), Nat.eqb_sym. reflexivity. Qed.

Lemma inside_writes t : inside t <= writes t.
Proof. destruct t as [[] []]; cbn; lia. Qed.
Lemma sum_le f g l : (forall t, f t <= g t) -> sum f l <= sum g l.
Proof. intros H. induction l as [|x l IH]; cbn; [lia|]. specialize (H x). lia. Qed.

(** What one step does to the lock and the map. *)
Lemma move_facts s o p ok s1 p1 : fits (o, p) -> admin_move s o p ok = Some (s1, p1) ->
  fits (o, p1) /\
  ((if announced s then 1 else 0) = 1 \/ announced s = false) /\
  (known s1 = known s /\ (forall id reg, put id reg (o, p1) <-> put id reg (o, p)) \/
   exists id reg, (o = Initialise id reg \/ o = Features id reg) /\ p = Put /\ p1 = GiveBack Accepted /\ known s1 = aset Nat.eqb (known s) id reg).
Proof.
  intros F M. split; [|split; [destruct (announced s); auto|]].
  - destruct o as [i r|i|i r], p; cbn in M, F; try discriminate; try contradiction;
      repeat match type of M with context [if ?b then _ else _] => destruct b | context [match ?b with _ => _ end] => destruct b end;
      inversion M; subst; cbn; eauto.
  - destruct o as [i r|i|i r], p; cbn in M, F; try discriminate; try contradiction;
      repeat match type of M with context [if ?b then _ else _] => destruct b | context [match ?b with _ => _ end] => destruct b end;
      inversion M; subst;
      try (right; eexists _, _; split; [eauto|]; repeat split; reflexivity);
      left; (split; [reflexivity|]); intros ? ?; unfold put; cbn; intuition congruence.
Qed.

Lemma found_mono l l' t : (forall id reg, (exists q, In q l /\ put id reg q) -> exists q, In q l' /\ put id reg q) -> found l t -> found l' t.
Proof. intros H. destruct t as [[] []]; cbn; auto; destruct r; auto. Qed.

Lemma inv_step s e s' : inv s -> admin_step s e = Some s' -> inv s'.
Proof.
  intros (W & R & X & F & K & G) E. unfold admin_step in E. destruct e as [i ok]. cbn [fst snd] in E. destruct (nth_error (tasks s) i) as [[o p]|] eqn:N; [|discriminate].
  destruct (admin_move s o p ok) as [[s1 p1]|] eqn:M; [|discriminate]. inversion E; subst s'; clear E.
  apply nth_error_split in N. destruct N as (a & b & N & <-). rewrite N in *. rewrite set_mid.
  destruct (F (o, p) (in_elt _ a b)) as (Fp & Dp). destruct (move_facts _ _ _ _ _ _ Fp M) as (Fp1 & _ & C).
  rewrite sum_app in W, R, X. cbn [sum] in W, R, X.
  assert (PUT : forall id reg, (exists q, In q (a ++ (o, p) :: b) /\ put id reg q) -> exists q, In q (a ++ (o, p1) :: b) /\ put id reg q).
  { intros id reg (q & I & Q). apply in_app_iff in I. cbn in I. destruct I as [I|[<-|I]].
    - exists q. split; [apply in_app_iff; auto|exact Q].
    - exists (o, p1). split; [apply in_elt|]. destruct C as [(_ & C)|(i0 & r0 & _ & -> & _)]; [apply C, Q|]. destruct Q as (_ & [Q|Q]); discriminate.
    - exists q. split; [apply in_app_iff; cbn; auto|exact Q]. }
  unfold inv. cbn [tasks announced readers known]. rewrite !sum_app. cbn [sum].
  assert (IW : sum inside a <= sum writes a /\ sum inside b <= sum writes b) by (split; apply sum_le, inside_writes).
  assert (LOCK : sum writes a + (writes (o, p1) + sum writes b) = (if announced s1 then 1 else 0) /\ sum reads a + (reads (o, p1) + sum reads b) = readers s1 /\
                 (sum inside a + (inside (o, p1) + sum inside b) <> 0 -> readers s1 = 0)).
  { clear C PUT Dp. destruct o as [id r|id|id r], p; cbn in M, Fp; try discriminate; try contradiction;
      repeat match type of M with
             | (if announced s then _ else _) = _ => destruct (announced s) eqn:?
             | match readers s with _ => _ end = _ => destruct (readers s) eqn:?
             end; try discriminate; inversion M; subst; clear M;
      try destruct ok; try destruct (aget Nat.eqb (known s1) id);
      cbn [with_lock announced readers known writes reads inside pred] in *;
      repeat match goal with H : announced s1 = _ |- _ => rewrite H in * | H : readers s1 = _ |- _ => rewrite H in * end;
      repeat match goal with |- context [if announced ?z then _ else _] => destruct (announced z) | H : context [if announced ?z then _ else _] |- _ => destruct (announced z) end;
      (split; [lia|]); (split; [lia|]); intros; lia. }
  destruct LOCK as (L1 & L2 & L3). split; [exact L1|]. split; [exact L2|]. split; [exact L3|]. split; [|split].
  - intros t I. assert (OLD : In t (a ++ (o, p) :: b) -> fits t /\ found (a ++ (o, p1) :: b) t).
    { intros J. destruct (F t J) as (F1 & F2). split; [exact F1|]. eapply found_mono; [exact PUT|exact F2]. }
    apply in_app_iff in I. cbn in I. destruct I as [I|[<-|I]]; [apply OLD, in_app_iff; auto| |apply OLD, in_app_iff; cbn; auto].
    split; [exact Fp1|]. destruct o as [id r|id|id r]; try exact Logic.I. destruct p; cbn in M; try discriminate.
    + destruct (announced s); [discriminate|]. inversion M; subst. exact Logic.I.
    + inversion M; subst. destruct (aget Nat.eqb (known s1) id) as [g|] eqn:A; [|exact Logic.I]. cbn. apply PUT. apply K, A.
    + inversion M; subst. cbn in Dp |- *. apply PUT, Dp.
    + inversion M; subst. eapply (found_mono (a ++ (Ask id, GiveBack r) :: b)); [exact PUT|]. destruct r; cbn in *; auto.
  - intros id reg A. destruct C as [(C & _)|(i0 & r0 & O & -> & -> & C)]; rewrite C in A; [apply PUT, K, A|]. rewrite aget_put in A. destruct (Nat.eqb i0 id) eqn:Q.
    + apply Nat.eqb_eq in Q. inversion A; subst. exists (o, GiveBack Accepted). split; [apply in_elt|]. split; cbn; auto.
    + apply PUT, K, A.
  - intros id reg t I Q. destruct C as [(C & C')|(i0 & r0 & O & -> & -> & C)]; rewrite C.
    + apply in_app_iff in I. cbn in I. destruct I as [I|[<-|I]].
      * apply (G id reg t); [apply in_app_iff; auto|exact Q].
      * apply (G id reg (o, p)); [apply in_elt|apply C', Q].
      * apply (G id reg t); [apply in_app_iff; cbn; auto|exact Q].
    + rewrite aget_put. destruct (Nat.eqb i0 id) eqn:D; [discriminate|]. apply in_app_iff in I. cbn in I. destruct I as [I|[<-|I]].
      * apply (G id reg t); [apply in_app_iff; auto|exact Q].
      * destruct Q as (Q & _). cbn in Q. apply Nat.eqb_neq in D. destruct O as [-> | ->], Q as [Q|Q]; inversion Q; congruence.
      * apply (G id reg t); [apply in_app_iff; cbn; auto|exact Q].
Qed.
Lemma inv_run s es s' : inv s -> admin_run s es = Some s' -> inv s'.
Proof.
  revert s. induction es as [|e es IH]; cbn; intros s G H; [inversion H; subst; exact G|]. destruct (admin_step s e) eqn:E; [|discriminate]. eapply IH; [eapply inv_step; eassumption|exact H].
Qed.

(** Somebody can go on, whatever the gateways answer. *)
Definition returned (t : task) : Prop := exists r, snd t = Returned r.
Lemma can_go s ok : inv s -> (forall t, In t (tasks s) -> returned t) \/ exists i s', admin_step s (i, ok) = Some s'.
Proof.
  intros (W & R & X & F & _). assert (GO : forall t, In t (tasks s) -> (exists x, admin_move s (fst t) (snd t) ok = Some x) -> exists i s', admin_step s (i, ok) = Some s').
  { intros [o p] I ([s1 p1] & Y). apply In_nth_error in I. destruct I as (i & I). exists i. unfold admin_step. cbn [fst snd] in *. rewrite I, Y. eauto. }
  destruct (Nat.eq_dec (sum reads (tasks s)) 0) as [Z|Z].
  - destruct (announced s) eqn:A.
    + right. destruct (sum_pos writes (tasks s)) as (t & I & Q); [lia|]. apply (GO t I). destruct t as [[] []]; cbn in Q |- *; try congruence; eauto; rewrite <- R, Z; eauto.
    + assert (D : forall t, {returned t} + {~ returned t}) by (intros [o []]; try (right; intros (r0 & Q); discriminate Q); left; exists r; reflexivity).
      destruct (Forall_Exists_dec _ D (tasks s)) as [H|H]; [left; apply Forall_forall, H|]. right. apply Exists_exists in H. destruct H as (t & I & Q). apply (GO t I).
      pose proof (F t I) as (Ft & _). pose proof (sum_in writes t _ I) as Wt. rewrite W in Wt. pose proof (sum_in reads t _ I) as Rt. rewrite Z in Rt.
      destruct t as [[] []]; cbn in Ft, Wt, Rt |- *; try contradiction; try lia; rewrite ?A; eauto; exfalso; apply Q; eexists; reflexivity.
  - right. destruct (sum_pos reads (tasks s)) as (t & I & Q); [exact Z|]. apply (GO t I). destruct t as [[] []]; cbn in Q |- *; try congruence; eauto.
Qed.

Definition ahead (t : task) : nat :=
  match t with
  | (Initialise _ _, Exchange) => 5 | (Initialise _ _, Want) => 4 | (Initialise _ _, Drain) => 3
  | (_, Want) => 5 | (_, Drain) => 4 | (_, (Exchange | Find)) => 3
  | (_, (Put | Contact _)) => 2 | (_, GiveBack _) => 1 | (_, Returned _) => 0
  end.
Lemma ahead_run s es s' : admin_run s es = Some s' -> length es + sum ahead (tasks s') <= sum ahead (tasks s).
Proof.
  revert s. induction es as [|e es IH]; cbn; intros s H; [inversion H; subst; lia|]. destruct (admin_step s e) as [s1|] eqn:E; [|discriminate]. apply IH in H.
  unfold admin_step in E. destruct e as [i ok]. cbn [fst snd] in E. destruct (nth_error (tasks s) i) as [[o p]|] eqn:N; [|discriminate]. destruct (admin_move s o p ok) as [[s2 p2]|] eqn:M; [|discriminate]. inversion E; subst s1; clear E.
  apply nth_error_split in N. destruct N as (a & b & N & <-). cbn [tasks] in H. rewrite N, set_mid, !sum_app in *. cbn [sum] in *.
  assert (ahead (o, p2) < ahead (o, p)); [|lia]. clear - M. destruct o, p; cbn in M; try discriminate;
    repeat match type of M with (if announced s then _ else _) = _ => destruct (announced s) | match readers s with _ => _ end = _ => destruct (readers s) end;
    try discriminate; inversion M; subst; try destruct ok; try destruct (aget Nat.eqb (known s2) id); cbn; lia.
Qed.

(** An operation that has not looked in the map yet finds what is there. *)
Definition will_find (p : stage) : Prop :=
  match p with Want | Find | Contact _ | GiveBack (Asked _ _) | Returned (Asked _ _) => True | _ => False end.
Lemma known_step s e s' id : admin_step s e = Some s' -> aget Nat.eqb (known s) id <> None -> aget Nat.eqb (known s') id <> None.
Proof.
  intros E A. unfold admin_step in E. destruct (nth_error (tasks s) (fst e)) as [[o p]|]; [|discriminate]. destruct (admin_move s o p (snd e)) as [[s2 p2]|] eqn:M; [|discriminate]. inversion E; subst s'; clear E. cbn [known].
  destruct o, p; cbn in M; try discriminate;
    repeat match type of M with (if announced s then _ else _) = _ => destruct (announced s) | match readers s with _ => _ end = _ => destruct (readers s) end;
    try discriminate; inversion M; subst; cbn [known with_lock]; try exact A; rewrite aget_put; destruct (Nat.eqb _ id); congruence.
Qed.
Lemma find_run es : forall s s' id j p, admin_run s es = Some s' -> aget Nat.eqb (known s) id <> None -> nth_error (tasks s) j = Some (Ask id, p) -> will_find p ->
  exists p', nth_error (tasks s') j = Some (Ask id, p') /\ will_find p'.
Proof.
  induction es as [|e es IH]; cbn; intros s s' id j p H A N P; [inversion H; subst; eauto|]. destruct (admin_step s e) as [s1|] eqn:E; [|discriminate].
  assert (Q : exists p1, nth_error (tasks s1) j = Some (Ask id, p1) /\ will_find p1).
  { unfold admin_step in E. destruct e as [i ok]. cbn [fst snd] in E. destruct (nth_error (tasks s) i) as [[o p0]|] eqn:N0; [|discriminate]. destruct (admin_move s o p0 ok) as [[s2 p2]|] eqn:M; [|discriminate]. inversion E; subst s1; clear E. cbn [tasks].
    destruct (Nat.eq_dec i j) as [->|D]; [|rewrite nth_error_set_neq by exact D; eauto]. rewrite N in N0. inversion N0; subst o p0; clear N0.
    rewrite nth_error_set_eq by (apply nth_error_Some; congruence). exists p2. split; [reflexivity|]. destruct p; cbn in M, P; try discriminate; try contradiction.
    - destruct (announced s); [discriminate|]. inversion M; subst. exact Logic.I.
    - inversion M; subst. destruct (aget Nat.eqb (known s2) id); [exact Logic.I|congruence].
    - inversion M; subst. exact Logic.I.
    - inversion M; subst. exact P. }
  destruct Q as (p1 & N1 & P1). apply (IH s1 s' id j p1 H); auto. eapply known_step; eassumption.
Qed.

(** The stages of an operation all of whose exchanges end in the same way. *)
Definition course (ok : bool) (t : task) : Prop :=
  match t with
  | (Initialise _ _, Exchange) => True
  | (Initialise _ _, (Want | Drain | Put)) => ok = true
  | (Features _ _, (Want | Drain | Exchange)) => True
  | (Features _ _, Put) => ok = true
  | ((Initialise _ _ | Features _ _), (GiveBack r | Returned r)) => r = if ok then Accepted else Refused
  | (Ask _, (Want | Find | Contact _)) => True
  | (Ask _, (GiveBack r | Returned r)) => r = Unknown \/ exists g, r = Asked g ok
  | _ => False
  end.
Lemma course_run ok i o es : forall s s' p, admin_run s es = Some s' -> (forall b, In (i, b) es -> b = ok) -> nth_error (tasks s) i = Some (o, p) -> course ok (o, p) ->
  exists p', nth_error (tasks s') i = Some (o, p') /\ course ok (o, p').
Proof.
  induction es as [|e es IH]; cbn; intros s s' p H B N P; [inversion H; subst; eauto|]. destruct (admin_step s e) as [s1|] eqn:E; [|discriminate].
  assert (Q : exists p1, nth_error (tasks s1) i = Some (o, p1) /\ course ok (o, p1)).
  { unfold admin_step in E. destruct e as [j b]. cbn [fst snd] in E. destruct (nth_error (tasks s) j) as [[o0 p0]|] eqn:N0; [|discriminate]. destruct (admin_move s o0 p0 b) as [[s2 p2]|] eqn:M; [|discriminate]. inversion E; subst s1; clear E. cbn [tasks].
    destruct (Nat.eq_dec j i) as [->|D]; [|rewrite nth_error_set_neq by exact D; eauto]. rewrite N in N0. inversion N0; subst o0 p0; clear N0.
    rewrite nth_error_set_eq by (apply nth_error_Some; congruence). exists p2. split; [reflexivity|]. assert (b = ok) as -> by (apply B; auto). clear - M P.
    destruct o, p; cbn in M, P; try discriminate; try contradiction;
      repeat match type of M with (if announced s then _ else _) = _ => destruct (announced s) | match readers s with _ => _ end = _ => destruct (readers s) end;
      try discriminate; inversion M; subst; try destruct ok; try destruct (aget Nat.eqb (known s2) id); cbn in *; eauto. }
  destruct Q as (p1 & N1 & P1). apply (IH s1 s' p1 H); auto.
Qed.
