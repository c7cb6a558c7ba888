(** Lemmas about the ring model: representation predicate, [Insert], [Remove]. *)
From Coq Require Import List ZArith Bool Lia ZifyBool ZifyNat Sorting.Sorted.
From Coq Require Import Init.Byte.
From Verif Require Import Base BaseProofs Ring.
Import ListNotations.
Open Scope Z_scope.
Open Scope go_scope.
#[global] Opaque bz zb getDist.

(** ** Chains: consecutive elements are related *)
Section chains.
  Context {A : Type}.
  Implicit Types (R : A -> A -> Prop) (l : list A).

  Fixpoint chain R l : Prop :=
    match l with
    | [] => True
    | a :: t => match t with [] => True | b :: _ => R a b end /\ chain R t
    end.

  Lemma chain_app R l1 x l2 : chain R (l1 ++ x :: l2) <-> chain R (l1 ++ [x]) /\ chain R (x :: l2).
  Proof.
    induction l1 as [|a l1 IH]; simpl.
    - tauto.
    - rewrite IH. simpl. destruct l1; simpl; tauto.
  Qed.

  Lemma chain_snoc R l x y : chain R (l ++ [x; y]) <-> chain R (l ++ [x]) /\ R x y.
  Proof. rewrite chain_app. simpl. tauto. Qed.

  Lemma chain_mid R l1 a b l2 : chain R (l1 ++ a :: b :: l2) -> R a b.
  Proof. rewrite chain_app. simpl. tauto. Qed.

  Lemma chain_impl R R' l :
    (forall a b, In a (removelast l) -> In b (tl l) -> R a b -> R' a b) -> chain R l -> chain R' l.
  Proof.
    induction l as [|a l IH]; intros H Hc; [exact I|].
    destruct l as [|b l]; [simpl; auto|].
    destruct Hc as [Hab Hc]. split.
    - apply H; simpl; auto.
    - apply IH; [|exact Hc]. intros x y Hx Hy. apply H.
      + change (removelast (a :: b :: l)) with (a :: removelast (b :: l)). right; exact Hx.
      + simpl. right. exact Hy.
  Qed.

  Lemma chain_app_l R l1 l2 : chain R (l1 ++ l2) -> chain R l1.
  Proof.
    induction l1 as [|a l1 IH]; simpl; auto.
    intros [H1 H2]. split; [|auto]. destruct l1; simpl in *; auto.
  Qed.

  Definition cyc R l : Prop :=
    match l with [] => True | x :: _ => chain R (l ++ [x]) end.

  Lemma cyc_rot R l1 l2 : cyc R (l1 ++ l2) -> cyc R (l2 ++ l1).
  Proof.
    destruct l1 as [|a l1]; [rewrite app_nil_r; auto|].
    destruct l2 as [|b l2]; [rewrite app_nil_r; auto|].
    intros H.
    assert (H' : chain R ((a :: l1) ++ b :: (l2 ++ [a]))).
    { unfold cyc in H. cbn [app] in *. rewrite <- app_assoc in H. exact H. }
    apply chain_app in H'. destruct H' as [H1 H2].
    assert (H3 : chain R ((b :: l2) ++ a :: (l1 ++ [b]))).
    { apply chain_app. split; assumption. }
    unfold cyc. cbn [app] in *. rewrite <- app_assoc. exact H3.
  Qed.

  Lemma cyc_next R l1 a rest :
    cyc R (l1 ++ a :: rest) ->
    R a (match rest with [] => hd a (l1 ++ [a]) | b :: _ => b end).
  Proof.
    intros H. apply cyc_rot in H. cbn [app] in H.
    unfold cyc in H. destruct rest as [|b rest].
    - destruct l1 as [|x l1]; cbn in *; tauto.
    - cbn in H. tauto.
  Qed.
End chains.

Lemma in_removelast {A} (l : list A) x : In x (removelast l) -> In x l.
Proof.
  induction l as [|a l IH]; simpl; auto. destruct l; simpl in *; [tauto|]. intros [->|H]; auto.
Qed.

Lemma in_tl {A} (l : list A) x : In x (tl l) -> In x l.
Proof. destruct l; simpl; auto. Qed.

Lemma last_notin_removelast {A} (l : list A) d :
  NoDup l -> l <> [] -> ~ In (last l d) (removelast l).
Proof.
  intros ND NE. rewrite (app_removelast_last d NE) in ND.
  apply NoDup_remove_2 in ND. rewrite app_nil_r in ND. exact ND.
Qed.

(** ** Field views of the heap *)
Definition nxt (h : list node) a := match nth_error h a with Some n => next n | None => None end.
Definition pv (h : list node) a := match nth_error h a with Some n => prv n | None => None end.
Definition dn (h : list node) a := match nth_error h a with Some n => distNext n | None => None end.
Definition dp (h : list node) a := match nth_error h a with Some n => distPrv n | None => None end.
Definition ky (h : list node) a := match nth_error h a with Some n => Some (key n) | None => None end.
Definition vl (h : list node) a := match nth_error h a with Some n => Some (val n) | None => None end.

Notation entry := (nat * list byte)%type.
Definition ekey (e : entry) : Z := hex_val (snd e).

(** The node of an entry holds its value and key. *)
Definition holds (h : list node) (e : entry) : Prop :=
  exists n, nth_error h (fst e) = Some n /\ key n = ekey e /\ val n = snd e.

(** [b] follows [a] clockwise: both pointers and both distances. *)
Definition link (h : list node) (a b : entry) : Prop :=
  nxt h (fst a) = Some (fst b) /\ pv h (fst b) = Some (fst a) /\
  dn h (fst a) = Some (getDist (ekey a) (ekey b)) /\
  dp h (fst b) = Some (getDist (ekey a) (ekey b)).

Definition lring (h : list node) (l : list entry) : Prop :=
  match l with
  | [] => True
  | [x] => nxt h (fst x) = None /\ pv h (fst x) = None
  | _ => cyc (link h) l
  end.

Definition sorted (l : list entry) : Prop := StronglySorted (fun a b => ekey a < ekey b) l.

Record rep (r : ring) (l : list entry) : Prop := mkRep {
  rep_size : size r = Z.of_nat (length l);
  rep_head : head r = match l with [] => None | x :: _ => Some (fst x) end;
  rep_nodup : NoDup (map fst l);
  rep_holds : Forall (holds (heap r)) l;
  rep_sorted : sorted l;
  rep_valid : Forall (fun e => validateInput (snd e) = true) l;
  rep_ring : lring (heap r) l
}.

Lemma rep_empty : rep CreateRing [].
Proof. constructor; simpl; auto; constructor. Qed.

(** ** Basic facts *)
Lemma load_some h a n : nth_error h a = Some n -> load h (Some a) = Ret n.
Proof. intros H. simpl. rewrite H. reflexivity. Qed.

Lemma store_some h a n f : nth_error h a = Some n -> store h (Some a) f = Ret (set_nth h a (f n)).
Proof. intros H. simpl. rewrite H. reflexivity. Qed.

Lemma sorted_app l1 l2 : sorted (l1 ++ l2) <->
  sorted l1 /\ sorted l2 /\ (forall a b, In a l1 -> In b l2 -> ekey a < ekey b).
Proof.
  unfold sorted. induction l1 as [|x l1 IH]; simpl.
  - split; [intros H; repeat split; auto; [constructor | tauto] | tauto].
  - split.
    + intros H. inversion H as [|? ? Hs Hf]; subst. apply IH in Hs. destruct Hs as (H1 & H2 & H3).
      rewrite Forall_app in Hf. destruct Hf as [Hf1 Hf2]. repeat split; auto.
      * constructor; auto.
      * intros a b [->|Ha] Hb; auto. rewrite Forall_forall in Hf2. auto.
    + intros (H1 & H2 & H3). inversion H1; subst. constructor.
      * apply IH. repeat split; auto.
      * rewrite Forall_app. split; auto. rewrite Forall_forall. auto.
Qed.

Lemma sorted_cons x l : sorted (x :: l) <-> sorted l /\ (forall b, In b l -> ekey x < ekey b).
Proof.
  change (x :: l) with ([x] ++ l). rewrite sorted_app. split.
  - intros (_ & H & H1). split; auto. intros b Hb. apply H1; simpl; auto.
  - intros (H & H1). repeat split; auto; [repeat constructor |]. intros a b [->|[]] Hb. auto.
Qed.

Lemma sorted_key_inj l a b : sorted l -> In a l -> In b l -> ekey a = ekey b -> a = b.
Proof.
  intros Hs Ha Hb E. induction l as [|x l IH]; [contradiction|].
  apply sorted_cons in Hs. destruct Hs as [Hs Hx].
  destruct Ha as [->|Ha], Hb as [->|Hb]; auto.
  - specialize (Hx _ Hb). lia.
  - specialize (Hx _ Ha). lia.
Qed.

Lemma holds_lt h l : Forall (holds h) l -> Forall (fun a => (a < length h)%nat) (map fst l).
Proof.
  intros H. rewrite Forall_forall in *. intros a Ha. apply in_map_iff in Ha.
  destruct Ha as (e & <- & He). destruct (H e He) as (n & Hn & _).
  apply nth_error_Some. congruence.
Qed.

Lemma rep_length_heap r l : rep r l -> (length l <= length (heap r))%nat.
Proof.
  intros H. destruct H. apply holds_lt in rep_holds0.
  replace (length l) with (length (map fst l)) by apply map_length.
  replace (length (heap r)) with (length (seq 0 (length (heap r)))) by apply seq_length.
  apply NoDup_incl_length; auto. intros a Ha. rewrite Forall_forall in rep_holds0.
  specialize (rep_holds0 a Ha). apply in_seq. lia.
Qed.

Lemma lring_cyc h x y l : lring h (x :: y :: l) = cyc (link h) (x :: y :: l).
Proof. reflexivity. Qed.

(** Where [next] of an entry points, given the entries after it. *)
Definition after (l : list entry) (rest : list entry) : option nat :=
  match rest with
  | c :: _ => Some (fst c)
  | [] => match l with x :: _ :: _ => Some (fst x) | _ => None end
  end.

Lemma lring_next h l l1 p rest :
  lring h l -> l = l1 ++ p :: rest -> nxt h (fst p) = after l rest.
Proof.
  intros H ->. destruct l1 as [|x l1].
  - destruct rest as [|y rest]; simpl in *; [tauto|]. destruct H as [H _]. apply H.
  - assert (HC : cyc (link h) ((x :: l1) ++ p :: rest)) by (destruct l1; exact H).
    pose proof (cyc_next _ _ _ _ HC) as HN. destruct rest as [|y rest]; [|apply HN].
    destruct HN as [HN _]. rewrite HN. destruct l1; reflexivity.
Qed.

(** ** Linking a new node between two others *)
Record inserted (h h' : list node) (p c n : nat) (kp kc kn : Z) : Prop := {
  ins_len : length h' = length h;
  ins_nxt : forall x, nxt h' x = if Nat.eqb x n then Some c else if Nat.eqb x p then Some n else nxt h x;
  ins_pv : forall x, pv h' x = if Nat.eqb x n then Some p else if Nat.eqb x c then Some n else pv h x;
  ins_dn : forall x, dn h' x = if Nat.eqb x n then Some (getDist kn kc)
                               else if Nat.eqb x p then Some (getDist kp kn) else dn h x;
  ins_dp : forall x, dp h' x = if Nat.eqb x n then Some (getDist kp kn)
                               else if Nat.eqb x c then Some (getDist kn kc) else dp h x;
  ins_ky : forall x, ky h' x = ky h x;
  ins_vl : forall x, vl h' x = vl h x
}.

Ltac fields :=
  intros ?x; unfold nxt, pv, dn, dp, ky, vl;
  rewrite ?nth_error_set.

Ltac heap_cases :=
  repeat match goal with
    | |- context [Nat.eqb ?a ?b] => destruct (Nat.eqb_spec a b); try subst; try congruence; try contradiction
    end;
  repeat match goal with
    | H : nth_error ?h ?a = Some _ |- context [nth_error ?h ?a] => rewrite H
    end;
  cbn [next prv distNext distPrv key val set_prv set_next set_distNext set_distPrv]; try reflexivity; try congruence.

Lemma link_between_spec h p c n np nc nn kn tk :
  nth_error h p = Some np -> nth_error h c = Some nc -> nth_error h n = Some nn ->
  n <> p -> n <> c -> tk = key nc ->
  exists h', link_between h (Some p) (Some c) (Some n) kn tk = Ret h'
             /\ inserted h h' p c n (key np) (key nc) kn.
Proof.
  intros Hp Hc Hn Np Nc ->.
  unfold link_between. rewrite (load_some _ _ _ Hc). cbn [obind].
  rewrite (store_some _ _ _ _ Hc). cbn [obind].
  assert (Lc : (c < length h)%nat) by (apply nth_error_Some; congruence).
  assert (Lp : (p < length h)%nat) by (apply nth_error_Some; congruence).
  assert (Ln : (n < length h)%nat) by (apply nth_error_Some; congruence).
  erewrite store_some by (rewrite nth_error_set_eq by assumption; reflexivity). cbn [obind].
  erewrite store_some by (rewrite !nth_error_set_neq by congruence; exact Hn). cbn [obind].
  erewrite store_some by (rewrite nth_error_set_eq by (rewrite !set_nth_length; assumption); reflexivity). cbn [obind].
  set (h4 := set_nth (set_nth (set_nth (set_nth h c _) c _) n _) n _).
  assert (Hp4 : nth_error h4 p = Some (if Nat.eqb c p then
            set_distPrv (Some (getDist kn (key nc))) (set_prv (Some n) nc) else np)).
  { subst h4. rewrite !nth_error_set_neq with (i := n) by assumption.
    rewrite !nth_error_set. destruct (Nat.eqb_spec c p) as [->|N]; rewrite ?Hp; [|reflexivity].
    reflexivity. }
  rewrite (load_some _ _ _ Hp4). cbn [obind].
  rewrite (store_some _ _ _ _ Hp4). cbn [obind].
  assert (L4 : length h4 = length h) by (subst h4; rewrite !set_nth_length; reflexivity).
  erewrite store_some by (rewrite nth_error_set_eq by (rewrite L4; assumption); reflexivity). cbn [obind].
  assert (Hn4 : nth_error h4 n = Some (set_distNext (Some (getDist kn (key nc))) (set_next (Some c) nn))).
  { subst h4. apply nth_error_set_eq. rewrite !set_nth_length. assumption. }
  erewrite store_some by (rewrite !nth_error_set_neq by congruence; exact Hn4). cbn [obind].
  erewrite store_some by (rewrite nth_error_set_eq by (rewrite !set_nth_length, L4; assumption); reflexivity).
  eexists. split; [reflexivity|].
  assert (Kp : key (if Nat.eqb c p then
     set_distPrv (Some (getDist kn (key nc))) (set_prv (Some n) nc) else np) = key np).
  { destruct (Nat.eqb_spec c p) as [->|N]; [|reflexivity]. simpl. congruence. }
  rewrite Kp.
  split; [rewrite !set_nth_length; exact L4 | ..].
  all: fields; subst h4; rewrite ?nth_error_set.
  all: heap_cases.
Qed.
