(** * Lemmas on reading and comparing environment files *)
From Coq Require Import String List ZArith Bool Lia Sorting.Permutation.
From Coq Require Import Init.Byte.
From Verif Require Import Base BaseProofs EnvFile EnvFileSpec.
Import ListNotations.
Open Scope Z_scope.

Lemma lines_of l s cur : ~ In x0a l -> read_lines (l ++ x0a :: s) cur = chomp (rev l ++ cur) :: read_lines s [].
Proof.
  revert cur. induction l as [|c l IH]; intros cur A; [reflexivity|].
  cbn [app]. assert (Hc : c <> x0a) by (intros ->; apply A; left; reflexivity).
  replace (read_lines (c :: l ++ x0a :: s) cur) with (read_lines (l ++ x0a :: s) (c :: cur)) by (destruct c; try reflexivity; contradiction).
  rewrite IH; [cbn [rev]; rewrite <- app_assoc; reflexivity|]. intros I. apply A. right. exact I.
Qed.
Lemma chomp_return l : chomp (rev (l ++ [x0d]) ++ []) = l.
Proof. rewrite app_nil_r, rev_app_distr. cbn [rev app chomp]. apply rev_involutive. Qed.
Lemma chomp_line l : ~ In x0d l -> chomp (rev l ++ []) = l.
Proof.
  intros N. rewrite app_nil_r. unfold chomp. destruct (rev l) as [|c r] eqn:E; [apply (f_equal (@rev _)) in E; rewrite rev_involutive in E; symmetry; exact E|].
  assert (c <> x0d) by (intros ->; apply N, in_rev; rewrite E; left; reflexivity).
  replace (match c with x0d => r | _ => c :: r end) with (c :: r) by (destruct c; try reflexivity; contradiction). rewrite <- E. apply rev_involutive.
Qed.
Lemma cut_at n v : ~ In x3d n -> cut (n ++ x3d :: v) = (n, Some v).
Proof.
  induction n as [|c n IH]; intros N; [reflexivity|]. assert (Hc : c <> x3d) by (intros ->; apply N; left; reflexivity).
  assert (E : cut (n ++ x3d :: v) = (n, Some v)) by (apply IH; intros I; apply N; right; exact I).
  cbn [app cut]. rewrite E. destruct c; try reflexivity; contradiction.
Qed.
Lemma cut_none n : ~ In x3d n -> cut n = (n, None).
Proof.
  induction n as [|c n IH]; intros N; [reflexivity|]. assert (Hc : c <> x3d) by (intros ->; apply N; left; reflexivity).
  cbn [cut]. rewrite IH by (intros I; apply N; right; exact I). destruct c; try reflexivity; contradiction.
Qed.
Lemma text_within l : plain l -> within_line (line_text l).
Proof.
  destruct l as [n v|t]; cbn.
  - intros ((A & B) & (C & D) & _). split; intros I; apply in_app_iff in I; (destruct I as [I|[I|I]]; [|discriminate|]); auto.
  - tauto.
Qed.
Lemma parse_plain l : plain l -> parse_line (line_text l) = OkR (match l with Set_ n v => Some (n, v) | Remark _ => None end).
Proof.
  destruct l as [n v|t]; intros P; unfold parse_line; cbn [line_text plain] in *.
  - destruct P as (_ & _ & N & V). rewrite cut_at by exact N. rewrite (cut_none v V). reflexivity.
  - destruct P as (_ & N & H). rewrite cut_none by exact N. destruct H as [->|(r & ->)]; reflexivity.
Qed.
Lemma parse_file ls : (forall l, In l ls -> plain l) -> forall ends, ParseConfig (file_text ends ls) = OkR (says ls).
Proof.
  unfold ParseConfig. induction ls as [|l ls IH]; intros P ends; [reflexivity|]. cbn [file_text]. rewrite app_assoc.
  assert (Pl : plain l) by (apply P; left; reflexivity). destruct (text_within l Pl) as (A & B).
  rewrite lines_of by (intros I; apply in_app_or in I; destruct I as [I|I]; [exact (A I)|]; destruct (hd false ends); [destruct I as [I|[]]; discriminate I|destruct I]).
  replace (chomp _) with (line_text l) by (symmetry; destruct (hd false ends); [apply chomp_return|rewrite (app_nil_r (line_text l)); apply chomp_line; exact B]).
  cbn [parse_lines]. rewrite parse_plain by exact Pl. rewrite IH by (intros x I; apply P; right; exact I). destruct l; reflexivity.
Qed.

Lemma taken name dest d dest' : take_named name dest = Some (d, dest') -> fst d = name /\ Permutation dest (d :: dest').
Proof.
  revert d dest'. induction dest as [|x dest IH]; intros d dest' H; [discriminate|]. cbn [take_named] in H. destruct (bytes_eqb name (fst x)) eqn:E.
  - injection H as <- <-. apply bytes_eqb_eq in E. split; [congruence|reflexivity].
  - destruct (take_named name dest) as [[y t]|]; [|discriminate]. injection H as <- <-. destruct (IH _ _ eq_refl) as (A & B). split; [exact A|].
    rewrite B. apply perm_swap.
Qed.
Lemma untaken name dest : take_named name dest = None <-> ~ In name (map fst dest).
Proof.
  induction dest as [|x dest IH]; cbn [take_named map In]; [tauto|]. destruct (bytes_eqb name (fst x)) eqn:E.
  - apply bytes_eqb_eq in E. split; [discriminate|intros N; exfalso; apply N; left; congruence].
  - destruct (take_named name dest) as [[y t]|].
    + split; [discriminate|]. intros N. exfalso. destruct IH as (_ & IH). specialize (IH (fun I => N (or_intror I))). discriminate.
    + split; [|reflexivity]. intros _ [Q|I]; [|apply IH in I; [exact I|reflexivity]]. rewrite <- Q in E. assert (bytes_eqb (fst x) (fst x) = true) by (apply bytes_eqb_eq; reflexivity). congruence.
Qed.
Lemma no_diff s d f l : GetConfigDiff s d = (f, [], [], l) -> l = [] -> Permutation s d.
Proof.
  revert d f l. induction s as [|x s IH]; intros d f l H E; cbn [GetConfigDiff] in H.
  - injection H as _ <-. subst. constructor.
  - destruct (take_named (fst x) d) as [[y d']|] eqn:T.
    + destruct (GetConfigDiff s d') as [[[f' ne] nf] l'] eqn:G. injection H as <- N -> <-.
      destruct (bytes_eqb (snd x) (snd y)) eqn:V; [|discriminate]. subst ne. apply taken in T. destruct T as (A & B). apply bytes_eqb_eq in V.
      assert (x = y) as -> by (destruct x, y; cbn in *; congruence). rewrite B. constructor. eapply IH; [exact G|exact E].
    + destruct (GetConfigDiff s d) as [[[f' ne] nf] l']. discriminate.
Qed.

Lemma nodup_drop d x d' : Permutation d (x :: d') -> NoDup (map (@fst gostring gostring) d) -> NoDup (map fst d') /\ forall y, In y d' <-> In y d /\ fst y <> fst x.
Proof.
  intros P N. assert (N' : NoDup (map fst (x :: d'))) by (eapply Permutation_NoDup; [apply Permutation_map; exact P|exact N]).
  cbn in N'. inversion N' as [|? ? A B]; subst. split; [exact B|]. intros y. split.
  - intros I. split; [eapply Permutation_in; [symmetry; exact P|right; exact I]|]. intros Q. apply A. rewrite <- Q. apply in_map. exact I.
  - intros (I & Q). apply (Permutation_in _ P) in I. destruct I as [<-|I]; [contradiction|exact I].
Qed.
