(** * Proofs about what overlapping calls of a client leave alone *)
From Coq Require Import List ZArith Bool Lia.
From Verif Require Import Base BaseProofs Client ClientLifeProofs ClientConc ClientConcSpec ClientConcProofs.
Import ListNotations.

Lemma sound_run s l r : at_rest s -> conc_run s l = Some r -> forall pre x post, r = pre ++ x :: post -> sound x.
Proof. intros R H. exact (run_keeps (fun _ x => sound x) (fun _ x i g x' S C => sound_step x i g x' S C) l s r [] H (sound_rest s R)). Qed.

(** ** The lock *)
Lemma held_pf s l r : at_rest s -> conc_run s l = Some r -> forall pre x post i g x' j, r = pre ++ x :: post -> conc_step x i g = Some x' ->
  cs_lock x = Some j -> i <> j -> cs_use x' = cs_use x /\ cs_lock x' = Some j.
Proof.
  intros R H pre x post i g x' j E C L N. assert (S := sound_run s l r R H pre x post E).
  destruct (step_parts _ _ _ _ C) as (t & u & a & k & t' & T & O & ->). cbn [cs_use cs_lock].
  assert (M : removing t = false). { destruct (removing t) eqn:M; [|reflexivity]. assert (X := s_lock x S i t T M). congruence. }
  rewrite L in O. cases O; cbn in M; try discriminate M; split; reflexivity.
Qed.

(** ** Establishments *)
Lemma established_pf : forall l s r, Forall begins (cs_threads s) -> NoDup (map fst (cs_active s)) -> conc_run s l = Some r ->
  forall n x id, nth_error r n = Some x -> aget bytes_eqb (cs_active x) id <> None -> aget bytes_eqb (cs_active s) id = None ->
  exists k, (k < n)%nat /\ established_at l r k id.
Proof.
  (* for threads that may be writing already *)
  assert (G : forall l s r, conc_run s l = Some r -> NoDup (map fst (cs_active s)) -> forall n x id, nth_error r n = Some x ->
    (aget bytes_eqb (cs_active x) id <> None \/ exists i y ids, nth_error (cs_threads x) i = Some (AddActiveWrite id y ids)) ->
    (aget bytes_eqb (cs_active s) id <> None \/ exists i y ids, nth_error (cs_threads s) i = Some (AddActiveWrite id y ids)) \/
    exists k, (k < n)%nat /\ established_at l r k id).
  { induction l as [|[i g] l IH]; intros s r H Nd n x id E A; cbn [conc_run] in H.
    - injection H as <-. destruct n as [|n]; [injection E as <-; left; exact A|destruct n; discriminate E].
    - destruct (conc_step s i g) as [s'|] eqn:C; [|discriminate]. destruct (conc_run s' l) as [r'|] eqn:Er; [|discriminate]. injection H as <-.
      destruct n as [|n]; [injection E as <-; left; exact A|]. cbn [nth_error] in E.
      destruct (step_parts _ _ _ _ C) as (t & u & a & k & t' & T & O & Es).
      assert (Nd' : NoDup (map fst (cs_active s'))).
      { subst s'. cbn [cs_active]. cases O; try exact Nd; try constructor; try (apply del_nodup; exact Nd); try (apply set_nodup; exact Nd). exact (proj1 (remove_all_get _ _ Nd)). }
      destruct (IH s' r' Er Nd' n x id E A) as [B|(k0 & L0 & B)].
      + assert (D : (aget bytes_eqb (cs_active s) id <> None \/ exists i y ids, nth_error (cs_threads s) i = Some (AddActiveWrite id y ids)) \/
          (exists y ids, t = AddActiveAsk id y ids /\ established g = true)).
        { subst s'. cbn [cs_active cs_threads] in B. destruct B as [B|(j & y & ids & B)].
          - left. cases O; try (left; exact B); try (exfalso; apply B; reflexivity).
            + left. intros Z. apply B. rewrite (del_get _ _ _ Nd), Z. destruct (bytes_eqb _ _); reflexivity.
            + destruct (bytes_eqb id id0) eqn:Eq; [apply bytes_eqb_eq in Eq; subst id0; right; exists i, r, ids; exact T|].
              left. intros Z. apply B. rewrite (aget_aset bytes_eqb bytes_eqb_eq), Eq. exact Z.
            + left. intros Z. apply B. destruct (proj2 (remove_all_get ids (cs_active s) Nd) id) as [Q|Q]; [rewrite Q; exact Z|exact Q].
          - destruct (nth_set _ _ _ _ _ _ T B) as [(-> & <-)|(Ne & B')]; [|left; right; exists j, y, ids; exact B'].
            cases O. right. do 2 eexists. split; reflexivity. }
        destruct D as [D|(y & ids & -> & Eg)]; [left; exact D|]. right. exists 0%nat. split; [lia|]. exists i, g, s, y, ids. split; [reflexivity|]. split; [reflexivity|]. split; assumption.
      + right. exists (S k0). split; [lia|]. destruct B as (i' & g' & x' & y & ids & B1 & B2 & B3). exists i', g', x', y, ids. split; [exact B1|]. split; [exact B2|exact B3]. }
  intros l s r B Nd H n x id E A Z. destruct (G l s r H Nd n x id E (or_introl A)) as [[Y|(i & y & ids & T)]|Y]; [contradiction| |exact Y].
  rewrite Forall_forall in B. destruct (B _ (nth_error_In _ _ T)).
Qed.

(** ** What is in use *)
Definition putting (t : goroutine) : bool := match t with AddUse _ | AddUseFind _ _ | AddUseWrite _ _ _ => true | _ => false end.
Lemma kept_pf s l r j : at_rest s -> Forall (fun t => removes_use t = false) (cs_threads s) ->
  (forall i t, nth_error (cs_threads s) i = Some t -> adds_use t = true -> i = j) -> conc_run s l = Some r ->
  forall pre x post id y, r = pre ++ x :: post -> aget bytes_eqb (cs_use s) id = Some y -> aget bytes_eqb (cs_use x) id = Some y.
Proof.
  intros R Nr One H pre x post id y E U.
  set (P := fun (_ : list cstate) (x : cstate) => aget bytes_eqb (cs_use x) id = Some y /\
    (forall i t, nth_error (cs_threads x) i = Some t -> not_removing_use t = true /\ (putting t = true -> i = j) /\ (forall z ids, t = AddUseFind id ids \/ t = AddUseWrite id z ids -> False))).
  assert (K : P pre x); [|exact (proj1 K)].
  refine (run_keeps P _ l s r [] H _ pre x post E).
  - clear -j. intros past s i g s' (U & F) C. destruct (step_parts _ _ _ _ C) as (t & u & a & k & t' & T & O & ->). destruct (F i t T) as (F1 & F2 & F3). split; cbn [cs_use cs_threads].
    + cases O; cbn in F1; try discriminate F1; try exact U. rewrite (aget_aset bytes_eqb bytes_eqb_eq). destruct (bytes_eqb id id0) eqn:Eq; [|exact U].
      apply bytes_eqb_eq in Eq. subst id0. exfalso. exact (F3 r ids (or_intror eq_refl)).
    + intros j' z Z. destruct (nth_set _ _ _ _ _ _ T Z) as [(-> & ->)|(N & Z')]; [|exact (F j' z Z')].
      assert (Same : forall id0, aget bytes_eqb (cs_use s) id0 = None -> id0 <> id) by (intros id0 Q ->; congruence).
      cases O; cbn in F1; try discriminate F1; (split; [reflexivity|]); (split; [try (intros Q; discriminate Q); intros _; apply F2; reflexivity|]); intros z0 lx [Q|Q]; try discriminate Q; injection Q; intros; subst.
      all: try (eapply Same; [eassumption|reflexivity]). all: try (eapply (F3 z0); left; reflexivity).
  - split; [exact U|]. intros i t T. destruct R as (_ & B & _). rewrite Forall_forall in B, Nr. assert (I := nth_error_In _ _ T). specialize (B _ I). specialize (Nr _ I). specialize (One i t T).
    split; [destruct t; cbn in *; try reflexivity; try discriminate; contradiction|]. split; [intros Q; apply One; destruct t; cbn in *; try reflexivity; try discriminate; contradiction|].
    intros z ids [->| ->]; exact B.
Qed.
