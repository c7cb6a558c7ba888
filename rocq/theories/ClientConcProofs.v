(** * Proofs about overlapping calls of a client *)
From Coq Require Import List ZArith Bool Lia.
From Verif Require Import Base BaseProofs Client ClientLifeProofs ClientConc.
Import ListNotations.

Lemma remove_all_get : forall ids m, NoDup (map fst m) ->
  NoDup (map fst (remove_all m ids)) /\
  forall id, (aget bytes_eqb (remove_all m ids) id = aget bytes_eqb m id \/ aget bytes_eqb (remove_all m ids) id = None).
Proof.
  induction ids as [|i t IH]; intros m N; [split; [exact N|intro id; left; reflexivity]|].
  change (remove_all m (i :: t)) with (remove_all (adel bytes_eqb m i) t).
  destruct (IH (adel bytes_eqb m i) (del_nodup m i N)) as (A & B). split; [exact A|].
  intro id. destruct (B id) as [E|E]; [|right; exact E]. rewrite E, (del_get m i id N).
  destruct (bytes_eqb id i); [right|left]; reflexivity.
Qed.

(** What a goroutine may do to the maps, whatever it stands at. *)
Lemma step_parts s i g s' : conc_step s i g = Some s' ->
  exists t u a l t', nth_error (cs_threads s) i = Some t /\ one_step (cs_use s) (cs_active s) (cs_lock s) i g t = Some (u, a, l, t') /\
    s' = CState u a l (set_nth (cs_threads s) i t').
Proof.
  unfold conc_step. intro H. destruct (nth_error (cs_threads s) i) as [t|] eqn:T; [|discriminate].
  destruct (one_step (cs_use s) (cs_active s) (cs_lock s) i g t) as [[[[u a] l] t']|] eqn:O; [|discriminate].
  injection H as <-. exists t, u, a, l, t'. split; [reflexivity|split; [exact O|reflexivity]].
Qed.

Lemma nth_set {A} (l : list A) i j x y t : nth_error l i = Some t -> nth_error (set_nth l i x) j = Some y ->
  (j = i /\ y = x) \/ (j <> i /\ nth_error l j = Some y).
Proof.
  intros E H. rewrite nth_error_set in H. destruct (Nat.eqb_spec i j) as [->|N].
  - rewrite E in H. injection H as <-. left. split; reflexivity.
  - right. split; [congruence|exact H].
Qed.

(** The last state of an execution, and the states before it. *)
Lemma run_nonempty : forall l s r, conc_run s l = Some r -> exists r', r = s :: r'.
Proof.
  intros [|[i g] t] s r H; cbn in H; [injection H as <-; exists []; reflexivity|].
  destruct (conc_step s i g); [|discriminate]. destruct (conc_run c t); [|discriminate]. injection H as <-. eexists; reflexivity.
Qed.

(** A property of a state and of those before it holds throughout, if steps keep it. *)
Lemma run_keeps (P : list cstate -> cstate -> Prop) :
  (forall past s i g s', P past s -> conc_step s i g = Some s' -> P (past ++ [s]) s') ->
  forall l s r past, conc_run s l = Some r -> P past s ->
  forall pre x post, r = pre ++ x :: post -> P (past ++ pre) x.
Proof.
  intros K. induction l as [|[i g] t IH]; intros s r past H P0 pre x post E.
  - cbn in H. injection H as <-. destruct pre as [|y pre]; cbn in E.
    + injection E as <- <-. rewrite app_nil_r. exact P0.
    + injection E as _ E. destruct pre; discriminate E.
  - cbn [conc_run] in H. destruct (conc_step s i g) as [s'|] eqn:C; [|discriminate].
    destruct (conc_run s' t) as [r'|] eqn:R; [|discriminate]. injection H as <-.
    destruct pre as [|y pre]; cbn in E.
    + injection E as <- <-. rewrite app_nil_r. exact P0.
    + injection E as <- E. change (past ++ s :: pre) with (past ++ [s] ++ pre). rewrite app_assoc.
      exact (IH s' r' (past ++ [s]) R (K _ _ _ _ _ P0 C) pre x post E).
Qed.

(** ** Invariants *)

(** Whoever is in the middle of removing gateways holds the lock, and keys are not repeated. *)
Definition removing (t : goroutine) : bool := match t with RemoveUseLoop _ | RemoveUseActive _ _ => true | _ => false end.
Record sound (s : cstate) : Prop := Sound {
  s_lock : forall i t, nth_error (cs_threads s) i = Some t -> removing t = true -> cs_lock s = Some i;
  s_held : forall i, cs_lock s = Some i -> exists t, nth_error (cs_threads s) i = Some t /\ removing t = true;
  s_use : NoDup (map fst (cs_use s));
  s_active : NoDup (map fst (cs_active s))
}.

Lemma sound_rest s : at_rest s -> sound s.
Proof.
  intros (L & B & U & A). constructor; [|intros i E; rewrite L in E; discriminate|exact U|exact A].
  intros i t T R. rewrite Forall_forall in B. specialize (B t (nth_error_In _ _ T)). destruct t; cbn in *; try discriminate; destruct B.
Qed.

Ltac cases O :=
  unfold one_step in O; cbv zeta in O;
  repeat match type of O with
         | context [match ?x with _ => _ end] => let E := fresh "E" in destruct x eqn:E; try discriminate O
         end;
  try discriminate O; try (injection O as <- <- <- <-).

Lemma set_self {A} (l : list A) i x t : nth_error l i = Some t -> nth_error (set_nth l i x) i = Some x.
Proof. intro E. apply nth_error_set_eq. apply nth_error_Some. congruence. Qed.

Lemma sound_step s i g s' : sound s -> conc_step s i g = Some s' -> sound s'.
Proof.
  intros [SL SH SU SA] C. destruct (step_parts _ _ _ _ C) as (t & u & a & l & t' & T & O & ->).
  assert (M : NoDup (map fst u) /\ NoDup (map fst a)).
  { cases O; split; try assumption; try constructor; try (apply set_nodup; assumption); try (apply del_nodup; assumption);
      try (apply (remove_all_get _ _ SA)). }
  assert (K : removing t' = true -> l = Some i).
  { intro R. cases O; cbn in R; try discriminate R; try reflexivity; try (eapply SL; [exact T|reflexivity]). }
  assert (K2 : forall j, j <> i -> (exists y, nth_error (cs_threads s) j = Some y /\ removing y = true) -> l = Some j).
  { intros j N (y & Y & R). pose proof (SL j y Y R) as LJ. cases O; try exact LJ; try congruence;
      exfalso; pose proof (SL i _ T eq_refl); congruence. }
  assert (K3 : forall j, l = Some j -> (j = i /\ removing t' = true) \/ (j <> i /\ cs_lock s = Some j)).
  { intros j LJ. destruct (Nat.eq_dec j i) as [->|N].
    - left. split; [reflexivity|]. cases O; try discriminate LJ; try reflexivity;
        destruct (SH i ltac:(first [exact LJ | congruence])) as (y & Y & R); rewrite T in Y; injection Y as <-; cbn in R; discriminate R.
    - right. split; [exact N|]. cases O; try discriminate LJ; try congruence. }
  constructor; cbn [cs_threads cs_lock cs_use cs_active]; [| |apply M|apply M].
  - intros j y Y R. destruct (nth_set _ _ _ _ _ _ T Y) as [[-> ->]|[N Y']]; [apply K; exact R|].
    apply K2; [exact N|exists y; split; assumption].
  - intros j LJ. destruct (K3 j LJ) as [[-> R]|[N LJ']].
    + exists t'. split; [exact (set_self _ _ _ _ T)|exact R].
    + destruct (SH j LJ') as (y & Y & R). exists y. split; [|exact R].
      rewrite nth_error_set_neq by congruence. exact Y.
Qed.

Lemma active_was_used_pf s l r : at_rest s ->
  (forall id x, aget bytes_eqb (cs_active s) id = Some x -> aget bytes_eqb (cs_use s) id = Some x) ->
  conc_run s l = Some r ->
  forall pre x post id y, r = pre ++ x :: post -> aget bytes_eqb (cs_active x) id = Some y ->
  exists z, In z (pre ++ [x]) /\ aget bytes_eqb (cs_use z) id = Some y.
Proof.
  intros R0 A0 H pre x post id y E A.
  pose (P := fun past s => sound s /\
    (forall id y, aget bytes_eqb (cs_active s) id = Some y -> exists z, In z (past ++ [s]) /\ aget bytes_eqb (cs_use z) id = Some y) /\
    (forall i id y l, nth_error (cs_threads s) i = Some (AddActiveAsk id y l) \/ nth_error (cs_threads s) i = Some (AddActiveWrite id y l) ->
       exists z, In z (past ++ [s]) /\ aget bytes_eqb (cs_use z) id = Some y)).
  assert (Q : P ([] ++ pre) x).
  { refine (run_keeps P _ l s r [] H _ pre x post E).
    - clear. intros past s i g s' (S0 & PA & PT) C. pose proof (sound_step _ _ _ _ S0 C) as S1.
      destruct (step_parts _ _ _ _ C) as (t & u & a & lk & t' & T & O & Es). split; [exact S1|].
      assert (W : forall id y, (exists z, In z (past ++ [s]) /\ aget bytes_eqb (cs_use z) id = Some y) ->
                  exists z, In z ((past ++ [s]) ++ [s']) /\ aget bytes_eqb (cs_use z) id = Some y).
      { intros id y (z & Z & U). exists z. split; [apply in_or_app; left; exact Z|exact U]. }
      rewrite Es. rewrite Es in W. cbn [cs_active cs_threads]. clear Es C S1 s'. destruct S0 as [_ _ NU NA].
      split.
      + intros id y G. apply W. cases O; try (apply PA; exact G); try discriminate G.
        * rewrite (del_get _ _ _ NA) in G. destruct (bytes_eqb id _); [discriminate G|]. apply PA; exact G.
        * rewrite set_get in G. destruct (bytes_eqb id id0) eqn:B; [|apply PA; exact G]. apply bytes_eqb_eq in B. subst id0. injection G as <-.
          eapply PT. right. exact T.
        * destruct (proj2 (remove_all_get ids _ NA) id) as [Q|Q]; rewrite Q in G; [apply PA; exact G|discriminate G].
      + intros j id y q [G|G]; destruct (nth_set _ _ _ _ _ _ T G) as [[-> Q]|[N Q]]; apply W.
        * cases O; try discriminate Q. injection Q as <- <- <-. exists s. split; [apply in_or_app; right; left; reflexivity|assumption].
        * eapply PT. left. exact Q.
        * cases O; try discriminate Q. injection Q as <- <- <-. eapply PT. left. exact T.
        * eapply PT. right. exact Q.
    - split; [exact (sound_rest _ R0)|split].
      + intros id' y' G. exists s. split; [left; reflexivity|apply A0; exact G].
      + intros i id' y' q G. destruct R0 as (_ & B & _). rewrite Forall_forall in B.
        destruct G as [G|G]; destruct (B _ (nth_error_In _ _ G)). }
  destruct Q as (_ & Q & _). exact (Q id y A).
Qed.

(** ** Only one race leaves an active gateway that is not in use *)
Definition disabling (s : cstate) (id : gostring) : Prop := exists i l, nth_error (cs_threads s) i = Some (RemoveUseActive id l).
Definition raced (past : list cstate) (id : gostring) : Prop :=
  exists z, In z past /\ activating z id /\ aget bytes_eqb (cs_use z) id = None.

Lemma race_inv s l r : at_rest s -> active_in_use s -> conc_run s l = Some r ->
  forall pre x post, r = pre ++ x :: post ->
  sound x /\ forall id, aget bytes_eqb (cs_active x) id <> None -> aget bytes_eqb (cs_use x) id = None ->
    disabling x id \/ raced pre id.
Proof.
  intros R0 A0 H pre x post E.
  refine (run_keeps (fun past x => sound x /\ forall id, aget bytes_eqb (cs_active x) id <> None -> aget bytes_eqb (cs_use x) id = None ->
    disabling x id \/ raced past id) _ l s r [] H _ pre x post E).
  - clear. intros past s i g s' (S0 & P) C. pose proof (sound_step _ _ _ _ S0 C) as S1.
    destruct (step_parts _ _ _ _ C) as (t & u & a & lk & t' & T & O & Es). split; [exact S1|].
    assert (W : forall id, raced past id -> raced (past ++ [s]) id).
    { intros id (z & Z & U). exists z. split; [apply in_or_app; left; exact Z|exact U]. }
    intros id GA GU.
    assert (D : aget bytes_eqb (cs_active s) id <> None -> aget bytes_eqb (cs_use s) id = None ->
                (forall q, t <> RemoveUseActive id q) -> disabling s' id \/ raced (past ++ [s]) id).
    { intros X Y Z. destruct (P id X Y) as [(j & q & J)|J]; [|right; apply W; exact J].
      left. exists j, q. rewrite Es. cbn [cs_threads]. rewrite nth_error_set_neq; [exact J|]. intros ->. rewrite T in J. injection J as ->. exact (Z q eq_refl). }
    rewrite Es in GA, GU. cbn [cs_active cs_use] in GA, GU. destruct S0 as [_ _ NU NA].
    cases O; try (apply D; [exact GA|exact GU|intros q; discriminate]); try (exfalso; apply GA; reflexivity).
    + (* a write of a gateway to use *)
      rewrite set_get in GU. destruct (bytes_eqb id id0) eqn:B; [discriminate GU|]. apply D; [exact GA|exact GU|intros q; discriminate].
    + (* a removal *)
      rewrite (del_get _ _ _ NU) in GU. match type of GU with (if bytes_eqb id ?h then _ else _) = _ => destruct (bytes_eqb id h) eqn:B end.
      * apply bytes_eqb_eq in B. subst. left. exists i. eexists. cbn [cs_threads]. exact (set_self _ _ _ _ T).
      * apply D; [exact GA|exact GU|intros q; discriminate].
    + rewrite (del_get _ _ _ NA) in GA. destruct (bytes_eqb id id0) eqn:B; [exfalso; apply GA; reflexivity|].
      apply D; [exact GA|exact GU|]. intros q Q. injection Q as -> ->. rewrite (proj2 (bytes_eqb_eq id id) eq_refl) in B. discriminate B.
    + rewrite set_get in GA. destruct (bytes_eqb id id0) eqn:B; [|apply D; [exact GA|exact GU|intros q; discriminate]].
      apply bytes_eqb_eq in B. subst id0. right. exists s. split; [apply in_or_app; right; left; reflexivity|].
      split; [exists i, r, ids; right; exact T|exact GU].
    + destruct (proj2 (remove_all_get ids _ NA) id) as [Q|Q]; rewrite Q in GA; [|exfalso; apply GA; reflexivity].
      apply D; [exact GA|exact GU|intros q; discriminate].
  - split; [exact (sound_rest _ R0)|]. intros id GA GU. destruct (A0 id GA GU).
Qed.

Lemma only_race_pf s l r : at_rest s -> active_in_use s -> conc_run s l = Some r ->
  forall pre x post id, r = pre ++ x :: post -> cs_lock x = None ->
  aget bytes_eqb (cs_active x) id <> None -> aget bytes_eqb (cs_use x) id = None ->
  exists z, In z pre /\ activating z id /\ aget bytes_eqb (cs_use z) id = None.
Proof.
  intros R0 A0 H pre x post id E L GA GU. destruct (race_inv s l r R0 A0 H pre x post E) as (S0 & P).
  destruct (P id GA GU) as [(j & q & J)|J]; [|exact J].
  pose proof (s_lock _ S0 _ _ J eq_refl). congruence.
Qed.

(** Calls only turn into later parts of themselves. *)
Lemma kind_kept (f : goroutine -> bool) s l r :
  (forall u a k i g t u' a' k' t', one_step u a k i g t = Some (u', a', k', t') -> f t = true -> f t' = true) ->
  Forall (fun t => f t = true) (cs_threads s) -> conc_run s l = Some r ->
  forall pre x post, r = pre ++ x :: post -> Forall (fun t => f t = true) (cs_threads x).
Proof.
  intros K F H pre x post E.
  refine (run_keeps (fun _ x => Forall (fun t => f t = true) (cs_threads x)) _ l s r [] H F pre x post E).
  clear - K. intros _ s i g s' P C. destruct (step_parts _ _ _ _ C) as (t & u & a & lk & t' & T & O & Es). rewrite Es. cbn [cs_threads].
  apply Forall_forall. intros y Y. apply In_nth_error in Y as [j Y].
  rewrite Forall_forall in P.
  destruct (nth_set _ _ _ _ _ _ T Y) as [[_ ->]|[_ Q]].
  - eapply K; [exact O|]. apply P. exact (nth_error_In _ _ T).
  - apply P. exact (nth_error_In _ _ Q).
Qed.

Definition not_adding_active (t : goroutine) : bool :=
  match t with AddActive _ | AddActiveUse _ _ | AddActiveAsk _ _ _ | AddActiveWrite _ _ _ => false | _ => true end.
Definition not_removing_use (t : goroutine) : bool :=
  match t with RemoveUse _ | RemoveAllUse | RemoveUseLoop _ | RemoveUseActive _ _ => false | _ => true end.

Lemma begins_not_adding s : at_rest s -> Forall (fun t => adds_active t = false) (cs_threads s) -> Forall (fun t => not_adding_active t = true) (cs_threads s).
Proof.
  intros (_ & B & _) F. rewrite Forall_forall in *. intros t T. specialize (B t T). specialize (F t T). destruct t; cbn in *; try reflexivity; try discriminate; destruct B.
Qed.
Lemma begins_not_removing s : at_rest s -> Forall (fun t => removes_use t = false) (cs_threads s) -> Forall (fun t => not_removing_use t = true) (cs_threads s).
Proof.
  intros (_ & B & _) F. rewrite Forall_forall in *. intros t T. specialize (B t T). specialize (F t T). destruct t; cbn in *; try reflexivity; try discriminate; destruct B.
Qed.

Lemma no_activation_pf s l r : at_rest s -> active_in_use s -> Forall (fun t => adds_active t = false) (cs_threads s) ->
  conc_run s l = Some r -> forall pre x post, r = pre ++ x :: post -> cs_lock x = None -> active_in_use x.
Proof.
  intros R0 A0 F H pre x post E L id GA GU.
  destruct (only_race_pf s l r R0 A0 H pre x post id E L GA GU) as (z & Z & (i & y & q & T) & _).
  apply in_split in Z as (p1 & p2 & ->). rewrite <- app_assoc in E. cbn [app] in E.
  assert (G := fun K => kind_kept not_adding_active s l r K (begins_not_adding s R0 F) H p1 z _ E).
  assert (G' : Forall (fun t => not_adding_active t = true) (cs_threads z)).
  { apply G. clear. intros u a k i g t u' a' k' t' O N. cases O; cbn in *; try reflexivity; discriminate N. }
  rewrite Forall_forall in G'. destruct T as [T|T]; specialize (G' _ (nth_error_In _ _ T)); discriminate G'.
Qed.

Lemma no_removal_pf s l r : at_rest s -> active_in_use s -> Forall (fun t => removes_use t = false) (cs_threads s) ->
  conc_run s l = Some r -> forall pre x post, r = pre ++ x :: post -> active_in_use x.
Proof.
  intros R0 A0 F H pre x post E.
  pose (P := fun (_ : list cstate) x => Forall (fun t => not_removing_use t = true) (cs_threads x) /\ active_in_use x /\
     NoDup (map fst (cs_active x)) /\
     forall i id y q, nth_error (cs_threads x) i = Some (AddActiveAsk id y q) \/ nth_error (cs_threads x) i = Some (AddActiveWrite id y q) ->
       aget bytes_eqb (cs_use x) id <> None).
  assert (Q : P ([] ++ pre) x); [|exact (proj1 (proj2 Q))].
  refine (run_keeps P _ l s r [] H _ pre x post E).
  - clear - P. intros past s i g s' (K & A & NA & T0) C. destruct (step_parts _ _ _ _ C) as (t & u & a & lk & t' & T & O & ->).
    assert (Kt : not_removing_use t = true). { rewrite Forall_forall in K. apply K. exact (nth_error_In _ _ T). }
    unfold P, active_in_use. cbn [cs_threads cs_use cs_active].
    assert (UP : forall id, aget bytes_eqb (cs_use s) id <> None -> aget bytes_eqb u id <> None).
    { intros id G. cases O; try exact G; try (cbn in Kt; discriminate Kt). rewrite set_get. destruct (bytes_eqb id id0); [discriminate|exact G]. }
    split; [|split; [|split]].
    + apply Forall_forall. intros y Y. apply In_nth_error in Y as [j Y]. rewrite Forall_forall in K.
      destruct (nth_set _ _ _ _ _ _ T Y) as [[_ ->]|[_ Q]]; [|apply K; exact (nth_error_In _ _ Q)].
      clear - O Kt. cases O; cbn in *; try reflexivity; discriminate Kt.
    + intros id GA. apply UP. cases O; try (apply A; exact GA); try (cbn in Kt; discriminate Kt); try (exfalso; apply GA; reflexivity).
      * rewrite set_get in GA. destruct (bytes_eqb id id0) eqn:B; [|apply A; exact GA]. apply bytes_eqb_eq in B. subst id0. eapply T0. right. exact T.
      * destruct (proj2 (remove_all_get ids _ NA) id) as [Q|Q]; rewrite Q in GA; [apply A; exact GA|exfalso; apply GA; reflexivity].
    + cases O; try exact NA; try (cbn in Kt; discriminate Kt); try constructor; try (apply set_nodup; exact NA). apply (remove_all_get _ _ NA).
    + intros j id y q [G|G]; apply UP; destruct (nth_set _ _ _ _ _ _ T G) as [[-> Q]|[N Q]].
      * cases O; try discriminate Q. injection Q as <- <- <-. congruence.
      * eapply T0. left. exact Q.
      * cases O; try discriminate Q. injection Q as <- <- <-. eapply T0. left. exact T.
      * eapply T0. right. exact Q.
  - split; [exact (begins_not_removing s R0 F)|split; [exact A0|split; [apply R0|]]].
    intros i id y q G. destruct R0 as (_ & B & _). rewrite Forall_forall in B. destruct G as [G|G]; destruct (B _ (nth_error_In _ _ G)).
Qed.

(** ** No goroutine waits for ever *)
Definition work (t : goroutine) : nat :=
  match t with
  | AddUse l => 1 + 3 * length l
  | AddUseFind _ l => 3 + 3 * length l
  | AddUseWrite _ _ l => 2 + 3 * length l
  | RemoveUse l => 2 + 2 * length l
  | RemoveUseLoop l => 1 + 2 * length l
  | RemoveUseActive _ l => 2 + 2 * length l
  | AddActive l => 1 + 4 * length l
  | AddActiveUse _ l => 4 + 4 * length l
  | AddActiveAsk _ _ l => 3 + 4 * length l
  | AddActiveWrite _ _ l => 2 + 4 * length l
  | RemoveAllUse | RemoveActive _ | RemoveAllActive => 1
  | Finished => 0
  end.
Definition total_work (s : cstate) : nat := list_sum (map work (cs_threads s)).

Lemma sum_set : forall (l : list goroutine) i t t', nth_error l i = Some t -> (work t' < work t)%nat ->
  (list_sum (map work (set_nth l i t')) < list_sum (map work l))%nat.
Proof.
  induction l as [|y l IH]; intros [|i] t t' E L; cbn in E; try discriminate.
  - injection E as ->. cbn. lia.
  - specialize (IH i t t' E L). cbn. unfold list_sum in *. lia.
Qed.

Lemma step_work s i g s' : conc_step s i g = Some s' -> (total_work s' < total_work s)%nat.
Proof.
  intro C. destruct (step_parts _ _ _ _ C) as (t & u & a & lk & t' & T & O & ->). unfold total_work. cbn [cs_threads].
  refine (sum_set _ _ t t' T _). clear - O. cases O; cbn [work length]; lia.
Qed.

Lemma executions_end_pf : forall l s r, conc_run s l = Some r -> (length l <= total_work s)%nat.
Proof.
  induction l as [|[i g] t IH]; intros s r H; [cbn; lia|]. cbn [conc_run] in H.
  destruct (conc_step s i g) as [s'|] eqn:C; [|discriminate]. destruct (conc_run s' t) as [r'|] eqn:R; [|discriminate].
  specialize (IH _ _ R). pose proof (step_work _ _ _ _ C). cbn [length]. lia.
Qed.

Lemma always_progress_pf s l r : at_rest s -> conc_run s l = Some r ->
  forall pre x post, r = pre ++ x :: post -> ~ all_finished x -> exists i, forall g, conc_step x i g <> None.
Proof.
  intros R0 H pre x post E NF.
  assert (S0 : sound x).
  { refine (run_keeps (fun _ x => sound x) _ l s r [] H (sound_rest _ R0) pre x post E). intros _ a i g b A. apply sound_step; exact A. }
  destruct (cs_lock x) as [i|] eqn:L.
  - destruct (s_held _ S0 i L) as (t & T & R). exists i. intros g. unfold conc_step. rewrite T.
    destruct t; try discriminate R; cbn [one_step]; [destruct ids as [|id ids]; [discriminate|]|discriminate].
    destruct (aget bytes_eqb (cs_use x) id); discriminate.
  - assert (Q : exists t, In t (cs_threads x) /\ t <> Finished).
    { destruct (Exists_dec (fun t => t <> Finished) (cs_threads x)) as [X|X].
      - intros y. destruct y; first [right; intro Q; apply Q; reflexivity | left; discriminate].
      - apply Exists_exists in X. exact X.
      - exfalso. apply NF. unfold all_finished. apply Forall_forall. intros y Y. destruct y; try reflexivity; exfalso; apply X; apply Exists_exists; eexists; (split; [exact Y|discriminate]). }
    destruct Q as (t & T & NT). apply In_nth_error in T as [i T]. exists i. intros g. unfold conc_step. rewrite T, L.
    destruct t; unfold one_step; cbv zeta; try (destruct ids as [|? ?]); try discriminate; try (exfalso; apply NT; reflexivity);
      try (match goal with |- context [aget bytes_eqb (cs_use x) ?k] => destruct (aget bytes_eqb (cs_use x) k); discriminate end);
      repeat match goal with |- context [match ?y with _ => _ end] => destruct y; try discriminate end.
Qed.
