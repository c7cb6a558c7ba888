(** * Proofs about the connection pool *)
From Coq Require Import List ZArith Bool Lia PeanoNat.
From Coq Require Import Init.Byte.
From Verif Require Import Base BaseProofs Pool PoolSpec.
Import ListNotations.
Local Open Scope nat_scope.

Notation rq s i := (nth_error (p_reqs s) i).
Notation chan s c := (nth_error (p_chans s) c).
Notation act s p := (aget bytes_eqb (p_active s) p).

Record pinv (s : pool) : Prop := {
  i_nodup : NoDup (map fst (p_active s));
  i_active : forall p c, act s p = Some c -> exists l, chan s c = Some (Channel p true l);
  i_open : forall c p l, chan s c = Some (Channel p true l) ->
    act s p = Some c \/ exists i, rq s i = Some (Request p (RStore c));
  i_store : forall i p c, rq s i = Some (Request p (RStore c)) ->
    chan s c = Some (Channel p true None) /\ act s p <> Some c;
  i_once : forall i j p q c, rq s i = Some (Request p (RStore c)) -> rq s j = Some (Request q (RStore c)) -> i = j;
  i_call : forall i p c, rq s i = Some (Request p (RCall c)) -> exists o, chan s c = Some (Channel p o (Some i));
  i_locked : forall c p o i, chan s c = Some (Channel p o (Some i)) -> rq s i = Some (Request p (RCall c));
  i_acquire : forall i p c, rq s i = Some (Request p (RAcquire c)) -> (exists o l, chan s c = Some (Channel p o l)) /\ forall j q, rq s j <> Some (Request q (RStore c));
  i_close : forall i p c, rq s i = Some (Request p (RClose c)) -> p_lock s = Some i /\ act s p = Some c;
  i_lock : forall i, p_lock s = Some i -> exists p c, rq s i = Some (Request p (RClose c))
}.

Lemma new_pinv peers : pinv (new_pool peers).
Proof.
  assert (N : forall i r, nth_error (map (fun p => Request p RLookup) peers) i = Some r -> r_pc r = RLookup).
  { intros i r H. apply nth_error_In, in_map_iff in H. destruct H as (p & <- & _). reflexivity. }
  assert (C : forall c (x : channel), nth_error [] c <> Some x) by (intros [|c] x; discriminate).
  split; cbn [new_pool p_chans p_active p_lock p_reqs map fst aget]; try discriminate;
    try (intros; match goal with H : nth_error (map _ _) _ = Some _ |- _ => apply N in H; discriminate end);
    try (intros; exfalso; eapply C; eassumption).
  constructor.
Qed.

Lemma rq_set (l : list request_) i r j x : nth_error l i = Some r ->
  nth_error (set_nth l i x) j = Some (if Nat.eqb i j then x else match nth_error l j with Some y => y | None => x end)
  \/ (i <> j /\ nth_error l j = None /\ nth_error (set_nth l i x) j = None).
Proof.
  intros H. rewrite nth_error_set. destruct (Nat.eqb i j) eqn:E.
  - apply Nat.eqb_eq in E. subst. rewrite H. auto.
  - apply Nat.eqb_neq in E. destruct (nth_error l j); auto.
Qed.

Lemma nth_set_some {A} (l : list A) i j x y : nth_error (set_nth l i x) j = Some y ->
  (i = j /\ y = x /\ exists z, nth_error l i = Some z) \/ (i <> j /\ nth_error l j = Some y).
Proof.
  rewrite nth_error_set. destruct (Nat.eqb i j) eqn:E.
  - apply Nat.eqb_eq in E. subst. destruct (nth_error l j) eqn:F; intros H; [|discriminate]. left. injection H as <-. eauto.
  - apply Nat.eqb_neq in E. auto.
Qed.
Lemma nth_set_same {A} (l : list A) i x z : nth_error l i = Some z -> nth_error (set_nth l i x) i = Some x.
Proof. intros H. rewrite nth_error_set, Nat.eqb_refl, H. reflexivity. Qed.
Lemma nth_set_other {A} (l : list A) i j x : i <> j -> nth_error (set_nth l i x) j = nth_error l j.
Proof. intros H. apply nth_error_set_neq. exact H. Qed.

Lemma nth_snoc {A} (l : list A) x c y : nth_error (l ++ [x]) c = Some y ->
  nth_error l c = Some y \/ (c = length l /\ y = x).
Proof.
  destruct (Nat.lt_ge_cases c (length l)) as [L|L].
  - rewrite nth_error_app1 by exact L. auto.
  - rewrite nth_error_app2 by exact L. destruct (c - length l) as [|k] eqn:E; cbn [nth_error].
    + intros H. right. split; [lia|congruence].
    + destruct k; discriminate.
Qed.
Lemma nth_snoc_old {A} (l : list A) x c y : nth_error l c = Some y -> nth_error (l ++ [x]) c = Some y.
Proof. intros H. rewrite nth_error_app1; [exact H|]. apply nth_error_Some. congruence. Qed.
Lemma nth_snoc_new {A} (l : list A) x : nth_error (l ++ [x]) (length l) = Some x.
Proof. rewrite nth_error_app2 by lia. rewrite Nat.sub_diag. reflexivity. Qed.

Lemma act_set (a : list (gostring * nat)) p c q : aget bytes_eqb (aset bytes_eqb a p c) q = if bytes_eqb q p then Some c else aget bytes_eqb a q.
Proof. apply (aget_aset bytes_eqb bytes_eqb_eq). Qed.
Lemma act_del (a : list (gostring * nat)) p q : NoDup (map fst a) ->
  aget bytes_eqb (adel bytes_eqb a p) q = if bytes_eqb q p then None else aget bytes_eqb a q.
Proof. apply (aget_adel bytes_eqb bytes_eqb_eq). Qed.
Lemma eqb_case p q : (bytes_eqb p q = true /\ p = q) \/ (bytes_eqb p q = false /\ p <> q).
Proof.
  destruct (bytes_eqb p q) eqn:E; [left|right]; split; auto; [apply bytes_eqb_eq; exact E|].
  intros ->. rewrite (proj2 (bytes_eqb_eq q q) eq_refl) in E. discriminate.
Qed.

(** Case analysis on a slot of an updated list. *)
Ltac slot :=
  match goal with
  | H : nth_error (set_nth _ _ _) _ = Some _ |- _ =>
      apply nth_set_some in H; let E := fresh in let N := fresh in destruct H as [(E & H & _)|(N & H)]; [destruct E|]
  | H : nth_error (_ ++ [_]) _ = Some _ |- _ => apply nth_snoc in H; let E := fresh in destruct H as [H|(E & H)]; [|subst]
  end.
Ltac alone := match goal with N : _ <> _, I : forall i j p q c, _ -> _ -> i = j |- _ => exfalso; apply N; first [eapply I; eassumption|symmetry; eapply I; eassumption] end.
Ltac clash := try discriminate; try congruence.
Ltac split_ex := repeat match goal with H : exists _, _ |- _ => destruct H | H : _ /\ _ |- _ => destruct H end.

Definition plain (pc : req_pc) : Prop :=
  match pc with RStore _ | RCall _ | RClose _ => False | _ => True end.

Lemma set_req_eq s i r pc : rq s i = Some r ->
  set_req s i pc = Pool (p_chans s) (p_active s) (p_lock s) (set_nth (p_reqs s) i (Request (r_peer r) pc)) (p_crashed s).
Proof. intros E. unfold set_req. rewrite E. reflexivity. Qed.

(** The goals left after unfolding: a slot is the changed request or another one. *)
Ltac fields := split; cbn [p_chans p_active p_lock p_reqs p_crashed r_peer]; intros.
Ltac go I := repeat slot; clash; try solve [eapply I; eauto].

(** Finding an unchanged request again. *)
Lemma keep_req s i x j y : rq s j = Some y -> i <> j -> nth_error (set_nth (p_reqs s) i x) j = Some y.
Proof. intros H N. rewrite nth_set_other by exact N. exact H. Qed.

Lemma active_free s p c : pinv s -> act s p = Some c -> forall j q, rq s j <> Some (Request q (RStore c)).
Proof.
  intros I A j q H. destruct (i_store _ I _ _ _ H) as [X N]. destruct (i_active _ I _ _ A) as [l Y].
  rewrite X in Y. injection Y as <- <-. contradiction.
Qed.

Lemma plain_inv s i p pc pc' : pinv s -> rq s i = Some (Request p pc) -> plain pc -> plain pc' ->
  (forall c, pc' = RAcquire c -> act s p = Some c) ->
  pinv (set_req s i pc').
Proof.
  intros I E P P' A. pose proof (active_free s p) as AF. specialize (fun c => AF c I). rewrite (set_req_eq _ _ _ _ E). destruct I. fields.
  - assumption.
  - eauto.
  - destruct (i_open0 _ _ _ H) as [?|[j Hj]]; [auto|]. right. exists j. apply keep_req; [exact Hj|].
    intros ->. rewrite E in Hj. injection Hj as <- ->. destruct P.
  - slot; [|eauto]. injection H as <- <-. destruct P'.
  - repeat slot; clash; eauto; match goal with H : Request _ _ = Request _ pc' |- _ => injection H as <- <-; destruct P' end.
  - slot; [|eauto]. injection H as <- <-. destruct P'.
  - apply i_locked0 in H. apply keep_req; [exact H|]. intros ->. rewrite E in H. injection H as <- ->. destruct P.
  - slot.
    + injection H as -> <-. specialize (A _ eq_refl). split; [destruct (i_active0 _ _ A); eauto|].
      intros j q X. slot; [clash|]. exact (AF _ A _ _ X).
    + destruct (i_acquire0 _ _ _ H) as [X Y]. split; [exact X|]. intros j q Z. slot; [|exact (Y _ _ Z)].
      injection Z as _ <-. destruct P'.
  - slot; [|eauto]. injection H as <- <-. destruct P'.
  - destruct (i_lock0 _ H) as (q & c & Hj). exists q, c. apply keep_req; [exact Hj|].
    intros ->. rewrite E in Hj. injection Hj as <- ->. destruct P.
Qed.

Lemma crash_pinv s : pinv s -> pinv (crash s).
Proof. intros []. split; assumption. Qed.

Lemma step_pinv s i ok : pinv s -> pinv (pool_step s i ok).
Proof.
  intros I. unfold pool_step. destruct (p_crashed s) eqn:CR; [exact I|].
  destruct (rq s i) as [[p pc]|] eqn:E; [|exact I]. cbn [r_pc r_peer].
  assert (Slot : forall j q pc', rq s j = Some (Request q pc') -> i = j -> q = p /\ pc' = pc).
  { intros j q pc' H <-. rewrite E in H. injection H as <- <-. auto. }
  Ltac other Slot := let N := fresh in intros N; apply Slot in N; [|assumption]; destruct N; clash.
  Ltac keep Slot := apply keep_req; [assumption|]; let N := fresh in intros N;
    match goal with H : nth_error (p_reqs _) ?j = Some _ |- _ => apply Slot in H; [|exact N]; destruct H; clash end.
  assert (AF := active_free s). specialize (fun p c => AF p c I).
  destruct pc as [| |c|c|c| |c|b]; [| | | | | | |exact I].
  - (* lookup *)
    destruct (p_lock s) eqn:PL; [exact I|]. destruct (act s p) as [c|] eqn:A.
    + apply (plain_inv s i p RLookup); auto; [exact Logic.I|exact Logic.I|]. intros c' X. congruence.
    + apply (plain_inv s i p RLookup); auto; [exact Logic.I|exact Logic.I|discriminate].
  - (* dial *)
    destruct ok; [|apply (plain_inv s i p RDial); auto; [exact Logic.I|exact Logic.I|discriminate]].
    assert (New : forall x, chan s (length (p_chans s)) <> Some x).
    { intros x X. assert (length (p_chans s) < length (p_chans s)) by (apply nth_error_Some; congruence). lia. }
    unfold set_req. cbn [p_reqs p_chans p_active p_lock p_crashed]. rewrite E. destruct I. fields.
    + assumption.
    + destruct (i_active0 _ _ H) as [l Hl]. exists l. apply nth_snoc_old. exact Hl.
    + slot.
      * destruct (i_open0 _ _ _ H) as [?|[j Hj]]; [auto|]. right. exists j. keep Slot.
      * injection H as -> _. right. exists i. apply (nth_set_same _ _ _ _ E).
    + slot.
      * injection H as -> ->. split; [apply nth_snoc_new|]. intros A. apply i_active0 in A. destruct A as [l A]. elim (New _ A).
      * destruct (i_store0 _ _ _ H). split; [apply nth_snoc_old; assumption|assumption].
    + repeat slot; auto; try match goal with
        | H : Request _ _ = Request _ _, G : _ = Some _ |- _ => injection H as -> ->; apply i_store0 in G; destruct G as [G _]; elim (New _ G)
        end. eauto.
    + slot; clash. destruct (i_call0 _ _ _ H) as [o Ho]. exists o. apply nth_snoc_old. exact Ho.
    + slot; clash. apply i_locked0 in H. keep Slot.
    + slot; clash. destruct (i_acquire0 _ _ _ H) as [(o & l & Ho) Y]. split; [exists o, l; apply nth_snoc_old; exact Ho|].
      intros j q X. slot; [|exact (Y _ _ X)]. injection X as _ ->. elim (New _ Ho).
    + slot; clash. eauto.
    + destruct (i_lock0 _ H) as (q & c & Hj). exists q, c. keep Slot.
  - (* store *)
    destruct (p_lock s) eqn:PL; [exact I|]. destruct (i_store _ I _ _ _ E) as [Cc Nc].
    destruct (act s p) as [c'|] eqn:A.
    + unfold set_req. cbn [set_chan p_reqs p_chans p_active p_lock p_crashed]. rewrite E. destruct I. fields.
      * assumption.
      * destruct (i_active0 _ _ H) as [l Hl]. exists l. rewrite nth_set_other; [exact Hl|]. intros <-. congruence.
      * slot; clash. destruct (i_open0 _ _ _ H) as [?|[j Hj]]; [auto|]. right. exists j. keep Slot.
      * slot; clash. destruct (i_store0 _ _ _ H). split; [|assumption]. rewrite nth_set_other; [assumption|].
        intros <-. alone.
      * repeat slot; clash. eauto.
      * slot; clash. destruct (i_call0 _ _ _ H) as [o Ho]. exists o. rewrite nth_set_other; [exact Ho|]. intros <-. congruence.
      * slot; clash. apply i_locked0 in H. keep Slot.
      * slot.
        -- injection H as -> ->. split.
           ++ destruct (i_active0 _ _ A) as [l Hl]. exists true, l. rewrite nth_set_other; [exact Hl|]. congruence.
           ++ intros j q X. slot; clash. exact (AF _ _ A _ _ X).
        -- destruct (i_acquire0 _ _ _ H) as [(o & l & Ho) Y]. split.
           ++ exists o, l. rewrite nth_set_other; [exact Ho|]. intros <-. exact (Y _ _ E).
           ++ intros j q X. slot; clash. exact (Y _ _ X).
      * slot; clash. apply i_close0 in H. destruct H. congruence.
      * congruence.
    + unfold set_req. cbn [set_active p_reqs p_chans p_active p_lock p_crashed]. rewrite E. destruct I. fields.
      * apply (aset_NoDup bytes_eqb bytes_eqb_eq). assumption.
      * rewrite act_set in H. destruct (eqb_case p0 p) as [[X ->]|[X N]]; rewrite X in H; [injection H as <-; eauto|eauto].
      * rewrite act_set. destruct (eqb_case p0 p) as [[X ->]|[X N]]; rewrite X.
        -- destruct (i_open0 _ _ _ H) as [?|[j Hj]]; [congruence|]. destruct (Nat.eq_dec i j) as [<-|N].
           ++ apply Slot in Hj; [|reflexivity]. destruct Hj as [_ [= ->]]. auto.
           ++ right. exists j. apply keep_req; auto.
        -- destruct (i_open0 _ _ _ H) as [?|[j Hj]]; [auto|]. right. exists j. keep Slot.
      * slot; clash. rewrite act_set. destruct (i_store0 _ _ _ H). split; [assumption|].
        destruct (eqb_case p0 p) as [[X ->]|[X N]]; rewrite X; [|assumption]. intros [= <-]. alone.
      * repeat slot; clash. eauto.
      * slot; clash. eauto.
      * apply i_locked0 in H. keep Slot.
      * slot.
        -- injection H as -> ->. split; [eauto|]. intros j q X. slot; clash. alone.
        -- destruct (i_acquire0 _ _ _ H) as [Z Y]. split; [exact Z|]. intros j q X. slot; clash. exact (Y _ _ X).
      * slot; clash. apply i_close0 in H. destruct H. congruence.
      * congruence.
  - (* acquire *)
    destruct (chan s c) as [[q o [l|]]|] eqn:Cc; try exact I.
    destruct (i_acquire _ I _ _ _ E) as [(o' & l' & Cc') NS].
    assert (q = p) by congruence. subst q. clear o' l' Cc'.
    unfold set_req. cbn [set_chan p_reqs p_chans p_active p_lock p_crashed]. rewrite E. destruct I. fields.
    + assumption.
    + destruct (i_active0 _ _ H) as [l Hl]. destruct (Nat.eq_dec c c0) as [<-|N].
      * exists (Some i). rewrite (nth_set_same _ _ _ _ Cc). congruence.
      * exists l. rewrite nth_set_other by exact N. exact Hl.
    + slot.
      * injection H as -> <- ->. destruct (i_open0 _ _ _ Cc) as [?|[j Hj]]; [auto|]. right. exists j. keep Slot.
      * destruct (i_open0 _ _ _ H) as [?|[j Hj]]; [auto|]. right. exists j. keep Slot.
    + slot; clash. destruct (i_store0 _ _ _ H) as [X Y]. split; [|exact Y]. rewrite nth_set_other; [exact X|].
      intros <-. exact (NS _ _ H).
    + repeat slot; clash. eauto.
    + slot.
      * injection H as -> ->. exists o. apply (nth_set_same _ _ _ _ Cc).
      * destruct (i_call0 _ _ _ H) as [o' Ho]. exists o'. rewrite nth_set_other; [exact Ho|]. intros <-. congruence.
    + slot.
      * injection H as -> -> ->. apply (nth_set_same _ _ _ _ E).
      * apply i_locked0 in H. keep Slot.
    + slot; clash. destruct (i_acquire0 _ _ _ H) as [(o' & l & Ho) Y]. split.
      * destruct (Nat.eq_dec c c0) as [<-|N].
        -- exists o, (Some i). rewrite (nth_set_same _ _ _ _ Cc). congruence.
        -- exists o', l. rewrite nth_set_other by exact N. exact Ho.
      * intros j q X. slot; clash. exact (Y _ _ X).
    + slot; clash. eauto.
    + destruct (i_lock0 _ H) as (q & c' & Hj). exists q, c'. keep Slot.
  - (* call *)
    destruct (i_call _ I _ _ _ E) as [o Cc]. rewrite Cc. destruct o; [|exact (crash_pinv s I)].
    assert (W : pinv (set_req (set_chan s c (Channel p true None)) i (RDone true)) /\ pinv (set_req (set_chan s c (Channel p true None)) i RRemove));
      [|destruct W, ok; assumption].
    unfold set_req. cbn [set_chan p_reqs p_chans p_active p_lock p_crashed]. rewrite E. destruct I. split; fields.
    all: try assumption.
    all: try (repeat slot; clash; solve [eauto]).
    all: try (destruct (i_active0 _ _ H) as [l Hl]; destruct (Nat.eq_dec c c0) as [<-|N];
      [exists None; rewrite (nth_set_same _ _ _ _ Cc); congruence|exists l; rewrite nth_set_other by exact N; exact Hl]).
    all: try (slot; [injection H as -> ->; destruct (i_open0 _ _ _ Cc) as [?|[j Hj]]; [auto|]; right; exists j; keep Slot
                    |destruct (i_open0 _ _ _ H) as [?|[j Hj]]; [auto|]; right; exists j; keep Slot]).
    all: try (slot; clash; destruct (i_store0 _ _ _ H) as [X Y]; split; [|exact Y]; rewrite nth_set_other; [exact X|]; intros <-; congruence).
    all: try (slot; clash; destruct (i_call0 _ _ _ H) as [o' Ho]; exists o'; rewrite nth_set_other; [exact Ho|]; intros <-; congruence).
    all: try (slot; clash; apply i_locked0 in H; keep Slot).
    all: try (slot; clash; destruct (i_acquire0 _ _ _ H) as [(o' & l & Ho) Y]; split;
      [destruct (Nat.eq_dec c c0) as [<-|N];
       [exists true, None; rewrite (nth_set_same _ _ _ _ Cc); congruence|exists o', l; rewrite nth_set_other by exact N; exact Ho]
      |intros j q X; slot; clash; exact (Y _ _ X)]).
    all: try (destruct (i_lock0 _ H) as (q & c' & Hj); exists q, c'; keep Slot).
  - (* remove *)
    destruct (p_lock s) eqn:PL; [exact I|]. destruct (act s p) as [c|] eqn:A;
      [|apply (plain_inv s i p RRemove); auto; [exact Logic.I|exact Logic.I|discriminate]].
    unfold set_req. cbn [set_lock p_reqs p_chans p_active p_lock p_crashed]. rewrite E. destruct I. fields.
    + assumption.
    + eauto.
    + destruct (i_open0 _ _ _ H) as [?|[j Hj]]; [auto|]. right. exists j. keep Slot.
    + slot; clash. eauto.
    + repeat slot; clash. eauto.
    + slot; clash. eauto.
    + apply i_locked0 in H. keep Slot.
    + slot; clash. destruct (i_acquire0 _ _ _ H) as [Z Y]. split; [exact Z|]. intros j q X. slot; clash. exact (Y _ _ X).
    + slot; [injection H as -> ->; auto|]. apply i_close0 in H. destruct H. congruence.
    + injection H as <-. exists p, c. apply (nth_set_same _ _ _ _ E).
  - (* close *)
    destruct (i_close _ I _ _ _ E) as [PL A]. destruct (i_active _ I _ _ A) as [l Cc]. rewrite Cc. destruct l; [exact I|].
    unfold set_req. cbn [set_lock set_active set_chan p_reqs p_chans p_active p_lock p_crashed]. rewrite E.
    pose proof (AF _ _ A) as NS. destruct I. fields.
    + apply adel_NoDup. assumption.
    + rewrite act_del in H by assumption. destruct (eqb_case p0 p) as [[X ->]|[X N]]; rewrite X in H; [discriminate|].
      destruct (i_active0 _ _ H) as [l Hl]. exists l. rewrite nth_set_other; [exact Hl|]. intros <-. congruence.
    + slot; clash. rewrite act_del by assumption. destruct (i_open0 _ _ _ H) as [B|[j Hj]].
      * left. destruct (eqb_case p0 p) as [[X ->]|[X N]]; rewrite X; [congruence|exact B].
      * right. exists j. keep Slot.
    + slot; clash. destruct (i_store0 _ _ _ H) as [X Y]. split.
      * rewrite nth_set_other; [exact X|]. intros <-. exact (NS _ _ H).
      * rewrite act_del by assumption. destruct (eqb_case p0 p) as [[Z ->]|[Z N]]; rewrite Z; [discriminate|exact Y].
    + repeat slot; clash. eauto.
    + slot; clash. destruct (i_call0 _ _ _ H) as [o' Ho]. exists o'. rewrite nth_set_other; [exact Ho|]. intros <-. congruence.
    + slot; clash. apply i_locked0 in H. keep Slot.
    + slot; clash. destruct (i_acquire0 _ _ _ H) as [(o' & l & Ho) Y]. split.
      * destruct (Nat.eq_dec c c0) as [<-|N].
        -- exists false, None. rewrite (nth_set_same _ _ _ _ Cc). congruence.
        -- exists o', l. rewrite nth_set_other by exact N. exact Ho.
      * intros j q X. slot; clash. exact (Y _ _ X).
    + slot; clash. apply i_close0 in H. destruct H. congruence.
    + discriminate.
Qed.

Lemma run_pinv sched s : pinv s -> pinv (pool_run s sched).
Proof. revert s. induction sched as [|[i ok] sched IH]; intros s I; cbn [pool_run]; [exact I|]. apply IH, step_pinv, I. Qed.

Lemma reach_pinv peers s : pool_reachable peers s -> pinv s.
Proof. intros [sched ->]. apply run_pinv, new_pinv. Qed.

Lemma one_connection_pf peers s p c : pool_reachable peers s -> connected s p c ->
  act s p = Some c \/ exists i, to_ s i p /\ at_ s i (RStore c).
Proof.
  intros R ([q o l] & C & <- & O). cbn in O. subst o. cbn [ch_peer].
  destruct (i_open _ (reach_pinv _ _ R) _ _ _ C) as [?|[i H]]; [auto|]. right. exists i. split; eexists; eauto.
Qed.

Lemma pooled_open_pf peers s p c : pool_reachable peers s -> act s p = Some c -> connected s p c.
Proof.
  intros R A. destruct (i_active _ (reach_pinv _ _ R) _ _ A) as [l C]. exists (Channel p true l). auto.
Qed.

Lemma exclusive_pf peers s i j c : pool_reachable peers s -> at_ s i (RCall c) -> at_ s j (RCall c) -> i = j.
Proof.
  intros R [p H] [q G]. apply reach_pinv in R. destruct (i_call _ R _ _ _ H), (i_call _ R _ _ _ G). congruence.
Qed.

Lemma locks_free_pf peers s : pool_reachable peers s -> all_done s ->
  p_lock s = None /\ forall c ch, nth_error (p_chans s) c = Some ch -> ch_lock ch = None.
Proof.
  intros R D. apply reach_pinv in R. split.
  - destruct (p_lock s) as [i|] eqn:L; [|reflexivity]. destruct (i_lock _ R _ L) as (p & c & H).
    destruct (D i _ (ex_intro _ _ H)). discriminate.
  - intros c [p o [i|]] H; [|reflexivity]. pose proof (i_locked _ R _ _ _ _ H) as G.
    destruct (D i _ (ex_intro _ _ G)). discriminate.
Qed.

Lemma set_req_rq s i r pc : rq s i = Some r -> rq (set_req s i pc) i = Some (Request (r_peer r) pc).
Proof. intros H. rewrite (set_req_eq _ _ _ _ H). cbn [p_reqs]. apply (nth_set_same _ _ _ _ H). Qed.

Lemma moved s s' i p pc pc' : rq s i = Some (Request p pc) -> rq s' i = Some (Request p pc') -> pc <> pc' -> s' <> s.
Proof. intros A B N ->. congruence. Qed.

Lemma moved_set s t i p pc pc' : rq s i = Some (Request p pc) -> p_reqs t = p_reqs s -> pc <> pc' -> set_req t i pc' <> s.
Proof.
  intros A B N. eapply moved; eauto. rewrite <- B in A. rewrite (set_req_rq _ _ _ _ A). reflexivity.
Qed.

(** A request that holds a connection can go on. *)
Lemma call_moves s i p c ok : pinv s -> p_crashed s = false -> rq s i = Some (Request p (RCall c)) -> pool_step s i ok <> s.
Proof.
  intros I C E. unfold pool_step. rewrite C, E. cbn [r_pc r_peer]. destruct (i_call _ I _ _ _ E) as [[] H]; rewrite H.
  - eapply moved_set; [exact E|reflexivity|]. destruct ok; discriminate.
  - intros X. apply (f_equal p_crashed) in X. cbn in X. congruence.
Qed.

Lemma progress_pf peers s : pool_reachable peers s -> p_crashed s = false -> ~ all_done s ->
  exists i, forall ok, pool_step s i ok <> s.
Proof.
  intros R C D. apply reach_pinv in R.
  destruct (p_lock s) as [i|] eqn:L.
  - destruct (i_lock _ R _ L) as (p & c & H). destruct (i_close _ R _ _ _ H) as [_ A].
    destruct (i_active _ R _ _ A) as [[j|] Cc].
    + exists j. intros ok. pose proof (i_locked _ R _ _ _ _ Cc). eapply call_moves; eauto.
    + exists i. intros ok. unfold pool_step. rewrite C, H. cbn [r_pc r_peer]. rewrite Cc.
      eapply moved_set; [exact H|reflexivity|discriminate].
  - assert (X : exists i p pc, rq s i = Some (Request p pc) /\ forall ok, pc <> RDone ok).
    { assert (W : forall l, (forall i p pc, nth_error l i = Some (Request p pc) -> exists ok, pc = RDone ok) \/
        exists i p pc, nth_error l i = Some (Request p pc) /\ forall ok, pc <> RDone ok).
      { induction l as [|[p pc] l [IH|(i & q & pc' & H & N)]].
        - left. intros [|i]; discriminate.
        - assert (Z : (exists ok, pc = RDone ok) \/ forall ok, pc <> RDone ok) by (destruct pc; eauto; right; discriminate).
          destruct Z as [Z|Z]; [left|right].
          + intros [|i] q pc'; cbn [nth_error]; [intros [= <- <-]; exact Z|apply IH].
          + exists 0, p, pc. auto.
        - right. exists (S i), q, pc'. auto. }
      destruct (W (p_reqs s)) as [Y|Y]; [|exact Y]. elim D. intros i pc [p H]. eapply Y; eauto. }
    destruct X as (i & p & pc & H & N).
    destruct pc as [| |c|c|c| |c|b].
    + exists i. intros ok. unfold pool_step. rewrite C, H. cbn [r_pc r_peer]. rewrite L.
      destruct (act s p); (eapply moved_set; [exact H|reflexivity|discriminate]).
    + exists i. intros ok. unfold pool_step. rewrite C, H. cbn [r_pc r_peer].
      destruct ok; (eapply moved_set; [exact H|reflexivity|discriminate]).
    + exists i. intros ok. unfold pool_step. rewrite C, H. cbn [r_pc r_peer]. rewrite L.
      destruct (act s p); (eapply moved_set; [exact H|reflexivity|discriminate]).
    + destruct (i_acquire _ R _ _ _ H) as [(o & [j|] & Cc) _].
      * exists j. intros ok. pose proof (i_locked _ R _ _ _ _ Cc). eapply call_moves; eauto.
      * exists i. intros ok. unfold pool_step. rewrite C, H. cbn [r_pc r_peer]. rewrite Cc.
        eapply moved_set; [exact H|reflexivity|discriminate].
    + exists i. intros ok. eapply call_moves; eauto.
    + exists i. intros ok. unfold pool_step. rewrite C, H. cbn [r_pc r_peer]. rewrite L.
      destruct (act s p); (eapply moved_set; [exact H|reflexivity|discriminate]).
    + destruct (i_close _ R _ _ _ H). congruence.
    + elim (N b eq_refl).
Qed.

(** ** Every run ends *)
Definition rank (pc : req_pc) : nat :=
  match pc with
  | RLookup => 7 | RDial => 6 | RStore _ => 5 | RAcquire _ => 4 | RCall _ => 3 | RRemove => 2 | RClose _ => 1 | RDone _ => 0
  end.
Definition ranks (l : list request_) : nat := list_sum (map (fun r => rank (r_pc r)) l).
Definition weight (s : pool) : nat := ranks (p_reqs s) + (if p_crashed s then 0 else 1).

Lemma ranks_set l i r pc : nth_error l i = Some r -> rank pc < rank (r_pc r) ->
  ranks (set_nth l i (Request (r_peer r) pc)) < ranks l.
Proof.
  revert i. induction l as [|x l IH]; intros [|i]; try discriminate; cbn [nth_error].
  - intros [= ->] L. unfold ranks. cbn [set_nth map list_sum fold_right r_pc]. unfold list_sum. lia.
  - intros H L. specialize (IH i H L). unfold ranks in *. cbn [set_nth map]. unfold list_sum in *. cbn [fold_right]. lia.
Qed.

Lemma weight_set s t i p pc pc' : rq s i = Some (Request p pc) -> p_reqs t = p_reqs s -> p_crashed t = p_crashed s ->
  rank pc' < rank pc -> weight (set_req t i pc') < weight s.
Proof.
  intros A B C L. rewrite <- B in A. rewrite (set_req_eq _ _ _ _ A). unfold weight. cbn [p_reqs p_crashed]. rewrite <- B, C.
  pose proof (ranks_set _ _ _ pc' A). cbn [r_pc] in H. specialize (H L). lia.
Qed.

Lemma step_weight s i ok : pool_step s i ok <> s -> weight (pool_step s i ok) < weight s.
Proof.
  unfold pool_step. destruct (p_crashed s) eqn:C; [congruence|].
  assert (K : weight (crash s) < weight s) by (unfold weight, crash; cbn [p_reqs p_crashed]; rewrite C; lia).
  destruct (rq s i) as [[p pc]|] eqn:E; [|congruence]. cbn [r_pc r_peer].
  assert (W : forall t pc', p_reqs t = p_reqs s -> p_crashed t = p_crashed s -> rank pc' < rank pc ->
    weight (set_req t i pc') < weight s) by (intros; eapply weight_set; eauto).
  destruct pc as [| |c|c|c| |c|b]; cbn [rank] in W.
  - destruct (p_lock s); [congruence|]. destruct (act s p); intros _; apply W; cbn; auto with arith.
  - destruct ok; intros _; apply W; cbn; auto with arith.
  - destruct (p_lock s); [congruence|]. destruct (act s p); intros _; apply W; cbn; auto with arith.
  - destruct (chan s c) as [[q o [j|]]|]; try congruence. intros _; apply W; cbn; auto with arith.
  - destruct (chan s c) as [[q [] l]|]; try congruence. intros _; apply W; destruct ok; cbn; auto with arith.
  - destruct (p_lock s); [congruence|]. destruct (act s p); intros _; apply W; cbn; auto with arith.
  - destruct (chan s c) as [[q [] [j|]]|]; try congruence; intros _; apply W; cbn; auto with arith.
  - congruence.
Qed.

Lemma moves_weight s n s' : pool_moves s n s' -> n <= weight s.
Proof. induction 1 as [|s i ok n s' N M IH]; [lia|]. apply step_weight in N. lia. Qed.

Lemma new_weight peers : weight (new_pool peers) = 7 * length peers + 1.
Proof.
  unfold weight. cbn [new_pool p_reqs p_crashed]. f_equal. unfold ranks.
  induction peers as [|p peers IH]; [reflexivity|]. cbn [map length]. unfold list_sum in *. cbn [fold_right r_pc rank]. lia.
Qed.

Lemma bounded_pf peers n s : pool_moves (new_pool peers) n s -> n <= 7 * length peers + 1.
Proof. intros M. rewrite <- new_weight. exact (moves_weight _ _ _ M). Qed.

Lemma run_snoc sched s i ok : pool_run s (sched ++ [(i, ok)]) = pool_step (pool_run s sched) i ok.
Proof. revert s. induction sched as [|[k o] sched IH]; intros s; cbn [pool_run app]; [reflexivity|apply IH]. Qed.

Lemma moves_reachable peers s n s' : pool_reachable peers s -> pool_moves s n s' -> pool_reachable peers s'.
Proof.
  intros R M. induction M as [|s i ok n s' N M IH]; [exact R|]. apply IH. destruct R as [sched R].
  exists (sched ++ [(i, ok)]). rewrite run_snoc, R. reflexivity.
Qed.

(** ** When the process can crash *)
Definition lone (s : pool) (p : gostring) : Prop := forall i j, to_ s i p -> to_ s j p -> i = j.

Lemma step_peers s i ok j : option_map r_peer (rq (pool_step s i ok) j) = option_map r_peer (rq s j).
Proof.
  assert (W : forall t pc, p_reqs t = p_reqs s -> option_map r_peer (rq (set_req t i pc) j) = option_map r_peer (rq s j)).
  { intros t pc E. unfold set_req. destruct (rq t i) as [r|] eqn:H; [|rewrite E; reflexivity]. cbn [p_reqs]. rewrite nth_error_set.
    destruct (Nat.eqb i j) eqn:B; [|rewrite E; reflexivity]. apply Nat.eqb_eq in B. subst j. rewrite H. rewrite <- E, H. reflexivity. }
  unfold pool_step. destruct (p_crashed s); [reflexivity|]. destruct (rq s i) as [[p pc]|] eqn:E; [|reflexivity]. cbn [r_pc r_peer].
  destruct pc as [| |c|c|c| |c|b]; repeat match goal with |- context [match ?x with _ => _ end] => destruct x end;
    first [reflexivity|apply W; reflexivity].
Qed.

Lemma to_peers s i p : to_ s i p <-> option_map r_peer (rq s i) = Some p.
Proof.
  unfold to_. split.
  - intros [pc ->]. reflexivity.
  - destruct (rq s i) as [[q pc]|]; cbn [option_map r_peer]; [|discriminate]. intros [= ->]. eauto.
Qed.

Lemma step_lone s i ok p : lone s p -> lone (pool_step s i ok) p.
Proof. intros L a b. rewrite !to_peers, !step_peers, <- !to_peers. apply L. Qed.

(** A request alone with its peer works on the pooled connection. *)
Definition holds_pooled (s : pool) (p : gostring) : Prop :=
  forall i c, rq s i = Some (Request p (RAcquire c)) \/ rq s i = Some (Request p (RCall c)) -> act s p = Some c.

Lemma step_act s i ok p : pinv s -> ~ to_ s i p -> act (pool_step s i ok) p = act s p.
Proof.
  intros I T. unfold pool_step. destruct (p_crashed s); [reflexivity|].
  destruct (rq s i) as [[q pc]|] eqn:E; [|reflexivity]. cbn [r_pc r_peer].
  assert (N : p <> q) by (intros ->; apply T; exists pc; exact E).
  assert (B : bytes_eqb p q = false) by (destruct (eqb_case p q) as [[_ X]|[X _]]; [contradiction|exact X]).
  assert (W : forall t pc, act (set_req t i pc) p = act t p) by (intros t pc'; unfold set_req; destruct (rq t i); reflexivity).
  destruct pc as [| |c|c|c| |c|b].
  - destruct (p_lock s); [reflexivity|]. destruct (act s q); rewrite W; reflexivity.
  - destruct ok; rewrite W; reflexivity.
  - destruct (p_lock s); [reflexivity|]. destruct (act s q); rewrite W; [reflexivity|]. cbn [set_active p_active]. rewrite act_set, B. reflexivity.
  - destruct (chan s c) as [[? ? [?|]]|]; try reflexivity. rewrite W. reflexivity.
  - destruct (chan s c) as [[? [] ?]|]; try reflexivity. rewrite W. reflexivity.
  - destruct (p_lock s); [reflexivity|]. destruct (act s q); rewrite W; reflexivity.
  - destruct (chan s c) as [[? [] [?|]]|]; try reflexivity. rewrite W. cbn [set_lock set_active set_chan p_active].
    rewrite act_del, B by apply I. reflexivity.
  - reflexivity.
Qed.

Lemma step_other s i ok j : i <> j -> rq (pool_step s i ok) j = rq s j.
Proof.
  intros N. assert (W : forall t pc, p_reqs t = p_reqs s -> rq (set_req t i pc) j = rq s j).
  { intros t pc E. unfold set_req. destruct (rq t i); cbn [p_reqs]; rewrite ?nth_set_other, ?E by exact N; reflexivity. }
  unfold pool_step. destruct (p_crashed s); [reflexivity|]. destruct (rq s i) as [[p pc]|] eqn:E; [|reflexivity]. cbn [r_pc r_peer].
  destruct pc as [| |c|c|c| |c|b]; repeat match goal with |- context [match ?x with _ => _ end] => destruct x end;
    first [reflexivity|apply W; reflexivity].
Qed.

Lemma step_holds s i ok p : pinv s -> lone s p -> holds_pooled s p -> holds_pooled (pool_step s i ok) p.
Proof.
  intros I L H j c G.
  assert (T : to_ (pool_step s i ok) j p) by (destruct G as [G|G]; eexists; exact G).
  rewrite to_peers, step_peers, <- to_peers in T.
  destruct (Nat.eq_dec i j) as [<-|N].
  2:{ rewrite step_act; [|exact I|]. 2:{ intros X. apply N. apply L; assumption. }
      rewrite (step_other s i ok j N) in G. eapply H; exact G. }
  revert G. unfold pool_step. destruct (p_crashed s); [apply H|].
  destruct T as [pc E]. rewrite E. cbn [r_pc r_peer].
  assert (W : forall t pc' c, p_reqs t = p_reqs s ->
     (rq (set_req t i pc') i = Some (Request p (RAcquire c)) \/ rq (set_req t i pc') i = Some (Request p (RCall c))) ->
     (pc' = RAcquire c \/ pc' = RCall c) /\ act (set_req t i pc') p = act t p).
  { intros t pc' c' Q. assert (E' : rq t i = Some (Request p pc)) by (rewrite Q; exact E). rewrite (set_req_rq _ _ _ _ E').
    rewrite (set_req_eq _ _ _ _ E'). cbn [r_peer]. intros [[= X]|[= X]]; auto. }
  assert (Same : pinv s -> (rq s i = Some (Request p (RAcquire c)) \/ rq s i = Some (Request p (RCall c))) -> act s p = Some c) by (intros _; apply H).
  destruct pc as [| |c'|c'|c'| |c'|b].
  - destruct (p_lock s); [apply H|]. destruct (act s p) as [k|] eqn:A; intros G; apply W in G; [|reflexivity| |reflexivity];
      destruct G as [[?|?] ->]; congruence.
  - destruct ok; intros G; apply W in G; [|reflexivity| |reflexivity]; destruct G as [[?|?] ->]; congruence.
  - destruct (p_lock s); [apply H|]. destruct (act s p) as [k|] eqn:A; intros G; apply W in G; [|reflexivity| |reflexivity];
      destruct G as [[X|X] ->]; injection X as <- || discriminate X.
    + exact A.
    + cbn [set_active p_active]. rewrite act_set, (proj2 (bytes_eqb_eq p p) eq_refl). reflexivity.
  - destruct (chan s c') as [[? ? [?|]]|]; try apply H. intros G. apply W in G; [|reflexivity].
    destruct G as [[X|X] ->]; injection X as <- || discriminate X. cbn [set_chan p_active]. eapply H. left. exact E.
  - destruct (chan s c') as [[? [] ?]|]; try apply H. intros G. apply W in G; [|reflexivity].
    destruct ok, G as [[X|X] _]; discriminate X.
  - destruct (p_lock s); [apply H|]. destruct (act s p) as [k|]; intros G; apply W in G; [|reflexivity| |reflexivity];
      destruct G as [[X|X] _]; discriminate X.
  - destruct (chan s c') as [[? [] [?|]]|]; try apply H. intros G. apply W in G; [|reflexivity]. destruct G as [[X|X] _]; discriminate X.
  - apply H.
Qed.

(** A crash happens to a request using a closed connection. *)
Lemma step_crash s i ok : pinv s -> p_crashed s = false -> p_crashed (pool_step s i ok) = true ->
  exists p c, rq s i = Some (Request p (RCall c)) /\ exists l, chan s c = Some (Channel p false l).
Proof.
  intros I C. assert (W : forall t pc, p_crashed t = p_crashed s -> p_crashed (set_req t i pc) <> true).
  { intros t pc E. unfold set_req. destruct (rq t i); cbn [p_crashed]; rewrite E, C; discriminate. }
  unfold pool_step. rewrite C. destruct (rq s i) as [[p pc]|] eqn:E; [|congruence]. cbn [r_pc r_peer].
  destruct pc as [| |c|c|c| |c|b]; intros K; try congruence.
  - exfalso. destruct (p_lock s); [congruence|]. destruct (act s p); eapply W in K; auto.
  - exfalso. destruct ok; eapply W in K; auto.
  - exfalso. destruct (p_lock s); [congruence|]. destruct (act s p); eapply W in K; auto.
  - exfalso. destruct (chan s c) as [[? ? [?|]]|]; try congruence. eapply W in K; auto.
  - destruct (i_call _ I _ _ _ E) as [o H]. rewrite H in K. destruct o; [exfalso; eapply W in K; auto|]. eauto 6.
  - exfalso. destruct (p_lock s); [congruence|]. destruct (act s p); eapply W in K; auto.
  - exfalso. destruct (i_close _ I _ _ _ E) as [_ A]. destruct (i_active _ I _ _ A) as [l H]. rewrite H in K. destruct l; [congruence|].
    eapply W in K; auto.
Qed.

Lemma crash_shared_pf sched : forall s, pinv s -> p_crashed s = false -> (forall p, lone s p -> holds_pooled s p) ->
  p_crashed (pool_run s sched) = true -> exists p i j, i <> j /\ to_ s i p /\ to_ s j p.
Proof.
  induction sched as [|[i ok] sched IH]; intros s I C H K; cbn [pool_run] in K; [congruence|].
  destruct (p_crashed (pool_step s i ok)) eqn:C'.
  - destruct (step_crash _ _ _ I C C') as (p & c & E & l & D). exists p.
    assert (T : to_ s i p) by (eexists; exact E).
    assert (X : (exists j, j <> i /\ to_ s j p) \/ forall j, to_ s j p -> j = i).
    { clear -T. assert (Z : forall n, (exists j, j <> i /\ to_ s j p) \/ forall j, j < n -> to_ s j p -> j = i).
      { induction n as [|n [?|IH]]; [right; lia|auto|].
        destruct (Nat.eq_dec n i) as [->|N].
        - right. intros j J. destruct (Nat.eq_dec j i); [auto|]. apply IH. lia.
        - destruct (rq s n) as [[q pc]|] eqn:E.
          + destruct (eqb_case q p) as [[_ ->]|[_ Q]].
            * left. exists n. split; [exact N|eexists; exact E].
            * right. intros j J U. destruct (Nat.eq_dec j n) as [->|]; [|apply IH; [lia|exact U]].
              destruct U as [pc' U]. congruence.
          + right. intros j J U. destruct (Nat.eq_dec j n) as [->|]; [|apply IH; [lia|exact U]]. destruct U as [pc' U]. congruence. }
      destruct (Z (length (p_reqs s))) as [?|Y]; [auto|]. right. intros j U. apply Y; [|exact U].
      destruct U as [pc U]. apply nth_error_Some. congruence. }
    destruct X as [(j & N & U)|X]; [exists i, j; auto|].
    assert (L : lone s p) by (intros a b A B; rewrite (X _ A), (X _ B); reflexivity).
    specialize (H _ L i c (or_intror E)). destruct (i_active _ I _ _ H). congruence.
  - destruct (IH (pool_step s i ok)) as (p & a & b & N & A & B); [apply step_pinv, I|exact C'| |exact K|].
    + intros p L. apply step_holds; [exact I| |].
      * intros a b A B. apply L; rewrite to_peers, step_peers, <- to_peers; assumption.
      * apply H. intros a b A B. apply L; rewrite to_peers, step_peers, <- to_peers; assumption.
    + exists p, a, b. rewrite to_peers, step_peers, <- to_peers in A. rewrite to_peers, step_peers, <- to_peers in B. auto.
Qed.

Lemma crash_needs_sharing peers s : pool_reachable peers s -> p_crashed s = true ->
  exists p i j, i <> j /\ nth_error peers i = Some p /\ nth_error peers j = Some p.
Proof.
  intros [sched ->] K. apply crash_shared_pf in K; [|apply new_pinv|reflexivity|].
  - destruct K as (p & i & j & N & [pc A] & [pc' B]). exists p, i, j. cbn [new_pool p_reqs] in A, B.
    rewrite nth_error_map in A, B. destruct (nth_error peers i), (nth_error peers j); try discriminate. cbn in A, B.
    injection A as -> _. injection B as -> _. auto.
  - intros p L i c [A|A]; cbn [new_pool p_reqs] in A; rewrite nth_error_map in A; destruct (nth_error peers i); discriminate.
Qed.

(** No failure, no crash: a connection is closed only when surplus or after a failure. *)
Definition calm (s : pool) : Prop :=
  p_crashed s = false /\ (forall p pc, In (Request p pc) (p_reqs s) -> pc <> RRemove /\ forall c, pc <> RClose c) /\
  (forall i p c, rq s i = Some (Request p (RAcquire c)) \/ rq s i = Some (Request p (RCall c)) -> act s p = Some c).

Lemma step_calm s i : pinv s -> calm s -> calm (pool_step s i true).
Proof.
  intros I (C & N & A).
  assert (Same : calm s) by (split; auto).
  unfold pool_step. rewrite C. destruct (rq s i) as [[p pc]|] eqn:E; [|exact Same]. cbn [r_pc r_peer].
  assert (In_ : In (Request p pc) (p_reqs s)) by (eapply nth_error_In; exact E).
  assert (W : forall t pc', p_reqs t = p_reqs s -> p_crashed t = false -> (pc' <> RRemove /\ forall c, pc' <> RClose c) ->
    (forall q c, act s q = Some c -> act t q = Some c) ->
    (forall c, pc' = RAcquire c \/ pc' = RCall c -> act t p = Some c) -> calm (set_req t i pc')).
  { intros t pc' Q K X Y Z. assert (E' : rq t i = Some (Request p pc)) by (rewrite Q; exact E).
    rewrite (set_req_eq _ _ _ _ E'). split; [exact K|]. cbn [p_reqs p_active r_peer]. rewrite Q. split.
    - intros q pc0 H. apply In_nth_error in H. destruct H as [j H]. slot.
      + injection H as _ ->. exact X.
      + apply (N q). eapply nth_error_In; exact H.
    - intros j q c [H|H]; slot; try (apply Y; eapply A; eauto; fail); injection H as -> <-; apply Z; auto. }
  destruct pc as [| |c|c|c| |c|b].
  - destruct (p_lock s); [exact Same|]. destruct (act s p) eqn:K; apply W; auto; try (split; discriminate).
    + intros c [X|X]; congruence.
    + intros c [X|X]; congruence.
  - apply W; auto; [split; discriminate|]. intros c [X|X]; congruence.
  - destruct (p_lock s); [exact Same|]. destruct (act s p) eqn:K; apply W; auto; try (split; discriminate).
    + intros c' [X|X]; [injection X as <-; exact K|discriminate].
    + cbn [set_active p_active]. intros q c' H. rewrite act_set. destruct (eqb_case q p) as [[X ->]|[X _]]; rewrite X; [congruence|exact H].
    + cbn [set_active p_active]. intros c' [X|X]; [|discriminate]. injection X as <-. rewrite act_set, (proj2 (bytes_eqb_eq p p) eq_refl). reflexivity.
  - destruct (chan s c) as [[? ? [?|]]|]; try exact Same. apply W; auto; [split; discriminate|].
    intros c' [X|X]; [discriminate|]. injection X as <-. cbn [set_chan p_active]. eapply A. left. exact E.
  - destruct (i_active _ I _ _ (A _ _ _ (or_intror E))) as [l H]. rewrite H. apply W; auto; [split; discriminate|].
    intros c' [X|X]; discriminate.
  - destruct (N _ _ In_). congruence.
  - destruct (N _ _ In_) as [_ X]. elim (X c eq_refl).
  - exact Same.
Qed.

Lemma calm_run peers is_ : p_crashed (pool_run (new_pool peers) (map (fun i => (i, true)) is_)) = false.
Proof.
  assert (W : forall s, pinv s -> calm s -> p_crashed (pool_run s (map (fun i => (i, true)) is_)) = false).
  { induction is_ as [|i is_ IH]; intros s I K; cbn [map pool_run]; [apply K|]. apply IH; [apply step_pinv, I|apply step_calm; assumption]. }
  apply W; [apply new_pinv|]. split; [reflexivity|]. cbn [new_pool p_reqs p_active]. split.
  - intros p pc H. apply in_map_iff in H. destruct H as (q & [= _ <-] & _). split; discriminate.
  - intros i p c [H|H]; rewrite nth_error_map in H; destruct (nth_error peers i); discriminate.
Qed.
