(** Lemmas about [OfferConc.v]. *)
From Coq Require Import List ZArith Bool Lia ZifyBool ZifyNat Sorting.Permutation.
From Coq Require Import Init.Byte.
From Verif Require Import Base BaseProofs Ids Offer WireSpec OfferStore OfferStoreSpec OfferStoreProofs OfferConc.
Import ListNotations.
Open Scope Z_scope.
Open Scope go_scope.

Definition cview (s : cstore) (k : gostring) (d : bytes) : option nat :=
  match aget bytes_eqb (cidMap s) k with Some dm => aget bytes_eqb (dmap s dm) d | None => None end.

Definition in_range (s : cstore) : Prop :=
  forall k dm, aget bytes_eqb (cidMap s) k = Some dm -> (dm < length (dMaps s))%nat.

Lemma nth_set_nth {A} (l : list A) i j x d : nth j (set_nth l i x) d = if Nat.eqb i j then (if Nat.ltb i (length l) then x else d) else nth j l d.
Proof.
  revert i j. induction l as [|y l IH]; intros [|i] [|j]; cbn [set_nth nth length]; try reflexivity.
  - change (Nat.eqb (S i) (S j)) with (Nat.eqb i j). destruct (Nat.eqb i j); reflexivity.
  - rewrite IH. reflexivity.
Qed.

(** What one step does to the shared maps. *)
Lemma step_maps now s a s' a' : in_range s -> add_step now s a = (s', a') ->
  (match a_pc a with AtCreate c _ => aget bytes_eqb (cidMap s) (ToString c) = None | AtWrite dm _ _ => (dm < length (dMaps s))%nat | _ => True end) ->
  in_range s' /\
  (a_offer a' = a_offer a /\ a_ptr a' = a_ptr a /\ a_digest a' = a_digest a) /\
  (forall k dm, aget bytes_eqb (cidMap s) k = Some dm -> aget bytes_eqb (cidMap s') k = Some dm) /\
  (forall k, aget bytes_eqb (cidMap s) k = None -> aget bytes_eqb (cidMap s') k <> None ->
     exists c rest, a_pc a = AtCreate c rest /\ k = ToString c) /\
  (forall dm d p, aget bytes_eqb (dmap s' dm) d = Some p ->
     aget bytes_eqb (dmap s dm) d = Some p \/ (d = a_digest a /\ p = a_ptr a /\ exists dm c rest, a_pc a = AtWrite dm c rest)) /\
  (forall dm d p, aget bytes_eqb (dmap s dm) d = Some p -> d <> a_digest a \/ p = a_ptr a -> aget bytes_eqb (dmap s' dm) d = Some p).
Proof.
  intros R E P. unfold add_step in E.
  assert (TRIV : s' = s -> a_offer a' = a_offer a /\ a_ptr a' = a_ptr a /\ a_digest a' = a_digest a ->
    in_range s' /\
    (a_offer a' = a_offer a /\ a_ptr a' = a_ptr a /\ a_digest a' = a_digest a) /\
    (forall k dm, aget bytes_eqb (cidMap s) k = Some dm -> aget bytes_eqb (cidMap s') k = Some dm) /\
    (forall k, aget bytes_eqb (cidMap s) k = None -> aget bytes_eqb (cidMap s') k <> None ->
       exists c rest, a_pc a = AtCreate c rest /\ k = ToString c) /\
    (forall dm d p, aget bytes_eqb (dmap s' dm) d = Some p ->
       aget bytes_eqb (dmap s dm) d = Some p \/ (d = a_digest a /\ p = a_ptr a /\ exists dm c rest, a_pc a = AtWrite dm c rest)) /\
    (forall dm d p, aget bytes_eqb (dmap s dm) d = Some p -> d <> a_digest a \/ p = a_ptr a -> aget bytes_eqb (dmap s' dm) d = Some p)).
  { intros -> T. split; [exact R|]. split; [exact T|]. split; [auto|]. split; [intros; congruence|]. auto. }
  destruct (a_pc a) as [|dm| |[|c rest]|c rest|dm c rest|r].
  - destruct (o_cids (a_offer a)) as [|c cs]; [injection E as <- <-; auto|].
    destruct (aget bytes_eqb (cidMap s) (ToString c)); injection E as <- <-; apply TRIV; auto.
  - destruct (aget bytes_eqb (dmap s dm) (a_digest a)); injection E as <- <-; apply TRIV; auto.
  - destruct (HasExpired _ _); injection E as <- <-; apply TRIV; auto.
  - injection E as <- <-; apply TRIV; auto.
  - destruct (aget bytes_eqb (cidMap s) (ToString c)); injection E as <- <-; apply TRIV; auto.
  - injection E as <- <-. cbn [cidMap dMaps].
    assert (DM : forall dm d, aget bytes_eqb (dmap (CStore (aset bytes_eqb (cidMap s) (ToString c) (length (dMaps s))) (dMaps s ++ [[]])) dm) d
       = aget bytes_eqb (dmap s dm) d).
    { intros dm d. unfold dmap. cbn [dMaps]. destruct (Nat.lt_ge_cases dm (length (dMaps s))) as [H|H].
      - rewrite app_nth1 by exact H. reflexivity.
      - rewrite app_nth2 by exact H. rewrite (nth_overflow (dMaps s)) by exact H.
        destruct (dm - length (dMaps s))%nat as [|[|]]; reflexivity. }
    split; [|split; [auto|split; [|split; [|split]]]].
    + intros k dm. cbn [cidMap dMaps]. rewrite aget_aset', app_length. cbn [length].
      destruct (bytes_eqb k (ToString c)); [intros [= <-]; lia|]. intros H. apply R in H. lia.
    + intros k dm H. rewrite aget_aset'. destruct (bytes_eqb k (ToString c)) eqn:B; [|exact H].
      apply bytes_eqb_eq in B. congruence.
    + intros k H1 H2. exists c, rest. split; [reflexivity|]. rewrite aget_aset' in H2.
      destruct (bytes_eqb k (ToString c)) eqn:B; [apply bytes_eqb_eq, B|contradiction].
    + intros dm d p H. rewrite DM in H. auto.
    + intros dm d p H _. rewrite DM. exact H.
  - injection E as <- <-. cbn [cidMap dMaps].
    assert (DM : forall dm' d, aget bytes_eqb (dmap (CStore (cidMap s) (set_nth (dMaps s) dm (aset bytes_eqb (dmap s dm) (a_digest a) (a_ptr a)))) dm') d
       = if Nat.eqb dm dm' && bytes_eqb d (a_digest a) then Some (a_ptr a) else aget bytes_eqb (dmap s dm') d).
    { intros dm' d. unfold dmap at 1. cbn [dMaps]. rewrite nth_set_nth.
      destruct (Nat.eqb_spec dm dm') as [->|N]; [|reflexivity]. destruct (Nat.ltb_spec dm' (length (dMaps s))); [|lia].
      rewrite aget_aset'. cbn [andb]. destruct (bytes_eqb d (a_digest a)); reflexivity. }
    split; [|split; [auto|split; [|split; [|split]]]].
    + intros k dm'. cbn [cidMap dMaps]. rewrite set_nth_length. apply R.
    + auto.
    + intros k H1 H2. congruence.
    + intros dm' d p. rewrite DM. destruct (Nat.eqb dm dm' && bytes_eqb d (a_digest a)) eqn:B; [|auto].
      intros [= <-]. right. apply andb_true_iff in B as [_ B]. apply bytes_eqb_eq in B. repeat split; auto. exists dm, c, rest. reflexivity.
    + intros dm' d p H C. rewrite DM. destruct (Nat.eqb dm dm' && bytes_eqb d (a_digest a)) eqn:B; [|exact H].
      apply andb_true_iff in B as [_ B]. apply bytes_eqb_eq in B. destruct C as [C|C]; [contradiction|congruence].
  - injection E as <- <-; auto.
Qed.

Definition past (pc : add_pc) : Prop :=
  match pc with AtCheck | AtCheckDigest _ | AtExpiry | AtEnd ErrR => False | _ => True end.

Section run.
  Variable s0 : cstore.

  (** What a goroutine may rely on. *)
  Definition seen (s : cstore) (a : adder) (c : bytes) : Prop := cview s (ToString c) (a_digest a) = Some (a_ptr a).
  Definition tinv (s : cstore) (a : adder) : Prop :=
    match a_pc a with
    | AtLoop rest => exists done, o_cids (a_offer a) = done ++ rest /\ forall c, In c done -> seen s a c
    | AtCreate c rest => (exists done, o_cids (a_offer a) = done ++ c :: rest /\ forall c, In c done -> seen s a c) /\
        aget bytes_eqb (cidMap s) (ToString c) = None
    | AtWrite dm c rest => (exists done, o_cids (a_offer a) = done ++ c :: rest /\ forall c, In c done -> seen s a c) /\
        aget bytes_eqb (cidMap s) (ToString c) = Some dm
    | AtEnd (OkR _) => forall c, In c (o_cids (a_offer a)) -> seen s a c
    | _ => True
    end.

  Definition separate (ts : list adder) : Prop :=
    forall i j a b, i <> j -> nth_error ts i = Some a -> nth_error ts j = Some b ->
      a_digest a <> a_digest b /\
      forall c c', In c (o_cids (a_offer a)) -> In c' (o_cids (a_offer b)) -> ToString c = ToString c' ->
        aget bytes_eqb (cidMap s0) (ToString c) <> None.

  Record cinv (s : cstore) (ts : list adder) : Prop := {
    ci_range : in_range s;
    ci_keys : forall k dm, aget bytes_eqb (cidMap s0) k = Some dm -> aget bytes_eqb (cidMap s) k = Some dm;
    ci_old : forall dm d p, aget bytes_eqb (dmap s0 dm) d = Some p -> aget bytes_eqb (dmap s dm) d = Some p;
    ci_new : forall dm d p, aget bytes_eqb (dmap s dm) d = Some p ->
      aget bytes_eqb (dmap s0 dm) d = Some p \/ exists i a, nth_error ts i = Some a /\ past (a_pc a) /\ a_digest a = d /\ a_ptr a = p;
    ci_threads : forall i a, nth_error ts i = Some a -> tinv s a;
    ci_fresh : forall i a dm, nth_error ts i = Some a -> aget bytes_eqb (dmap s0 dm) (a_digest a) = None;
    ci_sep : separate ts
  }.

  Lemma seen_mono s s' a b c :
    (forall k dm, aget bytes_eqb (cidMap s) k = Some dm -> aget bytes_eqb (cidMap s') k = Some dm) ->
    (forall dm d p, aget bytes_eqb (dmap s dm) d = Some p -> d <> a_digest b \/ p = a_ptr b -> aget bytes_eqb (dmap s' dm) d = Some p) ->
    a_digest a <> a_digest b \/ a_ptr a = a_ptr b -> seen s a c -> seen s' a c.
  Proof.
    intros K D X. unfold seen, cview. destruct (aget bytes_eqb (cidMap s) (ToString c)) as [dm|] eqn:E; [|discriminate].
    rewrite (K _ _ E). intros H. apply D; auto.
  Qed.

  Lemma step_inv s ts i now : cinv s ts -> let (s', ts') := sys_step s ts i now in cinv s' ts' /\
    forall j a, nth_error ts j = Some a -> exists a', nth_error ts' j = Some a' /\ a_offer a' = a_offer a /\ a_ptr a' = a_ptr a /\ a_digest a' = a_digest a.
  Proof.
    intros I. unfold sys_step. destruct (nth_error ts i) as [a|] eqn:Ea; [|split; [exact I|eauto]].
    destruct (add_step now s a) as [s' a'] eqn:E.
    assert (TI := ci_threads _ _ I i a Ea).
    assert (PRE : match a_pc a with AtCreate c _ => aget bytes_eqb (cidMap s) (ToString c) = None | AtWrite dm _ _ => (dm < length (dMaps s))%nat | _ => True end).
    { unfold tinv in TI. destruct (a_pc a); auto; [apply TI|]. destruct TI as [_ TI]. eapply (ci_range _ _ I); eauto. }
    destruct (step_maps now s a s' a' (ci_range _ _ I) E PRE) as (R' & (O1 & O2 & O3) & K & NK & ND & OD).
    assert (LEN : (i < length ts)%nat) by (apply nth_error_Some; congruence).
    assert (NTH : forall j b, nth_error (set_nth ts i a') j = Some b -> (j = i /\ b = a') \/ (j <> i /\ nth_error ts j = Some b)).
    { intros j b H. destruct (Nat.eq_dec j i) as [->|N].
      - rewrite nth_error_set_eq in H by exact LEN. injection H as <-. auto.
      - rewrite nth_error_set_neq in H by congruence. auto. }
    assert (SEP : separate (set_nth ts i a')).
    { intros j1 j2 b1 b2 N H1 H2. apply NTH in H1, H2.
      destruct H1 as [[-> ->]|[N1 H1]], H2 as [[-> ->]|[N2 H2]]; [congruence| | |].
      - rewrite O1, O3. apply (ci_sep _ _ I i j2); auto.
      - rewrite O1, O3. apply (ci_sep _ _ I j1 i); auto.
      - apply (ci_sep _ _ I j1 j2); auto. }
    assert (PAST : past (a_pc a) -> past (a_pc a')).
    { clear - E. unfold add_step in E. destruct (a_pc a) as [|dm| |[|c rest]|c rest|dm c rest|r] eqn:EP; cbn [past]; try contradiction.
      - injection E as <- <-. auto.
      - destruct (aget _ _ _); injection E as <- <-; auto.
      - injection E as <- <-. auto.
      - injection E as <- <-. auto.
      - injection E as <- <-. rewrite EP. auto. }
    assert (MEM : forall c rest, a_pc a = AtCreate c rest -> In c (o_cids (a_offer a))).
    { intros c rest EP. unfold tinv in TI. rewrite EP in TI. destruct TI as ((dn & -> & _) & _). apply in_or_app. right. left. reflexivity. }
    assert (MEM' : forall b c rest, tinv s b -> a_pc b = AtCreate c rest -> In c (o_cids (a_offer b))).
    { intros b c rest TB EP. unfold tinv in TB. rewrite EP in TB. destruct TB as ((dn & -> & _) & _). apply in_or_app. right. left. reflexivity. }
    assert (SELF : forall c, seen s a c -> seen s' a' c).
    { intros c H. assert (Q : seen s' a c) by (eapply (seen_mono s s' a a); eauto). unfold seen in *. rewrite O2, O3. exact Q. }
    split.
    2:{ intros j b Hb. destruct (Nat.eq_dec j i) as [->|N].
        - exists a'. rewrite nth_error_set_eq by exact LEN. assert (b = a) by congruence. subst b. auto.
        - exists b. rewrite nth_error_set_neq by congruence. auto. }
    split; auto.
    - intros k dm H. apply K, (ci_keys _ _ I), H.
    - intros dm d p H. apply OD; [apply (ci_old _ _ I), H|]. left. intros ->. rewrite (ci_fresh _ _ I i a dm Ea) in H. discriminate.
    - intros dm d p H. apply ND in H. destruct H as [H|(-> & -> & dm' & c & rest & EP)].
      + apply (ci_new _ _ I) in H. destruct H as [H|(j & b & Hb & P & D1 & D2)]; [auto|]. right.
        destruct (Nat.eq_dec j i) as [->|N].
        * assert (b = a) by congruence. subst b. exists i, a'. rewrite nth_error_set_eq by exact LEN. repeat split; auto; congruence.
        * exists j, b. rewrite nth_error_set_neq by congruence. auto.
      + right. exists i, a'. rewrite nth_error_set_eq by exact LEN. repeat split; auto. apply PAST. rewrite EP. exact Logic.I.
    - (* threads *)
      intros j b Hb. apply NTH in Hb. destruct Hb as [[-> ->]|[N Hb]].
      + (* the one that moved *)
        unfold add_step in E. unfold tinv in *. destruct (a_pc a) as [|dm| |[|c rest]|c rest|dm c rest|r] eqn:EP.
        * destruct (o_cids (a_offer a)) as [|c cs]; [injection E as <- <-; rewrite EP; exact Logic.I|].
          destruct (aget bytes_eqb (cidMap s) (ToString c)); injection E as <- <-; exact Logic.I.
        * destruct (aget bytes_eqb (dmap s dm) (a_digest a)) as [p|] eqn:G; injection E as <- <-; [|exact Logic.I].
          exfalso. apply (ci_new _ _ I) in G. destruct G as [G|(j & b & Hb & P & D1 & D2)].
          -- rewrite (ci_fresh _ _ I i a dm Ea) in G. discriminate.
          -- destruct (Nat.eq_dec j i) as [->|Nj]; [|destruct (ci_sep _ _ I j i b a Nj Hb Ea) as [X _]; contradiction].
             assert (b = a) by congruence. subst b. rewrite EP in P. exact P.
        * destruct (HasExpired _ _); injection E as <- <-; [exact Logic.I|]. exists []. split; [reflexivity|intros c []].
        * injection E as <- <-. cbn [a_pc at_pc a_offer]. destruct TI as (dn & -> & TI). rewrite app_nil_r. exact TI.
        * destruct (aget bytes_eqb (cidMap s) (ToString c)) eqn:G; injection E as <- <-; cbn [a_pc at_pc a_offer]; auto.
        * injection E as <- <-. cbn [a_pc at_pc a_offer]. destruct TI as [(dn & E1 & E2) _]. split.
          -- exists dn. split; [exact E1|]. intros c1 H1. apply SELF, E2, H1.
          -- cbn [cidMap]. rewrite aget_aset', bytes_eqb_refl'. reflexivity.
        * injection E as <- <-. cbn [a_pc at_pc a_offer]. destruct TI as [(dn & E1 & E2) G].
          exists (dn ++ [c]). split; [rewrite <- app_assoc; exact E1|]. intros c1 H1. apply in_app_or in H1.
          destruct H1 as [H1|[<-|[]]]; [apply SELF, E2, H1|].
          unfold seen, cview. cbn [cidMap a_digest a_ptr at_pc]. rewrite G. unfold dmap. cbn [dMaps].
          rewrite nth_set_nth, Nat.eqb_refl. destruct (Nat.ltb_spec dm (length (dMaps s))); [|lia].
          rewrite aget_aset', bytes_eqb_refl'. reflexivity.
        * injection E as <- <-. rewrite EP. exact TI.
      + (* the others *)
        assert (TB := ci_threads _ _ I j b Hb).
        assert (SB : forall c, seen s b c -> seen s' b c).
        { intros c H. eapply (seen_mono s s' b a); eauto. left. apply (ci_sep _ _ I j i b a N Hb Ea). }
        unfold tinv in *. destruct (a_pc b) as [|dm| |rest|c rest|dm c rest|r] eqn:EP; auto.
        * destruct TB as (dn & E1 & E2). exists dn. split; [exact E1|]. auto.
        * destruct TB as [(dn & E1 & E2) G]. split; [exists dn; split; [exact E1|auto]|].
          destruct (aget bytes_eqb (cidMap s') (ToString c)) as [x|] eqn:G'; [|reflexivity]. exfalso.
          destruct (NK (ToString c) G) as (c' & rest' & EP' & Ec'); [congruence|].
          assert (Cb : In c (o_cids (a_offer b))) by (rewrite E1; apply in_or_app; right; left; reflexivity).
          destruct (ci_sep _ _ I j i b a N Hb Ea) as [_ X]. specialize (X c c' Cb (MEM _ _ EP') Ec').
          destruct (aget bytes_eqb (cidMap s0) (ToString c)) as [y|] eqn:G0; [|contradiction].
          rewrite (ci_keys _ _ I _ _ G0) in G. discriminate.
        * destruct TB as [(dn & E1 & E2) G]. split; [exists dn; split; [exact E1|auto]|]. apply K, G.
        * destruct r; auto.
    - intros j b dm Hb. apply NTH in Hb. destruct Hb as [[-> ->]|[N Hb]].
      + rewrite O3. apply (ci_fresh _ _ I i a dm Ea).
      + apply (ci_fresh _ _ I j b dm Hb).
  Qed.

  Lemma run_inv sched : forall s ts, cinv s ts -> let (s', ts') := sys_run s ts sched in cinv s' ts' /\
    forall j a, nth_error ts j = Some a -> exists a', nth_error ts' j = Some a' /\ a_offer a' = a_offer a /\ a_ptr a' = a_ptr a /\ a_digest a' = a_digest a.
  Proof.
    induction sched as [|[i now] sched IH]; intros s ts I; cbn [sys_run]; [split; [exact I|eauto]|].
    pose proof (step_inv s ts i now I) as H. destruct (sys_step s ts i now) as [s1 ts1]. destruct H as [I1 P1].
    specialize (IH s1 ts1 I1). destruct (sys_run s1 ts1 sched) as [s2 ts2]. destruct IH as [I2 P2]. split; [exact I2|].
    intros j a Ha. destruct (P1 j a Ha) as (a1 & H1 & Q1 & Q2 & Q3). destruct (P2 j a1 H1) as (a2 & H2 & W1 & W2 & W3).
    exists a2. repeat split; congruence.
  Qed.
End run.

Lemma flatten_aget s k : aget bytes_eqb (flatten s) k = option_map (dmap s) (aget bytes_eqb (cidMap s) k).
Proof.
  unfold flatten. induction (cidMap s) as [|[k' dm] l IH]; [reflexivity|]. cbn [map aget fst snd].
  destruct (bytes_eqb k k'); [reflexivity|exact IH].
Qed.
Lemma flatten_lookup s k d : lookup (flatten s) k d = cview s k d.
Proof. unfold lookup, cview. rewrite flatten_aget. destruct (aget bytes_eqb (cidMap s) k); reflexivity. Qed.

(** A stored offer is among the results of a query that returns. *)
Lemma load_mem h m os d p o : load_offers h m = Ret os -> In (d, p) m -> nth_error h p = Some o -> In o os.
Proof.
  revert os. induction m as [|[d' p'] m IH]; intros os E I N; [destruct I|]. cbn [load_offers] in E.
  unfold cell, deref in E. destruct (nth_error h p') as [o'|] eqn:N'; [|discriminate]. cbn [obind] in E.
  destruct (load_offers h m) as [os'| |]; try discriminate. cbn [obind] in E. injection E as <-.
  destruct I as [I|I]; [left; injection I as -> ->; congruence|right; eapply IH; eauto].
Qed.

Lemma get_mem sha order now h s c os s' d p o : shuffle order -> store_get sha order now h s c = Ret (os, s') ->
  lookup s (ToString c) d = Some p -> nth_error h p = Some o -> storable o -> live now o -> In o os.
Proof.
  intros Sh E L N So Lv. unfold store_get in E. unfold lookup in L.
  destruct (aget bytes_eqb s (ToString c)) as [m|]; [|discriminate].
  destruct (load_offers h (order m)) as [l| |] eqn:El; try discriminate. cbn [obind] in E.
  destruct (purge _ _ _) as [s1| |]; try discriminate. cbn [obind] in E. injection E as <- <-.
  apply filter_In. split; [|apply negb_true_iff, expired_live'; assumption].
  eapply load_mem; eauto. eapply Permutation_in; [apply Sh|]. apply (aget_In bytes_eqb bytes_eqb_eq), L.
Qed.

(** ** A goroutine alone *)
Definition distinct_maps (s : cstore) : Prop :=
  NoDup (map snd (cidMap s)) /\ forall k dm, In (k, dm) (cidMap s) -> (dm < length (dMaps s))%nat.

Lemma alone_app now n m s a : alone now (n + m) s a = let (s', a') := alone now n s a in alone now m s' a'.
Proof.
  revert s a. induction n as [|n IH]; intros s a; cbn [alone Nat.add]; [reflexivity|].
  destruct (add_step now s a) as [s1 a1]. apply IH.
Qed.

Lemma aset_aset {V} (m : list (gostring * V)) k v w : aset bytes_eqb (aset bytes_eqb m k v) k w = aset bytes_eqb m k w.
Proof.
  induction m as [|[k' v'] m IH]; cbn [aset].
  - rewrite bytes_eqb_refl'. reflexivity.
  - destruct (bytes_eqb k k') eqn:E; cbn [aset]; [rewrite bytes_eqb_refl'; reflexivity|rewrite E, IH; reflexivity].
Qed.

Lemma aset_missing {V} (m : list (gostring * V)) k v : aget bytes_eqb m k = None -> aset bytes_eqb m k v = m ++ [(k, v)].
Proof.
  induction m as [|[k' v'] m IH]; cbn [aget aset app]; [reflexivity|]. destruct (bytes_eqb k k'); [discriminate|].
  intros H. rewrite IH by exact H. reflexivity.
Qed.

Lemma flatten_create s c : distinct_maps s -> aget bytes_eqb (cidMap s) (ToString c) = None ->
  let s' := CStore (aset bytes_eqb (cidMap s) (ToString c) (length (dMaps s))) (dMaps s ++ [[]]) in
  distinct_maps s' /\ flatten s' = aset bytes_eqb (flatten s) (ToString c) [] /\ aget bytes_eqb (cidMap s') (ToString c) = Some (length (dMaps s)).
Proof.
  intros [N R] G. cbn zeta. split; [|split].
  - split; cbn [cidMap dMaps]; rewrite aset_missing by exact G.
    + rewrite map_app. apply nodup_app_iff. split; [exact N|]. split; [repeat constructor; intros []|].
      intros x I [<-|[]]. apply in_map_iff in I. destruct I as ([k dm] & E & I). apply R in I. cbn [snd] in E. lia.
    + intros k dm I. rewrite app_length. cbn [length]. apply in_app_or in I. destruct I as [I|[I|[]]]; [apply R in I; lia|].
      injection I as <- <-. lia.
  - rewrite (aset_missing (flatten s)) by (rewrite flatten_aget, G; reflexivity).
    unfold flatten. cbn [cidMap]. rewrite aset_missing by exact G. rewrite map_app. cbn [map fst snd]. f_equal.
    + apply map_ext_in. intros [k dm] I. apply R in I. unfold dmap. cbn [dMaps fst snd]. rewrite app_nth1 by exact I. reflexivity.
    + unfold dmap. cbn [dMaps]. rewrite app_nth2 by lia. rewrite Nat.sub_diag. reflexivity.
  - cbn [cidMap]. rewrite aget_aset', bytes_eqb_refl'. reflexivity.
Qed.

Lemma flatten_write s c dm d p : distinct_maps s -> aget bytes_eqb (cidMap s) (ToString c) = Some dm ->
  let s' := CStore (cidMap s) (set_nth (dMaps s) dm (aset bytes_eqb (dmap s dm) d p)) in
  distinct_maps s' /\ flatten s' = aset bytes_eqb (flatten s) (ToString c) (aset bytes_eqb (dmap s dm) d p).
Proof.
  intros [N R] G. cbn zeta. split.
  - split; [exact N|]. cbn [cidMap dMaps]. rewrite set_nth_length. exact R.
  - unfold flatten. cbn [cidMap]. set (m := aset bytes_eqb (dmap s dm) d p).
    assert (Ldm : (dm < length (dMaps s))%nat) by (eapply R; apply (aget_In bytes_eqb bytes_eqb_eq), G).
    assert (D : forall x, dmap (CStore (cidMap s) (set_nth (dMaps s) dm m)) x = if Nat.eqb dm x then m else dmap s x).
    { intros x. unfold dmap. cbn [dMaps]. rewrite nth_set_nth. destruct (Nat.eqb dm x); [|reflexivity].
      destruct (Nat.ltb_spec dm (length (dMaps s))); [reflexivity|lia]. }
    revert N G. generalize (cidMap s) at 1 2 4 5 as cm.
    induction cm as [|[k x] cm IH]; intros N G; [discriminate|].
    cbn [map fst snd aset aget] in *. inversion N as [|? ? N1 N2]; subst. rewrite D.
    destruct (bytes_eqb (ToString c) k) eqn:B.
    + injection G as ->. rewrite Nat.eqb_refl. apply bytes_eqb_eq in B. subst k. f_equal.
      apply map_ext_in. intros [k' x'] I. cbn [fst snd]. rewrite D. destruct (Nat.eqb_spec dm x') as [->|]; [|reflexivity].
      destruct N1. apply (in_map snd) in I. exact I.
    + destruct (Nat.eqb_spec dm x) as [->|NE].
      * exfalso. apply N1. apply (aget_In bytes_eqb bytes_eqb_eq) in G. apply (in_map snd) in G. exact G.
      * f_equal. apply IH; assumption.
Qed.

Lemma loop_alone now : forall rest s a, a_pc a = AtLoop rest -> distinct_maps s ->
  exists n s', alone now n s a = (s', at_pc a (AtEnd (OkR tt))) /\ distinct_maps s' /\
    flatten s' = put (flatten s) rest (a_digest a) (a_ptr a).
Proof.
  induction rest as [|c rest IH]; intros s a E D.
  - exists 1%nat, s. cbn [alone]. unfold add_step. rewrite E. auto.
  - assert (Last : forall s1 b dm, a_digest b = a_digest a -> a_ptr b = a_ptr a -> a_offer b = a_offer a -> a_pc b = AtWrite dm c rest -> distinct_maps s1 ->
      aget bytes_eqb (cidMap s1) (ToString c) = Some dm ->
      exists n s', alone now n s1 b = (s', at_pc a (AtEnd (OkR tt))) /\ distinct_maps s' /\
        flatten s' = put (aset bytes_eqb (flatten s1) (ToString c) (aset bytes_eqb (dmap s1 dm) (a_digest a) (a_ptr a))) rest (a_digest a) (a_ptr a)).
    { intros s1 b dm E1 E2 E3 Eb D1 G1. destruct (flatten_write s1 c dm (a_digest a) (a_ptr a) D1 G1) as [D2 F2].
      destruct (IH _ (at_pc b (AtLoop rest)) eq_refl D2) as (n & s' & R & D' & F').
      exists (S n), s'. cbn [alone]. unfold add_step. rewrite Eb, E1, E2. rewrite R. split.
      - unfold at_pc. cbn. rewrite E1, E2, E3. reflexivity.
      - split; [exact D'|]. rewrite F', F2. cbn [at_pc a_digest a_ptr]. rewrite E1, E2. reflexivity. }
    cbn [put]. rewrite flatten_aget. destruct (aget bytes_eqb (cidMap s) (ToString c)) as [dm|] eqn:G; cbn [option_map].
    + destruct (Last s (at_pc a (AtWrite dm c rest)) dm) as (n & s' & R & D' & F'); auto.
      exists (S n), s'. cbn [alone]. unfold add_step. rewrite E, G. auto.
    + destruct (flatten_create s c D G) as (D1 & F1 & G1).
      destruct (Last _ (at_pc a (AtWrite (length (dMaps s)) c rest)) _ eq_refl eq_refl eq_refl eq_refl D1 G1) as (n & s' & R & D' & F').
      exists (S (S n)), s'. cbn [alone]. unfold add_step at 1. rewrite E, G. unfold add_step at 1. cbn [at_pc a_pc].
      split; [exact R|]. split; [exact D'|]. rewrite F', F1, aset_aset. unfold dmap. cbn [dMaps].
      rewrite app_nth2 by lia. rewrite Nat.sub_diag. reflexivity.
Qed.

Lemma alone_pf sha now h s o p d : distinct_maps s -> nth_error h p = Some o -> GetMessageDigest sha o = Ret d ->
  exists n s' r, alone now n s (start_add o p d) = (s', at_pc (start_add o p d) (AtEnd r)) /\ distinct_maps s' /\
    store_add sha now h (flatten s) p = Ret (r, flatten s').
Proof.
  intros D N G. unfold store_add, cell, deref. rewrite N. cbn [obind]. unfold start_add.
  destruct (o_cids o) as [|c cs] eqn:Ec; [exists O, s, ErrR; auto|]. rewrite G. cbn [obind].
  set (a := Adder o p d AtCheck).
  assert (X : forall s1 b, b = at_pc a AtExpiry -> s1 = s -> known (flatten s) (ToString c) d = false ->
    exists n s' r, alone now n s1 b = (s', at_pc a (AtEnd r)) /\ distinct_maps s' /\
      (if known (flatten s) (ToString c) d then Ret (OkR tt, flatten s)
       else if HasExpired (o_expiry o) now then Ret (ErrR, flatten s) else Ret (OkR tt, put (flatten s) (c :: cs) d p)) = Ret (r, flatten s')).
  { intros s1 b -> -> ->. destruct (HasExpired (o_expiry o) now) eqn:E.
    - exists 1%nat, s, ErrR. cbn [alone]. unfold add_step. cbn [at_pc a_pc a_offer a]. rewrite E. auto.
    - destruct (loop_alone now (c :: cs) s (at_pc a (AtLoop (c :: cs))) eq_refl D) as (n & s' & R & D' & F).
      exists (S n), s', (OkR tt). cbn [alone]. unfold add_step. subst a. cbn [at_pc a_pc a_offer a_digest a_ptr] in *. rewrite E, Ec.
      split; [exact R|]. split; [exact D'|]. rewrite F. reflexivity. }
  assert (K : known (flatten s) (ToString c) d = match cview s (ToString c) d with Some _ => true | None => false end).
  { rewrite known_lookup, flatten_lookup. reflexivity. }
  unfold cview in K. destruct (aget bytes_eqb (cidMap s) (ToString c)) as [dm|] eqn:Gc.
  - assert (S1 : add_step now s a = (s, at_pc a (AtCheckDigest dm))).
    { unfold add_step, a. cbn [a_pc a_offer]. rewrite Ec, Gc. reflexivity. }
    destruct (aget bytes_eqb (dmap s dm) d) as [p'|] eqn:Gd.
    + assert (S2 : add_step now s (at_pc a (AtCheckDigest dm)) = (s, at_pc a (AtEnd (OkR tt)))).
      { unfold add_step, a. cbn [a_pc at_pc a_digest]. rewrite Gd. reflexivity. }
      exists 2%nat, s, (OkR tt). cbn [alone]. rewrite S1, S2, K. auto.
    + assert (S2 : add_step now s (at_pc a (AtCheckDigest dm)) = (s, at_pc a AtExpiry)).
      { unfold add_step, a. cbn [a_pc at_pc a_digest]. rewrite Gd. reflexivity. }
      destruct (X s (at_pc a AtExpiry) eq_refl eq_refl K) as (n & s' & r & R & D' & F). exists (S (S n)), s', r.
      cbn [alone]. rewrite S1, S2. auto.
  - assert (S1 : add_step now s a = (s, at_pc a AtExpiry)).
    { unfold add_step, a. cbn [a_pc a_offer]. rewrite Ec, Gc. reflexivity. }
    destruct (X s (at_pc a AtExpiry) eq_refl eq_refl K) as (n & s' & r & R & D' & F). exists (S n), s', r.
    cbn [alone]. rewrite S1. auto.
Qed.

(** ** The theorem on concurrent additions *)
Lemma concurrent_pf sha s h ts sched i o p d c order now os st :
  in_range s ->
  (forall a, In a ts -> exists o p d, a = start_add o p d /\ nth_error h p = Some o /\ storable o /\
     GetMessageDigest sha o = Ret d /\ forall m, In m (dMaps s) -> aget bytes_eqb m d = None) ->
  (forall i j a b, i <> j -> nth_error ts i = Some a -> nth_error ts j = Some b ->
     a_digest a <> a_digest b /\
     forall c, In c (o_cids (a_offer a)) -> In c (o_cids (a_offer b)) -> aget bytes_eqb (cidMap s) (ToString c) <> None) ->
  nth_error ts i = Some (start_add o p d) ->
  let (s', ts') := sys_run s ts sched in
  nth_error ts' i = Some (Adder o p d (AtEnd (OkR tt))) -> In c (o_cids o) ->
  shuffle order -> live now o -> store_get sha order now h (flatten s') c = Ret (os, st) -> In o os.
Proof.
  intros R HT HS Hi.
  assert (I : cinv s s ts).
  { split; auto.
    - intros j a Ha. destruct (HT a (nth_error_In _ _ Ha)) as (o1 & p1 & d1 & -> & _). unfold tinv, start_add. cbn [a_pc].
      destruct (o_cids o1); exact Logic.I.
    - intros j a dm Ha. destruct (HT a (nth_error_In _ _ Ha)) as (o1 & p1 & d1 & -> & _ & _ & _ & F). cbn [start_add a_digest].
      unfold dmap. destruct (Nat.lt_ge_cases dm (length (dMaps s))) as [L|L]; [apply F, nth_In, L|rewrite nth_overflow by exact L; reflexivity].
    - intros i1 j1 a b N Ha Hb. destruct (HS i1 j1 a b N Ha Hb) as [X Y]. split; [exact X|].
      intros c1 c2 I1 I2 E.
      destruct (HT a (nth_error_In _ _ Ha)) as (o1 & p1 & d1 & -> & _ & ((_ & F1 & _) & _) & _).
      destruct (HT b (nth_error_In _ _ Hb)) as (o2 & p2 & d2 & -> & _ & ((_ & F2 & _) & _) & _).
      cbn [start_add a_offer] in *. rewrite Forall_forall in F1, F2.
      assert (c1 = c2) by (apply ToString_inj; auto). subst c2. apply Y; assumption. }
  pose proof (run_inv s sched s ts I) as Q. destruct (sys_run s ts sched) as [s' ts']. destruct Q as [I' P].
  intros E Ic Sh Lv G. assert (T := ci_threads _ _ _ I' i _ E). cbn in T.
  destruct (HT _ (nth_error_In _ _ Hi)) as (o1 & p1 & d1 & Es & N & So & _). unfold start_add in Es. injection Es as -> -> -> _.
  eapply (get_mem sha order now h (flatten s') c os st); eauto.
  rewrite flatten_lookup. apply (T c Ic).
Qed.
