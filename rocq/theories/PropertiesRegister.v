(** * Properties of the register manager (C47-C50, C89-C92) *)
From Coq Require Import String List ZArith Bool Lia Sorting.Sorted Sorting.Permutation.
From Coq Require Import Init.Byte.
From Verif Require Import Base BaseProofs Ids IdsProofs Ring RingSpec RingFacts OfferStoreSpec OfferStoreProofs Register RegisterSpec RegisterProofs
  RegisterLocks RegisterLocksSpec RegisterLocksProofs.
Import ListNotations.
Open Scope Z_scope.

(** Gateways 0..10, 0..20 and 0..30 with some information. *)
Definition node (b : byte) : bytes := repeat x00 31 ++ [b].
Definition reg (b : byte) (i : nat) : gostring * nat := (ToString (node b), i).
Definition idle : manager nat := snd (StartMgr nat (NewFCRRegisterMgr nat true true)).
Definition three : list (gostring * nat) := [reg x10 1%nat; reg x20 2%nat; reg x30 3%nat].
Definition m3 : manager nat :=
  match Refresh nat idle (listing nat three) (listing nat []) with Ret m => m | _ => idle end.

Example m3_managed : managed nat m3.
Proof.
  apply (managed_refresh nat idle (listing nat three) (listing nat [])); [apply managed_start| |vm_compute; reflexivity].
  intros x X. unfold three in X. cbn [map In] in X.
  destruct X as [E|[E|[E|[]]]]; injection E as <-; eexists; (split; [|reflexivity]); reflexivity.
Qed.

Definition ids3 : list gostring := map fst three.
Example m3_knows : knows nat m3 ids3.
Proof.
  split.
  - unfold ids3, three, reg. cbn [map fst]. repeat constructor; vm_compute; reflexivity.
  - intros v. change (gatewaysMap nat m3) with three. unfold ids3, three. cbn [map fst In aget].
    split.
    + intros [<-|[<-|[<-|[]]]]; eexists; vm_compute; reflexivity.
    + intros [i H]. unfold reg in H. cbn [aget fst snd] in H.
      destruct (bytes_eqb v (ToString (node x10))) eqn:E1; [apply bytes_eqb_eq in E1; auto|].
      destruct (bytes_eqb v (ToString (node x20))) eqn:E2; [apply bytes_eqb_eq in E2; auto|].
      destruct (bytes_eqb v (ToString (node x30))) eqn:E3; [apply bytes_eqb_eq in E3; auto|discriminate].
Qed.

(** ** C47: gateways near a CID *)

(** As long as no lookup has hit a fault of the ring, a lookup of at most as many gateways as
    there are gives the nearest ones, at most 16, with their current registrations. *)
Theorem near_cid_partial : forall (Info : Type) m c num members, managed Info m -> knows Info m members ->
  length c = 32%nat -> 1 <= num -> Z.min num 16 <= Z.of_nat (length members) ->
  exists res m', GetGatewaysNearCID Info m (Some c) num None = Ret (OkR res, m') /\
    nearest Info m members (ToString c) (Z.min num 16) res.
Proof. intros Info m c num members M K L N B. apply near_ok; auto. apply managed_ginv, M. Qed.
Print Assumptions near_cid_partial.

(** The same leaving out one gateway. *)
Theorem near_cid_excluding_partial : forall (Info : Type) m c num n members, managed Info m -> knows Info m members ->
  harmless Info m c num (Some n) -> length members <> 1%nat ->
  1 <= num -> Z.min num 16 <= Z.of_nat (length (without (ToString n) members)) ->
  exists res m', GetGatewaysNearCID Info m (Some c) num (Some n) = Ret (OkR res, m') /\
    nearest Info m (without (ToString n) members) (ToString c) (Z.min num 16) res /\ ~ In (ToString n) (map fst res).
Proof. intros Info m c num n members M K H O N B. apply near_ok_excluding; auto. apply managed_ginv, M. Qed.
Print Assumptions near_cid_excluding_partial.

(** A harmless lookup of any size succeeds or fails without disturbing later lookups. *)
Theorem near_cid_keeps_partial : forall (Info : Type) m c num ex, managed Info m -> harmless Info m c num ex ->
  exists x m', GetGatewaysNearCID Info m (Some c) num ex = Ret (x, m') /\ managed Info m' /\
    gatewaysMap Info m' = gatewaysMap Info m.
Proof.
  intros Info m c num ex M H. destruct (near_keeps Info m c num ex (managed_ginv Info m M) H) as (x & m' & E & _ & G).
  exists x, m'. split; [exact E|]. split; [|exact G]. eapply managed_near; eauto.
Qed.
Print Assumptions near_cid_keeps_partial.

Example near_two : exists m', GetGatewaysNearCID nat m3 (Some (node x25)) 2 None = Ret (OkR [reg x20 2%nat; reg x30 3%nat], m').
Proof. eexists. vm_compute. reflexivity. Qed.

Example near_two_harmless : harmless nat m3 (node x25) 2 None.
Proof.
  split; [reflexivity|]. split; [discriminate|]. split; [lia|]. intros members K. split.
  - right. right. exists (ToString (node x10)). split; [|vm_compute; reflexivity]. apply filter_In. split.
    + apply K. exists 1%nat. vm_compute. reflexivity.
    + vm_compute. reflexivity.
  - intros _ H. destruct members as [|v l]; [discriminate|]. injection H as ->.
    destruct (proj1 (proj2 K []) (or_introl eq_refl)) as [i G]. vm_compute in G. discriminate.
Qed.

(** With fewer gateways than asked for, the smallest one is left out (unless it is the
    point itself). *)
Theorem near_cid_few_refuted : forall (Info : Type) m c num v t, managed Info m -> knows Info m (v :: t) ->
  length c = 32%nat -> Z.of_nat (length (v :: t)) < Z.min num 16 ->
  exists res m', GetGatewaysNearCID Info m (Some c) num None = Ret (OkR res, m') /\
    map fst res = (if bytes_eqb v (ToString c) then v :: t else t) /\
    forall id i, In (id, i) res -> aget bytes_eqb (gatewaysMap Info m) id = Some i.
Proof. intros Info m c num v t M K L B. apply near_few; auto. apply managed_ginv, M. Qed.
Print Assumptions near_cid_few_refuted.

Example near_sixteen : exists m', GetGatewaysNearCID nat m3 (Some (node x25)) 16 None = Ret (OkR [reg x20 2%nat; reg x30 3%nat], m').
Proof. eexists. vm_compute. reflexivity. Qed.

(** In general a lookup can make the next one fail: the first leaves its point in the ring. *)
Theorem near_cid_refuted : exists m res m' m'', managed nat m /\ knows nat m ids3 /\
  GetGatewaysNearCID nat m (Some (node x05)) 2 None = Ret (OkR res, m') /\
  GetGatewaysNearCID nat m' (Some (node x06)) 2 None = Ret (ErrR, m'') /\ gatewaysMap nat m' = three.
Proof.
  exists m3. eexists. eexists. eexists. split; [exact m3_managed|]. split; [exact m3_knows|].
  split; [vm_compute; reflexivity|]. split; [vm_compute; reflexivity|]. vm_compute. reflexivity.
Qed.
Print Assumptions near_cid_refuted.

(** ** C48: lookups release their locks *)

(** Every call but the lookup of an unknown provider leaves the locks as they were. *)
Theorem locks_released_partial : forall (Info : Type) (m m' : manager Info),
  (exists ga pa, Refresh Info m ga pa = Ret m') \/
  (exists id ga pa x, GetGateway Info m id ga pa = Ret (x, m')) \/
  (exists id p, GetProvider Info m id = Ret (Some p, m')) \/
  (exists order x, GetAllGateways Info order m = Ret (x, m') \/ GetAllProviders Info order m = Ret (x, m')) \/
  (exists c num ex x, GetGatewaysNearCID Info m c num ex = Ret (x, m')) \/
  (exists g x, GetGatewayCIDRange Info m g = Ret (x, m')) ->
  gatewaysLock Info m' = gatewaysLock Info m /\ closestLock Info m' = closestLock Info m /\ providersLock Info m' = providersLock Info m.
Proof.
  intros Info m m' H. assert (E : locks Info m' = locks Info m).
  { destruct H as [(ga & pa & E)|[(id & ga & pa & x & E)|[(id & p & E)|[(o & x & E)|[(c & num & ex & x & E)|(g & x & E)]]]]].
    - eapply refresh_locks; eauto.
    - eapply gateway_locks; eauto.
    - eapply provider_locks; eauto.
    - eapply all_locks; eauto.
    - eapply near_locks; eauto.
    - eapply range_locks; eauto. }
  unfold locks in E. injection E as -> -> ->. auto.
Qed.
Print Assumptions locks_released_partial.

(** After the lookup of an unknown provider no refresh that brings a provider ever ends. *)
Theorem unknown_provider_refuted : forall (Info : Type) m i, start Info m = true -> providerDiscv Info m = true ->
  aget bytes_eqb (providersMap Info m) (ToString i) = None ->
  exists m', GetProvider Info m (Some i) = Ret (None, m') /\
    forall ga e l m'', Refresh Info m' ga (listing Info (e :: l)) <> Ret m''.
Proof. exact provider_missing_pf. Qed.
Print Assumptions unknown_provider_refuted.

Example unknown_provider_blocks : exists m', GetProvider nat m3 (Some (node x77)) = Ret (None, m') /\
  Refresh nat m3 (listing nat []) (listing nat [reg x77 7%nat]) <> Diverge /\
  Refresh nat m' (listing nat []) (listing nat [reg x77 7%nat]) = Diverge.
Proof. eexists. split; [vm_compute; reflexivity|]. split; [vm_compute; discriminate|vm_compute; reflexivity]. Qed.

(** ** C49: overlapping lookups and updates *)

(** Any number of overlapping calls, but for range lookups and lookups of unknown providers:
    some call can always go on, the calls end after boundedly many lock operations, and then
    they hold nothing. *)
Theorem calls_progress_partial : forall cs n s, (forall c, In c cs -> safe_call c) -> lock_moves (calling cs) n s ->
  ~ all_ended s -> exists i, lock_step s i <> None.
Proof. exact safe_progress_pf. Qed.
Print Assumptions calls_progress_partial.

Theorem calls_bounded_partial : forall cs n s, (forall c, In c cs -> safe_call c) -> lock_moves (calling cs) n s ->
  (n <= list_sum (map (fun c => list_sum (map cost (calls_locks c))) cs))%nat.
Proof. exact safe_bounded_pf. Qed.
Print Assumptions calls_bounded_partial.

Theorem calls_release_partial : forall cs n s, (forall c, In c cs -> safe_call c) -> lock_moves (calling cs) n s ->
  forall t, In t s -> ended t -> held t = [].
Proof. exact safe_released_pf. Qed.
Print Assumptions calls_release_partial.

(** The principle behind: threads that take locks in increasing order and release them in
    the opposite order do not block each other. *)
Theorem ordered_locks_progress : forall ts, (forall t, In t ts -> orderly (held t) (prog t)) ->
  (forall t, In t ts -> announced t = true -> exists k p, prog t = WL k :: p) ->
  ~ all_ended ts -> exists i, lock_step ts i <> None.
Proof. intros ts O A E. apply well_progress; [|exact E]. intros t T. split; [apply O, T|apply A, T]. Qed.
Print Assumptions ordered_locks_progress.

(** Runs a schedule. *)
Fixpoint lock_run (ts : list thread) (sch : list nat) : option (list thread) :=
  match sch with [] => Some ts | i :: r => match lock_step ts i with Some ts' => lock_run ts' r | None => None end end.

Lemma lock_run_moves s n s' sch s'' : lock_moves s n s' -> lock_run s' sch = Some s'' -> exists n', lock_moves s n' s''.
Proof.
  revert n s'. induction sch as [|i sch IH]; intros n s' M; cbn [lock_run].
  - intros [= <-]. eauto.
  - destruct (lock_step s' i) eqn:E; [|discriminate]. apply (IH (S n)). eapply lm_step; eauto.
Qed.

(** A range lookup and an update that adds a gateway stop each other for ever. *)
Theorem range_lookup_deadlock_refuted : exists n s, lock_moves (calling [CCIDRange; CGatewaysRound [NewNode]]) n s /\
  ~ all_ended s /\ forall i, lock_step s i = None.
Proof.
  destruct (lock_run (calling [CCIDRange; CGatewaysRound [NewNode]]) [1; 1; 1; 1; 1; 0; 1]%nat) as [s|] eqn:E; [|vm_compute in E; discriminate].
  destruct (lock_run_moves _ 0 _ _ _ (lm_zero _) E) as [n M]. exists n, s. split; [exact M|].
  vm_compute in E. injection E as <-. split.
  - intros H. specialize (H _ (or_introl eq_refl)). discriminate.
  - intros [|[|i]]; try reflexivity. unfold lock_step, thread_step. replace (nth_error _ (S (S i))) with (@None thread) by (destruct i; reflexivity). reflexivity.
Qed.
Print Assumptions range_lookup_deadlock_refuted.

(** A lookup in the middle of an update that adds a gateway; both end. *)
Example near_during_update : exists s, lock_run (calling [CNearCID; CGatewaysRound [NewNode]])
    [1; 1; 0; 1; 1; 1; 0; 0; 0; 1; 1; 1]%nat = Some s /\
  forallb (fun t => match prog t with [] => true | _ => false end) s = true.
Proof. eexists. split; vm_compute; reflexivity. Qed.

(** ** C50: a refresh reflects the register *)

(** What the register tells replaces what was known; the rest stays. *)
Theorem refresh_overlays_partial : forall (Info : Type) m gl pl m', start Info m = true ->
  gatewayDiscv Info m = true -> providerDiscv Info m = true ->
  Refresh Info m (listing Info gl) (listing Info pl) = Ret m' ->
  forall v, aget bytes_eqb (gatewaysMap Info m') v =
      match latest Info gl v with Some i => Some i | None => aget bytes_eqb (gatewaysMap Info m) v end /\
    aget bytes_eqb (providersMap Info m') v =
      match latest Info pl v with Some i => Some i | None => aget bytes_eqb (providersMap Info m) v end.
Proof. exact refresh_map. Qed.
Print Assumptions refresh_overlays_partial.

(** A refresh always ends while no lock is left over from a provider lookup. *)
Theorem refresh_ends : forall (Info : Type) m gl pl, managed Info m -> providersLock Info m = O ->
  (forall x, In x gl -> canonical (fst x)) ->
  exists m', Refresh Info m (listing Info gl) (listing Info pl) = Ret m'.
Proof. intros Info m gl pl M. apply refresh_ok, managed_ginv, M. Qed.
Print Assumptions refresh_ends.

(** Without an answer of the register service nothing changes. *)
Theorem refresh_unavailable : forall (Info : Type) m, Refresh Info m None None = Ret m.
Proof. exact refresh_down. Qed.
Print Assumptions refresh_unavailable.

(** An unknown gateway is looked up in the register: the answer is its registration there. *)
Theorem gateway_lookup_refreshes : forall (Info : Type) m i gl pl, managed Info m -> providersLock Info m = O ->
  (forall x, In x gl -> canonical (fst x)) -> aget bytes_eqb (gatewaysMap Info m) (ToString i) = None ->
  exists m', GetGateway Info m (Some i) (listing Info gl) (listing Info pl) = Ret (latest Info gl (ToString i), m').
Proof.
  intros Info m i gl pl M L C N. pose proof (managed_ginv Info m M) as I.
  destruct (refresh_ok Info m gl pl I L C) as [m' R]. exists m'. rewrite get_gateway_eq by apply I. rewrite N, R. cbn [obind]. f_equal. f_equal.
  destruct (providerDiscv Info m) eqn:P.
  - destruct (refresh_map Info m gl pl m' (g_start _ _ I) (g_disc _ _ I) P R (ToString i)) as [E _]. rewrite E, N. destruct (latest Info gl (ToString i)); reflexivity.
  - unfold Refresh, updateGateways, updateProviders in R. rewrite (g_start _ _ I), (g_disc _ _ I) in R. cbn [negb orb] in R.
    rewrite pulled_listing in R. cbn [obind] in R. destruct (add_gateways Info m gl) as [m1| |] eqn:A; try discriminate. cbn [obind] in R.
    apply add_gateways_map in A. destruct A as [(S1 & _ & P1 & _) A]. rewrite S1, P1, P, (g_start _ _ I) in R. cbn [negb orb] in R.
    injection R as <-. rewrite A, overlay_latest, N. destruct (latest Info gl (ToString i)); reflexivity.
Qed.
Print Assumptions gateway_lookup_refreshes.

Example lookup_new_gateway : exists m', GetGateway nat m3 (Some (node x44))
  (listing nat [reg x44 4%nat; reg x10 9%nat; reg x44 5%nat]) (listing nat []) = Ret (Some 5%nat, m') /\
  aget bytes_eqb (gatewaysMap nat m') (ToString (node x10)) = Some 9%nat.
Proof. eexists. split; vm_compute; reflexivity. Qed.

(** A gateway that is no longer registered stays known ... *)
Theorem removed_gateway_stays_refuted : exists m m', managed nat m /\
  Refresh nat m (listing nat [reg x20 2%nat]) (listing nat []) = Ret m' /\
  aget bytes_eqb (gatewaysMap nat m') (ToString (node x10)) = Some 1%nat.
Proof. exists m3. eexists. split; [exact m3_managed|]. split; vm_compute; reflexivity. Qed.
Print Assumptions removed_gateway_stays_refuted.

(** ... and one that is registered with capital letters in its identifier is not found. *)
Theorem capital_gateway_refuted : exists m m' id, managed nat m /\ hex_decode id = Some (node xab) /\
  GetGateway nat m (Some (node xab)) (listing nat [(id, 6%nat)]) (listing nat []) = Ret (None, m').
Proof.
  exists m3. eexists. exists (repeat x30 62 ++ gs "AB"). split; [exact m3_managed|]. split; vm_compute; reflexivity.
Qed.
Print Assumptions capital_gateway_refuted.

(** ** C89: stopping leaves the registrations of others alone *)

(** Stopping the manager of any node deletes all gateways and providers from the register. *)
Theorem shutdown_deletes_all_refuted : forall (Info : Type) m, start Info m = true ->
  gatewayDiscv Info m = true -> providerDiscv Info m = true ->
  gatewaysLock Info m = O -> providersLock Info m = O ->
  exists m', Shutdown Info m = Ret ([DeleteAllGateways; DeleteAllProviders], m') /\
    gatewaysMap Info m' = [] /\ providersMap Info m' = [].
Proof.
  intros Info m S G P L K. unfold Shutdown. rewrite S, G, P, L, K. cbn [negb Locked obind app]. eexists. split; [reflexivity|]. split; reflexivity.
Qed.
Print Assumptions shutdown_deletes_all_refuted.

(** Only a started manager does so, and only for the nodes it discovers. *)
Theorem shutdown_deletes_partial : forall (Info : Type) m ds m', Shutdown Info m = Ret (ds, m') ->
  (start Info m = false -> ds = [] /\ m' = m) /\
  (In DeleteAllGateways ds -> gatewayDiscv Info m = true) /\ (In DeleteAllProviders ds -> providerDiscv Info m = true).
Proof.
  intros Info m ds m'. unfold Shutdown. destruct (start Info m) eqn:S; cbn [negb].
  - destruct (gatewayDiscv Info m); cbn [obind].
    + destruct (Locked (gatewaysLock Info m)); try discriminate. cbn [obind].
      destruct (providerDiscv Info m); cbn [obind].
      * destruct (Locked (providersLock Info m)); try discriminate. intros _. split; [discriminate|]. auto.
      * intros H. assert (E : ds = [DeleteAllGateways]) by (cbn in H; congruence). subst ds. split; [discriminate|]. split; [auto|]. intros [[=]|[]].
    + destruct (providerDiscv Info m); cbn [obind].
      * destruct (Locked (providersLock Info m)); try discriminate. cbn [obind]. intros H.
        assert (E : ds = [DeleteAllProviders]) by (cbn in H; congruence). subst ds. split; [discriminate|]. split; [|auto]. intros [[=]|[]].
      * intros H. assert (E : ds = []) by (cbn in H; congruence). subst ds. split; [discriminate|]. split; intros [].
  - intros H. assert (E : ds = [] /\ m' = m) by (split; congruence). destruct E as [-> ->]. split; [auto|]. split; intros [].
Qed.
Print Assumptions shutdown_deletes_partial.

Example shutdown_m3 :
  match Shutdown nat m3 with
  | Ret (ds, m') => ds = [DeleteAllGateways; DeleteAllProviders] /\
      match GetGatewaysNearCID nat m' (Some (node x25)) 2 None with Ret (ErrR, _) => True | _ => False end
  | _ => False
  end.
Proof. vm_compute. auto. Qed.

(** A stopped manager answers nothing any more. *)
Theorem shutdown_stops_partial : forall (Info : Type) m ds m', Shutdown Info m = Ret (ds, m') ->
  (forall id ga pa, GetGateway Info m' id ga pa = Ret (None, m')) /\
  (forall id, GetProvider Info m' id = Ret (None, m')) /\
  (forall order, GetAllGateways Info order m' = Ret (None, m') /\ GetAllProviders Info order m' = Ret (None, m')).
Proof.
  intros Info m ds m' H.
  assert (S : start Info m' = false).
  { unfold Shutdown in H. destruct (start Info m) eqn:S; cbn [negb] in H; [|congruence].
    destruct (gatewayDiscv Info m), (providerDiscv Info m); cbn [obind] in H;
      try (destruct (Locked (gatewaysLock Info m)); cbn [obind] in H); try discriminate;
      try (destruct (Locked (providersLock Info m)); cbn [obind] in H); try discriminate;
      inversion H; reflexivity. }
  unfold GetGateway, GetProvider, GetAllGateways, GetAllProviders. rewrite S. repeat split; reflexivity.
Qed.
Print Assumptions shutdown_stops_partial.

(** ** C50: listing everything *)

(** All known gateways, or providers, each once, in some order. *)
Theorem list_all_partial : forall (Info : Type) order m, shuffle order -> start Info m = true ->
  (gatewayDiscv Info m = true -> exists l,
    GetAllGateways Info order m = Ret (Some l, m) /\ Permutation (map snd (gatewaysMap Info m)) l) /\
  (providerDiscv Info m = true -> exists l,
    GetAllProviders Info order m = Ret (Some l, m) /\ Permutation (map snd (providersMap Info m)) l).
Proof.
  intros Info order m Sh S. unfold GetAllGateways, GetAllProviders. rewrite S. cbn [negb orb].
  split; intros D; rewrite D; cbn [negb RLock RUnlock obind]; eexists; (split; [destruct m; reflexivity|]); apply Permutation_map, Sh.
Qed.
Print Assumptions list_all_partial.
Example list_all_m3 : GetAllGateways nat (@rev _) m3 = Ret (Some [3; 2; 1]%nat, m3) /\ GetAllProviders nat (@rev _) m3 = Ret (Some [], m3).
Proof. vm_compute. split; reflexivity. Qed.
Example list_all_providers :
  match Refresh nat idle (listing nat []) (listing nat three) with
  | Ret m => GetAllProviders nat (fun l => l) m = Ret (Some [1; 2; 3]%nat, m)
  | _ => False end.
Proof. vm_compute. reflexivity. Qed.

(** ** C90: the range of a gateway *)

(** The range of a gateway goes from the first to the last of its 16 nearest others. *)
Theorem cid_range_partial : forall (Info : Type) m g members, managed Info m -> knows Info m members ->
  harmless Info m g 16 (Some g) -> length members <> 1%nat -> 16 <= Z.of_nat (length (without (ToString g) members)) ->
  exists lo hi mid m', GetGatewayCIDRange Info m (Some g) = Ret (OkR (lo, hi), m') /\
    length lo = 32%nat /\ length hi = 32%nat /\
    closest_ok (without (ToString g) members) (ToString g) 16 (ToString lo :: mid ++ [ToString hi]).
Proof. intros Info m g members M K H O B. apply range_ok_pf; auto. Qed.
Print Assumptions cid_range_partial.

(** Eighteen gateways. *)
Definition many : list (gostring * nat) :=
  map (fun b => reg b 0%nat) [x01; x02; x03; x04; x05; x06; x07; x08; x09; x0a; x0b; x0c; x0d; x0e; x0f; x10; x11; x12].
Definition m18 : manager nat :=
  match Refresh nat idle (listing nat many) (listing nat []) with Ret m => m | _ => idle end.
Example range_m18 : exists m', GetGatewayCIDRange nat m18 (Some (node x09)) = Ret (OkR (node x01, node x11), m').
Proof. eexists. vm_compute. reflexivity. Qed.

(** With two other gateways there are neighbours on both sides, but no range at all. *)
Theorem cid_range_refuted : exists m m', managed nat m /\ knows nat m ids3 /\
  GetGatewayCIDRange nat m (Some (node x20)) = Ret (ErrR, m').
Proof. exists m3. eexists. split; [exact m3_managed|]. split; [exact m3_knows|]. vm_compute. reflexivity. Qed.
Print Assumptions cid_range_refuted.

(** ** C91: a refresh brings the register's present contents *)

(** Refreshes never block each other, and each takes part in at most two exchanges. *)
Theorem refreshes_progress : forall n es s, refresh_moves (refreshing0 n) es s ->
  (forall r, In r (refs s) -> exists a b, r = RDone a b) \/ exists e s', e <> ETimer /\ refresh_step s e = Some s'.
Proof. exact refresh_progress_pf. Qed.
Print Assumptions refreshes_progress.

Theorem refreshes_bounded : forall n es s, refresh_moves (refreshing0 n) es s -> (count meets es <= 2 * n)%nat.
Proof. exact refresh_bounded_pf. Qed.
Print Assumptions refreshes_bounded.

(** A refresh that overlaps with no other returns after an update round that began later. *)
Theorem refresh_alone_partial : forall es s a b, refresh_moves (refreshing0 1) es s -> In (RDone a b) (refs s) -> (a < b)%nat.
Proof.
  intros es s a b M R. destruct (alone_inv es s M) as (r & E & Q). rewrite E in R. destruct R as [->|[]]. exact Q.
Qed.
Print Assumptions refresh_alone_partial.

Fixpoint refresh_run (s : refreshing) (es : list event) : option refreshing :=
  match es with [] => Some s | e :: r => match refresh_step s e with Some s' => refresh_run s' r | None => None end end.
Lemma refresh_run_moves s0 es0 s es s' : refresh_moves s0 es0 s -> refresh_run s es = Some s' -> refresh_moves s0 (es0 ++ es) s'.
Proof.
  revert es0 s. induction es as [|e es IH]; intros es0 s M; cbn [refresh_run].
  - intros [= <-]. rewrite app_nil_r. exact M.
  - destruct (refresh_step s e) eqn:E; [|discriminate]. intros H. replace (es0 ++ e :: es) with ((es0 ++ [e]) ++ es) by (rewrite <- app_assoc; reflexivity).
    apply (IH _ _ (rm_step _ _ _ _ _ M E) H).
Qed.

Example refresh_once : exists s, refresh_moves (refreshing0 1) [EFinishRound; ETimer; EFinishRound; ETake 0; EFinishRound; EAnswer 0] s /\
  refs s = [RDone 2 3].
Proof.
  exists (Refreshing 3 USelect [RDone 2 3]). split; [|reflexivity].
  apply (refresh_run_moves (refreshing0 1) [] (refreshing0 1)); [constructor|vm_compute; reflexivity].
Qed.

(** Of two refreshes one can return before the round it asked for. *)
Theorem refresh_overlap_refuted : exists es s a, refresh_moves (refreshing0 2) es s /\ In (RDone a a) (refs s).
Proof.
  exists [EFinishRound; ETake 0; EMeet 1 0], (Refreshing 1 (URound true) [RDone 1 1; RWait 1]), 1%nat. split.
  - apply (refresh_run_moves (refreshing0 2) [] (refreshing0 2)); [constructor|vm_compute; reflexivity].
  - left. reflexivity.
Qed.
Print Assumptions refresh_overlap_refuted.

(** ** C92: changes of the ring exclude each other *)

(** While an update changes the ring or a map, no other call is inside. *)
Theorem update_alone_partial : forall cs n s i j k t u, lock_moves (calling cs) n s ->
  nth_error s i = Some t -> nth_error s j = Some u -> holds_write k t = true -> holds k u = true -> i = j.
Proof. exact writer_alone_pf. Qed.
Print Assumptions update_alone_partial.

Example update_holds : exists s t, lock_run (calling [CGatewaysRound [NewNode]; CNearCID]) [0; 0; 0; 0; 0; 0; 0]%nat = Some s /\
  nth_error s 0 = Some t /\ holds_write ringL t = true.
Proof. do 2 eexists. split; [vm_compute; reflexivity|]. split; [reflexivity|]. reflexivity. Qed.

(** Two lookups, which change the ring temporarily, can both be inside. *)
Theorem lookups_overlap_refuted : exists n s t u, lock_moves (calling [CNearCID; CNearCID]) n s /\
  nth_error s 0 = Some t /\ nth_error s 1 = Some u /\ holds ringL t = true /\ holds ringL u = true.
Proof.
  destruct (lock_run (calling [CNearCID; CNearCID]) [0; 0; 1; 1]%nat) as [s|] eqn:E; [|vm_compute in E; discriminate].
  destruct (lock_run_moves _ 0 _ _ _ (lm_zero _) E) as [n M]. vm_compute in E. injection E as <-.
  exists n. do 3 eexists. split; [exact M|]. split; [reflexivity|]. split; [reflexivity|]. split; reflexivity.
Qed.
Print Assumptions lookups_overlap_refuted.
