(** * Proofs about the register manager *)
From Coq Require Import List ZArith Bool Lia Sorting.Sorted.
From Coq Require Import Init.Byte.
From Verif Require Import Base BaseProofs Ids IdsProofs Offer Ring RingSpec RingFacts OfferStoreProofs Register RegisterSpec.
Import ListNotations.
Open Scope Z_scope.
Open Scope go_scope.

Section proofs.
  Variable Info : Type.
  Notation manager := (manager Info).
  Notation gmap m := (gatewaysMap Info m).
  Notation get m id := (aget bytes_eqb m id).

  Lemma get_set (a : list (gostring * Info)) p c q : get (aset bytes_eqb a p c) q = if bytes_eqb q p then Some c else get a q.
  Proof. apply (aget_aset bytes_eqb bytes_eqb_eq). Qed.

  Lemma canonical_point v : canonical v -> is_point v.
  Proof. intros (i & L & ->). apply ToString_point. exact L. Qed.
  Lemma canonical_inj u v : canonical u -> canonical v -> hex_val u = hex_val v -> u = v.
  Proof.
    intros (i & L & ->) (j & K & ->) E. rewrite !ToString_val in E by assumption. f_equal. apply be_val_inj; congruence.
  Qed.

  (** The state of the gateway half. *)
  Record ginv (m : manager) : Prop := {
    g_start : start Info m = true;
    g_disc : gatewayDiscv Info m = true;
    g_lock : gatewaysLock Info m = O;
    c_lock : closestLock Info m = O;
    g_healthy : healthy (closest Info m);
    g_canon : forall v i, get (gmap m) v = Some i -> canonical v;
    g_ring : forall v, In v (entries (closest Info m)) <-> exists i, get (gmap m) v = Some i
  }.

  Lemma healthy_sorted r : healthy r -> StronglySorted (fun a b => hex_val a < hex_val b) (entries r).
  Proof.
    intros H. destruct (insert_ok r [] H) as (r' & E & _ & S & _). assert (Insert r [] = Ret r) by reflexivity.
    congruence.
  Qed.

  Lemma sorted_same l l' : StronglySorted (fun a b => hex_val a < hex_val b) l -> StronglySorted (fun a b => hex_val a < hex_val b) l' ->
    (forall v, In v l <-> In v l') -> l = l'.
  Proof.
    revert l'. induction l as [|a l IH]; intros [|b l'] S S' E.
    - reflexivity.
    - destruct (proj2 (E b) (or_introl eq_refl)).
    - destruct (proj1 (E a) (or_introl eq_refl)).
    - inversion S as [|? ? S1 S2]; inversion S' as [|? ? S1' S2']; subst. rewrite Forall_forall in S2, S2'.
      assert (a = b).
      { destruct (proj1 (E a) (or_introl eq_refl)) as [?|A]; [auto|]. destruct (proj2 (E b) (or_introl eq_refl)) as [?|B]; [auto|].
        specialize (S2' _ A). specialize (S2 _ B). lia. }
      subst b. f_equal. apply IH; auto. intros v. split; intros H.
      + destruct (proj1 (E v) (or_intror H)) as [->|?]; [|assumption]. specialize (S2 _ H). lia.
      + destruct (proj2 (E v) (or_intror H)) as [->|?]; [|assumption]. specialize (S2' _ H). lia.
  Qed.

  Lemma ginv_knows m : ginv m -> knows Info m (entries (closest Info m)).
  Proof. intros I. split; [apply healthy_sorted, I|apply I]. Qed.
  Lemma knows_eq m l : ginv m -> knows Info m l -> l = entries (closest Info m).
  Proof.
    intros I [S E]. apply sorted_same; [exact S|apply healthy_sorted, I|]. intros v. rewrite E, (g_ring _ I v). tauto.
  Qed.

  Lemma start_ginv pd : ginv (snd (StartMgr Info (NewFCRRegisterMgr Info pd true))).
  Proof.
    split; try reflexivity.
    - apply healthy_new.
    - discriminate.
    - intros v. split; [intros []|intros [i [=]]].
  Qed.

  (** ** Refreshing *)

  Lemma locked_ok l u : Locked l = Ret u -> l = O.
  Proof. destruct l; [reflexivity|discriminate]. Qed.

  Definition overlay (m : list (gostring * Info)) (l : list (gostring * Info)) (id : gostring) : option Info :=
    fold_left (fun acc e => if bytes_eqb (fst e) id then Some (snd e) else acc) l (get m id).

  Lemma overlay_latest m l id : overlay m l id = match latest Info l id with Some i => Some i | None => get m id end.
  Proof.
    unfold overlay, latest.
    assert (W : forall acc acc0, fold_left (fun acc e => if bytes_eqb (fst e) id then Some (snd e) else acc) l acc =
      match fold_left (fun acc e => if bytes_eqb (fst e) id then Some (snd e) else acc) l acc0 with
      | Some i => Some i | None => acc end \/ acc0 <> None).
    { induction l as [|e l IH]; intros acc acc0; cbn [fold_left].
      - destruct acc0; [right; discriminate|left; reflexivity].
      - destruct acc0 as [x|]; [right; discriminate|]. left. destruct (bytes_eqb (fst e) id).
        + clear IH. generalize (snd e). induction l as [|e' l IH]; intros y; cbn [fold_left]; [reflexivity|].
          destruct (bytes_eqb (fst e') id); apply IH.
        + destruct (IH acc None) as [H|H]; [exact H|congruence]. }
    destruct (W (get m id) None) as [H|H]; [exact H|congruence].
  Qed.

  Lemma bytes_eqb_sym a b : bytes_eqb a b = bytes_eqb b a.
  Proof.
    destruct (bytes_eqb a b) eqn:E, (bytes_eqb b a) eqn:F; auto; [apply bytes_eqb_eq in E|apply bytes_eqb_eq in F]; subst;
      [rewrite (proj2 (bytes_eqb_eq b b) eq_refl) in F|rewrite (proj2 (bytes_eqb_eq a a) eq_refl) in E]; discriminate.
  Qed.

  Lemma overlay_cons m id info l v :
    overlay (aset bytes_eqb m id info) l v = overlay m ((id, info) :: l) v.
  Proof. unfold overlay. cbn [fold_left fst snd]. rewrite get_set, (bytes_eqb_sym v id). reflexivity. Qed.

  (** Nothing of the provider half changes and the other way round. *)
  Definition same_providers (m m' : manager) : Prop :=
    start Info m' = start Info m /\ gatewayDiscv Info m' = gatewayDiscv Info m /\ providerDiscv Info m' = providerDiscv Info m /\
    gatewaysLock Info m' = gatewaysLock Info m /\ closestLock Info m' = closestLock Info m /\ providersLock Info m' = providersLock Info m /\
    providersMap Info m' = providersMap Info m.
  Definition same_gateways (m m' : manager) : Prop :=
    start Info m' = start Info m /\ gatewayDiscv Info m' = gatewayDiscv Info m /\ providerDiscv Info m' = providerDiscv Info m /\
    gatewaysLock Info m' = gatewaysLock Info m /\ closestLock Info m' = closestLock Info m /\ providersLock Info m' = providersLock Info m /\
    gatewaysMap Info m' = gatewaysMap Info m /\ closest Info m' = closest Info m.

  Lemma add_gateways_map l : forall m m', add_gateways Info m l = Ret m' ->
    same_providers m m' /\ forall v, get (gmap m') v = overlay (gmap m) l v.
  Proof.
    induction l as [|[id info] l IH]; intros m m' H; cbn [add_gateways] in H.
    - injection H as <-. split; [repeat split|reflexivity].
    - destruct (Locked (gatewaysLock Info m)); try discriminate. cbn [obind] in H.
      destruct (get (gmap m) id).
      + apply IH in H. destruct H as [S E]. split; [exact S|]. intros v. rewrite E. apply overlay_cons.
      + destruct (Locked (closestLock Info m)); try discriminate. cbn [obind] in H.
        destruct (Insert (closest Info m) id) as [r| |]; try discriminate. cbn [obind] in H.
        apply IH in H. destruct H as [S E]. split; [exact S|]. intros v. rewrite E. apply overlay_cons.
  Qed.

  Lemma add_providers_map l : forall m m', add_providers Info m l = Ret m' ->
    same_gateways m m' /\ forall v, get (providersMap Info m') v = overlay (providersMap Info m) l v.
  Proof.
    induction l as [|[id info] l IH]; intros m m' H; cbn [add_providers] in H.
    - injection H as <-. split; [repeat split|reflexivity].
    - destruct (Locked (providersLock Info m)); try discriminate. cbn [obind] in H.
      apply IH in H. destruct H as [S E]. split; [exact S|]. intros v. rewrite E. apply overlay_cons.
  Qed.

  Lemma insert_ginv m id info : ginv m -> canonical id -> get (gmap m) id = None ->
    exists r, Insert (closest Info m) id = Ret r /\
      ginv (with_ring Info (with_gateways Info m (aset bytes_eqb (gmap m) id info)) r).
  Proof.
    intros I C N. destruct (insert_ok _ id (g_healthy _ I)) as (r & E & H & _ & _ & M). exists r. split; [exact E|].
    split; cbn [with_ring with_gateways start gatewayDiscv gatewaysLock closestLock closest gatewaysMap]; try apply I.
    - exact H.
    - intros v i G. rewrite get_set in G. destruct (bytes_eqb v id) eqn:B; [apply bytes_eqb_eq in B; subst; exact C|eapply I; exact G].
    - intros v. rewrite M, (g_ring _ I v), get_set. split.
      + intros [[i G]|(-> & _ & _)].
        * destruct (bytes_eqb v id); eauto.
        * rewrite (proj2 (bytes_eqb_eq id id) eq_refl). eauto.
      + destruct (bytes_eqb v id) eqn:B; [|auto]. intros _. apply bytes_eqb_eq in B. subst v. right.
        split; [reflexivity|]. split; [apply canonical_point, C|]. intros u U X. apply (g_ring _ I) in U. destruct U as [i U].
        rewrite (canonical_inj u id) in U; [congruence| |exact C|exact X]. eapply I; exact U.
  Qed.

  Lemma set_ginv m id info i0 : ginv m -> get (gmap m) id = Some i0 ->
    ginv (with_gateways Info m (aset bytes_eqb (gmap m) id info)).
  Proof.
    intros I G. split; cbn [with_gateways start gatewayDiscv gatewaysLock closestLock closest gatewaysMap]; try apply I.
    - intros v i H. rewrite get_set in H. destruct (bytes_eqb v id) eqn:B; [apply bytes_eqb_eq in B; subst|]; eapply I; eauto.
    - intros v. rewrite (g_ring _ I v), get_set. destruct (bytes_eqb v id) eqn:B; [|tauto]. apply bytes_eqb_eq in B. subst v.
      split; eauto.
  Qed.

  Lemma add_gateways_ok l : forall m, ginv m -> (forall x, In x l -> canonical (fst x)) ->
    exists m', add_gateways Info m l = Ret m' /\ ginv m'.
  Proof.
    induction l as [|[id info] l IH]; intros m I C; cbn [add_gateways]; [eauto|].
    rewrite (g_lock _ I). cbn [Locked obind].
    destruct (get (gmap m) id) as [i0|] eqn:G.
    - apply IH; [eapply set_ginv; eauto|]. intros x X. apply C. right. exact X.
    - rewrite (c_lock _ I). cbn [Locked obind].
      destruct (insert_ginv m id info I (C _ (or_introl eq_refl)) G) as (r & -> & I'). cbn [obind].
      apply IH; [exact I'|]. intros x X. apply C. right. exact X.
  Qed.

  Lemma pulled_in a l : pulled Info a = Ret l -> exists l', a = Some l' /\ l' = map Some l \/ a = None /\ l = [].
  Proof.
    destruct a as [l'|]; cbn [pulled]; [|intros [= <-]; exists []; auto].
    revert l. induction l' as [|x l' IH]; intros l; cbn [fold_right].
    - intros [= <-]. exists []. left. auto.
    - match goal with |- obind ?o _ = _ -> _ => destruct o as [r| |] eqn:E; try discriminate end. cbn [obind].
      destruct x as [e|]; [|discriminate]. cbn [deref obind]. intros [= <-]. destruct (IH _ eq_refl) as (l0 & [[H ->]|[[=] _]]).
      injection H as ->. exists (map Some (e :: r)). left. auto.
  Qed.

  Lemma pulled_proper a l : proper Info a -> pulled Info a = Ret l -> forall x, In x l -> canonical (fst x).
  Proof.
    intros P E x X. apply pulled_in in E. destruct E as (l' & [[-> ->]|[-> ->]]); [|destruct X]. apply P. apply in_map. exact X.
  Qed.

  Lemma pulled_listing l : pulled Info (listing Info l) = Ret l.
  Proof.
    unfold listing, pulled. induction l as [|e l IH]; [reflexivity|]. cbn [map fold_right]. rewrite IH. reflexivity.
  Qed.

  Lemma same_gateways_ginv m m' : same_gateways m m' -> ginv m -> ginv m'.
  Proof. intros (A & B & _ & D & E & _ & G & H) []. split; congruence || (rewrite ?G, ?H; assumption). Qed.

  Lemma refresh_ginv m ga pa m' : ginv m -> proper Info ga -> Refresh Info m ga pa = Ret m' -> ginv m'.
  Proof.
    intros I P. unfold Refresh, updateGateways, updateProviders. rewrite (g_start _ I), (g_disc _ I). cbn [negb orb].
    destruct (pulled Info ga) as [l| |] eqn:E; try discriminate. cbn [obind].
    destruct (add_gateways_ok l m I (pulled_proper _ _ P E)) as (m1 & A & I1). rewrite A. cbn [obind].
    destruct (negb (start Info m1) || negb (providerDiscv Info m1)); [intros [= <-]; exact I1|].
    destruct (pulled Info pa) as [pl| |]; try discriminate. cbn [obind]. intros H. apply add_providers_map in H.
    eapply same_gateways_ginv; [apply H|exact I1].
  Qed.

  (** A refresh takes over the answer of the register and keeps the rest. *)
  Lemma refresh_map m gl pl m' : start Info m = true -> gatewayDiscv Info m = true -> providerDiscv Info m = true ->
    Refresh Info m (listing Info gl) (listing Info pl) = Ret m' ->
    forall v, get (gmap m') v = match latest Info gl v with Some i => Some i | None => get (gmap m) v end /\
      get (providersMap Info m') v = match latest Info pl v with Some i => Some i | None => get (providersMap Info m) v end.
  Proof.
    intros S G P. unfold Refresh, updateGateways, updateProviders. rewrite S, G. cbn [negb orb]. rewrite pulled_listing. cbn [obind].
    destruct (add_gateways Info m gl) as [m1| |] eqn:A; try discriminate. cbn [obind]. apply add_gateways_map in A.
    destruct A as [(S1 & _ & P1 & _ & _ & _ & Q) A]. rewrite S1, S, P1, P. cbn [negb orb]. rewrite pulled_listing. cbn [obind].
    intros H. apply add_providers_map in H. destruct H as [(_ & _ & _ & _ & _ & _ & M & _) H].
    intros v. rewrite M, A, H, Q, !overlay_latest. auto.
  Qed.

  Lemma refresh_ok m gl pl : ginv m -> providersLock Info m = O -> (forall x, In x gl -> canonical (fst x)) ->
    exists m', Refresh Info m (listing Info gl) (listing Info pl) = Ret m'.
  Proof.
    intros I L C. unfold Refresh, updateGateways, updateProviders. rewrite (g_start _ I), (g_disc _ I). cbn [negb orb].
    rewrite pulled_listing. cbn [obind]. destruct (add_gateways_ok gl m I C) as (m1 & A & I1). rewrite A. cbn [obind].
    apply add_gateways_map in A. destruct A as [(_ & _ & _ & _ & _ & L1 & _) _]. rewrite L in L1.
    destruct (negb (start Info m1) || negb (providerDiscv Info m1)); [eauto|]. rewrite pulled_listing. cbn [obind].
    revert L1. generalize m1. induction pl as [|[id info] pl IH]; intros m0 L0; cbn [add_providers]; [eauto|].
    rewrite L0. cbn [Locked obind]. apply IH. exact L0.
  Qed.

  Lemma refresh_down m : Refresh Info m None None = Ret m.
  Proof. 
    unfold Refresh, updateGateways, updateProviders. destruct (start Info m) eqn:S; [|reflexivity]. cbn [negb orb pulled obind].
    destruct (negb (gatewayDiscv Info m)); cbn [add_gateways obind]; rewrite S; cbn [negb orb];
      destruct (negb (providerDiscv Info m)); reflexivity.
  Qed.

  (** ** Lookups *)

  Lemma with_locks_same m : with_locks Info m (gatewaysLock Info m) (closestLock Info m) (providersLock Info m) = m.
  Proof. destruct m. reflexivity. Qed.

  Lemma get_gateway_eq m i ga pa : start Info m = true -> gatewayDiscv Info m = true ->
    GetGateway Info m (Some i) ga pa =
    match get (gmap m) (ToString i) with
    | Some g => Ret (Some g, m)
    | None => let* m' := Refresh Info m ga pa in Ret (get (gmap m') (ToString i), m')
    end.
  Proof.
    intros S D. unfold GetGateway. rewrite S, D. cbn [negb orb deref obind RLock RUnlock]. rewrite with_locks_same.
    destruct (get (gmap m) (ToString i)); [reflexivity|]. destruct (Refresh Info m ga pa); cbn [obind]; [|reflexivity..].
    rewrite with_locks_same. reflexivity.
  Qed.

  Lemma gateway_ginv m id ga pa x m' : ginv m -> proper Info ga -> GetGateway Info m id ga pa = Ret (x, m') -> ginv m'.
  Proof.
    intros I P. destruct id as [i|].
    - rewrite get_gateway_eq by apply I. destruct (get (gmap m) (ToString i)).
      + intros H. assert (m' = m) by congruence. subst. exact I.
      + destruct (Refresh Info m ga pa) as [m1| |] eqn:R; try discriminate. cbn [obind]. intros H.
        assert (m' = m1) by congruence. subst. eapply refresh_ginv; eauto.
    - unfold GetGateway. rewrite (g_start _ I), (g_disc _ I). discriminate.
  Qed.

  Lemma provider_same m id x m' : GetProvider Info m id = Ret (x, m') ->
    gatewaysLock Info m' = gatewaysLock Info m /\ closestLock Info m' = closestLock Info m /\ start Info m' = start Info m /\
    gatewayDiscv Info m' = gatewayDiscv Info m /\ closest Info m' = closest Info m /\ gatewaysMap Info m' = gatewaysMap Info m /\
    providersMap Info m' = providersMap Info m /\ providerDiscv Info m' = providerDiscv Info m.
  Proof.
    unfold GetProvider. destruct (negb _ || negb _); [intros H; assert (m' = m) by congruence; subst; auto 10|].
    destruct id as [i|]; [|discriminate]. cbn [deref obind RLock RUnlock]. destruct (get _ _); cbn [obind]; intros H;
      match type of H with Ret (_, ?y) = _ => assert (E : m' = y) by congruence end; subst m'; cbn; auto 10.
  Qed.

  Lemma provider_ginv m id x m' : ginv m -> GetProvider Info m id = Ret (x, m') -> ginv m'.
  Proof.
    intros [] H. apply provider_same in H. destruct H as (A & B & C & D & E & F & _). split; rewrite ?A, ?B, ?C, ?D, ?E, ?F; assumption.
  Qed.

  Lemma spelled_canonical m p : ginv m -> canonical p -> spelled (entries (closest Info m)) p.
  Proof. intros I C v V E. apply (g_ring _ I) in V. destruct V as [i V]. eapply canonical_inj; eauto. eapply I; exact V. Qed.

  Lemma to_canonical c : length c = 32%nat -> canonical (ToString c).
  Proof. intros L. exists c. auto. Qed.

  Lemma harmless_faultless m c num ex : ginv m -> harmless Info m c num ex ->
    faultless (entries (closest Info m)) (OpClosest (ToString c) (if 16 <? num then 16 else num) (excluded ex)).
  Proof.
    intros I (L & _ & N & H). destruct (H _ (ginv_knows m I)) as [U V]. intros _ _. split; [destruct (16 <? num) eqn:E; lia|].
    split; [apply spelled_canonical; [exact I|apply to_canonical, L]|]. split; assumption.
  Qed.

  (** The ring query inside. *)
  Lemma closest_keeps m c num ex : ginv m -> harmless Info m c num ex ->
    exists a r, GetClosest (closest Info m) (ToString c) (if 16 <? num then 16 else num) (excluded ex) = Ret (a, r) /\
      ginv (with_ring Info m r).
  Proof.
    intros I H. destruct (query_preserves _ _ (g_healthy _ I) (harmless_faultless _ _ _ _ I H) Logic.I) as (r' & E & Hh & Ee & _).
    cbn [run_op] in E. destruct (GetClosest _ _ _ _) as [[a r]| |]; try discriminate. cbn [obind snd] in E. assert (r = r') by congruence. subst r'.
    exists a, r. split; [reflexivity|]. destruct I. split; cbn [with_ring start gatewayDiscv gatewaysLock closestLock closest gatewaysMap]; auto.
    intros v. rewrite Ee. apply g_ring0.
  Qed.

  Lemma near_eq m c num ex : gatewayDiscv Info m = true ->
    GetGatewaysNearCID Info m (Some c) num ex =
    let* q := GetClosest (closest Info m) (ToString c) (if 16 <? num then 16 else num) (excluded ex) in
    Ret (match fst q with OkR ids => registrations_of Info (gmap m) ids | ErrR => ErrR end, with_ring Info m (snd q)).
  Proof.
    intros D. unfold GetGatewaysNearCID. rewrite D. cbn [deref obind negb RLock RUnlock]. unfold excluded.
    destruct (GetClosest _ _ _ _); cbn [obind]; [|reflexivity..]. f_equal.
  Qed.

  Lemma near_keeps m c num ex : ginv m -> harmless Info m c num ex ->
    exists x m', GetGatewaysNearCID Info m (Some c) num ex = Ret (x, m') /\ ginv m' /\ gmap m' = gmap m.
  Proof.
    intros I H. rewrite near_eq by apply I. destruct (closest_keeps _ _ _ _ I H) as (a & r & -> & I'). cbn [obind fst snd].
    do 2 eexists. split; [reflexivity|]. auto.
  Qed.

  Lemma near_ginv m c num ex x m' : ginv m -> harmless Info m c num ex ->
    GetGatewaysNearCID Info m (Some c) num ex = Ret (x, m') -> ginv m'.
  Proof. intros I H E. destruct (near_keeps _ _ _ _ I H) as (x' & m1 & E' & I' & _). congruence. Qed.

  Lemma registrations_ok (m : list (gostring * Info)) ids : (forall v, In v ids -> exists i, get m v = Some i) ->
    exists res, registrations_of Info m ids = OkR res /\ map fst res = ids /\ forall id i, In (id, i) res -> get m id = Some i.
  Proof.
    induction ids as [|v ids IH]; intros H; cbn [registrations_of].
    - exists []. split; [reflexivity|]. split; [reflexivity|]. intros id i [].
    - destruct (H v (or_introl eq_refl)) as [g G]. rewrite G. destruct IH as (res & -> & F & M); [intros u U; apply H; right; exact U|].
      exists ((v, g) :: res). split; [reflexivity|]. split; [cbn [map fst]; congruence|].
      intros id i [E|E]; [injection E as <- <-; exact G|apply M, E].
  Qed.

  Lemma rotation_in {A} (a b : list A) x : rotation a b -> In x b -> In x a.
  Proof. intros (u & v & -> & ->). rewrite !in_app_iff. tauto. Qed.

  Lemma without_in x l v : In v (without x l) -> In v l.
  Proof. unfold without. rewrite filter_In. tauto. Qed.

  Lemma closest_in members p n ids v : closest_ok members p n ids -> In v ids -> In v members.
  Proof. intros (_ & others & R & _) H. eapply rotation_in; [exact R|]. apply in_or_app. auto. Qed.

  Lemma near_ok m c num members : ginv m -> length c = 32%nat -> knows Info m members ->
    1 <= num -> Z.min num 16 <= Z.of_nat (length members) ->
    exists res m', GetGatewaysNearCID Info m (Some c) num None = Ret (OkR res, m') /\
      nearest Info m members (ToString c) (Z.min num 16) res.
  Proof.
    intros I H K N L. rewrite (knows_eq _ _ I K) in *. rewrite near_eq by apply I. cbn [excluded].
    assert (M : (if 16 <? num then 16 else num) = Z.min num 16) by (destruct (16 <? num) eqn:E; lia). rewrite M.
    pose proof (to_canonical c H) as C.
    destruct (closest_nearest _ (ToString c) (Z.min num 16) (g_healthy _ I) (canonical_point _ C)
      (spelled_canonical _ _ I C)) as (ids & r & -> & Ok); [lia|]. cbn [obind fst snd].
    destruct (registrations_ok (gmap m) ids) as (res & R & F & G).
    { intros v V. apply (g_ring _ I). eapply closest_in; eauto. }
    rewrite R. do 2 eexists. split; [reflexivity|]. unfold nearest. rewrite F. auto.
  Qed.

  Lemma near_ok_excluding m c num n members : ginv m -> harmless Info m c num (Some n) -> knows Info m members ->
    length members <> 1%nat -> 1 <= num -> Z.min num 16 <= Z.of_nat (length (without (ToString n) members)) ->
    exists res m', GetGatewaysNearCID Info m (Some c) num (Some n) = Ret (OkR res, m') /\
      nearest Info m (without (ToString n) members) (ToString c) (Z.min num 16) res /\ ~ In (ToString n) (map fst res).
  Proof.
    intros I H K O N L. rewrite (knows_eq _ _ I K) in *. rewrite near_eq by apply I. cbn [excluded].
    assert (M : (if 16 <? num then 16 else num) = Z.min num 16) by (destruct (16 <? num) eqn:E; lia). rewrite M.
    destruct H as (L32 & Ln & _ & U). pose proof (to_canonical c L32) as C. destruct (U _ (ginv_knows _ I)) as [U1 U2]. cbn [excluded] in U1, U2.
    destruct (closest_excluding _ (ToString c) (Z.min num 16) (ToString n) (g_healthy _ I) (canonical_point _ C)
      (canonical_point _ (to_canonical n (Ln _ eq_refl))) (spelled_canonical _ _ I C) U2 O (or_introl U1)) as (ids & r & -> & Ok & X); [lia|].
    cbn [obind fst snd].
    destruct (registrations_ok (gmap m) ids) as (res & R & F & G).
    { intros v V. apply (g_ring _ I). eapply without_in, closest_in; eauto. }
    rewrite R. do 2 eexists. split; [reflexivity|]. unfold nearest. rewrite F. auto.
  Qed.

  (** Fewer gateways than asked for: all of them, but the smallest one unless it is the point. *)
  Lemma near_few m c num v t : ginv m -> length c = 32%nat -> knows Info m (v :: t) ->
    Z.of_nat (length (v :: t)) < Z.min num 16 ->
    exists res m', GetGatewaysNearCID Info m (Some c) num None = Ret (OkR res, m') /\
      map fst res = (if bytes_eqb v (ToString c) then v :: t else t) /\
      forall id i, In (id, i) res -> get (gmap m) id = Some i.
  Proof.
    intros I H K L. assert (E : entries (closest Info m) = v :: t) by (symmetry; apply knows_eq; assumption).
    rewrite near_eq by apply I. cbn [excluded].
    assert (M : (if 16 <? num then 16 else num) = Z.min num 16) by (destruct (16 <? num) eqn:B; lia). rewrite M.
    pose proof (to_canonical c H) as C.
    destruct (closest_too_many _ (ToString c) (Z.min num 16) v t (g_healthy _ I) (canonical_point _ C) E) as (r & -> & _); [rewrite E; exact L|].
    cbn [obind fst snd].
    destruct (registrations_ok (gmap m) (if bytes_eqb v (ToString c) then v :: t else t)) as (res & R & F & G).
    { intros u U. apply (g_ring _ I). rewrite E. destruct (bytes_eqb v (ToString c)); [exact U|right; exact U]. }
    rewrite R. do 2 eexists. split; [reflexivity|]. auto.
  Qed.

  (** ** The range of a gateway *)
  Lemma range_eq m g : length g = 32%nat -> gatewayDiscv Info m = true ->
    GetGatewayCIDRange Info m (Some g) =
    let* q := GetGatewaysNearCID Info m (Some g) 16 (Some g) in
    Ret (match fst q with
         | OkR (f :: ((s :: t) as rest)) =>
             match NewNodeIDFromHexString (fst f), NewNodeIDFromHexString (fst (last rest f)) with
             | OkR lo, OkR hi => OkR (lo, hi)
             | _, _ => ErrR
             end
         | _ => ErrR
         end, snd q).
  Proof.
    intros L D. unfold GetGatewayCIDRange. cbn [deref obind RLock]. rewrite (proj1 (id_hex_roundtrip_pf g L)).
    rewrite !near_eq by exact D. cbn [with_locks closest gatewaysMap].
    destruct (GetClosest _ _ _ _) as [[a r]| |]; cbn [obind fst snd]; [|reflexivity..].
    cbn [with_ring with_locks closestLock RUnlock obind]. f_equal. f_equal. destruct m; reflexivity.
  Qed.

  Lemma range_ginv m g x m' : ginv m -> harmless Info m g 16 (Some g) -> GetGatewayCIDRange Info m (Some g) = Ret (x, m') -> ginv m'.
  Proof.
    intros I H. rewrite range_eq; [|exact (proj1 H)|apply I]. destruct (near_keeps _ _ _ _ I H) as (y & m1 & -> & I' & _). cbn [obind fst snd].
    intros E. assert (m' = m1) by congruence. subst. exact I'.
  Qed.

  Lemma managed_ginv m : managed Info m -> ginv m.
  Proof.
    induction 1; eauto using start_ginv, refresh_ginv, gateway_ginv, provider_ginv, near_ginv, range_ginv.
  Qed.

  Lemma last_in {A} (l : list A) d x : In (last (x :: l) d) (x :: l).
  Proof. revert x. induction l as [|y l IH]; intros x; [left; reflexivity|]. right. apply (IH y). Qed.

  Lemma range_ok_pf m g members : managed Info m -> harmless Info m g 16 (Some g) -> knows Info m members ->
    length members <> 1%nat -> 16 <= Z.of_nat (length (without (ToString g) members)) ->
    exists lo hi mid m', GetGatewayCIDRange Info m (Some g) = Ret (OkR (lo, hi), m') /\
      length lo = 32%nat /\ length hi = 32%nat /\
      closest_ok (without (ToString g) members) (ToString g) 16 (ToString lo :: mid ++ [ToString hi]).
  Proof.
    intros R H K O L. apply managed_ginv in R.
    destruct (near_ok_excluding m g 16 g members R H K O) as (res & m' & E & [N G] & _); [lia|exact L|].
    rewrite range_eq, E; [|exact (proj1 H)|apply R]. cbn [obind fst snd].
    assert (Len : length res = 16%nat) by (destruct N as [N _]; rewrite map_length in N; lia).
    assert (C : forall id i, In (id, i) res -> canonical id) by (intros id i X; eapply R; apply G; exact X).
    assert (W : exists f s t z, res = f :: s :: t ++ [z]).
    { destruct res as [|f [|s res]]; try discriminate. destruct res as [|a res] using rev_ind; [discriminate|]. exists f, s, res, a. reflexivity. }
    destruct W as (f & s & t & z & ->).
    assert (La : last (s :: t ++ [z]) f = z) by (change (s :: t ++ [z]) with ((s :: t) ++ [z]); apply last_last).
    rewrite La. destruct f as [fi ff], z as [zi zf]. cbn [fst].
    destruct (C fi ff (or_introl eq_refl)) as (lo & Ll & ->).
    destruct (C zi zf) as (hi & Lh & ->); [right; right; apply in_or_app; right; left; reflexivity|].
    rewrite (proj1 (id_hex_roundtrip_pf lo Ll)), (proj1 (id_hex_roundtrip_pf hi Lh)).
    exists lo, hi, (map fst (s :: t)), m'. split; [reflexivity|]. split; [exact Ll|]. split; [exact Lh|].
    cbn [map fst] in N. rewrite map_app in N. cbn [map fst app] in *. exact N.
  Qed.

  (** ** Locks *)
  Definition locks (m : manager) : lock * lock * lock := (gatewaysLock Info m, closestLock Info m, providersLock Info m).

  Lemma refresh_locks m ga pa m' : Refresh Info m ga pa = Ret m' -> locks m' = locks m.
  Proof.
    unfold Refresh. destruct (negb (start Info m)); [congruence|]. unfold updateGateways, updateProviders.
    assert (W : forall m1, locks m1 = locks m ->
      (if negb (start Info m1) || negb (providerDiscv Info m1) then Ret m1 else let* l := pulled Info pa in add_providers Info m1 l) = Ret m' ->
      locks m' = locks m).
    { intros m1 E. destruct (_ || _); [congruence|]. destruct (pulled Info pa); try discriminate. cbn [obind]. intros H.
      apply add_providers_map in H. destruct H as [(_ & _ & _ & A & B & C & _) _]. rewrite <- E. unfold locks. congruence. }
    destruct (negb (start Info m) || negb (gatewayDiscv Info m)); [cbn [obind]; apply W; reflexivity|].
    destruct (pulled Info ga) as [gl| |]; try discriminate. cbn [obind]. destruct (add_gateways Info m gl) as [m1| |] eqn:A; try discriminate. cbn [obind].
    apply W. apply add_gateways_map in A. destruct A as [(_ & _ & _ & A & B & C & _) _]. unfold locks. congruence.
  Qed.

  Lemma gateway_locks m id ga pa x m' : GetGateway Info m id ga pa = Ret (x, m') -> locks m' = locks m.
  Proof.
    destruct (start Info m) eqn:S; [destruct (gatewayDiscv Info m) eqn:D|]; [|unfold GetGateway; rewrite S, ?D; cbn [negb orb]; congruence..].
    destruct id as [i|]; [|unfold GetGateway; rewrite S, D; discriminate]. rewrite get_gateway_eq by assumption.
    destruct (get _ _); [congruence|]. destruct (Refresh Info m ga pa) eqn:R; try discriminate. cbn [obind].
    intros H. assert (a = m') by congruence. subst. eapply refresh_locks; eauto.
  Qed.

  Lemma near_locks m c num ex x m' : GetGatewaysNearCID Info m c num ex = Ret (x, m') -> locks m' = locks m.
  Proof.
    unfold GetGatewaysNearCID. destruct c as [c|]; [|discriminate]. cbn [deref obind RLock RUnlock].
    destruct (negb _); [discriminate|]. destruct (GetClosest _ _ _ _) as [q| |]; try discriminate. cbn [obind].
    intros H. match type of H with Ret (_, ?y) = _ => assert (m' = y) by congruence; subst m' end. reflexivity.
  Qed.

  Lemma range_locks m g x m' : GetGatewayCIDRange Info m g = Ret (x, m') -> locks m' = locks m.
  Proof.
    unfold GetGatewayCIDRange. destruct g as [g|]; [|discriminate]. cbn [deref obind RLock].
    destruct (NewNodeIDFromHexString (ToString g)) as [c|].
    - match goal with |- context [GetGatewaysNearCID Info ?m0 ?a ?b ?e] => destruct (GetGatewaysNearCID Info m0 a b e) as [[y m1]| |] eqn:N; try discriminate end.
      apply near_locks in N. cbn [obind snd fst]. unfold locks in N. cbn [with_locks gatewaysLock closestLock providersLock] in N.
      injection N as N1 N2 N3. rewrite N2. cbn [RLock RUnlock obind]. intros H.
      match type of H with Ret (_, ?z) = _ => assert (m' = z) by congruence; subst m' end.
      unfold locks. cbn [with_locks gatewaysLock closestLock providersLock]. congruence.
    - cbn [RLock RUnlock obind]. intros H. match type of H with Ret (_, ?z) = _ => assert (m' = z) by congruence; subst m' end. reflexivity.
  Qed.

  Lemma all_locks order m x m' : GetAllGateways Info order m = Ret (x, m') \/ GetAllProviders Info order m = Ret (x, m') -> locks m' = locks m.
  Proof.
    unfold GetAllGateways, GetAllProviders. intros [H|H]; destruct (_ || _) in H; try congruence; cbn [RLock RUnlock obind] in H;
      match type of H with Ret (_, ?z) = _ => assert (m' = z) by congruence; subst m' end; reflexivity.
  Qed.

  Lemma provider_locks m id p m' : GetProvider Info m id = Ret (Some p, m') -> locks m' = locks m.
  Proof.
    unfold GetProvider. destruct (_ || _); [congruence|]. destruct id as [i|]; [|discriminate]. cbn [deref obind RLock RUnlock].
    destruct (get _ _); cbn [obind]; intros H; [|discriminate]. match type of H with Ret (_, ?z) = _ => assert (m' = z) by congruence; subst m' end. reflexivity.
  Qed.

  Lemma provider_missing_pf m i : start Info m = true -> providerDiscv Info m = true -> get (providersMap Info m) (ToString i) = None ->
    exists m', GetProvider Info m (Some i) = Ret (None, m') /\
      forall ga e l m'', Refresh Info m' ga (listing Info (e :: l)) <> Ret m''.
  Proof.
    intros S P N. unfold GetProvider. rewrite S, P. cbn [negb orb deref obind RLock RUnlock]. rewrite N. cbn [obind].
    eexists. split; [reflexivity|]. intros ga [id info] l m''. unfold Refresh, updateProviders. cbn [with_locks start]. rewrite S. cbn [negb].
    match goal with |- context [updateGateways Info ?m0 ga] => destruct (updateGateways Info m0 ga) as [m1| |] eqn:U; try discriminate end.
    cbn [obind].
    assert (X : start Info m1 = true /\ providerDiscv Info m1 = true /\ providersLock Info m1 = Datatypes.S (providersLock Info m)).
    { unfold updateGateways in U. destruct (_ || _) in U.
      - injection U as <-. cbn [with_locks start providerDiscv providersLock]. auto.
      - destruct (pulled Info ga); try discriminate. cbn [obind] in U. apply add_gateways_map in U.
        destruct U as [(A & _ & B & _ & _ & C & _) _]. cbn [with_locks start providerDiscv providersLock] in *. rewrite A, B, C. auto. }
    destruct X as (X1 & X2 & X3). rewrite X1, X2. cbn [negb orb]. rewrite pulled_listing. cbn [obind add_providers]. rewrite X3. discriminate.
  Qed.
End proofs.
