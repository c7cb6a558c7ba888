(** Refused additions and batch publication. *)
From Coq Require Import List ZArith Bool Lia Sorting.Permutation.
From Coq Require Import Init.Byte.
From Verif Require Import Base BaseProofs Ids Crypto Offer OfferProofs WireSpec Ring RingSpec RingFacts
  OfferStore OfferStoreSpec OfferStoreProofs OfferStoreHist.
Import ListNotations.
Open Scope Z_scope.
Open Scope go_scope.

Section facts.
  Variable sha : bytes -> bytes.

  Lemma refused_same now h s p s' : store_add sha now h s p = Ret (ErrR, s') -> s' = s.
  Proof.
    unfold store_add. destruct (cell h p) as [o| |]; cbn [obind]; try discriminate.
    destruct (o_cids o) as [|c cs]; [congruence|]. destruct (GetMessageDigest sha o); cbn [obind]; try discriminate.
    destruct (known _ _ _); [discriminate|]. destruct (HasExpired _ _); [congruence|discriminate].
  Qed.

  Lemma refused_minv hist h m now x o s' : minv sha hist h m -> allowed sha hist (h, m) now x -> added_offer x = Some o ->
    store_step sha (h, m) now x = Ret (s', RAdd ErrR) -> minv sha hist (fst s') (snd s').
  Proof.
    intros I A X E.
    assert (HG : forall o n, (forall t y, In (t, y) hist -> t <= n) -> sinv sha n (h ++ [o]) (group_offer hist) (groupOffers m)).
    { intros o1 n H. apply (sinv_later sha n n); [lia|]. apply (mi_group _ _ _ _ I), H. }
    assert (HD : forall o n, (forall t y, In (t, y) hist -> t <= n) -> sinv sha n (h ++ [o]) (single_offer hist) (dhtOffers m)).
    { intros o1 n H. apply (sinv_later sha n n); [lia|]. apply (mi_dht _ _ _ _ I), H. }
    destruct x as [o1|o1|c f|c f|c f g|lo hi max f|d f g]; try discriminate; cbn [store_step] in E.
    - unfold AddGroupOffer in E. rewrite cell_last in E. cbn [obind] in E. destruct (Nat.leb _ 1).
      + cbn [obind fst snd] in E. injection E as <-. cbn [fst snd]. destruct I; split; cbn [fst snd groupOffers dhtOffers dhtOfferRing]; auto.
      + destruct (store_add sha now (h ++ [o1]) (groupOffers m) (length h)) as [[r s2]| |] eqn:Es; try discriminate.
        cbn [obind fst snd] in E. injection E as <- ->. apply refused_same in Es. subst s2. destruct I; split; cbn [fst snd groupOffers dhtOffers dhtOfferRing]; auto.
    - unfold AddDHTOffer in E. rewrite cell_last in E. cbn [obind] in E.
      destruct (o_cids o1) as [|c [|c2 cs]] eqn:Ec.
      + cbn [obind fst snd] in E. injection E as <-. cbn [fst snd]. destruct I; split; cbn [fst snd groupOffers dhtOffers dhtOfferRing]; auto.
      + destruct (insert_ok (dhtOfferRing m) (ToString c) (mi_ring _ _ _ _ I)) as (r' & Ei & Hr & _ & _ & Hv).
        rewrite Ei in E. cbn [obind] in E.
        destruct (store_add sha now (h ++ [o1]) (dhtOffers m) (length h)) as [[r s2]| |] eqn:Es; try discriminate.
        cbn [obind fst snd] in E. injection E as <- ->. apply refused_same in Es. subst s2.
        assert (C32 : id32 c).
        { destruct A as [_ [((_ & F & _) & _) _]]. rewrite Ec in F. inversion F; assumption. }
        split; cbn [fst snd groupOffers dhtOffers dhtOfferRing]; auto; try apply (mi_clash _ _ _ _ I); try apply (mi_storable _ _ _ _ I).
        * intros e Ie. apply Hv in Ie. destruct Ie as [Ie|(-> & _)]; [apply (mi_points _ _ _ _ I), Ie|eauto].
        * intros t o2 c2 J E2. apply Hv. left. eapply mi_added; eauto.
      + cbn [obind fst snd] in E. injection E as <-. cbn [fst snd]. destruct I; split; cbn [fst snd groupOffers dhtOffers dhtOfferRing]; auto.
  Qed.

  Lemma refused_pf hist s now x o s' t q : reaches sha hist s -> allowed sha hist s now x -> added_offer x = Some o ->
    store_step sha s now x = Ret (s', RAdd ErrR) -> allowed sha hist s' t q ->
    exists s'' a, store_step sha s' t q = Ret (s'', a) /\ answer sha hist t q a.
  Proof.
    intros R A X E Q. apply reaches_minv in R. destruct s as [h m]. cbn [fst snd] in R.
    assert (I := refused_minv hist h m now x o s' R A X E). destruct s' as [h' m']. cbn [fst snd] in I.
    destruct (step_spec sha hist h' m' t q I Q) as (h2 & m2 & a & E2 & _ & An). eauto.
  Qed.

  (** ** Publication *)
  Lemma set_last h (o o' : offer) : set_nth (h ++ [o']) (length h) o = h ++ [o].
  Proof. induction h as [|y h IH]; [reflexivity|]. cbn [app length set_nth]. rewrite IH. reflexivity. Qed.

  Lemma publish_one_pf hist h m now o : reaches sha hist (h, m) -> allowed sha hist (h, m) now (AddDHT o) ->
    exists h' m', publish_offers sha now h m [o] = Ret (h', m') /\ reaches sha (hist ++ [(now, AddDHT o)]) (h', m').
  Proof.
    intros R A. destruct (history_pf sha hist (h, m) now (AddDHT o) R A) as ([h' m'] & a & E & _).
    pose proof (reaches_step sha hist (h, m) now (AddDHT o) (h', m') a R A E) as R'.
    cbn [store_step] in E. unfold publish_offers, publish_loop. rewrite set_last.
    destruct (AddDHTOffer sha now (h ++ [o]) m (length h)) as [[r m2]| |]; try discriminate. cbn [obind fst snd] in *.
    injection E as <- <- _. exists (h ++ [o]), m2. auto.
  Qed.

  Lemma put_ptr d p : forall cids s, maps_ok s -> (forall k d' p', lookup s k d' = Some p' -> p' = p) ->
    maps_ok (put s cids d p) /\ forall k d' p', lookup (put s cids d p) k d' = Some p' -> p' = p.
  Proof.
    intros cids s M H. destruct (put_lookup d p cids s M) as (A & _ & C). split; [exact A|].
    intros k d' p'. rewrite C. destruct (_ && _); [congruence|apply H].
  Qed.

  Lemma publish_loop_ptr now p : forall os h m h' m', publish_loop sha now h m p os = Ret (h', m') -> (p < length h)%nat ->
    maps_ok (dhtOffers m) -> (forall k d p', lookup (dhtOffers m) k d = Some p' -> p' = p) ->
    maps_ok (dhtOffers m') /\ (forall k d p', lookup (dhtOffers m') k d = Some p' -> p' = p) /\
    (os <> [] -> nth_error h' p = Some (last os (Offer None [] 0 0 0 [] [] (Merkle.Tree [] [])))).
  Proof.
    induction os as [|o os IH]; intros h m h' m' E L M H; cbn [publish_loop] in E.
    - injection E as <- <-. repeat split; auto; try apply M. congruence.
    - assert (L' : (p < length (set_nth h p o))%nat) by (rewrite set_nth_length; exact L).
      assert (N : nth_error (set_nth h p o) p = Some o) by (apply nth_error_set_eq, L).
      destruct (AddDHTOffer sha now (set_nth h p o) m p) as [[r m1]| |] eqn:Ea; try discriminate. cbn [obind snd] in E.
      assert (Q : maps_ok (dhtOffers m1) /\ (forall k d p', lookup (dhtOffers m1) k d = Some p' -> p' = p)).
      { unfold AddDHTOffer, cell, deref in Ea. rewrite N in Ea. cbn [obind] in Ea.
        destruct (o_cids o) as [|c [|c2 cs]] eqn:Ec; try (injection Ea as <- <-; auto).
        destruct (Insert _ _); try discriminate. cbn [obind] in Ea.
        unfold store_add, cell, deref in Ea. rewrite N in Ea. cbn [obind] in Ea. rewrite Ec in Ea.
        destruct (GetMessageDigest sha o) as [d| |]; try discriminate. cbn [obind] in Ea.
        destruct (known _ _ _); [cbn [obind fst snd] in Ea; injection Ea as <- <-; auto|].
        destruct (HasExpired _ _); cbn [obind fst snd] in Ea; injection Ea as <- <-; cbn [dhtOffers]; auto.
        apply (put_ptr d p [c]); assumption. }
      destruct (IH _ _ _ _ E L' (proj1 Q) (proj2 Q)) as (A & B & C). split; [exact A|]. split; [exact B|]. intros _.
      destruct os as [|o2 os].
      + cbn [publish_loop] in E. injection E as <- <-. exact N.
      + apply C. discriminate.
  Qed.

  Lemma load_all_ptr (h : list offer) p o : nth_error h p = Some o -> forall (m : digest_map) os, (forall d p', In (d, p') m -> p' = p) ->
    load_offers h m = Ret os -> forall x, In x os -> x = o.
  Proof.
    intros N. induction m as [|[d p'] m IH]; intros os H E; cbn [load_offers] in E.
    - injection E as <-. intros x [].
    - rewrite (H d p' (or_introl eq_refl)) in E. unfold cell, deref in E. rewrite N in E. cbn [obind] in E.
      destruct (load_offers h m) as [l| |]; try discriminate. cbn [obind] in E. injection E as <-.
      intros x [<-|I]; [reflexivity|]. apply (IH l); auto. intros d0 p0 I0. eapply H. right. exact I0.
  Qed.

  Lemma publish_last_pf now os h m order t c res s' x o : shuffle order ->
    publish_offers sha now [] NewFCROfferMgr (os ++ [o]) = Ret (h, m) ->
    store_get sha order t h (dhtOffers m) c = Ret (res, s') -> In x res -> x = o.
  Proof.
    intros Sh E G I. unfold publish_offers in E.
    assert (NE : os ++ [o] <> []) by (destruct os; discriminate).
    set (l := os ++ [o]) in *. destruct l as [|o1 l'] eqn:El; [congruence|]. rewrite <- El in *.
    destruct (publish_loop_ptr now 0 _ _ _ _ _ E) as (M & P & Lst); [cbn; lia| | |].
    - split; [constructor|]. intros k mm X. discriminate.
    - intros k d p X. discriminate.
    - specialize (Lst NE). subst l. rewrite last_last in Lst.
      unfold store_get in G. destruct (aget bytes_eqb (dhtOffers m) (ToString c)) as [mm|] eqn:Em; [|injection G as <- <-; destruct I].
      destruct (load_offers h (order mm)) as [os'| |] eqn:Elo; try discriminate. cbn [obind] in G.
      destruct (purge _ _ _); try discriminate. cbn [obind] in G. injection G as <- <-. apply filter_In in I. destruct I as [I _].
      apply (load_all_ptr h 0%nat o Lst (order mm) os'); auto.
      intros d p J. assert (J' : In (d, p) mm) by (eapply Permutation_in; [symmetry; apply Sh|exact J]).
      apply (P (ToString c) d p). unfold lookup. rewrite Em. apply (In_aget bytes_eqb bytes_eqb_eq); [apply (proj2 M _ _ Em)|exact J'].
  Qed.
End facts.
