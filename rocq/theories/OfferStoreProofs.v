(** Lemmas about [OfferStore.v]. *)
From Coq Require Import List ZArith Bool Lia ZifyBool ZifyNat Sorting.Permutation Sorting.Sorted.
From Coq Require Import Init.Byte.
From Verif Require Import Base BaseProofs Ids IdsProofs Crypto CryptoProofs Offer OfferProofs WireSpec Ring RingSpec RingFacts
  OfferStore OfferStoreSpec.
Import ListNotations.
Open Scope Z_scope.
Open Scope go_scope.

(** ** Lookups *)
Definition lookup (s : storage) (k : gostring) (d : bytes) : option nat :=
  match aget bytes_eqb s k with Some m => aget bytes_eqb m d | None => None end.
Definition has_key (s : storage) (k : gostring) : Prop := aget bytes_eqb s k <> None.
Definition maps_ok (s : storage) : Prop :=
  NoDup (map fst s) /\ forall k m, aget bytes_eqb s k = Some m -> NoDup (map fst m).

Notation aget_aset' := (aget_aset bytes_eqb bytes_eqb_eq).
Notation aget_adel' := (aget_adel bytes_eqb bytes_eqb_eq).

Lemma known_lookup s k d : known s k d = match lookup s k d with Some _ => true | None => false end.
Proof. unfold known, lookup. destruct (aget bytes_eqb s k); reflexivity. Qed.

Lemma upd_maps_ok s k m : maps_ok s -> NoDup (map fst m) -> maps_ok (aset bytes_eqb s k m).
Proof.
  intros [A B] N. split; [apply (aset_NoDup bytes_eqb bytes_eqb_eq), A|].
  intros k' m'. rewrite aget_aset'. destruct (bytes_eqb k' k); [intros [= <-]; exact N|apply B].
Qed.

Lemma bytes_eqb_refl' k : bytes_eqb k k = true.
Proof. apply bytes_eqb_eq. reflexivity. Qed.

Lemma put_lookup d p cids : forall s, maps_ok s ->
  maps_ok (put s cids d p) /\
  (forall k, has_key (put s cids d p) k <-> has_key s k \/ In k (map ToString cids)) /\
  (forall k d', lookup (put s cids d p) k d' =
     if existsb (bytes_eqb k) (map ToString cids) && bytes_eqb d' d then Some p else lookup s k d').
Proof.
  induction cids as [|c cids IH]; intros s M.
  - cbn [put map existsb andb]. repeat split; try apply M; auto. intros [H|[]]; exact H.
  - cbn [put]. set (m := match aget bytes_eqb s (ToString c) with Some m => m | None => [] end).
    assert (Nm : NoDup (map fst m)).
    { subst m. destruct (aget bytes_eqb s (ToString c)) as [m|] eqn:E; [apply (proj2 M _ _ E)|constructor]. }
    assert (M' := upd_maps_ok s (ToString c) _ M (aset_NoDup bytes_eqb bytes_eqb_eq m d p Nm)).
    destruct (IH _ M') as (A & B & C). split; [exact A|]. split.
    + intros k. rewrite B. unfold has_key. rewrite aget_aset'. cbn [map In].
      destruct (bytes_eqb k (ToString c)) eqn:E.
      * apply bytes_eqb_eq in E. subst k. split; [auto|]. intros _. left. discriminate.
      * apply bytes_eqb_neq in E. split; [intros [H|H]; auto|]. intros [H|[H|H]]; [auto|congruence|auto].
    + intros k d'. rewrite C. unfold lookup at 1. rewrite aget_aset'. cbn [map existsb].
      destruct (bytes_eqb k (ToString c)) eqn:E.
      * apply bytes_eqb_eq in E. subst k. cbn [orb]. rewrite aget_aset'.
        destruct (bytes_eqb d' d) eqn:D; rewrite ?andb_true_r, ?andb_false_r.
        -- destruct (existsb _ _); reflexivity.
        -- unfold lookup, m. destruct (aget bytes_eqb s (ToString c)); reflexivity.
      * cbn [orb]. destruct (existsb _ _ && _); reflexivity.
Qed.

Lemma forget_lookup d cids : forall s, maps_ok s -> (forall c, In c cids -> has_key s (ToString c)) ->
  exists s', forget s cids d = Ret s' /\ maps_ok s' /\
  (forall k, has_key s' k <-> has_key s k) /\
  (forall k d', lookup s' k d' =
     if existsb (bytes_eqb k) (map ToString cids) && bytes_eqb d' d then None else lookup s k d').
Proof.
  induction cids as [|c cids IH]; intros s M K.
  - exists s. cbn [forget map existsb andb]. repeat split; try apply M; auto.
  - cbn [forget]. assert (Kc := K c (or_introl eq_refl)). unfold has_key in Kc.
    destruct (aget bytes_eqb s (ToString c)) as [m|] eqn:Em; [|congruence].
    assert (Nm := proj2 M _ _ Em).
    assert (M' := upd_maps_ok s (ToString c) _ M (adel_NoDup bytes_eqb m d Nm)).
    assert (HK : forall k, has_key (aset bytes_eqb s (ToString c) (adel bytes_eqb m d)) k <-> has_key s k).
    { intros k. unfold has_key. rewrite aget_aset'. destruct (bytes_eqb k (ToString c)) eqn:E; [|reflexivity].
      apply bytes_eqb_eq in E. subst k. rewrite Em. split; discriminate. }
    destruct (IH _ M') as (s' & E & A & B & C).
    { intros c' I. apply HK, K. right. exact I. }
    exists s'. split; [exact E|]. split; [exact A|]. split; [intros k; rewrite B; apply HK|].
    intros k d'. rewrite C. unfold lookup at 1. rewrite aget_aset'. cbn [map existsb].
    destruct (bytes_eqb k (ToString c)) eqn:Ek.
    + apply bytes_eqb_eq in Ek. subst k. cbn [orb]. rewrite aget_adel' by exact Nm.
      destruct (bytes_eqb d' d) eqn:D; rewrite ?andb_true_r, ?andb_false_r.
      * destruct (existsb _ _); reflexivity.
      * unfold lookup. rewrite Em. reflexivity.
    + cbn [orb]. destruct (existsb _ _ && _); reflexivity.
Qed.

Lemma existsb_In k l : existsb (bytes_eqb k) l = true <-> In k l.
Proof.
  rewrite existsb_exists. split.
  - intros (x & I & E). apply bytes_eqb_eq in E. subst x. exact I.
  - intros I. exists k. split; [exact I|apply bytes_eqb_refl'].
Qed.

(** ** Identifiers as keys *)
Lemma ToString_inj c c' : id32 c -> id32 c' -> ToString c = ToString c' -> c = c'.
Proof. intros H H' E. destruct (id_hex_roundtrip_pf c H) as (_ & _ & _ & I). symmetry. apply I; [exact H'|congruence]. Qed.

Lemma ToString_point c : id32 c -> is_point (ToString c).
Proof.
  intros H. destruct (id_hex_roundtrip_pf c H) as (E & L & F & _). split; [exact L|].
  rewrite ToString_32 by exact H. assert (D : exists b, hex_decode (hex_encode c) = Some b) by (exists c; apply hex_decode_encode).
  apply hex_decode_iff in D. apply is_hex_digits. exact (proj2 D).
Qed.

Lemma ToString_val c : id32 c -> hex_val (ToString c) = be_val c.
Proof.
  intros H. destruct (id_hex_roundtrip_pf c H) as (E & L & F & _).
  destruct (id_from_hex_pf (ToString c)) as [A _].
  destruct A as (i & Ei & _ & V).
  - rewrite L. split; [reflexivity|]. split; [lia|]. apply (ToString_point c H).
  - rewrite E in Ei. injection Ei as <-. symmetry. exact V.
Qed.

(** ** Digests and expiry *)
Lemma expired_live o now : storable o -> HasExpired (o_expiry o) now = true <-> ~ live now o.
Proof.
  intros ((_ & _ & _ & X & _) & L). unfold int64 in X. rewrite expired_pf by lia. unfold live. lia.
Qed.
Lemma expired_live' o now : storable o -> HasExpired (o_expiry o) now = false <-> live now o.
Proof.
  intros S. pose proof (expired_live o now S) as H. destruct (HasExpired (o_expiry o) now).
  - split; [discriminate|]. intros L. exfalso. apply (proj1 H); auto.
  - split; [|reflexivity]. intros _. unfold live in *. destruct (Z.le_gt_cases now (o_expiry o * 1000000000)); [assumption|].
    exfalso. assert (F : false = true) by (apply H; lia). discriminate.
Qed.

Lemma same_terms_refl o : same_terms o o.
Proof. repeat split. Qed.
Lemma same_terms_sym o o' : same_terms o o' -> same_terms o' o.
Proof. unfold same_terms. intuition congruence. Qed.
Lemma same_terms_trans o o' o'' : same_terms o o' -> same_terms o' o'' -> same_terms o o''.
Proof. unfold same_terms. intuition congruence. Qed.
Lemma same_terms_dec o o' : same_terms o o' \/ ~ same_terms o o'.
Proof.
  assert (LB : forall a b : list bytes, a = b \/ a <> b).
  { intros a b. destruct (list_eq_dec (fun x y => match bytes_eqb x y as r return bytes_eqb x y = r -> {x = y} + {x <> y} with
      | true => fun e => left (proj1 (bytes_eqb_eq x y) e) | false => fun e => right (proj1 (bytes_eqb_neq x y) e) end eq_refl) a b); auto. }
  assert (OB : forall a b : option bytes, a = b \/ a <> b).
  { intros [a|] [b|]; try (right; congruence); [|auto]. destruct (bytes_eqb a b) eqn:E.
    - apply bytes_eqb_eq in E. left. congruence.
    - apply bytes_eqb_neq in E. right. congruence. }
  unfold same_terms.
  destruct (OB (o_provider o) (o_provider o')); [|right; tauto].
  destruct (LB (o_cids o) (o_cids o')); [|right; tauto].
  destruct (Z.eq_dec (o_price o) (o_price o')); [|right; tauto].
  destruct (Z.eq_dec (o_expiry o) (o_expiry o')); [|right; tauto].
  destruct (Z.eq_dec (o_qos o) (o_qos o')); [|right; tauto].
  left. tauto.
Qed.
Lemma same_terms_live o o' now : same_terms o o' -> live now o -> live now o'.
Proof. unfold same_terms, live. intros (_ & _ & _ & E & _). rewrite E. auto. Qed.

Section store.
  Variable sha : bytes -> bytes.
  Definition dig (o : offer) : bytes := sha (digest_input o).

  Lemma digest_dig o : well_formed o -> GetMessageDigest sha o = Ret (dig o).
  Proof. intros ((p & P & _) & _). unfold GetMessageDigest, dig, digest_input. rewrite P. reflexivity. Qed.

  Lemma dig_terms o o' : same_terms o o' -> dig o = dig o'.
  Proof. intros (A & B & C & D & E). unfold dig, digest_input. congruence. Qed.

  Lemma purge_lookup : forall os s, maps_ok s -> Forall storable os ->
    (forall o c, In o os -> In c (o_cids o) -> has_key s (ToString c)) ->
    exists s', purge sha s os = Ret s' /\ maps_ok s' /\
    (forall k, has_key s' k <-> has_key s k) /\
    (forall k d p, lookup s' k d = Some p <->
       lookup s k d = Some p /\ ~ (exists o, In o os /\ d = dig o /\ In k (map ToString (o_cids o)))).
  Proof.
    induction os as [|o os IH]; intros s M W K.
    - exists s. cbn [purge]. repeat split; try apply M; auto; [intros (o & [] & _)|tauto].
    - inversion W as [|? ? Wo W']; subst. cbn [purge]. rewrite digest_dig by apply Wo. cbn [obind].
      destruct (forget_lookup (dig o) (o_cids o) s M) as (s1 & E1 & M1 & K1 & L1).
      { intros c I. apply (K o c); [left; reflexivity|exact I]. }
      rewrite E1. cbn [obind]. destruct (IH s1 M1 W') as (s2 & E2 & M2 & K2 & L2).
      { intros o' c I J. apply K1. apply (K o' c); [right; exact I|exact J]. }
      exists s2. split; [exact E2|]. split; [exact M2|]. split; [intros k; rewrite K2; apply K1|].
      intros k d p. rewrite L2, L1.
      destruct (existsb (bytes_eqb k) (map ToString (o_cids o)) && bytes_eqb d (dig o)) eqn:B.
      + apply andb_true_iff in B as [B1 B2]. apply existsb_In in B1. apply bytes_eqb_eq in B2.
        split; [intros [H _]; discriminate|]. intros [_ H]. exfalso. apply H. exists o. cbn [In]. auto.
      + split; intros [H1 H2]; split; auto.
        * intros (o' & [->|I] & Hd & Hk).
          -- apply andb_false_iff in B as [B|B].
             ++ rewrite (proj2 (existsb_In _ _) Hk) in B. discriminate.
             ++ subst d. rewrite bytes_eqb_refl' in B. discriminate.
          -- apply H2. exists o'. auto.
        * intros (o' & I & Hd & Hk). apply H2. exists o'. cbn [In]. auto.
  Qed.

  (** ** What a storage knows *)
  Record sinv (t : Z) (h : list offer) (L : offer -> Prop) (s : storage) : Prop := {
    si_maps : maps_ok s;
    si_sound : forall k d p, lookup s k d = Some p ->
      exists o c, nth_error h p = Some o /\ L o /\ dig o = d /\ In c (o_cids o) /\ k = ToString c;
    si_keys : forall k d p o c, lookup s k d = Some p -> nth_error h p = Some o -> In c (o_cids o) -> has_key s (ToString c);
    si_complete : forall o c, L o -> live t o -> In c (o_cids o) ->
      exists p, lookup s (ToString c) (dig o) = Some p /\ nth_error h p = Some o;
    si_uniq : forall o o', L o -> L o' -> dig o = dig o' -> o = o';
    si_storable : forall o, L o -> storable o
  }.

  Lemma sinv_later t t' h h' L s : t <= t' -> sinv t h L s -> sinv t' (h ++ h') L s.
  Proof.
    intros T [A B C D E F]. split; auto.
    - intros k d p H. destruct (B k d p H) as (o & c & N & R). exists o, c. split; [|exact R].
      rewrite nth_error_app1; [exact N|]. apply nth_error_Some. congruence.
    - intros k d p o c H N I. destruct (B k d p H) as (o1 & c1 & N1 & _).
      rewrite nth_error_app1 in N by (apply nth_error_Some; congruence). exact (C k d p o c H N I).
    - intros o c H1 H2 H3. destruct (D o c H1) as (p & P1 & P2); [unfold live in *; lia|exact H3|].
      exists p. split; [exact P1|]. rewrite nth_error_app1; [exact P2|]. apply nth_error_Some. congruence.
  Qed.

  Lemma sinv_same t h h' L L' s : (forall o, L o <-> L' o) -> h = h' -> sinv t h L s -> sinv t h' L' s.
  Proof.
    intros H <- [A B C D E F]. split; auto.
    - intros k d p X. destruct (B k d p X) as (o & c & R1 & R2 & R3). exists o, c. split; [exact R1|]. split; [apply H, R2|exact R3].
    - intros o c X. apply D. apply H, X.
    - intros o o' X Y. apply E; apply H; assumption.
    - intros o X. apply F, H, X.
  Qed.

  (** *** Adding *)
  Lemma cell_last h (o : offer) : cell (h ++ [o]) (length h) = Ret o.
  Proof. unfold cell, deref. rewrite nth_error_app2 by lia. rewrite Nat.sub_diag. reflexivity. Qed.
  Lemma nth_last h (o : offer) : nth_error (h ++ [o]) (length h) = Some o.
  Proof. rewrite nth_error_app2 by lia. rewrite Nat.sub_diag. reflexivity. Qed.

  Lemma add_spec t now h L L' s o : t <= now -> sinv t h L s -> storable o -> o_cids o <> [] ->
    (forall o', L o' -> dig o' = dig o -> same_terms o o') ->
    (forall o', L' o' <-> L o' \/ (o' = o /\ forall o'', L o'' -> ~ same_terms o o'')) ->
    exists r s', store_add sha now (h ++ [o]) s (length h) = Ret (r, s') /\ sinv now (h ++ [o]) L' s' /\
      (live now o -> r = OkR tt) /\
      (~ live now o -> (forall o', L o' -> ~ same_terms o o') -> r = ErrR).
  Proof.
    intros T I S N NC HL. unfold store_add. rewrite cell_last. cbn [obind].
    destruct (o_cids o) as [|c cs] eqn:Ec; [congruence|]. rewrite digest_dig by apply S. cbn [obind].
    assert (I1 := sinv_later t now h [o] L s T I).
    rewrite known_lookup. destruct (lookup s (ToString c) (dig o)) as [p|] eqn:El.
    - destruct (si_sound _ _ _ _ I1 _ _ _ El) as (o0 & c0 & _ & L0 & D0 & _).
      assert (T0 := NC o0 L0 D0).
      exists (OkR tt), s. split; [reflexivity|]. split; [|split; [auto|intros _ H; exfalso; exact (H o0 L0 T0)]].
      apply (sinv_same _ (h ++ [o]) _ L); [|reflexivity|exact I1].
      intros o'. rewrite HL. split; [auto|]. intros [X|[_ X]]; [exact X|]. exfalso. exact (X o0 L0 T0).
    - assert (UQ : forall o1 o2, L' o1 -> L' o2 -> dig o1 = dig o2 -> o1 = o2).
      { intros o1 o2 H1 H2 D. apply HL in H1, H2. destruct H1 as [H1|[-> H1]], H2 as [H2|[-> H2]].
        - eapply si_uniq; eauto.
        - exfalso. apply (H2 o1 H1). apply NC; auto.
        - exfalso. apply (H1 o2 H2). apply NC; auto.
        - reflexivity. }
      assert (ST : forall o1, L' o1 -> storable o1).
      { intros o1 H1. apply HL in H1. destruct H1 as [H1|[-> _]]; [eapply si_storable; eauto|exact S]. }
      destruct (HasExpired (o_expiry o) now) eqn:X.
      + apply expired_live in X; [|exact S].
        exists ErrR, s. split; [reflexivity|]. split; [|split; [tauto|auto]]. destruct I1 as [A B C D E F]. split; auto.
        * intros k d p H. destruct (B k d p H) as (o1 & c1 & R1 & R2 & R3). exists o1, c1. split; [exact R1|].
          split; [apply HL; auto|exact R3].
        * intros o1 c1 H1 Lv J. apply HL in H1. destruct H1 as [H1|[-> _]]; [apply D; assumption|contradiction].
      + apply expired_live' in X; [|exact S].
        assert (NW : forall o'', L o'' -> ~ same_terms o o'').
        { intros o'' H'' TT. destruct (si_complete _ _ _ _ I1 o'' c H'') as (p & P & _).
          - eapply same_terms_live; eauto.
          - destruct TT as (_ & TC & _). rewrite <- TC, Ec. left. reflexivity.
          - rewrite <- (dig_terms _ _ TT) in P. congruence. }
        destruct (put_lookup (dig o) (length h) (c :: cs) s (si_maps _ _ _ _ I)) as (PM & PK & PL).
        exists (OkR tt), (put s (c :: cs) (dig o) (length h)). split; [reflexivity|]. split; [|split; [auto|tauto]].
        assert (PL' : forall k d p, lookup (put s (c :: cs) (dig o) (length h)) k d = Some p ->
          (In k (map ToString (c :: cs)) /\ d = dig o /\ p = length h) \/ lookup s k d = Some p).
        { intros k d p. rewrite PL. destruct (existsb _ _ && _) eqn:B; [|auto].
          apply andb_true_iff in B as [B1 B2]. apply existsb_In in B1. apply bytes_eqb_eq in B2. intros [= <-]. auto. }
        split; auto.
        * intros k d p H. apply PL' in H. destruct H as [(H1 & -> & ->)|H].
          -- apply in_map_iff in H1. destruct H1 as (c1 & <- & H1). exists o, c1. rewrite Ec, nth_last.
             repeat split; auto. apply HL. auto.
          -- destruct (si_sound _ _ _ _ I1 _ _ _ H) as (o1 & c1 & R1 & R2 & R3). exists o1, c1. split; [exact R1|].
             split; [apply HL; auto|exact R3].
        * intros k d p o1 c1 H N1 J. apply PK. apply PL' in H. destruct H as [(H1 & -> & ->)|H].
          -- rewrite nth_last in N1. injection N1 as <-. right. apply in_map. rewrite <- Ec. exact J.
          -- left. eapply si_keys; eauto.
        * intros o1 c1 H1 Lv J. apply HL in H1. destruct H1 as [H1|[-> _]].
          -- destruct (si_complete _ _ _ _ I1 o1 c1 H1 Lv J) as (p & P1 & P2). exists p. split; [|exact P2].
             rewrite PL. destruct (existsb _ _ && _) eqn:B; [|exact P1].
             apply andb_true_iff in B as [_ B2]. apply bytes_eqb_eq in B2. exfalso. apply (NW o1 H1). apply NC; auto.
          -- exists (length h). split; [|apply nth_last]. rewrite PL.
             replace (existsb (bytes_eqb (ToString c1)) (map ToString (c :: cs))) with true.
             ++ rewrite bytes_eqb_refl'. reflexivity.
             ++ symmetry. apply existsb_In. apply in_map. rewrite <- Ec. exact J.
  Qed.

  (** *** Querying *)
  Lemma load_ok h (m : digest_map) : (forall d p, In (d, p) m -> exists o, nth_error h p = Some o /\ dig o = d) ->
    exists os, load_offers h m = Ret os /\ map dig os = map fst m /\
      (forall o, In o os <-> exists d p, In (d, p) m /\ nth_error h p = Some o).
  Proof.
    induction m as [|[d p] m IH]; intros H.
    - exists []. repeat split; auto; [intros []|intros (? & ? & [] & _)].
    - destruct (H d p (or_introl eq_refl)) as (o & N & D). destruct IH as (os & E & Md & I).
      { intros d' p' J. apply (H d' p'). right. exact J. }
      exists (o :: os). cbn [load_offers]. unfold cell, deref. rewrite N. cbn [obind]. rewrite E. cbn [obind].
      split; [reflexivity|]. split; [cbn [map fst]; congruence|].
      intros o'. cbn [In]. rewrite I. split.
      + intros [<-|(d' & p' & J & N')]; [exists d, p; auto|exists d', p'; auto].
      + intros (d' & p' & [J|J] & N'); [injection J as <- <-; left; congruence|right; eauto].
  Qed.

  Lemma get_spec order t now h L s c : t <= now -> sinv t h L s -> id32 c -> shuffle order ->
    exists os s', store_get sha order now h s c = Ret (os, s') /\ sinv now h L s' /\
      exactly os (fun o => L o /\ live now o /\ In c (o_cids o)).
  Proof.
    intros T I Hc Sh. assert (I1 := sinv_later t now h [] L s T I). rewrite app_nil_r in I1.
    unfold store_get. destruct (aget bytes_eqb s (ToString c)) as [m|] eqn:Em.
    2:{ exists [], s. split; [reflexivity|]. split; [exact I1|]. split; [constructor|].
        intros o. split; [intros []|]. intros (H1 & H2 & H3). destruct (si_complete _ _ _ _ I1 o c H1 H2 H3) as (p & P & _).
        unfold lookup in P. rewrite Em in P. discriminate. }
    assert (Nm := proj2 (si_maps _ _ _ _ I) _ _ Em).
    assert (Im : forall d p, In (d, p) m <-> lookup s (ToString c) d = Some p).
    { intros d p. unfold lookup. rewrite Em. split; [apply (In_aget bytes_eqb bytes_eqb_eq), Nm|apply (aget_In bytes_eqb bytes_eqb_eq)]. }
    assert (Io : forall d p, In (d, p) (order m) <-> lookup s (ToString c) d = Some p).
    { intros d p. rewrite <- Im. split; apply Permutation_in; [symmetry|]; apply Sh. }
    destruct (load_ok h (order m)) as (os & E & Md & Ios).
    { intros d p J. apply Io in J. destruct (si_sound _ _ _ _ I1 _ _ _ J) as (o & _ & N & _ & D & _). eauto. }
    assert (ND : NoDup os).
    { apply (NoDup_map_inv dig). rewrite Md. eapply Permutation_NoDup; [apply Permutation_map, Sh|exact Nm]. }
    assert (Mem : forall o, In o os -> L o /\ In c (o_cids o)).
    { intros o J. apply Ios in J. destruct J as (d & p & J & N). apply Io in J.
      destruct (si_sound _ _ _ _ I1 _ _ _ J) as (o1 & c1 & N1 & L1 & _ & C1 & K1). assert (o1 = o) by congruence. subst o1.
      split; [exact L1|]. replace c with c1; [exact C1|].
      apply ToString_inj; [|exact Hc|congruence].
      destruct (si_storable _ _ _ _ I1 o L1) as ((_ & F & _) & _). rewrite Forall_forall in F. apply F, C1. }
    rewrite E. cbn [obind].
    destruct (purge_lookup (filter (fun o => HasExpired (o_expiry o) now) os) s (si_maps _ _ _ _ I)) as (s' & Ep & M' & K' & L').
    { apply Forall_forall. intros o J. apply filter_In in J. apply (si_storable _ _ _ _ I1), Mem, J. }
    { intros o c1 J J1. apply filter_In in J. destruct J as [J _]. apply Ios in J. destruct J as (d & p & J & N). apply Io in J.
      eapply si_keys; eauto. }
    rewrite Ep. cbn [obind]. eexists. exists s'. split; [reflexivity|]. split.
    - split; auto.
      + intros k d p H. apply L' in H. apply (si_sound _ _ _ _ I1), H.
      + intros k d p o c1 H N J. apply K'. apply L' in H. destruct H as [H _]. eapply si_keys; eauto.
      + intros o c1 H1 Lv J. destruct (si_complete _ _ _ _ I1 o c1 H1 Lv J) as (p & P1 & P2). exists p. split; [|exact P2].
        apply L'. split; [exact P1|]. intros (o2 & J2 & D2 & _). apply filter_In in J2. destruct J2 as [J2 X2].
        apply Mem in J2. destruct J2 as [J2 _]. assert (o = o2) by (eapply (si_uniq _ _ _ _ I1); eauto). subst o2.
        apply expired_live in X2; [contradiction|]. apply (si_storable _ _ _ _ I1), J2.
      + apply (si_uniq _ _ _ _ I1).
      + apply (si_storable _ _ _ _ I1).
    - split; [apply NoDup_filter, ND|]. intros o. rewrite filter_In, negb_true_iff. split.
      + intros [J X]. destruct (Mem o J) as [H1 H2]. apply expired_live' in X; [auto|]. apply (si_storable _ _ _ _ I1), H1.
      + intros (H1 & H2 & H3). split; [|apply expired_live'; [apply (si_storable _ _ _ _ I1), H1|exact H2]].
        apply Ios. destruct (si_complete _ _ _ _ I1 o c H1 H2 H3) as (p & P1 & P2). exists (dig o), p. split; [apply Io, P1|exact P2].
  Qed.

  Lemma find_digest_spec order t h L s d : sinv t h L s -> shuffle order ->
    match find_digest (order s) d with
    | Some p => exists o, nth_error h p = Some o /\ L o /\ dig o = d
    | None => forall o c, L o -> live t o -> In c (o_cids o) -> dig o <> d
    end.
  Proof.
    intros I Sh.
    assert (H : forall s0 : storage, (forall k m, In (k, m) s0 -> In (k, m) s) ->
      match find_digest s0 d with
      | Some p => exists k, lookup s k d = Some p
      | None => forall k m, In (k, m) s0 -> aget bytes_eqb m d = None
      end).
    { induction s0 as [|[k m] s0 IH]; intros J; [intros k m []|]. cbn [find_digest].
      destruct (aget bytes_eqb m d) as [p|] eqn:E.
      - exists k. unfold lookup.
        rewrite (In_aget bytes_eqb bytes_eqb_eq s k m); [exact E|apply (si_maps _ _ _ _ I)|apply J; left; reflexivity].
      - specialize (IH (fun k' m' X => J k' m' (or_intror X))). destruct (find_digest s0 d); [exact IH|].
        intros k' m' [X|X]; [congruence|eapply IH; eauto]. }
    specialize (H (order s)). assert (J : forall k m, In (k, m) (order s) -> In (k, m) s).
    { intros k m. apply Permutation_in. symmetry. apply Sh. }
    specialize (H J). destruct (find_digest (order s) d) as [p|].
    - destruct H as (k & H). destruct (si_sound _ _ _ _ I _ _ _ H) as (o & c & N & Lo & D & _). eauto.
    - intros o c H1 H2 H3 D. destruct (si_complete _ _ _ _ I o c H1 H2 H3) as (p & P & _). rewrite D in P.
      unfold lookup in P. destruct (aget bytes_eqb s (ToString c)) as [m|] eqn:E; [|discriminate].
      rewrite (H (ToString c) m) in P; [discriminate|]. eapply Permutation_in; [apply Sh|].
      apply (aget_In bytes_eqb bytes_eqb_eq), E.
  Qed.
End store.
