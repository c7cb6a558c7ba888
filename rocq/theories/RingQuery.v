(** [GetClosest] and [GetWithinRange] on a represented ring. *)
From Coq Require Import List ZArith Bool Lia ZifyBool ZifyNat Sorting.Sorted Sorting.Permutation.
From Coq Require Import Init.Byte.
From Verif Require Import Base BaseProofs Ring RingSpec RingLemmas RingInsert RingRemove.
Import ListNotations.
Open Scope Z_scope.
Open Scope go_scope.

Lemma M256_pos : 0 < M256.
Proof. reflexivity. Qed.

#[global] Opaque M256.

Lemma getDist_cases a b :
  getDist a b = if a <? b then b - a else M256 - a + b.
Proof.
  Transparent getDist M256. unfold getDist, max256, M256. Opaque getDist M256.
  destruct (a <? b); lia.
Qed.

Lemma cw_cases a b : 0 <= a < M256 -> 0 <= b < M256 ->
  cw a b = if a <=? b then b - a else b - a + M256.
Proof.
  intros Ha Hb. unfold cw. destruct (a <=? b) eqn:E.
  - apply Z.mod_small. lia.
  - symmetry. apply Z.mod_unique with (q := -1); lia.
Qed.

Lemma getDist_cw a b : 0 <= a < M256 -> 0 <= b < M256 -> a <> b -> getDist a b = cw a b.
Proof.
  intros Ha Hb N. rewrite getDist_cases, cw_cases by assumption.
  destruct (a <? b) eqn:E1, (a <=? b) eqn:E2; lia.
Qed.

Lemma cw_ccw a b : 0 <= a < M256 -> 0 <= b < M256 -> a <> b -> cw b a = M256 - cw a b.
Proof.
  intros Ha Hb N. rewrite !cw_cases by assumption.
  destruct (a <=? b) eqn:E1, (b <=? a) eqn:E2; lia.
Qed.

Lemma cw_range a b : 0 <= cw a b < M256.
Proof. unfold cw. apply Z.mod_pos_bound. apply M256_pos. Qed.

Lemma cw_self a : cw a a = 0.
Proof. unfold cw. rewrite Z.sub_diag. apply Z.mod_0_l. pose proof M256_pos. lia. Qed.

Lemma cw_pos a b : 0 <= a < M256 -> 0 <= b < M256 -> a <> b -> 0 < cw a b.
Proof. intros Ha Hb N. rewrite cw_cases by assumption. destruct (a <=? b) eqn:E; lia. Qed.

(** Going on from [a] to [b] when [b] is further than [a] from [k]. *)
Lemma cw_step k a b : 0 <= k < M256 -> 0 <= a < M256 -> 0 <= b < M256 ->
  cw k a < cw k b -> getDist a b = cw k b - cw k a.
Proof.
  intros Hk Ha Hb. rewrite !cw_cases, getDist_cases by assumption.
  destruct (k <=? a) eqn:E1, (k <=? b) eqn:E2, (a <? b) eqn:E3; lia.
Qed.

Lemma valid_key_range s : validateInput s = true -> 0 <= hex_val s < M256.
Proof.
  unfold validateInput. rewrite andb_true_iff. intros [H _]. apply Nat.eqb_eq in H.
  pose proof (hex_val_range s) as R. rewrite H in R.
  replace M256 with (16 ^ Z.of_nat 64) by reflexivity. exact R.
Qed.

(** ** Rotations *)
Lemma rotation_app {A} (u v : list A) : rotation (u ++ v) (v ++ u).
Proof. exists u, v. auto. Qed.

Lemma rotation_refl {A} (l : list A) : rotation l l.
Proof. exists [], l. rewrite app_nil_r. auto. Qed.

Lemma rotation_sym {A} (a b : list A) : rotation a b -> rotation b a.
Proof. intros (u & v & -> & ->). apply rotation_app. Qed.

Lemma app_eq_app' {A} (a b c d : list A) :
  a ++ b = c ++ d -> exists l, (a = c ++ l /\ d = l ++ b) \/ (c = a ++ l /\ b = l ++ d).
Proof.
  revert c; induction a as [|x a IH]; intros c H.
  - exists c. right. simpl in H. auto.
  - destruct c as [|y c].
    + exists (x :: a). left. simpl in *. auto.
    + injection H as -> H. destruct (IH _ H) as (l & [[-> ->]|[-> ->]]); exists l; [left|right]; auto.
Qed.

Lemma rotation_trans {A} (a b c : list A) : rotation a b -> rotation b c -> rotation a c.
Proof.
  intros (u & v & -> & ->) (s & t & E & ->).
  apply app_eq_app' in E. destruct E as (l & [[-> ->]|[-> ->]]).
  - rewrite app_assoc, <- app_assoc.
    (* a = u ++ s ++ l ; c = (l ++ u) ++ s *)
    exists (u ++ s), l. rewrite <- !app_assoc. auto.
  - exists l, (t ++ v). rewrite <- !app_assoc. auto.
Qed.

Lemma rotation_perm {A} (a b : list A) : rotation a b -> Permutation a b.
Proof. intros (u & v & -> & ->). apply Permutation_app_comm. Qed.

(** ** Entries as seen from a point *)
Section around.
  Variable k : Z.
  Definition d (e : entry) : Z := cw k (ekey e).
  Definition dsorted (l : list entry) : Prop := StronglySorted (fun a b => d a < d b) l.

  Lemma dsorted_app l1 l2 : dsorted (l1 ++ l2) <->
    dsorted l1 /\ dsorted l2 /\ (forall a b, In a l1 -> In b l2 -> d a < d b).
  Proof.
    unfold dsorted. induction l1 as [|x l1 IH]; simpl.
    - split; [intros H; repeat split; auto; [constructor | tauto] | tauto].
    - split.
      + intros H. inversion H as [|? ? Hs Hf]; subst. apply IH in Hs. destruct Hs as (H1 & H2 & H3).
        rewrite Forall_app in Hf. destruct Hf as [Hf1 Hf2]. repeat split; auto.
        * constructor; auto.
        * intros a b [->|Ha] Hb; auto. rewrite Forall_forall in Hf2. auto.
      + intros (H1 & H2 & H3). inversion H1; subst. constructor.
        * apply IH. repeat split; auto.
        * rewrite Forall_app. split; auto. rewrite Forall_forall. auto.
  Qed.

  Lemma rot_dsorted p1 p2 : 0 <= k < M256 ->
    (forall e, In e (p1 ++ p2) -> 0 <= ekey e < M256) ->
    sorted (p1 ++ p2) -> (forall e, In e p1 -> ekey e < k) -> (forall e, In e p2 -> k < ekey e) ->
    dsorted (p2 ++ p1).
  Proof.
    intros Hk HB HS H1 H2. apply sorted_app in HS. destruct HS as (S1 & S2 & _).
    assert (D1 : forall e, In e p1 -> d e = ekey e - k + M256).
    { intros e He. unfold d. rewrite cw_cases; auto; [|apply HB, in_or_app; auto].
      specialize (H1 _ He). destruct (k <=? ekey e) eqn:E; lia. }
    assert (D2 : forall e, In e p2 -> d e = ekey e - k).
    { intros e He. unfold d. rewrite cw_cases; auto; [|apply HB, in_or_app; auto].
      specialize (H2 _ He). destruct (k <=? ekey e) eqn:E; lia. }
    apply dsorted_app. split; [|split].
    - unfold sorted, dsorted in *. clear -S2 D2. induction p2 as [|x p2 IH]; [constructor|].
      inversion S2 as [|? ? S HF]; subst. constructor; [apply IH; auto; intros e He; apply D2; simpl; auto|].
      rewrite Forall_forall in *. intros b Hb. specialize (HF _ Hb).
      rewrite !D2 by (simpl; auto). lia.
    - unfold sorted, dsorted in *. clear -S1 D1. induction p1 as [|x p1 IH]; [constructor|].
      inversion S1 as [|? ? S HF]; subst. constructor; [apply IH; auto; intros e He; apply D1; simpl; auto|].
      rewrite Forall_forall in *. intros b Hb. specialize (HF _ Hb).
      rewrite !D1 by (simpl; auto). lia.
    - intros a b Ha Hb. rewrite (D2 _ Ha), (D1 _ Hb).
      assert (ekey a < M256) by (apply HB, in_or_app; auto).
      assert (0 <= ekey b) by (apply HB, in_or_app; auto). lia.
  Qed.
End around.

(** ** Walking loops *)
Lemma not_head_val l l1 p c rest x :
  NoDup (vals l) -> hd_error l = Some x -> l = l1 ++ p :: rest -> In c rest -> snd c <> snd x.
Proof.
  intros HS Hx -> Hc E. unfold vals in HS. rewrite map_app in HS. cbn [map] in HS.
  destruct l1 as [|z l1]; cbn [app map] in *; injection Hx as ->; inversion HS as [|? ? H1 H2]; subst; apply H1.
  - rewrite <- E. apply in_map. exact Hc.
  - apply in_or_app. right. right. rewrite <- E. apply in_map. exact Hc.
Qed.

Lemma list_scan_spec h l x rest : forall l1 p fuel acc,
  lring h l -> Forall (holds h) l -> NoDup (vals l) -> hd_error l = Some x ->
  l = l1 ++ p :: rest -> (length rest < fuel)%nat ->
  list_scan fuel h (snd x) (after l rest) acc = Ret (acc ++ vals rest).
Proof.
  induction rest as [|c rest IH]; intros l1 p fuel acc HR HH HS Hx El Hf.
  - destruct fuel as [|fuel]; [simpl in Hf; lia|].
    cbn [list_scan]. rewrite app_nil_r. destruct l as [|x' l']; [discriminate|]. injection Hx as ->.
    destruct l' as [|y l']; [reflexivity|]. cbn [after].
    inversion HH as [|? ? Hh _]; subst. destruct Hh as (n & Hn & Hk & Hv).
    rewrite (load_some _ _ _ Hn). cbn [obind]. rewrite Hv, bytes_eqb_refl. reflexivity.
  - destruct fuel as [|fuel]; [simpl in Hf; lia|].
    cbn [after list_scan].
    assert (Hc : holds h c). { rewrite Forall_forall in HH. apply HH. subst l. apply in_or_app. right. simpl. auto. }
    destruct Hc as (n & Hn & Hk & Hv). rewrite (load_some _ _ _ Hn). cbn [obind].
    assert (Nx : snd c <> snd x) by (eapply not_head_val; eauto; simpl; auto).
    rewrite Hv. apply bytes_eqb_neq in Nx. rewrite Nx.
    assert (El' : l = (l1 ++ [p]) ++ c :: rest) by (rewrite <- app_assoc; exact El).
    pose proof (lring_next _ _ _ _ _ HR El') as HN.
    unfold nxt in HN. rewrite Hn in HN. rewrite HN.
    rewrite (IH (l1 ++ [p]) c fuel) by (auto; simpl in Hf; lia).
    rewrite <- app_assoc. reflexivity.
Qed.

Lemma find_scan_spec h l x c p2 p1' : forall p0 q fuel,
  lring h l -> Forall (holds h) l -> NoDup (vals l) -> hd_error l = Some x ->
  p0 ++ q :: p1' ++ [c] ++ p2 = l -> (length p1' + 1 < fuel)%nat ->
  find_scan fuel h (snd x) (snd c) (Some (fst q)) = Ret (Some (fst c)).
Proof.
  induction p1' as [|q' p1' IH]; intros p0 q fuel HR HH HS Hx El Hf.
  - destruct fuel as [|[|fuel]]; [simpl in Hf; lia|simpl in Hf; lia|].
    rewrite Forall_forall in HH.
    assert (Hq : holds h q) by (apply HH; rewrite <- El; apply in_or_app; simpl; auto).
    assert (Hc : holds h c) by (apply HH; rewrite <- El; apply in_or_app; simpl; auto).
    destruct Hq as (n & Hn & Hk & Hv). destruct Hc as (nc & Hnc & Hkc & Hvc).
    cbn [find_scan]. rewrite (load_some _ _ _ Hn). cbn [obind]. rewrite Hv.
    assert (Nqc : snd q <> snd c).
    { intros E. unfold vals in HS. rewrite <- El in HS. rewrite map_app in HS. cbn in HS.
      apply NoDup_remove_2 in HS. apply HS. apply in_or_app. right. simpl. auto. }
    apply bytes_eqb_neq in Nqc. rewrite Nqc.
    pose proof (lring_next _ _ _ _ _ HR (eq_sym El)) as HN. unfold nxt in HN. rewrite Hn in HN. cbn in HN.
    rewrite HN, (load_some _ _ _ Hnc). cbn [obind]. rewrite Hvc.
    assert (Nx : snd c <> snd x) by (eapply (not_head_val l p0 q c); eauto; simpl; auto).
    apply bytes_eqb_neq in Nx. rewrite Nx, bytes_eqb_refl. reflexivity.
  - destruct fuel as [|fuel]; [simpl in Hf; lia|].
    assert (HH' := HH). rewrite Forall_forall in HH'.
    assert (Hq : holds h q) by (apply HH'; rewrite <- El; apply in_or_app; simpl; auto).
    assert (Hq' : holds h q') by (apply HH'; rewrite <- El; apply in_or_app; simpl; auto).
    destruct Hq as (n & Hn & Hk & Hv). destruct Hq' as (nc & Hnc & Hkc & Hvc).
    cbn [find_scan]. rewrite (load_some _ _ _ Hn). cbn [obind]. rewrite Hv.
    assert (Nqc : snd q <> snd c).
    { intros E. unfold vals in HS. rewrite <- El in HS. rewrite map_app in HS. cbn [map app] in HS.
      apply NoDup_remove_2 in HS. apply HS. apply in_or_app. right. right. rewrite map_app.
      apply in_or_app. right. simpl. auto. }
    apply bytes_eqb_neq in Nqc. rewrite Nqc.
    pose proof (lring_next _ _ _ _ _ HR (eq_sym El)) as HN. unfold nxt in HN. rewrite Hn in HN. cbn in HN.
    rewrite HN, (load_some _ _ _ Hnc). cbn [obind]. rewrite Hvc.
    assert (Nx : snd q' <> snd x) by (eapply (not_head_val l p0 q q'); eauto; simpl; auto).
    apply bytes_eqb_neq in Nx. rewrite Nx.
    apply (IH (p0 ++ [q]) q' fuel); auto.
    + rewrite <- app_assoc. exact El.
    + simpl in Hf. lia.
Qed.

Lemma find_scan_found h l x c p1 p2 fuel :
  lring h l -> Forall (holds h) l -> NoDup (vals l) -> hd_error l = Some x ->
  l = p1 ++ c :: p2 -> (length l < fuel)%nat ->
  find_scan fuel h (snd x) (snd c) (Some (fst x)) = Ret (Some (fst c)).
Proof.
  intros HR HH HS Hx El Hf. destruct p1 as [|x' p1].
  - subst l. injection Hx as ->. destruct fuel as [|fuel]; [lia|].
    inversion HH as [|? ? Hh _]; subst. destruct Hh as (n & Hn & Hk & Hv).
    cbn [find_scan]. rewrite (load_some _ _ _ Hn). cbn [obind]. rewrite Hv, bytes_eqb_refl. reflexivity.
  - subst l. injection Hx as ->.
    apply (find_scan_spec h ((x :: p1) ++ c :: p2) x c p2 p1 [] x fuel); auto.
    rewrite app_length in Hf. simpl in *. lia.
Qed.

(** ** The two-pointer loop *)
Section closest.
  Variables (h : list node) (c : entry) (rest : list entry) (num : Z) (res0 : list gostring).
  Let k := ekey c.
  Hypothesis Hcyc : cyc (link h) (c :: rest).
  Hypothesis Hholds : Forall (holds h) rest.
  Hypothesis HK : 0 <= k < M256.
  Hypothesis HB : forall e, In e rest -> 0 <= ekey e < M256 /\ ekey e <> k.
  Hypothesis HD : dsorted k rest.

  (** Everything outside [m] is at least as close as everything in [m]. *)
  Definition closer (f m b : list entry) : Prop :=
    forall x y, In x (f ++ b) -> In y m -> circ k (ekey x) <= circ k (ekey y).

  Lemma circ_d e : In e rest -> circ k (ekey e) = Z.min (d k e) (M256 - d k e).
  Proof. intros He. destruct (HB e He). unfold circ, d. rewrite (cw_ccw k (ekey e)); auto. Qed.

  Lemma dsorted_vals_nodup : NoDup (vals rest).
  Proof.
    clear Hcyc Hholds. revert HD. generalize rest. intros l. induction l as [|x l IH]; intros HS; [constructor|].
    inversion HS as [|? ? S HF]; subst. constructor; [|auto].
    intros Hin. apply in_map_iff in Hin. destruct Hin as (e & E & He).
    rewrite Forall_forall in HF. specialize (HF _ He). unfold d, ekey in HF. rewrite E in HF. lia.
  Qed.

  Lemma closest_scan_spec : forall m f b fuel res,
    rest = f ++ m ++ b -> m <> [] -> closer f m b ->
    res = vals b ++ res0 ++ vals f ->
    (num < 0 \/ Z.of_nat (length res) < num) ->
    (length m <= fuel)%nat ->
    exists f' m' b',
      closest_scan fuel h num (Some (fst (last m c))) (M256 - d k (last m c))
        (Some (fst (hd c m))) (d k (hd c m)) res = Ret (vals b' ++ res0 ++ vals f') /\
      rest = f' ++ m' ++ b' /\ closer f' m' b' /\
      (m' = [] \/ Z.of_nat (length (vals b' ++ res0 ++ vals f')) = num) /\
      (num < 0 \/ Z.of_nat (length (vals b' ++ res0 ++ vals f')) <= num).
  Proof.
    intros m. remember (length m) as n eqn:En. revert m En.
    induction n as [|n IH]; intros m En f b fuel res El NE HC Hres Hnum Hf; [destruct m; simpl in En; try congruence; lia|].
    destruct fuel as [|fuel]; [simpl in Hf; lia|].
    destruct m as [|a m]; [contradiction|].
    assert (Hina : In a rest) by (rewrite El; rewrite !in_app_iff; simpl; auto).
    rewrite Forall_forall in Hholds.
    destruct (Hholds a Hina) as (na & Hna & Hka & Hva).
    destruct m as [|a2 m].
    - (* one left *)
      cbn [closest_scan last hd]. rewrite (load_some _ _ _ Hna). cbn [obind]. rewrite bytes_eqb_refl.
      exists (f ++ [a]), [], b. split; [|split; [|split; [|split]]].
      + rewrite Hva, Hres. unfold vals. rewrite map_app, <- !app_assoc. reflexivity.
      + rewrite El, <- app_assoc. reflexivity.
      + intros x y _ [].
      + left; reflexivity.
      + destruct Hnum as [Hnum|Hnum]; [left; exact Hnum|right]. rewrite Hres in Hnum. unfold vals in *.
        rewrite map_app. rewrite !app_length, !map_length in *. cbn [length map] in *. lia.
    - set (z := last (a2 :: m) c).
      assert (Elast : last (a :: a2 :: m) c = z) by reflexivity.
      assert (NE2 : a2 :: m <> []) by discriminate.
      assert (Em : a2 :: m = removelast (a2 :: m) ++ [z]) by (apply app_removelast_last; assumption).
      assert (Hinz : In z rest).
      { rewrite El. rewrite !in_app_iff. right. left. right. rewrite Em. apply in_or_app. simpl; auto. }
      destruct (Hholds z Hinz) as (nz & Hnz & Hkz & Hvz).
      assert (ND : NoDup (vals rest)) by apply dsorted_vals_nodup.
      assert (Naz : snd z <> snd a).
      { intros E. rewrite El in ND. unfold vals in ND. rewrite !map_app in ND.
        apply nodup_app_iff in ND. destruct ND as (_ & ND & _). apply nodup_app_iff in ND. destruct ND as (ND & _ & _). rewrite Em in ND. cbn [map] in ND.
        inversion ND as [|? ? H1 H2]; subst. apply H1. rewrite map_app. apply in_or_app. right. simpl. auto. }
      cbn [hd]. rewrite Elast.
      cbn [closest_scan]. rewrite (load_some _ _ _ Hnz), (load_some _ _ _ Hna). cbn [obind].
      rewrite Hvz, Hva. apply bytes_eqb_neq in Naz. rewrite Naz.
      (* distances inside m *)
      assert (DSm : dsorted k (a :: a2 :: m)).
      { rewrite El in HD. apply dsorted_app in HD. destruct HD as (_ & HD' & _).
        apply dsorted_app in HD'. tauto. }
      assert (Hlo : forall y, In y (a :: a2 :: m) -> d k a <= d k y).
      { intros y [<-|Hy]; [lia|]. inversion DSm as [|? ? _ HF]; subst. rewrite Forall_forall in HF. specialize (HF _ Hy). lia. }
      assert (Hhi : forall y, In y (a :: a2 :: m) -> d k y <= d k z).
      { intros y Hy. change (a :: a2 :: m) with ([a] ++ (a2 :: m)) in DSm, Hy. rewrite Em in DSm, Hy.
        rewrite app_assoc in DSm, Hy. apply dsorted_app in DSm. destruct DSm as (_ & _ & H3).
        apply in_app_or in Hy. destruct Hy as [Hy|[<-|[]]]; [|lia]. specialize (H3 y z Hy (or_introl eq_refl)). lia. }
      assert (Hinm : forall y, In y (a :: a2 :: m) -> In y rest).
      { intros y Hy. rewrite El. rewrite !in_app_iff. tauto. }
      destruct (M256 - d k z <=? d k a) eqn:Ecmp.
      + (* take the previous one *)
        assert (Epv : pv h (fst z) = Some (fst (last (removelast (a :: a2 :: m)) c)) /\
                      dp h (fst z) = Some (getDist (ekey (last (removelast (a :: a2 :: m)) c)) (ekey z))).
        { set (m0 := removelast (a :: a2 :: m)).
          assert (Em0 : a :: a2 :: m = m0 ++ [z]).
          { subst m0. rewrite (app_removelast_last c) at 1 by discriminate. rewrite Elast. reflexivity. }
          assert (NE0 : m0 <> []).
          { intros E. rewrite E in Em0. discriminate. }
          assert (Em1 : m0 = removelast m0 ++ [last m0 c]) by (apply app_removelast_last; assumption).
          unfold cyc in Hcyc.
          assert (Ecyc : (c :: rest) ++ [c] = (c :: f ++ removelast m0) ++ last m0 c :: z :: (b ++ [c])).
          { rewrite El, Em0, Em1. cbn [app]. rewrite <- !app_assoc. cbn [app].
            rewrite <- Em1. rewrite <- ?app_assoc. reflexivity. }
          rewrite Ecyc in Hcyc. apply chain_mid in Hcyc.
          destruct Hcyc as (_ & H2 & _ & H4). auto. }
        set (m0 := removelast (a :: a2 :: m)) in *.
        assert (Em0 : a :: a2 :: m = m0 ++ [z]).
        { subst m0. rewrite (app_removelast_last c) at 1 by discriminate. rewrite Elast. reflexivity. }
        assert (Hm0 : m0 = a :: removelast (a2 :: m)) by reflexivity.
        destruct Epv as [Ep Edp].
        unfold pv in Ep. rewrite Hnz in Ep. unfold dp in Edp. rewrite Hnz in Edp.
        rewrite Edp. cbn [loadz obind].
        assert (HC' : closer f m0 (z :: b)).
        { intros x y Hx Hy. assert (Hy' : In y (a :: a2 :: m)) by (rewrite Em0; apply in_or_app; auto).
          rewrite in_app_iff in Hx. destruct Hx as [Hx|[<-|Hx]].
          - apply HC; auto. apply in_or_app; auto.
          - rewrite !circ_d; auto. specialize (Hlo _ Hy'). specialize (Hhi _ Hy').
            pose proof (cw_range k (ekey y)). fold (d k y) in *. lia.
          - apply HC; auto. apply in_or_app; auto. }
        assert (Eres : snd z :: res = vals (z :: b) ++ res0 ++ vals f) by (rewrite Hres; reflexivity).
        destruct (Z.of_nat (length (snd z :: res)) =? num) eqn:Enum.
        * exists f, m0, (z :: b). split; [rewrite <- Eres; reflexivity|]. split; [|split; [exact HC'|]].
          -- rewrite El, Em0, <- !app_assoc. reflexivity.
          -- rewrite <- Eres. split; right; lia.
        * rewrite Ep.
          assert (NE0 : m0 <> []) by (rewrite Hm0; discriminate).
          assert (Hlast0 : In (last m0 c) m0).
          { rewrite (app_removelast_last c NE0) at 2. apply in_or_app; simpl; auto. }
          assert (Edist : M256 - d k z + getDist (ekey (last m0 c)) (ekey z) = M256 - d k (last m0 c)).
          { assert (Hl1 : In (last m0 c) (a :: a2 :: m)) by (rewrite Em0; apply in_or_app; auto).
            rewrite (cw_step k); auto; try (apply HB; auto).
            - unfold d. lia.
            - rewrite Em0 in DSm. apply dsorted_app in DSm. destruct DSm as (_ & _ & H3).
              apply (H3 _ z Hlast0). simpl; auto. }
          rewrite Edist.
          replace (Some (fst a)) with (Some (fst (hd c m0))) by (rewrite Hm0; reflexivity).
          replace (d k a) with (d k (hd c m0)) by (rewrite Hm0; reflexivity).
          apply (IH m0) with (f := f) (b := z :: b); auto.
          -- apply (f_equal (@length entry)) in Em0. rewrite app_length in Em0. simpl in *. lia.
          -- rewrite El, Em0, <- !app_assoc. reflexivity.
          -- destruct Hnum as [Hnum|Hnum]; [left; exact Hnum|right]. cbn [length] in *. lia.
          -- lia.
      + (* take the next one *)
        assert (Enx : nxt h (fst a) = Some (fst a2) /\ dn h (fst a) = Some (getDist (ekey a) (ekey a2))).
        { unfold cyc in Hcyc.
          assert (Ecyc : (c :: rest) ++ [c] = (c :: f) ++ a :: a2 :: (m ++ b ++ [c])).
          { rewrite El. repeat (cbn [app]; rewrite <- ?app_assoc). reflexivity. }
          rewrite Ecyc in Hcyc. apply chain_mid in Hcyc.
          destruct Hcyc as (H1 & _ & H3 & _). auto. }
        destruct Enx as [En2 Edn].
        unfold nxt in En2. rewrite Hna in En2. unfold dn in Edn. rewrite Hna in Edn.
        rewrite Edn. cbn [loadz obind].
        assert (HC' : closer (f ++ [a]) (a2 :: m) b).
        { intros x y Hx Hy. assert (Hy' : In y (a :: a2 :: m)) by (right; exact Hy).
          rewrite !in_app_iff in Hx. destruct Hx as [[Hx|[<-|[]]]|Hx].
          - apply HC; auto. apply in_or_app; auto.
          - rewrite !circ_d; auto. specialize (Hlo _ Hy'). specialize (Hhi _ Hy').
            pose proof (cw_range k (ekey y)). fold (d k y) in *. lia.
          - apply HC; auto. apply in_or_app; auto. }
        assert (Eres : res ++ [snd a] = vals b ++ res0 ++ vals (f ++ [a])).
        { rewrite Hres. unfold vals. rewrite map_app, <- !app_assoc. reflexivity. }
        destruct (Z.of_nat (length (res ++ [snd a])) =? num) eqn:Enum.
        * exists (f ++ [a]), (a2 :: m), b. split; [rewrite <- Eres; reflexivity|]. split; [|split; [exact HC'|]].
          -- rewrite El, <- !app_assoc. reflexivity.
          -- rewrite <- Eres. split; right; lia.
        * rewrite En2.
          assert (Edist : d k a + getDist (ekey a) (ekey a2) = d k a2).
          { rewrite (cw_step k); auto; try (apply HB, Hinm; simpl; auto).
            - unfold d. lia.
            - inversion DSm as [|? ? _ HF]; subst. rewrite Forall_forall in HF. apply HF. simpl; auto. }
          rewrite Edist.
          apply (IH (a2 :: m)) with (f := f ++ [a]) (b := b); auto.
          -- rewrite El, <- !app_assoc. reflexivity.
          -- destruct Hnum as [Hnum|Hnum]; [left; exact Hnum|right].
             rewrite app_length in *. cbn [length] in *. lia.
          -- simpl in *. lia.
  Qed.
End closest.

(** ** Helpers *)
Lemma split_unique {A} (a b a' b' : list A) x :
  NoDup (a ++ x :: b) -> a ++ x :: b = a' ++ x :: b' -> a = a' /\ b = b'.
Proof.
  revert a'. induction a as [|y a IH]; intros [|y' a'] ND E; simpl in *.
  - injection E as ->. auto.
  - injection E as -> E. inversion ND as [|? ? H1 H2]; subst. exfalso. apply H1. apply in_or_app; simpl; auto.
  - injection E as -> E. inversion ND as [|? ? H1 H2]; subst. exfalso. apply H1. apply in_or_app; simpl; auto.
  - injection E as -> E. inversion ND; subst. destruct (IH a') as [-> ->]; auto.
Qed.

Lemma key_dichotomy l k : sorted l ->
  (exists e, In e l /\ ekey e = k) \/
  (exists l1 l2, l = l1 ++ l2 /\ (forall e, In e l1 -> ekey e < k) /\ (forall e, In e l2 -> k < ekey e)).
Proof.
  induction l as [|x l IH]; intros HS.
  - right. exists [], []. repeat split; intros e [].
  - apply sorted_cons in HS. destruct HS as [HS Hx].
    destruct (Z.compare_spec (ekey x) k) as [E|E|E].
    + left. exists x. simpl; auto.
    + destruct (IH HS) as [(e & He & Hk)|(l1 & l2 & -> & H1 & H2)].
      * left. exists e. simpl; auto.
      * right. exists (x :: l1), l2. repeat split; auto. intros e [<-|He]; auto.
    + right. exists [], (x :: l). repeat split; [intros e [] |].
      intros e [<-|He]; auto. specialize (Hx _ He). lia.
Qed.

Lemma cyc_ends h c rest : cyc (link h) (c :: rest) -> rest <> [] ->
  link h c (hd c rest) /\ link h (last rest c) c.
Proof.
  intros HC NE. split.
  - destruct rest as [|a rest]; [contradiction|]. destruct HC as [H _]. exact H.
  - unfold cyc in HC. rewrite (app_removelast_last c NE) in HC.
    change ((c :: removelast rest ++ [last rest c]) ++ [c]) with
      (c :: (removelast rest ++ [last rest c]) ++ [c]) in HC.
    rewrite <- app_assoc in HC. cbn [app] in HC. rewrite app_comm_cons in HC. apply chain_mid in HC. exact HC.
Qed.

Lemma map_last_in {A} (l : list A) d : l <> [] -> In (last l d) l.
Proof. intros NE. rewrite (app_removelast_last d NE) at 2. apply in_or_app; simpl; auto. Qed.

Lemma rep_key_range r l e : rep r l -> In e l -> 0 <= ekey e < M256.
Proof.
  intros HR He. pose proof (rep_valid _ _ HR) as HV. rewrite Forall_forall in HV.
  apply valid_key_range. apply HV. exact He.
Qed.

Lemma closest_search_spec r l hex num :
  rep r l -> l <> [] -> validateInput hex = true ->
  (forall e, In e l -> ekey e = hex_val hex -> snd e = hex) ->
  1 <= num <= Z.of_nat (length l) ->
  exists res r' l' pending,
    closest_search r hex num = Ret (res, r', pending) /\ rep r' l' /\
    closest_ok (vals l) hex num res /\
    ((In hex (vals l) /\ pending = false /\ vals l' = vals l) \/
     (~ In hex (vals l) /\ pending = true /\ vals l' = ins hex (vals l) /\ length l' = S (length l) /\
      exists p1 c p2, l' = p1 ++ c :: p2 /\ snd c = hex /\ vals l = vals p1 ++ vals p2)).
Proof.
  intros HR NE HV Hsp Hnum.
  destruct (Insert_rep r l hex HR) as (r' & l' & HI & HR' & Hvals & Hincl).
  rewrite HV in Hvals.
  unfold closest_search. rewrite HI. cbn [obind].
  (* the entry of [hex] in the new ring *)
  assert (HA : exists p1 c p2 existed, l' = p1 ++ c :: p2 /\ snd c = hex /\
      (size r' =? size r) = existed /\
      ((existed = true /\ vals l' = vals l /\ In hex (vals l)) \/
       (existed = false /\ length l' = S (length l) /\ ~ In hex (vals l) /\ vals l = vals p1 ++ vals p2))).
  { destruct (key_dichotomy l (hex_val hex) (rep_sorted _ _ HR)) as [(e & He & Hk)|(l1 & l2 & El & H1 & H2)].
    - rewrite (ins_exists hex l e (rep_sorted _ _ HR) He Hk) in Hvals.
      assert (Hin : In hex (vals l)) by (rewrite <- (Hsp _ He Hk); apply in_map; exact He).
      assert (Hin' : In hex (vals l')) by (rewrite Hvals; exact Hin).
      apply in_map_iff in Hin'. destruct Hin' as (c & Ec & Hc). apply in_split in Hc. destruct Hc as (p1 & p2 & Ep).
      exists p1, c, p2, true. repeat split; auto.
      assert (HL : length l' = length l) by (apply (f_equal (@length _)) in Hvals; unfold vals in Hvals; rewrite !map_length in Hvals; exact Hvals).
      rewrite (rep_size _ _ HR'), (rep_size _ _ HR), HL. apply Z.eqb_refl.
    - rewrite El in Hvals. rewrite (ins_split hex l1 l2 H1 H2) in Hvals.
      assert (Hin' : In hex (vals l')) by (rewrite Hvals; apply in_or_app; simpl; auto).
      apply in_map_iff in Hin'. destruct Hin' as (c & Ec & Hc). apply in_split in Hc. destruct Hc as (p1 & p2 & Ep).
      assert (HL : length l' = S (length l)).
      { apply (f_equal (@length _)) in Hvals. unfold vals in Hvals. rewrite app_length in Hvals. cbn [length] in Hvals.
        rewrite !map_length in Hvals. rewrite El, app_length. lia. }
      exists p1, c, p2, false. repeat split; auto.
      + rewrite (rep_size _ _ HR'), (rep_size _ _ HR), HL. lia.
      + right. repeat split; auto.
        * intros Hin. apply in_map_iff in Hin. destruct Hin as (e & Ee & He). rewrite El in He.
          apply in_app_or in He. destruct He as [He|He]; [specialize (H1 _ He)|specialize (H2 _ He)];
            unfold ekey in *; rewrite Ee in *; lia.
        * pose proof (sorted_vals_nodup _ (rep_sorted _ _ HR')) as ND. rewrite Hvals in ND.
          rewrite Ep in Hvals. unfold vals in Hvals at 1. rewrite map_app in Hvals. cbn [map] in Hvals. rewrite Ec in Hvals.
          destruct (split_unique _ _ _ _ _ ND (eq_sym Hvals)) as [E1 E2]. rewrite El. unfold vals in *.
          rewrite map_app, E1, E2. reflexivity. }
  destruct HA as (p1 & c & p2 & existed & El' & Ec & Esz & Hcase).
  rewrite Esz.
  set (rest := p2 ++ p1).
  set (res0 := if existed then [hex] else []).
  assert (Hlen : length l' = S (length rest)).
  { rewrite El'. subst rest. rewrite !app_length. simpl. lia. }
  pose proof (rep_sorted _ _ HR') as HS'. rewrite El' in HS'.
  pose proof HS' as HS''. apply sorted_app in HS''. destruct HS'' as (S1 & S2 & S3).
  apply sorted_cons in S2. destruct S2 as [S2 S4].
  assert (Hk : ekey c = hex_val hex) by (unfold ekey; rewrite Ec; reflexivity).
  assert (HKr : 0 <= ekey c < M256) by (rewrite Hk; apply valid_key_range; exact HV).
  assert (HB : forall e, In e rest -> 0 <= ekey e < M256 /\ ekey e <> ekey c).
  { intros e He. split.
    - apply (rep_key_range _ _ _ HR'). rewrite El'. subst rest. rewrite in_app_iff in *. simpl. tauto.
    - subst rest. apply in_app_or in He. destruct He as [He|He].
      + specialize (S4 _ He). lia.
      + specialize (S3 _ c He (or_introl eq_refl)). lia. }
  assert (HD : dsorted (ekey c) rest).
  { apply rot_dsorted; auto.
    - intros e He. apply HB. subst rest. rewrite in_app_iff in *. tauto.
    - eapply sorted_remove. exact HS'.
    - intros e He. apply S3; simpl; auto. }
  (* the answer in terms of a split of rest *)
  assert (Hans : forall f m b, rest = f ++ m ++ b -> closer c f m b ->
     Z.of_nat (length (vals b ++ res0 ++ vals f)) = num ->
     closest_ok (vals l) hex num (vals b ++ res0 ++ vals f)).
  { intros f m b Er Hcl Hl. split; [exact Hl|]. exists (vals m). split.
    - assert (Rrest : rotation (vals f ++ vals m ++ vals b) (vals b ++ vals f ++ vals m)).
      { rewrite app_assoc. apply rotation_app. }
      assert (Erv : vals p2 ++ vals p1 = vals f ++ vals m ++ vals b).
      { unfold vals. rewrite <- !map_app. f_equal. exact Er. }
      destruct Hcase as [(-> & Hv & Hin)|(-> & HL & Hnin & Hv)].
      + subst res0. rewrite <- Hv, El'. unfold vals. rewrite map_app. cbn [map]. rewrite Ec. fold (vals p1) (vals p2).
        eapply rotation_trans; [apply rotation_app|]. cbn [app]. rewrite Erv.
        rewrite <- !app_assoc. cbn [app].
        change (hex :: vals f ++ vals m ++ vals b) with ((hex :: vals f) ++ vals m ++ vals b).
        rewrite app_assoc. eapply rotation_trans; [apply rotation_app|].
        cbn [app]. apply rotation_refl.
      + subst res0. rewrite Hv. eapply rotation_trans; [apply rotation_app|]. rewrite Erv.
        rewrite <- !app_assoc. cbn [app]. exact Rrest.
    - intros x y Hx Hy. rewrite <- Hk.
      apply in_map_iff in Hy. destruct Hy as (ey & <- & Hy).
      rewrite !in_app_iff in Hx. destruct Hx as [Hx|[Hx|Hx]].
      + apply in_map_iff in Hx. destruct Hx as (ex & <- & Hx). apply Hcl; auto. apply in_or_app; auto.
      + subst res0. destruct existed; [|destruct Hx]. destruct Hx as [<-|[]].
        rewrite <- Hk. unfold circ. rewrite cw_self. pose proof (cw_range (ekey c) (hex_val (snd ey))).
        pose proof (cw_range (hex_val (snd ey)) (ekey c)). lia.
      + apply in_map_iff in Hx. destruct Hx as (ex & <- & Hx). apply Hcl; auto. apply in_or_app; auto. }
  assert (Hfinal : forall res, closest_ok (vals l) hex num res ->
    exists res' r'0 l'0 pending,
      Ret (res, r', negb existed) = Ret (res', r'0, pending) /\ rep r'0 l'0 /\
      closest_ok (vals l) hex num res' /\
      ((In hex (vals l) /\ pending = false /\ vals l'0 = vals l) \/
       (~ In hex (vals l) /\ pending = true /\ vals l'0 = ins hex (vals l) /\ length l'0 = S (length l) /\
        exists p1 c p2, l'0 = p1 ++ c :: p2 /\ snd c = hex /\ vals l = vals p1 ++ vals p2))).
  { intros res Hres. exists res, r', l', (negb existed). split; [reflexivity|]. split; [exact HR'|]. split; [exact Hres|].
    destruct Hcase as [(-> & Hv & Hin)|(-> & HL & Hnin & Hv)]; [left|right]; repeat split; auto.
    exists p1, c, p2. auto. }
  destruct (existed && (num =? 1)) eqn:Eearly.
  - (* the point itself is enough *)
    apply andb_true_iff in Eearly. destruct Eearly as [-> En].
    assert (num = 1) by lia. subst num.
    specialize (Hfinal [hex]). cbn [negb] in Hfinal. apply Hfinal.
    specialize (Hans [] rest []). cbn [app] in Hans. rewrite app_nil_r in Hans.
    apply Hans; [reflexivity | intros x y [] | reflexivity].
  - assert (NEr : rest <> []).
    { intros E. rewrite E in Hlen. simpl in Hlen.
      destruct Hcase as [(-> & Hv & Hin)|(-> & HL & Hnin & Hv)].
      - apply (f_equal (@length _)) in Hv. unfold vals in Hv. rewrite !map_length in Hv.
        cbn [andb] in Eearly. lia.
      - rewrite Hlen in HL. injection HL as HL. symmetry in HL. apply length_zero_iff_nil in HL. contradiction. }
    pose proof (rep_holds _ _ HR') as HH'.
    pose proof (sorted_vals_nodup _ (rep_sorted _ _ HR')) as ND'.
    destruct l' as [|x l'']; [destruct p1; discriminate|].
    rewrite (rep_head _ _ HR').
    assert (Hx : holds (heap r') x) by (rewrite Forall_forall in HH'; apply HH'; left; reflexivity). destruct Hx as (nx & Hnx & Hkx & Hvx).
    rewrite (load_some _ _ _ Hnx). cbn [obind]. rewrite Hvx.
    assert (Hfuel : (length (x :: l'') < S (length (heap r')))%nat) by (pose proof (rep_length_heap _ _ HR'); simpl in *; lia).
    pose proof (find_scan_found (heap r') (x :: l'') x c p1 p2 (S (length (heap r'))) (rep_ring _ _ HR') HH' ND'
      eq_refl El' Hfuel) as HFS.
    rewrite Ec in HFS. rewrite HFS. cbn [obind].
    assert (Hc : holds (heap r') c).
    { rewrite Forall_forall in HH'. apply HH'. rewrite El'. apply in_or_app; simpl; auto. }
    destruct Hc as (nc & Hnc & Hkc & Hvc). rewrite (load_some _ _ _ Hnc). cbn [obind].
    assert (Hcyc : cyc (link (heap r')) (c :: rest)).
    { change (c :: rest) with ((c :: p2) ++ p1). apply cyc_rot. rewrite <- El'.
      apply lring_3_cyc; [|apply (rep_ring _ _ HR')]. rewrite Hlen. destruct rest; [contradiction|simpl; lia]. }
    destruct (cyc_ends _ _ _ Hcyc NEr) as [(N1 & _ & N3 & _) (_ & P2 & _ & P4)].
    unfold nxt in N1. unfold dn in N3. unfold pv in P2. unfold dp in P4. rewrite Hnc in N1, N3, P2, P4.
    rewrite P4, N3. cbn [loadz obind]. rewrite N1, P2.
    assert (Inl : In (last rest c) rest) by (apply map_last_in; exact NEr).
    assert (Inh : In (hd c rest) rest) by (destruct rest; [contradiction|simpl; auto]).
    rewrite (getDist_cw (ekey (last rest c)) (ekey c)), (getDist_cw (ekey c) (ekey (hd c rest)));
      try (apply HB; assumption); auto; try (apply not_eq_sym, HB; assumption).
    rewrite (cw_ccw (ekey c) (ekey (last rest c))); auto; try (apply HB; assumption); try (apply not_eq_sym, HB; assumption).
    fold (d (ekey c) (last rest c)). fold (d (ekey c) (hd c rest)).
    assert (Hhr : Forall (holds (heap r')) rest).
    { rewrite Forall_forall in *. intros e He. apply HH'. rewrite El'. subst rest. rewrite in_app_iff in *. simpl. tauto. }
    assert (Hres0 : Z.of_nat (length res0) < num).
    { subst res0. destruct existed; simpl in *; lia. }
    destruct (closest_scan_spec (heap r') c rest num res0 Hcyc Hhr HKr HB HD rest [] []
        (S (length (heap r') * length (heap r'))) res0) as (f & m & b & Hscan & Er & Hcl & Hend & Hle); auto.
    { rewrite app_nil_r. reflexivity. }
    { intros y z []. }
    { cbn. rewrite app_nil_r. reflexivity. }
    { simpl in Hfuel. simpl in Hlen. nia. }
    rewrite Hscan. cbn [obind].
    apply Hfinal. apply (Hans f m b); auto.
    destruct Hend as [->|Hend]; [|exact Hend].
    destruct Hle as [Hle|Hle]; [lia|].
    assert (HT : length (vals b ++ res0 ++ vals f) = (length res0 + length rest)%nat).
    { rewrite Er. unfold vals. rewrite !app_length, !map_length. simpl. lia. }
    assert (HT2 : (length l <= length res0 + length rest)%nat).
    { destruct Hcase as [(-> & Hv & Hin)|(-> & HL & Hnin & Hv)].
      - apply (f_equal (@length _)) in Hv. unfold vals in Hv. rewrite !map_length in Hv. subst res0. simpl in *. lia.
      - subst res0. simpl in *. lia. }
    lia.
Qed.
