(** Histories of the offer store. *)
From Coq Require Import List ZArith Bool Lia ZifyBool ZifyNat Sorting.Permutation Sorting.Sorted.
From Coq Require Import Init.Byte.
From Verif Require Import Base BaseProofs Ids IdsProofs Crypto Offer OfferProofs WireSpec Ring RingSpec RingFacts
  OfferStore OfferStoreSpec OfferStoreProofs.
Import ListNotations.
Open Scope Z_scope.
Open Scope go_scope.

(** ** First additions *)
Definition is_add (add : offer -> store_op) : Prop := forall x, (exists o, x = add o) \/ (forall o, x <> add o).
Lemma is_add_group : is_add AddGroup.
Proof. intros []; first [left; eexists; reflexivity|right; discriminate]. Qed.
Lemma is_add_dht : is_add AddDHT.
Proof. intros []; first [left; eexists; reflexivity|right; discriminate]. Qed.

Lemma first_snoc add hist t x o :
  first_added add (hist ++ [(t, x)]) o <->
  first_added add hist o \/ (x = add o /\ forall t' o', In (t', add o') hist -> ~ same_terms o o').
Proof.
  split.
  - intros (h1 & t1 & h2 & E & N). destruct h2 as [|y h2] using rev_ind.
    + apply app_inj_tail in E as [-> E]. injection E as <- <-. auto.
    + clear IHh2. left. exists h1, t1, h2. split; [|exact N].
      rewrite app_comm_cons, app_assoc in E. apply app_inj_tail in E as [E _]. exact E.
  - intros [(h1 & t1 & h2 & -> & N)|[-> N]].
    + exists h1, t1, (h2 ++ [(t, x)]). split; [|exact N]. rewrite <- app_assoc. reflexivity.
    + exists hist, t, []. split; [reflexivity|exact N].
Qed.

Lemma first_In add hist o : first_added add hist o -> exists t, In (t, add o) hist.
Proof. intros (h1 & t & h2 & -> & _). exists t. apply in_or_app. right. left. reflexivity. Qed.

Lemma earlier_dec add (D : is_add add) (INJ : forall a b, add a = add b -> a = b) (hist : history) o :
  (exists t o', In (t, add o') hist /\ same_terms o o') \/ (forall t o', In (t, add o') hist -> ~ same_terms o o').
Proof.
  induction hist as [|[t x] hist IH]; [right; intros t o' []|].
  destruct IH as [(t' & o' & I & S)|N]; [left; exists t', o'; split; [right; exact I|exact S]|].
  destruct (D x) as [(o1 & ->)|X].
  - destruct (same_terms_dec o o1) as [S|S]; [left; exists t, o1; split; [left; reflexivity|exact S]|].
    right. intros t' o' [E|I]; [|eapply N; eauto]. injection E as _ E. apply INJ in E. congruence.
  - right. intros t' o' [E|I]; [|eapply N; eauto]. injection E as _ E. destruct (X _ E).
Qed.

Lemma first_exists add (D : is_add add) (INJ : forall a b, add a = add b -> a = b) (hist : history) : forall t o,
  In (t, add o) hist -> exists o', first_added add hist o' /\ same_terms o o'.
Proof.
  induction hist as [|[t x] hist IH] using rev_ind; [intros t o []|].
  intros t' o I. apply in_app_or in I. destruct I as [I|[E|[]]].
  - destruct (IH t' o I) as (o' & F & S). exists o'. split; [apply first_snoc; auto|exact S].
  - injection E as _ ->. destruct (earlier_dec add D INJ hist o) as [(t2 & o2 & I2 & S2)|N].
    + destruct (IH t2 o2 I2) as (o' & F & S). exists o'. split; [apply first_snoc; auto|eapply same_terms_trans; eauto].
    + exists o. split; [apply first_snoc; auto|apply same_terms_refl].
Qed.

Lemma new_in_kind add (D : is_add add) (INJ : forall a b, add a = add b -> a = b) (hist : history) (size : nat -> Prop) o :
  size (length (o_cids o)) ->
  ((forall t o', In (t, add o') hist -> ~ same_terms o o') <->
   (forall o', first_added add hist o' /\ size (length (o_cids o')) -> ~ same_terms o o')).
Proof.
  intros Z. split.
  - intros H o' [F _]. apply first_In in F as (t & I). eapply H; eauto.
  - intros H t o' I S. destruct (first_exists add D INJ hist t o' I) as (o2 & F & S2).
    assert (S3 := same_terms_trans _ _ _ S S2). apply (H o2); [|exact S3]. split; [exact F|].
    destruct S3 as (_ & E & _). rewrite <- E. exact Z.
Qed.

(** ** The part returned by a range query *)
Definition cap (max : Z) : Z := Z.max 1 max.

Lemma take_spec max : forall new acc, Z.of_nat (length acc) < cap max ->
  take_offers max acc new =
  (acc ++ firstn (Z.to_nat (cap max) - length acc) new, cap max <=? Z.of_nat (length acc + length new)).
Proof.
  unfold cap. induction new as [|o new IH]; intros acc H; cbn [take_offers].
  - rewrite firstn_nil, app_nil_r. f_equal. cbn [length]. lia.
  - rewrite app_length. cbn [length]. replace (Z.to_nat (Z.max 1 max) - length acc)%nat with (S (Z.to_nat (Z.max 1 max) - length acc - 1))%nat by lia.
    cbn [firstn]. destruct (max <=? Z.of_nat (length acc + 1)) eqn:E.
    + replace (Z.to_nat (Z.max 1 max) - length acc - 1)%nat with 0%nat by lia. cbn [firstn]. f_equal. lia.
    + rewrite IH by (rewrite app_length; cbn [length]; lia). rewrite app_length, <- app_assoc. cbn [length app].
      replace (Z.to_nat (Z.max 1 max) - (length acc + 1))%nat with (Z.to_nat (Z.max 1 max) - length acc - 1)%nat by lia.
      f_equal. lia.
Qed.

Section hist.
  Variable sha : bytes -> bytes.
  Notation dig := (dig sha).
  Notation sinv := (sinv sha).

  Definition at_entry (L : offer -> Prop) (now : Z) (e : gostring) (os : list offer) : Prop :=
    exactly os (fun o => L o /\ live now o /\ exists c, id32 c /\ e = ToString c /\ In c (o_cids o)).

  Lemma get_at order t now h L s c : t <= now -> sinv t h L s -> id32 c -> shuffle order ->
    exists os s', store_get sha order now h s c = Ret (os, s') /\ sinv now h L s' /\ at_entry L now (ToString c) os.
  Proof.
    intros T I C Sh. destruct (get_spec sha order t now h L s c T I C Sh) as (os & s' & E & I' & N & X).
    exists os, s'. split; [exact E|]. split; [exact I'|]. split; [exact N|]. intros o. rewrite X. split.
    - intros (A & B & D). repeat split; auto. exists c. auto.
    - intros (A & B & c' & C' & E' & D). repeat split; auto. replace c with c'; [exact D|]. symmetry. apply ToString_inj; auto.
  Qed.

  Lemma collect_spec order now h max L : shuffle order -> forall es s acc t, t <= now -> sinv t h L s ->
    (forall e, In e es -> exists c, id32 c /\ e = ToString c) -> Z.of_nat (length acc) < cap max ->
    exists os s' oss, collect sha order now h max es s acc = Ret (os, negb (is_nil os), s') /\ sinv now h L s' /\
      Forall2 (at_entry L now) es oss /\ os = acc ++ firstn (Z.to_nat (cap max) - length acc) (concat oss).
  Proof.
    intros Sh. induction es as [|e es IH]; intros s acc t T I H A; cbn [collect].
    - exists acc, s, []. split; [reflexivity|]. split.
      { pose proof (sinv_later sha t now h [] L s T I) as Q. rewrite app_nil_r in Q. exact Q. }
      split; [constructor|]. cbn [concat]. rewrite firstn_nil, app_nil_r. reflexivity.
    - destruct (H e (or_introl eq_refl)) as (c & C & ->). destruct (id_hex_roundtrip_pf c C) as (-> & _).
      destruct (get_at order t now h L s c T I C Sh) as (os & s' & E & I' & X). rewrite E. cbn [obind fst snd].
      rewrite take_spec by exact A.
      assert (H' : forall e, In e es -> exists c, id32 c /\ e = ToString c) by (intros; apply H; right; assumption).
      assert (EX : exists oss, Forall2 (at_entry L now) es oss).
      { clear - H' I' Sh. induction es as [|e es IH]; [exists []; constructor|].
        destruct IH as (oss & F); [intros; apply H'; right; assumption|].
        destruct (H' e (or_introl eq_refl)) as (c & C & ->).
        destruct (get_at order now now h L s' c (Z.le_refl _) I' C Sh) as (os & _ & _ & _ & X). exists (os :: oss). constructor; assumption. }
      destruct (cap max <=? Z.of_nat (length acc + length os)) eqn:B.
      + destruct EX as (oss & F). eexists. exists s', (os :: oss). split; [reflexivity|]. split; [exact I'|].
        split; [constructor; assumption|]. f_equal. cbn [concat]. rewrite firstn_app.
        replace (Z.to_nat (cap max) - length acc - length os)%nat with 0%nat by lia. rewrite app_nil_r. reflexivity.
      + set (acc' := acc ++ firstn _ os). assert (Ea : acc' = acc ++ os).
        { subst acc'. rewrite firstn_all2; [reflexivity|]. lia. }
        destruct (IH s' acc' now (Z.le_refl _) I' H') as (os2 & s2 & oss & E2 & I2 & F & V).
        { rewrite Ea, app_length. lia. }
        exists os2, s2, (os :: oss). split; [exact E2|]. split; [exact I2|]. split; [constructor; assumption|].
        rewrite V, Ea. cbn [concat]. rewrite firstn_app, app_length, <- app_assoc. f_equal.
        rewrite (firstn_all2 os) by lia. f_equal. f_equal. lia.
  Qed.

  (** ** The state after a history *)
  Definition no_clash (hist : history) : Prop :=
    forall t x o t' x' o', In (t, x) hist -> In (t', x') hist -> added_offer x = Some o -> added_offer x' = Some o' ->
      dig o = dig o' -> same_terms o o'.
  Definition all_storable (hist : history) : Prop :=
    forall t x o, In (t, x) hist -> added_offer x = Some o -> storable o.

  Record minv (hist : history) (h : list offer) (m : offer_mgr) : Prop := {
    mi_group : forall now, (forall t x, In (t, x) hist -> t <= now) -> sinv now h (group_offer hist) (groupOffers m);
    mi_dht : forall now, (forall t x, In (t, x) hist -> t <= now) -> sinv now h (single_offer hist) (dhtOffers m);
    mi_ring : healthy (dhtOfferRing m);
    mi_points : forall e, In e (entries (dhtOfferRing m)) -> exists c, id32 c /\ e = ToString c;
    mi_added : forall t o c, In (t, AddDHT o) hist -> o_cids o = [c] -> In (ToString c) (entries (dhtOfferRing m));
    mi_clash : no_clash hist;
    mi_storable : all_storable hist
  }.

  Lemma group_snoc hist t x o' : (forall o, x <> AddGroup o) ->
    group_offer hist o' <-> group_offer (hist ++ [(t, x)]) o'.
  Proof. intros N. unfold group_offer. rewrite first_snoc. split; [tauto|]. intros [[A|[A _]] B]; [auto|destruct (N _ A)]. Qed.
  Lemma single_snoc hist t x o' : (forall o, x <> AddDHT o) ->
    single_offer hist o' <-> single_offer (hist ++ [(t, x)]) o'.
  Proof. intros N. unfold single_offer. rewrite first_snoc. split; [tauto|]. intros [[A|[A _]] B]; [auto|destruct (N _ A)]. Qed.

  Lemma snoc_le (hist : history) now (x : store_op) now' :
    (forall t y, In (t, y) (hist ++ [(now, x)]) -> t <= now') -> now <= now'.
  Proof. intros H. apply (H now x). apply in_or_app. right. left. reflexivity. Qed.

  (** A storage that did not see an addition of its kind. *)
  Lemma keep_group hist now x h h' s :
    (forall o, x <> AddGroup o) -> sinv now h (group_offer hist) s ->
    forall now', (forall t y, In (t, y) (hist ++ [(now, x)]) -> t <= now') ->
      sinv now' (h ++ h') (group_offer (hist ++ [(now, x)])) s.
  Proof.
    intros N I now' H. eapply sinv_same; [|reflexivity|apply (sinv_later sha now); [eapply snoc_le; eauto|exact I]].
    intros o. apply group_snoc, N.
  Qed.
  Lemma keep_single hist now x h h' s :
    (forall o, x <> AddDHT o) -> sinv now h (single_offer hist) s ->
    forall now', (forall t y, In (t, y) (hist ++ [(now, x)]) -> t <= now') ->
      sinv now' (h ++ h') (single_offer (hist ++ [(now, x)])) s.
  Proof.
    intros N I now' H. eapply sinv_same; [|reflexivity|apply (sinv_later sha now); [eapply snoc_le; eauto|exact I]].
    intros o. apply single_snoc, N.
  Qed.
  Lemma keep0 now h L s now' : now <= now' -> sinv now h L s -> sinv now' h L s.
  Proof. intros H I. pose proof (sinv_later sha now now' h [] L s H I) as Q. rewrite app_nil_r in Q. exact Q. Qed.

  Lemma clash_snoc hist now x : no_clash hist -> all_storable hist ->
    match added_offer x with
    | Some o => storable o /\ (forall t y o', In (t, y) hist -> added_offer y = Some o' -> dig o' = dig o -> same_terms o o')
    | None => True end ->
    no_clash (hist ++ [(now, x)]) /\ all_storable (hist ++ [(now, x)]).
  Proof.
    intros C S H. split.
    - intros t1 x1 o1 t2 x2 o2 I1 I2 E1 E2 D. apply in_app_or in I1, I2.
      destruct I1 as [I1|[I1|[]]], I2 as [I2|[I2|[]]]; try (injection I1 as <- <-); try (injection I2 as <- <-).
      + exact (C t1 x1 o1 t2 x2 o2 I1 I2 E1 E2 D).
      + rewrite E2 in H. apply same_terms_sym. exact (proj2 H t1 x1 o1 I1 E1 D).
      + rewrite E1 in H. exact (proj2 H t2 x2 o2 I2 E2 (eq_sym D)).
      + assert (o1 = o2) by congruence. subst. apply same_terms_refl.
    - intros t1 x1 o1 I1 E1. apply in_app_or in I1. destruct I1 as [I1|[I1|[]]]; [eapply S; eauto|].
      injection I1 as <- <-. rewrite E1 in H. apply H.
  Qed.

  Lemma allowed_clash hist h m now x : minv hist h m -> allowed sha hist (h, m) now x ->
    match added_offer x with
    | Some o => storable o /\ (forall t y o', In (t, y) hist -> added_offer y = Some o' -> dig o' = dig o -> same_terms o o')
    | None => True end.
  Proof.
    intros I [_ A]. destruct x; try exact Logic.I; destruct A as [S A]; (split; [exact S|]);
      intros t y o' J E D; apply (A t y o' J E); rewrite !digest_dig; try congruence; try apply S; apply (mi_storable _ _ _ I _ _ _ J E).
  Qed.

  Lemma minv_query hist h m now x m' : minv hist h m -> allowed sha hist (h, m) now x -> added_offer x = None ->
    sinv now h (group_offer hist) (groupOffers m') -> sinv now h (single_offer hist) (dhtOffers m') ->
    healthy (dhtOfferRing m') -> entries (dhtOfferRing m') = entries (dhtOfferRing m) ->
    minv (hist ++ [(now, x)]) h m'.
  Proof.
    intros I A N G D R E. assert (NG : forall o, x <> AddGroup o) by (intros o ->; discriminate).
    assert (NS : forall o, x <> AddDHT o) by (intros o ->; discriminate).
    destruct (clash_snoc hist now x (mi_clash _ _ _ I) (mi_storable _ _ _ I) (allowed_clash _ _ _ _ _ I A)) as [C S].
    split; auto.
    - intros now' H. pose proof (keep_group hist now x h [] _ NG G now' H) as Q. rewrite app_nil_r in Q. exact Q.
    - intros now' H. pose proof (keep_single hist now x h [] _ NS D now' H) as Q. rewrite app_nil_r in Q. exact Q.
    - rewrite E. apply (mi_points _ _ _ I).
    - intros t o c J. rewrite E. apply in_app_or in J. destruct J as [J|[J|[]]]; [eapply mi_added; eauto|].
      injection J as _ J. destruct (NS _ J).
  Qed.

  Lemma sorted_concat L now lo : forall es oss,
    StronglySorted (fun a b => cw (hex_val lo) (hex_val a) < cw (hex_val lo) (hex_val b)) es ->
    Forall2 (at_entry L now) es oss -> (forall o, L o -> length (o_cids o) = 1%nat) ->
    NoDup (concat oss) /\
    (forall o, In o (concat oss) <-> L o /\ live now o /\ exists c, id32 c /\ In (ToString c) es /\ In c (o_cids o)) /\
    forall lob, hex_val lo = be_val lob -> StronglySorted (fun a b => offset lob a <= offset lob b) (concat oss).
  Proof.
    intros es oss HS HF H1. revert HS. induction HF as [|e os es oss He HF IH]; intros HS.
    - split; [constructor|]. split; [|intros; constructor]. intros o. split; [intros []|intros (_ & _ & c & _ & [] & _)].
    - inversion HS as [|? ? HS' HA]; subst. destruct (IH HS') as (N & M & S). destruct He as [Ne Me]. cbn [concat].
      assert (OFF : forall o, L o -> forall c lob, In c (o_cids o) -> id32 c -> hex_val lo = be_val lob -> offset lob o = cw (hex_val lo) (hex_val (ToString c))).
      { intros o Lo c lob I C E. specialize (H1 o Lo). destruct (o_cids o) as [|c1 [|]] eqn:Ec; try discriminate.
        destruct I as [->|[]]. unfold offset. rewrite Ec, E, ToString_val by exact C. reflexivity. }
      assert (UNI : forall o, L o -> forall c c', In c (o_cids o) -> In c' (o_cids o) -> c = c').
      { intros o Lo c c' I I'. specialize (H1 o Lo). destruct (o_cids o) as [|c1 [|]]; try discriminate.
        destruct I as [->|[]], I' as [->|[]]. reflexivity. }
      rewrite Forall_forall in HA.
      split; [apply nodup_app_iff; repeat split; auto|split].
      + intros o I1 I2. apply Me in I1. apply M in I2. destruct I1 as (Lo & _ & c & C & E & J), I2 as (_ & _ & c' & C' & E' & J').
        rewrite (UNI o Lo c c' J J') in E. specialize (HA _ E'). rewrite <- E in HA. lia.
      + intros o. rewrite in_app_iff, Me, M. split.
        * intros [(A & B & c & C & -> & J)|(A & B & c & C & J' & J)]; repeat split; auto; exists c; cbn [In]; auto.
        * intros (A & B & c & C & [J|J] & K); [left|right]; repeat split; auto; exists c; auto.
      + intros lob E. apply ss_app_intro; [|apply S, E|].
        * clear - Me OFF E UNI. assert (Q : forall a b, In a os -> In b os -> offset lob a <= offset lob b).
          { intros a b Ia Ib. apply Me in Ia, Ib. destruct Ia as (La & _ & c & C & Ec & J), Ib as (Lb & _ & c' & C' & Ec' & J').
            rewrite (OFF a La c lob J C E), (OFF b Lb c' lob J' C' E). rewrite <- Ec, <- Ec'. lia. }
          clear Me. induction os as [|o os IH]; constructor; [apply IH; intros; apply Q; right; assumption|].
          apply Forall_forall. intros b Ib. apply Q; [left; reflexivity|right; exact Ib].
        * intros a b Ia Ib. apply Me in Ia. apply M in Ib. destruct Ia as (La & _ & c & C & Ec & J), Ib as (Lb & _ & c' & C' & Ec' & J').
          rewrite (OFF a La c lob J C E), (OFF b Lb c' lob J' C' E), <- Ec. specialize (HA _ Ec'). lia.
  Qed.

  Lemma step_spec hist h m now x : minv hist h m -> allowed sha hist (h, m) now x ->
    exists h' m' a, store_step sha (h, m) now x = Ret ((h', m'), a) /\ minv (hist ++ [(now, x)]) h' m' /\
      answer sha hist now x a.
  Proof.
    intros I A. assert (T := proj1 A). assert (G := mi_group _ _ _ I now T). assert (D := mi_dht _ _ _ I now T).
    assert (AC := allowed_clash _ _ _ _ _ I A).
    destruct (clash_snoc hist now x (mi_clash _ _ _ I) (mi_storable _ _ _ I) AC) as [C S].
    destruct x as [o|o|c f|c f|c f g|lo hi max f|d f g]; cbn [store_step added_offer] in *.
    - (* AddGroup *)
      destruct AC as [So Nc]. unfold AddGroupOffer. rewrite cell_last. cbn [obind].
      assert (KS : forall now', (forall t y, In (t, y) (hist ++ [(now, AddGroup o)]) -> t <= now') ->
        sinv now' (h ++ [o]) (single_offer (hist ++ [(now, AddGroup o)])) (dhtOffers m)).
      { apply keep_single; [discriminate|exact D]. }
      assert (KA : forall t o' c, In (t, AddDHT o') (hist ++ [(now, AddGroup o)]) -> o_cids o' = [c] -> In (ToString c) (entries (dhtOfferRing m))).
      { intros t o' c J. apply in_app_or in J. destruct J as [J|[J|[]]]; [eapply mi_added; eauto|discriminate]. }
      destruct (Nat.leb_spec (length (o_cids o)) 1) as [Z|Z].
      + exists (h ++ [o]), m, (RAdd ErrR). split; [reflexivity|]. split.
        * split; auto; try apply I. intros now' H'.
          eapply sinv_same; [|reflexivity|apply (sinv_later sha now); [eapply snoc_le; eauto|exact G]].
          intros o'. unfold group_offer. rewrite first_snoc. split; [tauto|]. intros [[X|[X _]] Y]; [auto|]. injection X as <-. lia.
        * cbn [answer]. split; [auto|]. split; [lia|auto].
      + destruct (add_spec sha now now h (group_offer hist) (group_offer (hist ++ [(now, AddGroup o)])) (groupOffers m) o)
          as (r & s' & E & I' & A1 & A2); auto; try lia.
        * intros E. rewrite E in Z. cbn in Z. lia.
        * intros o' [F _] Dg. apply first_In in F as (t & J). apply (Nc t (AddGroup o') o' J eq_refl Dg).
        * intros o'. unfold group_offer. rewrite first_snoc. split.
          -- intros [[X|[X Y]] W]; [auto|]. injection X as <-. right. split; [reflexivity|].
             apply (proj1 (new_in_kind AddGroup is_add_group (fun a b H => f_equal (fun z => match z with AddGroup q => q | _ => a end) H) hist (fun n => (2 <= n)%nat) o W)). exact Y.
          -- intros [[X Y]|[-> X]]; [auto|]. split; [|lia]. right. split; [reflexivity|].
             apply (proj2 (new_in_kind AddGroup is_add_group (fun a b H => f_equal (fun z => match z with AddGroup q => q | _ => a end) H) hist (fun n => (2 <= n)%nat) o ltac:(cbn beta; lia))). exact X.
        * rewrite E. cbn [obind fst snd]. eexists _, _, _. split; [reflexivity|]. split.
          -- split; auto; try apply I. intros now' H'. cbn [groupOffers]. apply (keep0 now); [eapply snoc_le; eauto|exact I'].
          -- cbn [answer]. split; [lia|]. split; [auto|]. intros Lv X. apply A2; [exact Lv|].
             intros o' [F _]. apply first_In in F as (t & J). eapply X; eauto.
    - (* AddDHT *)
      destruct AC as [So Nc]. unfold AddDHTOffer. rewrite cell_last. cbn [obind].
      assert (KG : forall now', (forall t y, In (t, y) (hist ++ [(now, AddDHT o)]) -> t <= now') ->
        sinv now' (h ++ [o]) (group_offer (hist ++ [(now, AddDHT o)])) (groupOffers m)).
      { apply keep_group; [discriminate|exact G]. }
      assert (BAD : length (o_cids o) <> 1%nat ->
        minv (hist ++ [(now, AddDHT o)]) (h ++ [o]) m /\ answer sha hist now (AddDHT o) (RAdd ErrR)).
      { intros Z. split.
        * split; auto; try apply I.
          -- intros now' H'. eapply sinv_same; [|reflexivity|apply (sinv_later sha now); [eapply snoc_le; eauto|exact D]].
             intros o'. unfold single_offer. rewrite first_snoc. split; [tauto|]. intros [[X|[X _]] Y]; [auto|]. injection X as <-. contradiction.
          -- intros t o' c J E. apply in_app_or in J. destruct J as [J|[J|[]]]; [eapply mi_added; eauto|].
             injection J as _ ->. rewrite E in Z. cbn in Z. lia.
        * cbn [answer]. split; [auto|]. split; [lia|auto]. }
      destruct (o_cids o) as [|c [|c2 cs]] eqn:Ec.
      + eexists _, _, _. split; [reflexivity|]. apply BAD. cbn. lia.
      + assert (C32 : id32 c).
        { destruct So as ((_ & F & _) & _). rewrite Ec in F. inversion F; assumption. }
        destruct (insert_ok (dhtOfferRing m) (ToString c) (mi_ring _ _ _ I)) as (r' & Ei & Hr & _ & _ & Hv).
        rewrite Ei. cbn [obind].
        assert (IN : In (ToString c) (entries r')).
        { apply Hv. destruct (existsb (bytes_eqb (ToString c)) (entries (dhtOfferRing m))) eqn:B.
          - left. apply existsb_In. exact B.
          - right. split; [reflexivity|]. split; [apply ToString_point, C32|]. intros u Iu V.
            destruct (mi_points _ _ _ I u Iu) as (c' & C' & ->). rewrite !ToString_val in V by assumption.
            assert (c' = c) by (apply be_val_inj; unfold id32 in *; congruence). subst c'.
            apply existsb_In in Iu. congruence. }
        destruct (add_spec sha now now h (single_offer hist) (single_offer (hist ++ [(now, AddDHT o)])) (dhtOffers m) o)
          as (r & s' & E & I' & A1 & A2); auto; try lia.
        * congruence.
        * intros o' [F _] Dg. apply first_In in F as (t & J). apply (Nc t (AddDHT o') o' J eq_refl Dg).
        * intros o'. unfold single_offer. rewrite first_snoc. split.
          -- intros [[X|[X Y]] W]; [auto|]. injection X as <-. right. split; [reflexivity|].
             apply (proj1 (new_in_kind AddDHT is_add_dht (fun a b H => f_equal (fun z => match z with AddDHT q => q | _ => a end) H) hist (fun n => n = 1%nat) o W)). exact Y.
          -- intros [[X Y]|[-> X]]; [auto|]. split; [|rewrite Ec; reflexivity]. right. split; [reflexivity|].
             apply (proj2 (new_in_kind AddDHT is_add_dht (fun a b H => f_equal (fun z => match z with AddDHT q => q | _ => a end) H) hist (fun n => n = 1%nat) o ltac:(cbn beta; rewrite Ec; reflexivity))). exact X.
        * rewrite E. cbn [obind fst snd]. eexists _, _, _. split; [reflexivity|]. split.
          -- split; auto; cbn [groupOffers dhtOffers dhtOfferRing].
             ++ intros now' H'. apply (keep0 now); [eapply snoc_le; eauto|exact I'].
             ++ intros e Ie. apply Hv in Ie. destruct Ie as [Ie|(-> & _)]; [apply (mi_points _ _ _ I), Ie|eauto].
             ++ intros t o' c' J E'. apply in_app_or in J. destruct J as [J|[J|[]]].
                ** apply Hv. left. eapply mi_added; eauto.
                ** injection J as _ <-. rewrite Ec in E'. injection E' as <-. exact IN.
          -- cbn [answer]. rewrite Ec. split; [cbn; lia|]. split; [auto|]. intros Lv X. apply A2; [exact Lv|].
             intros o' [F _]. apply first_In in F as (t & J). eapply X; eauto.
      + eexists _, _, _. split; [reflexivity|]. apply BAD. cbn. lia.
    - (* GetGroup *)
      destruct A as [_ (C32 & Sh)]. unfold GetGroupOffers.
      destruct (get_spec sha f now now h _ _ c (Z.le_refl _) G C32 Sh) as (os & s' & E & I' & X). rewrite E. cbn [obind fst snd].
      eexists _, _, _. split; [reflexivity|]. split; [|cbn [answer]; auto].
      eapply minv_query; eauto; cbn; auto; try apply I. split; auto.
    - (* GetDHT *)
      destruct A as [_ (C32 & Sh)]. unfold GetDHTOffers.
      destruct (get_spec sha f now now h _ _ c (Z.le_refl _) D C32 Sh) as (os & s' & E & I' & X). rewrite E. cbn [obind fst snd].
      eexists _, _, _. split; [reflexivity|]. split; [|cbn [answer]; auto].
      eapply minv_query; eauto; cbn; auto; try apply I. split; auto.
    - (* GetBoth *)
      destruct A as [_ (C32 & Shf & Shg)]. unfold GetOffers.
      destruct (get_spec sha f now now h _ _ c (Z.le_refl _) G C32 Shf) as (os & s' & E & I' & N1 & X1). rewrite E. cbn [obind fst snd].
      destruct (get_spec sha g now now h _ _ c (Z.le_refl _) D C32 Shg) as (os2 & s2 & E2 & I2 & N2 & X2). rewrite E2. cbn [obind fst snd].
      eexists _, _, _. split; [reflexivity|]. split; [eapply minv_query; eauto; cbn; auto; try apply I; split; auto|].
      cbn [answer]. split; [reflexivity|]. split.
      + apply nodup_app_iff. repeat split; auto. intros o I1 J2. apply X1 in I1. apply X2 in J2.
        destruct I1 as [[_ I1] _], J2 as [[_ J2] _]. lia.
      + intros o. rewrite in_app_iff, X1, X2. tauto.
    - (* GetRange *)
      destruct A as [_ (Cl & Ch & Sh & FL)]. cbn [snd] in FL. unfold GetDHTOffersWithinRange.
      destruct (range_exact _ _ _ (mi_ring _ _ _ I) (ToString_point lo Cl) (ToString_point hi Ch) FL) as (es & r' & E & (RI & RS)).
      destruct (query_preserves _ _ (mi_ring _ _ _ I) FL Logic.I) as (r2 & E2 & Hh & He & _).
      cbn [run_op] in E2. rewrite E in *. cbn [obind snd] in *. apply ret_inj in E2. subst r2.
      destruct (collect_spec f now h max (single_offer hist) Sh es (dhtOffers m) [] now (Z.le_refl _) D) as (os & s' & oss & Ec & I' & F & V).
      { intros e Ie. apply RI in Ie. apply (mi_points _ _ _ I), Ie. }
      { cbn [length]. unfold cap. lia. }
      rewrite Ec. cbn [obind fst snd]. eexists _, _, _. split; [reflexivity|]. split; [eapply minv_query; eauto; cbn; auto; try apply I; split; auto|].
      cbn [answer fst snd]. split; [reflexivity|].
      destruct (sorted_concat (single_offer hist) now (ToString lo) es oss RS F) as (N & M & SS); [intros o [_ H]; exact H|].
      specialize (SS lo (ToString_val lo Cl)).
      cbn [app length] in V. rewrite Nat.sub_0_r in V. exists (skipn (Z.to_nat (cap max)) (concat oss)).
      rewrite V. rewrite firstn_skipn. split; [|split; [exact SS|]].
      + split; [exact N|]. intros o. rewrite M. split.
        * intros (Lo & Lv & c & C32 & Ie & Ic). repeat split; auto; try apply Lo.
          apply RI in Ie. destruct Ie as [_ Ie]. rewrite !ToString_val in Ie by assumption.
          destruct Lo as [_ L1]. unfold offset. destruct (o_cids o) as [|c1 [|]]; try discriminate. destruct Ic as [->|[]]. exact Ie.
        * intros (Lo & Lv & Of). repeat split; auto; try apply Lo. destruct Lo as [F1 L1].
          destruct (o_cids o) as [|c [|]] eqn:Eo; try discriminate. exists c.
          apply first_In in F1 as (t & J). assert (C32 : id32 c).
          { destruct (mi_storable _ _ _ I t (AddDHT o) o J eq_refl) as ((_ & Fo & _) & _). rewrite Eo in Fo. inversion Fo; assumption. }
          split; [exact C32|]. split; [|left; reflexivity]. apply RI. split; [eapply mi_added; eauto|].
          rewrite !ToString_val by assumption. unfold offset in Of. rewrite Eo in Of. exact Of.
      + rewrite firstn_length. unfold cap. lia.
    - (* GetByDigest *)
      destruct A as [_ (Shf & Shg)]. unfold GetOfferByDigest.
      pose proof (find_digest_spec sha f now h _ _ d D Shf) as H1. pose proof (find_digest_spec sha g now h _ _ d G Shg) as H2.
      assert (MI : minv (hist ++ [(now, GetByDigest d f g)]) h m).
      { eapply minv_query; eauto; try apply I. split; cbn; auto. }
      assert (GD : forall o, group_offer hist o \/ single_offer hist o -> GetMessageDigest sha o = Ret (dig o)).
      { intros o Ho. apply digest_dig. destruct Ho as [[F _]|[F _]]; apply first_In in F as (t & J);
          [apply (mi_storable _ _ _ I t (AddGroup o) o J eq_refl)|apply (mi_storable _ _ _ I t (AddDHT o) o J eq_refl)]. }
      assert (GS : forall o o', group_offer hist o -> single_offer hist o' -> dig o <> dig o').
      { intros o o' [F Z] [F' Z'] E. apply first_In in F as (t & J), F' as (t' & J').
        destruct (mi_clash _ _ _ I _ _ _ _ _ _ J J' eq_refl eq_refl E) as (_ & Ec & _). rewrite Ec in Z. lia. }
      assert (RD : forall o d', Ret o = Ret d' -> o = d' :> bytes) by (intros ? ? [= ->]; reflexivity).
      destruct (find_digest (f (dhtOffers m)) d) as [p|].
      + destruct H1 as (o & N & Lo & Dg). unfold cell, deref. rewrite N. cbn [obind].
        eexists _, _, _. split; [reflexivity|]. split; [exact MI|]. cbn [answer]. split.
        * intros o' [= <-]. split; [auto|]. rewrite GD by auto. congruence.
        * intros o' Ho Lv E. rewrite GD in E by exact Ho. apply RD in E. destruct Ho as [Ho|Ho].
          -- destruct (GS o' o Ho Lo). congruence.
          -- f_equal. eapply si_uniq; eauto. congruence.
      + destruct (find_digest (g (groupOffers m)) d) as [p|].
        * destruct H2 as (o & N & Lo & Dg). unfold cell, deref. rewrite N. cbn [obind].
          eexists _, _, _. split; [reflexivity|]. split; [exact MI|]. cbn [answer]. split.
          -- intros o' [= <-]. split; [auto|]. rewrite GD by auto. congruence.
          -- intros o' Ho Lv E. rewrite GD in E by exact Ho. apply RD in E. destruct Ho as [Ho|Ho].
             ++ f_equal. apply (si_uniq sha now h _ _ G); auto. congruence.
             ++ exfalso. pose proof Ho as [_ Z]. destruct (o_cids o') as [|c [|]] eqn:Ec; try discriminate.
                eapply (H1 o' c); eauto. rewrite Ec. left. reflexivity.
        * cbn [obind]. eexists _, _, _. split; [reflexivity|]. split; [exact MI|]. cbn [answer]. split; [discriminate|].
          intros o' Ho Lv E. rewrite GD in E by exact Ho. apply RD in E. exfalso. destruct Ho as [Ho|Ho].
          -- pose proof Ho as [_ Z]. destruct (o_cids o') as [|c cs] eqn:Ec; [cbn in Z; lia|].
             eapply (H2 o' c); eauto. rewrite Ec. left. reflexivity.
          -- pose proof Ho as [_ Z]. destruct (o_cids o') as [|c [|]] eqn:Ec; try discriminate.
             eapply (H1 o' c); eauto. rewrite Ec. left. reflexivity.
  Qed.

  Lemma new_minv : minv [] [] NewFCROfferMgr.
  Proof.
    assert (E : forall now L, (forall o, ~ L o) -> sinv now [] L []).
    { intros now L H. split.
      - split; [constructor|]. intros k m X. discriminate.
      - intros k d p X. discriminate.
      - intros k d p o c X. discriminate.
      - intros o c X. destruct (H _ X).
      - intros o o' X. destruct (H _ X).
      - intros o X. destruct (H _ X). }
    split.
    - intros now _. apply E. intros o [F _]. apply first_In in F as (t & []).
    - intros now _. apply E. intros o [F _]. apply first_In in F as (t & []).
    - constructor.
    - intros e [].
    - intros t o c [].
    - intros t x o t' x' o' [].
    - intros t x o [].
  Qed.

  Lemma reaches_minv hist s : reaches sha hist s -> minv hist (fst s) (snd s).
  Proof.
    induction 1 as [|hist [h m] now x s' a R IH A E]; [apply new_minv|]. cbn [fst snd] in IH.
    destruct (step_spec hist h m now x IH A) as (h' & m' & a' & E' & I' & _). rewrite E' in E. apply ret_inj in E.
    assert (E1 : s' = (h', m')) by congruence. subst s'. exact I'.
  Qed.

  Lemma history_pf hist s now x : reaches sha hist s -> allowed sha hist s now x ->
    exists s' a, store_step sha s now x = Ret (s', a) /\ answer sha hist now x a.
  Proof.
    intros R A. apply reaches_minv in R. destruct s as [h m]. cbn [fst snd] in R.
    destruct (step_spec hist h m now x R A) as (h' & m' & a & E & _ & An). eauto.
  Qed.
End hist.
