(** Proofs about identifiers and distances. *)
From Coq Require Import List ZArith Bool Lia ZifyBool ZifyNat Sorting.Sorted Sorting.Permutation.
From Coq Require Import Init.Byte.
From Verif Require Import Base BaseProofs Ids.
Import ListNotations.
Open Scope Z_scope.
Open Scope go_scope.

Definition lower_hex (b : byte) : Prop := 48 <= bz b <= 57 \/ 97 <= bz b <= 102.

Lemma digit_hex_lower z : 0 <= z < 16 -> lower_hex (digit_hex z).
Proof. intros H. unfold lower_hex, digit_hex. destruct (z <? 10) eqn:E; rewrite bz_zb by lia; lia. Qed.

Lemma hex_encode_lower bs : Forall lower_hex (hex_encode bs).
Proof.
  induction bs as [|b bs IH]; [constructor|]. cbn [hex_encode]. pose proof (bz_range b).
  constructor; [|constructor; [|exact IH]]; apply digit_hex_lower.
  - split; [apply Z.div_pos; lia|apply Z.div_lt_upper_bound; lia].
  - apply Z.mod_pos_bound. lia.
Qed.

Lemma ToString_32 id : length id = WordSize -> ToString id = hex_encode id.
Proof.
  intros H. unfold ToString. destruct id as [|b id]; [discriminate|]. reflexivity.
Qed.

Lemma left_pad_32 id : length id = WordSize -> left_pad id = id.
Proof. intros H. unfold left_pad. rewrite H. reflexivity. Qed.

Lemma left_pad_length b : (length b <= WordSize)%nat -> length (left_pad b) = WordSize.
Proof. intros H. unfold left_pad. rewrite app_length, repeat_length. lia. Qed.

Lemma left_pad_val b : be_val (left_pad b) = be_val b.
Proof. unfold left_pad. rewrite be_val_app, be_val_repeat0. lia. Qed.

Lemma id_hex_roundtrip_pf id : length id = 32%nat ->
  NewNodeIDFromHexString (ToString id) = OkR id /\
  length (ToString id) = 64%nat /\ Forall lower_hex (ToString id) /\
  (forall id', length id' = 32%nat -> ToString id' = ToString id -> id' = id).
Proof.
  intros H. rewrite (ToString_32 id H). repeat split.
  - unfold NewNodeIDFromHexString. rewrite hex_decode_encode, H. cbn [Nat.ltb Nat.leb WordSize].
    rewrite left_pad_32 by exact H. reflexivity.
  - rewrite hex_encode_length, H. reflexivity.
  - apply hex_encode_lower.
  - intros id' H' E. rewrite (ToString_32 id' H') in E. apply hex_encode_inj. exact E.
Qed.

Lemma id_from_bytes_pf b :
  ((length b <= 32)%nat -> exists id, NewNodeIDFromBytes b = OkR id /\ length id = 32%nat /\ be_val id = be_val b) /\
  ((32 < length b)%nat -> NewNodeIDFromBytes b = ErrR).
Proof.
  unfold NewNodeIDFromBytes. destruct (Nat.ltb_spec WordSize (length b)) as [H|H]; unfold WordSize in *; split; intros; try lia.
  - reflexivity.
  - exists (left_pad b). split; [reflexivity|]. split; [apply left_pad_length; exact H|apply left_pad_val].
Qed.

Lemma id_from_hex_pf s :
  (Nat.even (length s) = true /\ (length s <= 64)%nat /\ Forall (fun c => hex_digit c <> None) s ->
     exists id, NewNodeIDFromHexString s = OkR id /\ length id = 32%nat /\ be_val id = hex_val s) /\
  (~ (Nat.even (length s) = true /\ (length s <= 64)%nat /\ Forall (fun c => hex_digit c <> None) s) ->
     NewNodeIDFromHexString s = ErrR).
Proof.
  assert (HF : Forall is_hex s <-> Forall (fun c => hex_digit c <> None) s).
  { rewrite !Forall_forall. split; intros H c Hc; specialize (H c Hc).
    - destruct H as [d Hd]. congruence.
    - unfold is_hex. destruct (hex_digit c) as [d|]; [eauto|contradiction]. }
  unfold NewNodeIDFromHexString. destruct (hex_decode s) as [d|] eqn:E.
  - pose proof (hex_decode_length _ _ E) as HL. assert (HD : exists bs, hex_decode s = Some bs) by eauto.
    apply hex_decode_iff in HD. destruct HD as [He Hh]. apply HF in Hh.
    destruct (Nat.ltb_spec WordSize (length d)) as [H|H]; unfold WordSize in *.
    + split; [lia|reflexivity].
    + split; [|intros N; exfalso; apply N; repeat split; auto; lia].
      intros _. exists (left_pad d). split; [reflexivity|]. split; [apply left_pad_length; exact H|].
      rewrite left_pad_val. symmetry. apply hex_val_decode. exact E.
  - split; [|reflexivity]. intros (H1 & _ & H2). exfalso. apply HF in H2.
    assert (HD : exists bs, hex_decode s = Some bs) by (apply hex_decode_iff; auto). destruct HD. congruence.
Qed.

Lemma int_bytes_length z : z <> 0 -> 256 ^ (Z.of_nat (length (int_bytes z)) - 1) <= Z.abs z < 256 ^ Z.of_nat (length (int_bytes z)).
Proof.
  intros N. unfold int_bytes. destruct (Z.eqb_spec (Z.abs z) 0) as [E|_]; [lia|].
  set (a := Z.abs z) in *. assert (Ha : 0 < a) by lia.
  rewrite be_bytes_length, Nat2Z.inj_succ. pose proof (Z.log2_nonneg a).
  assert (0 <= Z.log2 a / 8) by (apply Z.div_pos; lia).
  rewrite Z2Nat.id by lia. pose proof (Z.log2_spec a Ha) as [L1 L2].
  pose proof (Z.div_mod (Z.log2 a) 8 ltac:(lia)). pose proof (Z.mod_pos_bound (Z.log2 a) 8 ltac:(lia)).
  set (q := Z.log2 a / 8) in *. set (m := Z.log2 a mod 8) in *.
  change 256 with (2 ^ 8). rewrite <- !Z.pow_mul_r by lia. split.
  - eapply Z.le_trans; [|exact L1]. apply Z.pow_le_mono_r; lia.
  - eapply Z.lt_le_trans; [exact L2|]. apply Z.pow_le_mono_r; lia.
Qed.

Lemma int_bytes_val z : be_val (int_bytes z) = Z.abs z.
Proof.
  destruct (Z.eq_dec z 0) as [->|N]; [reflexivity|].
  pose proof (int_bytes_length z N) as H. unfold int_bytes in *.
  destruct (Z.eqb_spec (Z.abs z) 0) as [E|_]; [lia|]. rewrite be_bytes_length in H.
  apply be_val_be_bytes. lia.
Qed.

Lemma id_from_int_pf z :
  (Z.abs z < 2 ^ 256 -> exists id, NewNodeID z = OkR id /\ length id = 32%nat /\ be_val id = Z.abs z) /\
  (2 ^ 256 <= Z.abs z -> NewNodeID z = ErrR).
Proof.
  unfold NewNodeID. change (2 ^ 256) with (256 ^ 32).
  destruct (Nat.ltb_spec WordSize (length (int_bytes z))) as [H|H]; unfold WordSize in H.
  - split; [|reflexivity]. intros Hz. exfalso.
    destruct (Z.eq_dec z 0) as [->|N]; [simpl in H; lia|].
    pose proof (int_bytes_length z N) as [L _].
    assert (256 ^ 32 <= 256 ^ (Z.of_nat (length (int_bytes z)) - 1)) by (apply Z.pow_le_mono_r; lia). lia.
  - split.
    + intros _. exists (left_pad (int_bytes z)). split; [reflexivity|].
      split; [apply left_pad_length; exact H|]. rewrite left_pad_val. apply int_bytes_val.
    + intros Hz. exfalso. destruct (Z.eq_dec z 0) as [->|N]; [simpl in Hz; lia|].
      pose proof (int_bytes_length z N) as [_ U].
      assert (256 ^ Z.of_nat (length (int_bytes z)) <= 256 ^ 32) by (apply Z.pow_le_mono_r; lia). lia.
Qed.

(** Same meaning, same identifier. *)
Lemma id_same_value a b ia ib : NewNodeIDFromBytes a = OkR ia -> NewNodeIDFromHexString b = OkR ib ->
  (ia = ib <-> be_val a = hex_val b).
Proof.
  intros Ha Hb. unfold NewNodeIDFromBytes in Ha. destruct (Nat.ltb_spec WordSize (length a)) as [?|La]; [discriminate|].
  injection Ha as <-. unfold NewNodeIDFromHexString in Hb. destruct (hex_decode b) as [d|] eqn:E; [|discriminate].
  destruct (Nat.ltb_spec WordSize (length d)) as [?|Ld]; [discriminate|]. injection Hb as <-.
  rewrite (hex_val_decode _ _ E). split.
  - intros H. rewrite <- (left_pad_val a), <- (left_pad_val d), H. reflexivity.
  - intros H. apply be_val_inj; [rewrite !left_pad_length by assumption; reflexivity|]. rewrite !left_pad_val. exact H.
Qed.

Lemma map_string_ids ids : Forall (fun id => length id = 32%nat) ids ->
  MapStringToID (MapIDToString ids) = Ret ids.
Proof.
  induction 1 as [|id ids H HF IH]; [reflexivity|]. cbn [MapIDToString map MapStringToID].
  destruct (id_hex_roundtrip_pf id H) as [E _]. rewrite E. fold (MapIDToString ids). rewrite IH. reflexivity.
Qed.

Lemma map_string_panics ss : MapStringToID ss = Panic <-> exists s, In s ss /\ NewNodeIDFromHexString s = ErrR.
Proof.
  induction ss as [|s ss IH]; cbn [MapStringToID].
  - split; [discriminate|intros (? & [] & _)].
  - destruct (NewNodeIDFromHexString s) as [id|] eqn:E.
    + destruct (MapStringToID ss) as [l| |] eqn:Em; cbn [obind].
      * split; [discriminate|]. intros (x & [<-|Hx] & Ex); [congruence|]. assert (@Ret (list bytes) l = Panic) by (apply IH; eauto). discriminate.
      * split; [|reflexivity]. intros _. destruct (proj1 IH eq_refl) as (x & Hx & Ex). exists x. simpl. auto.
      * exfalso. clear - Em. revert Em. induction ss as [|s' ss IH]; cbn [MapStringToID]; [discriminate|].
        destruct (NewNodeIDFromHexString s'); [|discriminate]. destruct (MapStringToID ss); cbn [obind]; try discriminate. auto.
    + split; [|reflexivity]. intros _. exists s. simpl. auto.
Qed.

Lemma content_equals a b : length a = 32%nat -> length b = 32%nat -> (ContentIDEquals a b = true <-> a = b).
Proof.
  intros Ha Hb. unfold ContentIDEquals. rewrite bytes_eqb_eq, !ToString_32 by assumption. split; [apply hex_encode_inj|congruence].
Qed.

(** ** Clockwise sort *)
Definition id32 (b : bytes) : Prop := length b = 32%nat.
Definition clockwise (start v : bytes) : Z := (be_val v - be_val start) mod 2 ^ 256.

Lemma sort_insert_perm x l : Permutation (x :: l) (sort_insert x l).
Proof.
  induction l as [|y l IH]; cbn [sort_insert]; [reflexivity|].
  destruct (bytes_cmp y x); try reflexivity. rewrite perm_swap. constructor. exact IH.
Qed.

Lemma sort_perm l : Permutation l (sortByteArrays l).
Proof.
  induction l as [|x l IH]; [constructor|]. cbn [sortByteArrays fold_right]. etransitivity; [|apply sort_insert_perm]. constructor. exact IH.
Qed.

Definition vle (a b : bytes) : Prop := be_val a <= be_val b.

Lemma sort_insert_sorted x l : id32 x -> Forall id32 l -> StronglySorted vle l -> StronglySorted vle (sort_insert x l).
Proof.
  intros Hx. induction l as [|y l IH]; intros HF HS; cbn [sort_insert]; [repeat constructor|].
  inversion HF as [|? ? Hy HF']; subst. inversion HS as [|? ? HS' HA]; subst.
  assert (HL : length y = length x) by (unfold id32 in *; congruence). rewrite (bytes_cmp_be_val y x HL).
  destruct (Z.compare_spec (be_val y) (be_val x)) as [E|E|E].
  - constructor; [exact HS|]. constructor; [unfold vle; lia|]. rewrite Forall_forall in *. intros z Hz. specialize (HA z Hz). unfold vle in *. lia.
  - constructor; [apply IH; auto|]. rewrite Forall_forall in *. intros z Hz.
    apply (Permutation_in _ (Permutation_sym (sort_insert_perm x l))) in Hz. destruct Hz as [<-|Hz]; [unfold vle; lia|auto].
  - constructor; [exact HS|]. constructor; [unfold vle; lia|]. rewrite Forall_forall in *. intros z Hz. specialize (HA z Hz). unfold vle in *. lia.
Qed.

Lemma sort_sorted l : Forall id32 l -> StronglySorted vle (sortByteArrays l).
Proof.
  induction 1 as [|x l Hx HF IH]; [constructor|]. cbn [sortByteArrays fold_right]. apply sort_insert_sorted; auto.
  rewrite Forall_forall in *. intros z Hz. apply HF. eapply Permutation_in; [apply Permutation_sym, sort_perm|exact Hz].
Qed.

Lemma start_index_spec start l : id32 start -> Forall id32 l ->
  match start_index start l with
  | Some i => exists l1 v l2, l = l1 ++ v :: l2 /\ length l1 = i /\ be_val start <= be_val v /\ Forall (fun u => be_val u < be_val start) l1
  | None => Forall (fun u => be_val u < be_val start) l
  end.
Proof.
  intros Hs. induction 1 as [|v l Hv HF IH]; cbn [start_index]; [constructor|].
  assert (HL : length start = length v) by (unfold id32 in *; congruence). rewrite (bytes_cmp_be_val _ _ HL).
  destruct (Z.compare_spec (be_val start) (be_val v)) as [E|E|E].
  - exists [], v, l. repeat split; auto; lia.
  - exists [], v, l. repeat split; auto; lia.
  - destruct (start_index start l) as [i|].
    + destruct IH as (l1 & w & l2 & -> & <- & H1 & H2). exists (v :: l1), w, l2. repeat split; auto.
    + constructor; auto.
Qed.

Lemma id32_range v : id32 v -> 0 <= be_val v < 2 ^ 256.
Proof. intros H. pose proof (be_val_range v) as R. rewrite H in R. exact R. Qed.

Lemma clockwise_cases s v : id32 s -> id32 v ->
  clockwise s v = if be_val s <=? be_val v then be_val v - be_val s else be_val v - be_val s + 2 ^ 256.
Proof.
  intros Hs Hv. apply id32_range in Hs, Hv. unfold clockwise. destruct (be_val s <=? be_val v) eqn:E.
  - apply Z.mod_small. lia.
  - symmetry. apply (Z.mod_unique _ _ (-1)); lia.
Qed.

Lemma ss_app_intro {A} (R : A -> A -> Prop) l1 l2 : StronglySorted R l1 -> StronglySorted R l2 ->
  (forall a b, In a l1 -> In b l2 -> R a b) -> StronglySorted R (l1 ++ l2).
Proof.
  induction 1 as [|x l HS IH HF]; intros H2 H3; [exact H2|]. cbn [app]. constructor.
  - apply IH; auto. intros a b Ha Hb. apply H3; simpl; auto.
  - rewrite Forall_app. split; [exact HF|]. rewrite Forall_forall. intros b Hb. apply H3; simpl; auto.
Qed.

Lemma ss_app_elim {A} (R : A -> A -> Prop) l1 l2 : StronglySorted R (l1 ++ l2) ->
  StronglySorted R l1 /\ StronglySorted R l2.
Proof.
  induction l1 as [|x l1 IH]; cbn [app]; intros H; [split; [constructor|exact H]|].
  inversion H as [|? ? HS HF]; subst. destruct (IH HS) as [H1 H2]. split; [|exact H2]. constructor; [exact H1|].
  rewrite Forall_app in HF. apply HF.
Qed.

Lemma ss_impl {A} (R R' : A -> A -> Prop) l : (forall a b, In a l -> In b l -> R a b -> R' a b) -> StronglySorted R l -> StronglySorted R' l.
Proof.
  induction l as [|x l IH]; intros H HS; [constructor|]. inversion HS as [|? ? HS' HF]; subst. constructor.
  - apply IH; auto. intros a b Ha Hb. apply H; simpl; auto.
  - rewrite Forall_forall in *. intros y Hy. apply H; simpl; auto.
Qed.

Lemma sort_clockwise_pf start ids : id32 start -> Forall id32 ids ->
  Permutation ids (SortClockwise start ids) /\
  StronglySorted (fun a b => clockwise start a <= clockwise start b) (SortClockwise start ids).
Proof.
  intros Hs HF. unfold SortClockwise. destruct (Nat.ltb_spec (length ids) 2) as [HL|HL].
  - split; [reflexivity|]. destruct ids as [|a [|b ids]]; simpl in HL; try lia; repeat constructor.
  - pose proof (sort_perm ids) as HP. pose proof (sort_sorted ids HF) as HS.
    assert (HF' : Forall id32 (sortByteArrays ids)).
    { rewrite Forall_forall in *. intros z Hz. apply HF. eapply Permutation_in; [apply Permutation_sym, HP|exact Hz]. }
    set (s := sortByteArrays ids) in *. clearbody s.
    pose proof (start_index_spec start s Hs HF') as HI.
    assert (R : exists l1 l2, s = l1 ++ l2 /\ skipn (match start_index start s with Some i => i | None => 0%nat end) s ++
                 firstn (match start_index start s with Some i => i | None => 0%nat end) s = l2 ++ l1 /\
                 ((Forall (fun u => be_val u < be_val start) l1 /\ Forall (fun u => be_val start <= be_val u) l2) \/
                  (l1 = [] /\ Forall (fun u => be_val u < be_val start) l2))).
    { destruct (start_index start s) as [i|].
      - destruct HI as (l1 & v & l2 & Es & Hi & Hv & H1). exists l1, (v :: l2). subst s i.
        rewrite skipn_app, firstn_app, skipn_all, firstn_all, Nat.sub_diag. cbn [skipn firstn app]. rewrite app_nil_r.
        split; [reflexivity|]. split; [reflexivity|]. left. split; [exact H1|].
        constructor; [exact Hv|]. apply ss_app_elim in HS. destruct HS as [_ HS]. inversion HS as [|? ? _ HA]; subst.
        rewrite Forall_forall in *. intros z Hz. specialize (HA z Hz). unfold vle in HA. lia.
      - exists [], s. cbn [skipn firstn]. rewrite app_nil_r. auto. }
    destruct R as (l1 & l2 & -> & -> & R). split.
    + etransitivity; [exact HP|]. apply Permutation_app_comm.
    + apply ss_app_elim in HS. destruct HS as [HS1 HS2]. rewrite Forall_app in HF'. destruct HF' as [F1 F2].
      rewrite Forall_forall in F1, F2. pose proof (id32_range start Hs) as Rs.
      assert (Mono : forall l, (forall x, In x l -> id32 x) ->
                (forall x, In x l -> be_val x < be_val start) \/ (forall x, In x l -> be_val start <= be_val x) ->
                StronglySorted vle l -> StronglySorted (fun a b => clockwise start a <= clockwise start b) l).
      { intros l Hl Hside. apply ss_impl. intros a b Ha Hb Hab. unfold vle in Hab.
        rewrite !clockwise_cases by auto. destruct Hside as [Hd|Hd]; pose proof (Hd a Ha); pose proof (Hd b Hb);
        destruct (be_val start <=? be_val a) eqn:E1, (be_val start <=? be_val b) eqn:E2; lia. }
      destruct R as [[R1 R2]|[-> R2]]; rewrite Forall_forall in *.
      * apply ss_app_intro; [apply Mono; auto|apply Mono; auto|].
        intros a b Ha Hb. rewrite !clockwise_cases by auto. pose proof (R2 a Ha). pose proof (R1 b Hb).
        pose proof (id32_range a (F2 a Ha)). pose proof (id32_range b (F1 b Hb)).
        destruct (be_val start <=? be_val a) eqn:E1, (be_val start <=? be_val b) eqn:E2; lia.
      * rewrite app_nil_r. apply Mono; auto.
Qed.

(** ** Distance *)
Lemma distance_pf a b c : be_val a < c -> be_val b < c ->
  GetDistance a b c = Z.min ((be_val b - be_val a) mod c) ((be_val a - be_val b) mod c).
Proof.
  intros Ha Hb. pose proof (be_val_range a) as Ra. pose proof (be_val_range b) as Rb.
  unfold GetDistance. set (x := be_val a) in *. set (y := be_val b) in *. cbv zeta.
  assert (HC : forall u v, 0 <= u < c -> 0 <= v < c -> (u - v) mod c = if v <=? u then u - v else u - v + c).
  { intros u v Hu Hv. destruct (v <=? u) eqn:E; [apply Z.mod_small; lia|].
    symmetry. apply (Z.mod_unique _ _ (-1)); lia. }
  rewrite !HC by lia. destruct (x <=? y) eqn:E1, (y <=? x) eqn:E2, (Z.abs (y - x) <? Z.abs (c - Z.abs (y - x))) eqn:E3; lia.
Qed.

Lemma distance_metric a b c n : be_val a < n -> be_val b < n -> be_val c < n ->
  GetDistance a b n = GetDistance b a n /\
  (GetDistance a b n = 0 <-> be_val a = be_val b) /\
  0 <= 2 * GetDistance a b n <= n /\
  GetDistance a c n <= GetDistance a b n + GetDistance b c n.
Proof.
  intros Ha Hb Hc. pose proof (be_val_range a) as Ra. pose proof (be_val_range b) as Rb. pose proof (be_val_range c) as Rc.
  assert (HM : forall u v, 0 <= be_val u < n -> 0 <= be_val v < n ->
    GetDistance u v n = Z.min (Z.abs (be_val v - be_val u)) (n - Z.abs (be_val v - be_val u))).
  { intros u v Hu Hv. unfold GetDistance. cbv zeta.
    destruct (Z.abs (be_val v - be_val u) <? Z.abs (n - Z.abs (be_val v - be_val u))) eqn:E; lia. }
  rewrite !HM by lia. set (x := be_val a) in *. set (y := be_val b) in *. set (z := be_val c) in *. lia.
Qed.
