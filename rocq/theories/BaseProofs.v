(** Lemmas about [Base.v]. *)
From Coq Require Import List ZArith NArith Bool Lia ZifyBool ZifyNat.
From Coq Require Import Init.Byte Strings.Byte.
From Verif Require Import Base.
Import ListNotations.
Open Scope Z_scope.
Ltac Zify.zify_post_hook ::= Z.div_mod_to_equations.

(** ** Bytes *)
Lemma bz_range b : 0 <= bz b <= 255.
Proof. unfold bz. pose proof (Byte.to_N_bounded b). lia. Qed.

Lemma bz_zb z : 0 <= z <= 255 -> bz (zb z) = z.
Proof.
  intros Hz. unfold bz, zb.
  destruct (Byte.of_N (Z.to_N z)) as [b|] eqn:E.
  - apply Byte.to_of_N in E. rewrite E. lia.
  - apply Byte.of_N_None_iff in E. lia.
Qed.

Lemma zb_bz b : zb (bz b) = b.
Proof.
  unfold bz, zb. rewrite N2Z.id. rewrite Byte.of_to_N. reflexivity.
Qed.

#[global] Opaque bz zb.

Lemma bz_inj a b : bz a = bz b -> a = b.
Proof. intros H. rewrite <- (zb_bz a), <- (zb_bz b). congruence. Qed.

Lemma byte_eqb_eq a b : Byte.eqb a b = true <-> a = b.
Proof.
  split; [apply Byte.byte_dec_bl | apply Byte.byte_dec_lb].
Qed.

Lemma bytes_eqb_eq a b : bytes_eqb a b = true <-> a = b.
Proof.
  revert b; induction a as [|x a IH]; intros [|y b]; simpl; try (split; congruence).
  rewrite andb_true_iff, IH, byte_eqb_eq. split; [intros [-> ->]; reflexivity | intros [= -> ->]; auto].
Qed.

Lemma bytes_eqb_refl a : bytes_eqb a a = true.
Proof. apply bytes_eqb_eq; reflexivity. Qed.

Lemma bytes_eqb_neq a b : bytes_eqb a b = false <-> a <> b.
Proof.
  split.
  - intros H E. apply bytes_eqb_eq in E. congruence.
  - intros H. destruct (bytes_eqb a b) eqn:E; [apply bytes_eqb_eq in E; contradiction | reflexivity].
Qed.

Lemma bytes_eqb_spec a b : reflect (a = b) (bytes_eqb a b).
Proof. destruct (bytes_eqb a b) eqn:E; constructor; [apply bytes_eqb_eq | apply bytes_eqb_neq]; assumption. Qed.

Lemma bytes_eqb_sym a b : bytes_eqb a b = bytes_eqb b a.
Proof.
  destruct (bytes_eqb_spec a b) as [->|N]; [symmetry; apply bytes_eqb_refl|].
  symmetry. apply bytes_eqb_neq. congruence.
Qed.

Definition bytes_eq_dec (a b : bytes) : {a = b} + {a <> b}.
Proof. destruct (bytes_eqb a b) eqn:E; [left; apply bytes_eqb_eq; exact E | right; apply bytes_eqb_neq; exact E]. Defined.

(** ** set_nth *)
Lemma set_nth_length {A} (l : list A) i x : length (set_nth l i x) = length l.
Proof. revert i; induction l; intros [|i]; simpl; auto. Qed.

Lemma nth_error_set_eq {A} (l : list A) i x :
  (i < length l)%nat -> nth_error (set_nth l i x) i = Some x.
Proof. revert i; induction l as [|y l IH]; intros [|i] H; simpl in *; try lia; auto. apply IH; lia. Qed.

Lemma nth_error_set_neq {A} (l : list A) i j x :
  i <> j -> nth_error (set_nth l i x) j = nth_error l j.
Proof. revert i j; induction l as [|y l IH]; intros [|i] [|j] H; simpl; auto; try lia. Qed.

Lemma nth_error_set {A} (l : list A) i j x :
  nth_error (set_nth l i x) j =
  if (Nat.eqb i j) then (match nth_error l j with Some _ => Some x | None => None end) else nth_error l j.
Proof.
  destruct (Nat.eqb_spec i j) as [->|N].
  - destruct (nth_error l j) eqn:E.
    + apply nth_error_set_eq. apply nth_error_Some. congruence.
    + apply nth_error_None in E. apply nth_error_None. rewrite set_nth_length. lia.
  - apply nth_error_set_neq; assumption.
Qed.

(** ** Big-endian integers *)
Lemma be_val_app_acc bs acc :
  fold_left (fun acc b => acc * 256 + bz b) bs acc = acc * 256 ^ Z.of_nat (length bs) + be_val bs.
Proof.
  unfold be_val. revert acc; induction bs as [|b bs IH]; intros acc.
  - simpl fold_left. simpl length. rewrite Z.pow_0_r. lia.
  - cbn [fold_left length]. rewrite IH, (IH (0 * 256 + bz b)).
    rewrite Nat2Z.inj_succ, Z.pow_succ_r by lia. ring.
Qed.

Lemma be_val_nil : be_val [] = 0.
Proof. reflexivity. Qed.

Lemma be_val_cons b bs : be_val (b :: bs) = bz b * 256 ^ Z.of_nat (length bs) + be_val bs.
Proof. unfold be_val at 1. cbn [fold_left]. rewrite be_val_app_acc. ring. Qed.

Lemma be_val_app a b : be_val (a ++ b) = be_val a * 256 ^ Z.of_nat (length b) + be_val b.
Proof. unfold be_val at 1. rewrite fold_left_app. apply be_val_app_acc. Qed.

Lemma be_val_range bs : 0 <= be_val bs < 256 ^ Z.of_nat (length bs).
Proof.
  induction bs as [|b bs IH].
  - rewrite be_val_nil. simpl length. rewrite Z.pow_0_r. lia.
  - rewrite be_val_cons. cbn [length]. rewrite Nat2Z.inj_succ, Z.pow_succ_r by lia.
    pose proof (bz_range b). nia.
Qed.

Lemma be_val_inj a b : length a = length b -> be_val a = be_val b -> a = b.
Proof.
  revert b; induction a as [|x a IH]; intros [|y b] HL HV; simpl in HL; try discriminate; auto.
  injection HL as HL.
  rewrite !be_val_cons, HL in HV.
  pose proof (be_val_range a) as Ra. pose proof (be_val_range b) as Rb. rewrite HL in Ra.
  assert (bz x = bz y) by nia.
  assert (be_val a = be_val b) by nia.
  f_equal; [apply bz_inj; assumption | apply IH; assumption].
Qed.

Lemma be_val_repeat0 n : be_val (repeat x00 n) = 0.
Proof.
  induction n as [|n IH]; [reflexivity|]. cbn [repeat]. rewrite be_val_cons, IH.
  replace (bz x00) with 0 by reflexivity. ring.
Qed.

Lemma be_bytes_length n z : length (be_bytes n z) = n.
Proof. revert z; induction n as [|n IH]; intros z; simpl; auto. rewrite app_length, IH. simpl. lia. Qed.

Lemma be_val_be_bytes n z : 0 <= z < 256 ^ Z.of_nat n -> be_val (be_bytes n z) = z.
Proof.
  revert z; induction n as [|n IH]; intros z Hz.
  - simpl in *. rewrite be_val_nil. lia.
  - rewrite Nat2Z.inj_succ, Z.pow_succ_r in Hz by lia.
    cbn [be_bytes]. rewrite be_val_app, IH.
    + cbn [length]. rewrite be_val_cons, be_val_nil. cbn [length].
      change (Z.of_nat 1) with 1. change (Z.of_nat 0) with 0.
      rewrite Z.pow_1_r, Z.pow_0_r, bz_zb; lia.
    + split; [apply Z.div_pos; lia | apply Z.div_lt_upper_bound; lia].
Qed.

Lemma be_bytes_be_val bs : be_bytes (length bs) (be_val bs) = bs.
Proof.
  apply be_val_inj; [apply be_bytes_length|].
  apply be_val_be_bytes, be_val_range.
Qed.

(** ** Lexicographic comparison agrees with the value for equal lengths *)
Lemma bytes_cmp_be_val a b : length a = length b -> bytes_cmp a b = (be_val a ?= be_val b).
Proof.
  revert b; induction a as [|x a IH]; intros [|y b] HL; simpl in HL; try discriminate; auto.
  injection HL as HL. cbn [bytes_cmp]. rewrite (IH b HL), !be_val_cons, HL.
  pose proof (be_val_range a) as Ra. pose proof (be_val_range b) as Rb. rewrite HL in Ra.
  destruct (Z.compare_spec (bz x) (bz y)) as [E|E|E].
  - rewrite E. destruct (Z.compare_spec (be_val a) (be_val b)) as [F|F|F]; symmetry.
    + apply Z.compare_eq_iff. lia.
    + apply Z.compare_lt_iff. lia.
    + apply Z.compare_gt_iff. lia.
  - symmetry. apply Z.compare_lt_iff. nia.
  - symmetry. apply Z.compare_gt_iff. nia.
Qed.

(** ** Hexadecimal text *)
Lemma hex_digit_range c d : hex_digit c = Some d -> 0 <= d <= 15.
Proof.
  unfold hex_digit. cbv zeta. pose proof (bz_range c).
  destruct ((48 <=? bz c) && (bz c <=? 57)) eqn:E1; [intros E; inversion E; lia|].
  destruct ((97 <=? bz c) && (bz c <=? 102)) eqn:E2; [intros E; inversion E; lia|].
  destruct ((65 <=? bz c) && (bz c <=? 70)) eqn:E3; [intros E; inversion E; lia|discriminate].
Qed.

Lemma hex_digit_of_digit z : 0 <= z <= 15 -> hex_digit (digit_hex z) = Some z.
Proof.
  intros Hz. unfold digit_hex, hex_digit.
  destruct (z <? 10) eqn:E; rewrite bz_zb by lia.
  - replace ((48 <=? 48 + z) && (48 + z <=? 57)) with true by lia. f_equal; lia.
  - replace ((48 <=? 87 + z) && (87 + z <=? 57)) with false by lia.
    replace ((97 <=? 87 + z) && (87 + z <=? 102)) with true by lia. f_equal; lia.
Qed.

Lemma hex_encode_length bs : length (hex_encode bs) = (2 * length bs)%nat.
Proof. induction bs; simpl; lia. Qed.

Lemma hex_decode_encode bs : hex_decode (hex_encode bs) = Some bs.
Proof.
  induction bs as [|b bs IH]; [reflexivity|].
  cbn [hex_encode hex_decode]. pose proof (bz_range b).
  rewrite !hex_digit_of_digit by lia. rewrite IH.
  do 2 f_equal. rewrite <- (zb_bz b) at 3. f_equal. lia.
Qed.

Lemma hex_encode_inj a b : hex_encode a = hex_encode b -> a = b.
Proof. intros H. apply (f_equal hex_decode) in H. rewrite !hex_decode_encode in H. congruence. Qed.

Lemma list_ind2 {A} (P : list A -> Prop) :
  P [] -> (forall a, P [a]) -> (forall a b l, P l -> P (a :: b :: l)) -> forall l, P l.
Proof.
  intros H0 H1 H2. fix IH 1. intros [|a [|b l]]; [exact H0 | apply H1 | apply H2, IH].
Qed.

Lemma hex_decode_length s bs : hex_decode s = Some bs -> length s = (2 * length bs)%nat.
Proof.
  revert bs; induction s as [| |a b s IH] using list_ind2; intros bs; simpl; try congruence.
  - intros [= <-]; reflexivity.
  - destruct (hex_digit a), (hex_digit b), (hex_decode s) as [r|]; try congruence.
    intros [= <-]. simpl. specialize (IH r eq_refl). lia.
Qed.

Definition is_hex (c : byte) : Prop := exists d, hex_digit c = Some d.

(** Decoding succeeds exactly for an even number of hex digits. *)
Lemma hex_decode_iff s :
  (exists bs, hex_decode s = Some bs) <-> Nat.even (length s) = true /\ Forall is_hex s.
Proof.
  induction s as [| |a b s IH] using list_ind2; simpl.
  - split; intros; eauto.
  - split; [intros [? ?]; discriminate | intros [? ?]; discriminate].
  - split.
    + intros [bs H]. destruct (hex_digit a) eqn:Ea, (hex_digit b) eqn:Eb, (hex_decode s) eqn:Es; try discriminate.
      destruct IH as [IH _]. destruct IH as [? ?]; [eauto|].
      split; auto. repeat constructor; auto; eexists; eauto.
    + intros [He Hf]. inversion Hf as [|? ? [x Hx] Hf']; subst. inversion Hf' as [|? ? [y Hy] Hf'']; subst.
      destruct IH as [_ IH]. destruct IH as [r Hr]; [auto|]. rewrite Hx, Hy, Hr. eauto.
Qed.

Lemma hex_val_app_acc s acc :
  fold_left (fun acc b => acc * 16 + match hex_digit b with Some d => d | None => 0 end) s acc
  = acc * 16 ^ Z.of_nat (length s) + hex_val s.
Proof.
  unfold hex_val. revert acc; induction s as [|b bs IH]; intros acc.
  - simpl fold_left. simpl length. rewrite Z.pow_0_r. lia.
  - cbn [fold_left length]. rewrite IH, (IH (0 * 16 + _)).
    rewrite Nat2Z.inj_succ, Z.pow_succ_r by lia. ring.
Qed.

Lemma hex_val_cons b s :
  hex_val (b :: s) = match hex_digit b with Some d => d | None => 0 end * 16 ^ Z.of_nat (length s) + hex_val s.
Proof. unfold hex_val at 1. cbn [fold_left]. rewrite hex_val_app_acc. ring. Qed.

Lemma hex_val_range s : 0 <= hex_val s < 16 ^ Z.of_nat (length s).
Proof.
  induction s as [|b s IH].
  - unfold hex_val; simpl. lia.
  - rewrite hex_val_cons. cbn [length]. rewrite Nat2Z.inj_succ, Z.pow_succ_r by lia.
    destruct (hex_digit b) eqn:E; [apply hex_digit_range in E|]; nia.
Qed.

(** The numeric value of hex text is the big-endian value of what it decodes to. *)
Lemma hex_val_decode s bs : hex_decode s = Some bs -> hex_val s = be_val bs.
Proof.
  revert bs; induction s as [| |a b s IH] using list_ind2; intros bs; cbn [hex_decode]; try congruence.
  - intros [= <-]. reflexivity.
  - destruct (hex_digit a) as [x|] eqn:Ea, (hex_digit b) as [y|] eqn:Eb, (hex_decode s) as [r|] eqn:Er; try congruence.
    intros [= <-]. rewrite !hex_val_cons, be_val_cons, Ea, Eb, (IH r eq_refl).
    apply hex_digit_range in Ea, Eb. rewrite bz_zb by lia.
    pose proof (hex_decode_length _ _ Er) as HL. cbn [length]. rewrite HL.
    rewrite Nat2Z.inj_succ, Z.pow_succ_r by lia.
    replace (16 ^ Z.of_nat (2 * length r)) with (256 ^ Z.of_nat (length r)).
    + ring.
    + rewrite Nat2Z.inj_mul. change 256 with (16 ^ 2). rewrite <- Z.pow_mul_r by lia. reflexivity.
Qed.

(** ** Maps *)
Section amap_lemmas.
  Context {K V : Type} (eqb : K -> K -> bool).
  Hypothesis eqb_eq : forall a b, eqb a b = true <-> a = b.

  Local Lemma eqb_refl a : eqb a a = true.
  Proof. apply eqb_eq; reflexivity. Qed.
  Local Lemma eqb_neq a b : eqb a b = false <-> a <> b.
  Proof.
    split.
    - intros H E. apply eqb_eq in E. congruence.
    - intros H. destruct (eqb a b) eqn:E; [apply eqb_eq in E; contradiction | reflexivity].
  Qed.

  Lemma aget_aset (m : list (K * V)) k v k' :
    aget eqb (aset eqb m k v) k' = if eqb k' k then Some v else aget eqb m k'.
  Proof.
    induction m as [|[k0 v0] m IH]; simpl; [reflexivity|].
    destruct (eqb k k0) eqn:E.
    - apply eqb_eq in E; subst k0. simpl. destruct (eqb k' k); reflexivity.
    - simpl. destruct (eqb k' k0) eqn:E0.
      + apply eqb_eq in E0; subst k0. destruct (eqb k' k) eqn:E1; [|reflexivity].
        apply eqb_eq in E1; subst. rewrite eqb_refl in E. discriminate.
      + exact IH.
  Qed.

  Lemma aget_aset_eq (m : list (K * V)) k v : aget eqb (aset eqb m k v) k = Some v.
  Proof. rewrite aget_aset, eqb_refl. reflexivity. Qed.

  Lemma aget_aset_neq (m : list (K * V)) k v k' : k' <> k -> aget eqb (aset eqb m k v) k' = aget eqb m k'.
  Proof. intros H. rewrite aget_aset. apply eqb_neq in H. rewrite H. reflexivity. Qed.

  Lemma aget_In (m : list (K * V)) k v : aget eqb m k = Some v -> In (k, v) m.
  Proof.
    induction m as [|[k0 v0] m IH]; simpl; [discriminate|].
    destruct (eqb k k0) eqn:E; [intros [= ->]; apply eqb_eq in E; subst; auto | auto].
  Qed.

  Lemma aget_None (m : list (K * V)) k : aget eqb m k = None <-> ~ In k (map fst m).
  Proof.
    induction m as [|[k0 v0] m IH]; simpl; [tauto|].
    destruct (eqb k k0) eqn:E.
    - apply eqb_eq in E; subst. split; [discriminate | tauto].
    - apply eqb_neq in E. rewrite IH. split; [intros H [H1|H1]; auto; congruence | tauto].
  Qed.

  Lemma In_aget (m : list (K * V)) k v : NoDup (map fst m) -> In (k, v) m -> aget eqb m k = Some v.
  Proof.
    induction m as [|[k0 v0] m IH]; simpl; [tauto|].
    intros ND [H|H].
    - injection H as -> ->. rewrite eqb_refl. reflexivity.
    - inversion ND; subst. destruct (eqb k k0) eqn:E.
      + apply eqb_eq in E; subst. exfalso. apply H2. apply in_map_iff. exists (k0, v). auto.
      + auto.
  Qed.

  Lemma aset_keys (m : list (K * V)) k v k' : In k' (map fst (aset eqb m k v)) <-> k' = k \/ In k' (map fst m).
  Proof.
    induction m as [|[k0 v0] m IH]; simpl; [intuition|].
    destruct (eqb k k0) eqn:E.
    - apply eqb_eq in E; subst. simpl. intuition.
    - simpl. rewrite IH. intuition.
  Qed.

  Lemma aset_NoDup (m : list (K * V)) k v : NoDup (map fst m) -> NoDup (map fst (aset eqb m k v)).
  Proof.
    induction m as [|[k0 v0] m IH]; simpl; intros ND.
    - repeat constructor; simpl; tauto.
    - inversion ND; subst. destruct (eqb k k0) eqn:E.
      + apply eqb_eq in E; subst. simpl. constructor; auto.
      + simpl. constructor; auto. rewrite aset_keys. intros [H|H]; [|contradiction].
        subst. rewrite eqb_refl in E. discriminate.
  Qed.

  Lemma aset_length_new (m : list (K * V)) k v : aget eqb m k = None -> length (aset eqb m k v) = S (length m).
  Proof.
    induction m as [|[k0 v0] m IH]; simpl; auto.
    destruct (eqb k k0) eqn:E; [discriminate|]. simpl. intros H. rewrite IH; auto.
  Qed.

  Lemma aset_length_old (m : list (K * V)) k v w : aget eqb m k = Some w -> length (aset eqb m k v) = length m.
  Proof.
    induction m as [|[k0 v0] m IH]; simpl; [discriminate|].
    destruct (eqb k k0) eqn:E; [reflexivity|]. simpl. intros H. rewrite IH; auto.
  Qed.

  Lemma adel_NoDup (m : list (K * V)) k : NoDup (map fst m) -> NoDup (map fst (adel eqb m k)).
  Proof.
    induction m as [|[k0 v0] m IH]; simpl; intros ND; [constructor|].
    inversion ND; subst. destruct (eqb k k0) eqn:E; [assumption|]. simpl. constructor; auto.
    intros H. apply H1. clear -H. induction m as [|[k1 v1] m IH]; simpl in *; [tauto|].
    destruct (eqb k k1); simpl in *; tauto.
  Qed.

  Lemma aget_adel (m : list (K * V)) k k' :
    NoDup (map fst m) -> aget eqb (adel eqb m k) k' = if eqb k' k then None else aget eqb m k'.
  Proof.
    induction m as [|[k0 v0] m IH]; simpl; intros ND.
    - destruct (eqb k' k); reflexivity.
    - inversion ND; subst. destruct (eqb k k0) eqn:E.
      + apply eqb_eq in E; subst k0. destruct (eqb k' k) eqn:E1; [|reflexivity].
        apply eqb_eq in E1; subst k'. apply aget_None. assumption.
      + simpl. destruct (eqb k' k0) eqn:E1.
        * apply eqb_eq in E1; subst k'. destruct (eqb k0 k) eqn:E2; [|reflexivity].
          apply eqb_eq in E2; subst. rewrite eqb_refl in E. discriminate.
        * apply IH. assumption.
  Qed.
End amap_lemmas.

(** ** Lists without repetition *)
Lemma nodup_app_iff {A} (a b : list A) :
  NoDup (a ++ b) <-> NoDup a /\ NoDup b /\ (forall x, In x a -> ~ In x b).
Proof.
  induction a as [|x a IH]; simpl.
  - split; [intros H; repeat split; auto; constructor | tauto].
  - split.
    + intros H. inversion H as [|? ? H1 H2]; subst. apply IH in H2. destruct H2 as (H2 & H3 & H4).
      rewrite in_app_iff in H1. repeat split; auto.
      * constructor; tauto.
      * intros y [<-|Hy]; auto.
    + intros (H1 & H2 & H3). inversion H1; subst. constructor.
      * rewrite in_app_iff. intros [H|H]; [contradiction | apply (H3 x); auto].
      * apply IH. repeat split; auto.
Qed.
