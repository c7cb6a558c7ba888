(** Proofs about digit buffers. *)
From Coq Require Import List ZArith Bool Lia ZifyNat.
From Verif Require Import Base BaseProofs BigBuf.
Import ListNotations.
Open Scope Z_scope.

Definition wordy (l : list Z) : Prop := Forall (fun w => 0 <= w < W) l.

Lemma W_pos : 0 < W. Proof. unfold W. lia. Qed.

Lemma wval_app a b : wval (a ++ b) = wval a + W ^ Z.of_nat (length a) * wval b.
Proof.
  induction a as [|w a IH]; cbn [app wval length]; [lia|]. rewrite IH, Nat2Z.inj_succ, Z.pow_succ_r by lia. ring.
Qed.

Lemma addw_length xs : forall ys c, length (addw xs ys c) = S (length xs).
Proof. induction xs as [|x xs IH]; intros [|y ys] c; cbn [addw length]; auto. Qed.

Lemma addw_val xs : forall ys c, (length ys <= length xs)%nat -> wval (addw xs ys c) = wval xs + wval ys + c.
Proof.
  pose proof W_pos. induction xs as [|x xs IH]; intros [|y ys] c HL; cbn [addw wval length] in *; try lia.
  - rewrite IH by (cbn; lia). cbn [wval]. pose proof (Z.div_mod (x + c) W). lia.
  - rewrite IH by lia. pose proof (Z.div_mod (x + y + c) W). lia.
Qed.

Lemma wval_norm ws : wval (firstn (norm_len ws) ws) = wval ws.
Proof.
  induction ws as [|w t IH]; cbn [norm_len wval]; [reflexivity|]. destruct (norm_len t) as [|k] eqn:E.
  - cbn [firstn wval] in IH. destruct (Z.eqb_spec w 0) as [->|]; cbn [firstn wval]; rewrite <- IH; lia.
  - cbn [firstn wval] in *. rewrite IH. reflexivity.
Qed.

Lemma norm_len_le ws : (norm_len ws <= length ws)%nat.
Proof. induction ws as [|w t IH]; cbn [norm_len length]; [lia|]. destruct (norm_len t); [destruct (w =? 0); lia|lia]. Qed.

Definition valid (h : bufs) (x : nat_) : Prop := (n_buf x < length h)%nat /\ (n_len x <= length (nth (n_buf x) h []))%nat.

Lemma nth_set_nth {A} (l : list A) i j x d : (i < length l)%nat -> nth j (set_nth l i x) d = if Nat.eqb i j then x else nth j l d.
Proof.
  intros H. destruct (Nat.eqb_spec i j) as [<-|N].
  - apply nth_error_nth. rewrite nth_error_set, Nat.eqb_refl. destruct (nth_error l i) eqn:E; [reflexivity|]. apply nth_error_None in E. lia.
  - destruct (nth_error l j) as [y|] eqn:E.
    + rewrite (nth_error_nth l j d E). apply nth_error_nth. rewrite nth_error_set. apply Nat.eqb_neq in N. rewrite N. exact E.
    + rewrite !nth_overflow; [reflexivity|apply nth_error_None; exact E|rewrite set_nth_length; apply nth_error_None; exact E].
Qed.

(** Addition into a buffer that is either too small or not the one of [k]. *)
Lemma nat_add_spec h z x k : valid h z -> valid h x -> valid h k -> (0 < n_len x)%nat ->
  (n_len x <= n_len z)%nat ->
  (n_buf z = n_buf k -> (length (nth (n_buf z) h []) <= n_len z)%nat) ->
  let (h', r) := nat_add h z z x in
  nval h' r = nval h z + nval h x /\ valid h' r /\ valid h' k /\ words h' k = words h k /\ n_buf r <> n_buf k /\
  n_len r = norm_len (addw (words h z) (words h x) 0) /\ words h' r = firstn (n_len r) (addw (words h z) (words h x) 0).
Proof.
  intros [Vz1 Vz2] [Vx1 Vx2] [Vk1 Vk2] Hx Hle Hal. unfold nat_add.
  replace (Nat.ltb (n_len z) (n_len x)) with false by (symmetry; apply Nat.ltb_ge; lia).
  replace (Nat.eqb (n_len z) 0) with false by (symmetry; apply Nat.eqb_neq; lia).
  replace (Nat.eqb (n_len x) 0) with false by (symmetry; apply Nat.eqb_neq; lia).
  set (ws := addw (words h z) (words h x) 0).
  assert (Lz : length (words h z) = n_len z) by (unfold words; rewrite firstn_length; lia).
  assert (Lx : length (words h x) = n_len x) by (unfold words; rewrite firstn_length; lia).
  assert (Lw : length ws = S (n_len z)) by (unfold ws; rewrite addw_length, Lz; reflexivity).
  assert (Vw : wval ws = nval h z + nval h x) by (unfold ws; rewrite addw_val by lia; unfold nval; lia).
  unfold nat_make. destruct (Nat.leb_spec (S (n_len z)) (length (nth (n_buf z) h []))) as [Hcap|Hcap].
  - assert (Nk : n_buf z <> n_buf k) by (intros E; specialize (Hal E); lia).
    unfold write. cbn [n_buf n_len].
    assert (Hr : forall j, nth j (set_nth h (n_buf z) (ws ++ skipn (length ws) (nth (n_buf z) h []))) [] =
      if Nat.eqb (n_buf z) j then ws ++ skipn (length ws) (nth (n_buf z) h []) else nth j h []) by (intros j; apply nth_set_nth; exact Vz1).
    apply Nat.eqb_neq in Nk.
    assert (HW : words (set_nth h (n_buf z) (ws ++ skipn (length ws) (nth (n_buf z) h []))) (Nat_ (n_buf z) (norm_len ws)) = firstn (norm_len ws) ws).
    { unfold words. cbn [n_buf n_len]. rewrite Hr, Nat.eqb_refl, firstn_app.
      pose proof (norm_len_le ws). replace (norm_len ws - length ws)%nat with O by lia. cbn [firstn]. apply app_nil_r. }
    split; [|split; [|split; [|split; [|split; [|split; [reflexivity|exact HW]]]]]].
    + unfold nval. rewrite HW, wval_norm. exact Vw.
    + split; cbn [n_buf n_len]; [rewrite set_nth_length; exact Vz1|]. rewrite Hr, Nat.eqb_refl, app_length. pose proof (norm_len_le ws). lia.
    + split; [rewrite set_nth_length; exact Vk1|]. rewrite Hr, Nk. exact Vk2.
    + unfold words. rewrite Hr, Nk. reflexivity.
    + apply Nat.eqb_neq. exact Nk.
  - unfold write. cbn [n_buf n_len].
    set (fresh := repeat 0 (if Nat.eqb (S (n_len z)) 1 then 1%nat else (S (n_len z) + 4)%nat)).
    assert (Hf : nth (length h) (h ++ [fresh]) [] = fresh) by (rewrite app_nth2, Nat.sub_diag by lia; reflexivity).
    rewrite Hf.
    assert (Hr : forall j, nth j (set_nth (h ++ [fresh]) (length h) (ws ++ skipn (length ws) fresh)) [] =
      if Nat.eqb (length h) j then ws ++ skipn (length ws) fresh else nth j (h ++ [fresh]) []).
    { intros j. apply nth_set_nth. rewrite app_length. cbn. lia. }
    assert (Nk : Nat.eqb (length h) (n_buf k) = false) by (apply Nat.eqb_neq; lia).
    assert (HW : words (set_nth (h ++ [fresh]) (length h) (ws ++ skipn (length ws) fresh)) (Nat_ (length h) (norm_len ws)) = firstn (norm_len ws) ws).
    { unfold words. cbn [n_buf n_len]. rewrite Hr, Nat.eqb_refl, firstn_app.
      pose proof (norm_len_le ws). replace (norm_len ws - length ws)%nat with O by lia. cbn [firstn]. apply app_nil_r. }
    split; [|split; [|split; [|split; [|split; [|split; [reflexivity|exact HW]]]]]].
    + unfold nval. rewrite HW, wval_norm. exact Vw.
    + split; cbn [n_buf n_len]; [rewrite set_nth_length, app_length; cbn; lia|]. rewrite Hr, Nat.eqb_refl, app_length. pose proof (norm_len_le ws). lia.
    + split; [rewrite set_nth_length, app_length; lia|]. rewrite Hr, Nk, app_nth1 by lia. exact Vk2.
    + unfold words. rewrite Hr, Nk, app_nth1 by lia. reflexivity.
    + cbn. lia.
Qed.

Lemma wval_range ws : wordy ws -> 0 <= wval ws < W ^ Z.of_nat (length ws).
Proof.
  pose proof W_pos. induction 1 as [|w t Hw Ht IH]; cbn [wval length]; [cbn; lia|].
  rewrite Nat2Z.inj_succ, Z.pow_succ_r by lia. nia.
Qed.

Lemma norm_lower ws : wordy ws -> ws <> [] -> norm_len ws = length ws -> W ^ (Z.of_nat (length ws) - 1) <= wval ws.
Proof.
  pose proof W_pos. induction 1 as [|w t Hw Ht IH]; [congruence|]. intros _. cbn [norm_len wval length].
  destruct t as [|w' t'].
  - cbn [norm_len length wval]. destruct (Z.eqb_spec w 0); [discriminate|]. intros _. change (Z.of_nat 1 - 1) with 0. rewrite Z.pow_0_r. lia.
  - destruct (norm_len (w' :: t')) as [|k] eqn:E.
    + destruct (w =? 0); cbn [length]; intros HE; lia.
    + intros HE. assert (HI : W ^ (Z.of_nat (length (w' :: t')) - 1) <= wval (w' :: t')) by (apply IH; [discriminate|congruence]).
      replace (Z.of_nat (S (length (w' :: t'))) - 1) with (Z.succ (Z.of_nat (length (w' :: t')) - 1)) by lia.
      rewrite Z.pow_succ_r by (cbn [length]; lia). nia.
Qed.

Lemma addw_wordy xs : forall ys c, wordy xs -> wordy ys -> 0 <= c <= 1 -> wordy (addw xs ys c).
Proof.
  assert (HW : 4 <= W) by (unfold W; lia).
  induction xs as [|x xs IH]; intros ys c Hx Hy Hc; cbn [addw].
  - constructor; [lia|constructor].
  - inversion Hx as [|? ? Hx0 Hx1]; subst. destruct ys as [|y ys].
    + constructor; [apply Z.mod_pos_bound; lia|]. apply IH; auto. split; [apply Z.div_pos; lia|]. apply Z.lt_succ_r. apply Z.div_lt_upper_bound; lia.
    + inversion Hy as [|? ? Hy0 Hy1]; subst. constructor; [apply Z.mod_pos_bound; lia|]. apply IH; auto.
      split; [apply Z.div_pos; lia|]. apply Z.lt_succ_r. apply Z.div_lt_upper_bound; lia.
Qed.

Lemma norm_idem ws : norm_len (firstn (norm_len ws) ws) = norm_len ws.
Proof.
  induction ws as [|w t IH]; cbn [norm_len]; [reflexivity|]. destruct (norm_len t) as [|k] eqn:E.
  - destruct (w =? 0) eqn:Ew; cbn [firstn norm_len]; [reflexivity|]. rewrite Ew. reflexivity.
  - change (firstn (S (S k)) (w :: t)) with (w :: firstn (S k) t). cbn [norm_len]. rewrite IH. reflexivity.
Qed.

Lemma norm_len_mono xs ys : wordy xs -> wordy ys -> (length ys <= length xs)%nat -> norm_len xs = length xs ->
  (length xs <= norm_len (addw xs ys 0))%nat.
Proof.
  intros Hx Hy HL HN. destruct xs as [|x xs]; [cbn; lia|].
  pose proof (norm_lower (x :: xs) Hx ltac:(discriminate) HN) as Hlow.
  pose proof (addw_wordy (x :: xs) ys 0 Hx Hy ltac:(lia)) as Hw.
  assert (Hv : wval (addw (x :: xs) ys 0) = wval (x :: xs) + wval ys + 0) by (apply addw_val; exact HL).
  pose proof (wval_range ys Hy) as Ry.
  set (ws := addw (x :: xs) ys 0) in *.
  assert (Hup : wval ws < W ^ Z.of_nat (norm_len ws)).
  { rewrite <- wval_norm. assert (Hf : wordy (firstn (norm_len ws) ws)).
    { apply Forall_forall. intros w Hin. unfold wordy in Hw. rewrite Forall_forall in Hw. apply Hw. rewrite <- (firstn_skipn (norm_len ws) ws). apply in_or_app; auto. }
    pose proof (wval_range _ Hf) as R. rewrite firstn_length in R. pose proof (norm_len_le ws). replace (Nat.min (norm_len ws) (length ws)) with (norm_len ws) in R by lia. lia. }
  destruct (Nat.le_gt_cases (length (x :: xs)) (norm_len ws)) as [|Hlt]; [assumption|exfalso].
  assert (W ^ Z.of_nat (norm_len ws) <= W ^ (Z.of_nat (length (x :: xs)) - 1)) by (apply Z.pow_le_mono_r; [apply W_pos|lia]). lia.
Qed.

(** The configured amount has no spare words: it never changes, and the balance
    is the sum. *)
Lemma topups_exact ws n : wordy ws -> ws <> [] -> norm_len ws = length ws ->
  let (h0, amount) := config ws 0 in
  let (h, bal) := topups n (h0, None) amount in
  nval h amount = wval ws /\ match bal with None => n = O | Some b => nval h b = Z.of_nat n * wval ws end.
Proof.
  intros Hw Hne Hnorm. unfold config. cbn [repeat]. rewrite app_nil_r. set (am := Nat_ 0 (length ws)).
  enough (HG : let (h, bal) := topups n ([ws], None) am in
    valid h am /\ words h am = ws /\
    match bal with
    | None => n = O /\ h = [ws]
    | Some b => valid h b /\ nval h b = Z.of_nat n * wval ws /\ wordy (words h b) /\ norm_len (words h b) = n_len b /\ (length ws <= n_len b)%nat /\
        (b = am /\ h = [ws] \/ n_buf b <> n_buf am)
    end).
  { destruct (topups n ([ws], None) am) as [h bal]. destruct HG as (_ & HA & HB). unfold nval at 1. rewrite HA. split; [reflexivity|].
    destruct bal; tauto. }
  induction n as [|n IH]; cbn [topups].
  - repeat split; cbn; try lia. unfold words. cbn. apply firstn_all.
  - destruct (topups n ([ws], None) am) as [h bal]. destruct IH as (VA & HA & HB). unfold topup_buf. cbn [fst snd].
    destruct bal as [b|].
    + destruct HB as (Vb & Hval & Hwb & Hnb & Hlb & Hal).
      assert (Lb : length (words h b) = n_len b) by (unfold words; rewrite firstn_length; destruct Vb; lia).
      pose proof (nat_add_spec h b am am Vb VA VA) as HS. 
      assert (Hpos : (0 < n_len am)%nat) by (cbn; destruct ws; [congruence|cbn; lia]).
      specialize (HS Hpos Hlb).
      assert (Hcap : n_buf b = n_buf am -> (length (nth (n_buf b) h []) <= n_len b)%nat).
      { intros E. destruct Hal as [[-> ->]|N]; [|contradiction]. cbn. lia. }
      specialize (HS Hcap). destruct (nat_add h b b am) as [h' r]. destruct HS as (S1 & S2 & S3 & S4 & S5 & S6 & S7).
      rewrite HA in S6, S7. split; [exact S3|]. split; [rewrite S4; exact HA|]. split; [exact S2|].
      assert (Hamv : nval h am = wval ws) by (unfold nval; rewrite HA; reflexivity).
      split; [rewrite S1, Hval, Hamv; lia|].
      assert (HWw : wordy (addw (words h b) ws 0)) by (apply addw_wordy; auto; lia).
      split.
      { rewrite S7. apply Forall_forall. intros w Hin. unfold wordy in HWw. rewrite Forall_forall in HWw. apply HWw.
        rewrite <- (firstn_skipn (n_len r)). apply in_or_app; auto. }
      split; [rewrite S7, S6; apply norm_idem|]. split; [|right; exact S5].
      rewrite S6. pose proof (norm_len_mono (words h b) ws Hwb Hw ltac:(lia) ltac:(lia)). lia.
    + destruct HB as [-> ->]. split; [exact VA|]. split; [exact HA|].
      split; [exact VA|]. unfold nval. rewrite HA. repeat split; auto; try lia; cbn [n_len am]; try lia.
Qed.
