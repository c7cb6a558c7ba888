(** [Remove] and [Dump] on a represented ring. *)
From Coq Require Import List ZArith Bool Lia ZifyBool ZifyNat Sorting.Sorted Sorting.Permutation.
From Coq Require Import Init.Byte.
From Verif Require Import Base BaseProofs Ring RingLemmas RingInsert.
Import ListNotations.
Open Scope Z_scope.
Open Scope go_scope.

Definition del (hex : gostring) (l : list entry) : list entry :=
  filter (fun e => negb (bytes_eqb (snd e) hex)) l.

Lemma del_notin hex l : ~ In hex (vals l) -> del hex l = l.
Proof.
  induction l as [|x l IH]; intros H; [reflexivity|]. cbn [del filter].
  destruct (bytes_eqb_spec (snd x) hex) as [E|N].
  - exfalso. apply H. left. exact E.
  - cbn [negb]. f_equal. apply IH. intros Hin. apply H. right. exact Hin.
Qed.

Lemma sorted_vals_nodup l : sorted l -> NoDup (vals l).
Proof.
  induction l as [|x l IH]; intros HS; [constructor|].
  apply sorted_cons in HS. destruct HS as [HS Hx]. constructor; [|auto].
  intros Hin. apply in_map_iff in Hin. destruct Hin as (e & E & He).
  specialize (Hx _ He). unfold ekey in Hx. rewrite E in Hx. lia.
Qed.

Lemma del_app hex l1 l2 : del hex (l1 ++ l2) = del hex l1 ++ del hex l2.
Proof. unfold del. apply filter_app. Qed.

Lemma del_mid l1 c l2 : NoDup (vals (l1 ++ c :: l2)) -> del (snd c) (l1 ++ c :: l2) = l1 ++ l2.
Proof.
  intros ND. unfold vals in ND. rewrite map_app in ND. simpl in ND. pose proof ND as ND'.
  apply NoDup_remove_2 in ND. rewrite in_app_iff in ND.
  rewrite del_app. change (c :: l2) with ([c] ++ l2). rewrite del_app.
  rewrite !del_notin with (l := l1), !del_notin with (l := l2) by (unfold vals; tauto).
  cbn [del filter]. rewrite bytes_eqb_refl. reflexivity.
Qed.

(** ** Unlinking *)
Record removed (h h' : list node) (p c : nat) (kp kc : Z) : Prop := {
  rem_len : length h' = length h;
  rem_nxt : forall x, nxt h' x = if Nat.eqb x p then Some c else nxt h x;
  rem_pv : forall x, pv h' x = if Nat.eqb x c then Some p else pv h x;
  rem_dn : forall x, dn h' x = if Nat.eqb x p then Some (getDist kp kc) else dn h x;
  rem_dp : forall x, dp h' x = if Nat.eqb x c then Some (getDist kp kc) else dp h x;
  rem_ky : forall x, ky h' x = ky h x;
  rem_vl : forall x, vl h' x = vl h x
}.

Lemma removed_holds h h' p c kp kc e :
  removed h h' p c kp kc -> holds h e -> holds h' e.
Proof. intros HI. rewrite !holds_iff, (rem_ky _ _ _ _ _ _ HI), (rem_vl _ _ _ _ _ _ HI). auto. Qed.

Lemma cyc_remove h h' X C t P :
  cyc (link h) (X :: C :: t) -> NoDup (map fst (X :: C :: t)) -> t <> [] ->
  P = last (C :: t) C ->
  removed h h' (fst P) (fst C) (ekey P) (ekey C) ->
  cyc (link h') (C :: t).
Proof.
  intros HC ND NE HP HI.
  assert (NE' : C :: t <> []) by discriminate.
  assert (InP : In P t).
  { destruct t as [|y t]; [contradiction|]. subst P.
    change (last (C :: y :: t) C) with (last (y :: t) C).
    assert (NE'' : y :: t <> []) by discriminate.
    rewrite (app_removelast_last C NE'') at 2. apply in_or_app; simpl; auto. }
  assert (ND2 : NoDup (map fst (C :: t))) by (inversion ND; assumption).
  assert (NPC : fst P <> fst C) by (eapply nodup_tl_fst; eauto).
  assert (HCt : chain (link h) (C :: t)).
  { unfold cyc in HC. destruct HC as [_ HC]. apply chain_app_l in HC. exact HC. }
  assert (HCt' : chain (link h') (C :: t)).
  { eapply chain_impl; [|exact HCt].
    intros a b Ha Hb. pose proof (nodup_last_fst _ C a ND2 Ha) as N1. rewrite <- HP in N1.
    pose proof (nodup_tl_fst _ _ b ND2 Hb) as N2.
    unfold link. rewrite (rem_nxt _ _ _ _ _ _ HI), (rem_pv _ _ _ _ _ _ HI),
      (rem_dn _ _ _ _ _ _ HI), (rem_dp _ _ _ _ _ _ HI).
    replace (Nat.eqb (fst a) (fst P)) with false by (symmetry; apply Nat.eqb_neq; auto).
    replace (Nat.eqb (fst b) (fst C)) with false by (symmetry; apply Nat.eqb_neq; auto).
    auto. }
  assert (HPC : link h' P C).
  { unfold link. rewrite (rem_nxt _ _ _ _ _ _ HI), (rem_pv _ _ _ _ _ _ HI),
      (rem_dn _ _ _ _ _ _ HI), (rem_dp _ _ _ _ _ _ HI), !Nat.eqb_refl. auto. }
  unfold cyc.
  assert (E : (C :: t) ++ [C] = removelast (C :: t) ++ [P; C]).
  { rewrite (app_removelast_last C NE') at 1. rewrite <- HP, <- app_assoc. reflexivity. }
  rewrite E. apply chain_snoc. split; [|exact HPC].
  rewrite HP, <- (app_removelast_last C NE'). exact HCt'.
Qed.

Lemma lring_3_cyc h l : (2 <= length l)%nat -> lring h l -> cyc (link h) l.
Proof. destruct l as [|a [|b l]]; simpl; try lia. auto. Qed.

Lemma cyc_lring h l : (2 <= length l)%nat -> cyc (link h) l -> lring h l.
Proof. destruct l as [|a [|b l]]; simpl length; try lia. auto. Qed.

Lemma sorted_remove l1 c l2 : sorted (l1 ++ c :: l2) -> sorted (l1 ++ l2).
Proof.
  intros HS. apply sorted_app in HS. destruct HS as (S1 & S2 & S3).
  apply sorted_cons in S2. destruct S2 as [S2 S4].
  apply sorted_app. repeat split; auto. intros a b Ha Hb. apply S3; simpl; auto.
Qed.

(** Removal of a non-head entry when there are at least three. *)
Lemma unlink_spec r l1 c l2 x nc hd :
  rep r (l1 ++ c :: l2) -> hd_error l1 = Some x -> (3 <= length (l1 ++ c :: l2))%nat ->
  nth_error (heap r) (fst c) = Some nc -> val hd = snd x ->
  exists r', unlink r hd (Some (fst c)) nc = Ret r' /\ rep r' (l1 ++ l2).
Proof.
  intros HR Hx HL Hnc Hhd. destruct HR as [R1 R2 R3 R4 R5 R6 R7].
  destruct l1 as [|x' l1]; [discriminate|]. injection Hx as ->.
  assert (HC : cyc (link (heap r)) ((x :: l1) ++ c :: l2)) by (apply lring_3_cyc; [lia | exact R7]).
  apply cyc_rot in HC.
  destruct (l2 ++ (x :: l1)) as [|C t] eqn:Erot; [destruct l2; discriminate|].
  change ((c :: l2) ++ x :: l1) with (c :: (l2 ++ x :: l1)) in HC. rewrite Erot in HC.
  assert (Ht : t <> []).
  { intros ->. apply (f_equal (@length entry)) in Erot. rewrite !app_length in *. simpl in *. lia. }
  set (P := last (C :: t) C).
  assert (NE' : C :: t <> []) by discriminate.
  assert (HlinkX : link (heap r) c C) by (destruct HC as [H _]; exact H).
  assert (HlinkP : link (heap r) P c).
  { unfold cyc in HC. change ((c :: C :: t) ++ [c]) with ([c] ++ ((C :: t) ++ [c])) in HC.
    rewrite (app_removelast_last C NE') in HC. rewrite <- app_assoc in HC. cbn [app] in HC.
    rewrite app_comm_cons in HC. apply chain_mid in HC. exact HC. }
  assert (Hp : prv nc = Some (fst P)).
  { destruct HlinkP as (_ & H & _). unfold pv in H. rewrite Hnc in H. exact H. }
  assert (Hn : next nc = Some (fst C)).
  { destruct HlinkX as (H & _). unfold nxt in H. rewrite Hnc in H. exact H. }
  assert (Hin : forall e, In e (C :: t) -> In e ((x :: l1) ++ c :: l2)).
  { intros e He. rewrite <- Erot in He. rewrite !in_app_iff in *. simpl in *. tauto. }
  assert (InP : In P (C :: t)).
  { subst P. rewrite (app_removelast_last C NE') at 2. apply in_or_app; simpl; auto. }
  rewrite Forall_forall in R4.
  destruct (R4 P (Hin _ InP)) as (np & Hnp & Hkp & Hvp).
  destruct (R4 C (Hin _ (or_introl eq_refl))) as (nC & HnC & HkC & HvC).
  destruct (R4 c) as (nc' & Hnc' & Hkc & Hvc); [apply in_or_app; simpl; auto|].
  assert (nc' = nc) by congruence. subst nc'.
  assert (ND2 : NoDup (map fst (c :: C :: t))).
  { rewrite <- Erot. change (c :: l2 ++ x :: l1) with ((c :: l2) ++ (x :: l1)). rewrite map_app in *.
    eapply Permutation_NoDup; [apply Permutation_app_comm|]. exact R3. }
  assert (NPC : fst P <> fst C).
  { assert (ND3 : NoDup (map fst (C :: t))) by (inversion ND2; assumption).
    destruct t as [|y t]; [contradiction|].
    eapply nodup_tl_fst; [exact ND3|]. subst P.
    change (last (C :: y :: t) C) with (last (y :: t) C).
    assert (NE'' : y :: t <> []) by discriminate.
    rewrite (app_removelast_last C NE'') at 2. apply in_or_app; simpl; auto. }
  assert (NPCv : snd P <> snd C).
  { intros E. apply NPC. f_equal. eapply sorted_key_inj; [exact R5|..]; auto.
    - apply Hin. simpl; auto.
    - unfold ekey. rewrite E. reflexivity. }
  assert (Ncx : snd x <> snd c).
  { cbn [app] in R5. apply sorted_cons in R5. destruct R5 as [_ R5].
    assert (Hc : In c (l1 ++ c :: l2)) by (apply in_or_app; simpl; auto).
    specialize (R5 _ Hc). unfold ekey in R5. intros E. rewrite E in R5. lia. }
  unfold unlink. rewrite Hp, Hn.
  rewrite (load_some _ _ _ Hnp), (load_some _ _ _ HnC). cbn [obind].
  rewrite Hvp, HvC, Hvc, Hhd.
  apply bytes_eqb_neq in NPCv, Ncx. rewrite NPCv, Ncx.
  assert (LP : (fst P < length (heap r))%nat) by (apply nth_error_Some; congruence).
  assert (LC : (fst C < length (heap r))%nat) by (apply nth_error_Some; congruence).
  rewrite (store_some _ _ _ _ Hnp). cbn [obind].
  erewrite store_some by (rewrite nth_error_set_eq by assumption; reflexivity). cbn [obind].
  erewrite store_some by (rewrite !nth_error_set_neq by congruence; exact HnC). cbn [obind].
  erewrite store_some by (rewrite nth_error_set_eq by (rewrite !set_nth_length; assumption); reflexivity). cbn [obind].
  rewrite Hkp, HkC.
  match goal with |- exists r', Ret (Ring ?hh _ _) = Ret r' /\ _ => set (h' := hh) end.
  assert (HI : removed (heap r) h' (fst P) (fst C) (ekey P) (ekey C)).
  { subst h'. split; [rewrite !set_nth_length; reflexivity | ..].
    all: fields; heap_cases. }
  eexists. split; [reflexivity|].
  pose proof (cyc_remove _ _ _ _ _ _ HC ND2 Ht eq_refl HI) as HC'.
  rewrite <- Erot in HC'. apply cyc_rot in HC'.
  constructor; cbn [heap head size].
  - rewrite R1, !app_length. cbn [length]. lia.
  - rewrite R2. reflexivity.
  - rewrite map_app in *. eapply NoDup_remove_1. exact R3.
  - rewrite Forall_forall. intros e He. eapply removed_holds; [exact HI|].
    apply R4. rewrite !in_app_iff in *. simpl. tauto.
  - eapply sorted_remove. exact R5.
  - rewrite Forall_app in *. destruct R6 as [R61 R62]. inversion R62; subst. split; auto.
  - apply cyc_lring; [|exact HC']. rewrite app_length in *. simpl in *. lia.
Qed.

Lemma remove_scan_spec r l x hd hex rest : forall l1 p fuel,
  rep r l -> hd_error l = Some x -> val hd = snd x ->
  l = l1 ++ p :: rest -> (length rest < fuel)%nat ->
  (exists m1 c m2 nc, rest = m1 ++ c :: m2 /\ snd c = hex /\ nth_error (heap r) (fst c) = Some nc /\
     remove_scan fuel r hd hex (hex_val hex) (after l rest) = unlink r hd (Some (fst c)) nc)
  \/ (~ In hex (vals rest) /\ remove_scan fuel r hd hex (hex_val hex) (after l rest) = Ret r).
Proof.
  induction rest as [|c rest IH]; intros l1 p fuel HR Hx Hhd El Hf.
  - right. split; [intros []|]. destruct fuel as [|fuel]; [simpl in Hf; lia|].
    cbn [remove_scan]. destruct l as [|x' l']; [discriminate|]. injection Hx as ->.
    destruct l' as [|y l']; [reflexivity|]. cbn [after].
    pose proof (rep_holds _ _ HR) as HH.
    inversion HH as [|? ? Hh _]; subst. destruct Hh as (n & Hn & Hk & Hv).
    rewrite (load_some _ _ _ Hn). cbn [obind]. rewrite Hv, Hhd, bytes_eqb_refl. reflexivity.
  - destruct fuel as [|fuel]; [simpl in Hf; lia|].
    cbn [after remove_scan].
    pose proof (rep_holds _ _ HR) as HH. pose proof (rep_sorted _ _ HR) as HS.
    assert (Inc : In c l) by (subst l; apply in_or_app; right; simpl; auto).
    assert (Hc : holds (heap r) c) by (rewrite Forall_forall in HH; auto).
    destruct Hc as (n & Hn & Hk & Hv). rewrite (load_some _ _ _ Hn). cbn [obind].
    assert (Nx : snd c <> snd x).
    { intros E. assert (Inx : In x l) by (destruct l; [discriminate|injection Hx as ->; simpl; auto]).
      assert (c = x) by (eapply sorted_key_inj; eauto; unfold ekey; congruence). subst c.
      apply (sorted_vals_nodup _) in HS. unfold vals in HS. subst l. rewrite map_app in HS. cbn [map] in HS.
      destruct l1 as [|z l1].
      - cbn [app map] in *. injection Hx as ->. inversion HS; subst. apply H1. simpl; auto.
      - cbn [app map] in *. injection Hx as ->. inversion HS; subst. apply H1. apply in_or_app. simpl; auto. }
    rewrite Hv, Hhd. apply bytes_eqb_neq in Nx. rewrite Nx. rewrite Hk.
    destruct (bytes_eqb_spec (snd c) hex) as [E|N].
    + left. exists [], c, rest, n. repeat split; auto.
    + destruct (hex_val hex <? ekey c) eqn:EL.
      * right. split; [|reflexivity]. intros Hin. cbn [vals map] in Hin. destruct Hin as [Hin|Hin]; [contradiction|].
        apply in_map_iff in Hin. destruct Hin as (e & Ee & He).
        assert (ekey c < ekey e).
        { subst l. apply sorted_app in HS. destruct HS as (_ & HS & _).
          apply sorted_cons in HS. destruct HS as [HS _]. apply sorted_cons in HS. destruct HS as [_ HS]. auto. }
        unfold ekey in *. rewrite Ee in *. lia.
      * assert (El' : l = (l1 ++ [p]) ++ c :: rest) by (rewrite <- app_assoc; exact El).
        pose proof (lring_next _ _ _ _ _ (rep_ring _ _ HR) El') as HN.
        unfold nxt in HN. rewrite Hn in HN. rewrite HN.
        destruct (IH (l1 ++ [p]) c fuel HR Hx Hhd El') as [H|H]; [simpl in Hf; lia| |].
        -- left. destruct H as (m1 & c' & m2 & nc & E1 & E2 & E3 & E4).
           exists (c :: m1), c', m2, nc. subst rest. repeat split; auto.
        -- right. destruct H as [H1 H2]. split; [|exact H2].
           intros [Hin|Hin]; [contradiction|]. apply H1. exact Hin.
Qed.

(** The only cases where [Remove] does not implement set removal: a ring with
    exactly one entry, and the head of a ring with at least three. *)
Theorem Remove_rep r l hex :
  rep r l -> length l <> 1%nat ->
  ((3 <= length l)%nat -> hd_error (vals l) <> Some hex) ->
  exists r', Remove r hex = Ret r' /\ rep r' (del hex l).
Proof.
  intros HR NL Hhd.
  assert (Hinv : validateInput hex = false -> del hex l = l).
  { intros HV. apply del_notin. intros Hin. apply in_map_iff in Hin. destruct Hin as (e & E & He).
    pose proof (rep_valid _ _ HR) as HVs. rewrite Forall_forall in HVs. specialize (HVs _ He).
    simpl in HVs. rewrite E in HVs. congruence. }
  unfold Remove. destruct (validateInput hex) eqn:HV; cbn [negb].
  2:{ exists r. rewrite Hinv by auto. auto. }
  destruct l as [|x [|y [|z l]]]; simpl in NL; try lia.
  - rewrite (rep_size _ _ HR). exists r. auto.
  - (* two entries *)
    rewrite (rep_size _ _ HR), (rep_head _ _ HR). cbn [length Z.of_nat Pos.of_succ_nat Pos.succ].
    change (2 =? 0) with false. change (2 =? 1) with false. change (2 =? 2) with true.
    pose proof HR as [R1 R2 R3 R4 R5 R6 R7].
    inversion R4 as [|? ? Hx R4']; subst. inversion R4' as [|? ? Hy _]; subst.
    destruct Hx as (nx & Hnx & Hkx & Hvx). destruct Hy as (ny & Hny & Hky & Hvy).
    rewrite (load_some _ _ _ Hnx). cbn [obind]. rewrite Hvx.
    pose proof (lring_next _ _ [] x [y] R7 eq_refl) as HN. unfold nxt in HN. rewrite Hnx in HN.
    cbn [after] in HN. rewrite HN.
    assert (Nxy : fst x <> fst y) by (inversion R3; simpl in *; intros E; rewrite E in *; tauto).
    assert (Vxy : snd x <> snd y).
    { apply sorted_cons in R5. destruct R5 as [_ R5]. specialize (R5 y (or_introl eq_refl)).
      unfold ekey in R5. intros E. rewrite E in R5. lia. }
    cbn [del filter]. rewrite (load_some _ _ _ Hny). cbn [obind]. rewrite Hvy.
    destruct (bytes_eqb_spec (snd x) hex) as [Ex|Nx]; cbn [negb].
    + rewrite (store_some _ _ _ _ Hny). cbn [obind].
      replace (bytes_eqb (snd y) hex) with false by (symmetry; apply bytes_eqb_neq; congruence). cbn [negb].
      eexists. split; [reflexivity|].
      assert (Hy' : nth_error (set_nth (heap r) (fst y) (make_single ny)) (fst y) = Some (make_single ny)).
      { apply nth_error_set_eq. apply nth_error_Some. congruence. }
      constructor; cbn [heap head size]; auto.
      * repeat constructor; simpl; tauto.
      * repeat constructor. exists (make_single ny). auto.
      * repeat constructor.
      * inversion R6 as [|? ? ? R6']; subst. inversion R6'; subst. repeat constructor; auto.
      * simpl. unfold nxt, pv. rewrite Hy'. auto.
    + destruct (bytes_eqb_spec (snd y) hex) as [Ey|Ny]; cbn [negb].
      * rewrite (store_some _ _ _ _ Hnx). cbn [obind].
        eexists. split; [reflexivity|].
        assert (Hx' : nth_error (set_nth (heap r) (fst x) (make_single nx)) (fst x) = Some (make_single nx)).
        { apply nth_error_set_eq. apply nth_error_Some. congruence. }
        constructor; cbn [heap head size]; auto.
        -- repeat constructor; simpl; tauto.
        -- repeat constructor. exists (make_single nx). auto.
        -- repeat constructor.
        -- inversion R6 as [|? ? ? R6']; subst. repeat constructor; auto.
        -- simpl. unfold nxt, pv. rewrite Hx'. auto.
      * exists r. auto.
  - (* three or more *)
    rewrite (rep_size _ _ HR), (rep_head _ _ HR).
    set (l0 := x :: y :: z :: l) in *.
    assert (S0 : Z.of_nat (length l0) =? 0 = false) by (subst l0; cbn [length]; lia).
    assert (S1 : Z.of_nat (length l0) =? 1 = false) by (subst l0; cbn [length]; lia).
    assert (S2 : Z.of_nat (length l0) =? 2 = false) by (subst l0; cbn [length]; lia).
    rewrite S0, S1, S2.
    pose proof (rep_holds _ _ HR) as R4. inversion R4 as [|? ? Hx R4']; subst.
    destruct Hx as (nx & Hnx & Hkx & Hvx).
    rewrite (load_some _ _ _ Hnx). cbn [obind]. rewrite Hvx.
    assert (Nh : snd x <> hex).
    { intros E. apply Hhd; [subst l0; simpl; lia|]. subst l0. simpl. congruence. }
    pose proof Nh as Nh'. apply bytes_eqb_neq in Nh'. rewrite Nh'.
    pose proof (lring_next _ _ [] x (y :: z :: l) (rep_ring _ _ HR) eq_refl) as HN.
    unfold nxt in HN. rewrite Hnx in HN. rewrite HN.
    destruct (remove_scan_spec r l0 x nx hex (y :: z :: l) [] x (S (length (heap r))) HR eq_refl Hvx eq_refl)
      as [H|H].
    { pose proof (rep_length_heap _ _ HR). subst l0. simpl in *. lia. }
    + destruct H as (m1 & c & m2 & nc & E1 & E2 & E3 & E4). rewrite E4.
      assert (El : l0 = (x :: m1) ++ c :: m2) by (subst l0; rewrite E1; reflexivity).
      rewrite El in *.
      destruct (unlink_spec r (x :: m1) c m2 x nc nx HR eq_refl) as (r' & Hr' & Hrep); auto.
      { rewrite <- El. subst l0. simpl. lia. }
      exists r'. split; [exact Hr'|].
      rewrite <- E2, del_mid; [exact Hrep|]. apply sorted_vals_nodup. apply (rep_sorted _ _ HR).
    + destruct H as [H1 H2]. rewrite H2. exists r. split; [reflexivity|].
      rewrite del_notin; [exact HR|]. subst l0. intros [Hin|Hin]; contradiction.
Qed.

(** ** Removing the only entry: whatever was asked for, the ring is emptied. *)
Theorem Remove_single r x hex :
  rep r [x] -> validateInput hex = true ->
  exists r', Remove r hex = Ret r' /\ rep r' [].
Proof.
  intros HR HV. unfold Remove. rewrite HV. cbn [negb]. rewrite (rep_size _ _ HR).
  eexists. split; [reflexivity|]. constructor; simpl; auto; constructor.
Qed.

(** ** Removing the head of a ring of three or more: only [size], [head] and the
    old head's backward pointer change; every forward link stays. *)
Theorem Remove_head_effect r x y z l :
  rep r (x :: y :: z :: l) ->
  exists r' h', Remove r (snd x) = Ret r' /\ r' = Ring h' (Some (fst y)) (size r - 1) /\
    (forall a, nxt h' a = nxt (heap r) a) /\ (forall a, ky h' a = ky (heap r) a) /\
    (forall a, vl h' a = vl (heap r) a) /\ (forall a, dn h' a = dn (heap r) a) /\
    (forall a, dp h' a = dp (heap r) a) /\ length h' = length (heap r) /\
    (forall a, pv h' a = if Nat.eqb a (fst x) then Some (fst y) else pv (heap r) a).
Proof.
  intros HR. pose proof HR as [R1 R2 R3 R4 R5 R6 R7].
  unfold Remove. rewrite R1, R2.
  set (l0 := x :: y :: z :: l) in *.
  assert (S0 : Z.of_nat (length l0) =? 0 = false) by (subst l0; cbn [length]; lia).
  assert (S1 : Z.of_nat (length l0) =? 1 = false) by (subst l0; cbn [length]; lia).
  assert (S2 : Z.of_nat (length l0) =? 2 = false) by (subst l0; cbn [length]; lia).
  inversion R6 as [|? ? HV _]; subst. rewrite HV. cbn [negb]. rewrite S0, S1, S2.
  inversion R4 as [|? ? Hx R4']; subst. inversion R4' as [|? ? Hy _]; subst.
  destruct Hx as (nx & Hnx & Hkx & Hvx). destruct Hy as (ny & Hny & Hky & Hvy).
  rewrite (load_some _ _ _ Hnx). cbn [obind]. rewrite Hvx, bytes_eqb_refl.
  assert (HL : link (heap r) x y) by (subst l0; rewrite lring_cyc in R7; destruct R7 as [H _]; exact H).
  destruct HL as (L1 & L2 & L3 & L4).
  pose proof L1 as L1'. unfold nxt in L1'. rewrite Hnx in L1'. rewrite L1'.
  pose proof L2 as L2'. unfold pv in L2'. rewrite Hny in L2'.
  pose proof L3 as L3'. unfold dn in L3'. rewrite Hnx in L3'.
  pose proof L4 as L4'. unfold dp in L4'. rewrite Hny in L4'.
  assert (Nxy : fst x <> fst y) by (inversion R3; simpl in *; intros E; rewrite E in *; tauto).
  assert (Lx : (fst x < length (heap r))%nat) by (apply nth_error_Some; congruence).
  assert (Ly : (fst y < length (heap r))%nat) by (apply nth_error_Some; congruence).
  rewrite (store_some _ _ _ _ Hnx). cbn [obind].
  erewrite load_some by (rewrite nth_error_set_neq by assumption; exact Hny). cbn [obind].
  rewrite L2'.
  erewrite load_some by (rewrite nth_error_set_eq by assumption; reflexivity). cbn [obind].
  erewrite store_some by (rewrite nth_error_set_neq by assumption; exact Hny). cbn [obind].
  erewrite load_some by (rewrite nth_error_set_eq by (rewrite set_nth_length; assumption); reflexivity).
  cbn [obind]. cbn [prv set_distPrv]. rewrite L2'.
  erewrite store_some by (rewrite nth_error_set_neq, nth_error_set_eq by congruence || assumption; reflexivity).
  cbn [obind key set_prv]. rewrite Hkx, Hky.
  match goal with |- exists r' h', Ret (Ring ?hh _ _) = Ret r' /\ _ => exists (Ring hh (Some (fst y)) (Z.of_nat (length l0) - 1)), hh end.
  split; [reflexivity|]. split; [reflexivity|].
  repeat split; [..| rewrite !set_nth_length; reflexivity |].
  all: fields.
  all: repeat match goal with
    | |- context [Nat.eqb ?a ?b] => destruct (Nat.eqb_spec a b); try subst; try congruence; try contradiction
    end;
  repeat match goal with
    | H : nth_error ?h ?a = Some _ |- context [nth_error ?h ?a] => rewrite H
    end;
  cbn [next prv distNext distPrv key val set_prv set_next set_distNext set_distPrv]; try reflexivity; try congruence.
Qed.

(** ** [Dump] *)
Lemma dump_scan_spec h l x rest : forall l1 p fuel,
  lring h l -> Forall (holds h) l -> NoDup (vals l) -> hd_error l = Some x ->
  l = l1 ++ p :: rest -> (length rest < fuel)%nat ->
  dump_scan fuel h (snd x) (after l rest)
  = Ret (map (fun e => (snd e, dp h (fst e), dn h (fst e))) rest).
Proof.
  induction rest as [|c rest IH]; intros l1 p fuel HR HH HS Hx El Hf.
  - destruct fuel as [|fuel]; [simpl in Hf; lia|].
    cbn [dump_scan]. destruct l as [|x' l']; [discriminate|]. injection Hx as ->.
    destruct l' as [|y l']; [reflexivity|]. cbn [after].
    inversion HH as [|? ? Hh _]; subst. destruct Hh as (n & Hn & Hk & Hv).
    rewrite (load_some _ _ _ Hn). cbn [obind]. rewrite Hv, bytes_eqb_refl. reflexivity.
  - destruct fuel as [|fuel]; [simpl in Hf; lia|].
    cbn [after dump_scan].
    assert (Hc : holds h c). { rewrite Forall_forall in HH. apply HH. subst l. apply in_or_app. right. simpl. auto. }
    destruct Hc as (n & Hn & Hk & Hv). rewrite (load_some _ _ _ Hn). cbn [obind].
    assert (Nx : snd c <> snd x).
    { intros E. subst l. unfold vals in HS. rewrite map_app in HS. cbn [map] in HS.
      destruct l1 as [|z l1]; cbn [app map] in *; injection Hx as ->; inversion HS; subst; apply H1; rewrite ?in_app_iff; simpl; auto. }
    rewrite Hv. apply bytes_eqb_neq in Nx. rewrite Nx.
    assert (El' : l = (l1 ++ [p]) ++ c :: rest) by (rewrite <- app_assoc; exact El).
    pose proof (lring_next _ _ _ _ _ HR El') as HN.
    unfold nxt in HN. rewrite Hn in HN. rewrite HN.
    rewrite (IH (l1 ++ [p]) c fuel HR HH HS Hx El') by (simpl in Hf; lia). cbn [obind].
    cbn [map].
    replace (dp h (fst c)) with (distPrv n) by (unfold dp; rewrite Hn; reflexivity).
    replace (dn h (fst c)) with (distNext n) by (unfold dn; rewrite Hn; reflexivity). reflexivity.
Qed.

Theorem Dump_rep r l :
  rep r l -> Dump r = Ret (map (fun e => (snd e, dp (heap r) (fst e), dn (heap r) (fst e))) l).
Proof.
  intros HR. unfold Dump. rewrite (rep_head _ _ HR). destruct l as [|x l]; [reflexivity|].
  pose proof (rep_holds _ _ HR) as HH. inversion HH as [|? ? Hx _]; subst. destruct Hx as (n & Hn & Hk & Hv).
  rewrite (load_some _ _ _ Hn). cbn [obind]. rewrite Hv.
  pose proof (lring_next _ _ [] x l (rep_ring _ _ HR) eq_refl) as HN. unfold nxt in HN. rewrite Hn in HN. rewrite HN.
  rewrite (dump_scan_spec _ (x :: l) x l [] x); auto.
  - cbn [obind map].
    replace (dp (heap r) (fst x)) with (distPrv n) by (unfold dp; rewrite Hn; reflexivity).
    replace (dn (heap r) (fst x)) with (distNext n) by (unfold dn; rewrite Hn; reflexivity). reflexivity.
  - apply (rep_ring _ _ HR).
  - apply sorted_vals_nodup, (rep_sorted _ _ HR).
  - pose proof (rep_length_heap _ _ HR). simpl in *. lia.
Qed.
