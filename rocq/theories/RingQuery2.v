(** [GetClosest] and [GetWithinRange]: whole calls. *)
From Coq Require Import List ZArith Bool Lia ZifyBool ZifyNat Sorting.Sorted Sorting.Permutation.
From Coq Require Import Init.Byte.
From Verif Require Import Base BaseProofs Ring RingSpec RingLemmas RingInsert RingRemove RingQuery.
Import ListNotations.
Open Scope Z_scope.
Open Scope go_scope.

Lemma vals_length l : length (vals l) = length l.
Proof. apply map_length. Qed.

Lemma sorted_vals l : sorted l -> StronglySorted (fun a b => hex_val a < hex_val b) (vals l).
Proof.
  induction 1 as [|x l' HS IH HF]; [constructor|]. constructor; [exact IH|].
  rewrite Forall_forall in *. intros v Hv. apply in_map_iff in Hv. destruct Hv as (e & <- & He). apply (HF e He).
Qed.

Lemma vals_del hex l : vals (del hex l) = filter (fun v => negb (bytes_eqb v hex)) (vals l).
Proof.
  induction l as [|x l IH]; [reflexivity|]. cbn [vals map del filter].
  destruct (bytes_eqb (snd x) hex); cbn [negb]; [exact IH|]. cbn [map]. f_equal. exact IH.
Qed.

(** Re-inserting a removed entry gives back the list. *)
Lemma ins_del hex l : sorted l -> In hex (vals l) -> ins hex (vals (del hex l)) = vals l.
Proof.
  intros HS Hin. apply in_map_iff in Hin. destruct Hin as (c & Ec & Hc).
  apply in_split in Hc. destruct Hc as (l1 & l2 & ->).
  rewrite <- Ec at 2. rewrite del_mid by (apply sorted_vals_nodup; exact HS).
  apply sorted_app in HS. destruct HS as (S1 & S2 & S3). apply sorted_cons in S2. destruct S2 as [S2 S4].
  assert (Hk : hex_val hex = ekey c) by (unfold ekey; rewrite Ec; reflexivity).
  rewrite ins_split.
  - unfold vals. rewrite map_app. cbn [map]. rewrite Ec. reflexivity.
  - intros e He. rewrite Hk. apply S3; simpl; auto.
  - intros e He. rewrite Hk. apply S4; auto.
Qed.

(** Removing a freshly inserted entry gives back the list. *)
Lemma del_ins hex l l' : sorted l -> sorted l' -> ~ (exists e, In e l /\ ekey e = hex_val hex) ->
  vals l' = ins hex (vals l) -> vals (del hex l') = vals l.
Proof.
  intros HS HS' Hn Hv. destruct (key_dichotomy l (hex_val hex) HS) as [H|(l1 & l2 & -> & H1 & H2)]; [contradiction|].
  rewrite (ins_split hex l1 l2 H1 H2) in Hv.
  rewrite vals_del, Hv. rewrite filter_app. cbn [filter]. rewrite bytes_eqb_refl. cbn [negb].
  assert (HF : forall m, ~ In hex m -> filter (fun v => negb (bytes_eqb v hex)) m = m).
  { induction m as [|v m IH]; intros Hm; [reflexivity|]. cbn [filter].
    destruct (bytes_eqb_spec v hex) as [->|N]; [exfalso; apply Hm; simpl; auto|]. cbn [negb].
    f_equal. apply IH. intros Hi. apply Hm. simpl; auto. }
  unfold vals. rewrite map_app. rewrite !HF; auto.
  - intros Hi. apply in_map_iff in Hi. destruct Hi as (e & Ee & He). specialize (H2 _ He). unfold ekey in H2. rewrite Ee in H2. lia.
  - intros Hi. apply in_map_iff in Hi. destruct Hi as (e & Ee & He). specialize (H1 _ He). unfold ekey in H1. rewrite Ee in H1. lia.
Qed.

Lemma bytes_in_dec (x : gostring) l : {In x l} + {~ In x l}.
Proof. apply in_dec. apply bytes_eq_dec. Qed.

Lemma rep_sorted' r l : rep r l -> sorted l.
Proof. apply rep_sorted. Qed.

(** The deferred [Remove] of a temporary entry. *)
Lemma remove_temp r l' base hex :
  rep r l' -> vals l' = ins hex base -> StronglySorted (fun a b => hex_val a < hex_val b) base ->
  length l' = S (length base) -> ~ In hex base -> base <> [] ->
  (exists r', Remove r hex = Ret r' /\ (undisturbed base hex -> rep r' (del hex l'))).
Proof.
  intros HR Hv HS HL Hn NE.
  destruct (le_lt_dec 3 (length l')) as [H3|H3].
  - destruct l' as [|x [|y [|z l'']]]; try (simpl in H3; lia).
    destruct (bytes_eq_dec (snd x) hex) as [E|N].
    + (* temporary entry became the head *)
      destruct (Remove_head_effect r x y z l'' HR) as (r' & h' & HRm & _).
      rewrite E in HRm. exists r'. split; [exact HRm|].
      intros [Hu|[Hu|(v & Hvin & Hlt)]]; [contradiction|simpl in *; lia|].
      exfalso.
      assert (Hin : In v (vals (x :: y :: z :: l''))).
      { rewrite Hv. clear - Hvin. induction base as [|b base IH]; [contradiction|].
        cbn [ins]. destruct (hex_val b ?= hex_val hex); [exact Hvin| |right; exact Hvin].
        destruct Hvin as [->|Hvin]; [left; reflexivity | right; auto]. }
      apply in_map_iff in Hin. destruct Hin as (e & Ee & He).
      pose proof (rep_sorted _ _ HR) as HSl. apply sorted_cons in HSl. destruct HSl as [_ HSl].
      destruct He as [<-|He].
      * rewrite Ee in E. subst v. lia.
      * specialize (HSl _ He). unfold ekey in HSl. rewrite Ee, E in HSl. lia.
    + destruct (Remove_rep r (x :: y :: z :: l'') hex HR) as (r' & HRm & HRr).
      * simpl; lia.
      * intros _. simpl. congruence.
      * exists r'. split; auto.
  - destruct (Remove_rep r l' hex HR) as (r' & HRm & HRr).
    + rewrite HL. destruct base; [contradiction|simpl; lia].
    + intros; lia.
    + exists r'. split; auto.
Qed.

Lemma existsb_vals_key l hex : (forall e : entry, In e l -> ekey e = hex_val hex -> snd e = hex) ->
  ~ In hex (vals l) -> ~ (exists e, In e l /\ ekey e = hex_val hex).
Proof. intros Hsp Hn (e & He & Hk). apply Hn. rewrite <- (Hsp e He Hk). apply in_map. exact He. Qed.

Lemma del_In hex l e : In e (del hex l) -> In e l.
Proof. unfold del. rewrite filter_In. tauto. Qed.

Theorem GetClosest_rep r l hex num exclude :
  let base := vals (del exclude l) in
  rep r l -> validateInput hex = true ->
  (exclude = [] \/ (validateInput exclude = true /\ length l <> 1%nat)) ->
  (forall e, In e l -> ekey e = hex_val hex -> snd e = hex) ->
  ((3 <= length l)%nat -> hd_error (vals l) <> Some exclude) ->
  1 <= num <= Z.of_nat (length base) ->
  (undisturbed base hex \/ ~ In exclude (vals l)) ->
  exists res r', GetClosest r hex num exclude = Ret (OkR res, r') /\
    closest_ok base hex num res /\
    (undisturbed base hex -> exists l', rep r' l' /\ vals l' = vals l).
Proof.
  intros base HR HV Hex Hsp Hhd Hnum Hund.
  assert (NEb : base <> []) by (intros E; rewrite E in Hnum; simpl in Hnum; lia).
  unfold GetClosest.
  assert (Eguard : negb (validateInput hex) || (negb (bytes_eqb exclude []) && negb (validateInput exclude)) = false).
  { rewrite HV. cbn [negb orb]. destruct Hex as [->|[-> _]]; [reflexivity|]. cbn [negb]. apply andb_false_r. }
  rewrite Eguard. clear Eguard.
  assert (NEl : l <> []).
  { intros ->. apply NEb. reflexivity. }
  assert (Hsz : size r <> 0).
  { rewrite (rep_size _ _ HR). destruct l; [contradiction|simpl; lia]. }
  assert (Eg2 : (num =? 0) || (size r =? 0) || (negb (bytes_eqb exclude []) && (size r =? 1)) = false).
  { replace (num =? 0) with false by lia. replace (size r =? 0) with false by lia. cbn [orb].
    destruct Hex as [->|[_ N1]]; [reflexivity|]. rewrite (rep_size _ _ HR).
    replace (Z.of_nat (length l) =? 1) with false by lia. apply andb_false_r. }
  rewrite Eg2. clear Eg2.
  (* exclusion *)
  assert (H1 : exists r1, (if negb (bytes_eqb exclude []) then Remove r exclude else Ret r) = Ret r1 /\
                rep r1 (del exclude l)).
  { destruct (bytes_eqb_spec exclude []) as [->|N]; cbn [negb].
    - exists r. split; [reflexivity|]. rewrite del_notin; [exact HR|].
      intros Hin. apply in_map_iff in Hin. destruct Hin as (e & Ee & He).
      pose proof (rep_valid _ _ HR) as HVs. rewrite Forall_forall in HVs. specialize (HVs _ He). simpl in HVs.
      rewrite Ee in HVs. discriminate.
    - destruct Hex as [->|[_ N1]]; [contradiction|]. apply Remove_rep; auto. }
  destruct H1 as (r1 & Hr1 & HR1). rewrite Hr1. cbn [obind].
  rewrite (rep_size _ _ HR1).
  replace (Z.of_nat (length (del exclude l)) <? num) with false.
  2:{ symmetry. apply Z.ltb_ge. rewrite <- vals_length. apply Hnum. }
  destruct (closest_search_spec r1 (del exclude l) hex num HR1) as (res & r2 & l2 & pending & Hs & HR2 & Hok & Hpend); auto.
  { intros E. apply NEb. unfold base. rewrite E. reflexivity. }
  { intros e He. apply Hsp. eapply del_In; eauto. }
  { rewrite <- vals_length. exact Hnum. }
  rewrite Hs. cbn [obind].
  assert (H3 : exists r3, (if pending : bool then Remove r2 hex else Ret r2) = Ret r3 /\
     (undisturbed base hex -> exists l3, rep r3 l3 /\ vals l3 = base)).
  { destruct Hpend as [(Hin & -> & Hv)|(Hnin & -> & Hv & HL & _)].
    - exists r2. split; [reflexivity|]. intros _. exists l2. auto.
    - destruct (remove_temp r2 l2 base hex HR2 Hv) as (r3 & Hr3 & Hr3'); auto.
      + apply sorted_vals. apply (rep_sorted _ _ HR1).
      + unfold base. rewrite vals_length. exact HL.
      + exists r3. split; [exact Hr3|]. intros Hu. exists (del hex l2). split; [auto|].
        apply del_ins; auto.
        * apply (rep_sorted _ _ HR1).
        * apply (rep_sorted _ _ HR2).
        * apply existsb_vals_key; [|exact Hnin]. intros e He. apply Hsp. eapply del_In; eauto. }
  destruct H3 as (r3 & Hr3 & Hrep3). rewrite Hr3. cbn [obind].
  assert (Hsize : (Z.of_nat (length (del exclude l)) =? size r) = negb (if bytes_in_dec exclude (vals l) then true else false)).
  { rewrite (rep_size _ _ HR). destruct (bytes_in_dec exclude (vals l)) as [Hin|Hnin]; cbn [negb].
    - apply in_map_iff in Hin. destruct Hin as (c & Ec & Hc). apply in_split in Hc. destruct Hc as (l1 & l2' & El).
      rewrite El, <- Ec. rewrite del_mid.
      + rewrite !app_length. simpl. lia.
      + apply sorted_vals_nodup. rewrite <- El. apply (rep_sorted _ _ HR).
    - rewrite del_notin by assumption. apply Z.eqb_refl. }
  rewrite Hsize. rewrite negb_involutive.
  destruct (bytes_in_dec exclude (vals l)) as [Hin|Hnin].
  - destruct Hund as [Hu|Hn]; [|contradiction].
    destruct (Hrep3 Hu) as (l3 & HR3 & Hv3).
    destruct (Insert_rep r3 l3 exclude HR3) as (r4 & l4 & HI & HR4 & Hv4 & _).
    rewrite HI. cbn [obind].
    exists res, r4. split; [reflexivity|]. split; [exact Hok|]. intros _. exists l4. split; [exact HR4|].
    assert (HVe : validateInput exclude = true).
    { destruct Hex as [->|[HVe _]]; [|exact HVe]. exfalso.
      apply in_map_iff in Hin. destruct Hin as (e & Ee & He).
      pose proof (rep_valid _ _ HR) as HVs. rewrite Forall_forall in HVs. specialize (HVs _ He). simpl in HVs.
      rewrite Ee in HVs. discriminate. }
    rewrite HVe in Hv4. rewrite Hv4, Hv3. unfold base. apply ins_del; [apply (rep_sorted _ _ HR)|exact Hin].
  - cbn [obind]. exists res, r3. split; [reflexivity|]. split; [exact Hok|].
    intros Hu. destruct (Hrep3 Hu) as (l3 & HR3 & Hv3). exists l3. split; [exact HR3|].
    rewrite Hv3. unfold base. rewrite del_notin by assumption. reflexivity.
Qed.

(** Asking for more than there are: the head is left out unless it is the point. *)
Theorem GetClosest_many r l hex num exclude :
  let base := vals (del exclude l) in
  rep r l -> validateInput hex = true ->
  (exclude = [] \/ (validateInput exclude = true /\ length l <> 1%nat)) ->
  ((3 <= length l)%nat -> hd_error (vals l) <> Some exclude) ->
  base <> [] -> Z.of_nat (length base) < num ->
  exists r' l', GetClosest r hex num exclude =
      Ret (OkR (match base with
                | [] => []
                | v :: t => if bytes_eqb v hex then v :: t else t
                end), r') /\
    rep r' l' /\ vals l' = vals l.
Proof.
  intros base HR HV Hex Hhd NEb Hnum.
  unfold GetClosest.
  assert (Eguard : negb (validateInput hex) || (negb (bytes_eqb exclude []) && negb (validateInput exclude)) = false).
  { rewrite HV. cbn [negb orb]. destruct Hex as [->|[-> _]]; [reflexivity|]. cbn [negb]. apply andb_false_r. }
  rewrite Eguard. clear Eguard.
  assert (NEl : l <> []).
  { intros ->. apply NEb. reflexivity. }
  assert (Hsz : size r <> 0).
  { rewrite (rep_size _ _ HR). destruct l; [contradiction|simpl; lia]. }
  assert (Eg2 : (num =? 0) || (size r =? 0) || (negb (bytes_eqb exclude []) && (size r =? 1)) = false).
  { replace (num =? 0) with false by lia. replace (size r =? 0) with false by lia. cbn [orb].
    destruct Hex as [->|[_ N1]]; [reflexivity|]. rewrite (rep_size _ _ HR).
    replace (Z.of_nat (length l) =? 1) with false by lia. apply andb_false_r. }
  rewrite Eg2. clear Eg2.
  assert (H1 : exists r1, (if negb (bytes_eqb exclude []) then Remove r exclude else Ret r) = Ret r1 /\
                rep r1 (del exclude l)).
  { destruct (bytes_eqb_spec exclude []) as [->|N]; cbn [negb].
    - exists r. split; [reflexivity|]. rewrite del_notin; [exact HR|].
      intros Hin. apply in_map_iff in Hin. destruct Hin as (e & Ee & He).
      pose proof (rep_valid _ _ HR) as HVs. rewrite Forall_forall in HVs. specialize (HVs _ He). simpl in HVs.
      rewrite Ee in HVs. discriminate.
    - destruct Hex as [->|[_ N1]]; [contradiction|]. apply Remove_rep; auto. }
  destruct H1 as (r1 & Hr1 & HR1). rewrite Hr1. cbn [obind].
  rewrite (rep_size _ _ HR1).
  replace (Z.of_nat (length (del exclude l)) <? num) with true.
  2:{ symmetry. apply Z.ltb_lt. rewrite <- vals_length. apply Hnum. }
  assert (Hb : base = vals (del exclude l)) by reflexivity. clearbody base.
  destruct (del exclude l) as [|x t] eqn:Edel; [subst base; contradiction|].
  rewrite (rep_head _ _ HR1).
  pose proof (rep_holds _ _ HR1) as HH. assert (Hx : holds (heap r1) x) by (rewrite Forall_forall in HH; apply HH; left; reflexivity).
  destruct Hx as (nx & Hnx & Hkx & Hvx). rewrite (load_some _ _ _ Hnx). cbn [obind]. rewrite Hvx.
  pose proof (lring_next _ _ [] x t (rep_ring _ _ HR1) eq_refl) as HN. unfold nxt in HN. rewrite Hnx in HN. rewrite HN.
  rewrite (list_scan_spec (heap r1) (x :: t) x t [] x); auto.
  2:{ apply (rep_ring _ _ HR1). }
  2:{ apply sorted_vals_nodup. apply (rep_sorted _ _ HR1). }
  2:{ pose proof (rep_length_heap _ _ HR1). simpl in *. lia. }
  cbn [obind].
  assert (Hres : (if bytes_eqb (snd x) hex then [snd x] else []) ++ vals t =
     match base with [] => [] | v :: t0 => if bytes_eqb v hex then v :: t0 else t0 end).
  { rewrite Hb. cbn [vals map]. destruct (bytes_eqb (snd x) hex); reflexivity. }
  rewrite Hres. clear Hres.
  assert (Hsize : (Z.of_nat (length (x :: t)) =? size r) = negb (if bytes_in_dec exclude (vals l) then true else false)).
  { rewrite <- Edel. rewrite (rep_size _ _ HR). destruct (bytes_in_dec exclude (vals l)) as [Hin|Hnin]; cbn [negb].
    - apply in_map_iff in Hin. destruct Hin as (c & Ec & Hc). apply in_split in Hc. destruct Hc as (l1 & l2' & El).
      rewrite El, <- Ec. rewrite del_mid.
      + rewrite !app_length. simpl. lia.
      + apply sorted_vals_nodup. rewrite <- El. apply (rep_sorted _ _ HR).
    - rewrite del_notin by assumption. apply Z.eqb_refl. }
  rewrite Hsize. rewrite negb_involutive.
  destruct (bytes_in_dec exclude (vals l)) as [Hin|Hnin].
  - destruct (Insert_rep r1 _ exclude HR1) as (r4 & l4 & HI & HR4 & Hv4 & _).
    rewrite HI. cbn [obind]. exists r4, l4. split; [reflexivity|]. split; [exact HR4|].
    assert (HVe : validateInput exclude = true).
    { destruct Hex as [->|[HVe _]]; [|exact HVe]. exfalso.
      apply in_map_iff in Hin. destruct Hin as (e & Ee & He).
      pose proof (rep_valid _ _ HR) as HVs. rewrite Forall_forall in HVs. specialize (HVs _ He). simpl in HVs.
      rewrite Ee in HVs. discriminate. }
    rewrite HVe in Hv4. rewrite Hv4. rewrite <- Edel. apply ins_del; [apply (rep_sorted _ _ HR)|exact Hin].
  - cbn [obind]. exists r1, (x :: t). split; [reflexivity|]. split; [exact HR1|].
    rewrite <- Edel. rewrite del_notin by assumption. reflexivity.
Qed.

(** ** Range queries *)
Lemma get_scan_spec h l x hex rest : forall l1 p fuel,
  lring h l -> Forall (holds h) l -> NoDup (vals l) -> hd_error l = Some x ->
  l = l1 ++ p :: rest -> (length rest < fuel)%nat ->
  (exists e, In e rest /\ snd e = hex /\ get_scan fuel h (snd x) hex (after l rest) = Ret (Some (fst e))) \/
  (~ In hex (vals rest) /\ get_scan fuel h (snd x) hex (after l rest) = Ret None).
Proof.
  induction rest as [|c rest IH]; intros l1 p fuel HR HH HS Hx El Hf.
  - right. split; [intros []|]. destruct fuel as [|fuel]; [simpl in Hf; lia|].
    cbn [get_scan]. destruct l as [|x' l']; [discriminate|]. injection Hx as ->.
    destruct l' as [|y l']; [reflexivity|]. cbn [after].
    inversion HH as [|? ? Hh _]; subst. destruct Hh as (n & Hn & Hk & Hv).
    rewrite (load_some _ _ _ Hn). cbn [obind]. rewrite Hv, bytes_eqb_refl. reflexivity.
  - destruct fuel as [|fuel]; [simpl in Hf; lia|].
    cbn [after get_scan].
    assert (Hc : holds h c). { rewrite Forall_forall in HH. apply HH. subst l. apply in_or_app. right. simpl. auto. }
    destruct Hc as (n & Hn & Hk & Hv). rewrite (load_some _ _ _ Hn). cbn [obind].
    assert (Nx : snd c <> snd x) by (eapply not_head_val; eauto; simpl; auto).
    rewrite Hv. apply bytes_eqb_neq in Nx. rewrite Nx.
    destruct (bytes_eqb_spec (snd c) hex) as [E|N].
    + left. exists c. simpl. auto.
    + assert (El' : l = (l1 ++ [p]) ++ c :: rest) by (rewrite <- app_assoc; exact El).
      pose proof (lring_next _ _ _ _ _ HR El') as HN.
      unfold nxt in HN. rewrite Hn in HN. rewrite HN.
      destruct (IH (l1 ++ [p]) c fuel) as [(e & He & Ee & Hg)|[Hnin Hg]]; auto; [simpl in Hf; lia| |].
      * left. exists e. simpl. auto.
      * right. split; auto. intros [Hi|Hi]; contradiction.
Qed.

Lemma get_spec r l hex : rep r l -> validateInput hex = true ->
  (exists e, In e l /\ snd e = hex /\ get r hex = Ret (Some (fst e))) \/
  (~ In hex (vals l) /\ get r hex = Ret None).
Proof.
  intros HR HV. unfold get. rewrite HV. cbn [negb]. rewrite (rep_size _ _ HR), (rep_head _ _ HR).
  destruct l as [|x l]; [right; split; [intros []|reflexivity]|].
  replace (Z.of_nat (length (x :: l)) =? 0) with false by (cbn [length]; lia).
  pose proof (rep_holds _ _ HR) as HH. assert (Hx : holds (heap r) x) by (rewrite Forall_forall in HH; apply HH; left; reflexivity).
  destruct Hx as (nx & Hnx & Hkx & Hvx). rewrite (load_some _ _ _ Hnx). cbn [obind]. rewrite Hvx.
  destruct (bytes_eqb_spec (snd x) hex) as [E|N].
  - left. exists x. simpl. auto.
  - pose proof (lring_next _ _ [] x l (rep_ring _ _ HR) eq_refl) as HN. unfold nxt in HN. rewrite Hnx in HN. rewrite HN.
    destruct (get_scan_spec (heap r) (x :: l) x hex l [] x (S (length (heap r)))) as [(e & He & Ee & Hg)|[Hnin Hg]]; auto.
    + apply (rep_ring _ _ HR).
    + apply sorted_vals_nodup, (rep_sorted _ _ HR).
    + pose proof (rep_length_heap _ _ HR). simpl in *. lia.
    + left. exists e. simpl. auto.
    + right. split; auto. intros [Hi|Hi]; contradiction.
Qed.

Lemma ins_In hex l v : sorted l -> ~ (exists e, In e l /\ ekey e = hex_val hex) ->
  In v (ins hex (vals l)) <-> v = hex \/ In v (vals l).
Proof.
  intros HS Hn. destruct (key_dichotomy l (hex_val hex) HS) as [H|(l1 & l2 & -> & H1 & H2)]; [contradiction|].
  rewrite (ins_split hex l1 l2 H1 H2). unfold vals. rewrite map_app, !in_app_iff. simpl. intuition.
Qed.

Lemma endpoint_spec r l hex : rep r l -> validateInput hex = true ->
  (forall e, In e l -> ekey e = hex_val hex -> snd e = hex) ->
  exists r' l' e b, endpoint r hex = Ret (Some (fst e, b), r') /\ rep r' l' /\ In e l' /\ snd e = hex /\ incl l l' /\
    ((b = true /\ r' = r /\ l' = l /\ In hex (vals l)) \/
     (b = false /\ ~ In hex (vals l) /\ vals l' = ins hex (vals l) /\ length l' = S (length l))).
Proof.
  intros HR HV Hsp. unfold endpoint.
  destruct (get_spec r l hex HR HV) as [(e & He & Ee & Hg)|[Hnin Hg]]; rewrite Hg; cbn [obind].
  - exists r, l, e, true. split; [reflexivity|]. split; [exact HR|]. split; [exact He|]. split; [exact Ee|].
    split; [apply incl_refl|]. left. repeat split; auto. rewrite <- Ee. apply in_map. exact He.
  - destruct (Insert_rep r l hex HR) as (r' & l' & HI & HR' & Hv & Hincl). rewrite HV in Hv.
    rewrite HI. cbn [obind].
    pose proof (existsb_vals_key _ _ Hsp Hnin) as Hnk.
    assert (Hin : In hex (vals l')) by (rewrite Hv; apply ins_In; auto; apply (rep_sorted _ _ HR)).
    destruct (get_spec r' l' hex HR' HV) as [(e & He & Ee & Hg')|[Hn' _]]; [|contradiction].
    rewrite Hg'. cbn [obind]. exists r', l', e, false. split; [reflexivity|]. split; [exact HR'|]. split; [exact He|].
    split; [exact Ee|]. split; [exact Hincl|]. right. repeat split; auto.
    destruct (key_dichotomy l (hex_val hex) (rep_sorted _ _ HR)) as [H|(l1 & l2 & El & H1 & H2)]; [contradiction|].
    rewrite El in Hv. rewrite (ins_split hex l1 l2 H1 H2) in Hv. apply (f_equal (@length _)) in Hv.
    rewrite app_length in Hv. cbn [length] in Hv. rewrite !vals_length in Hv. rewrite Hv, El, app_length. lia.
Qed.

Lemma range_scan_spec h e b : forall f q acc fuel,
  chain (link h) (q :: f ++ e :: b) -> Forall (holds h) (f ++ [e]) -> ~ In (snd e) (vals f) ->
  (length f < fuel)%nat ->
  range_scan fuel h (snd e) (nxt h (fst q)) acc = Ret (acc ++ vals f).
Proof.
  induction f as [|a f IH]; intros q acc fuel HC HH Hn Hf.
  - destruct fuel as [|fuel]; [simpl in Hf; lia|]. cbn [app] in HC. destruct HC as [(L1 & _) _].
    rewrite L1. inversion HH as [|? ? He _]; subst. destruct He as (n & Hn' & Hk & Hv).
    cbn [range_scan]. rewrite (load_some _ _ _ Hn'). cbn [obind]. rewrite Hv, bytes_eqb_refl, app_nil_r. reflexivity.
  - destruct fuel as [|fuel]; [simpl in Hf; lia|]. cbn [app] in HC. destruct HC as [(L1 & _) HC].
    rewrite L1. cbn [app] in HH. inversion HH as [|? ? Ha HH']; subst. destruct Ha as (n & Hn' & Hk & Hv).
    cbn [range_scan]. rewrite (load_some _ _ _ Hn'). cbn [obind]. rewrite Hv.
    assert (N : snd a <> snd e) by (intros E; apply Hn; left; exact E).
    apply bytes_eqb_neq in N. rewrite N.
    replace (next n) with (nxt h (fst a)) by (unfold nxt; rewrite Hn'; reflexivity).
    rewrite (IH a (acc ++ [snd a]) fuel); auto.
    + rewrite <- app_assoc. reflexivity.
    + intros Hi. apply Hn. right. exact Hi.
    + simpl in Hf. lia.
Qed.

Lemma sorted_map_vals k f : dsorted k f -> StronglySorted (fun a b => cw k (hex_val a) < cw k (hex_val b)) (vals f).
Proof.
  induction 1 as [|x l' HS IH HF]; [constructor|]. constructor; [exact IH|].
  rewrite Forall_forall in *. intros v Hv. apply in_map_iff in Hv. destruct Hv as (e & <- & He). apply (HF e He).
Qed.

Lemma ss_app {A} (R : A -> A -> Prop) l1 l2 : StronglySorted R l1 -> StronglySorted R l2 ->
  (forall a b, In a l1 -> In b l2 -> R a b) -> StronglySorted R (l1 ++ l2).
Proof.
  induction 1 as [|x l HS IH HF]; intros H2 H3; [exact H2|]. cbn [app]. constructor.
  - apply IH; auto. intros a b Ha Hb. apply H3; simpl; auto.
  - rewrite Forall_app. split; [exact HF|]. rewrite Forall_forall. intros b Hb. apply H3; simpl; auto.
Qed.

Theorem GetWithinRange_rep r l s e :
  let mid := if existsb (bytes_eqb s) (vals l) then vals l else s :: vals l in
  rep r l -> validateInput s = true -> validateInput e = true -> hex_val s <> hex_val e ->
  (forall x, In x l -> ekey x = hex_val s -> snd x = s) ->
  (forall x, In x l -> ekey x = hex_val e -> snd x = e) ->
  undisturbed (vals l) s -> undisturbed mid e ->
  exists res r' l', GetWithinRange r s e = Ret (OkR res, r') /\
    range_ok (vals l) s e res /\ rep r' l' /\ vals l' = vals l.
Proof.
  intros mid HR HVs HVe Nk Hsps Hspe Us Ue.
  assert (Nse : s <> e) by congruence.
  unfold GetWithinRange. rewrite HVs, HVe. cbn [negb orb].
  destruct (endpoint_spec r l s HR HVs Hsps) as (r1 & l1 & c & b1 & E1 & HR1 & Hc1 & Ec & I1 & D1).
  rewrite E1. cbn [obind].
  assert (Hv1 : forall v, In v (vals l1) <-> v = s \/ In v (vals l)).
  { intros v. destruct D1 as [(-> & -> & -> & Hin)|(-> & Hnin & Hv & _)].
    - split; [auto|intros [->|H]; auto].
    - rewrite Hv. apply ins_In; [apply (rep_sorted _ _ HR)|]. apply existsb_vals_key; auto. }
  assert (Hspe1 : forall x, In x l1 -> ekey x = hex_val e -> snd x = e).
  { intros x Hx Hk. assert (Hvx : In (snd x) (vals l1)) by (apply in_map; exact Hx).
    apply Hv1 in Hvx. destruct Hvx as [Hvx|Hvx].
    - unfold ekey in Hk. rewrite Hvx in Hk. contradiction.
    - apply in_map_iff in Hvx. destruct Hvx as (x' & Ex & Hx'). rewrite <- Ex. apply Hspe; auto.
      unfold ekey in *. rewrite Ex. exact Hk. }
  destruct (endpoint_spec r1 l1 e HR1 HVe Hspe1) as (r2 & l2 & ce & b2 & E2 & HR2 & Hce & Ece & I2 & D2).
  rewrite E2. cbn [obind].
  assert (Hv2 : forall v, In v (vals l2) <-> v = e \/ v = s \/ In v (vals l)).
  { intros v. rewrite <- Hv1. destruct D2 as [(-> & -> & -> & Hin)|(-> & Hnin & Hv & _)].
    - split; [auto|intros [->|H]; auto].
    - rewrite Hv. apply ins_In; [apply (rep_sorted _ _ HR1)|]. apply existsb_vals_key; auto. }
  assert (Hc2 : In c l2) by (apply I2; exact Hc1).
  pose proof (rep_holds _ _ HR2) as HH2. rewrite Forall_forall in HH2.
  destruct (HH2 c Hc2) as (nc & Hnc & Hkc & Hvc). destruct (HH2 ce Hce) as (ne & Hne & Hke & Hve).
  rewrite (load_some _ _ _ Hnc), (load_some _ _ _ Hne). cbn [obind]. rewrite Hve.
  (* rotate to start at s *)
  destruct (in_split _ _ Hc2) as (p1 & p2 & El2).
  set (rest := p2 ++ p1).
  assert (Nce : c <> ce) by (intros E; subst ce; congruence).
  assert (Hcer : In ce rest).
  { subst rest. rewrite El2 in Hce. rewrite in_app_iff in *. simpl in Hce. destruct Hce as [H|[H|H]]; auto; contradiction. }
  destruct (in_split _ _ Hcer) as (f & b & Er).
  assert (Hlen2 : (2 <= length l2)%nat).
  { rewrite El2, app_length. simpl. assert (rest <> []) by (rewrite Er; destruct f; discriminate).
    subst rest. destruct p1, p2; simpl in *; try lia. }
  assert (Hcyc : cyc (link (heap r2)) (c :: rest)).
  { change (c :: rest) with ((c :: p2) ++ p1). apply cyc_rot. rewrite <- El2. apply lring_3_cyc; [exact Hlen2|apply (rep_ring _ _ HR2)]. }
  pose proof (rep_sorted _ _ HR2) as HS2. pose proof HS2 as HS2'. rewrite El2 in HS2'.
  pose proof HS2' as HS2''. apply sorted_app in HS2''. destruct HS2'' as (S1 & S2 & S3).
  apply sorted_cons in S2. destruct S2 as [S2 S4].
  assert (Hks : ekey c = hex_val s) by (unfold ekey; rewrite Ec; reflexivity).
  assert (Hke' : ekey ce = hex_val e) by (unfold ekey; rewrite Ece; reflexivity).
  assert (Hrestl : forall x, In x rest -> In x l2 /\ ekey x <> ekey c).
  { intros x Hx. split.
    - rewrite El2. subst rest. rewrite in_app_iff in *. simpl. tauto.
    - subst rest. apply in_app_or in Hx. destruct Hx as [Hx|Hx].
      + specialize (S4 _ Hx). lia.
      + specialize (S3 _ c Hx (or_introl eq_refl)). lia. }
  assert (HD : dsorted (ekey c) rest).
  { apply rot_dsorted; auto.
    - rewrite Hks. apply valid_key_range. exact HVs.
    - intros x Hx. apply (rep_key_range _ _ _ HR2). apply Hrestl. subst rest. rewrite in_app_iff in *. tauto.
    - eapply sorted_remove. exact HS2'.
    - intros x Hx. apply S3; simpl; auto. }
  assert (NDr : NoDup (vals rest)).
  { apply sorted_vals_nodup in HS2'. unfold vals in *. subst rest. rewrite map_app in *. cbn [map] in HS2'.
    apply NoDup_remove_1 in HS2'. eapply Permutation_NoDup; [apply Permutation_app_comm|exact HS2']. }
  replace (next nc) with (nxt (heap r2) (fst c)) by (unfold nxt; rewrite Hnc; reflexivity).
  assert (Hscan : range_scan (S (length (heap r2))) (heap r2) (snd ce) (nxt (heap r2) (fst c)) (if b1 then [s] else []) = Ret ((if b1 then [s] else []) ++ vals f)).
  { apply (range_scan_spec (heap r2) ce (b ++ [c]) f c).
  { unfold cyc in Hcyc. rewrite Er in Hcyc. cbn [app] in Hcyc. rewrite <- app_assoc in Hcyc. exact Hcyc. }
  { rewrite Forall_forall. intros x Hx. apply HH2. apply Hrestl. rewrite Er. rewrite in_app_iff in *. simpl in *. tauto. }
  { rewrite Er in NDr. unfold vals in NDr. rewrite map_app in NDr. cbn [map] in NDr. apply NoDup_remove_2 in NDr.
    intros Hi. apply NDr. apply in_or_app. auto. }
  { pose proof (rep_length_heap _ _ HR2). rewrite El2, app_length in H. simpl in H.
    assert (length rest = (length f + S (length b))%nat) by (rewrite Er, app_length; reflexivity).
    subst rest. rewrite app_length in H0. lia. } }
  rewrite Ece in Hscan. rewrite Ece. rewrite Hscan. cbn [obind].
  set (res := if b2 then ((if b1 then [s] else []) ++ vals f) ++ [e] else (if b1 then [s] else []) ++ vals f).
  (* the deferred removals *)
  assert (Hrm2 : exists r3 l3, (if b2 then Ret r2 else Remove r2 e) = Ret r3 /\ rep r3 l3 /\ vals l3 = vals l1).
  { destruct D2 as [(-> & -> & -> & Hin)|(-> & Hnin & Hv & HL)].
    - exists r1, l1. auto.
    - destruct (remove_temp r2 l2 (vals l1) e HR2 Hv) as (r3 & Hr3 & Hr3'); auto.
      + apply sorted_vals, (rep_sorted _ _ HR1).
      + rewrite vals_length. exact HL.
      + intros E. assert (Hs : In s (vals l1)) by (apply Hv1; auto). rewrite E in Hs. destruct Hs.
      + exists r3, (del e l2). split; [exact Hr3|]. split.
        * apply Hr3'. destruct Ue as [Ue|[Ue|(v & Hvin & Hlt)]].
          -- left. unfold mid in Ue. apply Hv1. destruct (existsb (bytes_eqb s) (vals l)); [auto|]. destruct Ue; [auto|auto].
          -- right. left. unfold mid in Ue. destruct D1 as [(-> & -> & -> & Hin1)|(-> & Hnin1 & Hvv & HL1)].
             ++ destruct (existsb (bytes_eqb s) (vals l)) eqn:Ex; [exact Ue|].
                simpl in Ue. lia.
             ++ rewrite vals_length, HL1. destruct (existsb (bytes_eqb s) (vals l)) eqn:Ex.
                ** apply existsb_exists in Ex. destruct Ex as (v & Hvi & Hve'). apply bytes_eqb_eq in Hve'. subst v. contradiction.
                ** simpl in Ue. rewrite vals_length in Ue. lia.
          -- right. right. exists v. split; [|exact Hlt]. apply Hv1. unfold mid in Hvin.
             destruct (existsb (bytes_eqb s) (vals l)); [auto|]. destruct Hvin; [auto|auto].
        * apply del_ins; auto.
          -- apply (rep_sorted _ _ HR1).
          -- apply existsb_vals_key; auto. }
  destruct Hrm2 as (r3 & l3 & Hr3 & HR3 & Hv3). rewrite Hr3. cbn [obind].
  assert (Hrm1 : exists r4 l4, (if b1 then Ret r3 else Remove r3 s) = Ret r4 /\ rep r4 l4 /\ vals l4 = vals l).
  { destruct D1 as [(-> & -> & -> & Hin)|(-> & Hnin & Hv & HL)].
    - exists r3, l3. auto.
    - rewrite Hv in Hv3.
      assert (HL3 : length l3 = S (length l)).
      { apply (f_equal (@length _)) in Hv3. rewrite vals_length in Hv3. rewrite Hv3.
        rewrite <- Hv, vals_length. exact HL. }
      destruct l as [|x l].
      + destruct l3 as [|y [|z l3]]; simpl in HL3; try lia.
        destruct (Remove_single r3 y s HR3 HVs) as (r4 & Hr4 & HR4). exists r4, []. auto.
      + destruct (remove_temp r3 l3 (vals (x :: l)) s HR3 Hv3) as (r4 & Hr4 & Hr4'); auto.
        * apply sorted_vals, (rep_sorted _ _ HR).
        * rewrite vals_length. exact HL3.
        * discriminate.
        * exists r4, (del s l3). split; [exact Hr4|]. split; [apply Hr4'; exact Us|].
          apply del_ins; auto.
          -- apply (rep_sorted _ _ HR).
          -- apply (rep_sorted _ _ HR3).
          -- apply existsb_vals_key; auto. }
  destruct Hrm1 as (r4 & l4 & Hr4 & HR4 & Hv4). rewrite Hr4. cbn [obind].
  exists res, r4, l4. split; [reflexivity|]. split; [|split; [exact HR4|exact Hv4]].
  (* the answer *)
  rewrite Er in HD. pose proof HD as HD'. apply dsorted_app in HD'. destruct HD' as (Df & Dcb & Dfc).
  assert (Hb1 : b1 = true <-> In s (vals l)).
  { destruct D1 as [(-> & _ & _ & Hin)|(-> & Hnin & _)]; split; auto; try discriminate. }
  assert (Hb2 : b2 = true <-> In e (vals l)).
  { destruct D2 as [(-> & _ & _ & Hin)|(-> & Hnin & _)]; split; auto; try discriminate.
    - intros _. apply Hv1 in Hin. destruct Hin as [Hin|Hin]; [congruence|auto].
    - intros Hin. exfalso. apply Hnin. apply Hv1. auto. }
  assert (Hf : forall v, In v (vals f) -> In v (vals l) /\ 0 < cw (hex_val s) (hex_val v) < cw (hex_val s) (hex_val e)).
  { intros v Hv. apply in_map_iff in Hv. destruct Hv as (x & <- & Hx).
    assert (Hxr : In x rest) by (rewrite Er; apply in_or_app; auto).
    pose proof (Dfc x ce Hx (or_introl eq_refl)) as Hlt. unfold d in Hlt. rewrite Hks, Hke' in Hlt.
    destruct (Hrestl x Hxr) as [Hxl Hxk].
    split; [|split].
    - assert (Hvx : In (snd x) (vals l2)) by (apply in_map; exact Hxl).
      apply Hv2 in Hvx. destruct Hvx as [Hvx|[Hvx|Hvx]]; auto.
      + unfold ekey in Hlt. rewrite Hvx in Hlt. lia.
      + exfalso. apply Hxk. unfold ekey. rewrite Hvx, Ec. reflexivity.
    - apply cw_pos; [apply valid_key_range; exact HVs|apply (rep_key_range _ _ x HR2 Hxl)|].
      intros E. apply Hxk. rewrite Hks. symmetry. exact E.
    - exact Hlt. }
  assert (Hf' : forall v, In v (vals l) -> v <> s -> cw (hex_val s) (hex_val v) < cw (hex_val s) (hex_val e) -> In v (vals f)).
  { intros v Hv Ns Hlt. assert (Hvx : In v (vals l2)) by (apply Hv2; auto).
    apply in_map_iff in Hvx. destruct Hvx as (x & Ex & Hx).
    assert (Hxr : In x rest).
    { subst rest. rewrite El2 in Hx. rewrite in_app_iff in *. simpl in Hx. destruct Hx as [H|[H|H]]; auto.
      subst x. congruence. }
    rewrite Er in Hxr. apply in_app_or in Hxr. destruct Hxr as [Hxr|Hxr].
    - rewrite <- Ex. apply in_map. exact Hxr.
    - exfalso. assert (Hge : d (ekey c) ce <= d (ekey c) x).
      { destruct Hxr as [<-|Hxr]; [lia|]. inversion Dcb as [|? ? _ HF]; subst. rewrite Forall_forall in HF. specialize (HF _ Hxr). lia. }
      unfold d in Hge. rewrite Hks, Hke' in Hge. unfold ekey in Hge. rewrite Ex in Hge. lia. }
  assert (Hpe : 0 < cw (hex_val s) (hex_val e)).
  { apply cw_pos; auto using valid_key_range. }
  assert (Hres : forall v, In v res <-> (v = s /\ In s (vals l)) \/ In v (vals f) \/ (v = e /\ In e (vals l))).
  { intros v. rewrite <- Hb1, <- Hb2. unfold res. destruct b1, b2; rewrite ?in_app_iff; simpl; intuition congruence. }
  split.
  - intros v. rewrite Hres. split.
    + intros [[-> Hin]|[Hv|[-> Hin]]].
      * split; [exact Hin|]. rewrite cw_self. lia.
      * destruct (Hf v Hv). split; [auto|lia].
      * split; [exact Hin|lia].
    + intros [Hin Hle]. destruct (bytes_eq_dec v s) as [->|Ns]; [left; auto|].
      destruct (Z.eq_dec (cw (hex_val s) (hex_val v)) (cw (hex_val s) (hex_val e))) as [Eq|Nq].
      * right. right. assert (Hkv : hex_val v = hex_val e).
        { apply in_map_iff in Hin. destruct Hin as (x & <- & Hx).
          pose proof (rep_key_range _ _ x HR Hx) as Rx. unfold ekey in Rx.
          rewrite !cw_cases in Eq by auto using valid_key_range.
          pose proof (valid_key_range _ HVe). destruct (hex_val s <=? hex_val (snd x)) eqn:E3, (hex_val s <=? hex_val e) eqn:E4; lia. }
        apply in_map_iff in Hin. destruct Hin as (x & Ex & Hx).
        assert (snd x = e) by (apply Hspe; auto; unfold ekey; rewrite Ex; exact Hkv).
        split; [congruence|]. rewrite <- H. apply in_map. exact Hx.
      * right. left. apply Hf'; auto. lia.
  - assert (Hsf : StronglySorted (fun a b => cw (hex_val s) (hex_val a) < cw (hex_val s) (hex_val b)) (vals f)).
    { rewrite <- Hks. apply sorted_map_vals. exact Df. }
    assert (H1 : StronglySorted (fun a b => cw (hex_val s) (hex_val a) < cw (hex_val s) (hex_val b))
              ((if b1 then [s] else []) ++ vals f)).
    { apply ss_app; [destruct b1; repeat constructor|exact Hsf|].
      intros a b0 Ha Hb0. destruct b1; [|destruct Ha]. destruct Ha as [<-|[]]. rewrite cw_self. apply Hf in Hb0. lia. }
    unfold res. destruct b2; [|exact H1]. apply ss_app; [exact H1|repeat constructor|].
    intros a b0 Ha [<-|[]]. apply in_app_or in Ha. destruct Ha as [Ha|Ha].
    + destruct b1; [|destruct Ha]. destruct Ha as [<-|[]]. rewrite cw_self. exact Hpe.
    + apply Hf in Ha. lia.
Qed.
