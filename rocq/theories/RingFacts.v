(** Ring properties in terms of the specification vocabulary of [RingSpec]. *)
From Coq Require Import List ZArith Bool Lia ZifyBool ZifyNat Sorting.Sorted Sorting.Permutation.
From Coq Require Import Init.Byte.
From Verif Require Import Base BaseProofs Ring RingSpec RingLemmas RingInsert RingRemove RingQuery RingQuery2.
Import ListNotations.
Open Scope Z_scope.
Open Scope go_scope.

Lemma valid_iff s : validateInput s = true <-> is_point s.
Proof.
  unfold validateInput, is_point. rewrite andb_true_iff, Nat.eqb_eq, forallb_forall, Forall_forall.
  apply and_iff_compat_l.
  assert (HC : forall b, (let c := bz b in negb (((c <? 48) || (57 <? c)) && ((c <? 65) || (70 <? c)) && ((c <? 97) || (102 <? c)))) = true <-> hex_digit b <> None)
    by (intros []; vm_compute; split; intros H; congruence).
  split; intros H b Hb; apply HC, H, Hb.
Qed.

Lemma valid_false s : validateInput s = false <-> ~ is_point s.
Proof. rewrite <- valid_iff. destruct (validateInput s); split; congruence. Qed.

Lemma entries_rep r l : rep r l -> entries r = vals l.
Proof.
  intros HR. unfold entries. rewrite (Dump_rep _ _ HR), map_map. reflexivity.
Qed.

Lemma spelled_vals l p : spelled (vals l) p -> forall e, In e l -> ekey e = hex_val p -> snd e = p.
Proof. intros H e He Hk. apply H; [apply in_map; exact He|exact Hk]. Qed.

Lemma hd_error_vals l : hd_error (vals l) = match l with [] => None | x :: _ => Some (snd x) end.
Proof. destruct l; reflexivity. Qed.

Lemma GetClosest_trivial r l hex num ex : rep r l -> validateInput hex = true -> (ex = [] \/ validateInput ex = true) ->
  num = 0 \/ l = [] \/ (ex <> [] /\ length l = 1%nat) ->
  GetClosest r hex num ex = Ret (OkR [], r).
Proof.
  intros HR HV Hex H. unfold GetClosest. rewrite HV. cbn [negb orb].
  replace (negb (bytes_eqb ex []) && negb (validateInput ex)) with false.
  2:{ destruct Hex as [->| ->]; [reflexivity|]. cbn [negb]. rewrite andb_false_r. reflexivity. }
  rewrite (rep_size _ _ HR).
  replace ((num =? 0) || (Z.of_nat (length l) =? 0) || (negb (bytes_eqb ex []) && (Z.of_nat (length l) =? 1))) with true; [reflexivity|].
  destruct H as [->|[->|[N ->]]].
  - reflexivity.
  - cbn [length]. rewrite orb_true_r. reflexivity.
  - apply bytes_eqb_neq in N. rewrite N. cbn [negb andb]. rewrite orb_true_r. reflexivity.
Qed.

Lemma without_vals x l : without x (vals l) = vals (del x l).
Proof. symmetry. apply vals_del. Qed.

Lemma del_nonempty r l ex : rep r l -> l <> [] ->
  (ex = [] \/ (validateInput ex = true /\ length l <> 1%nat)) -> vals (del ex l) <> [].
Proof.
  intros HR NE Hb Enil.
  assert (Hall : forall y, In y (vals l) -> y = ex).
  { intros y Hy. destruct (bytes_eq_dec y ex); [assumption|]. exfalso.
    assert (Hy' : In y (vals (del ex l))).
    { rewrite vals_del. apply filter_In. split; [exact Hy|]. destruct (bytes_eqb_spec y ex); [contradiction|reflexivity]. }
    rewrite Enil in Hy'. destruct Hy'. }
  pose proof (sorted_vals_nodup l (rep_sorted _ _ HR)) as ND.
  destruct l as [|x l0]; [contradiction|]. destruct Hb as [Hb|[Hv Hlen]].
  - pose proof (rep_valid _ _ HR) as HVs. rewrite Forall_forall in HVs. specialize (HVs x (or_introl eq_refl)). cbn beta in HVs.
    rewrite (Hall (snd x)) in HVs by (left; reflexivity). subst ex. discriminate.
  - destruct l0 as [|y l0]; [simpl in Hlen; lia|].
    pose proof (Hall (snd x) (or_introl eq_refl)) as Ex1. pose proof (Hall (snd y) (or_intror (or_introl eq_refl))) as Ex2.
    cbn [vals map] in ND. apply NoDup_cons_iff in ND. destruct ND as [Hn _]. apply Hn. left. congruence.
Qed.

(** A faultless operation on a represented ring returns a represented ring;
    queries keep the entries. *)
Lemma step_rep r l o : rep r l -> faultless (vals l) o ->
  exists r' l', run_op r o = Ret r' /\ rep r' l' /\
    match o with OpClosest _ _ _ | OpRange _ _ => vals l' = vals l | _ => True end.
Proof.
  intros HR HF. destruct o as [h|h|hex num ex|s e]; cbn [run_op faultless] in *.
  - destruct (Insert_rep r l h HR) as (r1 & l1 & E & HR1 & _). eauto.
  - destruct (validateInput h) eqn:HV.
    + pose proof HV as HV'. apply valid_iff in HV'. specialize (HF HV'). destruct HF as [H1 H2]. rewrite !vals_length in *.
      destruct (Nat.eq_dec (length l) 1) as [E1|N1].
      * destruct l as [|x [|? ?]]; try discriminate.
        destruct (Remove_single r x h HR HV) as (r1 & E & HR1). eauto.
      * destruct (Remove_rep r l h HR N1) as (r1 & E & HR1); eauto.
    + exists r, l. unfold Remove. rewrite HV. auto.
  - destruct (validateInput hex) eqn:HV.
    2:{ exists r, l. unfold GetClosest. rewrite HV. auto. }
    assert (D : (ex = [] \/ validateInput ex = true) \/ (ex <> [] /\ validateInput ex = false)).
    { destruct (bytes_eq_dec ex []); auto. destruct (validateInput ex); auto. }
    destruct D as [Hex|[Ne HVe]].
    2:{ exists r, l. unfold GetClosest. rewrite HV, HVe. apply bytes_eqb_neq in Ne. rewrite Ne. auto. }
    assert (Hex' : ex = [] \/ is_point ex) by (destruct Hex as [Hx|Hx]; [auto|apply valid_iff in Hx; auto]).
    pose proof HV as HV'. apply valid_iff in HV'.
    destruct (HF HV' Hex') as (Hnum & Hsp & Hun & Hhd). rewrite ?vals_length in *. rewrite without_vals in Hun.
    destruct (Z.eq_dec num 0) as [E0|N0].
    { rewrite (GetClosest_trivial r l hex num ex HR HV Hex) by auto. exists r, l. auto. }
    assert (HNE : l = [] \/ l <> []) by (destruct l; [left; reflexivity|right; discriminate]).
    destruct HNE as [->|NE].
    { rewrite (GetClosest_trivial r [] hex num ex HR HV Hex) by auto. exists r, []. auto. }
    assert (Hbase : (ex = [] \/ (validateInput ex = true /\ length l <> 1%nat)) \/ (ex <> [] /\ length l = 1%nat)).
    { destruct (bytes_eq_dec ex []) as [?|Nx]; [auto|]. destruct (Nat.eq_dec (length l) 1); [auto|].
      destruct Hex; [contradiction|auto]. }
    destruct Hbase as [Hb|Hb].
    2:{ rewrite (GetClosest_trivial r l hex num ex HR HV Hex) by auto. exists r, l. auto. }
    pose proof (del_nonempty r l ex HR NE Hb) as NEb.
    destruct (Z_le_gt_dec num (Z.of_nat (length (vals (del ex l))))) as [Hle|Hgt].
    + destruct (GetClosest_rep r l hex num ex HR HV Hb (spelled_vals _ _ Hsp) Hhd) as (res & r2 & E2 & _ & Hp); [lia|auto|].
      destruct (Hp Hun) as (l' & ? & ?). exists r2, l'. rewrite E2. auto.
    + destruct (GetClosest_many r l hex num ex HR HV Hb Hhd NEb) as (r2 & l' & E2 & ? & ?); [lia|].
      exists r2, l'. rewrite E2. auto.
  - destruct (validateInput s) eqn:HVs.
    2:{ exists r, l. unfold GetWithinRange. rewrite HVs. auto. }
    destruct (validateInput e) eqn:HVe.
    2:{ exists r, l. unfold GetWithinRange. rewrite HVs, HVe. auto. }
    pose proof HVs as HVs'. pose proof HVe as HVe'. apply valid_iff in HVs', HVe'.
    destruct (HF HVs' HVe') as (Hk & Hs1 & Hs2 & U1 & U2).
    destruct (GetWithinRange_rep r l s e HR HVs HVe Hk (spelled_vals _ _ Hs1) (spelled_vals _ _ Hs2) U1 U2) as (res & r2 & l2 & E2 & _ & HR2 & Hv2).
    exists r2, l2. rewrite E2. auto.
Qed.

Lemma healthy_rep r : healthy r -> exists l, rep r l.
Proof.
  induction 1 as [|r o r' HH [l HR] HF HO]; [exists []; apply rep_empty|].
  rewrite (entries_rep _ _ HR) in HF. destruct (step_rep r l o HR HF) as (r1 & l1 & E & HR1 & _).
  rewrite E in HO. injection HO as <-. eauto.
Qed.

(** ** Insertion *)
Lemma insert_ok r h : healthy r ->
  exists r', Insert r h = Ret r' /\ healthy r' /\ 
    StronglySorted (fun a b => hex_val a < hex_val b) (entries r') /\
    Size r' = Z.of_nat (length (entries r')) /\
    (forall v, In v (entries r') <-> In v (entries r) \/
       (v = h /\ is_point h /\ forall u, In u (entries r) -> hex_val u <> hex_val h)).
Proof.
  intros HH. destruct (healthy_rep r HH) as [l HR].
  destruct (Insert_rep r l h HR) as (r' & l' & E & HR' & Hv & _).
  exists r'. split; [exact E|]. split; [apply (healthy_step r (OpInsert h) r' HH I E)|].
  rewrite (entries_rep _ _ HR), (entries_rep _ _ HR').
  split; [apply sorted_vals, (rep_sorted _ _ HR')|].
  split; [unfold Size; rewrite (rep_size _ _ HR'), vals_length; reflexivity|].
  intros v. rewrite Hv. destruct (validateInput h) eqn:HV.
  - apply valid_iff in HV. destruct (key_dichotomy l (hex_val h) (rep_sorted _ _ HR)) as [(e & He & Hk)|(l1 & l2 & El & H1 & H2)].
    + rewrite (ins_exists h l e (rep_sorted _ _ HR) He Hk). split; [auto|].
      intros [H|(-> & _ & H)]; [exact H|]. exfalso. apply (H (snd e)); [apply in_map; exact He|exact Hk].
    + assert (Hn : ~ (exists e, In e l /\ ekey e = hex_val h)).
      { intros (e & He & Hk). subst l. apply in_app_or in He. destruct He as [He|He]; [specialize (H1 _ He)|specialize (H2 _ He)]; lia. }
      rewrite (ins_In h l v (rep_sorted _ _ HR) Hn). split; intros [H|H]; auto.
      * right. split; [exact H|]. split; [exact HV|]. intros u Hu Hk. apply Hn. apply in_map_iff in Hu. destruct Hu as (e & <- & He). exists e. auto.
      * destruct H as (-> & _). auto.
  - apply valid_false in HV. split; [auto|]. intros [H|(_ & H & _)]; [exact H|contradiction].
Qed.

Lemma first_such {A} (f : A -> bool) l : existsb f l = true ->
  exists l1 w l2, l = l1 ++ w :: l2 /\ f w = true /\ forall u, In u l1 -> f u = false.
Proof.
  induction l as [|x l IH]; [discriminate|]. cbn [existsb]. destruct (f x) eqn:E.
  - intros _. exists [], x, l. repeat split; auto. intros u [].
  - cbn [orb]. intros H. destruct (IH H) as (l1 & w & l2 & -> & H1 & H2). exists (x :: l1), w, l2.
    repeat split; auto. intros u [<-|Hu]; auto.
Qed.

Lemma first_spelling_exists hs u : In u hs -> is_point u ->
  exists w, first_spelling hs w /\ hex_val w = hex_val u.
Proof.
  intros Hu Hp.
  destruct (first_such (fun v => validateInput v && (hex_val v =? hex_val u)) hs) as (l1 & w & l2 & E & H1 & H2).
  - apply existsb_exists. exists u. split; [exact Hu|]. apply valid_iff in Hp. rewrite Hp. lia.
  - apply andb_true_iff in H1. destruct H1 as [H1 Hk]. exists w. split; [|lia].
    exists l1, l2. split; [exact E|]. split; [apply valid_iff; exact H1|].
    intros x Hx Hpx Ex. specialize (H2 x Hx). apply valid_iff in Hpx. rewrite Hpx in H2. cbn [andb] in H2. lia.
Qed.

Lemma inserts_snoc hs h : inserts (hs ++ [h]) = let* r := inserts hs in Insert r h.
Proof. unfold inserts. rewrite fold_left_app. reflexivity. Qed.

Lemma inserts_healthy hs : exists r, inserts hs = Ret r /\ healthy r /\ (forall v, In v (entries r) <-> first_spelling hs v).
Proof.
  induction hs as [|h hs IH] using rev_ind.
  - exists CreateRing. split; [reflexivity|]. split; [constructor|]. intros v. split; [intros []|].
    intros (l1 & l2 & E & _). destruct l1; discriminate.
  - destruct IH as (r & E & HH & Hv). destruct (insert_ok r h HH) as (r' & E' & HH' & _ & _ & Hv').
    exists r'. rewrite inserts_snoc, E. split; [exact E'|]. split; [exact HH'|].
    intros v. rewrite Hv', Hv. split.
    + intros [(l1 & l2 & -> & Hp & Hf)|(-> & Hp & Hf)].
      * exists l1, (l2 ++ [h]). rewrite <- app_assoc. auto.
      * exists hs, []. split; [reflexivity|]. split; [exact Hp|]. intros u Hu Hpu Hk.
        assert (Hfirst : exists w, first_spelling hs w /\ hex_val w = hex_val u).
        { apply first_spelling_exists; assumption. }
        destruct Hfirst as (w & Hw & Hkw). apply (Hf w); [apply Hv; exact Hw|congruence].
    + intros (l1 & l2 & El & Hp & Hf). destruct l2 as [|y l2] using rev_ind.
      * apply app_inj_tail in El. destruct El as [-> <-]. right. split; [reflexivity|]. split; [exact Hp|].
        intros u Hu Hk. apply Hv in Hu. destruct Hu as (a & b & -> & Hpu & _). apply (Hf u); auto. apply in_or_app. simpl; auto.
      * rewrite app_comm_cons, app_assoc in El. apply app_inj_tail in El. destruct El as [-> _]. left. exists l1, l2. auto.
Qed.

(** Gaps shown by [Dump]. *)
Definition key_of (t : gostring * option Z * option Z) : Z := hex_val (fst (fst t)).

Lemma chain_map h : forall l, chain (link h) l -> 
  forall l1 a b l2, map (fun e => (snd e, dp h (fst e), dn h (fst e))) l = l1 ++ a :: b :: l2 ->
  snd a = Some (getDist (key_of a) (key_of b)) /\ snd (fst b) = Some (getDist (key_of a) (key_of b)).
Proof.
  intros l HC l1. revert l HC. induction l1 as [|x l1 IH]; intros l HC a b l2 E.
  - destruct l as [|p [|q l]]; try discriminate. cbn [map app] in E. injection E as <- <- _.
    destruct HC as [(_ & _ & Hd & Hp) _]. unfold key_of. cbn [fst snd]. auto.
  - destruct l as [|p l]; [discriminate|]. cbn [map app] in E. injection E as _ E.
    apply (IH l) with (l2 := l2); auto. destruct l; [exact I|]. apply HC.
Qed.

Lemma gaps_ok r : healthy r -> exists D, Dump r = Ret D /\ map (fun t => fst (fst t)) D = entries r /\
  ((2 <= length D)%nat ->
   forall l1 a b l2, D ++ firstn 1 D = l1 ++ a :: b :: l2 ->
     snd a = Some (cw (key_of a) (key_of b)) /\ snd (fst b) = Some (cw (key_of a) (key_of b))).
Proof.
  intros HH. destruct (healthy_rep r HH) as [l HR]. eexists. split; [apply (Dump_rep _ _ HR)|].
  split; [rewrite (entries_rep _ _ HR), map_map; reflexivity|].
  rewrite map_length. intros H2 l1 a b l2 E.
  assert (HC : cyc (link (heap r)) l) by (apply lring_3_cyc; [exact H2|apply (rep_ring _ _ HR)]).
  destruct l as [|x l]; [simpl in H2; lia|].
  rewrite firstn_map, <- map_app in E. cbn [firstn] in E.
  unfold cyc in HC. pose proof (chain_map _ _ HC _ _ _ _ E) as [G1 G2].
  assert (Hin : forall t, In t (l1 ++ a :: b :: l2) -> 0 <= key_of t < M256).
  { intros t Ht. rewrite <- E in Ht. apply in_map_iff in Ht. destruct Ht as (e & <- & He).
    apply (rep_key_range r (x :: l)); [exact HR|]. apply in_app_or in He. destruct He as [He|[<-|[]]]; [exact He|left; reflexivity]. }
  assert (Ha : 0 <= key_of a < M256) by (apply Hin, in_or_app; simpl; auto).
  assert (Hb : 0 <= key_of b < M256) by (apply Hin, in_or_app; simpl; auto).
  assert (N : key_of a <> key_of b).
  { (* cyclic neighbours differ *)
    pose proof (rep_sorted _ _ HR) as HS.
    assert (ND : NoDup (map ekey (x :: l))).
    { clear - HS. induction (x :: l) as [|y t IH]; [constructor|]. apply sorted_cons in HS. destruct HS as [HS Hy].
      cbn [map]. constructor; [|auto]. intros Hi. apply in_map_iff in Hi. destruct Hi as (z & Ez & Hz). specialize (Hy z Hz). lia. }
    assert (EK : map ekey ((x :: l) ++ [x]) = map key_of l1 ++ key_of a :: key_of b :: map key_of l2).
    { transitivity (map key_of (l1 ++ a :: b :: l2)); [rewrite <- E, map_map; reflexivity|]. rewrite map_app. reflexivity. }
    intros Eab. rewrite map_app in EK. cbn [map] in EK.
    set (kx := ekey x) in *. set (kl := map ekey l) in *. cbn [map] in ND. fold kx kl in ND.
    destruct l2 as [|z l2] using rev_ind.
    - (* b is the repeated head *)
      cbn [map] in EK. rewrite (app_assoc (map key_of l1) [key_of a] [key_of b]) in EK || idtac.
      change (kx :: kl) with ([kx] ++ kl) in EK.
      replace (map key_of l1 ++ [key_of a; key_of b]) with ((map key_of l1 ++ [key_of a]) ++ [key_of b]) in EK by (rewrite <- app_assoc; reflexivity).
      apply app_inj_tail in EK. destruct EK as [EK1 EK2].
      destruct (map key_of l1) as [|k1 m1] eqn:Em.
      + cbn [app] in EK1. injection EK1 as _ EK1. subst kl. destruct l; [simpl in H2; lia|discriminate].
      + cbn [app] in EK1. injection EK1 as E1 EK1. inversion ND as [|? ? Hn _]; subst. apply Hn. rewrite EK1. apply in_or_app. right. left. congruence.
    - rewrite map_app in EK. cbn [map] in EK. rewrite !app_comm_cons, app_assoc in EK. 
      change (kx :: kl ++ [kx]) with ((kx :: kl) ++ [kx]) in EK. apply app_inj_tail in EK. destruct EK as [EK _].
      rewrite EK in ND. apply NoDup_remove_2 in ND. apply ND. apply in_or_app. right. left. congruence. }
  rewrite <- (getDist_cw (key_of a) (key_of b)) by auto. auto.
Qed.

(** ** Removal *)
Lemma remove_ok r h : healthy r ->
  (is_point h -> length (entries r) = 1%nat -> In h (entries r)) ->
  ((3 <= length (entries r))%nat -> hd_error (entries r) <> Some h) ->
  exists r', Remove r h = Ret r' /\ healthy r' /\ entries r' = without h (entries r) /\
    Size r' = Z.of_nat (length (entries r')).
Proof.
  intros HH H1 H3. destruct (healthy_rep r HH) as [l HR]. rewrite (entries_rep _ _ HR) in *. rewrite vals_length in *.
  assert (K : exists r', Remove r h = Ret r' /\ rep r' (del h l)).
  { destruct (Nat.eq_dec (length l) 1) as [E1|N1].
    - destruct l as [|x [|? ?]]; try discriminate. destruct (validateInput h) eqn:HV.
      + destruct (Remove_single r x h HR HV) as (r1 & E & HR1). exists r1. split; [exact E|].
        apply valid_iff in HV. destruct (H1 HV eq_refl) as [<-|[]]. cbn [del filter]. rewrite bytes_eqb_refl. exact HR1.
      + exists r. unfold Remove. rewrite HV. split; [reflexivity|]. rewrite del_notin; [exact HR|].
        intros [<-|[]]. pose proof (rep_valid _ _ HR) as HVs. rewrite Forall_forall in HVs. specialize (HVs x (or_introl eq_refl)).
        cbn beta in HVs. congruence.
    - apply Remove_rep; auto. }
  destruct K as (r' & E & HR'). exists r'. split; [exact E|]. split.
  { apply (healthy_step r (OpRemove h) r' HH); [|exact E]. cbn [faultless]. rewrite (entries_rep _ _ HR), vals_length. auto. }
  rewrite (entries_rep _ _ HR'), without_vals. split; [reflexivity|].
  unfold Size. rewrite (rep_size _ _ HR'), vals_length. reflexivity.
Qed.

Lemma dump_scan_nxt h x : forall rest p fuel,
  chain (fun a b => nxt h (fst a) = Some (fst b)) (p :: rest ++ [x]) ->
  Forall (holds h) (rest ++ [x]) -> ~ In (snd x) (vals rest) -> (length rest < fuel)%nat ->
  exists ds, dump_scan fuel h (snd x) (nxt h (fst p)) = Ret ds /\ map (fun t => fst (fst t)) ds = vals rest.
Proof.
  induction rest as [|c rest IH]; intros p fuel HC HH Hn Hf; (destruct fuel as [|fuel]; [simpl in Hf; lia|]).
  - destruct HC as [E _]. rewrite E. apply Forall_inv in HH. destruct HH as (n & Hn' & _ & Hv).
    exists []. cbn [dump_scan]. rewrite (load_some _ _ _ Hn'). cbn [obind]. rewrite Hv, bytes_eqb_refl. auto.
  - cbn [app] in HC. destruct HC as [E HC]. rewrite E. cbn [app] in HH.
    pose proof (Forall_inv HH) as (n & Hn' & _ & Hv). apply Forall_inv_tail in HH.
    destruct (IH c fuel HC HH) as (ds & E1 & E2); [intros Hi; apply Hn; right; exact Hi|simpl in Hf; lia|].
    exists ((val n, distPrv n, distNext n) :: ds). cbn [dump_scan]. rewrite (load_some _ _ _ Hn'). cbn [obind]. rewrite Hv.
    assert (N : snd c <> snd x) by (intros Ex; apply Hn; left; exact Ex).
    apply bytes_eqb_neq in N. rewrite N.
    unfold nxt in E1. rewrite Hn' in E1. rewrite E1. cbn [obind map fst]. rewrite E2. auto.
Qed.

(** Removing the smallest of three or more entries does not remove it. *)
Lemma remove_smallest_stays r x y z l : healthy r -> entries r = x :: y :: z :: l ->
  exists r', Remove r x = Ret r' /\ entries r' = y :: z :: l ++ [x] /\ Size r' = Size r - 1.
Proof.
  intros HH HE. destruct (healthy_rep r HH) as [L HR]. rewrite (entries_rep _ _ HR) in HE.
  destruct L as [|X [|Y [|Z L]]]; try discriminate. cbn [vals map] in HE. injection HE as Ex Ey Ez El.
  destruct (Remove_head_effect r X Y Z L HR) as (r' & h' & E & Er & Hnx & Hky & Hvl & Hdn & Hdp & HL & Hpv).
  rewrite Ex in E. exists r'. split; [exact E|]. split; [|subst r'; reflexivity].
  assert (HC : cyc (link (heap r)) (Y :: Z :: L ++ [X])).
  { change (Y :: Z :: L ++ [X]) with ((Y :: Z :: L) ++ [X]). apply cyc_rot. apply (rep_ring _ _ HR). }
  assert (HC' : chain (fun a b => nxt h' (fst a) = Some (fst b)) (Y :: (Z :: L ++ [X]) ++ [Y])).
  { apply (chain_impl (link (heap r))); [|exact HC]. intros a b _ _ (H & _). rewrite Hnx. exact H. }
  assert (HF : Forall (holds h') ((Z :: L ++ [X]) ++ [Y])).
  { rewrite Forall_forall. intros e He. apply holds_iff. rewrite Hky, Hvl. apply holds_iff.
    pose proof (rep_holds _ _ HR) as HHo. rewrite Forall_forall in HHo. apply HHo.
    rewrite !in_app_iff in He. simpl in *. rewrite in_app_iff in He. simpl in He. tauto. }
  assert (Hy : ~ In (snd Y) (vals (Z :: L ++ [X]))).
  { pose proof (sorted_vals_nodup _ (rep_sorted _ _ HR)) as ND. cbn [vals map] in ND.
    apply NoDup_cons_iff in ND. destruct ND as [N1 ND]. apply NoDup_cons_iff in ND. destruct ND as [N2 ND].
    cbn [vals map]. unfold vals in *. rewrite map_app. cbn [map]. intros [Hi|Hi]; [apply N2; left; exact Hi|].
    apply in_app_or in Hi. destruct Hi as [Hi|[Hi|[]]]; [apply N2; right; exact Hi|apply N1; left; congruence]. }
  assert (HlY : holds h' Y) by (rewrite Forall_forall in HF; apply HF; rewrite !in_app_iff; simpl; auto).
  destruct HlY as (nY & HnY & _ & HvY).
  destruct (dump_scan_nxt h' Y (Z :: L ++ [X]) Y (S (length h')) HC' HF Hy) as (ds & E1 & E2).
  { pose proof (rep_length_heap _ _ HR) as Hlen. rewrite HL. cbn [length] in *. rewrite app_length. cbn [length]. lia. }
  unfold entries, Dump. subst r'. cbn [head heap]. rewrite (load_some _ _ _ HnY). cbn [obind]. rewrite HvY.
  unfold nxt in E1 at 1. rewrite HnY in E1. rewrite E1. cbn [obind map fst]. rewrite E2.
  rewrite Ey. cbn [vals map]. rewrite Ez. unfold vals. rewrite map_app. cbn [map]. rewrite Ex. rewrite <- El. reflexivity.
Qed.

Lemma remove_other_empties r v h : healthy r -> entries r = [v] -> is_point h ->
  exists r', Remove r h = Ret r' /\ entries r' = [] /\ Size r' = 0.
Proof.
  intros HH HE Hp. destruct (healthy_rep r HH) as [L HR]. rewrite (entries_rep _ _ HR) in HE.
  destruct L as [|x [|? ?]]; try discriminate. apply valid_iff in Hp.
  destruct (Remove_single r x h HR Hp) as (r' & E & HR'). exists r'. split; [exact E|].
  rewrite (entries_rep _ _ HR'). split; [reflexivity|]. unfold Size. rewrite (rep_size _ _ HR'). reflexivity.
Qed.

(** ** Queries *)
Lemma closest_nearest r hex num : healthy r -> is_point hex -> spelled (entries r) hex ->
  1 <= num <= Z.of_nat (length (entries r)) ->
  exists res r', GetClosest r hex num [] = Ret (OkR res, r') /\ closest_ok (entries r) hex num res.
Proof.
  intros HH Hp Hsp Hnum. destruct (healthy_rep r HH) as [l HR]. rewrite (entries_rep _ _ HR) in *.
  apply valid_iff in Hp.
  assert (Hn : ~ In [] (vals l)).
  { intros Hin. apply in_map_iff in Hin. destruct Hin as (e & Ee & He).
    pose proof (rep_valid _ _ HR) as HVs. rewrite Forall_forall in HVs. specialize (HVs _ He). simpl in HVs.
    rewrite Ee in HVs. discriminate. }
  pose proof (del_notin [] l Hn) as Hdel.
  destruct (GetClosest_rep r l hex num [] HR Hp (or_introl eq_refl) (spelled_vals _ _ Hsp)) as (res & r' & E & Hok & _).
  - intros _ Hhd. apply Hn. destruct (vals l); [discriminate|]. injection Hhd as ->. left. reflexivity.
  - rewrite Hdel. exact Hnum.
  - auto.
  - rewrite Hdel in Hok. eauto.
Qed.

Lemma closest_excluding r hex num ex : healthy r -> is_point hex -> is_point ex -> spelled (entries r) hex ->
  ((3 <= length (entries r))%nat -> hd_error (entries r) <> Some ex) ->
  length (entries r) <> 1%nat ->
  undisturbed (without ex (entries r)) hex \/ ~ In ex (entries r) ->
  1 <= num <= Z.of_nat (length (without ex (entries r))) ->
  exists res r', GetClosest r hex num ex = Ret (OkR res, r') /\ closest_ok (without ex (entries r)) hex num res /\ ~ In ex res.
Proof.
  intros HH Hp Hpe Hsp Hhd H1 Hun Hnum. destruct (healthy_rep r HH) as [l HR]. rewrite (entries_rep _ _ HR) in *.
  rewrite vals_length in *. rewrite without_vals in *. apply valid_iff in Hp, Hpe.
  destruct (GetClosest_rep r l hex num ex HR Hp) as (res & r' & E & Hok & _); auto.
  { apply spelled_vals. exact Hsp. }
  exists res, r'. split; [exact E|]. split; [exact Hok|].
  intros Hin. destruct Hok as (_ & others & Hrot & _).
  assert (Hin' : In ex (vals (del ex l))).
  { eapply Permutation_in; [apply Permutation_sym, rotation_perm; exact Hrot|]. apply in_or_app. auto. }
  rewrite vals_del in Hin'. apply filter_In in Hin'. rewrite bytes_eqb_refl in Hin'. destruct Hin'. discriminate.
Qed.

Lemma closest_too_many r hex num v t : healthy r -> is_point hex -> entries r = v :: t ->
  Z.of_nat (length (entries r)) < num ->
  exists r', GetClosest r hex num [] = Ret (OkR (if bytes_eqb v hex then v :: t else t), r') /\ entries r' = entries r.
Proof.
  intros HH Hp HE Hnum. destruct (healthy_rep r HH) as [l HR]. rewrite (entries_rep _ _ HR) in *.
  apply valid_iff in Hp.
  assert (Hn : ~ In [] (vals l)).
  { intros Hin. apply in_map_iff in Hin. destruct Hin as (e & Ee & He).
    pose proof (rep_valid _ _ HR) as HVs. rewrite Forall_forall in HVs. specialize (HVs _ He). simpl in HVs.
    rewrite Ee in HVs. discriminate. }
  pose proof (del_notin [] l Hn) as Hdel.
  destruct (GetClosest_many r l hex num [] HR Hp (or_introl eq_refl)) as (r' & l' & E & HR' & Hv).
  - intros _ Hhd. apply Hn. destruct (vals l); [discriminate|]. injection Hhd as ->. left. reflexivity.
  - rewrite Hdel, HE. discriminate.
  - rewrite Hdel. exact Hnum.
  - rewrite Hdel, HE in E. exists r'. split; [exact E|]. rewrite (entries_rep _ _ HR'). exact Hv.
Qed.

Lemma step_total r o : healthy r -> faultless (entries r) o ->
  exists r', run_op r o = Ret r' /\ healthy r'.
Proof.
  intros HH HF. destruct (healthy_rep r HH) as [l HR]. pose proof HF as HF'. rewrite (entries_rep _ _ HR) in HF.
  destruct (step_rep r l o HR HF) as (r' & l' & E & _). exists r'. split; [exact E|]. eapply healthy_step; eauto.
Qed.

Lemma query_preserves r o : healthy r -> faultless (entries r) o ->
  match o with OpClosest _ _ _ | OpRange _ _ => True | _ => False end ->
  exists r', run_op r o = Ret r' /\ healthy r' /\ entries r' = entries r /\ Size r' = Size r.
Proof.
  intros HH HF HQ. destruct (healthy_rep r HH) as [l HR]. pose proof HF as HF'. rewrite (entries_rep _ _ HR) in HF.
  destruct (step_rep r l o HR HF) as (r' & l' & E & HR' & Hv). exists r'. split; [exact E|].
  split; [eapply healthy_step; eauto|]. rewrite (entries_rep _ _ HR), (entries_rep _ _ HR').
  assert (Hv' : vals l' = vals l) by (destruct o; try contradiction; exact Hv).
  split; [exact Hv'|]. unfold Size. rewrite (rep_size _ _ HR), (rep_size _ _ HR'). rewrite <- !(map_length snd). 
  fold (vals l) (vals l'). rewrite Hv'. reflexivity.
Qed.

Lemma range_exact r s e : healthy r -> is_point s -> is_point e -> faultless (entries r) (OpRange s e) ->
  exists res r', GetWithinRange r s e = Ret (OkR res, r') /\ range_ok (entries r) s e res.
Proof.
  intros HH Hs He HF. destruct (healthy_rep r HH) as [l HR]. rewrite (entries_rep _ _ HR) in *.
  destruct (HF Hs He) as (Hk & Hs1 & Hs2 & U1 & U2). apply valid_iff in Hs, He.
  destruct (GetWithinRange_rep r l s e HR Hs He Hk (spelled_vals _ _ Hs1) (spelled_vals _ _ Hs2) U1 U2) as (res & r2 & l2 & E2 & Hok & _).
  eauto.
Qed.

(** ** Malformed input: any ring at all *)
Lemma malformed_insert r h : ~ is_point h -> Insert r h = Ret r.
Proof. intros H. apply valid_false in H. unfold Insert. rewrite H. reflexivity. Qed.
Lemma malformed_remove r h : ~ is_point h -> Remove r h = Ret r.
Proof. intros H. apply valid_false in H. unfold Remove. rewrite H. reflexivity. Qed.
Lemma malformed_closest r hex num ex : ~ is_point hex \/ (ex <> [] /\ ~ is_point ex) ->
  GetClosest r hex num ex = Ret (ErrR, r).
Proof.
  intros H. unfold GetClosest. destruct H as [H|[Hn H]]; apply valid_false in H; rewrite H; cbn [negb orb]; [reflexivity|].
  apply bytes_eqb_neq in Hn. rewrite Hn. cbn [negb andb]. rewrite orb_true_r. reflexivity.
Qed.
Lemma malformed_range r s e : ~ is_point s \/ ~ is_point e -> GetWithinRange r s e = Ret (ErrR, r).
Proof.
  intros H. unfold GetWithinRange. destruct H as [H|H]; apply valid_false in H; rewrite H; cbn [negb orb]; [reflexivity|].
  rewrite orb_true_r. reflexivity.
Qed.

Lemma malformed_rejected r h : ~ is_point h ->
  Insert r h = Ret r /\ Remove r h = Ret r /\
  (forall num ex, GetClosest r h num ex = Ret (ErrR, r)) /\
  (forall hex num, h <> [] -> GetClosest r hex num h = Ret (ErrR, r)) /\
  (forall e, GetWithinRange r h e = Ret (ErrR, r)) /\
  (forall s, GetWithinRange r s h = Ret (ErrR, r)).
Proof.
  intros H. repeat split; intros.
  - apply malformed_insert; auto.
  - apply malformed_remove; auto.
  - apply malformed_closest; auto.
  - apply malformed_closest; auto.
  - apply malformed_range; auto.
  - apply malformed_range; auto.
Qed.

Lemma insertions_sorted_set hs :
  exists r D, inserts hs = Ret r /\ Dump r = Ret D /\
    StronglySorted (fun a b => hex_val a < hex_val b) (map (fun t => fst (fst t)) D) /\
    (forall v, In v (map (fun t => fst (fst t)) D) <-> first_spelling hs v) /\
    Size r = Z.of_nat (length D) /\
    ((2 <= length D)%nat ->
     forall l1 a b l2, D ++ firstn 1 D = l1 ++ a :: b :: l2 ->
       let gap := cw (hex_val (fst (fst a))) (hex_val (fst (fst b))) in
       snd a = Some gap /\ snd (fst b) = Some gap).
Proof.
  destruct (inserts_healthy hs) as (r & E & HH & Hv). destruct (gaps_ok r HH) as (D & ED & EE & Hg).
  destruct (healthy_rep r HH) as [l HR].
  exists r, D. split; [exact E|]. split; [exact ED|]. rewrite EE. split; [rewrite (entries_rep _ _ HR); apply sorted_vals, (rep_sorted _ _ HR)|].
  split; [exact Hv|]. split; [|exact Hg].
  unfold Size. rewrite (rep_size _ _ HR). rewrite <- (map_length (fun t => fst (fst t)) D), EE, (entries_rep _ _ HR), vals_length. reflexivity.
Qed.

Lemma valid_accepted r h : healthy r -> is_point h ->
  exists r' u, Insert r h = Ret r' /\ In u (entries r') /\ hex_val u = hex_val h.
Proof.
  intros HH Hp. destruct (insert_ok r h HH) as (r' & E & _ & _ & _ & Hv). exists r'.
  destruct (existsb (fun u => hex_val u =? hex_val h) (entries r)) eqn:Ex.
  - apply existsb_exists in Ex. destruct Ex as (u & Hu & Hk). exists u. split; [exact E|]. split; [apply Hv; auto|lia].
  - exists h. split; [exact E|]. split; [|reflexivity]. apply Hv. right. split; [reflexivity|]. split; [exact Hp|].
    intros u Hu Hk. assert (X : existsb (fun u => hex_val u =? hex_val h) (entries r) = true) by (apply existsb_exists; exists u; split; [exact Hu|lia]).
    congruence.
Qed.

Lemma updates_never_crash r h : healthy r ->
  (exists r', Insert r h = Ret r') /\ (exists r', Remove r h = Ret r') /\ (exists D, Dump r = Ret D).
Proof.
  intros HH. destruct (healthy_rep r HH) as [l HR]. repeat split.
  - destruct (Insert_rep r l h HR) as (r' & l' & E & _). eauto.
  - destruct (validateInput h) eqn:HV; [|unfold Remove; rewrite HV; exists r; reflexivity].
    destruct l as [|x [|y [|z l]]].
    + destruct (Remove_rep r [] h HR) as (r' & E & _); eauto; simpl; lia.
    + destruct (Remove_single r x h HR HV) as (r' & E & _). eauto.
    + destruct (Remove_rep r [x; y] h HR) as (r' & E & _); eauto; simpl; lia.
    + destruct (bytes_eq_dec (snd x) h) as [<-|N].
      * destruct (Remove_head_effect r x y z l HR) as (r' & h' & E & _). eauto.
      * destruct (Remove_rep r (x :: y :: z :: l) h HR) as (r' & E & _); eauto; simpl; [lia|congruence].
  - eexists. apply (Dump_rep _ _ HR).
Qed.
