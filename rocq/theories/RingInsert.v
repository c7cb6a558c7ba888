(** [Insert] on a represented ring is insertion into a sorted list. *)
From Coq Require Import List ZArith Bool Lia ZifyBool ZifyNat Sorting.Sorted Sorting.Permutation.
From Coq Require Import Init.Byte.
From Verif Require Import Base BaseProofs Ring RingLemmas.
Import ListNotations.
Open Scope Z_scope.
Open Scope go_scope.

(** Abstract insertion into a sorted list of strings. *)
Fixpoint ins (hex : gostring) (vs : list gostring) : list gostring :=
  match vs with
  | [] => [hex]
  | v :: t =>
      match hex_val v ?= hex_val hex with
      | Eq => vs
      | Gt => hex :: vs
      | Lt => v :: ins hex t
      end
  end.

Lemma holds_iff h e : holds h e <-> ky h (fst e) = Some (ekey e) /\ vl h (fst e) = Some (snd e).
Proof.
  unfold holds, ky, vl. destruct (nth_error h (fst e)) as [n|]; split.
  - intros (m & [= <-] & -> & ->). auto.
  - intros [[= H1] [= H2]]. eauto.
  - intros (m & H & _). discriminate.
  - intros [H _]. discriminate.
Qed.

Definition same_fields (h h' : list node) (a : nat) : Prop := nth_error h' a = nth_error h a.

Lemma link_frame h h' a b :
  same_fields h h' (fst a) -> same_fields h h' (fst b) -> link h a b -> link h' a b.
Proof.
  unfold same_fields, link, nxt, pv, dn, dp. intros -> ->. auto.
Qed.

Lemma lring_frame h h' l :
  (forall e, In e l -> same_fields h h' (fst e)) -> lring h l -> lring h' l.
Proof.
  destruct l as [|x [|y l]]; intros H HR; simpl in HR; auto.
  - simpl. unfold nxt, pv in *. rewrite (H x); simpl; auto.
  - rewrite lring_cyc. unfold cyc in *. eapply chain_impl; [|exact HR].
    intros a b Ha Hb. apply link_frame; apply H.
    + apply in_removelast in Ha. apply in_app_or in Ha. destruct Ha as [Ha|[<-|[]]]; simpl; auto.
    + apply in_tl in Hb. apply in_app_or in Hb. destruct Hb as [Hb|[<-|[]]]; simpl; auto.
Qed.

Lemma same_fields_alloc h n a : (a < length h)%nat -> same_fields h (h ++ [n]) a.
Proof. intros H. unfold same_fields. apply nth_error_app1. exact H. Qed.

Lemma holds_frame h h' e : same_fields h h' (fst e) -> holds h e -> holds h' e.
Proof. unfold same_fields, holds. intros ->. auto. Qed.

(** Allocation keeps the representation. *)
Lemma rep_alloc r l n : rep r l -> rep (Ring (heap r ++ [n]) (head r) (size r)) l.
Proof.
  intros [H1 H2 H3 H4 H5 H6 H7]. pose proof (holds_lt _ _ H4) as HL. rewrite Forall_forall in HL.
  assert (HF : forall e, In e l -> same_fields (heap r) (heap r ++ [n]) (fst e)).
  { intros e He. apply same_fields_alloc. apply HL. apply in_map; assumption. }
  constructor; cbn [heap head size]; auto.
  - rewrite Forall_forall in *. intros e He. eapply holds_frame; [apply HF|]; auto.
  - eapply lring_frame; eauto.
Qed.

Lemma inserted_holds h h' p c n kp kc kn e :
  inserted h h' p c n kp kc kn -> holds h e -> holds h' e.
Proof. intros HI. rewrite !holds_iff, (ins_ky _ _ _ _ _ _ _ _ HI), (ins_vl _ _ _ _ _ _ _ _ HI). auto. Qed.

Lemma nodup_last_fst (l : list entry) d a :
  NoDup (map fst l) -> In a (removelast l) -> fst a <> fst (last l d).
Proof.
  intros ND Ha E.
  destruct l as [|x l]; [contradiction|].
  assert (NE : x :: l <> []) by discriminate.
  rewrite (app_removelast_last d NE) in ND. rewrite map_app in ND. cbn [map] in ND.
  apply NoDup_remove_2 in ND. rewrite app_nil_r in ND. apply ND.
  rewrite <- E. apply in_map. exact Ha.
Qed.

Lemma nodup_tl_fst (x : entry) (l : list entry) b :
  NoDup (map fst (x :: l)) -> In b l -> fst b <> fst x.
Proof.
  intros ND Hb E. inversion ND; subst. apply H1. rewrite <- E. apply in_map. exact Hb.
Qed.

Lemma cyc_insert h h' C t N P :
  lring h (C :: t) -> NoDup (map fst (C :: t)) -> ~ In (fst N) (map fst (C :: t)) ->
  P = last (C :: t) C ->
  inserted h h' (fst P) (fst C) (fst N) (ekey P) (ekey C) (ekey N) ->
  cyc (link h') (N :: C :: t).
Proof.
  intros HR ND HN HP HI.
  assert (InP : In P (C :: t)).
  { subst P. assert (NE : C :: t <> []) by discriminate.
    rewrite (app_removelast_last C NE) at 2. apply in_or_app. right. simpl. auto. }
  assert (NC : fst C <> fst N) by (intros E; apply HN; rewrite <- E; apply in_map; simpl; auto).
  assert (NP : fst P <> fst N) by (intros E; apply HN; rewrite <- E; apply in_map; auto).
  assert (HNC : link h' N C).
  { unfold link. rewrite (ins_nxt _ _ _ _ _ _ _ _ HI), (ins_pv _ _ _ _ _ _ _ _ HI),
      (ins_dn _ _ _ _ _ _ _ _ HI), (ins_dp _ _ _ _ _ _ _ _ HI), !Nat.eqb_refl.
    replace (Nat.eqb (fst C) (fst N)) with false by (symmetry; apply Nat.eqb_neq; auto). auto. }
  assert (HPN : link h' P N).
  { unfold link. rewrite (ins_nxt _ _ _ _ _ _ _ _ HI), (ins_pv _ _ _ _ _ _ _ _ HI),
      (ins_dn _ _ _ _ _ _ _ _ HI), (ins_dp _ _ _ _ _ _ _ _ HI), !Nat.eqb_refl.
    replace (Nat.eqb (fst P) (fst N)) with false by (symmetry; apply Nat.eqb_neq; auto). auto. }
  assert (HCt : chain (link h') (C :: t)).
  { destruct t as [|y t]; [simpl; auto|].
    rewrite lring_cyc in HR. unfold cyc in HR. apply chain_app_l in HR.
    eapply chain_impl; [|exact HR].
    intros a b Ha Hb. pose proof (nodup_last_fst _ C a ND Ha) as N1. rewrite <- HP in N1.
    pose proof (nodup_tl_fst _ _ b ND Hb) as N2.
    assert (N3 : fst a <> fst N) by (intros E; apply HN; rewrite <- E; apply in_map, in_removelast, Ha).
    assert (N4 : fst b <> fst N) by (intros E; apply HN; rewrite <- E; apply in_map; right; exact Hb).
    unfold link. rewrite (ins_nxt _ _ _ _ _ _ _ _ HI), (ins_pv _ _ _ _ _ _ _ _ HI),
      (ins_dn _ _ _ _ _ _ _ _ HI), (ins_dp _ _ _ _ _ _ _ _ HI).
    replace (Nat.eqb (fst a) (fst N)) with false by (symmetry; apply Nat.eqb_neq; auto).
    replace (Nat.eqb (fst b) (fst N)) with false by (symmetry; apply Nat.eqb_neq; auto).
    replace (Nat.eqb (fst a) (fst P)) with false by (symmetry; apply Nat.eqb_neq; auto).
    replace (Nat.eqb (fst b) (fst C)) with false by (symmetry; apply Nat.eqb_neq; auto).
    auto. }
  unfold cyc. change ((N :: C :: t) ++ [N]) with (N :: ((C :: t) ++ [N])).
  assert (NE : C :: t <> []) by discriminate.
  assert (E : (C :: t) ++ [N] = removelast (C :: t) ++ [P; N]).
  { rewrite (app_removelast_last C NE) at 1. rewrite <- HP, <- app_assoc. reflexivity. }
  split; [exact HNC|].
  rewrite E. apply chain_snoc. split; [|exact HPN].
  rewrite HP, <- (app_removelast_last C NE). exact HCt.
Qed.

(** ** The search loop *)
Lemma insert_scan_spec h l x k rest : forall l1 p fuel,
  lring h l -> Forall (holds h) l -> sorted l -> hd_error l = Some x ->
  l = l1 ++ p :: rest -> (length rest < fuel)%nat ->
  exists s, insert_scan fuel h (snd x) k (Some (fst p)) (after l rest) = Ret s /\
  match s with
  | SExists => exists e, In e rest /\ ekey e = k
  | SBefore pp cp => exists m1 c m2, rest = m1 ++ c :: m2 /\
        (forall e, In e m1 -> ekey e < k) /\ k < ekey c /\
        pp = Some (fst (last (p :: m1) p)) /\ cp = Some (fst c)
  | SEnd pp cp => (forall e, In e rest -> ekey e < k) /\
        pp = Some (fst (last (p :: rest) p)) /\ cp = after l []
  end.
Proof.
  induction rest as [|c rest IH]; intros l1 p fuel HR HH HS Hx El Hf.
  - destruct fuel as [|fuel]; [simpl in Hf; lia|].
    exists (SEnd (Some (fst p)) (after l [])). split.
    + cbn [insert_scan]. destruct l as [|x' l']; [discriminate|]. injection Hx as ->.
      destruct l' as [|y l']; [reflexivity|]. cbn [after].
      inversion HH as [|? ? Hh _]; subst. destruct Hh as (n & Hn & Hk & Hv).
      rewrite (load_some _ _ _ Hn). cbn [obind]. rewrite Hv, bytes_eqb_refl. reflexivity.
    + repeat split; auto. intros e [].
  - destruct fuel as [|fuel]; [simpl in Hf; lia|].
    cbn [after insert_scan].
    assert (Hc : holds h c). { rewrite Forall_forall in HH. apply HH. subst l. apply in_or_app. right. simpl. auto. }
    destruct Hc as (n & Hn & Hk & Hv). rewrite (load_some _ _ _ Hn). cbn [obind].
    assert (Nx : snd c <> snd x).
    { intros E. destruct l1 as [|x' l1].
      - cbn [app] in El. subst l. injection Hx as ->. apply sorted_cons in HS. destruct HS as [_ HS].
        specialize (HS c (or_introl eq_refl)). unfold ekey in HS. rewrite E in HS. lia.
      - subst l. injection Hx as ->. cbn [app] in HS. apply sorted_cons in HS. destruct HS as [_ HS].
        assert (Hin : In c (l1 ++ p :: c :: rest)) by (apply in_or_app; simpl; auto).
        specialize (HS c Hin). unfold ekey in HS. rewrite E in HS. lia. }
    rewrite Hv. apply bytes_eqb_neq in Nx. rewrite Nx. rewrite Hk.
    destruct (Z.compare_spec (ekey c) k) as [E|E|E].
    + exists SExists. split; [reflexivity|]. exists c. simpl; auto.
    + assert (El' : l = (l1 ++ [p]) ++ c :: rest) by (rewrite <- app_assoc; exact El).
      pose proof (lring_next _ _ _ _ _ HR El') as HN.
      unfold nxt in HN. rewrite Hn in HN. rewrite HN.
      destruct (IH (l1 ++ [p]) c fuel HR HH HS Hx El') as (s & Hs & Hspec); [simpl in Hf; lia|].
      exists s. split; [exact Hs|]. destruct s as [|pp cp|pp cp].
      * destruct Hspec as (e & He & Hek). exists e. simpl; auto.
      * destruct Hspec as (m1 & c' & m2 & E1 & E2 & E3 & E4 & E5).
        exists (c :: m1), c', m2. subst rest. split; [reflexivity|]. split.
        { intros e [<-|He]; auto. }
        split; [auto|]. split; [|auto]. rewrite E4.
        change (last (p :: c :: m1) p) with (last (c :: m1) p).
        f_equal. f_equal. clear. revert c. induction m1 as [|y m1 IH]; intros c; [reflexivity|].
        change (last (c :: y :: m1) c) with (last (y :: m1) c).
        change (last (c :: y :: m1) p) with (last (y :: m1) p).
        clear IH. revert y. induction m1 as [|z m1 IH]; intros y; [reflexivity|]. apply IH.
      * destruct Hspec as (E1 & E2 & E3). split; [intros e [<-|He]; auto|]. split; [|auto].
        rewrite E2. change (last (p :: c :: rest) p) with (last (c :: rest) p).
        f_equal. f_equal. clear. revert c. induction rest as [|y m1 IH]; intros c; [reflexivity|].
        change (last (c :: y :: m1) c) with (last (y :: m1) c).
        change (last (c :: y :: m1) p) with (last (y :: m1) p).
        clear IH. revert y. induction m1 as [|z m1 IH]; intros y; [reflexivity|]. apply IH.
    + exists (SBefore (Some (fst p)) (Some (fst c))). split; [reflexivity|].
      exists [], c, rest. repeat split; auto. intros e [].
Qed.

(** ** Facts about [ins] on entries *)
Definition vals (l : list entry) : list gostring := map snd l.

Lemma ins_exists hex l e : sorted l -> In e l -> ekey e = hex_val hex -> ins hex (vals l) = vals l.
Proof.
  intros HS. induction l as [|x l IH]; [contradiction|]. intros He Hk.
  apply sorted_cons in HS. destruct HS as [HS Hx]. cbn [vals map ins].
  change (hex_val (snd x)) with (ekey x).
  destruct He as [->|He].
  - rewrite Hk, Z.compare_refl. reflexivity.
  - pose proof (Hx _ He). replace (ekey x ?= hex_val hex) with Lt by (symmetry; apply Z.compare_lt_iff; lia).
    f_equal. apply IH; auto.
Qed.

Lemma ins_split hex l1 l2 :
  (forall e, In e l1 -> ekey e < hex_val hex) -> (forall e, In e l2 -> hex_val hex < ekey e) ->
  ins hex (vals (l1 ++ l2)) = vals l1 ++ hex :: vals l2.
Proof.
  induction l1 as [|x l1 IH]; intros H1 H2.
  - cbn [app]. destruct l2 as [|y l2]; [reflexivity|]. cbn [vals map ins].
    change (hex_val (snd y)) with (ekey y). pose proof (H2 y (or_introl eq_refl)).
    replace (ekey y ?= hex_val hex) with Gt by (symmetry; apply Z.compare_gt_iff; lia). reflexivity.
  - cbn [app vals map ins]. change (hex_val (snd x)) with (ekey x). pose proof (H1 x (or_introl eq_refl)).
    replace (ekey x ?= hex_val hex) with Lt by (symmetry; apply Z.compare_lt_iff; lia).
    cbn [app]. f_equal. apply IH; auto. intros e He. apply H1. right; auto.
Qed.

(** Building the representation after linking a new node in. *)
Lemma rep_insert_at r h' l1 l2 C t P hex nh sz hd :
  let l := l1 ++ l2 in
  let N := (length (heap r), hex) in
  let h := heap r ++ [Node None None (hex_val hex) hex None None] in
  rep r l -> l <> [] -> validateInput hex = true ->
  (forall e, In e l1 -> ekey e < hex_val hex) -> (forall e, In e l2 -> hex_val hex < ekey e) ->
  l2 ++ l1 = C :: t -> P = last (C :: t) C ->
  inserted h h' (fst P) (fst C) (fst N) (ekey P) (ekey C) (ekey N) ->
  nh = hd -> hd = match l1 with [] => Some (fst N) | x :: _ => Some (fst x) end -> sz = size r ->
  rep (Ring h' nh (sz + 1)) (l1 ++ N :: l2).
Proof.
  intros l N h HR NE HV H1 H2 Erot HP HI -> -> ->.
  pose proof (rep_alloc _ _ (Node None None (hex_val hex) hex None None) HR) as HA.
  fold h in HA.
  assert (HNl : ~ In (fst N) (map fst l)).
  { intros Hin. pose proof (holds_lt _ _ (rep_holds _ _ HR)) as HL. rewrite Forall_forall in HL.
    specialize (HL _ Hin). simpl in HL. lia. }
  destruct HA as [A1 A2 A3 A4 A5 A6 A7]. cbn [heap head size] in *.
  assert (Hperm : forall e, In e (C :: t) <-> In e l).
  { intros e. rewrite <- Erot. subst l. rewrite !in_app_iff. tauto. }
  assert (ND2 : NoDup (map fst (C :: t))).
  { rewrite <- Erot. rewrite map_app. subst l. rewrite map_app in A3.
    revert A3. clear. intros ND. apply (Permutation_NoDup (Permutation_app_comm _ _)). exact ND. }
  assert (HN2 : ~ In (fst N) (map fst (C :: t))).
  { intros Hin. apply HNl. apply in_map_iff in Hin. destruct Hin as (e & E & He).
    apply in_map_iff. exists e. rewrite Hperm in He. auto. }
  assert (HRot : lring h (C :: t)).
  { subst l. destruct t as [|y t].
    - rewrite <- Erot. destruct l2 as [|a l2]; [rewrite app_nil_r in A7; exact A7|].
      destruct l1; [|destruct l2; discriminate]. rewrite app_nil_r. exact A7.
    - rewrite lring_cyc. rewrite <- Erot. apply cyc_rot.
      assert (HL2 : (2 <= length (l1 ++ l2))%nat).
      { rewrite app_length, Nat.add_comm, <- app_length, Erot. simpl. lia. }
      destruct (l1 ++ l2) as [|a [|b l']]; simpl in HL2; try lia. exact A7. }
  pose proof (cyc_insert _ _ _ _ _ _ HRot ND2 HN2 HP HI) as HC.
  assert (HC' : cyc (link h') (l1 ++ N :: l2)).
  { rewrite <- Erot in HC. change (N :: l2 ++ l1) with ((N :: l2) ++ l1) in HC. apply cyc_rot in HC. exact HC. }
  assert (HhN : holds h N).
  { unfold holds. simpl fst. subst h. rewrite nth_error_app2 by lia. rewrite Nat.sub_diag.
    eexists. split; [reflexivity|]. split; reflexivity. }
  constructor; cbn [heap head size].
  - rewrite A1. subst l. rewrite !app_length. simpl. lia.
  - destruct l1; reflexivity.
  - subst l. rewrite map_app in *. simpl map.
    apply NoDup_Add with (a := fst N) (l := map fst l1 ++ map fst l2).
    + apply Add_app.
    + split; auto.
  - rewrite Forall_app. subst l. rewrite Forall_app in A4. destruct A4 as [A41 A42].
    split; [|constructor].
    + eapply Forall_impl; [|exact A41]. intros e. apply (inserted_holds _ _ _ _ _ _ _ _ _ HI).
    + apply (inserted_holds _ _ _ _ _ _ _ _ _ HI HhN).
    + eapply Forall_impl; [|exact A42]. intros e. apply (inserted_holds _ _ _ _ _ _ _ _ _ HI).
  - subst l. apply sorted_app in A5. destruct A5 as (S1 & S2 & S3).
    apply sorted_app. split; [auto|]. split.
    + apply sorted_cons. split; auto.
    + intros a b Ha [<-|Hb]; auto.
  - subst l. rewrite Forall_app in *. destruct A6. split; auto.
  - subst l. destruct l1 as [|a l1].
    + destruct l2 as [|b l2]; [contradiction NE; reflexivity|]. exact HC'.
    + destruct l1; exact HC'.
Qed.

Lemma last_cons_default {A} (x : A) l d d' : last (x :: l) d = last (x :: l) d'.
Proof. revert x. induction l as [|y l IH]; intros x; [reflexivity|]. apply (IH y). Qed.

Lemma last_app_cons {A} (l1 : list A) x l2 d : last (l1 ++ x :: l2) d = last (x :: l2) d.
Proof.
  induction l1 as [|a l1 IH]; [reflexivity|]. cbn [app].
  destruct (l1 ++ x :: l2) eqn:E; [destruct l1; discriminate|].
  change (last (a :: a0 :: l) d) with (last (a0 :: l) d). exact IH.
Qed.

(** Reading the fields of the head and its predecessor. *)
Lemma lring_prev h C t :
  lring h (C :: t) -> pv h (fst C) = match t with [] => None | _ => Some (fst (last t C)) end.
Proof.
  destruct t as [|y t]; intros HR; [simpl in HR; tauto|].
  rewrite lring_cyc in HR. unfold cyc in HR.
  assert (NE : C :: y :: t <> []) by discriminate.
  rewrite (app_removelast_last C NE) in HR. rewrite <- app_assoc in HR. cbn [app] in HR.
  apply chain_mid in HR. destruct HR as (_ & HR & _).
  change (last (C :: y :: t) C) with (last (y :: t) C) in HR. exact HR.
Qed.

Theorem Insert_rep r l hex :
  rep r l ->
  exists r' l', Insert r hex = Ret r' /\ rep r' l' /\
    vals l' = (if validateInput hex then ins hex (vals l) else vals l) /\
    incl l l'.
Proof.
  intros HR. unfold Insert.
  destruct (validateInput hex) eqn:HV; cbn [negb]; [|exists r, l; auto using incl_refl].
  pose proof (rep_alloc _ _ (Node None None (hex_val hex) hex None None) HR) as HA.
  set (h := heap r ++ [Node None None (hex_val hex) hex None None]) in *.
  assert (Hnew : nth_error h (length (heap r)) = Some (Node None None (hex_val hex) hex None None)).
  { subst h. rewrite nth_error_app2, Nat.sub_diag by lia. reflexivity. }
  destruct l as [|x l].
  - (* empty *)
    assert (S0 : size r =? 0 = true) by (rewrite (rep_size _ _ HR); reflexivity).
    rewrite S0. rewrite (load_some _ _ _ Hnew). cbn [obind key]. rewrite Z.compare_refl.
    exists (Ring h (Some (length (heap r))) (size r + 1)), [(length (heap r), hex)].
    split; [reflexivity|]. split; [|split; [reflexivity|intros e []]].
    constructor; cbn [heap head size].
    + rewrite (rep_size _ _ HR). reflexivity.
    + reflexivity.
    + repeat constructor; simpl; tauto.
    + repeat constructor. exists (Node None None (hex_val hex) hex None None). auto.
    + repeat constructor.
    + repeat constructor; exact HV.
    + simpl. unfold nxt, pv. rewrite Hnew. auto.
  - assert (S0 : size r =? 0 = false) by (rewrite (rep_size _ _ HR); simpl length; lia).
    rewrite S0. rewrite (rep_head _ _ HR).
    destruct HA as [A1 A2 A3 A4 A5 A6 A7]. cbn [heap head size] in *. 
    inversion A4 as [|? ? Hx HF]; subst. destruct Hx as (nx & Hnx & Hkx & Hvx).
    rewrite (load_some _ _ _ Hnx). cbn [obind]. rewrite Hkx.
    assert (Nx : fst x <> length (heap r)).
    { pose proof (holds_lt _ _ (rep_holds _ _ HR)) as HL. inversion HL; subst. lia. }
    destruct (Z.compare_spec (ekey x) (hex_val hex)) as [E|E|E].
    + (* head has the key *)
      exists (Ring h (Some (fst x)) (size r)), (x :: l). split; [reflexivity|]. split; [|split].
      * constructor; auto.
      * symmetry. apply ins_exists with (e := x); [exact A5 | left; reflexivity | exact E].
      * apply incl_refl.
    + (* search *)
      pose proof (lring_next _ _ [] x l A7 eq_refl) as HN. unfold nxt in HN. rewrite Hnx in HN. rewrite HN.
      rewrite Hvx.
      destruct (insert_scan_spec h (x :: l) x (hex_val hex) l [] x (S (length h)) A7 A4 A5 eq_refl eq_refl)
        as (s & Hs & Hspec).
      { pose proof (rep_length_heap _ _ HR). subst h. rewrite app_length. simpl in *. lia. }
      rewrite Hs. cbn [obind]. destruct s as [|pp cp|pp cp].
      * destruct Hspec as (e & He & Hek).
        exists (Ring h (Some (fst x)) (size r)), (x :: l). split; [reflexivity|]. split; [|split].
        -- constructor; auto.
        -- symmetry. apply ins_exists with (e := e); [exact A5 | right; exact He | exact Hek].
        -- apply incl_refl.
      * destruct Hspec as (m1 & c & m2 & El & Hm1 & Hc & -> & ->).
        set (P := last (x :: m1) x).
        assert (InP : In P (x :: l)).
        { subst P l. assert (NE : x :: m1 <> []) by discriminate.
          assert (Hin : In (last (x :: m1) x) (x :: m1)).
          { rewrite (app_removelast_last x NE) at 2. apply in_or_app; simpl; auto. }
          change (x :: m1 ++ c :: m2) with ((x :: m1) ++ c :: m2). apply in_or_app. auto. }
        assert (Inc : In c (x :: l)) by (subst l; right; apply in_or_app; simpl; auto).
        rewrite Forall_forall in A4.
        destruct (A4 P InP) as (np & Hnp & Hkp & Hvp). destruct (A4 c Inc) as (nc & Hnc & Hkc & Hvc).
        pose proof (holds_lt _ _ (rep_holds _ _ HR)) as HL. rewrite Forall_forall in HL.
        rewrite (load_some _ _ _ Hnc). cbn [obind].
        destruct (link_between_spec h (fst P) (fst c) (length (heap r)) np nc _ (hex_val hex) (key nc)
                   Hnp Hnc Hnew) as (h' & Hl & HI).
        { pose proof (HL _ (in_map fst _ _ InP)). lia. }
        { pose proof (HL _ (in_map fst _ _ Inc)). lia. }
        { reflexivity. }
        rewrite Hl. cbn [obind].
        exists (Ring h' (Some (fst x)) (size r + 1)), ((x :: m1) ++ (length (heap r), hex) :: (c :: m2)).
        assert (El' : x :: l = (x :: m1) ++ (c :: m2)) by (subst l; reflexivity).
        assert (Hl1 : forall e, In e (x :: m1) -> ekey e < hex_val hex) by (intros e [<-|He]; auto).
        assert (Hl2 : forall e, In e (c :: m2) -> hex_val hex < ekey e).
        { rewrite El' in A5. apply sorted_app in A5. destruct A5 as (_ & S2 & _).
          apply sorted_cons in S2. destruct S2 as [_ S2]. intros e [<-|He]; auto. specialize (S2 _ He). lia. }
        split; [reflexivity|]. split; [|split].
        -- rewrite El' in HR.
           eapply (rep_insert_at r h' (x :: m1) (c :: m2) c (m2 ++ (x :: m1)) P hex); eauto.
           ++ discriminate.
           ++ rewrite app_comm_cons, last_app_cons. subst P. apply last_cons_default.
           ++ rewrite Hkp, Hkc in HI. exact HI.
        -- rewrite El'. rewrite ins_split by auto. unfold vals. rewrite map_app. reflexivity.
        -- rewrite El'. intros e He. apply in_app_or in He. apply in_or_app. simpl in *. tauto.
      * destruct Hspec as (Hlt & -> & ->).
        set (P := last (x :: l) x).
        assert (InP : In P (x :: l)).
        { subst P. assert (NE : x :: l <> []) by discriminate.
          rewrite (app_removelast_last x NE) at 2. apply in_or_app; simpl; auto. }
        assert (Hcur : match after (x :: l) [] with None => Some (fst P) | Some _ => after (x :: l) [] end = Some (fst x)).
        { destruct l as [|y l]; reflexivity. }
        rewrite Hcur.
        rewrite Forall_forall in A4.
        destruct (A4 P InP) as (np & Hnp & Hkp & Hvp).
        pose proof (holds_lt _ _ (rep_holds _ _ HR)) as HL. rewrite Forall_forall in HL.
        destruct (link_between_spec h (fst P) (fst x) (length (heap r)) np nx _ (hex_val hex) (ekey x)
                   Hnp Hnx Hnew) as (h' & Hl & HI); [|congruence|congruence|].
        { pose proof (HL _ (in_map fst _ _ InP)). lia. }
        rewrite Hl. cbn [obind].
        exists (Ring h' (Some (fst x)) (size r + 1)), ((x :: l) ++ (length (heap r), hex) :: []).
        assert (El' : x :: l = (x :: l) ++ []) by (symmetry; apply app_nil_r).
        assert (Hl1 : forall e, In e (x :: l) -> ekey e < hex_val hex) by (intros e [<-|He]; auto).
        split; [reflexivity|]. split; [|split].
        -- rewrite El' in HR.
           eapply (rep_insert_at r h' (x :: l) [] x l P hex); eauto.
           ++ discriminate.
           ++ intros e [].
           ++ rewrite Hkp, Hkx in HI. exact HI.
        -- rewrite El' at 2. rewrite ins_split by (auto; intros e []). unfold vals. rewrite map_app. reflexivity.
        -- intros e He. apply in_or_app. auto.
    + (* front *)
      pose proof (lring_prev _ _ _ A7) as HP. unfold pv in HP. rewrite Hnx in HP.
      set (P := last (x :: l) x).
      assert (InP : In P (x :: l)).
      { subst P. assert (NE : x :: l <> []) by discriminate.
        rewrite (app_removelast_last x NE) at 2. apply in_or_app; simpl; auto. }
      assert (Htail : match prv nx with None => Some (fst x) | Some t => Some t end = Some (fst P)).
      { rewrite HP. destruct l as [|y l]; reflexivity. }
      rewrite Htail. clear Htail.
      rewrite Forall_forall in A4.
      destruct (A4 P InP) as (np & Hnp & Hkp & Hvp).
      pose proof (holds_lt _ _ (rep_holds _ _ HR)) as HL. rewrite Forall_forall in HL.
      assert (NP : fst P <> length (heap r)).
      { pose proof (HL _ (in_map fst _ _ InP)). lia. }
      assert (Lx : (fst x < length h)%nat) by (apply nth_error_Some; congruence).
      assert (LP : (fst P < length h)%nat) by (apply nth_error_Some; congruence).
      assert (LN : (length (heap r) < length h)%nat) by (apply nth_error_Some; congruence).
      rewrite (store_some _ _ _ _ Hnx). cbn [obind].
      erewrite store_some by (rewrite nth_error_set_eq by assumption; reflexivity). cbn [obind].
      erewrite store_some by (rewrite !nth_error_set_neq by congruence; exact Hnew). cbn [obind].
      erewrite store_some by (rewrite nth_error_set_eq by (rewrite !set_nth_length; assumption); reflexivity). cbn [obind].
      set (h4 := set_nth (set_nth (set_nth (set_nth h (fst x) _) (fst x) _) (length (heap r)) _) (length (heap r)) _).
      assert (L4 : length h4 = length h) by (subst h4; rewrite !set_nth_length; reflexivity).
      assert (Hp4 : nth_error h4 (fst P) = Some (if Nat.eqb (fst x) (fst P) then
            set_distPrv (Some (getDist (hex_val hex) (ekey x))) (set_prv (Some (length (heap r))) nx) else np)).
      { subst h4. rewrite !nth_error_set_neq with (i := length (heap r)) by congruence.
        rewrite !nth_error_set. destruct (Nat.eqb_spec (fst x) (fst P)) as [EE|N]; [|exact Hnp].
        rewrite <- EE, Hnx. reflexivity. }
      rewrite (store_some _ _ _ _ Hp4). cbn [obind].
      assert (Kp : key (if Nat.eqb (fst x) (fst P) then
            set_distPrv (Some (getDist (hex_val hex) (ekey x))) (set_prv (Some (length (heap r))) nx) else np) = ekey P).
      { destruct (Nat.eqb_spec (fst x) (fst P)) as [EE|N]; [|exact Hkp]. simpl. congruence. }
      set (mp := if Nat.eqb (fst x) (fst P) then _ else np) in *.
      erewrite load_some by (rewrite nth_error_set_eq by (rewrite L4; assumption); reflexivity). cbn [obind].
      erewrite store_some by (rewrite nth_error_set_eq by (rewrite L4; assumption); reflexivity). cbn [obind].
      assert (Hn4 : nth_error h4 (length (heap r)) = Some
         (set_distNext (Some (getDist (hex_val hex) (ekey x))) (set_next (Some (fst x)) (Node None None (hex_val hex) hex None None)))).
      { subst h4. apply nth_error_set_eq. rewrite !set_nth_length. assumption. }
      erewrite store_some by (rewrite !nth_error_set_neq by congruence; exact Hn4). cbn [obind].
      erewrite store_some by (rewrite nth_error_set_eq by (rewrite !set_nth_length, L4; assumption); reflexivity). cbn [obind].
      change (key (set_next (Some (length (heap r))) mp)) with (key mp). rewrite Kp.
      match goal with |- exists r' l', Ret (Ring ?hh _ _) = Ret r' /\ _ => set (h' := hh) end.
      assert (HI : inserted h h' (fst P) (fst x) (length (heap r)) (ekey P) (ekey x) (hex_val hex)).
      { subst h' mp h4. split; [rewrite !set_nth_length; reflexivity | ..].
        all: fields; rewrite ?nth_error_set.
        all: rewrite ?Hnew; heap_cases. }
      exists (Ring h' (Some (length (heap r))) (size r + 1)), ([] ++ (length (heap r), hex) :: (x :: l)).
      assert (Hl2 : forall e, In e (x :: l) -> hex_val hex < ekey e).
      { apply sorted_cons in A5. destruct A5 as [_ S2]. intros e [<-|He]; auto. specialize (S2 _ He). lia. }
      split; [reflexivity|]. split; [|split].
      * eapply (rep_insert_at r h' [] (x :: l) x l P hex); eauto.
        -- discriminate.
        -- intros e [].
        -- rewrite app_nil_r. reflexivity.
      * change (x :: l) with ([] ++ (x :: l)) at 2. rewrite ins_split by (auto; intros e []). reflexivity.
      * intros e He. right. exact He.
Qed.
