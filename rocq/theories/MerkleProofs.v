(** * Proofs about the Merkle tree model *)
From Coq Require Import List ZArith Bool Lia Arith.
From Coq Require Import Init.Byte.
From Verif Require Import Base BaseProofs Ids IdsProofs Merkle MerkleSpec.
Import ListNotations.
Open Scope nat_scope.

(** Induction two elements at a time. *)
Lemma pair_ind (P : list bytes -> Prop) :
  P [] -> (forall a, P [a]) -> (forall a b t, P t -> P (a :: b :: t)) -> forall l, P l.
Proof.
  intros H0 H1 H2.
  assert (Hk : forall l, P l /\ forall a, P (a :: l)).
  { induction l as [|b t [IHa IHb]].
    - split; auto.
    - split; [apply IHb|]. intro a. apply H2, IHa. }
  intro l. apply Hk.
Qed.

Section proofs.
  Variable hash : bytes -> bytes.
  Notation pair_up := (pair_up hash).
  Notation build := (buildIntermediate hash).

  Lemma pair_up_neighbours (l : list bytes) : pair_up l = map hash (neighbours l).
  Proof. induction l using pair_ind; cbn; congruence. Qed.

  Lemma neighbours_length (l : list bytes) : length (neighbours l) = (length l + 1) / 2.
  Proof.
    induction l as [|a|a b t IH] using pair_ind; try reflexivity.
    cbn [neighbours length]. rewrite IH.
    replace (S (S (length t)) + 1) with (length t + 1 + 1 * 2) by lia.
    rewrite Nat.div_add by lia. lia.
  Qed.

  Lemma pair_up_length (l : list bytes) : length (pair_up l) = (length l + 1) / 2.
  Proof. now rewrite pair_up_neighbours, map_length, neighbours_length. Qed.

  Lemma nth_pair_up (l : list bytes) : forall j, j < length (pair_up l) ->
    nth j (pair_up l) [] = hash (nth (2 * j) l [] ++ nth (2 * j + 1) l (nth (2 * j) l [])).
  Proof.
    induction l as [|a|a b t IH] using pair_ind; intros j Hj.
    - cbn in Hj. lia.
    - cbn in Hj. assert (j = 0) by lia. subst. reflexivity.
    - destruct j as [|j]; [reflexivity|].
      cbn [Merkle.pair_up length] in Hj.
      change (nth (S j) (pair_up (a :: b :: t)) []) with (nth j (pair_up t) []).
      rewrite IH by lia.
      replace (2 * S j) with (S (S (2 * j))) by lia.
      replace (S (S (2 * j)) + 1) with (S (S (2 * j + 1))) by lia. reflexivity.
  Qed.

  (** ** Levels *)
  Inductive chain : list (list bytes) -> Prop :=
  | chain_top l : length l = 2 -> chain [l; pair_up l]
  | chain_up l rest : 2 < length l -> chain (pair_up l :: rest) -> chain (l :: pair_up l :: rest).

  Lemma build_chain : forall fuel l, 2 <= length l <= fuel ->
    exists rest, build fuel l = Ret (l :: rest) /\ chain (l :: rest).
  Proof.
    induction fuel as [|f IH]; intros l Hl; [lia|].
    cbn [buildIntermediate].
    destruct (Nat.eqb_spec (length l) 2) as [E|E].
    - eexists. split; [reflexivity|]. now constructor.
    - assert (H1 : 2 <= length (pair_up l) <= f).
      { rewrite pair_up_length. split.
        - apply Nat.div_le_lower_bound; lia.
        - apply Nat.div_le_upper_bound; lia. }
      destruct (IH (pair_up l) H1) as (rest & Hb & Hc).
      rewrite Hb. cbn [obind]. eexists. split; [reflexivity|]. constructor; [lia|exact Hc].
  Qed.

  Lemma last_chain l x rest : last (l :: x :: rest) [] = last (x :: rest) ([] : list bytes).
  Proof. reflexivity. Qed.

  (** The climb from any node verifies up to the root. *)
  Lemma climb_verifies (ls : list (list bytes)) : chain ls -> forall i,
    i < length (hd [] ls) ->
    let pi := climb ls i (nth i (hd [] ls) []) in
    verify_loop hash (fst pi) (snd pi) (nth i (hd [] ls) []) = Ret (hd [] (last ls [])).
  Proof.
    assert (step : forall l up i, i < length l -> hd [] up = pair_up l -> up <> [] ->
      let j := i / 2 in
      let left := nth (2 * j) l [] in
      let right := nth (2 * j + 1) l left in
      let cur := nth i l [] in
      j < length (pair_up l) /\
      (hash (if ((snd (if bytes_eqb left cur then (right, 1%Z) else (left, 0%Z)) =? 1)%Z)
             then cur ++ fst (if bytes_eqb left cur then (right, 1%Z) else (left, 0%Z))
             else fst (if bytes_eqb left cur then (right, 1%Z) else (left, 0%Z)) ++ cur))
      = nth j (pair_up l) []).
    { intros l up i Hi Hup Hne j left right cur.
      assert (Hj : j < length (pair_up l)).
      { rewrite pair_up_length. unfold j. apply Nat.div_lt_upper_bound; [lia|].
        assert (Hdm := Nat.div_mod (length l + 1) 2). assert (Hm := Nat.mod_upper_bound (length l + 1) 2). lia. }
      split; [exact Hj|].
      rewrite nth_pair_up by exact Hj. fold left. fold right.
      destruct (bytes_eqb left cur) eqn:E; cbn [fst snd].
      - apply bytes_eqb_eq in E. rewrite Z.eqb_refl. now rewrite <- E.
      - assert (Hc : cur = right).
        { assert (Hdm := Nat.div_mod i 2). assert (Hm := Nat.mod_upper_bound i 2).
          fold j in Hdm.
          assert (Hi2 : i = 2 * j \/ i = 2 * j + 1) by lia.
          destruct Hi2 as [Hi2|Hi2].
          - exfalso. unfold left, cur in E. rewrite <- Hi2 in E.
            assert (HH : bytes_eqb (nth i l []) (nth i l []) = true) by now apply bytes_eqb_eq.
            congruence.
          - unfold cur, right. rewrite <- Hi2. apply nth_indep. exact Hi. }
        rewrite Hc. reflexivity. }
    induction 1 as [l Hl|l rest Hl Hc IH]; intros i Hi; cbn [hd] in Hi.
    - destruct (step l [pair_up l] i Hi eq_refl) as (Hj & Hh); [discriminate|].
      cbn [climb hd fst snd verify_loop last].
      rewrite Hh.
      assert (Hl1 : length (pair_up l) = 1) by now rewrite pair_up_length, Hl.
      destruct (pair_up l) as [|x [|y t]]; cbn in Hl1; try lia.
      assert (H0 : i / 2 = 0) by (cbn in Hj; lia). rewrite H0. reflexivity.
    - destruct (step l (pair_up l :: rest) i Hi eq_refl) as (Hj & Hh); [discriminate|].
      rewrite last_chain.
      cbn [climb hd fst snd]. cbn [verify_loop]. rewrite Hh.
      apply IH. cbn [hd]. exact Hj.
  Qed.

  Lemma find_leaf_in leafs c : Forall (fun x => length x = 32) leafs -> In c leafs ->
    exists i, find_leaf leafs c = Some i /\ i < length leafs /\ nth i leafs [] = c.
  Proof.
    intros Hx Hin. assert (Hc : length c = 32) by (rewrite Forall_forall in Hx; auto).
    revert Hin. induction Hx as [|x t Hxl Hx IH]; intros Hin; [destruct Hin|].
    cbn [find_leaf].
    destruct (ContentIDEquals x c) eqn:E.
    - exists 0. apply content_equals in E; [|assumption..].
      split; [reflexivity|]. split; [cbn; lia|exact E].
    - destruct Hin as [->|Hin].
      { exfalso. assert (HH : ContentIDEquals c c = true) by now apply content_equals. congruence. }
      destruct (IH Hin) as (i & Hf & Hl & Hn).
      exists (S i). rewrite Hf. cbn. split; [reflexivity|]. split; [lia|exact Hn].
  Qed.

  Lemma find_leaf_out leafs c : Forall (fun x => length x = 32) leafs -> length c = 32 -> ~ In c leafs ->
    find_leaf leafs c = None.
  Proof.
    intros Hx Hc. induction Hx as [|x t Hxl Hx IH]; intros Hin; [reflexivity|].
    cbn [find_leaf]. destruct (ContentIDEquals x c) eqn:E.
    - apply content_equals in E; [|assumption..]. subst. exfalso. apply Hin. now left.
    - rewrite IH; [reflexivity|]. intros H; apply Hin. now right.
  Qed.

  (** ** The tree over a list *)
  Definition padded (ids : list bytes) : list bytes :=
    match ids with
    | [] => []
    | c :: _ => if Nat.odd (length ids) then ids ++ [last ids c] else ids
    end.

  Lemma padded_length ids : ids <> [] -> 2 <= length (padded ids).
  Proof.
    destruct ids as [|a [|b t]]; [congruence|cbn; lia|].
    intros _. unfold padded. destruct (Nat.odd _); rewrite ?app_length; cbn [length]; lia.
  Qed.

  Lemma last_in (a : bytes) t d : In (last (a :: t) d) (a :: t).
  Proof.
    revert a. induction t as [|b t IH]; intros a; [now left|].
    right. apply IH.
  Qed.

  Lemma padded_in ids x : In x (padded ids) <-> In x ids.
  Proof.
    destruct ids as [|c t]; [reflexivity|]. unfold padded.
    destruct (Nat.odd _); [|reflexivity]. rewrite in_app_iff. split; [|tauto].
    intros [H|[<-|[]]]; [exact H|]. apply last_in.
  Qed.

  Lemma create_tree ids : ids <> [] -> exists rest,
    CreateMerkleTree hash ids = Ret (OkR (Tree (padded ids) (padded ids :: rest))) /\
    chain (padded ids :: rest).
  Proof.
    intros Hne. destruct (build_chain (length (padded ids)) (padded ids)) as (rest & Hb & Hc).
    { split; [now apply padded_length|lia]. }
    exists rest. split; [|exact Hc].
    destruct ids as [|c t]; [congruence|].
    unfold CreateMerkleTree. change (if Nat.odd (length (c :: t)) then (c :: t) ++ [last (c :: t) c] else c :: t)
      with (padded (c :: t)).
    unfold CalculateHash. rewrite map_id, Hb. reflexivity.
  Qed.

  Lemma complete_pf ids : ids <> [] -> Forall (fun x => length x = 32) ids ->
    exists t, CreateMerkleTree hash ids = Ret (OkR t) /\
      forall c, In c ids -> VerifyContent hash (GenerateMerkleProof t c) c (GetMerkleRoot t) = Ret true.
  Proof.
    intros Hne H32. destruct (create_tree ids Hne) as (rest & Ht & Hc).
    eexists. split; [exact Ht|]. intros c Hin.
    assert (H32' : Forall (fun x => length x = 32) (padded ids)).
    { rewrite Forall_forall in *. intros x Hx. apply H32. now apply padded_in. }
    destruct (find_leaf_in (padded ids) c H32') as (i & Hf & Hl & Hn). { now apply padded_in. }
    unfold GenerateMerkleProof. cbn [t_leafs t_levels]. rewrite Hf.
    unfold VerifyContent, CalculateHash. cbn [p_path p_index].
    assert (HV := climb_verifies _ Hc i). cbn [hd] in HV. specialize (HV Hl). cbn zeta in HV.
    cbn [hd]. rewrite Hn in *. rewrite HV. cbn [obind].
    f_equal. apply bytes_eqb_eq. reflexivity.
  Qed.

  (** ** Inputs hashed along a proof *)
  Fixpoint linked (cur : bytes) (xs : list bytes) : Prop :=
    match xs with
    | [] => True
    | x :: t => (exists p, x = cur ++ p \/ x = p ++ cur) /\ linked (hash x) t
    end.
  Definition endval (cur : bytes) (xs : list bytes) : bytes := fold_left (fun _ x => hash x) xs cur.

  Lemma verify_loop_inputs : forall path index cur h,
    verify_loop hash path index cur = Ret h ->
    let xs := proof_inputs hash path index cur in
    linked cur xs /\ endval cur xs = h.
  Proof.
    induction path as [|p path IH]; intros index cur h H; cbn [verify_loop] in H.
    - injection H as <-. cbn. auto.
    - destruct index as [|i index]; [discriminate|].
      apply IH in H. cbn zeta in H. destruct H as [H1 H2].
      cbn [proof_inputs]. cbn zeta. split.
      + cbn [linked]. split; [|exact H1]. exists p. destruct (i =? 1)%Z; auto.
      + exact H2.
  Qed.

  Lemma linked_app cur xs x ys : linked cur (xs ++ x :: ys) ->
    exists p, x = endval cur xs ++ p \/ x = p ++ endval cur xs.
  Proof.
    revert cur. induction xs as [|y t IH]; intros cur H; cbn in *.
    - tauto.
    - destruct H as [_ H]. apply IH in H. exact H.
  Qed.

  Lemma endval_snoc cur xs x : endval cur (xs ++ [x]) = hash x.
  Proof. unfold endval. now rewrite fold_left_app. Qed.

  Lemma in_neighbours l x : In x (neighbours l) -> exists a b, In a l /\ In b l /\ x = a ++ b.
  Proof.
    induction l as [|a|a b t IH] using pair_ind; cbn [neighbours]; intros H.
    - destruct H.
    - destruct H as [<-|[]]. exists a, a. cbn. auto.
    - destruct H as [<-|H].
      + exists a, b. cbn. auto.
      + destruct (IH H) as (u & v & Hu & Hv & E). exists u, v. cbn. auto.
  Qed.

  Lemma row_inputs_step n l : length l <= n -> 2 <= length l ->
    forall rest, chain (l :: pair_up l :: rest) ->
    row_inputs hash n l = neighbours l ++ match rest with [] => [] | _ => row_inputs hash (n - 1) (pair_up l) end.
  Proof.
    intros Hn Hl rest Hc. destruct n as [|n]; [lia|].
    cbn [row_inputs]. replace (S n - 1) with n by lia.
    assert (HL := neighbours_length l).
    inversion Hc; subst.
    - match goal with H : length l = 2 |- _ => rewrite H in HL end.
      destruct (neighbours l) as [|x [|y t]]; cbn in HL; try lia. reflexivity.
    - assert (Hn2 : 2 <= length (neighbours l)).
      { rewrite HL. apply Nat.div_le_lower_bound; lia. }
      rewrite pair_up_neighbours.
      destruct (neighbours l) as [|x [|y t]]; cbn in Hn2; try lia.
      match goal with H : chain (pair_up l :: _) |- _ => inversion H; subst; reflexivity end.
  Qed.

  Lemma chain_lengths ls : chain ls -> exists l rest, ls = l :: pair_up l :: rest /\ 2 <= length l /\
    (rest = [] -> length l = 2) /\ (rest <> [] -> chain (pair_up l :: rest)).
  Proof.
    destruct 1 as [l H|l rest H Hc].
    - exists l, []. repeat split; auto; [lia|congruence].
    - exists l, rest. repeat split; auto; [lia|]. intros ->. inversion Hc.
  Qed.

  Section sound.
    Hypothesis hash32 : forall x, length (hash x) = 32.

    Lemma pair_up_32 l : Forall (fun x => length x = 32) (pair_up l).
    Proof. rewrite pair_up_neighbours. apply Forall_map, Forall_forall. intros; apply hash32. Qed.

    Lemma endval_32 cur xs : length cur = 32 -> length (endval cur xs) = 32.
    Proof.
      intros H. destruct xs as [|x t] using rev_ind; [exact H|]. rewrite endval_snoc. apply hash32.
    Qed.

    (** One level down. *)
    Lemma descend cur xs l x : length cur = 32 -> Forall (fun y => length y = 32) l -> linked cur xs ->
      In x xs -> In (hash x) (pair_up l) ->
      In cur l \/ (exists y, In y xs /\ In (hash y) l) \/ collision_in hash (neighbours l) xs.
    Proof.
      intros Hcur Hl Hk Hx Hh.
      apply in_split in Hx as (xs1 & xs2 & ->).
      destruct (linked_app _ _ _ _ Hk) as (p & Hp).
      rewrite pair_up_neighbours in Hh. apply in_map_iff in Hh as (u & Hu & Huin).
      destruct (bytes_eqb u x) eqn:E.
      2:{ right; right. exists u, x. split; [exact Huin|]. split; [apply in_elt|].
          split; [|exact Hu]. intros ->. assert (bytes_eqb x x = true) by now apply bytes_eqb_eq. congruence. }
      apply bytes_eqb_eq in E. subst u.
      apply in_neighbours in Huin as (a & b & Ha & Hb & Hab).
      rewrite Forall_forall in Hl. assert (La := Hl a Ha). assert (Lb := Hl b Hb).
      assert (Le := endval_32 cur xs1 Hcur).
      assert (Hin : In (endval cur xs1) l).
      { destruct Hp as [Hp|Hp]; rewrite Hab in Hp.
        - apply app_eq_app in Hp as (z & [[H1 H2]|[H1 H2]]); subst.
          + rewrite app_length in La. assert (z = []) by (destruct z; cbn in *; [auto|lia]). subst.
            now rewrite app_nil_r in Ha.
          + assert (Hz : z = []). { rewrite H1, app_length in Le. destruct z; cbn in *; [auto|lia]. }
            subst. rewrite app_nil_r in H1. now rewrite H1.
        - assert (Hl2 : length p = 32). { apply (f_equal (@length byte)) in Hp. rewrite !app_length in Hp. lia. }
          assert (HH := f_equal (skipn 32) Hp).
          rewrite (skipn_app 32 a b), (skipn_app 32 p _), La, Hl2 in HH.
          rewrite (skipn_all2 a), (skipn_all2 p) in HH by lia. cbn in HH. now rewrite <- HH. }
      destruct xs1 as [|y ys _] using rev_ind; [left; exact Hin|].
      right; left. exists y. split; [|now rewrite endval_snoc in Hin].
      apply in_or_app. left. apply in_or_app. right. now left.
    Qed.

    Lemma collision_in_app_r xs xs' ys : collision_in hash xs ys -> collision_in hash (xs' ++ xs) ys.
    Proof. intros (x & y & H1 & H2 & H3). exists x, y. rewrite in_app_iff. tauto. Qed.
    Lemma collision_in_app_l xs xs' ys : collision_in hash xs ys -> collision_in hash (xs ++ xs') ys.
    Proof. intros (x & y & H1 & H2 & H3). exists x, y. rewrite in_app_iff. tauto. Qed.

    Lemma sound_chain ls : chain ls -> forall cur xs n,
      length cur = 32 -> Forall (fun y => length y = 32) (hd [] ls) -> length (hd [] ls) <= n ->
      linked cur xs -> endval cur xs = hd [] (last ls []) ->
      In cur (hd [] ls) \/ In cur (map hash (row_inputs hash n (hd [] ls))) \/
      (exists y, In y xs /\ In (hash y) (hd [] ls)) \/
      collision_in hash (row_inputs hash n (hd [] ls)) xs.
    Proof.
      induction 1 as [l Hl|l rest Hl Hc IH]; intros cur xs n Hcur H32 Hn Hk He; cbn [hd] in *.
      - rewrite (row_inputs_step n l Hn ltac:(lia) [] (chain_top l Hl)), app_nil_r.
        cbn [last] in He.
        assert (Hl1 : length (pair_up l) = 1) by now rewrite pair_up_length, Hl.
        destruct (pair_up l) as [|top [|y t]] eqn:Ep; cbn in Hl1; try lia. cbn [hd] in He. clear Hl1.
        destruct xs as [|x ys _] using rev_ind.
        + right; left. rewrite <- pair_up_neighbours, Ep. cbn in He. subst. now left.
        + rewrite endval_snoc in He.
          destruct (descend cur (ys ++ [x]) l x Hcur H32 Hk) as [H|[H|H]]; auto.
          * apply in_elt.
          * rewrite Ep, He. now left.
      - rewrite last_chain in He.
        destruct (chain_lengths _ Hc) as (l1 & rest1 & E & Hl1 & _ & _). injection E as E1 E2. subst l1 rest.
        assert (Hn' : length (pair_up l) <= n - 1).
        { rewrite pair_up_length. apply Nat.div_le_upper_bound; lia. }
        rewrite (row_inputs_step n l Hn ltac:(lia) _ (chain_up l _ Hl Hc)).
        destruct (IH cur xs (n - 1) Hcur (pair_up_32 l) Hn' Hk He) as [H|[H|[(y & Hy1 & Hy2)|H]]].
        + right; left. rewrite map_app, <- pair_up_neighbours. apply in_or_app. now left.
        + right; left. rewrite map_app. apply in_or_app. now right.
        + destruct (descend cur xs l y Hcur H32 Hk Hy1 Hy2) as [H|[H|H]]; auto.
          right; right; right. now apply collision_in_app_l.
        + right; right; right. now apply collision_in_app_r.
    Qed.

    Lemma neighbours_padded ids : neighbours (padded ids) = neighbours ids.
    Proof.
      destruct ids as [|c t]; [reflexivity|]. unfold padded.
      destruct (Nat.odd (length (c :: t))) eqn:E; [|reflexivity].
      generalize c at 3. revert E. generalize (c :: t). clear c t.
      intros l. induction l as [|a|a b t IH] using pair_ind; intros E d; try reflexivity; [discriminate|].
      destruct t as [|e t']; [discriminate|].
      change ((a ++ b) :: neighbours ((e :: t') ++ [last (e :: t') d]) = (a ++ b) :: neighbours (e :: t')).
      now rewrite (IH E d).
    Qed.

    Lemma row_inputs_indep : forall n m l, length l <= n -> length l <= m ->
      row_inputs hash n l = row_inputs hash m l.
    Proof.
      induction n as [|n IH]; intros m l Hn Hm.
      - destruct l; [|cbn in *; lia]. destruct m; reflexivity.
      - destruct m as [|m].
        + destruct l; [reflexivity|cbn in *; lia].
        + cbn [row_inputs]. assert (HL := neighbours_length l).
          destruct (neighbours l) as [|x [|y t]] eqn:En; try reflexivity.
          assert (H3 : 3 <= length l) by (destruct l as [|p [|q [|r s]]]; cbn in *; try lia; discriminate).
          f_equal. apply IH; rewrite map_length, HL; apply Nat.div_le_upper_bound; lia.
    Qed.

    Lemma row_inputs_padded ids n : ids <> [] -> length (padded ids) <= n ->
      row_inputs hash n (padded ids) = tree_inputs hash ids.
    Proof.
      intros Hne Hn. unfold tree_inputs. destruct ids as [|c t]; [congruence|].
      destruct n as [|n]; [assert (H := padded_length (c :: t) Hne); lia|].
      cbn [length row_inputs]. rewrite neighbours_padded.
      assert (HL := neighbours_length (c :: t)).
      destruct (neighbours (c :: t)) as [|x [|y r]] eqn:En; try reflexivity.
      f_equal. assert (Hp := padded_length (c :: t) Hne).
      assert (HL2 := neighbours_length (padded (c :: t))). rewrite neighbours_padded, En in HL2.
      assert (H3 : 2 <= length t) by (destruct t as [|p [|q r']]; cbn in *; try lia; discriminate).
      assert (Hpl : length (c :: t) <= length (padded (c :: t))).
      { unfold padded. destruct (Nat.odd _); rewrite ?app_length; lia. }
      cbn [length] in Hpl.
      apply row_inputs_indep; rewrite map_length.
      - rewrite HL2. apply Nat.div_le_upper_bound; lia.
      - rewrite HL. cbn [length]. apply Nat.div_le_upper_bound; lia.
    Qed.

    Lemma sound_pf ids t id mp : Forall (fun x => length x = 32) ids -> length id = 32 ->
      CreateMerkleTree hash ids = Ret (OkR t) ->
      VerifyContent hash mp id (GetMerkleRoot t) = Ret true ->
      In id ids \/ In id (map hash (tree_inputs hash ids)) \/
      (exists y, In y (proof_inputs hash (p_path mp) (p_index mp) id) /\ In (hash y) ids) \/
      collision_in hash (tree_inputs hash ids) (proof_inputs hash (p_path mp) (p_index mp) id).
    Proof.
      intros H32 Hid Ht Hv.
      assert (Hne : ids <> []) by (intros ->; discriminate).
      destruct (create_tree ids Hne) as (rest & Ht' & Hc). rewrite Ht' in Ht. injection Ht as <-.
      unfold VerifyContent, CalculateHash in Hv.
      destruct (verify_loop hash (p_path mp) (p_index mp) id) as [h| |] eqn:E; try discriminate.
      cbn [obind] in Hv. injection Hv as Hv. apply bytes_eqb_eq in Hv.
      unfold GetMerkleRoot in Hv. cbn [t_levels] in Hv. apply hex_encode_inj in Hv.
      apply verify_loop_inputs in E. cbn zeta in E. destruct E as [Hk He]. rewrite Hv in He.
      assert (H32' : Forall (fun x => length x = 32) (padded ids)).
      { rewrite Forall_forall in *. intros x Hx. apply H32. now apply padded_in. }
      assert (HS := sound_chain _ Hc id _ (length (padded ids)) Hid H32' (le_n _) Hk He).
      cbn [hd] in HS. rewrite row_inputs_padded in HS by auto.
      destruct HS as [H|[H|[(y & H1 & H2)|H]]]; auto.
      - left. now apply padded_in.
      - right; right; left. exists y. split; auto. now apply padded_in.
    Qed.

    (** ** The root determines a list of known length *)
    Lemma map_hash_eq : forall xs ys, length xs = length ys -> map hash xs = map hash ys ->
      xs = ys \/ collision_in hash xs ys.
    Proof.
      induction xs as [|x xs IH]; intros [|y ys] Hl H; try discriminate; [now left|].
      injection H as H1 H2. injection Hl as Hl.
      destruct (bytes_eqb x y) eqn:E.
      - apply bytes_eqb_eq in E. subst. destruct (IH ys Hl H2) as [->|(u & v & A & B & C & D)]; [now left|].
        right. exists u, v. cbn. auto.
      - right. exists x, y. cbn. repeat split; auto. intros ->.
        assert (bytes_eqb y y = true) by now apply bytes_eqb_eq. congruence.
    Qed.

    Lemma app_eq_32 (a b c d : bytes) : length a = 32 -> length c = 32 -> a ++ b = c ++ d -> a = c /\ b = d.
    Proof.
      intros Ha Hc E. apply app_eq_app in E as (z & [[H1 H2]|[H1 H2]]); subst; rewrite app_length in *;
        assert (z = []) by (destruct z; cbn in *; [auto|lia]); subst; now rewrite app_nil_r.
    Qed.

    Lemma neighbours_inj : forall l l', length l = length l' ->
      Forall (fun x => length x = 32) l -> Forall (fun x => length x = 32) l' ->
      neighbours l = neighbours l' -> l = l'.
    Proof.
      induction l as [|a|a b t IH] using pair_ind; intros l' Hl H32 H32' E.
      - destruct l'; [reflexivity|discriminate].
      - destruct l' as [|c [|d t']]; try discriminate. cbn in E. injection E as E.
        inversion H32; inversion H32'; subst. destruct (app_eq_32 a a c c) as [-> _]; auto.
      - destruct l' as [|c [|d t']]; try discriminate.
        change ((a ++ b) :: neighbours t = (c ++ d) :: neighbours t') in E. injection E as E1 E2.
        inversion H32 as [|? ? Ha H32a]; inversion H32' as [|? ? Hc H32c]; subst.
        destruct (app_eq_32 a b c d) as [-> ->]; auto.
        inversion H32a; inversion H32c; subst.
        rewrite (IH t'); auto. cbn in Hl. lia.
    Qed.

    Lemma bind_chain ls : chain ls -> forall ls', chain ls' ->
      length (hd [] ls) = length (hd [] ls') ->
      Forall (fun x => length x = 32) (hd [] ls) -> Forall (fun x => length x = 32) (hd [] ls') ->
      hd [] (last ls []) = hd [] (last ls' []) -> forall n, length (hd [] ls) <= n ->
      hd [] ls = hd [] ls' \/ collision_in hash (row_inputs hash n (hd [] ls)) (row_inputs hash n (hd [] ls')).
    Proof.
      assert (down : forall l l', length l = length l' ->
        Forall (fun x => length x = 32) l -> Forall (fun x => length x = 32) l' -> pair_up l = pair_up l' ->
        l = l' \/ collision_in hash (neighbours l) (neighbours l')).
      { intros l l' Hl H1 H2 E. rewrite !pair_up_neighbours in E.
        apply map_hash_eq in E; [|rewrite !neighbours_length; congruence].
        destruct E as [E|E]; [left|right; exact E]. now apply neighbours_inj. }
      assert (mono : forall xs xs' ys ys', collision_in hash xs ys -> collision_in hash (xs ++ xs') (ys ++ ys')).
      { intros xs xs' ys ys' (x & y & A & B & C). exists x, y. rewrite !in_app_iff. tauto. }
      assert (mono' : forall xs xs' ys ys', collision_in hash xs ys -> collision_in hash (xs' ++ xs) (ys' ++ ys)).
      { intros xs xs' ys ys' (x & y & A & B & C). exists x, y. rewrite !in_app_iff. tauto. }
      induction 1 as [l Hl|l rest Hl Hc IH]; intros ls' Hc' HL H32 H32' HT n Hn.
      - destruct Hc' as [l' Hl'|l' rest' Hl' Hc']; cbn [hd] in *; [|lia].
        cbn [last] in HT.
        assert (L1 : length (pair_up l) = 1) by now rewrite pair_up_length, Hl.
        assert (L2 : length (pair_up l') = 1) by now rewrite pair_up_length, Hl'.
        assert (E : pair_up l = pair_up l').
        { destruct (pair_up l) as [|a [|? ?]]; cbn in L1; try lia.
          destruct (pair_up l') as [|b [|? ?]]; cbn in L2; try lia. cbn in HT. congruence. }
        rewrite (row_inputs_step n l Hn ltac:(lia) [] (chain_top l Hl)).
        rewrite (row_inputs_step n l' ltac:(lia) ltac:(lia) [] (chain_top l' Hl')).
        destruct (down l l' HL H32 H32' E) as [->|C]; [now left|right]. now apply mono.
      - destruct Hc' as [l' Hl'|l' rest' Hl' Hc']; cbn [hd] in *; [lia|].
        rewrite !last_chain in HT.
        assert (HLp : length (pair_up l) = length (pair_up l')) by (rewrite !pair_up_length; congruence).
        assert (Hn' : length (pair_up l) <= n - 1).
        { rewrite pair_up_length. apply Nat.div_le_upper_bound; lia. }
        rewrite (row_inputs_step n l Hn ltac:(lia) _ (chain_up l _ Hl Hc)).
        rewrite (row_inputs_step n l' ltac:(lia) ltac:(lia) _ (chain_up l' _ Hl' Hc')).
        assert (HIH := IH _ Hc' HLp (pair_up_32 l) (pair_up_32 l') HT (n - 1) Hn'). cbn [hd] in HIH.
        destruct rest as [|r1 rest]; [inversion Hc|]. destruct rest' as [|r2 rest']; [inversion Hc'|].
        destruct HIH as [E|C].
        + destruct (down l l' HL H32 H32' E) as [->|C]; [now left|right]. now apply mono.
        + right. now apply mono'.
    Qed.

    Lemma padded_inj ids ids' : length ids = length ids' -> padded ids = padded ids' -> ids = ids'.
    Proof.
      destruct ids as [|a t], ids' as [|b t']; intros Hl E; try discriminate; [reflexivity|].
      unfold padded in E. rewrite Hl in E. destruct (Nat.odd (length (b :: t'))); [|exact E].
      apply app_inj_tail in E. tauto.
    Qed.

    Lemma root_binds_pf ids ids' t t' : length ids = length ids' ->
      Forall (fun x => length x = 32) ids -> Forall (fun x => length x = 32) ids' ->
      CreateMerkleTree hash ids = Ret (OkR t) -> CreateMerkleTree hash ids' = Ret (OkR t') ->
      GetMerkleRoot t = GetMerkleRoot t' ->
      ids = ids' \/ collision_in hash (tree_inputs hash ids) (tree_inputs hash ids').
    Proof.
      intros HL H32 H32' Ht Ht' HR.
      assert (Hne : ids <> []) by (intros ->; discriminate).
      assert (Hne' : ids' <> []) by (intros ->; discriminate).
      destruct (create_tree ids Hne) as (rest & E & Hc). rewrite E in Ht. injection Ht as <-.
      destruct (create_tree ids' Hne') as (rest' & E' & Hc'). rewrite E' in Ht'. injection Ht' as <-.
      unfold GetMerkleRoot in HR. cbn [t_levels] in HR. apply hex_encode_inj in HR.
      assert (HLp : length (padded ids) = length (padded ids')).
      { destruct ids, ids'; try congruence. unfold padded. rewrite HL.
        destruct (Nat.odd _); rewrite ?app_length, ?HL; reflexivity. }
      assert (F : forall l, Forall (fun x => length x = 32) l -> Forall (fun x => length x = 32) (padded l)).
      { intros l Hl. rewrite Forall_forall in *. intros x Hx. apply Hl. now apply padded_in. }
      destruct (bind_chain _ Hc _ Hc' HLp (F _ H32) (F _ H32') HR (length (padded ids)) (le_n _)) as [H|H];
        cbn [hd] in H.
      - left. now apply padded_inj.
      - right. rewrite row_inputs_padded in H by auto. rewrite row_inputs_padded in H; auto. lia.
    Qed.
  End sound.

  (** ** Absent identifiers and malformed proofs *)
  Lemma absent_pf ids t c : Forall (fun x => length x = 32) ids -> length c = 32 -> ~ In c ids ->
    CreateMerkleTree hash ids = Ret (OkR t) ->
    VerifyContent hash (GenerateMerkleProof t c) c (GetMerkleRoot t) =
      Ret (bytes_eqb (hex_encode c) (GetMerkleRoot t)).
  Proof.
    intros H32 Hc Hin Ht.
    assert (Hne : ids <> []) by (intros ->; discriminate).
    destruct (create_tree ids Hne) as (rest & E & _). rewrite E in Ht. injection Ht as <-.
    unfold GenerateMerkleProof. cbn [t_leafs].
    rewrite find_leaf_out; [reflexivity| |assumption|now rewrite padded_in].
    rewrite Forall_forall in *. intros x Hx. apply H32. now apply padded_in.
  Qed.

  Lemma verify_panics_pf mp c root :
    (length (p_path mp) <= length (p_index mp) -> exists b, VerifyContent hash mp c root = Ret b) /\
    (length (p_index mp) < length (p_path mp) -> VerifyContent hash mp c root = Panic).
  Proof.
    destruct mp as [path index]. unfold VerifyContent, CalculateHash. cbn [p_path p_index].
    assert (A : forall path index cur, length path <= length index ->
      exists h, verify_loop hash path index cur = Ret h).
    { clear. induction path as [|p path IH]; intros [|i index] cur H; cbn in *; try lia; eauto.
      apply IH. lia. }
    assert (B : forall path index cur, length index < length path ->
      verify_loop hash path index cur = Panic).
    { clear. induction path as [|p path IH]; intros [|i index] cur H; cbn in *; try lia; eauto.
      apply IH. lia. }
    split; intros H.
    - destruct (A path index c H) as (h & ->). cbn. eauto.
    - now rewrite B.
  Qed.
End proofs.
