(** * Proofs about the TypeScript Merkle tree and its Go counterpart *)
From Coq Require Import List ZArith Bool Lia Arith.
From Coq Require Import Init.Byte.
From Verif Require Import Base BaseProofs Merkle JsMerkle.
Import ListNotations.

Lemma two_ind {A} (P : list A -> Prop) : P [] -> (forall a, P [a]) -> (forall a b t, P t -> P (a :: b :: t)) -> forall l, P l.
Proof.
  intros H0 H1 H2. fix IH 1. intros [|a [|b t]]; [exact H0|apply H1|apply H2, IH].
Qed.

Lemma app_split {A} (a c b d : list A) : length a = length c -> a ++ b = c ++ d -> a = c /\ b = d.
Proof.
  revert c. induction a as [|x a IH]; intros [|y c] H E; try discriminate; [auto|]. injection E as -> E. destruct (IH c) as (-> & ->); [cbn in H; lia|exact E|]. auto.
Qed.

Section proofs.
  Variable sha256 : bytes -> bytes.
  Local Notation above := (layer_above sha256).

  (** What [createHashes] returns. *)
  Inductive layered : list bytes -> js_tree -> Prop :=
  | layered_top : forall l, (length l <= 1)%nat -> layered l [l]
  | layered_more : forall l ls, (2 <= length l)%nat -> layered (above l) ls -> layered l (l :: ls).

  Lemma above_length l : length (above l) = Nat.div2 (S (length l)).
  Proof. induction l as [|a|a b t IH] using two_ind; [reflexivity|reflexivity|]. cbn [layer_above length]. rewrite IH. reflexivity. Qed.

  Lemma div2_less n : (2 <= n -> Nat.div2 (S n) < n)%nat.
  Proof.
    destruct n as [|[|n]]; [lia|lia|intros _]. change (Nat.div2 (S (S (S n)))) with (S (Nat.div2 (S n))). pose proof (Nat.div2_decr (S n) n). lia.
  Qed.

  Lemma create_layered : forall fuel l, (length l <= S fuel)%nat -> exists ls, createHashes sha256 fuel l = Ret ls /\ layered l ls.
  Proof.
    induction fuel as [|fuel IH]; intros l H; cbn [createHashes]; destruct (Nat.leb (length l) 1) eqn:E.
    - eexists; split; [reflexivity|]. apply layered_top. apply Nat.leb_le. exact E.
    - apply Nat.leb_gt in E. lia.
    - eexists; split; [reflexivity|]. apply layered_top. apply Nat.leb_le. exact E.
    - apply Nat.leb_gt in E. destruct (IH (above l)) as (ls & C & L).
      { rewrite above_length. pose proof (div2_less (length l)). lia. }
      rewrite C. cbn [obind]. eexists; split; [reflexivity|]. apply layered_more; [lia|exact L].
  Qed.

  (** The node above. *)
  Lemma above_nth : forall l i, (i < length l)%nat ->
    nth (Nat.div2 i) (above l) [] =
      match nth_error l (if Nat.odd i then Nat.pred i else S i) with
      | Some x => js_join sha256 (nth i l []) (Nat.odd i, x)
      | None => nth i l []
      end.
  Proof.
    induction l as [|a|a b t IH] using two_ind; intros i H.
    - cbn in H. lia.
    - cbn in H. assert (i = 0)%nat as -> by lia. reflexivity.
    - destruct i as [|[|i]]; [reflexivity|reflexivity|]. cbn in H. cbn [Nat.div2 layer_above nth]. rewrite IH by lia.
      change (Nat.odd (S (S i))) with (Nat.odd i). destruct (Nat.odd i) eqn:O; cbn [Nat.pred nth_error].
      + destruct i as [|i]; [discriminate|]. reflexivity.
      + reflexivity.
  Qed.

  Lemma div2_half n i : (i < n -> Nat.div2 i < Nat.div2 (S n))%nat.
  Proof.
    revert i. induction n as [n IH] using lt_wf_ind. intros i H. destruct n as [|[|n]]; [lia| |].
    - assert (i = 0)%nat as -> by lia. cbn. lia.
    - destruct i as [|[|i]]; [cbn; lia|cbn; lia|]. change (Nat.div2 (S (S i))) with (S (Nat.div2 i)). change (Nat.div2 (S (S (S n)))) with (S (Nat.div2 (S n))).
      pose proof (IH n ltac:(lia) i ltac:(lia)). lia.
  Qed.

  Lemma last_more (l x : list bytes) r : last (l :: x :: r) [] = last (x :: r) [].
  Proof. reflexivity. Qed.
  Lemma layered_ne l ls : layered l ls -> exists r, ls = l :: r.
  Proof. intros [l' _|l' ls' _ _]; eauto. Qed.

  Lemma climbs l ls : layered l ls -> forall i, (i < length l)%nat -> fold_left (js_join sha256) (neighbours_up ls i) (nth i l []) = hd [] (last ls []).
  Proof.
    induction 1 as [l H|l ls H L IH]; intros i I0.
    - destruct l as [|a [|b t]]; cbn in H, I0; [lia| |lia]. assert (i = 0)%nat as -> by lia. reflexivity.
    - destruct (layered_ne _ _ L) as (r & E). cbn [neighbours_up]. pose proof (above_nth l i I0) as N.
      assert (Nat.div2 i < length (above l))%nat as I1 by (rewrite above_length; apply div2_half; exact I0).
      specialize (IH _ I1). rewrite N in IH. rewrite E, last_more, <- E.
      destruct (nth_error l (if Nat.odd i then Nat.pred i else S i)) as [x|]; cbn [fold_left]; exact IH.
  Qed.

  Lemma last_index_in leaf leaves : In leaf leaves -> exists i, last_index leaf leaves = Some i /\ (i < length leaves)%nat /\ nth i leaves [] = leaf.
  Proof.
    induction leaves as [|x t IH]; intros H; [destruct H|]. cbn [last_index].
    destruct (last_index leaf t) as [i|] eqn:E.
    - exists (S i). split; [reflexivity|]. clear H IH.
      assert (forall t i, last_index leaf t = Some i -> (i < length t)%nat /\ nth i t [] = leaf) as G.
      { clear. induction t as [|x t IH]; intros i E; cbn [last_index] in E; [discriminate|]. destruct (last_index leaf t) as [j|].
        - injection E as <-. destruct (IH j eq_refl). cbn. split; [lia|assumption].
        - destruct (bytes_eqb leaf x) eqn:B; [|discriminate]. injection E as <-. apply bytes_eqb_eq in B. subst. cbn. split; [lia|reflexivity]. }
      destruct (G t i E). cbn. split; [lia|assumption].
    - destruct H as [->|H]; [|destruct (IH H) as (i & D & _); discriminate]. exists 0%nat.
      replace (bytes_eqb leaf leaf) with true by (symmetry; apply bytes_eqb_eq; reflexivity). cbn. repeat split. lia.
  Qed.

  Lemma digits_encode bs : hex_digits (hex_encode bs) = true.
  Proof.
    induction bs as [|b t IH]; [reflexivity|]. cbn [hex_encode hex_digits forallb]. pose proof (bz_range b) as R.
    rewrite !hex_digit_of_digit; [exact IH| |].
    - pose proof (Z.mod_pos_bound (bz b) 16). lia.
    - pose proof (Z.div_mod (bz b) 16). pose proof (Z.mod_pos_bound (bz b) 16). lia.
  Qed.
  Lemma buffer_decode s : forall bs, hex_decode s = Some bs -> buffer_hex s = bs.
  Proof.
    induction s as [|a|a b t IH] using two_ind; intros bs H; [cbn in *; congruence|discriminate|]. cbn [hex_decode buffer_hex] in *.
    destruct (hex_digit a) as [x|]; [|discriminate]. destruct (hex_digit b) as [y|]; [|discriminate]. destruct (hex_decode t) as [r|]; [|discriminate].
    injection H as <-. f_equal. apply IH. reflexivity.
  Qed.
  Lemma bufferify_encode bs : bufferify (hex_encode bs) = bs.
  Proof.
    unfold bufferify. pose proof (digits_encode bs) as D. pose proof (buffer_decode _ _ (hex_decode_encode bs)) as B.
    destruct (hex_encode bs) as [|a [|b t]] eqn:E; [exact B|pose proof (hex_encode_length bs) as X; rewrite E in X; cbn in X; lia|].
    assert (b <> "x"%byte) as N.
    { intros ->. cbn [hex_digits forallb] in D. destruct (hex_digit a); [|discriminate]. cbn in D. discriminate. }
    replace (match a :: b :: t with "0"%byte :: "x"%byte :: t => t | _ => a :: b :: t end) with (a :: b :: t).
    - rewrite D. exact B.
    - destruct a; try reflexivity. destruct b; try reflexivity. exfalso. apply N. reflexivity.
  Qed.

  Lemma filled_in texts x : In x (filled texts) <-> In x texts.
  Proof.
    unfold filled. destruct (Nat.odd (length texts)) eqn:O; [|tauto]. rewrite in_app_iff. split; [|auto]. intros [H|[<-|[]]]; [exact H|].
    destruct texts as [|a t]; [discriminate|]. clear. revert a. induction t as [|b t IH]; intros a; [left; reflexivity|]. right. apply IH.
  Qed.

  Lemma filled_even texts : Nat.odd (length (filled texts)) = false.
  Proof.
    unfold filled. destruct (Nat.odd (length texts)) eqn:O; [|exact O]. rewrite app_length. cbn [length]. rewrite Nat.add_1_r, Nat.odd_succ, <- Nat.negb_odd, O. reflexivity.
  Qed.

  Lemma new_tree_layered texts : exists t, js_new_tree sha256 texts = Ret (t, filled texts) /\ layered (map sha256 (filled texts)) t.
  Proof.
    unfold js_new_tree. destruct (create_layered (length (filled texts)) (map sha256 (filled texts))) as (t & C & L); [rewrite map_length; lia|].
    rewrite C. cbn [obind]. eauto.
  Qed.

  Lemma complete_pf texts : exists t, js_new_tree sha256 texts = Ret (t, filled texts) /\
    forall c, In c texts -> js_verify sha256 (js_proof sha256 t c) (sha256 c) (js_root t) = true.
  Proof.
    destruct (new_tree_layered texts) as (t & C & L). exists t. split; [exact C|]. intros c H.
    destruct (layered_ne _ _ L) as (r & E). unfold js_proof. rewrite E. cbn [hd]. rewrite <- E.
    destruct (last_index_in (sha256 c) (map sha256 (filled texts))) as (i & F & I0 & N); [apply in_map, filled_in; exact H|].
    rewrite F. unfold js_verify, js_root. rewrite bufferify_encode. apply bytes_eqb_eq. rewrite <- N. apply climbs; assumption.
  Qed.

  (** ** The Go tree *)
  Lemma even_above l : Nat.odd (length l) = false -> pair_up sha256 l = above l.
  Proof.
    induction l as [|a|a b t IH] using two_ind; intros H; [reflexivity|discriminate|]. cbn [pair_up layer_above]. f_equal. apply IH. exact H.
  Qed.

  Lemma pow_pos k : (1 <= 2 ^ k)%nat.
  Proof. pose proof (Nat.pow_nonzero 2 k). lia. Qed.

  Lemma div2_double n : Nat.div2 (S (2 * n)) = n.
  Proof. apply Nat.div2_succ_double. Qed.

  Lemma pow_same : forall k l fuel ls, length l = (2 ^ S k)%nat -> (length l <= fuel)%nat -> layered l ls ->
    exists gs, buildIntermediate sha256 fuel l = Ret gs /\ gs <> [] /\ hd [] (last gs []) = hd [] (last ls []).
  Proof.
    induction k as [|k IH]; intros l fuel ls H F L.
    - cbn in H. destruct fuel as [|fuel]; [lia|]. cbn [buildIntermediate]. rewrite H, Nat.eqb_refl.
      destruct l as [|a [|b [|c t]]]; try discriminate H. eexists; split; [reflexivity|]. split; [discriminate|].
      inversion L as [l' L1|l' ls' L2 L']; subst; [cbn in L1; lia|]. cbn [layer_above] in L'. inversion L' as [l' L1|l' ls'' L3 L4]; subst; [reflexivity|cbn in L3; lia].
    - pose proof (pow_pos k) as P. assert (2 ^ S (S k) = 2 * 2 ^ S k)%nat as D by reflexivity. assert (2 ^ S k = 2 * 2 ^ k)%nat as D' by reflexivity.
      destruct fuel as [|fuel]; [lia|]. cbn [buildIntermediate]. rewrite H. destruct (Nat.eqb (2 ^ S (S k)) 2) eqn:E; [apply Nat.eqb_eq in E; lia|].
      inversion L as [l' L1|l' ls' L2 L']; subst; [lia|].
      assert (Nat.odd (length l) = false) as O by (rewrite H, D, Nat.odd_mul; reflexivity).
      rewrite (even_above _ O). assert (length (above l) = 2 ^ S k)%nat as HA by (rewrite above_length, H, D; apply div2_double).
      destruct (IH (above l) fuel ls' HA ltac:(lia) L') as (gs & B & N & R). rewrite B. cbn [obind]. eexists; split; [reflexivity|]. split; [discriminate|].
      destruct gs as [|g gs]; [congruence|]. rewrite last_more, R. destruct (layered_ne _ _ L') as (r & E'). rewrite E', last_more. reflexivity.
  Qed.

  Lemma adapter_filled texts : texts <> [] -> adapter_tree sha256 texts =
    let* ls := buildIntermediate sha256 (length (filled texts)) (map sha256 (filled texts)) in Ret (OkR (Tree (map sha256 (filled texts)) ls)).
  Proof.
    destruct texts as [|a t]; [congruence|]. intros _. unfold adapter_tree, CreateMerkleTree, filled. cbn [map]. rewrite <- (map_cons sha256), map_length.
    assert (forall (t : list bytes) a d, last (map sha256 (a :: t)) d = sha256 (last (a :: t) [])) as G.
    { clear. induction t as [|b t IH]; intros a d; [reflexivity|]. exact (IH b d). }
    destruct (Nat.odd (length (a :: t))) eqn:O.
    - rewrite G. replace (map sha256 (a :: t) ++ [sha256 (last (a :: t) [])]) with (map sha256 ((a :: t) ++ [last (a :: t) []])) by (rewrite map_app; reflexivity).
      rewrite map_length. unfold CalculateHash. rewrite map_id. reflexivity.
    - rewrite map_length. unfold CalculateHash. rewrite map_id. reflexivity.
  Qed.

  Lemma agrees_pf texts k : length (filled texts) = (2 ^ S k)%nat -> exists t g, js_new_tree sha256 texts = Ret (t, filled texts) /\
    adapter_tree sha256 texts = Ret (OkR g) /\ GetMerkleRoot g = js_root t.
  Proof.
    intros H. destruct (new_tree_layered texts) as (t & C & L).
    destruct (pow_same k (map sha256 (filled texts)) (length (filled texts)) t) as (gs & B & _ & R); [rewrite map_length; exact H|rewrite map_length; lia|exact L|].
    exists t, (Tree (map sha256 (filled texts)) gs). split; [exact C|]. split.
    - rewrite adapter_filled; [rewrite B; reflexivity|]. intros ->. pose proof (pow_pos k). cbn in H. lia.
    - unfold GetMerkleRoot, js_root. cbn [t_levels]. rewrite R. reflexivity.
  Qed.

  (** ** What an accepted proof shows *)
  Lemma node_cases l ls : layered l ls -> forall v, In v (concat ls) -> In v l \/ exists a b, v = sha256 (a ++ b) /\ In a (concat ls) /\ In b (concat ls).
  Proof.
    assert (forall l v, In v (above l) -> In v l \/ exists a b, v = sha256 (a ++ b) /\ In a l /\ In b l) as G.
    { clear l ls. intros m. induction m as [|a|a b t IH] using two_ind; intros v H; [destruct H|left; exact H|]. destruct H as [<-|H].
      - right. exists a, b. cbn. auto.
      - destruct (IH v H) as [X|(x & y & E & X & Y)]; [left; cbn; auto|right; exists x, y; cbn; auto]. }
    induction 1 as [l H|l ls H L IH]; intros v V; cbn [concat] in *.
    - rewrite app_nil_r in V. left. exact V.
    - apply in_app_iff in V. destruct V as [V|V]; [left; exact V|]. destruct (IH v V) as [X|(x & y & E & X & Y)].
      + destruct (G l v X) as [Y|(x & y & E & Y & Z)]; [left; exact Y|]. right. exists x, y. rewrite !in_app_iff. auto.
      + right. exists x, y. rewrite !in_app_iff. auto.
  Qed.

  Lemma sound_pf texts t proof h : (forall x, length (sha256 x) = 32%nat) -> length h = 32%nat -> texts <> [] -> js_new_tree sha256 texts = Ret (t, filled texts) ->
    js_verify sha256 proof h (js_root t) = true ->
    In h (concat t) \/ (exists u v, u <> v /\ sha256 u = sha256 v) \/
    exists c w d, In c texts /\ (c = w ++ d \/ c = d ++ w) /\ (w = h \/ exists z, w = sha256 z).
  Proof.
    intros S32 H32 Ne C V. destruct (new_tree_layered texts) as (t' & C' & L). rewrite C in C'. injection C' as <-.
    unfold js_verify, js_root in V. rewrite bufferify_encode in V. apply bytes_eqb_eq in V.
    assert (forall v, In v (concat t) -> length v = 32%nat) as Len.
    { intros v Hv. destruct (node_cases _ _ L v Hv) as [X|(a & b & -> & _)]; [|apply S32]. apply in_map_iff in X. destruct X as (x & <- & _). apply S32. }
    assert (In (fold_left (js_join sha256) proof h) (concat t)) as Top.
    { rewrite V. assert (forall l ls, layered l ls -> l <> [] -> In (hd [] (last ls [])) (concat ls)) as G.
      { clear. induction 1 as [l H|l ls H L IH]; intros N; cbn [concat last].
        - destruct l; [congruence|]. left. reflexivity.
        - destruct (layered_ne _ _ L) as (r & E). subst ls. rewrite in_app_iff. right. apply IH. destruct l as [|a [|b l]]; cbn in *; [lia|lia|discriminate]. }
      apply (G _ _ L). intros E. apply map_eq_nil in E. destruct texts as [|x texts]; [congruence|]. pose proof (proj2 (filled_in (x :: texts) x) (or_introl eq_refl)) as X. rewrite E in X. destruct X. }
    clear V. revert Top. induction proof as [|s proof IH] using rev_ind; intros Top; [left; exact Top|].
    rewrite fold_left_app in Top. cbn [fold_left] in Top. set (cur := fold_left (js_join sha256) proof h) in *.
    assert (cur = h \/ exists z, cur = sha256 z) as Cur.
    { unfold cur. destruct proof as [|s' p] using rev_ind; [left; reflexivity|]. right. rewrite fold_left_app. cbn [fold_left]. unfold js_join at 1. eauto. }
    assert (length cur = 32%nat) as C32 by (destruct Cur as [->|(z & ->)]; [exact H32|apply S32]).
    unfold js_join in Top. destruct (node_cases _ _ L _ Top) as [X|(a & b & E & A & B)].
    - apply in_map_iff in X. destruct X as (c & E & X). apply (proj1 (filled_in texts c)) in X.
      destruct (list_eq_dec Byte.byte_eq_dec c (if fst s then snd s ++ cur else cur ++ snd s)) as [Q|Q].
      + right. right. exists c, cur, (snd s). split; [exact X|]. split; [|exact Cur]. destruct (fst s); auto.
      + right. left. eauto.
    - destruct (list_eq_dec Byte.byte_eq_dec (a ++ b) (if fst s then snd s ++ cur else cur ++ snd s)) as [Q|Q]; [|right; left; eauto].
      apply IH. pose proof (Len a A) as A32. pose proof (Len b B) as B32. destruct (fst s).
      + destruct (app_split a (snd s) b cur) as (_ & <-); [apply (f_equal (@length byte)) in Q; rewrite !app_length in Q; lia|exact Q|exact B].
      + destruct (app_split a cur b (snd s)) as (<- & _); [lia|exact Q|exact A].
  Qed.

  (** ** Trees of other sizes *)
  Section differs.
    Variable texts : list gostring.
    Hypothesis S32 : forall x, length (sha256 x) = 32%nat.
    Definition failure : Prop := (exists u v, u <> v /\ sha256 u = sha256 v) \/ exists t x y, In t texts /\ t = sha256 x ++ sha256 y.

    (** How many steps to the right lead from a node to a leaf. *)
    Inductive spine : bytes -> nat -> Prop :=
    | spine_leaf : forall t, In t texts -> spine (sha256 t) 0
    | spine_node : forall x b n, spine b n -> spine (sha256 (sha256 x ++ b)) (S n).

    Lemma spine_hash v n : spine v n -> exists x, v = sha256 x.
    Proof. intros [t _|x b m _]; eauto. Qed.

    Lemma spine_unique : forall v n, spine v n -> forall m, spine v m -> n = m \/ failure.
    Proof.
      intros v n H. induction H as [t T|x b n H IH]; intros m M.
      - inversion M as [t' T' E1 E2|x' b' m' M' E1 E2]; subst; [left; reflexivity|]. right. destruct (spine_hash _ _ M') as (y & ->).
        destruct (list_eq_dec Byte.byte_eq_dec t (sha256 x' ++ sha256 y)) as [Q|Q]; [right; eauto|left]. exists t, (sha256 x' ++ sha256 y). auto.
      - inversion M as [t' T' E1 E2|x' b' m' M' E1 E2]; subst.
        + right. destruct (spine_hash _ _ H) as (y & ->). destruct (list_eq_dec Byte.byte_eq_dec t' (sha256 x ++ sha256 y)) as [Q|Q]; [right; eauto|left].
          exists t', (sha256 x ++ sha256 y). auto.
        + destruct (list_eq_dec Byte.byte_eq_dec (sha256 x ++ b) (sha256 x' ++ b')) as [Q|Q].
          * destruct (app_split _ _ _ _ ltac:(rewrite !S32; reflexivity) Q) as (_ & ->). destruct (IH _ M') as [->|X]; auto.
          * right. left. eauto.
    Qed.

    Lemma spine_pairs e : forall g, (forall v, In v g -> spine v e) -> forall v, In v (pair_up sha256 g) -> spine v (S e).
    Proof.
      induction g as [|a|a b t IH] using two_ind; intros H v V; cbn [pair_up] in V; [destruct V| |].
      - destruct V as [<-|[]]. destruct (spine_hash _ _ (H a (or_introl eq_refl))) as (x & E). rewrite E at 1. apply spine_node. apply H. left. reflexivity.
      - destruct V as [<-|V].
        + destruct (spine_hash _ _ (H a (or_introl eq_refl))) as (x & ->). apply spine_node. apply H. right. left. reflexivity.
        + apply IH; [|exact V]. intros w W. apply H. right. right. exact W.
    Qed.

    Lemma pairs_length g : length (pair_up sha256 g) = Nat.div2 (S (length g)).
    Proof. induction g as [|a|a b t IH] using two_ind; [reflexivity|reflexivity|]. cbn [pair_up length]. rewrite IH. reflexivity. Qed.

    Lemma above_hashes l : (forall v, In v l -> exists x, v = sha256 x) -> forall v, In v (above l) -> exists x, v = sha256 x.
    Proof.
      induction l as [|a|a b t IH] using two_ind; intros H v V; [destruct V|apply H; exact V|]. destruct V as [<-|V]; [eauto|]. apply IH; [|exact V]. intros w W. apply H. right. right. exact W.
    Qed.

    Lemma above_last l : forall d, (forall v, In v l -> exists x, v = sha256 x) -> l <> [] -> spine (last l []) d ->
      spine (last (above l) []) (if Nat.odd (length l) then d else S d).
    Proof.
      induction l as [|a|a b t IH] using two_ind; intros d H N Sp; [congruence|exact Sp|].
      destruct t as [|c t].
      - cbn in *. destruct (H a (or_introl eq_refl)) as (x & ->). apply spine_node. exact Sp.
      - specialize (IH d (fun v V => H v (or_intror (or_intror V))) ltac:(discriminate) Sp).
        change (Nat.odd (length (a :: b :: c :: t))) with (Nat.odd (length (c :: t))).
        assert (exists u r, above (c :: t) = u :: r) as (u & r & E) by (destruct t; cbn; eauto).
        assert (above (a :: b :: c :: t) = sha256 (a ++ b) :: above (c :: t)) as -> by reflexivity. rewrite E in *. exact IH.
    Qed.

    Lemma div2_even n : Nat.odd n = false -> n = (2 * Nat.div2 (S n))%nat.
    Proof.
      intros O. assert (Nat.even n = true) as E by (rewrite <- Nat.negb_odd, O; reflexivity). apply Nat.even_spec in E. destruct E as (k & ->). rewrite Nat.div2_succ_double. reflexivity.
    Qed.

    Lemma compared l ls : layered l ls -> forall g fuel gs d e, length g = length l -> (2 <= length l)%nat -> buildIntermediate sha256 fuel g = Ret gs ->
      (forall v, In v g -> spine v e) -> (forall v, In v l -> exists x, v = sha256 x) -> spine (last l []) d -> (d <= e)%nat ->
      exists d' e', spine (hd [] (last ls [])) d' /\ spine (hd [] (last gs [])) e' /\ gs <> [] /\ (d' <= e')%nat /\ (d' = e' -> d = e /\ exists k, length l = (2 ^ S k)%nat).
    Proof.
      induction 1 as [l H|l ls H L IH]; intros g fuel gs d e Lg L2 B G A D De; [lia|].
      destruct fuel as [|fuel]; [discriminate B|]. cbn [buildIntermediate] in B.
      assert (l <> []) as N by (destruct l; [cbn in H; lia|discriminate]). pose proof (above_last l d A N D) as D1.
      destruct (Nat.eqb_spec (length g) 2) as [E|E].
      - injection B as <-. assert (length l = 2)%nat as E2 by lia. destruct l as [|a [|b [|c l]]]; try discriminate E2. destruct g as [|u [|w [|z g]]]; try discriminate E.
        cbn [layer_above] in *. inversion L as [l1 L1|l1 ls1 L1 _]; subst; [|cbn in L1; lia].
        exists (S d), (S e). cbn [last hd length Nat.odd Nat.even negb pair_up] in *. split; [exact D1|]. split; [|split; [discriminate|split; [lia|]]].
        + apply (spine_pairs e [u; w] G). left. reflexivity.
        + intros Q. split; [lia|]. exists 0%nat. reflexivity.
      - destruct (buildIntermediate sha256 fuel (pair_up sha256 g)) as [r| |] eqn:B'; cbn [obind] in B; try discriminate B. injection B as <-.
        assert (length (pair_up sha256 g) = length (above l)) as Lg' by (rewrite pairs_length, above_length, Lg; reflexivity).
        assert (2 <= length (above l))%nat as L2'.
        { rewrite above_length. destruct (length l) as [|[|[|n]]]; [lia|lia|lia|]. cbn [Nat.div2]. lia. }
        destruct (IH _ fuel r (if Nat.odd (length l) then d else S d) (S e) Lg' L2' B' (spine_pairs e g G) (above_hashes l A) D1) as (d' & e' & X & Y & Nr & Z1 & Z2); [destruct (Nat.odd (length l)); lia|].
        exists d', e'. destruct (layered_ne _ _ L) as (rest & El). split; [rewrite El, last_more, <- El; exact X|].
        destruct r as [|r0 r]; [congruence|]. split; [exact Y|]. split; [discriminate|]. split; [exact Z1|]. intros Q. destruct (Z2 Q) as (W & k & K).
        destruct (Nat.odd (length l)) eqn:O; [lia|]. split; [lia|]. exists (S k). rewrite (div2_even _ O), <- above_length, K. reflexivity.
    Qed.

    Lemma differs_pf t g : texts <> [] -> js_new_tree sha256 texts = Ret (t, filled texts) -> adapter_tree sha256 texts = Ret (OkR g) -> GetMerkleRoot g = js_root t ->
      (exists k, length (filled texts) = (2 ^ S k)%nat) \/ failure.
    Proof.
      intros N C A R. destruct (new_tree_layered texts) as (t' & C' & L). rewrite C in C'. injection C' as <-. rewrite (adapter_filled _ N) in A.
      destruct (buildIntermediate sha256 (length (filled texts)) (map sha256 (filled texts))) as [gs| |] eqn:B; cbn [obind] in A; try discriminate A. injection A as <-.
      unfold GetMerkleRoot, js_root in R. cbn [t_levels] in R. apply hex_encode_inj in R.
      assert (forall v, In v (map sha256 (filled texts)) -> spine v 0) as S0.
      { intros v V. apply in_map_iff in V. destruct V as (x & <- & V). apply spine_leaf. apply (proj1 (filled_in texts x)). exact V. }
      assert (2 <= length (filled texts))%nat as L2.
      { pose proof (filled_even texts) as E. destruct (filled texts) as [|a [|b r]] eqn:F; [|discriminate E|cbn; lia].
        exfalso. destruct texts as [|x r]; [congruence|]. pose proof (proj2 (filled_in (x :: r) x) (or_introl eq_refl)) as X. rewrite F in X. destruct X. }
      destruct (compared _ _ L (map sha256 (filled texts)) (length (filled texts)) gs 0%nat 0%nat) as (d' & e' & X & Y & _ & _ & Z2); try assumption; try reflexivity; try lia.
      - rewrite map_length. exact L2.
      - intros v V. eapply spine_hash. apply S0. exact V.
      - apply S0. destruct (map sha256 (filled texts)) as [|a r] eqn:E; [apply map_eq_nil in E; rewrite E in L2; cbn in L2; lia|].
        clear. revert a. induction r as [|b r IH]; intros a; [left; reflexivity|right; apply IH].
      - rewrite R in Y. destruct (spine_unique _ _ X _ Y) as [Q|Q]; [left|right; exact Q]. destruct (Z2 Q) as (_ & k & K). rewrite map_length in K. eauto.
    Qed.
  End differs.
End proofs.
