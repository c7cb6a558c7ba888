(** * Proofs about the gateway's offer database *)
From Coq Require Import List ZArith Bool Lia Sorting.Permutation.
From Coq Require Import Init.Byte.
From Verif Require Import Base BaseProofs Ids IdsProofs Offer WireSpec OfferProofs OfferStoreSpec OfferStoreProofs SqlOffers SqlOffersSpec.
Import ListNotations.
Open Scope Z_scope.
Open Scope go_scope.

Lemma filter_unique {A} (f : A -> nat) l n : NoDup (map f l) ->
  filter (fun k => Nat.eqb (f k) n) l = match find (fun k => Nat.eqb (f k) n) l with Some k => [k] | None => [] end.
Proof.
  induction l as [|a l IH]; [reflexivity|]. cbn [map filter find]. intros N. inversion N as [|? ? N1 N2]; subst.
  destruct (Nat.eqb (f a) n) eqn:E; [|auto]. f_equal. apply Nat.eqb_eq in E. subst n.
  destruct (filter (fun k => Nat.eqb (f k) (f a)) l) as [|x t] eqn:F; [reflexivity|]. exfalso. apply N1.
  assert (X : In x (filter (fun k => Nat.eqb (f k) (f a)) l)) by (rewrite F; left; reflexivity).
  apply filter_In in X. destruct X as [X E]. apply Nat.eqb_eq in E. rewrite <- E. apply in_map, X.
Qed.

(** Picking some of the elements of a list by position. *)
Definition pick {A} (P : nat -> bool) (l : list A) (ns : list nat) : list A :=
  flat_map (fun n => match nth_error l n with Some x => if P n then [x] else [] | None => [] end) ns.

Lemma pick_shift {A} P (a : A) l s n : pick P (a :: l) (seq (S s) n) = pick (fun i => P (S i)) l (seq s n).
Proof. revert s. unfold pick. induction n as [|n IH]; intros s; [reflexivity|]. cbn [seq flat_map nth_error]. rewrite IH. reflexivity. Qed.

Lemma pick_nil {A} P s n : @pick A P [] (seq s n) = [].
Proof. revert s. unfold pick. induction n as [|n IH]; intros s; [reflexivity|]. cbn [seq flat_map]. rewrite IH. destruct s; reflexivity. Qed.

Lemma sub_none {A} (l : list A) : sublist [] l.
Proof. induction l; constructor; assumption. Qed.

Lemma pick_sub {A} (l : list A) : forall P n, sublist (pick P l (seq 0 n)) l.
Proof.
  induction l as [|a l IH]; intros P n.
  - rewrite pick_nil. constructor.
  - destruct n as [|n]; [apply sub_none|].
    change (sublist ((if P O then [a] else []) ++ pick P (a :: l) (seq 1 n)) (a :: l)). rewrite pick_shift.
    destruct (P O); cbn [app]; constructor; apply IH.
Qed.

Lemma pick_all {A} (l : list A) : forall P n, (length l <= n)%nat -> (forall i, (i < length l)%nat -> P i = true) -> pick P l (seq 0 n) = l.
Proof.
  induction l as [|a l IH]; intros P n L T; [apply pick_nil|]. cbn [length] in *. destruct n as [|n]; [lia|].
  change ((if P O then [a] else []) ++ pick P (a :: l) (seq 1 n) = a :: l). rewrite pick_shift, (T O) by lia. cbn [app]. f_equal.
  apply IH; [lia|]. intros i I. apply T. lia.
Qed.

Lemma sublist_in {A} (l l' : list A) x : sublist l l' -> In x l -> In x l'.
Proof. induction 1; cbn [In]; intros H'; [destruct H'|right; auto|destruct H'; auto]. Qed.

Lemma shuffle_in {A} (f : list A -> list A) l x : shuffle f -> In x (f l) <-> In x l.
Proof. intros S. split; [apply Permutation_in, Permutation_sym, S|apply Permutation_in, S]. Qed.

Lemma in_combine_seq {A} (l : list A) : forall s i x, In (i, x) (combine (seq s (length l)) l) <-> (s <= i)%nat /\ nth_error l (i - s) = Some x.
Proof.
  induction l as [|a l IH]; intros s i x; cbn [length seq combine In].
  - split; [intros []|]. intros [_ H]. destruct (i - s)%nat; discriminate.
  - rewrite IH. split.
    + intros [E|[L E]]; [injection E as <- <-; rewrite Nat.sub_diag; auto|]. split; [lia|]. replace (i - s)%nat with (S (i - S s)) by lia. exact E.
    + intros [L E]. destruct (i - s)%nat as [|n] eqn:D; [left; injection E as <-; f_equal; lia|]. right. split; [lia|].
      replace (i - S s)%nat with n by lia. exact E.
Qed.

(** ** The text of identifiers sorts by value *)
Lemma digit_mono d e : 0 <= d < 16 -> 0 <= e < 16 -> (bz (digit_hex d) ?= bz (digit_hex e)) = (d ?= e).
Proof.
  intros D E.
  assert (T : forallb (fun i => forallb (fun j => match bz (digit_hex (Z.of_nat i)) ?= bz (digit_hex (Z.of_nat j)), Z.of_nat i ?= Z.of_nat j with
    | Eq, Eq | Lt, Lt | Gt, Gt => true | _, _ => false end) (seq 0 16)) (seq 0 16) = true) by (vm_compute; reflexivity).
  rewrite forallb_forall in T. specialize (T (Z.to_nat d)). rewrite forallb_forall in T.
  specialize (T ltac:(apply in_seq; lia) (Z.to_nat e) ltac:(apply in_seq; lia)). rewrite !Z2Nat.id in T by lia.
  destruct (bz (digit_hex d) ?= bz (digit_hex e)), (d ?= e); congruence.
Qed.

Lemma hex_encode_cmp : forall a b, length a = length b -> bytes_cmp (hex_encode a) (hex_encode b) = bytes_cmp a b.
Proof.
  induction a as [|x a IH]; intros [|y b] L; cbn [length] in L; try discriminate; [reflexivity|]. cbn [hex_encode bytes_cmp].
  pose proof (bz_range x). pose proof (bz_range y).
  rewrite !digit_mono by (split; [apply Z.div_pos; lia|apply Z.div_lt_upper_bound; lia] || apply Z.mod_pos_bound; lia).
  rewrite IH by lia. pose proof (Z.div_mod (bz x) 16 ltac:(lia)). pose proof (Z.div_mod (bz y) 16 ltac:(lia)).
  pose proof (Z.mod_pos_bound (bz x) 16 ltac:(lia)). pose proof (Z.mod_pos_bound (bz y) 16 ltac:(lia)).
  destruct (Z.compare_spec (bz x / 16) (bz y / 16)); destruct (Z.compare_spec (bz x mod 16) (bz y mod 16)); destruct (Z.compare_spec (bz x) (bz y)); try reflexivity; lia.
Qed.

Lemma text_le_val a b : id32 a -> id32 b -> text_le (ToString a) (ToString b) = true <-> be_val a <= be_val b.
Proof.
  intros A B. unfold text_le. rewrite !ToString_32 by assumption. unfold id32 in *. rewrite hex_encode_cmp, bytes_cmp_be_val by congruence.
  destruct (Z.compare_spec (be_val a) (be_val b)); (split; [intros X|intros X]); try reflexivity; try lia; discriminate.
Qed.

(** ** Expiry *)
Lemma fresh_live now o : 0 <= now -> fresh 0 now (o_expiry o) = true -> live now o.
Proof.
  intros N F. unfold fresh in F. rewrite !andb_true_iff in F. destruct F as [_ F]. apply Z.ltb_lt in F. unfold live.
  pose proof (Z.div_mod now 1000000000 ltac:(lia)). pose proof (Z.mod_pos_bound now 1000000000 ltac:(lia)). lia.
Qed.

Lemma live_fresh now o : 0 <= now -> now < o_expiry o * 1000000000 -> o_expiry o <= datetime_max -> fresh 0 now (o_expiry o) = true.
Proof.
  intros N F M. unfold fresh, datetime_min in *. rewrite !andb_true_iff, !Z.leb_le, Z.ltb_lt.
  pose proof (Z.div_mod now 1000000000 ltac:(lia)). pose proof (Z.mod_pos_bound now 1000000000 ltac:(lia)). lia.
Qed.

Section proofs.
  Variable sha256 sha : bytes -> bytes.

  Definition dig (o : offer) : gostring :=
    match GetMessageDigest sha o with Ret x => hex_encode x | _ => [] end.
  Definition prov (o : offer) : bytes := match o_provider o with Some p => p | None => [] end.
  Definition row_of (o : offer) : offer_row := OfferRow (dig o) (ToString (prov o)) (o_expiry o) (o_price o) (o_qos o) (o_sig o).
  Definition cell_of (o : offer) (x : nat * bytes) : content_row := ContentRow (ToString (snd x)) (fst x) (dig o).
  Definition contents_of (o : offer) : list content_row := map (cell_of o) (combine (seq 0 (length (o_cids o))) (o_cids o)).

  Lemma wire_parts o : wire_offer sha256 o ->
    (exists p, o_provider o = Some p /\ id32 p) /\ Forall id32 (o_cids o) /\ o_cids o <> [].
  Proof.
    intros (p & ids & price & ex & qos & o0 & P & F & _ & _ & _ & N & E). apply new_offer_shape in N. destruct N as (Ne & t & _ & ->).
    cbn [o_provider o_cids] in E. rewrite E. cbn [o_provider o_cids]. eauto.
  Qed.

  Lemma dig_terms o o' : same_terms o o' -> dig o = dig o'.
  Proof. intros (A & B & C & D & E). unfold dig, GetMessageDigest. rewrite A, B, C, D, E. reflexivity. Qed.

  Lemma digest_ok o : wire_offer sha256 o -> exists x, GetMessageDigest sha o = Ret x /\ dig o = hex_encode x.
  Proof.
    intros W. destruct (wire_parts o W) as ((p & P & _) & _). unfold dig, GetMessageDigest. rewrite P. cbn [deref obind]. eauto.
  Qed.

  Section history.
    Variable hist : attempts.

    Record inv (h : attempts) (d : db) (L : list offer) : Prop := {
      i_rows : offer_t d = map row_of L;
      i_rec : forall o, In o L <-> recorded h o;
      i_uniq : NoDup (map dig L);
      i_cell : forall k, In k (content_t d) -> exists o i c, In o L /\ nth_error (o_cids o) i = Some c /\ k = cell_of o (i, c);
      i_keys : NoDup (map (fun k => (k_no k, k_digest k)) (content_t d));
      i_full : forall o i c, stored h o -> nth_error (o_cids o) i = Some c -> In (cell_of o (i, c)) (content_t d)
    }.
  End history.

  (** ** Inserting *)
  Lemma insert_contents_ok o f (err : result unit) : forall cids i d,
    (forall j c, nth_error cids j = Some c -> nth_error (o_cids o) (i + j) = Some c) ->
    (forall k, In k (content_t d) -> k_digest k = dig o -> exists c, nth_error (o_cids o) (k_no k) = Some c /\ k_cid k = ToString c) ->
    NoDup (map (fun k => (k_no k, k_digest k)) (content_t d)) ->
    forall err, let d' := snd (insert_contents f (dig o) i cids err d) in
    offer_t d' = offer_t d /\
    NoDup (map (fun k => (k_no k, k_digest k)) (content_t d')) /\
    (forall k, In k (content_t d) -> In k (content_t d')) /\
    (forall k, In k (content_t d') -> In k (content_t d) \/ exists j c, nth_error (o_cids o) j = Some c /\ k = cell_of o (j, c)) /\
    ((forall j, (j < length cids)%nat -> f (S (i + j)) = Done) ->
      forall j c, nth_error cids j = Some c -> In (cell_of o ((i + j)%nat, c)) (content_t d')).
  Proof.
    clear err. induction cids as [|c t IH]; intros i d N K U err; cbn [insert_contents].
    - cbn [snd]. split; [reflexivity|]. split; [exact U|]. split; [auto|]. split; [auto|]. intros _ [|j] c; discriminate.
    - assert (N' : forall j x, nth_error t j = Some x -> nth_error (o_cids o) (S i + j) = Some x).
      { intros j x E. specialize (N (S j) x E). replace (S i + j)%nat with (i + S j)%nat by lia. exact N. }
      pose proof (N O c eq_refl) as N0. rewrite Nat.add_0_r in N0.
      destruct (f (S i)) eqn:F.
      + set (k := ContentRow (ToString c) i (dig o)).
        assert (W : exists d1, insert_content_row d k = d1 /\ offer_t d1 = offer_t d /\ NoDup (map (fun k => (k_no k, k_digest k)) (content_t d1)) /\
          (forall x, In x (content_t d1) <-> In x (content_t d) \/ x = k)).
        { eexists. split; [reflexivity|]. unfold insert_content_row. destruct (existsb _ _) eqn:X.
          - split; [reflexivity|]. split; [exact U|]. intros x. split; [auto|]. intros [?| ->]; [assumption|].
            apply existsb_exists in X. destruct X as (y & Y & E). apply andb_true_iff in E. destruct E as [E1 E2].
            apply Nat.eqb_eq in E1. apply bytes_eqb_eq in E2. cbn [k k_no k_digest] in E1, E2. destruct (K y Y E2) as (c' & C1 & C2).
            rewrite E1, N0 in C1. injection C1 as <-. replace k with y; [exact Y|]. destruct y; unfold k; cbn in *; congruence.
          - cbn [offer_t content_t]. split; [reflexivity|]. split.
            + rewrite map_app. cbn [map]. 
              apply (Permutation_NoDup (l := (k_no k, k_digest k) :: map (fun k => (k_no k, k_digest k)) (content_t d))).
              { rewrite Permutation_app_comm. reflexivity. }
              constructor; [|exact U]. intros H. apply in_map_iff in H. destruct H as (y & E & Y).
              assert (existsb (fun x => Nat.eqb (k_no x) (k_no k) && bytes_eqb (k_digest x) (k_digest k)) (content_t d) = true); [|congruence].
              apply existsb_exists. exists y. split; [exact Y|]. injection E as -> ->. rewrite Nat.eqb_refl. apply bytes_eqb_eq. reflexivity.
            + intros x. rewrite in_app_iff. cbn [In]. intuition congruence. }
        destruct W as (d1 & -> & O1 & U1 & M1).
        destruct (IH (S i) d1 N') with (err := OkR tt : result unit) as (I1 & I2 & I3 & I4 & I5).
        { intros x X D. apply M1 in X. destruct X as [X| ->]; [auto|]. exists c. auto. }
        { exact U1. }
        split; [congruence|]. split; [exact I2|]. split; [intros x X; apply I3, M1; auto|]. split.
        * intros x X. apply I4 in X. destruct X as [X|X]; [|auto]. apply M1 in X. destruct X as [X| ->]; [auto|]. right. exists i, c. auto.
        * intros A [|j] x E.
          -- injection E as <-. apply I3, M1. right. unfold cell_of, k. cbn [fst snd]. f_equal. lia.
          -- replace (i + S j)%nat with (S i + j)%nat by lia. apply I5; [|exact E]. intros j' J. replace (S (S i + j')) with (S (i + S j')) by lia. apply A. cbn [length]. lia.
      + destruct (IH (S i) d N' K U ErrR) as (I1 & I2 & I3 & I4 & I5). split; [exact I1|]. split; [exact I2|]. split; [exact I3|]. split; [exact I4|].
        intros A. exfalso. specialize (A O). rewrite Nat.add_0_r in A. cbn [length] in A. rewrite F in A. discriminate A. lia.
      + cbn [snd]. split; [reflexivity|]. split; [exact U|]. split; [auto|]. split; [auto|].
        intros A. exfalso. specialize (A O). rewrite Nat.add_0_r in A. cbn [length] in A. rewrite F in A. discriminate A. lia.
  Qed.

  (** ** Histories *)
  Lemma recorded_exists h : forall o f, In (o, f) h -> f O = Done -> exists x, recorded h x /\ same_terms x o.
  Proof.
    induction h as [|[y g] h IH] using rev_ind; intros o f I D; [destruct I|].
    assert (W : forall x, recorded h x -> recorded (h ++ [(y, g)]) x).
    { intros x (h1 & f1 & h2 & -> & R). exists h1, f1, (h2 ++ [(y, g)]). split; [rewrite <- app_assoc; reflexivity|exact R]. }
    apply in_app_iff in I. destruct I as [I|[I|[]]].
    - destruct (IH o f I D) as (x & R & S). exists x. auto.
    - injection I as -> ->.
      assert (Dec : (exists o' f', In (o', f') h /\ same_terms o o' /\ f' O = Done) \/ forall o' f', In (o', f') h -> same_terms o o' -> f' O <> Done).
      { clear. induction h as [|[a b] h IH]; [right; intros ? ? []|]. destruct IH as [(o' & f' & I & S)|N]; [left; exists o', f'; split; [right; exact I|exact S]|].
        destruct (same_terms_dec o a) as [S|S].
        - destruct (b O) eqn:B; [left; exists a, b; split; [left; reflexivity|auto]|right..]; intros o' f' [E|E]; try (injection E as <- <-; congruence); apply N; exact E.
        - right. intros o' f' [E|E]; [injection E as <- <-; congruence|apply N; exact E]. }
      destruct Dec as [(o' & f' & I' & S & D')|N].
      + destruct (IH o' f' I' D') as (x & R & S'). exists x. split; [auto|]. eapply same_terms_trans; [exact S'|apply same_terms_sym, S].
      + exists o. split; [|apply same_terms_refl]. exists h, f, []. auto.
  Qed.

  Lemma recorded_snoc h o f x : recorded (h ++ [(o, f)]) x <->
    recorded h x \/ x = o /\ f O = Done /\ forall o' f', In (o', f') h -> same_terms o o' -> f' O <> Done.
  Proof.
    split.
    - intros (h1 & g & h2 & E & D & N). destruct h2 as [|z h2] using rev_ind.
      + apply app_inj_tail in E. destruct E as [-> [= -> ->]]. auto.
      + clear IHh2. rewrite app_comm_cons, app_assoc in E. apply app_inj_tail in E. destruct E as [-> _]. left. exists h1, g, h2. auto.
    - intros [(h1 & g & h2 & -> & R)|(-> & D & N)].
      + exists h1, g, (h2 ++ [(o, f)]). split; [rewrite <- app_assoc; reflexivity|exact R].
      + exists h, f, []. auto.
  Qed.

  Lemma recorded_in h x : recorded h x -> exists f, In (x, f) h /\ f O = Done.
  Proof. intros (h1 & f & h2 & -> & D & _). exists f. split; [apply in_or_app; right; left; reflexivity|exact D]. Qed.

  Lemma recorded_unique h x y : recorded h x -> recorded h y -> same_terms x y -> x = y.
  Proof.
    intros (h1 & f & h2 & E & D & N) (g1 & g & g2 & E' & D' & N') S. rewrite E in E'. clear E.
    revert g1 N' E'. induction h1 as [|a h1 IH]; intros [|b g1] N' E'; cbn [app] in E'.
    - congruence.
    - injection E' as <- E'. exfalso. apply (N' x f); [left; reflexivity|apply same_terms_sym, S|exact D].
    - injection E' as -> E'. exfalso. apply (N y g); [left; reflexivity|exact S|exact D'].
    - injection E' as -> E'. apply (IH (fun o' f' I => N o' f' (or_intror I)) g1 (fun o' f' I => N' o' f' (or_intror I)) E').
  Qed.

  Lemma db_after_app h1 : forall h2 d, db_after sha d (h1 ++ h2) = (let* d1 := db_after sha d h1 in db_after sha d1 h2).
  Proof.
    induction h1 as [|[o f] h1 IH]; intros h2 d; [reflexivity|]. cbn [app db_after].
    destruct (insertOffer sha f d o); cbn [obind]; [|reflexivity..]. apply IH.
  Qed.

  Lemma proper_front h1 h2 : proper_attempts sha256 sha (h1 ++ h2) -> proper_attempts sha256 sha h1.
  Proof.
    intros [A B]. split.
    - intros o f I. apply (A o f). apply in_or_app. auto.
    - intros o f o' f' I I'. apply (B o f o' f'); apply in_or_app; auto.
  Qed.

  Lemma same_digest h o f o' f' : proper_attempts sha256 sha h -> In (o, f) h -> In (o', f') h -> dig o = dig o' -> same_terms o o'.
  Proof.
    intros [A B] I I' E. destruct (digest_ok o) as (x & X & Dx); [apply (A o f I)|]. destruct (digest_ok o') as (y & Y & Dy); [apply (A o' f' I')|].
    apply (B o f o' f' I I'). rewrite X, Y. f_equal. rewrite Dx, Dy in E. apply hex_encode_inj, E.
  Qed.

  Lemma inv_after h : proper_attempts sha256 sha h -> exists d L, db_after sha empty_db h = Ret d /\ inv h d L.
  Proof.
    induction h as [|[o f] h IH] using rev_ind; intros P.
    - exists empty_db, []. split; [reflexivity|]. split; cbn [empty_db offer_t content_t map]; [reflexivity| |constructor| |constructor|].
      + intros o. split; [intros []|]. intros ([|] & ? & ? & E' & _); discriminate.
      + intros k [].
      + intros o i c (([|] & ? & ? & E' & _) & _); discriminate.
    - destruct (IH (proper_front _ _ P)) as (d & L & E & I). rewrite db_after_app, E. cbn [obind db_after].
      assert (In (o, f) (h ++ [(o, f)])) as Io by (apply in_or_app; right; left; reflexivity).
      assert (forall x, In x L -> exists g, In (x, g) (h ++ [(o, f)]) /\ In (x, g) h) as Il.
      { intros x X. apply (i_rec _ _ _ I), recorded_in in X. destruct X as (g & G & _). exists g. split; [apply in_or_app; auto|exact G]. }
      destruct (proj1 P o f Io) as (W & Pr & Qo). destruct (wire_parts o W) as ((p & Pp & _) & _ & Ne).
      destruct (digest_ok o W) as (x & X & Dx). unfold insertOffer. rewrite X, Pp. cbn [obind deref].
      destruct (f O) eqn:F.
      2,3: cbn [obind snd]; exists d, L; (split; [reflexivity|]); destruct I as [I1 I2 I3 I4 I5 I6]; (split; try assumption);
        [intros y; rewrite I2, recorded_snoc; split; [auto|intros [?|(_ & D & _)]; [assumption|congruence]]
        |intros y i c [R (o' & g & G & S & U)]; apply I6; (split; [apply recorded_snoc in R; destruct R as [?|(_ & D & _)]; [assumption|congruence]|]);
         apply in_app_iff in G; destruct G as [G|[G|[]]]; [exists o', g; auto|injection G as <- <-; specialize (U O (Nat.le_0_l _)); congruence]].
      assert (B : bindable o = true) by (unfold bindable; apply andb_true_iff; split; apply Z.ltb_lt; assumption).
      rewrite B. cbn [negb obind]. rewrite <- Dx.
      replace (OfferRow (dig o) (ToString p) (o_expiry o) (o_price o) (o_qos o) (o_sig o)) with (row_of o) by (unfold row_of, prov; rewrite Pp; reflexivity).
      (* the row *)
      assert (Row : exists d1 L1, insert_offer_row d (row_of o) = d1 /\ content_t d1 = content_t d /\ offer_t d1 = map row_of L1 /\
        (forall y, In y L1 <-> recorded (h ++ [(o, f)]) y) /\ NoDup (map dig L1) /\ (forall y, In y L -> In y L1) /\
        exists y, In y L1 /\ same_terms y o).
      { unfold insert_offer_row. rewrite (i_rows _ _ _ I).
        destruct (existsb (fun x => bytes_eqb (r_digest x) (r_digest (row_of o))) (map row_of L)) eqn:Ex.
        - apply existsb_exists in Ex. destruct Ex as (r & R & Eq). apply in_map_iff in R. destruct R as (y & <- & Y). apply bytes_eqb_eq in Eq. cbn [row_of r_digest] in Eq.
          destruct (Il y Y) as (g & G1 & G2). assert (S : same_terms y o) by (apply (same_digest _ y g o f P G1 Io Eq)).
          exists d, L. split; [reflexivity|]. split; [reflexivity|]. split; [apply I|]. split; [|split; [apply I|split; [auto|eauto]]].
          intros z. rewrite (i_rec _ _ _ I), recorded_snoc. split; [auto|]. intros [?|(-> & _ & N)]; [assumption|].
          exfalso. apply (i_rec _ _ _ I), recorded_in in Y. destruct Y as (g' & G' & D'). apply (N y g' G'); [apply same_terms_sym, S|exact D'].
        - assert (Nn : forall y, In y L -> dig y <> dig o).
          { intros y Y Eq. assert (existsb (fun x => bytes_eqb (r_digest x) (r_digest (row_of o))) (map row_of L) = true); [|congruence].
            apply existsb_exists. exists (row_of y). split; [apply in_map, Y|]. apply bytes_eqb_eq. exact Eq. }
          exists (Db (map row_of L ++ [row_of o]) (content_t d)), (L ++ [o]). split; [reflexivity|]. split; [reflexivity|]. cbn [offer_t].
          split; [rewrite map_app; reflexivity|]. split; [|split; [|split]].
          + intros y. rewrite in_app_iff, (i_rec _ _ _ I), recorded_snoc. cbn [In]. split; [|intros [?|(-> & _)]; auto].
            intros [?|[<-|[]]]; [auto|]. right. split; [reflexivity|]. split; [exact F|]. intros o' g G S D.
            destruct (recorded_exists h o' g G D) as (z & Z & S'). apply (i_rec _ _ _ I) in Z. apply (Nn z Z). apply dig_terms.
            eapply same_terms_trans; [exact S'|apply same_terms_sym, S].
          + rewrite map_app. cbn [map]. apply (Permutation_NoDup (l := dig o :: map dig L)).
            { rewrite Permutation_app_comm. reflexivity. }
            constructor; [|apply I]. intros H. apply in_map_iff in H. destruct H as (y & Eq & Y). apply (Nn y Y Eq).
          + intros y Y. apply in_or_app. auto.
          + exists o. split; [apply in_or_app; right; left; reflexivity|apply same_terms_refl]. }
      destruct Row as (d1 & L1 & -> & C1 & R1 & M1 & N1 & Sub & (x0 & X0 & S0)).
      destruct (insert_contents_ok o f (OkR tt) (o_cids o) O d1) with (err := OkR tt : result unit) as (J1 & J2 & J3 & J4 & J5).
      { intros j c H. exact H. }
      { intros k K Dk. rewrite C1 in K. destruct (i_cell _ _ _ I k K) as (y & i & c & Y & Nt & ->). cbn [cell_of k_digest fst snd k_no k_cid] in *.
        destruct (Il y Y) as (g & G1 & _). destruct (same_digest _ y g o f P G1 Io Dk) as (_ & Ec & _). rewrite <- Ec. eauto. }
      { rewrite C1. apply I. }
      destruct (insert_contents f (dig o) 0 (o_cids o) (OkR tt) d1) as [res d2] eqn:Ins. cbn [snd] in J1, J2, J3, J4, J5. cbn [obind snd].
      exists d2, L1. split; [reflexivity|]. split.
      + congruence.
      + exact M1.
      + exact N1.
      + intros k K. apply J4 in K. destruct K as [K|(j & c & Nt & ->)].
        * rewrite C1 in K. destruct (i_cell _ _ _ I k K) as (y & i & c & Y & Nt & ->). exists y, i, c. auto.
        * exists x0, j, c. split; [exact X0|]. split; [destruct S0 as (_ & -> & _); exact Nt|]. unfold cell_of. rewrite (dig_terms _ _ S0). reflexivity.
      + exact J2.
      + intros y i c [R (o' & g & G & S & U)] Nt. apply recorded_snoc in R. apply in_app_iff in G.
        assert (New : same_terms y o -> undisturbed o f -> In (cell_of y (i, c)) (content_t d2)).
        { intros S' U'. unfold cell_of. rewrite (dig_terms _ _ S'). cbn [fst snd]. apply (J5 (fun j Hj => U' (Datatypes.S j) Hj)). destruct S' as (_ & <- & _). exact Nt. }
        destruct G as [G|[G|[]]].
        * destruct R as [R|(-> & _ & N)]; [|exfalso; apply (N o' g G S), (U O), Nat.le_0_l].
          apply J3. rewrite C1. apply (i_full _ _ _ I); [|exact Nt]. split; [exact R|]. exists o', g. auto.
        * injection G as <- <-. apply New; assumption.
  Qed.

  (** ** Reading *)
  Definition mine (d : db) (o : offer) : list content_row := filter (fun k => bytes_eqb (k_digest k) (dig o)) (content_t d).

  Lemma mine_in d o k : In k (mine d o) <-> In k (content_t d) /\ k_digest k = dig o.
  Proof. unfold mine. rewrite filter_In, bytes_eqb_eq. tauto. Qed.

  Lemma nodup_map_filter {A B} (f : A -> B) P l : NoDup (map f l) -> NoDup (map f (filter P l)).
  Proof.
    induction l as [|a l IH]; [auto|]. cbn [map filter]. intros N. inversion N as [|? ? X Y]; subst.
    destruct (P a); [|auto]. cbn [map]. constructor; [|auto]. intros H. apply X. apply in_map_iff in H. destruct H as (b & E & H).
    apply filter_In in H. rewrite <- E. apply in_map, H.
  Qed.

  Lemma mine_nos h d L o : inv h d L -> NoDup (map k_no (mine d o)).
  Proof.
    intros I. pose proof (nodup_map_filter _ (fun k => bytes_eqb (k_digest k) (dig o)) _ (i_keys _ _ _ I)) as N. fold (mine d o) in N.
    assert (E : forall l, (forall k, In k l -> k_digest k = dig o) -> NoDup (map (fun k => (k_no k, k_digest k)) l) -> NoDup (map k_no l)).
    { induction l as [|a l IH]; intros D M; [constructor|]. cbn [map] in *. inversion M as [|? ? X Y]; subst. constructor.
      - intros H. apply X. apply in_map_iff in H. destruct H as (b & E & B). apply in_map_iff. exists b. split; [|exact B].
        rewrite E, (D a (or_introl eq_refl)), (D b (or_intror B)). reflexivity.
      - apply IH; [|exact Y]. intros k K. apply D. right. exact K. }
    apply E; [|exact N]. intros k K. apply mine_in in K. tauto.
  Qed.

  Lemma mine_cell h d L o k : proper_attempts sha256 sha h -> inv h d L -> In o L -> In k (mine d o) ->
    exists c, nth_error (o_cids o) (k_no k) = Some c /\ k_cid k = ToString c.
  Proof.
    intros P I O K. apply mine_in in K. destruct K as [K D]. destruct (i_cell _ _ _ I k K) as (y & i & c & Y & Nt & ->). cbn [cell_of k_digest k_no k_cid fst snd] in *.
    apply (i_rec _ _ _ I), recorded_in in Y. destruct Y as (g & G & _). apply (i_rec _ _ _ I), recorded_in in O. destruct O as (g' & G' & _).
    destruct (same_digest h y g o g' P G G' D) as (_ & <- & _). eauto.
  Qed.

  Lemma read_cids_app a b : read_cids (a ++ b) = (let* x := read_cids a in let* y := read_cids b in Ret (x ++ y)).
  Proof.
    induction a as [|k a IH]; cbn [app read_cids obind]; [destruct (read_cids b); reflexivity|].
    destruct (NewNodeIDFromHexString (k_cid k)); [|reflexivity]. rewrite IH. destruct (read_cids a); cbn [obind]; [|reflexivity..]. destruct (read_cids b); reflexivity.
  Qed.

  Definition present (d : db) (o : offer) (n : nat) : bool := existsb (fun k => Nat.eqb (k_no k) n) (mine d o).

  Lemma read_mine h d L o : proper_attempts sha256 sha h -> inv h d L -> In o L ->
    read_cids (by_no (mine d o)) = Ret (pick (present d o) (o_cids o) (seq 0 (S (fold_right Nat.max 0%nat (map k_no (mine d o)))))).
  Proof.
    intros P I O. unfold by_no. set (m := S _). clearbody m. generalize 0%nat as s. induction m as [|m IH]; intros s; [reflexivity|].
    cbn [seq flat_map]. rewrite read_cids_app, (IH (S s)). rewrite (filter_unique k_no _ s (mine_nos h d L o I)).
    unfold pick. cbn [flat_map].
    destruct (find (fun k => Nat.eqb (k_no k) s) (mine d o)) as [k|] eqn:F.
    - apply find_some in F. destruct F as [K E]. destruct (mine_cell h d L o k P I O K) as (c & Nt & C). apply Nat.eqb_eq in E.
      assert (Pr : present d o s = true) by (apply existsb_exists; exists k; split; [exact K|apply Nat.eqb_eq, E]).
      rewrite E in Nt. rewrite Nt, Pr. cbn [read_cids]. rewrite C.
      assert (id32 c) as L32.
      { apply (i_rec _ _ _ I), recorded_in in O. destruct O as (g & G & _). destruct (wire_parts o (proj1 (proj1 P o g G))) as (_ & Fa & _).
        rewrite Forall_forall in Fa. apply Fa. eapply nth_error_In; eauto. }
      rewrite (proj1 (id_hex_roundtrip_pf c L32)). reflexivity.
    - assert (Pr : present d o s = false).
      { unfold present. destruct (existsb _ _) eqn:X; [|reflexivity]. apply existsb_exists in X. destruct X as (k & K & E).
        pose proof (find_none _ _ F k K). cbn beta in *. congruence. }
      rewrite Pr. cbn [read_cids obind]. destruct (nth_error (o_cids o) s); reflexivity.
  Qed.

  Lemma max_ge l n : In n l -> (n <= fold_right Nat.max 0%nat l)%nat.
  Proof. induction l; cbn; [intros []|]. intros [->|H]; [lia|]. specialize (IHl H). lia. Qed.

  Lemma in_pick {A} P (l : list A) ns n x : In n ns -> nth_error l n = Some x -> P n = true -> In x (pick P l ns).
  Proof. intros I N T. unfold pick. apply in_flat_map. exists n. split; [exact I|]. rewrite N, T. left. reflexivity. Qed.

  Definition complete (d : db) (o : offer) : Prop := forall i c, nth_error (o_cids o) i = Some c -> In (cell_of o (i, c)) (content_t d).

  Lemma wire_of h o f : proper_attempts sha256 sha h -> In (o, f) h -> wire_offer sha256 o.
  Proof. intros P I. apply (proj1 P o f I). Qed.

  Lemma member_wire h d L o : proper_attempts sha256 sha h -> inv h d L -> In o L -> wire_offer sha256 o.
  Proof. intros P I O. apply (i_rec _ _ _ I), recorded_in in O. destruct O as (g & G & _). eapply wire_of; eauto. Qed.

  Lemma read_complete h d L o : proper_attempts sha256 sha h -> inv h d L -> In o L -> complete d o ->
    read_offer sha256 d (row_of o) = Ret (o, true).
  Proof.
    intros P I O C. pose proof (member_wire h d L o P I O) as W. unfold read_offer. cbn [row_of r_provider r_digest r_price r_expiry r_qos r_sig].
    fold (mine d o). rewrite (read_mine h d L o P I O).
    assert (Pk : pick (present d o) (o_cids o) (seq 0 (S (fold_right Nat.max 0%nat (map k_no (mine d o))))) = o_cids o).
    { assert (Pm : forall i c, nth_error (o_cids o) i = Some c -> In (cell_of o (i, c)) (mine d o)) by (intros i c H; apply mine_in; auto).
      apply pick_all.
      - destruct (o_cids o) as [|a l] eqn:E; [cbn; lia|]. cbn [length].
        destruct (nth_error (a :: l) (length l)) as [c|] eqn:N; [|apply nth_error_None in N; cbn in N; lia].
        specialize (Pm _ _ N). apply (in_map k_no), max_ge in Pm. cbn [cell_of k_no fst] in Pm. lia.
      - intros i H. apply nth_error_Some in H. destruct (nth_error (o_cids o) i) as [c|] eqn:N; [|congruence].
        apply existsb_exists. exists (cell_of o (i, c)). split; [auto|]. apply Nat.eqb_refl. }
    rewrite Pk. cbn [obind]. destruct W as (p & ids & price & ex & qos & o0 & Lp & Fa & _ & _ & _ & N & E).
    pose proof (new_offer_shape _ _ _ _ _ _ _ N) as (Ne & t & _ & E0).
    assert (Eo : o_provider o = Some p /\ o_cids o = ids /\ o_price o = price /\ o_expiry o = ex /\ o_qos o = qos /\ o_root o = o_root o0 /\ o_tree o = o_tree o0).
    { rewrite E, E0. cbn. auto 10. }
    destruct Eo as (Ep & Ec & Epr & Ee & Eq & Er & Et). unfold prov. rewrite Ep, (proj1 (id_hex_roundtrip_pf p Lp)), Ec, Epr, Ee, Eq, N.
    cbn [obind]. destruct ids as [|a ids]; [congruence|]. cbn [length Nat.eqb negb]. f_equal. f_equal. symmetry. exact E.
  Qed.

  Lemma pick_nonempty h d L o k : proper_attempts sha256 sha h -> inv h d L -> In o L -> In k (mine d o) ->
    exists c, k_cid k = ToString c /\ In c (pick (present d o) (o_cids o) (seq 0 (S (fold_right Nat.max 0%nat (map k_no (mine d o)))))).
  Proof.
    intros P I O K. destruct (mine_cell h d L o k P I O K) as (c & N & E). exists c. split; [exact E|]. apply (in_pick _ _ _ (k_no k)).
    - apply in_seq. split; [lia|]. apply (in_map k_no), max_ge in K. lia.
    - exact N.
    - apply existsb_exists. exists k. split; [exact K|apply Nat.eqb_refl].
  Qed.

  (** A recorded offer with at least one of its identifiers can be read. *)
  Lemma read_some h d L o k : proper_attempts sha256 sha h -> inv h d L -> In o L -> In k (mine d o) ->
    exists x, read_offer sha256 d (row_of o) = Ret (x, true) /\ remains_of x o /\ forall c, id32 c -> k_cid k = ToString c -> In c (o_cids x).
  Proof.
    intros P I O K. pose proof (member_wire h d L o P I O) as W. unfold read_offer. cbn [row_of r_provider r_digest r_price r_expiry r_qos r_sig].
    fold (mine d o). rewrite (read_mine h d L o P I O). destruct (pick_nonempty h d L o k P I O K) as (c & Ec & Ic).
    set (ids := pick _ _ _) in *. cbn [obind]. destruct (wire_parts o W) as ((p & Pp & Lp) & Fa & _).
    assert (Sub : sublist ids (o_cids o)) by apply pick_sub.
    assert (Fi : Forall id32 ids) by (rewrite Forall_forall in *; intros y Y; apply Fa; eapply sublist_in; eauto).
    assert (Ne : ids <> []) by (intros E; rewrite E in Ic; destruct Ic).
    destruct (proj2 (new_offer_total sha256 (match NewNodeIDFromHexString (ToString (prov o)) with OkR p => Some p | ErrR => None end) ids (o_price o) (o_expiry o) (o_qos o) Fi) Ne) as [x X].
    rewrite X. cbn [obind]. apply new_offer_shape in X. destruct X as (_ & t & _ & ->). cbn [o_provider o_cids o_price o_expiry o_qos o_root o_tree].
    replace (negb (Nat.eqb (length ids) 0)) with true by (destruct ids; [congruence|reflexivity]). eexists. split; [reflexivity|]. split.
    - unfold remains_of. cbn [o_provider o_cids o_price o_expiry o_qos o_sig]. unfold prov. rewrite Pp, (proj1 (id_hex_roundtrip_pf p Lp)). auto 10.
    - intros c' L' E. cbn [o_cids]. assert (c' = c); [|subst; exact Ic]. apply ToString_inj; [exact L'| |congruence].
      rewrite Forall_forall in Fi. apply Fi, Ic.
  Qed.

  (** ** Queries *)
  Lemma read_offers_ok d rows : (forall r, In r rows -> exists x, read_offer sha256 d r = Ret (x, true)) ->
    exists os, read_offers sha256 d rows = Ret (os, match rows with [] => false | _ => true end) /\
      Forall2 (fun r x => read_offer sha256 d r = Ret (x, true)) rows os.
  Proof.
    induction rows as [|r rows IH]; intros H; [exists []; split; [reflexivity|constructor]|].
    destruct (H r (or_introl eq_refl)) as [x X]. destruct IH as (os & E & F); [intros y Y; apply H; right; exact Y|].
    exists (x :: os). cbn [read_offers]. rewrite X, E. split; [reflexivity|]. constructor; assumption.
  Qed.

  Lemma forall2_in_l {A B} (R : A -> B -> Prop) l l' x : Forall2 R l l' -> In x l -> exists y, In y l' /\ R x y.
  Proof. induction 1; intros I; [destruct I|]. destruct I as [->|I]; [exists y; split; [left; reflexivity|assumption]|]. destruct (IHForall2 I) as (z & ? & ?). exists z. split; [right|]; assumption. Qed.
  Lemma forall2_in_r {A B} (R : A -> B -> Prop) l l' y : Forall2 R l l' -> In y l' -> exists x, In x l /\ R x y.
  Proof. induction 1; intros I; [destruct I|]. destruct I as [->|I]; [exists x; split; [left; reflexivity|assumption]|]. destruct (IHForall2 I) as (z & ? & ?). exists z. split; [right|]; assumption. Qed.

  Definition single_rows (zone now : Z) (d : db) (c : bytes) : list offer_row :=
    flat_map (fun r => if fresh zone now (r_expiry r) then
      map (fun _ => r) (filter (fun k => bytes_eqb (k_digest k) (r_digest r) && bytes_eqb (k_cid k) (ToString c)) (content_t d)) else []) (offer_t d).

  Lemma single_rows_in h d L zone now c r : inv h d L -> In r (single_rows zone now d c) <->
    exists o k, In o L /\ r = row_of o /\ fresh zone now (o_expiry o) = true /\ In k (mine d o) /\ k_cid k = ToString c.
  Proof.
    intros I. unfold single_rows. rewrite in_flat_map, (i_rows _ _ _ I). split.
    - intros (r' & R & H). apply in_map_iff in R. destruct R as (o & <- & O). cbn [row_of r_expiry r_digest] in H.
      destruct (fresh zone now (o_expiry o)) eqn:F; [|destruct H]. apply in_map_iff in H. destruct H as (k & <- & K). apply filter_In in K.
      destruct K as [K E]. apply andb_true_iff in E. rewrite !bytes_eqb_eq in E. exists o, k. rewrite mine_in. tauto.
    - intros (o & k & O & -> & F & K & E). exists (row_of o). split; [apply in_map, O|]. cbn [row_of r_expiry r_digest]. rewrite F.
      apply in_map_iff. exists k. split; [reflexivity|]. apply mine_in in K. apply filter_In. split; [tauto|]. apply andb_true_iff. rewrite !bytes_eqb_eq. tauto.
  Qed.

  Lemma single_some h zone now order d L c : proper_attempts sha256 sha h -> inv h d L -> shuffle order -> id32 c ->
    exists os found, selectOffersSingle sha256 order zone now d c = Ret (os, found) /\
      (forall x, In x os -> exists o, recorded h o /\ fresh zone now (o_expiry o) = true /\ remains_of x o /\ In c (o_cids x)) /\
      (forall o, stored h o -> fresh zone now (o_expiry o) = true -> In c (o_cids o) -> In o os) /\
      (found = true <-> os <> []).
  Proof.
    intros P I S C. unfold selectOffersSingle. fold (single_rows zone now d c). unfold selectOffers. cbn [Z.ltb Z.compare].
    destruct (read_offers_ok d (order (single_rows zone now d c))) as (os & E & F).
    { intros r R. apply (shuffle_in _ _ _ S), (single_rows_in h d L zone now c r I) in R. destruct R as (o & k & O & -> & _ & K & _).
      destruct (read_some h d L o k P I O K) as (x & X & _). eauto. }
    rewrite E. do 2 eexists. split; [reflexivity|]. split; [|split].
    - intros x X. destruct (forall2_in_r _ _ _ _ F X) as (r & R & Rd). apply (shuffle_in _ _ _ S), (single_rows_in h d L zone now c r I) in R.
      destruct R as (o & k & O & -> & Fr & K & Ek). destruct (read_some h d L o k P I O K) as (x' & X' & Rm & Ci). assert (x' = x) by congruence. subst x'.
      exists o. split; [apply (i_rec _ _ _ I), O|]. auto.
    - intros o St Fr Ic. assert (O : In o L) by apply (i_rec _ _ _ I), St.
      assert (Cm : complete d o) by (intros i x Nt; apply (i_full _ _ _ I); assumption).
      destruct (In_nth_error _ _ Ic) as [i Ni].
      assert (R : In (row_of o) (order (single_rows zone now d c))).
      { apply (shuffle_in _ _ _ S), (single_rows_in h d L zone now c _ I). exists o, (cell_of o (i, c)). rewrite mine_in. auto 10. }
      destruct (forall2_in_l _ _ _ _ F R) as (x & X & Rd). rewrite (read_complete h d L o P I O Cm) in Rd. congruence.
    - destruct (order (single_rows zone now d c)) as [|r0 rs].
      + inversion F; subst. split; [discriminate|congruence].
      + inversion F; subst. split; [discriminate|reflexivity].
  Qed.

  (** With undisturbed attempts only, each offer comes as often as it lists the identifier. *)
  Lemma contents_nodup o : NoDup (contents_of o).
  Proof.
    unfold contents_of. assert (N : NoDup (map k_no (map (cell_of o) (combine (seq 0 (length (o_cids o))) (o_cids o))))).
    { rewrite map_map. cbn [cell_of k_no]. replace (map (fun x : nat * bytes => fst x) (combine (seq 0 (length (o_cids o))) (o_cids o))) with (seq 0 (length (o_cids o))); [apply seq_NoDup|].
      generalize 0%nat. induction (o_cids o) as [|a l IH]; intros s; [reflexivity|]. cbn [length seq combine map fst]. f_equal. apply IH. }
    eapply NoDup_map_inv; exact N.
  Qed.

  Lemma mine_perm h d L o : proper_attempts sha256 sha h -> inv h d L -> In o L -> complete d o -> Permutation (mine d o) (contents_of o).
  Proof.
    intros P I O C. apply NoDup_Permutation.
    - eapply NoDup_map_inv. apply (mine_nos h d L o I).
    - apply contents_nodup.
    - intros k. unfold contents_of. rewrite in_map_iff. split.
      + intros K. destruct (mine_cell h d L o k P I O K) as (c & Nt & E). exists (k_no k, c). apply mine_in in K. split.
        * unfold cell_of. cbn [fst snd]. destruct k; cbn in *. destruct K as [_ <-]. congruence.
        * apply in_combine_seq. rewrite Nat.sub_0_r. split; [lia|exact Nt].
      + intros ((i & c) & <- & H). apply in_combine_seq in H. rewrite Nat.sub_0_r in H. apply mine_in. split; [apply C, H|reflexivity].
  Qed.

  Lemma filter_combine (l : list bytes) c s : length (filter (fun x : nat * bytes => bytes_eqb (snd x) c) (combine (seq s (length l)) l)) = length (filter (bytes_eqb c) l).
  Proof.
    revert s. induction l as [|a l IH]; intros s; [reflexivity|]. cbn [length seq combine filter snd].
    assert (E : bytes_eqb a c = bytes_eqb c a).
    { destruct (bytes_eqb a c) eqn:X, (bytes_eqb c a) eqn:Y; auto; [apply bytes_eqb_eq in X|apply bytes_eqb_eq in Y]; subst; [rewrite bytes_eqb_refl' in Y|rewrite bytes_eqb_refl' in X]; discriminate. }
    rewrite E. destruct (bytes_eqb c a); cbn [length]; auto.
  Qed.

  Lemma const_map {A B} (b : B) (l l' : list A) : length l = length l' -> map (fun _ => b) l = map (fun _ => b) l'.
  Proof. revert l'. induction l; intros [|]; cbn; try discriminate; auto. intros [= E]. f_equal. auto. Qed.

  Lemma perm_filter {A} (P : A -> bool) l l' : Permutation l l' -> length (filter P l) = length (filter P l').
  Proof. induction 1; cbn [filter]; [reflexivity| | |congruence]; repeat match goal with |- context [if ?b then _ else _] => destruct b end; cbn [length]; congruence. Qed.

  Lemma filter_filter {A} (P Q : A -> bool) l : filter (fun x => P x && Q x) l = filter Q (filter P l).
  Proof. induction l as [|a l IH]; [reflexivity|]. cbn [filter]. destruct (P a); cbn [andb filter]; [destruct (Q a); congruence|exact IH]. Qed.

  Lemma filter_cells o c l : id32 c -> Forall id32 (map snd l) ->
    length (filter (fun k => bytes_eqb (k_cid k) (ToString c)) (map (cell_of o) l)) = length (filter (fun x : nat * bytes => bytes_eqb (snd x) c) l).
  Proof.
    intros C. induction l as [|[i a] l IH]; intros F; [reflexivity|]. cbn [map snd] in F. inversion F as [|? ? A B]; subst. cbn [map filter cell_of k_cid fst snd].
    assert (E : bytes_eqb (ToString a) (ToString c) = bytes_eqb a c).
    { destruct (bytes_eqb a c) eqn:X; [apply bytes_eqb_eq in X; subst; apply bytes_eqb_refl'|]. destruct (bytes_eqb (ToString a) (ToString c)) eqn:Y; [|reflexivity].
      apply bytes_eqb_eq, ToString_inj in Y; [|assumption..]. subst. rewrite bytes_eqb_refl' in X. discriminate. }
    rewrite E. destruct (bytes_eqb a c); cbn [length]; auto.
  Qed.

  Lemma copies_rows h d L o c : proper_attempts sha256 sha h -> inv h d L -> In o L -> complete d o -> id32 c ->
    map (fun _ => row_of o) (filter (fun k => bytes_eqb (k_digest k) (dig o) && bytes_eqb (k_cid k) (ToString c)) (content_t d)) = map row_of (copies c o).
  Proof.
    intros P I O C L32. unfold copies. rewrite map_map. rewrite (filter_filter (fun k => bytes_eqb (k_digest k) (dig o))). fold (mine d o).
    assert (E : length (filter (fun k => bytes_eqb (k_cid k) (ToString c)) (mine d o)) = length (filter (bytes_eqb c) (o_cids o))).
    { rewrite (perm_filter _ _ _ (mine_perm h d L o P I O C)). unfold contents_of. rewrite filter_cells; [apply filter_combine|exact L32|].
      destruct (wire_parts o (member_wire h d L o P I O)) as (_ & Fa & _).
      replace (map snd (combine (seq 0 (length (o_cids o))) (o_cids o))) with (o_cids o); [exact Fa|].
      generalize 0%nat. induction (o_cids o) as [|a l IH]; intros s; [reflexivity|]. cbn [length seq combine map snd]. f_equal. apply IH. inversion Fa; assumption. }
    revert E. generalize (filter (fun k => bytes_eqb (k_cid k) (ToString c)) (mine d o)) as u. generalize (filter (bytes_eqb c) (o_cids o)) as v.
    induction v as [|a v IH]; intros [|b u]; cbn; try discriminate; auto. intros [= E]. f_equal. auto.
  Qed.

  Lemma read_list h d L l : proper_attempts sha256 sha h -> inv h d L -> (forall o, In o l -> In o L /\ complete d o) ->
    read_offers sha256 d (map row_of l) = Ret (l, match l with [] => false | _ => true end).
  Proof.
    intros P I. induction l as [|o l IH]; intros H; [reflexivity|]. cbn [map read_offers].
    destruct (H o (or_introl eq_refl)) as [O C]. rewrite (read_complete h d L o P I O C). rewrite IH by (intros y Y; apply H; right; exact Y). reflexivity.
  Qed.

  Lemma perm_map_inv {A B} (f : A -> B) l m : Permutation (map f l) m -> exists l', m = map f l' /\ Permutation l l'.
  Proof.
    intros H. destruct (Permutation_map_inv f _ (Permutation_sym H)) as (l' & -> & Q). exists l'. split; [reflexivity|exact Q].
  Qed.

  Lemma undisturbed_stored h o : all_undisturbed h -> recorded h o -> stored h o.
  Proof. intros U R. split; [exact R|]. destruct (recorded_in h o R) as (f & I & _). exists o, f. split; [exact I|]. split; [apply same_terms_refl|apply U, I]. Qed.

  Lemma single_exact h zone now order d L c : proper_attempts sha256 sha h -> inv h d L -> all_undisturbed h -> shuffle order -> id32 c ->
    exists os found, selectOffersSingle sha256 order zone now d c = Ret (os, found) /\
      Permutation os (flat_map (copies c) (filter (fun o => fresh zone now (o_expiry o)) L)) /\ (found = true <-> os <> []).
  Proof.
    intros P I U S C. unfold selectOffersSingle. fold (single_rows zone now d c). unfold selectOffers. cbn [Z.ltb Z.compare].
    assert (Cm : forall o, In o L -> complete d o).
    { intros o O i x Nt. apply (i_full _ _ _ I); [|exact Nt]. apply undisturbed_stored; [exact U|]. apply (i_rec _ _ _ I), O. }
    assert (E : single_rows zone now d c = map row_of (flat_map (copies c) (filter (fun o => fresh zone now (o_expiry o)) L))).
    { unfold single_rows. rewrite (i_rows _ _ _ I).
      assert (W : forall l, (forall o, In o l -> In o L) -> flat_map (fun r => if fresh zone now (r_expiry r) then
        map (fun _ => r) (filter (fun k => bytes_eqb (k_digest k) (r_digest r) && bytes_eqb (k_cid k) (ToString c)) (content_t d)) else []) (map row_of l)
        = map row_of (flat_map (copies c) (filter (fun o => fresh zone now (o_expiry o)) l))).
      { induction l as [|o l IH]; intros H; [reflexivity|]. cbn [map flat_map filter]. rewrite IH by (intros y Y; apply H; right; exact Y).
        cbn [row_of r_expiry r_digest]. fold (row_of o). destruct (fresh zone now (o_expiry o)); [|reflexivity]. cbn [flat_map]. rewrite map_app. f_equal.
        apply (copies_rows h d L o c P I); auto; [apply H; left; reflexivity|apply Cm, H; left; reflexivity]. }
      apply W. auto. }
    destruct (perm_map_inv row_of (flat_map (copies c) (filter (fun o => fresh zone now (o_expiry o)) L)) (order (single_rows zone now d c))) as (l' & E' & Pm).
    { rewrite E. apply S. }
    rewrite E'. rewrite (read_list h d L l' P I).
    - do 2 eexists. split; [reflexivity|]. split; [apply Permutation_sym, Pm|]. destruct l'; split; congruence.
    - intros o O. apply (Permutation_in _ (Permutation_sym Pm)) in O. apply in_flat_map in O. destruct O as (y & Y & O). unfold copies in O. apply in_map_iff in O.
      destruct O as (? & <- & _). apply filter_In in Y. split; [tauto|apply Cm; tauto].
  Qed.

  (** Lookup by digest. *)
  Lemma digest_rows h d L zone now x : inv h d L ->
    filter (fun r => bytes_eqb (r_digest r) (hex_encode x) && fresh zone now (r_expiry r)) (offer_t d) =
    map row_of (filter (fun o => bytes_eqb (dig o) (hex_encode x) && fresh zone now (o_expiry o)) L).
  Proof.
    intros I. rewrite (i_rows _ _ _ I). induction L as [|o l IH] in |- *; [reflexivity|]. cbn [map filter row_of r_digest r_expiry]. fold (row_of o).
    destruct (bytes_eqb (dig o) (hex_encode x) && fresh zone now (o_expiry o)); cbn [map]; rewrite IH; reflexivity.
  Qed.

  Lemma filter_at_most_one (L : list offer) x (P : offer -> bool) : NoDup (map dig L) ->
    (length (filter (fun o => bytes_eqb (dig o) x && P o) L) <= 1)%nat.
  Proof.
    induction L as [|o l IH]; cbn [map filter length]; [lia|]. intros N. inversion N as [|? ? A B]; subst.
    destruct (bytes_eqb (dig o) x && P o) eqn:E; [|auto]. apply andb_true_iff in E. destruct E as [E _]. apply bytes_eqb_eq in E.
    destruct (filter (fun o => bytes_eqb (dig o) x && P o) l) as [|y t] eqn:F; [cbn; lia|]. exfalso. apply A.
    assert (Y : In y (filter (fun o => bytes_eqb (dig o) x && P o) l)) by (rewrite F; left; reflexivity). apply filter_In in Y. destruct Y as [Y E'].
    apply andb_true_iff in E'. destruct E' as [E' _]. apply bytes_eqb_eq in E'. rewrite E, <- E'. apply in_map, Y.
  Qed.

  Lemma shuffle_short {A} (f : list A -> list A) l : shuffle f -> (length l <= 1)%nat -> f l = l.
  Proof.
    intros S L. pose proof (S l) as P. destruct l as [|a [|b l]]; [apply Permutation_nil; exact P|apply Permutation_length_1_inv in P; exact P|cbn in L; lia].
  Qed.

  Lemma digest_query h zone now order d L x : proper_attempts sha256 sha h -> inv h d L -> shuffle order ->
    (forall o, recorded h o -> GetMessageDigest sha o = Ret x -> fresh zone now (o_expiry o) = true -> stored h o) ->
    exists r found, selectOffersDigest sha256 order zone now d x = Ret (r, found) /\
      (forall o, r = Some o <-> stored h o /\ GetMessageDigest sha o = Ret x /\ fresh zone now (o_expiry o) = true) /\
      (found = true <-> r <> None).
  Proof.
    intros P I S Ok. unfold selectOffersDigest. rewrite (digest_rows h d L zone now x I).
    set (l := filter (fun o => bytes_eqb (dig o) (hex_encode x) && fresh zone now (o_expiry o)) L).
    assert (Len : (length l <= 1)%nat) by apply (filter_at_most_one L (hex_encode x) (fun o => fresh zone now (o_expiry o)) (i_uniq _ _ _ I)).
    assert (Dg : forall o, In o L -> (bytes_eqb (dig o) (hex_encode x) = true <-> GetMessageDigest sha o = Ret x)).
    { intros o O. destruct (digest_ok o (member_wire h d L o P I O)) as (y & Y & Dy). rewrite bytes_eqb_eq, Dy, Y. split; [intros E; f_equal; apply hex_encode_inj, E|congruence]. }
    assert (M : forall o, In o l <-> stored h o /\ GetMessageDigest sha o = Ret x /\ fresh zone now (o_expiry o) = true).
    { intros o. unfold l. rewrite filter_In, andb_true_iff. split.
      - intros (O & E & F). apply (Dg o O) in E. split; [apply Ok; auto; apply (i_rec _ _ _ I), O|auto].
      - intros (St & E & F). assert (O : In o L) by apply (i_rec _ _ _ I), St. split; [exact O|]. split; [apply (Dg o O), E|exact F]. }
    rewrite (shuffle_short order (map row_of l) S) by (rewrite map_length; exact Len). unfold selectOffers. cbn [Z.ltb Z.compare].
    change (Z.to_nat 1) with 1%nat.
    assert (Fn : firstn 1 (map row_of l) = map row_of l) by (apply firstn_all2; rewrite map_length; exact Len). rewrite Fn.
    rewrite (read_list h d L l P I).
    - cbn [obind snd fst]. destruct l as [|o [|o' l']]; [| |cbn in Len; lia].
      + cbn [negb]. do 2 eexists. split; [reflexivity|]. split; [|split; congruence]. intros o. rewrite <- M. split; [discriminate|intros []].
      + cbn [negb hd_error deref obind]. do 2 eexists. split; [reflexivity|]. split; [|split; [discriminate|reflexivity]]. intros y. rewrite <- M. cbn [In]. split; [intros [= ->]; auto|intros [->|[]]; reflexivity].
    - intros o O. apply M in O. assert (Ol : In o L) by apply (i_rec _ _ _ I), O. split; [exact Ol|]. intros i c Nt. apply (i_full _ _ _ I); [apply O|exact Nt].
  Qed.

  (** Offers with an identifier in a range. *)
  Definition in_rangeb (lo hi : bytes) (o : offer) : bool := existsb (fun c => (be_val lo <=? be_val c) && (be_val c <=? be_val hi)) (o_cids o).
  Lemma in_rangeb_iff lo hi o : in_rangeb lo hi o = true <-> in_range lo hi o.
  Proof.
    unfold in_rangeb, in_range. rewrite existsb_exists. split; intros (c & I & H); exists c; (split; [exact I|]).
    - apply andb_true_iff in H. rewrite !Z.leb_le in H. exact H.
    - apply andb_true_iff. rewrite !Z.leb_le. exact H.
  Qed.

  Definition range_rows (zone now : Z) (d : db) (lo hi : bytes) : list offer_row :=
    filter (fun r => fresh zone now (r_expiry r) &&
      existsb (fun k => bytes_eqb (k_digest k) (r_digest r) && text_le (ToString lo) (k_cid k) && text_le (k_cid k) (ToString hi)) (content_t d)) (offer_t d).

  Lemma range_rows_in h d L zone now lo hi r : inv h d L -> In r (range_rows zone now d lo hi) <->
    exists o k, In o L /\ r = row_of o /\ fresh zone now (o_expiry o) = true /\ In k (mine d o) /\ text_le (ToString lo) (k_cid k) = true /\ text_le (k_cid k) (ToString hi) = true.
  Proof.
    intros I. unfold range_rows. rewrite filter_In, (i_rows _ _ _ I), in_map_iff. split.
    - intros ((o & <- & O) & H). apply andb_true_iff in H. destruct H as [F H]. apply existsb_exists in H. destruct H as (k & K & E).
      rewrite !andb_true_iff, bytes_eqb_eq in E. exists o, k. rewrite mine_in. tauto.
    - intros (o & k & O & -> & F & K & A & B). split; [eauto|]. apply andb_true_iff. split; [exact F|]. apply existsb_exists. exists k. apply mine_in in K.
      split; [tauto|]. rewrite !andb_true_iff, bytes_eqb_eq. tauto.
  Qed.

  Lemma forall2_len {A B} (R : A -> B -> Prop) l l' : Forall2 R l l' -> length l = length l'.
  Proof. induction 1; cbn; congruence. Qed.

  Lemma in_firstn {A} n (l : list A) x : In x (firstn n l) -> In x l.
  Proof. revert n. induction l as [|a l IH]; intros [|n]; cbn; try tauto. intros [->|H]; [auto|right; eapply IH; eauto]. Qed.

  Lemma range_some h zone now order d L max lo hi : proper_attempts sha256 sha h -> inv h d L -> shuffle order -> id32 lo -> id32 hi ->
    exists os found, selectOffersRange sha256 order zone now d max lo hi = Ret (os, found) /\
      (forall x, In x os -> exists o, recorded h o /\ fresh zone now (o_expiry o) = true /\ remains_of x o /\ in_range lo hi x) /\
      (max <= 0 -> forall o, stored h o -> fresh zone now (o_expiry o) = true -> in_range lo hi o -> In o os) /\
      (0 < max -> Z.of_nat (length os) <= max) /\
      (found = true <-> os <> []).
  Proof.
    intros P I S Lo Hi. unfold selectOffersRange. fold (range_rows zone now d lo hi). unfold selectOffers.
    set (rows := if 0 <? max then firstn (Z.to_nat max) (order (range_rows zone now d lo hi)) else order (range_rows zone now d lo hi)).
    assert (Sub : forall r, In r rows -> exists o k, In o L /\ r = row_of o /\ fresh zone now (o_expiry o) = true /\ In k (mine d o) /\ text_le (ToString lo) (k_cid k) = true /\ text_le (k_cid k) (ToString hi) = true).
    { intros r R. apply (range_rows_in h d L zone now lo hi r I). apply (shuffle_in _ _ _ S). unfold rows in R. destruct (0 <? max); [eapply in_firstn; exact R|exact R]. }
    destruct (read_offers_ok d rows) as (os & E & F).
    { intros r R. destruct (Sub r R) as (o & k & O & -> & _ & K & _). destruct (read_some h d L o k P I O K) as (x & X & _). eauto. }
    rewrite E. do 2 eexists. split; [reflexivity|]. split; [|split; [|split]].
    - intros x X. destruct (forall2_in_r _ _ _ _ F X) as (r & R & Rd). destruct (Sub r R) as (o & k & O & -> & Fr & K & A & B).
      destruct (read_some h d L o k P I O K) as (x' & X' & Rm & Ci). assert (x' = x) by congruence. subst x'.
      exists o. split; [apply (i_rec _ _ _ I), O|]. split; [exact Fr|]. split; [exact Rm|].
      destruct (mine_cell h d L o k P I O K) as (c & Nt & Ec).
      assert (C32 : id32 c). { destruct (wire_parts o (member_wire h d L o P I O)) as (_ & Fa & _). rewrite Forall_forall in Fa. apply Fa. eapply nth_error_In; eauto. }
      exists c. split; [apply Ci; assumption|]. rewrite Ec in A, B. apply text_le_val in A; [|assumption..]. apply text_le_val in B; [|assumption..]. lia.
    - intros M o St Fr (c & Ic & Lc). assert (O : In o L) by apply (i_rec _ _ _ I), St.
      assert (Cm : complete d o) by (intros i x Nt; apply (i_full _ _ _ I); assumption).
      destruct (In_nth_error _ _ Ic) as [i Ni].
      assert (C32 : id32 c). { destruct (wire_parts o (member_wire h d L o P I O)) as (_ & Fa & _). rewrite Forall_forall in Fa. apply Fa, Ic. }
      assert (R : In (row_of o) rows).
      { unfold rows. replace (0 <? max) with false by (symmetry; apply Z.ltb_ge; exact M). apply (shuffle_in _ _ _ S), (range_rows_in h d L zone now lo hi _ I).
        exists o, (cell_of o (i, c)). rewrite mine_in. cbn [cell_of k_cid k_digest fst snd]. split; [exact O|]. split; [reflexivity|]. split; [exact Fr|].
        split; [split; [apply (Cm i c Ni)|reflexivity]|]. split; apply text_le_val; try assumption; lia. }
      destruct (forall2_in_l _ _ _ _ F R) as (x & X & Rd). rewrite (read_complete h d L o P I O Cm) in Rd. congruence.
    - intros M. rewrite <- (forall2_len _ _ _ F). unfold rows. replace (0 <? max) with true by (symmetry; apply Z.ltb_lt; exact M).
      rewrite firstn_length. lia.
    - destruct rows as [|r0 rs]; inversion F; subst; split; congruence.
  Qed.

  (** With undisturbed attempts only. *)
  Lemma range_exact h zone now order d L max lo hi : proper_attempts sha256 sha h -> inv h d L -> all_undisturbed h -> shuffle order -> id32 lo -> id32 hi ->
    exists all found, Permutation all (filter (fun o => fresh zone now (o_expiry o) && in_rangeb lo hi o) L) /\
      let os := if 0 <? max then firstn (Z.to_nat max) all else all in
      selectOffersRange sha256 order zone now d max lo hi = Ret (os, found) /\ (found = true <-> os <> []).
  Proof.
    intros P I U S Lo Hi. unfold selectOffersRange. fold (range_rows zone now d lo hi). unfold selectOffers.
    assert (Cm : forall o, In o L -> complete d o).
    { intros o O i x Nt. apply (i_full _ _ _ I); [|exact Nt]. apply undisturbed_stored; [exact U|]. apply (i_rec _ _ _ I), O. }
    assert (E : range_rows zone now d lo hi = map row_of (filter (fun o => fresh zone now (o_expiry o) && in_rangeb lo hi o) L)).
    { unfold range_rows. rewrite (i_rows _ _ _ I).
      assert (W : forall l, (forall o, In o l -> In o L) -> filter (fun r => fresh zone now (r_expiry r) &&
        existsb (fun k => bytes_eqb (k_digest k) (r_digest r) && text_le (ToString lo) (k_cid k) && text_le (k_cid k) (ToString hi)) (content_t d)) (map row_of l)
        = map row_of (filter (fun o => fresh zone now (o_expiry o) && in_rangeb lo hi o) l)).
      { induction l as [|o l IH]; intros H; [reflexivity|]. cbn [map filter]. rewrite IH by (intros y Y; apply H; right; exact Y).
        cbn [row_of r_expiry r_digest]. fold (row_of o).
        assert (O : In o L) by (apply H; left; reflexivity).
        assert (B : existsb (fun k => bytes_eqb (k_digest k) (dig o) && text_le (ToString lo) (k_cid k) && text_le (k_cid k) (ToString hi)) (content_t d) = in_rangeb lo hi o).
        { destruct (wire_parts o (member_wire h d L o P I O)) as (_ & Fa & _). rewrite Forall_forall in Fa. apply Bool.eq_iff_eq_true. rewrite in_rangeb_iff, existsb_exists. split.
          - intros (k & K & X). rewrite !andb_true_iff, bytes_eqb_eq in X. destruct X as ((X & A) & B').
            destruct (mine_cell h d L o k P I O) as (c & Nt & Ec); [apply mine_in; auto|]. apply nth_error_In in Nt. exists c. split; [exact Nt|].
            rewrite Ec in A, B'. apply text_le_val in A; [|auto..]. apply text_le_val in B'; [|auto..]. lia.
          - intros (c & Ic & Lc). destruct (In_nth_error _ _ Ic) as [i Ni]. exists (cell_of o (i, c)). split; [apply (Cm o O i c Ni)|].
            cbn [cell_of k_cid k_digest fst snd]. rewrite !andb_true_iff, bytes_eqb_eq. rewrite !text_le_val by auto. split; [split; [reflexivity|lia]|lia]. }
        rewrite B. destruct (fresh zone now (o_expiry o) && in_rangeb lo hi o); reflexivity. }
      apply W. auto. }
    destruct (perm_map_inv row_of (filter (fun o => fresh zone now (o_expiry o) && in_rangeb lo hi o) L) (order (range_rows zone now d lo hi))) as (all & E' & Pm).
    { rewrite E. apply S. }
    set (os := if 0 <? max then firstn (Z.to_nat max) all else all).
    exists all, (match os with [] => false | _ => true end). split; [apply Permutation_sym, Pm|]. rewrite E'.
    replace (if 0 <? max then firstn (Z.to_nat max) (map row_of all) else map row_of all) with (map row_of os) by (unfold os; destruct (0 <? max); [symmetry; apply firstn_map|reflexivity]).
    cbv zeta. fold os. split; [|destruct os; split; congruence]. apply (read_list h d L os P I).
    intros o O. assert (O' : In o all) by (unfold os in O; destruct (0 <? max); [eapply in_firstn; exact O|exact O]).
    apply (Permutation_in _ (Permutation_sym Pm)), filter_In in O'. split; [tauto|apply Cm; tauto].
  Qed.

  (** ** Whole histories *)
  Lemma nodup_L h d L : inv h d L -> NoDup L.
  Proof. intros I. eapply NoDup_map_inv. apply (i_uniq _ _ _ I). Qed.

  Lemma sql_total_pf h : proper_attempts sha256 sha h -> exists d, db_after sha empty_db h = Ret d.
  Proof. intros P. destruct (inv_after h P) as (d & L & E & _). eauto. Qed.

  Lemma sql_single_pf h d zone now order c : proper_attempts sha256 sha h -> db_after sha empty_db h = Ret d -> shuffle order -> id32 c ->
    exists os found, selectOffersSingle sha256 order zone now d c = Ret (os, found) /\
      (forall x, In x os -> exists o, recorded h o /\ fresh zone now (o_expiry o) = true /\ remains_of x o /\ In c (o_cids x)) /\
      (forall o, stored h o -> fresh zone now (o_expiry o) = true -> In c (o_cids o) -> In o os) /\
      (found = true <-> os <> []).
  Proof. intros P E. destruct (inv_after h P) as (d' & L & E' & I). assert (d' = d) by congruence. subst. intros. eapply single_some; eauto. Qed.

  Lemma sql_single_exact_pf h d zone now order c : proper_attempts sha256 sha h -> all_undisturbed h -> db_after sha empty_db h = Ret d -> shuffle order -> id32 c ->
    exists os found l, selectOffersSingle sha256 order zone now d c = Ret (os, found) /\
      NoDup l /\ (forall o, In o l <-> recorded h o /\ fresh zone now (o_expiry o) = true) /\
      Permutation os (flat_map (copies c) l) /\ (found = true <-> os <> []).
  Proof.
    intros P U E S C. destruct (inv_after h P) as (d' & L & E' & I). assert (d' = d) by congruence. subst.
    destruct (single_exact h zone now order d L c P I U S C) as (os & found & Q & Pm & F). exists os, found. eexists. split; [exact Q|].
    split; [|split; [|split; [exact Pm|exact F]]].
    - apply NoDup_filter, (nodup_L h d L I).
    - intros o. rewrite filter_In, (i_rec _ _ _ I). tauto.
  Qed.

  Lemma copies_in c o x : In x (copies c o) <-> x = o /\ In c (o_cids o).
  Proof.
    unfold copies. rewrite in_map_iff. split.
    - intros (y & <- & Y). apply filter_In in Y. destruct Y as [Y E]. apply bytes_eqb_eq in E. subst. auto.
    - intros [-> I]. exists c. split; [reflexivity|]. apply filter_In. split; [exact I|apply bytes_eqb_refl'].
  Qed.
  Lemma copies_nodup c o : NoDup (o_cids o) -> NoDup (copies c o).
  Proof.
    unfold copies. intros N. assert (Len : (length (filter (bytes_eqb c) (o_cids o)) <= 1)%nat).
    { induction (o_cids o) as [|a l IH]; [cbn; lia|]. inversion N as [|? ? N1 N2]; subst. cbn [filter]. destruct (bytes_eqb c a) eqn:E; [|auto].
      apply bytes_eqb_eq in E. subst a. destruct (filter (bytes_eqb c) l) as [|y t] eqn:F; [cbn; lia|]. exfalso. apply N1.
      assert (Y : In y (filter (bytes_eqb c) l)) by (rewrite F; left; reflexivity). apply filter_In in Y. destruct Y as [Y E]. apply bytes_eqb_eq in E. subst. exact Y. }
    destruct (filter (bytes_eqb c) (o_cids o)) as [|a [|b l]]; cbn [map]; [constructor|repeat constructor; intros []|cbn in Len; lia].
  Qed.
  Lemma flat_copies_nodup c l : NoDup l -> (forall o, In o l -> NoDup (o_cids o)) -> NoDup (flat_map (copies c) l).
  Proof.
    induction l as [|o l IH]; intros N A; [constructor|]. cbn [flat_map]. inversion N as [|? ? N1 N2]; subst.
    assert (Tl : NoDup (flat_map (copies c) l)) by (apply IH; [exact N2|intros y Y; apply A; right; exact Y]).
    assert (Hd : NoDup (copies c o)) by (apply copies_nodup, A; left; reflexivity).
    assert (Dj : forall x, In x (copies c o) -> ~ In x (flat_map (copies c) l)).
    { intros x X H. apply copies_in in X. destruct X as [-> _]. apply in_flat_map in H. destruct H as (y & Y & H). apply copies_in in H. destruct H as [<- _]. contradiction. }
    clear -Tl Hd Dj. induction (copies c o) as [|a t IHt]; [exact Tl|]. cbn [app]. inversion Hd as [|? ? H1 H2]; subst. constructor.
    - intros H. apply in_app_iff in H. destruct H as [H|H]; [contradiction|apply (Dj a (or_introl eq_refl) H)].
    - apply IHt; [exact H2|]. intros x X. apply Dj. right. exact X.
  Qed.

  Lemma sql_single_once_pf h d zone now order c : proper_attempts sha256 sha h -> all_undisturbed h -> (forall o f, In (o, f) h -> NoDup (o_cids o)) ->
    db_after sha empty_db h = Ret d -> shuffle order -> id32 c ->
    exists os found, selectOffersSingle sha256 order zone now d c = Ret (os, found) /\
      NoDup os /\ (forall o, In o os <-> recorded h o /\ fresh zone now (o_expiry o) = true /\ In c (o_cids o)) /\ (found = true <-> os <> []).
  Proof.
    intros P U Nd E S C. destruct (sql_single_exact_pf h d zone now order c P U E S C) as (os & found & l & Q & N & M & Pm & F).
    exists os, found. split; [exact Q|]. split; [|split; [|exact F]].
    - apply (Permutation_NoDup (Permutation_sym Pm)), flat_copies_nodup; [exact N|]. intros o O. apply M in O. destruct O as [R _].
      apply recorded_in in R. destruct R as (f & I & _). eapply Nd; eauto.
    - intros o. split.
      + intros O. apply (Permutation_in _ Pm), in_flat_map in O. destruct O as (y & Y & O). apply copies_in in O. destruct O as [-> O]. apply M in Y. tauto.
      + intros (R & Fr & Ic). apply (Permutation_in _ (Permutation_sym Pm)), in_flat_map. exists o. split; [apply M; auto|apply copies_in; auto].
  Qed.

  Lemma sql_range_pf h d zone now order max lo hi : proper_attempts sha256 sha h -> db_after sha empty_db h = Ret d -> shuffle order -> id32 lo -> id32 hi ->
    exists os found, selectOffersRange sha256 order zone now d max lo hi = Ret (os, found) /\
      (forall x, In x os -> exists o, recorded h o /\ fresh zone now (o_expiry o) = true /\ remains_of x o /\ in_range lo hi x) /\
      (max <= 0 -> forall o, stored h o -> fresh zone now (o_expiry o) = true -> in_range lo hi o -> In o os) /\
      (0 < max -> Z.of_nat (length os) <= max) /\
      (found = true <-> os <> []).
  Proof. intros P E. destruct (inv_after h P) as (d' & L & E' & I). assert (d' = d) by congruence. subst. intros. eapply range_some; eauto. Qed.

  Lemma sql_range_exact_pf h d zone now order max lo hi : proper_attempts sha256 sha h -> all_undisturbed h -> db_after sha empty_db h = Ret d -> shuffle order -> id32 lo -> id32 hi ->
    exists all found, NoDup all /\ (forall o, In o all <-> recorded h o /\ fresh zone now (o_expiry o) = true /\ in_range lo hi o) /\
      let os := if 0 <? max then firstn (Z.to_nat max) all else all in
      selectOffersRange sha256 order zone now d max lo hi = Ret (os, found) /\ (found = true <-> os <> []).
  Proof.
    intros P U E S Lo Hi. destruct (inv_after h P) as (d' & L & E' & I). assert (d' = d) by congruence. subst.
    destruct (range_exact h zone now order d L max lo hi P I U S Lo Hi) as (all & found & Pm & Q). exists all, found. split; [|split; [|exact Q]].
    - apply (Permutation_NoDup (Permutation_sym Pm)), NoDup_filter, (nodup_L h d L I).
    - intros o. split.
      + intros O. apply (Permutation_in _ Pm), filter_In in O. rewrite andb_true_iff, in_rangeb_iff, (i_rec _ _ _ I) in O. exact O.
      + intros O. apply (Permutation_in _ (Permutation_sym Pm)), filter_In. rewrite andb_true_iff, in_rangeb_iff, (i_rec _ _ _ I). exact O.
  Qed.

  Lemma sql_digest_pf h d zone now order x : proper_attempts sha256 sha h -> db_after sha empty_db h = Ret d -> shuffle order ->
    (forall o, recorded h o -> GetMessageDigest sha o = Ret x -> fresh zone now (o_expiry o) = true -> stored h o) ->
    exists r found, selectOffersDigest sha256 order zone now d x = Ret (r, found) /\
      (forall o, r = Some o <-> stored h o /\ GetMessageDigest sha o = Ret x /\ fresh zone now (o_expiry o) = true) /\
      (found = true <-> r <> None).
  Proof. intros P E. destruct (inv_after h P) as (d' & L & E' & I). assert (d' = d) by congruence. subst. intros. eapply digest_query; eauto. Qed.

  Lemma sql_retry_pf h1 o f h2 : undisturbed o f -> exists x, stored (h1 ++ (o, f) :: h2) x /\ same_terms x o.
  Proof.
    intros U. assert (I : In (o, f) (h1 ++ (o, f) :: h2)) by (apply in_or_app; right; left; reflexivity).
    destruct (recorded_exists _ o f I (U O (Nat.le_0_l _))) as (x & R & S). exists x. split; [|exact S]. split; [exact R|]. exists o, f. auto.
  Qed.

  Lemma sql_retry_lookup_pf h1 o f h2 d zone now order c : proper_attempts sha256 sha (h1 ++ (o, f) :: h2) -> undisturbed o f ->
    db_after sha empty_db (h1 ++ (o, f) :: h2) = Ret d -> shuffle order -> fresh zone now (o_expiry o) = true -> In c (o_cids o) ->
    exists os x, selectOffersSingle sha256 order zone now d c = Ret (os, true) /\ In x os /\ stored (h1 ++ (o, f) :: h2) x /\ same_terms x o.
  Proof.
    intros P U E S F I. destruct (sql_retry_pf h1 o f h2 U) as (x & St & T).
    assert (C : id32 c).
    { assert (I' : In (o, f) (h1 ++ (o, f) :: h2)) by (apply in_or_app; right; left; reflexivity).
      destruct (wire_parts o (proj1 (proj1 P o f I'))) as (_ & Fa & _). rewrite Forall_forall in Fa. auto. }
    destruct (sql_single_pf _ d zone now order c P E S C) as (os & found & Q & _ & A & Fo).
    assert (X : In x os). { destruct T as (T1 & T2 & T3 & T4 & T5). apply A; [exact St|rewrite T4; exact F|rewrite T2; exact I]. }
    exists os, x. split; [|auto]. rewrite Q. f_equal. f_equal. apply Fo. intros ->. destruct X.
  Qed.

  Lemma sql_retry_digest_pf h1 o f h2 d zone now order dg : proper_attempts sha256 sha (h1 ++ (o, f) :: h2) -> undisturbed o f ->
    db_after sha empty_db (h1 ++ (o, f) :: h2) = Ret d -> shuffle order -> fresh zone now (o_expiry o) = true -> GetMessageDigest sha o = Ret dg ->
    exists x, selectOffersDigest sha256 order zone now d dg = Ret (Some x, true) /\ stored (h1 ++ (o, f) :: h2) x /\ same_terms x o.
  Proof.
    intros P U E S F D. destruct (sql_retry_pf h1 o f h2 U) as (x & St & T).
    assert (Dx : GetMessageDigest sha x = Ret dg). { rewrite <- D. destruct T as (T1 & T2 & T3 & T4 & T5). unfold GetMessageDigest. rewrite T1, T2, T3, T4, T5. reflexivity. }
    destruct (sql_digest_pf _ d zone now order dg P E S) as (r & found & Q & M & Fo).
    - intros y Ry Dy _. destruct (recorded_in _ _ Ry) as (g & G & _). destruct (recorded_in _ _ (proj1 St)) as (g' & G' & _).
      assert (Eq : same_terms y x) by (apply (proj2 P y g x g' G G'); congruence).
      rewrite (recorded_unique _ y x Ry (proj1 St) Eq). exact St.
    - assert (R : r = Some x). { apply M. split; [exact St|]. split; [exact Dx|]. destruct T as (_ & _ & _ & T4 & _). rewrite T4. exact F. }
      exists x. split; [|auto]. rewrite Q, R. f_equal. f_equal. apply Fo. congruence.
  Qed.
End proofs.
