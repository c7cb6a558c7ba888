From Coq Require Import List ZArith Bool Lia Permutation.
From Verif Require Import Base BaseProofs Ids Offer Provider RecordConc RecordConcSpec.
Import ListNotations.
Open Scope nat_scope.

Definition b2n (b : bool) : nat := if b then 1 else 0.
Definition nhold (r : recorder) : nat := match r_at r with InN | GotN _ | OutN => 1 | _ => 0 end.
Definition ahold (r : recorder) : nat := match r_at r with InA | GotA _ | OutA => 1 | _ => 0 end.
Fixpoint sum (f : recorder -> nat) (l : list recorder) : nat := match l with [] => 0 | x :: r => f x + sum f r end.
Lemma sum_app f a b : sum f (a ++ b) = sum f a + sum f b.
Proof. induction a; cbn; lia. Qed.
Lemma sum_in f x l : In x l -> f x <= sum f l.
Proof. induction l as [|y l IH]; cbn; [tauto|]. intros [->|H]; [lia|]. apply IH in H. lia. Qed.
Lemma set_mid {A} (a : list A) x b y : set_nth (a ++ x :: b) (length a) y = a ++ y :: b.
Proof. induction a; cbn; congruence. Qed.

(** Not written yet. *)
Definition left_ (k : gostring) (r : recorder) : list offer :=
  if bytes_eqb k (r_gateway r) then match r_at r with AtN | InN | GotN _ => r_todo r | _ => tl (r_todo r) end else [].

Definition acked (m : memory) (g : gostring) (a : option acknowledgement) (o : offer) : Prop :=
  forall x c, a = Some x -> filed_under o c -> exists y, kept (ack_map m) c g = Some y.
Definition rel (m : memory) (x : gostring * option acknowledgement * list offer) (r : recorder) : Prop :=
  r_gateway r = fst (fst x) /\ r_ack r = snd (fst x) /\
  exists done, snd x = done ++ r_todo r /\ Forall (acked m (r_gateway r) (r_ack r)) done /\
    (r_at r <> AtN -> r_todo r <> []) /\
    match r_at r with
    | GotN l => l = entry (node_offers m) (r_gateway r)
    | GotA c => exists o t, r_todo r = o :: t /\ filed_under o c
    | OutA => exists o t, r_todo r = o :: t /\ acked m (r_gateway r) (r_ack r) o
    | _ => True
    end.
Definition genuine (a0 : list (gostring * list (gostring * acknowledgement))) (l : list (gostring * option acknowledgement * list offer)) (m : memory) : Prop :=
  forall c g x, kept (ack_map m) c g = Some x -> kept a0 c g = Some x \/ acknowledged l c g x.
Definition grows (m m' : memory) : Prop := forall c g, kept (ack_map m) c g <> None -> kept (ack_map m') c g <> None.

Definition inv n0 a0 l (s : recording) : Prop :=
  sum nhold (recorders s) = b2n (n_locked (memory_of s)) /\ sum ahold (recorders s) = b2n (a_locked (memory_of s)) /\
  (forall k, Permutation (entry (node_offers (memory_of s)) k ++ flat_map (left_ k) (recorders s)) (entry n0 k ++ accepted_by k l)) /\
  Forall2 (rel (memory_of s)) l (recorders s) /\ genuine a0 l (memory_of s) /\
  (forall c g, kept a0 c g <> None -> kept (ack_map (memory_of s)) c g <> None).

Lemma inv_start n0 a0 l : inv n0 a0 l (begin_recording n0 a0 l).
Proof.
  unfold inv, begin_recording. cbn [memory_of recorders n_locked a_locked node_offers ack_map b2n].
  assert (Z : forall f, (forall x, f (accepted x) = 0) -> sum f (map accepted l) = 0). { intros f H. induction l; cbn; [reflexivity|]. rewrite H, IHl. reflexivity. }
  split; [apply Z; reflexivity|]. split; [apply Z; reflexivity|]. split; [|split; [|split]].
  - intros k. apply Permutation_app_head. unfold accepted_by. clear. induction l as [|x l IH]; cbn; [constructor|]. apply Permutation_app; [|exact IH]. unfold left_. cbn. reflexivity.
  - clear. induction l as [|x l IH]; cbn; constructor; [|exact IH]. split; [reflexivity|]. split; [reflexivity|]. exists []. repeat split; [constructor|]. cbn. congruence.
  - intros c g x H. left. exact H.
  - auto.
Qed.

Lemma acked_grows m m' g a o : grows m m' -> acked m g a o -> acked m' g a o.
Proof. intros G A x c E F. destruct (A x c E F) as (y & K). destruct (kept (ack_map m') c g) eqn:Q; [eauto|]. exfalso. apply (G c g); congruence. Qed.
Lemma rel_grows m m' x r : grows m m' -> (forall l, r_at r = GotN l -> entry (node_offers m') (r_gateway r) = entry (node_offers m) (r_gateway r)) -> rel m x r -> rel m' x r.
Proof.
  intros G N (A & B & d & E & F & T & P). split; [exact A|]. split; [exact B|]. exists d. split; [exact E|]. split.
  - eapply Forall_impl; [|exact F]. intros o. apply acked_grows, G.
  - split; [exact T|]. destruct (r_at r) eqn:Q; auto.
    + rewrite P. symmetry. exact (N _ eq_refl).
    + destruct P as (o & t & X & Y). exists o, t. split; [exact X|]. eapply acked_grows; eassumption.
Qed.
Lemma grows_same m m' : ack_map m' = ack_map m -> grows m m'.
Proof. intros H c g. rewrite H. auto. Qed.

Lemma kept_set m c g a c' g' : kept (aset bytes_eqb m c (aset bytes_eqb (match aget bytes_eqb m c with Some x => x | None => [] end) g a)) c' g' =
  if bytes_eqb c' c && bytes_eqb g' g then Some a else kept m c' g'.
Proof.
  unfold kept. rewrite (aget_aset bytes_eqb bytes_eqb_eq). destruct (bytes_eqb_spec c' c) as [->|N]; cbn [andb]; [|reflexivity].
  rewrite (aget_aset bytes_eqb bytes_eqb_eq). destruct (bytes_eqb g' g); [reflexivity|]. destruct (aget bytes_eqb m c); reflexivity.
Qed.
Lemma kept_new m c c' g' : kept (match aget bytes_eqb m c with Some _ => m | None => aset bytes_eqb m c [] end) c' g' = kept m c' g'.
Proof.
  destruct (aget bytes_eqb m c) eqn:E; [reflexivity|]. unfold kept. rewrite (aget_aset bytes_eqb bytes_eqb_eq). destruct (bytes_eqb_spec c' c) as [->|N]; [|reflexivity]. rewrite E. reflexivity.
Qed.
Lemma entry_set m k v k' : entry (aset bytes_eqb m k v) k' = if bytes_eqb k' k then v else entry m k'.
Proof. unfold entry. rewrite (aget_aset bytes_eqb bytes_eqb_eq). destruct (bytes_eqb k' k); reflexivity. Qed.

(** What one step does to its goroutine and the memory. *)
Lemma step_facts a0 l m r m' r' x : record_step m r = Some (m', r') -> rel m x r -> In x l -> genuine a0 l m ->
  rel m' x r' /\ genuine a0 l m' /\ grows m m' /\
  (nhold r' + b2n (n_locked m) = nhold r + b2n (n_locked m') \/ (nhold r = 1 /\ nhold r' = 0 /\ n_locked m' = false)) /\
  (ahold r' + b2n (a_locked m) = ahold r + b2n (a_locked m') \/ (ahold r = 1 /\ ahold r' = 0 /\ a_locked m' = false)) /\
  ((node_offers m' = node_offers m /\ forall k, left_ k r' = left_ k r) \/
   (nhold r = 1 /\ exists o, (forall k, entry (node_offers m') k = entry (node_offers m) k ++ (if bytes_eqb k (r_gateway r) then [o] else [])) /\
      forall k, left_ k r = (if bytes_eqb k (r_gateway r) then [o] else []) ++ left_ k r')).
Proof.
  intros H R I G. pose proof R as (Rg & Ra & d & E & F & T & P). unfold record_step in H. destruct (r_todo r) as [|o t] eqn:Et; [discriminate|].
  destruct r as [p g a td]. cbn [r_at r_gateway r_ack r_todo] in *. subst td.
  assert (K : forall m2 p2, ack_map m2 = ack_map m -> (forall c, p2 <> GotA c) -> p2 <> OutA -> (forall l2, p2 = GotN l2 -> l2 = entry (node_offers m2) g) ->
    rel m2 x (go (Recorder p g a (o :: t)) p2)).
  { intros m2 p2 A N1 N2 N3. split; [exact Rg|]. split; [exact Ra|]. exists d. cbn. split; [exact E|]. split.
    - eapply Forall_impl; [|exact F]. intros o'. apply acked_grows, grows_same, A.
    - split; [discriminate|]. destruct p2; auto; [exfalso; eapply N1; reflexivity|contradiction]. }
  assert (KG : forall m2, ack_map m2 = ack_map m -> genuine a0 l m2) by (intros m2 A c' g' x'; rewrite A; apply G).
  assert (KL : forall p2, match p, p2 with (AtN | InN | GotN _), (AtN | InN | GotN _) => True | (OutN | AtA | InA | GotA _ | OutA), (OutN | AtA | InA | GotA _ | OutA) => True | _, _ => False end ->
    forall k, left_ k (go (Recorder p g a (o :: t)) p2) = left_ k (Recorder p g a (o :: t))).
  { intros p2 Q k. unfold left_, go. cbn. destruct (bytes_eqb k g); [|reflexivity]. destruct p, p2; cbn in Q; tauto. }
  destruct p as [ | |sent| | | |cid| ].
  - destruct (n_locked m) eqn:L; [discriminate|]. inversion H; subst m' r'; clear H. cbn [with_n n_locked a_locked node_offers ack_map].
    split; [apply K; try reflexivity; discriminate|]. split; [apply KG; reflexivity|]. split; [apply grows_same; reflexivity|]. cbn [b2n].
    split; [left; reflexivity|]. split; [left; reflexivity|]. left. split; [reflexivity|]. apply KL. exact Logic.I.
  - inversion H; subst m' r'; clear H. split; [apply K; try reflexivity; try discriminate|]. { intros l2 Q. inversion Q. reflexivity. }
    split; [exact G|]. split; [apply grows_same; reflexivity|]. split; [left; reflexivity|]. split; [left; reflexivity|]. left. split; [reflexivity|]. apply KL. exact Logic.I.
  - inversion H; subst m' r'; clear H. cbn [with_n n_locked a_locked node_offers ack_map].
    split; [apply K; try reflexivity; discriminate|]. split; [apply KG; reflexivity|]. split; [apply grows_same; reflexivity|].
    split; [left; reflexivity|]. split; [left; reflexivity|]. right. split; [reflexivity|]. exists o. split.
    + intros k. rewrite entry_set. destruct (bytes_eqb_spec k g) as [->|N]; [rewrite P; reflexivity|rewrite app_nil_r; reflexivity].
    + intros k. unfold left_. cbn. destruct (bytes_eqb k g); reflexivity.
  - inversion H; subst m' r'; clear H. cbn [with_n n_locked a_locked node_offers ack_map].
    destruct a as [a|].
    + split; [apply K; try reflexivity; discriminate|]. split; [apply KG; reflexivity|]. split; [apply grows_same; reflexivity|].
      split; [right; repeat split; reflexivity|]. split; [left; reflexivity|]. left. split; [reflexivity|]. apply KL. exact Logic.I.
    + split.
      * split; [exact Rg|]. split; [exact Ra|]. exists (d ++ [o]). cbn. split; [rewrite <- app_assoc; exact E|]. split.
        -- apply Forall_app. split; [eapply Forall_impl; [|exact F]; intros o'; apply acked_grows, grows_same; reflexivity|]. constructor; [|constructor]. intros y c Q. discriminate Q.
        -- split; [congruence|exact Logic.I].
      * split; [apply KG; reflexivity|]. split; [apply grows_same; reflexivity|]. split; [right; repeat split; reflexivity|]. split; [left; reflexivity|]. left. split; [reflexivity|].
        intros k. unfold left_. cbn. reflexivity.
  - destruct (a_locked m) eqn:L; [discriminate|]. inversion H; subst m' r'; clear H. cbn [with_a n_locked a_locked node_offers ack_map].
    split; [apply K; try reflexivity; discriminate|]. split; [apply KG; reflexivity|]. split; [apply grows_same; reflexivity|]. cbn [b2n].
    split; [left; reflexivity|]. split; [left; reflexivity|]. left. split; [reflexivity|]. apply KL. exact Logic.I.
  - destruct (o_cids o) as [|c cs] eqn:C; [discriminate|]. inversion H; subst m' r'; clear H. cbn [with_a n_locked a_locked node_offers ack_map].
    assert (GR : grows m (with_a m (a_locked m) (match aget bytes_eqb (ack_map m) (ToString c) with Some _ => ack_map m | None => aset bytes_eqb (ack_map m) (ToString c) [] end))).
    { intros c' g'. cbn. rewrite kept_new. auto. }
    split.
    + split; [exact Rg|]. split; [exact Ra|]. exists d. cbn [go r_at r_todo r_gateway r_ack]. split; [exact E|]. split; [eapply Forall_impl; [|exact F]; intros o'; apply acked_grows, GR|].
      split; [discriminate|]. exists o, t. split; [reflexivity|]. exists c, cs. split; [exact C|reflexivity].
    + split; [intros c' g' x'; cbn; rewrite kept_new; apply G|]. split; [exact GR|]. split; [left; reflexivity|]. split; [left; reflexivity|]. left. split; [reflexivity|]. apply KL. exact Logic.I.
  - inversion H; subst m' r'; clear H. cbn [with_a n_locked a_locked node_offers ack_map]. destruct P as (o' & t' & Q & FU). inversion Q; subst o' t'; clear Q.
    assert (GR : grows m (with_a m (a_locked m) (match a with Some a => aset bytes_eqb (ack_map m) cid (aset bytes_eqb (match aget bytes_eqb (ack_map m) cid with Some x => x | None => [] end) g a) | None => ack_map m end))).
    { intros c' g'. destruct a as [a|]; [|auto]. cbn [with_a ack_map]. rewrite kept_set. destruct (bytes_eqb c' cid && bytes_eqb g' g); [discriminate|auto]. }
    split.
    + split; [exact Rg|]. split; [exact Ra|]. exists d. cbn [go r_at r_todo r_gateway r_ack]. split; [exact E|]. split; [eapply Forall_impl; [|exact F]; intros o'; apply acked_grows, GR|].
      split; [discriminate|]. exists o, t. split; [reflexivity|]. intros y c -> FU'. cbn [with_a ack_map]. rewrite kept_set.
      assert (c = cid) as ->. { destruct FU as (i1 & r1 & X1 & ->), FU' as (i2 & r2 & X2 & ->). rewrite X1 in X2. inversion X2. reflexivity. }
      rewrite !bytes_eqb_refl. cbn [andb]. eexists. reflexivity.
    + split; [|split; [exact GR|split; [left; reflexivity|split; [left; reflexivity|left; split; [reflexivity|apply KL; exact Logic.I]]]]].
      intros c' g' x'. destruct a as [a|]; [|apply G]. cbn [with_a ack_map]. rewrite kept_set. destruct (bytes_eqb_spec c' cid) as [->|]; cbn [andb]; [|apply G].
      destruct (bytes_eqb_spec g' g) as [->|]; [|apply G]. intros Q. inversion Q; subst x'. right. exists (snd x), o. destruct x as [[xg xa] xo]. cbn in *. subst xg xa. split; [exact I|].
      split; [|exact FU]. rewrite E. apply in_app_iff. cbn. auto.
  - inversion H; subst m' r'; clear H. cbn [with_a n_locked a_locked node_offers ack_map]. destruct P as (o' & t' & Q & A). inversion Q; subst o' t'; clear Q. split.
    + split; [exact Rg|]. split; [exact Ra|]. exists (d ++ [o]). cbn. split; [rewrite <- app_assoc; exact E|]. split.
      * apply Forall_app. split; [eapply Forall_impl; [|exact F]; intros o'; apply acked_grows, grows_same; reflexivity|]. constructor; [|constructor]. eapply acked_grows; [|exact A]. apply grows_same. reflexivity.
      * split; [congruence|exact Logic.I].
    + split; [apply KG; reflexivity|]. split; [apply grows_same; reflexivity|]. split; [left; reflexivity|]. split; [right; repeat split; reflexivity|]. left. split; [reflexivity|].
      intros k. unfold left_. cbn. reflexivity.
Qed.

Lemma nhold_le r : nhold r <= 1. Proof. unfold nhold. destruct (r_at r); lia. Qed.

Lemma inv_step n0 a0 l s i s' : inv n0 a0 l s -> recording_step s i = Some s' -> inv n0 a0 l s'.
Proof.
  intros (N & A & P & R & G & O) H. unfold recording_step in H. destruct (nth_error (recorders s) i) as [r|] eqn:E; [|discriminate].
  destruct (record_step (memory_of s) r) as [[m' r']|] eqn:S; [|discriminate]. inversion H; subst s'; clear H. destruct s as [m rs]. cbn [memory_of recorders] in *.
  apply nth_error_split in E. destruct E as (a & b & -> & <-). rewrite set_mid. apply Forall2_app_inv_r in R. destruct R as (la & lb' & Ra & Rb & ->).
  inversion Rb as [|x r0 lb rs0 Rx Rb' Q1 Q2]; subst lb' r0 rs0. clear Rb.
  destruct (step_facts a0 _ m r m' r' x S Rx (in_elt x la lb) G) as (Rx' & G' & GR & Hn & Ha & W).
  rewrite !sum_app in *. cbn [sum] in *.
  assert (OTH : forall q, nhold r = 1 -> In q a \/ In q b -> nhold q = 0).
  { intros q X Y. destruct (n_locked m); cbn [b2n] in N; destruct Y as [Y|Y]; apply (sum_in nhold) in Y; lia. }
  assert (REL : forall y q, In q a \/ In q b -> rel m y q -> rel m' y q).
  { intros y q Y. apply rel_grows; [exact GR|]. intros l2 Q. destruct W as [(W & _)|(W & o & W1 & _)]; [rewrite W; reflexivity|].
    exfalso. pose proof (OTH q W Y) as Z. unfold nhold in Z. rewrite Q in Z. discriminate. }
  unfold inv. cbn [memory_of recorders]. rewrite !sum_app. cbn [sum]. split; [|split; [|split; [|split; [|split]]]].
  - destruct Hn as [Hn|(X & Y & Z)]; [lia|]. rewrite Z. destruct (n_locked m); cbn [b2n] in *; lia.
  - destruct Ha as [Ha|(X & Y & Z)]; [lia|]. rewrite Z. destruct (a_locked m); cbn [b2n] in *; lia.
  - intros k. rewrite <- (P k). rewrite !flat_map_app. cbn [flat_map]. destruct W as [(W1 & W2)|(_ & o & W1 & W2)].
    + rewrite W1, W2. reflexivity.
    + rewrite W1, (W2 k). destruct (bytes_eqb k (r_gateway r)); cbn [app]; [|rewrite app_nil_r; reflexivity].
      rewrite <- app_assoc. apply Permutation_app_head. cbn [app]. apply Permutation_middle.
  - apply Forall2_app; [|constructor; [exact Rx'|]].
    + assert (Q : forall q, In q a -> forall y, rel m y q -> rel m' y q) by (intros q I y; apply REL; auto). clear - Ra Q.
      induction Ra; constructor; [apply Q; [left; reflexivity|assumption]|apply IHRa; intros; apply Q; [right|]; assumption].
    + assert (Q : forall q, In q b -> forall y, rel m y q -> rel m' y q) by (intros q I y; apply REL; auto). clear - Rb' Q.
      induction Rb'; constructor; [apply Q; [left; reflexivity|assumption]|apply IHRb'; intros; apply Q; [right|]; assumption].
  - exact G'.
  - intros c g X. apply GR, O, X.
Qed.
Lemma inv_run n0 a0 l es s s' : inv n0 a0 l s -> recording_run s es = Some s' -> inv n0 a0 l s'.
Proof.
  revert s. induction es as [|e es IH]; cbn; intros s G H; [inversion H; subst; exact G|].
  destruct (recording_step s e) eqn:E; [|discriminate]. eapply IH; [eapply inv_step; eassumption|exact H].
Qed.

(** Somebody can go on. *)
Lemma sum_pos f l : sum f l <> 0 -> exists r, In r l /\ f r <> 0.
Proof. induction l as [|x l IH]; cbn; [tauto|]. intros H. destruct (Nat.eq_dec (f x) 0) as [E|E]; [|exists x; auto]. destruct IH as (r & I & Q); [lia|]. exists r. auto. Qed.
Lemma rel_of {A B} (R : A -> B -> Prop) la lb r : Forall2 R la lb -> In r lb -> exists x, In x la /\ R x r.
Proof. induction 1; cbn; [tauto|]. intros [->|I]; [eexists; eauto|]. destruct (IHForall2 I) as (z & ? & ?). eauto. Qed.
Lemma can_go n0 a0 l s : inv n0 a0 l s -> Forall (fun x => Forall (fun o => o_cids o <> []) (snd x)) l ->
  (forall r, In r (recorders s) -> r_todo r = []) \/ exists i s', recording_step s i = Some s'.
Proof.
  intros (N & A & _ & R & _) C.
  assert (GO : forall r, In r (recorders s) -> (nhold r <> 0 \/ ahold r <> 0 \/ (r_todo r <> [] /\ n_locked (memory_of s) = false /\ a_locked (memory_of s) = false)) -> exists i s', recording_step s i = Some s').
  { intros r I Q. pose proof I as J. apply In_nth_error in J. destruct J as (i & J). exists i. unfold recording_step. rewrite J.
    destruct (rel_of _ _ _ _ R I) as (x & Ix & (_ & _ & d & E & _ & T & _)). rewrite Forall_forall in C. specialize (C x Ix). rewrite E, Forall_app in C. destruct C as (_ & C).
    assert (TD : r_todo r <> []). { destruct Q as [Q|[Q|[Q _]]]; [apply T|apply T|exact Q]; intros X; unfold nhold, ahold in Q; rewrite X in Q; apply Q; reflexivity. }
    unfold record_step. destruct (r_todo r) as [|o t] eqn:Et; [congruence|]. inversion C; subst.
    unfold nhold, ahold in Q. destruct (r_at r); try (eexists; reflexivity).
    - destruct Q as [Q|[Q|(_ & -> & _)]]; try congruence. eexists; reflexivity.
    - destruct Q as [Q|[Q|(_ & _ & ->)]]; try congruence. eexists; reflexivity.
    - destruct (o_cids o); [congruence|]. eexists; reflexivity. }
  destruct (n_locked (memory_of s)) eqn:L. { right. destruct (sum_pos nhold (recorders s)) as (r & I & Q); [rewrite N; cbn; lia|]. apply (GO r I). auto. }
  destruct (a_locked (memory_of s)) eqn:L2. { right. destruct (sum_pos ahold (recorders s)) as (r & I & Q); [rewrite A; cbn; lia|]. apply (GO r I). auto. }
  assert (D : forall r, {r_todo r = []} + {~ r_todo r = []}) by (intros r; destruct (r_todo r); [left; reflexivity|right; discriminate]).
  destruct (Forall_Exists_dec (fun r => r_todo r = []) D (recorders s)) as [F|F].
  - left. rewrite Forall_forall in F. exact F.
  - right. apply Exists_exists in F. destruct F as (r & I & Q). apply (GO r I). auto.
Qed.

(** ** Steps left *)
Definition pos (p : point) : nat := match p with AtN => 0 | InN => 1 | GotN _ => 2 | OutN => 3 | AtA => 4 | InA => 5 | GotA _ => 6 | OutA => 7 end.
Definition rest (r : recorder) : nat := 8 * length (r_todo r) - pos (r_at r).
Lemma rest_step m r m' r' : record_step m r = Some (m', r') -> rest r' < rest r.
Proof.
  unfold record_step. destruct r as [p g a td]. cbn [r_todo r_at r_gateway r_ack]. destruct td as [|o t]; [discriminate|]. unfold rest. cbn [r_todo r_at length].
  destruct p; intros H.
  all: repeat match type of H with context [match ?x with _ => _ end] => destruct x; try discriminate H end; inversion H; subst; cbn [go next_offer r_todo r_at pos tl length]; lia.
Qed.
Lemma rest_run s es s' : recording_run s es = Some s' -> length es + sum rest (recorders s') <= sum rest (recorders s).
Proof.
  revert s. induction es as [|e es IH]; cbn; intros s H; [inversion H; subst; lia|]. destruct (recording_step s e) as [s1|] eqn:E; [|discriminate]. apply IH in H.
  unfold recording_step in E. destruct (nth_error (recorders s) e) as [r|] eqn:N; [|discriminate]. destruct (record_step (memory_of s) r) as [[m' r']|] eqn:S; [|discriminate].
  inversion E; subst s1; clear E. apply nth_error_split in N. destruct N as (a & b & N & <-). cbn [recorders] in H. rewrite N, set_mid, !sum_app in *. cbn [sum] in *. apply rest_step in S. lia.
Qed.
Lemma rest_start n a l : sum rest (recorders (begin_recording n a l)) = 8 * length (flat_map snd l).
Proof. cbn [begin_recording recorders]. induction l as [|x l IH]; cbn [map sum flat_map]; [reflexivity|]. rewrite IH, app_length. unfold rest, accepted. cbn [r_todo r_at pos]. lia. Qed.
