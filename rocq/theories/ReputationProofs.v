(** Proofs about [Reputation.v]. *)
From Coq Require Import String List ZArith Bool Lia Sorting.Permutation.
From Coq Require Import ZifyBool.
From Verif Require Import Base BaseProofs Ids Crypto Message Offer WireSpec Schema Messages MessagesProofs OfferProofs OfferStoreProofs
  Rest Reputation ReputationSpec.
Import ListNotations.
Open Scope Z_scope.

Definition look (r : reps) (c : bytes) : option Z := aget bytes_eqb r (ToString c).

Lemma wrap64_id z : - 2 ^ 63 <= z < 2 ^ 63 -> wrap64 z = z.
Proof. intros H. unfold wrap64. rewrite Z.mod_small; lia. Qed.

Lemma get_shown r c : GetClientReputation r (Some c) = Ret (shown (look r c)).
Proof. unfold GetClientReputation, getClientReputation, id_text, deref, look, shown. cbn [obind]. destruct (aget _ _ _); reflexivity. Qed.

Lemma get_look r c v : GetClientReputation r (Some c) = Ret (v, true) <-> look r c = Some v.
Proof. rewrite get_shown. unfold shown. destruct (look r c); split; intros E; congruence. Qed.

Lemma look_set r c v c' : id32 c -> id32 c' ->
  look (aset bytes_eqb r (ToString c) v) c' = if bytes_eqb c c' then Some v else look r c'.
Proof.
  intros H H'. unfold look. destruct (bytes_eqb c c') eqn:E.
  - apply bytes_eqb_eq in E. subst c'. apply (aget_aset_eq bytes_eqb bytes_eqb_eq).
  - apply (aget_aset_neq bytes_eqb bytes_eqb_eq). intros X. apply ToString_inj in X; auto. subst.
    rewrite bytes_eqb_refl' in E. discriminate.
Qed.

Definition clamp (z : Z) : Z :=
  if z >? clientMaxReputation then clientMaxReputation
  else if z <? clientMinReputaiton then clientMinReputaiton else z.

Lemma clamp_limited z : clamp z = limited z.
Proof. unfold clamp, limited, clientMaxReputation, clientMinReputaiton. repeat match goal with |- context[if ?b then _ else _] => destruct b eqn:? end; lia. Qed.

Lemma amount_worth e : amount e = worth e.
Proof. destruct e; reflexivity. Qed.

Lemma change_some r c a v : look r c = Some v ->
  changeClientReputation r (Some c) a = Ret (clamp (wrap64 (v + a)), aset bytes_eqb r (ToString c) (clamp (wrap64 (v + a)))).
Proof. intros H. unfold changeClientReputation, id_text, deref, look in *. cbn [obind]. rewrite H. reflexivity. Qed.

Lemma change_none r c a : look r c = None -> changeClientReputation r (Some c) a = Panic.
Proof. intros H. unfold changeClientReputation, id_text, deref, look in *. cbn [obind]. rewrite H. reflexivity. Qed.

(** The effect with wrapping arithmetic. *)
Definition weffect (cur : option Z) (o : op) : option Z :=
  match o, cur with
  | Challenge _, None => Some 9
  | Challenge _, Some v => Some (clamp (wrap64 (v + -1)))
  | Reported _ e, Some v => Some (clamp (wrap64 (v + amount e)))
  | Reported _ _, None => None
  | SetTo _ v, _ => Some v
  | AdminSetTo _ v, Some _ => Some v
  | AdminSetTo _ _, None => None
  end.

Lemma set_eq r c v : setClientReputation r (Some c) v = Ret (aset bytes_eqb r (ToString c) v).
Proof. reflexivity. Qed.

Lemma getc_eq r c : getClientReputation r (Some c) = Ret (shown (look r c)).
Proof. exact (get_shown r c). Qed.

Lemma do_op_look r o c : id32 c -> proper_op o ->
  look (do_op r o) c = if about c o then weffect (look r c) o else look r c.
Proof.
  intros Hc Ho. unfold about, proper_op in *. destruct (target o) as [i|] eqn:Ei.
  2:{ destruct o; cbn in Ei; subst; reflexivity. }
  destruct (bytes_eqb i c) eqn:E.
  - apply bytes_eqb_eq in E. subst i.
    destruct o; cbn [target] in Ei; subst id; unfold do_op, ClientEstablishmentChallenge, Report, SetClientReputation, ClientExists,
      establishClientReputation; rewrite ?getc_eq; cbn [obind snd fst weffect].
    + destruct (look r c) as [v|] eqn:L; cbn [shown snd].
      * cbn [obind]. rewrite (change_some r c _ v L). cbn [obind snd]. rewrite look_set, bytes_eqb_refl' by auto. reflexivity.
      * rewrite set_eq. cbn [obind]. erewrite change_some by (rewrite look_set, bytes_eqb_refl' by auto; reflexivity).
        cbn [obind snd]. rewrite look_set, bytes_eqb_refl' by auto. reflexivity.
    + destruct (look r c) as [v|] eqn:L.
      * rewrite (change_some r c _ v L). cbn [obind snd]. rewrite look_set, bytes_eqb_refl' by auto. reflexivity.
      * rewrite (change_none r c _ L). cbn [obind]. exact L.
    + rewrite set_eq, look_set, bytes_eqb_refl' by auto. reflexivity.
    + destruct (look r c) as [v'|] eqn:L; cbn [shown snd]; [|exact L].
      rewrite set_eq, look_set, bytes_eqb_refl' by auto. reflexivity.
  - destruct o; cbn [target] in Ei; subst id; unfold do_op, ClientEstablishmentChallenge, Report, SetClientReputation, ClientExists,
      establishClientReputation; rewrite ?getc_eq; cbn [obind snd fst].
    + destruct (look r i) as [v|] eqn:L; cbn [shown snd].
      * cbn [obind]. rewrite (change_some r i _ v L). cbn [obind snd]. rewrite look_set, E by auto. reflexivity.
      * rewrite set_eq. cbn [obind]. erewrite change_some by (rewrite look_set, bytes_eqb_refl' by auto; reflexivity).
        cbn [obind snd]. rewrite !look_set, E by auto. reflexivity.
    + destruct (look r i) as [v|] eqn:L.
      * rewrite (change_some r i _ v L). cbn [obind snd]. rewrite look_set, E by auto. reflexivity.
      * rewrite (change_none r i _ L). reflexivity.
    + rewrite set_eq, look_set, E by auto. reflexivity.
    + destruct (look r i) as [v'|] eqn:L; cbn [shown snd]; [|reflexivity].
      rewrite set_eq, look_set, E by auto. reflexivity.
Qed.

Lemma ops_look h : forall r c, id32 c -> Forall proper_op h ->
  look (fold_left do_op h r) c = fold_left weffect (filter (about c) h) (look r c).
Proof.
  induction h as [|o h IH]; intros r c Hc Hp; [reflexivity|].
  inversion Hp; subst. cbn [fold_left filter]. rewrite IH, do_op_look by auto.
  destruct (about c o); reflexivity.
Qed.

Lemma limited_bounds z : in_bounds (limited z).
Proof. unfold in_bounds, limited. lia. Qed.

Lemma worth_small e : -300 <= worth e <= 1000.
Proof. destruct e; cbn; lia. Qed.

Definition roomy (cur : option Z) : Prop := match cur with Some v => - 2 ^ 62 <= v <= 2 ^ 62 | None => True end.

Lemma weffect_effect cur o : roomy cur -> roomy_op o -> weffect cur o = effect cur o /\ roomy (effect cur o).
Proof.
  assert (P : 2 ^ 62 = 4611686018427387904) by reflexivity.
  assert (P' : 2 ^ 63 = 9223372036854775808) by reflexivity.
  intros H Ho. destruct o, cur as [v'|]; cbn [weffect effect roomy roomy_op] in *; try (split; [reflexivity|]; lia).
  - rewrite clamp_limited, wrap64_id by lia. split; [reflexivity|].
    pose proof (limited_bounds (v' - 1)); unfold in_bounds in *; lia.
  - rewrite clamp_limited, amount_worth. pose proof (worth_small e). rewrite wrap64_id by lia. split; [reflexivity|].
    pose proof (limited_bounds (v' + worth e)); unfold in_bounds in *; lia.
Qed.

Lemma fold_effect l : forall cur, roomy cur -> Forall roomy_op l -> fold_left weffect l cur = fold_left effect l cur.
Proof.
  induction l as [|o l IH]; intros cur H Hl; [reflexivity|]. inversion Hl; subst. cbn [fold_left].
  destruct (weffect_effect cur o) as [E R]; auto. rewrite E. apply IH; auto.
Qed.

Lemma Forall_filter {A} (P : A -> Prop) f l : Forall P l -> Forall P (filter f l).
Proof. intros H. apply Forall_forall. intros x Hx. apply filter_In in Hx. rewrite Forall_forall in H. apply H, Hx. Qed.

Lemma history_pf : forall h c, Forall proper_op h -> Forall roomy_op h -> id32 c ->
  GetClientReputation (fold_left do_op h []) (Some c) = Ret (shown (reputation h c)).
Proof.
  intros h c Hp Hr Hc. rewrite get_shown, ops_look by auto. unfold reputation. rewrite fold_effect; [reflexivity|exact I|].
  apply Forall_filter, Hr.
Qed.

Lemma independence_pf : forall h h' c, Forall proper_op h -> Forall proper_op h' -> id32 c ->
  filter (about c) h = filter (about c) h' ->
  GetClientReputation (fold_left do_op h []) (Some c) = GetClientReputation (fold_left do_op h' []) (Some c).
Proof. intros h h' c Hp Hp' Hc E. rewrite !get_shown, !ops_look, E by auto. reflexivity. Qed.

Lemma unknown_fold c l : Forall (fun o => about c o = true /\ establishes c o = false) l -> fold_left weffect l None = None.
Proof.
  induction 1 as [|o l [A E] _ IH]; [reflexivity|]. cbn [fold_left]. unfold about in A.
  destruct o; cbn in *; destruct id; try discriminate; try (rewrite A in E; discriminate); exact IH.
Qed.

Lemma unknown_pf : forall h c, Forall proper_op h -> id32 c -> existsb (establishes c) h = false ->
  GetClientReputation (fold_left do_op h []) (Some c) = Ret (0, false).
Proof.
  intros h c Hp Hc E. rewrite get_shown, ops_look by auto. cbn [look aget].
  rewrite (unknown_fold c); [reflexivity|]. apply Forall_forall. intros o Ho. apply filter_In in Ho. destruct Ho as [Hi Ha].
  split; [exact Ha|]. destruct (establishes c o) eqn:X; [|reflexivity].
  assert (existsb (establishes c) h = true) by (apply existsb_exists; eauto). congruence.
Qed.

Lemma step_known o cur : cur <> None -> weffect cur o <> None.
Proof. destruct o, cur; cbn; congruence. Qed.

Lemma known_fold l : forall cur, cur <> None -> fold_left weffect l cur <> None.
Proof. induction l; intros cur H; cbn [fold_left]; [exact H|]. apply IHl, step_known, H. Qed.

(** Once established, always known. *)
Lemma established_pf : forall h c, Forall proper_op h -> id32 c -> existsb (establishes c) h = true ->
  exists v, GetClientReputation (fold_left do_op h []) (Some c) = Ret (v, true).
Proof.
  intros h c Hp Hc E. rewrite get_shown, ops_look by auto. cbn [look aget].
  apply existsb_exists in E. destruct E as (o & Hi & Ho). apply in_split in Hi. destruct Hi as (h1 & h2 & ->).
  assert (A : about c o = true). { destruct o; cbn in Ho |- *; destruct id; try discriminate; unfold about; cbn; exact Ho. }
  rewrite filter_app. cbn [filter]. rewrite A. rewrite fold_left_app. cbn [fold_left].
  assert (K : weffect (fold_left weffect (filter (about c) h1) None) o <> None).
  { destruct o; cbn in Ho; destruct id; try discriminate; destruct (fold_left weffect (filter (about c) h1) None); discriminate. }
  apply (known_fold (filter (about c) h2)) in K.
  destruct (fold_left _ _ _) as [v|] eqn:X; [|contradiction]. exists v. reflexivity.
Qed.

(** ** Bounds, whatever is interleaved *)

Definition ok_reps (r : reps) : Prop := forall k v, aget bytes_eqb r k = Some v -> in_bounds v.

Lemma ok_set r k v : ok_reps r -> in_bounds v -> ok_reps (aset bytes_eqb r k v).
Proof.
  intros H Hv k' v'. rewrite (aget_aset bytes_eqb bytes_eqb_eq). destruct (bytes_eqb _ _); [|apply H].
  intros E. injection E as <-. exact Hv.
Qed.

Lemma clamp_bounds z : in_bounds (clamp z).
Proof. rewrite clamp_limited. apply limited_bounds. Qed.

Lemma ok_setc r id v r' : ok_reps r -> in_bounds v -> setClientReputation r id v = Ret r' -> ok_reps r'.
Proof.
  intros H Hv. unfold setClientReputation. destruct (id_text id) as [s| |]; cbn [obind]; try discriminate.
  intros E. apply ret_inj in E. subst. apply ok_set; auto.
Qed.

Lemma ok_change r id a x : ok_reps r -> changeClientReputation r id a = Ret x -> in_bounds (fst x) /\ ok_reps (snd x).
Proof.
  intros H. unfold changeClientReputation. destruct (id_text id) as [s| |]; cbn [obind]; try discriminate.
  destruct (aget bytes_eqb r s) as [v|]; [|discriminate]. intros E. apply ret_inj in E. subst x. cbn [fst snd].
  fold (clamp (wrap64 (v + a))). split; [apply clamp_bounds|]. apply ok_set; [exact H|apply clamp_bounds].
Qed.

Definition bounded_pc (p : pc) : Prop := match p with AtSet _ v => in_bounds v | _ => True end.
Definition bounded_thread (t : thread) : Prop := bounded_pc (t_pc t) /\ Forall bounded_op (t_todo t).

Lemma initial_bounds : in_bounds clientInitialReputation.
Proof. unfold in_bounds, clientInitialReputation. lia. Qed.

Lemma step_pc_ok r p x : ok_reps r -> bounded_pc p -> step_pc r p = Ret x -> ok_reps (fst x) /\ bounded_pc (snd x).
Proof.
  intros H Hp. destruct p; cbn [step_pc].
  - intros E. apply ret_inj in E. subst. cbn. auto.
  - unfold establishClientReputation. destruct (setClientReputation _ _ _) as [r'| |] eqn:E; cbn [obind]; try discriminate.
    intros X. apply ret_inj in X. subst. cbn. split; [|exact I]. eapply ok_setc; eauto using initial_bounds.
  - destruct (changeClientReputation _ _ _) as [y| |] eqn:E; cbn [obind]; try discriminate.
    intros X. apply ret_inj in X. subst. cbn. split; [|exact I]. eapply ok_change; eauto.
  - unfold SetClientReputation. destruct (setClientReputation _ _ _) as [r'| |] eqn:E; cbn [obind]; try discriminate.
    intros X. apply ret_inj in X. subst. cbn. split; [|exact I]. eapply ok_setc; eauto.
Qed.

Lemma step_op_ok r o x : ok_reps r -> bounded_op o -> step_op r o = Ret x -> ok_reps (fst x) /\ bounded_pc (snd x).
Proof.
  intros H Ho. destruct o; cbn [step_op].
  - destruct (getClientReputation _ _) as [y| |] eqn:E; cbn [obind]; try discriminate.
    intros X. apply ret_inj in X. subst. cbn. split; [exact H|]. destruct (snd y); exact I.
  - unfold Report. destruct (changeClientReputation _ _ _) as [y| |] eqn:E; cbn [obind]; try discriminate.
    intros X. apply ret_inj in X. subst. cbn. split; [|exact I]. eapply ok_change; eauto.
  - unfold SetClientReputation. destruct (setClientReputation _ _ _) as [r'| |] eqn:E; cbn [obind]; try discriminate.
    intros X. apply ret_inj in X. subst. cbn. split; [|exact I]. eapply ok_setc; eauto.
  - destruct (ClientExists _ _) as [y| |] eqn:E; cbn [obind]; try discriminate.
    intros X. apply ret_inj in X. subst. cbn. split; [exact H|]. destruct y; [exact Ho|exact I].
Qed.

Lemma Forall_set_nth {A} (P : A -> Prop) l : forall i x, Forall P l -> P x -> Forall P (set_nth l i x).
Proof. induction l; intros [|i] x H Hx; cbn; inversion H; subst; constructor; auto. Qed.

Definition sys_ok (s : system) : Prop := ok_reps (s_reps s) /\ Forall bounded_thread (s_threads s).

Lemma settle_ok s i todo x : sys_ok s -> Forall bounded_op todo ->
  (forall y, x = Ret y -> ok_reps (fst y) /\ bounded_pc (snd y)) -> sys_ok (settle s i todo x).
Proof.
  intros [H1 H2] Ht Hx. unfold settle. destruct x as [[r p]| |].
  - destruct (Hx _ eq_refl) as [A B]. split; [exact A|]. cbn. apply Forall_set_nth; [exact H2|]. split; [exact B|exact Ht].
  - split; [exact H1|]. cbn. apply Forall_set_nth; [exact H2|]. split; [exact I|exact Ht].
  - split; [exact H1|]. cbn. apply Forall_set_nth; [exact H2|]. split; [exact I|exact Ht].
Qed.

Lemma step_ok s i : sys_ok s -> sys_ok (step s i).
Proof.
  intros H. pose proof H as [H1 H2]. unfold step. destruct (nth_error (s_threads s) i) as [[p todo]|] eqn:E; [|exact H].
  assert (T : bounded_thread (Thread p todo)). { rewrite Forall_forall in H2. apply H2. eapply nth_error_In; eauto. }
  destruct T as [Tp Tt]. cbn [t_pc t_todo] in *.
  destruct p.
  - destruct todo as [|o todo]; [exact H|]. inversion Tt; subst. apply settle_ok; auto. intros y Ey. eapply step_op_ok; eauto.
  - apply settle_ok; auto. intros y Ey. eapply step_pc_ok; [| |exact Ey]; auto.
  - apply settle_ok; auto. intros y Ey. eapply step_pc_ok; [| |exact Ey]; auto.
  - apply settle_ok; auto. intros y Ey. eapply step_pc_ok; [| |exact Ey]; auto.
Qed.

Lemma run_ok sched : forall s, sys_ok s -> sys_ok (run s sched).
Proof. induction sched as [|i l IH]; intros s H; [exact H|]. cbn [run fold_left]. apply IH, step_ok, H. Qed.

Lemma concurrent_bounds_pf : forall jobs sched, Forall (Forall bounded_op) jobs ->
  all_in_bounds (s_reps (run (start [] jobs) sched)).
Proof.
  intros jobs sched H c v Hv. apply get_look in Hv. unfold look in Hv.
  assert (K : sys_ok (run (start [] jobs) sched)).
  { apply run_ok. split; [intros k x X; discriminate|]. cbn. apply Forall_map. eapply Forall_impl; [|exact H].
    intros l Hl. split; [exact I|exact Hl]. }
  destruct K as [K _]. eapply K; eauto.
Qed.

Lemma bounds_pf : forall h, Forall bounded_op h -> all_in_bounds (fold_left do_op h []).
Proof.
  intros h H c v Hv. apply get_look in Hv. unfold look in Hv.
  assert (K : forall l r, ok_reps r -> Forall bounded_op l -> ok_reps (fold_left do_op l r)).
  { induction l as [|o l IH]; intros r Hr Hl; [exact Hr|]. inversion Hl; subst. cbn [fold_left]. apply IH; auto.
    unfold do_op. destruct o.
    - unfold ClientEstablishmentChallenge. destruct (getClientReputation _ _) as [y| |]; cbn [obind]; auto. destruct (snd y).
      + cbn [obind]. destruct (changeClientReputation _ _ _) as [z| |] eqn:E; cbn [obind]; auto. eapply ok_change; eauto.
      + unfold establishClientReputation. destruct (setClientReputation _ _ _) as [r'| |] eqn:E'; cbn [obind]; auto.
        destruct (changeClientReputation _ _ _) as [z| |] eqn:E; cbn [obind]; auto.
        eapply ok_change; [|exact E]. eapply ok_setc; eauto using initial_bounds.
    - unfold Report. destruct (changeClientReputation _ _ _) as [z| |] eqn:E; cbn [obind]; auto. eapply ok_change; eauto.
    - unfold SetClientReputation. destruct (setClientReputation _ _ _) as [r'| |] eqn:E; auto. eapply ok_setc; eauto.
    - destruct (ClientExists _ _) as [[]| |]; cbn [obind]; auto.
      unfold SetClientReputation. destruct (setClientReputation _ _ _) as [r'| |] eqn:E; auto. eapply ok_setc; eauto. }
  eapply K; eauto. intros k x X. discriminate.
Qed.

(** ** No panics *)

(** Clients are never forgotten. *)
Definition has (r : reps) (k : gostring) : Prop := aget bytes_eqb r k <> None.

Lemma has_set r k v k' : has r k' -> has (aset bytes_eqb r k v) k'.
Proof. unfold has. rewrite (aget_aset bytes_eqb bytes_eqb_eq). destruct (bytes_eqb _ _); [discriminate|auto]. Qed.

(** The operation cannot panic when started; the goroutine cannot panic where it is. *)
Definition safe_op (r : reps) (o : op) : Prop :=
  match o with
  | Reported (Some i) _ => has r (ToString i)
  | Reported None _ => False
  | _ => target o <> None
  end.
Definition safe_pc (r : reps) (p : pc) : Prop :=
  match p with
  | Idle => True
  | AtChange (Some i) => has r (ToString i)
  | AtChange None => False
  | AtEstablish i | AtSet i _ => i <> None
  end.
Definition safe_thread (r : reps) (t : thread) : Prop := safe_pc r (t_pc t) /\ Forall (safe_op r) (t_todo t).
Definition grows (r r' : reps) : Prop := forall k, has r k -> has r' k.

Lemma safe_op_grows r r' o : grows r r' -> safe_op r o -> safe_op r' o.
Proof. intros G. destruct o; cbn; auto. destruct id; auto. Qed.
Lemma safe_pc_grows r r' p : grows r r' -> safe_pc r p -> safe_pc r' p.
Proof. intros G. destruct p; cbn; auto. destruct id; auto. Qed.
Lemma safe_thread_grows r r' t : grows r r' -> safe_thread r t -> safe_thread r' t.
Proof.
  intros G [H1 H2]. split; [eapply safe_pc_grows; eauto|]. eapply Forall_impl; [|exact H2]. intros o. apply safe_op_grows, G.
Qed.

Lemma grows_set r k v : grows r (aset bytes_eqb r k v).
Proof. intros k'. apply has_set. Qed.
Lemma has_set_same r k v : has (aset bytes_eqb r k v) k.
Proof. unfold has. rewrite (aget_aset_eq bytes_eqb bytes_eqb_eq). discriminate. Qed.

Lemma step_pc_safe r p : safe_pc r p -> exists r' p', step_pc r p = Ret (r', p') /\ grows r r' /\ safe_pc r' p'.
Proof.
  intros H. destruct p as [|[i|]|[i|]|[i|] v]; cbn in H; try contradiction; cbn [step_pc].
  - exists r, Idle. repeat split; auto. intros k; auto.
  - unfold establishClientReputation. rewrite set_eq. cbn [obind]. eexists _, _. split; [reflexivity|]. split; [apply grows_set|apply has_set_same].
  - unfold has in H. destruct (aget bytes_eqb r (ToString i)) as [v|] eqn:L; [|contradiction].
    rewrite (change_some r i _ v L). cbn [obind snd]. eexists _, _. split; [reflexivity|]. split; [apply grows_set|exact I].
  - unfold SetClientReputation. rewrite set_eq. cbn [obind]. eexists _, _. split; [reflexivity|]. split; [apply grows_set|exact I].
Qed.

Lemma step_op_safe r o : safe_op r o -> exists r' p', step_op r o = Ret (r', p') /\ grows r r' /\ safe_pc r' p'.
Proof.
  intros H. destruct o as [[i|]|[i|] e|[i|] v|[i|] v]; cbn in H; try contradiction; cbn [step_op].
  - rewrite getc_eq. cbn [obind]. eexists _, _. split; [reflexivity|]. split; [intros k; auto|].
    unfold shown. destruct (look r i) eqn:L; cbn [snd safe_pc]; [|discriminate]. unfold has. unfold look in L. rewrite L. discriminate.
  - unfold Report. unfold has in H. destruct (aget bytes_eqb r (ToString i)) as [v|] eqn:L; [|contradiction].
    rewrite (change_some r i _ v L). cbn [obind snd]. eexists _, _. split; [reflexivity|]. split; [apply grows_set|exact I].
  - unfold SetClientReputation. rewrite set_eq. cbn [obind]. eexists _, _. split; [reflexivity|]. split; [apply grows_set|exact I].
  - unfold ClientExists. rewrite getc_eq. cbn [obind]. eexists _, _. split; [reflexivity|]. split; [intros k; auto|].
    destruct (snd _); cbn; [discriminate|exact I].
Qed.

Definition sys_safe (s : system) : Prop := s_panics s = 0%nat /\ Forall (safe_thread (s_reps s)) (s_threads s).

Lemma settle_safe s i todo r p : sys_safe s -> grows (s_reps s) r -> safe_pc r p -> Forall (safe_op (s_reps s)) todo ->
  sys_safe (settle s i todo (Ret (r, p))).
Proof.
  intros [H1 H2] G Hp Ht. split; [exact H1|]. cbn. apply Forall_set_nth.
  - eapply Forall_impl; [|exact H2]. intros t. apply safe_thread_grows, G.
  - split; [exact Hp|]. eapply Forall_impl; [|exact Ht]. intros o. apply safe_op_grows, G.
Qed.

Lemma step_safe s i : sys_safe s -> sys_safe (step s i).
Proof.
  intros H. pose proof H as [H1 H2]. unfold step. destruct (nth_error (s_threads s) i) as [[p todo]|] eqn:E; [|exact H].
  assert (T : safe_thread (s_reps s) (Thread p todo)). { rewrite Forall_forall in H2. apply H2. eapply nth_error_In; eauto. }
  destruct T as [Tp Tt]. cbn [t_pc t_todo] in *.
  destruct p; [destruct todo as [|o todo]; [exact H|]; inversion Tt; subst; destruct (step_op_safe (s_reps s) o) as (r' & p' & X & G & K); auto
    |destruct (step_pc_safe _ _ Tp) as (r' & p' & X & G & K) ..]; rewrite X; apply settle_safe; auto.
Qed.

Lemma run_safe sched : forall s, sys_safe s -> sys_safe (run s sched).
Proof. induction sched as [|i l IH]; intros s H; [exact H|]. cbn [run fold_left]. apply IH, step_safe, H. Qed.

Lemma harmless_safe r o : harmless r o -> safe_op r o.
Proof.
  intros [H K]. destruct o; cbn in *; auto. destruct (K _ _ eq_refl) as (c & v & E & X). cbn in E. subst id.
  apply get_look in X. unfold has. unfold look in X. rewrite X. discriminate.
Qed.

Lemma no_panic_pf : forall r jobs sched, Forall (Forall (harmless r)) jobs -> s_panics (run (start r jobs) sched) = 0%nat.
Proof.
  intros r jobs sched H. apply run_safe. split; [reflexivity|]. cbn. apply Forall_map. eapply Forall_impl; [|exact H].
  intros l Hl. split; [exact I|]. cbn. eapply Forall_impl; [|exact Hl]. intros o. apply harmless_safe.
Qed.

(** ** Clients known beforehand: as if one after the other *)

Definition pending_pc (p : pc) : list op :=
  match p with Idle => [] | AtEstablish id | AtChange id => [Challenge id] | AtSet id v => [AdminSetTo id v] end.
Definition pending (t : thread) : list op := pending_pc (t_pc t) ++ t_todo t.

Definition kop (r : reps) (o : op) : Prop := exists i, target o = Some i /\ has r (ToString i).
Definition kpc (r : reps) (p : pc) : Prop :=
  match p with Idle => True | AtEstablish _ => False | AtChange i | AtSet i _ => exists c, i = Some c /\ has r (ToString c) end.
Definition kthread (r : reps) (t : thread) : Prop := kpc r (t_pc t) /\ Forall (kop r) (t_todo t).

Definition serial (r : reps) (jobs : list (list op)) (s : system) : Prop :=
  grows r (s_reps s) /\ Forall (kthread r) (s_threads s) /\
  exists order, Permutation (concat jobs) (order ++ concat (map pending (s_threads s))) /\ s_reps s = fold_left do_op order r.

Lemma concat_set_nth l : forall i (t t' : thread), nth_error l i = Some t ->
  forall x, Permutation (pending t) (x ++ pending t') ->
  Permutation (concat (map pending l)) (x ++ concat (map pending (set_nth l i t'))).
Proof.
  induction l as [|u l IH]; intros [|i] t t' E x P; try discriminate.
  - cbn in E. injection E as ->. cbn [set_nth map concat]. rewrite P, <- app_assoc. reflexivity.
  - cbn [set_nth map concat]. rewrite (IH i t t' E x P).
    rewrite !app_assoc. apply Permutation_app_tail. apply Permutation_app_comm.
Qed.

Lemma look_has r c : has r (ToString c) -> exists v, look r c = Some v.
Proof. unfold has, look. destruct (aget _ _ _); [eauto|contradiction]. Qed.

Lemma serial_step r jobs s i : serial r jobs s -> serial r jobs (step s i).
Proof.
  intros H. pose proof H as (G & K & order & P & E). unfold step.
  destruct (nth_error (s_threads s) i) as [[p todo]|] eqn:N; [|exact H].
  assert (T : kthread r (Thread p todo)). { rewrite Forall_forall in K. apply K. eapply nth_error_In; eauto. }
  destruct T as [Tp Tt]. cbn [t_pc t_todo] in *.
  (* a step that finishes the operation [o] *)
  assert (Done : forall o rest r', pending (Thread p todo) = o :: rest -> Forall (kop r) rest ->
    do_op (s_reps s) o = r' -> grows (s_reps s) r' -> serial r jobs (settle s i rest (Ret (r', Idle)))).
  { intros o rest r' Ep Hr Ed Gr. split; [intros k Hk; apply Gr, G, Hk|]. split.
    { cbn. apply Forall_set_nth; [exact K|]. split; [exact I|exact Hr]. }
    exists (order ++ [o]). split.
    - rewrite P, <- app_assoc. apply Permutation_app_head. cbn [settle s_threads].
      eapply concat_set_nth; [exact N|]. rewrite Ep. reflexivity.
    - cbn [settle s_reps]. rewrite fold_left_app. cbn [fold_left]. rewrite <- E. symmetry. exact Ed. }
  (* a step that does nothing to the map *)
  assert (Same : forall p' rest, pending (Thread p todo) = pending (Thread p' rest) -> kpc r p' -> Forall (kop r) rest ->
    serial r jobs (settle s i rest (Ret (s_reps s, p')))).
  { intros p' rest Ep Hp Hr. split; [exact G|]. split.
    { cbn. apply Forall_set_nth; [exact K|]. split; [exact Hp|exact Hr]. }
    exists order. split; [|exact E]. rewrite P. apply Permutation_app_head. cbn [settle s_threads].
    apply (concat_set_nth _ i _ _ N []). cbn [app]. rewrite Ep. reflexivity. }
  destruct p as [|id|id|id v].
  - destruct todo as [|o todo]; [exact H|]. inversion Tt as [|? ? Ho Ht]; subst.
    destruct Ho as (c & Ec & Hc). pose proof (look_has _ _ (G _ Hc)) as (v & L).
    destruct o; cbn in Ec; subst id; cbn [step_op].
    + rewrite getc_eq, L. cbn [obind shown snd]. apply Same; [reflexivity| |exact Ht]. exists c. auto.
    + unfold Report. rewrite (change_some _ _ _ _ L). cbn [obind snd]. apply (Done (Reported (Some c) e)); auto; [|apply grows_set].
      unfold do_op, Report. rewrite (change_some _ _ _ _ L). reflexivity.
    + unfold SetClientReputation. rewrite set_eq. cbn [obind]. apply (Done (SetTo (Some c) v0)); auto. apply grows_set.
    + unfold ClientExists. rewrite getc_eq, L. cbn [obind shown snd]. apply Same; [reflexivity| |exact Ht]. exists c. auto.
  - contradiction.
  - destruct Tp as (c & -> & Hc). pose proof (look_has _ _ (G _ Hc)) as (v & L). cbn [step_pc].
    rewrite (change_some _ _ _ _ L). cbn [obind snd]. apply (Done (Challenge (Some c))); auto; [|apply grows_set].
    unfold do_op, ClientEstablishmentChallenge. rewrite getc_eq, L. cbn [obind shown snd].
    rewrite (change_some _ _ _ _ L). reflexivity.
  - destruct Tp as (c & -> & Hc). pose proof (look_has _ _ (G _ Hc)) as (v' & L). cbn [step_pc].
    unfold SetClientReputation. rewrite set_eq. cbn [obind]. apply (Done (AdminSetTo (Some c) v)); auto; [|apply grows_set].
    unfold do_op, ClientExists. rewrite getc_eq, L. reflexivity.
Qed.

Lemma known_kop r o : known r o -> kop r o.
Proof. intros (c & v & E & X). exists c. split; [exact E|]. apply get_look in X. unfold has. unfold look in X. rewrite X. discriminate. Qed.

Lemma pending_start jobs : concat (map pending (map (Thread Idle) jobs)) = concat jobs.
Proof. induction jobs; cbn; [reflexivity|]. rewrite IHjobs. reflexivity. Qed.

Lemma serial_pf : forall r jobs sched, Forall (Forall (known r)) jobs -> finished (run (start r jobs) sched) ->
  exists order, Permutation (concat jobs) order /\ s_reps (run (start r jobs) sched) = fold_left do_op order r.
Proof.
  intros r jobs sched H F.
  assert (K : forall l s, serial r jobs s -> serial r jobs (run s l)).
  { induction l as [|i l IH]; intros s Hs; [exact Hs|]. cbn [run fold_left]. apply IH, serial_step, Hs. }
  destruct (K sched (start r jobs)) as (_ & _ & order & P & E).
  { split; [intros k; auto|]. split.
    - cbn. apply Forall_map. eapply Forall_impl; [|exact H]. intros l Hl. split; [exact I|]. cbn.
      eapply Forall_impl; [|exact Hl]. intros o. apply known_kop.
    - exists []. split; [|reflexivity]. cbn. rewrite pending_start. reflexivity. }
  exists order. split; [|exact E]. rewrite P.
  assert (Z : concat (map pending (s_threads (run (start r jobs) sched))) = []).
  { clear P. unfold finished in F. induction F as [|t l Ht _ IH]; [reflexivity|]. subst t. cbn. exact IH. }
  rewrite Z, app_nil_r. reflexivity.
Qed.

(** ** The admin's requests *)

Section admin.
  Variable version : Z.
  Variable supported : list Z.
  Variable sha256 : bytes -> bytes.
  Variable ec_sign : bytes -> bytes -> option bytes.
  Variable blake : bytes -> bytes.

  Notation set_h := (HandleSetReputation version supported sha256 ec_sign blake).
  Notation get_h := (HandleGetReputation version supported sha256 ec_sign blake).

  Lemma decode_sig_set m s : DecodeGatewayAdminSetReputationResponse sha256 (set_sig m s) = DecodeGatewayAdminSetReputationResponse sha256 m.
  Proof. reflexivity. Qed.
  Lemma decode_sig_get m s : DecodeGatewayAdminGetReputationResponse sha256 (set_sig m s) = DecodeGatewayAdminGetReputationResponse sha256 m.
  Proof. reflexivity. Qed.

  Lemma sign_write k ver code m : can_sign ec_sign blake k ->
    exists s, SignAndWrite ec_sign blake (Some k) ver code m = Ret (Json (set_sig m s)).
  Proof.
    intros [A H]. unfold SignAndWrite, SignWith, deref, MessageSign, SignMessage, KeySign. cbn [obind]. rewrite A.
    change (Byte.eqb Byte.x01 Byte.x01) with true. cbv iota.
    destruct (ec_sign _ _) as [raw|] eqn:E; [|exfalso; exact (H _ E)]. cbn [fst snd]. eexists. reflexivity.
  Qed.

  Lemma admin_set_pf : forall k ver r c v request,
    can_sign ec_sign blake k -> id32 c -> int64 v ->
    EncodeGatewayAdminSetReputationRequest version supported (Some c) v = Ret request ->
    exists m r', set_h (Some k) ver r request = Ret (Json m, r') /\
      DecodeGatewayAdminSetReputationResponse sha256 m =
        Ret (OkR (Some c, match look r c with Some _ => v | None => 0 end, match look r c with Some _ => true | None => false end)) /\
      r' = match look r c with Some _ => aset bytes_eqb r (ToString c) v | None => r end.
  Proof.
    intros k ver r c v request Hs Hc Hv Eq.
    destruct (rt_GatewayAdminSetReputationRequest version supported sha256 c v Hc Hv) as (m0 & E0 & _ & D0).
    rewrite Eq in E0. apply ret_inj in E0. subst m0.
    unfold HandleSetReputation. rewrite D0. cbn [obind]. unfold ClientExists. rewrite getc_eq. cbn [obind].
    destruct (look r c) as [old|] eqn:L; cbn [shown snd].
    - unfold SetClientReputation. rewrite set_eq. cbn [obind].
      destruct (rt_GatewayAdminSetReputationResponse version supported sha256 c v true Hc Hv) as (m1 & E1 & _ & D1).
      rewrite E1. cbn [obind]. destruct (sign_write k ver 500 m1 Hs) as (s & ->). cbn [obind].
      eexists _, _. split; [reflexivity|]. rewrite decode_sig_set, D1. auto.
    - cbn [obind].
      destruct (rt_GatewayAdminSetReputationResponse version supported sha256 c 0 false Hc) as (m1 & E1 & _ & D1). { unfold int64; lia. }
      rewrite E1. cbn [obind]. destruct (sign_write k ver 500 m1 Hs) as (s & ->). cbn [obind].
      eexists _, _. split; [reflexivity|]. rewrite decode_sig_set, D1. auto.
  Qed.

  Lemma admin_set_seen_pf : forall k ver r c v request old seen, can_sign ec_sign blake k -> id32 c -> int64 v ->
    EncodeGatewayAdminSetReputationRequest version supported (Some c) v = Ret request ->
    GetClientReputation r (Some c) = Ret (old, seen) ->
    exists m r', set_h (Some k) ver r request = Ret (Json m, r') /\
      DecodeGatewayAdminSetReputationResponse sha256 m = Ret (OkR (Some c, if seen then v else 0, seen)) /\
      GetClientReputation r' (Some c) = Ret (if seen then v else 0, seen) /\
      (forall c', id32 c' -> c' <> c -> GetClientReputation r' (Some c') = GetClientReputation r (Some c')).
  Proof.
    intros k ver r c v request old seen Hs Hc Hv Eq Eg. rewrite get_shown in Eg. apply ret_inj in Eg.
    destruct (admin_set_pf k ver r c v request Hs Hc Hv Eq) as (m & r' & E & D & R). exists m, r'. split; [exact E|]. clear E.
    unfold shown in Eg. destruct (look r c) as [x|] eqn:L; injection Eg as <- <-; subst r'; (split; [exact D|]).
    - split.
      + rewrite get_shown, look_set, bytes_eqb_refl' by auto. reflexivity.
      + intros c' H' N. rewrite !get_shown, look_set by auto. destruct (bytes_eqb c c') eqn:B; [|reflexivity].
        apply bytes_eqb_eq in B. congruence.
    - split; [|reflexivity]. rewrite get_shown, L. reflexivity.
  Qed.

  Lemma admin_get_pf : forall k ver r c request,
    can_sign ec_sign blake k -> id32 c -> (forall v, look r c = Some v -> int64 v) ->
    EncodeGatewayAdminGetReputationRequest version supported (Some c) = Ret request ->
    exists m, get_h (Some k) ver r request = Ret (Json m) /\
      DecodeGatewayAdminGetReputationResponse sha256 m = Ret (OkR (Some c, fst (shown (look r c)), snd (shown (look r c)))).
  Proof.
    intros k ver r c request Hs Hc Hv Eq.
    destruct (rt_GatewayAdminGetReputationRequest version supported sha256 c Hc) as (m0 & E0 & _ & D0).
    rewrite Eq in E0. apply ret_inj in E0. subst m0.
    unfold HandleGetReputation. rewrite D0. cbn [obind]. rewrite get_shown. cbn [obind].
    destruct (rt_GatewayAdminGetReputationResponse version supported sha256 c (fst (shown (look r c))) (snd (shown (look r c))) Hc) as (m1 & E1 & _ & D1).
    { destruct (look r c) as [v|]; cbn; [apply Hv; reflexivity|unfold int64; lia]. }
    rewrite E1. cbn [obind]. destruct (sign_write k ver 500 m1 Hs) as (s & ->).
    eexists. split; [reflexivity|]. rewrite decode_sig_get, D1. reflexivity.
  Qed.

  Lemma admin_get_seen_pf : forall k ver r c request v seen, can_sign ec_sign blake k -> id32 c -> int64 v ->
    EncodeGatewayAdminGetReputationRequest version supported (Some c) = Ret request ->
    GetClientReputation r (Some c) = Ret (v, seen) ->
    exists m, get_h (Some k) ver r request = Ret (Json m) /\
      DecodeGatewayAdminGetReputationResponse sha256 m = Ret (OkR (Some c, v, seen)).
  Proof.
    intros k ver r c request v seen Hs Hc Hv Eq Eg. rewrite get_shown in Eg. apply ret_inj in Eg.
    destruct (admin_get_pf k ver r c request Hs Hc) as (m & E & D); [|exact Eq|].
    - intros x L. rewrite L in Eg. cbn in Eg. injection Eg as -> _. exact Hv.
    - exists m. split; [exact E|]. rewrite D, Eg. reflexivity.
  Qed.
End admin.
