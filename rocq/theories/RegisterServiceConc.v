(** Lemmas about overlapping requests in [RegisterService.v]. *)
From Coq Require Import String List ZArith Bool Lia Permutation.
From Coq Require Import Init.Byte.
From Verif Require Import Base BaseProofs Json JsonProofs OfferStoreSpec Register RegisterSpec RegisterService RegisterServiceSpec RegisterServiceProofs.
Import ListNotations.
Open Scope Z_scope.

(** ** Where a handler can be *)

Inductive shape : request -> program -> Prop :=
| sh_start q : shape q (handle q)
| sh_gateways ids : shape DeleteGateways (delete_each key_gateway ids)
| sh_providers ids : shape DeleteProviders (delete_each key_provider ids)
| sh_end q o : shape q (End o).

Definition key_of (c : command) : gostring :=
  match c with HSet k _ _ | HGet k _ | HGetAll k | HDel k _ => k end.
Definition own_key (q : request) : gostring := if about_gateways q then key_gateway else key_provider.

(** The command a handler sends. *)
Definition own_command (q : request) (c : command) : Prop :=
  key_of c = own_key q /\
  match c with
  | HSet _ f v =>
      (exists r, gateway_in q = Some r /\ f = gr_id r /\ v = json_print (gateway_json r)) \/
      (exists r, provider_in q = Some r /\ f = pr_id r /\ v = json_print (provider_json r))
  | HDel _ _ => q = DeleteGateways \/ q = DeleteProviders
  | _ => True
  end.

Lemma shape_send q c k : shape q (Send c k) -> own_command q c /\ forall x, shape q (k x).
Proof.
  intros H. remember (Send c k) as p eqn:E. destruct H as [q|ids|ids|q o]; [| | |discriminate].
  - destruct q as [b| |i| |b| |i|]; cbn [handle] in *.
    + destruct (bind_gateway b) as [r|] eqn:B; [|discriminate]. injection E as <- <-. split.
      * split; [reflexivity|]. left. exists r. auto.
      * intros []; constructor.
    + injection E as <- <-. split; [split; [reflexivity|exact I]|]. intros []; constructor.
    + injection E as <- <-. split; [split; [reflexivity|exact I]|]. intros []; constructor.
    + injection E as <- <-. split; [split; [reflexivity|exact I]|]. intros []; constructor.
    + destruct (bind_provider b) as [r|] eqn:B; [|discriminate]. injection E as <- <-. split.
      * split; [reflexivity|]. right. exists r. auto.
      * intros []; constructor.
    + injection E as <- <-. split; [split; [reflexivity|exact I]|]. intros []; constructor.
    + injection E as <- <-. split; [split; [reflexivity|exact I]|]. intros [| |v|l]; try constructor.
      destruct (unmarshal _ _ v); constructor.
    + injection E as <- <-. split; [split; [reflexivity|exact I]|]. intros []; constructor.
  - destruct ids as [|j ids]; [discriminate|]. cbn [delete_each] in E. injection E as <- <-.
    split; [split; [reflexivity|auto]|]. intros []; constructor.
  - destruct ids as [|j ids]; [discriminate|]. cbn [delete_each] in E. injection E as <- <-.
    split; [split; [reflexivity|auto]|]. intros []; constructor.
Qed.

(** Every handler of a service is somewhere on its way. *)
Definition shaped (qs : list request) (s : service) : Prop :=
  forall i p, nth_error (snd s) i = Some p -> exists q, nth_error qs i = Some q /\ shape q p.

Lemma turn_cases s i e : turn s i e = s \/
  exists c k, nth_error (snd s) i = Some (Send c k) /\
    turn s i e = (fst (exec (fst s) c e), set_nth (snd s) i (k (snd (exec (fst s) c e)))).
Proof.
  unfold turn. destruct (nth_error (snd s) i) as [[o|c k]|] eqn:E; [left; reflexivity| |left; reflexivity].
  right. exists c, k. split; reflexivity.
Qed.

Lemma arriving_shaped qs d : shaped qs (arriving qs d).
Proof.
  intros i p H. cbn [arriving snd] in H. rewrite nth_error_map in H.
  destruct (nth_error qs i) as [q|]; [|discriminate]. injection H as <-. exists q. split; [reflexivity|constructor].
Qed.

Lemma turn_shaped qs s i e : shaped qs s -> shaped qs (turn s i e).
Proof.
  intros H. destruct (turn_cases s i e) as [->|(c & k & E & ->)]; [exact H|]. intros j p. cbn [snd].
  destruct (Nat.eq_dec j i) as [->|N].
  - rewrite nth_error_set_eq by (apply nth_error_Some; congruence). intros [= <-].
    destruct (H _ _ E) as (q & Q & S). exists q. split; [exact Q|]. apply shape_send in S. apply S.
  - rewrite nth_error_set_neq by congruence. apply H.
Qed.

Lemma turns_app s l l' : turns s (l ++ l') = turns (turns s l) l'.
Proof. unfold turns. apply fold_left_app. Qed.
Lemma turns_cons s i e l : turns s ((i, e) :: l) = turns (turn s i e) l.
Proof. reflexivity. Qed.

Lemma turns_shaped qs l : forall s, shaped qs s -> shaped qs (turns s l).
Proof. induction l as [|[i e] l IH]; intros s H; [exact H|]. rewrite turns_cons. apply IH, turn_shaped, H. Qed.

(** A handler that has not had its turn. *)
Lemma turn_other s i e j : j <> i -> nth_error (snd (turn s i e)) j = nth_error (snd s) j.
Proof.
  intros N. destruct (turn_cases s i e) as [->|(c & k & E & ->)]; [reflexivity|]. cbn [snd]. apply nth_error_set_neq. congruence.
Qed.
Lemma turns_other l j : forall s, ~ In j (map fst l) -> nth_error (snd (turns s l)) j = nth_error (snd s) j.
Proof.
  induction l as [|[i e] l IH]; intros s N; [reflexivity|]. cbn [map fst] in N. rewrite turns_cons, IH by (intros X; apply N; right; exact X).
  apply turn_other. intros ->. apply N. left. reflexivity.
Qed.

(** A handler that has ended stays so. *)
Lemma turn_end s i e j o : nth_error (snd s) j = Some (End o) -> nth_error (snd (turn s i e)) j = Some (End o).
Proof.
  intros H. destruct (Nat.eq_dec j i) as [->|N]; [|rewrite turn_other by exact N; exact H].
  unfold turn. rewrite H. exact H.
Qed.
Lemma turns_end l j o : forall s, nth_error (snd s) j = Some (End o) -> nth_error (snd (turns s l)) j = Some (End o).
Proof. induction l as [|[i e] l IH]; intros s H; [exact H|]. rewrite turns_cons. apply IH, turn_end, H. Qed.

Lemma turn_tidy s i e : tidy (fst s) -> tidy (fst (turn s i e)).
Proof. intros T. destruct (turn_cases s i e) as [->|(c & k & E & ->)]; [exact T|]. apply tidy_exec, T. Qed.
Lemma turns_tidy l : forall s, tidy (fst s) -> tidy (fst (turns s l)).
Proof. induction l as [|[i e] l IH]; intros s T; [exact T|]. rewrite turns_cons. apply IH, turn_tidy, T. Qed.

Lemma exec_hash d c e k : hash (fst (exec d c e)) k = hash d k \/ hash (fst (exec d c e)) k = hash (fst (redis d c (ev_order e))) k.
Proof. unfold exec. destruct (ev_fate e); cbn [fst]; auto. Qed.

(** ** What a turn does to a hash *)

(** [q] registers a node under [f]. *)
Definition posts (q : request) (key f v : gostring) : Prop :=
  (key = key_gateway /\ exists r, gateway_in q = Some r /\ f = gr_id r /\ v = json_print (gateway_json r)) \/
  (key = key_provider /\ exists r, provider_in q = Some r /\ f = pr_id r /\ v = json_print (provider_json r)).
Definition wipes (q : request) (key : gostring) : Prop :=
  (key = key_gateway /\ q = DeleteGateways) \/ (key = key_provider /\ q = DeleteProviders).

Lemma own_set q k f v : own_command q (HSet k f v) -> posts q k f v.
Proof.
  intros [K [(r & P & E)|(r & P & E)]]; cbn [key_of] in K; unfold own_key in K.
  - left. split; [|eauto]. destruct q; try discriminate. exact K.
  - right. split; [|eauto]. destruct q; try discriminate. exact K.
Qed.
Lemma own_del q k f : own_command q (HDel k f) -> wipes q k.
Proof. intros [K [->| ->]]; cbn in K; subst; [left|right]; auto. Qed.

(** Each field after a turn: as before, or set by its registration, or deleted. *)
Lemma turn_field qs s i e key f : shaped qs s -> tidy (fst s) ->
  aget bytes_eqb (hash (fst (turn s i e)) key) f = aget bytes_eqb (hash (fst s) key) f \/
  exists q, nth_error qs i = Some q /\
    ((exists v, posts q key f v /\ aget bytes_eqb (hash (fst (turn s i e)) key) f = Some v) \/
     (wipes q key /\ aget bytes_eqb (hash (fst (turn s i e)) key) f = None)).
Proof.
  intros S T. destruct (turn_cases s i e) as [->|(c & k & E & ->)]; [left; reflexivity|]. cbn [fst].
  destruct (S _ _ E) as (q & Q & H). apply shape_send in H. destruct H as [O _].
  destruct (exec_hash (fst s) c e key) as [X|X]; rewrite X; [left; reflexivity|]. rewrite redis_hash.
  destruct c as [k' f' v|k' f'|k'|k' f']; try (left; reflexivity); destruct (bytes_eqb_spec key k') as [->|N]; try (left; reflexivity).
  - rewrite (aget_aset _ beq_spec). destruct (bytes_eqb_spec f f') as [->|N']; [|left; reflexivity].
    right. exists q. split; [exact Q|]. left. exists v. split; [apply own_set, O|reflexivity].
  - rewrite aget_adel; [|exact beq_spec|apply T]. destruct (bytes_eqb_spec f f') as [->|N']; [|left; reflexivity].
    right. exists q. split; [exact Q|]. right. split; [eapply own_del, O|reflexivity].
Qed.

(** ** Nothing is invented *)

(** Every field of the hash was registered by a request that had its turn. *)
Definition sourced (qs : list request) (had : list nat) (s : service) : Prop :=
  forall key f v, aget bytes_eqb (hash (fst s) key) f = Some v ->
    exists j q, In j had /\ nth_error qs j = Some q /\ posts q key f v.

Lemma turn_sourced qs had s i e : shaped qs s -> tidy (fst s) -> sourced qs had s -> sourced qs (had ++ [i]) (turn s i e).
Proof.
  intros S T H key f v A. destruct (turn_field qs s i e key f S T) as [E|(q & Q & [(v' & P & E)|(_ & E)])]; rewrite E in A.
  - destruct (H _ _ _ A) as (j & q & J & Q & P). exists j, q. split; [apply in_or_app; left; exact J|auto].
  - injection A as ->. exists i, q. split; [apply in_or_app; right; left; reflexivity|auto].
  - discriminate.
Qed.

Lemma posts_gateway q f v : posts q key_gateway f v -> exists r, gateway_in q = Some r /\ f = gr_id r /\ v = json_print (gateway_json r).
Proof. intros [[_ H]|[K _]]; [exact H|]. discriminate K. Qed.
Lemma posts_provider q f v : posts q key_provider f v -> exists r, provider_in q = Some r /\ f = pr_id r /\ v = json_print (provider_json r).
Proof. intros [[K _]|[_ H]]; [discriminate K|exact H]. Qed.

(** What the ended lookups have answered. *)
Definition truthful (qs : list request) (had : list nat) (s : service) : Prop :=
  (forall n i r, nth_error qs n = Some (FindGateway i) -> nth_error (snd s) n = Some (End (Ret (Gateway r))) ->
     gr_id r = i /\ exists j q, In j had /\ nth_error qs j = Some q /\ gateway_in q = Some r) /\
  (forall n l, nth_error qs n = Some ListGateways -> nth_error (snd s) n = Some (End (Ret (Gateways l))) ->
     NoDup (map gr_id l) /\ forall r, In r l -> exists j q, In j had /\ nth_error qs j = Some q /\ gateway_in q = Some r) /\
  (forall n i r, nth_error qs n = Some (FindProvider i) -> nth_error (snd s) n = Some (End (Ret (Provider r))) ->
     pr_id r = i /\ exists j q, In j had /\ nth_error qs j = Some q /\ provider_in q = Some r) /\
  (forall n l, nth_error qs n = Some ListProviders -> nth_error (snd s) n = Some (End (Ret (Providers l))) ->
     NoDup (map pr_id l) /\ forall r, In r l -> exists j q, In j had /\ nth_error qs j = Some q /\ provider_in q = Some r).

Lemma shape_find_gateway i c k : shape (FindGateway i) (Send c k) ->
  Send c k = GetGatewayRegisterByID i.
Proof. intros H. remember (Send c k) as p eqn:E. inversion H; subst; [reflexivity|discriminate]. Qed.
Lemma shape_find_provider i c k : shape (FindProvider i) (Send c k) -> Send c k = GetProviderRegisterByID i.
Proof. intros H. remember (Send c k) as p eqn:E. inversion H; subst; [reflexivity|discriminate]. Qed.
Lemma shape_list_gateways c k : shape ListGateways (Send c k) -> Send c k = GetGatewayRegisters.
Proof. intros H. remember (Send c k) as p eqn:E. inversion H; subst; [reflexivity|discriminate]. Qed.
Lemma shape_list_providers c k : shape ListProviders (Send c k) -> Send c k = GetProviderRegisters.
Proof. intros H. remember (Send c k) as p eqn:E. inversion H; subst; [reflexivity|discriminate]. Qed.

Lemma exec_get d k f e v : snd (exec d (HGet k f) e) = RValue v -> aget bytes_eqb (hash d k) f = Some v.
Proof.
  unfold exec. destruct (ev_fate e); cbn [redis snd]; try discriminate.
  destruct (aget bytes_eqb (hash d k) f); [congruence|discriminate].
Qed.
Lemma exec_all d k e l : snd (exec d (HGetAll k) e) = RAll l -> l = ev_order e (hash d k).
Proof. unfold exec. destruct (ev_fate e); cbn [redis snd]; try discriminate. congruence. Qed.

Lemma listed {R} (id : R -> gostring) (read : gostring -> R) (key : gostring) qs had s (get : request -> option R) text e :
  (forall r, read (text r) = r) ->
  (forall q f v, posts q key f v -> exists r, get q = Some r /\ f = id r /\ v = text r) ->
  tidy (fst s) -> sourced qs had s -> shuffled e ->
  let l := map (fun kv => read (snd kv)) (ev_order e (hash (fst s) key)) in
  NoDup (map id l) /\ forall r, In r l -> exists j q, In j had /\ nth_error qs j = Some q /\ get q = Some r.
Proof.
  intros RT PG T So Sh l.
  assert (K : forall kv, In kv (ev_order e (hash (fst s) key)) -> exists j q r, In j had /\ nth_error qs j = Some q /\ get q = Some r /\
    fst kv = id r /\ snd kv = text r).
  { intros [f v] I. apply (Permutation_in _ (Permutation_sym (Sh _))) in I. apply (In_aget _ beq_spec _ _ _ (T key)) in I.
    destruct (So _ _ _ I) as (j & q & J & Q & P). destruct (PG _ _ _ P) as (r & G & E1 & E2). exists j, q, r. cbn [fst snd]. auto. }
  split.
  - unfold l. rewrite map_map. assert (E : map (fun kv => id (read (snd kv))) (ev_order e (hash (fst s) key)) = map fst (ev_order e (hash (fst s) key))).
    { apply map_ext_in. intros kv I. destruct (K kv I) as (j & q & r & _ & _ & _ & -> & ->). rewrite RT. reflexivity. }
    rewrite E. eapply Permutation_NoDup; [apply Permutation_map, Sh|apply T].
  - intros r I. unfold l in I. apply in_map_iff in I. destruct I as (kv & <- & I). destruct (K kv I) as (j & q & r & J & Q & G & _ & ->).
    rewrite RT. eauto.
Qed.

Lemma turn_truthful qs had s i e : shuffled e -> shaped qs s -> tidy (fst s) -> sourced qs had s -> truthful qs had s ->
  truthful qs (had ++ [i]) (turn s i e).
Proof.
  intros Sh S T So (H1 & H2 & H3 & H4).
  assert (W : forall (P : request -> Prop), (exists j q, In j had /\ nth_error qs j = Some q /\ P q) ->
    exists j q, In j (had ++ [i]) /\ nth_error qs j = Some q /\ P q).
  { intros P (j & q & J & Q & X). exists j, q. split; [apply in_or_app; left; exact J|auto]. }
  assert (C : forall n p, nth_error (snd (turn s i e)) n = Some p ->
    nth_error (snd s) n = Some p \/ (exists q c k, n = i /\ nth_error qs i = Some q /\ shape q (Send c k) /\
      nth_error (snd s) i = Some (Send c k) /\ p = k (snd (exec (fst s) c e)))).
  { intros n p. destruct (turn_cases s i e) as [->|(c & k & E & ->)]; [auto|]. cbn [snd]. destruct (Nat.eq_dec n i) as [->|N].
    - rewrite nth_error_set_eq by (apply nth_error_Some; congruence). intros [= <-]. right. destruct (S _ _ E) as (q & Q & X). exists q, c, k. auto 6.
    - rewrite nth_error_set_neq by congruence. auto. }
  split; [|split; [|split]].
  - intros n f r Q E. apply C in E. destruct E as [E|(q & c & k & -> & Q' & X & E & P)].
    + destruct (H1 _ _ _ Q E) as [I J]. split; [exact I|]. apply (W (fun q => gateway_in q = Some r)), J.
    + rewrite Q in Q'. injection Q' as <-. apply shape_find_gateway in X. injection X as -> ->.
      destruct (snd (exec (fst s) (HGet key_gateway f) e)) as [| |v|] eqn:Y; try discriminate. apply exec_get in Y.
      destruct (So _ _ _ Y) as (j & q & J & Q' & Po). apply posts_gateway in Po. destruct Po as (r' & G & -> & ->).
      rewrite stored_gateway_print in P. injection P as <-. split; [reflexivity|].
      apply (W (fun q => gateway_in q = Some r)). eauto.
  - intros n l Q E. apply C in E. destruct E as [E|(q & c & k & -> & Q' & X & E & P)].
    + destruct (H2 _ _ Q E) as [I J]. split; [exact I|]. intros r R. apply (W (fun q => gateway_in q = Some r)), J, R.
    + rewrite Q in Q'. injection Q' as <-. apply shape_list_gateways in X. injection X as -> ->.
      destruct (snd (exec (fst s) (HGetAll key_gateway) e)) as [| |v|l'] eqn:Y; try discriminate. apply exec_all in Y. subst l'. injection P as ->.
      destruct (listed gr_id stored_gateway key_gateway qs had s gateway_in _ e stored_gateway_print posts_gateway T So Sh) as [N I].
      split; [exact N|]. intros r R. apply (W (fun q => gateway_in q = Some r)), I, R.
  - intros n f r Q E. apply C in E. destruct E as [E|(q & c & k & -> & Q' & X & E & P)].
    + destruct (H3 _ _ _ Q E) as [I J]. split; [exact I|]. apply (W (fun q => provider_in q = Some r)), J.
    + rewrite Q in Q'. injection Q' as <-. apply shape_find_provider in X. injection X as -> ->.
      destruct (snd (exec (fst s) (HGet key_provider f) e)) as [| |v|] eqn:Y; try discriminate. apply exec_get in Y.
      destruct (So _ _ _ Y) as (j & q & J & Q' & Po). apply posts_provider in Po. destruct Po as (r' & G & -> & ->).
      rewrite unmarshal_provider in P. injection P as <-. split; [reflexivity|].
      apply (W (fun q => provider_in q = Some r)). eauto.
  - intros n l Q E. apply C in E. destruct E as [E|(q & c & k & -> & Q' & X & E & P)].
    + destruct (H4 _ _ Q E) as [I J]. split; [exact I|]. intros r R. apply (W (fun q => provider_in q = Some r)), J, R.
    + rewrite Q in Q'. injection Q' as <-. apply shape_list_providers in X. injection X as -> ->.
      destruct (snd (exec (fst s) (HGetAll key_provider) e)) as [| |v|l'] eqn:Y; try discriminate. apply exec_all in Y. subst l'. injection P as ->.
      destruct (listed pr_id stored_provider key_provider qs had s provider_in _ e stored_provider_print posts_provider T So Sh) as [N I].
      split; [exact N|]. intros r R. apply (W (fun q => provider_in q = Some r)), I, R.
Qed.

Lemma turns_truthful qs l : forall had s, (forall x, In x l -> shuffled (snd x)) -> shaped qs s -> tidy (fst s) ->
  sourced qs had s -> truthful qs had s ->
  sourced qs (had ++ map fst l) (turns s l) /\ truthful qs (had ++ map fst l) (turns s l).
Proof.
  induction l as [|[i e] l IH]; intros had s Sh S T So H; cbn [map fst]; [rewrite app_nil_r; auto|].
  rewrite turns_cons. change (i :: map fst l) with ([i] ++ map fst l). rewrite app_assoc. apply IH.
  - intros x X. apply Sh. right. exact X.
  - apply turn_shaped, S.
  - apply turn_tidy, T.
  - apply turn_sourced; assumption.
  - apply turn_truthful; try assumption. apply (Sh (i, e)). left. reflexivity.
Qed.

Lemma arriving_sourced qs : sourced qs [] (arriving qs []).
Proof. intros key f v H. discriminate. Qed.

Lemma handle_end q o : handle q = End o -> exists c, o = Ret (Status c).
Proof.
  destruct q as [b| |i| |b| |i|]; cbn [handle]; try discriminate.
  - destruct (bind_gateway b); [discriminate|]. intros [= <-]. eauto.
  - destruct (bind_provider b); [discriminate|]. intros [= <-]. eauto.
Qed.

Lemma arriving_truthful qs : truthful qs [] (arriving qs []).
Proof.
  assert (H : forall n x, nth_error (snd (arriving qs [])) n = Some (End (Ret x)) -> exists c, x = Status c).
  { intros n x E. cbn [arriving snd] in E. rewrite nth_error_map in E. destruct (nth_error qs n) as [q|]; [|discriminate].
    injection E as E. apply handle_end in E. destruct E as [c [= ->]]. eauto. }
  split; [|split; [|split]]; intros n; intros; edestruct H as [c C]; try eassumption; discriminate.
Qed.

(** ** A confirmed registration stays *)

(** None of the turns deletes or registers under [f]. *)
Definition leaves (qs : list request) (l : list (nat * event)) (key f : gostring) : Prop :=
  forall j q, In j (map fst l) -> nth_error qs j = Some q -> ~ wipes q key /\ forall v, ~ posts q key f v.

Lemma turns_field qs l key f : forall s, shaped qs s -> tidy (fst s) -> leaves qs l key f ->
  aget bytes_eqb (hash (fst (turns s l)) key) f = aget bytes_eqb (hash (fst s) key) f.
Proof.
  induction l as [|[i e] l IH]; intros s S T L; [reflexivity|]. rewrite turns_cons, IH.
  - destruct (turn_field qs s i e key f S T) as [E|(q & Q & X)]; [exact E|].
    destruct (L i q (or_introl eq_refl) Q) as [W P]. destruct X as [(v & Po & _)|(Wi & _)]; [destruct (P _ Po)|destruct (W Wi)].
  - apply turn_shaped, S.
  - apply turn_tidy, T.
  - intros j q J. apply L. right. exact J.
Qed.

(** A registration in its turn. *)
Lemma post_turn qs s j e q : shaped qs s -> nth_error qs j = Some q -> nth_error (snd s) j = Some (handle q) ->
  (forall r, gateway_in q = Some r -> nth_error (snd (turn s j e)) j = Some (End (Ret (Gateway r))) ->
     aget bytes_eqb (hash (fst (turn s j e)) key_gateway) (gr_id r) = Some (json_print (gateway_json r))) /\
  (forall r, provider_in q = Some r -> nth_error (snd (turn s j e)) j = Some (End (Ret (Provider r))) ->
     aget bytes_eqb (hash (fst (turn s j e)) key_provider) (pr_id r) = Some (json_print (provider_json r))).
Proof.
  intros S Q H. split; intros r G.
  - destruct q as [b| |i| |b| |i|]; cbn [gateway_in] in G; try discriminate. cbn [handle] in H. rewrite G in H.
    unfold turn. rewrite H. unfold AddGatewayRegister. cbn [fst snd]. rewrite nth_error_set_eq by (apply nth_error_Some; congruence).
    unfold exec. destruct (ev_fate e); cbn [redis fst snd]; try discriminate. intros _. rewrite hash_set, bytes_eqb_refl. apply aget_aset_eq, beq_spec.
  - destruct q as [b| |i| |b| |i|]; cbn [provider_in] in G; try discriminate. cbn [handle] in H. rewrite G in H.
    unfold turn. rewrite H. unfold AddProviderRegister. cbn [fst snd]. rewrite nth_error_set_eq by (apply nth_error_Some; congruence).
    unfold exec. destruct (ev_fate e); cbn [redis fst snd]; try discriminate. intros _. rewrite hash_set, bytes_eqb_refl. apply aget_aset_eq, beq_spec.
Qed.

Lemma arriving_handle qs d l j q : nth_error qs j = Some q -> ~ In j (map fst l) ->
  nth_error (snd (turns (arriving qs d) l)) j = Some (handle q).
Proof. intros Q N. rewrite turns_other by exact N. cbn [arriving snd]. rewrite nth_error_map, Q. reflexivity. Qed.

Lemma arriving_ok qs l : shaped qs (turns (arriving qs []) l) /\ tidy (fst (turns (arriving qs []) l)).
Proof. split; [apply turns_shaped, arriving_shaped|apply turns_tidy, tidy_empty]. Qed.

Lemma gateway_stays_pf qs before j e between g e' q r : nth_error qs j = Some q -> gateway_in q = Some r ->
  ~ In j (map fst before) ->
  nth_error (snd (turns (arriving qs []) (before ++ [(j, e)]))) j = Some (End (Ret (Gateway r))) ->
  leaves qs between key_gateway (gr_id r) ->
  nth_error qs g = Some (FindGateway (gr_id r)) -> ~ In g (map fst (before ++ (j, e) :: between)) -> ev_fate e' = Fine ->
  nth_error (snd (turns (arriving qs []) (before ++ (j, e) :: between ++ [(g, e')]))) g = Some (End (Ret (Gateway r))).
Proof.
  intros Q G N C L Qg Ng Fe.
  pose proof (arriving_handle qs [] before j q Q N) as H. destruct (arriving_ok qs before) as [S T].
  set (s := turns (arriving qs []) before) in *. rewrite turns_app in C. fold s in C. cbn [turns fold_left fst snd] in C.
  destruct (post_turn qs s j e q S Q H) as [A _]. specialize (A r G C).
  pose proof (turns_field qs between key_gateway (gr_id r) (turn s j e) (turn_shaped _ _ _ _ S) (turn_tidy _ _ _ T) L) as B.
  assert (E : turns (arriving qs []) (before ++ (j, e) :: between ++ [(g, e')]) = turn (turns (turn s j e) between) g e').
  { rewrite turns_app. fold s. rewrite turns_cons, turns_app. reflexivity. }
  rewrite E. assert (X : turns (turn s j e) between = turns (arriving qs []) (before ++ (j, e) :: between)).
  { rewrite turns_app. reflexivity. }
  pose proof (arriving_handle qs [] _ g _ Qg Ng) as Hg. rewrite <- X in Hg. unfold turn at 1. rewrite Hg.
  cbn [handle]. unfold GetGatewayRegisterByID. cbn [snd]. rewrite nth_error_set_eq by (apply nth_error_Some; congruence).
  unfold exec. rewrite Fe. cbn [redis snd]. rewrite B, A. rewrite stored_gateway_print. reflexivity.
Qed.

Lemma provider_stays_pf qs before j e between g e' q r : nth_error qs j = Some q -> provider_in q = Some r ->
  ~ In j (map fst before) ->
  nth_error (snd (turns (arriving qs []) (before ++ [(j, e)]))) j = Some (End (Ret (Provider r))) ->
  leaves qs between key_provider (pr_id r) ->
  nth_error qs g = Some (FindProvider (pr_id r)) -> ~ In g (map fst (before ++ (j, e) :: between)) -> ev_fate e' = Fine ->
  nth_error (snd (turns (arriving qs []) (before ++ (j, e) :: between ++ [(g, e')]))) g = Some (End (Ret (Provider r))).
Proof.
  intros Q G N C L Qg Ng Fe.
  pose proof (arriving_handle qs [] before j q Q N) as H. destruct (arriving_ok qs before) as [S T].
  set (s := turns (arriving qs []) before) in *. rewrite turns_app in C. fold s in C. cbn [turns fold_left fst snd] in C.
  destruct (post_turn qs s j e q S Q H) as [_ A]. specialize (A r G C).
  pose proof (turns_field qs between key_provider (pr_id r) (turn s j e) (turn_shaped _ _ _ _ S) (turn_tidy _ _ _ T) L) as B.
  assert (E : turns (arriving qs []) (before ++ (j, e) :: between ++ [(g, e')]) = turn (turns (turn s j e) between) g e').
  { rewrite turns_app. fold s. rewrite turns_cons, turns_app. reflexivity. }
  rewrite E. assert (X : turns (turn s j e) between = turns (arriving qs []) (before ++ (j, e) :: between)).
  { rewrite turns_app. reflexivity. }
  pose proof (arriving_handle qs [] _ g _ Qg Ng) as Hg. rewrite <- X in Hg. unfold turn at 1. rewrite Hg.
  cbn [handle]. unfold GetProviderRegisterByID. cbn [snd]. rewrite nth_error_set_eq by (apply nth_error_Some; congruence).
  unfold exec. rewrite Fe. cbn [redis snd]. rewrite B, A. rewrite unmarshal_provider. reflexivity.
Qed.

(** ** Deleting all *)

Section deleting.
  Variables (qs : list request) (i : nat) (q : request) (key : gostring).
  Hypothesis Qi : nth_error qs i = Some q.
  Hypothesis start : handle q = Send (HGetAll key) (fun x => match x with RAll l => delete_each key (map fst l) | _ => End (Ret (Status 404)) end).
  Hypothesis only : forall p, shape q p -> p = handle q \/ (exists ids, p = delete_each key ids) \/ exists o, p = End o.

  (** What is there was there to be deleted still, or was registered meanwhile. *)
  Definition clearing (had : list nat) (s : service) : Prop :=
    forall p, nth_error (snd s) i = Some p ->
      match p with
      | Send (HGetAll _) _ => True
      | End o => o = Ret Ack -> forall f v, aget bytes_eqb (hash (fst s) key) f = Some v ->
          exists j q', In j had /\ nth_error qs j = Some q' /\ posts q' key f v
      | Send _ _ => exists ids, p = delete_each key ids /\ forall f v, aget bytes_eqb (hash (fst s) key) f = Some v ->
          In f ids \/ exists j q', In j had /\ nth_error qs j = Some q' /\ posts q' key f v
      end.

  Lemma clearing_delete s had ids : nth_error (snd s) i = Some (delete_each key ids) ->
    (forall f v, aget bytes_eqb (hash (fst s) key) f = Some v ->
      In f ids \/ exists j q', In j had /\ nth_error qs j = Some q' /\ posts q' key f v) -> clearing had s.
  Proof.
    intros E H p. rewrite E. intros [= <-]. destruct ids as [|a ids]; cbn [delete_each].
    - intros _ f v A. destruct (H f v A) as [[]|X]; exact X.
    - exists (a :: ids). split; [reflexivity|exact H].
  Qed.

  Lemma turn_clearing had s j e : shuffled e -> shaped qs s -> tidy (fst s) -> clearing had s -> clearing (had ++ [j]) (turn s j e).
  Proof.
    intros Sh S T H. destruct (Nat.eq_dec i j) as [<-|N].
    - destruct (nth_error (snd s) i) as [p0|] eqn:E0.
      2: { unfold turn. rewrite E0. intros p Ep. congruence. }
      assert (Old : (exists o, p0 = End o) -> clearing (had ++ [i]) (turn s i e)).
      { intros [o ->]. unfold turn. rewrite E0. intros p Ep. rewrite E0 in Ep. injection Ep as <-. specialize (H _ E0).
        cbn beta iota in *. intros O f v A. destruct (H O f v A) as (j & q' & J & R). exists j, q'. split; [apply in_or_app; left; exact J|exact R]. }
      destruct (S _ _ E0) as (q' & Q' & Sp). rewrite Qi in Q'. injection Q' as <-.
      destruct (only _ Sp) as [->|[[ids ->]|[o ->]]]; [| |apply Old; eauto].
      + unfold turn. rewrite E0, start. cbv zeta.
        destruct (snd (exec (fst s) (HGetAll key) e)) as [| |v|l] eqn:X.
        1-3: intros p Ep; cbn [snd fst] in Ep; rewrite nth_error_set_eq in Ep by (apply nth_error_Some; congruence); injection Ep as <-; intros; discriminate.
        apply exec_all in X as Y. subst l.
        apply (clearing_delete _ _ (map fst (ev_order e (hash (fst s) key)))).
        * cbn [snd]. apply nth_error_set_eq, nth_error_Some. congruence.
        * cbn [fst]. intros f v A. left. unfold exec in A. destruct (ev_fate e); cbn [redis fst] in A.
          all: eapply Permutation_in; [apply Permutation_map, Sh|]; apply in_map_iff; exists (f, v); split; [reflexivity|]; apply (aget_In _ beq_spec), A.
      + destruct ids as [|a ids]; [apply Old; eexists; reflexivity|].
        specialize (H _ E0). cbn [delete_each] in H. destruct H as (ids' & Ei & H).
        destruct ids' as [|a' ids']; [discriminate|]. assert (a' = a) by (cbn [delete_each] in Ei; congruence). subst a'.
        assert (K : forall x, match x with RFailed => End Panic | _ => delete_each key ids end = match x with RFailed => End Panic | _ => delete_each key ids' end).
        { cbn [delete_each] in Ei. injection Ei as Ei. intros x. change ((fun x => match x with RFailed => End Panic | _ => delete_each key ids end) x = (fun x => match x with RFailed => End Panic | _ => delete_each key ids' end) x). rewrite Ei. reflexivity. }
        specialize (K RDone). cbn beta iota in K.
        unfold turn. rewrite E0. cbn [delete_each]. cbv zeta. unfold exec. destruct (ev_fate e); cbn [redis fst snd].
        * rewrite K. apply (clearing_delete _ _ ids').
          -- cbn [snd]. apply nth_error_set_eq, nth_error_Some. congruence.
          -- cbn [fst]. intros f v. rewrite hash_set, bytes_eqb_refl, aget_adel; [|exact beq_spec|apply T].
             destruct (bytes_eqb_spec f a) as [->|Na]; [discriminate|]. intros A.
             destruct (H f v A) as [[->|I]|(j & q' & J & R)]; [congruence|auto|].
             right. exists j, q'. split; [apply in_or_app; left; exact J|exact R].
        * intros p Ep. cbn [snd] in Ep. rewrite nth_error_set_eq in Ep by (apply nth_error_Some; congruence). injection Ep as <-. discriminate.
        * intros p Ep. cbn [snd] in Ep. rewrite nth_error_set_eq in Ep by (apply nth_error_Some; congruence). injection Ep as <-. discriminate.
    - intros p Ep. rewrite turn_other in Ep by exact N. specialize (H _ Ep).
      assert (Step : forall f v, aget bytes_eqb (hash (fst (turn s j e)) key) f = Some v ->
        aget bytes_eqb (hash (fst s) key) f = Some v \/ exists j' q', In j' (had ++ [j]) /\ nth_error qs j' = Some q' /\ posts q' key f v).
      { intros f v A. destruct (turn_field qs s j e key f S T) as [E|(q' & Q' & [(w & P & E)|(_ & E)])]; rewrite E in A; [auto| |discriminate].
        injection A as ->. right. exists j, q'. split; [apply in_or_app; right; left; reflexivity|auto]. }
      assert (W : forall f v, (exists j' q', In j' had /\ nth_error qs j' = Some q' /\ posts q' key f v) ->
        exists j' q', In j' (had ++ [j]) /\ nth_error qs j' = Some q' /\ posts q' key f v).
      { intros f v (j' & q' & J & R). exists j', q'. split; [apply in_or_app; left; exact J|exact R]. }
      destruct p as [o|c k].
      + intros O f v A. destruct (Step f v A) as [B|X]; [apply W, (H O f v B)|exact X].
      + destruct c; try exact I; destruct H as (ids & Ei & H); exists ids; (split; [exact Ei|]); intros f v A;
          destruct (Step f v A) as [B|X]; try (right; exact X); destruct (H f v B) as [X|X]; [left; exact X|right; apply W, X|left; exact X|right; apply W, X|left; exact X|right; apply W, X].
  Qed.

  Lemma turns_clearing l : forall had s, (forall x, In x l -> shuffled (snd x)) -> shaped qs s -> tidy (fst s) -> clearing had s ->
    clearing (had ++ map fst l) (turns s l).
  Proof.
    induction l as [|[j e] l IH]; intros had s Sh S T H; cbn [map fst]; [rewrite app_nil_r; exact H|].
    rewrite turns_cons. change (j :: map fst l) with ([j] ++ map fst l). rewrite app_assoc. apply IH.
    - intros x X. apply Sh. right. exact X.
    - apply turn_shaped, S.
    - apply turn_tidy, T.
    - apply turn_clearing; try assumption. apply (Sh (j, e)). left. reflexivity.
  Qed.

  Lemma delete_clears l0 l f v : (forall x, In x l -> shuffled (snd x)) -> ~ In i (map fst l0) ->
    nth_error (snd (turns (arriving qs []) (l0 ++ l))) i = Some (End (Ret Ack)) ->
    aget bytes_eqb (hash (fst (turns (arriving qs []) (l0 ++ l))) key) f = Some v ->
    exists j q', In j (map fst l) /\ nth_error qs j = Some q' /\ posts q' key f v.
  Proof.
    intros Sh N. rewrite turns_app. destruct (arriving_ok qs l0) as [S T]. pose proof (arriving_handle qs [] l0 i q Qi N) as H.
    set (s := turns (arriving qs []) l0) in *. intros E A.
    assert (C : clearing [] s). { intros p Ep. rewrite H in Ep. injection Ep as <-. rewrite start. exact I. }
    pose proof (turns_clearing l [] s Sh S T C _ E) as X. cbn [app] in X. exact (X eq_refl f v A).
  Qed.
End deleting.

Lemma gateways_only p : shape DeleteGateways p -> p = handle DeleteGateways \/ (exists ids, p = delete_each key_gateway ids) \/ exists o, p = End o.
Proof. intros H. inversion H; subst; eauto. Qed.
Lemma providers_only p : shape DeleteProviders p -> p = handle DeleteProviders \/ (exists ids, p = delete_each key_provider ids) \/ exists o, p = End o.
Proof. intros H. inversion H; subst; eauto. Qed.

(** ** Gateways and providers apart *)

(** The turns of requests of one sort. *)
Definition sort_turns (qs : list request) (b : bool) (l : list (nat * event)) : list (nat * event) :=
  filter (fun x => match nth_error qs (fst x) with Some q => Bool.eqb (about_gateways q) b | None => false end) l.

(** The same as far as one sort is concerned. *)
Definition sort_key (b : bool) : gostring := if b then key_gateway else key_provider.
Definition alike (qs : list request) (b : bool) (s t : service) : Prop :=
  hash (fst s) (sort_key b) = hash (fst t) (sort_key b) /\
  forall n q, nth_error qs n = Some q -> about_gateways q = b -> nth_error (snd s) n = nth_error (snd t) n.

Lemma exec_alike d d' c e : hash d (key_of c) = hash d' (key_of c) ->
  hash (fst (exec d c e)) (key_of c) = hash (fst (exec d' c e)) (key_of c) /\ snd (exec d c e) = snd (exec d' c e).
Proof.
  intros H. unfold exec. destruct (ev_fate e); cbn [fst snd].
  - rewrite !redis_hash. destruct c; cbn [key_of redis snd] in *; rewrite ?bytes_eqb_refl, ?H; auto.
  - auto.
  - rewrite !redis_hash. destruct c; cbn [key_of redis snd] in *; rewrite ?bytes_eqb_refl, ?H; auto.
Qed.

Lemma exec_apart d c e k : k <> key_of c -> hash (fst (exec d c e)) k = hash d k.
Proof.
  intros N. destruct (exec_hash d c e k) as [X|X]; rewrite X; [reflexivity|]. rewrite redis_hash.
  destruct c; cbn [key_of] in N; try reflexivity; apply bytes_eqb_neq in N; rewrite N; reflexivity.
Qed.

Lemma sort_turns_cons qs b i e l : sort_turns qs b ((i, e) :: l) =
  match nth_error qs i with
  | Some q => if Bool.eqb (about_gateways q) b then (i, e) :: sort_turns qs b l else sort_turns qs b l
  | None => sort_turns qs b l
  end.
Proof. unfold sort_turns. cbn [filter fst]. destruct (nth_error qs i); reflexivity. Qed.

Lemma turns_alike qs b l : forall s t, shaped qs s -> shaped qs t -> alike qs b s t ->
  alike qs b (turns s l) (turns t (sort_turns qs b l)).
Proof.
  induction l as [|[i e] l IH]; intros s t S T [H P]; [split; assumption|].
  rewrite turns_cons, sort_turns_cons. destruct (nth_error qs i) as [q|] eqn:Q.
  - destruct (Bool.eqb (about_gateways q) b) eqn:B.
    + rewrite turns_cons. apply Bool.eqb_prop in B. apply IH; [apply turn_shaped, S|apply turn_shaped, T|].
      pose proof (P i q Q B) as E. unfold turn. rewrite <- E. destruct (nth_error (snd s) i) as [[o|c k]|] eqn:Es; try (split; assumption).
      destruct (S _ _ Es) as (q' & Q' & X). rewrite Q in Q'. injection Q' as <-. apply shape_send in X. destruct X as [[K _] _].
      assert (K' : key_of c = sort_key b) by (rewrite K; unfold own_key, sort_key; rewrite B; reflexivity).
      destruct (exec_alike (fst s) (fst t) c e) as [E1 E2]; [rewrite K'; exact H|]. rewrite K' in E1.
      split; cbn [fst snd]; [exact E1|]. intros n q' Q' B'. rewrite E2. destruct (Nat.eq_dec n i) as [->|N].
      * rewrite !nth_error_set_eq; [reflexivity| |]; apply nth_error_Some; congruence.
      * rewrite !nth_error_set_neq by congruence. eapply P; eauto.
    + apply IH; [apply turn_shaped, S|exact T|]. apply Bool.eqb_false_iff in B.
      assert (O : forall n q', nth_error qs n = Some q' -> about_gateways q' = b -> n <> i) by congruence.
      split; [|intros n q' Q' B'; rewrite turn_other by (eapply O; eauto); eapply P; eauto].
      destruct (turn_cases s i e) as [->|(c & k & Es & ->)]; [exact H|]. cbn [fst].
      destruct (S _ _ Es) as (q' & Q' & X). rewrite Q in Q'. injection Q' as <-. apply shape_send in X. destruct X as [[K _] _].
      rewrite exec_apart; [exact H|]. rewrite K. unfold own_key, sort_key. destruct (about_gateways q), b; try congruence; discriminate.
  - apply IH; [apply turn_shaped, S|exact T|]. unfold turn. destruct (nth_error (snd s) i) as [p|] eqn:Es; [|split; assumption].
    destruct (S _ _ Es) as (q & Q' & _). congruence.
Qed.
