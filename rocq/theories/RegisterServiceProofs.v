(** Lemmas about [RegisterService.v]. *)
From Coq Require Import String List ZArith Bool Lia Permutation.
From Coq Require Import Init.Byte.
From Verif Require Import Base BaseProofs Json JsonProofs OfferStoreSpec Register RegisterSpec RegisterService RegisterServiceSpec.
Import ListNotations.
Open Scope Z_scope.

(** ** Reading what was written *)

Definition take (name : gostring) (acc : option gostring) (kv : gostring * json) : option gostring :=
  if fold_eq (fst kv) name then
    match snd kv with
    | JNull => acc
    | v => match acc, dec_str v with Some _, Some a => Some a | _, _ => None end
    end
  else acc.

Lemma jstr_take f k : jstr f k = fold_left (take (gs k)) f (Some []).
Proof. reflexivity. Qed.

Lemma take_other k v f n acc : fold_eq (gs k) n = false -> fold_left (take n) (omit k v ++ f) acc = fold_left (take n) f acc.
Proof. intros H. unfold omit. destruct v; cbn [app fold_left]; [reflexivity|]. unfold take at 2. cbn [fst snd]. rewrite H. reflexivity. Qed.

Lemma take_same k v f n : fold_eq (gs k) n = true -> fold_left (take n) (omit k v ++ f) (Some []) = fold_left (take n) f (Some v).
Proof. intros H. unfold omit. destruct v; cbn [app fold_left]; [reflexivity|]. unfold take at 2. cbn [fst snd dec_str]. rewrite H. reflexivity. Qed.

Lemma take_other_end k v n acc : fold_eq (gs k) n = false -> fold_left (take n) (omit k v) acc = acc.
Proof. intros H. rewrite <- (app_nil_r (omit k v)). apply take_other, H. Qed.

Lemma take_same_end k v n : fold_eq (gs k) n = true -> fold_left (take n) (omit k v) (Some []) = Some v.
Proof. intros H. rewrite <- (app_nil_r (omit k v)). apply take_same, H. Qed.

Ltac taking := rewrite ?jstr_take;
  repeat (first [rewrite take_other by reflexivity | rewrite take_same by reflexivity
                |rewrite take_other_end by reflexivity | rewrite take_same_end by reflexivity]).

Lemma gateway_dec r : gateway_of_json (gateway_json r) = Some r.
Proof.
  unfold gateway_json, gateway_of_json. taking. destruct r; reflexivity.
Qed.

Lemma provider_dec r : provider_of_json (provider_json r) = Some r.
Proof.
  unfold provider_json, provider_of_json. taking. destruct r; reflexivity.
Qed.

Lemma omit_plain k v : forallb (fun kv => no_float (snd kv)) (omit k v) = true.
Proof. unfold omit. destruct v; reflexivity. Qed.

Lemma gateway_plain r : no_float (gateway_json r) = true.
Proof. unfold gateway_json. cbn [no_float]. rewrite !forallb_app, !omit_plain. reflexivity. Qed.

Lemma provider_plain r : no_float (provider_json r) = true.
Proof. unfold provider_json. cbn [no_float]. rewrite !forallb_app, !omit_plain. reflexivity. Qed.

Lemma unmarshal_gateway r : unmarshal gateway_of_json zero_gateway (json_print (gateway_json r)) = Some r.
Proof.
  unfold unmarshal. rewrite json_roundtrip by apply gateway_plain.
  change (match gateway_json r with JNull => Some zero_gateway | _ => gateway_of_json (gateway_json r) end = Some r).
  rewrite gateway_dec. reflexivity.
Qed.

Lemma unmarshal_provider r : unmarshal provider_of_json zero_provider (json_print (provider_json r)) = Some r.
Proof.
  unfold unmarshal. rewrite json_roundtrip by apply provider_plain.
  change (match provider_json r with JNull => Some zero_provider | _ => provider_of_json (provider_json r) end = Some r).
  rewrite provider_dec. reflexivity.
Qed.

Lemma stored_gateway_print r : stored_gateway (json_print (gateway_json r)) = r.
Proof. unfold stored_gateway. rewrite unmarshal_gateway. reflexivity. Qed.

Lemma stored_provider_print r : stored_provider (json_print (provider_json r)) = r.
Proof. unfold stored_provider. rewrite unmarshal_provider. reflexivity. Qed.

Lemma parse_first j : no_float j = true -> exists r, parse_value (2 * length (json_print j) + 2) (json_print j) = Some (j, r).
Proof.
  intros H. apply json_roundtrip in H. unfold json_parse in H.
  destruct (parse_value _ _) as [[j' r]|]; [|discriminate]. destruct (skip_ws r); [|discriminate]. injection H as ->. eauto.
Qed.

Lemma bind_gateway_post r : bind_gateway (json_print (gateway_post r)) = Some r.
Proof.
  unfold bind_gateway, consume. destruct (parse_first (gateway_post r) eq_refl) as [t ->]. destruct r. reflexivity.
Qed.

Lemma bind_provider_post r : bind_provider (json_print (provider_post r)) = Some r.
Proof.
  unfold bind_provider, consume. destruct (parse_first (provider_post r) eq_refl) as [t ->]. destruct r. reflexivity.
Qed.

(** ** The hashes *)

Notation beq_spec := bytes_eqb_eq.

Lemma hash_set d k h k' : hash (aset bytes_eqb d k h) k' = if bytes_eqb k' k then h else hash d k'.
Proof. unfold hash. rewrite (aget_aset _ beq_spec). destruct (bytes_eqb k' k); reflexivity. Qed.

Lemma keys_differ : bytes_eqb key_gateway key_provider = false /\ bytes_eqb key_provider key_gateway = false.
Proof. split; reflexivity. Qed.

Lemma redis_hash d c o k : hash (fst (redis d c o)) k =
  match c with
  | HSet k' f v => if bytes_eqb k k' then aset bytes_eqb (hash d k') f v else hash d k
  | HDel k' f => if bytes_eqb k k' then adel bytes_eqb (hash d k') f else hash d k
  | _ => hash d k
  end.
Proof. destruct c; cbn [redis fst]; try reflexivity; apply hash_set. Qed.

(** Every hash has each field once. *)
Definition tidy (d : db) : Prop := forall k, NoDup (map fst (hash d k)).

Lemma tidy_empty : tidy [].
Proof. intros k. constructor. Qed.

Lemma tidy_redis d c o : tidy d -> tidy (fst (redis d c o)).
Proof.
  intros T k. rewrite redis_hash. destruct c; try apply T; destruct (bytes_eqb k key); try apply T.
  - apply aset_NoDup; [exact beq_spec|apply T].
  - apply adel_NoDup; apply T.
Qed.

Lemma tidy_exec d c e : tidy d -> tidy (fst (exec d c e)).
Proof. intros T. unfold exec. destruct (ev_fate e); cbn [fst]; try apply tidy_redis; exact T. Qed.

(** ** Requests one after another *)

Section history.
  Context {R : Type} (post : request -> option R) (wipe : request -> bool) (id : R -> gostring).
  Notation last := (last_post post wipe id).

  Lemma last_nil i r : ~ last [] i r.
  Proof. intros (a & q & b & E & _). destruct a; discriminate. Qed.

  Lemma last_snoc qs q i r : last (qs ++ [q]) i r <->
    (post q = Some r /\ id r = i) \/ (wipe q = false /\ (forall r', post q = Some r' -> id r' <> i) /\ last qs i r).
  Proof.
    split.
    - intros (a & q0 & b & E & P & I & L). destruct b as [|x b' _] using rev_ind.
      + apply app_inj_tail in E. destruct E as [-> ->]. left. auto.
      + assert (E' : qs ++ [q] = (a ++ q0 :: b') ++ [x]) by (rewrite E, <- app_assoc; reflexivity).
        apply app_inj_tail in E'. destruct E' as [-> ->]. right.
        destruct (L x) as [W N]; [apply in_or_app; right; left; reflexivity|]. split; [exact W|]. split; [exact N|].
        exists a, q0, b'. split; [reflexivity|]. split; [exact P|]. split; [exact I|].
        intros q' H. apply L. apply in_or_app. left. exact H.
    - intros [[P I]|(W & N & a & q0 & b & -> & P & I & L)].
      + exists qs, q, []. split; [reflexivity|]. split; [exact P|]. split; [exact I|]. intros q' [].
      + exists a, q0, (b ++ [q]). split; [rewrite <- app_assoc; reflexivity|]. split; [exact P|]. split; [exact I|].
        intros q' H. apply in_app_or in H. destruct H as [H|[<-|[]]]; auto.
  Qed.

  Lemma last_id qs i r : last qs i r -> id r = i.
  Proof. intros (a & q & b & _ & _ & I & _). exact I. Qed.

  Lemma last_fun qs i : forall r r', last qs i r -> last qs i r' -> r = r'.
  Proof.
    induction qs as [|q qs IH] using rev_ind; intros r r' H H'; [destruct (last_nil _ _ H)|].
    apply last_snoc in H, H'. destruct H as [[P I]|(W & N & L)], H' as [[P' I']|(W' & N' & L')].
    - congruence.
    - destruct (N' _ P I).
    - destruct (N _ P' I').
    - eauto.
  Qed.

  Variable text : R -> gostring.
  Variable key : gostring.

  (** The hash holds the last registrations. *)
  Definition holds (qs : list request) (d : db) : Prop :=
    forall i t, aget bytes_eqb (hash d key) i = Some t <-> exists r, last qs i r /\ t = text r.

  Lemma holds_nil : holds [] [].
  Proof. intros i t. split; [discriminate|]. intros (r & L & _). destruct (last_nil _ _ L). Qed.

  Lemma holds_other qs q d d' : holds qs d -> post q = None -> wipe q = false -> hash d' key = hash d key -> holds (qs ++ [q]) d'.
  Proof.
    intros H P W E i t. unfold holds in H. rewrite E, H. split; intros (r & L & T); exists r; (split; [|exact T]).
    - apply last_snoc. right. split; [exact W|]. split; [|exact L]. intros r'. rewrite P. discriminate.
    - apply last_snoc in L. destruct L as [[P' _]|(_ & _ & L)]; [congruence|exact L].
  Qed.

  Lemma holds_post qs q d d' r : holds qs d -> post q = Some r -> wipe q = false ->
    hash d' key = aset bytes_eqb (hash d key) (id r) (text r) -> holds (qs ++ [q]) d'.
  Proof.
    intros H P W E i t. unfold holds in H. rewrite E, (aget_aset _ beq_spec). destruct (bytes_eqb_spec i (id r)) as [->|N].
    - split.
      + intros [= <-]. exists r. split; [|reflexivity]. apply last_snoc. left. auto.
      + intros (r' & L & ->). apply last_snoc in L. destruct L as [[P' _]|(_ & N' & _)]; [congruence|]. destruct (N' _ P eq_refl).
    - rewrite H. split; intros (r' & L & T); exists r'; (split; [|exact T]).
      + apply last_snoc. right. split; [exact W|]. split; [|exact L]. intros r0. rewrite P. intros [= <-]. congruence.
      + apply last_snoc in L. destruct L as [[P' I]|(_ & _ & L)]; [|exact L]. congruence.
  Qed.

  Lemma holds_wipe qs q d' : post q = None -> wipe q = true -> (forall i, aget bytes_eqb (hash d' key) i = None) -> holds (qs ++ [q]) d'.
  Proof.
    intros P W E i t. rewrite E. split; [discriminate|]. intros (r & L & _). apply last_snoc in L.
    destruct L as [[P' _]|(W' & _)]; congruence.
  Qed.

  Lemma holds_find qs d i : holds qs d ->
    match aget bytes_eqb (hash d key) i with
    | Some t => exists r, last qs i r /\ t = text r
    | None => forall r, ~ last qs i r
    end.
  Proof.
    intros H. destruct (aget bytes_eqb (hash d key) i) as [t|] eqn:E; [apply H, E|].
    intros r L. assert (X : aget bytes_eqb (hash d key) i = Some (text r)) by (apply H; exists r; auto). congruence.
  Qed.

  Variable read : gostring -> R.
  Hypothesis read_text : forall r, read (text r) = r.

  Lemma holds_list qs d order : holds qs d -> tidy d -> shuffle order ->
    let l := map (fun kv => read (snd kv)) (order (hash d key)) in
    NoDup (map id l) /\ forall r, In r l <-> last qs (id r) r.
  Proof.
    intros H T S l.
    assert (K : forall kv, In kv (order (hash d key)) -> exists r, last qs (fst kv) r /\ snd kv = text r).
    { intros [k t] I. apply (Permutation_in _ (Permutation_sym (S _))) in I. apply H, (In_aget _ beq_spec _ _ _ (T key)), I. }
    split.
    - unfold l. rewrite map_map. assert (E : map (fun kv => id (read (snd kv))) (order (hash d key)) = map fst (order (hash d key))).
      { apply map_ext_in. intros kv I. destruct (K kv I) as (r & L & ->). rewrite read_text. eapply last_id; eauto. }
      rewrite E. eapply Permutation_NoDup; [apply Permutation_map, S|apply T].
    - intros r. unfold l. rewrite in_map_iff. split.
      + intros (kv & <- & I). destruct (K kv I) as (r & L & ->). rewrite read_text. rewrite (last_id _ _ _ L). exact L.
      + intros L. exists (id r, text r). split; [apply read_text|]. eapply Permutation_in; [apply S|].
        apply (aget_In _ beq_spec). apply H. exists r. auto.
  Qed.
End history.

(** *** Programs *)

Lemma exec_fine d c e : ev_fate e = Fine -> exec d c e = redis d c (ev_order e).
Proof. unfold exec. intros ->. reflexivity. Qed.

Definition all_fine (es : nat -> event) : Prop := forall n, fine (es n).

Lemma later_fine es : all_fine es -> all_fine (later es).
Proof. intros H n. apply H. Qed.

Lemma run_delete key ids : forall d es, all_fine es -> tidy d -> exists d' es', all_fine es' /\ tidy d' /\
  run_program (delete_each key ids) d es = (Ret Ack, d', es') /\
  (forall k, k <> key -> hash d' k = hash d k) /\
  forall i, aget bytes_eqb (hash d' key) i = if existsb (bytes_eqb i) ids then None else aget bytes_eqb (hash d key) i.
Proof.
  induction ids as [|j ids IH]; intros d es F T; cbn [delete_each run_program].
  - exists d, es. split; [exact F|]. split; [exact T|]. split; [reflexivity|]. split; reflexivity.
  - cbv zeta. rewrite exec_fine by apply F. cbn [redis snd fst]. set (d1 := aset _ d key _).
    assert (T1 : tidy d1) by (apply (tidy_redis d (HDel key j) (fun x => x)), T).
    destruct (IH d1 (later es) (later_fine _ F) T1) as (d' & es' & F' & T' & E & O & A). exists d', es'.
    split; [exact F'|]. split; [exact T'|]. split; [exact E|]. split.
    + intros k N. rewrite (O k N). unfold d1. rewrite hash_set. destruct (bytes_eqb_spec k key); congruence.
    + intros i. rewrite A. unfold d1. rewrite hash_set, bytes_eqb_refl, aget_adel; [|exact beq_spec|apply T].
      cbn [existsb]. destruct (bytes_eqb i j), (existsb (bytes_eqb i) ids); reflexivity.
Qed.

Lemma run_wipe key d es : all_fine es -> tidy d -> exists d' es', all_fine es' /\ tidy d' /\
  run_program (Send (HGetAll key) (fun x => match x with RAll l => delete_each key (map fst l) | _ => End (Ret (Status 404)) end)) d es
    = (Ret Ack, d', es') /\
  (forall k, k <> key -> hash d' k = hash d k) /\ forall i, aget bytes_eqb (hash d' key) i = None.
Proof.
  intros F T. cbn [run_program]. cbv zeta. rewrite exec_fine by apply F. cbn [redis snd fst].
  destruct (run_delete key (map fst (ev_order (es 0%nat) (hash d key))) d (later es) (later_fine _ F) T) as (d' & es' & F' & T' & E & O & A).
  exists d', es'. split; [exact F'|]. split; [exact T'|]. split; [exact E|]. split; [exact O|].
  intros i. rewrite A. destruct (existsb (bytes_eqb i) _) eqn:X; [reflexivity|].
  apply (aget_None _ beq_spec). intros I. assert (I' : In i (map fst (ev_order (es 0%nat) (hash d key)))).
  { eapply Permutation_in; [apply Permutation_map, (proj2 (F 0%nat))|exact I]. }
  assert (Y : existsb (bytes_eqb i) (map fst (ev_order (es 0%nat) (hash d key))) = true); [|congruence].
  apply existsb_exists. exists i. split; [exact I'|apply bytes_eqb_refl].
Qed.

Definition gateways_held := holds gateway_in wipes_gateways gr_id (fun r => json_print (gateway_json r)) key_gateway.
Definition providers_held := holds provider_in wipes_providers pr_id (fun r => json_print (provider_json r)) key_provider.

Ltac one_command F := cbn [run_program]; cbv zeta; rewrite exec_fine by apply F; cbn [redis snd fst].
Ltac same_hash := rewrite ?hash_set; reflexivity.

Lemma step_right qs q d es : all_fine es -> tidy d -> gateways_held qs d -> providers_held qs d ->
  exists o d' es', run_program (handle q) d es = (o, d', es') /\ all_fine es' /\ tidy d' /\
    gateways_held (qs ++ [q]) d' /\ providers_held (qs ++ [q]) d' /\ right_answer qs q o.
Proof.
  intros F T G P. destruct q as [b| |i| |b| |i|]; cbn [handle].
  - unfold right_answer. destruct (bind_gateway b) as [r|] eqn:B.
    + unfold AddGatewayRegister. one_command F. eexists _, _, _. split; [reflexivity|]. split; [apply later_fine, F|].
      split; [apply (tidy_redis d (HSet key_gateway (gr_id r) _) (fun x => x)), T|].
      split; [eapply holds_post; [exact G|exact B|reflexivity|]; rewrite hash_set, bytes_eqb_refl; reflexivity|].
      split; [eapply holds_other; [exact P|reflexivity|reflexivity|]; rewrite hash_set; reflexivity|]. reflexivity.
    + cbn [run_program]. eexists _, _, _. split; [reflexivity|]. split; [exact F|]. split; [exact T|].
      split; [eapply holds_other; [exact G|exact B|reflexivity|reflexivity]|].
      split; [eapply holds_other; [exact P|reflexivity|reflexivity|reflexivity]|]. eauto.
  - unfold GetGatewayRegisters. one_command F. eexists _, _, _. split; [reflexivity|]. split; [apply later_fine, F|]. split; [exact T|].
    split; [eapply holds_other; [exact G|reflexivity|reflexivity|reflexivity]|].
    split; [eapply holds_other; [exact P|reflexivity|reflexivity|reflexivity]|].
    eexists. split; [reflexivity|]. eapply (holds_list _ _ _ _ _ stored_gateway stored_gateway_print); [exact G|exact T|apply F].
  - unfold GetGatewayRegisterByID. one_command F. pose proof (holds_find _ _ _ _ _ _ _ i G) as X.
    destruct (aget bytes_eqb (hash d key_gateway) i) as [t|].
    + destruct X as (r & L & ->). cbn [run_program]. rewrite stored_gateway_print.
      eexists _, _, _. split; [reflexivity|]. split; [apply later_fine, F|]. split; [exact T|].
      split; [eapply holds_other; [exact G|reflexivity|reflexivity|reflexivity]|].
      split; [eapply holds_other; [exact P|reflexivity|reflexivity|reflexivity]|]. left. eauto.
    + cbn [run_program]. eexists _, _, _. split; [reflexivity|]. split; [apply later_fine, F|]. split; [exact T|].
      split; [eapply holds_other; [exact G|reflexivity|reflexivity|reflexivity]|].
      split; [eapply holds_other; [exact P|reflexivity|reflexivity|reflexivity]|]. right. auto.
  - destruct (run_wipe key_gateway d es F T) as (d' & es' & F' & T' & E & O & A). eexists _, _, _. split; [exact E|].
    split; [exact F'|]. split; [exact T'|]. split; [eapply holds_wipe; [reflexivity|reflexivity|exact A]|].
    split; [eapply holds_other; [exact P|reflexivity|reflexivity|apply O; discriminate]|]. reflexivity.
  - unfold right_answer. destruct (bind_provider b) as [r|] eqn:B.
    + unfold AddProviderRegister. one_command F. eexists _, _, _. split; [reflexivity|]. split; [apply later_fine, F|].
      split; [apply (tidy_redis d (HSet key_provider (pr_id r) _) (fun x => x)), T|].
      split; [eapply holds_other; [exact G|reflexivity|reflexivity|]; rewrite hash_set; reflexivity|].
      split; [eapply holds_post; [exact P|exact B|reflexivity|]; rewrite hash_set, bytes_eqb_refl; reflexivity|]. reflexivity.
    + cbn [run_program]. eexists _, _, _. split; [reflexivity|]. split; [exact F|]. split; [exact T|].
      split; [eapply holds_other; [exact G|reflexivity|reflexivity|reflexivity]|].
      split; [eapply holds_other; [exact P|exact B|reflexivity|reflexivity]|]. eauto.
  - unfold GetProviderRegisters. one_command F. eexists _, _, _. split; [reflexivity|]. split; [apply later_fine, F|]. split; [exact T|].
    split; [eapply holds_other; [exact G|reflexivity|reflexivity|reflexivity]|].
    split; [eapply holds_other; [exact P|reflexivity|reflexivity|reflexivity]|].
    eexists. split; [reflexivity|]. eapply (holds_list _ _ _ _ _ stored_provider stored_provider_print); [exact P|exact T|apply F].
  - unfold GetProviderRegisterByID. one_command F. pose proof (holds_find _ _ _ _ _ _ _ i P) as X.
    destruct (aget bytes_eqb (hash d key_provider) i) as [t|].
    + destruct X as (r & L & ->). cbn [run_program]. rewrite unmarshal_provider. cbn [run_program].
      eexists _, _, _. split; [reflexivity|]. split; [apply later_fine, F|]. split; [exact T|].
      split; [eapply holds_other; [exact G|reflexivity|reflexivity|reflexivity]|].
      split; [eapply holds_other; [exact P|reflexivity|reflexivity|reflexivity]|]. left. eauto.
    + cbn [run_program]. eexists _, _, _. split; [reflexivity|]. split; [apply later_fine, F|]. split; [exact T|].
      split; [eapply holds_other; [exact G|reflexivity|reflexivity|reflexivity]|].
      split; [eapply holds_other; [exact P|reflexivity|reflexivity|reflexivity]|]. right. auto.
  - destruct (run_wipe key_provider d es F T) as (d' & es' & F' & T' & E & O & A). eexists _, _, _. split; [exact E|].
    split; [exact F'|]. split; [exact T'|]. split; [eapply holds_other; [exact G|reflexivity|reflexivity|apply O; discriminate]|].
    split; [eapply holds_wipe; [reflexivity|reflexivity|exact A]|]. reflexivity.
Qed.

Lemma serve_right qs : forall before d es, all_fine es -> tidy d -> gateways_held before d -> providers_held before d ->
  let x := serve qs d es in
  (forall n q o, nth_error qs n = Some q -> nth_error (fst (fst x)) n = Some o -> right_answer (before ++ firstn n qs) q o) /\
  length (fst (fst x)) = length qs /\
  all_fine (snd x) /\ tidy (snd (fst x)) /\ gateways_held (before ++ qs) (snd (fst x)) /\ providers_held (before ++ qs) (snd (fst x)).
Proof.
  induction qs as [|q qs IH]; intros before d es F T G P; cbn [serve].
  - cbv zeta. cbn [fst snd]. rewrite app_nil_r. split; [intros [|n] q o E; discriminate|]. auto.
  - destruct (step_right before q d es F T G P) as (o & d1 & es1 & E & F1 & T1 & G1 & P1 & A). rewrite E.
    specialize (IH (before ++ [q]) d1 es1 F1 T1 G1 P1). destruct (serve qs d1 es1) as [[os d2] es2]. cbv zeta in *. cbn [fst snd] in *.
    destruct IH as (H & L & I). split.
    + intros [|n] q' o'; cbn [nth_error firstn].
      * intros [= <-] [= <-]. rewrite app_nil_r. exact A.
      * intros Q O. specialize (H n q' o' Q O). rewrite <- app_assoc in H. exact H.
    + split; [cbn [length]; congruence|]. rewrite <- app_assoc in I. exact I.
Qed.

(** ** Reaching the managers *)

Lemma dec_pointers {A} (dec : json -> option A) (enc : A -> json) l :
  (forall a, dec (enc a) = Some a) -> (forall a, exists f, enc a = JObj f) ->
  dec_elems (fun j => match dec j with Some r => Some (Some r) | None => None end) None (map enc l) = Some (map Some l).
Proof.
  intros D O. induction l as [|a l IH]; [reflexivity|]. cbn [map dec_elems]. rewrite IH, D. destruct (O a) as [f ->]. reflexivity.
Qed.

Lemma pull_gateways_eq l : pull_gateways (Ret (Gateways l)) = listing node_reg (map (fun r => (gr_id r, inl r)) l).
Proof.
  unfold pull_gateways, GetJSON, pointers. cbn [answer_json]. rewrite json_roundtrip.
  - rewrite dec_pointers; [|apply gateway_dec|intros a; eexists; reflexivity]. unfold by_id, listing. rewrite !map_map. reflexivity.
  - cbn [no_float]. apply forallb_forall. intros j H. apply in_map_iff in H. destruct H as (r & <- & _). apply gateway_plain.
Qed.

Lemma pull_providers_eq l : pull_providers (Ret (Providers l)) = listing node_reg (map (fun r => (pr_id r, inr r)) l).
Proof.
  unfold pull_providers, GetJSON, pointers. cbn [answer_json]. rewrite json_roundtrip.
  - rewrite dec_pointers; [|apply provider_dec|intros a; eexists; reflexivity]. unfold by_id, listing. rewrite !map_map. reflexivity.
  - cbn [no_float]. apply forallb_forall. intros j H. apply in_map_iff in H. destruct H as (r & <- & _). apply provider_plain.
Qed.

Lemma latest_snoc {Info} l e i : latest Info (l ++ [e]) i = if bytes_eqb (fst e) i then Some (snd e) else latest Info l i.
Proof. unfold latest. rewrite fold_left_app. reflexivity. Qed.

Lemma latest_listed {R Info} (id : R -> gostring) (node : R -> Info) l i : NoDup (map id l) ->
  (forall r, In r l -> id r = i -> latest Info (map (fun r => (id r, node r)) l) i = Some (node r)) /\
  ((forall r, In r l -> id r <> i) -> latest Info (map (fun r => (id r, node r)) l) i = None).
Proof.
  induction l as [|r l IH] using rev_ind; intros N.
  - split; [intros r []|reflexivity].
  - rewrite map_app in N. apply nodup_app_iff in N. destruct N as (N1 & _ & N2). destruct (IH N1) as [A B].
    rewrite map_app. cbn [map]. rewrite latest_snoc. cbn [fst snd]. split.
    + intros r' I E. apply in_app_or in I. destruct (bytes_eqb_spec (id r) i) as [E'|NE].
      * destruct I as [I|[->|[]]]; [|reflexivity]. exfalso. apply (N2 (id r')); [apply in_map, I|]. left. congruence.
      * destruct I as [I|[->|[]]]; [apply A; assumption|congruence].
    + intros H. destruct (bytes_eqb_spec (id r) i) as [E|NE].
      * exfalso. apply (H r); [apply in_or_app; right; left; reflexivity|exact E].
      * apply B. intros r' I. apply H, in_or_app. left. exact I.
Qed.

Lemma last_other {R} (post : request -> option R) wipe id qs q i r : post q = None -> wipe q = false ->
  last_post post wipe id (qs ++ [q]) i r <-> last_post post wipe id qs i r.
Proof.
  intros P W. rewrite last_snoc. split; [intros [[E _]|(_ & _ & L)]; [congruence|exact L]|].
  intros L. right. split; [exact W|]. split; [|exact L]. rewrite P. discriminate.
Qed.

(** The two answers a manager refreshes from. *)
Lemma listings_after qs es og op : all_fine es ->
  let os := fst (fst (serve (qs ++ [ListGateways; ListProviders]) [] es)) in
  nth_error os (length qs) = Some og -> nth_error os (S (length qs)) = Some op ->
  exists lg lp, og = Ret (Gateways lg) /\ op = Ret (Providers lp) /\
    NoDup (map gr_id lg) /\ (forall r, In r lg <-> last_gateway qs (gr_id r) r) /\
    NoDup (map pr_id lp) /\ (forall r, In r lp <-> last_provider qs (pr_id r) r).
Proof.
  intros F os G P.
  destruct (serve_right (qs ++ [ListGateways; ListProviders]) [] [] es F tidy_empty (holds_nil _ _ _ _ _) (holds_nil _ _ _ _ _)) as [H _].
  cbn [app] in H.
  assert (Q1 : nth_error (qs ++ [ListGateways; ListProviders]) (length qs) = Some ListGateways) by (rewrite nth_error_app2, Nat.sub_diag by lia; reflexivity).
  assert (Q2 : nth_error (qs ++ [ListGateways; ListProviders]) (S (length qs)) = Some ListProviders).
  { rewrite nth_error_app2 by lia. replace (S (length qs) - length qs)%nat with 1%nat by lia. reflexivity. }
  pose proof (H _ _ _ Q1 G) as A. pose proof (H _ _ _ Q2 P) as B.
  rewrite firstn_app, Nat.sub_diag, firstn_all, app_nil_r in A.
  rewrite firstn_app, firstn_all2 in B by lia. replace (S (length qs) - length qs)%nat with 1%nat in B by lia. cbn [firstn] in B.
  destruct A as (lg & -> & N & A). destruct B as (lp & -> & N' & B). exists lg, lp.
  split; [reflexivity|]. split; [reflexivity|]. split; [exact N|]. split; [exact A|]. split; [exact N'|].
  intros r. rewrite B. unfold last_provider. apply last_other; reflexivity.
Qed.

(** Whether something was last registered under an identifier. *)
Lemma last_dec {R} (post : request -> option R) wipe id qs i :
  (exists r, last_post post wipe id qs i r) \/ forall r, ~ last_post post wipe id qs i r.
Proof.
  induction qs as [|q qs IH] using rev_ind; [right; intros r; apply last_nil|].
  destruct (post q) as [r|] eqn:P.
  - destruct (bytes_eqb_spec (id r) i) as [E|N].
    + left. exists r. apply last_snoc. auto.
    + destruct (wipe q) eqn:W.
      * right. intros r' L. apply last_snoc in L. destruct L as [[P' E]|(W' & _)]; congruence.
      * destruct IH as [[r' L]|L].
        -- left. exists r'. apply last_snoc. right. split; [exact W|]. split; [congruence|exact L].
        -- right. intros r' L'. apply last_snoc in L'. destruct L' as [[P' E]|(_ & _ & L')]; [congruence|exact (L _ L')].
  - destruct (wipe q) eqn:W.
    + right. intros r' L. apply last_snoc in L. destruct L as [[P' E]|(W' & _)]; congruence.
    + destruct IH as [[r' L]|L].
      * left. exists r'. apply last_snoc. right. split; [exact W|]. split; [congruence|exact L].
      * right. intros r' L'. apply last_snoc in L'. destruct L' as [[P' E]|(_ & _ & L')]; [congruence|exact (L _ L')].
Qed.

Lemma last_exists {R} (post : request -> option R) wipe id before q after r i : post q = Some r -> id r = i ->
  (forall q', In q' after -> wipe q' = false) -> exists r', last_post post wipe id (before ++ q :: after) i r'.
Proof.
  intros P E. induction after as [|q' after IH] using rev_ind; intros W.
  - exists r. apply last_snoc. auto.
  - destruct IH as [r' L]; [intros x X; apply W, in_or_app; auto|].
    change (before ++ q :: after ++ [q']) with (before ++ (q :: after) ++ [q']). rewrite app_assoc.
    destruct (post q') as [r0|] eqn:P'.
    + destruct (bytes_eqb_spec (id r0) i) as [E'|N]; [exists r0; apply last_snoc; auto|].
      exists r'. apply last_snoc. right. split; [apply W, in_or_app; right; left; reflexivity|]. split; [congruence|exact L].
    + exists r'. apply last_snoc. right. split; [apply W, in_or_app; right; left; reflexivity|]. split; [congruence|exact L].
Qed.
