(** * Proofs about accepted message bodies *)
From Coq Require Import List ZArith Bool Lia.
From Coq Require Import Init.Byte.
From Verif Require Import Base BaseProofs Ids Json Merkle MerkleWire Crypto Message Offer Schema Messages MessagesSpec MessagesProofs BodySpec.
Import ListNotations.
Open Scope Z_scope.
Open Scope go_scope.

(** A fold that fails once stays failed. *)
Lemma fold_sound {A} (step : option A -> gostring * json -> option A) (P : gostring * json -> Prop) :
  (forall kv, step None kv = None) -> (forall a kv x, step (Some a) kv = Some x -> P kv) ->
  forall f acc x, fold_left step f acc = Some x -> Forall P f.
Proof.
  intros N S. assert (Z : forall f, fold_left step f None = None) by (induction f as [|kv f IH]; cbn [fold_left]; [|rewrite N]; auto).
  induction f as [|kv f IH]; intros acc x H; [constructor|]. cbn [fold_left] in H.
  destruct acc as [a|]; [|rewrite N, Z in H; discriminate].
  destruct (step (Some a) kv) as [b|] eqn:E; [|rewrite Z in H; discriminate].
  constructor; [eapply S; exact E|eapply IH; exact H].
Qed.

Definition entry_ok {A} (dec : json -> option A) (name : gostring) (kv : gostring * json) : Prop :=
  fold_eq (fst kv) name = true -> snd kv = JNull \/ exists a, dec (snd kv) = Some a.

Lemma jfield_sound {A} (dec : json -> option A) z name f x : jfield dec z name f = Some x -> Forall (entry_ok dec name) f.
Proof.
  apply fold_sound.
  - intros kv. destruct (fold_eq _ _); [|reflexivity]. destruct (snd kv); reflexivity.
  - intros a [k j] y H E. cbn [fst snd] in *. rewrite E in H. destruct j; auto; right; destruct (dec _); try discriminate; eauto.
Qed.
Lemma jslice_sound {A} (dec : json -> option A) name f x : jslice dec name f = Some x -> Forall (entry_ok dec name) f.
Proof.
  apply fold_sound.
  - intros kv. destruct (fold_eq _ _); [|reflexivity]. destruct (snd kv); reflexivity.
  - intros a [k j] y H E. cbn [fst snd] in *. rewrite E in H. destruct j; auto; right; destruct (dec _); try discriminate; eauto.
Qed.
Lemma jcustom_sound {A} (dec : json -> option A) z name f x : jcustom dec z name f = Some x -> Forall (entry_ok dec name) f.
Proof.
  apply fold_sound.
  - intros kv. destruct (fold_eq _ _); reflexivity.
  - intros a [k j] y H E. cbn [fst snd] in *. rewrite E in H. right. destruct (dec j); [eauto|discriminate].
Qed.

Lemma jsliceO_sound {A} (dec : json -> outcome (result A)) name f x : jsliceO dec name f = Ret (Some x) ->
  Forall (fun kv => fold_eq (fst kv) name = true -> array_or_null (fun _ => True) (snd kv)) f.
Proof.
  unfold jsliceO.
  match goal with |- fold_left ?g f ?a = _ -> _ => set (step := g); generalize a end. intros acc H.
  assert (Z : forall f acc, acc = Ret None \/ acc = Panic \/ acc = Diverge -> fold_left step f acc <> Ret (Some x)).
  { intros f0. induction f0 as [|kv f0 IH]; intros a0 B; cbn [fold_left]; [destruct B as [->|[->| ->]]; discriminate|].
    apply IH. unfold step. destruct B as [->|[->| ->]]; cbn [obind]; auto.
    destruct (fold_eq _ _); [|auto]. destruct (snd kv); auto. destruct (mapO dec l); cbn [obind]; auto. }
  revert acc H. induction f as [|[k j] f IH]; intros acc H; [constructor|]. cbn [fold_left] in H.
  constructor; [|eapply IH; exact H].
  intros E. cbn [fst snd] in *. unfold array_or_null.
  destruct acc as [[a|]| |]; [|exfalso; revert H; apply Z; unfold step; cbn [obind fst snd]; try rewrite E..].
  - unfold step at 2 in H. cbn [obind fst snd] in H. rewrite E in H. destruct j; auto;
      try (exfalso; revert H; apply Z; auto; fail).
    right. eexists. split; [reflexivity|]. apply Forall_forall. auto.
  - destruct j; auto. destruct (mapO dec l); cbn [obind]; auto.
  - auto.
  - auto.
Qed.

Lemma dec_list_sound {A} (dec : json -> option A) zero (P : json -> Prop) :
  P JNull -> (forall j a, dec j = Some a -> P j) -> forall j l, dec_list dec zero j = Some l -> exists js, j = JArr js /\ Forall P js.
Proof.
  intros N D j l H. destruct j as [| | | | |js|]; try discriminate. exists js. split; [reflexivity|]. cbn [dec_list] in H.
  revert l H. induction js as [|j js IH]; intros l H; [constructor|]. cbn [dec_elems] in H.
  destruct (match j with JNull => Some zero | _ => dec j end) as [a|] eqn:E; [|discriminate].
  destruct (dec_elems dec zero js) as [r|] eqn:R; [|discriminate]. constructor; [|eapply IH; eauto].
  destruct j; auto; eapply D; exact E.
Qed.

Lemma str_ok j s : dec_str j = Some s -> text_or_null j.
Proof. destruct j; try discriminate. right. eauto. Qed.
Lemma bool_ok j s : dec_bool j = Some s -> flag_or_null j.
Proof. destruct j; try discriminate. right. eauto. Qed.
Lemma int_ok lo hi j s : dec_int lo hi j = Some s -> num_or_null lo hi j.
Proof.
  destruct j; try discriminate. cbn [dec_int]. destruct (_ && _) eqn:E; [|discriminate]. right. eexists. split; [reflexivity|].
  apply andb_true_iff in E. destruct E as [A B]. apply Z.leb_le in A, B. lia.
Qed.
Lemma strs_ok j s : dec_strs j = Some s -> texts_or_null j.
Proof.
  unfold dec_strs. destruct (dec_list dec_str [] j) as [l|] eqn:E; [|discriminate]. intros _. right.
  eapply dec_list_sound in E; [exact E|left; reflexivity|exact str_ok].
Qed.
Lemma msg_ok j s : dec_message j = Some s -> object_or_null j.
Proof. destruct j; try discriminate; [left; reflexivity|]. right. eauto. Qed.

Lemma fdec_sound sha t name f x : fdec sha t name f = Ret (Some x) ->
  forall key j, In (key, j) f -> fold_eq key name = true -> shape t j.
Proof.
  intros H key j I E.
  assert (K : forall A (dec : json -> option A), Forall (entry_ok dec name) f -> j = JNull \/ exists a, dec j = Some a).
  { intros A dec F. rewrite Forall_forall in F. exact (F _ I E). }
  destruct t; cbn [fdec shape] in *; try exact Logic.I; try (injection H as H).
  - apply jfield_sound, K in H. destruct H as [->|[a H]]; [left; reflexivity|eapply str_ok; exact H].
  - apply jfield_sound, K in H. destruct H as [->|[a H]]; [left; reflexivity|eapply bool_ok; exact H].
  - apply jfield_sound, K in H. destruct H as [->|[a H]]; [left; reflexivity|eapply int_ok; exact H].
  - apply jslice_sound, K in H. destruct H as [->|[a H]]; [left; reflexivity|]. right.
    eapply dec_list_sound in H; [exact H|left; reflexivity|exact str_ok].
  - apply jslice_sound, K in H. destruct H as [->|[a H]]; [left; reflexivity|]. right.
    eapply dec_list_sound in H; [exact H|left; reflexivity|exact strs_ok].
  - apply jslice_sound, K in H. destruct H as [->|[a H]]; [left; reflexivity|]. right.
    eapply dec_list_sound in H; [exact H|left; reflexivity|exact bool_ok].
  - apply jslice_sound, K in H. destruct H as [->|[a H]]; [left; reflexivity|]. right.
    eapply dec_list_sound in H; [exact H|left; reflexivity|apply int_ok].
  - apply jcustom_sound, K in H. destruct H as [->|[a H]]; [left; reflexivity|eapply msg_ok; exact H].
  - apply jslice_sound, K in H. destruct H as [->|[a H]]; [left; reflexivity|]. right.
    eapply dec_list_sound in H; [exact H|left; reflexivity|exact msg_ok].
  - apply jsliceO_sound in H. rewrite Forall_forall in H. exact (H _ I E).
  - apply jslice_sound, K in H. destruct H as [->|[a H]]; [left; reflexivity|]. right.
    eapply dec_list_sound in H; [exact H|exact Logic.I|intros; exact Logic.I].
Qed.

Lemma dec_fields_sound sha s f v : dec_fields sha s f = Ret (Some v) ->
  forall name t key j, In (name, t) s -> In (key, j) f -> fold_eq key name = true -> shape t j.
Proof.
  induction s as [|[k t0] s IH]; cbn [dec_fields]; intros H name t key j I J E; [destruct I|].
  destruct (fdec sha t0 k f) as [a| |] eqn:D; try discriminate. cbn [obind] in H.
  destruct (dec_fields sha s f) as [b| |] eqn:R; try discriminate. cbn [obind] in H.
  destruct a as [x|], b as [y|]; try discriminate.
  destruct I as [I|I].
  - assert (k = name) by congruence. assert (t0 = t) by congruence. subst. eapply fdec_sound; eauto.
  - eapply IH; eauto.
Qed.

Lemma decode_sound sha tag s m v : decode sha tag s m = Ret (OkR v) -> m_type m = tag /\ fits s (m_body m).
Proof.
  unfold decode, unmarshal_body, fits. destruct (m_type m =? tag) eqn:T; cbn [negb]; [|discriminate]. apply Z.eqb_eq in T.
  destruct (json_parse _) as [[| | | | | |f]|]; try discriminate; [auto|].
  destruct (dec_fields sha s f) as [[w|]| |] eqn:D; cbn [obind]; try discriminate. intros _. split; [exact T|]. right.
  exists f. split; [reflexivity|]. eapply dec_fields_sound; exact D.
Qed.

Lemma accepted_fits sha k m : accepted sha k m -> fits (struct_of k) (m_body m).
Proof.
  destruct k; cbn [accepted struct_of]; intros (v & H);
  match type of H with ?e = _ => let h := head e in unfold h in H end; unfold rbind in H;
  match type of H with context [decode sha ?t ?s m] => destruct (decode sha t s m) as [[w|]| |] eqn:D; cbn [obind] in H; try discriminate H; apply decode_sound in D; apply D end.
Qed.
