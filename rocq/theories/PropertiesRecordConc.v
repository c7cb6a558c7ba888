(** * C227: overlapping publications of a provider *)
From Coq Require Import String List ZArith Bool Lia Permutation.
From Verif Require Import Base BaseProofs Ids Offer Message Schema Provider RecordConc RecordConcSpec RecordConcProofs.
From Verif Require Import PropertiesCrypto PropertiesMerkle ToyGateway.
Import ListNotations.
Open Scope nat_scope.

(** However the goroutines overlap: what a gateway is recorded to have never exceeds what it had and what it accepted, and
    when all are through it is exactly that, each offer as often as it was accepted. *)
Theorem publications_recorded : forall n a l es s, recording_run (begin_recording n a l) es = Some s ->
  forall g,
  (exists rest, Permutation (entry (node_offers (memory_of s)) g ++ rest) (entry n g ++ accepted_by g l)) /\
  (Forall (fun r => r_todo r = []) (recorders s) -> Permutation (entry (node_offers (memory_of s)) g) (entry n g ++ accepted_by g l)).
Proof.
  intros n a l es s H g. destruct (inv_run _ _ _ _ _ _ (inv_start n a l) H) as (_ & _ & P & R & _). split; [eexists; apply P|].
  intros D. rewrite <- (P g). assert (E : flat_map (left_ g) (recorders s) = []).
  { clear - D. induction D as [|r rs E D IH]; cbn; [reflexivity|]. rewrite IH. unfold left_. rewrite E. destruct (bytes_eqb g (r_gateway r)); [|reflexivity]. destruct (r_at r); reflexivity. }
  rewrite E, app_nil_r. reflexivity.
Qed.
Print Assumptions publications_recorded.

(** An acknowledgement that is kept was kept before or is that of a gateway for an offer for the identifier; and a goroutine that is
    through has left one for each of its offers.  None that was there is lost, though it may be replaced. *)
Theorem acknowledgements_recorded : forall n a l es s, recording_run (begin_recording n a l) es = Some s ->
  (forall c g x, kept (ack_map (memory_of s)) c g = Some x -> kept a c g = Some x \/ acknowledged l c g x) /\
  (forall c g, kept a c g <> None -> kept (ack_map (memory_of s)) c g <> None) /\
  forall i g x offers r o c, nth_error l i = Some (g, Some x, offers) -> nth_error (recorders s) i = Some r -> r_todo r = [] -> In o offers -> filed_under o c ->
    kept (ack_map (memory_of s)) c g <> None.
Proof.
  intros n a l es s H. destruct (inv_run _ _ _ _ _ _ (inv_start n a l) H) as (_ & _ & _ & R & G & O). split; [exact G|]. split; [exact O|].
  intros i g x offers r o c Hl Hr T I F. assert (Q : rel (memory_of s) (g, Some x, offers) r).
  { clear - R Hl Hr. revert i Hl Hr. induction R as [|y z ly lz Y R IH]; intros [|i] Hl Hr; cbn in *; try discriminate; [inversion Hl; inversion Hr; subst; exact Y|eauto]. }
  destruct Q as (Rg & Ra & d & E & D & _). cbn in Rg, Ra, E. rewrite T, app_nil_r in E. subst d. rewrite Forall_forall in D. destruct (D o I x c Ra F) as (y & K). rewrite <- Rg. congruence.
Qed.
Print Assumptions acknowledgements_recorded.

(** They all come to an end: as long as one is not through, a step is possible (if offers have identifiers), and eight for each
    offer are enough. *)
Theorem recording_goes_on : forall n a l es s, recording_run (begin_recording n a l) es = Some s -> Forall (fun x => Forall (fun o => o_cids o <> []) (snd x)) l ->
  length es <= 8 * length (flat_map snd l) /\
  (Forall (fun r => r_todo r = []) (recorders s) \/ exists i s', recording_run (begin_recording n a l) (es ++ [i]) = Some s').
Proof.
  intros n a l es s H C. split; [pose proof (rest_run _ _ _ H) as K; rewrite rest_start in K; lia|]. destruct (can_go _ _ _ _ (inv_run _ _ _ _ _ _ (inv_start n a l) H) C) as [D|(i & s' & S)]; [left; apply Forall_forall, D|]. right. exists i, s'.
  revert H. generalize (begin_recording n a l). induction es as [|e es IH]; cbn; intros k H; [inversion H; subst; rewrite S; reflexivity|]. destruct (recording_step k e); [apply IH, H|discriminate].
Qed.
Print Assumptions recording_goes_on.

(** A goroutine that is not disturbed leaves behind what the provider of Provider.v does. *)
Theorem recording_undisturbed : forall offers p p' id request response, record_published p id request response offers = Base.Ret p' ->
  recording_run (begin_recording (p_published p) (p_acks p) [(ToString id, Some (Acknowledgement request response), offers)]) (repeat 0 (8 * length offers))
  = Some (Recording (Memory false (p_published p') false (p_acks p')) [Recorder AtN (ToString id) (Some (Acknowledgement request response)) []]).
Proof.
  assert (SS : forall m c v, aset bytes_eqb (aset bytes_eqb m c []) c v = aset bytes_eqb m c v :> list (gostring * list (gostring * acknowledgement))).
  { intros m c v. induction m as [|[k w] m IH]; cbn; [rewrite bytes_eqb_refl; reflexivity|]. destruct (bytes_eqb c k) eqn:E; cbn; [rewrite ?bytes_eqb_refl, ?E; reflexivity|]. rewrite E, IH. reflexivity. }
  induction offers as [|o t IH]; intros p p' id request response H.
  - inversion H; subst. reflexivity.
  - cbn [record_published] in H. destruct (o_cids o) as [|c cs] eqn:C; [discriminate|]. apply IH in H. rewrite <- H. clear IH H.
    replace (8 * length (o :: t)) with (8 + 8 * length t) by (cbn [length]; lia). rewrite repeat_app. cbn [repeat app].
    unfold begin_recording, accepted. cbn [map fst snd].
    do 8 (cbn [recording_run recording_step nth_error recorders memory_of record_step r_todo r_at r_gateway r_ack n_locked a_locked node_offers ack_map go next_offer with_n with_a set_nth tl]; rewrite ?C).
    cbn [p_with_published p_with_acks p_published p_acks]. unfold add_published, add_ack, sent_to.
    destruct (aget bytes_eqb (p_acks p) (ToString c)) as [y|] eqn:E; [rewrite E; reflexivity|]. rewrite (aget_aset_eq bytes_eqb bytes_eqb_eq), SS. reflexivity.
Qed.
Print Assumptions recording_undisturbed.

(** Three answers of two gateways at once, one for a group offer. *)
Definition ack_no (n : Z) : acknowledgement := Acknowledgement (signed n (Base.Ret zero_message)) zero_message.
Definition three : list (gostring * option acknowledgement * list offer) :=
  [(gs "g1", Some (ack_no 1), [off2; off2]); (gs "g1", None, [off1]); (gs "g2", Some (ack_no 2), [off2])].
Definition turns : list nat := [0; 0; 0; 0; 1; 1; 0; 0; 1; 1; 2; 2; 0; 0; 2; 2; 2; 2; 2; 2; 0; 0; 0; 0; 0; 0; 0; 0].
Example three_ex : option_map (fun s => (map (fun e => (fst e, map o_price (snd e))) (node_offers (memory_of s)), map r_todo (recorders s))) (recording_run (begin_recording [] [] three) turns)
  = Some ([(gs "g1", [o_price off2; o_price off1; o_price off2]); (gs "g2", [o_price off2])], [[]; []; []]).
Proof. vm_compute. reflexivity. Qed.
Example held_ex : recording_run (begin_recording [] [] three) [0; 0; 1] = None.
Proof. vm_compute. reflexivity. Qed.
