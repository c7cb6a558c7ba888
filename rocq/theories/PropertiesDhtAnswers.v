(** * C206: what a client makes of the answers a gateway passes on

    A client that buys offers through a gateway gets the answers of several other gateways at once.  An answer that cannot be read costs only itself; an
    answer that asks for payment costs all the others. *)
From Coq Require Import String List ZArith Bool Lia.
From Coq Require Import Init.Byte.
From Verif Require Import Base BaseProofs Ids Crypto Message Offer OfferProofs Schema Messages MessagesSpec WireSpec Payment Ring Register Json Rest
  Gateway Client ClientSpec PropertiesMerkle PropertiesCrypto PropertiesMessages ToyGateway ToyClient PropertiesDht RetrievalProofs MessageProofs.
Import ListNotations.
Open Scope Z_scope.

(** ** What each answer says, if it can be read *)
Section spec.
  Variable sha256 : bytes -> bytes.
  Definition asks_payment (m : message) : Prop := exists i q f os fs tp, DecodeGatewayDHTDiscoverOfferResponse sha256 m = Ret (OkR (i, q, f, os, fs, true, tp)).
  Definition sells (m : message) (offers : list suboffer) : Prop :=
    offers <> [] /\ exists i q fs tp, DecodeGatewayDHTDiscoverOfferResponse sha256 m = Ret (OkR (i, q, true, Some offers, fs, false, tp)).
  (** The offers of the gateways that sell, in the order of the answers; the others are left out. *)
  Inductive gathered : list (bytes * message) -> list (bytes * list suboffer) -> Prop :=
  | gathered_none : gathered [] []
  | gathered_sells : forall id m l offers r, sells m offers -> gathered l r -> gathered ((id, m) :: l) ((id, offers) :: r)
  | gathered_skips : forall id m l r, ~ asks_payment m -> (forall offers, ~ sells m offers) -> gathered l r -> gathered ((id, m) :: l) r.
End spec.

Section properties.
  Variable version : Z.
  Variable supported : list Z.
  Variable sha256 : bytes -> bytes.
  Variable pub_of : bytes -> bytes.
  Variable ec_verify : bytes -> bytes -> bytes -> bool.
  Variable blake : bytes -> bytes.

  Lemma gathered_unique : forall l r1 r2, gathered sha256 l r1 -> gathered sha256 l r2 -> r1 = r2.
  Proof using.
    intros l r1 r2 H. revert r2. induction H as [|id m l os r Sl H IH|id m l r N Ns H IH]; intros r2 H2; inversion H2 as [|id' m' l' os' r' Sl' H'|id' m' l' r' N' Ns' H']; subst.
    - reflexivity.
    - f_equal; [|auto]. destruct Sl as (_ & i & q & fs & tp & D). destruct Sl' as (_ & i' & q' & fs' & tp' & D'). congruence.
    - exfalso. exact (Ns' _ Sl).
    - exfalso. exact (Ns _ Sl').
    - auto.
  Qed.

  Lemma sub_responses_gathered : forall l, (forall id m, In (id, m) l -> ~ asks_payment sha256 m) ->
    exists r, sub_responses sha256 l = Ret (OkR r) /\ gathered sha256 l r.
  Proof using.
    induction l as [|[id m] t IH]; intros N; cbn [sub_responses]; [eexists; split; [reflexivity|constructor]|].
    destruct IH as (r & E & G); [intros; eapply N; right; eassumption|].
    pose proof (decoders_return_partial sha256 KGatewayDHTDiscoverOfferResponse m eq_refl) as D. cbn [returns] in D. destruct D as (d & D). rewrite D, E. cbn [obind].
    pose proof (N id m (or_introl eq_refl)) as N0.
    destruct d as [[[[[[[i q] f] os] fs] p] tp]|]; cbn [obind].
    - destruct p; [exfalso; apply N0; unfold asks_payment; eauto 10|]. cbn [obind]. eexists; split; [reflexivity|].
      destruct f; cbn [andb].
      + destruct os as [[|o os]|]; cbn [items length Nat.eqb negb].
        * apply gathered_skips; auto. intros offers (X & i' & q' & fs' & tp' & D'). rewrite D in D'. congruence.
        * apply gathered_sells; auto. split; [discriminate|]. eauto.
        * apply gathered_skips; auto. intros offers (X & i' & q' & fs' & tp' & D'). rewrite D in D'. congruence.
      + apply gathered_skips; auto. intros offers (X & i' & q' & fs' & tp' & D'). rewrite D in D'. congruence.
    - eexists; split; [reflexivity|]. apply gathered_skips; auto. intros offers (X & i' & q' & fs' & tp' & D'). rewrite D in D'. congruence.
  Qed.

  Lemma sub_responses_refused : forall l id m, In (id, m) l -> asks_payment sha256 m -> sub_responses sha256 l = Ret ErrR.
  Proof using.
    induction l as [|[id' m'] t IH]; intros id m X (i & q & f & os & fs & tp & D); [destruct X|]. cbn [sub_responses]. destruct X as [X|X].
    - injection X as -> ->. rewrite D. reflexivity.
    - rewrite (IH id m X) by (unfold asks_payment; eauto 10).
      pose proof (decoders_return_partial sha256 KGatewayDHTDiscoverOfferResponse m' eq_refl) as D'. cbn [returns] in D'. destruct D' as (d & D'). rewrite D'. cbn [obind].
      destruct d as [[[[[[[i' q'] f'] os'] fs'] p'] tp']|]; cbn [obind]; [destruct p'|]; reflexivity.
  Qed.

  (** ** C206 *)

  (** A signed response with as many gateways as answers, none of which asks for payment: the call returns the offers of exactly the gateways that sell, in their
      order, whatever the other answers are: unreadable, empty or of another type. *)
  Theorem one_bad_answer_partial : forall e n gw ids cid nonce digests channel text request response i q names answers tp,
    EncodeClientDHTDiscoverOfferRequest version supported cid nonce digests ids channel text = Ret request ->
    answered pub_of ec_verify blake e n gw request response ->
    DecodeClientDHTDiscoverOfferResponse sha256 response = Ret (OkR (i, q, names, Some answers, false, tp)) -> length names = length answers ->
    (forall m, In m answers -> ~ asks_payment sha256 m) ->
    exists r, RequestDHTOfferDiscover version supported sha256 pub_of ec_verify blake e n gw ids cid nonce digests channel text = Ret (OkR r, [(r_client_ap gw, request)]) /\
      gathered sha256 (combine names answers) r.
  Proof using.
    intros e n gw ids cid nonce digests channel text request response i q names answers tp E (H & k & P & V) D L N.
    destruct (sub_responses_gathered (combine names answers)) as (r & S & G); [intros id m X; apply N; exact (in_combine_r _ _ _ _ X)|].
    exists r. split; [|exact G]. unfold RequestDHTOfferDiscover, ask. rewrite E. cbn [obind]. rewrite H. unfold GetSigningKey. rewrite P. cbn [obind].
    rewrite message_verify_state, V.
    cbn [obind]. rewrite D. cbn [obind items]. rewrite L, Nat.eqb_refl. cbn [negb]. rewrite S. reflexivity.
  Qed.

  (** One answer that asks for payment makes the whole call fail: no offer of any gateway is returned. *)
  Theorem one_unpaid_answer : forall e n gw ids cid nonce digests channel text request response i q names answers tp m,
    EncodeClientDHTDiscoverOfferRequest version supported cid nonce digests ids channel text = Ret request ->
    answered pub_of ec_verify blake e n gw request response ->
    DecodeClientDHTDiscoverOfferResponse sha256 response = Ret (OkR (i, q, names, Some answers, false, tp)) ->
    In m answers -> asks_payment sha256 m ->
    RequestDHTOfferDiscover version supported sha256 pub_of ec_verify blake e n gw ids cid nonce digests channel text = Ret (ErrR, [(r_client_ap gw, request)]).
  Proof using.
    intros e n gw ids cid nonce digests channel text request response i q names answers tp m E (H & k & P & V) D X A.
    unfold RequestDHTOfferDiscover, ask. rewrite E. cbn [obind]. rewrite H. unfold GetSigningKey. rewrite P. cbn [obind].
    rewrite message_verify_state, V.
    cbn [obind]. rewrite D. cbn [obind items]. destruct (Nat.eqb (length names) (length answers)) eqn:L; cbn [negb]; [|reflexivity].
    apply Nat.eqb_eq in L. apply In_nth_error in X. destruct X as (j & X). destruct (nth_error names j) as [id|] eqn:Y.
    - rewrite (sub_responses_refused (combine names answers) id m); [reflexivity| |exact A].
      clear - X Y. revert j answers X Y. induction names as [|a names IH]; intros [|j] [|b answers] X Y; try discriminate; cbn in *.
      + injection X as ->. injection Y as ->. left. reflexivity.
      + right. eapply IH; eassumption.
    - apply nth_error_None in Y. assert (j < length answers)%nat by (apply nth_error_Some; congruence). lia.
  Qed.
End properties.
Print Assumptions gathered_unique.
Print Assumptions one_bad_answer_partial.
Print Assumptions one_unpaid_answer.

(** ** Examples *)
Definition sub25 : suboffer := Eval vm_compute in GenerateSubCIDOffer off25 (idn 25).
Definition answer_of (k : Z) (offers : list suboffer) (unpaid : bool) : message :=
  signed k (EncodeGatewayDHTDiscoverOfferResponse 1 [1] (Some (idn 25)) 9 (negb unpaid) (Some offers) (Some (map (fun _ => true) offers)) unpaid (gs "cc")).
Definition sold10 : message := Eval vm_compute in answer_of 1 [sub25] false.
Definition unpaid30 : message := Eval vm_compute in answer_of 3 [] true.
(** The request of the same type, which cannot be read as an answer. *)
Definition asked20 : outcome message := EncodeClientDHTDiscoverOfferRequest 1 [1] (Some (idn 25)) 9 (Some [Some [gs "a"]; Some [gs "b"]]) [idn 30; idn 10] (gs "cc") (gs "vv").
Definition unread30 : message := Eval vm_compute in signed 3 asked20.
Definition passed_on (answers : list message) : message :=
  signed 2 (EncodeClientDHTDiscoverOfferResponse 1 [1] (Some (idn 25)) 9 [idn 30; idn 10] (Some answers) false []).
Definition passed_net (response : message) : cenv :=
  CEnv 40 (fun _ url _ => if bytes_eqb url (r_client_ap gw20) then Some response else None) (fun _ => None) (fun _ => None) (Some (gs "me")) (fun _ => TxRefused) (fun _ => None) (fun x => x).
Definition passed_bad : message := Eval vm_compute in passed_on [unread30; sold10].
Definition passed_unpaid : message := Eval vm_compute in passed_on [unpaid30; sold10].
Definition t_order (response : message) := RequestDHTOfferDiscover 1 [1] toy_hash toy_pub PropertiesCrypto.toy_verify toy_blake (passed_net response) 0 gw20
  [idn 30; idn 10] (Some (idn 25)) 9 (Some [Some [gs "a"]; Some [gs "b"]]) (gs "cc") (gs "vv").
Definition bought (o : outcome (result (list (bytes * list suboffer)) * list (gostring * message))) : option (list (bytes * list Z)) * nat :=
  match o with Ret (OkR l, out) => (Some (map (fun x => (fst x, map s_price (snd x))) l), length out) | Ret (ErrR, out) => (None, length out) | _ => (None, 0%nat) end.

Example unreadable_skipped : bought (t_order passed_bad) = (Some [(idn 10, [10])], 1%nat).
Proof. vm_compute. reflexivity. Qed.

(** Refuted: gateway 10 has sold its offer and the gateway asked has passed it on, but gateway 30 asks for payment: the client returns nothing. *)
Theorem one_bad_answer_refuted : bought (t_order passed_unpaid) = (None, 1%nat) /\
  (exists offers, sells toy_hash sold10 offers) /\ asks_payment toy_hash unpaid30 /\
  exists i q tp, DecodeClientDHTDiscoverOfferResponse toy_hash passed_unpaid = Ret (OkR (i, q, [idn 30; idn 10], Some [unpaid30; sold10], false, tp)).
Proof.
  split; [vm_compute; reflexivity|]. split; [exists [sub25]; split; [discriminate|]|split].
  - eexists _, _, _, _. vm_compute. reflexivity.
  - eexists _, _, _, _, _, _. vm_compute. reflexivity.
  - eexists _, _, _. vm_compute. reflexivity.
Qed.
Print Assumptions one_bad_answer_refuted.

(** The hypotheses of the theorems hold for both responses. *)
Example passed_answered : forall r, r = passed_bad \/ r = passed_unpaid -> exists request, asked20 = Ret request /\
  answered toy_pub PropertiesCrypto.toy_verify toy_blake (passed_net r) 0 gw20 request r.
Proof.
  intros r [->| ->]; (eexists; split; [vm_compute; reflexivity|]; split; [vm_compute; reflexivity|]; eexists; split; [vm_compute; reflexivity|vm_compute; reflexivity]).
Qed.
