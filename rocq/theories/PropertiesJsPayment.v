(** * Properties of the TypeScript payment manager *)
From Coq Require Import String List ZArith Lia Bool Sorted Init.Byte.
From Verif Require Import Base BaseProofs Json Payment PaymentSpec PaymentProofs PaymentFacts JsPayment JsPaymentSpec JsPaymentProofs PropertiesPayment.
Import ListNotations.
Open Scope Z_scope.

(** ** C176: top-ups and payments in any interleaving *)
Theorem js_vouchers_within_funds : forall os r lanes, opened_alone os -> Z.of_nat (length os) <= 2 ^ 53 -> js_nonneg os -> NoDup lanes ->
  let es := js_results os in
  zsum (map (fun k => highest (map (fun p => v_amount (snd p)) (issued r k es))) lanes) <= funded r es.
Proof.
  intros os r lanes A L N ND. cbv zeta. pose proof (vouchers_never_exceed_funds [] (map call_of (js_results os)) r lanes (nonneg_calls os N) ND) as P.
  rewrite (js_as_go [] os A L) in P. exact P.
Qed.
Print Assumptions js_vouchers_within_funds.

Theorem js_vouchers_accumulate : forall os r k i a v, opened_alone os -> Z.of_nat (length os) <= 2 ^ 53 ->
  let es := js_results os in
  nth_error (issued r k es) i = Some (a, v) ->
  v_lane v = k /\ v_nonce v = Z.of_nat i /\ v_terms v = [] /\
  v_amount v = zsum (map fst (firstn (S i) (issued r k es))) /\ channel_of r es = Some (v_chan v).
Proof.
  intros os r k i a v A L. cbv zeta. intros H. pose proof (vouchers_count_and_accumulate [] (map call_of (js_results os)) r k i a v) as P.
  rewrite (js_as_go [] os A L) in P. cbn [snd] in P. destruct (P H) as (P1 & P2 & P3). split; [exact P1|]. split; [|exact P3].
  rewrite P2. apply Z.mod_small. assert (I : (i < length (issued r k (js_results os)))%nat) by (apply nth_error_Some; congruence).
  assert (J : (length (issued r k (js_results os)) <= length (js_results os))%nat).
  { clear. induction (js_results os) as [|e es IH]; [cbn; lia|]. unfold issued in *. cbn [flat_map]. rewrite app_length. destruct e as [| ? ? ? ? p]; [cbn; lia|].
    destruct p; [cbn; lia..|]. destruct (_ && _); cbn; lia. }
  pose proof (run_events os NewJsMgr) as K. fold (js_results os) in K. lia.
Qed.
Print Assumptions js_vouchers_accumulate.

Theorem js_topup_asked_iff_short : forall os r k a sg, opened_alone os -> Z.of_nat (length os) < 2 ^ 53 ->
  let es := js_results os in
  snd (js_pay (j_out (fst (js_run NewJsMgr os))) r k a sg) = NeedTopup <->
  channel_of r es = None \/ funded r es - zsum (map fst (payments r es)) < a.
Proof.
  intros os r k a sg A L. cbv zeta. pose proof (topup_asked_iff_short [] (map call_of (js_results os)) r k a sg) as P.
  rewrite (js_as_go [] os A ltac:(lia)) in P. cbn [fst snd] in P. rewrite <- P. unfold js_pay, Pay. cbn [m_out].
  destruct (aget bytes_eqb _ r) as [c|]; [|cbn; tauto]. destruct (c_balance c <? c_redeemed c + a); [cbn; tauto|]. destruct (sg _); cbn; split; discriminate.
Qed.
Print Assumptions js_topup_asked_iff_short.

(** What the client pays, a Go node credits: every payment, in the order made,
    for its exact amount. *)
Theorem js_vouchers_received : forall verify own from os r ch bs calls, opened_alone os -> Z.of_nat (length os) <= 2 ^ 53 ->
  (forall r k a sg, In (JPay r k a sg) os -> forall b s, sg b = Some s -> verify from b (Some s) = true) ->
  Forall (fun p => 0 < fst p) (payments r (js_results os)) -> channel_of r (js_results os) = Some ch ->
  StronglySorted Z.le bs -> Forall2 Z.le (funded_when r 0 (js_results os)) bs ->
  calls_on ch calls = map (fun p => ORecv ch (Some (snd (fst p))) (Some (ChainState (snd p) (Account own) (Account from)))) (combine (payments r (js_results os)) bs) ->
  results_on ch (snd (recv_run verify (NewMgr own) calls)) = map (fun p => Credited (fst p)) (payments r (js_results os)).
Proof. intros verify. exact (js_received_pf verify). Qed.
Print Assumptions js_vouchers_received.

(** ** C177: the money of a top-up *)

(** Full claim: in every schedule what the client counts as put into a channel
    has been put into that channel, whatever the chain answers; see
    [js_failed_topup_refuted], [js_overlap_refuted] and [js_misdirected_refuted].
    Missing: first top-ups of one recipient that overlap, and messages to a
    channel that fail on the chain. *)
Theorem js_covered_partial : forall os r ch lanes, opened_alone os -> Z.of_nat (length os) <= 2 ^ 53 -> js_nonneg os ->
  Forall truthful (js_moved os) -> Forall went_through (js_moved os) -> NoDup lanes ->
  let es := js_results os in channel_of r es = Some ch ->
  funded r es <= deposits ch (js_moved os) /\
  zsum (map (fun k => highest (map (fun p => v_amount (snd p)) (issued r k es))) lanes) <= deposits ch (js_moved os).
Proof.
  intros os r ch lanes A L N HT HW ND. cbv zeta. intros H. pose proof (js_covered_pf os r ch A L N HT HW H) as C. split; [exact C|].
  pose proof (js_vouchers_within_funds os r lanes A L N ND) as V. cbv zeta in V. lia.
Qed.
Print Assumptions js_covered_partial.

(** A schedule in which all is well: a channel is opened, paid from, topped up
    while payments go on, and paid from again on another lane. *)
Local Ltac each t := repeat (apply Forall_cons; [t|]); apply Forall_nil.
Local Ltac true_reply := let H := fresh in intros ? H; cbn in H; first [discriminate H|intros; injection H as <-; split; reflexivity|intros X; discriminate X].
Definition made (a : gostring) : wait := Wait true a (Some (Some a)).
Definition sent : wait := Wait true [] (Some None).
Definition js_ops : list jsop :=
  [JPay bob 0 5 (signs alice); JTopup bob 10; JNonce 0 (Some 7); JPay bob 0 5 (signs alice); JGas 0 true; JSend 0 true; JWait 0 (made chA);
   JTopup bob 10; JPay bob 0 4 (signs alice); JNonce 1 (Some 8); JGas 1 true; JPay bob 1 3 (signs alice); JPay bob 0 9 (signs alice); JSend 1 true;
   JTopup bob 6; JNonce 2 (Some 9); JWait 1 sent; JPay bob 0 9 (signs alice); JGas 2 false].

Lemma js_ops_alone : opened_alone js_ops.
Proof.
  intros pre r a post E. unfold js_ops in E.
  repeat (destruct pre as [|o pre]; [try discriminate E; injection E as <- <- <-; vm_compute; intros; try reflexivity; discriminate|cbn [app] in E; injection E as <- E]).
  destruct pre; discriminate E.
Qed.

Example js_payment_ex : opened_alone js_ops /\ js_nonneg js_ops /\ Forall truthful (js_moved js_ops) /\ Forall went_through (js_moved js_ops) /\
  let es := js_results js_ops in
  map (fun p => (fst p, v_nonce (snd p), v_amount (snd p), v_lane (snd p), v_chan (snd p))) (payments bob es) = [(4, 0, 4, 0, chA); (3, 0, 3, 1, chA); (9, 1, 13, 0, chA)] /\
  funded bob es = 20 /\ deposits chA (js_moved js_ops) = 20 /\
  map (fun e => match e with EPay _ _ _ _ NeedTopup => true | _ => false end) es = [true; true; false; false; false; true; false; false; false] /\
  results_on chA (snd (recv_run toy_verify (NewMgr bob) (map (fun p => ORecv chA (Some (snd p)) (Some (state_of 20))) (payments bob es)))) = [Credited 4; Credited 3; Credited 9].
Proof.
  split; [exact js_ops_alone|]. split; [repeat constructor; lia|].
  assert (M : js_moved js_ops = [Moved false None 10 (made chA); Moved true (Some chA) 10 sent]) by (vm_compute; reflexivity). rewrite M.
  split; [each true_reply|].
  split; [each ltac:(intros ? ?; first [reflexivity|discriminate])|].
  vm_compute. repeat split; reflexivity.
Qed.

(** A message to the channel fails on the chain: it is counted all the same, and
    a voucher is signed for money that is not there. *)
Theorem js_failed_topup_refuted : exists os v, opened_alone os /\ Forall truthful (js_moved os) /\
  In (EPay bob 0 15 (signs alice) (Paid chA v)) (js_results os) /\ deposits chA (js_moved os) = 10 /\ funded bob (js_results os) = 20 /\
  results_on chA (snd (recv_run toy_verify (NewMgr bob) [ORecv chA (Some v) (Some (state_of 10))])) = [Refused].
Proof.
  exists [JTopup bob 10; JNonce 0 (Some 7); JGas 0 true; JSend 0 true; JWait 0 (made chA);
          JTopup bob 10; JNonce 1 (Some 8); JGas 1 true; JSend 1 true; JWait 1 (Wait false [] (Some None)); JPay bob 0 15 (signs alice)].
  exists (Voucher chA 0 0 15 [] (Some alice)). split.
  { intros pre r a post E.
    repeat (destruct pre as [|o pre]; [try discriminate E; injection E as <- <- <-; vm_compute; intros; try reflexivity; discriminate|cbn [app] in E; injection E as <- E]).
    destruct pre; discriminate E. }
  match goal with |- Forall truthful (js_moved ?o) /\ _ => assert (M : js_moved o = [Moved false None 10 (made chA); Moved true (Some chA) 10 (Wait false [] (Some None))]) by (vm_compute; reflexivity) end.
  rewrite M. split; [each true_reply|].
  vm_compute. repeat split; auto 10.
Qed.
Print Assumptions js_failed_topup_refuted.

(** Two first top-ups overlap: both succeed, both channels hold their money, and
    one of them is forgotten. *)
Theorem js_overlap_refuted : exists os, Forall truthful (js_moved os) /\ Forall went_through (js_moved os) /\
  deposits chA (js_moved os) = 10 /\ deposits chB (js_moved os) = 10 /\ funded bob (js_results os) = 20 /\
  snd (js_pay (j_out (fst (js_run NewJsMgr os))) bob 0 11 (signs alice)) = NeedTopup.
Proof.
  exists [JTopup bob 10; JTopup bob 10; JNonce 0 (Some 7); JNonce 1 (Some 7); JGas 0 true; JGas 1 true; JSend 0 true; JSend 1 true; JWait 0 (made chA); JWait 1 (made chB)].
  match goal with |- Forall truthful (js_moved ?o) /\ _ => assert (M : js_moved o = [Moved false None 10 (made chA); Moved false None 10 (made chB)]) by (vm_compute; reflexivity) end.
  rewrite M. split; [each true_reply|].
  split; [each ltac:(intros X; discriminate X)|]. vm_compute. repeat split; reflexivity.
Qed.
Print Assumptions js_overlap_refuted.

(** A top-up sent to the first channel is credited to the second, which has
    replaced it meanwhile: a voucher is signed that the second cannot pay. *)
Theorem js_misdirected_refuted : exists os v, Forall truthful (js_moved os) /\ Forall went_through (js_moved os) /\
  In (EPay bob 0 25 (signs alice) (Paid chB v)) (js_results os) /\ deposits chB (js_moved os) = 10 /\ deposits chA (js_moved os) = 30.
Proof.
  exists [JTopup bob 10; JTopup bob 10; JNonce 0 (Some 7); JNonce 1 (Some 8); JGas 0 true; JGas 1 true; JSend 0 true; JSend 1 true; JWait 0 (made chA);
          JTopup bob 20; JNonce 2 (Some 9); JGas 2 true; JSend 2 true; JWait 1 (made chB); JWait 2 sent; JPay bob 0 25 (signs alice)].
  exists (Voucher chB 0 0 25 [] (Some alice)).
  match goal with |- Forall truthful (js_moved ?o) /\ _ => assert (M : js_moved o = [Moved false None 10 (made chA); Moved false None 10 (made chB); Moved true (Some chA) 20 sent]) by (vm_compute; reflexivity) end.
  rewrite M. split; [each true_reply|].
  split; [each ltac:(intros ? ?; first [reflexivity|discriminate])|]. vm_compute. repeat split; auto 10.
Qed.
Print Assumptions js_misdirected_refuted.

(** An account that has never sent anything has nonce 0, and can never open a
    channel: the first top-up throws before anything is sent. *)
Theorem js_nonce_zero : forall s i r a, nth_error (j_tasks s) i = Some (AtNonce false r a) ->
  snd (js_step s (JNonce i (Some 0))) = ([ETopup r a TxRefused false], []).
Proof. intros s i r a H. cbn [js_step]. rewrite H. reflexivity. Qed.
Print Assumptions js_nonce_zero.
Example js_nonce_zero_ex : js_results [JTopup bob 10; JNonce 0 (Some 0); JGas 0 true; JPay bob 0 1 (signs alice)] =
  [ETopup bob 10 TxRefused false; EPay bob 0 1 (signs alice) NeedTopup].
Proof. vm_compute. reflexivity. Qed.

(** ** C178: the voucher's text is what Go reads *)
Theorem js_voucher_text_is_url : forall b, js_voucher_text (b64_encode b) = raw_url b.
Proof. exact text_url. Qed.
Print Assumptions js_voucher_text_is_url.

Example js_voucher_text_ex : js_voucher_text (b64_encode [xfb; xff; xfe; x3e]) = gs "-__-Pg" /\ b64_encode [xfb; xff; xfe; x3e] = gs "+//+Pg==".
Proof. split; vm_compute; reflexivity. Qed.

(** ** C179: paying for a search *)

(** Full claim: a search is paid for, with a top-up if need be, as in the Go
    client; see [js_search_unpaid_refuted].  Missing: searches that find the
    funds short, which are never paid. *)
Theorem js_search_paid_partial : forall os address target k price cfg sg, opened_alone os -> Z.of_nat (length os) < 2 ^ 53 ->
  let s := fst (js_run NewJsMgr os) in let es := js_results os in
  if match channel_of address es with None => true | Some _ => funded address es - zsum (map fst (payments address es)) <? price end
  then js_search_pay s address target k price cfg sg = (js_topup s target cfg, NeedTopup)
  else js_search_pay s address target k price cfg sg = (JsMgr (fst (js_pay (j_out s) address k price sg)) (j_tasks s), snd (js_pay (j_out s) address k price sg)) /\
       snd (js_pay (j_out s) address k price sg) <> NeedTopup.
Proof.
  intros os address target k price cfg sg A L. cbv zeta. pose proof (js_topup_asked_iff_short os address k price sg A L) as P. cbv zeta in P.
  set (s := fst (js_run NewJsMgr os)) in *. set (es := js_results os) in *.
  destruct (match channel_of address es with None => true | Some _ => _ end) eqn:E.
  - apply js_search_short, P. destruct (channel_of address es); [right; lia|left; reflexivity].
  - assert (N : snd (js_pay (j_out s) address k price sg) <> NeedTopup).
    { intros H. apply P in H. destruct (channel_of address es); [destruct H as [H|H]; [discriminate H|lia]|discriminate E]. }
    split; [|exact N]. unfold js_search_pay. destruct (js_pay (j_out s) address k price sg) as [o1 p1]. cbn [fst snd] in *. destruct p1; [destruct (N eq_refl)|reflexivity..].
Qed.
Print Assumptions js_search_paid_partial.

(** A standard search tops up the gateway's node ID but pays its address: with
    standard searches alone nothing is ever paid. *)
Theorem js_standard_never_paid : forall cs,
  (forall a n p c sg a' n' p' c' sg', In (Search a n p c sg) cs -> In (Search a' n' p' c' sg') cs -> a <> n') ->
  Forall (fun r => r = NeedTopup) (snd (js_client_run NewJsMgr cs)).
Proof.
  intros cs H. apply (js_never_paid_pf (fun x => exists a n p c sg, In (Search a n p c sg) cs /\ x = n)).
  - split; [intros r c G; discriminate G|intros t u r []].
  - intros a n p c sg I. split.
    + intros (a' & n' & p' & c' & sg' & I' & E). exact (H a n p c sg a' n' p' c' sg' I I' E).
    + exists a, n, p, c, sg. auto.
Qed.
Print Assumptions js_standard_never_paid.

(** ... while every one of these searches starts one more top-up. *)
Theorem js_standard_topups : forall cs,
  (forall a n p c sg a' n' p' c' sg', In (Search a n p c sg) cs -> In (Search a' n' p' c' sg') cs -> a <> n') ->
  length (j_tasks (fst (js_client_run NewJsMgr cs))) = length (filter (fun c => match c with Search _ _ _ _ _ => true | _ => false end) cs).
Proof.
  intros cs H. pose proof (js_standard_never_paid cs H) as N. destruct (js_topups_started_pf cs NewJsMgr) as [E|(r & I & D)].
  - rewrite E. cbn [NewJsMgr j_tasks length Nat.add]. clear E H.
    assert (F : forall s, Forall (fun r => r = NeedTopup) (snd (js_client_run s cs)) ->
      length (filter (fun r => match r with NeedTopup => true | _ => false end) (snd (js_client_run s cs))) =
      length (filter (fun c => match c with Search _ _ _ _ _ => true | _ => false end) cs)); [|exact (F _ N)].
    clear N. induction cs as [|c cs IH]; intros s F; [reflexivity|]. cbn [js_client_run] in *.
    assert (L : length (snd (js_client_step s c)) = match c with Search _ _ _ _ _ => 1%nat | _ => 0%nat end).
    { destruct c as [a n p cf sg|i n|i ok|i ok|i w]; cbn [js_client_step]; try reflexivity. destruct (js_search_pay _ _ _ _ _ _ _). reflexivity. }
    destruct (js_client_step s c) as [s1 p1]. cbn [snd] in L. specialize (IH s1). destruct (js_client_run s1 cs) as [s2 p2]. cbn [snd] in *.
    apply Forall_app in F as [F1 F2]. rewrite filter_app, app_length, (IH F2).
    assert (E1 : length (filter (fun r => match r with NeedTopup => true | _ => false end) p1) = length p1).
    { clear L. induction F1 as [|r p1 -> F1 IH1]; [reflexivity|]. cbn [filter length]. congruence. }
    rewrite E1, L. destruct c; reflexivity.
  - rewrite Forall_forall in N. destruct (D (N r I)).
Qed.
Print Assumptions js_standard_topups.

Definition carol_node : gostring := gs "node".
Definition std_life : list client_step :=
  [Search bob carol_node 2 10 (signs alice); Nonce 0 (Some 3); Gas 0 true; Send 0 true; Answered 0 (made chA); Search bob carol_node 2 10 (signs alice);
   Nonce 1 (Some 4); Gas 1 true; Send 1 true; Answered 1 sent; Search bob carol_node 2 10 (signs alice)].
Example js_standard_topups_ex : length (j_tasks (fst (js_client_run NewJsMgr std_life))) = 3%nat.
Proof. vm_compute. reflexivity. Qed.
Example js_standard_ex : snd (js_client_run NewJsMgr std_life) = [NeedTopup; NeedTopup; NeedTopup] /\
  map (fun p => (fst p, c_balance (snd p))) (j_out (fst (js_client_run NewJsMgr std_life))) = [(carol_node, 20)].
Proof. split; vm_compute; reflexivity. Qed.

(** The same call in Go tops up and pays. *)
Theorem js_search_unpaid_refuted : exists sg t ch v,
  snd (js_search_pay NewJsMgr bob bob 0 2 10 sg) = NeedTopup /\ snd (topupAndPay (NewMgr alice) bob 0 2 10 t t sg) = OkR (ch, v).
Proof. exists (signs alice), (TxDone (Some chA)), chA, (Voucher chA 0 0 2 [] (Some alice)). split; vm_compute; reflexivity. Qed.
Print Assumptions js_search_unpaid_refuted.
