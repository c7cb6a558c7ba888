(** * Properties of payments (C34-C41 and C64-C69) *)
From Coq Require Import String List ZArith Bool Lia Sorting.Sorted Init.Byte.
From Verif Require Import Base BaseProofs Payment PaymentSpec PaymentProofs PaymentFacts PaymentConc PaymentConcProofs BigBuf BigBufProofs.
Import ListNotations.
Open Scope Z_scope.

(** Toy values for the examples: a signature scheme in which the signature is
    the signer's name, and two parties. *)
Definition alice : gostring := gs "alice".
Definition bob : gostring := gs "bob".
Definition chA : gostring := gs "channelA".
Definition chB : gostring := gs "channelB".
Definition signs (who : gostring) (b : voucher) : option bytes := Some who.
Definition toy_verify (who : gostring) (b : voucher) (s : option bytes) : bool :=
  match s with Some x => bytes_eqb x who | None => false end.
Definition state_of (bal : Z) : chain_state := ChainState bal (Account bob) (Account alice).
Definition ex_ops : list payer_op :=
  [OPay bob 0 5 (signs alice); OTopup bob 10 (TxDone (Some chA)); OPay bob 0 4 (signs alice); OPay bob 1 3 (signs alice);
   OPay bob 0 9 (signs alice); OTopup bob 10 (TxDone None); OPay bob 0 2 (signs alice)].
Definition ex_es : list payer_ev := snd (payer_run (NewMgr alice) ex_ops).

(** ** C34 *)
Theorem vouchers_never_exceed_funds : forall own os r lanes,
  nonneg_ops os -> NoDup lanes ->
  let es := snd (payer_run (NewMgr own) os) in
  zsum (map (fun k => highest (map (fun p => v_amount (snd p)) (issued r k es))) lanes) <= funded r es.
Proof. intros own os r lanes HN ND. exact (vouchers_within_funds own os HN r lanes ND). Qed.
Print Assumptions vouchers_never_exceed_funds.

Example vouchers_never_exceed_funds_ex : nonneg_ops ex_ops /\
  map (fun k => highest (map (fun p => v_amount (snd p)) (issued bob k ex_es))) [0; 1] = [6; 3] /\ funded bob ex_es = 20.
Proof. split; [repeat constructor; lia|]. split; vm_compute; reflexivity. Qed.

(** ** C35 *)
Theorem vouchers_count_and_accumulate : forall own os r k i a v,
  let es := snd (payer_run (NewMgr own) os) in
  nth_error (issued r k es) i = Some (a, v) ->
  v_lane v = k /\ v_nonce v = Z.of_nat i mod 2 ^ 64 /\ v_terms v = [] /\
  v_amount v = zsum (map fst (firstn (S i) (issued r k es))) /\ channel_of r es = Some (v_chan v).
Proof. intros own os r k i a v. exact (vouchers_cumulative own os r k i a v). Qed.
Print Assumptions vouchers_count_and_accumulate.

Example vouchers_count_ex :
  map (fun p => (fst p, v_nonce (snd p), v_amount (snd p), v_chan (snd p))) (issued bob 0 ex_es) = [(4, 0, 4, chA); (2, 1, 6, chA)].
Proof. vm_compute. reflexivity. Qed.

(** ** C64: a payment asks for a top-up exactly when funds are short *)
Theorem topup_asked_iff_short : forall own os r k a sg,
  let m := fst (payer_run (NewMgr own) os) in let es := snd (payer_run (NewMgr own) os) in
  snd (Pay m r k a sg) = NeedTopup <->
  channel_of r es = None \/ funded r es - zsum (map fst (payments r es)) < a.
Proof. intros own os. exact (needs_topup_iff own os). Qed.
Print Assumptions topup_asked_iff_short.

Theorem payment_made_otherwise : forall own os r k a sg ch,
  let m := fst (payer_run (NewMgr own) os) in let es := snd (payer_run (NewMgr own) os) in
  channel_of r es = Some ch -> a <= funded r es - zsum (map fst (payments r es)) ->
  let nonce := Z.of_nat (length (issued r k es)) mod 2 ^ 64 in
  let total := zsum (map fst (issued r k es)) + a in
  snd (Pay m r k a sg) = match sg (Voucher ch k nonce total [] None) with
    | Some s => Paid ch (Voucher ch k nonce total [] (Some s))
    | None => PayError end.
Proof. intros own os. exact (pay_result own os). Qed.
Print Assumptions payment_made_otherwise.

Example payment_made_ex : channel_of bob ex_es = Some chA /\ funded bob ex_es - zsum (map fst (payments bob ex_es)) = 11 /\
  map (fun e => match e with EPay _ _ _ _ NeedTopup => true | _ => false end) ex_es = [true; false; false; false; true; false; false].
Proof. repeat split; vm_compute; reflexivity. Qed.

(** ** C65: negative payments *)

(** Full claim: a negative amount is never paid.  It is: the payment raises the
    spendable balance and the vouchers then exceed the funds. *)
Theorem negative_payment_refuted : exists os r ch v,
  In (EPay r 1 (-10) (signs alice) (Paid ch v)) (snd (payer_run (NewMgr alice) os)) /\
  funded r (snd (payer_run (NewMgr alice) os)) <
    highest (map (fun p => v_amount (snd p)) (issued r 0 (snd (payer_run (NewMgr alice) os)))).
Proof.
  exists [OTopup bob 10 (TxDone (Some chA)); OPay bob 0 10 (signs alice); OPay bob 1 (-10) (signs alice); OPay bob 0 10 (signs alice)], bob.
  eexists. eexists. split; [vm_compute; right; right; left; reflexivity|vm_compute; reflexivity].
Qed.
Print Assumptions negative_payment_refuted.

(** ** C66: top-ups are recorded *)

(** Full claim: without the last condition.  Missing: a channel whose creation
    succeeded on chain but whose receipt could not be decoded. *)
Theorem topup_recorded_partial : forall own os r a t,
  let m := fst (payer_run (NewMgr own) os) in let es := snd (payer_run (NewMgr own) os) in
  snd (Topup m r a t) = true <-> (exists ret, t = TxDone ret /\ (channel_of r es = None -> ret <> None)).
Proof. intros own os. exact (topup_result own os). Qed.
Print Assumptions topup_recorded_partial.

Example topup_recorded_ex : channel_of bob ex_es = Some chA /\ snd (Topup (fst (payer_run (NewMgr alice) ex_ops)) bob 7 (TxDone None)) = true.
Proof. split; vm_compute; reflexivity. Qed.

(** The coins are spent, and the next payment still finds no channel. *)
Theorem topup_recorded_refuted : exists m r, snd (Topup m r 10 (TxDone None)) = false /\
  snd (Pay (fst (Topup m r 10 (TxDone None))) r 0 1 (signs alice)) = NeedTopup.
Proof. exists (NewMgr alice), bob. split; vm_compute; reflexivity. Qed.
Print Assumptions topup_recorded_refuted.

(** ** C36 *)
Section Payee.
  Variable verify : gostring -> voucher -> option bytes -> bool.

  Theorem credited_sum_of_lanes : forall own os ch lanes,
    let es := snd (recv_run verify (NewMgr own) os) in
    NoDup lanes -> (forall k, accepted ch k es <> [] -> In k lanes) ->
    credited ch es = zsum (map (fun k => highest (map v_amount (accepted ch k es))) lanes).
  Proof. intros own os ch lanes. exact (credited_is_sum verify own os ch lanes). Qed.

  Theorem credited_within_balance : forall own os es1 ch dv rs x es2,
    snd (recv_run verify (NewMgr own) os) = es1 ++ ERecv ch dv rs (Credited x) :: es2 ->
    exists cs, rs = Some cs /\ 0 < x /\ credited ch es1 + x <= ch_balance cs /\
      forall b, In b (seen ch es1) -> b <= ch_balance cs.
  Proof. exact (credited_within verify). Qed.

  (** ** C70: exactly which receipts are credited, and with what *)
  Theorem receipt_credited_iff : forall own os ch dv rs x,
    let m := fst (recv_run verify (NewMgr own) os) in let es := snd (recv_run verify (NewMgr own) os) in
    snd (Receive verify m ch dv rs) = Credited x <->
    exists v cs from, dv = Some v /\ rs = Some cs /\
      ch_to cs = Account own /\ ch_from cs = Account from /\ verify from (unsigned v) (v_sig v) = true /\
      (forall b, In b (seen ch es) -> b <= ch_balance cs) /\
      next_nonce (accepted ch (v_lane v) es) <= v_nonce v /\
      x = v_amount v - highest (map v_amount (accepted ch (v_lane v) es)) /\ 0 < x /\
      credited ch es + x <= ch_balance cs.
  Proof. intros own os ch dv rs x. exact (receive_iff verify own _ _ (rinv_run verify own os _ _ (rinv_new own)) ch dv rs x). Qed.

  (** ** C37 *)
  Theorem voucher_never_credited_twice : forall own os es1 ch v rs x es2 v' rs' x' es3,
    snd (recv_run verify (NewMgr own) os) =
      es1 ++ ERecv ch (Some v) rs (Credited x) :: es2 ++ ERecv ch (Some v') rs' x' :: es3 ->
    v_lane v' = v_lane v -> v_amount v' <= v_amount v -> x' = Refused \/ x' = Crashed.
  Proof. exact (no_replay verify). Qed.

  (** ** C38 *)

  (** The funds in the channel to [r] when each payment to [r] was made. *)
  Theorem pay_receive_agree : forall payer own from os r ch bs calls,
    let es := snd (payer_run (NewMgr payer) os) in
    (forall r k a sg, In (OPay r k a sg) os -> forall b s, sg b = Some s -> verify from b (Some s) = true) ->
    Forall (fun p => 0 < fst p) (payments r es) ->
    channel_of r es = Some ch ->
    StronglySorted Z.le bs -> Forall2 Z.le (funded_when r 0 es) bs ->
    calls_on ch calls = map (fun p => ORecv ch (Some (snd (fst p))) (Some (ChainState (snd p) (Account own) (Account from)))) (combine (payments r es) bs) ->
    results_on ch (snd (recv_run verify (NewMgr own) calls)) = map (fun p => Credited (fst p)) (payments r es).
  Proof. exact (pay_receive_agree_pf verify). Qed.

  (** ** C39 *)

  (** Full claim: a credited voucher names the channel it was presented with.
      Missing: exactly that; what is checked is the payer of the presented
      channel and its payee. *)
  Theorem credited_signed_by_payer_partial : forall own os es1 ch dv rs x es2,
    snd (recv_run verify (NewMgr own) os) = es1 ++ ERecv ch dv rs (Credited x) :: es2 ->
    exists v cs from, dv = Some v /\ rs = Some cs /\ ch_to cs = Account own /\ ch_from cs = Account from /\
      verify from (unsigned v) (v_sig v) = true.
  Proof. exact (credited_authentic verify). Qed.
End Payee.
Print Assumptions credited_sum_of_lanes.
Print Assumptions credited_within_balance.
Print Assumptions receipt_credited_iff.
Print Assumptions voucher_never_credited_twice.
Print Assumptions pay_receive_agree.
Print Assumptions credited_signed_by_payer_partial.

Definition vch (ch : gostring) (k n a : Z) : voucher := Voucher ch k n a [] (Some alice).
Definition ex_calls : list recv_op :=
  [ORecv chA (Some (vch chA 0 0 4)) (Some (state_of 10)); ORecv chB (Some (vch chB 0 0 2)) (Some (state_of 5));
   ORecv chA (Some (vch chA 1 0 3)) (Some (state_of 10)); ORecv chA (Some (vch chA 0 0 4)) (Some (state_of 10));
   ORecv chA (Some (vch chA 0 1 9)) (Some (state_of 10)); ORecv chA (Some (vch chA 0 1 6)) (Some (state_of 20))].

Example payee_ex :
  map (fun e => match e with ERecv _ _ _ x => x end) (snd (recv_run toy_verify (NewMgr bob) ex_calls)) =
    [Credited 4; Credited 2; Credited 3; Refused; Refused; Credited 2] /\
  credited chA (snd (recv_run toy_verify (NewMgr bob) ex_calls)) = 9.
Proof. split; vm_compute; reflexivity. Qed.

(** The example payments delivered in order, with a call for another channel
    between them. *)
Example pay_receive_agree_ex :
  (forall r k a sg, In (OPay r k a sg) ex_ops -> forall b s, sg b = Some s -> toy_verify alice b (Some s) = true) /\
  Forall (fun p => 0 < fst p) (payments bob ex_es) /\ channel_of bob ex_es = Some chA /\
  StronglySorted Z.le [10; 12; 20] /\ Forall2 Z.le (funded_when bob 0 ex_es) [10; 12; 20] /\
  calls_on chA [ORecv chA (Some (vch chA 0 0 4)) (Some (state_of 10)); ORecv chB (Some (vch chB 0 0 2)) None;
                ORecv chA (Some (vch chA 1 0 3)) (Some (state_of 12)); ORecv chA (Some (vch chA 0 1 6)) (Some (state_of 20))]
  = map (fun p => ORecv chA (Some (snd (fst p))) (Some (ChainState (snd p) (Account bob) (Account alice)))) (combine (payments bob ex_es) [10; 12; 20]).
Proof.
  split.
  { intros r k a sg Hin. cbn [In ex_ops] in Hin.
    repeat (destruct Hin as [Hin|Hin]; [try discriminate; inversion Hin; subst; intros b s Hs; inversion Hs; vm_compute; reflexivity|]). destruct Hin. }
  split; [vm_compute; repeat constructor|]. split; [vm_compute; reflexivity|].
  split; [repeat constructor; lia|]. split; [vm_compute; repeat constructor; discriminate|]. vm_compute. reflexivity.
Qed.

(** One voucher, drawn on channel A, is credited on A and again on B. *)
Theorem foreign_channel_refuted : exists os v,
  v_chan v = chA /\ chA <> chB /\
  map (fun e => match e with ERecv ch dv _ x => (ch, dv, x) end) (snd (recv_run toy_verify (NewMgr bob) os)) =
    [(chA, Some v, Credited 4); (chB, Some v, Credited 4)].
Proof.
  exists [ORecv chA (Some (vch chA 0 0 4)) (Some (state_of 10)); ORecv chB (Some (vch chA 0 0 4)) (Some (state_of 10))], (vch chA 0 0 4).
  repeat split; try (vm_compute; reflexivity). discriminate.
Qed.
Print Assumptions foreign_channel_refuted.

(** ** C67: restart *)

(** Full claim: a credited voucher is refused after a restart too.  Nothing is
    kept, so it is credited again. *)
Theorem replay_after_restart_refuted : exists ch v cs,
  let m := fst (recv_run toy_verify (NewMgr bob) [ORecv ch (Some v) (Some cs)]) in
  snd (recv_run toy_verify (NewMgr bob) [ORecv ch (Some v) (Some cs)]) = [ERecv ch (Some v) (Some cs) (Credited 4)] /\
  snd (Receive toy_verify (NewMgr (m_addr (Shutdown m))) ch (Some v) (Some cs)) = Credited 4.
Proof. exists chA, (vch chA 0 0 4), (state_of 10). split; vm_compute; reflexivity. Qed.
Print Assumptions replay_after_restart_refuted.

(** ** C68: conditional vouchers *)

(** Full claim: a credited voucher carries no conditions.  What holds: the
    vouchers [Pay] makes carry none. *)
Theorem paid_vouchers_unconditional_partial : forall own os r k a v,
  let es := snd (payer_run (NewMgr own) os) in In (a, v) (issued r k es) -> v_terms v = [].
Proof.
  intros own os r k a v es Hin. apply In_nth_error in Hin as [i Hi].
  exact (proj1 (proj2 (proj2 (vouchers_cumulative own os r k i a v Hi)))).
Qed.
Print Assumptions paid_vouchers_unconditional_partial.

Example paid_vouchers_unconditional_ex : In (4, vch chA 0 0 4) (issued bob 0 ex_es).
Proof. vm_compute. left. reflexivity. Qed.

Theorem conditional_voucher_refuted : exists v cs, v_terms v <> [] /\
  snd (Receive toy_verify (NewMgr bob) chA (Some v) (Some cs)) = Credited 4.
Proof. exists (Voucher chA 0 0 4 (gs "not before epoch 9999999") (Some alice)), (state_of 10). split; [discriminate|vm_compute; reflexivity]. Qed.
Print Assumptions conditional_voucher_refuted.

(** ** C40 *)

(** Full claim: for any calls.  Missing: two concurrent calls that both have to
    open the same channel; false of the code, see below. *)
Theorem concurrent_calls_serializable_partial : forall verify m0 calls sched,
  no_double_open m0 calls ->
  let (m', ts) := conc_run verify m0 calls sched in
  exists log, seq_run verify m0 (map (fun x => snd (fst x)) log) = (m', map snd log) /\
    (forall i c a, In (i, c, a) log <-> nth_error ts i = Some (Done c a)) /\
    NoDup (map (fun x => fst (fst x)) log) /\ map call_of ts = calls.
Proof. intros verify m0 calls sched H. exact (conc_run_seq verify m0 calls H sched). Qed.
Print Assumptions concurrent_calls_serializable_partial.

Definition ex_conc : list call :=
  [CPayer (OTopup bob 10 (TxDone None)); CPayer (OPay bob 0 15 (signs alice)); CPayer (OTopup bob 7 (TxDone None));
   CPayer (OTopup alice 1 (TxDone (Some chB))); CRecv (ORecv chB (Some (vch chB 0 0 2)) (Some (state_of 5)))].
Definition ex_m0 : mgr := fst (Topup (NewMgr bob) bob 5 (TxDone (Some chA))).

Example concurrent_calls_ex : no_double_open ex_m0 ex_conc.
Proof.
  intros i j c c' Hi Hj N HO HE.
  destruct i as [|[|[|[|[|i]]]]]; try (destruct i; discriminate); inversion Hi; subst; cbn in HO; try congruence; try reflexivity;
  destruct j as [|[|[|[|[|j]]]]]; try (destruct j; discriminate); inversion Hj; subst; try congruence; cbn in HE; discriminate.
Qed.

(** Both top-ups succeed, and one is forgotten. *)
Theorem concurrent_topups_refuted : exists calls sched m' ts,
  conc_run toy_verify (NewMgr alice) calls sched = (m', ts) /\
  (forall t, In t ts -> exists c r tx, t = Done c (APayer (ETopup r 10 tx true))) /\ length ts = 2%nat /\
  snd (Pay m' bob 0 11 (signs alice)) = NeedTopup.
Proof.
  exists [CPayer (OTopup bob 10 (TxDone (Some chA))); CPayer (OTopup bob 10 (TxDone (Some chB)))], [0; 1; 0; 1]%nat.
  eexists. eexists. split; [vm_compute; reflexivity|]. split; [|split; vm_compute; reflexivity].
  intros t [<-|[<-|[]]]; eexists; eexists; eexists; reflexivity.
Qed.
Print Assumptions concurrent_topups_refuted.

(** One voucher received by two goroutines at once is credited twice. *)
Theorem concurrent_receipts_refuted : exists v cs sched,
  map (fun t => match t with Done _ (ARecv (ERecv _ _ _ x)) => Some x | _ => None end)
    (snd (conc_run toy_verify (NewMgr bob) [CRecv (ORecv chA (Some v) (Some cs)); CRecv (ORecv chA (Some v) (Some cs))] sched))
  = [Some (Credited 4); Some (Credited 4)].
Proof. exists (vch chA 0 0 4), (state_of 10), [0; 1; 0; 1]%nat. vm_compute. reflexivity. Qed.
Print Assumptions concurrent_receipts_refuted.

(** ** C41 *)

(** The helper makes one to four calls of the fixed sequence top up, pay, top up,
    pay; it returns a voucher exactly when the last of them, and only that, paid. *)
Theorem topup_and_pay_calls : forall m r k a cfg t1 t2 sg m' res,
  topupAndPay m r k a cfg t1 t2 sg = (m', res) ->
  exists n es e, (n = 1 \/ n = 2 \/ n = 3 \/ n = 4)%nat /\
    payer_run m (firstn n [OTopup r cfg t1; OPay r k a sg; OTopup r cfg t2; OPay r k a sg]) = (m', es ++ [e]) /\
    match res with
    | OkR (ch, v) => e = EPay r k a sg (Paid ch v)
    | ErrR => match e with EPay _ _ _ _ (Paid _ _) => False | _ => True end
    end /\
    (* it stops only when a call failed, or after the second payment *)
    match e with ETopup _ _ _ ok => ok = false | EPay _ _ _ _ NeedTopup => n = 4%nat | _ => True end /\
    (forall ch v, In (EPay r k a sg (Paid ch v)) es -> False) /\ (In (EPay r k a sg PayError) es -> False).
Proof. exact topup_and_pay_runs. Qed.
Print Assumptions topup_and_pay_calls.

(** The returned voucher is worth the amount on top of what the lane had. *)
Theorem topup_and_pay_worth : forall own os r k a cfg t1 t2 sg m' ch v,
  let m := fst (payer_run (NewMgr own) os) in let es := snd (payer_run (NewMgr own) os) in
  topupAndPay m r k a cfg t1 t2 sg = (m', OkR (ch, v)) ->
  v_chan v = ch /\ v_lane v = k /\ v_sig v = sg (unsigned v) /\ v_sig v <> None /\
  v_amount v = zsum (map fst (issued r k es)) + a /\ v_nonce v = Z.of_nat (length (issued r k es)) mod 2 ^ 64.
Proof. exact topup_and_pay_value. Qed.
Print Assumptions topup_and_pay_worth.

Example topup_and_pay_ex :
  snd (topupAndPay (fst (payer_run (NewMgr alice) ex_ops)) bob 0 30 10 (TxDone None) (TxDone None) (signs alice)) = OkR (chA, vch chA 0 2 36) /\
  snd (topupAndPay (fst (payer_run (NewMgr alice) ex_ops)) bob 0 32 10 (TxDone None) (TxDone None) (signs alice)) = ErrR.
Proof. split; vm_compute; reflexivity. Qed.

(** ** C69 *)

(** Full claim: for any configured value.  Missing: values whose digit buffer
    has spare capacity, for which it is false. *)
Theorem configured_amount_kept_partial : forall ws n, wordy ws -> ws <> [] -> norm_len ws = length ws ->
  let (h0, amount) := config ws 0 in
  let (h, bal) := topups n (h0, None) amount in
  nval h amount = wval ws /\ match bal with None => n = O | Some b => nval h b = Z.of_nat n * wval ws end.
Proof. exact topups_exact. Qed.
Print Assumptions configured_amount_kept_partial.

(** The default, 10^17, made by [big.NewInt]. *)
Example configured_amount_kept_ex : wordy [100000000000000000] /\ norm_len [100000000000000000] = 1%nat /\ wval [100000000000000000] = 10 ^ 17.
Proof. split; [apply Forall_cons; [unfold W; lia|apply Forall_nil]|]. split; vm_compute; reflexivity. Qed.

(** 10^19 parsed from text: the second top-up turns the configured amount into
    2 * 10^19 mod 2^64. *)
Theorem configured_amount_kept_refuted : exists ws spare n,
  wordy ws /\ norm_len ws = length ws /\ wval ws = 10 ^ 19 /\
  let (h0, amount) := config ws spare in nval (fst (topups n (h0, None) amount)) amount <> wval ws.
Proof.
  exists [10000000000000000000], 5%nat, 2%nat. split; [apply Forall_cons; [unfold W; lia|apply Forall_nil]|].
  split; [vm_compute; reflexivity|]. split; [vm_compute; reflexivity|]. vm_compute. discriminate.
Qed.
Print Assumptions configured_amount_kept_refuted.
