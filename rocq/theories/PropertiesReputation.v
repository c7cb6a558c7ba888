(** * Properties of client reputation (C46, C94)

    [fold_left do_op h []]: the reputations after the operations [h], a panic ending
    the operation in which it happens. *)
From Coq Require Import String List ZArith Bool Lia Sorting.Permutation.
From Coq Require Import Init.Byte.
From Verif Require Import Base Ids Crypto Message Offer WireSpec Schema Messages Rest Reputation ReputationSpec ReputationProofs
  PropertiesIds PropertiesCrypto.
Import ListNotations.
Open Scope Z_scope.
Open Scope go_scope.

Definition alice : option bytes := Some (idn 7).
Definition bob : option bytes := Some (idn 8).
Definition after (h : list op) : reps := fold_left do_op h [].

(** ** C46 *)

(** The exact reputation of every client, a function of what happened to that client.
    Missing: settings of 2^62 and more, for which it is false (see below). *)
Theorem reputation_history_partial : forall h c, Forall proper_op h -> Forall roomy_op h -> id32 c ->
  GetClientReputation (fold_left do_op h []) (Some c) = Ret (shown (reputation h c)).
Proof. exact history_pf. Qed.
Print Assumptions reputation_history_partial.
Example reputation_history_ex :
  let h := [Reported bob OnChainDeposit; Challenge alice; Challenge bob; Reported alice OnChainDeposit; Reported alice ClientDhtDiscNonPayment;
            Reported bob ClientStdDiscNonPayment; AdminSetTo bob 9995; Reported bob ClientStdDiscOneCidOffer; Challenge alice] in
  (GetClientReputation (after h) alice, GetClientReputation (after h) bob, GetClientReputation (after h) (Some (idn 9)))
  = (Ret (708, true), Ret (10000, true), Ret (0, false)).
Proof. vm_compute. reflexivity. Qed.
Example reputation_history_ex_spec :
  reputation [Challenge alice; Reported alice OnChainDeposit; Challenge bob; Reported alice ClientDhtDiscNonPayment; Challenge alice] (idn 7) = Some 708.
Proof. vm_compute. reflexivity. Qed.

(** Within the bounds, when the settings are.  Missing: settings outside, see below. *)
Theorem reputation_bounds_partial : forall h, Forall bounded_op h -> all_in_bounds (fold_left do_op h []).
Proof. exact bounds_pf. Qed.
Print Assumptions reputation_bounds_partial.
Example reputation_bounds_ex :
  GetClientReputation (after (Challenge alice :: repeat (Reported alice OnChainDeposit) 12)) alice = Ret (10000, true) /\
  GetClientReputation (after (Challenge alice :: repeat (Reported alice ClientDhtDiscNonPayment) 40)) alice = Ret (-10000, true).
Proof. vm_compute. split; reflexivity. Qed.

(** The same whatever operations of however many goroutines are interleaved. *)
Theorem reputation_bounds_concurrent_partial : forall jobs sched, Forall (Forall bounded_op) jobs ->
  all_in_bounds (s_reps (run (start [] jobs) sched)).
Proof. exact concurrent_bounds_pf. Qed.
Print Assumptions reputation_bounds_concurrent_partial.
Example reputation_bounds_concurrent_ex :
  let s := run (start [] [[Challenge alice; AdminSetTo alice 9999]; [Challenge alice; Reported alice ClientStdDiscOneCidOffer; Reported alice ClientMicroPayment]])
    [0; 1; 1; 0; 0; 0; 0; 1; 1; 1]%nat in
  (GetClientReputation (s_reps s) alice, s_panics s) = (Ret (10000, true), 0%nat).
Proof. vm_compute. reflexivity. Qed.

(** Operations for other clients make no difference. *)
Theorem reputation_independent : forall h h' c, Forall proper_op h -> Forall proper_op h' -> id32 c ->
  filter (about c) h = filter (about c) h' ->
  GetClientReputation (fold_left do_op h []) (Some c) = GetClientReputation (fold_left do_op h' []) (Some c).
Proof. exact independence_pf. Qed.
Print Assumptions reputation_independent.
Example reputation_independent_ex :
  GetClientReputation (after [Challenge bob; Challenge alice; Reported bob OnChainDeposit; SetTo bob 77; Reported alice ClientInvalidMessage]) alice
  = GetClientReputation (after [Challenge alice; Reported alice ClientInvalidMessage]) alice.
Proof. vm_compute. reflexivity. Qed.

(** Exactly the established clients have a reputation. *)
Theorem reputation_unknown : forall h c, Forall proper_op h -> id32 c -> existsb (establishes c) h = false ->
  GetClientReputation (fold_left do_op h []) (Some c) = Ret (0, false).
Proof. exact unknown_pf. Qed.
Print Assumptions reputation_unknown.
Theorem reputation_known : forall h c, Forall proper_op h -> id32 c -> existsb (establishes c) h = true ->
  exists v, GetClientReputation (fold_left do_op h []) (Some c) = Ret (v, true).
Proof. exact established_pf. Qed.
Print Assumptions reputation_known.
Example reputation_unknown_ex :
  let h := [Reported alice OnChainDeposit; AdminSetTo alice 500; Challenge bob] in
  (existsb (establishes (idn 7)) h, GetClientReputation (after h) alice, existsb (establishes (idn 8)) h, GetClientReputation (after h) bob)
  = (false, Ret (0, false), true, Ret (9, true)).
Proof. vm_compute. reflexivity. Qed.

(** The admin can set any int64, in particular one outside the bounds. *)
Theorem reputation_bounds_refuted :
  ~ (forall h, all_in_bounds (fold_left do_op h [])).
Proof.
  intros H. specialize (H [Challenge alice; AdminSetTo alice 1000000] (idn 7) 1000000).
  assert (E : GetClientReputation (after [Challenge alice; AdminSetTo alice 1000000]) (Some (idn 7)) = Ret (1000000, true)) by (vm_compute; reflexivity).
  specialize (H E). unfold in_bounds in H. lia.
Qed.
Print Assumptions reputation_bounds_refuted.

(** And a deposit can then cost the client everything: the sum overflows. *)
Theorem deposit_raises_refuted :
  exists h c v, GetClientReputation (fold_left do_op h []) (Some c) = Ret (v, true) /\ v > 0 /\
    GetClientReputation (fold_left do_op (h ++ [Reported (Some c) OnChainDeposit]) []) (Some c) = Ret (-10000, true).
Proof. exists [Challenge alice; AdminSetTo alice (2 ^ 63 - 1)], (idn 7), (2 ^ 63 - 1). vm_compute. repeat split. Qed.
Print Assumptions deposit_raises_refuted.

(** ** C94 *)

(** Establishment and settings never panic, nor do events of known clients, in any
    interleaving.  Missing: events reported for unknown clients, and nil identifiers. *)
Theorem reputation_no_panic_partial : forall r jobs sched, Forall (Forall (harmless r)) jobs ->
  s_panics (run (start r jobs) sched) = 0%nat.
Proof. exact no_panic_pf. Qed.
Print Assumptions reputation_no_panic_partial.
Example reputation_no_panic_ex :
  let s := run (start [] [[Challenge alice; Challenge bob]; [AdminSetTo alice 5; Challenge alice]]) [0; 1; 0; 1; 0; 0; 1; 1; 0; 1; 0]%nat in
  (s_panics s, GetClientReputation (s_reps s) alice, GetClientReputation (s_reps s) bob) = (0%nat, Ret (8, true), Ret (9, true)).
Proof. vm_compute. reflexivity. Qed.
Theorem reputation_no_panic_refuted : exists r id e, Report r (Some id) e = Panic.
Proof. exists [], (idn 7), ClientMicroPayment. vm_compute. reflexivity. Qed.
Print Assumptions reputation_no_panic_refuted.

(** For clients known beforehand, goroutines have the same effect as some order of
    whole operations: nothing is lost.  Missing: clients not yet known. *)
Theorem reputation_serial_partial : forall r jobs sched, Forall (Forall (known r)) jobs ->
  finished (run (start r jobs) sched) ->
  exists order, Permutation (concat jobs) order /\ s_reps (run (start r jobs) sched) = fold_left do_op order r.
Proof. exact serial_pf. Qed.
Print Assumptions reputation_serial_partial.
Example reputation_serial_ex :
  let r := after [Challenge alice] in
  let s := run (start r [[Challenge alice; Reported alice OnChainDeposit]; [Challenge alice; AdminSetTo alice 3]]) [0; 1; 1; 1; 0; 0; 1]%nat in
  (GetClientReputation r alice, s_threads s, s_reps s) =
  (Ret (9, true), [Thread Idle []; Thread Idle []],
   fold_left do_op [Challenge alice; Challenge alice; Reported alice OnChainDeposit; AdminSetTo alice 3] r).
Proof. vm_compute. reflexivity. Qed.

(** Two first challenges at once: one is lost, no order of the two explains the result. *)
Theorem reputation_serial_refuted : exists jobs sched,
  finished (run (start [] jobs) sched) /\
  ~ exists order, Permutation (concat jobs) order /\
      GetClientReputation (s_reps (run (start [] jobs) sched)) alice = GetClientReputation (fold_left do_op order []) alice.
Proof.
  exists [[Challenge alice]; [Challenge alice]], [0; 1; 0; 0; 1; 1]%nat. split.
  - unfold finished. vm_compute. repeat constructor.
  - intros (order & P & E). change (concat [[Challenge alice]; [Challenge alice]]) with (repeat (Challenge alice) 2) in P.
    assert (O : order = repeat (Challenge alice) 2).
    { assert (F : Forall (fun o => o = Challenge alice) order).
      { eapply Permutation_Forall; [exact P|]. repeat constructor. }
      assert (L : length order = 2%nat) by (rewrite <- (Permutation_length P); reflexivity).
      destruct order as [|x [|y [|z l]]]; try discriminate. inversion F as [|? ? -> F']; subst. inversion F' as [|? ? -> _]; subst. reflexivity. }
    subst order. vm_compute in E. discriminate.
Qed.
Print Assumptions reputation_serial_refuted.

(** ** The admin's requests (C46) *)
Theorem admin_sets_reputation : forall version supported sha256 ec_sign blake k ver r c v request old seen,
  can_sign ec_sign blake k -> id32 c -> int64 v ->
  EncodeGatewayAdminSetReputationRequest version supported (Some c) v = Ret request ->
  GetClientReputation r (Some c) = Ret (old, seen) ->
  exists m r', HandleSetReputation version supported sha256 ec_sign blake (Some k) ver r request = Ret (Json m, r') /\
    DecodeGatewayAdminSetReputationResponse sha256 m = Ret (OkR (Some c, if seen then v else 0, seen)) /\
    GetClientReputation r' (Some c) = Ret (if seen then v else 0, seen) /\
    (forall c', id32 c' -> c' <> c -> GetClientReputation r' (Some c') = GetClientReputation r (Some c')).
Proof. exact admin_set_seen_pf. Qed.
Print Assumptions admin_sets_reputation.

Theorem admin_reads_reputation : forall version supported sha256 ec_sign blake k ver r c request v seen,
  can_sign ec_sign blake k -> id32 c -> int64 v ->
  EncodeGatewayAdminGetReputationRequest version supported (Some c) = Ret request ->
  GetClientReputation r (Some c) = Ret (v, seen) ->
  exists m, HandleGetReputation version supported sha256 ec_sign blake (Some k) ver r request = Ret (Json m) /\
    DecodeGatewayAdminGetReputationResponse sha256 m = Ret (OkR (Some c, v, seen)).
Proof. exact admin_get_seen_pf. Qed.
Print Assumptions admin_reads_reputation.

Example admin_ex :
  (let r := after [Challenge alice] in
   let* q := EncodeGatewayAdminSetReputationRequest 1 [1; 1] alice 321 in
   let* x := HandleSetReputation 1 [1; 1] (fun b => b) toy_sign toy_blake (Some (toy_key 5)) 1 r q in
   let* q2 := EncodeGatewayAdminGetReputationRequest 1 [1; 1] alice in
   let* y := HandleGetReputation 1 [1; 1] (fun b => b) toy_sign toy_blake (Some (toy_key 5)) 1 (snd x) q2 in
   match fst x, y with
   | Json m, Json m' =>
       let* d := DecodeGatewayAdminSetReputationResponse (fun b => b) m in
       let* d' := DecodeGatewayAdminGetReputationResponse (fun b => b) m' in
       Ret (d, d')
   | _, _ => Panic
   end) = Ret (OkR (alice, 321, true), OkR (alice, 321, true)).
Proof. vm_compute. reflexivity. Qed.

(** A request that names no proper identifier makes the handler panic. *)
Theorem admin_reputation_total_refuted : exists k r request,
  HandleSetReputation 1 [1; 1] (fun b => b) toy_sign toy_blake (Some k) 1 r request = Panic.
Proof.
  exists (toy_key 5), [], (Message GatewayAdminSetReputationRequestType 1 (Some [1; 1]) (Some (gs "{""client_id"":""xyz"",""reputation"":1}")) []).
  vm_compute. reflexivity.
Qed.
Print Assumptions admin_reputation_total_refuted.
