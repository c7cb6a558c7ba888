(** * Properties of overlapping calls of a client (C199)

    About every interleaving of the calls that manage a client's gateways. *)
From Coq Require Import List ZArith Bool Lia.
From Verif Require Import Base BaseProofs Client ClientConc ClientConcSpec ClientConcProofs ClientConcStepProofs ToyClient PropertiesClient.
Import ListNotations.

(** While one goroutine is taking gateways out of use, no other one changes what is in use or ends the removal. *)
Theorem removal_undisturbed : forall s l r, at_rest s -> conc_run s l = Some r ->
  forall pre x post i g x' j, r = pre ++ x :: post -> conc_step x i g = Some x' -> cs_lock x = Some j -> i <> j ->
  cs_use x' = cs_use x /\ cs_lock x' = Some j.
Proof. exact held_pf. Qed.

(** A gateway becomes active only after it answered an establishment made during the execution. *)
Theorem active_was_established : forall s l r, at_rest s -> conc_run s l = Some r ->
  forall n x id, nth_error r n = Some x -> aget bytes_eqb (cs_active x) id <> None -> aget bytes_eqb (cs_active s) id = None ->
  exists k, (k < n)%nat /\ established_at l r k id.
Proof. intros s l r (_ & B & _ & A) H. exact (established_pf l s r B A H). Qed.

(** When one goroutine adds gateways and none takes any out of use, those in use keep their registrations. *)
Theorem additions_keep_partial : forall s l r j, at_rest s -> Forall (fun t => removes_use t = false) (cs_threads s) ->
  (forall i t, nth_error (cs_threads s) i = Some t -> adds_use t = true -> i = j) -> conc_run s l = Some r ->
  forall pre x post id y, r = pre ++ x :: post -> aget bytes_eqb (cs_use s) id = Some y -> aget bytes_eqb (cs_use x) id = Some y.
Proof. exact kept_pf. Qed.

(** Two goroutines add gateway 10, and the register's answers differ: the one that comes second replaces what the first one put there. *)
Definition twice : cstate := CState [] [] None [AddUse [g10]; AddUse [g10]].
Definition with20 : given := Given (Some gw20) true.
Definition replacing : list (nat * given) := [(0%nat, with10); (1%nat, with10); (0%nat, with10); (1%nat, with20); (0%nat, with10); (1%nat, with20)].
Theorem additions_keep_refuted : exists r x y, at_rest twice /\ Forall (fun t => removes_use t = false) (cs_threads twice) /\ conc_run twice replacing = Some r /\
  nth_error r 5 = Some x /\ nth_error r 6 = Some y /\ aget bytes_eqb (cs_use x) g10 = Some gw10 /\ aget bytes_eqb (cs_use y) g10 = Some gw20 /\ gw10 <> gw20.
Proof.
  destruct (conc_run twice replacing) as [r|] eqn:E; [|vm_compute in E; discriminate].
  vm_compute in E. injection E as <-. do 3 eexists. split; [|split; [|split; [reflexivity|split; [reflexivity|split; [reflexivity|]]]]].
  - split; [reflexivity|]. split; [repeat constructor|]. split; constructor.
  - repeat constructor.
  - split; [vm_compute; reflexivity|]. split; [vm_compute; reflexivity|]. intros Q. vm_compute in Q. discriminate Q.
Qed.

(** While goroutine 1 removes gateway 10, goroutine 0 cannot add: it waits. *)
Definition busy : cstate := CState [(g10, gw10); (g20, gw20)] [] None [AddUse [g20; g10]; RemoveUse [g10]].
Definition halfway : list (nat * given) := [(1%nat, yes); (1%nat, yes)].
Example removal_waits : at_rest busy /\
  match conc_run busy halfway with
  | Some r => cs_lock (last r busy) = Some 1%nat /\ cs_use (last r busy) = [(g20, gw20)] /\ conc_step (last r busy) 0 with10 = None
  | None => False
  end.
Proof.
  split; [|vm_compute; repeat split; reflexivity]. split; [reflexivity|]. split; [repeat constructor|]. split; [|constructor].
  apply NoDup_cons; [intros [Q|[]]; vm_compute in Q; discriminate Q|apply NoDup_cons; [intros []|constructor]].
Qed.

(** A gateway that does not answer is not made active; one that answers is, after its answer at step 2. *)
Definition asking : cstate := CState [(g10, gw10)] [] None [AddActive [g10]].
Definition no : given := Given None false.
Example silent_not_active :
  match conc_run asking [(0%nat, yes); (0%nat, yes); (0%nat, no); (0%nat, yes)] with Some r => cs_active (last r asking) = [] /\ all_finished (last r asking) | None => False end /\
  match conc_run asking [(0%nat, yes); (0%nat, yes); (0%nat, yes); (0%nat, yes); (0%nat, yes)] with
  | Some r => cs_active (last r asking) = [(g10, gw10)] /\ established_at [(0%nat, yes); (0%nat, yes); (0%nat, yes); (0%nat, yes); (0%nat, yes)] r 2 g10
  | None => False
  end.
Proof.
  split; [vm_compute; split; [reflexivity|constructor; [reflexivity|constructor]]|].
  destruct (conc_run asking _) as [r|] eqn:E; [|vm_compute in E; discriminate]. vm_compute in E. injection E as <-. split; [reflexivity|].
  do 5 eexists. split; [reflexivity|]. split; [reflexivity|]. split; reflexivity.
Qed.

(** Adding what is in use again, with other calls going on, leaves its registration. *)
Definition again : cstate := CState [(g10, gw10)] [] None [AddUse [g10; g20]; AddActive [g10]].
Example added_again : at_rest again /\
  match conc_run again [(0%nat, with20); (1%nat, yes); (0%nat, with20); (1%nat, yes); (0%nat, with20); (0%nat, with20); (0%nat, with20)] with
  | Some r => cs_use (last r again) = [(g10, gw10); (g20, gw20)]
  | None => False
  end.
Proof.
  split; [|vm_compute; reflexivity]. split; [reflexivity|]. split; [repeat constructor|]. split; [|constructor]. apply NoDup_cons; [intros []|constructor].
Qed.

Print Assumptions removal_undisturbed.
Print Assumptions active_was_established.
Print Assumptions additions_keep_partial.
Print Assumptions additions_keep_refuted.
