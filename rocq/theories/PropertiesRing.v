(** * Properties of the DHT ring (C05-C12)

    Statements use [RingSpec]: [entries r] is what [Dump] shows, [healthy r] says
    that [r] was obtained from a new ring by operations that do not hit the
    faults exhibited in the [_refuted] theorems below. *)
From Coq Require Import String List ZArith Bool Lia Sorting.Sorted.
From Coq Require Import Init.Byte.
From Verif Require Import Base BaseProofs Ring RingSpec RingQuery RingFacts.
Import ListNotations.
Open Scope Z_scope.
Open Scope go_scope.

(** Concrete points for the examples: the 64-digit spelling of a number. *)
Definition pt (k : Z) : gostring := hex_encode (be_bytes 32 k).
Definition top : Z := 2 ^ 256.

Definition ring_of (hs : list gostring) : ring :=
  match inserts hs with Ret r => r | _ => CreateRing end.

Lemma ring_of_healthy hs : healthy (ring_of hs).
Proof.
  unfold ring_of. destruct (inserts_healthy hs) as (r & E & H & _). rewrite E. exact H.
Qed.

Ltac compute_eq := vm_compute; reflexivity.
Ltac in_tac := vm_compute; repeat first [left; reflexivity | right].
Ltac point := split; [vm_compute; reflexivity | repeat (constructor; [vm_compute; discriminate|]); constructor].

(** ** C05 *)
Theorem ring_insertions_sorted_set : forall hs,
  exists r D, inserts hs = Ret r /\ Dump r = Ret D /\
    StronglySorted (fun a b => hex_val a < hex_val b) (map (fun t => fst (fst t)) D) /\
    (forall v, In v (map (fun t => fst (fst t)) D) <-> first_spelling hs v) /\
    Size r = Z.of_nat (length D) /\
    ((2 <= length D)%nat ->
     forall l1 a b l2, D ++ firstn 1 D = l1 ++ a :: b :: l2 ->
       let gap := cw (hex_val (fst (fst a))) (hex_val (fst (fst b))) in
       snd a = Some gap /\ snd (fst b) = Some gap).
Proof. exact insertions_sorted_set. Qed.
Print Assumptions ring_insertions_sorted_set.

Example ring_insertions_sorted_set_ex :
  entries (ring_of [pt 30; pt 10; gs "zz"; pt (top - 5); pt 20; pt 10]) = [pt 10; pt 20; pt 30; pt (top - 5)].
Proof. compute_eq. Qed.

(** One more insertion into any healthy ring. *)
Theorem ring_insert_adds : forall r h, healthy r ->
  exists r', Insert r h = Ret r' /\ healthy r' /\
    StronglySorted (fun a b => hex_val a < hex_val b) (entries r') /\
    Size r' = Z.of_nat (length (entries r')) /\
    (forall v, In v (entries r') <-> In v (entries r) \/
       (v = h /\ is_point h /\ forall u, In u (entries r) -> hex_val u <> hex_val h)).
Proof. exact insert_ok. Qed.
Print Assumptions ring_insert_adds.

Example ring_insert_adds_ex : healthy (ring_of [pt 3; pt 1]) /\ is_point (pt 2).
Proof. split; [apply ring_of_healthy|point]. Qed.

(** ** C06 *)

(** Full claim: [forall r h, healthy r -> exists r', Remove r h = Ret r' /\
    entries r' = without h (entries r)].  Missing: the only entry asked to be
    removed under another name, and the smallest of three or more entries; both
    are false of the code, see the two theorems after it. *)
Theorem ring_remove_exact_partial : forall r h, healthy r ->
  (is_point h -> length (entries r) = 1%nat -> In h (entries r)) ->
  ((3 <= length (entries r))%nat -> hd_error (entries r) <> Some h) ->
  exists r', Remove r h = Ret r' /\ healthy r' /\ entries r' = without h (entries r) /\
    Size r' = Z.of_nat (length (entries r')).
Proof. exact remove_ok. Qed.
Print Assumptions ring_remove_exact_partial.

Example ring_remove_exact_ex :
  let r := ring_of [pt 1; pt 2; pt 3; pt 4] in
  healthy r /\ hd_error (entries r) <> Some (pt 3) /\
  exists r', Remove r (pt 3) = Ret r' /\ entries r' = [pt 1; pt 2; pt 4].
Proof. split; [apply ring_of_healthy|]. split; [vm_compute; discriminate|]. eexists. split; compute_eq. Qed.

(** In every ring of three or more, removing the smallest entry leaves it in. *)
Theorem ring_remove_smallest_stays : forall r x y z l, healthy r -> entries r = x :: y :: z :: l ->
  exists r', Remove r x = Ret r' /\ entries r' = y :: z :: l ++ [x] /\ Size r' = Size r - 1.
Proof. exact remove_smallest_stays. Qed.
Print Assumptions ring_remove_smallest_stays.

(** In every one-entry ring, removing any other point removes the entry. *)
Theorem ring_remove_other_empties : forall r v h, healthy r -> entries r = [v] -> is_point h ->
  exists r', Remove r h = Ret r' /\ entries r' = [] /\ Size r' = 0.
Proof. exact remove_other_empties. Qed.
Print Assumptions ring_remove_other_empties.

Theorem ring_remove_exact_refuted : exists hs r h r',
  inserts hs = Ret r /\ In h (entries r) /\ Remove r h = Ret r' /\ In h (entries r') /\ Size r' <> Z.of_nat (length (entries r')).
Proof.
  exists [pt 1; pt 2; pt 3], (ring_of [pt 1; pt 2; pt 3]), (pt 1).
  eexists. split; [compute_eq|]. split; [in_tac|]. split; [compute_eq|]. split.
  - in_tac.
  - vm_compute. discriminate.
Qed.
Print Assumptions ring_remove_exact_refuted.

(** ** C07 *)

(** Full claim adds counts larger than the ring (answer: everything); the code
    then drops the smallest entry, see [ring_closest_too_many]. *)
Theorem ring_closest_nearest_partial : forall r hex num, healthy r -> is_point hex -> spelled (entries r) hex ->
  1 <= num <= Z.of_nat (length (entries r)) ->
  exists res r', GetClosest r hex num [] = Ret (OkR res, r') /\ closest_ok (entries r) hex num res.
Proof. exact closest_nearest. Qed.
Print Assumptions ring_closest_nearest_partial.

Example ring_closest_nearest_ex :
  let r := ring_of [pt 10; pt 20; pt 30; pt (top - 5)] in
  healthy r /\ is_point (pt 3) /\ spelled (entries r) (pt 3) /\
  exists r', GetClosest r (pt 3) 2 [] = Ret (OkR [pt (top - 5); pt 10], r').
Proof.
  split; [apply ring_of_healthy|]. split; [point|]. split.
  - intros v Hv Hk. exfalso.
    vm_compute in Hv.
    repeat (destruct Hv as [<-|Hv]; [vm_compute in Hk; discriminate|]). destruct Hv.
  - eexists. compute_eq.
Qed.

Theorem ring_closest_too_many : forall r hex num v t, healthy r -> is_point hex -> entries r = v :: t ->
  Z.of_nat (length (entries r)) < num ->
  exists r', GetClosest r hex num [] = Ret (OkR (if bytes_eqb v hex then v :: t else t), r') /\ entries r' = entries r.
Proof. exact closest_too_many. Qed.
Print Assumptions ring_closest_too_many.

(** Asking for five of three entries returns two. *)
Theorem ring_closest_nearest_refuted : exists hs r hex res r',
  inserts hs = Ret r /\ length (entries r) = 3%nat /\ GetClosest r hex 5 [] = Ret (OkR res, r') /\ length res = 2%nat.
Proof.
  exists [pt 1; pt 2; pt 3], (ring_of [pt 1; pt 2; pt 3]), (pt 2). eexists. eexists.
  repeat split; compute_eq.
Qed.
Print Assumptions ring_closest_nearest_refuted.

(** ** C08 *)

(** Full claim: without the conditions on the excluded entry being the smallest,
    the ring having one entry, and the temporary entry. *)
Theorem ring_closest_exclusion_partial : forall r hex num ex,
  healthy r -> is_point hex -> is_point ex -> spelled (entries r) hex ->
  ((3 <= length (entries r))%nat -> hd_error (entries r) <> Some ex) ->
  length (entries r) <> 1%nat ->
  undisturbed (without ex (entries r)) hex \/ ~ In ex (entries r) ->
  1 <= num <= Z.of_nat (length (without ex (entries r))) ->
  exists res r', GetClosest r hex num ex = Ret (OkR res, r') /\
    closest_ok (without ex (entries r)) hex num res /\ ~ In ex res.
Proof. exact closest_excluding. Qed.
Print Assumptions ring_closest_exclusion_partial.

Example ring_closest_exclusion_ex :
  let r := ring_of [pt 10; pt 20; pt 30; pt (top - 5)] in
  healthy r /\ hd_error (entries r) <> Some (pt 20) /\ undisturbed (without (pt 20) (entries r)) (pt 21) /\
  exists r', GetClosest r (pt 21) 2 (pt 20) = Ret (OkR [pt 10; pt 30], r') /\ entries r' = entries r.
Proof.
  split; [apply ring_of_healthy|]. split; [vm_compute; discriminate|]. split.
  - right. right. exists (pt 10). split; [in_tac|compute_eq].
  - eexists. split; compute_eq.
Qed.

(** Excluding the smallest entry: it is returned all the same. *)
Theorem ring_closest_exclusion_refuted : exists hs r hex ex res r',
  inserts hs = Ret r /\ GetClosest r hex 2 ex = Ret (OkR res, r') /\ In ex (entries r) /\ In ex res.
Proof.
  exists [pt 10; pt 20; pt 30; pt 40], (ring_of [pt 10; pt 20; pt 30; pt 40]), (pt 11), (pt 10). eexists. eexists.
  split; [compute_eq|]. split; [compute_eq|]. split; [in_tac|]. vm_compute. auto.
Qed.
Print Assumptions ring_closest_exclusion_refuted.

(** ** C09 *)

(** Full claim: for all queries.  Missing: those whose temporary entry becomes
    the smallest of three or more, equal endpoints, negative counts, excluded
    smallest entry, and another spelling of an existing key. *)
Theorem ring_queries_preserve_partial : forall r o, healthy r -> faultless (entries r) o ->
  match o with OpClosest _ _ _ | OpRange _ _ => True | _ => False end ->
  exists r', run_op r o = Ret r' /\ healthy r' /\ entries r' = entries r /\ Size r' = Size r.
Proof. exact query_preserves. Qed.
Print Assumptions ring_queries_preserve_partial.

Lemma no_such_key (P : gostring) l :
  forallb (fun v => negb (hex_val v =? hex_val P) || bytes_eqb v P) l = true -> spelled l P.
Proof.
  intros H v Hv Hk. rewrite forallb_forall in H. specialize (H v Hv). rewrite (proj2 (Z.eqb_eq _ _) Hk) in H.
  cbn [negb orb] in H. destruct (bytes_eqb_spec v P); [assumption|discriminate].
Qed.
Ltac spelled_tac := apply no_such_key; vm_compute; reflexivity.

Example ring_queries_preserve_ex :
  let r := ring_of [pt 10; pt 20; pt 30; pt 40] in
  healthy r /\ faultless (entries r) (OpClosest (pt 25) 2 []) /\ faultless (entries r) (OpRange (pt 35) (pt 15)).
Proof.
  split; [apply ring_of_healthy|]. split.
  - intros _ _. split; [lia|]. split; [spelled_tac|]. split.
    + right. right. exists (pt 10). split; [in_tac|compute_eq].
    + vm_compute. discriminate.
  - intros _ _. split; [vm_compute; discriminate|]. split; [spelled_tac|]. split; [spelled_tac|]. split.
    + right. right. exists (pt 10). split; [in_tac|compute_eq].
    + right. right. exists (pt 10). split; [|compute_eq]. vm_compute. auto.
Qed.

(** A closest query below all entries leaves its temporary entry in the ring. *)
Theorem ring_queries_preserve_refuted : exists hs r hex res r',
  inserts hs = Ret r /\ GetClosest r hex 1 [] = Ret (OkR res, r') /\ ~ In hex (entries r) /\ In hex (entries r').
Proof.
  exists [pt 10; pt 20; pt 30], (ring_of [pt 10; pt 20; pt 30]), (pt 5). eexists. eexists.
  split; [compute_eq|]. split; [compute_eq|]. split.
  - intros H. vm_compute in H. repeat (destruct H as [H|H]; [discriminate|]). destruct H.
  - vm_compute. auto.
Qed.
Print Assumptions ring_queries_preserve_refuted.

(** So does a range query. *)
Theorem ring_range_preserve_refuted : exists hs r s e res r',
  inserts hs = Ret r /\ GetWithinRange r s e = Ret (OkR res, r') /\ ~ In s (entries r) /\ In s (entries r').
Proof.
  exists [pt 10; pt 20; pt 30], (ring_of [pt 10; pt 20; pt 30]), (pt 5), (pt 20). eexists. eexists.
  split; [compute_eq|]. split; [compute_eq|]. split.
  - intros H. vm_compute in H. repeat (destruct H as [H|H]; [discriminate|]). destruct H.
  - vm_compute. auto.
Qed.
Print Assumptions ring_range_preserve_refuted.

(** ** C10 *)

(** Full claim: for all pairs of points.  Missing: equal endpoints (false, see
    below), another spelling of an existing key, and endpoints that become the
    smallest of three or more entries while being temporary. *)
Theorem ring_range_exact_partial : forall r s e,
  healthy r -> is_point s -> is_point e -> faultless (entries r) (OpRange s e) ->
  exists res r', GetWithinRange r s e = Ret (OkR res, r') /\ range_ok (entries r) s e res.
Proof. exact range_exact. Qed.
Print Assumptions ring_range_exact_partial.

Example ring_range_exact_ex :
  exists r', GetWithinRange (ring_of [pt 10; pt 20; pt 30; pt 40]) (pt 35) (pt 20) = Ret (OkR [pt 40; pt 10; pt 20], r').
Proof. eexists. compute_eq. Qed.

(** Equal endpoints: a non-entry is returned, an entry is returned twice. *)
Theorem ring_range_exact_refuted :
  (exists hs r s res r', inserts hs = Ret r /\ GetWithinRange r s s = Ret (OkR res, r') /\ ~ In s (entries r) /\ In s res) /\
  (exists hs r s res r', inserts hs = Ret r /\ GetWithinRange r s s = Ret (OkR res, r') /\ ~ NoDup res).
Proof.
  split.
  - exists [pt 10; pt 20; pt 30], (ring_of [pt 10; pt 20; pt 30]), (pt 15). eexists. eexists.
    split; [compute_eq|]. split; [compute_eq|]. split.
    + intros H. vm_compute in H. repeat (destruct H as [H|H]; [discriminate|]). destruct H.
    + vm_compute. auto.
  - exists [pt 10; pt 20; pt 30], (ring_of [pt 10; pt 20; pt 30]), (pt 20). eexists. eexists.
    split; [compute_eq|]. split; [compute_eq|].
    intros ND. inversion ND as [|? ? Hn _]; subst. apply Hn. vm_compute. auto.
Qed.
Print Assumptions ring_range_exact_refuted.

(** ** C11 *)
Theorem ring_malformed_rejected : forall r h,
  ~ is_point h ->
  Insert r h = Ret r /\ Remove r h = Ret r /\
  (forall num ex, GetClosest r h num ex = Ret (ErrR, r)) /\
  (forall hex num, h <> [] -> GetClosest r hex num h = Ret (ErrR, r)) /\
  (forall e, GetWithinRange r h e = Ret (ErrR, r)) /\
  (forall s, GetWithinRange r s h = Ret (ErrR, r)).
Proof. exact malformed_rejected. Qed.
Print Assumptions ring_malformed_rejected.

Example ring_malformed_rejected_ex : ~ is_point (gs "0123456789abcdefg") /\ ~ is_point (pt 1 ++ gs "0").
Proof. split; intros [H _]; vm_compute in H; discriminate. Qed.

(** A valid string is never rejected by an insertion. *)
Theorem ring_valid_accepted : forall r h, healthy r -> is_point h ->
  exists r' u, Insert r h = Ret r' /\ In u (entries r') /\ hex_val u = hex_val h.
Proof. exact valid_accepted. Qed.
Print Assumptions ring_valid_accepted.

Example ring_valid_accepted_ex : is_point (gs "00000000000000000000000000000000000000000000000000000000000000fF").
Proof. point. Qed.

(** ** C12 *)

(** Full claim: for all operations.  Missing: the faulty operations; the crash
    is real for some of them, see below. *)
Theorem ring_never_crashes_partial : forall r o, healthy r -> faultless (entries r) o ->
  exists r', run_op r o = Ret r' /\ healthy r'.
Proof. exact step_total. Qed.
Print Assumptions ring_never_crashes_partial.

(** [Insert], [Remove] and [Dump] never crash on a healthy ring, whatever the
    argument. *)
Theorem ring_updates_never_crash : forall r h, healthy r ->
  (exists r', Insert r h = Ret r') /\ (exists r', Remove r h = Ret r') /\ (exists D, Dump r = Ret D).
Proof. exact updates_never_crash. Qed.
Print Assumptions ring_updates_never_crash.

Example ring_updates_never_crash_ex : healthy (ring_of [pt 1; pt 2; pt 3]).
Proof. apply ring_of_healthy. Qed.

Theorem ring_never_crashes_refuted :
  GetWithinRange CreateRing (pt 7) (pt 7) = Panic /\
  (exists r, inserts [pt 7] = Ret r /\ GetClosest r (pt 7) (-1) [] = Panic).
Proof. split; [compute_eq|]. exists (ring_of [pt 7]). split; compute_eq. Qed.
Print Assumptions ring_never_crashes_refuted.
