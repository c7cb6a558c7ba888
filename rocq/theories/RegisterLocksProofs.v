(** * Proofs about overlapping calls of the register manager *)
From Coq Require Import List Bool Arith Lia.
From Verif Require Import RegisterLocks RegisterLocksSpec.
Import ListNotations.

Lemma put_length {A} i (x : A) l : length (put i x l) = length l.
Proof. revert i. induction l; intros [|i]; cbn; auto. Qed.
Lemma put_nth {A} i (x : A) l j : nth_error (put i x l) j = if j =? i then match nth_error l j with Some _ => Some x | None => None end else nth_error l j.
Proof.
  revert i j. induction l as [|a l IH]; intros [|i] [|j]; cbn; try reflexivity.
  - destruct (j =? i); reflexivity.
  - apply IH.
Qed.
Lemma put_in {A} i (x : A) l y : In y (put i x l) -> y = x \/ In y l.
Proof.
  revert i. induction l as [|a l IH]; intros [|i]; cbn; auto.
  - intros [?|?]; auto.
  - intros [?|H]; [auto|]. destruct (IH _ H); auto.
Qed.

Definition well (t : thread) : Prop :=
  orderly (held t) (prog t) /\ (announced t = true -> exists k p, prog t = WL k :: p).

Lemma step_well ts i t : (forall u, In u ts -> well u) -> thread_step ts i = Some t -> well t.
Proof.
  intros W. unfold thread_step. destruct (nth_error ts i) as [u|] eqn:N; [|discriminate].
  destruct (W u (nth_error_In _ _ N)) as [O A]. destruct (prog u) as [|[k|k|k|k] p] eqn:P; [discriminate| | | |]; cbn [orderly] in O.
  - destruct (existsb _ ts); [discriminate|]. intros [= <-]. split; [apply O|discriminate].
  - destruct (held u) as [|[j []] h]; try discriminate. destruct O as [-> O]. rewrite Nat.eqb_refl. intros [= <-]. split; [exact O|discriminate].
  - destruct (announced u).
    + destruct (existsb _ ts); [discriminate|]. intros [= <-]. split; [apply O|discriminate].
    + destruct (existsb _ ts); [discriminate|]. intros [= <-]. split; [exact O|cbn; eauto].
  - destruct (held u) as [|[j []] h]; try discriminate. destruct O as [-> O]. rewrite Nat.eqb_refl. intros [= <-]. split; [exact O|discriminate].
Qed.

Definition all_well ts := forall u, In u ts -> well u.

Lemma moves_well s n s' : all_well s -> lock_moves s n s' -> all_well s'.
Proof.
  intros W M. induction M as [|n s' i s'' M IH E]; [exact W|]. unfold lock_step in E. destruct (thread_step s' i) as [t|] eqn:T; [|discriminate].
  injection E as <-. intros u U. apply put_in in U. destruct U as [->|U]; [|apply IH, U]. eapply step_well; eauto.
Qed.

(** The lock a thread is about to take. *)
Definition wanted (t : thread) : nat := match prog t with RL k :: _ | WL k :: _ => k | _ => 0 end.

Lemma existsb_true {A} f (l : list A) : existsb f l = true -> exists x, In x l /\ f x = true.
Proof. apply existsb_exists. Qed.

Lemma holds_wanted t k : well t -> holds k t = true -> (forall p j, prog t <> RU j :: p /\ prog t <> WU j :: p) -> k < wanted t.
Proof.
  intros [O _] H R. unfold holds in H. apply existsb_exists in H. destruct H as [x [X E]]. apply Nat.eqb_eq in E. subst k.
  unfold wanted. destruct (prog t) as [|[k|k|k|k] p] eqn:P; cbn [orderly] in O.
  - rewrite O in X. destruct X.
  - apply O, X.
  - destruct (proj1 (R p k) eq_refl).
  - apply O, X.
  - destruct (proj2 (R p k) eq_refl).
Qed.

Lemma blocked_kind ts i t : all_well ts -> nth_error ts i = Some t -> thread_step ts i = None ->
  forall p j, prog t <> RU j :: p /\ prog t <> WU j :: p.
Proof.
  intros W N B p j. unfold thread_step in B. rewrite N in B. destruct (W t (nth_error_In _ _ N)) as [O _].
  split; intros E; rewrite E in B, O; cbn [orderly] in O; destruct (held t) as [|[x []] h]; try contradiction; destruct O as [-> _]; rewrite Nat.eqb_refl in B; discriminate.
Qed.

(** A blocked thread with something to do waits for one that wants a higher lock. *)
Lemma blocked_higher ts : all_well ts -> (forall i, thread_step ts i = None) ->
  forall t, In t ts -> prog t <> [] -> exists u, In u ts /\ prog u <> [] /\ wanted t < wanted u.
Proof.
  intros W B t T NE.
  assert (Hi : forall u k, In u ts -> holds k u = true -> k < wanted u /\ prog u <> []).
  { intros u k U H. destruct (In_nth_error _ _ U) as [i N].
    pose proof (holds_wanted u k (W u U) H (blocked_kind ts i u W N (B i))) as L. split; [exact L|].
    intros E. unfold wanted in L. rewrite E in L. lia. }
  assert (Wr : forall k u, In u ts -> wants_write k u || holds_write k u = true -> exists v, In v ts /\ prog v <> [] /\ k < wanted v).
  { intros k u U E. apply orb_true_iff in E. destruct E as [E|E].
    - unfold wants_write in E. apply andb_true_iff in E. destruct E as [A E].
      destruct (prog u) as [|[j|j|j|j] p] eqn:P; try discriminate. apply Nat.eqb_eq in E. subst j.
      destruct (In_nth_error _ _ U) as [i N]. pose proof (B i) as Bi. unfold thread_step in Bi. rewrite N, P, A in Bi.
      destruct (existsb (holds k) ts) eqn:X; [|discriminate]. apply existsb_true in X. destruct X as (v & V & H).
      exists v. split; [exact V|]. destruct (Hi v k V H). auto.
    - exists u. split; [exact U|]. assert (H : holds k u = true).
      { unfold holds_write in E. unfold holds. apply existsb_exists in E. destruct E as (x & X & E). apply existsb_exists.
        exists x. split; [exact X|]. apply andb_true_iff in E. tauto. }
      destruct (Hi u k U H). auto. }
  destruct (In_nth_error _ _ T) as [i N]. pose proof (B i) as Bi. unfold thread_step in Bi. rewrite N in Bi.
  pose proof (blocked_kind ts i t W N (B i)) as K. unfold wanted at 1.
  destruct (prog t) as [|[k|k|k|k] p] eqn:P; [congruence| | | |].
  - destruct (existsb _ ts) eqn:X in Bi; [|discriminate]. apply existsb_true in X. destruct X as (u & U & E). eapply Wr; eauto.
  - destruct (proj1 (K p k) eq_refl).
  - destruct (announced t).
    + destruct (existsb _ ts) eqn:X in Bi; [|discriminate]. apply existsb_true in X. destruct X as (u & U & E).
      exists u. split; [exact U|]. destruct (Hi u k U E). auto.
    + destruct (existsb _ ts) eqn:X in Bi; [|discriminate]. apply existsb_true in X. destruct X as (u & U & E). eapply Wr; eauto.
  - destruct (proj2 (K p k) eq_refl).
Qed.

Lemma well_progress ts : all_well ts -> ~ all_ended ts -> exists i, lock_step ts i <> None.
Proof.
  intros W NE.
  destruct (existsb (fun i => match thread_step ts i with Some _ => true | None => false end) (seq 0 (length ts))) eqn:X.
  { apply existsb_true in X. destruct X as (i & _ & E). exists i. unfold lock_step. destruct (thread_step ts i); [discriminate|discriminate E]. }
  exfalso. assert (B : forall i, thread_step ts i = None).
  { intros i. destruct (thread_step ts i) eqn:T; [|reflexivity]. exfalso.
    assert (I : In i (seq 0 (length ts))).
    { apply in_seq. split; [lia|]. cbn. apply nth_error_Some. unfold thread_step in T. destruct (nth_error ts i); congruence. }
    assert (X' : existsb (fun i => match thread_step ts i with Some _ => true | None => false end) (seq 0 (length ts)) = true)
      by (apply existsb_exists; exists i; rewrite T; auto). congruence. }
  assert (M : forall n t, In t ts -> prog t <> [] -> list_max (map wanted ts) <= wanted t + n -> False).
  { induction n as [|n IH]; intros t T P L; destruct (blocked_higher ts W B t T P) as (u & U & Pu & Lt).
    - assert (wanted u <= list_max (map wanted ts)); [|lia].
      pose proof (proj1 (list_max_le (map wanted ts) _) (le_n _)) as F. rewrite Forall_forall in F. apply F, in_map, U.
    - apply (IH u U Pu). lia. }
  apply NE. intros t T. unfold ended. destruct (prog t) eqn:P; [reflexivity|]. exfalso.
  apply (M (list_max (map wanted ts)) t T); [rewrite P; discriminate|lia].
Qed.

(** A bound on the number of steps. *)
Definition cost (a : act) : nat := match a with WL _ => 2 | _ => 1 end.
Definition work (t : thread) : nat := list_sum (map cost (prog t)) - (if announced t then 1 else 0).
Definition total (ts : list thread) : nat := list_sum (map work ts).

Lemma total_put i t u ts : nth_error ts i = Some u -> work t < work u -> total (put i t ts) < total ts.
Proof.
  unfold total. revert i. induction ts as [|a ts IH]; intros [|i]; cbn [nth_error put map list_sum fold_right]; try discriminate;
    change (fold_right Nat.add 0) with list_sum.
  - intros [= ->] L. lia.
  - intros N L. specialize (IH _ N L). lia.
Qed.

Ltac red_work := cbn [prog announced held map cost list_sum fold_right]; change (fold_right Nat.add 0) with list_sum.
Lemma step_work ts i t u : nth_error ts i = Some u -> well u -> thread_step ts i = Some t -> work t < work u.
Proof.
  intros N [_ A] T. unfold thread_step in T. rewrite N in T. unfold work. destruct (prog u) as [|[k|k|k|k] p] eqn:P; [discriminate| | | |].
  - destruct (existsb _ ts); [discriminate|]. injection T as <-. red_work. destruct (announced u); [|lia]. destruct (A eq_refl) as (? & ? & [=]).
  - destruct (held u) as [|[j []] h]; try discriminate. destruct (j =? k); [|discriminate]. injection T as <-. red_work. destruct (announced u); [|lia]. destruct (A eq_refl) as (? & ? & [=]).
  - destruct (announced u); destruct (existsb _ ts); try discriminate; injection T as <-; red_work; lia.
  - destruct (held u) as [|[j []] h]; try discriminate. destruct (j =? k); [|discriminate]. injection T as <-. red_work. destruct (announced u); [|lia]. destruct (A eq_refl) as (? & ? & [=]).
Qed.

Lemma moves_total s n s' : all_well s -> lock_moves s n s' -> n + total s' <= total s.
Proof.
  intros W M. induction M as [|n s' i s'' M IH E]; [lia|]. unfold lock_step in E. destruct (thread_step s' i) as [t|] eqn:T; [|discriminate].
  injection E as <-. assert (exists u, nth_error s' i = Some u) as [u U] by (unfold thread_step in T; destruct (nth_error s' i); [eauto|discriminate]).
  pose proof (moves_well _ _ _ W M u (nth_error_In _ _ U)) as Wu.
  pose proof (total_put i t u s' U (step_work s' i t u U Wu T)). lia.
Qed.

Lemma orderly_flat {A} (f : A -> list act) l : (forall a p, orderly [] p -> orderly [] (f a ++ p)) -> orderly [] (flat_map f l).
Proof. intros H. induction l; cbn [flat_map]; [reflexivity|auto]. Qed.

Lemma safe_orderly c : safe_call c -> orderly [] (calls_locks c).
Proof.
  assert (L : forall k h, (forall x : nat * bool, In x h -> fst x < k) -> forall x, In x h -> fst x < k) by auto.
  assert (Z : forall k (x : nat * bool), In x [] -> fst x < k) by (intros ? ? []).
  destruct c as [[]|[] []| | | | |l|l|]; cbn [safe_call]; try contradiction; intros _; cbn [calls_locks orderly];
    try (repeat split; auto; intros x [<-|[]]; unfold ringL, gatewaysL; cbn; lia).
  - apply orderly_flat. intros [] p P; cbn [app orderly]; repeat split; auto.
  - apply orderly_flat. intros a p P; cbn [app orderly]; repeat split; auto.
Qed.

Lemma calling_well cs : (forall c, In c cs -> safe_call c) -> all_well (calling cs).
Proof.
  intros S u U. unfold calling in U. apply in_map_iff in U. destruct U as (c & <- & C). split; [apply safe_orderly, S, C|discriminate].
Qed.

Lemma safe_progress_pf cs n s : (forall c, In c cs -> safe_call c) -> lock_moves (calling cs) n s -> ~ all_ended s ->
  exists i, lock_step s i <> None.
Proof. intros S M E. eapply well_progress; [|exact E]. eapply moves_well; [|exact M]. apply calling_well, S. Qed.

Lemma safe_bounded_pf cs n s : (forall c, In c cs -> safe_call c) -> lock_moves (calling cs) n s ->
  n <= list_sum (map (fun c => list_sum (map cost (calls_locks c))) cs).
Proof.
  intros S M. pose proof (moves_total _ _ _ (calling_well _ S) M) as L. unfold total, calling in L. rewrite map_map in L.
  assert (E : map (fun c => work (Thread [] false (calls_locks c))) cs = map (fun c => list_sum (map cost (calls_locks c))) cs)
    by (apply map_ext; intros c; unfold work; cbn [prog announced]; lia).
  rewrite E in L. lia.
Qed.

Lemma safe_released_pf cs n s : (forall c, In c cs -> safe_call c) -> lock_moves (calling cs) n s -> forall t, In t s -> ended t -> held t = [].
Proof.
  intros S M t T E. destruct (moves_well _ _ _ (calling_well _ S) M t T) as [O _]. unfold ended in E. rewrite E in O. exact O.
Qed.

(** ** The refresh channel *)
Definition waiting (r : refresher) : bool := match r with RWait _ => true | _ => false end.
Definition asked (u : updater) : nat := match u with URound true | UAnswer => 1 | _ => 0 end.
Definition count {A} (f : A -> bool) (l : list A) : nat := length (filter f l).

Lemma count_put {A} (f : A -> bool) i x y l : nth_error l i = Some y ->
  count f (put i x l) + (if f y then 1 else 0) = count f l + (if f x then 1 else 0).
Proof.
  unfold count. revert i. induction l as [|a l IH]; intros [|i]; cbn; try discriminate.
  - intros [= ->]. destruct (f x), (f y); cbn; lia.
  - intros N. specialize (IH _ N). destruct (f a); cbn; lia.
Qed.

Lemma refresh_waiting s e s' : refresh_step s e = Some s' -> count waiting (refs s) = asked (upd s) -> count waiting (refs s') = asked (upd s').
Proof.
  destruct e as [| |i|j|i j]; cbn [refresh_step]; intros H E.
  - destruct (upd s) as [[]| |]; try discriminate; injection H as <-; exact E.
  - destruct (upd s) as [[]| |]; try discriminate; injection H as <-; exact E.
  - destruct (upd s) as [[]| |]; try discriminate. destruct (nth_error (refs s) i) as [[]|] eqn:N; try discriminate. injection H as <-.
    cbn [refs upd asked] in *. pose proof (count_put waiting i (RWait (rounds s)) _ _ N) as C. cbn in C. lia.
  - destruct (upd s) as [[]| |]; try discriminate. destruct (nth_error (refs s) j) as [[]|] eqn:N; try discriminate. injection H as <-.
    cbn [refs upd asked] in *. pose proof (count_put waiting j (RDone at_request (rounds s)) _ _ N) as C. cbn in C. lia.
  - destruct (nth_error (refs s) i) as [[]|] eqn:N; try discriminate. destruct (nth_error (refs s) j) as [[]|] eqn:M; try discriminate. injection H as <-.
    cbn [refs upd]. pose proof (count_put waiting i (RWait (rounds s)) _ _ N) as C. cbn in C.
    assert (M' : nth_error (put i (RWait (rounds s)) (refs s)) j = Some (RWait at_request)).
    { rewrite put_nth. destruct (j =? i) eqn:B; [|exact M]. apply Nat.eqb_eq in B. subst. congruence. }
    pose proof (count_put waiting j (RDone at_request (rounds s)) _ _ M') as D. cbn in D. lia.
Qed.

Lemma count_repeat n : count waiting (repeat RSend n) = 0.
Proof. induction n; [reflexivity|exact IHn]. Qed.

Lemma refresh_inv n es s : refresh_moves (refreshing0 n) es s -> count waiting (refs s) = asked (upd s).
Proof.
  intros M. induction M as [|es s' e s'' M IH E]; [apply count_repeat|]. eapply refresh_waiting; eauto.
Qed.

Lemma count_pos {A} (f : A -> bool) l : 0 < count f l -> exists i x, nth_error l i = Some x /\ f x = true.
Proof.
  unfold count. intros H. destruct (filter f l) as [|x t] eqn:E; [cbn in H; lia|].
  assert (X : In x (filter f l)) by (rewrite E; left; reflexivity). apply filter_In in X. destruct X as [X F].
  destruct (In_nth_error _ _ X) as [i N]. eauto.
Qed.
Lemma count_in {A} (f : A -> bool) l x : In x l -> f x = true -> 0 < count f l.
Proof.
  intros X F. unfold count. assert (Y : In x (filter f l)) by (apply filter_In; auto). destruct (filter f l); [destruct Y|cbn; lia].
Qed.

Lemma refresh_progress_pf n es s : refresh_moves (refreshing0 n) es s ->
  (forall r, In r (refs s) -> exists a b, r = RDone a b) \/ exists e s', e <> ETimer /\ refresh_step s e = Some s'.
Proof.
  intros M. apply refresh_inv in M. destruct (upd s) as [a| |] eqn:U; cbn [asked] in M.
  - right. exists EFinishRound. eexists. split; [discriminate|]. cbn [refresh_step]. rewrite U. reflexivity.
  - right. destruct (count_pos waiting (refs s)) as (i & r & N & W); [lia|]. destruct r as [|a|]; try discriminate.
    exists (EAnswer i). eexists. split; [discriminate|]. cbn [refresh_step]. rewrite U, N. reflexivity.
  - destruct (existsb (fun r => match r with RSend => true | _ => false end) (refs s)) eqn:X.
    + right. apply existsb_exists in X. destruct X as (r & R & E). destruct r; try discriminate. destruct (In_nth_error _ _ R) as [i N].
      exists (ETake i). eexists. split; [discriminate|]. cbn [refresh_step]. rewrite U, N. reflexivity.
    + left. intros r R. destruct r as [|a|a b]; [| |eauto].
      * assert (existsb (fun r => match r with RSend => true | _ => false end) (refs s) = true); [|congruence].
        apply existsb_exists. exists RSend. auto.
      * pose proof (count_in waiting _ _ R eq_refl). lia.
Qed.

Definition todo (r : refresher) : nat := match r with RSend => 2 | RWait _ => 1 | RDone _ _ => 0 end.
Definition sum_todo (l : list refresher) : nat := list_sum (map todo l).
Lemma sum_put i x y l : nth_error l i = Some y -> sum_todo (put i x l) + todo y = sum_todo l + todo x.
Proof.
  unfold sum_todo. revert i. induction l as [|a l IH]; intros [|i]; cbn [nth_error put map list_sum fold_right]; try discriminate;
    change (fold_right Nat.add 0) with list_sum.
  - intros [= ->]. lia.
  - intros N. specialize (IH _ N). lia.
Qed.

Lemma refresh_todo s e s' : refresh_step s e = Some s' ->
  sum_todo (refs s') + (if meets e then 1 else 0) <= sum_todo (refs s).
Proof.
  destruct e as [| |i|j|i j]; cbn [refresh_step meets]; intros H.
  - destruct (upd s) as [[]| |]; try discriminate; injection H as <-; cbn [refs]; lia.
  - destruct (upd s) as [[]| |]; try discriminate; injection H as <-; cbn [refs]; lia.
  - destruct (upd s) as [[]| |]; try discriminate. destruct (nth_error (refs s) i) as [[]|] eqn:N; try discriminate. injection H as <-.
    cbn [refs]. pose proof (sum_put i (RWait (rounds s)) _ _ N) as C. cbn in C. lia.
  - destruct (upd s) as [[]| |]; try discriminate. destruct (nth_error (refs s) j) as [[]|] eqn:N; try discriminate. injection H as <-.
    cbn [refs]. pose proof (sum_put j (RDone at_request (rounds s)) _ _ N) as C. cbn in C. lia.
  - destruct (nth_error (refs s) i) as [[]|] eqn:N; try discriminate. destruct (nth_error (refs s) j) as [[]|] eqn:M; try discriminate. injection H as <-.
    cbn [refs]. pose proof (sum_put i (RWait (rounds s)) _ _ N) as C. cbn in C.
    assert (M' : nth_error (put i (RWait (rounds s)) (refs s)) j = Some (RWait at_request)).
    { rewrite put_nth. destruct (j =? i) eqn:B; [|exact M]. apply Nat.eqb_eq in B. subst. congruence. }
    pose proof (sum_put j (RDone at_request (rounds s)) _ _ M') as D. cbn in D. lia.
Qed.

Lemma sum_repeat n : sum_todo (repeat RSend n) = 2 * n.
Proof. induction n as [|n IH]; [reflexivity|]. change (sum_todo (repeat RSend (S n))) with (2 + sum_todo (repeat RSend n)). lia. Qed.

Lemma refresh_bounded_pf n es s : refresh_moves (refreshing0 n) es s -> count meets es <= 2 * n.
Proof.
  intros M. assert (W : count meets es + sum_todo (refs s) <= 2 * n).
  { induction M as [|es s' e s'' M IH E]; [unfold refreshing0; cbn [refs]; rewrite sum_repeat; cbn; lia|].
    apply refresh_todo in E. unfold count in *. rewrite filter_app, app_length. cbn [filter]. destruct (meets e); cbn in *; lia. }
  lia.
Qed.

(** With one refresh at a time nothing is taken away. *)
Lemma alone_inv es s : refresh_moves (refreshing0 1) es s ->
  exists r, refs s = [r] /\
    match r with
    | RSend => True
    | RWait a => match upd s with URound true => a <= rounds s | UAnswer => a < rounds s | _ => False end
    | RDone a b => a < b
    end.
Proof.
  intros M. induction M as [|es s' e s'' M IH E]; [exists RSend; split; [reflexivity|exact I]|].
  destruct IH as (r & R & Q). destruct s' as [k u l]. cbn [refs rounds upd] in *. subst l.
  destruct e as [| |i|j|i j]; cbn [refresh_step upd refs rounds] in E.
  - destruct u as [b| |]; try discriminate. injection E as <-. exists r. split; [reflexivity|]. cbn [upd rounds].
    destruct r; auto. destruct b; [lia|contradiction].
  - destruct u; try discriminate. injection E as <-. exists r. split; [reflexivity|]. cbn [upd rounds]. destruct r; auto.
  - destruct u; try discriminate. destruct i as [|i]; [|destruct i; discriminate]. destruct r; cbn in E; try discriminate. injection E as <-.
    eexists. split; [reflexivity|]. cbn. lia.
  - destruct u; try discriminate. destruct j as [|j]; [|destruct j; discriminate]. destruct r; cbn in E; try discriminate. injection E as <-.
    eexists. split; [reflexivity|]. exact Q.
  - destruct i as [|i]; [|destruct i; discriminate]. destruct r; cbn in E; try discriminate. destruct j as [|j]; [discriminate|destruct j; discriminate].
Qed.

(** ** Writers exclude everybody else *)
Definition writes (k : nat) (t : thread) : bool := wants_write k t || holds_write k t.
Record exclusive (ts : list thread) : Prop := {
  one_writer : forall i j k t u, nth_error ts i = Some t -> nth_error ts j = Some u -> writes k t = true -> writes k u = true -> i = j;
  no_reader : forall i j k t u, nth_error ts i = Some t -> nth_error ts j = Some u -> holds_write k t = true -> holds k u = true -> i = j
}.

Lemma existsb_false {A} f (l : list A) i x : existsb f l = false -> nth_error l i = Some x -> f x = false.
Proof.
  intros E N. destruct (f x) eqn:F; [|reflexivity]. assert (existsb f l = true) by (apply existsb_exists; exists x; split; [eapply nth_error_In; eauto|exact F]). congruence.
Qed.

Lemma writes_holds k t : holds_write k t = true -> holds k t = true.
Proof.
  unfold holds_write, holds. rewrite !existsb_exists. intros (x & X & E). exists x. split; [exact X|]. apply andb_true_iff in E. tauto.
Qed.

(** How a step changes what a thread holds and wants. *)
Lemma step_writes ts i t u : nth_error ts i = Some u -> thread_step ts i = Some t ->
  (forall k, writes k t = true -> writes k u = true \/ existsb (fun v => wants_write k v || holds_write k v) ts = false) /\
  (forall k, holds_write k t = true -> holds_write k u = true \/ wants_write k u = true /\ existsb (holds k) ts = false) /\
  (forall k, holds k t = true -> holds k u = true \/ existsb (fun v => wants_write k v || holds_write k v) ts = false \/ wants_write k u = true /\ existsb (holds k) ts = false).
Proof.
  intros N T. unfold thread_step in T. rewrite N in T. unfold writes, wants_write.
  destruct (prog u) as [|[k|k|k|k] p] eqn:P; [discriminate| | | |].
  - destruct (existsb _ ts) eqn:X; [discriminate|]. injection T as <-. unfold wants_write in X. cbn [announced prog held].
    unfold holds_write, holds. cbn [held existsb fst snd].
    repeat split; intros j; rewrite ?andb_false_r, ?andb_false_l; cbn [orb andb].
    + intros H. left. rewrite H. auto.
    + auto.
    + intros H. apply orb_true_iff in H. destruct H as [H|H]; [|auto]. apply Nat.eqb_eq in H. subst j. auto.
  - destruct (held u) as [|[j []] h] eqn:Hh; try discriminate. destruct (j =? k) eqn:E; [|discriminate]. injection T as <-. cbn [announced prog held].
    unfold holds_write, holds. rewrite Hh. cbn [held existsb fst snd].
    repeat split; intros x; rewrite ?andb_false_l; cbn [orb]; intros H; rewrite H, ?orb_true_r; auto.
  - destruct (announced u) eqn:A; destruct (existsb _ ts) eqn:X; try discriminate; injection T as <-; cbn [announced prog held];
      unfold holds_write, holds; cbn [held existsb fst snd].
    + repeat split; intros x; rewrite ?andb_true_r, ?andb_true_l, ?andb_false_l; cbn [orb].
      * intros H. left. exact H.
      * intros H. apply orb_true_iff in H. destruct H as [H|H]; [|auto]. right. split; [exact H|]. apply Nat.eqb_eq in H. subst. exact X.
      * intros H. apply orb_true_iff in H. destruct H as [H|H]; [|auto]. right. right. split; [exact H|]. apply Nat.eqb_eq in H. subst. exact X.
    + repeat split; intros x; rewrite ?andb_true_l, ?andb_false_l; auto. cbn [orb]. intros H. apply orb_true_iff in H. destruct H as [H|H]; [|auto].
      apply Nat.eqb_eq in H. subst. auto.
  - destruct (held u) as [|[j []] h] eqn:Hh; try discriminate. destruct (j =? k) eqn:E; [|discriminate]. injection T as <-. cbn [announced prog held].
    unfold holds_write, holds. rewrite Hh. cbn [held existsb fst snd].
    repeat split; intros x; rewrite ?andb_false_l; cbn [orb]; intros H; rewrite H, ?orb_true_r; auto.
Qed.

Lemma step_exclusive ts i ts' : exclusive ts -> lock_step ts i = Some ts' -> exclusive ts'.
Proof.
  intros [OW NR] E. unfold lock_step in E. destruct (thread_step ts i) as [t|] eqn:T; [|discriminate]. injection E as <-.
  assert (exists u, nth_error ts i = Some u) as [u U] by (unfold thread_step in T; destruct (nth_error ts i); [eauto|discriminate]).
  destruct (step_writes ts i t u U T) as (A & B & C).
  assert (P : forall j v, nth_error (put i t ts) j = Some v -> j = i /\ v = t \/ j <> i /\ nth_error ts j = Some v).
  { intros j v. rewrite put_nth. destruct (j =? i) eqn:J; [apply Nat.eqb_eq in J|apply Nat.eqb_neq in J; auto].
    destruct (nth_error ts j); [|discriminate]. intros [= <-]. auto. }
  split; intros a b k x y Na Nb; apply P in Na, Nb; destruct Na as [[-> ->]|[Na Xa]], Nb as [[-> ->]|[Nb Xb]]; intros H K; try reflexivity.
  - apply A in H. destruct H as [H|H]; [eapply OW; eauto|]. unfold writes in K. rewrite (existsb_false _ _ _ _ H Xb) in K. discriminate.
  - apply A in K. destruct K as [K|K]; [eapply OW; eauto|]. unfold writes in H. rewrite (existsb_false _ _ _ _ K Xa) in H. discriminate.
  - eapply OW; eauto.
  - apply B in H. destruct H as [H|[H H']]; [eapply NR; eauto|]. rewrite (existsb_false _ _ _ _ H' Xb) in K. discriminate.
  - apply C in K. destruct K as [K|[K|[K K']]]; [eapply NR; eauto| |].
    + pose proof (existsb_false _ _ _ _ K Xa) as F. cbn beta in F. rewrite H, orb_true_r in F. discriminate.
    + apply writes_holds in H. rewrite (existsb_false _ _ _ _ K' Xa) in H. discriminate.
  - eapply NR; eauto.
Qed.

Lemma writer_alone_pf cs n s i j k t u : lock_moves (calling cs) n s ->
  nth_error s i = Some t -> nth_error s j = Some u -> holds_write k t = true -> holds k u = true -> i = j.
Proof.
  intros M. assert (E : exclusive s).
  { induction M as [|n s' i' s'' M IH E]; [|eapply step_exclusive; eauto].
    assert (F : forall i t k, nth_error (calling cs) i = Some t -> writes k t = false /\ holds_write k t = false).
    { intros a v x N. unfold calling in N. apply nth_error_In, in_map_iff in N. destruct N as (c & <- & _). split; reflexivity. }
    split; intros a b x v w N _ H; destruct (F _ _ x N); congruence. }
  intros. eapply no_reader; eauto.
Qed.
