(** * C229: overlapping operations of an administrator *)
From Coq Require Import List Arith Bool Lia.
From Verif Require Import Base BaseProofs AdminConc AdminConcProofs.
Import ListNotations.

(** The registration that an operation is to add to the gateways of the administrator. *)
Definition adds (o : admin_op) (id reg : nat) : Prop := o = Initialise id reg \/ o = Features id reg.

(** An operation that returns without an error has added its gateway, and only such operations (which may be about to give
    the lock back) add one, with the registration they were given. *)
Theorem admin_recorded : forall l es s, admin_run (new_admin l) es = Some s ->
  (forall i o id reg, nth_error (tasks s) i = Some (o, Returned Accepted) -> adds o id reg -> aget Nat.eqb (known s) id <> None) /\
  (forall id reg, aget Nat.eqb (known s) id = Some reg ->
     exists i o p, nth_error (tasks s) i = Some (o, p) /\ adds o id reg /\ (p = GiveBack Accepted \/ p = Returned Accepted)).
Proof.
  intros l es s H. destruct (inv_run _ _ _ (inv_start l) H) as (_ & _ & _ & _ & K & G). split.
  - intros i o id reg N A. apply (G id reg _ (nth_error_In _ _ N)). split; cbn; auto.
  - intros id reg A. destruct (K id reg A) as ([o p] & I & O & P). apply In_nth_error in I. destruct I as (i & I). exists i, o, p. auto.
Qed.
Print Assumptions admin_recorded.

(** An operation on a gateway asks it at a registration that was added for it. *)
Theorem asked_registered : forall l es s j id g ok, admin_run (new_admin l) es = Some s -> nth_error (tasks s) j = Some (Ask id, Returned (Asked g ok)) ->
  exists i o p, nth_error (tasks s) i = Some (o, p) /\ adds o id g /\ (p = GiveBack Accepted \/ p = Returned Accepted).
Proof.
  intros l es s j id g ok H N. destruct (inv_run _ _ _ (inv_start l) H) as (_ & _ & _ & F & _). destruct (F _ (nth_error_In _ _ N)) as (_ & ([o p] & I & O & P)).
  apply In_nth_error in I. destruct I as (i & I). exists i, o, p. auto.
Qed.
Print Assumptions asked_registered.

(** A gateway whose initialisation has returned is found by every operation that begins later, whatever overlaps with it. *)
Theorem later_asks_find : forall l es s more s' i j o id reg r, admin_run (new_admin l) es = Some s ->
  nth_error (tasks s) i = Some (o, Returned Accepted) -> adds o id reg -> nth_error (tasks s) j = Some (Ask id, Want) ->
  admin_run s more = Some s' -> nth_error (tasks s') j = Some (Ask id, Returned r) -> exists g ok, r = Asked g ok.
Proof.
  intros l es s more s' i j o id reg r H N A W M R. destruct (find_run more s s' id j Want M) as (p' & N' & P'); [eapply admin_recorded; eassumption|exact W|exact I|].
  rewrite R in N'. inversion N'; subst p'. destruct r; cbn in P'; try contradiction. eauto.
Qed.
Print Assumptions later_asks_find.

(** What an operation returns is the outcome of its exchange: an operation that adds a gateway does so exactly when the gateway accepts. *)
Theorem admin_outcomes : forall l es s i o r ok, admin_run (new_admin l) es = Some s -> (forall b, In (i, b) es -> b = ok) ->
  nth_error (tasks s) i = Some (o, Returned r) ->
  match o with
  | Ask _ => r = Unknown \/ exists g, r = Asked g ok
  | _ => r = if ok then Accepted else Refused
  end.
Proof.
  intros l es s i o r ok H B N. assert (L : exists p, nth_error (tasks (new_admin l)) i = Some (o, p) /\ p = first_stage o).
  { assert (Q : forall es s0, admin_run s0 es = Some s -> exists p, nth_error (tasks s0) i = Some (o, p)).
    { clear - N. induction es as [|e es IH]; cbn; intros s0 H; [inversion H; subst; eauto|]. destruct (admin_step s0 e) as [s1|] eqn:E; [|discriminate]. destruct (IH s1 H) as (p & P).
      unfold admin_step in E. destruct (nth_error (tasks s0) (fst e)) as [[o0 p0]|] eqn:N0; [|discriminate]. destruct (admin_move s0 o0 p0 (snd e)) as [[s2 p2]|]; [|discriminate]. inversion E; subst s1; clear E. cbn [tasks] in P.
      destruct (Nat.eq_dec (fst e) i) as [D|D]; [|rewrite nth_error_set_neq in P by exact D; eauto]. rewrite D in *. rewrite nth_error_set_eq in P by (apply nth_error_Some; congruence). inversion P; subst. eauto. }
    destruct (Q es _ H) as (p & P). exists p. split; [exact P|]. cbn [new_admin tasks] in P. apply nth_error_In, in_map_iff in P. destruct P as (o1 & P & _). inversion P; subst. reflexivity. }
  destruct L as (p & L & ->). destruct (course_run ok i o es _ _ _ H B L) as (p' & N' & P'); [destruct o; exact I|]. rewrite N in N'. inversion N'; subst p'. destruct o; exact P'.
Qed.
Print Assumptions admin_outcomes.

(** While an operation changes the gateways of the administrator no other changes them or looks at them. *)
Theorem admin_exclusive : forall l es s i o j o' p, admin_run (new_admin l) es = Some s -> nth_error (tasks s) i = Some (o, Put) ->
  nth_error (tasks s) j = Some (o', p) -> i <> j -> p <> Put /\ p <> Find.
Proof.
  intros l es s i o j o' p H N N' D. destruct (inv_run _ _ _ (inv_start l) H) as (W & R & X & F & _).
  pose proof (F _ (nth_error_In _ _ N)) as (Fo & _). pose proof (F _ (nth_error_In _ _ N')) as (Fo' & _).
  apply nth_error_split in N. destruct N as (a & b & E & <-). rewrite E in *. clear E.
  assert (I : In (o', p) a \/ In (o', p) b).
  { destruct (Nat.lt_ge_cases j (length a)) as [L|L].
    - rewrite nth_error_app1 in N' by exact L. left. eapply nth_error_In, N'.
    - rewrite nth_error_app2 in N' by exact L. destruct (j - length a) as [|k] eqn:Z; [lia|]. cbn in N'. right. eapply nth_error_In, N'. }
  assert (I1 : writes (o', p) <= sum writes a + sum writes b) by (destruct I as [I|I]; apply (sum_in writes) in I; lia).
  assert (I2 : reads (o', p) <= sum reads a + sum reads b) by (destruct I as [I|I]; apply (sum_in reads) in I; lia).
  rewrite sum_app in W, R, X. cbn [sum] in W, R, X. destruct o; cbn in Fo; try contradiction; cbn [writes inside] in W, X; assert (Z : readers s = 0) by (apply X; lia);
    (split; intros ->; destruct o'; cbn in Fo', I1, I2; try contradiction; destruct (announced s); lia).
Qed.
Print Assumptions admin_exclusive.

(** All the operations return: five steps for each are enough, and as long as one has not returned a step is possible, whatever
    the gateways answer. *)
Theorem admin_goes_on : forall l es s ok, admin_run (new_admin l) es = Some s ->
  length es <= 5 * length l /\ (Forall (fun t => exists r, snd t = Returned r) (tasks s) \/ exists i s', admin_step s (i, ok) = Some s').
Proof.
  intros l es s ok H. split.
  - pose proof (ahead_run _ _ _ H) as K. assert (E : forall l, sum ahead (map (fun o => (o, first_stage o)) l) <= 5 * length l).
    { induction l0 as [|o l0 IH]; cbn [map sum length]; [lia|]. assert (ahead (o, first_stage o) <= 5) by (destruct o; cbn; lia). lia. }
    cbn [new_admin tasks] in K. specialize (E l). lia.
  - destruct (can_go s ok (inv_run _ _ _ (inv_start l) H)) as [D|D]; [left; apply Forall_forall, D|right; exact D].
Qed.
Print Assumptions admin_goes_on.

(** It is false that an operation on one gateway goes on while another gateway is silent.  First: while the features of gateway 1 are
    being set, an operation on gateway 2 cannot go on, nor can any other, however long gateway 1 takes. *)
Theorem admin_waits_refuted : exists l es s, admin_run (new_admin l) es = Some s /\
  aget Nat.eqb (known s) 2 = Some 20 /\ nth_error (tasks s) 1 = Some (Features 1 10, Exchange) /\ nth_error (tasks s) 2 = Some (Ask 2, Want) /\
  forall e s', admin_step s e = Some s' -> fst e = 1.
Proof.
  exists [Initialise 2 20; Features 1 10; Ask 2], [(0, true); (0, true); (0, true); (0, true); (0, true); (1, true); (1, true)].
  eexists. split; [vm_compute; reflexivity|]. split; [reflexivity|]. split; [reflexivity|]. split; [reflexivity|].
  intros [[|[|[|i]]] ok] s'; cbn; try discriminate; auto. destruct i; discriminate.
Qed.
Print Assumptions admin_waits_refuted.
(** Second: two operations on two gateways, which could go on side by side, cannot when a third gateway has answered its initialisation:
    gateway 1 is silent, and the operation on gateway 2 waits for it. *)
Theorem admin_queue_refuted : exists l es s, admin_run (new_admin l) es = Some s /\
  nth_error (tasks s) 2 = Some (Ask 1, Contact 10) /\ nth_error (tasks s) 3 = Some (Initialise 3 30, Drain) /\ nth_error (tasks s) 4 = Some (Ask 2, Want) /\
  (forall e s', admin_step s e = Some s' -> fst e = 2) /\
  exists before s0, admin_run (new_admin l) before = Some s0 /\ nth_error (tasks s0) 2 = Some (Ask 1, Contact 10) /\ admin_step s0 (4, true) <> None.
Proof.
  exists [Initialise 1 10; Initialise 2 20; Ask 1; Initialise 3 30; Ask 2],
    ([(0, true); (0, true); (0, true); (0, true); (0, true); (1, true); (1, true); (1, true); (1, true); (1, true); (2, true); (2, true)] ++ [(3, true); (3, true)]).
  eexists. split; [vm_compute; reflexivity|]. split; [reflexivity|]. split; [reflexivity|]. split; [reflexivity|]. split.
  - intros [[|[|[|[|[|i]]]]] ok] s'; cbn; try discriminate; auto. destruct i; discriminate.
  - exists [(0, true); (0, true); (0, true); (0, true); (0, true); (1, true); (1, true); (1, true); (1, true); (1, true); (2, true); (2, true)].
    eexists. split; [vm_compute; reflexivity|]. split; [reflexivity|]. vm_compute. discriminate.
Qed.
Print Assumptions admin_queue_refuted.

(** True: when nobody adds a gateway, that is when every other operation either is one on a gateway, or has not come to the lock,
    or has returned, an operation on a gateway goes on.  Missing: overlap with operations that add one. *)
Theorem asks_overlap_partial : forall l es s j id p ok, admin_run (new_admin l) es = Some s -> nth_error (tasks s) j = Some (Ask id, p) ->
  (forall i o q, nth_error (tasks s) i = Some (o, q) ->
     (exists k, o = Ask k) \/ (exists k r, o = Initialise k r /\ (q = Exchange \/ q = Want)) \/ (exists k r, o = Features k r /\ q = Want) \/ exists r, q = Returned r) ->
  (exists r, p = Returned r) \/ exists s', admin_step s (j, ok) = Some s'.
Proof.
  intros l es s j id p ok H N A. destruct (inv_run _ _ _ (inv_start l) H) as (W & _ & _ & F & _). pose proof (F _ (nth_error_In _ _ N)) as (Fp & _).
  assert (Z : announced s = false).
  { destruct (announced s) eqn:E; [|reflexivity]. destruct (sum_pos writes (tasks s)) as ([o q] & I & Q); [lia|]. apply In_nth_error in I. destruct I as (i & I).
    exfalso. destruct (A i o q I) as [(k & ->)|[(k & r & -> & [-> | ->])|[(k & r & -> & ->)|(r & ->)]]]; cbn in Q; try congruence. destruct o; congruence. }
  unfold admin_step. cbn [fst snd]. rewrite N. destruct p; cbn in Fp |- *; try contradiction; rewrite ?Z; eauto.
Qed.
Print Assumptions asks_overlap_partial.

(** Gateway 1 is set up while another operation looks for it and finds nothing; a later one asks it.  The features of gateway 2 are
    refused. *)
Example admin_ex : admin_run (new_admin [Initialise 1 10; Ask 1; Ask 1; Features 2 20])
    [(1, true); (0, true); (0, true); (1, true); (1, true); (0, true); (0, true); (0, true); (2, true); (2, true); (2, false); (2, true); (3, true); (3, true); (3, false); (3, true)]
  = Some (Admin [(1, 10)] false 0 [(Initialise 1 10, Returned Accepted); (Ask 1, Returned Unknown); (Ask 1, Returned (Asked 10 false)); (Features 2 20, Returned Refused)]).
Proof. vm_compute. reflexivity. Qed.
(** Two operations on gateways overlap; a writer has to wait for both. *)
Example admin_readers_ex :
  let upto := [(0, true); (0, true); (0, true); (0, true); (0, true); (1, true); (2, true); (3, true)] in
  option_map (fun s => (readers s, announced s)) (admin_run (new_admin [Initialise 1 10; Ask 1; Ask 2; Features 2 20]) upto) = Some (2, true) /\
  admin_run (new_admin [Initialise 1 10; Ask 1; Ask 2; Features 2 20]) (upto ++ [(3, true)]) = None.
Proof. vm_compute. split; reflexivity. Qed.
