(** * What a lookup of an unknown provider leaves behind (C48, with overlapping calls) *)
From Coq Require Import List Bool Arith Lia.
From Verif Require Import RegisterLocks RegisterLocksSpec RegisterLocksProofs.
Import ListNotations.

(** Where a lookup of an unknown provider may stand. *)
Definition looking (t : thread) : Prop :=
  t = Thread [] false [RL providersL; RU providersL; RL providersL] \/ t = Thread [(providersL, false)] false [RU providersL; RL providersL] \/
  t = Thread [] false [RL providersL] \/ t = Thread [(providersL, false)] false [].

Lemma stepped ts i ts' : lock_step ts i = Some ts' -> exists u t, nth_error ts i = Some u /\ thread_step ts i = Some t /\ ts' = put i t ts.
Proof.
  unfold lock_step. destruct (thread_step ts i) as [t|] eqn:E; [|discriminate]. intros [= <-].
  destruct (nth_error ts i) as [u|] eqn:N; [exists u, t; auto|]. unfold thread_step in E. rewrite N in E. discriminate.
Qed.

Lemma looking_moves s n s' i : (exists t, nth_error s i = Some t /\ looking t) -> lock_moves s n s' -> exists t, nth_error s' i = Some t /\ looking t.
Proof.
  intros H M. induction M as [|n s' j s'' M IH E]; [exact H|]. destruct IH as (t & T & L). destruct (stepped _ _ _ E) as (u & v & U & V & ->).
  rewrite put_nth. destruct (Nat.eqb_spec i j) as [->|N]; [|eauto]. rewrite T. exists v. split; [reflexivity|].
  unfold thread_step in V. rewrite T in V. destruct L as [L|[L|[L|L]]]; subst t; cbn [prog held] in V.
  - destruct (existsb _ _); [discriminate|]. injection V as <-. right. left. reflexivity.
  - cbn in V. injection V as <-. right. right. left. reflexivity.
  - destruct (existsb _ _); [discriminate|]. injection V as <-. right. right. right. reflexivity.
  - discriminate.
Qed.

(** Whatever else goes on: once the lookup has ended, a call that has yet to write to the map of providers never ends. *)
Theorem unknown_provider_blocks_refuted : forall cs i n s, nth_error cs i = Some (CGetProvider false false) -> lock_moves (calling cs) n s ->
  (exists t, nth_error s i = Some t /\ ended t) ->
  forall j t, nth_error s j = Some t -> In (WL providersL) (prog t) ->
  forall m s', lock_moves s m s' -> exists t', nth_error s' j = Some t' /\ ~ ended t'.
Proof.
  intros cs i n s C M (t0 & T0 & E0) j t T W.
  assert (L : exists u, nth_error s i = Some u /\ looking u).
  { refine (looking_moves _ _ _ _ _ M). unfold calling. rewrite nth_error_map, C. eexists. split; [reflexivity|]. left. reflexivity. }
  destruct L as (u & U & L). rewrite T0 in U. injection U as <-.
  assert (H0 : t0 = Thread [(providersL, false)] false []) by (destruct L as [L|[L|[L|L]]]; subst t0; try discriminate E0; reflexivity). subst t0.
  assert (G : forall m s', lock_moves s m s' -> nth_error s' i = Some (Thread [(providersL, false)] false []) /\ exists t', nth_error s' j = Some t' /\ In (WL providersL) (prog t')).
  { intros m s' M'. induction M' as [|m s' k s'' M' IH E]; [eauto|]. destruct IH as (A & t' & B & I'). destruct (stepped _ _ _ E) as (x & y & X & Y & ->). rewrite !put_nth. split.
    - destruct (Nat.eqb_spec i k) as [<-|N]; [|exact A]. unfold thread_step in Y. rewrite A in Y. discriminate Y.
    - destruct (Nat.eqb_spec j k) as [<-|N]; [|eauto]. rewrite B. exists y. split; [reflexivity|]. unfold thread_step in Y. rewrite B in Y.
      destruct (prog t') as [|[k|k|k|k] p] eqn:P; [discriminate| | | |].
      + destruct (existsb _ _); [discriminate|]. injection Y as <-. cbn [prog]. destruct I' as [Q|Q]; [discriminate Q|exact Q].
      + destruct (held t') as [|[q [|]] h]; try discriminate. destruct (q =? k); [|discriminate]. injection Y as <-. cbn [prog]. destruct I' as [Q|Q]; [discriminate Q|exact Q].
      + destruct (announced t').
        * destruct (existsb (holds k) s') eqn:Ex; [discriminate|]. injection Y as <-. cbn [prog]. destruct I' as [Q|Q]; [|exact Q]. injection Q as ->. exfalso.
          assert (Z : existsb (holds providersL) s' = true) by (apply existsb_exists; exists (Thread [(providersL, false)] false []); split; [exact (nth_error_In _ _ A)|reflexivity]). congruence.
        * destruct (existsb _ _); [discriminate|]. injection Y as <-. exact I'.
      + destruct (held t') as [|[q [|]] h]; try discriminate. destruct (q =? k); [|discriminate]. injection Y as <-. cbn [prog]. destruct I' as [Q|Q]; [discriminate Q|exact Q]. }
  intros m s' M'. destruct (G m s' M') as (_ & t' & B & I'). exists t'. split; [exact B|]. intros Q. unfold ended in Q. rewrite Q in I'. destruct I'.
Qed.

(** The lookup, then an update that brings a provider, and the shutdown. *)
Example lookup_then_update : exists s, lock_moves (calling [CGetProvider false false; CProvidersRound [NewNode]; CShutdown]) 3 s /\
  (exists t, nth_error s 0 = Some t /\ ended t) /\
  (exists t, nth_error s 1 = Some t /\ In (WL providersL) (prog t)) /\ (exists t, nth_error s 2 = Some t /\ In (WL providersL) (prog t)).
Proof.
  eexists. split.
  - eapply (lm_step _ _ _ 0). { eapply (lm_step _ _ _ 0). { eapply (lm_step _ _ _ 0); [apply lm_zero|reflexivity]. } reflexivity. } reflexivity.
  - split; [eexists; split; [reflexivity|reflexivity]|]. split; eexists; (split; [reflexivity|]); vm_compute; auto.
Qed.
Print Assumptions unknown_provider_blocks_refuted.
