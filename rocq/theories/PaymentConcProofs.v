(** Proofs about concurrent payment calls. *)
From Coq Require Import List ZArith Bool Lia Init.Byte.
From Verif Require Import Base BaseProofs Payment PaymentSpec PaymentProofs PaymentConc.
Import ListNotations.

Section Conc.
  Variable verify : gostring -> voucher -> option bytes -> bool.

  Lemma create_is_run m c : found m c = false -> create_call verify m c = run_call verify m c.
  Proof.
    destruct c as [[r a t|r k a sg]|[ch [sv|] [cs|]]]; cbn [found create_call run_call payer_step recv_step]; try reflexivity.
    - unfold Topup. destruct (aget bytes_eqb (m_out m) r); [discriminate|]. intros _. destruct (TopupCreate m r a t). reflexivity.
    - unfold Receive. destruct (aget bytes_eqb (m_in m) ch); [discriminate|]. intros _. destruct (ReceiveCreate verify m ch sv cs). reflexivity.
  Qed.

  Lemma opens_found m c c' : opens c = opens c' -> opens c <> None -> found m c = found m c'.
  Proof.
    destruct c as [[r a t|r k a sg]|[ch [sv|] [cs|]]]; cbn [opens]; try congruence;
    destruct c' as [[r' a' t'|r' k' a' sg']|[ch' [sv'|] [cs'|]]]; cbn [opens]; try discriminate; intros H _; inversion H; subst; reflexivity.
  Qed.

  (** Running a call keeps channels, and opens at most its own. *)
  Lemma run_found m c c' : found m c' = true -> found (fst (run_call verify m c)) c' = true.
  Proof.
    destruct c as [[r a t|r k a sg]|[ch dv rs]]; cbn [run_call payer_step recv_step].
    - unfold Topup. destruct c' as [[r' a' t'|r' k' a' sg']|[ch' [sv'|] [cs'|]]]; try reflexivity; cbn [found].
      + destruct (aget bytes_eqb (m_out m) r) as [c|] eqn:G; destruct t as [|[ad|]]; cbn [TopupAdd TopupCreate fst m_out]; auto;
          rewrite (aget_aset bytes_eqb bytes_eqb_eq); destruct (bytes_eqb r' r); auto.
      + destruct (aget bytes_eqb (m_out m) r) as [c|] eqn:G; destruct t as [|[ad|]]; cbn [TopupAdd TopupCreate fst m_in]; auto.
    - unfold Pay. destruct c' as [[r' a' t'|r' k' a' sg']|[ch' [sv'|] [cs'|]]]; try reflexivity; cbn [found];
        (destruct (aget bytes_eqb (m_out m) r) as [c|] eqn:G; [|auto]); (destruct (c_balance c <? c_redeemed c + a)%Z; [auto|]); destruct (sg _); cbn [fst m_out m_in]; auto;
        rewrite (aget_aset bytes_eqb bytes_eqb_eq); destruct (bytes_eqb r' r); auto.
    - unfold Receive. destruct c' as [[r' a' t'|r' k' a' sg']|[ch' [sv'|] [cs'|]]]; try reflexivity; cbn [found];
        (destruct dv as [sv|]; [|auto]); (destruct rs as [cs|]; [|auto]);
        (destruct (aget bytes_eqb (m_in m) ch) as [c|] eqn:G; [unfold ReceiveUpdate; destruct (ch_balance cs <? c_balance c)%Z; [auto|]|unfold ReceiveCreate]);
        destruct (ReceiveOn _ _ _ _ _); cbn [fst m_out m_in put_in]; auto;
        rewrite (aget_aset bytes_eqb bytes_eqb_eq); destruct (bytes_eqb ch' ch); auto.
  Qed.

  Lemma run_not_opened m c c' : found m c' = false -> opens c <> opens c' -> found (fst (run_call verify m c)) c' = false.
  Proof.
    destruct c as [[r a t|r k a sg]|[ch dv rs]]; cbn [run_call payer_step recv_step].
    - unfold Topup. destruct c' as [[r' a' t'|r' k' a' sg']|[ch' [sv'|] [cs'|]]]; try discriminate; cbn [found opens]; intros H1 H2.
      + assert (N : bytes_eqb r' r = false) by (apply bytes_eqb_neq; congruence).
        destruct (aget bytes_eqb (m_out m) r) as [c|] eqn:G; destruct t as [|[ad|]]; cbn [TopupAdd TopupCreate fst m_out]; auto;
          rewrite (aget_aset bytes_eqb bytes_eqb_eq), N; auto.
      + destruct (aget bytes_eqb (m_out m) r) as [c|] eqn:G; destruct t as [|[ad|]]; cbn [TopupAdd TopupCreate fst m_in]; auto.
    - unfold Pay. destruct c' as [[r' a' t'|r' k' a' sg']|[ch' [sv'|] [cs'|]]]; try discriminate; cbn [found]; intros H1 H2;
        (destruct (aget bytes_eqb (m_out m) r) as [c|] eqn:G; [|auto]); (destruct (c_balance c <? c_redeemed c + a)%Z; [auto|]); destruct (sg _); cbn [fst m_out m_in]; auto;
        rewrite (aget_aset bytes_eqb bytes_eqb_eq); destruct (bytes_eqb_spec r' r) as [->|]; auto; rewrite G in H1; discriminate.
    - unfold Receive. destruct c' as [[r' a' t'|r' k' a' sg']|[ch' [sv'|] [cs'|]]]; try discriminate; cbn [found opens]; intros H1 H2;
        (destruct dv as [sv|]; [|auto]); (destruct rs as [cs|]; [|auto]);
        (destruct (aget bytes_eqb (m_in m) ch) as [c|] eqn:G; [unfold ReceiveUpdate; destruct (ch_balance cs <? c_balance c)%Z; [auto|]|unfold ReceiveCreate]);
        destruct (ReceiveOn _ _ _ _ _); cbn [fst m_out m_in put_in]; auto;
        rewrite (aget_aset bytes_eqb bytes_eqb_eq);
        (assert (N : bytes_eqb ch' ch = false) by (apply bytes_eqb_neq; congruence)); rewrite N; auto.
  Qed.

  Definition call_of (t : thread) : call := match t with Start c | Missed c | Done c _ => c end.

  Lemma seq_run_snoc m cs c : seq_run verify m (cs ++ [c]) =
    let (m1, l) := seq_run verify m cs in let (m2, a) := run_call verify m1 c in (m2, l ++ [a]).
  Proof.
    revert m. induction cs as [|c0 cs IH]; intros m; cbn [app seq_run].
    - destruct (run_call verify m c). reflexivity.
    - destruct (run_call verify m c0) as [m1 a0]. rewrite IH. destruct (seq_run verify m1 cs) as [m2 l].
      destruct (run_call verify m2 c). reflexivity.
  Qed.

  Variables (m0 : mgr) (cs : list call).
  Hypothesis ND : no_double_open m0 cs.

  Record cinv (log : list (nat * call * answer)) (s : mgr * list thread) : Prop := {
    ci_calls : map call_of (snd s) = cs;
    ci_seq : seq_run verify m0 (map (fun x => snd (fst x)) log) = (fst s, map snd log);
    ci_log : forall i c a, In (i, c, a) log <-> nth_error (snd s) i = Some (Done c a);
    ci_nodup : NoDup (map (fun x => fst (fst x)) log);
    (* a channel absent at the start is opened only by the one call that may open it *)
    ci_missed : forall i c, nth_error (snd s) i = Some (Missed c) -> found m0 c = false /\ found (fst s) c = false;
    ci_start : forall i c, nth_error (snd s) i = Some (Start c) -> found (fst s) c = found m0 c
  }.

  Lemma nth_call ts i t : map call_of ts = cs -> nth_error ts i = Some t -> nth_error cs i = Some (call_of t).
  Proof. intros <- H. rewrite nth_error_map, H. reflexivity. Qed.

  Lemma map_set_nth {A B} (f : A -> B) l i x y : nth_error l i = Some y -> f x = f y -> map f (set_nth l i x) = map f l.
  Proof.
    revert i. induction l as [|z l IH]; intros [|i] H E; cbn in *; try discriminate.
    - inversion H; subst. rewrite E. reflexivity.
    - f_equal. apply IH; assumption.
  Qed.

  (** Thread [i] completes call [c] by running it alone. *)
  Lemma complete log m ts i t c m' a :
    cinv log (m, ts) -> nth_error ts i = Some t -> call_of t = c -> (forall c a, t <> Done c a) -> run_call verify m c = (m', a) ->
    cinv (log ++ [(i, c, a)]) (m', set_nth ts i (Done c a)).
  Proof.
    intros [C1 C2 C3 C4 C5 C6] Hi Hc Hnd HR. cbn [fst snd] in *.
    assert (HD : ~ In i (map (fun x => fst (fst x)) log)).
    { intros Hin. apply in_map_iff in Hin as ([[i' c'] a'] & E & Hin). cbn in E. subst i'. apply C3 in Hin. rewrite Hi in Hin. inversion Hin. eapply Hnd; eassumption. }
    assert (Hlen : (i < length ts)%nat) by (apply nth_error_Some; congruence).
    assert (HK : forall j u, nth_error ts j = Some u -> j <> i -> opens c = opens (call_of u) -> opens c <> None -> found m0 c = true).
    { intros j u Hj Nj HO HN. apply (ND i j c (call_of u)); auto; [rewrite <- Hc; apply (nth_call ts i t); assumption|apply (nth_call ts j u); assumption]. }
    assert (HF : forall j u, nth_error ts j = Some u -> j <> i -> found m (call_of u) = found m0 (call_of u) -> found m' (call_of u) = found m0 (call_of u)).
    { intros j u Hj Nj HE. replace m' with (fst (run_call verify m c)) by (rewrite HR; reflexivity).
      destruct (found m0 (call_of u)) eqn:F0.
      - apply run_found. exact HE.
      - apply run_not_opened; [exact HE|]. intros HO.
        assert (opens c <> None). { rewrite HO. intros HN. destruct (call_of u) as [[? ? ?|? ? ? ?]|[? [?|] [?|]]]; cbn in *; discriminate. }
        rewrite (opens_found m0 (call_of u) c) in F0 by congruence. rewrite (HK j u) in F0; auto; discriminate. }
    constructor; cbn [fst snd].
    - rewrite (map_set_nth call_of ts i _ t); auto.
    - rewrite map_app, map_app. cbn [map fst snd]. rewrite seq_run_snoc, C2, HR. reflexivity.
    - intros j d b. rewrite in_app_iff, (nth_error_set ts). destruct (Nat.eq_dec i j) as [<-|Nj].
      + replace (Nat.eqb i i) with true by (symmetry; apply Nat.eqb_refl). split.
        * intros [Hin|[Hin|[]]]; [|inversion Hin; subst; destruct (nth_error ts i); [reflexivity|discriminate]].
          exfalso. apply HD. apply in_map_iff. exists (i, d, b). auto.
        * intros H. right. left. destruct (nth_error ts i); [|discriminate]. inversion H. reflexivity.
      + replace (Nat.eqb i j) with false by (symmetry; apply Nat.eqb_neq; exact Nj). rewrite <- C3. split; [|auto].
        intros [Hin|[Hin|[]]]; [exact Hin|]. inversion Hin. congruence.
    - rewrite map_app. cbn [map fst]. apply nodup_app_iff. split; [exact C4|]. split; [constructor; [intros []|constructor]|]. intros x Hx [<-|[]]. contradiction.
    - intros j d Hj. rewrite nth_error_set in Hj. destruct (Nat.eqb_spec i j) as [<-|Nj]; [destruct (nth_error ts i); discriminate|].
      destruct (C5 j d Hj) as [F0 F1]. split; [exact F0|]. rewrite <- F0. apply (HF j (Missed d)); auto. cbn [call_of]. congruence.
    - intros j d Hj. rewrite nth_error_set in Hj. destruct (Nat.eqb_spec i j) as [<-|Nj]; [destruct (nth_error ts i); discriminate|].
      apply (HF j (Start d)); auto. apply (C6 j d Hj).
  Qed.

  Lemma conc_step_inv log s i : cinv log s -> exists log', cinv log' (conc_step verify s i).
  Proof.
    destruct s as [m ts]. intros I. unfold conc_step. cbn [fst snd]. destruct (nth_error ts i) as [t|] eqn:Hi; [|eauto].
    pose proof I as [C1 C2 C3 C4 C5 C6]. cbn [fst snd] in *.
    destruct t as [c|c|c a]; cbn [thread_step].
    - destruct (found m c) eqn:F.
      + destruct (run_call verify m c) as [m' a] eqn:R. eexists. eapply complete; eauto. discriminate.
      + exists log. constructor; cbn [fst snd]; auto.
        * rewrite (map_set_nth call_of ts i _ (Start c)); auto.
        * intros j d b. rewrite C3, nth_error_set. destruct (Nat.eqb_spec i j) as [<-|Nj]; [|reflexivity].
          rewrite Hi. destruct (nth_error ts i); split; discriminate.
        * intros j d Hj. rewrite nth_error_set in Hj. destruct (Nat.eqb_spec i j) as [<-|Nj]; [|eauto].
          rewrite Hi in Hj. inversion Hj; subst d. split; [rewrite <- (C6 i c Hi)|]; exact F.
        * intros j d Hj. rewrite nth_error_set in Hj. destruct (Nat.eqb_spec i j) as [<-|Nj]; [|eauto]. rewrite Hi in Hj. discriminate.
    - destruct (create_call verify m c) as [m' a] eqn:R. destruct (C5 i c Hi) as [_ F]. rewrite create_is_run in R by exact F.
      eexists. eapply complete; eauto. discriminate.
    - exists log. replace (set_nth ts i (Done c a)) with ts; [exact I|]. clear - Hi. revert i Hi. induction ts as [|z ts IH]; intros [|i] Hi; cbn in *; try discriminate.
      + inversion Hi. reflexivity.
      + f_equal. apply IH. exact Hi.
  Qed.

  Lemma conc_run_seq sched : let (m', ts) := conc_run verify m0 cs sched in
    exists log, seq_run verify m0 (map (fun x => snd (fst x)) log) = (m', map snd log) /\
      (forall i c a, In (i, c, a) log <-> nth_error ts i = Some (Done c a)) /\
      NoDup (map (fun x => fst (fst x)) log) /\ map call_of ts = cs.
  Proof.
    unfold conc_run.
    assert (I0 : cinv [] (m0, map Start cs)).
    { constructor; cbn [fst snd].
      - rewrite map_map. cbn. apply map_id.
      - reflexivity.
      - intros i c a. split; [intros []|]. intros H. apply nth_error_In, in_map_iff in H as (x & Hx & _). discriminate.
      - constructor.
      - intros i c H. apply nth_error_In, in_map_iff in H as (x & Hx & _). discriminate.
      - reflexivity. }
    revert I0. generalize (m0, map Start cs) as s. generalize (@nil (nat * call * answer)) as log.
    induction sched as [|i sched IH]; intros log s I; cbn [fold_left].
    - destruct s as [m' ts]. destruct I. cbn [fst snd] in *. exists log. auto.
    - destruct (conc_step_inv log s i I) as [log' I']. apply (IH log'). exact I'.
  Qed.
End Conc.
