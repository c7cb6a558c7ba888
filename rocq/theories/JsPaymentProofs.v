(** * Proofs about the TypeScript payment manager *)
From Coq Require Import List ZArith Lia Bool Sorted Init.Byte Strings.Byte.
From Verif Require Import Base BaseProofs Json JsonProofs Payment PaymentSpec PaymentProofs PaymentFacts JsPayment JsPaymentSpec.
Import ListNotations.
Open Scope Z_scope.

(** ** The text of a voucher *)
Lemma swap_char z : 0 <= z < 64 -> js_swap (b64_char z) = url_char z.
Proof.
  intros H.
  assert (A : forallb (fun n => Byte.eqb (js_swap (b64_char (Z.of_nat n))) (url_char (Z.of_nat n))) (seq 0 64) = true) by (vm_compute; reflexivity).
  rewrite forallb_forall in A. specialize (A (Z.to_nat z)). rewrite Z2Nat.id in A by lia. apply Byte.byte_dec_bl, A, in_seq. lia.
Qed.

Lemma url_plain z : 0 <= z < 64 -> Byte.eqb (url_char z) x3d = false.
Proof.
  intros H.
  assert (A : forallb (fun n => negb (Byte.eqb (url_char (Z.of_nat n)) x3d)) (seq 0 64) = true) by (vm_compute; reflexivity).
  rewrite forallb_forall in A. specialize (A (Z.to_nat z)). rewrite Z2Nat.id in A by lia. apply negb_true_iff, A, in_seq. lia.
Qed.

Lemma drop_pad_app s t : drop_pad (s ++ t) = match drop_pad s with [] => drop_pad t | x => x ++ t end.
Proof. induction s as [|c s IH]; [reflexivity|]. cbn [app drop_pad]. destruct (Byte.eqb c x3d); [exact IH|reflexivity]. Qed.

Lemma text_app a b : js_voucher_text (a ++ b) = match js_voucher_text b with [] => js_voucher_text a | y => map js_swap a ++ y end.
Proof.
  unfold js_voucher_text. rewrite map_app, rev_app_distr, drop_pad_app. destruct (drop_pad (rev (map js_swap b))) as [|x l]; [reflexivity|].
  rewrite rev_app_distr, rev_involutive. destruct (rev (x :: l)) as [|z zs] eqn:E; [|reflexivity].
  apply (f_equal (@length byte)) in E. rewrite rev_length in E. discriminate E.
Qed.

Lemma b64_nil l : b64_encode l = [] -> l = [].
Proof. destruct l as [|a [|b [|c t]]]; [reflexivity|discriminate..]. Qed.

Lemma text_4 a b c d : 0 <= a < 64 -> 0 <= b < 64 -> 0 <= c < 64 -> 0 <= d < 64 ->
  js_voucher_text [b64_char a; b64_char b; b64_char c; b64_char d] = [url_char a; url_char b; url_char c; url_char d].
Proof.
  intros A B C D. unfold js_voucher_text. cbn [map rev app]. rewrite !swap_char by assumption. cbn [drop_pad]. rewrite (url_plain d D). reflexivity.
Qed.

Lemma raw_url_nil l : raw_url l = [] -> l = [].
Proof. destruct l as [|a [|b [|c t]]]; [reflexivity|discriminate..]. Qed.

Lemma text_url : forall l, js_voucher_text (b64_encode l) = raw_url l.
Proof.
  apply (triple_ind (fun l => js_voucher_text (b64_encode l) = raw_url l)).
  - reflexivity.
  - intros a. pose proof (bz_range a). cbn [b64_encode raw_url]. unfold js_voucher_text. cbn [map rev app].
    rewrite !swap_char by (Z.div_mod_to_equations; lia). change (js_swap x3d) with x3d. cbn [drop_pad]. change (Byte.eqb x3d x3d) with true. cbn iota.
    rewrite url_plain by (Z.div_mod_to_equations; lia). cbn [rev app].
    assert (Q1 : bz a / 4 = bz a * 65536 / 262144) by (Z.div_mod_to_equations; lia).
    assert (Q2 : bz a mod 4 * 16 = bz a * 65536 / 4096 mod 64) by (Z.div_mod_to_equations; lia).
    now rewrite <- Q1, <- Q2.
  - intros a b. pose proof (bz_range a). pose proof (bz_range b). cbn [b64_encode raw_url]. unfold js_voucher_text. cbn [map rev app].
    rewrite !swap_char by (Z.div_mod_to_equations; lia). change (js_swap x3d) with x3d. cbn [drop_pad]. change (Byte.eqb x3d x3d) with true. cbn iota.
    rewrite url_plain by (Z.div_mod_to_equations; lia). cbn [rev app].
    assert (Q1 : bz a / 4 = (bz a * 65536 + bz b * 256) / 262144) by (Z.div_mod_to_equations; lia).
    assert (Q2 : bz a mod 4 * 16 + bz b / 16 = (bz a * 65536 + bz b * 256) / 4096 mod 64) by (Z.div_mod_to_equations; lia).
    assert (Q3 : bz b mod 16 * 4 = (bz a * 65536 + bz b * 256) / 64 mod 64) by (Z.div_mod_to_equations; lia).
    now rewrite <- Q1, <- Q2, <- Q3.
  - intros a b c t IH. pose proof (bz_range a). pose proof (bz_range b). pose proof (bz_range c).
    change (b64_encode (a :: b :: c :: t)) with ([b64_char (bz a / 4); b64_char (bz a mod 4 * 16 + bz b / 16); b64_char (bz b mod 16 * 4 + bz c / 64); b64_char (bz c mod 64)] ++ b64_encode t).
    rewrite text_app, IH. cbn [raw_url].
    assert (Q1 : bz a / 4 = (bz a * 65536 + bz b * 256 + bz c) / 262144) by (Z.div_mod_to_equations; lia).
    assert (Q2 : bz a mod 4 * 16 + bz b / 16 = (bz a * 65536 + bz b * 256 + bz c) / 4096 mod 64) by (Z.div_mod_to_equations; lia).
    assert (Q3 : bz b mod 16 * 4 + bz c / 64 = (bz a * 65536 + bz b * 256 + bz c) / 64 mod 64) by (Z.div_mod_to_equations; lia).
    assert (Q4 : bz c mod 64 = (bz a * 65536 + bz b * 256 + bz c) mod 64) by (Z.div_mod_to_equations; lia).
    rewrite <- Q1, <- Q2, <- Q3, <- Q4.
    destruct (raw_url t) as [|y ys] eqn:E.
    + rewrite text_4 by (Z.div_mod_to_equations; lia). reflexivity.
    + cbn [map]. rewrite !swap_char by (Z.div_mod_to_equations; lia). reflexivity.
Qed.

(** ** Runs *)
Lemma js_run_app a : forall b s, js_run s (a ++ b) =
  let (s1, n1) := js_run s a in let (s2, n2) := js_run s1 b in (s2, (fst n1 ++ fst n2, snd n1 ++ snd n2)).
Proof.
  induction a as [|o a IH]; intros b s; cbn [app js_run].
  - destruct (js_run s b) as [s2 [x y]]. reflexivity.
  - destruct (js_step s o) as [s1 n1]. rewrite IH. destruct (js_run s1 a) as [s2 n2]. destruct (js_run s2 b) as [s3 n3]. cbn [fst snd].
    now rewrite !app_assoc.
Qed.

Lemma js_run_snoc a o s : js_run s (a ++ [o]) =
  let (s1, n1) := js_run s a in let (s2, n2) := js_step s1 o in (s2, (fst n1 ++ fst n2, snd n1 ++ snd n2)).
Proof.
  rewrite js_run_app. destruct (js_run s a) as [s1 n1]. cbn [js_run]. destruct (js_step s1 o) as [s2 n2]. cbn [fst snd]. now rewrite !app_nil_r.
Qed.

Lemma opened_prefix a b : opened_alone (a ++ b) -> opened_alone a.
Proof. intros H pre r x post ->. apply (H pre r x (post ++ b)). now rewrite <- app_assoc. Qed.

Definition kind (t : task) : option (bool * gostring) :=
  match t with AtNonce u r _ | AtGas u r _ _ | AtSend u r _ _ | AtWait u r _ _ => Some (u, r) | Over => None end.
Definition dest_of (t : task) : option (option gostring) :=
  match t with AtGas true _ _ d | AtSend true _ _ d | AtWait true _ _ d => Some d | _ => None end.
Definition amount_of (t : task) : Z := match t with AtNonce _ _ a | AtGas _ _ a _ | AtSend _ _ a _ | AtWait _ _ a _ => a | Over => 0 end.

Definition tinv (out : list (gostring * chan)) (ts : list task) : Prop := forall i t, nth_error ts i = Some t -> forall u r, kind t = Some (u, r) ->
  if u then exists c, aget bytes_eqb out r = Some c /\ (forall d, dest_of t = Some d -> d = Some (c_addr c))
  else aget bytes_eqb out r = None /\ forall j t' u', nth_error ts j = Some t' -> kind t' = Some (u', r) -> j = i.

(** Replacing a task by one of the same kind. *)
Lemma tinv_same out ts i t t' : tinv out ts -> nth_error ts i = Some t -> (kind t' = None \/ kind t' = kind t) ->
  (forall c d r, kind t' = Some (true, r) -> aget bytes_eqb out r = Some c -> (forall d, dest_of t = Some d -> d = Some (c_addr c)) -> dest_of t' = Some d -> d = Some (c_addr c)) ->
  tinv out (set_nth ts i t').
Proof.
  intros H Ht K D j tj. rewrite nth_error_set. destruct (Nat.eqb_spec i j) as [<-|N].
  - rewrite Ht. intros E u r Ku. injection E as <-. destruct K as [K|K]; [congruence|]. pose proof (H i t Ht u r ltac:(congruence)) as Q.
    destruct u.
    + destruct Q as (c & C1 & C2). exists c. split; [exact C1|]. intros d Hd. exact (D c d r Ku C1 C2 Hd).
    + destruct Q as [Q1 Q2]. split; [exact Q1|]. intros j t'' u' Hj Kj. rewrite nth_error_set in Hj. destruct (Nat.eqb_spec i j) as [<-|N]; [reflexivity|].
      exact (Q2 j t'' u' Hj Kj).
  - intros E u r Ku. pose proof (H j tj E u r Ku) as Q. destruct u; [exact Q|]. destruct Q as [Q1 Q2]. split; [exact Q1|].
    intros k t'' u' Hk Kk. rewrite nth_error_set in Hk. destruct (Nat.eqb_spec i k) as [<-|N2].
    + rewrite Ht in Hk. injection Hk as <-. destruct K as [K|K]; [congruence|]. exact (Q2 i t u' Ht ltac:(congruence)).
    + exact (Q2 k t'' u' Hk Kk).
Qed.

(** The task ends and the channel to its recipient is (still) there. *)
Lemma tinv_put out ts i t u r c' : tinv out ts -> nth_error ts i = Some t -> kind t = Some (u, r) ->
  (forall c, aget bytes_eqb out r = Some c -> c_addr c' = c_addr c) -> tinv (aset bytes_eqb out r c') (set_nth ts i Over).
Proof.
  intros H Ht K A j tj. rewrite nth_error_set. destruct (Nat.eqb_spec i j) as [<-|N].
  - rewrite Ht. intros E u' r' K'. injection E as <-. discriminate K'.
  - intros E u' r' K'. pose proof (H j tj E u' r' K') as Q. rewrite (aget_aset bytes_eqb bytes_eqb_eq). destruct u'.
    + destruct Q as (c & C1 & C2). destruct (bytes_eqb_spec r' r) as [->|Nr].
      * exists c'. split; [reflexivity|]. intros d Hd. rewrite (A c C1). exact (C2 d Hd).
      * exists c. split; [exact C1|exact C2].
    + destruct Q as [Q1 Q2]. destruct (bytes_eqb_spec r' r) as [->|Nr].
      * exfalso. apply N. exact (Q2 i t u Ht K).
      * split; [exact Q1|]. intros k t'' u'' Hk Kk. rewrite nth_error_set in Hk. destruct (Nat.eqb_spec i k) as [<-|N2].
        -- rewrite Ht in Hk. injection Hk as <-. discriminate Kk.
        -- exact (Q2 k t'' u'' Hk Kk).
Qed.

(** The manager pays: channels keep their addresses. *)
Lemma tinv_pay out ts r c c' : tinv out ts -> aget bytes_eqb out r = Some c -> c_addr c' = c_addr c -> tinv (aset bytes_eqb out r c') ts.
Proof.
  intros H G A j tj E u' r' K'. pose proof (H j tj E u' r' K') as Q. rewrite (aget_aset bytes_eqb bytes_eqb_eq). destruct u'.
  - destruct Q as (c0 & C1 & C2). destruct (bytes_eqb_spec r' r) as [->|Nr]; [|exists c0; split; assumption].
    exists c'. split; [reflexivity|]. intros d Hd. rewrite A. rewrite G in C1. injection C1 as <-. exact (C2 d Hd).
  - destruct Q as [Q1 Q2]. destruct (bytes_eqb_spec r' r) as [->|Nr]; [congruence|]. split; assumption.
Qed.

Lemma busy_none r s : busy r s = false -> forall j t u, nth_error (j_tasks s) j = Some t -> kind t = Some (u, r) -> False.
Proof.
  intros B j t u Hj K. unfold busy in B. apply nth_error_In in Hj.
  assert (X : existsb (for_recipient r) (j_tasks s) = true); [|congruence].
  apply existsb_exists. exists t. split; [exact Hj|]. destruct t; cbn in K; try discriminate K; injection K as -> ->; apply bytes_eqb_refl.
Qed.

Lemma tinv_start s r a : tinv (j_out s) (j_tasks s) -> (aget bytes_eqb (j_out s) r = None -> busy r s = false) ->
  tinv (j_out (js_topup s r a)) (j_tasks (js_topup s r a)).
Proof.
  intros H B. unfold js_topup. cbn [j_out j_tasks]. intros j tj E u' r' K'.
  destruct (Nat.ltb_spec j (length (j_tasks s))) as [L|L].
  - rewrite nth_error_app1 in E by exact L. pose proof (H j tj E u' r' K') as Q. destruct u'; [exact Q|]. destruct Q as [Q1 Q2]. split; [exact Q1|].
    intros k t'' u'' Hk Kk. destruct (Nat.ltb_spec k (length (j_tasks s))) as [L2|L2].
    + rewrite nth_error_app1 in Hk by exact L2. exact (Q2 k t'' u'' Hk Kk).
    + rewrite nth_error_app2 in Hk by exact L2. destruct (k - length (j_tasks s))%nat; [|destruct n; discriminate Hk]. cbn in Hk. injection Hk as <-.
      cbn [kind] in Kk. injection Kk as _ ->. exfalso. exact (busy_none r' s (B Q1) j tj false E K').
  - rewrite nth_error_app2 in E by exact L. destruct (j - length (j_tasks s))%nat eqn:D; [|destruct n; discriminate E]. cbn in E. injection E as <-.
    cbn [kind] in K'. destruct (aget bytes_eqb (j_out s) r) as [c|] eqn:G; injection K' as <- <-.
    + exists c. split; [exact G|]. intros d Hd. discriminate Hd.
    + split; [exact G|]. intros k t'' u'' Hk Kk. destruct (Nat.ltb_spec k (length (j_tasks s))) as [L2|L2].
      * rewrite nth_error_app1 in Hk by exact L2. exfalso. exact (busy_none r s (B eq_refl) k t'' u'' Hk Kk).
      * assert (K1 : (k < length (j_tasks s ++ [AtNonce false r a]))%nat) by (apply nth_error_Some; congruence).
        rewrite app_length in K1. cbn [length] in K1. lia.
Qed.

Lemma js_pay_same out r k a sg own : (forall c, aget bytes_eqb out r = Some c -> 0 <= l_nonce (get_lane c k) < 2 ^ 53) ->
  Pay (Mgr own out []) r k a sg = (Mgr own (fst (js_pay out r k a sg)) [], snd (js_pay out r k a sg)).
Proof.
  intros H. unfold Pay, js_pay. cbn [m_out m_addr m_in]. destruct (aget bytes_eqb out r) as [c|]; [|reflexivity]. specialize (H c eq_refl).
  destruct (c_balance c <? c_redeemed c + a); [reflexivity|]. destruct (sg _); [|reflexivity]. cbn [fst snd].
  assert (E : incr64 (l_nonce (get_lane c k)) = js_incr (l_nonce (get_lane c k))); [|now rewrite E].
  unfold incr64, js_incr. destruct (Z.ltb_spec (l_nonce (get_lane c k)) (2 ^ 53)); [|lia]. apply Z.mod_small. lia.
Qed.

Lemma js_pay_tinv out ts r k a sg : tinv out ts -> tinv (fst (js_pay out r k a sg)) ts.
Proof.
  intros H. unfold js_pay. destruct (aget bytes_eqb out r) as [c|] eqn:G; [|exact H]. destruct (c_balance c <? c_redeemed c + a); [exact H|].
  destruct (sg _); cbn [fst]; (eapply tinv_pay; [exact H|exact G|reflexivity]).
Qed.

Definition sinv (own : gostring) (s : jsmgr) (es : list payer_ev) : Prop :=
  payer_run (NewMgr own) (map call_of es) = (Mgr own (j_out s) [], es) /\ tinv (j_out s) (j_tasks s).

Lemma sinv_ev own out (ts ts' : list task) es e m' : payer_run (NewMgr own) (map call_of es) = (Mgr own out [], es) ->
  payer_step (Mgr own out []) (call_of e) = (Mgr own m' [], e) -> tinv m' ts' -> sinv own (JsMgr m' ts') (es ++ [e]).
Proof.
  intros H S T. split; [|exact T]. rewrite map_app, payer_run_app, H. cbn [map payer_run]. rewrite S. reflexivity.
Qed.

Lemma payer_step_addr m o : m_addr (fst (payer_step m o)) = m_addr m /\ m_in (fst (payer_step m o)) = m_in m.
Proof.
  destruct o as [r a t|r k a sg]; cbn [payer_step]; unfold Topup, Pay; destruct (aget bytes_eqb (m_out m) r) as [c|]; cbn [fst].
  - destruct t; split; reflexivity.
  - destruct t as [|[x|]]; split; reflexivity.
  - destruct (_ <? _); [split; reflexivity|]. destruct (sg _); split; reflexivity.
  - split; reflexivity.
Qed.

Lemma sinv_step own s es o : sinv own s es -> Z.of_nat (length es) < 2 ^ 53 ->
  (forall r a, o = JTopup r a -> aget bytes_eqb (j_out s) r = None -> busy r s = false) ->
  sinv own (fst (js_step s o)) (es ++ fst (snd (js_step s o))).
Proof.
  intros [H T] L B. destruct s as [out ts]. cbn [j_out j_tasks] in *.
  assert (Thr : forall i t r a, nth_error ts i = Some t -> sinv own (JsMgr out (set_nth ts i Over)) (es ++ [ETopup r a TxRefused false])).
  { intros i t r a Ht. apply (sinv_ev own out ts); [exact H| |].
    - cbn [call_of payer_step]. unfold Topup. destruct (aget bytes_eqb _ r); reflexivity.
    - apply (tinv_same _ _ _ t); [exact T|exact Ht|left; reflexivity|intros; discriminate]. }
  assert (Nop : sinv own (JsMgr out ts) (es ++ [])) by (rewrite app_nil_r; split; assumption).
  destruct o as [r k a sg|r a|i n|i ok|i ok|i w]; cbn [js_step].
  - assert (Q : forall c, aget bytes_eqb out r = Some c -> 0 <= l_nonce (get_lane c k) < 2 ^ 53).
    { intros c G. pose proof (pinv_run (map call_of es) _ _ (pinv_new own) r) as P. rewrite H in P. cbn [fst snd m_out app] in P. rewrite G in P.
      destruct P as (_ & _ & _ & P). destruct (P k) as (P1 & _). rewrite P1.
      assert (Le : (length (issued r k es) <= length es)%nat).
      { clear. induction es as [|e es IH]; [cbn; lia|]. unfold issued in *. cbn [flat_map]. rewrite app_length. destruct e as [| ? ? ? ? p]; [cbn; lia|].
        destruct p; [cbn; lia..|]. destruct (_ && _); cbn; lia. }
      rewrite Z.mod_small by lia. lia. }
    pose proof (js_pay_same out r k a sg own Q) as E. pose proof (js_pay_tinv out ts r k a sg T) as T'. cbn [j_out j_tasks].
    destruct (js_pay out r k a sg) as [out' p]. cbn [fst snd] in *. apply (sinv_ev own out ts); [exact H| |exact T'].
    cbn [call_of payer_step]. rewrite E. reflexivity.
  - cbn [fst snd]. rewrite app_nil_r. split; [exact H|]. apply tinv_start; [exact T|exact (B r a eq_refl)].
  - cbn [j_tasks]. destruct (nth_error ts i) as [[u r a| | | |]|] eqn:Ht; try exact Nop. unfold js_nonce. cbn [j_out]. destruct u.
    + unfold goes_to. cbn [fst snd j_out j_tasks]. rewrite app_nil_r. split; [exact H|]. cbn [j_out j_tasks]. apply (tinv_same _ _ _ _ _ T Ht); [right; reflexivity|].
      intros c d r0 K G _ D. injection K as <-. rewrite G in D. cbn in D. congruence.
    + destruct n as [z|]; [|apply (Thr i _ r a Ht)]. destruct (z =? 0); [apply (Thr i _ r a Ht)|]. unfold goes_to. cbn [fst snd j_out j_tasks]. rewrite app_nil_r.
      split; [exact H|]. apply (tinv_same _ _ _ _ _ T Ht); [right; reflexivity|]. intros c d r0 K; discriminate K.
  - cbn [j_tasks]. destruct (nth_error ts i) as [[| u r a d| | |]|] eqn:Ht; try exact Nop. destruct ok; [|apply (Thr i _ r a Ht)].
    unfold goes_to. cbn [fst snd j_out j_tasks]. rewrite app_nil_r. split; [exact H|]. apply (tinv_same _ _ _ _ _ T Ht); [right; reflexivity|].
    intros c d0 r0 K _ G D. cbn in K. injection K as -> _. exact (G d0 D).
  - cbn [j_tasks]. destruct (nth_error ts i) as [[| | u r a d| |]|] eqn:Ht; try exact Nop. destruct ok; [|apply (Thr i _ r a Ht)].
    unfold goes_to. cbn [fst snd j_out j_tasks]. rewrite app_nil_r. split; [exact H|]. apply (tinv_same _ _ _ _ _ T Ht); [right; reflexivity|].
    intros c d0 r0 K _ G D. cbn in K. injection K as -> _. exact (G d0 D).
  - cbn [j_tasks]. destruct (nth_error ts i) as [[| | | u r a d|]|] eqn:Ht; try exact Nop. pose proof (T i _ Ht u r eq_refl) as Q. destruct u.
    + unfold js_update_done. cbn [j_out j_tasks]. destruct (w_reply w) as [x|]; [|apply (Thr i _ r a Ht)]. destruct Q as (c & G & _). rewrite G. cbn [fst snd].
      apply (sinv_ev own out ts); [exact H| |].
      * cbn [call_of payer_step]. unfold Topup. cbn [m_out]. rewrite G. reflexivity.
      * eapply tinv_put; [exact T|exact Ht|reflexivity|]. intros c0 G0. cbn [c_addr]. congruence.
    + unfold js_create_done. cbn [j_out j_tasks]. destruct (w_reply w) as [[x|]|]; [|apply (Thr i _ r a Ht)..]. destruct Q as (G & _). cbn [fst snd].
      apply (sinv_ev own out ts); [exact H| |].
      * cbn [call_of payer_step]. unfold Topup. cbn [m_out]. rewrite G. reflexivity.
      * eapply tinv_put; [exact T|exact Ht|reflexivity|]. intros c0 G0. congruence.
Qed.

Lemma step_events s o : (length (fst (snd (js_step s o))) <= 1)%nat.
Proof.
  destruct o as [r k a sg|r a|i n|i ok|i ok|i w]; cbn [js_step].
  - destruct (js_pay _ _ _ _ _). cbn. lia.
  - cbn. lia.
  - destruct (nth_error _ _) as [[[] ? ?| | | |]|]; cbn; try lia. destruct n; cbn; [|lia]. destruct (_ =? 0); cbn; lia.
  - destruct (nth_error _ _) as [[| | | |]|]; cbn; try lia. destruct ok; cbn; lia.
  - destruct (nth_error _ _) as [[| | | |]|]; cbn; try lia. destruct ok; cbn; lia.
  - destruct (nth_error _ _) as [[| | |u r a d|]|]; cbn; try lia. destruct u; unfold js_update_done, js_create_done.
    + destruct (w_reply w); [destruct (aget _ _ _)|]; cbn; lia.
    + destruct (w_reply w) as [[|]|]; cbn; lia.
Qed.

Lemma run_events os : forall s, (length (fst (snd (js_run s os))) <= length os)%nat.
Proof.
  induction os as [|o os IH]; intros s; cbn [js_run]; [cbn; lia|]. pose proof (step_events s o) as E. destruct (js_step s o) as [s1 n1].
  specialize (IH s1). destruct (js_run s1 os) as [s2 n2]. cbn [fst snd] in *. rewrite app_length. cbn [length]. lia.
Qed.

Lemma sinv_run own os : opened_alone os -> Z.of_nat (length os) <= 2 ^ 53 -> sinv own (fst (js_run NewJsMgr os)) (js_results os).
Proof.
  unfold js_results. induction os as [|o os IH] using rev_ind; intros A L.
  - split; [reflexivity|]. intros i t E. destruct i; discriminate E.
  - rewrite app_length in L. cbn [length] in L. specialize (IH (opened_prefix _ _ A) ltac:(lia)). pose proof (run_events os NewJsMgr) as R.
    rewrite js_run_snoc. pose proof (fun r a E => A os r a [] (f_equal (fun x => os ++ [x]) E)) as B. cbv zeta in B.
    destruct (js_run NewJsMgr os) as [s1 [es1 ms1]]. cbn [fst snd] in *. pose proof (sinv_step own s1 es1 o IH ltac:(lia) B) as S.
    destruct (js_step s1 o) as [s2 [es2 ms2]]. exact S.
Qed.

Theorem js_as_go own os : opened_alone os -> Z.of_nat (length os) <= 2 ^ 53 ->
  payer_run (NewMgr own) (map call_of (js_results os)) = (Mgr own (j_out (fst (js_run NewJsMgr os))) [], js_results os).
Proof. intros A L. exact (proj1 (sinv_run own os A L)). Qed.

(** ** Amounts *)
Definition ev_amount (e : payer_ev) : Z := match e with ETopup _ a _ _ | EPay _ _ a _ _ => a end.

Lemma Forall_set_nth {A} (P : A -> Prop) l : forall i x, Forall P l -> P x -> Forall P (set_nth l i x).
Proof. induction l as [|y l IH]; intros [|i] x H Hx; cbn; auto; inversion H; subst; constructor; auto. Qed.

Lemma nonneg_step s o : Forall (fun t => 0 <= amount_of t) (j_tasks s) -> match o with JPay _ _ a _ | JTopup _ a => 0 <= a | _ => True end ->
  Forall (fun t => 0 <= amount_of t) (j_tasks (fst (js_step s o))) /\ Forall (fun e => 0 <= ev_amount e) (fst (snd (js_step s o))) /\
  Forall (fun m => 0 <= mv_amount m) (snd (snd (js_step s o))).
Proof.
  intros H Ho. assert (T : forall i t, nth_error (j_tasks s) i = Some t -> 0 <= amount_of t).
  { intros i t Ht. rewrite Forall_forall in H. apply H. eapply nth_error_In, Ht. }
  assert (N : Forall (fun t => 0 <= amount_of t) (j_tasks s) /\ Forall (fun e => 0 <= ev_amount e) [] /\ Forall (fun m => 0 <= mv_amount m) []) by auto.
  destruct o as [r k a sg|r a|i n|i ok|i ok|i w]; cbn [js_step].
  - destruct (js_pay _ _ _ _ _). cbn [fst snd j_tasks]. auto.
  - cbn [fst snd js_topup j_tasks]. split; [|auto]. apply Forall_app. split; [exact H|]. constructor; [exact Ho|constructor].
  - destruct (nth_error _ _) as [[u r a| | | |]|] eqn:E; try exact N. apply T in E. cbn [amount_of] in E.
    destruct u; cbn [js_nonce]; [|destruct n as [z|]; [destruct (z =? 0)|]]; unfold goes_to, thrown; cbn [fst snd j_tasks]; (split; [apply Forall_set_nth; cbn; auto; lia|auto]).
  - destruct (nth_error _ _) as [[|u r a d| | |]|] eqn:E; try exact N. apply T in E. cbn [amount_of] in E.
    destruct ok; unfold goes_to, thrown; cbn [fst snd j_tasks]; (split; [apply Forall_set_nth; cbn; auto; lia|auto]).
  - destruct (nth_error _ _) as [[| |u r a d| |]|] eqn:E; try exact N. apply T in E. cbn [amount_of] in E.
    destruct ok; unfold goes_to, thrown; cbn [fst snd j_tasks]; (split; [apply Forall_set_nth; cbn; auto; lia|auto]).
  - destruct (nth_error _ _) as [[| | |u r a d|]|] eqn:E; try exact N. apply T in E. cbn [amount_of] in E.
    destruct u; unfold js_update_done, js_create_done.
    + destruct (w_reply w); [destruct (aget _ _ _)|]; cbn [fst snd j_tasks]; (split; [apply Forall_set_nth; cbn; auto; lia|auto]).
    + destruct (w_reply w) as [[|]|]; cbn [fst snd j_tasks]; (split; [apply Forall_set_nth; cbn; auto; lia|auto]).
Qed.

Lemma nonneg_run os : js_nonneg os -> Forall (fun t => 0 <= amount_of t) (j_tasks (fst (js_run NewJsMgr os))) /\
  Forall (fun e => 0 <= ev_amount e) (js_results os) /\ Forall (fun m => 0 <= mv_amount m) (js_moved os).
Proof.
  unfold js_results, js_moved. induction os as [|o os IH] using rev_ind; intros H; [cbn; auto|].
  apply Forall_app in H as [H Ho]. inversion Ho; subst. specialize (IH H). rewrite js_run_snoc. destruct (js_run NewJsMgr os) as [s1 [es1 ms1]]. cbn [fst snd] in *.
  destruct IH as (A & B & C). pose proof (nonneg_step s1 o A ltac:(assumption)) as S. destruct (js_step s1 o) as [s2 [es2 ms2]]. cbn [fst snd] in *.
  destruct S as (S1 & S2 & S3). split; [exact S1|]. split; apply Forall_app; split; assumption.
Qed.

Lemma nonneg_calls os : js_nonneg os -> nonneg_ops (map call_of (js_results os)).
Proof.
  intros H. destruct (nonneg_run os H) as (_ & B & _). unfold nonneg_ops. apply Forall_map. eapply Forall_impl; [|exact B].
  intros [] E; exact E.
Qed.

(** ** Money on the chain *)
Lemma deposits_app ch a b : deposits ch (a ++ b) = deposits ch a + deposits ch b.
Proof. unfold deposits. rewrite flat_map_app. apply zsum_app. Qed.

Lemma deposits_nonneg ch ms : Forall (fun m => 0 <= mv_amount m) ms -> 0 <= deposits ch ms.
Proof.
  intros H. induction H as [|m ms Hm _ IH]; [cbn; lia|]. change (m :: ms) with ([m] ++ ms). rewrite deposits_app.
  assert (0 <= deposits ch [m]); [|lia]. unfold deposits. cbn [flat_map]. rewrite app_nil_r. destruct (w_done _); [|cbn; lia].
  destruct (mv_target m) as [x|]; [|cbn; lia]. destruct (bytes_eqb x ch); cbn; lia.
Qed.

Definition cov (out : list (gostring * chan)) (ms : list moved) : Prop := forall r c, aget bytes_eqb out r = Some c -> c_balance c <= deposits (c_addr c) ms.

Lemma cov_more out a b : cov out a -> Forall (fun m => 0 <= mv_amount m) b -> cov out (a ++ b).
Proof. intros H Hb r c G. rewrite deposits_app. specialize (H r c G). pose proof (deposits_nonneg (c_addr c) b Hb). lia. Qed.

Lemma js_pay_keeps out r k a sg r' c' : aget bytes_eqb (fst (js_pay out r k a sg)) r' = Some c' ->
  exists c, aget bytes_eqb out r' = Some c /\ c_addr c' = c_addr c /\ c_balance c' = c_balance c.
Proof.
  unfold js_pay. destruct (aget bytes_eqb out r) as [c|] eqn:G; [|intros H; exists c'; auto].
  destruct (c_balance c <? c_redeemed c + a); [intros H; exists c'; auto|].
  destruct (sg _); cbn [fst]; rewrite (aget_aset bytes_eqb bytes_eqb_eq); (destruct (bytes_eqb_spec r' r) as [->|N]; [|intros H; exists c'; auto]);
    intros H; injection H as <-; exists c; auto.
Qed.

Lemma cov_step s o ms : cov (j_out s) ms -> Forall (fun m => 0 <= mv_amount m) ms -> tinv (j_out s) (j_tasks s) -> Forall (fun t => 0 <= amount_of t) (j_tasks s) ->
  match o with JPay _ _ a _ | JTopup _ a => 0 <= a | _ => True end ->
  Forall truthful (snd (snd (js_step s o))) -> Forall went_through (snd (snd (js_step s o))) -> cov (j_out (fst (js_step s o))) (ms ++ snd (snd (js_step s o))).
Proof.
  intros C NN T NT No HT HW. pose proof (nonneg_step s o NT No) as (_ & _ & NM). destruct s as [out ts]. cbn [j_out j_tasks] in *.
  destruct o as [r k a sg|r a|i n|i ok|i ok|i w]; cbn [js_step] in *.
  - pose proof (js_pay_keeps out r k a sg) as P. cbn [j_out]. destruct (js_pay out r k a sg) as [out' p]. cbn [fst snd j_out] in *. rewrite app_nil_r.
    intros r' c' G. destruct (P r' c' G) as (c & G' & E1 & E2). rewrite E1, E2. exact (C r' c G').
  - cbn [fst snd js_topup j_out]. rewrite app_nil_r. exact C.
  - cbn [j_tasks] in *. destruct (nth_error ts i) as [[u r a| | | |]|]; cbn [fst snd j_out]; rewrite ?app_nil_r; try exact C.
    destruct u; cbn [js_nonce]; [|destruct n as [z|]; [destruct (z =? 0)|]]; unfold goes_to, thrown; cbn [fst snd j_out]; rewrite ?app_nil_r; exact C.
  - cbn [j_tasks] in *. destruct (nth_error ts i) as [[| | | |]|]; cbn [fst snd j_out]; rewrite ?app_nil_r; try exact C.
    destruct ok; unfold goes_to, thrown; cbn [fst snd j_out]; rewrite ?app_nil_r; exact C.
  - cbn [j_tasks] in *. destruct (nth_error ts i) as [[| | | |]|]; cbn [fst snd j_out]; rewrite ?app_nil_r; try exact C.
    destruct ok; unfold goes_to, thrown; cbn [fst snd j_out]; rewrite ?app_nil_r; exact C.
  - cbn [j_tasks] in *. destruct (nth_error ts i) as [[| | |u r a d|]|] eqn:Ht; cbn [fst snd j_out]; rewrite ?app_nil_r; try exact C.
    pose proof (T i _ Ht u r eq_refl) as Q. destruct u; unfold js_update_done, js_create_done in *; cbn [j_out j_tasks] in *.
    + destruct Q as (c & G & D). specialize (D d eq_refl). rewrite G in *. destruct (w_reply w) as [x|] eqn:W; cbn [fst snd j_out] in *.
      * intros r' c' G'. rewrite deposits_app. rewrite (aget_aset bytes_eqb bytes_eqb_eq) in G'. pose proof (deposits_nonneg (c_addr c') _ NM) as DN.
        destruct (bytes_eqb_spec r' r) as [->|N]; [|specialize (C r' c' G'); lia]. injection G' as <-. cbn [c_addr c_balance] in *.
        specialize (C r c G). inversion HW as [|m l W1 _]; subst. specialize (W1 eq_refl). cbn [mv_wait] in W1. rewrite W in W1. specialize (W1 ltac:(discriminate)).
        unfold deposits at 2. cbn [flat_map mv_wait]. rewrite W1. unfold mv_target. cbn [mv_upd mv_dest mv_amount]. rewrite bytes_eqb_refl. cbn [app]. rewrite zsum1. lia.
      * apply cov_more; assumption.
    + destruct (w_reply w) as [[x|]|] eqn:W; cbn [fst snd j_out] in *; [|apply cov_more; assumption..].
      intros r' c' G'. rewrite deposits_app. rewrite (aget_aset bytes_eqb bytes_eqb_eq) in G'. pose proof (deposits_nonneg (c_addr c') _ NM) as DN.
      destruct (bytes_eqb_spec r' r) as [->|N]; [|specialize (C r' c' G'); lia]. injection G' as <-. cbn [c_addr c_balance] in *.
      inversion HT as [|m l W1 _]; subst. destruct (W1 x W eq_refl) as [W2 W3]. cbn [mv_wait] in W2, W3.
      assert (E : deposits x [Moved false d a w] = a).
      { unfold deposits. cbn [flat_map mv_wait]. rewrite W2. unfold mv_target. cbn [mv_upd mv_dest mv_wait mv_amount]. rewrite W3, bytes_eqb_refl. apply zsum1. }
      rewrite E.
      pose proof (deposits_nonneg x ms NN). lia.
Qed.

Lemma cov_run os : opened_alone os -> Z.of_nat (length os) <= 2 ^ 53 -> js_nonneg os -> Forall truthful (js_moved os) -> Forall went_through (js_moved os) ->
  cov (j_out (fst (js_run NewJsMgr os))) (js_moved os).
Proof.
  induction os as [|o os IH] using rev_ind; intros A L N HT HW; [intros r c G; discriminate G|].
  pose proof (sinv_run [] os (opened_prefix _ _ A)) as S. unfold js_moved in *. unfold js_results in S. rewrite app_length in L. cbn [length] in L. specialize (S ltac:(lia)).
  apply Forall_app in N as [N No]. inversion No; subst. pose proof (nonneg_run os N) as (N1 & _ & N2). unfold js_moved in N2.
  rewrite js_run_snoc in *. specialize (IH (opened_prefix _ _ A) ltac:(lia) N).
  destruct (js_run NewJsMgr os) as [s1 [es1 ms1]]. cbn [fst snd] in *. pose proof (cov_step s1 o ms1) as C.
  destruct (js_step s1 o) as [s2 [es2 ms2]]. cbn [fst snd] in *. apply Forall_app in HT as [HT HT']. apply Forall_app in HW as [HW HW'].
  apply C; auto. exact (proj2 S).
Qed.

Theorem js_covered_pf os r ch : opened_alone os -> Z.of_nat (length os) <= 2 ^ 53 -> js_nonneg os -> Forall truthful (js_moved os) -> Forall went_through (js_moved os) ->
  channel_of r (js_results os) = Some ch -> funded r (js_results os) <= deposits ch (js_moved os).
Proof.
  intros A L N HT HW H. pose proof (cov_run os A L N HT HW) as C. pose proof (js_as_go [] os A L) as G.
  pose proof (pinv_run (map call_of (js_results os)) _ _ (pinv_new []) r) as P. rewrite G in P. cbn [fst snd m_out app] in P.
  destruct (aget bytes_eqb (j_out (fst (js_run NewJsMgr os))) r) as [c|] eqn:E.
  - destruct P as (P1 & P2 & _). rewrite H in P1. injection P1 as ->. rewrite <- P2. exact (C r c E).
  - destruct P as (P1 & _). congruence.
Qed.

(** ** What Go's theorems give *)
Section Received.
  Variable verify : gostring -> voucher -> option bytes -> bool.

  Theorem js_received_pf own from os r ch bs calls : opened_alone os -> Z.of_nat (length os) <= 2 ^ 53 ->
    (forall r k a sg, In (JPay r k a sg) os -> forall b s, sg b = Some s -> verify from b (Some s) = true) ->
    Forall (fun p => 0 < fst p) (payments r (js_results os)) -> channel_of r (js_results os) = Some ch ->
    StronglySorted Z.le bs -> Forall2 Z.le (funded_when r 0 (js_results os)) bs ->
    calls_on ch calls = map (fun p => ORecv ch (Some (snd (fst p))) (Some (ChainState (snd p) (Account own) (Account from)))) (combine (payments r (js_results os)) bs) ->
    results_on ch (snd (recv_run verify (NewMgr own) calls)) = map (fun p => Credited (fst p)) (payments r (js_results os)).
  Proof.
    intros A L S. pose proof (js_as_go [] os A L) as G. pose proof (pay_receive_agree_pf verify [] own from (map call_of (js_results os)) r ch bs calls) as P.
    rewrite G in P. cbn [snd] in P. intros H1 H2 H3 H4 H5. apply P; try assumption. intros r0 k a sg I. apply (S r0 k a sg).
    clear - I. apply in_map_iff in I as (e & E & I). destruct e as [|r1 k1 a1 sg1 p]; [discriminate E|]. cbn [call_of] in E. injection E as <- <- <- <-.
    revert I. unfold js_results. generalize NewJsMgr. induction os as [|o os IH]; intros s I; [destruct I|]. cbn [js_run] in I.
    destruct (js_step s o) as [s1 n1] eqn:E. destruct (js_run s1 os) as [s2 n2] eqn:R. cbn [fst snd] in I. apply in_app_or in I as [I|I].
    - left. destruct o as [r k a sg|r a|i n|i ok|i ok|i w]; cbn [js_step] in E.
      + destruct (js_pay _ _ _ _ _). injection E as <- <-. destruct I as [I|[]]. injection I as <- <- <- <- <-. reflexivity.
      + injection E as <- <-. destruct I.
      + exfalso. destruct (nth_error _ _) as [[[] ? ?| | | |]|]; [|destruct n as [z|]; [destruct (z =? 0) eqn:Z|]|..]; cbn [js_nonce] in E; rewrite ?Z in E;
          unfold goes_to, thrown in E; injection E as <- <-; cbn in I; (destruct I as [I|I]; [discriminate I|destruct I]) || destruct I.
      + exfalso. destruct (nth_error _ _) as [[| | | |]|]; [|destruct ok|..]; unfold goes_to, thrown in E; injection E as <- <-; cbn in I;
          (destruct I as [I|I]; [discriminate I|destruct I]) || destruct I.
      + exfalso. destruct (nth_error _ _) as [[| | | |]|]; [| |destruct ok|..]; unfold goes_to, thrown in E; injection E as <- <-; cbn in I;
          (destruct I as [I|I]; [discriminate I|destruct I]) || destruct I.
      + exfalso. destruct (nth_error _ _) as [[| | |[] r a d|]|]; unfold js_update_done, js_create_done in E;
          [| | |destruct (w_reply w); [destruct (aget _ _ _)|]|destruct (w_reply w) as [[|]|]|..]; injection E as <- <-; cbn in I;
          (destruct I as [I|I]; [discriminate I|destruct I]) || destruct I.
    - right. specialize (IH s1). rewrite R in IH. exact (IH I).
  Qed.
End Received.

(** ** Searches *)
Lemma js_search_short s address target k price cfg sg : snd (js_pay (j_out s) address k price sg) = NeedTopup ->
  js_search_pay s address target k price cfg sg = (js_topup s target cfg, NeedTopup).
Proof.
  intros H. unfold js_search_pay.
  assert (E : js_pay (j_out s) address k price sg = (j_out s, NeedTopup)).
  { revert H. unfold js_pay. destruct (aget bytes_eqb (j_out s) address) as [c|]; [|reflexivity]. destruct (_ <? _); [reflexivity|]. destruct (sg _); discriminate. }
  rewrite E. destruct s as [out ts]. cbn [js_topup j_out j_tasks] in *. rewrite E. reflexivity.
Qed.

Definition only (P : gostring -> Prop) (s : jsmgr) : Prop :=
  (forall r c, aget bytes_eqb (j_out s) r = Some c -> P r) /\ (forall t u r, In t (j_tasks s) -> kind t = Some (u, r) -> P r).

Lemma only_task (P : gostring -> Prop) s out i t u r : only P s -> nth_error (j_tasks s) i = Some t -> kind t = Some (u, r) ->
  (forall r' c, aget bytes_eqb out r' = Some c -> r' = r \/ exists c', aget bytes_eqb (j_out s) r' = Some c') ->
  forall t', (kind t' = None \/ kind t' = kind t) -> only P (JsMgr out (set_nth (j_tasks s) i t')).
Proof.
  intros [A B] Ht K O t' K'. assert (Pr : P r) by (eapply B; [eapply nth_error_In, Ht|exact K]). split; cbn [j_out j_tasks].
  - intros r' c G. destruct (O r' c G) as [->|[c' G']]; [exact Pr|exact (A r' c' G')].
  - intros t0 u0 r0 I K0. apply In_nth_error in I as [j Hj]. rewrite nth_error_set in Hj. destruct (Nat.eqb_spec i j) as [E|N].
    + rewrite <- E, Ht in Hj. injection Hj as <-. destruct K' as [K'|K']; [congruence|]. rewrite K', K in K0. injection K0 as <- <-. exact Pr.
    + exact (B t0 u0 r0 (nth_error_In _ _ Hj) K0).
Qed.

Lemma only_answer P s o : only P s -> match o with JPay _ _ _ _ | JTopup _ _ => False | _ => True end -> only P (fst (js_step s o)).
Proof.
  intros O Ho. assert (Keep : forall r r' c, aget bytes_eqb (j_out s) r' = Some c -> r' = r \/ exists c', aget bytes_eqb (j_out s) r' = Some c') by (intros; right; eauto).
  assert (Put : forall r c0 r' c, aget bytes_eqb (aset bytes_eqb (j_out s) r c0) r' = Some c -> r' = r \/ exists c', aget bytes_eqb (j_out s) r' = Some c').
  { intros r c0 r' c. rewrite (aget_aset bytes_eqb bytes_eqb_eq). destruct (bytes_eqb_spec r' r); eauto. }
  destruct o as [r k a sg|r a|i n|i ok|i ok|i w]; [destruct Ho|destruct Ho|..]; cbn [js_step].
  - destruct (nth_error _ _) as [[u r a| | | |]|] eqn:Ht; try exact O.
    destruct u; cbn [js_nonce]; [|destruct n as [z|]; [destruct (z =? 0)|]]; unfold goes_to, thrown; cbn [fst];
      (eapply only_task; [exact O|exact Ht|reflexivity|apply Keep|cbn; auto]).
  - destruct (nth_error _ _) as [[|u r a d| | |]|] eqn:Ht; try exact O.
    destruct ok; unfold goes_to, thrown; cbn [fst]; (eapply only_task; [exact O|exact Ht|reflexivity|apply Keep|cbn; auto]).
  - destruct (nth_error _ _) as [[| |u r a d| |]|] eqn:Ht; try exact O.
    destruct ok; unfold goes_to, thrown; cbn [fst]; (eapply only_task; [exact O|exact Ht|reflexivity|apply Keep|cbn; auto]).
  - destruct (nth_error _ _) as [[| | |u r a d|]|] eqn:Ht; try exact O. destruct u; unfold js_update_done, js_create_done.
    + destruct (w_reply w); [destruct (aget _ _ _)|]; cbn [fst];
        (eapply only_task; [exact O|exact Ht|reflexivity|first [apply Keep|apply Put]|cbn; auto]).
    + destruct (w_reply w) as [[|]|]; cbn [fst];
        (eapply only_task; [exact O|exact Ht|reflexivity|first [apply Keep|apply Put]|cbn; auto]).
Qed.

Theorem js_never_paid_pf (P : gostring -> Prop) cs : forall s, only P s ->
  (forall a n p c sg, In (Search a n p c sg) cs -> ~ P a /\ P n) -> Forall (fun r => r = NeedTopup) (snd (js_client_run s cs)).
Proof.
  induction cs as [|c cs IH]; intros s O H; cbn [js_client_run]; [constructor|].
  assert (S : only P (fst (js_client_step s c)) /\ Forall (fun r => r = NeedTopup) (snd (js_client_step s c))).
  { destruct c as [a n p cf sg|i n|i ok|i ok|i w]; cbn [js_client_step].
    - destruct (H a n p cf sg (or_introl eq_refl)) as [Na Pn]. rewrite js_search_short.
      + cbn [fst snd]. split; [|constructor; [reflexivity|constructor]]. split; cbn [js_topup j_out j_tasks]; [exact (proj1 O)|].
        intros t u r I K. apply in_app_or in I as [I|[<-|[]]]; [exact (proj2 O t u r I K)|]. cbn [kind] in K. injection K as _ <-. exact Pn.
      + unfold js_pay. destruct (aget bytes_eqb (j_out s) a) as [x|] eqn:G; [|reflexivity]. destruct (Na (proj1 O a x G)).
    - split; [apply only_answer; [exact O|exact I]|constructor].
    - split; [apply only_answer; [exact O|exact I]|constructor].
    - split; [apply only_answer; [exact O|exact I]|constructor].
    - split; [apply only_answer; [exact O|exact I]|constructor]. }
  destruct (js_client_step s c) as [s1 p1]. cbn [fst snd] in S. destruct S as [S1 S2].
  specialize (IH s1 S1 (fun a n p c sg I => H a n p c sg (or_intror I))). destruct (js_client_run s1 cs) as [s2 p2]. cbn [snd] in *. apply Forall_app; split; assumption.
Qed.

(** Answers start no top-up. *)
Lemma set_nth_length {A} (l : list A) i x : length (set_nth l i x) = length l.
Proof. revert i. induction l as [|y l IH]; intros [|i]; cbn; auto. Qed.
Lemma answers_start_none s o : match o with JPay _ _ _ _ | JTopup _ _ => False | _ => True end -> length (j_tasks (fst (js_step s o))) = length (j_tasks s).
Proof.
  destruct o as [r k a sg|r a|i n|i ok|i ok|i w]; try contradiction; intros _; cbn [js_step]; destruct (nth_error (j_tasks s) i) as [[u r a|u r a d|u r a d|u r a d|]|]; try reflexivity.
  - unfold js_nonce, goes_to, thrown. destruct u; [apply set_nth_length|]. destruct n as [z|]; [destruct (z =? 0)|]; apply set_nth_length.
  - destruct ok; apply set_nth_length.
  - destruct ok; apply set_nth_length.
  - destruct u; unfold js_update_done, js_create_done.
    + destruct (w_reply w); [destruct (aget _ _ _)|]; apply set_nth_length.
    + destruct (w_reply w) as [[|]|]; apply set_nth_length.
Qed.

Theorem js_topups_started_pf cs : forall s,
  length (j_tasks (fst (js_client_run s cs))) =
    (length (j_tasks s) + length (filter (fun r => match r with NeedTopup => true | _ => false end) (snd (js_client_run s cs))))%nat \/
  exists r, In r (snd (js_client_run s cs)) /\ r <> NeedTopup.
Proof.
  induction cs as [|c cs IH]; intros s; cbn [js_client_run]; [left; cbn; lia|].
  assert (S : (length (j_tasks (fst (js_client_step s c))) =
    length (j_tasks s) + length (filter (fun r => match r with NeedTopup => true | _ => false end) (snd (js_client_step s c))))%nat \/
    exists r, In r (snd (js_client_step s c)) /\ r <> NeedTopup).
  { destruct c as [a n p cf sg|i n|i ok|i ok|i w]; cbn [js_client_step];
      try (left; cbn [fst snd filter length]; rewrite answers_start_none by exact I; lia).
    unfold js_search_pay. destruct (js_pay (j_out s) a 0 p sg) as [o1 p1]. destruct p1;
      try (right; eexists; split; [left; reflexivity|discriminate]).
    destruct (js_pay _ a 0 p sg) as [o2 p2]. destruct p2; try (right; eexists; split; [left; reflexivity|discriminate]).
    left. cbn [fst snd js_topup j_tasks filter length]. rewrite app_length. cbn [length]. lia. }
  specialize (IH (fst (js_client_step s c))). destruct (js_client_step s c) as [s1 p1]. cbn [fst snd] in *.
  destruct (js_client_run s1 cs) as [s2 p2]. cbn [fst snd] in *.
  destruct S as [S|(r & Hr & N)]; [|right; exists r; split; [apply in_or_app; left; exact Hr|exact N]].
  destruct IH as [IH|(r & Hr & N)]; [|right; exists r; split; [apply in_or_app; right; exact Hr|exact N]].
  left. rewrite filter_app, app_length. lia.
Qed.
