(** Facts about whole payment histories. *)
From Coq Require Import List ZArith Bool Lia Init.Byte ZifyBool Sorting.Sorted.
From Verif Require Import Base BaseProofs Payment PaymentSpec PaymentProofs.
Import ListNotations.
Open Scope Z_scope.

Section Payee.
  Variable verify : gostring -> voucher -> option bytes -> bool.

  Lemma recv_hist_ind own (P : mgr -> list recv_ev -> Prop) :
    P (NewMgr own) [] ->
    (forall m es o, rinv own m es -> P m es -> let (m', e) := recv_step verify m o in P m' (es ++ [e])) ->
    forall os, P (fst (recv_run verify (NewMgr own) os)) (snd (recv_run verify (NewMgr own) os)).
  Proof.
    intros H0 HS os. induction os as [|o os IH] using rev_ind; [exact H0|].
    pose proof (rinv_run verify own os _ _ (rinv_new own)) as I. rewrite recv_run_app. cbn [app] in I. cbn [recv_run].
    destruct (recv_run verify (NewMgr own) os) as [m1 e1]. cbn [fst snd] in *.
    specialize (HS m1 e1 o I IH). destruct (recv_step verify m1 o) as [m2 e2]. exact HS.
  Qed.

  (** Every event of a history, with what came before it. *)
  Lemma recv_event own os es1 ch dv rs x es2 :
    snd (recv_run verify (NewMgr own) os) = es1 ++ ERecv ch dv rs x :: es2 ->
    exists m, rinv own m es1 /\ snd (Receive verify m ch dv rs) = x.
  Proof.
    revert es2. induction os as [|o os IH] using rev_ind; intros es2 H.
    - destruct es1; discriminate.
    - pose proof (rinv_run verify own os _ _ (rinv_new own)) as I. rewrite recv_run_app in H. cbn [app] in I. cbn [recv_run] in H.
      destruct (recv_run verify (NewMgr own) os) as [m1 e1]. cbn [fst snd] in *.
      destruct o as [ch' dv' rs']. cbn [recv_step] in H. destruct (Receive verify m1 ch' dv' rs') as [m2 x'] eqn:E. cbn [snd] in H.
      destruct es2 as [|e es2 _] using rev_ind.
      + apply app_inj_tail in H as [-> H]. inversion H; subst. exists m1. rewrite E. auto.
      + rewrite app_comm_cons, app_assoc in H. apply app_inj_tail in H as [H _]. apply (IH es2). exact H.
  Qed.

  Lemma event_creditable own os es1 ch dv rs x es2 :
    snd (recv_run verify (NewMgr own) os) = es1 ++ ERecv ch dv rs (Credited x) :: es2 -> creditable verify own ch es1 dv rs x.
  Proof. intros H. destruct (recv_event _ _ _ _ _ _ _ _ H) as (m & I & E). apply (receive_iff verify own m es1 I). exact E. Qed.

  Lemma not_credited own os es1 ch dv rs x es2 :
    snd (recv_run verify (NewMgr own) os) = es1 ++ ERecv ch dv rs x :: es2 ->
    (forall p, ~ creditable verify own ch es1 dv rs p) -> x = Refused \/ x = Crashed.
  Proof.
    intros H HN. destruct (recv_event _ _ _ _ _ _ _ _ H) as (m & I & E). destruct x as [p| |]; auto.
    exfalso. apply (HN p). apply (receive_iff verify own m es1 I). exact E.
  Qed.

  Lemma credited_is_sum own os : let es := snd (recv_run verify (NewMgr own) os) in
    forall ch ks, NoDup ks -> (forall k, accepted ch k es <> [] -> In k ks) ->
    credited ch es = zsum (map (fun k => highest (map v_amount (accepted ch k es))) ks).
  Proof.
    cbv zeta. intros ch ks ND. revert os.
    refine (recv_hist_ind own (fun _ es => (forall k, accepted ch k es <> [] -> In k ks) ->
      credited ch es = zsum (map (fun k => highest (map v_amount (accepted ch k es))) ks)) _ _).
    - intros _. cbn [accepted credited flat_map]. clear ND. induction ks as [|k ks IH]; [reflexivity|]. cbn [map]. rewrite zsum_cons. unfold zsum, highest in *. cbn [fold_right map] in *. lia.
    - intros m es [ch' dv rs] I IH. cbn [recv_step]. destruct (Receive verify m ch' dv rs) as [m' x] eqn:E. intros HK.
      assert (HK' : forall k, accepted ch k es <> [] -> In k ks).
      { intros k Hk. apply HK. rewrite accepted_snoc. destruct (accepted ch k es); [contradiction|discriminate]. }
      specialize (IH HK'). rewrite credited_snoc.
      assert (HSame : (forall k, accepted ch k (es ++ [ERecv ch' dv rs x]) = accepted ch k es) -> 
         zsum (map (fun k => highest (map v_amount (accepted ch k (es ++ [ERecv ch' dv rs x])))) ks) = credited ch es).
      { intros HS. rewrite IH. f_equal. apply map_ext. intros k. rewrite HS. reflexivity. }
      destruct x as [p| |].
      2,3: (rewrite HSame; [lia|]; intros k; rewrite accepted_snoc; destruct dv; apply app_nil_r).
      destruct (bytes_eqb ch' ch) eqn:EC.
      2:{ rewrite HSame; [lia|]; intros k; rewrite accepted_snoc, EC; destruct dv; apply app_nil_r. }
      apply bytes_eqb_eq in EC. subst ch'.
      assert (HC : creditable verify own ch es dv rs p) by (apply (receive_iff verify own m es I); rewrite E; reflexivity).
      destruct HC as (sv & cs & from & -> & -> & _ & _ & _ & _ & _ & HP & HP0 & _).
      assert (HIn : In (v_lane sv) ks).
      { apply HK. rewrite accepted_snoc, bytes_eqb_refl, Z.eqb_refl. cbn [andb]. destruct (accepted ch (v_lane sv) es); discriminate. }
      rewrite IH. clear IH HSame HK HK'.
      assert (HOther : forall ks', ~ In (v_lane sv) ks' ->
         map (fun k => highest (map v_amount (accepted ch k (es ++ [ERecv ch (Some sv) (Some cs) (Credited p)])))) ks' =
         map (fun k => highest (map v_amount (accepted ch k es))) ks').
      { intros ks' Hn. apply map_ext_in. intros k Hk. rewrite accepted_snoc, bytes_eqb_refl. cbn [andb].
        destruct (Z.eqb_spec (v_lane sv) k) as [<-|]; [contradiction|]. rewrite app_nil_r. reflexivity. }
      apply in_split in HIn as (k1 & k2 & ->). apply NoDup_remove_2 in ND. rewrite in_app_iff in ND.
      rewrite !map_app, !zsum_app. cbn [map]. rewrite !zsum_cons. rewrite !HOther by tauto.
      rewrite accepted_snoc, bytes_eqb_refl, Z.eqb_refl. cbn [andb]. rewrite map_app, highest_app. cbn [map].
      change (highest [v_amount sv]) with (Z.max (v_amount sv) 0).
      pose proof (highest_nonneg (map v_amount (accepted ch (v_lane sv) es))). lia.
  Qed.

  Lemma credited_within own os es1 ch dv rs x es2 :
    snd (recv_run verify (NewMgr own) os) = es1 ++ ERecv ch dv rs (Credited x) :: es2 ->
    exists cs, rs = Some cs /\ 0 < x /\ credited ch es1 + x <= ch_balance cs /\
      forall b, In b (seen ch es1) -> b <= ch_balance cs.
  Proof.
    intros H. apply event_creditable in H as (sv & cs & from & -> & -> & _ & _ & _ & HM & _ & _ & H0 & HB). exists cs. auto.
  Qed.

  (** Replay. *)
  Lemma accepted_app ch k a b : accepted ch k (a ++ b) = accepted ch k a ++ accepted ch k b.
  Proof. apply flat_map_app. Qed.

  Lemma no_replay own os es1 ch v rs x es2 v' rs' x' es3 :
    snd (recv_run verify (NewMgr own) os) = es1 ++ ERecv ch (Some v) rs (Credited x) :: es2 ++ ERecv ch (Some v') rs' x' :: es3 ->
    v_lane v' = v_lane v -> v_amount v' <= v_amount v -> x' = Refused \/ x' = Crashed.
  Proof.
    intros H HL HA. rewrite app_comm_cons, app_assoc in H. eapply not_credited; [exact H|].
    intros p (sv & cs & from & E1 & -> & _ & _ & _ & _ & _ & HP & HP0 & _). inversion E1; subst sv.
    assert (v_amount v <= highest (map v_amount (accepted ch (v_lane v') (es1 ++ ERecv ch (Some v) rs (Credited x) :: es2)))); [|lia].
    apply (proj1 (highest_le _ _ (highest_nonneg _)) (Z.le_refl _)). apply in_map. rewrite accepted_app. apply in_or_app. right.
    unfold accepted. cbn [flat_map]. rewrite bytes_eqb_refl, HL, Z.eqb_refl. left. reflexivity.
  Qed.

  (** Nothing is credited without the channel's payer signature and the payee being its recipient. *)
  Lemma credited_authentic own os es1 ch dv rs x es2 :
    snd (recv_run verify (NewMgr own) os) = es1 ++ ERecv ch dv rs (Credited x) :: es2 ->
    exists sv cs from, dv = Some sv /\ rs = Some cs /\ ch_to cs = Account own /\ ch_from cs = Account from /\
      verify from (unsigned sv) (v_sig sv) = true.
  Proof.
    intros H. apply event_creditable in H as (sv & cs & from & H1 & H2 & H3 & H4 & H5 & _). exists sv, cs, from. auto.
  Qed.

  (** Receipts on one channel do not depend on the others. *)
  Lemma other_channel m ch dv rs ch' : ch' <> ch ->
    aget bytes_eqb (m_in (fst (Receive verify m ch dv rs))) ch' = aget bytes_eqb (m_in m) ch' /\ m_addr (fst (Receive verify m ch dv rs)) = m_addr m.
  Proof.
    intros N. unfold Receive. destruct dv as [sv|]; [|auto]. destruct rs as [cs|]; [|auto].
    destruct (aget bytes_eqb (m_in m) ch) as [c|].
    - unfold ReceiveUpdate. destruct (ch_balance cs <? c_balance c); [auto|]. destruct (ReceiveOn _ _ _ _ _) as [c' x].
      cbn [fst put_in m_in m_addr]. rewrite (aget_aset_neq bytes_eqb bytes_eqb_eq) by exact N. auto.
    - unfold ReceiveCreate. destruct (ReceiveOn _ _ _ _ _) as [c' x].
      cbn [fst put_in m_in m_addr]. rewrite (aget_aset_neq bytes_eqb bytes_eqb_eq) by exact N. auto.
  Qed.
End Payee.

(** ** Payer and payee together *)

(** Payments with the funds in the channel when each was made. *)
Lemma payments_bounded own os : let es := snd (payer_run (NewMgr own) os) in
  forall r es1 k a sg ch v es2, es = es1 ++ EPay r k a sg (Paid ch v) :: es2 ->
  zsum (map fst (payments r es1)) + a <= funded r es1 /\ channel_of r es1 = Some ch /\ v_chan v = ch /\
  v_lane v = k /\ v_sig v = sg (unsigned v) /\ v_sig v <> None /\ v_terms v = [] /\
  v_nonce v = Z.of_nat (length (issued r k es1)) mod 2 ^ 64 /\ v_amount v = zsum (map fst (issued r k es1)) + a.
Proof.
  cbv zeta. induction os as [|o os IH] using rev_ind; intros r es1 k a sg ch v es2 H.
  - destruct es1; discriminate.
  - pose proof (hist_inv own os) as I. rewrite payer_run_app in H. cbn [payer_run] in H.
    destruct (payer_run (NewMgr own) os) as [m1 e1]. cbn [fst snd] in *.
    destruct (payer_step m1 o) as [m2 e] eqn:E. cbn [snd] in H.
    destruct es2 as [|e' es2 _] using rev_ind.
    + apply app_inj_tail in H as [-> ->]. destruct o as [r' b t|r' k' b sg']; cbn [payer_step] in E.
      { destruct (Topup m1 r' b t). discriminate. }
      destruct (Pay m1 r' k' b sg') as [m3 p] eqn:EP. inversion E; subst. clear E.
      unfold Pay in EP. specialize (I r). destruct (aget bytes_eqb (m_out m1) r) as [c|]; [|discriminate].
      destruct (c_balance c <? c_redeemed c + a) eqn:HB; [discriminate|]. destruct I as (J1 & J2 & J3 & J4). destruct (J4 k) as (L1 & L2 & _).
      destruct (sg _) as [s|] eqn:ES; [|discriminate]. inversion EP; subst. cbn [v_chan v_lane v_sig v_terms v_nonce v_amount].
      unfold unsigned. cbn [v_chan v_lane v_sig v_terms v_nonce v_amount]. rewrite ES. repeat split; auto; try lia; try discriminate.
    + rewrite app_comm_cons, app_assoc in H. apply app_inj_tail in H as [H _]. apply (IH r es1 k a sg ch v es2). exact H.
Qed.

Definition on_lane (k : Z) (ps : list (Z * voucher)) : list (Z * voucher) := filter (fun p => v_lane (snd p) =? k) ps.

Lemma on_lane_app k a b : on_lane k (a ++ b) = on_lane k a ++ on_lane k b.
Proof. apply filter_app. Qed.

Lemma issued_on_lane own os r k : let es := snd (payer_run (NewMgr own) os) in
  issued r k es = on_lane k (payments r es).
Proof.
  cbv zeta. pose proof (payments_bounded own os) as HB. cbv zeta in HB.
  set (es := snd (payer_run (NewMgr own) os)) in *. clearbody es.
  assert (HL : forall r k a sg ch v, In (EPay r k a sg (Paid ch v)) es -> v_lane v = k).
  { intros r0 k0 a sg ch v Hin. apply in_split in Hin as (e1 & e2 & Hs). destruct (HB r0 e1 k0 a sg ch v e2 Hs) as (_ & _ & _ & H & _). exact H. }
  clear HB. induction es as [|e es IH]; [reflexivity|]. unfold issued, payments in *. cbn [flat_map]. rewrite on_lane_app, <- IH.
  2:{ intros. eapply HL. right. eassumption. }
  f_equal. destruct e as [|r' k' a sg [| |ch v]]; try reflexivity. destruct (bytes_eqb r' r); [|reflexivity]. cbn [andb].
  assert (v_lane v = k') as <- by (eapply HL; left; reflexivity).
  unfold on_lane. cbn [filter snd]. destruct (v_lane v =? k); reflexivity.
Qed.

(** A list of payments as a payer makes them. *)
Definition well_paid (ch : gostring) (ok : voucher -> Prop) (ps : list (Z * voucher)) (fs : list Z) : Prop :=
  length fs = length ps /\
  forall i a v f, nth_error ps i = Some (a, v) -> nth_error fs i = Some f ->
    let p1 := firstn i ps in
    zsum (map fst p1) + a <= f /\ v_chan v = ch /\ ok v /\
    v_nonce v = Z.of_nat (length (on_lane (v_lane v) p1)) mod 2 ^ 64 /\
    v_amount v = zsum (map fst (on_lane (v_lane v) p1)) + a.

Lemma funded_when_snoc r e : forall es acc, funded_when r acc (es ++ [e]) = funded_when r acc es ++
  match e with EPay r' _ _ _ (Paid _ _) => if bytes_eqb r' r then [acc + funded r es] else [] | _ => [] end.
Proof.
  assert (HF : forall e0 es, funded r (e0 :: es) = match e0 with ETopup r' a _ true => if bytes_eqb r' r then a else 0 | _ => 0 end + funded r es).
  { intros e0 es. unfold funded. cbn [flat_map]. rewrite zsum_app. f_equal. destruct e0 as [r' a t []|]; try reflexivity. destruct (bytes_eqb r' r); cbn; lia. }
  induction es as [|e0 es IH]; intros acc; cbn [app].
  - cbn [funded_when funded flat_map]. destruct e as [r' a t []|r' k a sg [| |ch v]]; try reflexivity.
    destruct (bytes_eqb r' r); cbn; [|reflexivity]. rewrite Z.add_0_r. reflexivity.
  - rewrite HF. cbn [funded_when]. destruct e0 as [r' a t []|r' k a sg [| |ch v]]; try (rewrite Z.add_0_l; apply IH).
    + rewrite IH. replace (acc + ((if bytes_eqb r' r then a else 0) + funded r es)) with ((if bytes_eqb r' r then acc + a else acc) + funded r es) by (destruct (bytes_eqb r' r); lia).
      reflexivity.
    + rewrite Z.add_0_l. destruct (bytes_eqb r' r); rewrite IH; reflexivity.
Qed.

Lemma funded_when_length r es : forall acc, length (funded_when r acc es) = length (payments r es).
Proof.
  induction es as [|e es IH]; intros acc; [reflexivity|]. unfold payments in *. cbn [funded_when flat_map].
  destruct e as [r' a t []|r' k a sg [| |ch v]]; try apply IH. destruct (bytes_eqb r' r); cbn [app length]; [f_equal|]; apply IH.
Qed.

Lemma payer_well_paid own os r ch (verify : gostring -> voucher -> option bytes -> bool) from :
  (forall r k a sg, In (OPay r k a sg) os -> forall b s, sg b = Some s -> verify from b (Some s) = true) ->
  let es := snd (payer_run (NewMgr own) os) in channel_of r es = Some ch ->
  well_paid ch (fun v => verify from (unsigned v) (v_sig v) = true) (payments r es) (funded_when r 0 es).
Proof.
  intros HV. cbv zeta. revert ch. induction os as [|o os IH] using rev_ind; intros ch HC; [discriminate|].
  assert (HV1 : forall r k a sg, In (OPay r k a sg) os -> forall b s, sg b = Some s -> verify from b (Some s) = true)
    by (intros; eapply HV; [apply in_or_app; left; eassumption|eassumption]).
  specialize (IH HV1). pose proof (payments_bounded own (os ++ [o])) as HB. cbv zeta in HB.
  pose proof (issued_on_lane own os r) as HI. cbv zeta in HI.
  rewrite payer_run_app in *. cbn [payer_run] in *.
  destruct (payer_run (NewMgr own) os) as [m1 e1]. cbn [fst snd] in *.
  destruct (payer_step m1 o) as [m2 e] eqn:E. cbn [snd] in *.
  rewrite payments_snoc, funded_when_snoc. rewrite channel_snoc in HC.
  assert (HOld : well_paid ch (fun v => verify from (unsigned v) (v_sig v) = true) (payments r e1) (funded_when r 0 e1)).
  { destruct (channel_of r e1) as [ch1|] eqn:HC1; [inversion HC; subst; apply IH; reflexivity|].
    assert (HP : payments r e1 = []).
    { destruct (payments r e1) as [|[a v] ps] eqn:EP; [reflexivity|]. exfalso.
      assert (Hin : In (a, v) (payments r e1)) by (rewrite EP; left; reflexivity).
      unfold payments in Hin. apply in_flat_map in Hin as (e0 & He & Hx). destruct e0 as [|r' k a' sg [| |ch' v']]; try destruct Hx.
      destruct (bytes_eqb_spec r' r) as [->|]; [|destruct Hx]. destruct Hx as [Hx|[]]. inversion Hx; subst.
      apply in_split in He as (x1 & x2 & Hs). destruct (HB r x1 k a sg ch' v (x2 ++ [e])) as (_ & HC2 & _).
      { rewrite Hs, <- app_assoc. reflexivity. }
      rewrite Hs in HC1. clear - HC1 HC2. induction x1 as [|y x1 IHx]; [discriminate|]. cbn [app channel_of] in *.
      destruct y as [r' ? [|[]] []|]; auto. destruct (bytes_eqb r' r); auto. discriminate. }
    split; [rewrite funded_when_length; reflexivity|]. rewrite HP. intros [|i] a v f Hi; discriminate. }
  destruct e as [r' a t ok|r' k a sg p]; [rewrite !app_nil_r; exact HOld|].
  destruct p as [| |ch' v]; try (rewrite !app_nil_r; exact HOld).
  destruct (bytes_eqb_spec r' r) as [->|]; [|rewrite !app_nil_r; exact HOld].
  destruct (HB r e1 k a sg ch' v [] eq_refl) as (B1 & B2 & B3 & B4 & B5 & B6 & B7 & B8 & B9).
  rewrite B2 in HC. inversion HC; subst ch'. subst k.
  destruct HOld as [HLen HOld]. split; [rewrite !app_length, HLen; reflexivity|].
  intros i b u f Hi Hf. destruct (Nat.lt_ge_cases i (length (payments r e1))) as [Hlt|Hge].
  - rewrite nth_error_app1 in Hi by lia. rewrite nth_error_app1 in Hf by lia. cbv zeta. rewrite firstn_app_le by lia. apply HOld; assumption.
  - rewrite nth_error_app2 in Hi by lia. rewrite nth_error_app2 in Hf by lia.
    destruct (i - length (payments r e1))%nat as [|[|]] eqn:Hd; try discriminate.
    assert (i = length (payments r e1)) as -> by lia. inversion Hi; subst b u. rewrite HLen, Nat.sub_diag in Hf. inversion Hf; subst f.
    cbv zeta. rewrite firstn_app_le, firstn_all by lia. rewrite <- HI. repeat split; auto.
    destruct o as [|r' k' a' sg']; cbn [payer_step] in E; [destruct (Topup m1 r0 a0 t); discriminate|].
    destruct (Pay m1 r' k' a' sg') as [? ?]. inversion E; subst.
    rewrite B5. destruct (sg (unsigned v)) as [s|] eqn:ES; [|congruence].
    eapply HV; [apply in_or_app; right; left; reflexivity|exact ES].
Qed.

Section Deliver.
  Variables (verify : gostring -> voucher -> option bytes -> bool) (own from ch : gostring).
  Variables (ps : list (Z * voucher)) (fs : list Z).
  Hypothesis WP : well_paid ch (fun v => verify from (unsigned v) (v_sig v) = true) ps fs.
  Hypothesis POS : Forall (fun p => 0 < fst p) ps.

  Definition dstate (n : nat) (bs : list Z) (m : mgr) : Prop :=
    m_addr m = own /\
    match aget bytes_eqb (m_in m) ch with
    | None => n = O
    | Some c => c_redeemed c = zsum (map fst (firstn n ps)) /\
        (forall k, l_nonce (get_lane c k) = Z.of_nat (length (on_lane k (firstn n ps))) mod 2 ^ 64 /\
                   l_redeemed (get_lane c k) = zsum (map fst (on_lane k (firstn n ps)))) /\
        Forall (fun b => c_balance c <= b) bs
    end.

  Lemma firstn_snoc {A} (l : list A) n x : nth_error l n = Some x -> firstn (S n) l = firstn n l ++ [x].
  Proof.
    revert n. induction l as [|y l IH]; intros [|n] H; try discriminate.
    - inversion H. reflexivity.
    - cbn [nth_error] in H. change (y :: firstn (S n) l = y :: (firstn n l ++ [x])). f_equal. apply IH. exact H.
  Qed.

  Lemma deliver_one n b bs m a v f : dstate n (b :: bs) m -> Forall (fun b' => b <= b') bs ->
    nth_error ps n = Some (a, v) -> nth_error fs n = Some f -> f <= b ->
    exists m', Receive verify m ch (Some v) (Some (ChainState b (Account own) (Account from))) = (m', Credited a) /\ dstate (S n) bs m'.
  Proof.
    intros (HO & HS) Hbs Hn Hf Hfb. destruct WP as [_ W]. destruct (W n a v f Hn Hf) as (W1 & W2 & W3 & W4 & W5).
    assert (Ha : 0 < a) by (apply nth_error_In in Hn; rewrite Forall_forall in POS; exact (POS _ Hn)).
    assert (HOn : forall c0, c_balance c0 = b -> c_redeemed c0 = zsum (map fst (firstn n ps)) ->
      (forall k, l_nonce (get_lane c0 k) = Z.of_nat (length (on_lane k (firstn n ps))) mod 2 ^ 64 /\
                   l_redeemed (get_lane c0 k) = zsum (map fst (on_lane k (firstn n ps)))) ->
      exists c', ReceiveOn verify (m_addr m) c0 v (ChainState b (Account own) (Account from)) = (c', Credited a) /\ dstate (S n) bs (put_in m ch c')).
    { intros c0 HB HR HL. destruct (HL (v_lane v)) as [L1 L2].
      destruct (receive_on_accepts verify (m_addr m) c0 v (ChainState b (Account own) (Account from)) from) as [c' EC]; cbn [ch_to ch_from]; auto; try congruence; try lia.
      exists c'. replace (v_amount v - l_redeemed (get_lane c0 (v_lane v))) with a in EC by lia. split; [exact EC|].
      apply receive_on_spec in EC as (_ & EB & _ & _ & _ & _ & _ & ER & EG).
      split; [exact HO|]. cbn [m_in put_in]. rewrite (aget_aset_eq bytes_eqb bytes_eqb_eq). rewrite (firstn_snoc _ _ _ Hn).
      split; [rewrite map_app, zsum_app; cbn [map fst]; rewrite zsum1; lia|]. split; [|rewrite EB, HB; exact Hbs].
      intros k. rewrite EG, on_lane_app. unfold on_lane at 2 4. cbn [filter snd]. rewrite (Z.eqb_sym (v_lane v) k).
      destruct (Z.eqb_spec k (v_lane v)) as [->|]; [|rewrite app_nil_r; apply HL].
      cbn [l_nonce l_redeemed]. rewrite app_length, map_app, zsum_app. cbn [map fst length]. rewrite zsum1, Nat.add_1_r, W4, incr64_succ. auto. }
    unfold Receive. destruct (aget bytes_eqb (m_in m) ch) as [c|].
    - destruct HS as (H1 & H2 & H3). inversion H3; subst. unfold ReceiveUpdate. cbn [ch_balance].
      replace (b <? c_balance c) with false by lia.
      destruct (HOn (Chan (c_addr c) b (c_redeemed c) (c_lanes c)) eq_refl H1 H2) as (c' & -> & HD). eexists. split; [reflexivity|exact HD].
    - subst n. unfold ReceiveCreate. cbn [ch_balance].
      destruct (HOn (Chan ch b 0 []) eq_refl eq_refl) as (c' & -> & HD); [intros k; split; reflexivity|]. eexists. split; [reflexivity|exact HD].
  Qed.

  Lemma deliver_all : forall os n bs m, dstate n bs m -> StronglySorted Z.le bs ->
    Forall2 Z.le (skipn n fs) bs ->
    calls_on ch os = map (fun p => ORecv ch (Some (snd (fst p))) (Some (ChainState (snd p) (Account own) (Account from)))) (combine (skipn n ps) bs) ->
    results_on ch (snd (recv_run verify m os)) = map (fun p => Credited (fst p)) (skipn n ps).
  Proof.
    induction os as [|[ch' dv rs] os IH]; intros n bs m HD HS HF HC.
    - cbn. destruct (skipn n ps) eqn:EP; [reflexivity|]. exfalso.
      destruct WP as [HL _]. assert (HL' : length (skipn n fs) = length (skipn n ps)) by (rewrite !skipn_length; lia).
      rewrite EP in *. destruct (skipn n fs); [discriminate|]. inversion HF; subst. discriminate.
    - cbn [recv_run recv_step]. destruct (Receive verify m ch' dv rs) as [m' x] eqn:E.
      specialize (IH) as IH'. cbn [calls_on filter] in HC. destruct (bytes_eqb_spec ch' ch) as [->|N].
      + destruct WP as [HL _]. assert (HL' : length (skipn n fs) = length (skipn n ps)) by (rewrite !skipn_length; lia).
        destruct (skipn n ps) as [|[a v] ps'] eqn:EP; [discriminate|].
        destruct (skipn n fs) as [|f fs'] eqn:EF; [discriminate|]. inversion HF as [|? b ? bs' Hfb HF']; subst bs. subst.
        cbn [combine map snd fst] in HC. inversion HC; subst dv rs. inversion HS; subst.
        assert (HN : forall {A} (l l' : list A) y, skipn n l = y :: l' -> nth_error l n = Some y /\ skipn (S n) l = l').
        { intros A l. clear. revert n. induction l as [|z l IHl]; intros [|n] l' y Hx; cbn in *; try discriminate; [inversion Hx; auto|]. apply IHl. exact Hx. }
        destruct (HN _ _ _ _ EP) as [Hn1 Hn2]. destruct (HN _ _ _ _ EF) as [Hf1 Hf2].
        destruct (deliver_one n b bs' m a v f HD) as (m2 & E2 & HD2); auto.
        rewrite E2 in E. inversion E; subst m2 x.
        specialize (IH (S n) bs' m' HD2). rewrite Hn2, Hf2 in IH.
        destruct (recv_run verify m' os) as [m3 es]. cbn [snd] in *. unfold results_on in *. cbn [flat_map]. rewrite bytes_eqb_refl. cbn [app map fst].
        f_equal. apply IH; auto.
      + pose proof (other_channel verify m ch' dv rs ch (fun H => N (eq_sym H))) as [O1 O2]. rewrite E in O1, O2. cbn [fst] in *.
        assert (HD2 : dstate n bs m') by (unfold dstate in *; rewrite O1, O2; exact HD).
        specialize (IH n bs m' HD2 HS HF HC). destruct (recv_run verify m' os) as [m3 es]. cbn [snd] in *.
        unfold results_on in *. cbn [flat_map]. apply bytes_eqb_neq in N. rewrite N. exact IH.
  Qed.
End Deliver.

Lemma pay_receive_agree_pf verify payer own from os r ch bs ops2 :
  let es := snd (payer_run (NewMgr payer) os) in
  (forall r k a sg, In (OPay r k a sg) os -> forall b s, sg b = Some s -> verify from b (Some s) = true) ->
  Forall (fun p => 0 < fst p) (payments r es) ->
  channel_of r es = Some ch ->
  StronglySorted Z.le bs -> Forall2 Z.le (funded_when r 0 es) bs ->
  calls_on ch ops2 = map (fun p => ORecv ch (Some (snd (fst p))) (Some (ChainState (snd p) (Account own) (Account from)))) (combine (payments r es) bs) ->
  results_on ch (snd (recv_run verify (NewMgr own) ops2)) = map (fun p => Credited (fst p)) (payments r es).
Proof.
  cbv zeta. intros HV HP HC HS HF HO.
  apply (deliver_all verify own from ch (payments r (snd (payer_run (NewMgr payer) os))) (funded_when r 0 (snd (payer_run (NewMgr payer) os))) (payer_well_paid payer os r ch verify from HV HC) HP ops2 0 bs); auto.
  split; [reflexivity|]. reflexivity.
Qed.

(** ** topupAndPay *)
Definition pays (r : gostring) (k a : Z) (sg : voucher -> option bytes) (e : payer_ev) (res : result (gostring * voucher)) : Prop :=
  match res with
  | OkR (ch, v) => e = EPay r k a sg (Paid ch v)
  | ErrR => match e with EPay _ _ _ _ (Paid _ _) => False | _ => True end
  end.

Lemma topup_and_pay_runs m r k a cfg t1 t2 sg m' res :
  topupAndPay m r k a cfg t1 t2 sg = (m', res) ->
  exists n es e, (n = 1 \/ n = 2 \/ n = 3 \/ n = 4)%nat /\
    payer_run m (firstn n [OTopup r cfg t1; OPay r k a sg; OTopup r cfg t2; OPay r k a sg]) = (m', es ++ [e]) /\
    pays r k a sg e res /\
    match e with ETopup _ _ _ ok => ok = false | EPay _ _ _ _ NeedTopup => n = 4%nat | _ => True end /\
    (forall ch v, In (EPay r k a sg (Paid ch v)) es -> False) /\
    (In (EPay r k a sg PayError) es -> False).
Proof.
  unfold topupAndPay. destruct (Topup m r cfg t1) as [m1 ok1] eqn:T1. destruct ok1; cbn [negb].
  2:{ intros H; inversion H; subst. exists 1%nat, [], (ETopup r cfg t1 false). cbn [firstn payer_run payer_step]. rewrite T1. cbn; intuition. }
  destruct (Pay m1 r k a sg) as [m2 p] eqn:P1. destruct p as [| |ch v].
  2:{ intros H; inversion H; subst. exists 2%nat, [ETopup r cfg t1 true], (EPay r k a sg PayError). cbn [firstn payer_run payer_step]. rewrite T1, P1. cbn; intuition discriminate. }
  2:{ intros H; inversion H; subst. exists 2%nat, [ETopup r cfg t1 true], (EPay r k a sg (Paid ch v)). cbn [firstn payer_run payer_step]. rewrite T1, P1. cbn; intuition discriminate. }
  destruct (Topup m2 r cfg t2) as [m3 ok2] eqn:T2. destruct ok2; cbn [negb].
  2:{ intros H; inversion H; subst. exists 3%nat, [ETopup r cfg t1 true; EPay r k a sg NeedTopup], (ETopup r cfg t2 false). cbn [firstn payer_run payer_step]. rewrite T1, P1, T2. cbn; intuition discriminate. }
  destruct (Pay m3 r k a sg) as [m4 p2] eqn:P2. intros H.
  exists 4%nat, [ETopup r cfg t1 true; EPay r k a sg NeedTopup; ETopup r cfg t2 true], (EPay r k a sg p2). cbn [firstn payer_run payer_step]. rewrite T1, P1, T2, P2.
  destruct p2; inversion H; subst; cbn; intuition discriminate.
Qed.

Lemma payments_app r a b : payments r (a ++ b) = payments r a ++ payments r b.
Proof. apply flat_map_app. Qed.
Lemma issued_app r k a b : issued r k (a ++ b) = issued r k a ++ issued r k b.
Proof. apply flat_map_app. Qed.
Lemma funded_app r a b : funded r (a ++ b) = funded r a + funded r b.
Proof. unfold funded. rewrite flat_map_app, zsum_app. reflexivity. Qed.

Lemma topup_and_pay_value own os r k a cfg t1 t2 sg m' ch v :
  let m := fst (payer_run (NewMgr own) os) in let es := snd (payer_run (NewMgr own) os) in
  topupAndPay m r k a cfg t1 t2 sg = (m', OkR (ch, v)) ->
  v_chan v = ch /\ v_lane v = k /\ v_sig v = sg (unsigned v) /\ v_sig v <> None /\
  v_amount v = zsum (map fst (issued r k es)) + a /\
  v_nonce v = Z.of_nat (length (issued r k es)) mod 2 ^ 64.
Proof.
  cbv zeta. intros H. pose proof (topup_and_pay_runs _ _ _ _ _ _ _ _ _ _ H) as (n & es' & e & Hn & HR & HP & _ & Hno & _). cbn [pays] in HP. subst e.
  set (ops := firstn n [OTopup r cfg t1; OPay r k a sg; OTopup r cfg t2; OPay r k a sg]) in *.
  pose proof (payments_bounded own (os ++ ops)) as HB. cbv zeta in HB. rewrite payer_run_app in HB.
  destruct (payer_run (NewMgr own) os) as [m es]. cbn [fst snd] in *. rewrite HR in HB. cbn [snd] in HB.
  rewrite app_assoc in HB. destruct (HB r (es ++ es') k a sg ch v [] eq_refl) as (_ & _ & B3 & B4 & B5 & B6 & B7 & B8 & B9).
  assert (HI : issued r k es' = []).
  { destruct (issued r k es') as [|x l] eqn:EI; [reflexivity|]. exfalso.
    assert (Hin : In x (issued r k es')) by (rewrite EI; left; reflexivity). clear EI.
    unfold issued in Hin. apply in_flat_map in Hin as (e & He & Hx). destruct e as [|r' k' a' sg' [| |ch' v']]; try destruct Hx.
    assert (HE : EPay r' k' a' sg' (Paid ch' v') = EPay r k a sg (Paid ch' v')).
    { assert (Hsnd : In (EPay r' k' a' sg' (Paid ch' v')) (snd (payer_run m ops))) by (rewrite HR; apply in_or_app; left; exact He).
      clear - Hsnd Hn. assert (HG : forall os m0 e, In e (snd (payer_run m0 os)) -> exists o m1, In o os /\ snd (payer_step m1 o) = e).
      { induction os as [|o os IH]; intros m0 e0; [intros []|]. cbn [payer_run]. destruct (payer_step m0 o) as [m1 e1] eqn:E1.
        specialize (IH m1 e0). destruct (payer_run m1 os) as [m2 es2]. cbn [snd] in *. intros [<-|Hin].
        - exists o, m0. rewrite E1. split; [left|]; reflexivity.
        - destruct (IH Hin) as (o' & m3 & ? & ?). exists o', m3. split; [right|]; assumption. }
      apply HG in Hsnd as (o & m1 & Ho & He).
      assert (Ho' : o = OTopup r cfg t1 \/ o = OTopup r cfg t2 \/ o = OPay r k a sg).
      { subst ops. assert (Hin : In o [OTopup r cfg t1; OPay r k a sg; OTopup r cfg t2; OPay r k a sg]).
        { rewrite <- (firstn_skipn n). apply in_or_app. left. exact Ho. }
        cbn [In] in Hin. intuition. }
      destruct Ho' as [->|[->| ->]]; cbn [payer_step] in He.
      - destruct (Topup m1 r cfg t1); discriminate.
      - destruct (Topup m1 r cfg t2); discriminate.
      - destruct (Pay m1 r k a sg). inversion He; subst. reflexivity. }
    rewrite HE in He. exact (Hno _ _ He). }
  rewrite issued_app, HI, app_nil_r in *. auto 10.
Qed.
