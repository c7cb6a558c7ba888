(** Proofs about the payment manager. *)
From Coq Require Import List ZArith Bool Lia Init.Byte ZifyBool Sorting.Sorted.
From Verif Require Import Base BaseProofs Payment PaymentSpec.
Import ListNotations.
Open Scope Z_scope.

Lemma zsum_app a b : zsum (a ++ b) = zsum a + zsum b.
Proof. induction a as [|x a IH]; cbn [zsum fold_right app] in *; [reflexivity|]. unfold zsum in *. lia. Qed.

Lemma zsum_cons a l : zsum (a :: l) = a + zsum l.
Proof. reflexivity. Qed.
Lemma zsum1 a : zsum [a] = a.
Proof. cbn. lia. Qed.

Lemma highest_nonneg l : 0 <= highest l.
Proof. induction l; cbn; unfold highest in *; lia. Qed.

Lemma highest_app a b : highest (a ++ b) = Z.max (highest a) (highest b).
Proof. induction a as [|x a IH]; cbn [highest fold_right app]; [pose proof (highest_nonneg b); unfold highest in *; lia|]. unfold highest in *. lia. Qed.

Lemma highest_le l c : 0 <= c -> (highest l <= c <-> forall x, In x l -> x <= c).
Proof.
  intros Hc. induction l as [|y l IH].
  - cbn. intuition lia.
  - change (highest (y :: l)) with (Z.max y (highest l)). cbn [In]. split.
    + intros H x [->|Hx]; [lia|]. apply IH; [lia|assumption].
    + intros H. assert (highest l <= c) by (apply IH; auto). specialize (H y (or_introl eq_refl)). lia.
Qed.

Lemma zeqb_eq : forall a b, Z.eqb a b = true <-> a = b.
Proof. exact Z.eqb_eq. Qed.

Lemma get_lane_set (a : gostring) b c ls k l k' :
  get_lane (Chan a b c (aset Z.eqb ls k l)) k' = if k' =? k then l else get_lane (Chan a b c ls) k'.
Proof.
  unfold get_lane. cbn [c_lanes]. rewrite (aget_aset Z.eqb zeqb_eq). destruct (k' =? k); reflexivity.
Qed.

Lemma get_lane_ext a b c ls a' b' c' k : get_lane (Chan a b c ls) k = get_lane (Chan a' b' c' ls) k.
Proof. reflexivity. Qed.

(** ** Payer *)
Lemma funded_snoc r es e : funded r (es ++ [e]) = funded r es +
  match e with ETopup r' a _ true => if bytes_eqb r' r then a else 0 | _ => 0 end.
Proof.
  unfold funded. rewrite flat_map_app, zsum_app. f_equal. cbn [flat_map].
  destruct e as [r' a t []|r' k a sg p]; try reflexivity. destruct (bytes_eqb r' r); cbn; lia.
Qed.
Lemma payments_snoc r es e : payments r (es ++ [e]) = payments r es ++
  match e with EPay r' _ a _ (Paid _ v) => if bytes_eqb r' r then [(a, v)] else [] | _ => [] end.
Proof. unfold payments. rewrite flat_map_app. f_equal. cbn [flat_map]. rewrite app_nil_r. reflexivity. Qed.
Lemma issued_snoc r k es e : issued r k (es ++ [e]) = issued r k es ++
  match e with EPay r' k' a _ (Paid _ v) => if bytes_eqb r' r && (k' =? k) then [(a, v)] else [] | _ => [] end.
Proof. unfold issued. rewrite flat_map_app. f_equal. cbn [flat_map]. rewrite app_nil_r. reflexivity. Qed.
Lemma channel_snoc r es e : channel_of r (es ++ [e]) =
  match channel_of r es with Some a => Some a | None => channel_of r [e] end.
Proof.
  induction es as [|x es IH]; cbn [app]; [reflexivity|]. cbn [channel_of] in *.
  destruct x as [r' a [|[ret|]] []|]; try apply IH. destruct (bytes_eqb r' r); [reflexivity|apply IH].
Qed.

Definition lane_inv (l : lane) (ps : list (Z * voucher)) : Prop :=
  l_nonce l = Z.of_nat (length ps) mod 2 ^ 64 /\ l_redeemed l = zsum (map fst ps) /\ l_vouchers l = map snd ps.

Definition pinv (m : mgr) (es : list payer_ev) : Prop := forall r,
  match aget bytes_eqb (m_out m) r with
  | None => channel_of r es = None /\ funded r es = 0 /\ payments r es = [] /\ forall k, issued r k es = []
  | Some c => channel_of r es = Some (c_addr c) /\ c_balance c = funded r es /\
      c_redeemed c = zsum (map fst (payments r es)) /\ forall k, lane_inv (get_lane c k) (issued r k es)
  end.

Local Opaque lane_inv.
Lemma pinv_new a : pinv (NewMgr a) [].
Proof. intros r. cbn. auto. Qed.

Lemma incr64_succ n : incr64 (Z.of_nat n mod 2 ^ 64) = Z.of_nat (S n) mod 2 ^ 64.
Proof. unfold incr64. rewrite Zplus_mod_idemp_l. f_equal. lia. Qed.

Lemma pinv_step m es o : pinv m es -> let (m', e) := payer_step m o in pinv m' (es ++ [e]).
Proof.
  intros I. destruct o as [r a t|r k a sg]; cbn [payer_step].
  - unfold Topup. pose proof (I r) as Ir. destruct (aget bytes_eqb (m_out m) r) as [c|] eqn:G.
    + destruct t as [|ret]; cbn [TopupAdd].
      * intros r'. specialize (I r'). rewrite funded_snoc, payments_snoc, channel_snoc.
        destruct (aget bytes_eqb (m_out m) r') as [c'|]; rewrite !app_nil_r, ?Z.add_0_r.
        -- destruct I as (I1 & I2 & I3 & I4). rewrite I1. repeat split; auto; intros; rewrite issued_snoc, app_nil_r; apply I4.
        -- destruct I as (I1 & I2 & I3 & I4). rewrite I1. repeat split; auto; intros; rewrite issued_snoc, app_nil_r; auto.
      * intros r'. specialize (I r'). cbn [m_out]. rewrite (aget_aset bytes_eqb bytes_eqb_eq), funded_snoc, payments_snoc, channel_snoc, (bytes_eqb_sym r' r), app_nil_r.
        destruct (bytes_eqb_spec r r') as [<-|N].
        -- destruct Ir as (I1 & I2 & I3 & I4). rewrite I1. cbn [c_addr c_balance c_redeemed]. repeat split; auto; try lia;
             intros; rewrite issued_snoc, app_nil_r; apply I4.
        -- rewrite Z.add_0_r. destruct (aget bytes_eqb (m_out m) r') as [c'|]; destruct I as (I1 & I2 & I3 & I4); rewrite I1.
           ++ repeat split; auto; intros; rewrite issued_snoc, app_nil_r; apply I4.
           ++ repeat split; auto; [|intros; rewrite issued_snoc, app_nil_r; apply I4].
              cbn [channel_of]. destruct ret; [|reflexivity]. apply bytes_eqb_neq in N. rewrite N. reflexivity.
    + assert (Hsame : forall ok, ok = false -> pinv m (es ++ [ETopup r a t ok])).
      { intros ok ->. intros r'. specialize (I r'). rewrite funded_snoc, payments_snoc, channel_snoc.
        destruct (aget bytes_eqb (m_out m) r') as [c'|]; rewrite !app_nil_r, ?Z.add_0_r; destruct I as (I1 & I2 & I3 & I4); rewrite I1.
        - repeat split; auto; intros; rewrite issued_snoc, app_nil_r; apply I4.
        - repeat split; auto; [|intros; rewrite issued_snoc, app_nil_r; apply I4]. destruct t as [|[]]; reflexivity. }
      destruct t as [|[ad|]]; cbn [TopupCreate]; [apply Hsame; reflexivity| |apply Hsame; reflexivity].
      intros r'. specialize (I r'). cbn [m_out]. rewrite (aget_aset bytes_eqb bytes_eqb_eq), funded_snoc, payments_snoc, channel_snoc, (bytes_eqb_sym r' r), app_nil_r.
      destruct (bytes_eqb_spec r r') as [<-|N].
      * destruct Ir as (I1 & I2 & I3 & I4). rewrite I1. cbn [c_addr c_balance c_redeemed channel_of].
        rewrite bytes_eqb_refl, I2, I3. cbn [map]. repeat split; auto; intros; rewrite issued_snoc, app_nil_r, I4; reflexivity.
      * rewrite Z.add_0_r. destruct (aget bytes_eqb (m_out m) r') as [c'|]; destruct I as (I1 & I2 & I3 & I4); rewrite I1.
        -- repeat split; auto; intros; rewrite issued_snoc, app_nil_r; apply I4.
        -- repeat split; auto; [|intros; rewrite issued_snoc, app_nil_r; apply I4].
           cbn [channel_of]. apply bytes_eqb_neq in N. rewrite N. reflexivity.
  - unfold Pay. pose proof (I r) as Ir.
    assert (Hsame : forall p, (forall ch v, p <> Paid ch v) -> pinv m (es ++ [EPay r k a sg p])).
    { intros p Hp r'. specialize (I r'). rewrite funded_snoc, payments_snoc, channel_snoc.
      destruct p; [| |exfalso; eapply Hp; reflexivity];
        (destruct (aget bytes_eqb (m_out m) r') as [c'|]; rewrite !app_nil_r, ?Z.add_0_r; destruct I as (I1 & I2 & I3 & I4); rewrite I1;
         repeat split; auto; intros; rewrite issued_snoc, app_nil_r; apply I4). }
    destruct (aget bytes_eqb (m_out m) r) as [c|] eqn:G; [|apply Hsame; discriminate].
    destruct (c_balance c <? c_redeemed c + a) eqn:HB; [apply Hsame; discriminate|].
    destruct Ir as (J1 & J2 & J3 & J4). pose proof (J4 k) as (L1 & L2 & L3).
    destruct (sg _) as [s|] eqn:S.
    + intros r'. specialize (I r'). cbn [m_out]. rewrite (aget_aset bytes_eqb bytes_eqb_eq), funded_snoc, payments_snoc, channel_snoc, (bytes_eqb_sym r' r).
      destruct (bytes_eqb_spec r r') as [<-|N].
      * rewrite J1, Z.add_0_r. cbn [c_addr c_balance c_redeemed]. rewrite map_app, zsum_app. cbn [map fst]. rewrite zsum1.
        split; [reflexivity|]. split; [exact J2|]. split; [lia|].
        (intros k'; rewrite get_lane_set, issued_snoc, bytes_eqb_refl; cbn [andb]; rewrite (Z.eqb_sym k k');
         destruct (Z.eqb_spec k' k) as [->|Nk]; [|rewrite app_nil_r; apply J4]). split; [|split].
        -- cbn [l_nonce]. rewrite L1, app_length. cbn [length]. rewrite Nat.add_1_r. apply incr64_succ.
        -- cbn [l_redeemed]. rewrite L2, map_app, zsum_app. cbn. lia.
        -- cbn [l_vouchers]. rewrite L3, map_app. reflexivity.
      * rewrite Z.add_0_r, app_nil_r. destruct (aget bytes_eqb (m_out m) r') as [c'|]; destruct I as (I1 & I2 & I3 & I4); rewrite I1;
          (repeat split; auto; intros; rewrite issued_snoc; apply bytes_eqb_neq in N; rewrite N; cbn [andb]; rewrite app_nil_r; apply I4).
    + intros r'. specialize (I r'). cbn [m_out]. rewrite (aget_aset bytes_eqb bytes_eqb_eq), funded_snoc, payments_snoc, channel_snoc, app_nil_r, Z.add_0_r, (bytes_eqb_sym r' r).
      destruct (bytes_eqb_spec r r') as [<-|N].
      * rewrite J1. cbn [c_addr c_balance c_redeemed].
        split; [reflexivity|]. split; [exact J2|]. split; [exact J3|]. (intros k'; rewrite get_lane_set, issued_snoc, app_nil_r; destruct (Z.eqb_spec k' k) as [->|Nk]; apply J4).
      * destruct (aget bytes_eqb (m_out m) r') as [c'|]; destruct I as (I1 & I2 & I3 & I4); rewrite I1;
          (repeat split; auto; intros; rewrite issued_snoc, app_nil_r; apply I4).
Qed.

Lemma pinv_run os : forall m es, pinv m es -> pinv (fst (payer_run m os)) (es ++ snd (payer_run m os)).
Proof.
  induction os as [|o os IH]; intros m es I; cbn [payer_run fst snd]; [rewrite app_nil_r; exact I|].
  pose proof (pinv_step m es o I) as S. destruct (payer_step m o) as [m1 e]. specialize (IH m1 (es ++ [e]) S).
  destruct (payer_run m1 os) as [m2 es']. cbn [fst snd] in *. rewrite <- app_assoc in IH. exact IH.
Qed.

Lemma payer_run_app os1 os2 m : payer_run m (os1 ++ os2) =
  let (m1, e1) := payer_run m os1 in let (m2, e2) := payer_run m1 os2 in (m2, e1 ++ e2).
Proof.
  revert m. induction os1 as [|o os1 IH]; intros m; cbn [app payer_run].
  - destruct (payer_run m os2); reflexivity.
  - destruct (payer_step m o) as [m1 e]. rewrite IH. destruct (payer_run m1 os1) as [m2 e1]. destruct (payer_run m2 os2). reflexivity.
Qed.

(** Induction over reachable histories: the state and record of every prefix. *)
Lemma payer_hist_ind (a : gostring) (P : mgr -> list payer_ev -> Prop) (Q : payer_op -> Prop) :
  P (NewMgr a) [] ->
  (forall m es o, pinv m es -> P m es -> Q o -> let (m', e) := payer_step m o in P m' (es ++ [e])) ->
  forall os, Forall Q os -> P (fst (payer_run (NewMgr a) os)) (snd (payer_run (NewMgr a) os)).
Proof.
  intros H0 HS os. induction os as [|o os IH] using rev_ind; intros HQ; [exact H0|].
  apply Forall_app in HQ as [HQ Ho]. inversion Ho; subst. specialize (IH HQ).
  pose proof (pinv_run os _ _ (pinv_new a)) as I. rewrite payer_run_app. cbn [app] in I. cbn [payer_run].
  destruct (payer_run (NewMgr a) os) as [m1 e1]. cbn [fst snd] in *.
  specialize (HS m1 e1 o I IH). destruct (payer_step m1 o) as [m2 e2]. cbn [fst snd]. auto.
Qed.

Lemma issued_payments_sum r es : forall ks, NoDup ks -> (forall a v, In (a, v) (payments r es) -> 0 <= a) ->
  zsum (map (fun k => zsum (map fst (issued r k es))) ks) <= zsum (map fst (payments r es)).
Proof.
  induction es as [|e es IH]; intros ks ND HN.
  - cbn [issued payments flat_map map zsum fold_right]. induction ks; cbn in *; [lia|]. inversion ND; subst. specialize (IHks H2). unfold zsum in *. lia.
  - assert (HN' : forall a v, In (a, v) (payments r es) -> 0 <= a) by (intros; apply (HN a v); apply in_or_app; auto).
    specialize (IH ks ND HN').
    destruct e as [r' a t ok|r' k a sg [| |ch v]]; try exact IH.
    unfold issued, payments in *. cbn [flat_map]. destruct (bytes_eqb r' r) eqn:ER; cbn [andb]; [|exact IH].
    cbn [map app]. assert (Ha : 0 <= a) by (apply (HN a v); cbn [flat_map]; rewrite ER; left; reflexivity).
    cbn [fst]. assert (HE : zsum (map (fun k0 => zsum (map fst ((if k =? k0 then [(a, v)] else []) ++
       flat_map (fun e => match e with EPay r' k' a _ (Paid _ v) => if bytes_eqb r' r && (k' =? k0) then [(a, v)] else [] | _ => [] end) es))) ks)
       <= a + zsum (map (fun k0 => zsum (map fst (flat_map (fun e => match e with EPay r' k' a _ (Paid _ v) => if bytes_eqb r' r && (k' =? k0) then [(a, v)] else [] | _ => [] end) es))) ks)).
    { clear IH HN HN'. induction ks as [|k0 ks IHk]; cbn [map zsum fold_right]; [lia|]. inversion ND as [|? ? Hn ND']; subst. specialize (IHk ND').
      destruct (Z.eqb_spec k k0) as [->|Nk].
      - cbn [app map fst zsum fold_right].
        match goal with |- context [fold_right Z.add 0 (map ?f ks)] =>
          assert (HH : map f ks = map (fun k0 => zsum (map fst (flat_map (fun e => match e with EPay r' k' a _ (Paid _ v) => if bytes_eqb r' r && (k' =? k0) then [(a, v)] else [] | _ => [] end) es))) ks) end.
        { apply map_ext_in. intros k1 Hk1. destruct (Z.eqb_spec k0 k1) as [->|]; [contradiction|reflexivity]. }
        rewrite HH. unfold zsum. lia.
      - cbn [app]. unfold zsum in *. lia. }
    unfold zsum in *. cbn [fold_right] in *. lia.
Qed.

Lemma payments_nonneg os m r : nonneg_ops os -> forall a v, In (a, v) (payments r (snd (payer_run m os))) -> 0 <= a.
Proof.
  revert m. induction os as [|o os IH]; intros m HN a v; [intros []|]. inversion HN as [|? ? Ho HN']; subst.
  cbn [payer_run]. destruct (payer_step m o) as [m1 e] eqn:E. specialize (IH m1 HN' a v).
  destruct (payer_run m1 os) as [m2 es]. cbn [snd] in *. unfold payments in *. cbn [flat_map]. intros H. apply in_app_or in H as [H|H]; [|auto].
  destruct o as [r' b t|r' k b sg]; cbn [payer_step] in E.
  - destruct (Topup m r' b t) as [? ?]. inversion E; subst. destruct H.
  - destruct (Pay m r' k b sg) as [? p]. inversion E; subst. destruct p; try destruct H.
    destruct (bytes_eqb r' r); [|destruct H]. destruct H as [H|[]]. inversion H; subst. exact Ho.
Qed.

Lemma issued_sub r k es x : In x (issued r k es) -> In x (payments r es).
Proof.
  unfold issued, payments. rewrite !in_flat_map. intros (e & He & Hx). exists e. split; [exact He|].
  destruct e as [|r' k' a sg []]; try destruct Hx. destruct (bytes_eqb r' r); cbn [andb] in Hx; [|destruct Hx].
  destruct (k' =? k); [exact Hx|destruct Hx].
Qed.

(** Shape of the i-th voucher of a lane. *)
Definition vok (r : gostring) (k : Z) (es : list payer_ev) : Prop :=
  forall i a v, nth_error (issued r k es) i = Some (a, v) ->
    v_lane v = k /\ v_nonce v = Z.of_nat i mod 2 ^ 64 /\ v_terms v = [] /\
    v_amount v = zsum (map fst (firstn (S i) (issued r k es))) /\ channel_of r es = Some (v_chan v).

Lemma firstn_app_le {A} (a b : list A) n : (n <= length a)%nat -> firstn n (a ++ b) = firstn n a.
Proof. intros H. rewrite firstn_app. replace (n - length a)%nat with O by lia. cbn. apply app_nil_r. Qed.

Lemma vok_step r k m es o : pinv m es -> vok r k es -> let (m', e) := payer_step m o in vok r k (es ++ [e]).
Proof.
  intros I V. destruct (payer_step m o) as [m' e] eqn:E.
  assert (HC : forall a, channel_of r es = Some a -> channel_of r (es ++ [e]) = Some a) by (intros a Ha; rewrite channel_snoc, Ha; reflexivity).
  assert (Hold : issued r k (es ++ [e]) = issued r k es -> vok r k (es ++ [e])).
  { intros HE i a v. rewrite HE. intros Hi. destruct (V i a v Hi) as (? & ? & ? & ? & ?). auto 10. }
  destruct o as [r' a t|r' k' a sg]; cbn [payer_step] in E.
  { destruct (Topup m r' a t). inversion E; subst. apply Hold. rewrite issued_snoc. apply app_nil_r. }
  destruct (Pay m r' k' a sg) as [m1 p] eqn:EP. inversion E; subst m1 e.
  destruct p as [| |ch v]; try (apply Hold; rewrite issued_snoc; apply app_nil_r).
  destruct (bytes_eqb r' r) eqn:ER; [|apply Hold; rewrite issued_snoc, ER; apply app_nil_r].
  destruct (k' =? k) eqn:EK; [|apply Hold; rewrite issued_snoc, ER, EK; apply app_nil_r].
  apply bytes_eqb_eq in ER. apply Z.eqb_eq in EK. subst r' k'.
  unfold Pay in EP. pose proof (I r) as Ir. destruct (aget bytes_eqb (m_out m) r) as [c|] eqn:G; [|discriminate].
  destruct (c_balance c <? c_redeemed c + a) eqn:HB; [discriminate|].
  destruct (sg _) as [s|] eqn:S; [|discriminate]. inversion EP; subst m' ch v.
  destruct Ir as (J1 & J2 & J3 & J4). destruct (J4 k) as (L1 & L2 & L3).
  intros i b v. rewrite issued_snoc, bytes_eqb_refl, Z.eqb_refl. cbn [andb]. intros Hi.
  destruct (Nat.lt_ge_cases i (length (issued r k es))) as [Hlt|Hge].
  - rewrite nth_error_app1 in Hi by lia. destruct (V i b v Hi) as (? & ? & ? & ? & ?).
    rewrite firstn_app_le by lia. auto 10.
  - rewrite nth_error_app2 in Hi by lia. assert (i = length (issued r k es)) as ->.
    { destruct (i - length (issued r k es))%nat as [|[|]] eqn:D; cbn in Hi; try discriminate; lia. }
    rewrite Nat.sub_diag in Hi. cbn in Hi. inversion Hi; subst b v. cbn [v_lane v_nonce v_terms v_amount v_chan].
    repeat split; auto.
    rewrite firstn_all2 by (rewrite app_length; cbn; lia). rewrite map_app, zsum_app, L2. cbn. lia.
Qed.

Section PayerFacts.
  Variables (own : gostring) (os : list payer_op).
  Let m := fst (payer_run (NewMgr own) os).
  Let es := snd (payer_run (NewMgr own) os).

  Lemma hist_inv : pinv m es.
  Proof. pose proof (pinv_run os _ _ (pinv_new own)) as I. exact I. Qed.

  Lemma hist_vok r k : vok r k es.
  Proof.
    apply (payer_hist_ind own (fun _ es => vok r k es) (fun _ => True)).
    - intros i a v H. destruct i; discriminate.
    - intros m0 es0 o I V _. apply vok_step; assumption.
    - apply Forall_forall. auto.
  Qed.

  Lemma vouchers_cumulative : forall r k i a v, nth_error (issued r k es) i = Some (a, v) ->
    v_lane v = k /\ v_nonce v = Z.of_nat i mod 2 ^ 64 /\ v_terms v = [] /\
    v_amount v = zsum (map fst (firstn (S i) (issued r k es))) /\ channel_of r es = Some (v_chan v).
  Proof. intros r k i a v H. exact (hist_vok r k i a v H). Qed.

  Lemma redeemed_bounded : forall r, nonneg_ops os -> zsum (map fst (payments r es)) <= funded r es.
  Proof.
    intros r HN.
    apply (payer_hist_ind own (fun _ es => zsum (map fst (payments r es)) <= funded r es) (fun o => match o with OTopup _ a _ | OPay _ _ a _ => 0 <= a end)); [cbn; lia| |exact HN].
    intros m0 es0 o I P Q. destruct (payer_step m0 o) as [m' e] eqn:E. rewrite funded_snoc, payments_snoc, map_app, zsum_app.
    destruct o as [r' a t|r' k a sg]; cbn [payer_step] in E.
    - destruct (Topup m0 r' a t) as [? ok]. inversion E; subst. cbn [map zsum fold_right]. destruct ok; [|lia]. destruct (bytes_eqb r' r); lia.
    - destruct (Pay m0 r' k a sg) as [m1 p] eqn:EP. inversion E; subst. destruct p as [| |ch v]; cbn [map zsum fold_right]; try lia.
      destruct (bytes_eqb r' r) eqn:ER; cbn [map zsum fold_right fst]; [|lia]. apply bytes_eqb_eq in ER. subst r'.
      unfold Pay in EP. pose proof (I r) as Ir. destruct (aget bytes_eqb (m_out m0) r) as [c|]; [|discriminate].
      destruct (c_balance c <? c_redeemed c + a) eqn:HB; [discriminate|]. destruct Ir as (_ & J2 & J3 & _). lia.
  Qed.

  Lemma vouchers_within_funds : nonneg_ops os -> forall r ks, NoDup ks ->
    zsum (map (fun k => highest (map (fun p => v_amount (snd p)) (issued r k es))) ks) <= funded r es.
  Proof.
    intros HN r ks ND. pose proof (redeemed_bounded r HN) as HB.
    pose proof (issued_payments_sum r es ks ND (payments_nonneg os (NewMgr own) r HN)) as HS.
    enough (zsum (map (fun k => highest (map (fun p => v_amount (snd p)) (issued r k es))) ks) <=
            zsum (map (fun k => zsum (map fst (issued r k es))) ks)) by lia.
    clear ND HS HB. induction ks as [|k ks IH]; cbn [map]; [reflexivity|]. rewrite !zsum_cons.
    enough (highest (map (fun p => v_amount (snd p)) (issued r k es)) <= zsum (map fst (issued r k es))) by lia.
    assert (HP : forall l1 l2, l1 ++ l2 = issued r k es -> 0 <= zsum (map fst l1) <= zsum (map fst (issued r k es))).
    { intros l1 l2 HE. assert (Hpos : forall l, (forall x, In x l -> In x (issued r k es)) -> 0 <= zsum (map fst l)).
      { induction l as [|[a v] l IHl]; intros Hin; cbn [map zsum fold_right fst]; [lia|].
        assert (0 <= a). { apply (payments_nonneg os (NewMgr own) r HN a v). apply (issued_sub r k). apply Hin. left. reflexivity. }
        assert (0 <= zsum (map fst l)) by (apply IHl; intros; apply Hin; right; assumption). unfold zsum in *. lia. }
      rewrite <- HE, map_app, zsum_app.
      assert (0 <= zsum (map fst l1)) by (apply Hpos; intros; rewrite <- HE; apply in_or_app; auto).
      assert (0 <= zsum (map fst l2)) by (apply Hpos; intros; rewrite <- HE; apply in_or_app; auto). lia. }
    apply highest_le.
    - destruct (HP (issued r k es) [] (app_nil_r _)). lia.
    - intros x Hx. apply in_map_iff in Hx as ([a v] & <- & Hin). apply In_nth_error in Hin as [i Hi].
      destruct (vouchers_cumulative r k i a v Hi) as (_ & _ & _ & HV & _). cbn [snd]. rewrite HV.
      apply (HP _ (skipn (S i) (issued r k es))). apply firstn_skipn.
  Qed.

  Lemma needs_topup_iff : forall r k a sg,
    (snd (Pay m r k a sg) = NeedTopup <-> channel_of r es = None \/ funded r es - zsum (map fst (payments r es)) < a).
  Proof.
    intros r k a sg. unfold Pay. pose proof (hist_inv r) as Ir. destruct (aget bytes_eqb (m_out m) r) as [c|].
    - destruct Ir as (J1 & J2 & J3 & J4). rewrite J1, <- J2, <- J3. destruct (c_balance c <? c_redeemed c + a) eqn:HB.
      + cbn. split; [right; lia|auto].
      + destruct (sg _); cbn; (split; [discriminate|intros [H|H]; [discriminate|lia]]).
    - destruct Ir as (J1 & _). cbn. split; auto.
  Qed.

  Lemma pay_result : forall r k a sg ch,
    channel_of r es = Some ch -> a <= funded r es - zsum (map fst (payments r es)) ->
    let body := Voucher ch k (Z.of_nat (length (issued r k es)) mod 2 ^ 64) (zsum (map fst (issued r k es)) + a) [] None in
    snd (Pay m r k a sg) = match sg body with
      | Some s => Paid ch (Voucher ch k (Z.of_nat (length (issued r k es)) mod 2 ^ 64) (zsum (map fst (issued r k es)) + a) [] (Some s))
      | None => PayError end.
  Proof.
    intros r k a sg ch HC HA. cbv zeta. unfold Pay. pose proof (hist_inv r) as Ir. destruct (aget bytes_eqb (m_out m) r) as [c|].
    - destruct Ir as (J1 & J2 & J3 & J4). rewrite HC in J1. inversion J1; subst ch. destruct (J4 k) as (L1 & L2 & _).
      rewrite J2, J3. replace (funded r es <? zsum (map fst (payments r es)) + a) with false by lia.
      rewrite L1, L2. destruct (sg _); reflexivity.
    - destruct Ir as (J1 & _). rewrite HC in J1. discriminate.
  Qed.

  Lemma topup_result : forall r a t,
    snd (Topup m r a t) = true <->
    (exists ret, t = TxDone ret /\ (channel_of r es = None -> ret <> None)).
  Proof.
    intros r a t. unfold Topup. pose proof (hist_inv r) as Ir. destruct (aget bytes_eqb (m_out m) r) as [c|].
    - destruct Ir as (J1 & _). rewrite J1. destruct t as [|ret]; cbn.
      + split; [discriminate|intros (? & ? & _); discriminate].
      + split; [|reflexivity]. intros _. exists ret. split; [reflexivity|discriminate].
    - destruct Ir as (J1 & _). rewrite J1. destruct t as [|[ad|]]; cbn.
      + split; [discriminate|intros (? & ? & _); discriminate].
      + split; [|reflexivity]. intros _. exists (Some ad). split; [reflexivity|discriminate].
      + split; [discriminate|]. intros (ret & HE & Hn). inversion HE; subst. exfalso. apply Hn; reflexivity.
  Qed.
End PayerFacts.

(** ** Payee *)
Lemma credited_snoc ch es e : credited ch (es ++ [e]) = credited ch es +
  match e with ERecv ch' _ _ (Credited x) => if bytes_eqb ch' ch then x else 0 | _ => 0 end.
Proof.
  unfold credited. rewrite flat_map_app, zsum_app. f_equal. cbn [flat_map].
  destruct e as [ch' dv rs [x| |]]; try reflexivity. destruct (bytes_eqb ch' ch); cbn; lia.
Qed.
Lemma accepted_snoc ch k es e : accepted ch k (es ++ [e]) = accepted ch k es ++
  match e with ERecv ch' (Some v) _ (Credited _) => if bytes_eqb ch' ch && (v_lane v =? k) then [v] else [] | _ => [] end.
Proof. unfold accepted. rewrite flat_map_app. f_equal. cbn [flat_map]. rewrite app_nil_r. reflexivity. Qed.
Lemma seen_snoc ch es e : seen ch (es ++ [e]) = seen ch es ++
  match e with ERecv ch' (Some _) (Some cs) _ => if bytes_eqb ch' ch then [ch_balance cs] else [] | _ => [] end.
Proof. unfold seen. rewrite flat_map_app. f_equal. cbn [flat_map]. rewrite app_nil_r. reflexivity. Qed.

Definition rlane_inv (l : lane) (vs : list voucher) : Prop :=
  l_nonce l = next_nonce vs /\ l_redeemed l = highest (map v_amount vs) /\ l_vouchers l = vs.

Definition chan_inv (own ch : gostring) (m : mgr) (es : list recv_ev) : Prop :=
  match aget bytes_eqb (m_in m) ch with
  | None => seen ch es = [] /\ credited ch es = 0 /\ forall k, accepted ch k es = []
  | Some c => In (c_balance c) (seen ch es) /\ (forall b, In b (seen ch es) -> b <= c_balance c) /\
      c_redeemed c = credited ch es /\ forall k, rlane_inv (get_lane c k) (accepted ch k es)
  end.

Definition rinv (own : gostring) (m : mgr) (es : list recv_ev) : Prop :=
  m_addr m = own /\ forall ch, chan_inv own ch m es.

Lemma next_nonce_snoc vs v : next_nonce (vs ++ [v]) = incr64 (v_nonce v).
Proof. unfold next_nonce. rewrite rev_app_distr. reflexivity. Qed.

Section Payee.
  Variable verify : gostring -> voucher -> option bytes -> bool.

  (** What [ReceiveOn] does to the channel entry. *)
  Lemma receive_on_spec own c sv cs c' x : ReceiveOn verify own c sv cs = (c', x) ->
    c_addr c' = c_addr c /\ c_balance c' = c_balance c /\
    match x with
    | Credited p =>
        (exists from, ch_to cs = Account own /\ ch_from cs = Account from /\ verify from (unsigned sv) (v_sig sv) = true) /\
        l_nonce (get_lane c (v_lane sv)) <= v_nonce sv /\
        p = v_amount sv - l_redeemed (get_lane c (v_lane sv)) /\ 0 < p /\ c_redeemed c + p <= c_balance c /\
        c_redeemed c' = c_redeemed c + p /\
        (forall k, get_lane c' k = if k =? v_lane sv then Lane (incr64 (v_nonce sv)) (v_amount sv) (l_vouchers (get_lane c k) ++ [sv]) else get_lane c k)
    | _ => c_redeemed c' = c_redeemed c /\ forall k, get_lane c' k = get_lane c k
    end.
  Proof.
    unfold ReceiveOn.
    destruct (ch_to cs) as [| |to] eqn:ET; try (intros E; inversion E; subst; auto; fail).
    destruct (bytes_eqb to own) eqn:EO; cbn [negb]; [|intros E; inversion E; subst; auto].
    apply bytes_eqb_eq in EO. subst to.
    destruct (ch_from cs) as [| |from] eqn:EF; try (intros E; inversion E; subst; auto; fail).
    destruct (verify from (unsigned sv) (v_sig sv)) eqn:EV; cbn [negb]; [|intros E; inversion E; subst; auto].
    assert (HS : forall k, get_lane (Chan (c_addr c) (c_balance c) (c_redeemed c) (aset Z.eqb (c_lanes c) (v_lane sv) (get_lane c (v_lane sv)))) k = get_lane c k).
    { intros k. rewrite get_lane_set. destruct (Z.eqb_spec k (v_lane sv)) as [->|]; [reflexivity|destruct c; reflexivity]. }
    destruct (v_nonce sv <? l_nonce (get_lane c (v_lane sv))) eqn:E1; [intros E; inversion E; subst; auto|].
    destruct (v_amount sv <=? l_redeemed (get_lane c (v_lane sv))) eqn:E2; [intros E; inversion E; subst; auto|].
    destruct (c_balance c <? c_redeemed c + (v_amount sv - l_redeemed (get_lane c (v_lane sv)))) eqn:E3; intros E; inversion E; subst; auto.
    cbn [c_addr c_balance c_redeemed]. repeat split; auto; try lia.
    - exists from. auto.
    - intros k. rewrite get_lane_set. destruct (Z.eqb_spec k (v_lane sv)) as [->|]; [reflexivity|destruct c; reflexivity].
  Qed.

  Lemma receive_on_accepts own c sv cs from :
    ch_to cs = Account own -> ch_from cs = Account from -> verify from (unsigned sv) (v_sig sv) = true ->
    l_nonce (get_lane c (v_lane sv)) <= v_nonce sv ->
    l_redeemed (get_lane c (v_lane sv)) < v_amount sv ->
    c_redeemed c + (v_amount sv - l_redeemed (get_lane c (v_lane sv))) <= c_balance c ->
    exists c', ReceiveOn verify own c sv cs = (c', Credited (v_amount sv - l_redeemed (get_lane c (v_lane sv)))).
  Proof.
    intros H1 H2 H3 H4 H5 H6. unfold ReceiveOn. rewrite H1, bytes_eqb_refl, H2, H3. cbn [negb].
    replace (v_nonce sv <? l_nonce (get_lane c (v_lane sv))) with false by lia.
    replace (v_amount sv <=? l_redeemed (get_lane c (v_lane sv))) with false by lia.
    replace (c_balance c <? c_redeemed c + (v_amount sv - l_redeemed (get_lane c (v_lane sv)))) with false by lia.
    eexists. reflexivity.
  Qed.

  Local Opaque ReceiveOn.

  Lemma chan_inv_same own ch m m' es e :
    aget bytes_eqb (m_in m') ch = aget bytes_eqb (m_in m) ch ->
    credited ch (es ++ [e]) = credited ch es -> (forall k, accepted ch k (es ++ [e]) = accepted ch k es) ->
    (seen ch (es ++ [e]) = seen ch es \/ (exists c b, aget bytes_eqb (m_in m) ch = Some c /\ b <= c_balance c /\ seen ch (es ++ [e]) = seen ch es ++ [b])) ->
    chan_inv own ch m es -> chan_inv own ch m' (es ++ [e]).
  Proof.
    intros HG HC HA HS. unfold chan_inv. rewrite HG, HC.
    destruct (aget bytes_eqb (m_in m) ch) as [c|] eqn:G.
    - intros (I1 & I2 & I3 & I4). destruct HS as [->|(c0 & b & Hc & Hb & ->)].
      + repeat split; auto; rewrite HA; apply I4.
      + inversion Hc; subst c0. split; [apply in_or_app; auto|]. split.
        * intros b' Hb'. apply in_app_or in Hb' as [Hb'|[<-|[]]]; auto.
        * split; [auto|]. intros k. rewrite HA. auto.
    - intros (I1 & I2 & I3). destruct HS as [->|(c0 & b & Hc & _)]; [|discriminate]. repeat split; auto. intros k. rewrite HA. auto.
  Qed.

  Lemma rinv_step own m es o : rinv own m es -> let (m', e) := recv_step verify m o in rinv own m' (es ++ [e]).
  Proof.
    intros [HO I]. destruct o as [ch dv rs]. cbn [recv_step]. destruct (Receive verify m ch dv rs) as [m' x] eqn:E.
    assert (HIgn : (dv = None \/ rs = None) -> m' = m /\ x = Refused).
    { unfold Receive in E. destruct dv, rs; intros [H|H]; try discriminate; inversion E; auto. }
    destruct dv as [sv|].
    2:{ destruct (HIgn (or_introl eq_refl)) as [-> ->]. split; [exact HO|]. intros ch'. apply (chan_inv_same own ch' m); auto.
        - rewrite credited_snoc. lia.
        - intros k. rewrite accepted_snoc, app_nil_r. reflexivity.
        - left. rewrite seen_snoc, app_nil_r. reflexivity. }
    destruct rs as [cs|].
    2:{ destruct (HIgn (or_intror eq_refl)) as [-> ->]. split; [exact HO|]. intros ch'. apply (chan_inv_same own ch' m); auto.
        - rewrite credited_snoc. lia.
        - intros k. rewrite accepted_snoc, app_nil_r. reflexivity.
        - left. rewrite seen_snoc, app_nil_r. reflexivity. }
    clear HIgn. unfold Receive in E.
    (* the calls on other channels *)
    assert (HOth : forall ch', ch' <> ch -> aget bytes_eqb (m_in m') ch' = aget bytes_eqb (m_in m) ch' -> chan_inv own ch' m' (es ++ [ERecv ch (Some sv) (Some cs) x])).
    { intros ch' N HG. assert (N' : bytes_eqb ch ch' = false) by (apply bytes_eqb_neq; congruence).
      apply (chan_inv_same own ch' m); auto.
      - rewrite credited_snoc, N'. destruct x; lia.
      - intros k. rewrite accepted_snoc, N'. cbn [andb]. destruct x; apply app_nil_r.
      - left. rewrite seen_snoc, N'. apply app_nil_r. }
    (* entry [c0] used, with the new balance *)
    assert (HOn : forall c0 c' , c_balance c0 = ch_balance cs -> (forall b, In b (seen ch es) -> b <= ch_balance cs) ->
       c_redeemed c0 = credited ch es -> (forall k, rlane_inv (get_lane c0 k) (accepted ch k es)) ->
       ReceiveOn verify (m_addr m) c0 sv cs = (c', x) -> m' = put_in m ch c' ->
       rinv own m' (es ++ [ERecv ch (Some sv) (Some cs) x])).
    { intros c0 c' HB HM HR HL ER ->. split; [exact HO|]. intros ch'. destruct (bytes_eqb_spec ch' ch) as [->|N].
      2:{ apply HOth; [exact N|]. cbn [m_in put_in]. apply (aget_aset_neq bytes_eqb bytes_eqb_eq). exact N. }
      apply receive_on_spec in ER as (_ & EB & EX). unfold chan_inv. cbn [m_in put_in]. rewrite (aget_aset_eq bytes_eqb bytes_eqb_eq).
      rewrite seen_snoc, credited_snoc, bytes_eqb_refl, EB, HB.
      split; [apply in_or_app; right; left; reflexivity|]. split.
      { intros b Hb. apply in_app_or in Hb as [Hb|[<-|[]]]; [auto|lia]. }
      destruct x as [p| |].
      - destruct EX as (_ & HN & HP & HP0 & _ & HR' & HG). split; [lia|].
        intros k. rewrite HG, accepted_snoc, bytes_eqb_refl. cbn [andb]. rewrite (Z.eqb_sym (v_lane sv) k).
        destruct (Z.eqb_spec k (v_lane sv)) as [->|]; [|rewrite app_nil_r; apply HL].
        destruct (HL (v_lane sv)) as (L1 & L2 & L3). split; [cbn [l_nonce]; rewrite next_nonce_snoc; reflexivity|]. split.
        + cbn [l_redeemed]. rewrite map_app, highest_app, <- L2. cbn [map].
          pose proof (highest_nonneg (map v_amount (accepted ch (v_lane sv) es))). change (highest [v_amount sv]) with (Z.max (v_amount sv) 0). lia.
        + cbn [l_vouchers]. rewrite L3. reflexivity.
      - destruct EX as (HR' & HG). split; [lia|]. intros k. rewrite HG, accepted_snoc, app_nil_r. apply HL.
      - destruct EX as (HR' & HG). split; [lia|]. intros k. rewrite HG, accepted_snoc, app_nil_r. apply HL. }
    pose proof (I ch) as Ich. unfold chan_inv in Ich. destruct (aget bytes_eqb (m_in m) ch) as [c|] eqn:G.
    - destruct Ich as (I1 & I2 & I3 & I4). unfold ReceiveUpdate in E.
      destruct (ch_balance cs <? c_balance c) eqn:EB.
      + inversion E; subst m' x. split; [exact HO|]. intros ch'. destruct (bytes_eqb_spec ch' ch) as [->|N]; [|apply HOth; auto].
        apply (chan_inv_same own ch m); auto.
        * rewrite credited_snoc. lia.
        * intros k. rewrite accepted_snoc. apply app_nil_r.
        * right. exists c, (ch_balance cs). split; [exact G|]. split; [lia|]. rewrite seen_snoc, bytes_eqb_refl. reflexivity.
      + destruct (ReceiveOn verify (m_addr m) _ sv cs) as [c' x'] eqn:ER. inversion E; subst m' x'.
        apply (HOn _ c' ) with (5 := ER); auto.
        intros b Hb. specialize (I2 b Hb). lia.
    - destruct Ich as (I1 & I2 & I3). unfold ReceiveCreate in E.
      destruct (ReceiveOn verify (m_addr m) _ sv cs) as [c' x'] eqn:ER. inversion E; subst m' x'.
      apply (HOn _ c') with (5 := ER); auto.
      + intros b Hb. rewrite I1 in Hb. destruct Hb.
      + intros k. rewrite I3. repeat split.
  Qed.

  Lemma rinv_new own : rinv own (NewMgr own) [].
  Proof. split; [reflexivity|]. intros ch. cbn. auto. Qed.

  Lemma rinv_run own os : forall m es, rinv own m es -> rinv own (fst (recv_run verify m os)) (es ++ snd (recv_run verify m os)).
  Proof.
    induction os as [|o os IH]; intros m es I; cbn [recv_run fst snd]; [rewrite app_nil_r; exact I|].
    pose proof (rinv_step own m es o I) as S. destruct (recv_step verify m o) as [m1 e]. specialize (IH m1 (es ++ [e]) S).
    destruct (recv_run verify m1 os) as [m2 es']. cbn [fst snd] in *. rewrite <- app_assoc in IH. exact IH.
  Qed.

  Lemma recv_run_app os1 os2 m : recv_run verify m (os1 ++ os2) =
    let (m1, e1) := recv_run verify m os1 in let (m2, e2) := recv_run verify m1 os2 in (m2, e1 ++ e2).
  Proof.
    revert m. induction os1 as [|o os1 IH]; intros m; cbn [app recv_run].
    - destruct (recv_run verify m os2); reflexivity.
    - destruct (recv_step verify m o) as [m1 e]. rewrite IH. destruct (recv_run verify m1 os1) as [m2 e1]. destruct (recv_run verify m2 os2). reflexivity.
  Qed.

  (** When, and with how much, a receipt is credited, from any reachable state. *)
  Definition creditable (own ch : gostring) (es : list recv_ev) (dv : option voucher) (rs : option chain_state) (x : Z) : Prop :=
    exists sv cs from, dv = Some sv /\ rs = Some cs /\
      ch_to cs = Account own /\ ch_from cs = Account from /\ verify from (unsigned sv) (v_sig sv) = true /\
      (forall b, In b (seen ch es) -> b <= ch_balance cs) /\
      next_nonce (accepted ch (v_lane sv) es) <= v_nonce sv /\
      x = v_amount sv - highest (map v_amount (accepted ch (v_lane sv) es)) /\ 0 < x /\
      credited ch es + x <= ch_balance cs.

  Lemma receive_iff own m es : rinv own m es -> forall ch dv rs x,
    snd (Receive verify m ch dv rs) = Credited x <-> creditable own ch es dv rs x.
  Proof.
    intros [HO I] ch dv rs x. unfold Receive.
    destruct dv as [sv|]; [|split; [discriminate|intros (? & ? & ? & H & _); discriminate]].
    destruct rs as [cs|]; [|split; [discriminate|intros (? & ? & ? & _ & H & _); discriminate]].
    pose proof (I ch) as Ich. unfold chan_inv in Ich. rewrite <- HO.
    assert (HOn : forall c0, c_balance c0 = ch_balance cs -> (forall b, In b (seen ch es) -> b <= ch_balance cs) ->
       c_redeemed c0 = credited ch es -> (forall k, rlane_inv (get_lane c0 k) (accepted ch k es)) ->
       (snd (ReceiveOn verify (m_addr m) c0 sv cs) = Credited x <-> creditable (m_addr m) ch es (Some sv) (Some cs) x)).
    { intros c0 HB HM HR HL. destruct (HL (v_lane sv)) as (L1 & L2 & L3). split.
      - destruct (ReceiveOn verify (m_addr m) c0 sv cs) as [c' x'] eqn:ER. cbn [snd]. intros ->.
        apply receive_on_spec in ER as (_ & _ & (from & F1 & F2 & F3) & H1 & H2 & H3 & H4 & _).
        exists sv, cs, from. rewrite <- L1, <- L2. rewrite HR, HB in H4. auto 12.
      - intros (sv' & cs' & from & E1 & E2 & F1 & F2 & F3 & F4 & F5 & F6 & F7 & F8). inversion E1; inversion E2; subst sv' cs'.
        rewrite <- L1 in F5. rewrite <- L2 in F6.
        destruct (receive_on_accepts (m_addr m) c0 sv cs from F1 F2 F3 F5) as [c' ->]; [lia|lia|]. cbn [snd]. subst x. reflexivity. }
    destruct (aget bytes_eqb (m_in m) ch) as [c|].
    - destruct Ich as (I1 & I2 & I3 & I4). unfold ReceiveUpdate. destruct (ch_balance cs <? c_balance c) eqn:EB.
      + split; [discriminate|]. intros (sv' & cs' & from & _ & E2 & _ & _ & _ & F4 & _). inversion E2; subst cs'.
        specialize (F4 _ I1). lia.
      + match goal with |- context [ReceiveOn verify (m_addr m) ?c0 sv cs] => specialize (HOn c0) end.
        destruct (ReceiveOn verify (m_addr m) _ sv cs) as [c' x']. cbn [snd] in *. apply HOn; auto.
        intros b Hb. specialize (I2 b Hb). lia.
    - destruct Ich as (I1 & I2 & I3). unfold ReceiveCreate.
      match goal with |- context [ReceiveOn verify (m_addr m) ?c0 sv cs] => specialize (HOn c0) end.
      destruct (ReceiveOn verify (m_addr m) _ sv cs) as [c' x']. cbn [snd] in *. apply HOn; auto.
      + intros b Hb. rewrite I1 in Hb. destruct Hb.
      + intros k. rewrite I3. repeat split.
  Qed.
End Payee.
