(** * Proofs about the money of a gateway over its life *)
From Coq Require Import List ZArith Bool Lia ZifyBool ZifyNat.
From Coq Require Import Init.Byte.
From Verif Require Import Base BaseProofs Ids Crypto Message Offer OfferProofs Schema Messages WireSpec Payment PaymentSpec PaymentProofs Register
  SqlOffers Rest Gateway GatewaySpec GatewayProofs GatewayStoreProofs GatewayAdmin GatewayAdminSpec GatewayAdminProofs.
Import ListNotations.
Open Scope Z_scope.
Open Scope go_scope.

Section gm.
  Variable version : Z.
  Variable supported : list Z.
  Variable sha256 sha512_256 : bytes -> bytes.
  Variable pub_of : bytes -> bytes.
  Variable ec_sign : bytes -> bytes -> option bytes.
  Variable ec_verify : bytes -> bytes -> bytes -> bool.
  Variable blake : bytes -> bytes.
  Variable verify : gostring -> voucher -> option bytes -> bool.
  Variable voucher_text : voucher -> gostring.
  Variable voucher_of : gostring -> option voucher.
  Variable is_address : gostring -> bool.
  Variable zone : Z.

  (** Steps of a payment manager, of amounts that are all right. *)
  Variable ok : Z -> Prop.
  Hypothesis ok_times : forall z (n : nat), ok z -> ok (z * Z.of_nat n).

  Inductive moves : mgr -> mgr -> Prop :=
  | mv_refl m : moves m m
  | mv_recv m ch dv rs m' x m'' : Receive verify m ch dv rs = (m', x) -> moves m' m'' -> moves m m''
  | mv_pay m r k a sg m' p m'' : ok a -> Pay m r k a sg = (m', p) -> moves m' m'' -> moves m m''
  | mv_top m r a t m' b m'' : ok a -> Topup m r a t = (m', b) -> moves m' m'' -> moves m m''.

  Lemma moves_trans a b c : moves a b -> moves b c -> moves a c.
  Proof.
    induction 1; intros M; [exact M|eapply mv_recv; eauto|eapply mv_pay; eauto|eapply mv_top; eauto].
  Qed.

  Definition prices (g : gateway) : Prop := ok (g_search g) /\ ok (g_offer g) /\ ok (g_topup g).
  Definition pays (g g' : gateway) : Prop :=
    (forall m, g_pay g = Some m -> exists m', g_pay g' = Some m' /\ moves m m') /\ (g_pay g = None -> g_pay g' = None).
  Definition lawful (g g' : gateway) : Prop := prices g -> prices g' /\ pays g g'.

  Lemma lawful_refl g : lawful g g.
  Proof. intros P. split; [exact P|]. split; [|auto]. intros m E. exists m. split; [exact E|constructor]. Qed.
  Lemma lawful_trans g1 g2 g3 : lawful g1 g2 -> lawful g2 g3 -> lawful g1 g3.
  Proof.
    intros A B P. destruct (A P) as (P2 & M2 & N2). destruct (B P2) as (P3 & M3 & N3). split; [exact P3|]. split; [|auto]. intros m E.
    destruct (M2 _ E) as (m2 & E2 & R2). destruct (M3 _ E2) as (m3 & E3 & R3). exists m3. split; [exact E3|eapply moves_trans; eauto].
  Qed.
  Lemma lawful_same g g' : settings g' = settings g -> g_pay g' = g_pay g -> lawful g g'.
  Proof.
    unfold settings. intros S P (A & B & C). injection S as _ _ _ S1 S2 S3. split; [unfold prices; rewrite S1, S2, S3; auto|].
    split; [|congruence]. intros m E. exists m. split; [congruence|constructor].
  Qed.
  Lemma lawful_moved g g' : settings g' = settings g -> (prices g -> pays g g') -> lawful g g'.
  Proof.
    unfold settings. intros S M P. assert (Q := P). destruct P as (A & B & C). injection S as _ _ _ S1 S2 S3. split; [unfold prices; rewrite S1, S2, S3; auto|]. auto.
  Qed.

  Local Notation CoreReceive := (CoreReceive verify voucher_of is_address).
  Lemma receive_lawful e g ch t r g' : CoreReceive e g ch t = Ret (r, g') -> lawful g g'.
  Proof.
    intros H. assert (S := H). apply receive_inv in S. destruct S as (S & _). apply lawful_moved; [exact S|]. intros _. split.
    2: { intros E. unfold Gateway.CoreReceive in H. rewrite E in H. destruct (is_address ch); [destruct (voucher_of t); [discriminate|]|]; apply ret_inj in H; injection H as <- <-; exact E. }
    intros m E. unfold Gateway.CoreReceive in H. rewrite E in H. destruct (Receive verify m ch _ _) as [m' x] eqn:R. exists m'.
    split; [|eapply mv_recv; [exact R|constructor]]. destruct x; try discriminate; apply ret_inj in H; injection H as <- <-; reflexivity.
  Qed.
  Lemma pay_lawful e g rcpt k a r g' : (prices g -> ok a) -> CorePay e g rcpt k a = Ret (r, g') -> lawful g g'.
  Proof.
    intros O H. apply lawful_moved; [apply pay_inv in H; tauto|]. intros P. unfold CorePay in H. split; [|intros E; rewrite E in H; discriminate H]. intros m E. rewrite E in H. cbn [deref obind] in H.
    destruct (Pay m rcpt k a (e_sign e)) as [m' p] eqn:R. apply ret_inj in H. injection H as <- <-. exists m'. split; [reflexivity|].
    eapply mv_pay; [exact (O P)|exact R|constructor].
  Qed.
  Lemma topup_pay_lawful e n g rcpt k a r g' : (prices g -> ok a) -> CoreTopupAndPay e n g rcpt k a = Ret (r, g') -> lawful g g'.
  Proof.
    intros O H. apply lawful_moved; [apply topup_pay_inv in H; tauto|]. intros P. unfold CoreTopupAndPay in H. split; [|intros E; rewrite E in H; discriminate H]. intros m E. rewrite E in H. cbn [deref obind] in H.
    destruct (topupAndPay _ _ _ _ _ _ _ _) as [m' p] eqn:R. apply ret_inj in H. injection H as <- <-. exists m'. split; [reflexivity|].
    assert (Ot : ok (g_topup g)) by apply P. specialize (O P).
    unfold topupAndPay in R. destruct (Topup m rcpt (g_topup g) _) as [m1 o1] eqn:T1. eapply mv_top; [exact Ot|exact T1|].
    destruct o1; cbn [negb] in R; [|injection R as <- <-; constructor].
    destruct (Pay m1 rcpt k a (e_sign e)) as [m2 p2] eqn:P2. eapply mv_pay; [exact O|exact P2|].
    destruct p2; [|injection R as <- <-; constructor|injection R as <- <-; constructor].
    destruct (Topup m2 rcpt (g_topup g) _) as [m3 o3] eqn:T3. eapply mv_top; [exact Ot|exact T3|].
    destruct o3; cbn [negb] in R; [|injection R as <- <-; constructor].
    destruct (Pay m3 rcpt k a (e_sign e)) as [m4 p4] eqn:P4. eapply mv_pay; [exact O|exact P4|].
    destruct p4; injection R as <- <-; constructor.
  Qed.
  Lemma get_gateway_lawful e n g id r g' : CoreGetGateway e n g id = Ret (r, g') -> lawful g g'.
  Proof. intros H. apply get_gateway_inv in H. apply lawful_same; tauto. Qed.
  Lemma from_gateway_lawful e g id m r g' : from_gateway pub_of ec_verify blake e g id m = Ret (r, g') -> lawful g g'.
  Proof.
    unfold from_gateway. intros H. step H. destruct v as [i g1]. assert (L : lawful g g1) by (eapply get_gateway_lawful; eauto).
    destruct i as [i|]; [|step H; apply ret_inj in H; injection H as <- <-; exact L].
    step H. destruct v as [k|]; [|step H; apply ret_inj in H; injection H as <- <-; exact L]. apply ret_inj in H. injection H as <- <-. exact L.
  Qed.
  Lemma ask_lawful e n g id enc r g' o : ask_gateway pub_of ec_sign ec_verify blake e n g id enc = Ret (r, g', o) -> lawful g g'.
  Proof.
    unfold ask_gateway. intros H. step H; [apply ret_inj in H; injection H as <- <- <-; apply lawful_refl|].
    step H. step H. destruct v0 as [b rq]. cbn [fst snd] in H. destruct b; cbn [negb] in H; [|apply ret_inj in H; injection H as <- <- <-; apply lawful_refl].
    destruct (e_net e n id rq); [|apply ret_inj in H; injection H as <- <- <-; apply lawful_refl].
    step H. destruct v0 as [i g1]. assert (L : lawful g g1) by (eapply get_gateway_lawful; eauto).
    destruct i as [i|]; [|apply ret_inj in H; injection H as <- <- <-; exact L]. step H. destruct v0; apply ret_inj in H; injection H as <- <- <-; exact L.
  Qed.
  Lemma with_reg_lawful g r : lawful g (with_reg g r).
  Proof. apply lawful_same; reflexivity. Qed.

  Lemma discover_all_lawful e c : forall ids n g w w' g', discover_all version supported pub_of ec_sign ec_verify blake e n g c ids w = Ret (w', g') -> lawful g g'.
  Proof.
    induction ids as [|id ids IH]; intros n g w w' g' H; cbn [discover_all] in H.
    - apply ret_inj in H. injection H as <- <-. apply lawful_refl.
    - step H. destruct v as [[r g1] o]. unfold RequestDHTDiscover in E. apply ask_lawful in E. eapply lawful_trans; [exact E|eapply IH; exact H].
  Qed.
  Lemma discover_all_v2_lawful e c : forall gws n g w r g' o,
    discover_all_v2 version supported pub_of ec_sign ec_verify blake voucher_text e n g c gws w = Ret (r, g', o) -> lawful g g'.
  Proof.
    induction gws as [|gw gws IH]; intros n g w r g' o H; cbn [discover_all_v2] in H.
    - apply ret_inj in H. injection H as <- <- <-. apply lawful_refl.
    - destruct (NewNodeIDFromHexString (n_id gw)) as [id|]; [|apply ret_inj in H; injection H as <- <- <-; apply lawful_refl].
      step H. destruct v as [p g1]. assert (L1 : lawful g g1) by (eapply pay_lawful; [|exact E]; intros P; apply P).
      assert (S1 : settings g1 = settings g) by (apply pay_inv in E; tauto).
      step H. destruct v as [y g2].
      assert (L2 : lawful g1 g2).
      { destruct p; [|apply ret_inj in E0; injection E0 as <- <-; apply lawful_refl|apply ret_inj in E0; injection E0 as <- <-; apply lawful_refl].
        step E0. destruct v as [q g3]. apply ret_inj in E0. injection E0 as <- <-. cbn [snd]. eapply topup_pay_lawful; [|exact E1].
        intros P. apply P. }
      assert (L : lawful g g2) by (eapply lawful_trans; eauto).
      destruct y as [code|[ch text]]; [apply ret_inj in H; injection H as <- <- <-; exact L|].
      step H. destruct v as [[r1 g3] o1]. unfold RequestDHTDiscoverV2 in E1. apply ask_lawful in E1.
      eapply lawful_trans; [exact L|]. eapply lawful_trans; [exact E1|]. eapply IH. exact H.
  Qed.
  Lemma offers_all_lawful e c nonce digests : forall ids n g w r g' o,
    offers_all version supported pub_of ec_sign ec_verify blake voucher_text e n g c nonce digests ids w = Ret (r, g', o) -> lawful g g'.
  Proof.
    induction ids as [|id ids IH]; intros n g w r g' o H; cbn [offers_all] in H.
    - apply ret_inj in H. injection H as <- <- <-. apply lawful_refl.
    - step H. rename v into these. step H. destruct v as [i g0]. assert (L0 : lawful g g0) by (eapply get_gateway_lawful; eauto).
      step H. rename v into j. step H. destruct v as [p g1].
      assert (L1 : lawful g0 g1).
      { eapply pay_lawful; [|exact E2]. intros (_ & P & _). replace (Z.of_nat (length (elems these)) * g_offer g0) with (g_offer g0 * Z.of_nat (length (elems these))) by apply Z.mul_comm. apply ok_times. exact P. }
      assert (S1 : settings g1 = settings g0) by (apply pay_inv in E2; tauto).
      step H. destruct v as [y g2].
      assert (L2 : lawful g1 g2).
      { destruct p; [|apply ret_inj in E3; injection E3 as <- <-; apply lawful_refl|apply ret_inj in E3; injection E3 as <- <-; apply lawful_refl].
        destruct (g_pay g1) as [m|] eqn:Em; [|discriminate E3]. cbn [deref obind] in E3.
        destruct (Topup m (n_address j) (g_topup g1) (e_tx e n)) as [m' b] eqn:T. cbv zeta in E3.
        assert (LT : lawful g1 (with_pay g1 m')).
        { apply lawful_moved; [reflexivity|]. intros (_ & _ & P). split; [|congruence]. intros m0 E0'. rewrite Em in E0'. injection E0' as <-. exists m'. split; [reflexivity|].
          eapply mv_top; [exact P|exact T|constructor]. }
        destruct b; cbn [negb] in E3; [|apply ret_inj in E3; injection E3 as <- <-; exact LT].
        step E3. destruct v as [p2 g3]. apply ret_inj in E3. injection E3 as <- <-. eapply lawful_trans; [exact LT|].
        eapply pay_lawful; [|exact E4]. intros P. apply P. }
      assert (L : lawful g g2) by (eapply lawful_trans; [exact L0|]; eapply lawful_trans; eauto).
      destruct y as [code|[ch text]]; [apply ret_inj in H; injection H as <- <- <-; exact L|].
      step H. destruct v as [[r1 g3] o1]. unfold RequestDHTOffer in E4. apply ask_lawful in E4.
      eapply lawful_trans; [exact L|]. eapply lawful_trans; [exact E4|]. eapply IH. exact H.
  Qed.

  Lemma quit_lawful g c s : quit g c = Ret s -> lawful g (after s).
  Proof. unfold quit. intros H. done H. apply lawful_refl. Qed.
  Lemma drop_lawful g s : drop g = Ret s -> lawful g (after s).
  Proof. unfold drop. intros H. done H. apply lawful_refl. Qed.
  Lemma finish_lawful g r b o s : finish_rest ec_sign blake g r b o = Ret s -> lawful g (after s).
  Proof. intros H. apply finish_rest_inv in H. destruct H as (-> & _). apply lawful_refl. Qed.
  Lemma finish_p2p_lawful g r g' a : finish_p2p ec_sign blake g r = Ret (g', a) -> lawful g g'.
  Proof. intros H. apply finish_p2p_inv in H. destruct H as (-> & _). apply lawful_refl. Qed.

  Ltac keep H :=
    repeat match type of H with
    | quit _ _ = Ret _ => apply quit_lawful in H
    | drop _ = Ret _ => apply drop_lawful in H
    | finish_rest _ _ _ _ _ _ = Ret _ => apply finish_lawful in H
    | finish_p2p _ _ _ _ = Ret _ => apply finish_p2p_lawful in H
    | Ret _ = Ret (_, _) => apply ret_inj in H; injection H as <- <-
    | Ret (Served _ _ _) = Ret ?s => apply ret_inj in H; subst s; cbn [after]
    | _ => step H
    end;
    repeat match goal with
    | E : Gateway.CoreReceive _ _ _ _ _ _ _ = Ret (_, _) |- _ => apply receive_lawful in E
    | E : from_gateway _ _ _ _ _ _ _ = Ret (_, _) |- _ => apply from_gateway_lawful in E
    | E : discover_all _ _ _ _ _ _ _ _ _ _ _ _ = Ret (_, _) |- _ => apply discover_all_lawful in E
    | E : discover_all_v2 _ _ _ _ _ _ _ _ _ _ _ _ _ = Ret (_, _) |- _ => apply discover_all_v2_lawful in E
    | E : offers_all _ _ _ _ _ _ _ _ _ _ _ _ _ _ _ = Ret (_, _) |- _ => apply offers_all_lawful in E
    | E : ?v = (_, _) |- _ => is_var v; subst v
    end;
    eauto using lawful_trans, lawful_refl, with_reg_lawful.

  Local Notation act := (act version supported sha256 sha512_256 pub_of ec_sign ec_verify blake verify voucher_text voucher_of is_address zone).
  Lemma dht_lawful e g m s : HandleDHTDiscover version supported sha256 pub_of ec_sign ec_verify blake e g m = Ret s -> lawful g (after s).
  Proof. unfold HandleDHTDiscover. intros H. keep H. Qed.
  Lemma dht_v2_lawful e g m s : HandleDHTDiscoverV2 version supported sha256 pub_of ec_sign ec_verify blake verify voucher_text voucher_of is_address e g m = Ret s -> lawful g (after s).
  Proof.
    unfold HandleDHTDiscoverV2. intros H. keep H.
  Qed.
  Lemma dht_offer_lawful e g m s : HandleDHTOffer version supported sha256 pub_of ec_sign ec_verify blake verify voucher_text voucher_of is_address e g m = Ret s -> lawful g (after s).
  Proof. unfold HandleDHTOffer. intros H. keep H. Qed.
  Lemma gateway_offer_lawful e g m g' r : HandleGatewayOffer version supported sha256 ec_sign blake verify voucher_of is_address zone e g m = Ret (g', r) -> lawful g g'.
  Proof.
    unfold HandleGatewayOffer. intros H. step H. step H; [|apply ret_inj in H; injection H as <- <-; apply lawful_refl]. destruct a as [[[[c n] ds] ch] t].
    step H. destruct v0 as [am g1]. apply receive_lawful in E1.
    step H; [|apply ret_inj in H; injection H as <- <-; exact E1]. step H. step H.
    apply finish_p2p_lawful in H. eapply lawful_trans; [exact E1|]. eapply lawful_trans; [|exact H].
    intros (A & B & C). split; [split; [exact A|split; [apply ok_times; exact B|exact C]]|]. split; [|auto]. intros m0 Em. exists m0. split; [exact Em|constructor].
  Qed.

  Lemma act_lawful e g k m g' a s : act e g k m = Ret (g', a, s) -> lawful g g'.
  Proof.
    intros H. unfold GatewaySpec.act in H. destruct k; step H; apply ret_inj in H; injection H as <- <- <-.
    - unfold HandleEstablishment in E. keep E.
    - unfold HandleStandardDiscover in E. keep E.
    - unfold HandleStandardDiscoverV2 in E. keep E.
    - unfold HandleStandardOffer in E. keep E.
    - eapply dht_lawful; eauto.
    - eapply dht_v2_lawful; eauto.
    - eapply dht_offer_lawful; eauto.
    - destruct v as [g1 r]. cbn [fst]. unfold HandleGatewayDiscover in E. keep E.
    - destruct v as [g1 r]. cbn [fst]. unfold HandleGatewayDiscoverV2 in E. keep E.
    - destruct v as [g1 r]. cbn [fst]. eapply gateway_offer_lawful; eauto.
    - destruct v as [g1 r]. cbn [fst].
      apply (publish_group_inv version supported sha256 sha512_256 pub_of ec_sign ec_verify blake (fun _ _ _ => true) (fun _ => None) (fun _ => true)) in E. apply lawful_same; tauto.
    - destruct v as [g1 r]. cbn [fst].
      apply (publish_dht_inv version supported sha256 sha512_256 pub_of ec_sign ec_verify blake (fun _ _ _ => true) (fun _ => None) (fun _ => true)) in E. apply lawful_same; tauto.
  Qed.

  Local Notation gact := (gact version supported sha256 sha512_256 pub_of ec_sign ec_verify blake verify voucher_text voucher_of is_address zone).
  Local Notation live_all := (live_all version supported sha256 sha512_256 pub_of ec_sign ec_verify blake verify voucher_text voucher_of is_address zone).

  Lemma admin_key_lawful g m s : HandleAdminInitialiseKey version supported sha256 ec_sign blake g m = Ret s -> lawful g (after s).
  Proof.
    unfold HandleAdminInitialiseKey, quit. intros H. step H. destruct v as [[[id pk] kv]|]; [|apply ret_inj in H; subst s; apply lawful_refl].
    step H. step H. apply finish_rest_inv in H. destruct H as (-> & _). intros P. split; [exact P|]. split; [|auto]. intros m0 E0'. exists m0. split; [exact E0'|constructor].
  Qed.

  Lemma gact_lawful e g ev x : (forall wallet m, ev <> AdminKeyV2 wallet m) -> gact e g ev = Ret x -> lawful g (fst x).
  Proof.
    intros N H. destruct ev; unfold GatewayAdminSpec.gact in H; cbv zeta in H; step H; apply ret_inj in H; subst x; cbn [fst].
    - destruct v as [[g1 a] s]. eapply act_lawful; eauto.
    - apply (list_inv version supported sha256 sha512_256 pub_of ec_sign ec_verify blake (fun _ _ _ => true) (fun _ => None) (fun _ => true)) in E. destruct E as (A & B & _). apply lawful_same; auto.
    - apply admin_list_kept in E. destruct E as ((A & _) & B). apply lawful_same; auto.
    - apply admin_support_kept in E. destruct E as ((A & _) & B). apply lawful_same; auto.
    - eapply admin_key_lawful; eauto.
    - exfalso. eapply N. reflexivity.
    - apply admin_refresh_kept in E. destruct E as ((A & _) & B). apply lawful_same; auto.
  Qed.

  Lemma life_lawful : forall h g g', uninitialised_in h -> live_all g h = Ret g' -> lawful g g'.
  Proof.
    induction h as [|[[reg e] ev] h IH]; intros g g' N H; cbn [GatewayAdminSpec.live_all] in H.
    - apply ret_inj in H. subst. apply lawful_refl.
    - step H. eapply lawful_trans; [apply with_reg_lawful|]. eapply lawful_trans; [eapply gact_lawful; [|exact E]|eapply IH; [|exact H]].
      + intros w m ->. eapply N. left. reflexivity.
      + intros r e' w m I0. eapply N. right. exact I0.
  Qed.
End gm.

(** ** What steps do to channels *)
Section channels.
  Variable verify : gostring -> voucher -> option bytes -> bool.

  Definition taken (m : mgr) (ch : gostring) : Z := match aget bytes_eqb (m_in m) ch with Some c => c_redeemed c | None => 0 end.
  Definition taken_on (m : mgr) (ch : gostring) (k : Z) : Z := match aget bytes_eqb (m_in m) ch with Some c => l_redeemed (get_lane c k) | None => 0 end.

  Lemma receive_effect m ch dv rs m' x : Receive verify m ch dv rs = (m', x) ->
    m_addr m' = m_addr m /\ m_out m' = m_out m /\ (forall ch', ch' <> ch -> aget bytes_eqb (m_in m') ch' = aget bytes_eqb (m_in m) ch') /\
    match x with
    | Credited p => exists v cs, dv = Some v /\ rs = Some cs /\ p = v_amount v - taken_on m ch (v_lane v) /\ 0 < p /\
        taken m ch + p <= ch_balance cs /\ taken m' ch = taken m ch + p /\
        forall k, taken_on m' ch k = if k =? v_lane v then v_amount v else taken_on m ch k
    | _ => taken m' ch = taken m ch /\ forall k, taken_on m' ch k = taken_on m ch k
    end.
  Proof.
    unfold Receive. destruct dv as [sv|]; [|intros [= <- <-]; repeat split; auto]. destruct rs as [cs|]; [|intros [= <- <-]; repeat split; auto].
    assert (On : forall c0 c' x', ReceiveOn verify (m_addr m) c0 sv cs = (c', x') -> c_balance c0 = ch_balance cs -> c_redeemed c0 = taken m ch ->
      (forall k, l_redeemed (get_lane c0 k) = taken_on m ch k) -> (put_in m ch c', x') = (m', x) ->
      m_addr m' = m_addr m /\ m_out m' = m_out m /\ (forall ch', ch' <> ch -> aget bytes_eqb (m_in m') ch' = aget bytes_eqb (m_in m) ch') /\
      match x with
      | Credited p => exists v cs0, Some sv = Some v /\ Some cs = Some cs0 /\ p = v_amount v - taken_on m ch (v_lane v) /\ 0 < p /\
          taken m ch + p <= ch_balance cs0 /\ taken m' ch = taken m ch + p /\
          forall k, taken_on m' ch k = if k =? v_lane v then v_amount v else taken_on m ch k
      | _ => taken m' ch = taken m ch /\ forall k, taken_on m' ch k = taken_on m ch k
      end).
    { intros c0 c' x' R Bl Rd Ln [= <- <-]. split; [reflexivity|]. split; [reflexivity|]. split.
      { intros ch' N. cbn [put_in m_in]. apply (aget_aset_neq bytes_eqb bytes_eqb_eq). exact N. }
      assert (T : taken (put_in m ch c') ch = c_redeemed c') by (unfold taken; cbn [put_in m_in]; rewrite (aget_aset_eq bytes_eqb bytes_eqb_eq); reflexivity).
      assert (To : forall k, taken_on (put_in m ch c') ch k = l_redeemed (get_lane c' k)) by (intros k; unfold taken_on; cbn [put_in m_in]; rewrite (aget_aset_eq bytes_eqb bytes_eqb_eq); reflexivity).
      apply receive_on_spec in R. destruct R as (_ & _ & R). rewrite T.
      destruct x' as [p| |].
      - destruct R as (_ & _ & Ep & Pp & Le & Ec & Lk). exists sv, cs. rewrite <- Ln, <- Rd, <- Bl. repeat (split; [auto|]).
        intros k. rewrite To, Lk, <- Ln. destruct (k =? v_lane sv); reflexivity.
      - destruct R as (Ec & Lk). split; [congruence|]. intros k. rewrite To, Lk. apply Ln.
      - destruct R as (Ec & Lk). split; [congruence|]. intros k. rewrite To, Lk. apply Ln. }
    destruct (aget bytes_eqb (m_in m) ch) as [c|] eqn:G.
    - unfold ReceiveUpdate. destruct (ch_balance cs <? c_balance c); [intros [= <- <-]; repeat split; auto|].
      destruct (ReceiveOn verify (m_addr m) _ sv cs) as [c' x'] eqn:R. intros Q. eapply On; [exact R|reflexivity| |intros k|exact Q].
      + unfold taken. rewrite G. reflexivity.
      + unfold taken_on. rewrite G. destruct c. reflexivity.
    - unfold ReceiveCreate. destruct (ReceiveOn verify (m_addr m) _ sv cs) as [c' x'] eqn:R. intros Q. eapply On; [exact R|reflexivity| |intros k|exact Q].
      + unfold taken. rewrite G. reflexivity.
      + unfold taken_on. rewrite G. reflexivity.
  Qed.

  Lemma pay_in m r k a sg m' p : Pay m r k a sg = (m', p) -> m_in m' = m_in m.
  Proof.
    unfold Pay. destruct (aget _ _ _); [|intros [= <- <-]; reflexivity]. destruct (_ <? _); [intros [= <- <-]; reflexivity|].
    cbv zeta. destruct (sg _); intros [= <- <-]; reflexivity.
  Qed.
  Lemma topup_in m r a t m' b : Topup m r a t = (m', b) -> m_in m' = m_in m.
  Proof.
    unfold Topup, TopupCreate, TopupAdd. destruct (aget _ _ _); destruct t as [|[|]]; intros [= <- <-]; reflexivity.
  Qed.
  Lemma taken_in m m' : m_in m' = m_in m -> (forall ch, taken m' ch = taken m ch) /\ forall ch k, taken_on m' ch k = taken_on m ch k.
  Proof. unfold taken, taken_on. intros ->. auto. Qed.

  Lemma moves_taken ok m m' : moves verify ok m m' -> (forall ch, taken m ch <= taken m' ch) /\ forall ch k, taken_on m ch k <= taken_on m' ch k.
  Proof.
    induction 1 as [m|m ch dv rs m' x m'' R M (A & B)|m r k a sg m' p m'' O R M (A & B)|m r a t m' b m'' O R M (A & B)].
    - split; intros; lia.
    - destruct (receive_effect _ _ _ _ _ _ R) as (_ & _ & Oth & X).
      assert (Y : forall ch0, taken m ch0 <= taken m' ch0 /\ forall k, taken_on m ch0 k <= taken_on m' ch0 k).
      { intros ch0. destruct (bytes_eqb ch0 ch) eqn:Q.
        - apply bytes_eqb_eq in Q. subst ch0. destruct x as [p| |].
          + destruct X as (v & cs & _ & _ & Ep & Pp & _ & Et & Ek). split; [lia|]. intros k. rewrite Ek. destruct (Z.eqb_spec k (v_lane v)) as [->|]; lia.
          + destruct X as (X1 & X2). split; [lia|]. intros k. rewrite X2. lia.
          + destruct X as (X1 & X2). split; [lia|]. intros k. rewrite X2. lia.
        - apply bytes_eqb_neq in Q. unfold taken, taken_on. rewrite (Oth _ Q). split; [lia|]. intros k. lia. }
      split; intros; [specialize (A ch0); destruct (Y ch0); lia|specialize (B ch0 k); destruct (Y ch0) as (_ & Y2); specialize (Y2 k); lia].
    - apply pay_in in R. destruct (taken_in _ _ R) as (C & D). split; intros; [rewrite <- C; apply A|rewrite <- D; apply B].
    - apply topup_in in R. destruct (taken_in _ _ R) as (C & D). split; intros; [rewrite <- C; apply A|rewrite <- D; apply B].
  Qed.

  (** Channels to others are never overdrawn. *)
  Lemma put_solvent m m' r c : solvent m -> m_out m' = aset bytes_eqb (m_out m) r c -> 0 <= c_redeemed c <= c_balance c -> solvent m'.
  Proof.
    intros S E C r0 c0 G. rewrite E, (aget_aset bytes_eqb bytes_eqb_eq) in G. destruct (bytes_eqb r0 r); [injection G as <-; exact C|eapply S; exact G].
  Qed.
  Lemma moves_solvent m m' : moves verify (fun a => 0 <= a) m m' -> solvent m -> solvent m'.
  Proof.
    induction 1 as [m|m ch dv rs m' x m'' R M IH|m r k a sg m' p m'' O R M IH|m r a t m' b m'' O R M IH]; intros S; auto; apply IH.
    - apply receive_effect in R. destruct R as (_ & Eo & _). intros r c G. rewrite Eo in G. eapply S; exact G.
    - unfold Pay in R. destruct (aget bytes_eqb (m_out m) r) as [c|] eqn:G; [|injection R as <- <-; exact S].
      pose proof (S _ _ G) as Sc. destruct (c_balance c <? c_redeemed c + a) eqn:L; [injection R as <- <-; exact S|]. cbv zeta in R.
      destruct (sg _); injection R as <- <-; (eapply put_solvent; [exact S|reflexivity|cbn [c_redeemed c_balance]; lia]).
    - unfold Topup, TopupCreate, TopupAdd in R. destruct (aget bytes_eqb (m_out m) r) as [c|] eqn:G.
      + pose proof (S _ _ G) as Sc. destruct t as [|o]; injection R as <- <-; [exact S|]. eapply put_solvent; [exact S|reflexivity|cbn [c_redeemed c_balance]; lia].
      + destruct t as [|[ad|]]; injection R as <- <-; try exact S. eapply put_solvent; [exact S|reflexivity|cbn [c_redeemed c_balance]; lia].
  Qed.
End channels.

Section lives.
  Variable version : Z.
  Variable supported : list Z.
  Variable sha256 sha512_256 : bytes -> bytes.
  Variable pub_of : bytes -> bytes.
  Variable ec_sign : bytes -> bytes -> option bytes.
  Variable ec_verify : bytes -> bytes -> bytes -> bool.
  Variable blake : bytes -> bytes.
  Variable verify : gostring -> voucher -> option bytes -> bool.
  Variable voucher_text : voucher -> gostring.
  Variable voucher_of : gostring -> option voucher.
  Variable is_address : gostring -> bool.
  Variable zone : Z.
  Local Notation gact := (gact version supported sha256 sha512_256 pub_of ec_sign ec_verify blake verify voucher_text voucher_of is_address zone).
  Local Notation live_all := (live_all version supported sha256 sha512_256 pub_of ec_sign ec_verify blake verify voucher_text voucher_of is_address zone).
  Local Notation took := (took verify voucher_of is_address).
  Local Notation earns := (earns version supported sha256 sha512_256 pub_of ec_sign ec_verify blake verify voucher_text voucher_of is_address zone).

  Lemma life_moves h g g' m : uninitialised_in h -> live_all g h = Ret g' -> g_pay g = Some m ->
    exists m', g_pay g' = Some m' /\ moves verify (fun _ => True) m m'.
  Proof.
    intros N H E. destruct (life_lawful version supported sha256 sha512_256 pub_of ec_sign ec_verify blake verify voucher_text voucher_of is_address zone
      (fun _ => True) (fun _ _ _ => I) h g g' N H) as (_ & P & _); [repeat split|]. exact (P m E).
  Qed.

  Lemma once_pf e1 g1 g1' ch t1 x1 v1 h g2 e2 g2' t2 x2 v2 : took e1 g1 g1' ch t1 x1 -> uninitialised_in h -> live_all g1' h = Ret g2 ->
    took e2 g2 g2' ch t2 x2 -> voucher_of t1 = Some v1 -> voucher_of t2 = Some v2 -> v_lane v2 = v_lane v1 -> v_amount v1 < v_amount v2.
  Proof.
    intros (m & v & cs & m' & m'' & E1 & V1 & _ & _ & R1 & E2 & Ei) N L (n & w & cs2 & n' & n'' & F1 & V2 & _ & _ & R2 & _) W1 W2 La.
    rewrite W1 in V1. injection V1 as <-. rewrite W2 in V2. injection V2 as <-.
    destruct (life_moves _ _ _ _ N L E2) as (k & Ek & M). rewrite F1 in Ek. injection Ek as <-.
    apply receive_effect in R1. destruct R1 as (_ & _ & _ & q & c1 & [= <-] & _ & _ & _ & _ & _ & T1).
    apply receive_effect in R2. destruct R2 as (_ & _ & _ & q2 & c2 & [= <-] & _ & P2 & P2' & _).
    apply moves_taken in M. destruct M as (_ & M). specialize (M ch (v_lane v1)). destruct (taken_in _ _ Ei) as (_ & Ti). rewrite Ti, T1, Z.eqb_refl in M.
    rewrite La in P2. lia.
  Qed.

  Lemma earns_pf ch g h g' xs : earns ch g h g' xs -> forall m, g_pay g = Some m -> uninitialised_in h ->
    xs = [] \/ exists reg e ev cs, In (reg, e, ev) h /\ e_chain e ch = Some cs /\ taken m ch + zsum xs <= ch_balance cs.
  Proof.
    induction 1 as [g|g reg e ev g1 a h g' xs A Ea IH|g reg e ev g1 a h g' xs text x A T Ea IH]; intros m Em N.
    - left. reflexivity.
    - assert (N' : uninitialised_in h) by (intros r e' w q I0; eapply N; right; exact I0).
      destruct (gact_lawful version supported sha256 sha512_256 pub_of ec_sign ec_verify blake verify voucher_text voucher_of is_address zone
        (fun _ => True) (fun _ _ _ => I) e (with_reg g reg) ev _ ltac:(intros w q ->; eapply N; left; reflexivity) A) as (_ & P & _); [repeat split|].
      destruct (P m Em) as (m1 & E1 & M). apply moves_taken in M. destruct M as (M & _). specialize (M ch).
      destruct (IH m1 E1 N') as [IH1|(r & e' & v' & cs & I1 & Ec & Le)]; [left; exact IH1|]. right. exists r, e', v', cs. split; [right; exact I1|]. split; [exact Ec|lia].
    - assert (N' : uninitialised_in h) by (intros r e' w q I0; eapply N; right; exact I0). right.
      destruct T as (m0 & v & cs & m' & m'' & E1 & V1 & _ & Ec & R1 & E2 & Ei). cbn [with_reg g_pay] in E1. rewrite Em in E1. injection E1 as <-.
      apply receive_effect in R1. destruct R1 as (_ & _ & _ & q & c1 & [= <-] & [= <-] & _ & _ & Le & T1 & _).
      destruct (taken_in _ _ Ei) as (Ti & _). specialize (Ti ch). unfold zsum. cbn [fold_right].
      destruct (IH m'' E2 N') as [->|(r & e' & v' & cs' & I1 & Ec' & Le')].
      + exists reg, e, ev, cs. split; [left; reflexivity|]. split; [exact Ec|]. cbn [fold_right]. lia.
      + exists r, e', v', cs'. split; [right; exact I1|]. split; [exact Ec'|]. unfold zsum in Le'. lia.
  Qed.

  (** Initialisations included. *)
  Lemma new_solvent a : solvent (NewMgr a).
  Proof. intros r c G. discriminate G. Qed.
  Lemma gact_sound e g ev x : gact e g ev = Ret x -> sound_money g -> sound_money (fst x).
  Proof.
    intros H (P1 & P2 & P3 & S). assert (D : (forall wallet m, ev <> AdminKeyV2 wallet m) \/ exists wallet m, ev = AdminKeyV2 wallet m) by (destruct ev; eauto; left; discriminate).
    destruct D as [N|(wallet & m & ->)].
    - destruct (gact_lawful version supported sha256 sha512_256 pub_of ec_sign ec_verify blake verify voucher_text voucher_of is_address zone
        (fun a => 0 <= a) ltac:(intros z n Hz; cbn beta in *; apply Z.mul_nonneg_nonneg; [exact Hz|lia]) e g ev x N H) as ((Q1 & Q2 & Q3) & P & Pn); [repeat split; assumption|].
      split; [exact Q1|]. split; [exact Q2|]. split; [exact Q3|]. intros m' E'. destruct (g_pay g) as [m|] eqn:E; [|rewrite (Pn eq_refl) in E'; discriminate].
      destruct (P m eq_refl) as (m2 & E2 & M). rewrite E' in E2. injection E2 as <-. eapply moves_solvent; [exact M|]. apply S. reflexivity.
    - unfold GatewayAdminSpec.gact in H. cbv zeta in H. step H. apply ret_inj in H. subst x. cbn [fst].
      unfold HandleAdminInitialiseKeyV2, quit in E. step E. destruct v0 as [[[[[[id pk] kv] w] la] lt]|]; [|apply ret_inj in E; subst v; exact (conj P1 (conj P2 (conj P3 S)))].
      step E. destruct (wallet w).
      + step E. apply finish_rest_inv in E. destruct E as (-> & _). split; [exact P1|]. split; [exact P2|]. split; [exact P3|]. cbn. intros m' [= <-]. apply new_solvent.
      + apply ret_inj in E. subst v. split; [exact P1|]. split; [exact P2|]. split; [exact P3|]. cbn. discriminate.
  Qed.
  Lemma solvent_pf : forall h g g', live_all g h = Ret g' -> sound_money g -> sound_money g'.
  Proof.
    induction h as [|[[reg e] ev] h IH]; intros g g' H S; cbn [GatewayAdminSpec.live_all] in H.
    - apply ret_inj in H. subst. exact S.
    - step H. eapply IH; [exact H|]. eapply gact_sound; [exact E|exact S].
  Qed.
End lives.
