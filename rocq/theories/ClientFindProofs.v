(** * Proofs about the client's searches *)
From Coq Require Import List ZArith Bool Lia ZifyBool ZifyNat.
From Coq Require Import Init.Byte.
From Verif Require Import Base BaseProofs Ids IdsProofs Json Crypto Message Offer OfferProofs Schema Messages WireSpec
  Payment PaymentSpec Register RegisterProofs GatewaySpec GatewayProofs Client ClientSpec ClientProofs.
Import ListNotations.
Open Scope Z_scope.
Open Scope go_scope.

Lemma validate_provider_iff r : validateProviderInfo r = Ret true <-> complete_provider r.
Proof.
  unfold validateProviderInfo. split.
  - intros H. step H; [discriminate|]. apply keys_readable_inv in H. destruct H as [A B].
    repeat (apply orb_false_elim in E; destruct E as [E ?]). unfold complete_provider.
    repeat match goal with X : empty _ = false |- _ => apply empty_false in X end. auto 12.
  - intros (A1 & A2 & A3 & A4 & A5 & A6 & (k & A7) & (k' & A8)). apply empty_false in A1, A2, A3, A4, A5, A6.
    rewrite A1, A2, A3, A4, A5, A6. cbn [orb]. unfold keys_readable, GetRootSigningKey, GetSigningKey. rewrite A7. cbn [obind]. rewrite A8. reflexivity.
Qed.
Lemma validate_gateway_iff r : validateGatewayInfo r = Ret true <-> complete r.
Proof.
  split; [apply validate_gateway_inv|]. unfold validateGatewayInfo.
  intros (A1 & A2 & A3 & A4 & A5 & A6 & A0 & (k & A7) & (k' & A8)). apply empty_false in A0, A1, A2, A3, A4, A5, A6.
  rewrite A0, A1, A2, A3, A4, A5, A6. cbn [orb]. unfold keys_readable, GetRootSigningKey, GetSigningKey. rewrite A7. cbn [obind]. rewrite A8. reflexivity.
Qed.

Section proofs.
  Variable version : Z.
  Variable supported : list Z.
  Variable sha256 : bytes -> bytes.
  Variable pub_of : bytes -> bytes.
  Variable ec_verify : bytes -> bytes -> bytes -> bool.
  Variable blake : bytes -> bytes.
  Variable voucher_text : voucher -> gostring.
  Variable rand_int : list draw -> Z.
  Variable rand_bytes : list draw -> bytes.

  Notation signed_by := (ClientSpec.signed_by pub_of ec_verify blake).
  Notation proven := (ClientSpec.proven sha256 pub_of ec_verify blake).
  Notation acceptable := (ClientSpec.acceptable sha256 pub_of ec_verify blake).
  Notation sifted := (ClientSpec.sifted sha256 pub_of ec_verify blake).
  Notation advertised := (ClientSpec.advertised sha256 pub_of ec_verify blake).
  Notation answered := (ClientSpec.answered pub_of ec_verify blake).
  Notation check_offer := (Client.check_offer sha256 pub_of ec_verify blake).
  Notation check_offers := (Client.check_offers sha256 pub_of ec_verify blake).
  Notation take_offers := (Client.take_offers sha256 pub_of ec_verify blake).
  Notation take_responses := (Client.take_responses sha256 pub_of ec_verify blake).
  Notation take_digests := (Client.take_digests sha256 pub_of ec_verify blake).

  (** ** Sifting *)

  Definition same_providers (c c' : client) : Prop :=
    start reg (c_reg c') = start reg (c_reg c) /\ providerDiscv reg (c_reg c') = providerDiscv reg (c_reg c) /\
    providersMap reg (c_reg c') = providersMap reg (c_reg c).
  Lemma same_acceptable c c' s : same_providers c c' -> (acceptable c' s <-> acceptable c s).
  Proof. intros (A & B & C). unfold ClientSpec.acceptable. rewrite A, B, C. reflexivity. Qed.
  Lemma same_trans a b c : same_providers a b -> same_providers b c -> same_providers a c.
  Proof. intros (A & B & C) (A' & B' & C'). repeat split; congruence. Qed.
  Lemma sifted_same c c' l0 l : same_providers c c' -> sifted c' l0 l -> sifted c l0 l.
  Proof. intros S H. induction H; constructor; auto; rewrite <- (same_acceptable _ _ _ S); assumption. Qed.
  Lemma sifted_in c l r s : sifted c l r -> In s r -> In s l /\ acceptable c s.
  Proof.
    induction 1 as [|x l r A H IH|x l r A H IH]; intros I; [destruct I| |].
    - destruct I as [<-|I]; [split; [left; reflexivity|exact A]|]. destruct (IH I). split; [right; assumption|assumption].
    - destruct (IH I). split; [right; assumption|assumption].
  Qed.
  Lemma acceptable_proven e c s : acceptable c s -> proven e c s.
  Proof. intros (_ & _ & i & p & k & A & B & _ & D & E & F). exists i, p, k. split; [exact A|]. split; [left; exact B|]. auto. Qed.

  Lemma check_offer_exact c s ok c' : check_offer c s = Ret (ok, c') -> same_providers c c' /\ (ok = true <-> acceptable c s).
  Proof.
    unfold Client.check_offer, FindProvider. intros H. step H. destruct v as [p c1]. step E. destruct v as [y m']. cbn [fst snd] in E.
    apply ret_inj in E. injection E as <- <-. destruct (provider_same reg _ _ _ _ E0) as (_ & _ & St & _ & _ & _ & Pm & Pd).
    assert (S : same_providers c (with_manager c m')) by (split; [exact St|split; [exact Pd|exact Pm]]).
    assert (G : forall id0 p0, y = Some p0 \/ True -> s_provider s = Some id0 -> start reg (c_reg c) = true -> providerDiscv reg (c_reg c) = true ->
                aget bytes_eqb (providersMap reg (c_reg c)) (ToString id0) = y).
    { intros id0 p0 _ I A B. unfold GetProvider in E0. rewrite A, B, I in E0. cbn [negb orb deref obind RLock RUnlock] in E0.
      destruct (aget _ _ _); cbn [obind] in E0; apply ret_inj in E0; injection E0 as <- _; reflexivity. }
    destruct y as [p|].
    2:{ apply ret_inj in H. injection H as <- <-. split; [exact S|]. split; [discriminate|].
        intros (A & B & i & p & k & I & P & _). rewrite (G i p (or_intror Logic.I) I A B) in P. discriminate. }
    assert (W : start reg (c_reg c) = true /\ providerDiscv reg (c_reg c) = true /\ exists i, s_provider s = Some i).
    { unfold GetProvider in E0. destruct (negb _ || negb _) eqn:X; [discriminate|]. apply orb_false_elim in X. destruct X as [X1 X2].
      apply negb_false_iff in X1, X2. destruct (s_provider s) as [i|]; [|discriminate]. eauto. }
    destruct W as (W1 & W2 & i & W3). pose proof (G i p (or_intror Logic.I) W3 W1 W2) as W4.
    step H. assert (V : v = true <-> complete_provider p).
    { rewrite <- validate_provider_iff, E. split; [intros ->; reflexivity|apply ret_inj]. }
    assert (Same : forall p' i', s_provider s = Some i' -> aget bytes_eqb (providersMap reg (c_reg c)) (ToString i') = Some p' -> p' = p).
    { intros p' i' I' P'. rewrite W3 in I'. injection I' as <-. congruence. }
    step H. { apply ret_inj in H. injection H as <- <-. split; [exact S|]. split; [discriminate|]. intros (_ & _ & i' & p' & k & I & P & C & _).
              rewrite (Same _ _ I P) in C. apply V in C. subst v. discriminate. }
    apply negb_false_iff in E1. subst v. step H. unfold GetSigningKey in E1. destruct v as [k|].
    2:{ apply ret_inj in H. injection H as <- <-. split; [exact S|]. split; [discriminate|]. intros (_ & _ & i' & p' & k & I & P & _ & K & _).
        rewrite (Same _ _ I P) in K. congruence. }
    step H. step H.
    { apply ret_inj in H. injection H as <- <-. split; [exact S|]. split; [discriminate|]. intros (_ & _ & i' & p' & k' & I & P & _ & K & X & _).
      rewrite (Same _ _ I P) in K. assert (k' = k) by congruence. subst k'. rewrite E2 in X. apply ret_inj in X. subst v. discriminate. }
    apply negb_false_iff in E3. subst v. step H. apply ret_inj in H. injection H as <- <-. split; [exact S|]. split.
    - intros ->. split; [exact W1|]. split; [exact W2|]. exists i, p, k. split; [exact W3|]. split; [exact W4|]. split; [apply V; reflexivity|]. auto.
    - intros (_ & _ & i' & p' & k' & I & P & _ & _ & _ & X). rewrite E3 in X. apply ret_inj in X. exact X.
  Qed.

  Lemma check_offers_exact : forall l c r c', check_offers c l = Ret (r, c') -> same_providers c c' /\ sifted c l r.
  Proof.
    induction l as [|s t IH]; intros c r c' H; cbn [Client.check_offers] in H.
    - apply ret_inj in H. injection H as <- <-. split; [repeat split|constructor].
    - step H. destruct v as [ok c1]. step H. destruct v as [r1 c2]. cbn [fst snd] in H. apply ret_inj in H. injection H as <- <-.
      destruct (check_offer_exact _ _ _ _ E) as (S & K). destruct (IH _ _ _ E0) as (S2 & F).
      split; [eapply same_trans; eauto|]. apply (sifted_same _ _ _ _ S) in F. destruct ok; constructor; auto; [apply K; reflexivity|].
      intros A. apply K in A. discriminate.
  Qed.

  (** The offers taken: the acceptable ones up to the maximum. *)
  Lemma take_offers_exact e : forall l c taken max r c', taken < max -> take_offers c l taken max = Ret (r, c') ->
    drift e c c' /\ c_pay c' = c_pay c /\ c_drawn c' = c_drawn c /\ same_providers c c' /\
    exists all rest, sifted c all r /\ l = all ++ rest /\ taken + Z.of_nat (length r) <= max /\ (taken + Z.of_nat (length r) < max -> rest = []).
  Proof.
    induction l as [|s t IH]; intros c taken max r c' M H; cbn [Client.take_offers] in H.
    - apply ret_inj in H. injection H as <- <-. split; [apply drift_refl|]. split; [reflexivity|]. split; [reflexivity|]. split; [repeat split|].
      exists [], []. split; [constructor|]. split; [reflexivity|]. cbn. split; [lia|auto].
    - step H. destruct v as [ok c1]. destruct (check_offer_exact _ _ _ _ E) as (S & K). destruct (check_offer_inv _ _ _ _ e _ _ _ _ E) as (D & P & W & _).
      destruct ok.
      + assert (A : acceptable c s) by (apply K; reflexivity). step H.
        * apply ret_inj in H. injection H as <- <-. split; [exact D|]. split; [exact P|]. split; [exact W|]. split; [exact S|]. exists [s], t.
          split; [constructor; [exact A|constructor]|]. split; [reflexivity|]. cbn. split; lia.
        * step H. destruct v as [r1 c2]. cbn [fst snd] in H. apply ret_inj in H. injection H as <- <-.
          destruct (IH _ (taken + 1) max _ _ ltac:(lia) E1) as (D2 & P2 & W2 & S2 & all & rest & F & -> & L1 & L2).
          split; [eapply drift_trans; eauto|]. split; [congruence|]. split; [congruence|]. split; [eapply same_trans; eauto|].
          exists (s :: all), rest. split; [constructor; [exact A|eapply sifted_same; eauto]|]. split; [reflexivity|]. cbn [length]. split; [lia|].
          intros X. apply L2. lia.
      + destruct (IH _ taken max _ _ M H) as (D2 & P2 & W2 & S2 & all & rest & F & -> & L1 & L2).
        split; [eapply drift_trans; eauto|]. split; [congruence|]. split; [congruence|]. split; [eapply same_trans; eauto|].
        exists (s :: all), rest. split; [apply sifted_drop; [intros A; apply K in A; discriminate|eapply sifted_same; eauto]|]. auto.
  Qed.
  (** Whatever the maximum. *)
  Lemma take_offers_inv e : forall l c taken max r c', take_offers c l taken max = Ret (r, c') ->
    drift e c c' /\ c_pay c' = c_pay c /\ c_drawn c' = c_drawn c /\ forall s, In s r -> In s l /\ proven e c s.
  Proof.
    induction l as [|s t IH]; intros c taken max r c' H; cbn [Client.take_offers] in H.
    - apply ret_inj in H. injection H as <- <-. split; [apply drift_refl|]. split; [reflexivity|]. split; [reflexivity|]. intros s [].
    - step H. destruct v as [ok c1]. destruct (check_offer_inv _ _ _ _ e _ _ _ _ E) as (D & P & W & K). destruct ok.
      + step H.
        * apply ret_inj in H. injection H as <- <-. split; [exact D|]. split; [exact P|]. split; [exact W|]. intros x [<-|[]]. split; [left; reflexivity|auto].
        * step H. destruct v as [r1 c2]. cbn [fst snd] in H. apply ret_inj in H. injection H as <- <-.
          destruct (IH _ _ _ _ _ E1) as (D2 & P2 & W2 & F). split; [eapply drift_trans; eauto|]. split; [congruence|]. split; [congruence|].
          intros x [<-|I]; [split; [left; reflexivity|auto]|]. destruct (F x I). split; [right; assumption|eapply proven_back; eauto].
      + destruct (IH _ _ _ _ _ H) as (D2 & P2 & W2 & F). split; [eapply drift_trans; eauto|]. split; [congruence|]. split; [congruence|].
        intros x I. destruct (F x I). split; [right; assumption|eapply proven_back; eauto].
  Qed.

  (** ** Standard discovery *)

  Notation FindStandard := (FindOffersStandardDiscovery version supported sha256 pub_of ec_verify blake rand_int).
  Notation FindStandardV2 := (FindOffersStandardDiscoveryV2 version supported sha256 pub_of ec_verify blake voucher_text rand_int).

  Lemma find_standard_inv e c cid gid r c' out : FindStandard e c cid gid = Ret (r, c', out) ->
    drift e c c' /\ c_pay c' = c_pay c /\ exists id, gid = Some id /\
    ((aget bytes_eqb (c_active c) (ToString id) = None /\ r = ErrR /\ out = []) \/
     exists gw request, aget bytes_eqb (c_active c) (ToString id) = Some gw /\
       EncodeClientStandardDiscoverRequest version supported cid (rand_int (c_drawn c)) (ce_now e + c_ttl c) [] [] = Ret request /\
       out = [(r_client_ap gw, request)] /\
       forall l, r = OkR l -> exists response i found offers funded, answered e 0 gw request response /\
         DecodeClientStandardDiscoverResponse sha256 response = Ret (OkR (Some i, rand_int (c_drawn c), found, offers, funded)) /\
         l = items offers /\ exists j, cid = Some j /\ ToString i = ToString j).
  Proof.
    unfold FindOffersStandardDiscovery. intros H. destruct gid as [id|]; [|discriminate]. cbn [deref obind] in H.
    destruct (aget bytes_eqb (c_active c) (ToString id)) as [gw|] eqn:A.
    2:{ apply ret_inj in H. injection H as <- <- <-. split; [apply drift_refl|]. split; [reflexivity|]. exists id. split; [reflexivity|]. left. auto. }
    cbv zeta in H. step H. destruct v as [x o]. destruct (standard_inv _ _ _ _ _ _ _ _ _ _ _ _ _ _ E) as (request & En & -> & K).
    destruct x as [offers|].
    - step H. destruct v as [l c2]. cbn [snd] in H. apply ret_inj in H. injection H as <- <- <-. destruct (check_offers_inv _ _ _ _ e _ _ _ _ E0) as (D & P & _ & _).
      split; [eapply drift_trans; [apply drift_drew|exact D]|]. split; [exact P|]. exists id. split; [reflexivity|]. right. exists gw, request.
      split; [exact A|]. split; [exact En|]. split; [reflexivity|]. intros l0 [= <-].
      destruct (K _ eq_refl) as (response & i & f & fu & An & De & j & J1 & J2). exists response, i, f, offers, fu. eauto 8.
    - apply ret_inj in H. injection H as <- <- <-. split; [apply drift_drew|]. split; [reflexivity|]. exists id. split; [reflexivity|]. right. exists gw, request.
      split; [exact A|]. split; [exact En|]. split; [reflexivity|discriminate].
  Qed.

  Notation all_paid := (ClientSpec.all_paid version supported voucher_text).
  Notation from_answer := (ClientSpec.from_answer sha256 pub_of ec_verify blake).

  Lemma all_paid_nil c gw cid l : all_paid c gw cid l [].
  Proof. intros ? ? []. Qed.
  Lemma all_paid_app c gw cid a b x y : all_paid c gw cid a x -> all_paid c gw cid b y -> all_paid c gw cid (a ++ b) (x ++ y).
  Proof.
    intros A B url m I. apply in_app_or in I. destruct I as [I|I]; [destruct (A _ _ I) as (U & z & Z1 & Z2)|destruct (B _ _ I) as (U & z & Z1 & Z2)];
      (split; [exact U|]; exists z; split; [apply in_or_app; auto|exact Z2]).
  Qed.

  Lemma find_standard_v2_inv e c cid gid max r c' out : FindStandardV2 e c cid gid max = Ret (r, c', out) ->
    drift e c c' /\ exists id, gid = Some id /\
    ((aget bytes_eqb (c_active c) (ToString id) = None /\ r = ErrR /\ c_pay c' = c_pay c /\ out = []) \/
     exists gw rows, aget bytes_eqb (c_active c) (ToString id) = Some gw /\ spent e c c' rows /\ standard_bill c gw max rows /\
       all_paid c gw cid rows out /\
       forall l, r = OkR l -> l = [] \/ exists j offers, cid = Some j /\ from_answer e gw j out offers /\
         (forall s, In s l -> In s offers /\ proven e c s) /\
         (1 <= max -> Z.of_nat (length l) <= max /\ exists all rest, offers = all ++ rest /\ sifted c all l /\ (Z.of_nat (length l) < max -> rest = []))).
  Proof.
    unfold FindOffersStandardDiscoveryV2. intros H. destruct gid as [id|]; [|discriminate]. cbn [deref obind] in H.
    destruct (aget bytes_eqb (c_active c) (ToString id)) as [gw|] eqn:A.
    2:{ apply ret_inj in H. injection H as <- <- <-. split; [apply drift_refl|]. exists id. split; [reflexivity|]. left. auto. }
    assert (Act : aget bytes_eqb (c_active c) (ToString id) = Some gw) by exact A.
    step H. destruct v as [p c1]. destruct (client_pay_inv _ _ _ _ _ _ _ _ E) as (D1 & [_ W1] & rows1 & S1 & R1).
    destruct p as [[ch text]|]; cbn [receipt] in R1.
    2:{ apply ret_inj in H. injection H as <- <- <-. split; [exact D1|]. exists id. split; [reflexivity|]. right. exists gw, []. subst rows1.
        split; [exact Act|]. split; [exact S1|]. split; [exists [], []; split; [reflexivity|]; split; [cbn; lia|]; split; [constructor|left; reflexivity]|]. split; [apply all_paid_nil|discriminate]. }
    destruct R1 as (v1 & -> & ->). cbv zeta in H. step H. destruct v as [x1 o1]. destruct (standard_v2_inv _ _ _ _ _ _ _ _ _ _ _ _ _ _ _ _ E0) as (q1 & En1 & ->).
    set (row1 := (r_address gw, 0, c_search c, ch, v1)) in *.
    assert (AP1 : all_paid c gw cid [row1] [(r_client_ap gw, q1)]).
    { intros url m [I|[]]. injection I as <- <-. split; [reflexivity|]. exists row1. split; [left; reflexivity|]. left. unfold search_with, row1. eauto. }
    assert (D1' : drift e c (drew c1 DrawInt63)) by (eapply drift_trans; [exact D1|apply drift_drew]).
    assert (S1' : spent e c (drew c1 DrawInt63) [row1]) by (eapply spent_same; [|exact S1]; reflexivity).
    assert (B1 : forall k, k = [row1] -> standard_bill c gw max k).
    { intros k ->. exists [row1], []. split; [reflexivity|]. split; [cbn; lia|]. split; [repeat constructor|auto]. }
    destruct x1 as [[digests pr]|].
    2:{ apply ret_inj in H. injection H as <- <- <-. split; [exact D1'|]. exists id. split; [reflexivity|]. right. exists gw, [row1].
        split; [exact Act|]. split; [exact S1'|]. split; [auto|]. split; [exact AP1|discriminate]. }
    step H. destruct v as [[r2 c2] o2].
    assert (Set1 : client_settings c1 = client_settings c) by apply D1.
    assert (X : exists rows2, drift e c c2 /\ c_reg c2 = c_reg c /\ spent e c c2 ([row1] ++ rows2) /\ (length rows2 <= 1)%nat /\
                  Forall (fun x => to_whom x = r_address gw /\ how_much x = c_search c) rows2 /\ all_paid c gw cid rows2 o2).
    { destruct pr.
      - step E1. destruct v as [p2 c3]. destruct (client_topup_inv _ _ _ _ _ _ _ _ E2) as (D2 & [_ W2] & rows2 & S2 & R2). exists rows2.
        destruct p2 as [[ch2 text2]|]; cbn [receipt] in R2.
        + destruct R2 as (v2 & -> & ->). step E1. destruct v as [x2 o3]. destruct (standard_v2_inv _ _ _ _ _ _ _ _ _ _ _ _ _ _ _ _ E3) as (q2 & En2 & ->).
          apply ret_inj in E1. injection E1 as <- <- <-. cbn [snd].
          assert (Sr : c_search (drew c1 DrawInt63) = c_search c) by (unfold client_settings in Set1; cbn; congruence).
          split; [eapply drift_trans; [exact D1'|]; eapply drift_trans; [exact D2|apply drift_drew]|]. split; [cbn; rewrite W2; exact W1|].
          split; [eapply spent_app; [exact S1'|]; eapply spent_same; [|exact S2]; reflexivity|]. split; [cbn; lia|].
          split; [repeat constructor; cbn; exact Sr|].
          intros url m [I|[]]. injection I as <- <-. split; [reflexivity|]. eexists. split; [left; reflexivity|]. left. unfold search_with. eauto.
        + subst rows2. apply ret_inj in E1. injection E1 as <- <- <-. split; [eapply drift_trans; eauto|]. split; [rewrite W2; exact W1|].
          split; [eapply spent_app; eauto|]. split; [cbn; lia|]. split; [constructor|apply all_paid_nil].
      - apply ret_inj in E1. injection E1 as <- <- <-. exists []. split; [exact D1'|]. split; [exact W1|]. split; [exact S1'|]. split; [cbn; lia|]. split; [constructor|apply all_paid_nil]. }
    destruct X as (rows2 & D2 & Rg2 & S2 & L2 & F2 & AP2). clear E1.
    assert (AP12 : all_paid c gw cid ([row1] ++ rows2) ([(r_client_ap gw, q1)] ++ o2)) by (apply all_paid_app; assumption).
    assert (F12 : Forall (fun x => to_whom x = r_address gw /\ how_much x = c_search c) ([row1] ++ rows2)) by (apply Forall_app; split; [repeat constructor|exact F2]).
    assert (B2 : standard_bill c gw max ([row1] ++ rows2)).
    { exists ([row1] ++ rows2), []. rewrite app_nil_r. split; [reflexivity|]. split; [rewrite app_length; cbn; lia|]. auto. }
    destruct r2 as [ds|].
    2:{ apply ret_inj in H. injection H as <- <- <-. split; [exact D2|]. exists id. split; [reflexivity|]. right. exists gw, ([row1] ++ rows2).
        split; [exact Act|]. split; [exact S2|]. split; [exact B2|]. split; [exact AP12|discriminate]. }
    step H.
    { apply ret_inj in H. injection H as <- <- <-. split; [exact D2|]. exists id. split; [reflexivity|]. right. exists gw, ([row1] ++ rows2).
      split; [exact Act|]. split; [exact S2|]. split; [exact B2|]. split; [exact AP12|]. intros l [= <-]. left. reflexivity. }
    step H. rename v into ds'.
    assert (K : 0 <= Z.of_nat (length (items ds')) <= max).
    { destruct (Z.of_nat (length (items ds)) >? max) eqn:G.
      - destruct (max <? 0) eqn:M; [discriminate|]. apply ret_inj in E2. subst ds'. destruct ds as [ds|]; cbn [option_map items length] in *; [|lia].
        rewrite firstn_length. lia.
      - apply ret_inj in E2. subst ds'. lia. }
    clear E2. step H. destruct v as [p3 c3]. destruct (client_pay_inv _ _ _ _ _ _ _ _ E2) as (D3 & [_ W3] & rows3 & S3 & R3).
    assert (Of : c_offer c2 = c_offer c) by (pose proof (d_settings _ _ _ D2) as X; unfold client_settings in X; congruence).
    rewrite Of in R3. assert (D3' : drift e c c3) by (eapply drift_trans; eauto).
    assert (S3' : spent e c c3 (([row1] ++ rows2) ++ rows3)) by (eapply spent_app; eauto).
    destruct p3 as [[ch3 text3]|]; cbn [receipt] in R3.
    2:{ subst rows3. rewrite app_nil_r in S3'. apply ret_inj in H. injection H as <- <- <-. split; [exact D3'|]. exists id. split; [reflexivity|]. right.
        exists gw, ([row1] ++ rows2). split; [exact Act|]. split; [exact S3'|]. split; [exact B2|]. split; [exact AP12|discriminate]. }
    destruct R3 as (v3 & -> & ->). cbv zeta in H. step H. destruct v as [x3 o3].
    destruct (standard_offer_inv _ _ _ _ _ _ _ _ _ _ _ _ _ _ _ _ _ E3) as (q3 & En3 & -> & K3).
    step H. destruct v as [l3 c4]. cbn [fst snd] in H. apply ret_inj in H. injection H as <- <- <-. cbn [fst snd] in *.
    destruct (take_offers_inv e _ _ _ _ _ _ E4) as (D4 & P4 & _ & F4).
    split; [eapply drift_trans; [exact D3'|]; eapply drift_trans; [apply drift_drew|exact D4]|]. exists id. split; [reflexivity|]. right.
    set (row3 := (r_address gw, 0, Z.of_nat (length (items ds')) * c_offer c, ch3, v3)) in *.
    exists gw, (([row1] ++ rows2) ++ [row3]). split; [exact Act|]. split; [eapply spent_same; [|exact S3']; exact P4|].
    split. { exists ([row1] ++ rows2), [row3]. split; [reflexivity|]. split; [rewrite app_length; cbn; lia|]. split; [exact F12|]. right.
             exists row3, (Z.of_nat (length (items ds'))). auto. }
    split. { cbn [fst snd]. change ((r_client_ap gw, q1) :: o2 ++ [(r_client_ap gw, q3)]) with (([(r_client_ap gw, q1)] ++ o2) ++ [(r_client_ap gw, q3)]).
             apply all_paid_app; [exact AP12|]. intros url m [I|[]]. injection I as <- <-. split; [reflexivity|]. exists row3.
             split; [left; reflexivity|]. right. unfold offers_with, row3. eauto 6. }
    intros l [= <-]. destruct x3 as [offers|]; [|cbn in E4; apply ret_inj in E4; injection E4 as <- _; left; reflexivity]. right.
    destruct (K3 _ eq_refl) as (response & i & f & fu & tp & An & De & j & J1 & J2). exists j, (items offers). split; [exact J1|]. split.
    { exists q3, response, i, (rand_int (c_drawn c3)), f, offers, fu, tp.
      split; [right; apply in_or_app; right; left; reflexivity|]. auto. }
    split. { intros s I. destruct (F4 s I). split; [assumption|]. eapply proven_back; [exact D3'|]. eapply proven_back; [apply drift_drew|eassumption]. }
    intros M. destruct (take_offers_exact e _ _ 0 max _ _ ltac:(lia) E4) as (_ & _ & _ & S4 & all & rest & Si & Eq & Le & Re). split; [lia|].
    exists all, rest. split; [exact Eq|]. split; [|intros X; apply Re; lia].
    eapply sifted_same; [|exact Si]. cbn. assert (R : c_reg (drew c3 DrawInt63) = c_reg c) by (cbn; congruence). unfold same_providers. rewrite R. auto.
  Qed.

  (** ** Discovery through a gateway *)

  Notation FindDHT := (FindOffersDHTDiscovery version supported sha256 pub_of ec_verify blake rand_int).
  Notation FindDHTV2 := (FindOffersDHTDiscoveryV2 version supported sha256 pub_of ec_verify blake voucher_text rand_int).

  Lemma advertised_back e c c' id resp l : drift e c c' -> advertised e c' id resp l -> advertised e c id resp l.
  Proof.
    intros D (r & cid & nonce & f & fu & os & G & H). exists r, cid, nonce, f, fu, os. split; [apply D, G|exact H].
  Qed.

  Lemma aget_aset_bytes {A} (l : list (gostring * A)) k v k' : aget bytes_eqb (aset bytes_eqb l k v) k' = if bytes_eqb k' k then Some v else aget bytes_eqb l k'.
  Proof. apply aget_aset. apply bytes_eqb_eq. Qed.

  Lemma take_responses_inv e : forall l n c res r c', take_responses e n c l res = Ret (r, c') ->
    drift e c c' /\ c_pay c' = c_pay c /\
    forall g os, aget bytes_eqb r g = Some os -> aget bytes_eqb res g = Some os \/
      exists id resp lo, In (id, resp) l /\ ToString id = g /\ advertised e c id resp lo /\ (forall s, In s os -> In s lo /\ proven e c s).
  Proof.
    induction l as [|[id resp] t IH]; intros n c res r c' H; cbn [Client.take_responses] in H.
    - apply ret_inj in H. injection H as <- <-. split; [apply drift_refl|]. split; [reflexivity|]. auto.
    - step H. destruct v as [x c1]. destruct (check_response_inv _ _ _ _ _ _ _ _ _ _ E) as (D & P & W & K).
      assert (Skip : take_responses e (S n) c1 t res = Ret (r, c') -> drift e c c' /\ c_pay c' = c_pay c /\
        forall g os, aget bytes_eqb r g = Some os -> aget bytes_eqb res g = Some os \/
        exists id0 resp0 lo, In (id0, resp0) ((id, resp) :: t) /\ ToString id0 = g /\ advertised e c id0 resp0 lo /\ (forall s, In s os -> In s lo /\ proven e c s)).
      { intros H'. destruct (IH _ _ _ _ _ H') as (D2 & P2 & F). split; [eapply drift_trans; eauto|]. split; [congruence|].
        intros g os G. destruct (F g os G) as [X|(i & m & lo & I & T & A & B)]; [auto|]. right. exists i, m, lo. split; [right; exact I|]. split; [exact T|].
        split; [eapply advertised_back; eauto|]. intros s X. destruct (B s X). split; [assumption|eapply proven_back; eauto]. }
      destruct x as [m|]; [|auto]. destruct (K m eq_refl) as [-> (gr & G1 & _ & G3)]. step H.
      destruct v as [[[[[cid nonce] f] os0] fu]|]; [|auto]. clear Skip. step H. destruct v as [y c2]. cbn [fst snd] in H.
      destruct (check_offers_inv _ _ _ _ e _ _ _ _ E1) as (D2 & P2 & _ & V). destruct (IH _ _ _ _ _ H) as (D3 & P3 & F).
      assert (D12 : drift e c c2) by (eapply drift_trans; eauto).
      split; [eapply drift_trans; [exact D12|exact D3]|]. split; [congruence|]. intros g os G.
      destruct (F g os G) as [X|(i & m & lo & I & T & A & B)].
      + rewrite aget_aset_bytes in X. destruct (bytes_eqb g (ToString id)) eqn:Eg; [|auto]. injection X as <-. apply bytes_eqb_eq in Eg. right.
        exists id, resp, (items os0). split; [left; reflexivity|]. split; [auto|]. split.
        * exists gr, cid, nonce, f, fu, os0. split; [exact G1|]. split; [exact G3|]. auto.
        * intros s I. destruct (V s I). split; [assumption|eapply proven_back; [exact D|assumption]].
      + right. exists i, m, lo. split; [right; exact I|]. split; [exact T|]. split; [eapply advertised_back; [|exact A]; exact D12|].
        intros s X. destruct (B s X). split; [assumption|eapply proven_back; [|eassumption]; exact D12].
  Qed.

  Lemma find_dht_inv e c cid gid num r c' out : FindDHT e c cid gid num = Ret (r, c', out) ->
    drift e c c' /\ c_pay c' = c_pay c /\ exists id, gid = Some id /\
    ((aget bytes_eqb (c_active c) (ToString id) = None /\ r = ErrR /\ out = []) \/
     exists gw request, aget bytes_eqb (c_active c) (ToString id) = Some gw /\
       EncodeClientDHTDiscoverRequest version supported cid (rand_int (c_drawn c)) (ce_now e + c_ttl c) num false [] [] = Ret request /\
       out = [(r_client_ap gw, request)] /\
       forall res, r = OkR res -> exists response ids ms un topup, answered e 0 gw request response /\
         DecodeClientDHTDiscoverResponse sha256 response = Ret (OkR (ids, ms, un, rand_int (c_drawn c), false, topup)) /\
         length ids = length (items ms) /\
         forall g os, aget bytes_eqb res g = Some os -> exists i m lo, In (i, m) (combine ids (items ms)) /\ ToString i = g /\
           advertised e c i m lo /\ forall s, In s os -> In s lo /\ proven e c s).
  Proof.
    unfold FindOffersDHTDiscovery. intros H. destruct gid as [id|]; [|discriminate]. cbn [deref obind] in H.
    destruct (aget bytes_eqb (c_active c) (ToString id)) as [gw|] eqn:A.
    2:{ apply ret_inj in H. injection H as <- <- <-. split; [apply drift_refl|]. split; [reflexivity|]. exists id. split; [reflexivity|]. left. auto. }
    cbv zeta in H. step H. destruct v as [x o]. destruct (dht_inv _ _ _ _ _ _ _ _ _ _ _ _ _ _ _ E) as (request & En & -> & K).
    destruct x as [[[ids ms] un]|].
    - step H. destruct v as [l c2]. cbn [fst snd] in H. apply ret_inj in H. injection H as <- <- <-. destruct (take_responses_inv e _ _ _ _ _ _ E0) as (D & P & F).
      split; [eapply drift_trans; [apply drift_drew|exact D]|]. split; [exact P|]. exists id. split; [reflexivity|]. right. exists gw, request.
      split; [exact A|]. split; [exact En|]. split; [reflexivity|]. intros res [= <-].
      destruct (K _ _ _ eq_refl) as (response & l0 & tp & An & De & -> & L). exists response, ids, l0, un, tp. split; [exact An|]. split; [exact De|]. split; [exact L|].
      intros g os G. destruct (F g os G) as [X|(i & m & lo & I & T & Ad & B)]; [discriminate|]. exists i, m, lo. split; [exact I|]. split; [exact T|].
      split; [eapply advertised_back; [|exact Ad]; apply drift_drew|]. intros s X. destruct (B s X). split; [assumption|eapply proven_back; [|eassumption]; apply drift_drew].
    - apply ret_inj in H. injection H as <- <- <-. split; [apply drift_drew|]. split; [reflexivity|]. exists id. split; [reflexivity|]. right. exists gw, request.
      split; [exact A|]. split; [exact En|]. split; [reflexivity|discriminate].
  Qed.

  Notation advertised_digests := (ClientSpec.advertised_digests sha256 pub_of ec_verify blake).
  Notation picked := (ClientSpec.picked sha256 pub_of ec_verify blake).
  Notation returned := (ClientSpec.returned sha256).
  Notation gathers_with := (ClientSpec.gathers_with version supported voucher_text).
  Notation dht_search_with := (ClientSpec.dht_search_with version supported voucher_text).

  Lemma picked_back e c c' l ds : drift e c c' -> picked e c' l ds -> picked e c l ds.
  Proof.
    intros D H. induction H as [| x l d ds (r & cid & nonce & al & fu & tp & G & K) H IH|]; [constructor| |constructor; assumption].
    constructor; [|assumption]. exists r, cid, nonce, al, fu, tp. split; [apply D, G|exact K].
  Qed.
  Lemma count_nonneg ds : 0 <= count_digests ds.
  Proof. induction ds; cbn [count_digests]; lia. Qed.

  Lemma take_digests_inv e : forall l n c limit added x c', take_digests e n c l limit added = Ret (x, c') ->
    drift e c c' /\ c_pay c' = c_pay c /\ c_drawn c' = c_drawn c /\
    (forall r, x = inl r -> r = ErrR \/ r = OkR []) /\
    (forall ds, x = inr ds -> picked e c l ds /\ (ds = [] \/ added + count_digests ds <= limit)).
  Proof.
    induction l as [|[id resp] t IH]; intros n c limit added x c' H; cbn [Client.take_digests] in H.
    - apply ret_inj in H. injection H as <- <-. split; [apply drift_refl|]. split; [reflexivity|]. split; [reflexivity|]. split; [discriminate|].
      intros ds [= <-]. split; [constructor|left; reflexivity].
    - step H. destruct v as [y c1]. destruct (check_response_inv _ _ _ _ _ _ _ _ _ _ E) as (D & P & W & K).
      assert (Skip : take_digests e (S n) c1 t limit added = Ret (x, c') -> drift e c c' /\ c_pay c' = c_pay c /\ c_drawn c' = c_drawn c /\
        (forall r, x = inl r -> r = ErrR \/ r = OkR []) /\
        (forall ds, x = inr ds -> picked e c ((id, resp) :: t) ds /\ (ds = [] \/ added + count_digests ds <= limit))).
      { intros H'. destruct (IH _ _ _ _ _ _ H') as (D2 & P2 & W2 & F1 & F2). split; [eapply drift_trans; eauto|]. split; [congruence|]. split; [congruence|].
        split; [exact F1|]. intros ds X. destruct (F2 ds X) as [A B]. split; [|exact B]. apply picked_skip. eapply picked_back; eauto. }
      destruct y as [m|]; [|auto]. destruct (K m eq_refl) as [-> (gr & G1 & _ & G3)]. step H.
      destruct v as [[[[[[[cid nonce] f] os] fu] pr] tp]|]; [|auto]. clear Skip.
      destruct pr. { apply ret_inj in H. injection H as <- <-. repeat (split; [assumption|]). split; [intros r [= <-]; auto|discriminate]. }
      destruct f; cbn [negb] in H. 2:{ apply ret_inj in H. injection H as <- <-. repeat (split; [assumption|]). split; [intros r [= <-]; auto|discriminate]. }
      step H. rename v into d. cbv zeta in H.
      assert (Ad : advertised_digests e c (id, resp) d /\ added + Z.of_nat (length (items d)) <= limit).
      { destruct (added + Z.of_nat (length (items os)) >? limit) eqn:G.
        - destruct (limit - added <? 0) eqn:N; [discriminate|]. apply ret_inj in E1. subst d. split.
          + exists gr, cid, nonce, os, fu, tp. split; [exact G1|]. split; [exact G3|]. split; [exact E0|]. exists (Z.to_nat (limit - added)).
            destruct os; cbn; [reflexivity|]. destruct (Z.to_nat _); reflexivity.
          + destruct os; cbn [option_map items length]; [rewrite firstn_length|]; lia.
        - apply ret_inj in E1. subst d. split; [|lia]. exists gr, cid, nonce, os, fu, tp. split; [exact G1|]. split; [exact G3|]. split; [exact E0|].
          exists (length (items os)). rewrite firstn_all. reflexivity. }
      destruct Ad as [Ad Le]. step H.
      + apply ret_inj in H. injection H as <- <-. repeat (split; [assumption|]). split; [discriminate|]. intros ds [= <-].
        split; [constructor; [exact Ad|constructor]|]. right. cbn [count_digests]. lia.
      + step H. destruct v as [y c2]. cbn [fst snd] in H. apply ret_inj in H. injection H as <- <-.
        destruct (IH _ _ _ _ _ _ E3) as (D2 & P2 & W2 & F1 & F2). split; [eapply drift_trans; eauto|]. split; [congruence|]. split; [congruence|].
        destruct y as [r|ds].
        * split; [intros r0 [= <-]; apply F1; reflexivity|discriminate].
        * split; [discriminate|]. intros ds0 [= <-]. destruct (F2 ds eq_refl) as [A B]. split; [constructor; [exact Ad|eapply picked_back; eauto]|]. right.
          cbn [count_digests]. destruct B as [->|B]; cbn [count_digests]; lia.
  Qed.

  Lemma take_digests_stops e t : forall l n c limit added ds c', take_digests e n c l limit added = Ret (inr ds, c') ->
    ds <> [] -> limit <= added + count_digests ds -> take_digests e n c (l ++ t) limit added = Ret (inr ds, c').
  Proof.
    induction l as [|[id resp] l IH]; intros n c limit added ds c' H N L; cbn [Client.take_digests app] in *.
    - apply ret_inj in H. injection H as <- _. congruence.
    - step H. destruct v as [y c1]. cbn [obind]. destruct y as [m|]; [|now apply IH]. step H. cbn [obind].
      destruct v as [[[[[[[cid nonce] f] os] fu] pr] tp]|]; [|now apply IH].
      destruct pr; [apply ret_inj in H; discriminate H|]. destruct (negb f); [apply ret_inj in H; discriminate H|]. step H. rename v into d. cbn [obind]. cbv zeta in *.
      destruct (added + Z.of_nat (length (items d)) >=? limit) eqn:G; [exact H|]. step H. destruct v as [y c2]. cbn [fst snd] in H. apply ret_inj in H. injection H as H <-. destruct y as [r|ds']; [discriminate H|]. injection H as <-.
      cbn [count_digests] in L. rewrite (IH _ _ _ _ ds' c2); [reflexivity|exact E2| |lia]. intros ->. cbn [count_digests] in L. lia.
  Qed.

  Lemma sub_responses_inv : forall l r, sub_responses sha256 l = Ret (OkR r) ->
    forall i os, In (i, os) r -> exists m, In (i, m) l /\ returned (i, m) os /\ os <> [].
  Proof.
    induction l as [|[id m] t IH]; intros r H i os I; cbn [Client.sub_responses] in H.
    - apply ret_inj in H. injection H as <-. destruct I.
    - step H. destruct (match v with OkR _ => _ | ErrR => _ end) as [[f os0] pr] eqn:Ev. destruct pr; [discriminate|]. step H.
      destruct v0 as [r1|]; [|discriminate]. apply ret_inj in H. injection H as <-.
      assert (Rest : In (i, os) r1 -> exists m0, In (i, m0) ((id, m) :: t) /\ returned (i, m0) os /\ os <> []).
      { intros I1. destruct (IH _ eq_refl _ _ I1) as (m1 & M1 & M2). exists m1. split; [right; exact M1|exact M2]. }
      destruct (f && negb (Nat.eqb (length os0) 0)) eqn:Ef; [|auto]. apply andb_true_iff in Ef. destruct Ef as [-> Ef].
      destruct I as [I|I]; [|auto]. injection I as <- <-. exists m. split; [left; reflexivity|].
      split; [|intros ->; discriminate Ef].
      destruct v as [[[[[[[cid nonce] f'] l'] fu] pr'] tp]|]; [|discriminate]. injection Ev as -> <- ->.
      exists cid, nonce, l', fu, tp. auto.
  Qed.

  Notation offered_to := (ClientSpec.offered_to version supported voucher_text).
  Lemma offered_app c gw cid num a b x y : offered_to c gw cid num a x -> offered_to c gw cid num b y -> offered_to c gw cid num (a ++ b) (x ++ y).
  Proof.
    intros A B url m I. apply in_app_or in I. destruct I as [I|I]; [destruct (A _ _ I) as (U & z & Z1 & Z2)|destruct (B _ _ I) as (U & z & Z1 & Z2)];
      (split; [exact U|]; exists z; split; [apply in_or_app; auto|exact Z2]).
  Qed.
  Lemma offered_nil c gw cid num l : offered_to c gw cid num l [].
  Proof. intros ? ? []. Qed.

  Lemma find_dht_v2_inv e c cid gid num limit r c' out : FindDHTV2 e c cid gid num limit = Ret (r, c', out) ->
    drift e c c' /\ exists id, gid = Some id /\
    ((aget bytes_eqb (c_active c) (ToString id) = None /\ r = ErrR /\ c_pay c' = c_pay c /\ out = []) \/
     exists gw rows, aget bytes_eqb (c_active c) (ToString id) = Some gw /\ spent e c c' rows /\ dht_bill c gw num limit rows /\
       offered_to c gw cid num rows out /\
       forall res, r = OkR res -> res = [] \/
         exists n q0 response ids ms un nonce pr tp ds x q1 answer i q ids' ms' tp' l,
           In (r_client_ap gw, q0) out /\ answered e n gw q0 response /\
           DecodeClientDHTDiscoverResponseV2 sha256 response = Ret (OkR (ids, ms, un, nonce, pr, tp)) /\ length ids = length (items ms) /\
           picked e c (combine ids (items ms)) ds /\ (ds = [] \/ count_digests ds <= limit) /\
           In x rows /\ gathers_with cid (c_offer c) ids ds x q1 /\ In (r_client_ap gw, q1) out /\ answered e 2 gw q1 answer /\
           DecodeClientDHTDiscoverOfferResponse sha256 answer = Ret (OkR (i, q, ids', ms', false, tp')) /\ length ids' = length (items ms') /\
           (forall j os, In (j, os) l -> exists m, In (j, m) (combine ids' (items ms')) /\ returned (j, m) os /\ os <> []) /\
           res = by_gateway l).
  Proof.
    unfold FindOffersDHTDiscoveryV2. intros H. destruct gid as [id|]; [|discriminate]. cbn [deref obind] in H.
    destruct (aget bytes_eqb (c_active c) (ToString id)) as [gw|] eqn:A.
    2:{ apply ret_inj in H. injection H as <- <- <-. split; [apply drift_refl|]. exists id. split; [reflexivity|]. left. auto. }
    assert (Act : aget bytes_eqb (c_active c) (ToString id) = Some gw) by exact A.
    cbv zeta in H. destruct (manager_inv e c) as (D0 & _ & S0).
    step H. destruct v as [p c1]. destruct (client_pay_inv _ _ _ _ _ _ _ _ E) as (D1 & [_ W1] & rows1 & S1 & R1).
    assert (D1' : drift e c c1) by (eapply drift_trans; eauto). assert (S1' : spent e c c1 rows1) by (rewrite <- (app_nil_l rows1); eapply spent_app; eauto).
    clear D0 S0 D1 S1.
    destruct p as [[ch text]|]; cbn [receipt] in R1.
    2:{ apply ret_inj in H. injection H as <- <- <-. split; [exact D1'|]. exists id. split; [reflexivity|]. right. exists gw, []. subst rows1.
        split; [exact Act|]. split; [exact S1'|]. split; [exists [], [], []; auto|]. split; [apply offered_nil|discriminate]. }
    destruct R1 as (v1 & -> & ->). step H. destruct v as [x1 o1]. destruct (dht_v2_inv _ _ _ _ _ _ _ _ _ _ _ _ _ _ _ _ _ E0) as (q1 & En1 & -> & K1).
    set (row1 := (r_address gw, 0, num * defaultSearchPrice, ch, v1)) in *.
    assert (AP1 : offered_to c gw cid num [row1] [(r_client_ap gw, q1)]).
    { intros url m [I|[]]. injection I as <- <-. split; [reflexivity|]. exists row1. split; [left; reflexivity|]. left. unfold ClientSpec.dht_search_with, row1. eauto. }
    assert (Dd : drift e c (drew c1 DrawInt63)) by (eapply drift_trans; [exact D1'|apply drift_drew]).
    assert (Sd : spent e c (drew c1 DrawInt63) [row1]) by (eapply spent_same; [|exact S1']; reflexivity).
    assert (Ba : [row1] = [] \/ exists x, [row1] = [x] /\ to_whom x = r_address gw /\ how_much x = num * defaultSearchPrice) by (right; exists row1; auto).
    destruct x1 as [[[[ids0 ms0] pr0] tp0]|].
    2:{ apply ret_inj in H. injection H as <- <- <-. split; [exact Dd|]. exists id. split; [reflexivity|]. right. exists gw, [row1].
        split; [exact Act|]. split; [exact Sd|]. split; [exists [row1], [], []; auto|]. split; [exact AP1|discriminate]. }
    step H. destruct v as [[r2 c2] o2].
    assert (X : exists rows2, drift e c c2 /\ spent e c c2 ([row1] ++ rows2) /\ (rows2 = [] \/ exists x, rows2 = [x] /\ how_much x = c_search c) /\
                  offered_to c gw cid num rows2 o2 /\
                  forall ids ms, r2 = OkR (ids, ms) -> exists n q0 response l un nonce pr tp, In (r_client_ap gw, q0) ([(r_client_ap gw, q1)] ++ o2) /\
                    answered e n gw q0 response /\ DecodeClientDHTDiscoverResponseV2 sha256 response = Ret (OkR (ids, l, un, nonce, pr, tp)) /\
                    ms = items l /\ length ids = length ms).
    { destruct pr0.
      - step E1. destruct v as [p2 c3]. destruct (client_topup_inv _ _ _ _ _ _ _ _ E2) as (D2 & _ & rows2 & S2 & R2). exists rows2.
        assert (Sr : c_search (drew c1 DrawInt63) = c_search c) by (pose proof (d_settings _ _ _ Dd) as Z; unfold client_settings in Z; congruence).
        rewrite Sr in R2.
        destruct p2 as [[ch2 text2]|]; cbn [receipt] in R2.
        + destruct R2 as (v2 & -> & ->). step E1. destruct v as [x2 o3]. destruct (dht_v2_inv _ _ _ _ _ _ _ _ _ _ _ _ _ _ _ _ _ E3) as (q2 & En2 & -> & K2).
          apply ret_inj in E1. injection E1 as <- <- <-. cbn [fst snd].
          split; [eapply drift_trans; [exact Dd|exact D2]|]. split; [eapply spent_app; [exact Sd|exact S2]|]. split; [right; eexists; split; reflexivity|].
          split. { intros url m [I|[]]. injection I as <- <-. split; [reflexivity|]. eexists. split; [left; reflexivity|]. left. unfold ClientSpec.dht_search_with. eauto. }
          intros ids ms Y. destruct x2 as [[[[ids2 ms2] pr2] tp2]|]; [|discriminate]. injection Y as <- <-.
          destruct (K2 _ _ _ _ eq_refl) as (response & l & un & tp & An & De & -> & L). exists 1%nat, q2, response, l, un, (rand_int (c_drawn c1)), pr2, tp.
          split; [right; left; reflexivity|]. auto.
        + subst rows2. apply ret_inj in E1. injection E1 as <- <- <-. split; [eapply drift_trans; eauto|].
          split; [eapply spent_app; eauto|]. split; [auto|]. split; [apply offered_nil|discriminate].
      - apply ret_inj in E1. injection E1 as <- <- <-. exists []. split; [exact Dd|]. split; [exact Sd|]. split; [auto|]. split; [apply offered_nil|].
        intros ids ms [= <- <-]. destruct (K1 _ _ _ _ eq_refl) as (response & l & un & tp & An & De & -> & L).
        exists 0%nat, q1, response, l, un, (rand_int (c_drawn c1)), false, tp. split; [left; reflexivity|]. auto. }
    destruct X as (rows2 & D2 & S2 & B2 & AP2 & K2). clear E1 K1.
    assert (AP12 : offered_to c gw cid num ([row1] ++ rows2) ([(r_client_ap gw, q1)] ++ o2)) by (apply offered_app; assumption).
    assert (Bill : dht_bill c gw num limit ([row1] ++ rows2)) by (exists [row1], rows2, []; rewrite app_nil_r; auto).
    destruct r2 as [[ids ms]|].
    2:{ apply ret_inj in H. injection H as <- <- <-. split; [exact D2|]. exists id. split; [reflexivity|]. right. exists gw, ([row1] ++ rows2).
        split; [exact Act|]. split; [exact S2|]. split; [exact Bill|]. split; [exact AP12|discriminate]. }
    step H. destruct v as [y c3]. destruct (take_digests_inv e _ _ _ _ _ _ _ E1) as (D3 & P3 & W3 & F1 & F2).
    assert (D3' : drift e c c3) by (eapply drift_trans; eauto). assert (S3 : spent e c c3 ([row1] ++ rows2)) by (eapply spent_same; eauto).
    destruct y as [r3|ds].
    { apply ret_inj in H. injection H as <- <- <-. split; [exact D3'|]. exists id. split; [reflexivity|]. right. exists gw, ([row1] ++ rows2).
      split; [exact Act|]. split; [exact S3|]. split; [exact Bill|]. split; [exact AP12|]. intros res ->. left. destruct (F1 _ eq_refl); congruence. }
    destruct (F2 ds eq_refl) as [Pk Cn]. step H. destruct v as [p4 c4]. destruct (manager_inv e c3) as (D4 & _ & S4).
    destruct (client_pay_inv _ _ _ _ _ _ _ _ E2) as (D5 & _ & rows5 & S5 & R5).
    assert (D5' : drift e c c4) by (eapply drift_trans; [exact D3'|]; eapply drift_trans; eauto).
    assert (S5' : spent e c c4 (([row1] ++ rows2) ++ rows5)).
    { eapply spent_app; [exact S3|]. rewrite <- (app_nil_l rows5). eapply spent_app; eauto. }
    assert (Of : c_offer (PaymentMgr e c3) = c_offer c).
    { pose proof (d_settings _ _ _ (drift_trans _ _ _ _ D3' D4)) as Z. unfold client_settings in Z. congruence. }
    rewrite Of in R5.
    destruct p4 as [[ch5 text5]|]; cbn [receipt] in R5.
    2:{ subst rows5. rewrite app_nil_r in S5'. apply ret_inj in H. injection H as <- <- <-. split; [exact D5'|]. exists id. split; [reflexivity|]. right.
        exists gw, ([row1] ++ rows2). split; [exact Act|]. split; [exact S5'|]. split; [exact Bill|]. split; [exact AP12|discriminate]. }
    destruct R5 as (v5 & -> & ->). step H. destruct v as [z o5]. destruct (dht_offer_inv _ _ _ _ _ _ _ _ _ _ _ _ _ _ _ _ _ E3) as (q5 & En5 & -> & K5).
    cbn [fst snd] in H. apply ret_inj in H. injection H as <- <- <-. split; [exact D5'|]. exists id. split; [reflexivity|]. right.
    set (row5 := (r_address gw, 0, count_digests ds * c_offer c, ch5, v5)) in *.
    assert (Gw : gathers_with cid (c_offer c) ids ds row5 q5) by (unfold ClientSpec.gathers_with, row5; eauto).
    exists gw, (([row1] ++ rows2) ++ [row5]). split; [exact Act|]. split; [exact S5'|].
    split. { exists [row1], rows2, [row5]. split; [rewrite app_assoc; reflexivity|]. split; [exact Ba|]. split; [exact B2|]. right.
             exists row5, (count_digests ds). split; [reflexivity|]. split; [reflexivity|]. split; [reflexivity|]. pose proof (count_nonneg ds). destruct Cn as [->|Cn]; cbn [count_digests]; lia. }
    split. { change ((r_client_ap gw, q1) :: o2 ++ [(r_client_ap gw, q5)]) with (([(r_client_ap gw, q1)] ++ o2) ++ [(r_client_ap gw, q5)]).
             apply offered_app; [exact AP12|]. intros url m [I|[]]. injection I as <- <-. split; [reflexivity|]. exists row5.
             split; [left; reflexivity|]. right. eauto. }
    intros res Y. destruct z as [l|]; [|discriminate]. injection Y as <-. right.
    destruct (K2 _ _ eq_refl) as (n & q0 & response & ms1 & un & nonce & pr & tp & I0 & An & De & -> & L).
    destruct (K5 _ eq_refl) as (answer & i & q & ids' & ms' & tp' & An5 & De5 & L5 & Sub).
    exists n, q0, response, ids, ms1, un, nonce, pr, tp, ds, row5, q5, answer, i, q, ids', ms', tp', l.
    split; [change ((r_client_ap gw, q1) :: o2 ++ [(r_client_ap gw, q5)]) with (([(r_client_ap gw, q1)] ++ o2) ++ [(r_client_ap gw, q5)]); apply in_or_app; left; exact I0|].
    split; [exact An|]. split; [exact De|]. split; [exact L|]. split; [eapply picked_back; [exact D2|exact Pk]|]. split; [exact Cn|].
    split; [apply in_or_app; right; left; reflexivity|]. split; [exact Gw|].
    split; [right; apply in_or_app; right; left; reflexivity|]. split; [exact An5|]. split; [exact De5|]. split; [exact L5|]. split; [exact (sub_responses_inv _ _ Sub)|reflexivity].
  Qed.

  (** ** Acknowledgements *)

  Lemma find_ack_inv e c cid gid pid r c' out :
    FindDHTOfferAck version supported sha256 pub_of ec_verify blake e c cid gid pid = Ret (r, c', out) ->
    drift e c c' /\ c_pay c' = c_pay c /\ c_drawn c' = c_drawn c /\
    (r = OkR true -> exists i g p gr pr, cid = Some i /\ gid = Some g /\ pid = Some p /\ gateway_known e c (ToString g) gr /\
      provider_known e c (ToString p) pr /\ complete gr /\ complete_provider pr /\ countersigned sha256 pub_of ec_verify blake pr gr i).
  Proof.
    unfold FindDHTOfferAck. intros H. step H. destruct v as [p c1]. destruct (find_provider_inv e _ _ _ _ E) as (D & P & W & K).
    destruct p as [p|]; [|apply ret_inj in H; injection H as <- <- <-; split; [exact D|]; split; [exact P|]; split; [exact W|discriminate]].
    step H. step H; [apply ret_inj in H; injection H as <- <- <-; split; [exact D|]; split; [exact P|]; split; [exact W|discriminate]|].
    apply negb_false_iff in E1. subst v. step H. destruct v as [x o].
    destruct x as [[[found req] ack]|]; [|apply ret_inj in H; injection H as <- <- <-; split; [exact D|]; split; [exact P|]; split; [exact W|discriminate]].
    destruct found; [|apply ret_inj in H; injection H as <- <- <-; split; [exact D|]; split; [exact P|]; split; [exact W|discriminate]].
    step H. destruct v as [g c2]. destruct (find_gateway_any _ _ _ _ _ _ E2) as (D2 & P2 & W2 & K2).
    assert (D12 : drift e c c2) by (eapply drift_trans; eauto). rewrite P in P2. rewrite W in W2.
    destruct g as [g|]; [|apply ret_inj in H; injection H as <- <- <-; split; [exact D12|]; split; [exact P2|]; split; [exact W2|discriminate]].
    step H. step H; [apply ret_inj in H; injection H as <- <- <-; split; [exact D12|]; split; [exact P2|]; split; [exact W2|discriminate]|].
    apply negb_false_iff in E4. subst v. step H. step H. unfold GetSigningKey in E4, E5.
    destruct v as [gk|]; [|apply ret_inj in H; injection H as <- <- <-; split; [exact D12|]; split; [exact P2|]; split; [exact W2|discriminate]].
    destruct v0 as [pk|]; [|apply ret_inj in H; injection H as <- <- <-; split; [exact D12|]; split; [exact P2|]; split; [exact W2|discriminate]].
    step H. cbv zeta in H. step H; [apply ret_inj in H; injection H as <- <- <-; split; [exact D12|]; split; [exact P2|]; split; [exact W2|discriminate]|].
    apply negb_false_iff in E7. rewrite (verify_kept _ _ _ _ _ E7) in H. step H.
    destruct v0 as [[[pi nonce] offers]|]; [|apply ret_inj in H; injection H as <- <- <-; split; [exact D12|]; split; [exact P2|]; split; [exact W2|discriminate]].
    step H. step H; [apply ret_inj in H; injection H as <- <- <-; split; [exact D12|]; split; [exact P2|]; split; [exact W2|discriminate]|].
    step H. step H; [apply ret_inj in H; injection H as <- <- <-; split; [exact D12|]; split; [exact P2|]; split; [exact W2|discriminate]|].
    apply negb_false_iff in E12. rewrite (verify_kept _ _ _ _ _ E12) in H. step H.
    destruct v2 as [[nonce' signature]|]; [|apply ret_inj in H; injection H as <- <- <-; split; [exact D12|]; split; [exact P2|]; split; [exact W2|discriminate]].
    step H; [|apply ret_inj in H; injection H as <- <- <-; split; [exact D12|]; split; [exact P2|]; split; [exact W2|discriminate]].
    apply ret_inj in H. injection H as <- <- <-. split; [exact D12|]. split; [exact P2|]. split; [exact W2|]. intros [= ->].
    destruct (K p eq_refl) as (pi0 & -> & Kp). destruct (K2 g eq_refl) as (gi & -> & Kg). destruct cid as [i|]; [|discriminate]. cbn [deref] in E9. apply ret_inj in E9. subst v0.
    exists i, gi, pi0, g, p. split; [reflexivity|]. split; [reflexivity|]. split; [reflexivity|]. split; [apply D, Kg|]. split; [exact Kp|].
    split; [apply validate_gateway_inv; exact E3|]. split; [apply validate_provider_iff; exact E0|].
    apply negb_false_iff, existsb_exists in E10. destruct E10 as (o' & O1 & O2). destruct offers as [l|]; [|destruct O1]. cbn [items] in O1.
    assert (One : exists j, o_cids o' = [j]).
    { unfold DecodeProviderPublishDHTOfferRequest in E8. destruct (Schema.decode _ _ _ _) as [[[f1 [f2 [f3 [f4 f5]]]]|]| |] eqn:Ed; try discriminate.
      cbn [rbind obind] in E8. destruct (forallb _ _) eqn:Fa; [|discriminate]. cbn [negb] in E8. apply ret_inj in E8. injection E8 as _ _ ->.
      rewrite forallb_forall in Fa. apply Fa in O1. apply Nat.eqb_eq in O1. destruct (o_cids o') as [|j [|? ?]]; try discriminate. eauto. }
    destruct One as (j & Oj). rewrite Oj in O2. apply bytes_eqb_eq in O2.
    exists v, pi, nonce, l, o', j, v1, nonce', signature, gk. split; [exists pk; auto|]. split; [exact E8|]. split; [exact O1|]. split; [exact Oj|].
    split; [exact O2|]. split; [exists gk; auto|]. split; [exact E13|]. split; [exact E4|]. assumption.
  Qed.
End proofs.
