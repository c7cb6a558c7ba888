(** * Proofs about the gateways a client uses *)
From Coq Require Import List ZArith Bool Lia ZifyBool ZifyNat.
From Coq Require Import Init.Byte.
From Verif Require Import Base BaseProofs Ids IdsProofs Json Crypto Message Offer OfferProofs Schema Messages WireSpec
  Payment PaymentSpec Register RegisterProofs GatewaySpec GatewayProofs Client ClientSpec ClientProofs ClientFindProofs.
Import ListNotations.
Open Scope Z_scope.
Open Scope go_scope.

(** ** Text of identifiers is in lower case *)

Lemma lower_digit z : 0 <= z < 16 -> lower [digit_hex z] = [digit_hex z].
Proof.
  intros H. assert (X : z = 0 \/ z = 1 \/ z = 2 \/ z = 3 \/ z = 4 \/ z = 5 \/ z = 6 \/ z = 7 \/ z = 8 \/ z = 9 \/ z = 10 \/ z = 11 \/ z = 12 \/ z = 13 \/ z = 14 \/ z = 15) by lia.
  repeat (destruct X as [->|X]; [vm_compute; reflexivity|]). subst. vm_compute. reflexivity.
Qed.
Lemma lower_hex_encode l : lower (hex_encode l) = hex_encode l.
Proof.
  induction l as [|b t IH]; [reflexivity|]. cbn [hex_encode]. unfold lower in *. cbn [map].
  pose proof (bz_range b). pose proof (lower_digit (bz b / 16) ltac:(lia)) as A. pose proof (lower_digit (bz b mod 16) ltac:(lia)) as B.
  unfold lower in A, B. cbn [map] in A, B. injection A as ->. injection B as ->. rewrite IH. reflexivity.
Qed.
Lemma lower_text i : lower (ToString i) = ToString i.
Proof.
  unfold ToString. cbv zeta. destruct (bytes_eqb _ _); [reflexivity|apply lower_hex_encode].
Qed.

Section maps.
  Context {V : Type}.
  Implicit Types m : list (gostring * V).
  Lemma del_length m k v : aget bytes_eqb m k = Some v -> length m = S (length (adel bytes_eqb m k)).
  Proof.
    induction m as [|[k' v'] t IH]; cbn; [discriminate|]. destruct (bytes_eqb k k'); [reflexivity|]. intros H. cbn. rewrite (IH H). reflexivity.
  Qed.
  Lemma set_get m k v k' : aget bytes_eqb (aset bytes_eqb m k v) k' = if bytes_eqb k' k then Some v else aget bytes_eqb m k'.
  Proof. apply aget_aset. apply bytes_eqb_eq. Qed.
  Lemma del_get m k k' : NoDup (map fst m) -> aget bytes_eqb (adel bytes_eqb m k) k' = if bytes_eqb k' k then None else aget bytes_eqb m k'.
  Proof. apply aget_adel. apply bytes_eqb_eq. Qed.
  Lemma set_nodup m k v : NoDup (map fst m) -> NoDup (map fst (aset bytes_eqb m k v)).
  Proof. apply aset_NoDup. apply bytes_eqb_eq. Qed.
  Lemma del_nodup m k : NoDup (map fst m) -> NoDup (map fst (adel bytes_eqb m k)).
  Proof. apply adel_NoDup. Qed.
End maps.

(** ** Lookups of known gateways *)

Lemma find_gateway_known e n c i r x c' : start reg (c_reg c) = true -> gatewayDiscv reg (c_reg c) = true ->
  aget bytes_eqb (gatewaysMap reg (c_reg c)) (ToString i) = Some r -> FindGateway e n c (Some i) = Ret (x, c') ->
  x = Some r /\ start reg (c_reg c') = true /\ gatewayDiscv reg (c_reg c') = true /\ gatewaysMap reg (c_reg c') = gatewaysMap reg (c_reg c) /\
  c_use c' = c_use c.
Proof.
  intros S D A H. unfold FindGateway, GetGateway in H. rewrite S, D in H. cbn [negb orb deref obind RLock RUnlock] in H. rewrite A in H. cbn [obind] in H.
  apply ret_inj in H. injection H as <- <-. cbn. auto.
Qed.

(** ** Adding and removing gateways *)

Lemma add_use_inv e : forall ids n c k c', NoDup (map fst (c_use c)) -> AddGatewaysToUse e n c ids = Ret (k, c') ->
  (client_settings c' = client_settings c /\ c_active c' = c_active c /\ c_pay c' = c_pay c /\ c_drawn c' = c_drawn c) /\
  0 <= k /\ Z.of_nat (length (c_use c')) = Z.of_nat (length (c_use c)) + k /\ NoDup (map fst (c_use c')) /\
  (forall id r, gateway_known e c' id r -> gateway_known e c id r) /\
  (forall id r, aget bytes_eqb (c_use c) id = Some r -> aget bytes_eqb (c_use c') id = Some r) /\
  (forall id r, aget bytes_eqb (c_use c') id = Some r -> aget bytes_eqb (c_use c) id = Some r \/
     exists i, In (Some i) ids /\ id = ToString i /\ gateway_known e c id r /\ complete r).
Proof.
  induction ids as [|[i|] t IH]; intros n c k c' ND H; cbn [AddGatewaysToUse] in H.
  - apply ret_inj in H. injection H as <- <-. repeat split; auto; lia.
  - destruct (aget bytes_eqb (c_use c) (ToString i)) as [r0|] eqn:Ei.
    { destruct (IH _ _ _ _ ND H) as (A & B & C & D & E & F & G). repeat (split; [assumption|]). intros id r X.
      destruct (G id r X) as [Y|(j & J & K)]; [auto|right; exists j; split; [right; exact J|exact K]]. }
    step H. destruct v as [x c1]. destruct (find_gateway_inv _ _ _ _ _ _ E) as (Dr & P & W & K).
    assert (Skip : forall n', AddGatewaysToUse e n' c1 t = Ret (k, c') ->
      (client_settings c' = client_settings c /\ c_active c' = c_active c /\ c_pay c' = c_pay c /\ c_drawn c' = c_drawn c) /\
      0 <= k /\ Z.of_nat (length (c_use c')) = Z.of_nat (length (c_use c)) + k /\ NoDup (map fst (c_use c')) /\
      (forall id r, gateway_known e c' id r -> gateway_known e c id r) /\
      (forall id r, aget bytes_eqb (c_use c) id = Some r -> aget bytes_eqb (c_use c') id = Some r) /\
      (forall id r, aget bytes_eqb (c_use c') id = Some r -> aget bytes_eqb (c_use c) id = Some r \/
        exists j, In (Some j) (Some i :: t) /\ id = ToString j /\ gateway_known e c id r /\ complete r)).
    { intros n' H'. pose proof (d_use _ _ _ Dr) as U. assert (ND1 : NoDup (map fst (c_use c1))) by (rewrite U; exact ND).
      destruct (IH _ _ _ _ ND1 H') as ((A1 & A2 & A3 & A4) & B & C & D & E1 & F & G). rewrite U in *.
      split; [rewrite A1, A2, A3, A4, P, W, (d_settings _ _ _ Dr), (d_active _ _ _ Dr); auto|]. split; [exact B|]. split; [exact C|]. split; [exact D|].
      split; [intros; apply (d_gateways _ _ _ Dr); auto|]. split; [exact F|]. intros id r X. destruct (G id r X) as [Y|(j & J1 & J2 & J3 & J4)]; [auto|].
      right. exists j. split; [right; exact J1|]. split; [exact J2|]. split; [apply Dr, J3|exact J4]. }
    destruct x as [r0|]; [|eauto]. step H. step H; [eauto|]. apply negb_false_iff in E1. subst v. clear Skip. step H. destruct v as [k2 c2]. cbn [fst snd] in H.
    apply ret_inj in H. injection H as <- <-. pose proof (d_use _ _ _ Dr) as U.
    assert (ND1 : NoDup (map fst (c_use (with_use c1 (aset bytes_eqb (c_use c1) (ToString i) r0))))) by (cbn; apply set_nodup; rewrite U; exact ND).
    destruct (IH _ _ _ _ ND1 E1) as ((A1 & A2 & A3 & A4) & B & C & D & E2 & F & G). cbn [with_use c_use c_active c_pay c_drawn client_settings c_id c_ttl c_search c_offer c_topup] in *.
    rewrite U in *. rewrite aset_length_new in C by exact Ei.
    split. { unfold client_settings in *. cbn in A1. rewrite A1, A2, A3, A4, P, W, (d_active _ _ _ Dr). split; [exact (d_settings _ _ _ Dr)|auto]. }
    split; [lia|]. split; [lia|]. split; [exact D|].
    split; [intros id r X; apply (d_gateways _ _ _ Dr); exact (E2 _ _ X)|].
    split. { intros id r X. apply F. rewrite set_get. destruct (bytes_eqb id (ToString i)) eqn:Eq; [|exact X]. apply bytes_eqb_eq in Eq. subst. congruence. }
    intros id r X. destruct (G id r X) as [Y|(j & J1 & J2 & J3 & J4)].
    + rewrite set_get in Y. destruct (bytes_eqb id (ToString i)) eqn:Eq; [|auto]. apply bytes_eqb_eq in Eq. injection Y as <-. right. exists i.
      split; [left; reflexivity|]. split; [exact Eq|]. split; [subst id; auto|]. apply validate_gateway_inv. exact E0.
    + right. exists j. split; [right; exact J1|]. split; [exact J2|]. split; [apply Dr; exact J3|exact J4].
  - destruct (IH _ _ _ _ ND H) as (A & B & C & D & E & F & G). repeat (split; [assumption|]). intros id r X.
    destruct (G id r X) as [Y|(j & J & K)]; [auto|right; exists j; split; [right; exact J|exact K]].
Qed.

(** When all are known to the manager. *)
Lemma add_use_all e : forall ids n c k c', start reg (c_reg c) = true -> gatewayDiscv reg (c_reg c) = true ->
  (forall i, In (Some i) ids -> aget bytes_eqb (gatewaysMap reg (c_reg c)) (ToString i) <> None) ->
  AddGatewaysToUse e n c ids = Ret (k, c') ->
  forall i r, In (Some i) ids -> aget bytes_eqb (gatewaysMap reg (c_reg c)) (ToString i) = Some r -> complete r ->
  aget bytes_eqb (c_use c') (ToString i) = match aget bytes_eqb (c_use c) (ToString i) with Some r0 => Some r0 | None => Some r end.
Proof.
  assert (Keep : forall ids n c k c', AddGatewaysToUse e n c ids = Ret (k, c') -> forall id r, aget bytes_eqb (c_use c) id = Some r -> aget bytes_eqb (c_use c') id = Some r).
  { induction ids as [|[i|] t IH]; intros n c k c' H id r A; cbn [AddGatewaysToUse] in H; [apply ret_inj in H; injection H as <- <-; exact A| |eapply IH; eauto].
    destruct (aget bytes_eqb (c_use c) (ToString i)) eqn:Ei; [eapply IH; eauto|]. step H. destruct v as [x c1].
    destruct (find_gateway_inv _ _ _ _ _ _ E) as (Dr & _). rewrite <- (d_use _ _ _ Dr) in A.
    destruct x as [r0|]; [|eapply IH; eauto]. step H. step H; [eapply IH; eauto|]. step H. destruct v0 as [k2 c2]. cbn [fst snd] in H. apply ret_inj in H. injection H as <- <-.
    eapply IH; [exact E2|]. cbn. rewrite set_get. destruct (bytes_eqb id (ToString i)) eqn:Eq; [|exact A]. apply bytes_eqb_eq in Eq. subst.
    rewrite (d_use _ _ _ Dr) in A. congruence. }
  induction ids as [|[j|] t IH]; intros n c k c' S D K H i r I A C; [destruct I| |].
  2:{ cbn [AddGatewaysToUse] in H. eapply IH; eauto. - intros x X. apply K. right. exact X. - destruct I as [I|I]; [discriminate|exact I]. }
  cbn [AddGatewaysToUse] in H.
  assert (Kt : forall x, In (Some x) t -> aget bytes_eqb (gatewaysMap reg (c_reg c)) (ToString x) <> None) by (intros; apply K; right; assumption).
  destruct (aget bytes_eqb (c_use c) (ToString j)) as [r0|] eqn:Ej.
  - destruct I as [I|I]; [|eapply IH; eauto]. injection I as ->. rewrite Ej. eapply Keep; eauto.
  - step H. destruct v as [x c1]. destruct (aget bytes_eqb (gatewaysMap reg (c_reg c)) (ToString j)) as [rj|] eqn:Aj; [|exfalso; apply (K j); [left; reflexivity|exact Aj]].
    destruct (find_gateway_known _ _ _ _ _ _ _ S D Aj E) as (-> & S1 & D1 & M1 & U1). step H.
    assert (Ok : v = true <-> complete rj) by (rewrite <- validate_gateway_iff, E0; split; [intros ->; reflexivity|apply ret_inj]).
    rewrite <- M1 in A, Kt. step H.
    + destruct I as [I|I]; [|rewrite <- U1; eapply IH; eauto]. injection I as ->. rewrite M1, Aj in A. injection A as ->. apply Ok in C. subst v. discriminate.
    + step H. destruct v0 as [k2 c2]. cbn [fst snd] in H. apply ret_inj in H. injection H as <- <-.
      destruct I as [I|I].
      * injection I as ->. rewrite Ej. rewrite M1, Aj in A. injection A as ->. eapply Keep; [exact E2|]. cbn. rewrite set_get.
        replace (bytes_eqb (ToString i) (ToString i)) with true by (symmetry; apply bytes_eqb_eq; reflexivity). reflexivity.
      * destruct (bytes_eqb (ToString i) (ToString j)) eqn:Eq.
        -- apply bytes_eqb_eq in Eq. rewrite Eq, Ej. rewrite M1, Eq, Aj in A. injection A as ->. eapply Keep; [exact E2|]. cbn. rewrite set_get.
           replace (bytes_eqb (ToString j) (ToString j)) with true by (symmetry; apply bytes_eqb_eq; reflexivity). reflexivity.
        -- rewrite (IH _ (with_use c1 (aset bytes_eqb (c_use c1) (ToString j) rj)) _ _ S1 D1 Kt E2 i r I A C).
           cbn. rewrite set_get, Eq, U1. reflexivity.
Qed.


Lemma remove_use_inv : forall ids c k c', NoDup (map fst (c_use c)) -> NoDup (map fst (c_active c)) -> RemoveGatewaysToUse c ids = Ret (k, c') ->
  (client_settings c' = client_settings c /\ c_reg c' = c_reg c /\ c_pay c' = c_pay c /\ c_drawn c' = c_drawn c) /\
  0 <= k /\ Z.of_nat (length (c_use c)) = Z.of_nat (length (c_use c')) + k /\ NoDup (map fst (c_use c')) /\ NoDup (map fst (c_active c')) /\
  (forall id, named ids id -> aget bytes_eqb (c_use c') id = None /\ (aget bytes_eqb (c_use c) id <> None -> aget bytes_eqb (c_active c') id = None)) /\
  (forall id, ~ named ids id -> aget bytes_eqb (c_use c') id = aget bytes_eqb (c_use c) id /\ aget bytes_eqb (c_active c') id = aget bytes_eqb (c_active c) id) /\
  (forall id r, aget bytes_eqb (c_active c') id = Some r -> aget bytes_eqb (c_active c) id = Some r).
Proof.
  induction ids as [|[i|] t IH]; intros c k c' N1 N2 H; cbn [RemoveGatewaysToUse deref obind] in H; [|  |discriminate].
  - apply ret_inj in H. injection H as <- <-. repeat split; auto; try lia; destruct H as (j & [] & _).
  - destruct (aget bytes_eqb (c_use c) (ToString i)) as [r0|] eqn:Ei.
    + step H. destruct v as [k2 c2]. cbn [fst snd] in H. apply ret_inj in H. injection H as <- <-.
      match type of E with RemoveGatewaysToUse ?x _ = _ => set (c1 := x) in * end.
      assert (M1 : NoDup (map fst (c_use c1))) by (apply del_nodup; exact N1). assert (M2 : NoDup (map fst (c_active c1))) by (apply del_nodup; exact N2).
      destruct (IH _ _ _ M1 M2 E) as ((A1 & A2 & A3 & A4) & B & C & D1 & D2 & F & G & K).
      change (c_use c1) with (adel bytes_eqb (c_use c) (ToString i)) in *. change (c_active c1) with (adel bytes_eqb (c_active c) (ToString i)) in *.
      rewrite (del_length _ _ _ Ei). split; [auto|]. split; [lia|]. split; [lia|]. split; [exact D1|]. split; [exact D2|].
      assert (Gi : forall id, aget bytes_eqb (adel bytes_eqb (c_use c) (ToString i)) id = if bytes_eqb id (ToString i) then None else aget bytes_eqb (c_use c) id) by (intros; apply del_get, N1).
      assert (Ga : forall id, aget bytes_eqb (adel bytes_eqb (c_active c) (ToString i)) id = if bytes_eqb id (ToString i) then None else aget bytes_eqb (c_active c) id) by (intros; apply del_get, N2).
      assert (Ka : forall id r, aget bytes_eqb (c_active c2) id = Some r -> id <> ToString i /\ aget bytes_eqb (c_active c) id = Some r).
      { intros id r X. apply K in X. rewrite Ga in X. destruct (bytes_eqb id (ToString i)) eqn:Eq; [discriminate|]. split; [|exact X]. intros Y. apply bytes_eqb_eq in Y. congruence. }
      assert (Dec : forall id, (id = ToString i \/ id <> ToString i)) by (intros id; destruct (bytes_eqb id (ToString i)) eqn:Eq; [left; apply bytes_eqb_eq; exact Eq|right; intros Y; apply bytes_eqb_eq in Y; congruence]).
      split; [|split; [|intros id r X; apply Ka, X]].
      * intros id (j & [J|J] & ->).
        -- injection J as <-. split.
           ++ destruct (aget bytes_eqb (c_use c2) (ToString i)) as [r|] eqn:X; [|reflexivity]. exfalso.
              assert (Y : ~ named t (ToString i)) by (intros Y; destruct (F _ Y); congruence). destruct (G _ Y) as [Z _]. rewrite X, Gi in Z.
              replace (bytes_eqb (ToString i) (ToString i)) with true in Z by (symmetry; apply bytes_eqb_eq; reflexivity). discriminate.
           ++ intros _. destruct (aget bytes_eqb (c_active c2) (ToString i)) as [r|] eqn:X; [|reflexivity]. destruct (Ka _ _ X) as [Y _]. congruence.
        -- destruct (Dec (ToString j)) as [Y|Y].
           ++ split; [apply F; exists j; auto|]. intros _. rewrite Y. destruct (aget bytes_eqb (c_active c2) (ToString i)) as [r|] eqn:X; [|reflexivity]. destruct (Ka _ _ X) as [Z _]. congruence.
           ++ destruct (F (ToString j)) as [F1 F2]; [exists j; auto|]. split; [exact F1|]. intros Z. apply F2. rewrite Gi.
              destruct (bytes_eqb (ToString j) (ToString i)) eqn:Eq; [apply bytes_eqb_eq in Eq; congruence|exact Z].
      * intros id Nm. destruct (G id) as [G1 G2]; [intros (j & J & ->); apply Nm; exists j; split; [right; exact J|reflexivity]|]. rewrite G1, G2, Gi, Ga.
        destruct (bytes_eqb id (ToString i)) eqn:Eq; [|auto]. apply bytes_eqb_eq in Eq. exfalso. apply Nm. exists i. split; [left; reflexivity|exact Eq].
    + destruct (IH _ _ _ N1 N2 H) as (A & B & C & D1 & D2 & F & G & K). repeat (split; [assumption|]). split; [|split; [|exact K]].
      * intros id (j & [J|J] & ->); [|apply F; exists j; auto]. injection J as <-. split; [|intros X; congruence].
        destruct (aget bytes_eqb (c_use c') (ToString i)) as [r|] eqn:X; [|reflexivity]. exfalso.
        assert (Y : ~ named t (ToString i)) by (intros Y; destruct (F _ Y); congruence). destruct (G _ Y) as [Z _]. congruence.
      * intros id Nm. apply G. intros (j & J & ->). apply Nm. exists j. split; [right; exact J|reflexivity].
Qed.

Lemma remove_active_inv : forall ids c k c', NoDup (map fst (c_active c)) -> RemoveActiveGateways c ids = Ret (k, c') ->
  (client_settings c' = client_settings c /\ c_reg c' = c_reg c /\ c_pay c' = c_pay c /\ c_drawn c' = c_drawn c /\ c_use c' = c_use c) /\
  0 <= k /\ Z.of_nat (length (c_active c)) = Z.of_nat (length (c_active c')) + k /\ NoDup (map fst (c_active c')) /\
  (forall id, named ids id -> aget bytes_eqb (c_active c') id = None) /\
  (forall id, ~ named ids id -> aget bytes_eqb (c_active c') id = aget bytes_eqb (c_active c) id) /\
  (forall id r, aget bytes_eqb (c_active c') id = Some r -> aget bytes_eqb (c_active c) id = Some r).
Proof.
  induction ids as [|[i|] t IH]; intros c k c' N2 H; cbn [RemoveActiveGateways deref obind] in H; [| |discriminate].
  - apply ret_inj in H. injection H as <- <-. repeat split; auto; try lia. intros id (j & [] & _).
  - destruct (aget bytes_eqb (c_active c) (ToString i)) as [r0|] eqn:Ei.
    + step H. destruct v as [k2 c2]. cbn [fst snd] in H. apply ret_inj in H. injection H as <- <-.
      match type of E with RemoveActiveGateways ?x _ = _ => set (c1 := x) in * end.
      assert (M2 : NoDup (map fst (c_active c1))) by (apply del_nodup; exact N2).
      destruct (IH _ _ _ M2 E) as (A & B & C & D2 & F & G & K). change (c_active c1) with (adel bytes_eqb (c_active c) (ToString i)) in *.
      rewrite (del_length _ _ _ Ei). split; [exact A|]. split; [lia|]. split; [lia|]. split; [exact D2|].
      assert (Ga : forall id, aget bytes_eqb (adel bytes_eqb (c_active c) (ToString i)) id = if bytes_eqb id (ToString i) then None else aget bytes_eqb (c_active c) id) by (intros; apply del_get, N2).
      assert (Ka : forall id r, aget bytes_eqb (c_active c2) id = Some r -> id <> ToString i /\ aget bytes_eqb (c_active c) id = Some r).
      { intros id r X. apply K in X. rewrite Ga in X. destruct (bytes_eqb id (ToString i)) eqn:Eq; [discriminate|]. split; [|exact X]. intros Y. apply bytes_eqb_eq in Y. congruence. }
      split; [|split; [|intros id r X; apply Ka, X]].
      * intros id (j & [J|J] & ->); [|apply F; exists j; auto]. injection J as <-.
        destruct (aget bytes_eqb (c_active c2) (ToString i)) as [r|] eqn:X; [|reflexivity]. destruct (Ka _ _ X) as [Y _]. congruence.
      * intros id Nm. rewrite G by (intros (j & J & ->); apply Nm; exists j; split; [right; exact J|reflexivity]). rewrite Ga.
        destruct (bytes_eqb id (ToString i)) eqn:Eq; [|auto]. apply bytes_eqb_eq in Eq. exfalso. apply Nm. exists i. split; [left; reflexivity|exact Eq].
    + destruct (IH _ _ _ N2 H) as (A & B & C & D2 & F & G & K). repeat (split; [assumption|]). split; [|split; [|exact K]].
      * intros id (j & [J|J] & ->); [|apply F; exists j; auto]. injection J as <-.
        destruct (aget bytes_eqb (c_active c') (ToString i)) as [r|] eqn:X; [|reflexivity]. apply K in X. congruence.
      * intros id Nm. apply G. intros (j & J & ->). apply Nm. exists j. split; [right; exact J|reflexivity].
Qed.

Lemma find_gateways_inv e c l n r c' : FindGateways e c l n = Ret (r, c') ->
  client_settings c' = client_settings c /\ c_use c' = c_use c /\ c_active c' = c_active c /\ c_pay c' = c_pay c /\ c_drawn c' = c_drawn c.
Proof. unfold FindGateways. intros H. step H. apply ret_inj in H. injection H as <- <-. auto. Qed.

Lemma pick_region_exact location max : forall l count, 0 <= count -> pick_region location count max l = firstn (Z.to_nat (Z.max 1 (max - count))) (nearby location l).
Proof.
  unfold nearby. induction l as [|r t IH]; intros count C; cbn [pick_region filter flat_map]; [rewrite firstn_nil; reflexivity|].
  destruct (bytes_eqb (r_region r) location); [|apply IH; exact C]. cbn [flat_map].
  destruct (NewNodeIDFromHexString (r_id r)) as [id|]; [|apply IH; exact C].
  destruct (Z.to_nat (Z.max 1 (max - count))) as [|k] eqn:K; [lia|]. cbn [app firstn]. f_equal.
  destruct (count + 1 >=? max) eqn:G.
  - assert (k = 0%nat) by lia. subst k. reflexivity.
  - rewrite IH by lia. f_equal. lia.
Qed.

Lemma find_gateways_exact e c l n r c' : FindGateways e c l n = Ret (OkR r, c') ->
  r = firstn (Z.to_nat (Z.max 1 n)) (nearby l (map snd (ce_order e (gatewaysMap reg (c_reg c))))).
Proof.
  unfold FindGateways, GetAllGateways. intros H. destruct (negb (start reg (c_reg c)) || negb (gatewayDiscv reg (c_reg c))) eqn:S0.
  - cbn [obind fst snd] in H. apply ret_inj in H. discriminate H.
  - step H. cbv zeta in H. apply ret_inj in H. step E. apply ret_inj in E. subst v. cbn [fst snd] in H. injection H as <- _.
    rewrite pick_region_exact by lia. rewrite Z.sub_0_r. reflexivity.
Qed.

Section life.
  Variable version : Z.
  Variable supported : list Z.
  Variable sha256 : bytes -> bytes.
  Variable pub_of : bytes -> bytes.
  Variable ec_verify : bytes -> bytes -> bytes -> bool.
  Variable blake : bytes -> bytes.
  Variable voucher_text : voucher -> gostring.
  Variable rand_int : list draw -> Z.
  Variable rand_bytes : list draw -> bytes.

  Notation authenticates := (ClientSpec.authenticates version supported sha256 pub_of ec_verify blake).
  Notation challenges := (ClientSpec.challenges version supported rand_bytes).
  Notation AddActive := (AddActiveGateways version supported sha256 pub_of ec_verify blake rand_bytes).

  Lemma add_active_inv e : forall ids n c k c' out, NoDup (map fst (c_active c)) -> AddActive e n c ids = Ret (k, c', out) ->
    (client_settings c' = client_settings c /\ c_reg c' = c_reg c /\ c_pay c' = c_pay c /\ c_use c' = c_use c) /\
    0 <= k /\ Z.of_nat (length (c_active c')) = Z.of_nat (length (c_active c)) + k /\ NoDup (map fst (c_active c')) /\
    (forall id r, aget bytes_eqb (c_active c) id = Some r -> aget bytes_eqb (c_active c') id = Some r) /\
    (forall id r, aget bytes_eqb (c_active c') id = Some r -> aget bytes_eqb (c_active c) id = Some r \/
       named ids id /\ aget bytes_eqb (c_use c) id = Some r /\ exists ds, length (rand_bytes ds) = 32%nat /\ authenticates e r (rand_bytes ds)) /\
    challenges (c_id c) (ce_now e + c_ttl c) (c_drawn c) out (c_drawn c').
  Proof.
    induction ids as [|[i|] t IH]; intros n c k c' out ND H; cbn [AddActiveGateways deref obind] in H; [| |discriminate].
    - apply ret_inj in H. injection H as <- <- <-. split; [auto|]. split; [lia|]. split; [lia|]. split; [exact ND|]. split; [auto|]. split; [auto|constructor].
    - assert (Skip : forall n', AddActive e n' c t = Ret (k, c', out) ->
        (client_settings c' = client_settings c /\ c_reg c' = c_reg c /\ c_pay c' = c_pay c /\ c_use c' = c_use c) /\
        0 <= k /\ Z.of_nat (length (c_active c')) = Z.of_nat (length (c_active c)) + k /\ NoDup (map fst (c_active c')) /\
        (forall id r, aget bytes_eqb (c_active c) id = Some r -> aget bytes_eqb (c_active c') id = Some r) /\
        (forall id r, aget bytes_eqb (c_active c') id = Some r -> aget bytes_eqb (c_active c) id = Some r \/
           named (Some i :: t) id /\ aget bytes_eqb (c_use c) id = Some r /\ exists ds, length (rand_bytes ds) = 32%nat /\ authenticates e r (rand_bytes ds)) /\
        challenges (c_id c) (ce_now e + c_ttl c) (c_drawn c) out (c_drawn c')).
      { intros n' H'. destruct (IH _ _ _ _ _ ND H') as (A & B & C & D & E & F & G). repeat (split; [assumption|]). split; [|exact G].
        intros id r X. destruct (F id r X) as [Y|((j & J & ->) & K)]; [auto|right]. split; [exists j; split; [right; exact J|reflexivity]|exact K]. }
      destruct (aget bytes_eqb (c_active c) (ToString i)) as [r0|] eqn:Ei; [eauto|]. rewrite lower_text in H.
      destruct (aget bytes_eqb (c_use c) (ToString i)) as [gw|] eqn:Eu; [|eauto]. clear Skip. cbv zeta in H. step H. destruct v as [ok o1].
      destruct (establish_inv _ _ _ _ _ _ _ _ _ _ _ _ _ _ E) as [Eo Ok].
      assert (Ch : forall o d', challenges (c_id c) (ce_now e + c_ttl c) (DrawBytes32 :: c_drawn c) o d' -> challenges (c_id c) (ce_now e + c_ttl c) (c_drawn c) (o1 ++ o) d').
      { intros o d' X. destruct Eo as [->|(q & Q & ->)]; cbn [app]; [apply challenges_none; exact X|apply challenges_send; [exact Q|exact X]]. }
      destruct ok; cbn [negb] in H.
      + step H. destruct v as [[k2 c2] o2]. apply ret_inj in H. injection H as <- <- <-.
        match type of E0 with AddActive _ _ ?x _ = _ => set (c1 := x) in * end.
        assert (N1 : NoDup (map fst (c_active c1))) by (apply set_nodup; exact ND).
        destruct (IH _ _ _ _ _ N1 E0) as ((A1 & A2 & A3 & A4) & B & C & D & K1 & F & G).
        change (c_active c1) with (aset bytes_eqb (c_active c) (ToString i) gw) in *. change (c_use c1) with (c_use c) in *.
        rewrite aset_length_new in C by exact Ei. split; [auto|]. split; [lia|]. split; [lia|]. split; [exact D|]. split; [|split].
        * intros id r X. apply K1. rewrite set_get. destruct (bytes_eqb id (ToString i)) eqn:Eq; [|exact X]. apply bytes_eqb_eq in Eq. congruence.
        * intros id r X. destruct (F id r X) as [Y|((j & J & ->) & K)].
          -- rewrite set_get in Y. destruct (bytes_eqb id (ToString i)) eqn:Eq; [|auto]. apply bytes_eqb_eq in Eq. injection Y as <-. subst id. right.
             split; [exists i; split; [left; reflexivity|reflexivity]|]. split; [exact Eu|].
             destruct (Ok eq_refl) as (L & q & resp & g & Q & _ & [An1 An2] & De & T). exists (c_drawn c). split; [exact L|].
             exists n, (c_id c), (ce_now e + c_ttl c), q, resp, g. auto.
          -- right. split; [exists j; split; [right; exact J|reflexivity]|exact K].
        * apply Ch. exact G.
      + step H. destruct v as [[k2 c2] o2]. apply ret_inj in H. injection H as <- <- <-.
        destruct (IH _ (drew c DrawBytes32) _ _ _ ND E0) as (A & B & C & D & K1 & F & G). cbn [drew c_active c_use client_settings c_reg c_pay] in *.
        repeat (split; [assumption|]). split; [|apply Ch; exact G]. intros id r X. destruct (F id r X) as [Y|((j & J & ->) & K)]; [auto|right].
        split; [exists j; split; [right; exact J|reflexivity]|exact K].
  Qed.

  Notation perform := (ClientSpec.perform version supported sha256 pub_of ec_verify blake voucher_text rand_int rand_bytes).
  Notation use_through := (ClientSpec.use_through version supported sha256 pub_of ec_verify blake voucher_text rand_int rand_bytes).
  Notation authenticated_at := (ClientSpec.authenticated_at version supported sha256 pub_of ec_verify blake rand_bytes).

  Record alive (H : calls) (c : client) : Prop := Alive {
    a_nodup : NoDup (map fst (c_use c)) /\ NoDup (map fst (c_active c));
    a_use : forall id r, aget bytes_eqb (c_use c) id = Some r ->
      complete r /\ (exists i, id = ToString i) /\ exists x, In x H /\ registered_at x id r;
    a_active : forall id r, aget bytes_eqb (c_active c) id = Some r -> aget bytes_eqb (c_use c) id = Some r /\ exists x, In x H /\ authenticated_at x r
  }.

  Lemma alive_same H c c' : alive H c -> c_use c' = c_use c -> c_active c' = c_active c -> alive H c'.
  Proof. intros [A B C] U V. split; rewrite ?U, ?V; assumption. Qed.

  Lemma perform_alive H m e k c c' out : In (m, e, k) H -> alive H c -> perform e (with_manager c m) k = Ret (c', out) ->
    alive H c' /\ client_settings c' = client_settings c.
  Proof.
    intros I [[N1 N2] U A] P. set (c0 := with_manager c m) in *.
    assert (Al : alive H c0) by (split; [split|..]; assumption).
    assert (Drift : drift e c0 c' -> alive H c' /\ client_settings c' = client_settings c).
    { intros D. split; [apply (alive_same H c0); [exact Al|apply D|apply D]|exact (d_settings _ _ _ D)]. }
    destruct k; cbn [ClientSpec.perform] in P.
    - step P. destruct v as [r c1]. apply ret_inj in P. injection P as <- <-. destruct (find_gateways_inv _ _ _ _ _ _ E) as (X1 & X2 & X3 & _).
      split; [apply (alive_same H c0); assumption|exact X1].
    - step P. destruct v as [r c1]. apply ret_inj in P. injection P as <- <-. cbn [snd].
      destruct (add_use_inv e ids 0 c0 r c1 N1 E) as ((X1 & X2 & _) & _ & _ & X3 & _ & X4 & X5). split; [|exact X1]. split.
      + rewrite X2. split; [exact X3|exact N2].
      + intros id g Y. destruct (X5 id g Y) as [Y'|(i & _ & -> & K & C)]; [apply U; exact Y'|]. split; [exact C|]. split; [eauto|]. exists (m, e, CAddGateways ids). split; [exact I|exact K].
      + intros id g Y. rewrite X2 in Y. destruct (A id g Y) as [Y1 Y2]. split; [apply X4; exact Y1|exact Y2].
    - step P. destruct v as [r c1]. apply ret_inj in P. injection P as <- <-. cbn [snd].
      destruct (remove_use_inv ids c0 r c1 N1 N2 E) as ((X1 & _) & _ & _ & X3 & X4 & F & G & K). split; [|exact X1]. split; [split; assumption| |].
      + intros id g Y. destruct (aget bytes_eqb (c_use c) id) as [g'|] eqn:Z.
        * assert (Nn : ~ named ids id) by (intros Q; destruct (F id Q) as [Q1 _]; congruence). destruct (G id Nn) as [Q _]. rewrite Y in Q.
          change (c_use c0) with (c_use c) in Q. rewrite Z in Q. injection Q as <-. apply U. exact Z.
        * assert (Nn : ~ named ids id) by (intros Q; destruct (F id Q) as [Q1 _]; congruence). destruct (G id Nn) as [Q _]. rewrite Y in Q. change (c_use c0) with (c_use c) in Q. congruence.
      + intros id g Y. pose proof (K _ _ Y) as Y0. destruct (A id g Y0) as [Y1 Y2]. split; [|exact Y2].
        assert (Nn : ~ named ids id). { intros Q. destruct (F id Q) as [_ Q1]. rewrite Q1 in Y; [discriminate|]. change (c_use c0) with (c_use c). congruence. }
        destruct (G id Nn) as [Q _]. rewrite Q. exact Y1.
    - apply ret_inj in P. injection P as <- <-. split; [|reflexivity]. split; [split; constructor|discriminate|discriminate].
    - step P. destruct v as [[r c1] o]. apply ret_inj in P. injection P as <- <-. cbn [fst snd].
      destruct (add_active_inv e ids 0 c0 r c1 o N2 E) as ((X1 & _ & _ & X2) & _ & _ & X3 & _ & F & _). split; [|exact X1]. split; rewrite ?X2; [split; assumption|exact U|].
      intros id g Y. destruct (F id g Y) as [Y'|(_ & Y1 & Y2)]; [apply A; exact Y'|]. split; [exact Y1|]. exists (m, e, CAddActive ids). split; [exact I|exact Y2].
    - step P. destruct v as [r c1]. apply ret_inj in P. injection P as <- <-. cbn [snd].
      destruct (remove_active_inv ids c0 r c1 N2 E) as ((X1 & _ & _ & _ & X2) & _ & _ & X3 & _ & _ & K). split; [|exact X1]. split; rewrite ?X2; [split; assumption|exact U|].
      intros id g Y. apply A. apply K. exact Y.
    - apply ret_inj in P. injection P as <- <-. split; [|reflexivity]. split; [split; [exact N1|constructor]|exact U|discriminate].
    - step P. destruct v as [[r c1] o]. apply ret_inj in P. injection P as <- <-. apply Drift. apply (find_standard_inv _ _ _ _ _ _ _ _ _ _ _ _ _ _ E).
    - step P. destruct v as [[r c1] o]. apply ret_inj in P. injection P as <- <-. apply Drift. apply (find_standard_v2_inv _ _ _ _ _ _ _ _ _ _ _ _ _ _ _ _ E).
    - step P. destruct v as [[r c1] o]. apply ret_inj in P. injection P as <- <-. apply Drift. apply (find_dht_inv _ _ _ _ _ _ _ _ _ _ _ _ _ _ _ E).
    - step P. destruct v as [[r c1] o]. apply ret_inj in P. injection P as <- <-. apply Drift. apply (find_dht_v2_inv _ _ _ _ _ _ _ _ _ _ _ _ _ _ _ _ _ E).
    - step P. destruct v as [[r c1] o]. apply ret_inj in P. injection P as <- <-. apply Drift. apply (find_ack_inv _ _ _ _ _ _ _ _ _ _ _ _ _ _ E).
  Qed.

  Lemma life_alive H : forall h c c', incl h H -> alive H c -> use_through c h = Ret c' -> alive H c' /\ client_settings c' = client_settings c.
  Proof.
    induction h as [|[[m e] k] t IH]; intros c c' In0 Al L; cbn [ClientSpec.use_through] in L.
    - apply ret_inj in L. subst. auto.
    - step L. destruct v as [c1 o]. cbn [fst] in L. destruct (perform_alive H m e k c c1 o) as [A1 A2]; [apply In0; left; reflexivity|exact Al|exact E|].
      destruct (IH c1 c') as [B1 B2]; [intros x X; apply In0; right; exact X|exact A1|exact L|]. split; [exact B1|congruence].
  Qed.
  Lemma fresh_alive H i ttl s o t m : alive H (NewClient i ttl s o t m).
  Proof. split; [split; constructor|discriminate|discriminate]. Qed.

  (** Whatever happens before, and without a call that removes. *)
  Lemma removal_needed m e k c c' out id r : NoDup (map fst (c_use c)) -> NoDup (map fst (c_active c)) -> perform e (with_manager c m) k = Ret (c', out) ->
    aget bytes_eqb (c_use c) id = Some r ->
    match k with CRemoveGateways _ | CRemoveAllGateways => True | _ => aget bytes_eqb (c_use c') id = Some r end.
  Proof.
    intros N1 N2 P U. set (c0 := with_manager c m) in *.
    assert (Drift : drift e c0 c' -> aget bytes_eqb (c_use c') id = Some r) by (intros D; rewrite (d_use _ _ _ D); exact U).
    destruct k; cbn [ClientSpec.perform] in P; try exact Logic.I.
    - step P. destruct v as [q c1]. apply ret_inj in P. injection P as <- <-. destruct (find_gateways_inv _ _ _ _ _ _ E) as (X1 & X2 & X3 & _). cbn [snd]. rewrite X2. exact U.
    - step P. destruct v as [q c1]. apply ret_inj in P. injection P as <- <-. destruct (add_use_inv e ids 0 c0 q c1 N1 E) as (_ & _ & _ & _ & _ & X4 & _). apply X4. exact U.
    - step P. destruct v as [[q c1] o]. apply ret_inj in P. injection P as <- <-. destruct (add_active_inv e ids 0 c0 q c1 o N2 E) as ((_ & _ & _ & X2) & _). cbn. rewrite X2. exact U.
    - step P. destruct v as [q c1]. apply ret_inj in P. injection P as <- <-. destruct (remove_active_inv ids c0 q c1 N2 E) as ((_ & _ & _ & _ & X2) & _). cbn. rewrite X2. exact U.
    - apply ret_inj in P. injection P as <- <-. exact U.
    - step P. destruct v as [[q c1] o]. apply ret_inj in P. injection P as <- <-. apply Drift. apply (find_standard_inv _ _ _ _ _ _ _ _ _ _ _ _ _ _ E).
    - step P. destruct v as [[q c1] o]. apply ret_inj in P. injection P as <- <-. apply Drift. apply (find_standard_v2_inv _ _ _ _ _ _ _ _ _ _ _ _ _ _ _ _ E).
    - step P. destruct v as [[q c1] o]. apply ret_inj in P. injection P as <- <-. apply Drift. apply (find_dht_inv _ _ _ _ _ _ _ _ _ _ _ _ _ _ _ E).
    - step P. destruct v as [[q c1] o]. apply ret_inj in P. injection P as <- <-. apply Drift. apply (find_dht_v2_inv _ _ _ _ _ _ _ _ _ _ _ _ _ _ _ _ _ E).
    - step P. destruct v as [[q c1] o]. apply ret_inj in P. injection P as <- <-. apply Drift. apply (find_ack_inv _ _ _ _ _ _ _ _ _ _ _ _ _ _ E).
  Qed.
End life.
