(** * Proofs about the client library *)
From Coq Require Import List ZArith Bool Lia ZifyBool ZifyNat.
From Coq Require Import Init.Byte.
From Verif Require Import Base BaseProofs Ids IdsProofs Json Crypto Message Offer OfferProofs Schema Messages WireSpec
  Payment PaymentSpec Register RegisterProofs GatewaySpec GatewayProofs Client ClientSpec.
Import ListNotations.
Open Scope Z_scope.
Open Scope go_scope.

(** ** Lookups *)

(** What lookups leave of a client. *)
Record drift (e : cenv) (c c' : client) : Prop := Drift {
  d_settings : client_settings c' = client_settings c;
  d_use : c_use c' = c_use c;
  d_active : c_active c' = c_active c;
  d_gateways : forall id r, gateway_known e c' id r -> gateway_known e c id r;
  d_providers : forall id r, provider_known e c' id r -> provider_known e c id r
}.
Lemma drift_refl e c : drift e c c.
Proof. split; auto. Qed.
Lemma drift_trans e a b c : drift e a b -> drift e b c -> drift e a c.
Proof. intros [] []. split; try congruence; auto. Qed.
Lemma drift_same e c c' : client_settings c' = client_settings c -> c_use c' = c_use c -> c_active c' = c_active c ->
  gatewaysMap reg (c_reg c') = gatewaysMap reg (c_reg c) -> providersMap reg (c_reg c') = providersMap reg (c_reg c) -> drift e c c'.
Proof. intros A B C D F. split; auto; intros id r; unfold gateway_known, provider_known; rewrite ?D, ?F; auto. Qed.
Lemma drift_drew e c d : drift e c (drew c d).
Proof. apply drift_same; reflexivity. Qed.

Lemma get_set (l : list (gostring * reg)) k v id : aget bytes_eqb (aset bytes_eqb l k v) id = if bytes_eqb id k then Some v else aget bytes_eqb l id.
Proof. apply aget_aset. apply bytes_eqb_eq. Qed.

Lemma pulled_known a l x : pulled reg (under_ids a) = Ret l -> In x l -> exists l0, a = Some l0 /\ In (Some (snd x)) l0 /\ fst x = r_id (snd x).
Proof.
  unfold pulled, under_ids. destruct a as [l0|]; [|intros H; apply ret_inj in H; subst; intros []].
  intros H X. exists l0. split; [reflexivity|]. revert l H X. induction l0 as [|y t IH]; cbn [map fold_right]; intros l H X.
  - apply ret_inj in H. subst. destruct X.
  - step H. step H. apply ret_inj in H. subst. destruct y as [r|]; [|discriminate]. cbn [option_map deref] in E0. apply ret_inj in E0. subst.
    destruct X as [<-|X]; [cbn; auto|]. destruct (IH _ eq_refl X) as [A B]. cbn. auto.
Qed.
Lemma add_gateways_get l : forall m m' id (i : reg), add_gateways reg m l = Ret m' ->
  aget bytes_eqb (gatewaysMap reg m') id = Some i -> aget bytes_eqb (gatewaysMap reg m) id = Some i \/ In (id, i) l.
Proof.
  induction l as [|(k, v) t IH]; intros m m' id i H A; cbn [add_gateways] in H; [apply ret_inj in H; subst; auto|].
  step H.
  assert (G : aget bytes_eqb (aset bytes_eqb (gatewaysMap reg m) k v) id = Some i \/ In (id, i) t -> aget bytes_eqb (gatewaysMap reg m) id = Some i \/ In (id, i) ((k, v) :: t)).
  { intros [B|B]; [|right; right; exact B]. rewrite get_set in B. destruct (bytes_eqb id k) eqn:Ek; [|auto].
    apply bytes_eqb_eq in Ek. injection B as ->. subst k. right. left. reflexivity. }
  apply G. step H; [|step H; step H]; destruct (IH _ _ _ _ H A) as [B|B]; auto.
Qed.
Lemma add_gateways_providers l : forall m m', add_gateways reg m l = Ret m' -> providersMap reg m' = providersMap reg m.
Proof.
  induction l as [|(k, v) t IH]; intros m m' H; cbn [add_gateways] in H; [apply ret_inj in H; subst; auto|].
  step H. step H; [|step H; step H]; apply IH in H; exact H.
Qed.
Lemma add_providers_get l : forall m m' id (i : reg), add_providers reg m l = Ret m' ->
  aget bytes_eqb (providersMap reg m') id = Some i -> aget bytes_eqb (providersMap reg m) id = Some i \/ In (id, i) l.
Proof.
  induction l as [|(k, v) t IH]; intros m m' id i H A; cbn [add_providers] in H; [apply ret_inj in H; subst; auto|].
  step H. destruct (IH _ _ _ _ H A) as [B|B]; [|right; right; exact B].
  unfold with_providers in B. cbn [providersMap] in B. rewrite get_set in B. destruct (bytes_eqb id k) eqn:Ek; [|auto].
  apply bytes_eqb_eq in Ek. injection B as ->. subst k. right. left. reflexivity.
Qed.
Lemma add_providers_keep l : forall m m', add_providers reg m l = Ret m' -> gatewaysMap reg m' = gatewaysMap reg m.
Proof.
  induction l as [|(k, v) t IH]; intros m m' H; cbn [add_providers] in H; [apply ret_inj in H; subst; auto|].
  step H. apply IH in H. exact H.
Qed.

Lemma refresh_known e n c m' : Refresh reg (c_reg c) (under_ids (ce_gateways e n)) (under_ids (ce_providers e n)) = Ret m' ->
  (forall id r, aget bytes_eqb (gatewaysMap reg m') id = Some r -> gateway_known e c id r) /\
  (forall id r, aget bytes_eqb (providersMap reg m') id = Some r -> provider_known e c id r).
Proof.
  unfold Refresh. intros H. step H. { apply ret_inj in H. subst. split; intros; left; assumption. }
  step H. unfold updateGateways in E0. unfold updateProviders in H. split; intros id r A.
  - assert (A' : aget bytes_eqb (gatewaysMap reg v) id = Some r).
    { step H; [apply ret_inj in H; subst; exact A|]. step H. apply add_providers_keep in H. rewrite H in A. exact A. }
    step E0; [apply ret_inj in E0; subst; left; exact A'|]. step E0. destruct (add_gateways_get _ _ _ _ _ E0 A') as [B|B]; [left; exact B|].
    destruct (pulled_known _ _ _ E2 B) as (l0 & L & I0 & F). cbn in F, I0. right. exists n, l0. auto.
  - assert (P : providersMap reg v = providersMap reg (c_reg c)).
    { step E0; [apply ret_inj in E0; subst; reflexivity|]. step E0. apply add_gateways_providers in E0. exact E0. }
    step H; [apply ret_inj in H; subst; rewrite P in A; left; exact A|]. step H.
    destruct (add_providers_get _ _ _ _ _ H A) as [B|B]; [rewrite P in B; left; exact B|].
    destruct (pulled_known _ _ _ E2 B) as (l0 & L & I0 & F). cbn in F, I0. right. exists n, l0. auto.
Qed.

Lemma find_gateway_inv e n c id x c' : FindGateway e n c (Some id) = Ret (x, c') ->
  drift e c c' /\ c_pay c' = c_pay c /\ c_drawn c' = c_drawn c /\ (forall r, x = Some r -> gateway_known e c (ToString id) r).
Proof.
  unfold FindGateway, GetGateway. intros H. step H. apply ret_inj in H. injection H as <- <-. step E.
  { apply ret_inj in E. subst v. cbn [fst snd]. split; [apply drift_same; reflexivity|]. repeat split; discriminate. }
  cbn [deref obind RLock RUnlock] in E.
  destruct (aget bytes_eqb (gatewaysMap reg (c_reg c)) (ToString id)) as [i|] eqn:Ea.
  { apply ret_inj in E. subst v. cbn [fst snd]. split; [apply drift_same; reflexivity|]. split; [reflexivity|]. split; [reflexivity|].
    intros j [= <-]. left. exact Ea. }
  step E. apply ret_inj in E. subst v. cbn [fst snd]. destruct (refresh_known e n (with_manager c _) _ E1) as [G P].
  split; [|split; [reflexivity|split; [reflexivity|intros r A; apply G, A]]].
  split; try reflexivity; intros id0 r [A|A]; try (right; exact A); [apply G, A|apply P, A].
Qed.
Lemma find_gateway_any e n c id x c' : FindGateway e n c id = Ret (x, c') ->
  drift e c c' /\ c_pay c' = c_pay c /\ c_drawn c' = c_drawn c /\
  (forall r, x = Some r -> exists i, id = Some i /\ gateway_known e c (ToString i) r).
Proof.
  destruct id as [i|].
  - intros H. destruct (find_gateway_inv _ _ _ _ _ _ H) as (D & P & W & K). split; [exact D|]. split; [exact P|]. split; [exact W|]. eauto.
  - unfold FindGateway, GetGateway. intros H. step H. apply ret_inj in H. injection H as <- <-. step E; [|discriminate].
    apply ret_inj in E. subst v. cbn [fst snd]. split; [apply drift_same; reflexivity|]. repeat split; discriminate.
Qed.
Lemma find_provider_inv e c id x c' : FindProvider c id = Ret (x, c') ->
  drift e c c' /\ c_pay c' = c_pay c /\ c_drawn c' = c_drawn c /\
  (forall r, x = Some r -> exists i, id = Some i /\ provider_known e c (ToString i) r).
Proof.
  unfold FindProvider. intros H. step H. destruct v as [y m']. apply ret_inj in H. injection H as <- <-.
  destruct (provider_same reg _ _ _ _ E) as (_ & _ & _ & _ & _ & Gm & Pm & _).
  split; [|split; [reflexivity|split; [reflexivity|]]].
  - split; try reflexivity; intros id0 r; unfold gateway_known, provider_known; cbn [with_manager c_reg snd]; rewrite ?Gm, ?Pm; auto.
  - intros r ->. unfold GetProvider in E. step E; [discriminate|]. destruct id as [i|]; [|discriminate].
    cbn [deref obind RLock RUnlock] in E. exists i. split; [reflexivity|]. left.
    destruct (aget bytes_eqb (providersMap reg (c_reg c)) (ToString i)); cbn [obind] in E; [|discriminate].
    apply ret_inj in E. injection E as -> _. reflexivity.
Qed.

(** ** Registrations in order *)

Lemma empty_false s : empty s = false <-> s <> [].
Proof. destruct s; cbn; split; congruence. Qed.

Lemma keys_readable_inv r : keys_readable r = Ret true ->
  (exists k, DecodePublicKey (r_root r) = Ret (OkR k)) /\ exists k, DecodePublicKey (r_key r) = Ret (OkR k).
Proof.
  unfold keys_readable, GetRootSigningKey, GetSigningKey. intros H. step H. destruct v; [|discriminate]. step H. destruct v; [|discriminate]. eauto.
Qed.
Lemma validate_gateway_inv r : validateGatewayInfo r = Ret true -> complete r.
Proof.
  unfold validateGatewayInfo. intros H. step H; [discriminate|]. apply keys_readable_inv in H. destruct H as [A B].
  repeat (apply orb_false_elim in E; destruct E as [E ?]). unfold complete.
  repeat match goal with X : empty _ = false |- _ => apply empty_false in X end. auto 12.
Qed.

Section proofs.
  Variable version : Z.
  Variable supported : list Z.
  Variable sha256 : bytes -> bytes.
  Variable pub_of : bytes -> bytes.
  Variable ec_verify : bytes -> bytes -> bytes -> bool.
  Variable blake : bytes -> bytes.
  Variable voucher_text : voucher -> gostring.
  Variable rand_int : list draw -> Z.
  Variable rand_bytes : list draw -> bytes.

  Notation signed_by := (ClientSpec.signed_by pub_of ec_verify blake).
  Notation proven := (ClientSpec.proven sha256 pub_of ec_verify blake).
  Notation ask := (Client.ask pub_of ec_verify blake).
  Notation check_offer := (Client.check_offer sha256 pub_of ec_verify blake).
  Notation check_offers := (Client.check_offers sha256 pub_of ec_verify blake).
  Notation check_response := (Client.check_response pub_of ec_verify blake).

  Lemma verify_kept m k : fst (MessageVerify pub_of ec_verify blake m k) = true -> snd (MessageVerify pub_of ec_verify blake m k) = m.
  Proof.
    destruct (MessageVerify _ _ _ m k) as [b m'] eqn:E. cbn. intros ->. eapply verify_same; eauto.
  Qed.

  Lemma ask_inv e n node enc r out : ask e n node enc = Ret (r, out) ->
    exists request, enc = Ret request /\ out = [(r_client_ap node, request)] /\
      forall m, r = Some m -> ce_http e n (r_client_ap node) request = Some m /\ signed_by node m.
  Proof.
    unfold Client.ask. intros H. step H. exists v. split; [reflexivity|].
    step H; [|apply ret_inj in H; injection H as <- <-; split; [reflexivity|discriminate]].
    step H. unfold GetSigningKey in E1. destruct v0 as [k|]; [|apply ret_inj in H; injection H as <- <-; split; [reflexivity|discriminate]].
    apply ret_inj in H. injection H as <- <-. split; [reflexivity|]. intros m'. destruct (fst _) eqn:V; [|discriminate].
    rewrite (verify_kept _ _ V). intros [= <-]. split; [reflexivity|]. exists k. auto.
  Qed.

  (** ** Checking offers *)

  Lemma check_offer_inv e c s ok c' : check_offer c s = Ret (ok, c') ->
    drift e c c' /\ c_pay c' = c_pay c /\ c_drawn c' = c_drawn c /\ (ok = true -> proven e c s).
  Proof.
    unfold Client.check_offer. intros H. step H. destruct v as [p c1]. destruct (find_provider_inv e _ _ _ _ E) as (D & P & W & K).
    destruct p as [p|]; [|apply ret_inj in H; injection H as <- <-; repeat split; auto; discriminate || apply D].
    step H. step H; [apply ret_inj in H; injection H as <- <-; repeat split; auto; discriminate || apply D|].
    step H. unfold GetSigningKey in E2. destruct v0 as [k|]; [|apply ret_inj in H; injection H as <- <-; repeat split; auto; discriminate || apply D].
    step H. step H; [apply ret_inj in H; injection H as <- <-; repeat split; auto; discriminate || apply D|].
    step H. apply ret_inj in H. injection H as <- <-. split; [exact D|]. split; [exact P|]. split; [exact W|]. intros ->.
    destruct (K p eq_refl) as (i & I & Kn). exists i, p, k. split; [exact I|]. split; [exact Kn|]. split; [exact E2|].
    split; [|assumption]. rewrite E3. destruct v0; [reflexivity|discriminate].
  Qed.
  Lemma check_offers_inv e : forall l c r c', check_offers c l = Ret (r, c') ->
    drift e c c' /\ c_pay c' = c_pay c /\ c_drawn c' = c_drawn c /\ forall s, In s r -> In s l /\ proven e c s.
  Proof.
    induction l as [|s t IH]; intros c r c' H; cbn [Client.check_offers] in H.
    - apply ret_inj in H. injection H as <- <-. split; [apply drift_refl|]. repeat split; auto; destruct H.
    - step H. destruct v as [ok c1]. step H. destruct v as [r1 c2]. cbn [fst snd] in H. apply ret_inj in H. injection H as <- <-.
      destruct (check_offer_inv e _ _ _ _ E) as (D & P & W & K). destruct (IH _ _ _ E0) as (D2 & P2 & W2 & K2).
      split; [eapply drift_trans; eauto|]. split; [congruence|]. split; [congruence|].
      assert (G : forall x, In x r1 -> In x (s :: t) /\ proven e c x).
      { intros x X. destruct (K2 x X) as [A (i & p & k & F1 & F2 & F3)]. split; [right; exact A|]. exists i, p, k.
        split; [exact F1|]. split; [apply D; exact F2|exact F3]. }
      intros x X. destruct ok; [|auto]. destruct X as [<-|X]; [|auto]. split; [left; reflexivity|auto].
  Qed.
  Lemma check_response_inv e n c id resp x c' : check_response e n c id resp = Ret (x, c') ->
    drift e c c' /\ c_pay c' = c_pay c /\ c_drawn c' = c_drawn c /\
    forall m, x = Some m -> m = resp /\ exists r, gateway_known e c (ToString id) r /\ complete r /\ signed_by r resp.
  Proof.
    unfold Client.check_response. intros H. step H. destruct v as [g c1]. destruct (find_gateway_inv _ _ _ _ _ _ E) as (D & P & W & K).
    destruct g as [g|]; [|apply ret_inj in H; injection H as <- <-; repeat split; auto; discriminate || apply D].
    step H. step H; [apply ret_inj in H; injection H as <- <-; repeat split; auto; discriminate || apply D|].
    step H. unfold GetSigningKey in E2. destruct v0 as [k|]; [|apply ret_inj in H; injection H as <- <-; repeat split; auto; discriminate || apply D].
    apply ret_inj in H. injection H as <- <-. split; [exact D|]. split; [exact P|]. split; [exact W|]. intros m.
    destruct (fst _) eqn:V; [|discriminate]. rewrite (verify_kept _ _ V). intros [= <-]. split; [reflexivity|].
    exists g. split; [auto|]. split; [apply validate_gateway_inv; rewrite E0; destruct v; [reflexivity|discriminate]|]. exists k. auto.
  Qed.
  Lemma proven_back e c c' s : drift e c c' -> proven e c' s -> proven e c s.
  Proof. intros D (i & p & k & A & B & C). exists i, p, k. split; [exact A|]. split; [apply D, B|exact C]. Qed.

  (** ** Payments *)

  Lemma spent_nil e c c' : c_pay c' = c_pay c -> spent e c c' [].
  Proof. intros H. left. auto. Qed.
  Lemma spent_app e a b c x y : spent e a b x -> spent e b c y -> spent e a c (x ++ y).
  Proof.
    intros [[-> P]|(m & m' & W & P & T)] [[-> P2]|(m2 & m3 & W2 & P3 & T2)].
    - left. split; [reflexivity|congruence].
    - right. exists m2, m3. unfold wallet in *. rewrite P in W2. auto.
    - right. exists m, m'. rewrite app_nil_r. split; [exact W|]. split; [congruence|exact T].
    - right. unfold wallet in W2. rewrite P in W2. injection W2 as <-. exists m, m3. split; [exact W|]. split; [exact P3|].
      eapply trace_app; eauto.
  Qed.
  Lemma spent_same e a b b' x : c_pay b' = c_pay b -> spent e a b x -> spent e a b' x.
  Proof. intros H S. rewrite <- (app_nil_r x). eapply spent_app; [exact S|]. apply spent_nil. exact H. Qed.

  Lemma manager_inv e c : drift e c (PaymentMgr e c) /\ (c_drawn (PaymentMgr e c) = c_drawn c /\ c_reg (PaymentMgr e c) = c_reg c) /\ spent e c (PaymentMgr e c) [] .
  Proof.
    unfold PaymentMgr. destruct (c_pay c) as [m|] eqn:E; [split; [apply drift_refl|split; [split; reflexivity|apply spent_nil; reflexivity]]|].
    destruct (ce_wallet e) as [a|] eqn:Ew; [|split; [apply drift_refl|split; [split; reflexivity|apply spent_nil; reflexivity]]].
    split; [apply drift_same; reflexivity|]. split; [split; reflexivity|]. right. exists (NewMgr a), (NewMgr a). unfold wallet. rewrite E, Ew.
    split; [reflexivity|]. split; [reflexivity|apply trace_nil].
  Qed.

  Definition receipt (recipient : gostring) (amount : Z) (r : result (gostring * gostring)) (rows : list payment) : Prop :=
    match r with
    | OkR (ch, text) => exists v, text = voucher_text v /\ rows = [(recipient, 0, amount, ch, v)]
    | ErrR => rows = []
    end.

  Lemma client_topup_inv e k c rcpt a r c' : TopupAndPay voucher_text e k c rcpt a = Ret (r, c') ->
    drift e c c' /\ (c_drawn c' = c_drawn c /\ c_reg c' = c_reg c) /\ exists rows, spent e c c' rows /\ receipt rcpt a r rows.
  Proof.
    unfold TopupAndPay. destruct (manager_inv e c) as (D & W & S). destruct (c_pay (PaymentMgr e c)) as [m|] eqn:P; [|discriminate].
    cbn [deref obind]. destruct (topupAndPay _ _ _ _ _ _ _ _) as [m' res] eqn:T. intros H. apply ret_inj in H. injection H as <- <-.
    apply trace_topup_pay in T. split; [eapply drift_trans; [exact D|apply drift_same; reflexivity]|]. split; [exact W|].
    eexists. split.
    - rewrite <- app_nil_l. eapply spent_app; [exact S|]. right. exists m, m'. unfold wallet. rewrite P. split; [reflexivity|]. split; [reflexivity|exact T].
    - unfold receipt. destruct res as [[ch v]|]; [|reflexivity]. exists v. auto.
  Qed.
  Lemma client_pay_inv e k c rcpt a r c' : PayOrTopup voucher_text e k c rcpt a = Ret (r, c') ->
    drift e c c' /\ (c_drawn c' = c_drawn c /\ c_reg c' = c_reg c) /\ exists rows, spent e c c' rows /\ receipt rcpt a r rows.
  Proof.
    unfold PayOrTopup, PayNow. intros H. step H. destruct v as [p c1]. destruct (c_pay c) as [m|] eqn:P; [|discriminate].
    cbn [deref obind] in E. destruct (Pay _ _ _ _ _) as [m' p'] eqn:T. apply ret_inj in E. injection E as -> <-. apply trace_pay in T.
    assert (D : drift e c (with_mgr c m')) by (apply drift_same; reflexivity).
    assert (S : spent e c (with_mgr c m') (match p with Paid ch v => [(rcpt, 0, a, ch, v)] | _ => [] end)).
    { right. exists m, m'. unfold wallet. rewrite P. split; [reflexivity|]. split; [reflexivity|exact T]. }
    destruct p as [| |ch v].
    - apply client_topup_inv in H. destruct H as (D2 & W2 & rows & S2 & R2). split; [eapply drift_trans; eauto|]. split; [exact W2|].
      exists rows. split; [|exact R2]. rewrite <- (app_nil_l rows). eapply spent_app; eauto.
    - apply ret_inj in H. injection H as <- <-. split; [exact D|]. split; [split; reflexivity|]. exists []. split; [exact S|reflexivity].
    - apply ret_inj in H. injection H as <- <-. split; [exact D|]. split; [split; reflexivity|]. eexists. split; [exact S|]. exists v. auto.
  Qed.

  (** ** Requests *)

  Notation answered := (ClientSpec.answered pub_of ec_verify blake).

  Lemma establish_inv e n gw ch i ttl ok out : RequestEstablishment version supported sha256 pub_of ec_verify blake e n gw ch i ttl = Ret (ok, out) ->
    (out = [] \/ exists request, EncodeClientEstablishmentRequest version supported i (b64_encode ch) ttl = Ret request /\ out = [(r_client_ap gw, request)]) /\
    (ok = true -> length ch = 32%nat /\ exists request response id,
      EncodeClientEstablishmentRequest version supported i (b64_encode ch) ttl = Ret request /\ out = [(r_client_ap gw, request)] /\
      answered e n gw request response /\ DecodeClientEstablishmentResponse sha256 response = Ret (OkR (Some id, b64_encode ch)) /\
      ToString id = r_id gw).
  Proof.
    unfold RequestEstablishment. intros H. step H. { apply ret_inj in H. injection H as <- <-. split; [auto|discriminate]. }
    apply negb_false_iff, Nat.eqb_eq in E. step H. destruct v as [x o]. destruct (ask_inv _ _ _ _ _ _ E0) as (request & En & -> & A).
    destruct x as [response|]; [|apply ret_inj in H; injection H as <- <-; split; [right; exists request; auto|discriminate]].
    step H. destruct v as [[gid rc]|]; [|apply ret_inj in H; injection H as <- <-; split; [right; exists request; auto|discriminate]].
    step H. apply ret_inj in H. injection H as <- <-. split; [right; exists request; auto|]. intros Ok.
    apply andb_true_iff in Ok. destruct Ok as [O1 O2]. apply bytes_eqb_eq in O1, O2. subst rc. split; [exact E|].
    destruct gid as [g|]; [|discriminate]. cbn [deref] in E2. apply ret_inj in E2. subst v. exists request, response, g.
    destruct (A _ eq_refl) as [A1 A2]. split; [exact En|]. split; [reflexivity|]. split; [split; assumption|]. auto.
  Qed.

  Lemma standard_inv e n gw cid nonce ttl r out :
    RequestStandardDiscover version supported sha256 pub_of ec_verify blake e n gw cid nonce ttl = Ret (r, out) ->
    exists request, EncodeClientStandardDiscoverRequest version supported cid nonce ttl [] [] = Ret request /\ out = [(r_client_ap gw, request)] /\
    forall offers, r = OkR offers -> exists response i found funded, answered e n gw request response /\
      DecodeClientStandardDiscoverResponse sha256 response = Ret (OkR (Some i, nonce, found, offers, funded)) /\
      exists j, cid = Some j /\ ToString i = ToString j.
  Proof.
    unfold RequestStandardDiscover. intros H. step H. destruct v as [x o]. destruct (ask_inv _ _ _ _ _ _ E) as (request & En & -> & A).
    exists request. split; [exact En|]. destruct x as [response|]; [|apply ret_inj in H; injection H as <- <-; split; [reflexivity|discriminate]].
    step H. destruct v as [[[[[p q] f] os] fu]|]; [|apply ret_inj in H; injection H as <- <-; split; [reflexivity|discriminate]].
    step H. step H. step H; [apply ret_inj in H; injection H as <- <-; split; [reflexivity|discriminate]|].
    step H; [apply ret_inj in H; injection H as <- <-; split; [reflexivity|discriminate]|].
    apply ret_inj in H. injection H as <- <-. split; [reflexivity|]. intros offers [= <-].
    apply negb_false_iff in E3, E4. apply bytes_eqb_eq in E3. apply Z.eqb_eq in E4. subst q.
    destruct p as [p|]; [|discriminate]. destruct cid as [j|]; [|discriminate]. cbn [deref] in E1, E2. apply ret_inj in E1, E2. subst.
    exists response, v, f, fu. split; [apply A; reflexivity|]. split; [exact E0|]. exists v0. auto.
  Qed.

  Lemma standard_v2_inv e n gw cid nonce ttl ch text r out :
    RequestStandardDiscoverV2 version supported sha256 pub_of ec_verify blake e n gw cid nonce ttl ch text = Ret (r, out) ->
    exists request, EncodeClientStandardDiscoverRequestV2 version supported cid nonce ttl ch text = Ret request /\ out = [(r_client_ap gw, request)].
  Proof.
    unfold RequestStandardDiscoverV2. intros H. step H. destruct v as [x o]. destruct (ask_inv _ _ _ _ _ _ E) as (request & En & -> & A).
    exists request. split; [exact En|]. steps H; apply ret_inj in H; injection H as <- <-; reflexivity.
  Qed.

  Lemma standard_offer_inv e n gw cid nonce ttl ds ch text r out :
    RequestStandardDiscoverOffer version supported sha256 pub_of ec_verify blake e n gw cid nonce ttl ds ch text = Ret (r, out) ->
    exists request, EncodeClientStandardDiscoverOfferRequest version supported cid nonce ttl ds ch text = Ret request /\ out = [(r_client_ap gw, request)] /\
    forall offers, r = OkR offers -> exists response i found funded topup, answered e n gw request response /\
      DecodeClientStandardDiscoverOfferResponse sha256 response = Ret (OkR (Some i, nonce, found, offers, funded, false, topup)) /\
      exists j, cid = Some j /\ ToString i = ToString j.
  Proof.
    unfold RequestStandardDiscoverOffer. intros H. step H. destruct v as [x o]. destruct (ask_inv _ _ _ _ _ _ E) as (request & En & -> & A).
    exists request. split; [exact En|]. destruct x as [response|]; [|apply ret_inj in H; injection H as <- <-; split; [reflexivity|discriminate]].
    step H. destruct v as [[[[[[[p q] f] os] fu] pr] tp]|]; [|apply ret_inj in H; injection H as <- <-; split; [reflexivity|discriminate]].
    step H. step H. step H; [apply ret_inj in H; injection H as <- <-; split; [reflexivity|discriminate]|].
    step H; [apply ret_inj in H; injection H as <- <-; split; [reflexivity|discriminate]|].
    destruct pr; [apply ret_inj in H; injection H as <- <-; split; [reflexivity|discriminate]|].
    apply ret_inj in H. injection H as <- <-. split; [reflexivity|]. intros offers [= <-].
    apply negb_false_iff in E3, E4. apply bytes_eqb_eq in E3. apply Z.eqb_eq in E4. subst q.
    destruct p as [p|]; [|discriminate]. destruct cid as [j|]; [|discriminate]. cbn [deref] in E1, E2. apply ret_inj in E1, E2. subst.
    exists response, v, f, fu, tp. split; [apply A; reflexivity|]. split; [exact E0|]. exists v0. auto.
  Qed.

  Lemma dht_inv e n gw cid nonce ttl num r out :
    Client.RequestDHTDiscover version supported sha256 pub_of ec_verify blake e n gw cid nonce ttl num = Ret (r, out) ->
    exists request, EncodeClientDHTDiscoverRequest version supported cid nonce ttl num false [] [] = Ret request /\ out = [(r_client_ap gw, request)] /\
    forall ids ms un, r = OkR (ids, ms, un) -> exists response l topup, answered e n gw request response /\
      DecodeClientDHTDiscoverResponse sha256 response = Ret (OkR (ids, l, un, nonce, false, topup)) /\ ms = items l /\ length ids = length ms.
  Proof.
    unfold Client.RequestDHTDiscover. intros H. step H. destruct v as [x o]. destruct (ask_inv _ _ _ _ _ _ E) as (request & En & -> & A).
    exists request. split; [exact En|]. destruct x as [response|]; [|apply ret_inj in H; injection H as <- <-; split; [reflexivity|discriminate]].
    step H. destruct v as [[[[[[p q] f] os] fu] pr]|]; [|apply ret_inj in H; injection H as <- <-; split; [reflexivity|discriminate]].
    step H; [apply ret_inj in H; injection H as <- <-; split; [reflexivity|discriminate]|].
    step H; [apply ret_inj in H; injection H as <- <-; split; [reflexivity|discriminate]|].
    destruct fu; [apply ret_inj in H; injection H as <- <-; split; [reflexivity|discriminate]|].
    apply ret_inj in H. injection H as <- <-. split; [reflexivity|]. intros ids ms un [= <- <- <-].
    apply negb_false_iff in E1, E2. apply Z.eqb_eq in E1. apply Nat.eqb_eq in E2. subst os.
    exists response, q, pr. split; [apply A; reflexivity|]. auto.
  Qed.

  Lemma dht_v2_inv e n gw cid nonce ttl num ch text r out :
    Client.RequestDHTDiscoverV2 version supported sha256 pub_of ec_verify blake e n gw cid nonce ttl num ch text = Ret (r, out) ->
    exists request, EncodeClientDHTDiscoverRequestV2 version supported cid nonce ttl num false ch text = Ret request /\ out = [(r_client_ap gw, request)] /\
    forall ids ms pr tp, r = OkR (ids, ms, pr, tp) -> exists response l un topup, answered e n gw request response /\
      DecodeClientDHTDiscoverResponseV2 sha256 response = Ret (OkR (ids, l, un, nonce, pr, topup)) /\ ms = items l /\ length ids = length ms.
  Proof.
    unfold Client.RequestDHTDiscoverV2. intros H. step H. destruct v as [x o]. destruct (ask_inv _ _ _ _ _ _ E) as (request & En & -> & A).
    exists request. split; [exact En|]. destruct x as [response|]; [|apply ret_inj in H; injection H as <- <-; split; [reflexivity|discriminate]].
    step H. destruct v as [[[[[[p q] f] os] fu] pr]|]; [|apply ret_inj in H; injection H as <- <-; split; [reflexivity|discriminate]].
    step H; [apply ret_inj in H; injection H as <- <-; split; [reflexivity|discriminate]|].
    step H; [apply ret_inj in H; injection H as <- <-; split; [reflexivity|discriminate]|].
    apply ret_inj in H. injection H as <- <-. split; [reflexivity|]. intros ids ms pr0 tp [= <- <- <- <-].
    apply negb_false_iff in E1, E2. apply Z.eqb_eq in E1. apply Nat.eqb_eq in E2. subst os.
    exists response, q, f, pr. split; [apply A; reflexivity|]. auto.
  Qed.

  Lemma dht_offer_inv e n gw ids cid nonce ds ch text r out :
    RequestDHTOfferDiscover version supported sha256 pub_of ec_verify blake e n gw ids cid nonce ds ch text = Ret (r, out) ->
    exists request, EncodeClientDHTDiscoverOfferRequest version supported cid nonce ds ids ch text = Ret request /\ out = [(r_client_ap gw, request)] /\
    forall res, r = OkR res -> exists response i q ids' ms tp, answered e n gw request response /\
      DecodeClientDHTDiscoverOfferResponse sha256 response = Ret (OkR (i, q, ids', ms, false, tp)) /\ length ids' = length (items ms) /\
      sub_responses sha256 (combine ids' (items ms)) = Ret (OkR res).
  Proof.
    unfold RequestDHTOfferDiscover. intros H. step H. destruct v as [x o]. destruct (ask_inv _ _ _ _ _ _ E) as (request & En & -> & A).
    exists request. split; [exact En|]. destruct x as [response|]; [|apply ret_inj in H; injection H as <- <-; split; [reflexivity|discriminate]].
    step H. destruct v as [[[[[[p q] f] os] fu] pr]|]; [|apply ret_inj in H; injection H as <- <-; split; [reflexivity|discriminate]].
    step H; [apply ret_inj in H; injection H as <- <-; split; [reflexivity|discriminate]|].
    destruct fu; [apply ret_inj in H; injection H as <- <-; split; [reflexivity|discriminate]|].
    step H. apply ret_inj in H. injection H as <- <-. split; [reflexivity|]. intros res ->.
    apply negb_false_iff, Nat.eqb_eq in E1. exists response, p, q, f, os, pr. split; [apply A; reflexivity|]. auto.
  Qed.
End proofs.
