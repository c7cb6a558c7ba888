(** * Lemmas about the administrators' command line programs *)
From Coq Require Import String List ZArith Bool Lia Init.Byte.
From Verif Require Import Base BaseProofs Ids IdsProofs Crypto CryptoProofs Message Offer OfferProofs WireSpec GatewayProofs Admin AdminSpec AdminProofs AdminCli AdminCliSpec.
From Verif Require Client Cli CliSpec CliProofs.
Import ListNotations.
Open Scope Z_scope.
Open Scope go_scope.

Section desk.
  Variable version : Z.
  Variable supported : list Z.
  Variable sha256 : bytes -> bytes.
  Variable pub_of : bytes -> bytes.
  Variable ec_sign : bytes -> bytes -> option bytes.
  Variable ec_verify : bytes -> bytes -> bytes -> bool.
  Variable blake : bytes -> bytes.

  Notation use := (AdminSpec.use version supported sha256 pub_of ec_sign ec_verify blake).
  Notation pexec := (provider_executor version supported sha256 pub_of ec_sign ec_verify blake).
  Notation gexec := (gateway_executor version supported sha256 pub_of ec_sign ec_verify blake).
  Notation RegisterPvd := (RegisterPvd version supported sha256 pub_of ec_sign ec_verify blake).
  Notation RegisterGw := (RegisterGw version supported sha256 pub_of ec_sign ec_verify blake).
  Notation register_gateways := (register_gateways version supported sha256 pub_of ec_sign ec_verify blake).

  (** What a line did: [reg] is the name and the program of the registering command, [order] the orders to publish. *)
  Inductive did (settings : builder) (name : gostring) (register : admin -> outcome (admin * list notice * list post)) (order : call -> notice -> Prop)
      (w : denv) (d : desk) (bs : list gostring) : option desk -> list notice -> list post -> Prop :=
  | did_nothing n : n <> NDone -> (dk_on d = false -> n = NNotInitialised \/ exists t, n = NUnknown t) -> did settings name register order w d bs (Some d) [n] []
  | did_end : hd [] bs = gs "exit" -> did settings name register order w d bs None [NBye] []
  | did_init x r o : hd [] bs = gs "init" -> dk_on d = false -> Init settings w d = Ret (x, r, o) -> did settings name register order w d bs x r o
  | did_register a a' r o : hd [] bs = name -> dk_on d = true -> dk_admin d = Some a -> register a = Ret (a', r, o) ->
      did settings name register order w d bs (Some (Desk true (Some a'))) r o
  | did_order a x n ok a' o : dk_on d = true -> dk_admin d = Some a -> order x n -> use (de_http w 0) a x = Ret (ok, a', o) ->
      did settings name register order w d bs (Some d) [if ok then n else NPublishFailed] o.

  Lemma at_desk_inv d f x r o : at_desk d f = Ret (x, r, o) ->
    dk_on d = false /\ x = Some d /\ r = [NNotInitialised] /\ o = [] \/
    dk_on d = true /\ exists a a', dk_admin d = Some a /\ f a = Ret (a', r, o) /\ x = Some (Desk true (Some a')).
  Proof.
    unfold at_desk, notify. intros H. destruct (dk_on d) eqn:On; cbn [negb] in H.
    - right. split; [reflexivity|]. destruct (dk_admin d) as [a|]; [|discriminate H]. cbn [deref obind] in H. step H. destruct v as [[a' n] out].
      apply ret_inj in H. injection H as <- <- <-. exists a, a'. auto.
    - left. apply ret_inj in H. injection H as <- <- <-. auto.
  Qed.
  Lemma desk_same d a : dk_on d = true -> dk_admin d = Some a -> Desk true (Some a) = d.
  Proof. destruct d as [b c]; cbn. intros -> ->. reflexivity. Qed.

  Lemma ids_inv f : forall ws (n : list notice) (o : list post), identifiers ws f = Ret (n, o) ->
    (exists t, n = [NInvalid t] /\ o = []) \/ exists ids, Forall2 CliSpec.hex_id ws ids /\ f ids = Ret (n, o).
  Proof.
    intros ws. revert f. induction ws as [|t l IH]; intros f n o H; cbn [identifiers] in H.
    - right. exists []. auto.
    - destruct (NewNodeIDFromHexString t) as [id|] eqn:E.
      + destruct (IH _ _ _ H) as [X|(ids & F & G)]; [auto|]. right. exists (id :: ids). split; [constructor; [apply CliProofs.hex_id_iff; exact E|exact F]|exact G].
      + apply ret_inj in H. injection H as <- <-. eauto.
  Qed.

  Lemma order_inv a d (ws : list gostring) f n o ok :
    dk_on d = true -> dk_admin d = Some a ->
    saying a (identifiers ws f) = Ret (ok, n, o) ->
    ok = a /\ ((exists t, n = [NInvalid t] /\ o = []) \/ exists ids, Forall2 CliSpec.hex_id ws ids /\ f ids = Ret (n, o)).
  Proof.
    intros On Ad H. unfold saying in H. step H. apply ret_inj in H. injection H as <- <- <-. split; [reflexivity|]. destruct v as [n o]. apply ids_inv. exact E.
  Qed.

  Ltac off := let t := fresh in intros t; left; reflexivity.

  Lemma pexec_did w d line x r o : pexec w d line = Ret (x, r, o) ->
    did CreateProviderSettings (gs "register-pvd") (RegisterPvd w) (publishes w (Cli.blocks line)) w d (Cli.blocks line) x r o.
  Proof.
    unfold provider_executor. intros H. set (bs := Cli.blocks line) in *. clearbody bs.
    destruct (Cli.is bs "init") eqn:C1.
    { apply CliProofs.is_command in C1. destruct (dk_on d) eqn:On.
      - unfold Init, notify in H. rewrite On in H. apply ret_inj in H. injection H as <- <- <-. apply did_nothing; [discriminate|congruence].
      - apply did_init; assumption. }
    destruct (Cli.is bs "register-pvd") eqn:C2.
    { apply CliProofs.is_command in C2. apply at_desk_inv in H. destruct H as [(On & -> & -> & ->)|(On & a & a' & A & F & ->)].
      - apply did_nothing; [discriminate|off].
      - eapply did_register; eassumption. }
    destruct (Cli.is bs "list-pvds") eqn:C3.
    { apply at_desk_inv in H. destruct H as [(On & -> & -> & ->)|(On & a & a' & A & F & ->)]; [apply did_nothing; [discriminate|off]|].
      apply ret_inj in F. injection F as <- <- <-. rewrite (desk_same d a On A). apply did_nothing; [discriminate|congruence]. }
    destruct (Cli.is bs "publish-offer-from-file") eqn:C4.
    { apply at_desk_inv in H. destruct H as [(On & -> & -> & ->)|(On & a & a' & A & F & ->)]; [apply did_nothing; [discriminate|off]|].
      apply ret_inj in F. injection F as <- <- <-. rewrite (desk_same d a On A). apply did_nothing; [discriminate|congruence]. }
    destruct (Cli.is bs "publish-random-offer") eqn:C5.
    { apply CliProofs.is_command in C5. apply at_desk_inv in H. destruct H as [(On & -> & -> & ->)|(On & a & a' & A & F & ->)]; [apply did_nothing; [discriminate|off]|].
      assert (Us : did CreateProviderSettings (gs "register-pvd") (RegisterPvd w) (publishes w bs) w d bs (Some (Desk true (Some a))) [NUsage] [])
        by (rewrite (desk_same d a On A); apply did_nothing; [discriminate|congruence]).
      destruct bs as [|b [|n [|z t]]]; try (apply ret_inj in F; injection F as <- <- <-; exact Us).
      destruct (order_inv a d _ _ _ _ _ On A F) as [-> [(t & -> & ->)|(ids & I & G)]]; rewrite (desk_same d a On A).
      - apply did_nothing; [discriminate|congruence].
      - inversion I as [|? id ? ? I1 I2]; subst. inversion I2; subst. unfold publish_group in G. step G. destruct v as [ok out]. apply ret_inj in G. injection G as <- <-. cbn [fst snd].
        cbn [Cli.command hd] in C5. subst b. eapply did_order with (a' := a); [exact On|exact A|eapply order_random; exact I1|].
        unfold AdminSpec.use. change (24 * 60 * 60) with 86400. rewrite E. reflexivity. }
    destruct (Cli.is bs "publish-offer-given-cids") eqn:C6.
    { apply CliProofs.is_command in C6. apply at_desk_inv in H. destruct H as [(On & -> & -> & ->)|(On & a & a' & A & F & ->)]; [apply did_nothing; [discriminate|off]|].
      assert (Us : did CreateProviderSettings (gs "register-pvd") (RegisterPvd w) (publishes w bs) w d bs (Some (Desk true (Some a))) [NUsage] [])
        by (rewrite (desk_same d a On A); apply did_nothing; [discriminate|congruence]).
      destruct bs as [|b [|n [|c1 [|c2 [|c3 [|z t]]]]]]; try (apply ret_inj in F; injection F as <- <- <-; exact Us).
      destruct (order_inv a d _ _ _ _ _ On A F) as [-> [(t & -> & ->)|(ids & I & G)]]; rewrite (desk_same d a On A).
      - apply did_nothing; [discriminate|congruence].
      - inversion I as [|? id ? ? I1 I2]; subst. inversion I2 as [|? i1 ? ? J1 I3]; subst. inversion I3 as [|? i2 ? ? J2 I4]; subst. inversion I4 as [|? i3 ? ? J3 I5]; subst. inversion I5; subst.
        unfold publish_group in G. step G. destruct v as [ok out]. apply ret_inj in G. injection G as <- <-. cbn [fst snd].
        cbn [Cli.command hd] in C6. subst b. eapply did_order with (a' := a); [exact On|exact A|eapply order_given; eassumption|].
        unfold AdminSpec.use. change (24 * 60 * 60) with 86400. rewrite E. reflexivity. }
    destruct (Cli.is bs "publish-dht-offer") eqn:C7.
    { apply CliProofs.is_command in C7. apply at_desk_inv in H. destruct H as [(On & -> & -> & ->)|(On & a & a' & A & F & ->)]; [apply did_nothing; [discriminate|off]|].
      assert (Us : did CreateProviderSettings (gs "register-pvd") (RegisterPvd w) (publishes w bs) w d bs (Some (Desk true (Some a))) [NUsage] [])
        by (rewrite (desk_same d a On A); apply did_nothing; [discriminate|congruence]).
      destruct bs as [|b [|n [|c [|z t]]]]; try (apply ret_inj in F; injection F as <- <- <-; exact Us).
      destruct (order_inv a d _ _ _ _ _ On A F) as [-> [(t & -> & ->)|(ids & I & G)]]; rewrite (desk_same d a On A).
      - apply did_nothing; [discriminate|congruence].
      - inversion I as [|? id ? ? I1 I2]; subst. inversion I2 as [|? i1 ? ? J1 I3]; subst. inversion I3; subst.
        unfold publish_dht in G. step G. destruct v as [ok out]. apply ret_inj in G. injection G as <- <-. cbn [fst snd].
        cbn [Cli.command hd] in C7. subst b. eapply did_order with (a' := a); [exact On|exact A|eapply order_dht; eassumption|].
        unfold AdminSpec.use. change (24 * 60 * 60) with 86400. rewrite E. reflexivity. }
    destruct (Cli.is bs "exit") eqn:C8.
    { apply CliProofs.is_command in C8. apply ret_inj in H. injection H as <- <- <-. apply did_end. exact C8. }
    apply ret_inj in H. injection H as <- <- <-. apply did_nothing; [discriminate|]. intros _. right. eexists. reflexivity.
  Qed.

  Lemma gexec_did w d line x r o : gexec w d line = Ret (x, r, o) ->
    did CreateGatewaySettings (gs "register-gw") (RegisterGw w) (fun _ _ => False) w d (Cli.blocks line) x r o.
  Proof.
    unfold gateway_executor. intros H. set (bs := Cli.blocks line) in *. clearbody bs.
    destruct (Cli.is bs "init") eqn:C1.
    { apply CliProofs.is_command in C1. destruct (dk_on d) eqn:On.
      - unfold Init, notify in H. rewrite On in H. apply ret_inj in H. injection H as <- <- <-. apply did_nothing; [discriminate|congruence].
      - apply did_init; assumption. }
    destruct (Cli.is bs "register-gw") eqn:C2.
    { apply CliProofs.is_command in C2. apply at_desk_inv in H. destruct H as [(On & -> & -> & ->)|(On & a & a' & A & F & ->)].
      - apply did_nothing; [discriminate|off].
      - eapply did_register; eassumption. }
    destruct (Cli.is bs "inspect-gw-offer-traffic") eqn:C3.
    { apply at_desk_inv in H. destruct H as [(On & -> & -> & ->)|(On & a & a' & A & F & ->)]; [apply did_nothing; [discriminate|off]|].
      apply ret_inj in F. injection F as <- <- <-. rewrite (desk_same d a On A). apply did_nothing; [discriminate|congruence]. }
    destruct (Cli.is bs "cache-offer-content") eqn:C4.
    { apply at_desk_inv in H. destruct H as [(On & -> & -> & ->)|(On & a & a' & A & F & ->)]; [apply did_nothing; [discriminate|off]|].
      apply ret_inj in F. injection F as <- <- <-. rewrite (desk_same d a On A). apply did_nothing; [discriminate|congruence]. }
    destruct (Cli.is bs "exit") eqn:C8.
    { apply CliProofs.is_command in C8. apply ret_inj in H. injection H as <- <- <-. apply did_end. exact C8. }
    apply ret_inj in H. injection H as <- <- <-. apply did_nothing; [discriminate|]. intros _. right. eexists. reflexivity.
  Qed.

  Lemma init_inv settings w d x r o : dk_on d = false -> b_key settings = None -> Init settings w d = Ret (x, r, o) ->
    o = [] /\ (de_chain w = ErrR /\ x = Some d /\ r = [NFailed] \/
      exists k g, de_chain w = OkR k /\ de_generated w = OkR g /\ r = [NDone] /\ x = Some (Desk true (Some (Admin.Admin (Some g) (Some 1) [])))).
  Proof.
    intros Off Bk H. unfold Init, notify in H. rewrite Off in H. destruct (de_chain w) as [k|].
    - unfold Build, SetBlockchainPrivateKey in H. cbn [b_chain b_key b_ver b_url] in H. rewrite Bk in H. destruct (de_generated w) as [g|]; [|discriminate H].
      cbn [obind] in H. apply ret_inj in H. injection H as <- <- <-. split; [reflexivity|]. right. exists k, g. auto.
    - apply ret_inj in H. injection H as <- <- <-. auto.
  Qed.

  (** ** Registering *)

  Lemma new_keys_inv w i root k text : new_keys pub_of w i = OkR (root, k, text) -> sound pub_of w ->
    exists r0 k0, de_root w i = OkR r0 /\ fst (EncodePublicKey pub_of r0) = OkR root /\ de_retrieval w i = OkR k0 /\ same_key k0 k /\ fst (EncodePublicKey pub_of k0) = OkR text /\
      private k /\ exists pk, DecodePublicKey text = Ret (OkR pk) /\ matches pub_of pk k.
  Proof.
    unfold new_keys. intros H S. destruct (de_root w i) as [r0|] eqn:R; [|discriminate]. destruct (fst (EncodePublicKey pub_of r0)) as [rt|] eqn:RT; [|discriminate].
    destruct (de_retrieval w i) as [k0|] eqn:K; [|discriminate]. destruct (EncodePublicKey pub_of k0) as [[t|] k1] eqn:E; [|discriminate]. injection H as <- <- <-.
    exists r0, k0. destruct (S i k0 (or_intror K)) as (Al & Pu & p & P & L & L2).
    assert (Ph : public_half pub_of k0 = pub_of p) by (unfold public_half; rewrite Pu, P; reflexivity).
    destruct (public_roundtrip_pf pub_of k0 Al) as (t' & E1 & E2); [rewrite Ph; exact L2|]. rewrite E in E1. cbn [fst] in E1. injection E1 as <-.
    assert (K1 : k1 = with_pub pub_of k0) by (revert E; unfold EncodePublicKey; rewrite Al; intros [= <- <-]; reflexivity). subst k1.
    split; [reflexivity|]. split; [exact RT|]. split; [reflexivity|]. split; [split; reflexivity|]. split; [rewrite E; reflexivity|]. split; [split; [exact Al|exists p; auto]|].
    eexists. split; [exact E2|]. split; [reflexivity|]. exists p. split; [exact P|]. left. cbn. rewrite Ph. reflexivity.
  Qed.

  Lemma enroll_inv w i init node ok a' n out : enroll w i init node = Ret (ok, a', n, out) ->
    init (de_http w i) = Ret (ok, a', out) /\ n = if ok then (if de_registers w i then [] else [NRegisterError]) ++ [NRegistered (r_id node)] else [NFailed].
  Proof.
    unfold enroll. intros H. step H. destruct v as [[b a1] o1]. destruct b; cbn [negb] in H; apply ret_inj in H; injection H as <- <- <- <-; auto.
  Qed.

  (** One node: it failed before anything was sent, or its initialisation was called for and went well or not. *)
  Lemma pvd_inv w a a' r o : sound pub_of w -> RegisterPvd w a = Ret (a', r, o) ->
    a' = a /\ o = [] /\ (r = [NFailed] \/ exists ad, r = [NAccount ad; NFailed]) \/
    exists node k wallet token ok, made_for pub_of w 0 node k wallet token /\ (r_id node = ToString (de_random w 0) /\ provider_at node) /\ private k /\ registered_with pub_of node k /\
      r_admin_ap node = gs "127.0.0.1:9033" /\
      use (de_http w 0) a (PInitV2 node (Some k) (Some 1) wallet networkLotusAP token) = Ret (ok, a', o) /\
      r = if ok then announced w 0 node else [NAccount (Client.r_address node); NFailed].
  Proof.
    intros S H. unfold AdminCli.RegisterPvd in H. step H. destruct v as [[l token]|]; [|apply ret_inj in H; injection H as <- <- <-; left; auto].
    step H. destruct v as [key address]. destruct (new_keys pub_of w 0) as [[[root k] text]|] eqn:K; [|apply ret_inj in H; injection H as <- <- <-; left; eauto].
    step H. destruct v as [[[ok a1] n1] o1]. apply ret_inj in H. injection H as <- <- <-. right. apply enroll_inv in E1. destruct E1 as [U ->].
    destruct (new_keys_inv w 0 root k text K S) as (r0 & k0 & A1 & A2 & A3 & A4 & A5 & A6 & A7).
    exists (provider_register (de_random w 0) address root text), k, key, token, ok. split.
    { exists l, r0. split; [exact E|]. split; [destruct (nth_error l 0); [injection E0 as ->; reflexivity|discriminate E0]|]. split; [exact A1|]. split; [exact A2|]. exists k0. auto. }
    split; [repeat (split; [reflexivity|]); reflexivity|]. split; [exact A6|]. split; [exact A7|]. split; [reflexivity|]. split; [exact U|]. destruct ok; reflexivity.
  Qed.

  (** Gateway [i] is initialised. *)
  Definition round (w : denv) (i : nat) (a : admin) (node : reg) (ok : bool) (a' : admin) (o : list post) : Prop :=
    exists k wallet token, made_for pub_of w i node k wallet token /\ (r_id node = gateway_id i /\ gateway_at i node) /\ private k /\ registered_with pub_of node k /\
      r_admin_ap node = gs "127.0.0.1:" ++ Json.dec_print (7013 + Z.of_nat i) /\
      use (de_http w i) a (GInitV2 node (Some k) (Some 1) wallet networkLotusAP token) = Ret (ok, a', o).
  (** Gateways from [i] on, one after another. *)
  Inductive chain (w : denv) : nat -> admin -> list reg -> admin -> list post -> Prop :=
  | chain_nil i a : chain w i a [] a []
  | chain_cons i a node a1 m nodes a' o : round w i a node true a1 [m] -> chain w (S i) a1 nodes a' o -> chain w i a (node :: nodes) a' (m :: o).

  Lemma round_one w i a node ok a' o : round w i a node ok a' o -> o = [] /\ ok = false \/ exists m, o = [m].
  Proof.
    intros (k & wallet & token & _ & _ & _ & _ & _ & U). destruct (use_inv _ _ _ _ _ _ _ _ _ _ _ _ _ U) as (S & _).
    destruct S as [(-> & ->)|(n & k1 & v & req & s & pk & _ & _ & _ & _ & _ & _ & -> & _)]; eauto.
  Qed.
  Lemma round_after w i a node ok a' o : round w i a node ok a' o -> a' = if ok then with_node a node else a.
  Proof.
    intros (k & wallet & token & _ & _ & _ & _ & _ & U). destruct (use_inv _ _ _ _ _ _ _ _ _ _ _ _ _ U) as (_ & A). cbn [puts] in A. exact A.
  Qed.

  Lemma loop_inv w l token : sound pub_of w -> de_accounts w = Ret (OkR (l, token)) -> forall n i a a' r o, register_gateways w l token n i a = Ret (a', r, o) ->
    exists nodes o1 rest, chain w i a nodes a' o1 /\ (length nodes <= n)%nat /\
      r = flat_map (fun x => announced w (fst x) (snd x)) (combine (seq i (length nodes)) nodes) ++ rest /\
      (length nodes = n /\ o = o1 /\ rest = [] \/
       (length nodes < n)%nat /\ (exists ad, rest = [NAccount ad; NFailed]) /\ (o = o1 \/ exists node a2 o2, o = o1 ++ o2 /\ round w (i + length nodes) a' node false a2 o2)).
  Proof.
    intros So Acc. induction n as [|n IH]; intros i a a' r o H; cbn [AdminCli.register_gateways] in H.
    - apply ret_inj in H. injection H as <- <- <-. exists [], [], []. split; [constructor|]. split; [cbn; lia|]. split; [reflexivity|]. left. auto.
    - step H. destruct v as [key address]. assert (Nth : nth_error l i = Some (key, address)) by (destruct (nth_error l i); [injection E as ->; reflexivity|discriminate E]).
      destruct (new_keys pub_of w i) as [[[root k] text]|] eqn:K.
      2:{ apply ret_inj in H. injection H as <- <- <-. exists [], [], [NAccount address; NFailed]. split; [constructor|]. split; [cbn; lia|]. split; [reflexivity|]. right. cbn. split; [lia|]. split; [eauto|]. auto. }
      step H. destruct v as [[[ok a1] n1] o1]. apply enroll_inv in E0. destruct E0 as [U ->].
      destruct (new_keys_inv w i root k text K So) as (r0 & k0 & A1 & A2 & A3 & A4 & A5 & A6 & A7).
      assert (R : round w i a (gateway_register i address root text) ok a1 o1).
      { exists k, key, token. split; [|split; [repeat (split; [reflexivity|]); reflexivity|split; [exact A6|split; [exact A7|split; [reflexivity|exact U]]]]].
        exists l, r0. split; [exact Acc|]. split; [exact Nth|]. split; [exact A1|]. split; [exact A2|]. exists k0. auto. }
      destruct ok; cbn [negb] in H.
      + step H. destruct v as [[a2 m2] o2]. apply ret_inj in H. injection H as <- <- <-.
        destruct (IH _ _ _ _ _ E0) as (nodes & o' & rest & C & L & -> & J). destruct (round_one _ _ _ _ _ _ _ R) as [(_ & X)|(m & ->)]; [discriminate X|].
        exists (gateway_register i address root text :: nodes), (m :: o'), rest. split; [econstructor; eassumption|]. cbn [length seq combine flat_map fst snd].
        split; [lia|]. split; [unfold announced; cbn [Client.r_address gateway_register]; rewrite <- !app_assoc; cbn [app]; rewrite <- !app_assoc; reflexivity|].
        destruct J as [(J1 & -> & ->)|(J1 & J2 & J3)]; [left; auto|]. right. split; [lia|]. split; [exact J2|].
        destruct J3 as [->|(nd & a3 & o3 & -> & J3)]; [auto|]. right. exists nd, a3, o3. split; [reflexivity|]. replace (i + S (length nodes))%nat with (S i + length nodes)%nat by lia. exact J3.
      + apply ret_inj in H. injection H as <- <- <-. pose proof (round_after _ _ _ _ _ _ _ R) as Ea. cbn in Ea. subst a1.
        exists [], [], [NAccount address; NFailed]. split; [constructor|]. split; [cbn; lia|]. split; [reflexivity|]. right. cbn [length]. split; [lia|]. split; [eauto|]. right.
        exists (gateway_register i address root text), a, o1. split; [reflexivity|]. rewrite Nat.add_0_r. exact R.
  Qed.

  Lemma chain_nth w : forall i a nodes a' o, chain w i a nodes a' o -> length o = length nodes /\ forall j node, nth_error nodes j = Some node ->
    exists a1 a2 m, round w (i + j) a1 node true a2 [m] /\ nth_error o j = Some m /\ ad_key a1 = ad_key a.
  Proof.
    intros i a nodes a' o C. induction C as [i a|i a node a1 m nodes a' o R C [L IH]].
    - split; [reflexivity|]. intros [|j] node X; discriminate X.
    - split; [cbn; congruence|]. intros [|j] nd X; cbn in X.
      + injection X as <-. exists a, a1, m. rewrite Nat.add_0_r. auto.
      + destruct (IH j nd X) as (b1 & b2 & m' & A & B & D). exists b1, b2, m'. replace (i + S j)%nat with (S i + j)%nat by lia. split; [exact A|]. split; [exact B|].
        rewrite D. pose proof (round_after _ _ _ _ _ _ _ R) as ->. reflexivity.
  Qed.
  Lemma chain_key w : forall i a nodes a' o, chain w i a nodes a' o -> ad_key a' = ad_key a /\ ad_ver a' = ad_ver a.
  Proof. intros i a nodes a' o C. induction C as [i a|i a node a1 m nodes a' o R C IH]; [auto|]. pose proof (round_after _ _ _ _ _ _ _ R) as ->. exact IH. Qed.
  Lemma chain_nodes w : forall i a nodes a' o, chain w i a nodes a' o -> NoDup (map r_id nodes) -> forall id node,
    aget bytes_eqb (ad_nodes a') id = Some node <-> In node nodes /\ r_id node = id \/ aget bytes_eqb (ad_nodes a) id = Some node /\ ~ In id (map r_id nodes).
  Proof.
    intros i a nodes a' o C. induction C as [i a|i a n0 a1 m nodes a' o R C IH]; intros Nd id node.
    - cbn. tauto.
    - cbn [map] in Nd. inversion Nd as [|? ? N1 N2]; subst. rewrite (IH N2). pose proof (round_after _ _ _ _ _ _ _ R) as ->. cbn [with_node ad_nodes].
      rewrite (aget_aset bytes_eqb bytes_eqb_eq). cbn [map In]. destruct (bytes_eqb id (r_id n0)) eqn:B.
      + apply bytes_eqb_eq in B. subst id. split.
        * intros [[X Y]|[[= <-] Y]]; [left; auto|left; auto].
        * intros [[[<-|X] Y]|[X Y]]; [right; auto|left; auto|]. exfalso. apply Y. left. reflexivity.
      + assert (Nb : r_id n0 <> id) by (intros <-; rewrite (proj2 (bytes_eqb_eq _ _) eq_refl) in B; discriminate B).
        split.
        * intros [[X Y]|[X Y]]; [left; auto|right]. split; [exact X|]. intros [Z|Z]; [exact (Nb Z)|exact (Y Z)].
        * intros [[[<-|X] Y]|[X Y]]; [contradiction|left; auto|right]. split; [exact X|]. intros Z. apply Y. right. exact Z.
  Qed.
End desk.

(** ** The identifiers and addresses of the gateways *)

Definition gateway_bytes (i : nat) : bytes := match NewNodeIDFromHexString (gateway_id i) with OkR id => id | ErrR => [] end.
Definition gateway_facts (i : nat) : bool :=
  match NewNodeIDFromHexString (gateway_id i) with
  | OkR id => bytes_eqb (ToString id) (gateway_id i) && Nat.eqb (length id) 32 && (be_val id =? Z.of_nat i * 2 ^ 251)
  | ErrR => false
  end.
Lemma gateway_facts_all : forallb gateway_facts (seq 0 20) = true.
Proof. vm_compute. reflexivity. Qed.
Lemma gateway_id_pf i : (i < 20)%nat -> exists id, NewNodeIDFromHexString (gateway_id i) = OkR id /\ ToString id = gateway_id i /\ id32 id /\ be_val id = Z.of_nat i * 2 ^ 251.
Proof.
  intros L. pose proof gateway_facts_all as F. rewrite forallb_forall in F. specialize (F i (proj2 (in_seq 20 0 i) (conj (Nat.le_0_l i) L))).
  unfold gateway_facts in F. destruct (NewNodeIDFromHexString (gateway_id i)) as [id|]; [|discriminate F]. exists id.
  apply andb_prop in F. destruct F as [F F3]. apply andb_prop in F. destruct F as [F1 F2]. split; [reflexivity|]. split; [apply bytes_eqb_eq; exact F1|].
  split; [apply Nat.eqb_eq; exact F2|apply Z.eqb_eq; exact F3].
Qed.
Lemma gateway_id_inj i j : (i < 20)%nat -> (j < 20)%nat -> gateway_id i = gateway_id j -> i = j.
Proof.
  intros A B E. destruct (gateway_id_pf i A) as (x & X1 & _ & _ & X2), (gateway_id_pf j B) as (y & Y1 & _ & _ & Y2). rewrite E, Y1 in X1. injection X1 as <-.
  rewrite X2 in Y2. apply Z.mul_reg_r in Y2; [lia|]. discriminate.
Qed.
