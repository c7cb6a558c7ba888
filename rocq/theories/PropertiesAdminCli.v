(** * The administrators' command line programs: theorems *)
From Coq Require Import String List ZArith Bool Lia Init.Byte.
From Verif Require Import Base BaseProofs Ids IdsProofs Crypto CryptoProofs Message Offer OfferProofs WireSpec Payment Rest Gateway GatewayProofs Provider ProviderSpec Admin AdminSpec AdminProofs AdminNodeProofs PropertiesAdmin AdminCli AdminCliSpec
  AdminCliProofs PropertiesMerkle PropertiesCrypto ToyGateway ToyProvider PropertiesGatewayAdmin Schema.
From Verif Require Client Cli CliSpec CliProofs.
Import ListNotations.
Open Scope Z_scope.
Open Scope go_scope.

Section desk.
  Variable version : Z.
  Variable supported : list Z.
  Variable sha256 : bytes -> bytes.
  Variable pub_of : bytes -> bytes.
  Variable ec_sign : bytes -> bytes -> option bytes.
  Variable ec_verify : bytes -> bytes -> bytes -> bool.
  Variable blake : bytes -> bytes.

  Notation use := (AdminSpec.use version supported sha256 pub_of ec_sign ec_verify blake).
  Notation pexec := (provider_executor version supported sha256 pub_of ec_sign ec_verify blake).
  Notation gexec := (gateway_executor version supported sha256 pub_of ec_sign ec_verify blake).
  Notation sound := (sound pub_of).
  Notation made_for := (made_for pub_of).
  Notation enrolled := (enrolled sha256 pub_of ec_verify blake).
  Notation asks := (asks sha256).
  Notation confirms := (confirms sha256).
  Notation of_key := (of_key pub_of ec_verify blake).
  Notation of_node := (of_node pub_of ec_verify blake).

  (** ** Publishing *)

  Lemma publishes_range w ws x n : publishes w ws x n -> (forall i, id32 (de_random w i)) -> uint64 (de_price w) -> int64 (de_now w + 86400) -> in_range x.
  Proof.
    assert (Id : forall t i, CliSpec.hex_id t i -> id32 i) by (intros t i A; apply CliProofs.hex_id_iff in A; exact (hex_id32 _ _ A)).
    intros A R P Nw. destruct A; cbn [in_range each each_of]; repeat match goal with H : CliSpec.hex_id _ _ |- _ => apply Id in H end.
    - split; [auto|]. split; [exact P|]. split; [exact Nw|]. unfold uint64. lia.
    - split; [auto|]. split; [unfold uint64; lia|]. split; [exact Nw|]. unfold uint64. lia.
    - split; [auto|]. split; [repeat constructor; unfold uint64; lia|]. split; [constructor; [exact Nw|constructor]|]. repeat constructor; unfold uint64; lia.
  Qed.

  Lemma order_exec w a line x n : publishes w (Cli.blocks line) x n ->
    pexec w (Desk true (Some a)) line = let* y := use (de_http w 0) a x in Ret (Some (Desk true (Some a)), [if fst (fst y) then n else NPublishFailed], snd y).
  Proof.
    intros P. unfold provider_executor. cbv zeta. remember (Cli.blocks line) as bs eqn:Eb. clear Eb. destruct P; repeat match goal with H : CliSpec.hex_id _ _ |- _ => apply CliProofs.hex_id_iff in H end;
      match goal with |- context [Cli.is (?c :: ?l) "init"] =>
        change (Cli.is (c :: l) "init") with false; change (Cli.is (c :: l) "register-pvd") with false; change (Cli.is (c :: l) "list-pvds") with false;
        change (Cli.is (c :: l) "publish-offer-from-file") with false
      end.
    - change (Cli.is [gs "publish-random-offer"; n] "publish-random-offer") with true. cbv iota. unfold at_desk, saying. cbn [dk_on dk_admin negb deref obind identifiers]. rewrite H.
      unfold publish_group, AdminSpec.use. change (24 * 60 * 60) with 86400.
      destruct (PublishGroupCID _ _ _ _ _ _ _ _ _ _ _ _ _ _) as [[ok out]| |]; reflexivity.
    - match goal with |- context [Cli.is (?c :: ?l) "publish-random-offer"] => change (Cli.is (c :: l) "publish-random-offer") with false; change (Cli.is (c :: l) "publish-offer-given-cids") with true end.
      cbv iota. unfold at_desk, saying. cbn [dk_on dk_admin negb deref obind identifiers]. rewrite H, H0, H1, H2. unfold publish_group, AdminSpec.use. change (24 * 60 * 60) with 86400.
      destruct (PublishGroupCID _ _ _ _ _ _ _ _ _ _ _ _ _ _) as [[ok out]| |]; reflexivity.
    - match goal with |- context [Cli.is (?c :: ?l) "publish-random-offer"] => change (Cli.is (c :: l) "publish-random-offer") with false;
        change (Cli.is (c :: l) "publish-offer-given-cids") with false; change (Cli.is (c :: l) "publish-dht-offer") with true end.
      cbv iota. unfold at_desk, saying. cbn [dk_on dk_admin negb deref obind identifiers]. rewrite H, H0. unfold publish_dht, AdminSpec.use. change (24 * 60 * 60) with 86400.
      destruct (PublishDHTCID _ _ _ _ _ _ _ _ _ _ _ _ _ _) as [[ok out]| |]; reflexivity.
  Qed.

  (** An order to publish is the call of the library with what was typed; it says it published exactly if the library says so. *)
  Theorem desk_publishes : forall w a line x n y r o, publishes w (Cli.blocks line) x n -> pexec w (Desk true (Some a)) line = Ret (y, r, o) ->
    y = Some (Desk true (Some a)) /\
    (exists ok, use (de_http w 0) a x = Ret (ok, a, o) /\ r = [if ok then n else NPublishFailed]) /\
    (target a x = None -> r = [NPublishFailed] /\ o = []) /\
    (r = [n] -> exists node m resp, target a x = Some node /\ o = [(r_admin_ap node, m)] /\ de_http w 0 (r_admin_ap node) m = Some resp /\ of_node node resp /\ confirms x resp) /\
    ((forall i, id32 (de_random w i)) -> uint64 (de_price w) -> int64 (de_now w + 86400) -> ecdsa_correct pub_of ec_sign ec_verify ->
       forall p m, In (p, m) o -> exists node k, target a x = Some node /\ p = r_admin_ap node /\ ad_key a = Some k /\ of_key k m /\ asks x m).
  Proof.
    intros w a line x n y r o P H. rewrite (order_exec w a line x n P) in H.
    assert (Nn : n <> NPublishFailed) by (destruct P; discriminate).
    assert (M : y = Some (Desk true (Some a)) /\ exists ok, use (de_http w 0) a x = Ret (ok, a, o) /\ r = [if ok then n else NPublishFailed]).
    { step H. destruct v as [[ok a'] out]. apply ret_inj in H. injection H as <- <- <-. split; [reflexivity|].
      assert (Ea : a' = a) by (destruct (use_inv _ _ _ _ _ _ _ _ _ _ _ _ _ E) as (_ & A); destruct P; exact A). subst a'. exists ok. auto. }
    destruct M as [-> (ok & U & ->)]. split; [reflexivity|]. split; [eauto|]. split.
    - intros T. destruct (unknown_unasked _ _ _ _ _ _ _ _ _ _ _ _ _ U T) as (-> & -> & _). auto.
    - split.
      + intros E. destruct ok; [|exfalso; injection E as E; congruence]. exact (success_confirmed _ _ _ _ _ _ _ _ _ _ _ _ U).
      + intros R1 R2 R3 Law p m I. destruct (call_asks _ _ _ _ _ _ _ _ _ _ _ _ _ Law U) as [->|(node & k & m' & T & K & -> & Ok & As)]; [destruct I|].
        destruct I as [[= <- <-]|[]]. exists node, k. split; [exact T|]. split; [reflexivity|]. split; [exact K|]. split; [exact Ok|]. apply As. eapply publishes_range; eauto.
  Qed.

  (** Nothing is sent, and no node comes into use, but at these orders and the order to register. *)
  Theorem desk_effect_needs_order : forall w d line y r o, pexec w d line = Ret (y, r, o) ->
    (o <> [] \/ exists d', y = Some d' /\ option_map ad_nodes (dk_admin d') <> option_map ad_nodes (dk_admin d) /\ dk_on d = true) ->
    dk_on d = true /\ exists ws, CliSpec.typed line ws /\ (hd [] ws = gs "register-pvd" \/ exists x n, publishes w ws x n).
  Proof.
    intros w d line y r o H Eff. apply pexec_did in H. pose proof (CliProofs.blocks_inv line) as T. destruct H.
    - exfalso. destruct Eff as [X|(d' & [= <-] & X & _)]; congruence.
    - exfalso. destruct Eff as [X|(d' & X & _)]; congruence.
    - exfalso. destruct (init_inv CreateProviderSettings _ _ _ _ _ H0 eq_refl H1) as (-> & _). destruct Eff as [X|(d' & _ & _ & X)]; congruence.
    - split; [assumption|]. exists (Cli.blocks line). split; [exact T|]. left. assumption.
    - split; [assumption|]. exists (Cli.blocks line). split; [exact T|]. right. eauto.
  Qed.

  (** The providers in use are listed, each once, and nothing else happens. *)
  Theorem desk_lists : forall w a line, (forall l, Permutation.Permutation (de_order w l) l) -> hd [] (Cli.blocks line) = gs "list-pvds" ->
    exists l, pexec w (Desk true (Some a)) line = Ret (Some (Desk true (Some a)), [NNodes l], []) /\ Permutation.Permutation l (map (fun x => r_id (snd x)) (ad_nodes a)).
  Proof.
    intros w a line P C. eexists. split.
    - unfold provider_executor, Cli.is, Cli.command. rewrite C. reflexivity.
    - apply Permutation.Permutation_map, P.
  Qed.

  Section provider.
    Variable sha512_256 : bytes -> bytes.
    Variables BindAdminAPI BindRestAPI BindGatewayAPI BindProviderAPI : gostring.
    Local Notation provider_api := (provider_api version supported sha256 sha512_256 pub_of ec_sign ec_verify blake BindAdminAPI BindRestAPI BindGatewayAPI BindProviderAPI).
    Hypothesis AC : BindAdminAPI <> BindRestAPI.
    Hypothesis GP : BindGatewayAPI <> BindProviderAPI.

    (** When the program says it published, and what is sent reaches a provider, the provider has served a request for exactly the offer typed. *)
    Theorem desk_published : forall e p w a line t c1 c2 c3 id i1 i2 i3 y o, int64 (de_now w + 86400) ->
      Cli.blocks line = [gs "publish-offer-given-cids"; t; c1; c2; c3] -> CliSpec.hex_id t id -> CliSpec.hex_id c1 i1 -> CliSpec.hex_id c2 i2 -> CliSpec.hex_id c3 i3 ->
      pexec w (Desk true (Some a)) line = Ret (y, [NPublished [ToString i1; ToString i2; ToString i3] 44], o) ->
      (forall node, aget bytes_eqb (ad_nodes a) (ToString id) = Some node -> reaches (de_http w 0) node (provider_api e p)) ->
      exists node m p' r sent, aget bytes_eqb (ad_nodes a) (ToString id) = Some node /\ o = [(r_admin_ap node, m)] /\
        Messages.DecodeProviderAdminPublishGroupOfferRequest sha256 m = Ret (OkR ([i1; i2; i3], 44, de_now w + 86400, 42)) /\
        pact version supported sha256 sha512_256 pub_of ec_sign ec_verify blake e p AdminPublishGroup m = Ret (p', [r], sent).
    Proof using AC GP.
      intros e p w a line t c1 c2 c3 id i1 i2 i3 y o Nw B H0 H1 H2 H3 H Re.
      assert (P : publishes w (Cli.blocks line) (PPublishGroup (Some id) [i1; i2; i3] 44 (de_now w + 24 * 60 * 60) 42) (NPublished [ToString i1; ToString i2; ToString i3] 44))
        by (rewrite B; apply order_given; assumption).
      destruct (desk_publishes w a line _ _ _ _ _ P H) as (_ & (ok & U & E) & _). destruct ok; [|discriminate E].
      assert (Id : forall t i, CliSpec.hex_id t i -> id32 i) by (intros t' i' A; apply CliProofs.hex_id_iff in A; exact (hex_id32 _ _ A)).
      refine (group_published version supported sha256 sha512_256 pub_of ec_sign ec_verify blake _ _ _ _ AC GP e _ p a _ _ _ _ _ _ _ U _ _ _ _ Re); [exact (Forall_cons _ (Id _ _ H1) (Forall_cons _ (Id _ _ H2) (Forall_cons _ (Id _ _ H3) (Forall_nil _))))|unfold uint64; lia|exact Nw|unfold uint64; lia].
    Qed.
  End provider.

  (** ** Registering a provider *)

  Lemma provider_admin_at node : provider_at node -> r_admin_ap node = gs "127.0.0.1:9033".
  Proof. intros (_ & _ & _ & A & _). exact A. Qed.

  Theorem desk_provider : forall w a line y r o, sound w -> hd [] (Cli.blocks line) = gs "register-pvd" -> pexec w (Desk true (Some a)) line = Ret (y, r, o) ->
    exists a', y = Some (Desk true (Some a')) /\ ad_key a' = ad_key a /\ ad_ver a' = ad_ver a /\
    ((forall id, ~ In (NRegistered id) r) /\ In NFailed r /\ a' = a \/
     exists node k wallet token m, r = announced w 0 node /\ made_for w 0 node k wallet token /\ registered_with pub_of node k /\
       r_id node = ToString (de_random w 0) /\ provider_at node /\ o = [(r_admin_ap node, m)] /\
       (id32 (de_random w 0) -> asks (PInitV2 node (Some k) (Some 1) wallet networkLotusAP token) m) /\
       enrolled w 0 node (PInitV2 node (Some k) (Some 1) wallet networkLotusAP token) /\
       forall i, aget bytes_eqb (ad_nodes a') i = if bytes_eqb i (r_id node) then Some node else aget bytes_eqb (ad_nodes a) i).
  Proof.
    intros w a line y r o S C H. unfold provider_executor, Cli.is, Cli.command in H. rewrite C in H.
    change (bytes_eqb (gs "register-pvd") (gs "init")) with false in H. change (bytes_eqb (gs "register-pvd") (gs "register-pvd")) with true in H. cbv zeta iota in H.
    apply at_desk_inv in H. destruct H as [(X & _)|(_ & a0 & a' & [= <-] & F & ->)]; [discriminate X|]. exists a'. split; [reflexivity|].
    apply pvd_inv in F; [|exact S]. destruct F as [(-> & -> & R)|(node & k & wallet & token & ok & M & (I & At) & P & Rg & Ap & U & R)].
    - split; [reflexivity|]. split; [reflexivity|]. left. destruct R as [->|(ad & ->)]; (split; [|split; [cbn; tauto|reflexivity]]); intros id; cbn; intuition discriminate.
    - destruct (use_inv _ _ _ _ _ _ _ _ _ _ _ _ _ U) as (Se & A). cbn [puts] in A. split; [subst a'; destruct ok; reflexivity|]. split; [subst a'; destruct ok; reflexivity|]. destruct ok.
      + right. destruct (success_confirmed _ _ _ _ _ _ _ _ _ _ _ _ U) as (node' & m & resp & T & -> & Ht & On & Cf). cbn [target] in T. injection T as <-.
        exists node, k, wallet, token, m. split; [exact R|]. split; [exact M|]. split; [exact Rg|]. split; [exact I|]. split; [exact At|]. split; [reflexivity|]. split.
        * intros Id. destruct Se as [(X & _)|(n1 & k1 & v1 & req & sg & pk & _ & _ & _ & _ & As & _ & O & _)]; [discriminate X|]. injection O as _ ->. apply asks_sig. apply As. cbn [in_range each_of]. split; [exact P|]. unfold uint32. lia.
        * split; [exists m, resp; auto|]. intros i. subst a'. cbn [with_node ad_nodes]. rewrite (aget_aset bytes_eqb bytes_eqb_eq). reflexivity.
      + left. rewrite R. split; [intros id; cbn; intuition discriminate|]. split; [cbn; tauto|exact A].
  Qed.

  (** ** Registering the gateways *)

  Lemma gw_exec w a line : hd [] (Cli.blocks line) = gs "register-gw" ->
    gexec w (Desk true (Some a)) line = at_desk (Desk true (Some a)) (RegisterGw version supported sha256 pub_of ec_sign ec_verify blake w).
  Proof.
    intros C. unfold gateway_executor, Cli.is, Cli.command. rewrite C.
    change (bytes_eqb (gs "register-gw") (gs "init")) with false. change (bytes_eqb (gs "register-gw") (gs "register-gw")) with true. reflexivity.
  Qed.
  Lemma chain_ids w i a nodes a' o : chain version supported sha256 pub_of ec_sign ec_verify blake w i a nodes a' o -> map r_id nodes = map gateway_id (seq i (length nodes)).
  Proof.
    intros C. induction C as [i a|i a node a1 m nodes a' o R C IH]; [reflexivity|]. cbn [map length seq]. rewrite IH. f_equal. destruct R as (k & wl & tk & _ & (I & _) & _). exact I.
  Qed.
  Lemma ids_nodup k : (k <= 20)%nat -> NoDup (map gateway_id (seq 0 k)).
  Proof.
    intros L. apply NoDup_nth with (d := []). intros i j Hi Hj E. rewrite map_length, seq_length in Hi, Hj.
    rewrite (nth_indep _ [] (gateway_id 0)) in E by (rewrite map_length, seq_length; exact Hi). rewrite (nth_indep (map _ _) [] (gateway_id 0)) in E by (rewrite map_length, seq_length; exact Hj).
    rewrite !map_nth, !seq_nth in E by assumption. cbn [Nat.add] in E. apply gateway_id_inj in E; lia.
  Qed.

  Theorem desk_gateways : forall w a line y r o, sound w -> hd [] (Cli.blocks line) = gs "register-gw" -> gexec w (Desk true (Some a)) line = Ret (y, r, o) ->
    exists a' nodes rest, y = Some (Desk true (Some a')) /\ ad_key a' = ad_key a /\ ad_ver a' = ad_ver a /\
      r = flat_map (fun x => announced w (fst x) (snd x)) (combine (seq 0 (length nodes)) nodes) ++ rest /\
      (length nodes = 20%nat /\ rest = [] /\ length o = 20%nat \/ (length nodes < 20)%nat /\ (rest = [NFailed] \/ exists address, rest = [NAccount address; NFailed]) /\ (length nodes <= length o <= S (length nodes))%nat) /\
      (forall j node, nth_error nodes j = Some node -> r_id node = gateway_id j /\ gateway_at j node /\ exists k wallet token m resp, made_for w j node k wallet token /\ registered_with pub_of node k /\
         nth_error o j = Some (gs "127.0.0.1:" ++ Json.dec_print (7013 + Z.of_nat j), m) /\ r_admin_ap node = gs "127.0.0.1:" ++ Json.dec_print (7013 + Z.of_nat j) /\
         asks (GInitV2 node (Some k) (Some 1) wallet networkLotusAP token) m /\
         de_http w j (r_admin_ap node) m = Some resp /\ of_node node resp /\ confirms (GInitV2 node (Some k) (Some 1) wallet networkLotusAP token) resp) /\
      forall id node, aget bytes_eqb (ad_nodes a') id = Some node <-> In node nodes /\ r_id node = id \/ aget bytes_eqb (ad_nodes a) id = Some node /\ ~ In id (map r_id nodes).
  Proof.
    intros w a line y r o So C H. rewrite (gw_exec w a line C) in H. apply at_desk_inv in H. destruct H as [(X & _)|(_ & a0 & a' & [= <-] & F & ->)]; [discriminate X|]. exists a'.
    unfold RegisterGw in F. step F. destruct v as [[l token]|].
    2:{ apply ret_inj in F. injection F as <- <- <-. exists [], [NFailed]. split; [reflexivity|]. split; [reflexivity|]. split; [reflexivity|]. split; [reflexivity|]. split.
        - right. cbn. split; [lia|]. split; [tauto|lia].
        - split; [intros [|j] node X; discriminate X|]. intros id node. cbn. tauto. }
    destruct (loop_inv _ _ _ _ _ _ _ w l token So E 20 0 a a' r o F) as (nodes & o1 & rest & Ch & L & -> & J).
    destruct (chain_key _ _ _ _ _ _ _ _ _ _ _ _ _ Ch) as [K1 K2]. pose proof (chain_ids _ _ _ _ _ _ Ch) as Ids. destruct (chain_nth _ _ _ _ _ _ _ _ _ _ _ _ _ Ch) as [Lo Nth].
    exists nodes, rest. split; [reflexivity|]. split; [exact K1|]. split; [exact K2|]. split; [reflexivity|]. split; [|split].
    - destruct J as [(J1 & -> & ->)|(J1 & (ad & ->) & J2)]; [left; split; [exact J1|]; split; [reflexivity|congruence]|right].
      split; [exact J1|]. split; [right; eauto|]. destruct J2 as [->|(nd & a2 & o2 & -> & R)]; [lia|].
      rewrite app_length. destruct (round_one _ _ _ _ _ _ _ _ _ _ _ _ _ _ R) as [(-> & _)|(m & ->)]; cbn [length]; lia.
    - intros j node N. destruct (Nth j node N) as (a1 & a2 & m & (k & wl & tk & M & (I & At) & P & Rg & Ap & U) & No & _). cbn [Nat.add] in *. split; [exact I|]. split; [exact At|].
      destruct (success_confirmed _ _ _ _ _ _ _ _ _ _ _ _ U) as (node' & m' & resp & T & Om & Ht & On & Cf). cbn [target] in T. injection T as <-. injection Om as ->.
      destruct (use_inv _ _ _ _ _ _ _ _ _ _ _ _ _ U) as (Se & _).
      exists k, wl, tk, m', resp. split; [exact M|]. split; [exact Rg|]. rewrite <- Ap. split.
      { destruct J as [(_ & -> & _)|(_ & _ & [->|(nd & a3 & o2 & -> & _)])]; [exact No|exact No|]. rewrite nth_error_app1; [exact No|]. apply nth_error_Some. rewrite No. discriminate. }
      split; [reflexivity|]. split; [|auto].
      destruct Se as [(X & _)|(n1 & k1 & v1 & req & sg & pk & _ & _ & _ & _ & As & _ & O & _)]; [discriminate X|]. injection O as _ ->. apply asks_sig. apply As. cbn [in_range each_of]. split; [exact P|]. unfold uint32. lia.
    - eapply chain_nodes; [exact Ch|]. rewrite Ids. apply ids_nodup. exact L.
  Qed.

  (** The identifiers of the gateways, as numbers, are the first twenty multiples of 2^251; each text is the one the libraries write. *)
  Theorem desk_gateway_ids : forall i, (i < 20)%nat ->
    exists id, NewNodeIDFromHexString (gateway_id i) = OkR id /\ ToString id = gateway_id i /\ id32 id /\ be_val id = Z.of_nat i * 2 ^ 251.
  Proof. exact gateway_id_pf. Qed.

  Section gateways.
    Variables BindAdminAPI BindRestAPI BindGatewayAPI BindProviderAPI : gostring.
    Local Notation gateway_api := (gateway_api version supported sha256 ec_sign blake BindAdminAPI BindRestAPI BindGatewayAPI BindProviderAPI).
    Hypothesis Law : ecdsa_correct pub_of ec_sign ec_verify.
    Hypothesis AC : BindAdminAPI <> BindRestAPI.
    Hypothesis GP : BindGatewayAPI <> BindProviderAPI.

    Lemma served_loop e order wallet n w l token : sound w -> de_accounts w = Ret (OkR (l, token)) -> (20 <= length l)%nat ->
      (forall i, (i < 20)%nat -> exists root k, de_root w i = OkR root /\ de_retrieval w i = OkR k /\ can_sign ec_sign blake k) ->
      (forall i key address, nth_error l i = Some (key, address) -> wallet key = Some address) ->
      (forall i node, (i < 20)%nat -> r_admin_ap node = gs "127.0.0.1:" ++ Json.dec_print (7013 + Z.of_nat i) -> reaches (de_http w i) node (gateway_api e order wallet (n i))) ->
      forall c i a, (i + c = 20)%nat -> authority ec_sign blake a ->
      exists a' r o, AdminCli.register_gateways version supported sha256 pub_of ec_sign ec_verify blake w l token c i a = Ret (a', r, o) /\ length o = c /\ ~ In NFailed r /\
        (forall j, (j < c)%nat -> In (NRegistered (gateway_id (i + j))) r) /\
        forall j, (j < c)%nat -> exists p m n' resp k id key address, nth_error o j = Some (p, m) /\ gateway_api e order wallet (n (i + j)%nat) m = Ret (n', [Json resp]) /\
          de_retrieval w (i + j) = OkR k /\ NewNodeIDFromHexString (gateway_id (i + j)) = OkR id /\ nth_error l (i + j) = Some (key, address) /\
          is_gateway id k 1 (n_gw n') /\ g_pay (n_gw n') = Some (NewMgr address) /\ gateway_rest (n_gw n') = gateway_rest (n_gw (n (i + j)%nat)).
    Proof using Law AC GP.
      intros So Acc Len Ks Wl Re. induction c as [|c IH]; intros i a Hi Au.
      - exists a, [], []. split; [reflexivity|]. split; [reflexivity|]. split; [intros []|]. split; intros j X; lia.
      - cbn [AdminCli.register_gateways]. assert (Hl : (i < length l)%nat) by lia. apply nth_error_Some in Hl. destruct (nth_error l i) as [[key address]|] eqn:Nl; [clear Hl|congruence]. cbn [deref obind].
        destruct (Ks i) as (root & k & Kr & Kk & Cs); [lia|].
        destruct (So i root (or_introl Kr)) as (Ra & Rp & rp & Rk & _ & _). destruct (So i k (or_intror Kk)) as (Ka & Kp & kp & Kpr & _ & _).
        assert (NK : exists rt t, new_keys pub_of w i = OkR (rt, with_pub pub_of k, t)).
        { unfold new_keys, EncodePublicKey. rewrite Kr, Kk, Ra, Ka. change (Byte.eqb x01 x01) with true. cbn [fst]. eauto. }
        destruct NK as (rt & t & NK). rewrite NK. destruct (new_keys_inv pub_of w i rt _ t NK So) as (r0 & k0 & _ & _ & A3 & A4 & _ & A6 & A7).
        assert (Li : (i < 20)%nat) by lia. destruct (gateway_id_pf i Li) as (id & G1 & G2 & _ & _).
        set (node := gateway_register i address rt t) in *.
        assert (Us : usable ec_sign blake (with_pub pub_of k)) by (split; [exact A6|exact Cs]).
        destruct (gateway_initialised_v2 version supported sha256 pub_of ec_sign ec_verify blake BindAdminAPI BindRestAPI BindGatewayAPI BindProviderAPI Law AC GP e order wallet (de_http w i) (n i) a node (with_pub pub_of k) 1 key networkLotusAP token id address
          Au Us ltac:(unfold uint32; lia) A7 G1 (Wl _ _ _ Nl) (Re i node Li eq_refl)) as (a1 & m & n' & resp & U & Gs & Ig & Gr & Gp & _ & _ & _).
        assert (Ea : a1 = with_node a node) by (pose proof U as U2; unfold InitialiseGatewayV2 in U2; apply put_inv in U2; destruct U2 as (b & ot & _ & Q); injection Q as <- -> _; reflexivity).
        assert (Au1 : authority ec_sign blake a1) by (subst a1; exact Au).
        unfold enroll. rewrite U. cbn [obind negb]. destruct (IH (S i) a1 ltac:(lia) Au1) as (a2 & r2 & o2 & E2 & L2 & F2 & R2 & J2). rewrite E2. cbn [obind].
        eexists _, _, _. split; [reflexivity|]. split; [cbn; rewrite L2; reflexivity|]. split.
        { cbn [In]. rewrite !in_app_iff. intros [X|[[X|X]|X]]; [discriminate X| | |exact (F2 X)]; [destruct (de_registers w i); [destruct X|destruct X as [X|[]]; discriminate X]|destruct X as [X|[]]; discriminate X]. }
        split.
        + intros [|j] Hj.
          * right. apply in_or_app. left. apply in_or_app. right. left. rewrite Nat.add_0_r. reflexivity.
          * right. apply in_or_app. right. replace (i + S j)%nat with (S i + j)%nat by lia. apply R2. lia.
        + intros [|j] Hj.
          * rewrite Nat.add_0_r. exists (r_admin_ap node), m, n', resp, k, id, key, address. split; [reflexivity|]. split; [exact Gs|]. split; [exact Kk|]. split; [exact G1|]. split; [exact Nl|].
            split; [|split; [exact Gp|exact Gr]]. destruct Ig as (I1 & I2 & kk & I3 & I4). split; [exact I1|]. split; [exact I2|]. exists kk. split; [exact I3|]. destruct I4. split; assumption.
          * replace (i + S j)%nat with (S i + j)%nat by lia. cbn [nth_error app]. apply J2. lia.
    Qed.

    (** Twenty reachable gateways are all initialised, each with its own identifier, key and account, and the program says so. *)
    Theorem desk_gateways_served : forall e order wallet n w a line l token, authority ec_sign blake a -> sound w -> hd [] (Cli.blocks line) = gs "register-gw" ->
      de_accounts w = Ret (OkR (l, token)) -> (20 <= length l)%nat ->
      (forall i, (i < 20)%nat -> exists root k, de_root w i = OkR root /\ de_retrieval w i = OkR k /\ can_sign ec_sign blake k) ->
      (forall i key address, nth_error l i = Some (key, address) -> wallet key = Some address) ->
      (forall i node, (i < 20)%nat -> r_admin_ap node = gs "127.0.0.1:" ++ Json.dec_print (7013 + Z.of_nat i) -> reaches (de_http w i) node (gateway_api e order wallet (n i))) ->
      exists a' r o, gexec w (Desk true (Some a)) line = Ret (Some (Desk true (Some a')), r, o) /\ length o = 20%nat /\ ~ In NFailed r /\
        (forall j, (j < 20)%nat -> In (NRegistered (gateway_id j)) r) /\
        forall j, (j < 20)%nat -> exists p m n' resp k id key address, nth_error o j = Some (p, m) /\ gateway_api e order wallet (n j) m = Ret (n', [Json resp]) /\
          de_retrieval w j = OkR k /\ NewNodeIDFromHexString (gateway_id j) = OkR id /\ nth_error l j = Some (key, address) /\
          is_gateway id k 1 (n_gw n') /\ g_pay (n_gw n') = Some (NewMgr address) /\ gateway_rest (n_gw n') = gateway_rest (n_gw (n j)).
    Proof using Law AC GP.
      intros e order wallet n w a line l token Au So C Acc Len Ks Wl Re. destruct (served_loop e order wallet n w l token So Acc Len Ks Wl Re 20 0 a eq_refl Au) as (a' & r & o & E & J).
      exists a', r, o. split; [|exact J]. rewrite (gw_exec w a line C). unfold at_desk, RegisterGw. cbn [dk_on dk_admin negb deref obind]. rewrite Acc. cbn [obind]. rewrite E. reflexivity.
    Qed.
  End gateways.

  Lemma announced_id : forall w j node id, In (NRegistered id) (announced w j node) -> id = r_id node.
  Proof.
    intros w j node id. unfold announced. intros [I|I]; [discriminate I|]. apply in_app_or in I. destruct I as [I|[I|[]]].
    - destruct (de_registers w j); [destruct I|destruct I as [I|[]]; discriminate I].
    - injection I as I. symmetry. exact I.
  Qed.

  (** A node said to be registered was accepted by the register, unless an error was printed.  Full claim: always; see [desk_registered_refuted]. *)
  Theorem desk_registered_partial : forall w a line y r o id, sound w ->
    (hd [] (Cli.blocks line) = gs "register-pvd" -> pexec w (Desk true (Some a)) line = Ret (y, r, o) -> In (NRegistered id) r ->
       In NRegisterError r <-> de_registers w 0 = false) /\
    (hd [] (Cli.blocks line) = gs "register-gw" -> gexec w (Desk true (Some a)) line = Ret (y, r, o) ->
       (In (NRegistered id) r -> exists j, (j < 20)%nat /\ id = gateway_id j) /\
       (In NRegisterError r <-> exists j, (j < 20)%nat /\ In (NRegistered (gateway_id j)) r /\ de_registers w j = false)).
  Proof.
    intros w a line y r o id So. split; intros C H.
    - intros I. destruct (desk_provider w a line y r o So C H) as (a' & _ & _ & _ & [(N & _)|(node & k & wl & tk & m & -> & _)]); [exfalso; exact (N id I)|].
      unfold announced. destruct (de_registers w 0); cbn; intuition discriminate.
    - destruct (desk_gateways w a line y r o So C H) as (a' & nodes & rest & _ & _ & _ & -> & Ln & Nth & _).
      assert (Rs : (forall id, ~ In (NRegistered id) rest) /\ ~ In NRegisterError rest /\ (length nodes <= 20)%nat).
      { destruct Ln as [(L & -> & _)|(L & [->|(ad & ->)] & _)]; cbn; (split; [intros x; intuition discriminate|]; split; [intuition discriminate|lia]). }
      destruct Rs as (R1 & R2 & R3).
      assert (Each : forall j node, In (j, node) (combine (seq 0 (length nodes)) nodes) <-> nth_error nodes j = Some node).
      { assert (Gen : forall (l : list reg) i j node, In (j, node) (combine (seq i (length l)) l) <-> (i <= j)%nat /\ nth_error l (j - i) = Some node).
        { clear. induction l as [|x l IH]; intros i j node; cbn [length seq combine In].
          - split; [intros []|]. intros [_ X]. destruct (j - i)%nat; discriminate X.
          - rewrite IH. split.
            + intros [[= <- <-]|[A B]]; [rewrite Nat.sub_diag; auto|]. split; [lia|]. replace (j - i)%nat with (S (j - S i)) by lia. exact B.
            + intros [A B]. destruct (Nat.eq_dec i j) as [<-|Ne]; [left; rewrite Nat.sub_diag in B; injection B as <-; reflexivity|]. right. split; [lia|].
              replace (j - i)%nat with (S (j - S i)) in B by lia. exact B. }
        intros j node. rewrite Gen, Nat.sub_0_r. intuition lia. }
      assert (Lt : forall j node, nth_error nodes j = Some node -> (j < 20)%nat) by (intros j node X; assert (j < length nodes)%nat by (apply nth_error_Some; rewrite X; discriminate); lia).
      split.
      + intros I. apply in_app_or in I. destruct I as [I|I]; [|exfalso; exact (R1 id I)]. apply in_flat_map in I. destruct I as ([j node] & I & J). cbn [fst snd] in J. apply Each in I.
        exists j. split; [exact (Lt j node I)|]. destruct (Nth j node I) as (Ri & _). rewrite <- Ri. exact (announced_id _ _ _ _ J).
      + split.
        * intros I. apply in_app_or in I. destruct I as [I|I]; [|contradiction]. apply in_flat_map in I. destruct I as ([j node] & I & J). cbn [fst snd] in J. pose proof I as I'. apply Each in I.
          exists j. split; [exact (Lt j node I)|]. destruct (Nth j node I) as (Ri & _). split.
          -- apply in_or_app. left. apply in_flat_map. exists (j, node). split; [exact I'|]. cbn [fst snd]. unfold announced. right. apply in_or_app. right. left. rewrite Ri. reflexivity.
          -- unfold announced in J. destruct (de_registers w j); [|reflexivity]. cbn in J. intuition discriminate.
        * intros (j & Lj & I & Rf). apply in_app_or in I. destruct I as [I|I]; [|exfalso; exact (R1 _ I)]. apply in_flat_map in I. destruct I as ([j' node] & I & J). cbn [fst snd] in J. pose proof I as I'. apply Each in I.
          destruct (Nth j' node I) as (Ri & _). assert (Ej : gateway_id j = gateway_id j') by (rewrite <- Ri; exact (announced_id _ _ _ _ J)).
          apply gateway_id_inj in Ej; [|exact Lj|exact (Lt j' node I)]. subst j'. apply in_or_app. left. apply in_flat_map. exists (j, node). split; [exact I'|]. cbn [fst snd]. unfold announced. rewrite Rf. right. left. reflexivity.
  Qed.

  (** ** Lives *)

  Notation plines := (desk_lines pexec).
  Notation glines := (desk_lines gexec).

  (** Before it is initialised a program sends nothing; afterwards it has the generated key with version 1, and every provider in use
      was registered by this program under this identifier and has confirmed its initialisation with its key. *)
  Definition pinv (ws : list denv) (d : desk) : Prop :=
    (dk_on d = false -> dk_admin d = None) /\
    (dk_on d = true -> exists a w g, dk_admin d = Some a /\ In w ws /\ de_generated w = OkR g /\ ad_key a = Some g /\ ad_ver a = Some 1 /\
      forall id node, aget bytes_eqb (ad_nodes a) id = Some node -> r_id node = id /\ provider_at node /\ exists w k wallet token,
        In w ws /\ id = ToString (de_random w 0) /\ made_for w 0 node k wallet token /\ registered_with pub_of node k /\ enrolled w 0 node (PInitV2 node (Some k) (Some 1) wallet networkLotusAP token)).
  Lemma pinv_step ws w d line d' r o : In w ws -> sound w -> pinv ws d -> pexec w d line = Ret (Some d', r, o) ->
    pinv ws d' /\ (dk_on d' = false -> o = []) /\ forall p m, In (p, m) o -> p = gs "127.0.0.1:9033".
  Proof.
    intros I So [Off On] H. pose proof H as H0. apply pexec_did in H. remember (Some d') as y eqn:Ey. destruct H.
    - injection Ey as <-. split; [split; assumption|]. split; [reflexivity|intros p m []].
    - discriminate Ey.
    - subst x. destruct (init_inv CreateProviderSettings _ _ _ _ _ H1 eq_refl H2) as (-> & [(_ & [= <-] & _)|(k & g & _ & G & _ & [= ->])]).
      + split; [split; assumption|]. split; [reflexivity|intros p m []].
      + split; [|split; [reflexivity|intros p m []]]. split; [discriminate|]. intros _. exists (Admin.Admin (Some g) (Some 1) []), w, g. repeat (split; [first [reflexivity|assumption]|]). intros id node X. discriminate X.
    - injection Ey as <-. destruct (On H1) as (a0 & w0 & g & A & Iw & G & K & V & N). rewrite H2 in A. injection A as <-.
      assert (D : d = Desk true (Some a)) by (destruct d; cbn in *; congruence). subst d.
      destruct (desk_provider w a line _ _ _ So H H0) as (a2 & [= <-] & K' & V' & [(_ & _ & ->)|(node & k & wl & tk & m & _ & M & Rg & Ri & Ap & -> & _ & En & Ag)]).
      + split; [split; [discriminate|exact On]|]. split; [discriminate|]. intros p m Im.
        apply pvd_inv in H3; [|exact So]. destruct H3 as [(_ & -> & _)|(node & k & wl & tk & ok & _ & _ & _ & _ & Ap & U & _)]; [destruct Im|].
        destruct (use_inv _ _ _ _ _ _ _ _ _ _ _ _ _ U) as ([(-> & _)|(n1 & k1 & v1 & req & sg & pk & T & _ & _ & _ & _ & _ & -> & _)] & _); [destruct Im|].
        cbn [target] in T. injection T as <-. destruct Im as [[= <- _]|[]]. exact Ap.
      + split; [|split; [discriminate|intros p m' [[= <- _]|[]]; exact (provider_admin_at _ Ap)]]. split; [discriminate|]. intros _. exists a', w0, g. split; [reflexivity|]. split; [exact Iw|]. split; [exact G|]. split; [congruence|]. split; [congruence|].
        intros id nd X. rewrite Ag in X. destruct (bytes_eqb id (r_id node)) eqn:B; [|exact (N id nd X)]. injection X as <-. apply bytes_eqb_eq in B. split; [congruence|].
        split; [exact Ap|]. exists w, k, wl, tk. split; [exact I|]. split; [congruence|]. auto.
    - injection Ey as <-. split; [split; assumption|]. split; [congruence|]. destruct (On H) as (a0 & w0 & g & A & Iw & G & K & V & N). rewrite H1 in A. injection A as <-.
      destruct (use_inv _ _ _ _ _ _ _ _ _ _ _ _ _ H3) as ([(-> & _)|(n1 & k1 & v1 & req & sg & pk & T & _ & _ & _ & _ & _ & -> & _)] & _); [intros p m []|].
      intros p m [[= <- _]|[]]. assert (Kn : exists id, aget bytes_eqb (ad_nodes a) id = Some n1) by (destruct H2; cbn [target] in T; eauto). destruct Kn as (id & X). exact (provider_admin_at _ (proj1 (proj2 (N id n1 X)))).
  Qed.
  Lemma pinv_lines ws : forall l d d' r o, incl (desk_worlds l) ws -> Forall sound (desk_worlds l) -> pinv ws d -> plines d l = Ret (Some d', r, o) ->
    pinv ws d' /\ (dk_on d = false -> dk_on d' = false -> o = []) /\ forall p m, In (p, m) o -> p = gs "127.0.0.1:9033".
  Proof.
    induction l as [|[w line] t IH]; intros d d' r o Inc So Iv H; cbn [desk_lines] in H.
    - apply ret_inj in H. injection H as <- <- <-. split; [exact Iv|]. split; [reflexivity|intros p m []].
    - step H. destruct v as [[d1 n1] o1]. destruct d1 as [d1|]; [|discriminate H]. step H. destruct v as [[d2 n2] o2]. apply ret_inj in H. injection H as -> <- <-.
      inversion So as [|? ? S1 S2]; subst. destruct (pinv_step ws w d line d1 n1 o1 (Inc w (or_introl eq_refl)) S1 Iv E) as (I1 & O1 & P1).
      destruct (IH d1 d' n2 o2 (fun x X => Inc x (or_intror X)) S2 I1 E0) as (I2 & O2 & P2). split; [exact I2|]. split.
      + intros Of1 Of2. destruct (dk_on d1) eqn:On1; [|rewrite (O1 eq_refl), (O2 eq_refl Of2); reflexivity]. exfalso.
        clear - E0 On1 Of2. revert d1 n2 o2 E0 On1. induction t as [|[w1 l1] t IHt]; intros d1 n2 o2 H On; cbn [desk_lines] in H.
        * apply ret_inj in H. injection H as <- _ _. congruence.
        * step H. destruct v as [[dd nn] oo]. destruct dd as [dd|]; [|discriminate H]. step H. destruct v as [[de ne] oe]. apply ret_inj in H. injection H as -> _ _.
          apply (IHt dd ne oe E0). apply pexec_did in E. remember (Some dd) as y eqn:Ey. destruct E; try discriminate Ey; try congruence; injection Ey as <-; auto.
      + intros p m X. apply in_app_or in X. destruct X; eauto.
  Qed.
  Theorem desk_provider_life : forall l d r o, plines NewDesk l = Ret (Some d, r, o) -> Forall sound (desk_worlds l) ->
    (forall p m, In (p, m) o -> p = gs "127.0.0.1:9033") /\ (dk_on d = false -> o = []) /\
    (dk_on d = true -> exists a w g, dk_admin d = Some a /\ In w (desk_worlds l) /\ de_generated w = OkR g /\ ad_key a = Some g /\ ad_ver a = Some 1 /\
      forall id node, aget bytes_eqb (ad_nodes a) id = Some node -> r_id node = id /\ provider_at node /\ exists w k wallet token,
        In w (desk_worlds l) /\ id = ToString (de_random w 0) /\ made_for w 0 node k wallet token /\ registered_with pub_of node k /\
        enrolled w 0 node (PInitV2 node (Some k) (Some 1) wallet networkLotusAP token)).
  Proof.
    intros l d r o H So. destruct (pinv_lines (desk_worlds l) l NewDesk d r o (incl_refl _) So) as ([_ A] & B & C); [split; [reflexivity|discriminate]|exact H|].
    split; [exact C|]. split; [exact (B eq_refl)|exact A].
  Qed.

  (** The same for gateways. *)
  Definition ginv (ws : list denv) (d : desk) : Prop :=
    (dk_on d = false -> dk_admin d = None) /\
    (dk_on d = true -> exists a w g, dk_admin d = Some a /\ In w ws /\ de_generated w = OkR g /\ ad_key a = Some g /\ ad_ver a = Some 1 /\
      forall id node, aget bytes_eqb (ad_nodes a) id = Some node -> r_id node = id /\ exists w i k wallet token,
        In w ws /\ (i < 20)%nat /\ id = gateway_id i /\ gateway_at i node /\ made_for w i node k wallet token /\ registered_with pub_of node k /\
        enrolled w i node (GInitV2 node (Some k) (Some 1) wallet networkLotusAP token)).
  Lemma ginv_step ws w d line d' r o : In w ws -> sound w -> ginv ws d -> gexec w d line = Ret (Some d', r, o) ->
    ginv ws d' /\ (dk_on d' = false -> o = []) /\ (dk_on d = true -> dk_on d' = true).
  Proof.
    intros I So [Off On] H. pose proof H as H0. apply gexec_did in H. remember (Some d') as y eqn:Ey. destruct H.
    - injection Ey as <-. split; [split; assumption|]. split; [reflexivity|auto].
    - discriminate Ey.
    - subst x. destruct (init_inv CreateGatewaySettings _ _ _ _ _ H1 eq_refl H2) as (-> & [(_ & [= <-] & _)|(k & g & _ & G & _ & [= ->])]).
      + split; [split; assumption|]. split; [reflexivity|auto].
      + split; [|split; [reflexivity|reflexivity]]. split; [discriminate|]. intros _. exists (Admin.Admin (Some g) (Some 1) []), w, g. repeat (split; [first [reflexivity|assumption]|]). intros id node X. discriminate X.
    - injection Ey as <-. destruct (On H1) as (a0 & w0 & g & A & Iw & G & K & V & N). rewrite H2 in A. injection A as <-.
      assert (D : d = Desk true (Some a)) by (destruct d; cbn in *; congruence). subst d.
      destruct (desk_gateways w a line _ _ _ So H H0) as (a2 & nodes & rest & [= <-] & K' & V' & _ & Ln & Nth & Ag).
      split; [|split; [discriminate|reflexivity]]. split; [discriminate|]. intros _. exists a', w0, g. split; [reflexivity|]. split; [exact Iw|]. split; [exact G|]. split; [congruence|]. split; [congruence|].
      intros id nd X. apply Ag in X. destruct X as [[X Y]|[X _]]; [|exact (N id nd X)]. split; [exact Y|]. apply In_nth_error in X. destruct X as (j & X).
      assert (Lj : (j < 20)%nat) by (assert (j < length nodes)%nat by (apply nth_error_Some; rewrite X; discriminate); destruct Ln as [(Ln & _)|(Ln & _)]; lia).
      destruct (Nth j nd X) as (Ri & At & k & wl & tk & m & resp & M & Rg & _ & _ & _ & Ht & Onn & Cf). exists w, j, k, wl, tk. split; [exact I|]. split; [exact Lj|]. split; [congruence|]. split; [exact At|]. split; [exact M|]. split; [exact Rg|].
      exists m, resp. auto.
    - destruct H2.
  Qed.
  Theorem desk_gateway_life : forall l d r o, glines NewDesk l = Ret (Some d, r, o) -> Forall sound (desk_worlds l) ->
    (dk_on d = false -> o = []) /\
    (dk_on d = true -> exists a w g, dk_admin d = Some a /\ In w (desk_worlds l) /\ de_generated w = OkR g /\ ad_key a = Some g /\ ad_ver a = Some 1 /\
      forall id node, aget bytes_eqb (ad_nodes a) id = Some node -> r_id node = id /\ exists w i k wallet token,
        In w (desk_worlds l) /\ (i < 20)%nat /\ id = gateway_id i /\ gateway_at i node /\ made_for w i node k wallet token /\ registered_with pub_of node k /\
        enrolled w i node (GInitV2 node (Some k) (Some 1) wallet networkLotusAP token)).
  Proof.
    intros l d r o H So.
    assert (All : forall ws l d d' r o, incl (desk_worlds l) ws -> Forall sound (desk_worlds l) -> ginv ws d -> glines d l = Ret (Some d', r, o) ->
      ginv ws d' /\ (dk_on d = true -> dk_on d' = true) /\ (dk_on d' = false -> o = [])).
    { clear l d r o H So. intros ws. induction l as [|[w line] t IH]; intros d d' r o Inc So Iv H; cbn [desk_lines] in H.
      - apply ret_inj in H. injection H as <- <- <-. split; [exact Iv|]. split; [auto|reflexivity].
      - step H. destruct v as [[d1 n1] o1]. destruct d1 as [d1|]; [|discriminate H]. step H. destruct v as [[d2 n2] o2]. apply ret_inj in H. injection H as -> <- <-.
        inversion So as [|? ? S1 S2]; subst. destruct (ginv_step ws w d line d1 n1 o1 (Inc w (or_introl eq_refl)) S1 Iv E) as (I1 & O1 & P1).
        destruct (IH d1 d' n2 o2 (fun x X => Inc x (or_intror X)) S2 I1 E0) as (I2 & O2 & P2). split; [exact I2|]. split; [auto|].
        intros Of. rewrite (P2 Of). destruct (dk_on d1) eqn:On1; [rewrite (O2 eq_refl) in Of; discriminate Of|]. rewrite (O1 eq_refl). reflexivity. }
    destruct (All (desk_worlds l) l NewDesk d r o (incl_refl _) So) as ([_ A] & _ & B); [split; [reflexivity|discriminate]|exact H|]. auto.
  Qed.

  (** ** Crashes *)

  (** If the chain can be asked and gives enough accounts, generated keys can sign and are found, no line crashes the program. *)
  Definition steady (n : nat) (w : denv) : Prop :=
    sound w /\ (exists g, de_generated w = OkR g /\ can_sign ec_sign blake g) /\
    exists x, de_accounts w = Ret x /\ forall l token, x = OkR (l, token) -> (n <= length l)%nat.
  Lemma key_text_some node k : registered_with pub_of node k -> Client.r_key node <> [].
  Proof. intros (pk & D & _) E. rewrite E in D. discriminate D. Qed.

  Lemma init_returns settings w d : de_generated w <> ErrR -> exists x, Init settings w d = Ret x.
  Proof.
    intros G. unfold Init, notify. destruct (dk_on d); [eauto|]. destruct (de_chain w); [|eauto]. unfold Build. cbn [SetBlockchainPrivateKey b_chain b_key]. destruct (b_key settings); [cbn [obind]; eauto|].
    destruct (de_generated w); [cbn [obind]; eauto|congruence].
  Qed.
  Lemma ids_return : forall ws f, (forall ids, length ids = length ws -> exists x, f ids = Ret x) -> exists x : list notice * list post, identifiers ws f = Ret x.
  Proof.
    induction ws as [|t l IH]; intros f F; cbn [identifiers]; [apply F; reflexivity|]. destruct (NewNodeIDFromHexString t) as [id|]; [|eauto]. apply IH. intros ids L. apply F. cbn. congruence.
  Qed.
  Lemma saying_returns a ws f : (forall ids, length ids = length ws -> exists x, f ids = Ret x) -> exists x, saying a (identifiers ws f) = Ret x.
  Proof. intros F. destruct (ids_return ws f F) as (x & E). unfold saying. rewrite E. cbn [obind]. eauto. Qed.
  Lemma group_returns w a id cids price : authority ec_sign blake a -> (forall id node, aget bytes_eqb (ad_nodes a) id = Some node -> Client.r_key node <> []) ->
    exists x, publish_group version supported sha256 pub_of ec_sign ec_verify blake w a id cids price = Ret x.
  Proof.
    intros Au Nk. unfold publish_group. destruct (calls_return_partial version supported sha256 pub_of ec_sign ec_verify blake (de_http w 0) a (PPublishGroup (Some id) cids price (de_now w + 86400) 42)) as (x & U).
    - exact Au.
    - discriminate.
    - reflexivity.
    - intros node T. eapply Nk. exact T.
    - cbn [AdminSpec.use] in U. step U. cbn [obind]. eauto.
  Qed.
  Lemma dht_returns w a id c : authority ec_sign blake a -> (forall id node, aget bytes_eqb (ad_nodes a) id = Some node -> Client.r_key node <> []) ->
    exists x, publish_dht version supported sha256 pub_of ec_sign ec_verify blake w a id c = Ret x.
  Proof.
    intros Au Nk. unfold publish_dht. destruct (calls_return_partial version supported sha256 pub_of ec_sign ec_verify blake (de_http w 0) a (PPublishDHT (Some id) [c] (Some [45]) (Some [de_now w + 86400]) (Some [43]))) as (x & U).
    - exact Au.
    - discriminate.
    - reflexivity.
    - intros node T. eapply Nk. exact T.
    - cbn [AdminSpec.use] in U. step U. cbn [obind]. eauto.
  Qed.

  Theorem desk_provider_returns_partial : forall l d r o w line, plines NewDesk l = Ret (Some d, r, o) -> Forall (steady 1) (desk_worlds l) -> steady 1 w -> exists x, pexec w d line = Ret x.
  Proof.
    intros l d r o w line H St (So & (g0 & G0 & _) & (acc & Acc & Len)).
    assert (Sl : Forall sound (desk_worlds l)) by (eapply Forall_impl; [|exact St]; intros w' (X & _); exact X).
    destruct (desk_provider_life l d r o H Sl) as (_ & _ & A).
    assert (Desk_ok : forall f, (forall a, dk_admin d = Some a -> authority ec_sign blake a -> (forall id node, aget bytes_eqb (ad_nodes a) id = Some node -> Client.r_key node <> []) -> exists x, f a = Ret x) -> exists x, at_desk d f = Ret x).
    { intros f F. unfold at_desk, notify. destruct (dk_on d) eqn:On; cbn [negb]; [|eauto]. destruct (A eq_refl) as (a & w0 & g & Ad & I & G & K & V & N). rewrite Ad. cbn [deref obind].
      rewrite Forall_forall in St. destruct (St w0 I) as (_ & (g1 & G1 & Cs) & _). rewrite G in G1. injection G1 as <-.
      destruct (F a Ad) as ([[a' n] out] & ->); [exists g, 1; auto| |cbn [obind]; eauto].
      intros id node X. destruct (N id node X) as (_ & _ & w1 & k & wl & tk & _ & _ & _ & Rg & _). exact (key_text_some _ _ Rg). }
    unfold provider_executor. cbv zeta.
    destruct (Cli.is _ "init"). { apply init_returns. rewrite G0. discriminate. }
    destruct (Cli.is _ "register-pvd").
    { apply Desk_ok. intros a _ Au _. unfold RegisterPvd. rewrite Acc. cbn [obind]. destruct acc as [[ac token]|]; [|eauto]. specialize (Len ac token eq_refl). destruct ac as [|[key address] ac]; [cbn in Len; lia|].
      cbn [nth_error deref obind]. destruct (new_keys pub_of w 0) as [[[rt k] t]|] eqn:NK; [|eauto]. destruct (new_keys_inv pub_of w 0 rt k t NK So) as (_ & _ & _ & _ & _ & _ & _ & _ & A7).
      unfold enroll. destruct (calls_return_partial version supported sha256 pub_of ec_sign ec_verify blake (de_http w 0) a (PInitV2 (provider_register (de_random w 0) address rt t) (Some k) (Some 1) key networkLotusAP token)) as ([[ok a'] out] & U).
      - exact Au.
      - split; discriminate.
      - reflexivity.
      - intros node [= <-]. exact (key_text_some (provider_register (de_random w 0) address rt t) k A7).
      - cbn [AdminSpec.use] in U. rewrite U. cbn [obind]. destruct ok; cbn [negb obind]; eauto. }
    destruct (Cli.is _ "list-pvds"); [apply Desk_ok; eauto|]. destruct (Cli.is _ "publish-offer-from-file"); [apply Desk_ok; eauto|].
    destruct (Cli.is _ "publish-random-offer").
    { apply Desk_ok. intros a _ Au Nk. destruct (Cli.blocks line) as [|b [|n [|z t]]]; eauto. apply saying_returns. intros ids L. destruct ids as [|id [|]]; try discriminate L. apply group_returns; assumption. }
    destruct (Cli.is _ "publish-offer-given-cids").
    { apply Desk_ok. intros a _ Au Nk. destruct (Cli.blocks line) as [|b [|n [|c1 [|c2 [|c3 [|z t]]]]]]; eauto. apply saying_returns. intros ids L. destruct ids as [|id [|i1 [|i2 [|i3 [|]]]]]; try discriminate L. apply group_returns; assumption. }
    destruct (Cli.is _ "publish-dht-offer").
    { apply Desk_ok. intros a _ Au Nk. destruct (Cli.blocks line) as [|b [|n [|c1 [|z t]]]]; eauto. apply saying_returns. intros ids L. destruct ids as [|id [|i1 [|]]]; try discriminate L. apply dht_returns; assumption. }
    destruct (Cli.is _ "exit"); eauto. unfold notify. eauto.
  Qed.

  Lemma loop_returns w l token : sound w -> forall c i a, (i + c <= length l)%nat -> authority ec_sign blake a ->
    exists x, AdminCli.register_gateways version supported sha256 pub_of ec_sign ec_verify blake w l token c i a = Ret x.
  Proof.
    intros So. induction c as [|c IH]; intros i a Hi Au; cbn [AdminCli.register_gateways]; [eauto|].
    assert (Hl : (i < length l)%nat) by lia. apply nth_error_Some in Hl. destruct (nth_error l i) as [[key address]|] eqn:Nl; [clear Hl|congruence]. cbn [deref obind].
    destruct (new_keys pub_of w i) as [[[rt k] t]|] eqn:NK; [|eauto]. destruct (new_keys_inv pub_of w i rt k t NK So) as (_ & _ & _ & _ & _ & _ & _ & _ & A7).
    unfold enroll. destruct (calls_return_partial version supported sha256 pub_of ec_sign ec_verify blake (de_http w i) a (GInitV2 (gateway_register i address rt t) (Some k) (Some 1) key networkLotusAP token)) as ([[ok a'] out] & U).
    - exact Au.
    - split; discriminate.
    - reflexivity.
    - intros node [= <-]. exact (key_text_some (gateway_register i address rt t) k A7).
    - destruct (use_inv _ _ _ _ _ _ _ _ _ _ _ _ _ U) as (_ & A). cbn [puts] in A.
      assert (Au' : authority ec_sign blake a') by (subst a'; destruct ok; exact Au).
      cbn [AdminSpec.use] in U. rewrite U. cbn [obind]. destruct ok; cbn [negb obind]; [|eauto].
      destruct (IH (S i) a' ltac:(lia) Au') as ([[a2 n2] o2] & ->). cbn [obind]. eauto.
  Qed.
  Theorem desk_gateway_returns_partial : forall l d r o w line, glines NewDesk l = Ret (Some d, r, o) -> Forall (steady 20) (desk_worlds l) -> steady 20 w -> exists x, gexec w d line = Ret x.
  Proof.
    intros l d r o w line H St (So & (g0 & G0 & _) & (acc & Acc & Len)).
    assert (Sl : Forall sound (desk_worlds l)) by (eapply Forall_impl; [|exact St]; intros w' (X & _); exact X).
    destruct (desk_gateway_life l d r o H Sl) as (_ & A).
    assert (Desk_ok : forall f, (forall a, authority ec_sign blake a -> exists x, f a = Ret x) -> exists x, at_desk d f = Ret x).
    { intros f F. unfold at_desk, notify. destruct (dk_on d) eqn:On; cbn [negb]; [|eauto]. destruct (A eq_refl) as (a & w0 & g & Ad & I & G & K & V & N). rewrite Ad. cbn [deref obind].
      rewrite Forall_forall in St. destruct (St w0 I) as (_ & (g1 & G1 & Cs) & _). rewrite G in G1. injection G1 as <-.
      destruct (F a) as ([[a' n] out] & ->); [exists g, 1; auto|cbn [obind]; eauto]. }
    unfold gateway_executor. cbv zeta.
    destruct (Cli.is _ "init"). { apply init_returns. rewrite G0. discriminate. }
    destruct (Cli.is _ "register-gw").
    { apply Desk_ok. intros a Au. unfold RegisterGw. rewrite Acc. cbn [obind]. destruct acc as [[ac token]|]; [|eauto]. apply loop_returns; [exact So| |exact Au]. exact (Len ac token eq_refl). }
    destruct (Cli.is _ "inspect-gw-offer-traffic"); [apply Desk_ok; eauto|]. destruct (Cli.is _ "cache-offer-content"); [apply Desk_ok; eauto|].
    destruct (Cli.is _ "exit"); eauto. unfold notify. eauto.
  Qed.
End desk.

(** ** Examples *)

Local Notation papi := (provider_api 1 [1] toy_hash toy_hash toy_pub toy_sign PropertiesCrypto.toy_verify toy_blake (gs "9013") (gs "9010") (gs "9012") (gs "9011")).
Local Notation gapi := (gateway_api 1 [1] toy_hash toy_sign toy_blake (gs "9013") (gs "9010") (gs "9012") (gs "9011") toy_env (fun l => l) toy_wallet).
Definition t_provider := provider_executor 1 [1] toy_hash toy_pub toy_sign PropertiesCrypto.toy_verify toy_blake.
Definition t_gateway := gateway_executor 1 [1] toy_hash toy_pub toy_sign PropertiesCrypto.toy_verify toy_blake.
Definition desk_world (http : nat -> gostring -> message -> option message) (accounts : outcome (result (list (gostring * gostring) * gostring))) (registers : bool) : denv :=
  DEnv http (OkR (toy_key 3)) (OkR (toy_key 9)) (fun i => OkR (toy_key (Z.of_nat i + 40))) (fun i => OkR (toy_key (Z.of_nat i + 20))) accounts (fun i => idn (Z.of_nat i + 70)) (fun _ => registers) 1000 5 (fun l => l).
Definition toy_accounts (n : nat) : outcome (result (list (gostring * gostring) * gostring)) := Ret (OkR (repeat (gs "wallet", gs "gw") n, gs "token")).
Definition silent_world : denv := desk_world (fun _ _ _ => None) (toy_accounts 1) true.
Definition provider_world (p : provider) (registers : bool) : denv := desk_world (fun _ ap m => if bytes_eqb ap (gs "127.0.0.1:9033") then received (papi (toy_penv 42) p m) else None) (toy_accounts 1) registers.
Definition told (x : outcome (option desk * list notice * list post)) : option (list notice * nat) := match x with Ret (_, n, o) => Some (n, length o) | _ => None end.
Definition posted (x : outcome (option desk * list notice * list post)) : message := match x with Ret (_, _, [(_, m)]) => m | _ => zero_message end.
Definition t_first : outcome (option desk * list notice * list post) :=
  desk_lines t_provider NewDesk [(silent_world, gs "init"); (provider_world (NewProvider toy_reg) true, gs " register-pvd")].
Definition first_desk : desk := Eval vm_compute in match t_first with Ret (Some d, _, _) => d | _ => NewDesk end.
Definition first_provider : provider := Eval vm_compute in match papi (toy_penv 42) (NewProvider toy_reg) (posted t_first) with Ret (p, _) => p | _ => NewProvider toy_reg end.
Example desk_provider_ex : told t_first = Some ([NDone; NAccount (gs "gw"); NRegistered (ToString (idn 70))], 1%nat) /\
  p_id first_provider = Some (idn 70) /\ option_map k_priv (p_key first_provider) = Some (Some (idn 20)) /\ p_ver first_provider = 1 /\
  told (t_provider silent_world first_desk (gs "list-pvds")) = Some ([NNodes [ToString (idn 70)]], 0%nat).
Proof. vm_compute. repeat split. Qed.
Definition t_publish := t_provider (provider_world first_provider true) first_desk (gs "publish-offer-given-cids 46 0f 10 11").
Example desk_publishes_ex : told t_publish = Some ([NPublished [ToString (idn 15); ToString (idn 16); ToString (idn 17)] 44], 1%nat) /\
  Messages.DecodeProviderAdminPublishGroupOfferRequest toy_hash (posted t_publish) = Ret (OkR ([idn 15; idn 16; idn 17], 44, 87400, 42)) /\
  told (t_provider (provider_world first_provider true) first_desk (gs "publish-dht-offer 46 0f")) = Some ([NPublishedDht (ToString (idn 15))], 1%nat) /\
  told (t_provider (provider_world first_provider true) first_desk (gs "publish-dht-offer 47 0f")) = Some ([NPublishFailed], 0%nat) /\
  told (t_provider (provider_world first_provider true) first_desk (gs "publish-random-offer xx")) = Some ([NInvalid (gs "xx")], 0%nat) /\
  told (t_provider silent_world first_desk (gs "publish-random-offer 46")) = Some ([NPublishFailed], 1%nat) /\
  told (t_provider (provider_world first_provider true) NewDesk (gs "publish-random-offer 46")) = Some ([NNotInitialised], 0%nat).
Proof. vm_compute. repeat split. Qed.

(** The program says that it has registered the provider, though the register refused. *)
Theorem desk_registered_refuted : exists w line r o d, sound toy_pub w /\ t_provider w (Desk true (Some toy_admin)) line = Ret (d, r, o) /\
  In (NRegistered (ToString (idn 70))) r /\ de_registers w 0 = false.
Proof.
  exists (provider_world (NewProvider toy_reg) false), (gs "register-pvd").
  destruct (t_provider (provider_world (NewProvider toy_reg) false) (Desk true (Some toy_admin)) (gs "register-pvd")) as [[[d r] o]| |] eqn:E; [|exfalso; revert E; vm_compute; discriminate..].
  exists r, o, d. split.
  - intros i k [H|H]; cbn in H; injection H as <-; (split; [reflexivity|]; split; [reflexivity|]; eexists; split; [reflexivity|]); split; unfold idn, toy_pub;
      rewrite ?app_length, ?repeat_length, ?be_bytes_length; reflexivity.
  - split; [reflexivity|]. split; [|reflexivity].
    assert (H : told (Ret (d, r, o)) = Some ([NAccount (gs "gw"); NRegisterError; NRegistered (ToString (idn 70))], 1%nat)) by (rewrite <- E; vm_compute; reflexivity).
    cbn in H. injection H as -> _. right. right. left. reflexivity.
Qed.

(** Twenty gateways; and the third does not answer. *)
Definition gateways_world (ok : nat -> bool) (accounts : nat) : denv :=
  desk_world (fun i ap m => if ok i then received (gapi new_node m) else None) (toy_accounts accounts) true.
Example desk_gateways_ex :
  match told (t_gateway (gateways_world (fun i => negb (Nat.eqb i 2)) 20) (Desk true (Some toy_admin)) (gs "register-gw")) with
  | Some (n, k) => (n, k) = ([NAccount (gs "gw"); NRegistered (gateway_id 0); NAccount (gs "gw"); NRegistered (gateway_id 1); NAccount (gs "gw"); NFailed], 3%nat)
  | None => False end /\
  match told (t_gateway (gateways_world (fun _ => true) 20) (Desk true (Some toy_admin)) (gs "register-gw")) with
  | Some (n, k) => length n = 40%nat /\ k = 20%nat /\ nth 39 n NFailed = NRegistered (gateway_id 19)
  | None => False end /\
  gateway_id 3 = gs "1800000000000000000000000000000000000000000000000000000000000000".
Proof. vm_compute. repeat split. Qed.

(** The programs end when the chain cannot be asked, or makes too few accounts. *)
Theorem desk_crash_refuted :
  t_provider (desk_world (fun _ _ _ => None) Panic true) (Desk true (Some toy_admin)) (gs "register-pvd") = Panic /\
  t_gateway (desk_world (fun _ _ _ => None) Panic true) (Desk true (Some toy_admin)) (gs "register-gw") = Panic.
Proof. vm_compute. split; reflexivity. Qed.

(** Between the last gateway and the first, around the ring, there is thirteen times the distance between the others. *)
Definition around (i j : nat) : Z := (be_val (gateway_bytes j) - be_val (gateway_bytes i)) mod 2 ^ 256.
Theorem desk_even_partial : forall i, (S i < 20)%nat -> around i (S i) = 2 ^ 251.
Proof.
  intros i L. destruct (gateway_id_pf i) as (x & X1 & _ & _ & X2); [lia|]. destruct (gateway_id_pf (S i) L) as (y & Y1 & _ & _ & Y2).
  unfold around, gateway_bytes. rewrite X1, Y1, X2, Y2. replace (Z.of_nat (S i) * 2 ^ 251 - Z.of_nat i * 2 ^ 251) with (2 ^ 251) by lia. reflexivity.
Qed.
Theorem desk_even_refuted : around 19 0 = 13 * around 0 1.
Proof. vm_compute. reflexivity. Qed.

Print Assumptions desk_publishes.
Print Assumptions desk_effect_needs_order.
Print Assumptions desk_published.
Print Assumptions desk_lists.
Print Assumptions desk_provider.
Print Assumptions desk_gateways.
Print Assumptions desk_gateway_ids.
Print Assumptions desk_gateways_served.
Print Assumptions desk_provider_life.
Print Assumptions desk_gateway_life.
Print Assumptions desk_provider_returns_partial.
Print Assumptions desk_gateway_returns_partial.
Print Assumptions desk_registered_partial.
Print Assumptions desk_registered_refuted.
Print Assumptions desk_crash_refuted.
Print Assumptions desk_even_partial.
Print Assumptions desk_even_refuted.
