(** * The client's command line program: theorems *)
From Coq Require Import String List ZArith Bool Lia Init.Byte.
From Verif Require Import Base BaseProofs Ids IdsProofs Crypto Message Offer OfferProofs Schema Messages Payment Register GatewayProofs Client ClientBuild ClientSpec ClientProofs
  ClientLifeProofs PropertiesMerkle PropertiesCrypto ToyGateway ToyClient Cli CliSpec CliProofs.
Import ListNotations.
Open Scope Z_scope.
Open Scope go_scope.

Section cli.
  Variable version : Z.
  Variable supported : list Z.
  Variable sha256 : bytes -> bytes.
  Variable pub_of : bytes -> bytes.
  Variable ec_verify : bytes -> bytes -> bytes -> bool.
  Variable blake : bytes -> bytes.
  Variable voucher_text : voucher -> gostring.
  Variable rand_int : list draw -> Z.
  Variable rand_bytes : list draw -> bytes.

  Notation executor := (Cli.executor version supported sha256 pub_of ec_verify blake voucher_text rand_int rand_bytes).
  Notation type_lines := (Cli.type_lines version supported sha256 pub_of ec_verify blake voucher_text rand_int rand_bytes).
  Notation search := (CliSpec.search version supported sha256 pub_of ec_verify blake voucher_text rand_int).
  Notation kept_from := (CliSpec.kept_from version supported sha256 pub_of ec_verify blake voucher_text rand_int).
  Notation asked := (CliSpec.asked version supported sha256 pub_of ec_verify blake voucher_text rand_int).
  Notation authenticates := (ClientSpec.authenticates version supported sha256 pub_of ec_verify blake).

  (** ** Lines *)

  Theorem cli_words : forall line line' ws, typed line ws -> typed line' ws -> ws <> [] -> Forall word ws ->
    blocks line = ws /\ forall w s, executor w s line = executor w s line'.
  Proof.
    intros line line' ws T T' N F. pose proof (blocks_pf line ws T N F) as E. pose proof (blocks_pf line' ws T' N F) as E'. split; [exact E|].
    intros w s. unfold Cli.executor. rewrite E, E'. reflexivity.
  Qed.

  Theorem cli_effect_needs_order : forall w s line x r o, sh_on s = true -> executor w s line = Ret (x, r, o) ->
    (o <> [] \/ exists s', x = Some s' /\ (sh_offers s' <> sh_offers s \/ sh_on s' = false \/
       option_map c_use (sh_client s') <> option_map c_use (sh_client s) \/ option_map c_active (sh_client s') <> option_map c_active (sh_client s) \/
       option_map c_pay (sh_client s') <> option_map c_pay (sh_client s))) ->
    exists ws, typed line ws /\ effective ws.
  Proof.
    intros w s line x r o On H Eff. exists (blocks line). split; [apply blocks_inv|]. apply executor_did in H. unfold effective.
    assert (No : forall s', x = Some s' -> o = [] -> sh_offers s' = sh_offers s -> sh_on s' = true ->
      option_map c_use (sh_client s') = option_map c_use (sh_client s) -> option_map c_active (sh_client s') = option_map c_active (sh_client s) ->
      option_map c_pay (sh_client s') = option_map c_pay (sh_client s) -> False).
    { intros s' -> -> A B C D F. destruct Eff as [X|(s1 & [= <-] & X)]; [congruence|]. rewrite A, B, C, D, F in X. destruct X as [X|[X|[X|[X|X]]]]; congruence. }
    destruct H.
    - exfalso. eapply No; eauto.
    - destruct Eff as [X|(s1 & X & _)]; congruence.
    - congruence.
    - exfalso. eapply No; try reflexivity; try exact On.
    - exfalso. eapply No; try reflexivity; try exact On; cbn [sh_client]; rewrite H0; reflexivity.
    - left. exists t. split; [assumption|]. exists id. apply hex_id_iff. assumption.
    - right. left. exists t. split; [assumption|]. exists id. apply hex_id_iff. assumption.
    - right. right. exists t, u. split; [assumption|]. split; [exists node|exists id]; apply hex_id_iff; assumption.
  Qed.

  (** ** Before it is initialised *)

  Theorem cli_silent_before_init : forall l s r o, type_lines NewShell l = Ret (Some s, r, o) -> sh_on s = false -> o = [].
  Proof.
    intros l s r o H Off. destruct (lines_inv _ _ _ _ _ _ _ _ _ (worlds l) l _ _ _ _ (incl_refl _) (inv_new _ _ _ _ _ _ _ _ _ _) H) as (_ & _ & A & _). exact (A Off).
  Qed.

  Theorem cli_waits_for_init : forall w s line ws x r o, sh_on s = false -> typed line ws -> Forall word ws -> ws <> [] -> hd [] ws <> gs "init" ->
    executor w s line = Ret (x, r, o) -> o = [] /\ (x = Some s \/ x = None /\ hd [] ws = gs "exit").
  Proof.
    intros w s line ws x r o Off T F N C H. apply executor_did in H. rewrite (blocks_pf line ws T N F) in H. destruct H; try congruence; [auto| |exfalso; exact (C H)]. split; [reflexivity|]. right. split; [reflexivity|exact H].
  Qed.

  (** ** Initialising *)

  (** The payment manager of the account made, at the local Lotus node. *)
  Definition opened (w : wenv) (key token : gostring) : option gostring := we_mgr w key (gs "http://127.0.0.1:1234/rpc/v0") token.

  Theorem cli_init_partial : forall w s line x r o, sh_on s = false -> blocks line = [gs "init"] -> executor w s line = Ret (x, r, o) ->
    o = [] /\ exists s', x = Some s' /\
    (sh_on s' = true <-> start reg (sh_reg s) = false /\ we_chain w <> ErrR /\ we_key w <> ErrR /\ (exists key token a, we_account w = Ret (OkR (key, token)) /\ opened w key token = Some a)) /\
    (sh_on s' = true -> r = [] /\ sh_offers s' = [] /\ exists key token a c, we_account w = Ret (OkR (key, token)) /\ opened w key token = Some a /\ sh_client s' = Some c /\ c_pay c = Some (NewMgr a) /\ c_use c = [] /\ c_active c = [] /\
       client_settings c = (Some (we_random w), 101, 1000000000000000, 1000000000000000, 100000000000000000)) /\
    (sh_on s' = false -> r = [InitFailed] /\ (s' = s \/ exists key token, we_account w = Ret (OkR (key, token)) /\ opened w key token = None)).
  Proof.
    intros w s line x r o Off B K. unfold Cli.executor in K. rewrite B in K. change (is [gs "init"] "init") with true in K. cbv zeta iota in K.
    destruct (init_inv _ _ _ _ _ Off K) as (s' & -> & -> & J). split; [reflexivity|]. exists s'. split; [reflexivity|].
    destruct J as [[-> ->]|(St & key & token & k & kk & c & m & A1 & A2 & A3 & Em & Ec & J)].
    - split; [|split; [congruence|auto]]. rewrite Off. split; [discriminate|]. intros (St & C & D & key & token & a & A & E). exfalso.
      unfold Init in K. rewrite Off, A in K. cbn [obind] in K. destruct (we_chain w) as [k|]; [|congruence]. unfold Build in K. cbn in K.
      destruct (we_key w) as [kk|]; [|congruence]. cbn in K. unfold StartMgr in K. rewrite St in K. cbn in K. unfold opened in E. cbn in E. unfold with_wallet in K. cbn in K. rewrite E in K. cbn in K. discriminate.
    - destruct J as [(Wa & -> & ->)|(a & Wa & -> & ->)]; cbn [sh_on sh_client sh_offers].
      + split; [|split; [discriminate|]]. { split; [discriminate|]. intros (_ & _ & _ & key' & token' & a & B1 & B2). change (we_mgr w key localLotusAP token) with (opened w key token) in Wa. congruence. } intros _. split; [reflexivity|]. right. exists key, token. split; [exact A1|exact Wa].
      + split; [|split; [|discriminate]].
        * rewrite A2, A3. split; [|reflexivity]. intros _. split; [exact St|]. split; [discriminate|]. split; [discriminate|]. exists key, token, a. split; [exact A1|exact Wa].
        * intros _. split; [reflexivity|]. split; [reflexivity|]. subst c. exists key, token, a. eexists. split; [exact A1|]. split; [exact Wa|]. repeat (split; [reflexivity|]). reflexivity.
  Qed.

  (** A program whose manager has been started but that is not initialised never will be. *)
  Theorem cli_init_stuck : forall l s s' r o, sh_on s = false -> start reg (sh_reg s) = true -> type_lines s l = Ret (Some s', r, o) -> sh_on s' = false /\ o = [].
  Proof.
    assert (One : forall w s line s' r o, sh_on s = false -> start reg (sh_reg s) = true -> executor w s line = Ret (Some s', r, o) -> s' = s /\ o = []).
    { intros w s line s' r o Off St H. apply executor_did in H. remember (Some s') as x eqn:Ex. destruct H; try discriminate Ex; try congruence.
      - injection Ex as <-. auto.
      - subst x. destruct (init_inv _ _ _ _ _ H0 H1) as (s1 & E & -> & [[-> _]|(X & _)]); [|congruence]. injection E as <-. auto. }
    induction l as [|[[b w] line] t IH]; intros s s' r o Off St H; cbn [Cli.type_lines] in H.
    - apply ret_inj in H. injection H as <- <- <-. auto.
    - step H. destruct v as [[s1 r1] o1]. destruct s1 as [s1|]; [|discriminate]. step H. destruct v as [[s2 r2] o2]. apply ret_inj in H. injection H as -> <- <-.
      assert (St2 : start reg (background (sh_reg s) b) = true) by (rewrite background_start; exact St).
      destruct (One w (Shell (sh_on s) (background (sh_reg s) b) (sh_client s) (sh_offers s)) line s1 r1 o1 Off St2 E) as [-> ->].
      destruct (IH (Shell (sh_on s) (background (sh_reg s) b) (sh_client s) (sh_offers s)) s' r2 o2 Off St2 E0) as [A B]. rewrite B. auto.
  Qed.

  (** ** Gateways *)

  Theorem cli_active_authenticated : forall l s r o c, type_lines NewShell l = Ret (Some s, r, o) -> sh_client s = Some c ->
    (exists w, In w (worlds l) /\ client_settings c = (Some (we_random w), 101, 1000000000000000, 1000000000000000, 100000000000000000)) /\
    (forall k g, aget bytes_eqb (c_use c) k = Some g -> complete g) /\
    forall k g, aget bytes_eqb (c_active c) k = Some g -> aget bytes_eqb (c_use c) k = Some g /\
      exists w n ds, In w (worlds l) /\ length (rand_bytes ds) = 32%nat /\ authenticates (we_call w n) g (rand_bytes ds).
  Proof.
    intros l s r o c H Ec. destruct (lines_inv _ _ _ _ _ _ _ _ _ (worlds l) l _ _ _ _ (incl_refl _) (inv_new _ _ _ _ _ _ _ _ _ _) H) as ([A _ _] & _).
    destruct (A c Ec) as [B C D E]. auto.
  Qed.

  Theorem cli_add_active : forall l s r o w line t id s' r' o', type_lines NewShell l = Ret (Some s, r, o) -> sh_on s = true ->
    blocks line = [gs "add-active"; t] -> hex_id t id -> executor w s line = Ret (Some s', r', o') ->
    exists c c', sh_client s = Some c /\ sh_client s' = Some c' /\ sh_offers s' = sh_offers s /\
      (forall k g, aget bytes_eqb (c_active c) k = Some g -> aget bytes_eqb (c_active c') k = Some g) /\
      (forall k g, aget bytes_eqb (c_active c') k = Some g -> aget bytes_eqb (c_active c) k = Some g \/
         k = ToString id /\ exists ds, authenticates (we_call w 1) g (rand_bytes ds)) /\
      (r' = [CannotUse] \/ r' = [NoChannel] \/
       r' = [Added] /\ aget bytes_eqb (c_active c) (ToString id) = None /\ aget bytes_eqb (c_active c') (ToString id) <> None /\
         exists c1 info m m' ch, gateway_known (we_call w 2) c1 (ToString id) info /\
           match c_pay c with Some m0 => m = m0 | None => exists a, ce_wallet (we_call w 2) = Some a /\ m = NewMgr a end /\
           c_pay c' = Some m' /\ aget bytes_eqb (m_out m') (r_address info) = Some ch /\
           c_balance ch = match aget bytes_eqb (m_out m) (r_address info) with Some x => c_balance x | None => 0 end + 100000000000000000).
  Proof.
    intros l s r o w line t id s' r' o' L On B Id H.
    destruct (lines_inv _ _ _ _ _ _ _ _ _ (worlds l) l _ _ _ _ (incl_refl _) (inv_new _ _ _ _ _ _ _ _ _ _) L) as ([A _ _] & _).
    apply hex_id_iff in Id. unfold Cli.executor in H. rewrite B in H. cbn [is command hd] in H.
    change (is [gs "add-active"; t] "init") with false in H. change (is [gs "add-active"; t] "ls-registered") with false in H.
    change (is [gs "add-active"; t] "ls-active") with false in H. change (is [gs "add-active"; t] "add-active") with true in H. cbv zeta iota in H.
    rewrite On, Id in H. cbn [negb] in H. destruct (use_inv _ _ _ _ _ H) as (c & c' & offers & Ec & F & E). injection E as ->. exists c, c'.
    destruct (A c Ec) as [(w0 & _ & S) [N1 N2] _ _].
    destruct (add_inv version supported sha256 pub_of ec_verify blake rand_bytes w s id (with_manager c (sh_reg s)) c' offers r' o' N1 N2 F) as (_ & -> & _ & _ & _ & _ & B6 & B7 & B8).
    split; [exact Ec|]. split; [reflexivity|]. split; [reflexivity|]. split; [exact B6|]. split.
    - intros k g X. destruct (B7 k g X) as [Y|(-> & _ & ds & _ & Z)]; [auto|]. right. eauto.
    - destruct B8 as [X|[X|(-> & X1 & X2 & c1 & info & m & m' & ch & ret & K1 & K2 & K3 & K4 & K5 & K6)]]; [auto|auto|]. right. right.
      split; [reflexivity|]. split; [exact X1|]. split; [exact X2|]. exists c1, info, m, m', ch. split; [exact K1|]. split; [exact K2|]. split; [exact K4|]. split; [exact K5|].
      rewrite K6. f_equal. unfold client_settings in S. cbn [with_manager c_topup]. congruence.
  Qed.

  (** ** Offers *)

  Theorem cli_offers_partial : forall l s r o k v, type_lines NewShell l = Ret (Some s, r, o) -> aget bytes_eqb (sh_offers s) k = Some v ->
    kept_from (worlds l) k v /\
    ((forall w res, In w (worlds l) -> search w res -> (length res <= 1)%nat) -> s_sig v = k).
  Proof.
    intros l s r o k v H G. destruct (lines_inv _ _ _ _ _ _ _ _ _ (worlds l) l _ _ _ _ (incl_refl _) (inv_new _ _ _ _ _ _ _ _ _ _) H) as ([_ A _] & _).
    pose proof (A k v G) as K. split; [exact K|]. intros One. destruct K as (w & res & x & W & S & I & E & J). specialize (One w res W S).
    destruct res as [|y [|]]; [destruct I| |cbn in One; lia]. destruct I as [<-|[]], J as [<-|[]]. exact E.
  Qed.

  Theorem cli_find_offer : forall w s line t id x r o, sh_on s = true -> blocks line = [gs "find-offer"; t] -> hex_id t id ->
    executor w s line = Ret (x, r, o) ->
    exists s' c c' l temp failed, x = Some s' /\ sh_client s = Some c /\ sh_client s' = Some c' /\ r = failed ++ [Offers temp] /\
      asked w id 1 (with_manager c (sh_reg s)) (GetActiveGateways (we_call w 0) c) l c' /\
      (forall k, aget bytes_eqb temp k <> None <-> exists res x, In (Some res) l /\ In x res /\ s_sig x = k) /\
      (forall k v, aget bytes_eqb temp k = Some v -> kept_from [w] k v) /\
      length failed = length (filter (fun x => match x with None => true | Some _ => false end) l) /\
      forall k, aget bytes_eqb (sh_offers s') k = match aget bytes_eqb temp k with Some v => Some v | None => aget bytes_eqb (sh_offers s) k end.
  Proof.
    intros w s line t id x r o On B Id H. apply hex_id_iff in Id. unfold Cli.executor in H. rewrite B in H.
    change (is [gs "find-offer"; t] "init") with false in H. change (is [gs "find-offer"; t] "ls-registered") with false in H.
    change (is [gs "find-offer"; t] "ls-active") with false in H. change (is [gs "find-offer"; t] "add-active") with false in H.
    change (is [gs "find-offer"; t] "find-offer") with true in H. cbv zeta iota in H. rewrite On, Id in H. cbn [negb] in H.
    destruct (use_inv _ _ _ _ _ H) as (c & c' & offers & Ec & F & ->). pose proof F as F2.
    apply find_offer_inv in F2. destruct F2 as (_ & temp & r1 & -> & N & T & M).
    unfold Cli.FindOffer in F. step F. destruct v as [[[c1 temp'] r2] o2]. apply ret_inj in F. injection F as -> Eo Er _.
    apply app_inj_tail in Er. destruct Er as [-> Et]. injection Et as ->.
    destruct (query_asked _ _ _ _ _ _ _ _ _ _ _ _ _ _ _ _ _ _ E) as (l & A & K & L). eexists _, c, c', l, temp, r1. split; [reflexivity|]. split; [exact Ec|]. split; [reflexivity|].
    split; [reflexivity|]. split; [exact A|]. split.
    { intros k. rewrite K. split; [intros [X|X]; [exfalso; apply X; reflexivity|exact X]|auto]. }
    split; [|split; [symmetry; exact L|exact M]].
    intros k v G. destruct (T k v G) as (res & y & S & I & Sg & ->). exists w, res, y. split; [left; reflexivity|]. split; [exact S|]. split; [exact I|]. split; [exact Sg|].
    apply last_In. intros ->. destruct I.
  Qed.

  (** The other search asks the gateway named first, with at most four gateways, for the content named second; what it finds is shown and not kept. *)
  Theorem cli_find_offer_dht : forall w s line t1 t2 node id c x r o, sh_on s = true -> sh_client s = Some c -> blocks line = [gs "find-offer-dht"; t1; t2] -> hex_id t1 node -> hex_id t2 id ->
    executor w s line = Ret (x, r, o) ->
    exists s' res c', x = Some s' /\ sh_client s' = Some c' /\ sh_on s' = true /\ sh_offers s' = sh_offers s /\
      FindOffersDHTDiscoveryV2 version supported sha256 pub_of ec_verify blake voucher_text rand_int (we_call w 0) (with_manager c (sh_reg s)) (Some id) (Some node) 4 4 = Ret (res, c', o) /\
      r = [match res with ErrR => DhtFailed | OkR l => DhtOffers l end].
  Proof.
    intros w s line t1 t2 node id c x r o On Ec B I1 I2 H. apply hex_id_iff in I1, I2. unfold Cli.executor in H. rewrite B in H.
    change (is [gs "find-offer-dht"; t1; t2] "init") with false in H. change (is [gs "find-offer-dht"; t1; t2] "ls-registered") with false in H.
    change (is [gs "find-offer-dht"; t1; t2] "ls-active") with false in H. change (is [gs "find-offer-dht"; t1; t2] "add-active") with false in H.
    change (is [gs "find-offer-dht"; t1; t2] "find-offer") with false in H. change (is [gs "find-offer-dht"; t1; t2] "find-offer-dht") with true in H.
    cbv zeta iota in H. rewrite On, I1, I2 in H. cbn [negb] in H.
    destruct (use_inv _ _ _ _ _ H) as (c0 & c' & offers & E0 & F & ->). rewrite Ec in E0. injection E0 as <-.
    unfold Cli.FindOfferDht in F. step F. destruct v as [[res c1] out]. apply ret_inj in F. injection F as -> <- <- <-.
    eexists _, res, c'. split; [reflexivity|]. split; [reflexivity|]. split; [exact On|]. split; [reflexivity|]. split; reflexivity.
  Qed.

  (** The offers kept are shown when asked for; the gateways in use and the registered ones likewise. *)
  Theorem cli_lists : forall w s line x r o, sh_on s = true -> executor w s line = Ret (x, r, o) ->
    (hd [] (blocks line) = gs "list-offers" -> x = Some s /\ r = [Offers (sh_offers s)] /\ o = []) /\
    (hd [] (blocks line) = gs "ls-active" -> forall c, sh_client s = Some c -> (forall y, In y (ce_order (we_call w 0) (c_active c)) <-> In y (c_active c)) -> o = [] /\ exists l, r = [Nodes (map ToString l)] /\
       forall id, In id l <-> exists t gw, In (t, gw) (c_active c) /\ NewNodeIDFromHexString t = OkR id).
  Proof.
    intros w s line x r o On H. unfold Cli.executor, is, command in H. split.
    - intros B. rewrite B in H. cbn in H. rewrite On in H. apply ret_inj in H. injection H as <- <- <-. auto.
    - intros B c Ec Or. rewrite B in H.
      change (bytes_eqb (gs "ls-active") (gs "init")) with false in H. change (bytes_eqb (gs "ls-active") (gs "ls-registered")) with false in H. change (bytes_eqb (gs "ls-active") (gs "ls-active")) with true in H.
      cbv zeta iota in H. rewrite On in H. cbn [negb] in H. destruct (use_inv _ _ _ _ _ H) as (c0 & c' & offers & E0 & F & ->). rewrite Ec in E0. injection E0 as <-.
      apply ret_inj in F. injection F as _ _ <- <-. split; [reflexivity|]. eexists. split; [reflexivity|]. intros id. unfold GetActiveGateways. cbn [with_manager c_active].
      assert (G : forall l, In id (key_ids l) <-> exists t, In t l /\ NewNodeIDFromHexString t = OkR id).
      { induction l as [|a l IH]; cbn [key_ids]; [split; [intros []|intros (t & [] & _)]|]. destruct (NewNodeIDFromHexString a) as [i|] eqn:Ea.
        2:{ rewrite IH. split; intros (t & I & E); [|destruct I as [->|I]; [congruence|]]; exists t; split; auto. right. exact I. }
        - cbn [In]. rewrite IH. split.
          + intros [->|(t & I & E)]; [exists a|exists t]; split; cbn; auto.
          + intros (t & [->|I] & E); [left; congruence|right; eauto]. }
      rewrite G. split.
      + intros (t & I & E). apply in_map_iff in I. destruct I as ([t' gw] & <- & I). exists t', gw. split; [apply Or; exact I|exact E].
      + intros (t & gw & I & E). exists t. split; [|exact E]. apply in_map_iff. exists (t, gw). split; [reflexivity|apply Or; exact I].
  Qed.

  (** ** Crashes *)

  Theorem cli_returns_partial : forall l s r o w line, type_lines NewShell l = Ret (Some s, r, o) ->
    (forall n, In n ["init"; "add-active"; "find-offer"; "find-offer-dht"]%string -> command (blocks line) <> gs n) ->
    exists x, executor w s line = Ret x.
  Proof.
    intros l s r o w line L N. destruct (lines_inv _ _ _ _ _ _ _ _ _ (worlds l) l _ _ _ _ (incl_refl _) (inv_new _ _ _ _ _ _ _ _ _ _) L) as ([_ _ A] & _).
    assert (No : forall n, In n ["init"; "add-active"; "find-offer"; "find-offer-dht"]%string -> is (blocks line) n = false).
    { intros n I. destruct (is (blocks line) n) eqn:E; [|reflexivity]. apply is_command in E. exfalso. exact (N n I E). }
    unfold Cli.executor, says. rewrite (No "init"%string), (No "add-active"%string), (No "find-offer"%string), (No "find-offer-dht"%string); try (cbn; tauto). cbv zeta.
    destruct (is (blocks line) "ls-registered").
    { destruct (sh_on s); cbn [negb]; [|eauto]. unfold GetAllGateways. destruct (_ || _); cbn; eauto. }
    destruct (is (blocks line) "ls-active").
    { destruct (sh_on s); cbn [negb]; [|eauto]. unfold use. destruct (sh_client s); [cbn; eauto|]. exfalso. exact (A eq_refl eq_refl). }
    destruct (is (blocks line) "list-offers"); [destruct (sh_on s); cbn; eauto|]. destruct (is (blocks line) "retrieve"); [destruct (sh_on s); cbn; eauto|].
    destruct (is (blocks line) "retrieve-fast"); [destruct (sh_on s); cbn; eauto|]. destruct (is (blocks line) "exit"); eauto.
  Qed.
End cli.

(** ** Examples *)

Definition cli_world (call : nat -> cenv) : wenv := WEnv call (Ret (OkR (gs "key", gs "token"))) (OkR (toy_key 4)) (idn 99) (OkR (toy_key 5)) (fun _ _ _ => ce_wallet (call 0%nat)).
Definition quiet : wenv := cli_world (fun _ => cworld []).
Definition in_call (n : nat) (answers : list message) : wenv := cli_world (fun k => if Nat.eqb k n then cworld answers else cworld []).
Definition poor : wenv := cli_world (fun _ => CEnv 40 (fun _ _ _ => None) (fun _ => None) (fun _ => None) None (fun _ => TxRefused) (fun _ => None) (fun x => x)).
Definition listed := Some (gatewaysMap reg toy_cmgr, closest reg toy_cmgr, providersMap reg toy_cmgr).
Definition delisted : option (list (gostring * reg) * Ring.ring * list (gostring * reg)) := Some ([], closest reg toy_cidle, []).
Definition t_exec := Cli.executor 1 [1] toy_hash toy_pub PropertiesCrypto.toy_verify toy_blake toy_text toy_int toy_bytes.
Definition t_type := Cli.type_lines 1 [1] toy_hash toy_pub PropertiesCrypto.toy_verify toy_blake toy_text toy_int toy_bytes.
Definition found2 : list message := Eval vm_compute in [std_v2_resp 101 [dig1; dig2] false; std_v2_resp 101 [dig1; dig2] false; offer_resp 102 [sub1; sub2]].
Definition found1 : list message := Eval vm_compute in [std_v2_resp 101 [dig1] false; std_v2_resp 101 [dig1] false; offer_resp 102 [sub1]].
Definition life0 := [(None, quiet, gs "init"); (listed, in_call 1 [est10], gs " add-active 0a ")].
Definition life1 := life0 ++ [(None, in_call 1 found1, gs "find-offer 02")].
Definition life2 := life0 ++ [(None, in_call 1 found2, gs "find-offer 02")].
Definition shown (x : outcome (option shell * list reply * sent)) : option (list reply * nat) :=
  match x with Ret (_, r, o) => Some (r, length o) | _ => None end.
Definition held (x : outcome (option shell * list reply * sent)) : option (list (gostring * suboffer)) :=
  match x with Ret (Some s, _, _) => Some (sh_offers s) | _ => None end.

Example cli_words_ex : blocks (gs "  find-offer-dht 0a 02 ") = [gs "find-offer-dht"; gs "0a"; gs "02"] /\
  blocks (gs "add-active  0a") = [gs "add-active"; []; gs "0a"] /\
  shown (t_type NewShell [(None, quiet, gs "init"); (listed, quiet, gs "add-active  0a"); (None, quiet, gs "find-offer xx"); (None, quiet, gs "nonsense")])
    = Some ([Usage; Invalid (gs "xx"); Unknown (gs "nonsense")], 0%nat).
Proof. vm_compute. auto. Qed.

Example cli_waits_for_init_ex :
  shown (t_type NewShell [(listed, in_call 1 [est10], gs "add-active 0a"); (None, quiet, gs "list-offers"); (None, quiet, gs "exit"); (None, quiet, gs "init")])
    = Some ([NotInitialised; NotInitialised; Bye], 0%nat).
Proof. vm_compute. reflexivity. Qed.

Example cli_add_active_ex : shown (t_type NewShell (life0 ++ [(None, quiet, gs "ls-active"); (listed, in_call 1 [est10], gs "add-active 0a")]))
  = Some ([Added; Nodes [ToString (idn 10)]; CannotUse], 1%nat).
Proof. vm_compute. reflexivity. Qed.

Example cli_offers_ex : shown (t_type NewShell life1) = Some ([Added; Offers [(s_sig sub1, sub1)]], 3%nat) /\
  held (t_type NewShell life1) = Some [(s_sig sub1, sub1)].
Proof. vm_compute. auto. Qed.

(** What was kept is listed; the other search sends one message and fails if the gateway does not answer. *)
Example cli_lists_ex : shown (t_type NewShell (life1 ++ [(None, quiet, gs "list-offers"); (None, quiet, gs "find-offer-dht 0a 02")]))
  = Some ([Added; Offers [(s_sig sub1, sub1)]; Offers [(s_sig sub1, sub1)]; DhtFailed], 4%nat).
Proof. vm_compute. reflexivity. Qed.

(** Two offers from one gateway: under the signature of the first the second is shown and kept. *)
Theorem cli_offers_refuted : exists l s r o k v, t_type NewShell l = Ret (Some s, r, o) /\ aget bytes_eqb (sh_offers s) k = Some v /\ s_sig v <> k /\
  In (Offers (sh_offers s)) r /\ map fst (sh_offers s) = [s_sig sub1; s_sig sub2] /\ map snd (sh_offers s) = [sub2; sub2].
Proof.
  exists life2. destruct (t_type NewShell life2) as [[[[s|] r] o]| |] eqn:E; [|exfalso; revert E; vm_compute; discriminate..].
  assert (H : match t_type NewShell life2 with Ret (Some s, r, _) => sh_offers s = [(s_sig sub1, sub2); (s_sig sub2, sub2)] /\ In (Offers [(s_sig sub1, sub2); (s_sig sub2, sub2)]) r | _ => False end)
    by (vm_compute; auto).
  rewrite E in H. destruct H as [H1 H2]. exists s, r, o, (s_sig sub1), sub2. rewrite H1. split; [reflexivity|]. split; [vm_compute; reflexivity|].
  split; [vm_compute; discriminate|]. split; [exact H2|]. split; reflexivity.
Qed.

(** An initialisation that fails because the wallet cannot be opened cannot be repeated. *)
Theorem cli_init_refuted : exists s, t_exec poor NewShell (gs "init") = Ret (Some s, [InitFailed], []) /\
  forall l s' r o, t_type s l = Ret (Some s', r, o) -> sh_on s' = false /\ o = [].
Proof.
  eexists. split; [vm_compute; reflexivity|]. intros l s' r o H. eapply cli_init_stuck; [| |exact H]; reflexivity.
Qed.
Example cli_init_ex : shown (t_type NewShell [(None, poor, gs "init"); (None, quiet, gs "init"); (None, quiet, gs "ls-active")])
  = Some ([InitFailed; InitFailed; NotInitialised], 0%nat) /\
  shown (t_type NewShell [(None, WEnv (we_call quiet) (Ret ErrR) (OkR (toy_key 4)) (idn 99) (OkR (toy_key 5)) (we_mgr quiet), gs "init"); (None, quiet, gs "init"); (None, quiet, gs "ls-active")])
  = Some ([InitFailed; Nodes []], 0%nat).
Proof. vm_compute. auto. Qed.

(** A gateway that is in use but no longer registered crashes the program once it answers. *)
Definition est10_late : message := Eval vm_compute in est_resp 10 1 1.
Theorem cli_crash_refuted : exists l s r o w, t_type NewShell l = Ret (Some s, r, o) /\ sh_on s = true /\ t_exec w s (gs "add-active 0a") = Panic.
Proof.
  exists [(None, quiet, gs "init"); (listed, quiet, gs "add-active 0a"); (delisted, quiet, gs "ls-registered")].
  eexists _, _, _, (in_call 1 [est10_late]). split; [vm_compute; reflexivity|]. split; vm_compute; reflexivity.
Qed.

Print Assumptions cli_words.
Print Assumptions cli_effect_needs_order.
Print Assumptions cli_silent_before_init.
Print Assumptions cli_waits_for_init.
Print Assumptions cli_init_partial.
Print Assumptions cli_init_stuck.
Print Assumptions cli_active_authenticated.
Print Assumptions cli_add_active.
Print Assumptions cli_offers_partial.
Print Assumptions cli_find_offer.
Print Assumptions cli_find_offer_dht.
Print Assumptions cli_lists.
Print Assumptions cli_returns_partial.
Print Assumptions cli_offers_refuted.
Print Assumptions cli_init_refuted.
Print Assumptions cli_crash_refuted.
