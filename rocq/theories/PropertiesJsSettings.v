(** * Properties of the settings of the client written in TypeScript (C216, C217, C218) *)
From Coq Require Import String List ZArith Bool Lia.
From Verif Require Import Base BaseProofs Ids Json Client ClientBuild Http Payment JsPayment JsClient JsSearch JsSettings PropertiesMerkle PropertiesCrypto ToyGateway ToyClient PropertiesJs.
Import ListNotations.
Open Scope Z_scope.

(** What can be set, with the values of settings that are not (the comments of settings.config.ts L4-26, and the types of L29-43). *)
Definition settable : list (gostring * jsval) :=
  [(gs "establishmentTTL", Num 100); (gs "registerURL", Undefined); (gs "clientId", Undefined); (gs "logLevel", Text (gs "trace"));
   (gs "logTarget", Text (gs "STDOUT")); (gs "logServiceName", Text (gs "client")); (gs "blockchainPrivateKey", Undefined);
   (gs "retrievalPrivateKey", Undefined); (gs "retrievalPrivateKeyVer", Undefined); (gs "walletPrivateKey", Undefined); (gs "lotusAP", Undefined);
   (gs "lotusAuthToken", Undefined); (gs "searchPrice", Big (10 ^ 15)); (gs "offerPrice", Big (10 ^ 15)); (gs "topUpAmount", Big (10 ^ 17))].

(** ** C218 *)

(** A setting that is given is kept, null included; one that is not given, or is undefined, has its default, and nothing else is kept. *)
Theorem js_settings_given : forall o,
  (forall k d, In (k, d) settable -> get (newSettings o) k = match get o k with Undefined => d | v => v end) /\
  (forall k, ~ In k (map fst settable) -> get (newSettings o) k = Undefined).
Proof.
  intros o. split.
  - intros k d H. unfold settable in H. cbn [In] in H. repeat (destruct H as [H|H]; [injection H as <- <-; reflexivity|]). destruct H.
  - intros k N. unfold get. destruct (aget bytes_eqb (newSettings o) k) as [v|] eqn:A; [|reflexivity]. apply (aget_In bytes_eqb bytes_eqb_eq) in A.
    destruct N. apply (in_map fst) in A. exact A.
Qed.
Print Assumptions js_settings_given.

(** Without settings both clients use the same times and prices. *)
Theorem js_defaults_as_go : forall k w, (k, w) = (gs "establishmentTTL", Num (cb_ttl CreateSettings)) \/
    (exists z, cb_search CreateSettings = Some z /\ (k, w) = (gs "searchPrice", Big z)) \/ (exists z, cb_offer CreateSettings = Some z /\ (k, w) = (gs "offerPrice", Big z)) \/
    (exists z, cb_topup CreateSettings = Some z /\ (k, w) = (gs "topUpAmount", Big z)) ->
  forall url, get (newSettings []) k = w /\ get (buildSettings url) k = w.
Proof.
  intros k w H url. destruct H as [H|[(z & E & H)|[(z & E & H)|(z & E & H)]]]; injection H as -> ->; try (injection E as <-); split; reflexivity.
Qed.
Print Assumptions js_defaults_as_go.

Section properties.
  Variable unb64 : gostring -> bytes.
  Variable js_ec : bytes -> bytes -> bytes -> bool.
  Variable blake : bytes -> bytes.
  Variable library_text : voucher -> gostring.
  Local Notation activate := (activate unb64 js_ec blake).
  Local Notation search := (search js_ec blake library_text).

  (** ** C216 *)

  Lemma establish_as_text post gw ch v i ttl : value_text v = OkR i -> establish_as unb64 js_ec blake post gw ch v ttl = requestEstablishment unb64 js_ec blake post gw ch i ttl.
  Proof. intros V. unfold establish_as. rewrite V. unfold requestEstablishment. destruct (negb _); reflexivity. Qed.
  Lemma activate_as post rand now s i ttl mgr : get s (gs "establishmentTTL") = Num ttl -> value_text (get s (gs "clientId")) = OkR i ->
    forall ids n use active, let r := addActiveGateways unb64 js_ec blake post rand now n (JsClient i ttl use active) ids in
    activate post rand now n (TsClient s use active mgr) ids = Some (fst r, TsClient s use (jc_active (snd r)) mgr).
  Proof.
    intros T V. induction ids as [|id t IH]; intros n use active; cbn [JsSettings.activate addActiveGateways tc_active tc_use tc_settings tc_mgr jc_active jc_use jc_id jc_ttl]; [reflexivity|].
    destruct (aget bytes_eqb active id); [apply IH|]. destruct (aget bytes_eqb use id) as [gw|]; [|apply IH]. rewrite T, (establish_as_text _ _ _ _ _ _ V).
    destruct (requestEstablishment _ _ _ _ _ _ _ _); [|apply IH]. cbv zeta in IH. rewrite IH. destruct (addActiveGateways _ _ _ _ _ _ _ _ _) as [k c]. reflexivity.
  Qed.

  (** With an identifier in the settings, given as a text or an object for it, gateways are activated under this identifier with the time to
      live that is set, or 100, as the properties of [addActiveGateways] say; all else stays. *)
  Theorem js_settings_active_partial : forall o i ttl post rand now n use active mgr ids,
    (get o (gs "clientId") = Text i \/ get o (gs "clientId") = Node i) ->
    (get o (gs "establishmentTTL") = Num ttl \/ get o (gs "establishmentTTL") = Undefined /\ ttl = 100) ->
    let r := addActiveGateways unb64 js_ec blake post rand now n (JsClient i ttl use active) ids in
    activate post rand now n (TsClient (newSettings o) use active mgr) ids = Some (fst r, TsClient (newSettings o) use (jc_active (snd r)) mgr).
  Proof.
    intros o i ttl post rand now n use active mgr ids I T. apply activate_as.
    - rewrite (proj1 (js_settings_given o) (gs "establishmentTTL") (Num 100)) by (left; reflexivity). destruct T as [->|[-> ->]]; reflexivity.
    - rewrite (proj1 (js_settings_given o) (gs "clientId") Undefined) by (right; right; left; reflexivity). destruct I as [->| ->]; reflexivity.
  Qed.

  (** The settings the library builds have no identifier of the client: whatever gateways do, none is ever activated. *)
  Theorem js_built_refuted : forall url post rand now n use active mgr ids,
    activate post rand now n (TsClient (buildSettings url) use active mgr) ids = Some (0, TsClient (buildSettings url) use active mgr).
  Proof.
    intros url post rand now n use active mgr ids. revert n. induction ids as [|id t IH]; intros n; cbn [JsSettings.activate tc_active tc_use tc_settings]; [reflexivity|].
    destruct (aget bytes_eqb active id); [apply IH|]. destruct (aget bytes_eqb use id) as [gw|]; [|apply IH].
    change (get (buildSettings url) (gs "establishmentTTL")) with (Num 100). change (get (buildSettings url) (gs "clientId")) with Undefined.
    unfold establish_as at 1. cbn [value_text]. destruct (negb _); apply IH.
  Qed.

  (** Gateways are put into use whatever the settings say of the client, as the properties of [addGatewaysToUse] say. *)
  Theorem js_settings_use : forall s use active mgr find i ttl ids n, let r := addGatewaysToUse find n (JsClient i ttl use active) ids in
    use_gateways find n (TsClient s use active mgr) ids = (fst r, TsClient s (jc_use (snd r)) active mgr) /\ jc_active (snd r) = active.
  Proof.
    intros s use active mgr find i ttl ids n. unfold use_gateways. cbn [tc_use tc_active tc_settings tc_mgr].
    assert (E : forall ids n use, let a := addGatewaysToUse find n (JsClient [] 0 use active) ids in let b := addGatewaysToUse find n (JsClient i ttl use active) ids in
      fst a = fst b /\ jc_use (snd a) = jc_use (snd b) /\ jc_active (snd b) = active).
    { clear. induction ids as [|id t IH]; intros n use; cbn [addGatewaysToUse jc_use jc_active jc_id jc_ttl]; [repeat split|].
      destruct (aget bytes_eqb use id); [apply IH|]. destruct (find n id) as [gw|]; [|apply IH]. destruct (validateInfo gw); [|apply IH].
      specialize (IH (S n) (aset bytes_eqb use id gw)). cbv zeta in IH. destruct (addGatewaysToUse find (S n) (JsClient [] 0 _ _) t) as [k1 c1], (addGatewaysToUse find (S n) (JsClient i ttl _ _) t) as [k2 c2].
      cbn [fst snd] in *. destruct IH as (-> & -> & ->). repeat split. }
    destruct (E ids n use) as (E1 & E2 & E3). destruct (addGatewaysToUse find n (JsClient [] 0 use active) ids) as [k c]. cbn [fst snd] in *. subst k. rewrite E2. split; [reflexivity|exact E3].
  Qed.

  (** ** C217 *)

  (** Clients that come from the constructor by calls of their methods. *)
  Inductive reached (s : obj) : tsclient -> Prop :=
  | reached_new : reached s (newClient s)
  | reached_use c find n ids : reached s c -> reached s (snd (use_gateways find n c ids))
  | reached_active c post rand now n ids k c' : reached s c -> activate post rand now n c ids = Some (k, c') -> reached s c'
  | reached_search c post find sg nonce now cid id max sent x c' : reached s c -> search post find sg c nonce now cid id max = Some (sent, x, c') -> reached s c'
  | reached_dht c sg cid id num sent x c' : reached s c -> search_dht sg c cid id num = Some (sent, x, c') -> reached s c'.

  Lemma activate_keeps post rand now : forall ids n c k c', activate post rand now n c ids = Some (k, c') -> tc_mgr c' = tc_mgr c.
  Proof.
    induction ids as [|id t IH]; intros n c k c'; cbn [JsSettings.activate]; [congruence|].
    destruct (aget bytes_eqb (tc_active c) id); [apply IH|]. destruct (aget bytes_eqb (tc_use c) id) as [gw|]; [|apply IH].
    destruct (get _ (gs "establishmentTTL")); try discriminate. destruct (establish_as _ _ _ _ _ _ _ _); [|apply IH].
    destruct (JsSettings.activate _ _ _ _ _ _ _ _ _) as [[k1 c1]|] eqn:E; [|discriminate]. intros [= <- <-]. apply IH in E. exact E.
  Qed.
  Lemma reached_unpaid s c : reached s c -> tc_mgr c = None.
  Proof.
    induction 1 as [|c find n ids R IH|c post rand now n ids k c' R IH E|c post find sg nonce now cid id max sent x c' R IH E|c sg cid id num sent x c' R IH E].
    - reflexivity.
    - unfold use_gateways. destruct (addGatewaysToUse _ _ _ _). exact IH.
    - apply activate_keeps in E. congruence.
    - unfold JsSettings.search in E. rewrite IH in E. destruct (aget _ _ _); injection E as <- <- <-; exact IH.
    - unfold search_dht in E. rewrite IH in E. destruct (aget _ _ _); [|injection E as <- <- <-; exact IH].
      destruct (get _ _); try discriminate; injection E as <- <- <-; exact IH.
  Qed.

  (** Once a payment manager has been put into a client, its searches are those of [JsSearch] with the prices set. *)
  Theorem js_manager_searches_partial : forall post find sg s use active m nonce now cid id max price cfg gw,
    aget bytes_eqb active id = Some gw -> get s (gs "searchPrice") = Big price -> get s (gs "topUpAmount") = Big cfg ->
    let r := findOffersStandardDiscoveryV2 js_ec blake library_text post find sg price cfg active m nonce now cid id max in
    search post find sg (TsClient s use active (Some m)) nonce now cid id max = Some (s_sent r, s_result r, TsClient s use active (Some (s_mgr r))) /\
    forall num, let d := findOffersDHTDiscoveryV2 sg price cfg active m cid id num in
      search_dht sg (TsClient s use active (Some m)) cid id num = Some (s_sent d, s_result d, TsClient s use active (Some (s_mgr d))).
  Proof. intros post find sg s use active m nonce now cid id max price cfg gw A P C r. unfold JsSettings.search, search_dht. cbn [tc_active tc_mgr tc_settings tc_use]. rewrite A, P, C. split; [reflexivity|]. intros num. reflexivity. Qed.

  (** A client as the constructor makes it has nothing to pay with, and no method changes that: whatever it did before, a search with an active
      gateway throws, and nothing is sent. *)
  Theorem js_new_client_refuted : forall s c gw id, reached s c -> aget bytes_eqb (tc_active c) id = Some gw ->
    (forall post find sg nonce now cid max, search post find sg c nonce now cid id max = Some ([], ErrR, c)) /\
    (forall sg cid num r, search_dht sg c cid id num = Some r -> r = ([], ErrR, c)).
  Proof.
    intros s c gw id R A. apply reached_unpaid in R. unfold JsSettings.search, search_dht. rewrite A, R. split; [reflexivity|].
    intros sg cid num r. destruct (get _ _); congruence.
  Qed.
End properties.
Print Assumptions js_settings_active_partial.
Print Assumptions js_settings_use.
Print Assumptions js_built_refuted.
Print Assumptions js_manager_searches_partial.
Print Assumptions js_new_client_refuted.

(** ** The toy gateway *)
Definition set_up (o : obj) : tsclient := snd (use_gateways js_find 0 (newClient (newSettings o)) (map ToString [idn 50; idn 51])).
Definition made_up (c : tsclient) := activate unb64_toy PropertiesCrypto.toy_verify toy_blake (fun _ => js_post toy_env) (fun _ => js_challenge) (fun _ => 40000) 0 c [ToString (idn 50)].
Example js_settings_ex : get (newSettings [(gs "searchPrice", Null); (gs "client", Text (gs "me"))]) (gs "searchPrice") = Null /\
  get (newSettings [(gs "client", Text (gs "me"))]) (gs "client") = Undefined /\ get (newSettings [(gs "client", Text (gs "me"))]) (gs "clientId") = Undefined /\
  map fst (tc_use (set_up [(gs "clientId", Text (ToString (idn 3)))])) = [ToString (idn 50)].
Proof. vm_compute. repeat split; reflexivity. Qed.
Example js_built_ex :
  match made_up (set_up [(gs "clientId", Text (ToString (idn 3)))]) with Some (k, c) => k = 1 /\ map fst (tc_active c) = [ToString (idn 50)] | None => False end /\
  match made_up (snd (use_gateways js_find 0 (newClient (buildSettings (gs "http://register:9020"))) (map ToString [idn 50]))) with
  | Some (k, c) => k = 0 /\ tc_active c = [] /\ map fst (tc_use c) = [ToString (idn 50)] | None => False end.
Proof. vm_compute. repeat split; reflexivity. Qed.
Example js_new_client_ex :
  match made_up (set_up [(gs "clientId", Node (ToString (idn 3)))]) with
  | Some (_, c) => search PropertiesCrypto.toy_verify toy_blake (fun _ => []) (fun _ _ _ => None) (fun _ => None) (fun _ => None) c (fun _ => 7) 40000 (content_id (gs "cid")) (ToString (idn 50)) 5 = Some ([], ErrR, c) /\
      search PropertiesCrypto.toy_verify toy_blake (fun _ => []) (fun _ _ _ => None) (fun _ => None) (fun _ => None) c (fun _ => 7) 40000 (content_id (gs "cid")) (ToString (idn 9)) 5 = Some ([], OkR None, c)
  | None => False
  end.
Proof. vm_compute. split; reflexivity. Qed.
