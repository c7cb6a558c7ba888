(** * Properties of the searches of the client written in TypeScript (C203) *)
From Coq Require Import String List ZArith Bool Lia.
From Coq Require Import Init.Byte.
From Verif Require Import Base Ids Json Crypto Message WireSpec MessagesSpec Messages Offer Payment PaymentSpec JsPayment Server FrameSpec Routes Rest Gateway GatewaySpec Client RetrievalSpec
  Http HttpProofs HttpSpec JsClient JsClientProofs JsNodeProofs JsSearch JsSearchProofs PropertiesMerkle PropertiesCrypto ToyGateway ToyClient PropertiesJs.
Import ListNotations.
Open Scope Z_scope.

Section search.
  Variable js_ec : bytes -> bytes -> bytes -> bool.
  Variable blake : bytes -> bytes.
  Variable library_text : voucher -> gostring.
  Local Notation search := (findOffersStandardDiscoveryV2 js_ec blake library_text).

  (** Whatever gateways and registers answer, however often: no standard search returns an offer, no DHT search returns any, and no
      acknowledgement is ever found. *)
  Theorem js_search_finds_refuted : forall post find sg price cfg active mgr nonce now cid id max,
    (forall l, s_result (search post find sg price cfg active mgr nonce now cid id max) = OkR (Some l) -> l = []) /\
    (forall n, s_result (findOffersDHTDiscoveryV2 sg price cfg active mgr cid id n) = OkR []) /\
    (forall p, FindDHTOfferAck js_ec blake p find id <> OkR true).
  Proof.
    intros post find sg price cfg active mgr nonce now cid id max. split; [intros l; apply finds_nothing|]. split.
    - intros n. unfold findOffersDHTDiscoveryV2. destruct (aget bytes_eqb active id) as [gw|]; [|reflexivity]. destruct (js_search_pay _ _ _ _ _ _ _) as [m p].
      destruct p; [reflexivity|..]; destruct (js_search_pay _ _ _ _ _ _ _) as [m' p']; destruct p'; reflexivity.
    - intros p H. exact (ack_never _ _ _ _ _ H).
  Qed.

  (** A standard search returns only if both requests were answered and the second answer is one that the gateway's registered key signed, of
      the right type, with the nonce sent and no offers.  Its content has the same text as that asked for, which is the same text for all objects. *)
  Theorem js_search_returns : forall post find sg price cfg active mgr nonce now cid id max l,
    let s := search post find sg price cfg active mgr nonce now cid id max in s_result s = OkR (Some l) ->
    exists gw b1 b2 r m pub t j c, aget bytes_eqb active id = Some gw /\ s_sent s = [(r_client_ap gw, b1); (r_client_ap gw, b2)] /\
      post 0%nat (r_client_ap gw) b1 <> None /\ post 1%nat (r_client_ap gw) b2 = Some r /\ code r = 200 /\ message_of_data (js_data (content r)) = OkR m /\
      decodePublicKey (r_key gw) = OkR pub /\ js_verify js_ec blake m pub = OkR true /\ j_type m = Some (JNum 111) /\ j_body m = Some t /\ json_parse (js_text t) = Some j /\
      js_get j (gs "pieceCID") = OkR c /\ js_toString c <> ErrR /\ js_toString c = js_toString (Some cid) /\ js_get j (gs "nonce") = OkR (Some (JNum (nonce 1%nat))) /\
      (js_get j (gs "subCIDOffers") = OkR (Some (JArr [])) \/ js_get j (gs "subCIDOffers") = OkR (Some (JStr []))).
  Proof.
    intros post find sg price cfg active mgr nonce now cid id max l. cbv zeta. unfold findOffersStandardDiscoveryV2. destruct (aget bytes_eqb active id) as [gw|]; [|discriminate].
    destruct (js_search_pay _ _ _ _ _ _ _) as [m' p]. unfold requestStandardDiscoverV2, sendMessage.
    destruct (post 0%nat _ _) as [r0|] eqn:P0; [|intros X; discriminate X]. destruct (code r0 =? 200); [|intros X; discriminate X]. destruct (message_of_data (js_data (content r0))) as [m0|]; [|intros X; discriminate X].
    destruct (decodePublicKey (r_key gw)) as [pub|] eqn:K; [|intros X; discriminate X]. destruct (js_verify js_ec blake m0 pub) as [b|]; [|intros X; discriminate X].
    cbn [s_result s_sent]. unfold requestStandardDiscoverOffer, sendMessage. destruct (post 1%nat _ _) as [r|] eqn:P1; [|discriminate].
    destruct (code r =? 200) eqn:C; [|discriminate]. destruct (message_of_data (js_data (content r))) as [m|] eqn:M; [|discriminate]. rewrite K.
    destruct (js_verify js_ec blake m pub) as [[|]|] eqn:V; [|discriminate..]. destruct (decodeClientStandardDiscoverOfferResponse m) as [[[c n] o]|] eqn:D; [|discriminate].
    unfold decodeClientStandardDiscoverOfferResponse in D. destruct (j_type m) as [[| |ty| | | |]|] eqn:T; try discriminate D. destruct (j_body m) as [t|] eqn:B; [|discriminate D].
    destruct (ty =? 111) eqn:T1; [|discriminate D]. destruct (json_parse (js_text t)) as [j|] eqn:J; [|discriminate D].
    destruct (js_get j (gs "pieceCID")) as [c'|] eqn:G1; [|discriminate D]. destruct (js_get j (gs "nonce")) as [n'|] eqn:G2; [|discriminate D].
    destruct (js_get j (gs "subCIDOffers")) as [o'|] eqn:G3; [|discriminate D]. injection D as -> -> ->.
    destruct (js_toString c) as [a|] eqn:S1; [|discriminate]. destruct (js_toString (Some cid)) as [a'|] eqn:S2; [|discriminate].
    destruct (bytes_eqb a a') eqn:E1; [|discriminate]. destruct n as [[| |z| | | |]|]; try discriminate. destruct (z =? nonce 1%nat) eqn:E2; [|discriminate].
    destruct (iterate o) as [ls|] eqn:I; [|discriminate]. destruct (keep_offers find max [] ls) as [k|] eqn:KO; [|discriminate]. intros _.
    destruct (keep_nothing _ _ _ _ _ KO) as (-> & _). apply Z.eqb_eq in E2, T1, C. apply BaseProofs.bytes_eqb_eq in E1. subst z ty a'.
    exists gw. do 2 eexists. exists r, m, pub, t, j, c. split; [reflexivity|]. split; [reflexivity|]. rewrite P0.
    repeat (split; [first [discriminate|assumption|reflexivity|rewrite S1; first [discriminate|symmetry; exact S2]]|]).
    destruct o as [[| | | |s|x|]|]; try discriminate I; [right|left]; [destruct s; [exact G3|discriminate I]|]. injection I as ->. exact G3.
  Qed.

  (** It pays all the same.  With funds, a standard search issues a voucher for the price, whatever comes of it, and a DHT search two,
      each for the price of the gateways asked, though it asks none. *)
  Theorem js_search_pays : forall sg price cfg active mgr cid id gw c, aget bytes_eqb active id = Some gw -> aget bytes_eqb (j_out mgr) (r_address gw) = Some c ->
    (forall v, sg v <> None) -> 0 <= price ->
    (forall post find nonce now max, c_redeemed c + price <= c_balance c ->
       exists c', aget bytes_eqb (j_out (s_mgr (search post find sg price cfg active mgr nonce now cid id max))) (r_address gw) = Some c' /\
         c_addr c' = c_addr c /\ c_redeemed c' = c_redeemed c + price /\ l_redeemed (get_lane c' 0) = l_redeemed (get_lane c 0) + price) /\
    (forall n, 0 <= n -> c_redeemed c + n * price + n * price <= c_balance c ->
       let s := findOffersDHTDiscoveryV2 sg price cfg active mgr cid id n in
       s_sent s = [] /\ exists c', aget bytes_eqb (j_out (s_mgr s)) (r_address gw) = Some c' /\
         c_addr c' = c_addr c /\ c_redeemed c' = c_redeemed c + n * price + n * price /\ l_redeemed (get_lane c' 0) = l_redeemed (get_lane c 0) + n * price + n * price).
  Proof.
    intros sg price cfg active mgr cid id gw c A C SG P.
    assert (Pay : forall m t c a, aget bytes_eqb (j_out m) (r_address gw) = Some c -> c_redeemed c + a <= c_balance c ->
      exists m' ch v c', js_search_pay m (r_address gw) t 0 a cfg sg = (m', Paid ch v) /\ aget bytes_eqb (j_out m') (r_address gw) = Some c' /\ c_addr c' = c_addr c /\ c_balance c' = c_balance c /\
        c_redeemed c' = c_redeemed c + a /\ l_redeemed (get_lane c' 0) = l_redeemed (get_lane c 0) + a).
    { clear - SG. intros m t c a C B. unfold js_search_pay, js_pay. rewrite C. replace (c_balance c <? c_redeemed c + a) with false by (symmetry; apply Z.ltb_ge; lia).
      destruct (sg _) as [s|] eqn:E; [|destruct (SG _ E)]. do 4 eexists. split; [reflexivity|]. cbn [j_out]. rewrite (BaseProofs.aget_aset_eq bytes_eqb BaseProofs.bytes_eqb_eq).
      split; [reflexivity|]. cbn [c_addr c_balance c_redeemed]. repeat (split; [reflexivity|]). unfold get_lane at 1. cbn [c_lanes].
      rewrite (BaseProofs.aget_aset_eq Z.eqb Z.eqb_eq). reflexivity. }
    split.
    - intros post find nonce now max B. destruct (Pay mgr (r_id gw) c price C B) as (m' & ch & v & c' & E & G & H1 & _ & H2 & H3). exists c'.
      rewrite (search_paid js_ec blake library_text _ _ _ _ _ _ _ _ _ _ _ _ _ A), E. auto.
    - intros n N B. cbv zeta. unfold findOffersDHTDiscoveryV2. rewrite A.
      assert (0 <= n * price) by nia.
      destruct (Pay mgr (r_address gw) c (n * price) C ltac:(lia)) as (m' & ch & v & c' & E & G & H1 & H2 & H3 & H4). rewrite E.
      destruct (Pay m' (r_address gw) c' (n * price) G ltac:(rewrite H2, H3; lia)) as (m2 & ch2 & v2 & c2 & E2 & G2 & K1 & K2 & K3 & K4). rewrite E2.
      split; [reflexivity|]. exists c2. split; [exact G2|]. split; [congruence|]. split; lia.
  Qed.

  Section nodes.
    Variable version : Z.
    Variable supported : list Z.
    Variable sha256 sha512_256 : bytes -> bytes.
    Variable pub_of : bytes -> bytes.
    Variable ec_sign : bytes -> bytes -> option bytes.
    Variable ec_verify : bytes -> bytes -> bytes -> bool.
    Variable verify : gostring -> voucher -> option bytes -> bool.
    Variable voucher_text : voucher -> gostring.
    Variable voucher_of : gostring -> option voucher.
    Variable is_address : gostring -> bool.
    Variable zone : Z.
    Variables BindAdminAPI BindRestAPI : gostring.
    Hypothesis AC : BindAdminAPI <> BindRestAPI.
    Local Notation serving e := (running [BindAdminAPI; BindRestAPI] (with_handlers
      (client_handler version supported sha256 sha512_256 pub_of ec_sign ec_verify blake verify voucher_text voucher_of is_address zone e) (gateway_rest BindAdminAPI BindRestAPI))).

    (** Even if the registered address leads to a gateway as it is: the gateway refuses the first request with code 400, whatever its state
        and what it has been paid, and stays as it is; the search throws and sends nothing more. *)
    Theorem js_search_refused : forall e g post find sg price cfg active mgr nonce now cid id max gw texts before,
      aget bytes_eqb active id = Some gw ->
      (forall body, post 0%nat (r_client_ap gw) body = answered texts (msgRouter (serving e) BindRestAPI g (Some body)) before) ->
      let s := search post find sg price cfg active mgr nonce now cid id max in
      s_result s = ErrR /\ exists body, s_sent s = [(r_client_ap gw, body)] /\ msgRouter (serving e) BindRestAPI g (Some body) = Ret (g, [Rest.HttpError 400]).
    Proof using AC.
      intros e g post find sg price cfg active mgr nonce now cid id max gw texts before A P. cbv zeta.
      assert (R : msgRouter (serving e) BindRestAPI g (Some (message_text encodeClientStandardDiscoverRequestV2)) = Ret (g, [Rest.HttpError 400])).
      { rewrite (route_text _ _ _ BindRestAPI g _ first_read first_reads first_some). rewrite (first_route BindAdminAPI BindRestAPI AC).
        cbn [client_handler]. unfold HandleStandardDiscoverV2. rewrite first_undecodable. reflexivity. }
      unfold findOffersStandardDiscoveryV2. rewrite A. destruct (js_search_pay _ _ _ _ _ _ _) as [m p].
      unfold requestStandardDiscoverV2, sendMessage. rewrite P, R. cbn [answered respond code]. change (400 =? 200) with false. cbv iota.
      split; [reflexivity|]. eexists. split; [reflexivity|exact R].
    Qed.
  End nodes.

  (** If another server answers the first request, the second one that a Go gateway reads asks for nothing: no digests, no content, and
      beside the voucher no channel. *)
  Theorem js_search_asks_nothing : forall sha post find sg price cfg active mgr nonce now cid id max gw url body rest, plain cid -> (forall v, plain (js_voucher_text (library_text v))) ->
    int64 (nonce 1%nat) -> int64 now -> aget bytes_eqb active id = Some gw ->
    s_sent (search post find sg price cfg active mgr nonce now (content_id cid) id max) = rest ++ [(url, body)] -> rest <> [] ->
    exists m v, FCRMsgFromBytes body = OkR m /\ DecodeClientStandardDiscoverOfferRequest sha m = Ret (OkR (id_ptr [], nonce 1%nat, now, None, [], v)).
  Proof.
    intros sha post find sg price cfg active mgr nonce now cid id max gw url body rest Pc Pv Bn Bt A. unfold findOffersStandardDiscoveryV2. rewrite A.
    destruct (js_search_pay _ _ _ _ _ _ _) as [m p]. unfold requestStandardDiscoverV2. destruct (sendMessage _ _ _) as [r|]; cbn [s_sent].
    2: { intros E N. destruct rest as [|x [|y l]]; [contradiction|discriminate E..]. }
    destruct (decodePublicKey (r_key gw)) as [k|]; cbn [s_sent]. 2: { intros E N. destruct rest as [|x [|y l]]; [contradiction|discriminate E..]. }
    destruct (js_verify js_ec blake r k) as [b|]; cbn [s_sent]. 2: { intros E N. destruct rest as [|x [|y l]]; [contradiction|discriminate E..]. }
    intros E N. destruct rest as [|x [|y l]]; [contradiction| |destruct l; discriminate E]. injection E as <- <- <-.
    assert (V : exists v, paid_voucher library_text p = Some (JStr v) /\ plain v).
    { destruct p; cbn [paid_voucher]; [exists []; split; [reflexivity|constructor]..|eexists; split; [reflexivity|apply Pv]]. }
    destruct V as (v & -> & PV). destruct (second_reads sha cid (nonce 1%nat) now v Pc PV Bn Bt) as (m' & c & R & D & ->). exists m', v. split; [exact R|exact D].
  Qed.
End search.
Print Assumptions js_search_finds_refuted.
Print Assumptions js_search_returns.
Print Assumptions js_search_pays.
Print Assumptions js_search_refused.
Print Assumptions js_search_asks_nothing.

(** ** The client of gateway 50, which has paid it before *)
Definition js_funded : jsmgr := JsMgr [(r_address gw50, Chan (gs "ch") 100 7 [(0, Lane 2 7 [])])] [].
Definition js_sg (v : voucher) : option bytes := Some [].
Definition t_search post cid := findOffersStandardDiscoveryV2 PropertiesCrypto.toy_verify toy_blake toy_text post (fun _ => None) js_sg 3 50 [(ToString (idn 50), gw50)] js_funded (fun n => Z.of_nat n) 40 (content_id cid) (ToString (idn 50)) 10.
(** A server at the address that signs what it answers, in the form the client reads. *)
Definition js_reply (type : Z) (body : gostring) : option response :=
  let m := new_message (Some (JNum type)) None None (Some (JStr body)) None in
  match toy_sign (idn 5) (toy_blake (signed_text m)) with
  | Some raw => Some (Response 200 (message_text (JsMsg (j_type m) (j_version m) (j_supported m) (j_body m) (Some (JStr (hex_encode (be_bytes 4 1 ++ raw)))))))
  | None => None
  end.
Definition js_replies (body : gostring) (n : nat) (url : gostring) (_ : bytes) : option response :=
  if bytes_eqb url (gs "c5") then match n with O => js_reply 109 [] | _ => js_reply 111 body end else None.
Definition js_body (content : json) (nonce : Z) (offers : json) : gostring := json_print (JObj [(gs "pieceCID", content); (gs "nonce", JNum nonce); (gs "subCIDOffers", offers)]).
Definition js_results l := map (fun b => s_result (t_search (js_replies b) (gs "aa"))) l.
(** No offers, the same for other content, which has the same text; one offer, for which a method is called; a nonce that was not drawn; no list; no content. *)
Example js_search_ex : js_results
    [js_body (content_id (gs "aa")) 1 (JArr []); js_body (content_id (gs "bb")) 1 (JArr []); js_body (content_id (gs "aa")) 1 (JArr [JObj []]);
     js_body (content_id (gs "aa")) 2 (JArr []); js_body (content_id (gs "aa")) 1 JNull; js_body JNull 1 (JArr [])] = [OkR (Some []); OkR (Some []); ErrR; ErrR; ErrR; ErrR] /\
  length (s_sent (t_search (js_replies []) (gs "aa"))) = 2%nat /\ s_result (t_search (fun _ _ _ => None) (gs "aa")) = ErrR.
Proof. vm_compute. repeat split; reflexivity. Qed.
(** What is paid: 3 for the search, twice 2 * 3 for two gateways of a DHT search. *)
Definition js_spent (m : jsmgr) := map (fun p => (c_redeemed (snd p), map (fun l => (l_nonce (snd l), l_redeemed (snd l))) (c_lanes (snd p)))) (j_out m).
Example js_search_pays_ex : js_spent (s_mgr (t_search (fun _ _ _ => None) (gs "aa"))) = [(10, [(3, 10)])] /\
  js_spent (s_mgr (findOffersDHTDiscoveryV2 js_sg 3 50 [(ToString (idn 50), gw50)] js_funded (content_id (gs "aa")) (ToString (idn 50)) 2)) = [(19, [(4, 19)])] /\
  js_spent (s_mgr (findOffersDHTDiscoveryV2 js_sg 3 50 [(ToString (idn 50), gw50)] js_funded (content_id (gs "aa")) (ToString (idn 51)) 2)) = [(7, [(2, 7)])].
Proof. vm_compute. repeat split; reflexivity. Qed.
(** The gateway behind this address. *)
Example js_search_refused_ex : let s := t_search (fun _ url body => js_post toy_env (gs "http://" ++ url ++ gs "/v1") body) (gs "aa") in s_result s = ErrR /\ length (s_sent s) = 1%nat.
Proof. vm_compute. split; reflexivity. Qed.
Example js_ack_ex : FindDHTOfferAck PropertiesCrypto.toy_verify toy_blake (js_replies [] 0%nat) (fun _ => Some gw50) (ToString (idn 50)) = OkR false /\
  FindDHTOfferAck PropertiesCrypto.toy_verify toy_blake (fun _ _ => None) (fun _ => Some gw50) (ToString (idn 50)) = ErrR.
Proof. vm_compute. split; reflexivity. Qed.
