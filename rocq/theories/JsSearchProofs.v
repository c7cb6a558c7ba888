(** * Proofs about the searches of the client written in TypeScript *)
From Coq Require Import String List ZArith Bool Lia.
From Coq Require Import Init.Byte.
From Verif Require Import Base BaseProofs Ids Json JsonProofs MerkleWireProofs Crypto CryptoProofs Message WireSpec Offer OfferProofs MessageProofs Schema SchemaProofs Messages MessagesSpec MessagesProofs Payment JsPayment
  Server FrameSpec FrameProofs Routes RoutesProofs Rest Gateway Client RetrievalSpec Http HttpProofs HttpSpec JsClient JsClientProofs JsNodeProofs JsSearch.
Import ListNotations.
Open Scope Z_scope.

Lemma keep_nothing find max kept l r : keep_offers find max kept l = OkR r -> l = [] /\ r = kept.
Proof. destruct l; cbn [keep_offers call_method]; [intros E; injection E as <-; auto|discriminate]. Qed.

Section searches.
  Variable js_ec : bytes -> bytes -> bytes -> bool.
  Variable blake : bytes -> bytes.
  Variable library_text : voucher -> gostring.
  Local Notation search := (findOffersStandardDiscoveryV2 js_ec blake library_text).

  Lemma finds_nothing post find sg price cfg active mgr nonce now cid id max l :
    s_result (search post find sg price cfg active mgr nonce now cid id max) = OkR (Some l) -> l = [].
  Proof.
    unfold findOffersStandardDiscoveryV2. destruct (aget bytes_eqb active id) as [gw|]; [|discriminate].
    destruct (js_search_pay _ _ _ _ _ _ _) as [mgr' p]. destruct (requestStandardDiscoverV2 _ _ _ _) as [d|]; [|discriminate]. cbn [s_result].
    destruct (requestStandardDiscoverOffer _ _ _ _ _ _ _ _ _ _) as [o|]; [|discriminate]. destruct (iterate o) as [ls|]; [|discriminate].
    destruct (keep_offers find max [] ls) as [k|] eqn:K; [|discriminate]. intros E. injection E as <-. apply (keep_nothing _ _ _ _ _ K).
  Qed.

  (** A signature that can be split and a key that can be read: then both requests are sent. *)
  Lemma search_paid post find sg price cfg active mgr nonce now cid id max gw : aget bytes_eqb active id = Some gw ->
    s_mgr (search post find sg price cfg active mgr nonce now cid id max) = fst (js_search_pay mgr (r_address gw) (r_id gw) 0 price cfg sg).
  Proof.
    intros E. unfold findOffersStandardDiscoveryV2. rewrite E. destruct (js_search_pay _ _ _ _ _ _ _) as [mgr' p]. now destruct (requestStandardDiscoverV2 _ _ _ _).
  Qed.

  Lemma ack_never post find id : FindDHTOfferAck js_ec blake post find id = OkR true -> False.
  Proof.
    unfold FindDHTOfferAck. destruct (find id) as [p|]; [|discriminate]. destruct (validateInfo p); [|discriminate].
    destruct (requestDHTOfferAck js_ec blake post p) as [f|] eqn:E; [|discriminate]. unfold requestDHTOfferAck in E.
    destruct (sendMessage _ _ _) as [m|]; [|discriminate]. destruct (decodePublicKey _) as [k|]; [|discriminate]. destruct (js_verify _ _ _ _); [|discriminate].
    injection E as <-. discriminate.
  Qed.
End searches.

(** ** What a Go gateway makes of the requests *)
Definition first_read : message := Message 108 1 (Some [1; 1]) (Some []) [].
Lemma first_reads : FCRMsgFromBytes (message_text encodeClientStandardDiscoverRequestV2) = OkR first_read.
Proof. vm_compute. reflexivity. Qed.
Lemma first_some : message_text encodeClientStandardDiscoverRequestV2 <> [].
Proof. vm_compute. discriminate. Qed.
Lemma first_undecodable sha : DecodeClientStandardDiscoverRequestV2 sha first_read = Ret ErrR.
Proof. vm_compute. reflexivity. Qed.
Lemma second_reads sha id nonce ttl v : plain id -> plain v -> int64 nonce -> int64 ttl -> exists m c,
  FCRMsgFromBytes (message_text (encodeClientStandardDiscoverOfferRequest (content_id id) nonce ttl None None (Some (JStr v)))) = OkR m /\
  DecodeClientStandardDiscoverOfferRequest sha m = Ret (OkR (c, nonce, ttl, None, [], v)) /\ c = id_ptr [].
Proof.
  intros Pi Pv Bn Bt. unfold encodeClientStandardDiscoverOfferRequest.
  set (fields := [(gs "pieceCID", content_id id); (gs "nonce", JNum nonce); (gs "ttl", JNum ttl); (gs "voucher", JStr v)]).
  change (js_object _) with (JObj fields).
  assert (P : plain_json (JObj fields)).
  { unfold fields. cbn [plain_json content_id fst snd]. repeat split; try exact Pi; try exact Pv; repeat constructor. }
  rewrite plain_print by exact P. set (body := json_print (JObj fields)).
  assert (B : forall b, message_text (new_message (Some (JNum 110)) None None (Some (JStr (b64_encode b))) None) =
    json_print (JObj [(gs "message_type", JNum 110); (gs "message_body", JStr (b64_encode b)); (gs "protocol_version", JNum 1); (gs "protocol_supported", JArr [JNum 1; JNum 1]); (gs "message_signature", JStr [])])).
  { clear. intros b. assert (Q := b64_plain b). unfold message_text. rewrite plain_print; [reflexivity|]. generalize dependent (b64_encode b). intros t Q.
    cbn [plain_json js_object new_message j_type j_body j_version j_supported j_sig or_default flat_map fst snd app]. repeat split; try exact Q; repeat constructor. }
  exists (Message 110 1 (Some [1; 1]) (Some body) []), (id_ptr []). split; [|split; [|reflexivity]].
  - rewrite B. unfold FCRMsgFromBytes. rewrite unmarshal_json; [|reflexivity|discriminate]. unfold message_of_json. eval_fields.
    unfold dec_i32. rewrite !dec_int_ok by (split; discriminate). cbn [dec_list]. change (dec_elems _ _ _) with (Some [1; 1]).
    cbn [dec_bytes]. rewrite b64_roundtrip. cbn [dec_str]. reflexivity.
  - unfold DecodeClientStandardDiscoverOfferRequest, decode. cbn [m_type m_body]. change (negb _) with false. cbv iota. unfold unmarshal_body.
    cbn [slice]. unfold body. rewrite json_roundtrip by reflexivity. unfold fields, clientStandardDiscoverOfferRequest. cbn [dec_fields]. unfold fdec.
    eval_fields. cbn [dec_str]. rewrite !dec_int_ok by assumption. reflexivity.
Qed.

Lemma first_route (admin client : gostring) : admin <> client ->
  handler_of (running [admin; client] (gateway_rest admin client)) client (m_type first_read) = Some KClientStandardDiscoverRequestV2.
Proof.
  intros AC. rewrite running_pf. unfold gateway_rest. cbn [existsb registered first_read m_type]. rewrite !eqb_refl_bytes, !(eqb_neq_bytes _ _ AC).
  rewrite orb_true_r. cbn [andb orb]. reflexivity.
Qed.
