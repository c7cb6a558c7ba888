(** * Proofs about the client written in TypeScript and a gateway *)
From Coq Require Import String List ZArith Bool Lia.
From Coq Require Import Init.Byte.
From Verif Require Import Base BaseProofs Ids Json JsonProofs MerkleWireProofs Crypto CryptoProofs Message WireSpec Offer OfferProofs MessageProofs Schema SchemaProofs Messages MessagesSpec MessagesProofs Payment
  Server FrameSpec FrameProofs Routes RoutesProofs Rest Gateway GatewaySpec Client RetrievalSpec RetrievalProofs Http HttpProofs HttpSpec JsClient JsClientProofs PropertiesHttp.
From Verif Require AdminSpec AdminProofs AdminNodeProofs ProviderProofs.
Import ListNotations.
Open Scope Z_scope.

(** ** The request *)
Lemma js_request i challenge ttl : int64 ttl -> plain challenge -> exists m, EncodeClientEstablishmentRequest 1 [1; 1] (Some i) challenge ttl = Ret m /\
  FCRMsgFromBytes (message_text (encodeClientEstablishmentRequest (ToString i) challenge ttl)) = OkR m.
Proof.
  intros T P. eexists. split; [unfold EncodeClientEstablishmentRequest; cbn [id_text obind]; reflexivity|].
  unfold encodeClientEstablishmentRequest. rewrite plain_print; [|cbn [plain_json fst snd]; repeat split; try (repeat constructor); [apply id_plain|exact P]].
  set (body := json_print _).
  assert (B : forall b, message_text (new_message (Some (JNum 100)) None None (Some (JStr (b64_encode b))) None) =
    json_print (JObj [(gs "message_type", JNum 100); (gs "message_body", JStr (b64_encode b)); (gs "protocol_version", JNum 1); (gs "protocol_supported", JArr [JNum 1; JNum 1]); (gs "message_signature", JStr [])])).
  { clear. intros b. assert (Q := b64_plain b). unfold message_text. rewrite plain_print; [reflexivity|]. generalize dependent (b64_encode b). intros t Q.
    cbn [plain_json js_object new_message j_type j_body j_version j_supported j_sig or_default flat_map fst snd app]. repeat split; try exact Q; repeat constructor. }
  rewrite B. unfold FCRMsgFromBytes. rewrite unmarshal_json; [|reflexivity|discriminate]. unfold message_of_json. eval_fields.
  unfold dec_i32. rewrite !dec_int_ok by (split; discriminate). cbn [dec_list]. change (dec_elems _ _ _) with (Some [1; 1]).
  cbn [dec_bytes]. rewrite b64_roundtrip. cbn [dec_str]. reflexivity.
Qed.

Lemma write_signed pub_of ec_sign ec_verify blake k v code m : ecdsa_correct pub_of ec_sign ec_verify -> can_sign ec_sign blake k ->
  exists s b, SignAndWrite ec_sign blake (Some k) v code m = Ret (Rest.Json (set_sig m s)) /\ AdminSpec.of_key pub_of ec_verify blake k (set_sig m s) /\ hex_decode s = Some b /\ length b = 69%nat.
Proof.
  intros Law C. destruct (AdminProofs.sign_can ec_sign blake k v m C) as (m' & E). destruct (AdminProofs.sign_of pub_of ec_sign ec_verify blake _ _ _ _ Law E) as (O & s & X). subst m'.
  destruct (signed_form _ _ _ blake _ _ _ _ _ Law E eq_refl) as (b & H & L). exists s, b. split; [|split; [exact O|split; [exact H|exact L]]].
  unfold SignAndWrite, SignWith. cbn [deref obind]. rewrite E. reflexivity.
Qed.

(** What the client makes of a response with one message. *)
Lemma js_receives r : message_of_data (js_data (content (respond (fun _ => []) [Rest.Json r]))) = OkR (js_of r).
Proof.
  unfold respond. cbn [content bodies written]. unfold js_data. rewrite indent_then by (try exact I; apply no_float_message). cbn [skip_ws]. rewrite js_reads. destruct r; reflexivity.
Qed.

Lemma route_text {K St} (f : K -> rest_handler St) addrs adds addr st text m : FCRMsgFromBytes text = OkR m -> text <> [] ->
  msgRouter (running addrs (with_handlers f adds)) addr st (Some text) = match handler_of (running addrs adds) addr (m_type m) with Some k => f k st m | None => Ret (st, [Rest.HttpError 400]) end.
Proof.
  intros R N. unfold msgRouter. destruct text as [|c t]; [congruence|]. rewrite R, with_running. now destruct (handler_of (running addrs adds) addr (m_type m)).
Qed.
Lemma rest_route (admin client : gostring) m : admin <> client -> m_type m = type_of KClientEstablishmentRequest ->
  handler_of (running [admin; client] (gateway_rest admin client)) client (m_type m) = Some KClientEstablishmentRequest.
Proof.
  intros AC T. rewrite T, running_pf. unfold gateway_rest. cbn [existsb registered]. rewrite !eqb_refl_bytes, !(eqb_neq_bytes _ _ AC).
  rewrite orb_true_r. cbn [andb orb]. reflexivity.
Qed.

(** The response as both sides write and read it. *)
Lemma js_decodes unb64 (unb64_law : forall b, unb64 (b64_encode b) = b) version supported id c b s : EncodeClientEstablishmentResponse version supported (Some id) c = Ret b ->
  decodeClientEstablishmentResponse unb64 (js_of (set_sig b s)) = OkR (Some (JStr (ToString id)), Some (JStr c)).
Proof.
  intros E. apply ret_inj in E. subst b.
  assert (G : forall t, json_parse t = Some (JObj [(gs "gateway_id", JStr (ToString id)); (gs "challenge", JStr c)]) -> forall v w,
    decodeClientEstablishmentResponse unb64 (js_of (set_sig (Message 101 v w (Some t) []) s)) = OkR (Some (JStr (ToString id)), Some (JStr c))).
  { intros t P v w. unfold decodeClientEstablishmentResponse. cbn [js_of j_type j_body set_sig m_type m_body json_blob]. rewrite unb64_law, P. reflexivity. }
  apply G. apply (json_roundtrip (JObj [(gs "gateway_id", JStr (ToString id)); (gs "challenge", JStr c)])). reflexivity.
Qed.

Section meet.
  Variable version : Z.
  Variable supported : list Z.
  Variable sha256 sha512_256 : bytes -> bytes.
  Variable pub_of : bytes -> bytes.
  Variable ec_sign : bytes -> bytes -> option bytes.
  Variable ec_verify : bytes -> bytes -> bytes -> bool.
  Variable blake : bytes -> bytes.
  Variable verify : gostring -> voucher -> option bytes -> bool.
  Variable voucher_text : voucher -> gostring.
  Variable voucher_of : gostring -> option voucher.
  Variable is_address : gostring -> bool.
  Variable zone : Z.
  Variables BindAdminAPI BindRestAPI : gostring.
  Variable unb64 : gostring -> bytes.
  Variable js_ec : bytes -> bytes -> bytes -> bool.
  Hypothesis Law : ecdsa_correct pub_of ec_sign ec_verify.
  Hypothesis AC : BindAdminAPI <> BindRestAPI.
  Hypothesis same_curve : forall pk d s, length pk = 65%nat -> length s = 64%nat -> js_ec pk d s = ec_verify pk d s.
  Hypothesis unb64_law : forall b, unb64 (b64_encode b) = b.

  Let handler := RetrievalSpec.client_handler version supported sha256 sha512_256 pub_of ec_sign ec_verify blake verify voucher_text voucher_of is_address zone.
  Let serving e := running [BindAdminAPI; BindRestAPI] (with_handlers (handler e) (gateway_rest BindAdminAPI BindRestAPI)).

  Lemma routed_api e g m text : FCRMsgFromBytes text = OkR m -> text <> [] -> m_type m = type_of KClientEstablishmentRequest ->
    msgRouter (serving e) BindRestAPI g (Some text) = (let* s := HandleEstablishment version supported sha256 ec_sign blake e g m in Ret (after s, wrote s))%go.
  Proof using AC.
    clear same_curve Law unb64_law. intros R N T. unfold serving. rewrite (route_text (handler e) _ _ BindRestAPI g text m R N).
    rewrite (rest_route BindAdminAPI BindRestAPI m AC T). reflexivity.
  Qed.

  Lemma js_asks i challenge ttl : exists t, message_text (encodeClientEstablishmentRequest i challenge ttl) = x7b :: t.
  Proof using. unfold message_text. cbn [js_object flat_map new_message encodeClientEstablishmentRequest j_type snd fst app js_print]. eauto. Qed.

  (** What the gateway answers the client. *)
  Lemma js_answered e g post url i challenge ttl : posts_to post url (serving e) BindRestAPI g -> int64 ttl -> plain challenge -> id32 i ->
    exists m texts before, sound before /\ EncodeClientEstablishmentRequest 1 [1; 1] (Some i) challenge ttl = Ret m /\
      DecodeClientEstablishmentRequest sha256 m = Ret (OkR (Some i, challenge, ttl)) /\
      post (gs "http://" ++ url ++ gs "/v1") (message_text (encodeClientEstablishmentRequest (ToString i) challenge ttl)) =
        answered texts (let* s := HandleEstablishment version supported sha256 ec_sign blake e g m in Ret (after s, wrote s))%go before.
  Proof using AC.
    clear same_curve Law unb64_law. intros P T C I. destruct (js_request i challenge ttl T C) as (m & En & R).
    destruct (rt_ClientEstablishmentRequest 1 [1; 1] sha256 i challenge ttl I T) as (m' & En' & F & D). rewrite En in En'. apply ret_inj in En'. subst m'.
    destruct (P (message_text (encodeClientEstablishmentRequest (ToString i) challenge ttl))) as (texts & before & B & E). exists m, texts, before.
    split; [exact B|]. split; [exact En|]. split; [exact D|]. rewrite E. f_equal. apply routed_api; [exact R| |apply F].
    destruct (js_asks (ToString i) challenge ttl) as (t & ->). discriminate.
  Qed.

  Lemma js_served_pf e g post gw i challenge ttl : posts_to post (r_client_ap gw) (serving e) BindRestAPI g -> represents pub_of gw g -> ready ec_sign blake g ->
    length challenge = 32%nat -> id32 i -> int64 ttl -> unix e <= ttl ->
    requestEstablishment unb64 js_ec blake post gw challenge (ToString i) ttl = OkR tt.
  Proof using AC Law same_curve unb64_law.
    intros P (id & k & Gi & Ri & Gk & (pk & Dk & Mk)) (id' & k' & mg & Gi' & Hi & Gk' & Cs & _) L Ii It T.
    assert (k' = k) by congruence. assert (id' = id) by congruence. subst k' id'.
    destruct (js_answered e g post (r_client_ap gw) i (b64_encode challenge) ttl P It (b64_plain challenge) Ii) as (m & texts & before & _ & _ & D & A).
    destruct (rt_ClientEstablishmentResponse version supported sha256 id (b64_encode challenge) Hi) as (b & Eb & Fb & Db).
    destruct (write_signed pub_of ec_sign ec_verify blake k (g_ver g) 500 b Law Cs) as (s & sb & W & O & Hs & Ls).
    assert (H : HandleEstablishment version supported sha256 ec_sign blake e g m = Ret (Served g [Rest.Json (set_sig b s)] [])).
    { unfold HandleEstablishment. rewrite D. cbn [obind deref]. replace (unix e >? ttl) with false by lia. rewrite Gi, Eb. cbn [obind]. unfold finish_rest. rewrite Gk, W. reflexivity. }
    rewrite H in A. cbn [obind after wrote answered] in A.
    unfold requestEstablishment. rewrite L. change (negb (Nat.eqb 32 32)) with false. cbv iota. unfold sendMessage. rewrite A. change (code (respond texts [Rest.Json (set_sig b s)]) =? 200) with true. cbv iota.
    change (content (respond texts [Rest.Json (set_sig b s)])) with (content (respond (fun _ => []) [Rest.Json (set_sig b s)])). rewrite js_receives.
    destruct (js_agree pub_of ec_verify js_ec blake same_curve (set_sig b s) (r_key gw) pk sb Dk Hs Ls) as (p & Dp & V). rewrite Dp, V, (O pk Mk).
    rewrite (js_decodes unb64 unb64_law version supported id (b64_encode challenge) b s Eb). rewrite Ri. unfold same_challenge. rewrite !bytes_eqb_refl. reflexivity.
  Qed.

  (** A request that came too late is not served. *)
  Lemma js_late_pf e g post gw i challenge ttl : posts_to post (r_client_ap gw) (serving e) BindRestAPI g ->
    length challenge = 32%nat -> id32 i -> int64 ttl -> ttl < unix e ->
    requestEstablishment unb64 js_ec blake post gw challenge (ToString i) ttl = ErrR.
  Proof using AC.
    clear same_curve Law unb64_law. intros P L Ii It T.
    destruct (js_answered e g post (r_client_ap gw) i (b64_encode challenge) ttl P It (b64_plain challenge) Ii) as (m & texts & before & _ & _ & D & A).
    assert (H : HandleEstablishment version supported sha256 ec_sign blake e g m = Ret (Served g [] [])).
    { unfold HandleEstablishment. rewrite D. cbn [obind deref]. replace (unix e >? ttl) with true by lia. reflexivity. }
    rewrite H in A. cbn [obind after wrote answered] in A.
    unfold requestEstablishment. rewrite L. change (negb (Nat.eqb 32 32)) with false. cbv iota. unfold sendMessage. rewrite A. destruct (decodePublicKey (r_key gw)) as [pub|] eqn:K; [|reflexivity]. reflexivity.
  Qed.
End meet.

(** ** What is taken for an establishment *)
Lemma js_sound_pf unb64 (unb64_law : forall b, unb64 (b64_encode b) = b) js_ec blake post gw challenge clientID ttl :
  requestEstablishment unb64 js_ec blake post gw challenge clientID ttl = OkR tt ->
  exists pub text raw, decodePublicKey (r_key gw) = OkR pub /\ js_ec pub (blake text) raw = true /\
    forall m, MessageToSign m = text -> m_type m = 101 /\
      forall version supported id c m0 s, EncodeClientEstablishmentResponse version supported (Some id) c = Ret m0 -> m = set_sig m0 s ->
        Client.lower (r_id gw) = Client.lower (ToString id) /\ c = b64_encode challenge.
Proof.
  unfold requestEstablishment. destruct (negb _); [discriminate|]. destruct (sendMessage _ _ _) as [[t v sp b sg]|] eqn:S; [|discriminate].
  destruct (decodePublicKey (r_key gw)) as [pub|] eqn:K; [|discriminate]. destruct (js_verify _ _ _ _) as [[|]|] eqn:V; try discriminate.
  destruct (decodeClientEstablishmentResponse _ _) as [[[[ | | | |i| | ]|] recv]|] eqn:D; try discriminate.
  destruct (bytes_eqb _ _ && same_challenge _ _) eqn:C; [|discriminate]. intros _. apply andb_true_iff in C. destruct C as [C1 C2]. apply bytes_eqb_eq in C1.
  assert (Sh : exists v' sp', v = Some v' /\ sp = Some sp').
  { unfold sendMessage in S. destruct (post _ _) as [r|]; [|discriminate]. destruct (_ =? _); [|discriminate]. unfold message_of_data in S.
    destruct (js_get _ (gs "message_type")); [|discriminate]. destruct (js_get _ (gs "protocol_version")) as [o1|]; [|discriminate]. destruct (js_get _ (gs "protocol_supported")) as [o2|]; [|discriminate].
    destruct (js_get _ (gs "message_body")); [|discriminate]. destruct (js_get _ (gs "message_signature")); [|discriminate]. unfold new_message in S. injection S as _ <- <- _ _. destruct o1, o2; cbn [or_default]; eauto. }
  destruct Sh as (v' & sp' & -> & ->). unfold js_verify in V. cbn [j_sig] in V. destruct sg as [[ | | | |sg| | ]|]; try discriminate. destruct (extractKeyFromMessage sg) as [raw|]; [|discriminate]. injection V as V.
  assert (D0 := D). unfold decodeClientEstablishmentResponse in D. cbn [j_type j_body] in D. destruct t as [[ | |z| | | | ]|]; try discriminate.
  assert (z = 101). { destruct (Z.eq_dec z 101) as [E|N]; [exact E|]. exfalso. destruct z as [|p|p]; try discriminate D. do 7 (destruct p as [p|p|]; try discriminate D). now apply N. } subst z.
  destruct b as [[ | | | |b| | ]|]; try discriminate.
  eexists pub, _, raw. split; [reflexivity|]. split; [exact V|]. intros m M. symmetry in M. apply js_says in M. destruct M as (M1 & body & M2 & ->). split; [exact M1|].
  intros version supported id c m0 s En ->. assert (Q := js_decodes unb64 unb64_law version supported id c m0 s En). unfold decodeClientEstablishmentResponse in Q. cbn [js_of j_type j_body set_sig m_type m_body] in Q, M1, M2.
  rewrite M1, M2 in Q. cbn [json_blob] in Q. rewrite Q in D. injection D as <- <-. split; [exact C1|]. cbn [same_challenge] in C2. apply bytes_eqb_eq in C2. exact C2.
Qed.

Lemma js_active_pf unb64 js_ec blake post rand now : forall ids n c k c', addActiveGateways unb64 js_ec blake post rand now n c ids = (k, c') ->
  jc_use c' = jc_use c /\ jc_id c' = jc_id c /\ jc_ttl c' = jc_ttl c /\ Z.of_nat (length (jc_active c')) = Z.of_nat (length (jc_active c)) + k /\
  (forall id gw, aget bytes_eqb (jc_active c) id = Some gw -> aget bytes_eqb (jc_active c') id = Some gw) /\
  forall id gw, aget bytes_eqb (jc_active c') id = Some gw -> aget bytes_eqb (jc_active c) id = Some gw \/
    In id ids /\ aget bytes_eqb (jc_use c) id = Some gw /\ exists q, (n <= q)%nat /\ requestEstablishment unb64 js_ec blake (post q) gw (rand q) (jc_id c) (now q + jc_ttl c) = OkR tt.
Proof.
  induction ids as [|id ids IH]; intros n c k c' H; cbn [addActiveGateways] in H.
  - injection H as <- <-. repeat (split; [reflexivity|]). split; [lia|]. split; auto.
  - assert (Skip : forall n', (n <= n')%nat -> addActiveGateways unb64 js_ec blake post rand now n' c ids = (k, c') ->
      jc_use c' = jc_use c /\ jc_id c' = jc_id c /\ jc_ttl c' = jc_ttl c /\ Z.of_nat (length (jc_active c')) = Z.of_nat (length (jc_active c)) + k /\
      (forall id gw, aget bytes_eqb (jc_active c) id = Some gw -> aget bytes_eqb (jc_active c') id = Some gw) /\
      forall i gw, aget bytes_eqb (jc_active c') i = Some gw -> aget bytes_eqb (jc_active c) i = Some gw \/
        In i (id :: ids) /\ aget bytes_eqb (jc_use c) i = Some gw /\ exists q, (n <= q)%nat /\ requestEstablishment unb64 js_ec blake (post q) gw (rand q) (jc_id c) (now q + jc_ttl c) = OkR tt).
    { intros n' L H'. destruct (IH _ _ _ _ H') as (A & B & C & D & E & F). repeat (split; [assumption|]). intros i gw G. destruct (F i gw G) as [X|(X & Y & q & Lq & Z)]; [now left|].
      right. split; [now right|]. split; [exact Y|]. exists q. split; [lia|exact Z]. }
    destruct (aget bytes_eqb (jc_active c) id) as [g0|] eqn:Na; [apply (Skip n); auto|]. destruct (aget bytes_eqb (jc_use c) id) as [gw|] eqn:U; [|apply (Skip n); auto].
    destruct (requestEstablishment _ _ _ _ _ _ _ _) as [[]|] eqn:R; [|apply (Skip (S n)); auto].
    destruct (addActiveGateways _ _ _ _ _ _ (S n) _ ids) as [k1 c1] eqn:H1. injection H as <- <-.
    destruct (IH _ _ _ _ H1) as (A & B & C & D & E & F). cbn [jc_use jc_id jc_ttl jc_active] in *.
    split; [exact A|]. split; [exact B|]. split; [exact C|]. split; [rewrite D, (aset_length_new _ _ _ _ Na); lia|]. split.
    + intros i g G. apply E. rewrite ProviderProofs.aget_set. destruct (bytes_eqb i id) eqn:Q; [|exact G]. apply bytes_eqb_eq in Q. congruence.
    + intros i g G. destruct (F i g G) as [X|(X & Y & q & Lq & Z)].
      * rewrite ProviderProofs.aget_set in X. destruct (bytes_eqb i id) eqn:Q; [|now left]. apply bytes_eqb_eq in Q. subst i. injection X as <-. right. split; [now left|]. split; [exact U|]. exists n. split; [lia|exact R].
      * right. split; [now right|]. split; [exact Y|]. exists q. split; [lia|exact Z].
Qed.

Lemma js_use_pf find : forall ids n c k c', addGatewaysToUse find n c ids = (k, c') ->
  jc_active c' = jc_active c /\ jc_id c' = jc_id c /\ jc_ttl c' = jc_ttl c /\ Z.of_nat (length (jc_use c')) = Z.of_nat (length (jc_use c)) + k /\
  (forall id gw, aget bytes_eqb (jc_use c) id = Some gw -> aget bytes_eqb (jc_use c') id = Some gw) /\
  forall id gw, aget bytes_eqb (jc_use c') id = Some gw -> aget bytes_eqb (jc_use c) id = Some gw \/
    In id ids /\ validateInfo gw = true /\ exists q, (n <= q)%nat /\ find q id = Some gw.
Proof.
  induction ids as [|id ids IH]; intros n c k c' H; cbn [addGatewaysToUse] in H.
  - injection H as <- <-. repeat (split; [reflexivity|]). split; [lia|]. split; auto.
  - assert (Skip : forall n', (n <= n')%nat -> addGatewaysToUse find n' c ids = (k, c') ->
      jc_active c' = jc_active c /\ jc_id c' = jc_id c /\ jc_ttl c' = jc_ttl c /\ Z.of_nat (length (jc_use c')) = Z.of_nat (length (jc_use c)) + k /\
      (forall id gw, aget bytes_eqb (jc_use c) id = Some gw -> aget bytes_eqb (jc_use c') id = Some gw) /\
      forall i gw, aget bytes_eqb (jc_use c') i = Some gw -> aget bytes_eqb (jc_use c) i = Some gw \/
        In i (id :: ids) /\ validateInfo gw = true /\ exists q, (n <= q)%nat /\ find q i = Some gw).
    { intros n' L H'. destruct (IH _ _ _ _ H') as (A & B & C & D & E & F). repeat (split; [assumption|]). intros i gw G. destruct (F i gw G) as [X|(X & Y & q & Lq & Z)]; [now left|].
      right. split; [now right|]. split; [exact Y|]. exists q. split; [lia|exact Z]. }
    destruct (aget bytes_eqb (jc_use c) id) as [g0|] eqn:Na; [apply (Skip n); auto|]. destruct (find n id) as [gw|] eqn:U; [|apply (Skip (S n)); auto].
    destruct (validateInfo gw) eqn:R; [|apply (Skip (S n)); auto].
    destruct (addGatewaysToUse _ (S n) _ ids) as [k1 c1] eqn:H1. injection H as <- <-.
    destruct (IH _ _ _ _ H1) as (A & B & C & D & E & F). cbn [jc_use jc_id jc_ttl jc_active] in *.
    split; [exact A|]. split; [exact B|]. split; [exact C|]. split; [rewrite D, (aset_length_new _ _ _ _ Na); lia|]. split.
    + intros i g G. apply E. rewrite ProviderProofs.aget_set. destruct (bytes_eqb i id) eqn:Q; [|exact G]. apply bytes_eqb_eq in Q. congruence.
    + intros i g G. destruct (F i g G) as [X|(X & Y & q & Lq & Z)].
      * rewrite ProviderProofs.aget_set in X. destruct (bytes_eqb i id) eqn:Q; [|now left]. apply bytes_eqb_eq in Q. subst i. injection X as <-. right. split; [now left|]. split; [exact R|]. exists n. split; [lia|exact U].
      * right. split; [now right|]. split; [exact Y|]. exists q. split; [lia|exact Z].
Qed.
