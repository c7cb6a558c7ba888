(** * Properties of the client written in TypeScript (C173-C175) *)
From Coq Require Import String List ZArith Bool Lia.
From Coq Require Import Init.Byte.
From Verif Require Import Base Ids Json Crypto Message WireSpec MessagesSpec Messages Payment Register Server FrameSpec Routes Gateway GatewaySpec Client RetrievalSpec Http HttpSpec
  JsClient JsClientProofs JsNodeProofs PropertiesMerkle PropertiesCrypto ToyGateway ToyClient.
Import ListNotations.
Open Scope Z_scope.

(** ** C173 *)
Section nodes.
  Variable version : Z.
  Variable supported : list Z.
  Variable sha256 sha512_256 : bytes -> bytes.
  Variable pub_of : bytes -> bytes.
  Variable ec_sign : bytes -> bytes -> option bytes.
  Variable ec_verify : bytes -> bytes -> bytes -> bool.
  Variable blake : bytes -> bytes.
  Variable verify : gostring -> voucher -> option bytes -> bool.
  Variable voucher_text : voucher -> gostring.
  Variable voucher_of : gostring -> option voucher.
  Variable is_address : gostring -> bool.
  Variable zone : Z.
  Variables BindAdminAPI BindRestAPI : gostring.
  Variable unb64 : gostring -> bytes.
  Variable js_ec : bytes -> bytes -> bytes -> bool.
  (** The libraries of both languages verify the same signatures; decoding undoes encoding. *)
  Hypothesis Law : ecdsa_correct pub_of ec_sign ec_verify.
  Hypothesis AC : BindAdminAPI <> BindRestAPI.
  Hypothesis same_curve : forall pk d s, length pk = 65%nat -> length s = 64%nat -> js_ec pk d s = ec_verify pk d s.
  Hypothesis unb64_law : forall b, unb64 (b64_encode b) = b.

  Local Notation establish := (requestEstablishment unb64 js_ec blake).
  Local Notation serving e := (running [BindAdminAPI; BindRestAPI] (with_handlers
    (client_handler version supported sha256 sha512_256 pub_of ec_sign ec_verify blake verify voucher_text voucher_of is_address zone e) (gateway_rest BindAdminAPI BindRestAPI))).

  (** A gateway that has its keys serves the client in time over HTTP. *)
  Theorem js_established : forall e g post gw i challenge ttl, posts_to post (r_client_ap gw) (serving e) BindRestAPI g -> represents pub_of gw g -> ready ec_sign blake g ->
    length challenge = 32%nat -> id32 i -> int64 ttl -> unix e <= ttl -> establish post gw challenge (ToString i) ttl = OkR tt.
  Proof using Law AC same_curve unb64_law.
    intros e g post gw i challenge ttl. apply (js_served_pf version supported sha256 sha512_256 pub_of ec_sign ec_verify blake verify voucher_text voucher_of is_address zone BindAdminAPI BindRestAPI); assumption.
  Qed.

  (** The client takes for established only a gateway whose registered key signed a text; if the text is that of a message of a Go node, it is an
      establishment response, and one of this gateway to this challenge. *)
  Theorem js_establishment_sound : forall post gw challenge clientID ttl, establish post gw challenge clientID ttl = OkR tt ->
    exists pub text raw, decodePublicKey (r_key gw) = OkR pub /\ js_ec pub (blake text) raw = true /\
      forall m, MessageToSign m = text -> m_type m = 101 /\
        forall version supported id c m0 s, EncodeClientEstablishmentResponse version supported (Some id) c = Ret m0 -> m = set_sig m0 s ->
          Client.lower (r_id gw) = Client.lower (ToString id) /\ c = b64_encode challenge.
  Proof using unb64_law. clear Law same_curve. intros post gw challenge clientID ttl. apply js_sound_pf. exact unb64_law. Qed.

  (** Activating: what was active stays, what becomes active is in use and established then, and is counted. *)
  Theorem js_active : forall post rand now ids c k c', addActiveGateways unb64 js_ec blake post rand now 0 c ids = (k, c') ->
    jc_use c' = jc_use c /\ jc_id c' = jc_id c /\ jc_ttl c' = jc_ttl c /\ Z.of_nat (length (jc_active c')) = Z.of_nat (length (jc_active c)) + k /\
    (forall id gw, aget bytes_eqb (jc_active c) id = Some gw -> aget bytes_eqb (jc_active c') id = Some gw) /\
    forall id gw, aget bytes_eqb (jc_active c') id = Some gw -> aget bytes_eqb (jc_active c) id = Some gw \/
      In id ids /\ aget bytes_eqb (jc_use c) id = Some gw /\ exists q, establish (post q) gw (rand q) (jc_id c) (now q + jc_ttl c) = OkR tt.
  Proof using.
    clear Law same_curve unb64_law. intros post rand now ids c k c' H. destruct (js_active_pf _ _ _ _ _ _ _ _ _ _ _ H) as (A & B & C & D & E & F).
    repeat (split; [assumption|]). intros id gw G. destruct (F id gw G) as [X|(X & Y & q & _ & Z)]; [now left|right]. split; [exact X|]. split; [exact Y|]. exists q. exact Z.
  Qed.

  (** Adding to use: only what the register gave under the identifier asked, with a readable key. *)
  Theorem js_use : forall find ids c k c', addGatewaysToUse find 0 c ids = (k, c') ->
    jc_active c' = jc_active c /\ jc_id c' = jc_id c /\ jc_ttl c' = jc_ttl c /\ Z.of_nat (length (jc_use c')) = Z.of_nat (length (jc_use c)) + k /\
    (forall id gw, aget bytes_eqb (jc_use c) id = Some gw -> aget bytes_eqb (jc_use c') id = Some gw) /\
    forall id gw, aget bytes_eqb (jc_use c') id = Some gw -> aget bytes_eqb (jc_use c) id = Some gw \/
      In id ids /\ (exists pub, decodePublicKey (r_key gw) = OkR pub) /\ exists q, find q id = Some gw.
  Proof using.
    clear Law same_curve unb64_law. intros find ids c k c' H. destruct (js_use_pf _ _ _ _ _ _ H) as (A & B & C & D & E & F).
    repeat (split; [assumption|]). intros id gw G. destruct (F id gw G) as [X|(X & Y & q & _ & Z)]; [now left|right]. split; [exact X|]. split; [|exists q; exact Z].
    unfold validateInfo in Y. destruct (decodePublicKey (r_key gw)) as [pub|]; [exists pub; reflexivity|discriminate].
  Qed.

  (** ** C175 *)
  (** Full claim: not served once the time to live has passed since the client asked; see [js_expiry_refuted].  Missing: the time sent is in
      milliseconds, and the gateway's in seconds. *)
  Theorem js_expiry_partial : forall e g post gw i challenge ttl, posts_to post (r_client_ap gw) (serving e) BindRestAPI g ->
    length challenge = 32%nat -> id32 i -> int64 ttl -> ttl < unix e -> establish post gw challenge (ToString i) ttl = ErrR.
  Proof using AC.
    clear Law same_curve unb64_law. intros e g post gw i challenge ttl.
    apply (js_late_pf version supported sha256 sha512_256 pub_of ec_sign ec_verify blake verify voucher_text voucher_of is_address zone BindAdminAPI BindRestAPI unb64 js_ec AC).
  Qed.

  (** ** C174 *)
  (** Full claim: for every signature; see [js_lenient_refuted] and [js_strict_refuted].  Missing: texts that are not those of 69 bytes in
      hexadecimal; what Go signs always is ([js_accepts_signed]). *)
  Theorem js_verify_partial : forall m key pk b, DecodePublicKey key = Ret (OkR pk) -> hex_decode (m_sig m) = Some b -> length b = 69%nat ->
    exists p, decodePublicKey key = OkR p /\ js_verify js_ec blake (js_of m) p = OkR (fst (MessageVerify pub_of ec_verify blake m pk)).
  Proof using same_curve. clear Law unb64_law. intros m key pk b. apply js_agree. exact same_curve. Qed.

  (** What a Go node signs is accepted with the public half of the key, as it comes over HTTP. *)
  Theorem js_accepts_signed : forall m k ver m' key pk, MessageSign ec_sign blake m k ver = (true, m') -> DecodePublicKey key = Ret (OkR pk) -> matches pub_of pk k ->
    exists p jm, decodePublicKey key = OkR p /\ message_of_data (js_data (written (Rest.Json m') [])) = OkR jm /\ js_verify js_ec blake jm p = OkR true.
  Proof using Law same_curve.
    clear unb64_law AC. intros m k ver m' key pk S D M. destruct (signed_form _ _ _ blake _ _ _ _ _ Law S eq_refl) as (b & H & L).
    destruct (js_verify_partial m' key pk b D H L) as (p & P & V). exists p, (js_of m'). split; [exact P|]. split.
    - rewrite <- js_receives. unfold respond. cbn [content bodies]. now rewrite app_nil_r.
    - rewrite V. f_equal. destruct (MessageProofs.message_roundtrip_pf _ _ _ _ _ _ _ _ _ Law M S) as (Q & _). rewrite Q. reflexivity.
  Qed.
End nodes.

Print Assumptions js_established.
Print Assumptions js_establishment_sound.
Print Assumptions js_active.
Print Assumptions js_use.
Print Assumptions js_expiry_partial.
Print Assumptions js_verify_partial.
Print Assumptions js_accepts_signed.

(** ** A client of gateway 50, which runs behind "c5" *)
Definition unb64_toy (s : gostring) : bytes := fst (b64_decode s).
Example unb64_toy_law b : unb64_toy (b64_encode b) = b.
Proof. unfold unb64_toy. now rewrite JsonProofs.b64_roundtrip. Qed.
Definition gw50 : reg := creg 50 5 (gs "gw") (gs "au").
Definition js_serving (e : env) : server (rest_handler gateway) := running [gs "80"; gs "81"] (with_handlers
  (client_handler 1 [1] toy_hash toy_hash toy_pub toy_sign PropertiesCrypto.toy_verify toy_blake toy_pay_verify toy_text toy_voucher toy_address 0 e) (gateway_rest (gs "80") (gs "81"))).
Definition js_post (e : env) (url : gostring) (body : bytes) : option response :=
  if bytes_eqb url (gs "http://c5/v1") then answered (fun _ => []) (msgRouter (js_serving e) (gs "81") toy_gw (Some body)) [] else None.
Example js_posts e : posts_to (js_post e) (r_client_ap gw50) (js_serving e) (gs "81") toy_gw.
Proof. intros body. exists (fun _ => []), []. split; [constructor|reflexivity]. Qed.
Definition js_challenge : bytes := idn 77.
Definition t_establish e gw ttl := requestEstablishment unb64_toy PropertiesCrypto.toy_verify toy_blake (js_post e) gw js_challenge (ToString (idn 3)) ttl.
(** In time; too late by a second; the key of another; nobody there; another gateway registered at this address. *)
Example js_established_ex :
  [t_establish toy_env gw50 40; t_establish toy_env gw50 39; t_establish toy_env (creg 50 6 [] []) 40; t_establish toy_env gw10 40;
   t_establish toy_env (Reg (ToString (idn 51)) [] [] (r_key gw50) [] [] [] (gs "c5") []) 40] = [OkR tt; ErrR; ErrR; ErrR; ErrR].
Proof. vm_compute. reflexivity. Qed.
Definition js_c : jsclient := JsClient (ToString (idn 3)) 100 [(ToString (idn 10), gw10)] [].
Definition js_find (_ : nat) (id : gostring) : option reg :=
  if bytes_eqb id (ToString (idn 50)) then Some gw50 else if bytes_eqb id (ToString (idn 51)) then Some (Reg id [] [] (gs "01ab") [] [] [] [] []) else None.
Definition js_c1 : jsclient := snd (addGatewaysToUse js_find 0 js_c (map ToString [idn 10; idn 50; idn 51; idn 52])).
Example js_use_ex : fst (addGatewaysToUse js_find 0 js_c (map ToString [idn 10; idn 50; idn 51; idn 52; idn 50])) = 1 /\ map fst (jc_use js_c1) = [ToString (idn 10); ToString (idn 50)].
Proof. vm_compute. split; reflexivity. Qed.
Definition t_active e now := addActiveGateways unb64_toy PropertiesCrypto.toy_verify toy_blake (fun _ => js_post e) (fun _ => js_challenge) (fun _ => now) 0 js_c1 (map ToString [idn 10; idn 50; idn 52; idn 50]).
Example js_active_ex : fst (t_active toy_env 40000) = 1 /\ map fst (jc_active (snd (t_active toy_env 40000))) = [ToString (idn 50)].
Proof. vm_compute. split; reflexivity. Qed.

(** C175: asked in second 40 with a time to live of 100, the gateway serves in second 30000, whatever the unit. *)
Theorem js_expiry_refuted : exists e now, jc_ttl js_c1 = 100 /\ now = 40 * 1000 /\ unix e > 40 + 100 /\ unix e * 1000 > now + 1000 * 100 /\
  posts_to (js_post e) (r_client_ap gw50) (js_serving e) (gs "81") toy_gw /\
  aget bytes_eqb (jc_active (snd (t_active e now))) (ToString (idn 50)) = Some gw50.
Proof.
  exists (at_time 30000 toy_env), 40000. split; [vm_compute; reflexivity|]. split; [reflexivity|]. split; [vm_compute; reflexivity|]. split; [vm_compute; reflexivity|]. split; [apply js_posts|].
  vm_compute. reflexivity.
Qed.

(** C174: a signature whose first bytes are not hexadecimal is accepted by the JavaScript client only. *)
Definition js_msg : message := signed 5 (EncodeClientEstablishmentResponse 1 [1] (Some (idn 50)) (gs "c")).
Definition js_odd : message := set_sig js_msg (gs "zz" ++ skipn 2 (m_sig js_msg)).
Definition js_short : message := set_sig js_msg (firstn 136 (m_sig js_msg)).
Definition js_pk : keypair := toy_pubkey 5.
Example js_verify_ex : DecodePublicKey (key_text 5) = Ret (OkR js_pk) /\
  js_verify PropertiesCrypto.toy_verify toy_blake (js_of js_msg) (toy_pub (idn 5)) = OkR true /\ fst (MessageVerify toy_pub PropertiesCrypto.toy_verify toy_blake js_msg js_pk) = true.
Proof. vm_compute. repeat split; reflexivity. Qed.
Theorem js_lenient_refuted : exists m key pk p, DecodePublicKey key = Ret (OkR pk) /\ decodePublicKey key = OkR p /\
  js_verify PropertiesCrypto.toy_verify toy_blake (js_of m) p = OkR true /\ fst (MessageVerify toy_pub PropertiesCrypto.toy_verify toy_blake m pk) = false.
Proof. exists js_odd, (key_text 5), js_pk, (toy_pub (idn 5)). vm_compute. repeat split; reflexivity. Qed.
(** A signature without the last byte is accepted by Go only. *)
Theorem js_strict_refuted : exists m key pk p, DecodePublicKey key = Ret (OkR pk) /\ decodePublicKey key = OkR p /\
  js_verify PropertiesCrypto.toy_verify toy_blake (js_of m) p = OkR false /\ fst (MessageVerify toy_pub PropertiesCrypto.toy_verify toy_blake m pk) = true.
Proof. exists js_short, (key_text 5), js_pk, (toy_pub (idn 5)). vm_compute. repeat split; reflexivity. Qed.
Print Assumptions js_expiry_refuted.
Print Assumptions js_lenient_refuted.
Print Assumptions js_strict_refuted.
