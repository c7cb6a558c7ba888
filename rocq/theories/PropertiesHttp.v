(** * Properties of messages over HTTP (C171) *)
From Coq Require Import String List ZArith Bool Lia.
From Coq Require Import Init.Byte.
From Verif Require Import Base BaseProofs Json Crypto Message WireSpec MessageProofs OfferProofs Messages MessagesSpec Payment Register Server FrameSpec FrameProofs Routes RoutesProofs
  Gateway Provider Http HttpProofs HttpSpec HttpNodeProofs.
From Verif Require Rest AdminSpec RetrievalSpec AckSpec PropertiesFrame.
Import ListNotations.
Open Scope Z_scope.
Open Scope go_scope.

Lemma bytes_not_nil m : exists c t, FCRMsgToBytes m = c :: t.
Proof. unfold FCRMsgToBytes, message_json. cbn [json_print]. eauto. Qed.

Lemma panic_read texts before : sound before ->
  (if code (respond texts (before ++ [Rest.HttpError 500])) =? 200 then FCRMsgFromBytes (content (respond texts (before ++ [Rest.HttpError 500]))) else ErrR) = ErrR.
Proof.
  intros S. rewrite response_read.
  - destruct before as [|[c|r] [|b t]]; reflexivity.
  - intros c I. apply in_app_iff in I. destruct I as [I|[I|[]]]; [|injection I as <-; discriminate]. exact (proj1 (Forall_forall _ _) S _ I).
  - intros r I. apply in_app_iff in I. destruct I as [I|[I|[]]]; [|discriminate]. exact (proj1 (Forall_forall _ _) S _ I).
Qed.

Lemma posted {St} post url (s : server (rest_handler St)) addr st m : posts_to post url s addr st -> wire_message m ->
  (forall h st' l, handler_of s addr (m_type m) = Some h -> h st m = Ret (st', l) -> sound l) ->
  SendMessage post url m = match handler_of s addr (m_type m) with Some h => to_result (AdminSpec.received (h st m)) | None => ErrR end.
Proof.
  intros P (W1 & W2 & W3) K. unfold SendMessage. destruct (P (FCRMsgToBytes m)) as (texts & before & B & ->). clear P.
  destruct (bytes_not_nil m) as (c & t & E). unfold msgRouter. rewrite E, <- E, message_wire_pf by assumption.
  assert (BAD : answered texts (Ret (st, [Rest.HttpError 400])) before = Some (respond texts [Rest.HttpError 400])) by reflexivity.
  destruct (handler_of s addr (m_type m)) as [h|] eqn:H; [|reflexivity]. specialize (K h). destruct (h st m) as [[st' l]| |].
  - cbn [answered]. specialize (K st' l eq_refl eq_refl). rewrite response_read.
    + unfold AdminSpec.received. destruct l as [|[x|r] [|y l]]; reflexivity.
    + intros x I. exact (proj1 (Forall_forall _ _) K _ I).
    + intros r I. exact (proj1 (Forall_forall _ _) K _ I).
  - cbn [answered]. now apply panic_read.
  - reflexivity.
Qed.

(** A message sent to the interface of a server reaches, as it was sent, the handler registered last for its type, and what comes back is
    the message the handler wrote; everything else, no handler, an error, nothing or more than one message written, a panic, or no end,
    is an error. *)
Theorem http_carries : forall St addrs (adds : registrations (rest_handler St)) addr st post url m,
  posts_to post url (running addrs adds) addr st -> In addr addrs -> wire_message m ->
  (forall h st' l, registered adds addr (m_type m) = Some h -> h st m = Ret (st', l) -> sound l) ->
  SendMessage post url m = match registered adds addr (m_type m) with Some h => to_result (AdminSpec.received (h st m)) | None => ErrR end.
Proof.
  intros St addrs adds addr st post url m P A W K.
  assert (R : handler_of (running addrs adds) addr (m_type m) = registered adds addr (m_type m)).
  { rewrite running_pf. replace (existsb (bytes_eqb addr) addrs) with true; [reflexivity|]. symmetry. apply existsb_exists. exists addr. split; [exact A|apply bytes_eqb_refl]. }
  rewrite <- R in *. now apply posted.
Qed.

Lemma with_registered {K H} (f : K -> H) adds addr t : registered (with_handlers f adds) addr t = option_map f (registered adds addr t).
Proof.
  induction adds as [|[[a t'] k] adds IH]; [reflexivity|]. cbn [with_handlers map registered fst snd]. unfold with_handlers in IH. rewrite IH.
  destruct (registered adds addr t); [reflexivity|]. cbn [option_map]. now destruct (bytes_eqb a addr && (t' =? t)).
Qed.
Lemma with_running {K H} (f : K -> H) addrs adds addr t : handler_of (running addrs (with_handlers f adds)) addr t = option_map f (handler_of (running addrs adds) addr t).
Proof. rewrite !running_pf, with_registered. now destruct (existsb (bytes_eqb addr) addrs). Qed.

Lemma node_posted {K St} (f : K -> rest_handler St) addrs adds addr st post url m out :
  posts_to post url (running addrs (with_handlers f adds)) addr st -> wire_message m ->
  out = match handler_of (running addrs adds) addr (m_type m) with Some k => f k st m | None => Ret (st, []) end -> sat fine_pair out ->
  SendMessage post url m = to_result (AdminSpec.received out).
Proof.
  intros P W E S. rewrite (posted post url _ addr st m P W), with_running.
  - rewrite E. clear E. now destruct (handler_of (running addrs adds) addr (m_type m)) as [k|].
  - intros h st' l. rewrite with_running. rewrite E in S. clear E. destruct (handler_of (running addrs adds) addr (m_type m)) as [k|]; [|discriminate].
    cbn [option_map]. intros E. apply (f_equal (fun o => match o with Some x => x | None => h end)) in E. subst h. intros E. rewrite E in S. exact S.
Qed.

(** The nodes: what a client or an administrator gets over HTTP is what the handlers of the node wrote ([AdminSpec.received]), for each
    message with 32-bit integers, as all messages of Go are. *)
Section nodes.
  Variable version : Z.
  Variable supported : list Z.
  Variable sha256 sha512_256 : bytes -> bytes.
  Variable pub_of : bytes -> bytes.
  Variable ec_sign : bytes -> bytes -> option bytes.
  Variable ec_verify : bytes -> bytes -> bytes -> bool.
  Variable blake : bytes -> bytes.
  Variable verify : gostring -> voucher -> option bytes -> bool.
  Variable voucher_text : voucher -> gostring.
  Variable voucher_of : gostring -> option voucher.
  Variable is_address : gostring -> bool.
  Variable zone : Z.
  Variables BindAdminAPI BindRestAPI BindGatewayAPI BindProviderAPI : gostring.
  Hypothesis version_32 : int32 version.
  Hypothesis supported_32 : Forall int32 supported.

  Let handler := RetrievalSpec.client_handler version supported sha256 sha512_256 pub_of ec_sign ec_verify blake verify voucher_text voucher_of is_address zone.
  Let api := RetrievalSpec.client_api version supported sha256 sha512_256 pub_of ec_sign ec_verify blake verify voucher_text voucher_of is_address zone
    BindAdminAPI BindRestAPI BindGatewayAPI BindProviderAPI.
  Theorem http_reaches_gateway : forall e g post url m,
    posts_to post url (running [BindAdminAPI; BindRestAPI] (with_handlers (handler e) (gateway_rest BindAdminAPI BindRestAPI))) BindRestAPI g -> wire_message m ->
    SendMessage post url m = to_result (AdminSpec.received (api e g m)).
  Proof using version_32 supported_32.
    intros e g post url m P W. apply (node_posted _ _ _ _ _ _ _ _ _ P W); [unfold api, RetrievalSpec.client_api, routed; reflexivity|apply client_api_sound; assumption].
  Qed.

  Let ghandler := AdminSpec.gateway_handler version supported sha256 ec_sign blake.
  Let gapi := AdminSpec.gateway_api version supported sha256 ec_sign blake BindAdminAPI BindRestAPI BindGatewayAPI BindProviderAPI.
  Theorem http_reaches_gateway_admin : forall e order wallet n post url m,
    posts_to post url (running [BindAdminAPI; BindRestAPI] (with_handlers (ghandler e order wallet) (gateway_rest BindAdminAPI BindRestAPI))) BindAdminAPI n -> wire_message m ->
    SendMessage post url m = to_result (AdminSpec.received (gapi e order wallet n m)).
  Proof using version_32 supported_32.
    intros e order wallet n post url m P W. apply (node_posted _ _ _ _ _ _ _ _ _ P W); [unfold gapi, AdminSpec.gateway_api, routed; reflexivity|apply gateway_api_sound; assumption].
  Qed.

  Let phandler := AdminSpec.provider_handler version supported sha256 sha512_256 pub_of ec_sign ec_verify blake.
  Let papi := AdminSpec.provider_api version supported sha256 sha512_256 pub_of ec_sign ec_verify blake BindAdminAPI BindRestAPI BindGatewayAPI BindProviderAPI.
  Theorem http_reaches_provider_admin : forall e p post url m,
    posts_to post url (running [BindAdminAPI; BindRestAPI] (with_handlers (phandler e) (provider_rest BindAdminAPI BindRestAPI))) BindAdminAPI p -> wire_message m ->
    SendMessage post url m = to_result (AdminSpec.received (papi e p m)).
  Proof using version_32 supported_32.
    intros e p post url m P W. apply (node_posted _ _ _ _ _ _ _ _ _ P W); [unfold papi, AdminSpec.provider_api, routed; reflexivity|apply provider_api_sound; assumption].
  Qed.

  Let chandler := AckSpec.counter_handler version supported sha256 ec_sign blake.
  Let capi := AckSpec.counter_api version supported sha256 ec_sign blake BindAdminAPI BindRestAPI BindGatewayAPI BindProviderAPI.
  Theorem http_reaches_provider : forall p post url m,
    posts_to post url (running [BindAdminAPI; BindRestAPI] (with_handlers chandler (provider_rest BindAdminAPI BindRestAPI))) BindRestAPI p -> wire_message m ->
    SendMessage post url m = to_result (AdminSpec.received (capi p m)).
  Proof using version_32 supported_32.
    intros p post url m P W. apply (node_posted _ _ _ _ _ _ _ _ _ P W); [unfold capi, AckSpec.counter_api, routed; reflexivity|apply counter_api_sound; assumption].
  Qed.
End nodes.

Print Assumptions http_carries.
Print Assumptions http_reaches_gateway.
Print Assumptions http_reaches_gateway_admin.
Print Assumptions http_reaches_provider_admin.
Print Assumptions http_reaches_provider.

(** A server with handlers of all sorts: one that answers, one that refuses, one that writes twice, one that writes nothing, one that panics. *)
Definition msg (t : Z) (body : string) : message := Message t 1 (Some [1; 1]) (Some (gs body)) (gs "sig").
Definition toy_adds : registrations (rest_handler Z) :=
  [(gs "80", 1, fun n m => Ret (n + 1, [Rest.Json (msg 11 "answer")])); (gs "80", 2, fun n m => Ret (n, [Rest.HttpError 400]));
   (gs "80", 3, fun n m => Ret (n, [Rest.Json m; Rest.Json m])); (gs "80", 4, fun n m => Ret (n, [])); (gs "80", 5, fun n m => Panic);
   (gs "80", 6, fun n m => Ret (n, [Rest.HttpError 500; Rest.Json m]))].
Definition toy_server : server (rest_handler Z) := running [gs "80"] toy_adds.
Definition toy_post (url : gostring) (body : bytes) : option response :=
  if bytes_eqb url (gs "http://node:80/v1") then answered (fun _ => gs "no") (msgRouter toy_server (gs "80") 5 (Some body)) [Rest.Json (msg 12 "half")] else None.
Example toy_posts : posts_to toy_post (gs "node:80") toy_server (gs "80") 5.
Proof. intros body. exists (fun _ => gs "no"), [Rest.Json (msg 12 "half")]. split; [repeat constructor; discriminate|reflexivity]. Qed.
Example http_carries_ex :
  map (fun t => SendMessage toy_post (gs "node:80") (msg t "question")) [1; 2; 3; 4; 5; 6; 7] = [OkR (msg 11 "answer"); ErrR; ErrR; ErrR; ErrR; ErrR; ErrR] /\
  SendMessage toy_post (gs "node:81") (msg 1 "question") = ErrR.
Proof. vm_compute. split; reflexivity. Qed.
(** The text of a message as the server writes it. *)
Example written_ex : written (Rest.Json (Message 7 1 (Some [1; 2]) None (gs "s"))) [] =
  gs "{" ++ newline 1 ++ print_str (gs "message_type") ++ gs ": 7," ++ newline 1 ++ print_str (gs "protocol_version") ++ gs ": 1," ++ newline 1 ++
  print_str (gs "protocol_supported") ++ gs ": [" ++ newline 2 ++ gs "1," ++ newline 2 ++ gs "2" ++ newline 1 ++ gs "]," ++ newline 1 ++
  print_str (gs "message_body") ++ gs ": null," ++ newline 1 ++ print_str (gs "message_signature") ++ gs ": " ++ print_str (gs "s") ++ newline 0 ++ gs "}".
Proof. vm_compute. reflexivity. Qed.
