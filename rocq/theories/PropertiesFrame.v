(** * Properties of TCP framing and request dispatch (C23, C52, C86) *)
From Coq Require Import String List ZArith Bool Lia.
From Coq Require Import Init.Byte.
From Verif Require Import Base BaseProofs Ids Json Crypto Message WireSpec Messages MessagesSpec Frame Server FrameSpec FrameProofs
  Routes RoutesProofs.
Import ListNotations.
Open Scope Z_scope.
Open Scope go_scope.

Definition msg_a : message := Message 100 1 (Some [1; 1]) (Some (gs "first")) (gs "aa").
Definition msg_b : message := Message 203 1 (Some [1; 1]) (Some (gs "second")) (gs "bb").
Lemma msgs_sendable : Forall sendable [msg_a; msg_b].
Proof.
  assert (S : forall l, Some [1; 1] = Some l -> Forall int32 l).
  { intros l H. assert (X : [1; 1] = l) by congruence. subst. apply Forall_forall. intros x [<-|[<-|[]]]; unfold int32; lia. }
  apply Forall_forall. intros m [<-|[<-|[]]]; unfold sendable, int32; cbn [m_type m_version m_supported msg_a msg_b];
    (split; [lia|]; split; [lia|]; split; [exact S|vm_compute; reflexivity]).
Qed.

(** ** C23 *)

(** Full claim: without the assumptions of [arrives] that no piece has bytes of two
    messages and no deadline passes within a message (both needed, see below). *)
Theorem tcp_delivery_partial : forall ms conn, arrives ms conn -> Forall sendable ms ->
  received (S (length conn)) conn = Ret ms.
Proof. intros ms conn A F. apply (received_pf ms conn A F [] (S (length conn))); [reflexivity|auto]. Qed.
Print Assumptions tcp_delivery_partial.

(** The next message is always read, whatever follows it; what is lost of the rest is
    less than the size of the buffer. *)
Theorem tcp_first_message : forall m cs rest conn, sendable m -> concat cs = sendTCPMessage m ++ rest ->
  exists lost cs', readTCPMessage (map Data cs ++ conn) = Ret (Got (OkR m), map Data cs' ++ conn) /\
    rest = lost ++ concat cs' /\ Z.of_nat (length lost) < 4096.
Proof. exact read_message. Qed.
Print Assumptions tcp_first_message.

(** Nothing is made up: a message that is read is a frame of the stream. *)
Theorem tcp_read_sound : forall conn r conn', readTCPMessage conn = Ret (Got r, conn') ->
  exists len data lost, stream conn = len ++ data ++ lost ++ stream conn' /\ length len = 4%nat /\
    be_val len = Z.of_nat (length data) /\ FCRMsgFromBytes data = r.
Proof. exact read_sound. Qed.
Print Assumptions tcp_read_sound.

(** Whatever arrives, reading returns. *)
Theorem tcp_read_returns : forall conn, exists r, readTCPMessage conn = Ret r.
Proof. exact read_ends. Qed.
Print Assumptions tcp_read_returns.

Definition cut (n : nat) (b : bytes) : list bytes := [firstn n b; skipn n b].
Example tcp_delivery_ex :
  let conn := map Data (cut 2 (sendTCPMessage msg_a)) ++ [Idle; Idle] ++ map Data (cut 30 (sendTCPMessage msg_b)) ++ [] in
  arrives [msg_a; msg_b] conn /\ received 20 conn = Ret [msg_a; msg_b].
Proof.
  intros conn. split; [|vm_compute; reflexivity].
  apply arrives_message; [vm_compute; reflexivity|]. apply arrives_idle, arrives_idle.
  apply arrives_message; [vm_compute; reflexivity|]. constructor.
Qed.
Example tcp_read_ex :
  readTCPMessage [Data [x00; x00]; Data [x00; x02; x7b]; Data [x7d; x00]] = Ret (Got (OkR (Message 0 0 None None [])), [Data []]) /\
  readTCPMessage [Data [x00; x00; x00; x02; x7b]] = Ret (Broken, []) /\
  readTCPMessage [Data [x00; x00; x00; x01; x7b; x7d]] = Ret (Got ErrR, [Data []]) /\
  sendTCPMessage (Message 7 1 None None []) =
    [x00; x00; x00; x6c] ++ gs "{""message_type"":7,""protocol_version"":1,""protocol_supported"":null,""message_body"":null,""message_signature"":""""}".
Proof. vm_compute. repeat split. Qed.

(** Two messages that arrive together: the second is lost.  A message during which a
    deadline passes is lost, too. *)
Theorem tcp_delivery_refuted :
  received 20 [Data (sendTCPMessage msg_a ++ sendTCPMessage msg_b)] = Ret [msg_a] /\
  received 20 ([Data (firstn 10 (sendTCPMessage msg_a)); Idle; Data (skipn 10 (sendTCPMessage msg_a)); Data (sendTCPMessage msg_b)]) = Ret [].
Proof. vm_compute. split; reflexivity. Qed.
Print Assumptions tcp_delivery_refuted.

(** ** C52 *)

(** The handler of an address and type is the last one registered for them before
    the server was started, if the server listens on the address. *)
Theorem dispatch_registered : forall H addrs (adds : registrations H) addr t,
  handler_of (running addrs adds) addr t = (if existsb (bytes_eqb addr) addrs then registered adds addr t else None) /\
  forall a t' h, AddHandler (running addrs adds) a t' h = running addrs adds.
Proof. intros. split; [apply running_pf|intros; apply running_late]. Qed.
Print Assumptions dispatch_registered.

(** A running server cannot be started again. *)
Theorem start_once : forall H addrs (adds : registrations H), Start (running addrs adds) = (ErrR, running addrs adds).
Proof. intros. unfold running, Start at 1. destruct (s_start _) eqn:E; [reflexivity|]. unfold Start in E. destruct (s_start (fold_left _ _ _)) eqn:E'; cbn [snd s_start] in E; congruence. Qed.
Print Assumptions start_once.

(** Messages on a TCP connection are handled in order, each by its handler alone or
    with an invalid-message reply, until a handler asks to stop. *)
Theorem p2p_dispatch : forall St addrs (adds : registrations (p2p_handler St)) addr ms conn st,
  arrives ms conn -> Forall sendable ms -> In addr addrs ->
  (forall a t h, In (a, t, h) adds -> answers_only h) ->
  serve St (S (length conn)) (table_of (running addrs adds) addr) st conn = dispatched (registered adds addr) st ms.
Proof.
  intros St addrs adds addr ms conn st A F L AO.
  assert (G : forall t, aget Z.eqb (table_of (running addrs adds) addr) t = registered adds addr t).
  { intros t. rewrite table_of_spec, running_pf. replace (existsb (bytes_eqb addr) addrs) with true; [reflexivity|].
    symmetry. apply existsb_exists. exists addr. split; [exact L|]. apply bytes_eqb_eq. reflexivity. }
  assert (R : forall (l : registrations (p2p_handler St)) t h, registered l addr t = Some h -> exists a, In (a, t, h) l).
  { induction l as [|[[a t'] h'] l IH]; cbn [registered]; intros t h E; [discriminate|].
    destruct (registered l addr t) as [h2|] eqn:Q.
    - assert (h2 = h) by congruence. subst. apply IH in Q. destruct Q as [a' Q]. exists a'. right. exact Q.
    - destruct (bytes_eqb a addr && (t' =? t)) eqn:B; [|discriminate]. apply andb_true_iff in B. destruct B as [_ B].
      apply Z.eqb_eq in B. subst. exists a. left. congruence. }
  etransitivity; [apply (serve_pf St (table_of (running addrs adds) addr) ms conn A F) with (es := [])|]; auto.
  - intros t h E. rewrite G in E. apply R in E. destruct E as [a E]. exact (AO _ _ _ E).
  - clear -G. revert st. induction ms as [|m ms IH]; intros st; cbn [dispatched]; [reflexivity|]. rewrite G.
    destruct (registered adds addr (m_type m)) as [h|]; [|rewrite IH; reflexivity].
    destruct (h st [] m) as [[[[st' c] r] [|]]| |]; cbn [obind]; try reflexivity. rewrite IH. reflexivity.
Qed.
Print Assumptions p2p_dispatch.

(** A posted text reaches the handler of its type, or is a bad request and changes
    nothing. *)
Theorem rest_dispatch : forall St addrs (adds : registrations (rest_handler St)) addr st text,
  msgRouter (running addrs adds) addr st text =
  match text with
  | Some (c :: b) =>
      match FCRMsgFromBytes (c :: b) with
      | OkR m =>
          match registered adds addr (m_type m) with
          | Some h => if existsb (bytes_eqb addr) addrs then h st m else Ret (st, [Rest.HttpError 400])
          | None => Ret (st, [Rest.HttpError 400])
          end
      | ErrR => Ret (st, [Rest.HttpError 400])
      end
  | _ => Ret (st, [Rest.HttpError 400])
  end.
Proof.
  intros St addrs adds addr st [[|c b]|]; try reflexivity. unfold msgRouter.
  destruct (FCRMsgFromBytes (c :: b)) as [m|]; [|reflexivity]. rewrite running_pf.
  destruct (existsb (bytes_eqb addr) addrs), (registered adds addr (m_type m)); reflexivity.
Qed.
Print Assumptions rest_dispatch.

Definition count_handler (n : Z) : p2p_handler Z := fun st conn m => Ret (st + n, conn, [m], st + n <? 100).
Lemma count_answers n : answers_only (count_handler n).
Proof. intros st conn m. reflexivity. Qed.
Example p2p_dispatch_ex :
  let adds := [(gs "80", 100, count_handler 1); (gs "80", 203, count_handler 5); (gs "81", 203, count_handler 7); (gs "80", 100, count_handler 2)] in
  let conn := map (fun m => Data (sendTCPMessage m)) [msg_a; msg_b; set_sig msg_a []; Message 9 1 None None []] in
  serve Z 10 (table_of (running [gs "80"] adds) (gs "80")) 0 conn
  = Ret (9, [Handled 100 msg_a [msg_a]; Handled 203 msg_b [msg_b]; Handled 100 (set_sig msg_a []) [set_sig msg_a []];
             Invalid (Message 9 1 None None [])]) /\
  handler_of (running [gs "80"] adds) (gs "81") 203 = None.
Proof. vm_compute. split; reflexivity. Qed.
Definition echo (n : Z) : rest_handler Z := fun st m => Ret (st + n, [Rest.Json m]).
Example rest_dispatch_ex :
  let s := running [gs "80"; gs "81"] [(gs "80", 100, echo 1); (gs "81", 203, echo 5)] in
  msgRouter s (gs "80") 7 (Some (FCRMsgToBytes msg_a)) = Ret (8, [Rest.Json msg_a]) /\
  msgRouter s (gs "81") 7 (Some (FCRMsgToBytes msg_a)) = Ret (7, [Rest.HttpError 400]) /\
  msgRouter s (gs "81") 7 (Some (FCRMsgToBytes msg_b)) = Ret (12, [Rest.Json msg_b]) /\
  msgRouter s (gs "80") 7 (Some (gs "no json")) = Ret (7, [Rest.HttpError 400]).
Proof. vm_compute. repeat split. Qed.

(** ** C86 *)

(** Full claim: also for ping requests (false, see below). *)
Theorem requests_reach_their_handler_partial : forall version supported admin client gateway provider n w k m,
  admin <> client -> gateway <> provider -> k <> KGatewayPingRequest -> sends version supported k m ->
  routed admin client gateway provider n w (m_type m) =
  match request k with
  | Some (n', w') => if same_node n n' && same_sender w w' then Some k else None
  | None => None
  end.
Proof. exact routed_pf. Qed.
Print Assumptions requests_reach_their_handler_partial.

Example requests_reach_ex :
  routed (gs "admin") (gs "client") (gs "gateway") (gs "provider") AtGateway ByClient 112 = Some KClientDHTDiscoverRequestV2 /\
  routed (gs "admin") (gs "client") (gs "gateway") (gs "provider") AtGateway ByClient 404 = None /\
  routed (gs "admin") (gs "client") (gs "gateway") (gs "provider") AtGateway ByAdmin 404 = Some KGatewayAdminSetReputationRequest /\
  routed (gs "same") (gs "same") (gs "gateway") (gs "provider") AtGateway ByClient 404 = Some KGatewayAdminSetReputationRequest.
Proof. vm_compute. repeat split. Qed.

(** A ping request is handled as a group-offer-support notification. *)
Theorem requests_reach_their_handler_refuted :
  exists m, EncodeGatewayPingRequest 1 [1; 1] (Some (repeat x07 32)) 8 9 = Ret m /\
  forall admin client gateway provider,
    routed admin client gateway provider AtProvider ByGateway (m_type m) = Some KGatewayNotifyProviderGroupCIDOfferSupportRequest.
Proof.
  eexists. split; [vm_compute; reflexivity|]. intros. unfold routed, provider_p2p_server. rewrite running_pf.
  cbn [existsb]. rewrite (eqb_refl_bytes gateway). unfold provider_p2p. cbn [registered]. rewrite (eqb_refl_bytes gateway). reflexivity.
Qed.
Print Assumptions requests_reach_their_handler_refuted.
