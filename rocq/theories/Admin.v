(** * The administrators' libraries

    Models gateway-admin/pkg (api/adminapi, fcrgatewayadmin) and provider-admin/pkg
    (api/adminapi, fcrprovideradmin) over the models of messages and keys.  Calls run one
    after another, so the locks are left out.  Logging and the texts of errors are left
    out; registrations given are not nil.  Definitions only. *)
From Coq Require Import String List ZArith Bool.
From Coq Require Import Init.Byte.
From Verif Require Import Base Ids Crypto Message Offer Schema Messages Rest.
From Verif Require Client.
Import ListNotations.
Open Scope Z_scope.
Open Scope go_scope.

Notation reg := Client.reg.
Notation r_id := Client.r_id.
Notation r_admin_ap := Client.r_admin_ap.

(** A request that was sent, and where. *)
Definition post := (gostring * message)%type.

(** ** Settings *)

(** gateway-admin/pkg/fcrgatewayadmin/gateway-admin-settings.go L23-32 [GatewayAdminSettings],
    provider-admin/pkg/fcrprovideradmin/provider_admin_settings.go L21-28 [ProviderAdminSettings] (no time to live). *)
Record settings := Settings {
  st_ttl : Z; st_url : gostring; st_chain : option keypair; st_key : option keypair; st_ver : option Z }.

(** builder.go L30-44 [SettingsBuilder] of both libraries.  What is set for logging and lotus is not used. *)
Record builder := Builder { b_url : gostring; b_chain : option keypair; b_key : option keypair; b_ver : option Z }.

(** gateway-admin/pkg/fcrgatewayadmin/builder.go L47-53 [CreateSettings]. *)
Definition CreateGatewaySettings : builder := Builder [] None None None.
(** provider-admin/pkg/fcrprovideradmin/builder.go L47-54 [CreateSettings], defaults.go L30. *)
Definition CreateProviderSettings : builder := Builder (gs "http://register:9020") None None None.

(** gateway-admin/pkg/fcrgatewayadmin/builder.go L63-76, provider-admin/pkg/fcrprovideradmin/builder.go L64-77. *)
Definition SetBlockchainPrivateKey (b : builder) (k : option keypair) : builder := Builder (b_url b) k (b_key b) (b_ver b).
Definition SetAdminPrivateKey (b : builder) (k : option keypair) (v : option Z) : builder := Builder (b_url b) (b_chain b) k v.
Definition SetRegisterURL (b : builder) (u : gostring) : builder := Builder u (b_chain b) (b_key b) (b_ver b).

(** gateway-admin/pkg/fcrgatewayadmin/builder.go L79-103 [Build],
    provider-admin/pkg/fcrprovideradmin/builder.go L80-105 [Build]: [generated] is the new key, if one can be made.
    The time to live is never assigned. *)
Definition Build (b : builder) (generated : result keypair) : outcome settings :=
  match b_chain b with
  | None => Panic
  | Some _ =>
      match b_key b with
      | Some _ => Ret (Settings 0 (b_url b) (b_chain b) (b_key b) (b_ver b))
      | None =>
          match generated with
          | ErrR => Panic
          | OkR k => Ret (Settings 0 (b_url b) (b_chain b) (Some k) (Some 1))
          end
      end
  end.

(** fcrgatewayadmin/filecoin-gateway-admin.go L32-40 [FilecoinRetrievalGatewayAdmin],
    fcrprovideradmin/filecoin_provider_admin.go L33-40 [FilecoinRetrievalProviderAdmin]: key and version of the
    settings, and the nodes in use. *)
Record admin := Admin { ad_key : option keypair; ad_ver : option Z; ad_nodes : list (gostring * reg) }.

(** fcrgatewayadmin/filecoin-gateway-admin.go L43-50 [NewFilecoinRetrievalGatewayAdmin],
    fcrprovideradmin/filecoin_provider_admin.go L43-50 [NewFilecoinRetrievalProviderAdmin]. *)
Definition NewAdmin (s : settings) : admin := Admin (st_key s) (st_ver s) [].

(** filecoin-gateway-admin.go L61, L91, L141; filecoin_provider_admin.go L61, L91. *)
Definition with_node (a : admin) (r : reg) : admin := Admin (ad_key a) (ad_ver a) (aset bytes_eqb (ad_nodes a) (r_id r) r).

Section admin.
  Variable version : Z.
  Variable supported : list Z.
  Variable sha256 : bytes -> bytes.
  Variable pub_of : bytes -> bytes.
  Variable ec_sign : bytes -> bytes -> option bytes.
  Variable ec_verify : bytes -> bytes -> bytes -> bool.
  Variable blake : bytes -> bytes.
  (** What comes back on a request, common/pkg/request/request.go L99-135 [SendMessage]. *)
  Variable http : gostring -> message -> option message.

  (** common/pkg/fcrmessages/fcrmessage.go L89-102 [Sign]: a nil key is dereferenced at once (keypair_retrieval.go
      L136), a nil version after signing (msg_signing.go L44). *)
  Definition SignAs (key : option keypair) (ver : option Z) (m : message) : outcome (bool * message) :=
    let* k := deref key in
    match ver with
    | Some v => Ret (MessageSign ec_sign blake m k v)
    | None => if fst (MessageSign ec_sign blake m k 0) then Panic else Ret (false, m)
    end.

  (** The common part of the requesters: read the registered key, encode, sign, send to the interface for
      administrators, verify.  The response, if it came and is signed, and what was sent.  For example
      gateway-admin/pkg/api/adminapi/force_refresh_requester.go L36-62. *)
  Definition contact (node : reg) (key : option keypair) (ver : option Z) (encoded : outcome (result message))
      : outcome (option message * list post) :=
    let* k := Client.GetSigningKey node in
    match k with
    | ErrR => Ret (None, [])
    | OkR k =>
        let* request := encoded in
        match request with
        | ErrR => Ret (None, [])
        | OkR request =>
            let* s := SignAs key ver request in
            if negb (fst s) then Ret (None, [])
            else
              let out := [(r_admin_ap node, snd s)] in
              match http (r_admin_ap node) (snd s) with
              | None => Ret (None, out)
              | Some response =>
                  let v := MessageVerify pub_of ec_verify blake response k in
                  Ret (if fst v then Some (snd v) else None, out)
              end
        end
    end.

  (** Requests whose answer is a flag: no error if the flag is set.  For example
      gateway-admin/pkg/api/adminapi/force_refresh_requester.go L64-74. *)
  Definition confirmed (node : reg) (key : option keypair) (ver : option Z) (encoded : outcome (result message))
      (dec : message -> outcome (result bool)) : outcome (bool * list post) :=
    let* x := contact node key ver encoded in
    let (r, out) := x in
    match r with
    | None => Ret (false, out)
    | Some response =>
        let* d := dec response in
        Ret (match d with OkR true => true | _ => false end, out)
    end.

  (** Encoding that cannot fail. *)
  Definition plainly (m : outcome message) : outcome (result message) := let* m := m in Ret (OkR m).
  (** Encoding with the identifier of the node, initialise_key_requester.go L41-45. *)
  Definition for_node (node : reg) (f : option bytes -> outcome message) : outcome (result message) :=
    match NewNodeIDFromHexString (r_id node) with
    | ErrR => Ret ErrR
    | OkR id => plainly (f (Some id))
    end.

  (** ** Requests to gateways *)

  (** gateway-admin/pkg/api/adminapi/initialise_key_requester.go L29-78 [RequestInitialiseKey]: was there no error, and
      what was sent. *)
  Definition GwRequestInitialiseKey (node : reg) (nodeKey : option keypair) (nodeVer : option Z) (key : option keypair) (ver : option Z)
      : outcome (bool * list post) :=
    confirmed node key ver (for_node node (fun id => EncodeGatewayAdminInitialiseKeyRequest version supported id nodeKey nodeVer))
      (DecodeGatewayAdminInitialiseKeyResponse sha256).

  (** gateway-admin/pkg/api/adminapi/initialise_key_requester_v2.go L29-90 [RequestInitialiseKeyV2]. *)
  Definition GwRequestInitialiseKeyV2 (node : reg) (nodeKey : option keypair) (nodeVer : option Z) (key : option keypair) (ver : option Z)
      (wallet ap token : gostring) : outcome (bool * list post) :=
    confirmed node key ver
      (for_node node (fun id => EncodeGatewayAdminInitialiseKeyRequestV2 version supported id nodeKey nodeVer wallet ap token))
      (DecodeGatewayAdminInitialiseKeyResponse sha256).

  (** gateway-admin/pkg/api/adminapi/set_group_cid_support.go L28-78 [SetGroupCIDOfferSupportedForProviders]. *)
  Definition SetGroupCIDOfferSupportedForProviders (node : reg) (providers : list bytes) (key : option keypair) (ver : option Z)
      : outcome (bool * list post) :=
    confirmed node key ver (for_node node (fun id => EncodeUpdateGatewayGroupCIDOfferSupportRequest version supported id providers))
      (DecodeUpdateGatewayGroupCIDOfferSupportResponse sha256).

  (** gateway-admin/pkg/api/adminapi/force_refresh_requester.go L31-75 [RequestForceRefresh]. *)
  Definition GwRequestForceRefresh (node : reg) (key : option keypair) (ver : option Z) : outcome (bool * list post) :=
    confirmed node key ver (plainly (EncodeGatewayAdminForceRefreshRequest version supported true))
      (DecodeGatewayAdminForceRefreshResponse sha256).

  (** gateway-admin/pkg/api/adminapi/list_dht_offer_requester.go L28-72 [RequestListDHTOffer]. *)
  Definition RequestListDHTOffer (node : reg) (key : option keypair) (ver : option Z) : outcome (bool * list post) :=
    confirmed node key ver (plainly (EncodeGatewayAdminListDHTOfferRequest version supported true))
      (DecodeGatewayAdminListDHTOfferResponse sha256).

  (** gateway-admin/pkg/api/adminapi/set_reputation_requester.go L29-80 [RequestSetReputation]; L69 panics for a
      malformed identifier in the response. *)
  Definition RequestSetReputation (node : reg) (clientID : option bytes) (reputation : Z) (key : option keypair) (ver : option Z)
      : outcome (bool * list post) :=
    let* x := contact node key ver (plainly (EncodeGatewayAdminSetReputationRequest version supported clientID reputation)) in
    let (r, out) := x in
    match r with
    | None => Ret (false, out)
    | Some response =>
        let* d := DecodeGatewayAdminSetReputationResponse sha256 response in
        match d with
        | ErrR => Ret (false, out)
        | OkR (targetID, reputationNew, exists_) =>
            let* t := deref targetID in
            let* c := deref clientID in
            Ret (bytes_eqb (ToString t) (ToString c) && exists_ && (reputationNew =? reputation), out)
        end
    end.

  (** gateway-admin/pkg/api/adminapi/get_reputation_requester.go L29-76 [RequestGetReputation]; L68 panics for a
      malformed identifier in the response. *)
  Definition RequestGetReputation (node : reg) (clientID : option bytes) (key : option keypair) (ver : option Z)
      : outcome (result Z * list post) :=
    let* x := contact node key ver (plainly (EncodeGatewayAdminGetReputationRequest version supported clientID)) in
    let (r, out) := x in
    match r with
    | None => Ret (ErrR, out)
    | Some response =>
        let* d := DecodeGatewayAdminGetReputationResponse sha256 response in
        match d with
        | ErrR => Ret (ErrR, out)
        | OkR (targetID, reputation, exists_) =>
            let* t := deref targetID in
            let* c := deref clientID in
            Ret (if bytes_eqb (ToString t) (ToString c) && exists_ then OkR reputation else ErrR, out)
        end
    end.

  (** ** Requests to providers *)

  (** provider-admin/pkg/api/adminapi/initialise_key_requester.go L29-79 [RequestInitialiseKey]. *)
  Definition PvRequestInitialiseKey (node : reg) (nodeKey : option keypair) (nodeVer : option Z) (key : option keypair) (ver : option Z)
      : outcome (bool * list post) :=
    confirmed node key ver (for_node node (fun id => EncodeProviderAdminInitialiseKeyRequest version supported id nodeKey nodeVer))
      (DecodeProviderAdminInitialiseKeyResponse sha256).

  (** provider-admin/pkg/api/adminapi/initialise_key_requester_v2.go L29-90 [RequestInitialiseKeyV2]. *)
  Definition PvRequestInitialiseKeyV2 (node : reg) (nodeKey : option keypair) (nodeVer : option Z) (key : option keypair) (ver : option Z)
      (wallet ap token : gostring) : outcome (bool * list post) :=
    confirmed node key ver
      (for_node node (fun id => EncodeProviderAdminInitialiseKeyRequestV2 version supported id nodeKey nodeVer wallet ap token))
      (DecodeProviderAdminInitialiseKeyResponse sha256).

  (** provider-admin/pkg/api/adminapi/force_refresh_requester.go L31-75 [RequestForceRefresh]. *)
  Definition PvRequestForceRefresh (node : reg) (key : option keypair) (ver : option Z) : outcome (bool * list post) :=
    confirmed node key ver (plainly (EncodeProviderAdminForceRefreshRequest version supported true))
      (DecodeProviderAdminForceRefreshResponse sha256).

  (** provider-admin/pkg/api/adminapi/publish_dht_offer_requester.go L29-76 [RequestPublishDHTOffer]. *)
  Definition RequestPublishDHTOffer (node : reg) (cids : list bytes) (price expiry qos : option (list Z)) (key : option keypair) (ver : option Z)
      : outcome (bool * list post) :=
    confirmed node key ver (plainly (EncodeProviderAdminPublishDHTOfferRequest version supported cids price expiry qos))
      (DecodeProviderAdminPublishDHTOfferResponse sha256).

  (** provider-admin/pkg/api/adminapi/publish_group_offer_requester.go L29-75 [RequestPublishGroupOffer]. *)
  Definition RequestPublishGroupOffer (node : reg) (cids : list bytes) (price expiry qos : Z) (key : option keypair) (ver : option Z)
      : outcome (bool * list post) :=
    confirmed node key ver (plainly (EncodeProviderAdminPublishGroupOfferRequest version supported cids price expiry qos))
      (DecodeProviderAdminPublishGroupOfferResponse sha256).

  (** provider-admin/pkg/api/adminapi/get_published_offer_requester.go L30-73 [RequestGetPublishedOffer]. *)
  Definition RequestGetPublishedOffer (node : reg) (gatewayIDs : list bytes) (key : option keypair) (ver : option Z)
      : outcome (result (bool * option (list offer)) * list post) :=
    let* x := contact node key ver (plainly (EncodeProviderAdminGetPublishedOfferRequest version supported gatewayIDs)) in
    let (r, out) := x in
    match r with
    | None => Ret (ErrR, out)
    | Some response => let* d := DecodeProviderAdminGetPublishedOfferResponse sha256 response in Ret (d, out)
    end.

  (** ** The libraries *)

  (** The node is put into use if there was no error, filecoin-gateway-admin.go L55-63, L85-93, L137-142. *)
  Definition put_in_use (a : admin) (node : reg) (o : outcome (bool * list post)) : outcome (bool * admin * list post) :=
    let* x := o in Ret (fst x, if fst x then with_node a node else a, snd x).

  (** fcrgatewayadmin/filecoin-gateway-admin.go L53-64 [InitialiseGateway]. *)
  Definition InitialiseGateway (a : admin) (node : reg) (nodeKey : option keypair) (nodeVer : option Z) : outcome (bool * admin * list post) :=
    put_in_use a node (GwRequestInitialiseKey node nodeKey nodeVer (ad_key a) (ad_ver a)).
  (** fcrgatewayadmin/filecoin-gateway-admin.go L67-94 [InitialiseGatewayV2]. *)
  Definition InitialiseGatewayV2 (a : admin) (node : reg) (nodeKey : option keypair) (nodeVer : option Z) (wallet ap token : gostring)
      : outcome (bool * admin * list post) :=
    put_in_use a node (GwRequestInitialiseKeyV2 node nodeKey nodeVer (ad_key a) (ad_ver a) wallet ap token).
  (** fcrgatewayadmin/filecoin-gateway-admin.go L133-143 [UpdateGatewaySupportedFeatures]. *)
  Definition UpdateGatewaySupportedFeatures (a : admin) (node : reg) (providers : list bytes) : outcome (bool * admin * list post) :=
    put_in_use a node (SetGroupCIDOfferSupportedForProviders node providers (ad_key a) (ad_ver a)).

  (** fcrgatewayadmin/filecoin-gateway-admin.go L97-99 [ResetClientReputation], L102-104 [SetClientReputation]: not
      implemented. *)
  Definition ResetClientReputation (a : admin) (clientID : option bytes) : outcome (bool * list post) := Ret (false, []).
  Definition LibSetClientReputation (a : admin) (clientID : option bytes) (reputation : Z) : outcome (bool * list post) := Ret (false, []).
  (** fcrgatewayadmin/filecoin-gateway-admin.go L107-109 [GetCIDOffersList]: not implemented. *)
  Definition GetCIDOffersList (a : admin) : outcome (result (list offer) * list post) := Ret (ErrR, []).

  (** The node in use with the identifier, filecoin-gateway-admin.go L115-118, filecoin_provider_admin.go L100-103;
      a nil identifier panics. *)
  Definition with_used {A} (a : admin) (id : option bytes) (fail : A) (f : reg -> outcome (A * list post)) : outcome (A * list post) :=
    let* s := id_text id in
    match aget bytes_eqb (ad_nodes a) s with
    | None => Ret (fail, [])
    | Some node => f node
    end.

  (** fcrgatewayadmin/filecoin-gateway-admin.go L112-120 [ForceUpdate]. *)
  Definition GwForceUpdate (a : admin) (id : option bytes) : outcome (bool * list post) :=
    with_used a id false (fun node => GwRequestForceRefresh node (ad_key a) (ad_ver a)).
  (** fcrgatewayadmin/filecoin-gateway-admin.go L123-131 [ListDHTOffer]. *)
  Definition ListDHTOffer (a : admin) (id : option bytes) : outcome (bool * list post) :=
    with_used a id false (fun node => RequestListDHTOffer node (ad_key a) (ad_ver a)).

  (** fcrprovideradmin/filecoin_provider_admin.go L53-64 [InitialiseProvider]. *)
  Definition InitialiseProvider (a : admin) (node : reg) (nodeKey : option keypair) (nodeVer : option Z) : outcome (bool * admin * list post) :=
    put_in_use a node (PvRequestInitialiseKey node nodeKey nodeVer (ad_key a) (ad_ver a)).
  (** fcrprovideradmin/filecoin_provider_admin.go L67-94 [InitialiseProviderV2]. *)
  Definition InitialiseProviderV2 (a : admin) (node : reg) (nodeKey : option keypair) (nodeVer : option Z) (wallet ap token : gostring)
      : outcome (bool * admin * list post) :=
    put_in_use a node (PvRequestInitialiseKeyV2 node nodeKey nodeVer (ad_key a) (ad_ver a) wallet ap token).
  (** fcrprovideradmin/filecoin_provider_admin.go L97-105 [PublishGroupCID]. *)
  Definition PublishGroupCID (a : admin) (id : option bytes) (cids : list bytes) (price expiry qos : Z) : outcome (bool * list post) :=
    with_used a id false (fun node => RequestPublishGroupOffer node cids price expiry qos (ad_key a) (ad_ver a)).
  (** fcrprovideradmin/filecoin_provider_admin.go L108-116 [PublishDHTCID]. *)
  Definition PublishDHTCID (a : admin) (id : option bytes) (cids : list bytes) (price expiry qos : option (list Z)) : outcome (bool * list post) :=
    with_used a id false (fun node => RequestPublishDHTOffer node cids price expiry qos (ad_key a) (ad_ver a)).
  (** fcrprovideradmin/filecoin_provider_admin.go L119-127 [GetGroupCIDOffer]. *)
  Definition GetGroupCIDOffer (a : admin) (id : option bytes) (gatewayIDs : list bytes) : outcome (result (bool * option (list offer)) * list post) :=
    with_used a id ErrR (fun node => RequestGetPublishedOffer node gatewayIDs (ad_key a) (ad_ver a)).
  (** fcrprovideradmin/filecoin_provider_admin.go L130-138 [ForceUpdate]. *)
  Definition PvForceUpdate (a : admin) (id : option bytes) : outcome (bool * list post) :=
    with_used a id false (fun node => PvRequestForceRefresh node (ad_key a) (ad_ver a)).
End admin.
