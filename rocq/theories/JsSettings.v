(** * The client written in TypeScript: settings and the client made of them

    Models client-js/src/config/settings.config.ts and the constructor of FilecoinRetrievalClient.ts, with what activating gateways and searching do
    with them.  Definitions only.

    Values of settings are those below; a setting of a type that the code does not expect is not modelled where it is used ([None]). *)
From Coq Require Import String List ZArith Bool.
From Verif Require Import Base Json Client Http Payment JsPayment JsClient JsSearch.
Import ListNotations.
Open Scope Z_scope.

(** Values: [Big] is an object of bn.js, [Node] one of the class [NodeID] (nodeid/nodeid.interface.ts L1-9) with its text, [Plain] the object without properties. *)
Inductive jsval := Undefined | Null | Text (s : gostring) | Num (z : Z) | Big (z : Z) | Node (id : gostring) | Plain.
(** Objects by their properties. *)
Definition obj := list (gostring * jsval).
Definition get (o : obj) (k : gostring) : jsval := match aget bytes_eqb o k with Some v => v | None => Undefined end.
(** A parameter in a destructuring pattern with a default, which is taken for [undefined] only. *)
Definition param (o : obj) (k : gostring) (dflt : jsval) : jsval := match get o k with Undefined => dflt | v => v end.

(** settings.config.ts L45-77 [constructor], with the defaults of L5-26. *)
Definition newSettings (o : obj) : obj :=
  [(gs "establishmentTTL", param o (gs "establishmentTTL") (Num 100));
   (gs "registerURL", param o (gs "registerURL") Undefined);
   (gs "clientId", param o (gs "clientId") Undefined);
   (gs "logLevel", param o (gs "logLevel") (Text (gs "trace")));
   (gs "logTarget", param o (gs "logTarget") (Text (gs "STDOUT")));
   (gs "logServiceName", param o (gs "logServiceName") (Text (gs "client")));
   (gs "blockchainPrivateKey", param o (gs "blockchainPrivateKey") Undefined);
   (gs "retrievalPrivateKey", param o (gs "retrievalPrivateKey") Undefined);
   (gs "retrievalPrivateKeyVer", param o (gs "retrievalPrivateKeyVer") Undefined);
   (gs "walletPrivateKey", param o (gs "walletPrivateKey") Undefined);
   (gs "lotusAP", param o (gs "lotusAP") Undefined);
   (gs "lotusAuthToken", param o (gs "lotusAuthToken") Undefined);
   (gs "searchPrice", param o (gs "searchPrice") (Big 1000000000000000));
   (gs "offerPrice", param o (gs "offerPrice") (Big 1000000000000000));
   (gs "topUpAmount", param o (gs "topUpAmount") (Big 100000000000000000))].

(** settings.config.ts L80-92 [buildSettings]. *)
Definition buildSettings (registerURL : gostring) : obj :=
  newSettings [(gs "blockchainPrivateKey", Undefined); (gs "client", Plain); (gs "lotusAP", Text []); (gs "lotusAuthToken", Text []);
               (gs "registerURL", Text registerURL); (gs "retrievalPrivateKey", Undefined); (gs "retrievalPrivateKeyVer", Undefined);
               (gs "walletPrivateKey", Text [])].

(** FilecoinRetrievalClient.ts L26-37: the payment manager is [None] if it is the empty object of the constructor, which has no methods. *)
Record tsclient := TsClient { tc_settings : obj; tc_use : list (gostring * reg); tc_active : list (gostring * reg); tc_mgr : option jsmgr }.
Definition newClient (settings : obj) : tsclient := TsClient settings [] [] None.

(** [v.toString()]. *)
Definition value_text (v : jsval) : result gostring :=
  match v with
  | Undefined | Null => ErrR
  | Text s | Node s => OkR s
  | Num z | Big z => OkR (dec_print z)
  | Plain => OkR (gs "[object Object]")
  end.

Section crypto.
  Variable unb64 : gostring -> bytes.
  Variable js_ec : bytes -> bytes -> bytes -> bool.
  Variable blake : bytes -> bytes.
  Variable library_text : voucher -> gostring.

  (** clientapi/establishment_requester.ts L18-43 [requestEstablishment] for an identifier of any type: fcrMessages/client_establishment.ts L26. *)
  Definition establish_as (post : gostring -> bytes -> option response) (gw : reg) (challenge : bytes) (clientID : jsval) (ttl : Z) : result unit :=
    if negb (Nat.eqb (length challenge) 32) then ErrR
    else match value_text clientID with ErrR => ErrR | OkR i => requestEstablishment unb64 js_ec blake post gw challenge i ttl end.

  (** FilecoinRetrievalClient.ts L46-64 [addGatewaysToUse]. *)
  Definition use_gateways (find : nat -> gostring -> option reg) (n : nat) (c : tsclient) (ids : list gostring) : Z * tsclient :=
    let (k, c') := addGatewaysToUse find n (JsClient [] 0 (tc_use c) (tc_active c)) ids in
    (k, TsClient (tc_settings c) (jc_use c') (tc_active c) (tc_mgr c)).

  (** FilecoinRetrievalClient.ts L73-101 [addActiveGateways], as in [JsClient], for the client's settings. *)
  Fixpoint activate (post : nat -> gostring -> bytes -> option response) (rand : nat -> bytes) (now : nat -> Z) (n : nat) (c : tsclient)
      (ids : list gostring) : option (Z * tsclient) :=
    match ids with
    | [] => Some (0, c)
    | id :: t =>
        match aget bytes_eqb (tc_active c) id with
        | Some _ => activate post rand now n c t
        | None =>
            match aget bytes_eqb (tc_use c) id with
            | None => activate post rand now n c t
            | Some gw =>
                match get (tc_settings c) (gs "establishmentTTL") with
                | Num ttl =>
                    match establish_as (post n) gw (rand n) (get (tc_settings c) (gs "clientId")) (now n + ttl) with
                    | OkR _ =>
                        match activate post rand now (S n) (TsClient (tc_settings c) (tc_use c) (aset bytes_eqb (tc_active c) id gw) (tc_mgr c)) t with
                        | Some (k, c) => Some (k + 1, c)
                        | None => None
                        end
                    | ErrR => activate post rand now (S n) c t
                    end
                | _ => None
                end
            end
        end
    end.

  (** FilecoinRetrievalClient.ts L267-319 [findOffersStandardDiscoveryV2] of a client: L274 throws without a payment manager. *)
  Definition search (post : nat -> gostring -> bytes -> option response) (find : gostring -> option reg) (sg : voucher -> option bytes) (c : tsclient)
      (nonce : nat -> Z) (now : Z) (cid : json) (id : gostring) (max : Z) : option (list (gostring * bytes) * result (option (list json)) * tsclient) :=
    match aget bytes_eqb (tc_active c) id with
    | None => Some ([], OkR None, c)
    | Some _ =>
        match tc_mgr c, get (tc_settings c) (gs "searchPrice"), get (tc_settings c) (gs "topUpAmount") with
        | None, _, _ => Some ([], ErrR, c)
        | Some m, Big price, Big cfg =>
            let s := findOffersStandardDiscoveryV2 js_ec blake library_text post find sg price cfg (tc_active c) m nonce now cid id max in
            Some (s_sent s, s_result s, TsClient (tc_settings c) (tc_use c) (tc_active c) (Some (s_mgr s)))
        | _, _, _ => None
        end
    end.
  (** FilecoinRetrievalClient.ts L103-216 [findOffersDHTDiscoveryV2] of a client: L117-118. *)
  Definition search_dht (sg : voucher -> option bytes) (c : tsclient) (cid : json) (id : gostring) (numDHT : Z)
      : option (list (gostring * bytes) * result (list (gostring * list json)) * tsclient) :=
    match aget bytes_eqb (tc_active c) id with
    | None => Some ([], OkR [], c)
    | Some _ =>
        match tc_mgr c, get (tc_settings c) (gs "searchPrice"), get (tc_settings c) (gs "topUpAmount") with
        | None, Big _, _ => Some ([], ErrR, c)
        | Some m, Big price, Big cfg =>
            let s := findOffersDHTDiscoveryV2 sg price cfg (tc_active c) m cid id numDHT in
            Some (s_sent s, s_result s, TsClient (tc_settings c) (tc_use c) (tc_active c) (Some (s_mgr s)))
        | _, _, _ => None
        end
    end.
End crypto.
