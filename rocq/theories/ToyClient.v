(** * A concrete world for the examples about clients

    Gateways 10, 20 and 30 with keys 1, 2 and 3, providers 70 and 80 with keys 7 and
    8, client 99.  Definitions only. *)
From Coq Require Import String List ZArith Bool.
From Coq Require Import Init.Byte.
From Verif Require Import Base Ids Json Crypto Message Offer Schema Messages Payment Register RegisterSpec Client ClientSpec
  PropertiesMerkle PropertiesCrypto ToyGateway.
Import ListNotations.
Open Scope Z_scope.
Open Scope go_scope.

(** ** Registrations *)
Definition creg (id key : Z) (address region : gostring) : reg :=
  Reg (ToString (idn id)) address (key_text key) (key_text key) region (gs "g") (gs "p") (gs "c" ++ [zb (48 + key)]) (gs "a").
Definition gw10 : reg := Eval vm_compute in creg 10 1 (gs "addr1") (gs "au").
Definition gw20 : reg := Eval vm_compute in creg 20 2 (gs "addr2") (gs "us").
Definition gw30 : reg := Eval vm_compute in creg 30 3 (gs "addr3") (gs "au").
Definition pvd70 : reg := Eval vm_compute in creg 70 7 (gs "addr7") (gs "au").
Definition pvd80 : reg := Eval vm_compute in creg 80 8 (gs "addr8") (gs "au").
Definition toy_cidle : manager reg := snd (StartMgr reg (NewFCRRegisterMgr reg true true)).
Definition toy_cmgr : manager reg := Eval vm_compute in
  ok_or toy_cidle (Refresh reg toy_cidle (under_ids (Some [Some gw10; Some gw20; Some gw30])) (under_ids (Some [Some pvd70; Some pvd80]))).

(** ** The client: price of a search 3, of an offer 2 *)
Definition top : Z := 2000000000000000.
Definition toy_client : client := NewClient (Some (idn 99)) 5 3 2 top toy_cmgr.
Definition toy_int (ds : list draw) : Z := 100 + Z.of_nat (length ds).
Definition toy_bytes (ds : list draw) : bytes := idn (200 + Z.of_nat (length ds)).

(** Second 40; the answers come in this order whatever is asked. *)
Definition cworld (answers : list message) : cenv :=
  CEnv 40 (fun n _ _ => nth_error answers n) (fun _ => None) (fun _ => None) (Some (gs "me"))
    (fun n => TxDone (Some (gs "to" ++ [zb (48 + Z.of_nat n)]))) (fun _ => Some (gs "me")) (fun x => x).

(** ** Calls *)
Definition t_AddActive (e : cenv) (c : client) (l : list Z) :=
  AddActiveGateways 1 [1] toy_hash toy_pub PropertiesCrypto.toy_verify toy_blake toy_bytes e 0 c (map (fun z => Some (idn z)) l).
Definition t_Standard (e : cenv) (c : client) (cid gid : Z) :=
  FindOffersStandardDiscovery 1 [1] toy_hash toy_pub PropertiesCrypto.toy_verify toy_blake toy_int e c (Some (idn cid)) (Some (idn gid)).
Definition t_StandardV2 (e : cenv) (c : client) (cid gid max : Z) :=
  FindOffersStandardDiscoveryV2 1 [1] toy_hash toy_pub PropertiesCrypto.toy_verify toy_blake toy_text toy_int e c (Some (idn cid)) (Some (idn gid)) max.
Definition t_DHT (e : cenv) (c : client) (cid gid num : Z) :=
  FindOffersDHTDiscovery 1 [1] toy_hash toy_pub PropertiesCrypto.toy_verify toy_blake toy_int e c (Some (idn cid)) (Some (idn gid)) num.
Definition t_DHTV2 (e : cenv) (c : client) (cid gid num limit : Z) :=
  FindOffersDHTDiscoveryV2 1 [1] toy_hash toy_pub PropertiesCrypto.toy_verify toy_blake toy_text toy_int e c (Some (idn cid)) (Some (idn gid)) num limit.
Definition t_Ack (e : cenv) (c : client) (cid gid pid : Z) :=
  FindDHTOfferAck 1 [1] toy_hash toy_pub PropertiesCrypto.toy_verify toy_blake e c (Some (idn cid)) (Some (idn gid)) (Some (idn pid)).
Definition t_life (c : client) (h : calls) : outcome client :=
  use_through 1 [1] toy_hash toy_pub PropertiesCrypto.toy_verify toy_blake toy_text toy_int toy_bytes c h.

(** ** Answers *)

(** Gateway [id] with key [k] to the challenge that was drawn after [n] others. *)
Definition est_resp (id k n : Z) : message := signed k (EncodeClientEstablishmentResponse 1 [1] (Some (idn id)) (b64_encode (idn (200 + n)))).
Definition est10 : message := Eval vm_compute in est_resp 10 1 0.
Definition est20 : message := Eval vm_compute in est_resp 20 2 1.
(** In another gateway's name, and with the challenge of another time. *)
Definition est_other : message := Eval vm_compute in est_resp 30 1 0.
Definition est_old : message := Eval vm_compute in est_resp 10 1 7.
(** Signed with another key. *)
Definition est_wrong : message := Eval vm_compute in est_resp 10 2 0.
(** A name that is no identifier. *)
Definition est_bad : message := Eval vm_compute in
  signed 1 (encode 1 [1] ClientEstablishmentResponseType clientEstablishmentResponse (gs "zz", (gs "x", tt))).

(** A client that uses gateways 10, 20 and 30, of which 10 and 20 are active. *)
Definition in_use : client := Eval vm_compute in
  match AddGatewaysToUse (cworld []) 0 toy_client [Some (idn 10); Some (idn 20); Some (idn 30)] with Ret (_, c) => c | _ => toy_client end.
Definition active : client := Eval vm_compute in
  match t_AddActive (cworld [est10; est20]) in_use [10; 20] with Ret (_, c, _) => c | _ => in_use end.
(** The same with a payment manager. *)
Definition paying : client := Eval vm_compute in with_mgr active (NewMgr (gs "me")).

(** Sub-offers for content 2: two good ones, one signed with a wrong key. *)
Definition sub1 : suboffer := Eval vm_compute in GenerateSubCIDOffer off1 (idn 2).
Definition sub2 : suboffer := Eval vm_compute in GenerateSubCIDOffer off2 (idn 2).
Definition subf : suboffer := Eval vm_compute in GenerateSubCIDOffer forged (idn 2).
Definition dig1 : gostring := Eval vm_compute in digest_of off1.
Definition dig2 : gostring := Eval vm_compute in digest_of off2.
Definition digf : gostring := Eval vm_compute in digest_of forged.

(** Gateway 10's answers; [active] has drawn twice, so the next numbers are 102, 103 … *)
Definition std_resp (n : Z) (l : list suboffer) : message :=
  signed 1 (EncodeClientStandardDiscoverResponse 1 [1] (Some (idn 2)) n true (Some l) (Some (map (fun _ => false) l))).
Definition std_v2_resp (n : Z) (l : list gostring) (pay : bool) : message :=
  signed 1 (EncodeClientStandardDiscoverResponseV2 1 [1] (Some (idn 2)) n true (Some l) (Some (map (fun _ => false) l)) pay []).
Definition offer_resp (n : Z) (l : list suboffer) : message :=
  signed 1 (EncodeClientStandardDiscoverOfferResponse 1 [1] (Some (idn 2)) n true (Some l) (Some (map (fun _ => false) l)) false []).
Definition std_good : message := Eval vm_compute in std_resp 102 [sub1; sub2].
Definition std_forged : message := Eval vm_compute in std_resp 102 [subf].
Definition digests3 : message := Eval vm_compute in std_v2_resp 102 [dig1; digf; dig2] false.
Definition pay_more : message := Eval vm_compute in std_v2_resp 102 [] true.
Definition digests3b : message := Eval vm_compute in std_v2_resp 103 [dig1; digf; dig2] false.
Definition offers3 : message := Eval vm_compute in offer_resp 103 [sub1; subf; sub2].
Definition offers3b : message := Eval vm_compute in offer_resp 104 [sub1; subf; sub2].

(** Gateway [key] found these sub-offers, and these digests; gateway 10 passes the answers on. *)
Definition found_resp (key : Z) (l : list suboffer) : message :=
  signed key (EncodeGatewayDHTDiscoverResponse 1 [1] (Some (idn 2)) 102 true (Some l) (Some (map (fun _ => false) l))).
Definition passed_on (ids : list Z) (l : list message) : message :=
  signed 1 (EncodeClientDHTDiscoverResponse 1 [1] (map idn ids) (Some l) [] 102 false []).
Definition digest_resp (key : Z) (l : list gostring) : message :=
  signed key (EncodeGatewayDHTDiscoverResponseV2 1 [1] (Some (idn 2)) 102 true (Some l) (Some (map (fun _ => false) l)) false []).
Definition passed_v2 (ids : list Z) (l : list message) (pay : bool) (who : gostring) : message :=
  signed 1 (EncodeClientDHTDiscoverResponseV2 1 [1] (map idn ids) (Some l) [] 102 pay who).
Definition given_resp (key : Z) (l : list suboffer) : message :=
  signed key (EncodeGatewayDHTDiscoverOfferResponse 1 [1] (Some (idn 2)) 102 true (Some l) (Some (map (fun _ => false) l)) false []).
Definition passed_offers (ids : list Z) (l : list message) : message :=
  signed 1 (EncodeClientDHTDiscoverOfferResponse 1 [1] (Some (idn 2)) 102 (map idn ids) (Some l) false []).
Definition dht_good : message := Eval vm_compute in passed_on [20; 30] [found_resp 2 [sub1; subf]; found_resp 3 [sub2]].
(** Gateway 10 itself signed what it says gateway 20 found. *)
Definition dht_fake : message := Eval vm_compute in passed_on [20; 30] [found_resp 1 [sub1]; found_resp 3 [sub2]].
Definition v2_digests : message := Eval vm_compute in passed_v2 [20; 30] [digest_resp 2 [dig1]; digest_resp 3 [dig2]] false [].
Definition v2_skipped : message := Eval vm_compute in passed_v2 [20; 30] [digest_resp 1 [dig1]; digest_resp 3 [dig2]] false [].
Definition v2_pay : message := Eval vm_compute in passed_v2 [] [] true (gs "elsewhere").
Definition v2_offers : message := Eval vm_compute in passed_offers [20; 30] [given_resp 2 [sub1]; given_resp 3 [sub2]].
Definition v2_forged : message := Eval vm_compute in passed_offers [20] [given_resp 5 [subf]].
Definition v2_one : message := Eval vm_compute in passed_offers [30] [given_resp 3 [sub2]].

(** Provider 70 published its offer of content 2 to gateway 10, which acknowledged. *)
Definition single : offer := Eval vm_compute in toy_signed_offer 70 7 [idn 2] 20 100.
Definition published : message := Eval vm_compute in dht_req 70 7 [single].
Definition acknowledged : message := Eval vm_compute in
  match SignMessage toy_sign toy_blake (toy_key 1) 1 (slice (m_body published)) with
  | OkR s => signed 1 (EncodeProviderPublishDHTOfferResponse 1 [1] 9 s)
  | ErrR => zero_message
  end.
Definition ack_resp (req ack : message) : message :=
  signed 7 (EncodeClientDHTOfferAckResponse 1 [1] (Some (idn 2)) (Some (idn 10)) true (Some req) (Some ack)).
Definition ack_good : message := Eval vm_compute in ack_resp published acknowledged.
(** The acknowledgement of something else. *)
Definition ack_bad : message := Eval vm_compute in ack_resp (dht_req 70 7 [single; single]) acknowledged.
