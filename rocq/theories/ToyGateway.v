(** * A concrete world for the examples about gateways

    Three registered gateways, one registered provider, a client paying with vouchers
    whose text is "v" and a digit.  Definitions only. *)
From Coq Require Import String List ZArith Bool.
From Coq Require Import Init.Byte.
From Verif Require Import Base Ids Crypto Message Offer Schema Messages Payment Register RegisterSpec SqlOffers Rest Gateway GatewaySpec
  PropertiesMerkle PropertiesCrypto PropertiesSql.
Import ListNotations.
Open Scope Z_scope.
Open Scope go_scope.

Definition ok_or {A} (d : A) (o : outcome A) : A := match o with Ret a => a | _ => d end.

(** ** Lotus *)
Definition toy_pay_verify (who : gostring) (_ : voucher) (s : option bytes) : bool :=
  match s with Some w => bytes_eqb w who | None => false end.
Definition toy_text (v : voucher) : gostring := gs "v" ++ [zb (48 + v_amount v)].
Definition toy_voucher (t : gostring) : option voucher :=
  match t with
  | [x76; d] => Some (Voucher (gs "ch") 0 0 (bz d - 48) [] (Some (gs "client")))
  | _ => None
  end.
Definition toy_address (t : gostring) : bool := negb (bytes_eqb t []).

(** ** Registrations *)
Definition key_text (n : Z) : gostring := hex_encode (x01 :: toy_pub (idn n)).
Definition toy_info (id key : Z) (address : gostring) : info := Info (ToString (idn id)) address (key_text key).
Definition toy_gateways : list (gostring * info) :=
  [(ToString (idn 10), toy_info 10 1 (gs "addr1")); (ToString (idn 20), toy_info 20 2 (gs "addr2")); (ToString (idn 30), toy_info 30 3 (gs "addr3"))].
Definition toy_providers : list (gostring * info) :=
  [(ToString (idn 70), toy_info 70 7 (gs "addr7")); (ToString (idn 80), toy_info 80 8 (gs "addr8"))].
Definition toy_idle : manager info := snd (StartMgr info (NewFCRRegisterMgr info true true)).
Definition toy_reg : manager info := Eval vm_compute in
  ok_or toy_idle (Refresh info toy_idle (listing info toy_gateways) (listing info toy_providers)).

(** ** The gateway: identifier 50, key 5, search price 3, offer price 2, top-up 10 *)
Definition toy_gw : gateway := Gateway (Some (idn 50)) (Some (toy_key 5)) 1 3 2 10 (Some (NewMgr (gs "gw"))) empty_db toy_reg.

(** Second 40; all statements succeed; channels paying the gateway hold 1000; top-ups
    work; nobody can be reached. *)
Definition toy_env : env :=
  Env (40 * 1000000000) (fun x => x) (fun _ => well) (fun _ => Some (ChainState 1000 (Account (gs "gw")) (Account (gs "client"))))
    (fun _ => None) (fun _ => None) (fun n => TxDone (Some (gs "to" ++ [zb (48 + Z.of_nat n)]))) (fun _ => Some (gs "gw"))
    (fun _ _ => false) (fun _ _ _ => None).
Definition at_time (t : Z) (e : env) : env :=
  Env (t * 1000000000) (e_rows e) (e_fates e) (e_chain e) (e_gateways e) (e_providers e) (e_tx e) (e_sign e) (e_conn e) (e_net e).
Definition with_fates (f : nat -> nat -> fate) (e : env) : env :=
  Env (e_now e) (e_rows e) f (e_chain e) (e_gateways e) (e_providers e) (e_tx e) (e_sign e) (e_conn e) (e_net e).
Definition with_net (c : nat -> bytes -> bool) (f : nat -> bytes -> message -> option message) (e : env) : env :=
  Env (e_now e) (e_rows e) (e_fates e) (e_chain e) (e_gateways e) (e_providers e) (e_tx e) (e_sign e) c f.

(** ** Messages and offers *)
Definition signed (k : Z) (m : outcome message) : message :=
  snd (MessageSign toy_sign toy_blake (ok_or zero_message m) (toy_key k) 1).
Definition toy_signed_offer (provider key : Z) (cids : list bytes) (price expiry : Z) : offer :=
  match NewCIDOffer toy_hash (Some (idn provider)) cids price expiry 1 with
  | Ret (OkR o) => snd (ok_or (false, o) (OfferSign toy_sign toy_blake o (toy_key key) 1))
  | _ => zero_offer
  end.
Definition digest_of (o : offer) : gostring := EncodeMessageDigest (ok_or [] (GetMessageDigest toy_hash o)).

(** Two offers of provider 70 and one it did not sign. *)
Definition off1 : offer := Eval vm_compute in toy_signed_offer 70 7 [idn 1; idn 2] 10 100.
Definition off2 : offer := Eval vm_compute in toy_signed_offer 70 7 [idn 2] 20 100.
Definition forged : offer := Eval vm_compute in toy_signed_offer 70 8 [idn 2] 1 100.

Definition group_req (p k : Z) (o : offer) : message := signed k (EncodeProviderPublishGroupOfferRequest 1 [1] (Some (idn p)) 9 (Some o)).
Definition dht_req (p k : Z) (l : list offer) : message := signed k (EncodeProviderPublishDHTOfferRequest 1 [1] (Some (idn p)) 9 (Some l)).
Definition std_req (c ttl : Z) : message := ok_or zero_message (EncodeClientStandardDiscoverRequest 1 [1] (Some (idn c)) 9 ttl [] []).
Definition std_v2_req (c ttl : Z) (text : gostring) : message :=
  ok_or zero_message (EncodeClientStandardDiscoverRequestV2 1 [1] (Some (idn c)) 9 ttl (gs "ch") text).
Definition std_offer_req (c ttl : Z) (ds : list gostring) (text : gostring) : message :=
  ok_or zero_message (EncodeClientStandardDiscoverOfferRequest 1 [1] (Some (idn c)) 9 ttl (Some ds) (gs "ch") text).
Definition dht_disc_req (c ttl num : Z) : message := ok_or zero_message (EncodeClientDHTDiscoverRequest 1 [1] (Some (idn c)) 9 ttl num false [] []).
Definition dht_v2_req (c ttl num : Z) (text : gostring) : message :=
  ok_or zero_message (EncodeClientDHTDiscoverRequestV2 1 [1] (Some (idn c)) 9 ttl num false (gs "ch") text).
Definition dht_offer_req (c : Z) (ds : list (option (list gostring))) (ids : list bytes) (text : gostring) : message :=
  ok_or zero_message (EncodeClientDHTDiscoverOfferRequest 1 [1] (Some (idn c)) 9 (Some ds) ids (gs "ch") text).
Definition gw_req (id k c ttl : Z) : message := signed k (EncodeGatewayDHTDiscoverRequest 1 [1] (Some (idn id)) (Some (idn c)) 9 ttl [] []).
Definition gw_v2_req (id k c ttl : Z) (text : gostring) : message :=
  signed k (EncodeGatewayDHTDiscoverRequestV2 1 [1] (Some (idn id)) (Some (idn c)) 9 ttl (gs "ch") text).
Definition gw_offer_req (c : Z) (ds : list gostring) (text : gostring) : message :=
  ok_or zero_message (EncodeGatewayDHTDiscoverOfferRequest 1 [1] (Some (idn c)) 9 (Some ds) (gs "ch") text).

(** ** Serving *)
Definition toy_act (e : env) (g : gateway) (k : request_kind) (m : message) :=
  act 1 [1] toy_hash toy_hash toy_pub toy_sign PropertiesCrypto.toy_verify toy_blake toy_pay_verify toy_text toy_voucher toy_address 0 e g k m.
Definition toy_life (h : history) : outcome gateway :=
  live_through 1 [1] toy_hash toy_hash toy_pub toy_sign PropertiesCrypto.toy_verify toy_blake toy_pay_verify toy_text toy_voucher toy_address 0 toy_gw h.
Definition toy_hist : history := [(toy_reg, toy_env, PublishGroup, group_req 70 7 off1); (toy_reg, toy_env, PublishDHT, dht_req 70 7 [off2])].
(** The gateway with the two offers. *)
Definition stocked_gw : gateway := Eval vm_compute in ok_or toy_gw (toy_life toy_hist).
