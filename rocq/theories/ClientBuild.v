(** * The settings of the client library

    client/pkg/fcrclient/builder.go, client_settings.go and defaults.go, without logging, for which see [Logging].  A nil price is [None]. *)
From Coq Require Import String List ZArith Bool.
From Verif Require Import Base Crypto Register Client.
Import ListNotations.
Open Scope Z_scope.
Open Scope go_scope.

(** builder.go L33-52 [SettingsBuilder]; [clientID] cannot be set. *)
Record cbuilder := CBuilder {
  cb_ttl : Z; cb_url : gostring; cb_chain : option keypair; cb_key : option keypair; cb_ver : option Z;
  cb_wallet : gostring; cb_lotus : gostring; cb_token : gostring; cb_search : option Z; cb_offer : option Z; cb_topup : option Z }.

(** builder.go L55-66 [CreateSettings], defaults.go L20-43. *)
Definition CreateSettings : cbuilder :=
  CBuilder 100 (gs "http://register:9020") None None None [] [] [] (Some defaultSearchPrice) (Some 1000000000000000) (Some 100000000000000000).

(** builder.go L76-78. *)
Definition SetEstablishmentTTL (b : cbuilder) (x : Z) : cbuilder :=
  CBuilder x (cb_url b) (cb_chain b) (cb_key b) (cb_ver b) (cb_wallet b) (cb_lotus b) (cb_token b) (cb_search b) (cb_offer b) (cb_topup b).
(** builder.go L81-83. *)
Definition SetRegisterURL (b : cbuilder) (x : gostring) : cbuilder :=
  CBuilder (cb_ttl b) x (cb_chain b) (cb_key b) (cb_ver b) (cb_wallet b) (cb_lotus b) (cb_token b) (cb_search b) (cb_offer b) (cb_topup b).
(** builder.go L86-88. *)
Definition SetBlockchainPrivateKey (b : cbuilder) (x : option keypair) : cbuilder :=
  CBuilder (cb_ttl b) (cb_url b) x (cb_key b) (cb_ver b) (cb_wallet b) (cb_lotus b) (cb_token b) (cb_search b) (cb_offer b) (cb_topup b).
(** builder.go L91-94. *)
Definition SetRetrievalPrivateKey (b : cbuilder) (x : option keypair) (v : option Z) : cbuilder :=
  CBuilder (cb_ttl b) (cb_url b) (cb_chain b) x v (cb_wallet b) (cb_lotus b) (cb_token b) (cb_search b) (cb_offer b) (cb_topup b).
(** builder.go L96-98. *)
Definition SetWalletPrivateKey (b : cbuilder) (x : gostring) : cbuilder :=
  CBuilder (cb_ttl b) (cb_url b) (cb_chain b) (cb_key b) (cb_ver b) x (cb_lotus b) (cb_token b) (cb_search b) (cb_offer b) (cb_topup b).
(** builder.go L100-102. *)
Definition SetLotusAP (b : cbuilder) (x : gostring) : cbuilder :=
  CBuilder (cb_ttl b) (cb_url b) (cb_chain b) (cb_key b) (cb_ver b) (cb_wallet b) x (cb_token b) (cb_search b) (cb_offer b) (cb_topup b).
(** builder.go L104-106. *)
Definition SetLotusAuthToken (b : cbuilder) (x : gostring) : cbuilder :=
  CBuilder (cb_ttl b) (cb_url b) (cb_chain b) (cb_key b) (cb_ver b) (cb_wallet b) (cb_lotus b) x (cb_search b) (cb_offer b) (cb_topup b).
(** builder.go L108-110. *)
Definition SetSearchPrice (b : cbuilder) (x : option Z) : cbuilder :=
  CBuilder (cb_ttl b) (cb_url b) (cb_chain b) (cb_key b) (cb_ver b) (cb_wallet b) (cb_lotus b) (cb_token b) x (cb_offer b) (cb_topup b).
(** builder.go L112-114. *)
Definition SetOfferPrice (b : cbuilder) (x : option Z) : cbuilder :=
  CBuilder (cb_ttl b) (cb_url b) (cb_chain b) (cb_key b) (cb_ver b) (cb_wallet b) (cb_lotus b) (cb_token b) (cb_search b) x (cb_topup b).
(** builder.go L116-118. *)
Definition SetTopUpAmount (b : cbuilder) (x : option Z) : cbuilder :=
  CBuilder (cb_ttl b) (cb_url b) (cb_chain b) (cb_key b) (cb_ver b) (cb_wallet b) (cb_lotus b) (cb_token b) (cb_search b) (cb_offer b) x.

(** client_settings.go L26-42 [ClientSettings]. *)
Record csettings := CSettings {
  cs_ttl : Z; cs_url : gostring; cs_id : option bytes; cs_chain : option keypair; cs_key : option keypair; cs_ver : option Z;
  cs_wallet : gostring; cs_lotus : gostring; cs_token : gostring; cs_search : option Z; cs_offer : option Z; cs_topup : option Z }.

(** builder.go L121-163 [Build]: [random] is the new client identifier, [generated] the new key, if one can be made. *)
Definition Build (b : cbuilder) (random : bytes) (generated : result keypair) : outcome csettings :=
  match cb_chain b with
  | None => Panic
  | Some _ =>
      let* kv := match cb_key b with
                 | None => match generated with ErrR => Panic | OkR k => Ret (Some k, Some 1) end
                 | Some k => Ret (Some k, cb_ver b)
                 end in
      Ret (CSettings (cb_ttl b) (cb_url b) (Some random) (cb_chain b) (fst kv) (snd kv) (cb_wallet b) (cb_lotus b) (cb_token b) (cb_search b) (cb_offer b) (cb_topup b))
  end.

(** filecoin_retrieval_client.go L65-76 [NewFilecoinRetrievalClient], for prices that are not nil. *)
Definition NewClientWith (s : csettings) (r : manager reg) : option client :=
  match cs_search s, cs_offer s, cs_topup s with
  | Some a, Some b, Some c => Some (NewClient (cs_id s) (cs_ttl s) a b c r)
  | _, _, _ => None
  end.
