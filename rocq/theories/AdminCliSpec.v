(** * What is expected of the administrators' command line programs *)
From Coq Require Import String List ZArith Bool Init.Byte.
From Verif Require Import Base Ids Crypto Message Offer WireSpec Admin AdminSpec AdminCli.
From Verif Require Client CliSpec.
Import ListNotations.
Open Scope Z_scope.

(** The orders to publish: the call of the library each stands for, and what is printed if it succeeds. *)
Inductive publishes (w : denv) : list gostring -> call -> notice -> Prop :=
| order_random n id : CliSpec.hex_id n id ->
    publishes w [gs "publish-random-offer"; n]
      (PPublishGroup (Some id) [de_random w 0; de_random w 1; de_random w 2] (de_price w) (de_now w + 24 * 60 * 60) 42)
      (NPublished [ToString (de_random w 0); ToString (de_random w 1); ToString (de_random w 2)] (de_price w))
| order_given n c1 c2 c3 id i1 i2 i3 : CliSpec.hex_id n id -> CliSpec.hex_id c1 i1 -> CliSpec.hex_id c2 i2 -> CliSpec.hex_id c3 i3 ->
    publishes w [gs "publish-offer-given-cids"; n; c1; c2; c3] (PPublishGroup (Some id) [i1; i2; i3] 44 (de_now w + 24 * 60 * 60) 42)
      (NPublished [ToString i1; ToString i2; ToString i3] 44)
| order_dht n c id i : CliSpec.hex_id n id -> CliSpec.hex_id c i ->
    publishes w [gs "publish-dht-offer"; n; c] (PPublishDHT (Some id) [i] (Some [45]) (Some [de_now w + 24 * 60 * 60]) (Some [43]))
      (NPublishedDht (ToString i)).

Section spec.
  Variable version : Z.
  Variable supported : list Z.
  Variable sha256 : bytes -> bytes.
  Variable pub_of : bytes -> bytes.
  Variable ec_sign : bytes -> bytes -> option bytes.
  Variable ec_verify : bytes -> bytes -> bytes -> bool.
  Variable blake : bytes -> bytes.

  (** A key as generated. *)
  Definition new_key (k : keypair) : Prop :=
    k_alg k = x01 /\ k_pub k = None /\ exists p, k_priv k = Some p /\ length p = 32%nat /\ length (pub_of p) = 65%nat.
  (** Whenever a key can be generated it is like this. *)
  Definition sound (w : denv) : Prop := forall i k, de_root w i = OkR k \/ de_retrieval w i = OkR k -> new_key k.

  (** The registration is for node [i] of this world: the account's address and the public halves of the keys generated for it. *)
  Definition made_for (w : denv) (i : nat) (node : reg) (k : keypair) (wallet token : gostring) : Prop :=
    exists l root, de_accounts w = Ret (OkR (l, token)) /\ nth_error l i = Some (wallet, Client.r_address node) /\
      de_root w i = OkR root /\ fst (EncodePublicKey pub_of root) = OkR (Client.r_root node) /\
      exists k0, de_retrieval w i = OkR k0 /\ same_key k0 k /\ fst (EncodePublicKey pub_of k0) = OkR (Client.r_key node).

  (** The node confirmed its initialisation, under its registered key, to an administrator. *)
  Definition enrolled (w : denv) (i : nat) (node : reg) (x : call) : Prop :=
    exists m r, de_http w i (r_admin_ap node) m = Some r /\ of_node pub_of ec_verify blake node r /\ confirms sha256 x r.
End spec.

(** What the program says of node [i] when it is initialised. *)
Definition announced (w : denv) (i : nat) (node : reg) : list notice :=
  NAccount (Client.r_address node) :: (if de_registers w i then [] else [NRegisterError]) ++ [NRegistered (r_id node)].

(** The worlds in which the lines of a life were typed. *)
Definition desk_worlds (l : list (denv * gostring)) : list denv := map fst l.

(** The addresses of a node: for gateways, for providers, for clients and for administrators. *)
Definition listens (node : reg) (gateways providers clients admins : gostring) : Prop :=
  Client.r_gateway_ap node = gateways /\ Client.r_provider_ap node = providers /\ Client.r_client_ap node = clients /\ r_admin_ap node = admins /\ Client.r_region node = gs "au".
(** Gateway [i] of the demonstration; its provider. *)
Definition gateway_at (i : nat) (node : reg) : Prop :=
  let n := Json.dec_print (Z.of_nat i) in
  listens node (gs "gateway" ++ n ++ gs ":9012") (gs "gateway" ++ n ++ gs ":9011") (gs "127.0.0.1:" ++ Json.dec_print (8018 + Z.of_nat i)) (gs "127.0.0.1:" ++ Json.dec_print (7013 + Z.of_nat i)).
Definition provider_at (node : reg) : Prop := listens node (gs "provider:9032") [] (gs "127.0.0.1:9030") (gs "127.0.0.1:9033").
