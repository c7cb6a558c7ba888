(** * A client, a gateway and the gateways it pays *)
From Coq Require Import String List ZArith Bool.
From Coq Require Import Init.Byte.
From Verif Require Import Base Ids Crypto Message Offer Schema Messages MessagesSpec WireSpec Payment Register OfferStoreSpec SqlOffers SqlOffersSpec Rest Routes
  Gateway GatewaySpec Client ClientSpec RetrievalSpec DhtSpec.
From Verif Require AdminSpec.
Import ListNotations.
Open Scope Z_scope.

(** The address at which the gateway [g] pays the gateway [id]. *)
Definition pays_at (g : gateway) (id : bytes) (address : gostring) : Prop :=
  exists i, aget bytes_eqb (gatewaysMap info (g_reg g)) (ToString id) = Some i /\ n_address i = address.
(** Different gateways are paid at different addresses. *)
Definition addresses_differ (g : gateway) : Prop :=
  forall id id' address, pays_at g id address -> pays_at g id' address -> ToString id = ToString id'.

(** The gateway has the channel [ch] to the address. *)
Definition channel_to (g : gateway) (address : gostring) (ch : chan) : Prop :=
  exists m, g_pay g = Some m /\ aget bytes_eqb (m_out m) address = Some ch.

(** The gateways that [g] knows are those that [g'] knows. *)
Definition same_gateways (g g' : gateway) : Prop :=
  start info (g_reg g') = start info (g_reg g) /\ gatewayDiscv info (g_reg g') = gatewayDiscv info (g_reg g) /\
  gatewaysMap info (g_reg g') = gatewaysMap info (g_reg g).

Section spec.
  Variable version : Z.
  Variable supported : list Z.
  Variable sha256 sha512_256 : bytes -> bytes.
  Variable pub_of : bytes -> bytes.
  Variable ec_sign : bytes -> bytes -> option bytes.
  Variable ec_verify : bytes -> bytes -> bytes -> bool.
  Variable blake : bytes -> bytes.
  Variable verify : gostring -> voucher -> option bytes -> bool.
  Variable voucher_of : gostring -> option voucher.
  Variable is_address : gostring -> bool.
  Variable zone : Z.
  Variables BindAdminAPI BindRestAPI BindGatewayAPI BindProviderAPI : gostring.

  (** The gateway signs vouchers. *)
  Definition signs (e : env) : Prop := forall v, v_sig v = None -> e_sign e v <> None.
  (** The gateways [g] and [p] agree on what was paid in the channel [ch], and the chain knows the channel with at least the
      balance that [g] counts with. *)
  Definition settled (e : env) (g : gateway) (address : gostring) (ep : env) (p : gateway) (ch : chan) : Prop :=
    channel_to g address ch /\ exists n from balance, g_pay p = Some n /\ in_step ch n balance /\ is_address (c_addr ch) = true /\
      (forall v, v_sig v = None -> exists s, e_sign e v = Some s /\ verify from v (Some s) = true) /\
      e_chain ep (c_addr ch) = Some (ChainState balance (Account (m_addr n)) (Account from)).

  (** The digests of the offers on sale at [x], signed by it. *)
  Definition digests_at (cid : bytes) (x : contact) (r : message) : Prop :=
    AdminSpec.of_key pub_of ec_verify blake (at_key x) r /\
    exists os ds nonce found flags, on_sale zone (at_hist x) (e_now (at_env x)) cid os /\ Forall2 (digest_text sha512_256) os ds /\ (found = true <-> os <> []) /\
      DecodeGatewayDHTDiscoverResponseV2 sha256 r = Ret (OkR (Some cid, nonce, found, Some ds, flags, false, [])).

  Local Notation peer := (peer version supported sha256 sha512_256 pub_of ec_sign ec_verify blake verify voucher_of is_address zone BindAdminAPI BindRestAPI BindGatewayAPI BindProviderAPI).
  Local Notation papi := (peer_api version supported sha256 sha512_256 pub_of ec_sign ec_verify blake verify voucher_of is_address zone BindAdminAPI BindRestAPI BindGatewayAPI BindProviderAPI).

  (** The gateway [g] can pay its price of a search to the gateway [id], which can be asked and does not ask for more, or is silent. *)
  Definition payable (met : bytes -> option contact) (e : env) (g : gateway) (address : gostring) (id : bytes) : Prop :=
    match met id with
    | Some x => peer e g id x /\ g_search (at_state x) <= g_search g /\ exists ch, settled e g address (at_env x) (at_state x) ch /\ g_search g <= left_in ch
    | None => silent e id /\ signs e /\ exists ch, channel_to g address ch /\ g_search g <= left_in ch
    end.
  Definition met_one (met : bytes -> option contact) (id : bytes) : bool := match met id with Some _ => true | None => false end.
  (** What [g], afterwards [g'], got from the gateway [id] for its price, among the responses [cs]: digests, on a channel that is settled
      again, and nothing else of that gateway changes; or nothing. *)
  Definition bought (met : bytes -> option contact) (cid : bytes) (e : env) (g g' : gateway) (address : gostring) (cs : list (bytes * message)) (id : bytes) : Prop :=
    match met id with
    | Some x => exists r q p' ch ch', In (id, r) cs /\ digests_at cid x r /\ papi (at_env x) (at_state x) q = Ret (p', Reply r) /\ (exists n, p' = with_pay (at_state x) n) /\
        channel_to g address ch /\ settled e g' address (at_env x) p' ch' /\ left_in ch' = left_in ch - g_search g
    | None => exists ch ch', channel_to g address ch /\ channel_to g' address ch' /\ left_in ch' = left_in ch - g_search g
    end.
End spec.
