(** * A client and a gateway together

    The gateway's interface for clients as one function, and the notions in which the
    agreement of the two programs is stated. *)
From Coq Require Import String List ZArith Bool Permutation.
From Coq Require Import Init.Byte.
From Verif Require Import Base Ids Crypto Message Offer Schema Messages MessagesSpec WireSpec Payment Register SqlOffers SqlOffersSpec Rest Routes Gateway GatewaySpec Client ClientSpec.
From Verif Require AdminSpec.
Import ListNotations.
Open Scope Z_scope.

(** The offers on sale for the content: those recorded that have not expired, once for each
    time they list the content, in any order. *)
Definition on_sale (zone : Z) (hist : attempts) (now : Z) (cid : bytes) (os : list offer) : Prop :=
  exists l, NoDup l /\ (forall o, In o l <-> recorded hist o /\ SqlOffers.fresh zone now (o_expiry o) = true) /\
    Permutation os (flat_map (copies cid) l).

(** Registered providers have texts for their keys. *)
Definition keyed (c : client) : Prop :=
  forall id p, aget bytes_eqb (providersMap reg (c_reg c)) id = Some p -> r_root p <> [] /\ Client.r_key p <> [].

(** What the payer has left in a channel. *)
Definition left_in (ch : chan) : Z := c_balance ch - c_redeemed ch.

(** The payee [n] has accepted on lane 0 of the channel what the payer issued. *)
Definition in_step (ch : chan) (n : mgr) (balance : Z) : Prop :=
  c_balance ch <= balance /\
  match aget bytes_eqb (m_in n) (c_addr ch) with
  | None => c_redeemed ch = 0 /\ l_redeemed (get_lane ch 0) = 0 /\ l_nonce (get_lane ch 0) = 0
  | Some d => c_balance d <= balance /\ c_redeemed d = c_redeemed ch /\ l_redeemed (get_lane d 0) = l_redeemed (get_lane ch 0) /\
      l_nonce (get_lane d 0) = l_nonce (get_lane ch 0)
  end.

(** The first [max] of the offers found, which the client asks for. *)
Definition chosen (max : Z) (os : list offer) : list offer := firstn (Z.to_nat max) os.

Section spec.
  Variable version : Z.
  Variable supported : list Z.
  Variable sha256 sha512_256 : bytes -> bytes.
  Variable pub_of : bytes -> bytes.
  Variable ec_sign : bytes -> bytes -> option bytes.
  Variable ec_verify : bytes -> bytes -> bytes -> bool.
  Variable blake : bytes -> bytes.
  Variable verify : gostring -> voucher -> option bytes -> bool.
  Variable voucher_text : voucher -> gostring.
  Variable voucher_of : gostring -> option voucher.
  Variable is_address : gostring -> bool.
  Variable zone : Z.
  Variables BindAdminAPI BindRestAPI BindGatewayAPI BindProviderAPI : gostring.

  (** The handlers of a gateway for clients by the kind of request: the gateway afterwards and what was written. *)
  Definition client_handler (e : env) (k : kind) (g : gateway) (m : message) : outcome (gateway * list Rest.answer) :=
    let done (o : outcome served) := let* s := o in Ret (after s, wrote s) in
    (match k with
    | KClientEstablishmentRequest => done (HandleEstablishment version supported sha256 ec_sign blake e g m)
    | KClientStandardDiscoverRequest => done (HandleStandardDiscover version supported sha256 ec_sign blake zone e g m)
    | KClientStandardDiscoverRequestV2 =>
        done (HandleStandardDiscoverV2 version supported sha256 sha512_256 ec_sign blake verify voucher_of is_address zone e g m)
    | KClientStandardDiscoverOfferRequest =>
        done (HandleStandardOffer version supported sha256 ec_sign blake verify voucher_of is_address zone e g m)
    | KClientDHTDiscoverRequest => done (HandleDHTDiscover version supported sha256 pub_of ec_sign ec_verify blake e g m)
    | KClientDHTDiscoverRequestV2 =>
        done (HandleDHTDiscoverV2 version supported sha256 pub_of ec_sign ec_verify blake verify voucher_text voucher_of is_address e g m)
    | KClientDHTDiscoverOfferRequest =>
        done (HandleDHTOffer version supported sha256 pub_of ec_sign ec_verify blake verify voucher_text voucher_of is_address e g m)
    | _ => Ret (g, [])
    end)%go.

  (** The interface of a gateway for clients. *)
  Definition client_api (e : env) (g : gateway) (m : message) : outcome (gateway * list Rest.answer) :=
    match routed BindAdminAPI BindRestAPI BindGatewayAPI BindProviderAPI AtGateway ByClient (m_type m) with
    | Some k => client_handler e k g m
    | None => Ret (g, [])
    end.

  (** What the client sends to the node's interface for clients reaches [api], and the answer reaches the client. *)
  Definition reaches {A} (http : gostring -> message -> option message) (node : reg) (api : message -> outcome (A * list Rest.answer)) : Prop :=
    forall m, http (r_client_ap node) m = AdminSpec.received (api m).

  (** The registration is that of the gateway. *)
  Definition represents (gw : reg) (g : gateway) : Prop :=
    exists id k, g_id g = Some id /\ r_id gw = ToString id /\ g_key g = Some k /\ AdminSpec.registered_with pub_of gw k.

  (** The client signs vouchers that are accepted as signed by the account [from]. *)
  Definition signs_for (e : cenv) (from : gostring) : Prop :=
    forall v, v_sig v = None -> exists s, ce_sign e v = Some s /\ verify from v (Some s) = true.

  (** The client has a channel to the gateway, both agree on what was paid in it, and the chain
      knows the channel with at least the balance the client counts with. *)
  Definition account (ce : cenv) (e : env) (c : client) (gw : reg) (g : gateway) (m : mgr) (ch : chan) : Prop :=
    exists n from balance, c_pay c = Some m /\ g_pay g = Some n /\ aget bytes_eqb (m_out m) (r_address gw) = Some ch /\
      in_step ch n balance /\ is_address (c_addr ch) = true /\ signs_for ce from /\
      e_chain e (c_addr ch) = Some (ChainState balance (Account (m_addr n)) (Account from)).

  (** The client can pay [funds] to the gateway over [channel]: from a channel it has, or by opening
      one with its top-up, the chain's answer number 2k being the address of the channel. *)
  Definition solvent (ce : cenv) (e : env) (k : nat) (c : client) (gw : reg) (g : gateway) (funds : Z) (channel : gostring) : Prop :=
    (exists m ch, account ce e c gw g m ch /\ funds = left_in ch /\ channel = c_addr ch) \/
    (exists m n from balance, c_pay c = Some m /\ g_pay g = Some n /\ aget bytes_eqb (m_out m) (r_address gw) = None /\
      ce_tx ce (2 * k) = TxDone (Some channel) /\ is_address channel = true /\ aget bytes_eqb (m_in n) channel = None /\ signs_for ce from /\
      e_chain e channel = Some (ChainState balance (Account (m_addr n)) (Account from)) /\ c_topup c <= balance /\ funds = c_topup c).
End spec.
