(** * A client, a gateway and the gateways it buys offers from *)
From Coq Require Import String List ZArith Bool.
From Coq Require Import Init.Byte.
From Verif Require Import Base Ids Crypto Message Offer Schema Messages MessagesSpec WireSpec Payment Register OfferStoreSpec SqlOffers SqlOffersSpec Rest Routes
  Gateway GatewaySpec Client ClientSpec RetrievalSpec DhtSpec DhtPaidSpec.
From Verif Require AdminSpec.
Import ListNotations.
Open Scope Z_scope.

(** The register manager looks gateways up in its map. *)
Definition consults (g : gateway) : Prop := start info (g_reg g) = true /\ gatewayDiscv info (g_reg g) = true.

(** An order: a gateway and the digests of the offers wanted from it. *)
Definition order : Type := bytes * list gostring.
Definition price_of (g : gateway) (ds : list gostring) : Z := Z.of_nat (length ds) * g_offer g.
Definition price_of_all (g : gateway) (rows : list order) : Z := fold_right (fun r a => price_of g (snd r) + a) 0 rows.

Section spec.
  Variable version : Z.
  Variable supported : list Z.
  Variable sha256 sha512_256 : bytes -> bytes.
  Variable pub_of : bytes -> bytes.
  Variable ec_sign : bytes -> bytes -> option bytes.
  Variable ec_verify : bytes -> bytes -> bytes -> bool.
  Variable blake : bytes -> bytes.
  Variable verify : gostring -> voucher -> option bytes -> bool.
  Variable voucher_of : gostring -> option voucher.
  Variable is_address : gostring -> bool.
  Variable zone : Z.
  Variables BindAdminAPI BindRestAPI BindGatewayAPI BindProviderAPI : gostring.
  Local Notation peer := (peer version supported sha256 sha512_256 pub_of ec_sign ec_verify blake verify voucher_of is_address zone BindAdminAPI BindRestAPI BindGatewayAPI BindProviderAPI).
  Local Notation papi := (peer_api version supported sha256 sha512_256 pub_of ec_sign ec_verify blake verify voucher_of is_address zone BindAdminAPI BindRestAPI BindGatewayAPI BindProviderAPI).

  (** The offers with these digests are recorded at [x] and have not expired. *)
  Definition in_stock (x : contact) (os : list offer) (ds : list gostring) : Prop :=
    Forall2 (fun o d => recorded (at_hist x) o /\ SqlOffers.fresh zone (e_now (at_env x)) (o_expiry o) = true /\ digest_text sha512_256 o d) os ds.

  (** The gateway [g] can pay its price for these digests to the gateway [id], which has the offers [os] for them and does not ask for more, or
      is silent. *)
  Definition orderable (met : bytes -> option (contact * list offer)) (e : env) (g : gateway) (address : gostring) (id : bytes) (ds : list gostring) : Prop :=
    match met id with
    | Some (x, os) => peer e g id x /\ in_stock x os ds /\ g_offer (at_state x) <= g_offer g /\
        exists ch, settled verify is_address e g address (at_env x) (at_state x) ch /\ price_of g ds <= left_in ch
    | None => silent e id /\ signs e /\ exists ch, channel_to g address ch /\ price_of g ds <= left_in ch
    end.
  (** What becomes of the channel and of the gateway [id]: both ends agree again; the price of that gateway is multiplied by the
      number of digests. *)
  Definition charged (met : bytes -> option (contact * list offer)) (e : env) (g g' : gateway) (address : gostring) (id : bytes) (ds : list gostring) : Prop :=
    match met id with
    | Some (x, os) => exists q p' r ch ch', papi (at_env x) (at_state x) q = Ret (p', Reply r) /\
        channel_to g address ch /\ settled verify is_address e g' address (at_env x) p' ch' /\ left_in ch' = left_in ch - price_of g ds /\
        g_offer p' = g_offer (at_state x) * Z.of_nat (length ds)
    | None => exists ch ch', channel_to g address ch /\ channel_to g' address ch' /\ left_in ch' = left_in ch - price_of g ds
    end.
  (** The sub-offers for the content, of the gateways that answer. *)
  Definition delivery (met : bytes -> option (contact * list offer)) (cid : bytes) (rows : list order) : list (bytes * list suboffer) :=
    flat_map (fun r => match met (fst r) with Some (_, os) => [(fst r, map (fun o => GenerateSubCIDOffer o cid) os)] | None => [] end) rows.
End spec.
