(** * The whole of a paid search through other gateways *)
From Coq Require Import String List ZArith Bool.
From Coq Require Import Init.Byte.
From Verif Require Import Base Ids Crypto Message Offer Schema Messages MessagesSpec WireSpec Payment Register OfferStoreSpec SqlOffers SqlOffersSpec Rest Routes
  Gateway GatewaySpec Client ClientSpec RetrievalSpec DhtSpec DhtPaidSpec.
Import ListNotations.
Open Scope Z_scope.

(** The number of offers of these gateways. *)
Definition total (sale : bytes -> list offer) (ids : list bytes) : Z := fold_right (fun id a => Z.of_nat (length (sale id)) + a) 0 ids.

Section spec.
  Variable version : Z.
  Variable supported : list Z.
  Variable sha256 sha512_256 : bytes -> bytes.
  Variable pub_of : bytes -> bytes.
  Variable ec_sign : bytes -> bytes -> option bytes.
  Variable ec_verify : bytes -> bytes -> bytes -> bool.
  Variable blake : bytes -> bytes.
  Variable verify : gostring -> voucher -> option bytes -> bool.
  Variable voucher_of : gostring -> option voucher.
  Variable is_address : gostring -> bool.
  Variable zone : Z.
  Variables BindAdminAPI BindRestAPI BindGatewayAPI BindProviderAPI : gostring.
  Local Notation papi := (peer_api version supported sha256 sha512_256 pub_of ec_sign ec_verify blake verify voucher_of is_address zone BindAdminAPI BindRestAPI BindGatewayAPI BindProviderAPI).

  (** From the surroundings [e] the gateway [id] is reached, in its surroundings [ep] and in the state [p]. *)
  Definition answers_at (e : env) (id : bytes) (ep : env) (p : gateway) : Prop :=
    (forall n, e_conn e n id = true) /\ (forall n m, e_net e n id m = heard (papi ep p m)) /\ unix ep <= unix e + 10 /\ shuffle (e_rows ep).
  (** The offers have not expired when they are ordered, and the chain has not changed. *)
  Definition still_sold (x : contact) (ep : env) (os : list offer) : Prop :=
    (forall o, In o os -> SqlOffers.fresh zone (e_now ep) (o_expiry o) = true) /\ forall a, e_chain ep a = e_chain (at_env x) a.

  (** The gateway [id], found as [x] with the offers [os] and left as [p] by the search, can be asked for them at the price of [g]. *)
  Definition at_hand (g : gateway) (e2 : env) (id : bytes) (x : contact) (ep : env) (p : gateway) (os : list offer) : Prop :=
    answers_at e2 id ep p /\ still_sold x ep os /\ g_offer (at_state x) <= g_offer g /\
    exists address ch, pays_at g id address /\ channel_to g address ch /\ g_search g + Z.of_nat (length os) * g_offer g <= left_in ch.
  (** Both ends agree that [g], afterwards [g2], paid the gateway [id] for the search and for the offers. *)
  Definition paid_for (e2 : env) (g g2 : gateway) (id : bytes) (ep : env) (p : gateway) (os : list offer) : Prop :=
    exists address q p' r ch ch', pays_at g id address /\ papi ep p q = Ret (p', Reply r) /\ channel_to g address ch /\
      settled verify is_address e2 g2 address ep p' ch' /\ left_in ch' = left_in ch - g_search g - Z.of_nat (length os) * g_offer g.
End spec.
