(** * What is expected of gateways selling and relaying offers *)
From Coq Require Import List ZArith Bool.
From Coq Require Import Init.Byte.
From Verif Require Import Base Ids Message Offer Messages Payment Register PaymentSpec Schema WireSpec SqlOffersSpec Rest Gateway GatewaySpec.
Import ListNotations.
Open Scope Z_scope.

(** No offer has more identifiers than a Go slice can hold. *)
Definition sized (hist : attempts) : Prop := forall o f, In (o, f) hist -> Z.of_nat (length (o_cids o)) < 2 ^ 63.

(** A gateway asked for offers: its registration and identifier, and the amount, channel and
    voucher of the payment, if there was one. *)
Definition asked : Type := info * bytes * option (Z * gostring * voucher).
Definition asked_paid (x : asked) : list (gostring * Z * Z * gostring * voucher) :=
  match x with (i, _, Some (a, ch, v)) => [(n_address i, 0, a, ch, v)] | _ => [] end.

Section relay.
  Variable version : Z.
  Variable supported : list Z.
  Variable voucher_text : voucher -> gostring.

  (** The [k]th gateway is asked for the [k]th list of digests, and paid by the number of them, or the search
      price; requests carry the voucher. *)
  Definition asked_rightly (e : env) (g : gateway) (ds : list (option (list gostring))) (ids : list bytes) (rows : list asked) : Prop :=
    forall k i id p, nth_error rows k = Some (i, id, p) ->
      nth_error ids k = Some id /\ listed e g id i /\
      exists d, nth_error ds k = Some d /\
        match p with Some (a, _, _) => a = slice_len d * g_offer g \/ a = g_search g | None => True end.
  Definition requests_for (c : option bytes) (nonce : Z) (ds : list (option (list gostring))) (rows : list asked) (sent : list (bytes * message)) : Prop :=
    forall id m, In (id, m) sent -> exists k i p d b, nth_error rows k = Some (i, id, p) /\ nth_error ds k = Some d /\
      EncodeGatewayDHTDiscoverOfferRequest version supported c nonce d
        (match p with Some (_, ch, _) => ch | None => [] end) (match p with Some (_, _, v) => voucher_text v | None => [] end) = Ret b /\
      with_signature b m.
End relay.
