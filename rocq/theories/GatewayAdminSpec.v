(** * What is expected of the gateway's requests to providers and of its administration *)
From Coq Require Import List ZArith Bool.
From Coq Require Import Init.Byte.
From Verif Require Import Base Ids Crypto Message Offer Schema Messages WireSpec Payment PaymentSpec Register OfferStoreSpec SqlOffers SqlOffersSpec Rest Gateway GatewaySpec GatewayAdmin.
Import ListNotations.
Open Scope Z_scope.

(** All that happens to a gateway: requests served, and its own requests to providers. *)
Inductive gevent :=
| Serve (k : request_kind) (m : message)
| ListOffers (lo hi pid : option bytes) (answer : message -> option message)
| AdminList (order : list (gostring * info) -> list (gostring * info)) (m : message)
| AdminSupport (order : list (gostring * info) -> list (gostring * info)) (m : message)
| AdminKey (m : message)
| AdminKeyV2 (wallet : gostring -> option gostring) (m : message)
| AdminRefresh (m : message).

(** No channel to a recipient promises more than it holds. *)
Definition solvent (m : mgr) : Prop := forall r c, aget bytes_eqb (m_out m) r = Some c -> 0 <= c_redeemed c <= c_balance c.
Definition sound_money (g : gateway) : Prop :=
  0 <= g_search g /\ 0 <= g_offer g /\ 0 <= g_topup g /\ forall m, g_pay g = Some m -> solvent m.

Section spec.
  Variable version : Z.
  Variable supported : list Z.
  Variable sha256 sha512_256 : bytes -> bytes.
  Variable pub_of : bytes -> bytes.
  Variable ec_sign : bytes -> bytes -> option bytes.
  Variable ec_verify : bytes -> bytes -> bytes -> bool.
  Variable blake : bytes -> bytes.
  Variable verify : gostring -> voucher -> option bytes -> bool.
  Variable voucher_text : voucher -> gostring.
  Variable voucher_of : gostring -> option voucher.
  Variable is_address : gostring -> bool.
  Variable zone : Z.

  (** The gateway afterwards, and the messages answered. *)
  Definition gact (e : env) (g : gateway) (ev : gevent) : outcome (gateway * list message) :=
    let answered (s : served) := flat_map (fun a => match a with Json m => [m] | HttpError _ => [] end) (wrote s) in
    (match ev with
    | Serve k m => let* x := act version supported sha256 sha512_256 pub_of ec_sign ec_verify blake verify voucher_text voucher_of is_address zone e g k m in Ret (fst x)
    | ListOffers lo hi pid answer =>
        let* a := RequestListCIDOffer version supported sha256 sha512_256 pub_of ec_sign ec_verify blake e answer g [ArgCID lo; ArgCID hi; ArgNode pid] in
        Ret (k_after a, [])
    | AdminList order m => let* x := HandleAdminListDHT version supported sha256 ec_sign blake order g m in Ret (after (fst x), answered (fst x))
    | AdminSupport order m => let* x := HandleAdminSupport version supported sha256 ec_sign blake order g m in Ret (after (fst (fst x)), answered (fst (fst x)))
    | AdminKey m => let* s := HandleAdminInitialiseKey version supported sha256 ec_sign blake g m in Ret (after s, answered s)
    | AdminKeyV2 wallet m => let* s := HandleAdminInitialiseKeyV2 version supported sha256 ec_sign blake wallet g m in Ret (after s, answered s)
    | AdminRefresh m => let* s := HandleAdminForceRefresh version supported sha256 ec_sign blake e g m in Ret (after s, answered s)
    end)%go.

  (** A life, before each event of which the register manager may have changed in any way. *)
  Definition glife := list (manager info * env * gevent).
  Fixpoint live_all (g : gateway) (h : glife) : outcome gateway :=
    match h with
    | [] => Ret g
    | (reg, e, ev) :: t => obind (gact e (with_reg g reg) ev) (fun x => live_all (fst x) t)
    end.

  (** A response to a listing, signed by the provider, has a message, signed by the provider, with the offer, signed by
      the provider. *)
  Definition offered (i : info) (response : message) (o : offer) : Prop :=
    exists msgs m pid nonce l, signed_by pub_of ec_verify blake i response /\
      DecodeGatewayListDHTOfferResponse sha256 response = Ret (OkR (Some msgs)) /\ In m msgs /\ signed_by pub_of ec_verify blake i m /\
      DecodeProviderPublishDHTOfferRequest sha256 m = Ret (OkR (pid, nonce, Some l)) /\ In o l /\ offer_signed_by pub_of ec_verify blake i o.

  (** The response to a listing names the offer. *)
  Definition lists_offer (response : message) (o : offer) : Prop :=
    exists msgs m pid nonce l, DecodeGatewayListDHTOfferResponse sha256 response = Ret (OkR (Some msgs)) /\ In m msgs /\
      DecodeProviderPublishDHTOfferRequest sha256 m = Ret (OkR (pid, nonce, Some l)) /\ In o l.

  (** How an offer may come to a gateway: published by a registered provider, or listed by the registered provider asked. *)
  Definition supplied (reg : manager info) (ev : gevent) (o : offer) : Prop :=
    match ev with
    | Serve k m => exists i, vetted sha256 pub_of ec_verify blake reg k m o i
    | ListOffers lo hi (Some pid) answer => exists i request response,
        aget bytes_eqb (providersMap info reg) (ToString pid) = Some i /\ answer request = Some response /\ offered i response o
    | _ => False
    end.

  (** During the event, the gateway accepts the voucher on the channel for [x]. *)
  Definition took (e : env) (g g' : gateway) (ch text : gostring) (x : Z) : Prop :=
    exists m v cs m' m'', g_pay g = Some m /\ voucher_of text = Some v /\ is_address ch = true /\ e_chain e ch = Some cs /\
      Receive verify m ch (Some v) (Some cs) = (m', Credited x) /\ g_pay g' = Some m'' /\ m_in m'' = m_in m'.

  (** Amounts accepted on the channel during a life. *)
  Inductive earns (ch : gostring) : gateway -> glife -> gateway -> list Z -> Prop :=
  | earns_nil g : earns ch g [] g []
  | earns_not g reg e ev g1 a h g' xs : gact e (with_reg g reg) ev = Ret (g1, a) -> earns ch g1 h g' xs -> earns ch g ((reg, e, ev) :: h) g' xs
  | earns_some g reg e ev g1 a h g' xs text x : gact e (with_reg g reg) ev = Ret (g1, a) -> took e (with_reg g reg) g1 ch text x ->
      earns ch g1 h g' xs -> earns ch g ((reg, e, ev) :: h) g' (x :: xs).

  (** The administrator does not initialise the gateway. *)
  Definition uninitialised_in (h : glife) : Prop := forall reg e wallet m, ~ In (reg, e, AdminKeyV2 wallet m) h.

  (** The acknowledgement is a signature of the message with the key. *)
  Definition acknowledges (k : keypair) (ver : Z) (m ack : message) : Prop :=
    exists sig pid nonce l, DecodeProviderPublishDHTOfferRequest sha256 m = Ret (OkR (pid, nonce, l)) /\
      SignMessage ec_sign blake k ver (slice (m_body m)) = OkR sig /\
      DecodeProviderPublishDHTOfferResponse sha256 ack = Ret (OkR (nonce, sig)).
End spec.
