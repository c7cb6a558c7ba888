(** * C212: a limit on the number of offers *)
From Coq Require Import String List ZArith Bool Lia.
From Coq Require Import Init.Byte.
From Verif Require Import Base BaseProofs Ids Crypto Message Offer OfferProofs Schema Messages MessagesSpec Payment Json Rest
  Gateway GatewaySpec Client ClientSpec RetrievalSpec DhtLimitProofs PropertiesMerkle PropertiesCrypto ToyGateway ToyClient PropertiesRetrieval PropertiesDht PropertiesDhtPaid PropertiesDhtWhole.
From Verif Require AdminSpec AdminNodeProofs GatewayProofs PropertiesClient.
Import ListNotations.
Open Scope Z_scope.

(** How many digests there are in the lists. *)
Definition in_all (lists : option (list (option (list gostring)))) : nat :=
  list_sum (map (fun l => match l with Some d => length d | None => O end) (match lists with Some l => l | None => [] end)).
(** How many lists. *)
Definition how_many {A} (lists : option (list A)) : nat := match lists with Some l => length l | None => O end.

Section properties.
  Variable version : Z.
  Variable supported : list Z.
  Variable sha256 sha512_256 : bytes -> bytes.
  Variable pub_of : bytes -> bytes.
  Variable ec_sign : bytes -> bytes -> option bytes.
  Variable ec_verify : bytes -> bytes -> bytes -> bool.
  Variable blake : bytes -> bytes.
  Variable verify : gostring -> voucher -> option bytes -> bool.
  Variable voucher_text : voucher -> gostring.
  Variable voucher_of : gostring -> option voucher.
  Variable is_address : gostring -> bool.
  Variable zone : Z.
  Variable rand_int : list draw -> Z.
  Variables BindAdminAPI BindRestAPI BindGatewayAPI BindProviderAPI : gostring.
  Hypothesis admin_rest : BindAdminAPI <> BindRestAPI.
  Hypothesis gateway_provider : BindGatewayAPI <> BindProviderAPI.
  Local Notation api := (client_api version supported sha256 sha512_256 pub_of ec_sign ec_verify blake verify voucher_text voucher_of is_address zone BindAdminAPI BindRestAPI BindGatewayAPI BindProviderAPI).
  Local Notation find := (FindOffersDHTDiscoveryV2 version supported sha256 pub_of ec_verify blake voucher_text rand_int).

  (** Whatever the network does, an order for offers is for not more than the limit, and has not more lists of digests than gateways. *)
  Theorem dht_limit_partial : forall ce c gw cid gid num limit res c' out,
    0 <= limit -> aget bytes_eqb (c_active c) (ToString gid) = Some gw ->
    find ce c cid (Some gid) num limit = Ret (res, c', out) ->
    forall url m, In (url, m) out -> m_type m = ClientDHTDiscoverOfferRequestType ->
    exists nonce lists ids ch text, EncodeClientDHTDiscoverOfferRequest version supported cid nonce lists ids ch text = Ret m /\
      Z.of_nat (in_all lists) <= limit /\ (how_many lists <= length ids)%nat.
  Proof.
    intros ce c gw cid gid num limit res c' out L Ag H url m I T.
    edestruct (sent_by_search version supported sha256 sha512_256 pub_of ec_sign ec_verify blake verify voucher_text voucher_of is_address rand_int BindAdminAPI) as ((nonce & ds & ids & ch & text & E & B1 & B2) & _); [exact L|exact Ag|exact H|exact I|exact T|].
    exists nonce, ds, ids, ch, text. split; [exact E|].
    assert (Q : forall l, count_digests l = Z.of_nat (list_sum (map (fun d : option (list gostring) => match d with Some d => length d | None => O end) l))).
    { induction l as [|d l IH]; [reflexivity|]. cbn [count_digests map list_sum fold_right]. fold (list_sum (map (fun d : option (list gostring) => match d with Some d => length d | None => O end) l)). rewrite IH. destruct d; cbn [items length]; lia. }
    unfold in_all, how_many. destruct ds; cbn [items] in *; [rewrite Q in B1|]; split; auto.
  Qed.

  (** If the limit, or an answer that is not in order, leaves an order with fewer lists than gateways, then no gateway answers it,
      in whatever state it is: a search succeeds only if there is a list for every gateway. *)
  Theorem dht_order_for_all : forall ce c gw cid gid num limit l c' out e g,
    0 <= limit -> aget bytes_eqb (c_active c) (ToString gid) = Some gw -> reaches (ce_http ce 2) gw (api e g) ->
    find ce c cid (Some gid) num limit = Ret (OkR l, c', out) ->
    forall url m nonce cid' lists ids ch text, In (url, m) out -> DecodeClientDHTDiscoverOfferRequest sha256 m = Ret (OkR (cid', nonce, lists, ids, ch, text)) ->
    (length ids <= how_many lists)%nat.
  Proof.
    intros ce c gw cid gid num limit l c' out e g L Ag R H url m nonce cid' lists ids ch text I D.
    assert (T : m_type m = ClientDHTDiscoverOfferRequestType).
    { unfold DecodeClientDHTDiscoverOfferRequest in D. apply GatewayProofs.rbind_inv in D. destruct D as (x & D & _). exact (AdminNodeProofs.decoded_tag _ _ _ _ _ D). }
    edestruct (sent_by_search version supported sha256 sha512_256 pub_of ec_sign ec_verify blake verify voucher_text voucher_of is_address rand_int BindAdminAPI) as (_ & N); [exact L|exact Ag|exact H|exact I|exact T|]. specialize (N ltac:(discriminate)). rewrite R in N.
    destruct (api e g m) as [[g' r]| |] eqn:Ea; cbn [AdminSpec.received] in N; try contradiction.
    destruct r as [|[?|x] [|]]; try contradiction.
    assert (A : (length ids <= length (elems lists))%nat) by (eapply answered_order; [exact admin_rest|exact gateway_provider|exact D|exact Ea|exists x; left; reflexivity]).
    unfold how_many. destruct lists as [y|]; cbn [elems length] in A; exact A.
  Qed.
End properties.
Print Assumptions dht_limit_partial.
Print Assumptions dht_order_for_all.

(** ** The search of C197, limited *)
Definition limited (limit : Z) (ce : cenv) :=
  FindOffersDHTDiscoveryV2 1 [1] toy_hash toy_pub PropertiesCrypto.toy_verify toy_blake vtext toy_int ce payer (Some (idn 25)) (Some (idn 20)) 2 limit.
Definition lists_in (m : message) : option (nat * nat * nat) :=
  match DecodeClientDHTDiscoverOfferRequest toy_hash m with Ret (OkR (_, _, lists, ids, _, _)) => Some (in_all lists, how_many lists, length ids) | _ => None end.
Definition outcome_of {A} (x : outcome (result (list A) * client * list (gostring * message))) :=
  match x with Ret (r, c', out) => Some (match r with OkR l => Some (length l) | ErrR => None end, gone_from c', map (fun p => lists_in (snd p)) out) | _ => None end.

(** Of three offers one is wanted: the gateway that answered first has it, and nothing is ordered from the other.  The order names both gateways, gateway 20 panics,
    and the client has paid for both searches and for the offer and is given an error.  With a limit of 2 or 3 it is given offers. *)
Theorem dht_limit_refuted : exists c' out m, limited 1 whole_net = Ret (ErrR, c', out) /\ In (r_client_ap gw20, m) out /\ lists_in m = Some (1, 1, 2)%nat /\
  toy_api (street far_then far3_then) hub_then m = Panic /\ gone_from c' = Some (3 * defaultSearchPrice - 2 * defaultSearchPrice - 1 * 2) /\
  exists l c2 out2, limited 2 whole_net = Ret (OkR l, c2, out2) /\ length l = 2%nat.
Proof.
  destruct (PropertiesClient.ret_case (fun x => match x with
      | (ErrR, c', [_; (u, m)]) => u = r_client_ap gw20 /\ lists_in m = Some (1, 1, 2)%nat /\ toy_api (street far_then far3_then) hub_then m = Panic /\ gone_from c' = Some (3 * defaultSearchPrice - 2 * defaultSearchPrice - 1 * 2)
      | _ => False end) (limited 1 whole_net)) as ([[[l|] c'] out] & E & X); [vm_compute; repeat split; reflexivity|contradiction|].
  destruct out as [|p [|[u m] [|]]]; try contradiction. destruct X as (X0 & X1 & X2 & X3).
  destruct (PropertiesClient.ret_case (fun x => match x with (OkR l, _, _) => length l = 2%nat | _ => False end) (limited 2 whole_net)) as ([[[l|] c2] out2] & E2 & Y); [vm_compute; reflexivity| |contradiction].
  exists c', [p; (u, m)], m. split; [exact E|]. split; [right; left; rewrite X0; reflexivity|]. split; [exact X1|]. split; [exact X2|]. split; [exact X3|].
  exists l, c2, out2. split; [exact E2|exact Y].
Qed.
Print Assumptions dht_limit_refuted.

(** The hypotheses of the other two hold, for a search that succeeds and for one that does not. *)
Example dht_limit_open : aget bytes_eqb (c_active payer) (ToString (idn 20)) = Some gw20 /\ reaches (ce_http whole_net 2) gw20 (toy_api (street far_then far3_then) hub_then) /\
  outcome_of (limited 3 whole_net) = Some (Some 2%nat, Some (3 * defaultSearchPrice - 2 * defaultSearchPrice - 3 * 2), [None; Some (3, 2, 2)%nat]) /\
  outcome_of (limited 1 whole_net) = Some (None, Some (3 * defaultSearchPrice - 2 * defaultSearchPrice - 1 * 2), [None; Some (1, 1, 2)%nat]).
Proof.
  split; [vm_compute; reflexivity|]. split. { intros m. unfold whole_net, net_of. cbn [ce_http]. rewrite (proj2 (bytes_eqb_eq _ _) eq_refl). reflexivity. }
  split; vm_compute; reflexivity.
Qed.
