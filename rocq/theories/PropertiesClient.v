(** * Properties of the client library (C57-C62, C122-C128)

    About any answers of gateways, providers, the register service and the chain, and about whole
    lives of a client ([ClientSpec.use_through]). *)
From Coq Require Import String List ZArith Bool Lia.
From Coq Require Import Init.Byte.
From Verif Require Import Base Ids Json Crypto Message Offer Schema Messages Payment PaymentSpec Register RegisterSpec Client ClientSpec ClientProofs
  ClientFindProofs ClientLifeProofs ClientConc OfferProofs ClientConcProofs PropertiesMerkle PropertiesCrypto ToyGateway ToyClient.
Import ListNotations.
Open Scope Z_scope.

Section properties.
  Variable version : Z.
  Variable supported : list Z.
  Variable sha256 : bytes -> bytes.
  Variable pub_of : bytes -> bytes.
  Variable ec_verify : bytes -> bytes -> bytes -> bool.
  Variable blake : bytes -> bytes.
  Variable voucher_text : voucher -> gostring.
  Variable rand_int : list draw -> Z.
  Variable rand_bytes : list draw -> bytes.

  Local Notation FindDHT := (FindOffersDHTDiscovery version supported sha256 pub_of ec_verify blake rand_int).
  Local Notation FindDHTV2 := (FindOffersDHTDiscoveryV2 version supported sha256 pub_of ec_verify blake voucher_text rand_int).
  Local Notation FindStandard := (FindOffersStandardDiscovery version supported sha256 pub_of ec_verify blake rand_int).
  Local Notation FindStandardV2 := (FindOffersStandardDiscoveryV2 version supported sha256 pub_of ec_verify blake voucher_text rand_int).
  Local Notation AddActive := (AddActiveGateways version supported sha256 pub_of ec_verify blake rand_bytes).
  Local Notation proven := (ClientSpec.proven sha256 pub_of ec_verify blake).
  Local Notation sifted := (ClientSpec.sifted sha256 pub_of ec_verify blake).
  Local Notation from_answer := (ClientSpec.from_answer sha256 pub_of ec_verify blake).
  Local Notation answered := (ClientSpec.answered pub_of ec_verify blake).
  Local Notation advertised := (ClientSpec.advertised sha256 pub_of ec_verify blake).
  Local Notation advertised_digests := (ClientSpec.advertised_digests sha256 pub_of ec_verify blake).
  Local Notation picked := (ClientSpec.picked sha256 pub_of ec_verify blake).
  Local Notation gathers_with := (ClientSpec.gathers_with version supported voucher_text).
  Local Notation all_paid := (ClientSpec.all_paid version supported voucher_text).
  Local Notation offered_to := (ClientSpec.offered_to version supported voucher_text).
  Local Notation use_through := (ClientSpec.use_through version supported sha256 pub_of ec_verify blake voucher_text rand_int rand_bytes).
  Local Notation authenticated_at := (ClientSpec.authenticated_at version supported sha256 pub_of ec_verify blake rand_bytes).
  Local Notation challenges := (ClientSpec.challenges version supported rand_bytes).

  (** ** C57 *)

  (** Offers returned by these two calls are proven and come from the answers of gateways.  Full claim: of all
      four calls, see the refuted theorems below. *)
  Theorem standard_v2_offers_verified_partial : forall e c cid gid max l c' out, FindStandardV2 e c cid gid max = Ret (OkR l, c', out) ->
    forall s, In s l -> proven e c s /\
      exists id gw i offers, gid = Some id /\ aget bytes_eqb (c_active c) (ToString id) = Some gw /\ cid = Some i /\
        from_answer e gw i out offers /\ In s offers.
  Proof.
    intros e c cid gid max l c' out H s I. destruct (find_standard_v2_inv _ _ _ _ _ _ _ _ _ _ _ _ _ _ _ _ H) as (_ & id & Eid & [(_ & X & _)|K]); [discriminate|].
    destruct K as (gw & rows & A & _ & _ & _ & K). destruct (K l eq_refl) as [->|(i & offers & Ei & F & P & _)]; [destruct I|].
    destruct (P s I) as [P1 P2]. split; [exact P2|]. exists id, gw, i, offers. auto.
  Qed.

  Theorem dht_offers_verified_partial : forall e c cid gid num res c' out, FindDHT e c cid gid num = Ret (OkR res, c', out) ->
    forall g os s, aget bytes_eqb res g = Some os -> In s os -> proven e c s.
  Proof.
    intros e c cid gid num res c' out H g os s G I.
    destruct (find_dht_inv _ _ _ _ _ _ _ _ _ _ _ _ _ _ _ H) as (_ & _ & id & _ & [(_ & X & _)|K]); [discriminate|].
    destruct K as (gw & request & _ & _ & _ & K). destruct (K res eq_refl) as (response & ids & ms & un & tp & _ & _ & _ & F).
    destruct (F g os G) as (i & m & lo & _ & _ & _ & P). apply P. exact I.
  Qed.

  (** With a positive maximum, what is returned is a beginning of the gateway's offers without those that are not
      acceptable; and all of it, if fewer than the maximum are returned. *)
  Theorem standard_v2_offers_exact : forall e c cid gid max l c' out, FindStandardV2 e c cid gid max = Ret (OkR l, c', out) -> 1 <= max ->
    l = [] \/ exists id gw i all rest, gid = Some id /\ aget bytes_eqb (c_active c) (ToString id) = Some gw /\ cid = Some i /\
      from_answer e gw i out (all ++ rest) /\ sifted c all l /\ (Z.of_nat (length l) < max -> rest = []).
  Proof.
    intros e c cid gid max l c' out H M. destruct (find_standard_v2_inv _ _ _ _ _ _ _ _ _ _ _ _ _ _ _ _ H) as (_ & id & Eid & [(_ & X & _)|K]); [discriminate|].
    destruct K as (gw & rows & A & _ & _ & _ & K). destruct (K l eq_refl) as [->|(i & offers & Ei & F & _ & Q)]; [left; reflexivity|right].
    destruct (Q M) as (_ & all & rest & -> & S & R). exists id, gw, i, all, rest. auto 8.
  Qed.

  (** ** C58 *)

  (** Full claim: for any maximum, and for [FindOffersDHTDiscoveryV2]; see the refuted theorems below. *)
  Theorem standard_v2_limit_partial : forall e c cid gid max l c' out, FindStandardV2 e c cid gid max = Ret (OkR l, c', out) -> 1 <= max ->
    Z.of_nat (length l) <= max.
  Proof.
    intros e c cid gid max l c' out H M. destruct (find_standard_v2_inv _ _ _ _ _ _ _ _ _ _ _ _ _ _ _ _ H) as (_ & id & Eid & [(_ & X & _)|K]); [discriminate|].
    destruct K as (gw & rows & A & _ & _ & _ & K). destruct (K l eq_refl) as [->|(i & offers & Ei & F & _ & Q)]; [cbn; lia|]. apply Q. exact M.
  Qed.

  (** The number of offers asked and paid for is within the limit. *)
  Theorem dht_v2_asks_limited : forall e c cid gid num limit r c' out, FindDHTV2 e c cid gid num limit = Ret (r, c', out) ->
    exists rows, spent e c c' rows /\ forall gw id, gid = Some id -> aget bytes_eqb (c_active c) (ToString id) = Some gw -> dht_bill c gw num limit rows.
  Proof.
    intros e c cid gid num limit r c' out H. destruct (find_dht_v2_inv _ _ _ _ _ _ _ _ _ _ _ _ _ _ _ _ _ H) as (_ & id & -> & [(A & _ & P & _)|K]).
    - exists []. split; [left; auto|]. intros gw i [= <-] B. congruence.
    - destruct K as (gw & rows & A & S & B & _). exists rows. split; [exact S|]. intros gw' i [= <-] A'. rewrite A in A'. injection A' as <-. exact B.
  Qed.

  (** Once the limit is reached, what the other gateways answered makes no difference: no refusal or demand among it ends the search. *)
  Theorem dht_v2_stops : forall e t l n c limit added ds c', take_digests sha256 pub_of ec_verify blake e n c l limit added = Ret (inr ds, c') ->
    ds <> [] -> limit <= added + count_digests ds -> take_digests sha256 pub_of ec_verify blake e n c (l ++ t) limit added = Ret (inr ds, c').
  Proof using. intros e t l. apply take_digests_stops. Qed.

  (** ** C59 *)

  (** The sub-offers under a gateway are those its own signed answer advertised and that are proven.  Full claim: also for
      [FindOffersDHTDiscoveryV2], see the refuted theorems below. *)
  Theorem dht_attribution_partial : forall e c cid gid num res c' out, FindDHT e c cid gid num = Ret (OkR res, c', out) ->
    forall g os, aget bytes_eqb res g = Some os -> exists id m advertises, ToString id = g /\ advertised e c id m advertises /\
      forall s, In s os -> In s advertises.
  Proof.
    intros e c cid gid num res c' out H g os G.
    destruct (find_dht_inv _ _ _ _ _ _ _ _ _ _ _ _ _ _ _ H) as (_ & _ & id & _ & [(_ & X & _)|K]); [discriminate|].
    destruct K as (gw & request & _ & _ & _ & K). destruct (K res eq_refl) as (response & ids & ms & un & tp & _ & _ & _ & F).
    destruct (F g os G) as (i & m & lo & _ & Ei & Ad & P). exists i, m, lo. split; [exact Ei|]. split; [exact Ad|]. intros s S. apply P. exact S.
  Qed.

  Lemma picked_all e c : forall l ds, picked e c l ds -> (length ds <= length l)%nat /\ (length ds = length l -> Forall2 (advertised_digests e c) l ds).
  Proof.
    induction 1 as [l|x l d ds A P [L F]|x l ds P [L F]]; cbn [length].
    - split; [lia|]. destruct l; [constructor|discriminate].
    - split; [lia|]. intros E. constructor; [exact A|apply F; lia].
    - split; [lia|]. intros E. lia.
  Qed.

  (** A request of offers names the gateways contacted; if there are as many groups of digests, the groups are the
      digests that these gateways advertised, in order. *)
  Theorem dht_v2_asks_partial : forall e c cid gid num limit res c' out, FindDHTV2 e c cid gid num limit = Ret (OkR res, c', out) -> res <> [] ->
    exists id gw x ids ds request ms, gid = Some id /\ aget bytes_eqb (c_active c) (ToString id) = Some gw /\
      In (r_client_ap gw, request) out /\ gathers_with cid (c_offer c) ids ds x request /\ length ids = length ms /\
      (length ds <= length ids)%nat /\ (length ds = length ids -> Forall2 (advertised_digests e c) (combine ids ms) ds).
  Proof.
    intros e c cid gid num limit res c' out H NE. destruct (find_dht_v2_inv _ _ _ _ _ _ _ _ _ _ _ _ _ _ _ _ _ H) as (_ & id & -> & [(_ & X & _)|K]); [discriminate|].
    destruct K as (gw & rows & A & _ & _ & _ & K). destruct (K res eq_refl) as [Q|Q]; [destruct (NE Q)|].
    destruct Q as (n & q0 & response & ids & ms & un & nonce & pr & tp & ds & x & q1 & answer & i & q & ids' & ms' & tp' & l & _ & _ & _ & L & P & _ & _ & G & O & _).
    exists id, gw, x, ids, ds, q1, (items ms). split; [reflexivity|]. split; [exact A|]. split; [exact O|]. split; [exact G|]. split; [exact L|].
    destruct (picked_all _ _ _ _ P) as [L1 F]. rewrite combine_length, <- L, Nat.min_id in L1, F. split; [exact L1|exact F].
  Qed.

  (** ** C60 *)

  (** In any life without overlapping calls, an active gateway is in use, with the same registration.  Full claim: also
      when calls overlap, see [overlapping_calls_refuted] and the theorems after it. *)
  Theorem active_in_use_partial : forall id ttl search offer topup m h c, use_through (NewClient id ttl search offer topup m) h = Ret c ->
    forall g r, aget bytes_eqb (c_active c) g = Some r -> aget bytes_eqb (c_use c) g = Some r.
  Proof.
    intros id ttl s o t m h c L g r A. destruct (life_alive _ _ _ _ _ _ _ _ _ h h _ _ (incl_refl h) (fresh_alive _ _ _ _ _ _ _ h id ttl s o t m) L) as [[_ _ Al] _].
    apply (Al g r A).
  Qed.

  (** ** C61 *)

  (** Every active gateway has proven who it is: in some call of this life it answered a request carrying a challenge of 32 bytes
      with a message signed with the registered key, which names the gateway and the challenge.  Full claim: a challenge nobody saw
      before, see [challenge_refuted]. *)
  Theorem active_authenticated_partial : forall id ttl search offer topup m h c, use_through (NewClient id ttl search offer topup m) h = Ret c ->
    forall g r, aget bytes_eqb (c_active c) g = Some r -> exists x, In x h /\ authenticated_at x r.
  Proof.
    intros id ttl s o t m h c L g r A. destruct (life_alive _ _ _ _ _ _ _ _ _ h h _ _ (incl_refl h) (fresh_alive _ _ _ _ _ _ _ h id ttl s o t m) L) as [[_ _ Al] _].
    apply (Al g r A).
  Qed.

  (** Each request for establishment carries the bytes drawn for it and for nothing else. *)
  Theorem challenge_per_request : forall e c ids k c' out, NoDup (map fst (c_active c)) -> AddActive e 0 c ids = Ret (k, c', out) ->
    challenges (c_id c) (ce_now e + c_ttl c) (c_drawn c) out (c_drawn c').
  Proof. intros e c ids k c' out N H. apply (add_active_inv _ _ _ _ _ _ _ _ _ _ _ _ _ _ N H). Qed.

  (** ** C62 *)
  Theorem ack_proves_publication : forall e c cid gid pid c' out,
    FindDHTOfferAck version supported sha256 pub_of ec_verify blake e c cid gid pid = Ret (OkR true, c', out) ->
    exists i g p gr pr, cid = Some i /\ gid = Some g /\ pid = Some p /\ gateway_known e c (ToString g) gr /\
      provider_known e c (ToString p) pr /\ complete gr /\ complete_provider pr /\ countersigned sha256 pub_of ec_verify blake pr gr i.
  Proof. intros e c cid gid pid c' out H. apply (find_ack_inv _ _ _ _ _ _ _ _ _ _ _ _ _ _ H). reflexivity. Qed.

  (** ** C122 *)
  Theorem gateways_in_use_registered : forall id ttl search offer topup m h c, use_through (NewClient id ttl search offer topup m) h = Ret c ->
    client_settings c = (id, ttl, search, offer, topup) /\
    forall g r, aget bytes_eqb (c_use c) g = Some r -> complete r /\ exists x, In x h /\ registered_at x g r.
  Proof.
    intros id ttl s o t m h c L. destruct (life_alive _ _ _ _ _ _ _ _ _ h h _ _ (incl_refl h) (fresh_alive _ _ _ _ _ _ _ h id ttl s o t m) L) as [[_ U _] St].
    split; [exact St|]. intros g r A. destruct (U g r A) as (X & _ & Y). auto.
  Qed.

  (** ** C123 *)

  (** The numbers returned, and exactly the gateways named are affected. *)
  Theorem gateways_added : forall id ttl search offer topup m h c e ids k c', use_through (NewClient id ttl search offer topup m) h = Ret c ->
    AddGatewaysToUse e 0 c ids = Ret (k, c') ->
    Z.of_nat (length (c_use c')) = Z.of_nat (length (c_use c)) + k /\ c_active c' = c_active c /\
    (forall g r, aget bytes_eqb (c_use c) g = Some r -> aget bytes_eqb (c_use c') g = Some r) /\
    (forall g r, aget bytes_eqb (c_use c') g = Some r -> aget bytes_eqb (c_use c) g = Some r \/ named ids g /\ gateway_known e c g r /\ complete r).
  Proof.
    intros id ttl s o t m h c e ids k c' L H.
    destruct (life_alive _ _ _ _ _ _ _ _ _ h h _ _ (incl_refl h) (fresh_alive _ _ _ _ _ _ _ h id ttl s o t m) L) as [[[N _] _ _] _].
    destruct (add_use_inv e ids 0 c k c' N H) as ((_ & A & _) & _ & C & _ & _ & F & G). split; [exact C|]. split; [exact A|]. split; [exact F|].
    intros g r X. destruct (G g r X) as [Y|(i & I & -> & Y)]; [left; exact Y|right]. split; [exists i; auto|exact Y].
  Qed.

  (** Gateways known to the register manager with a complete registration are added. *)
  Theorem registered_gateways_added : forall e c ids k c', start reg (c_reg c) = true -> gatewayDiscv reg (c_reg c) = true ->
    (forall i, In (Some i) ids -> aget bytes_eqb (gatewaysMap reg (c_reg c)) (ToString i) <> None) ->
    AddGatewaysToUse e 0 c ids = Ret (k, c') ->
    forall i r, In (Some i) ids -> aget bytes_eqb (gatewaysMap reg (c_reg c)) (ToString i) = Some r -> complete r ->
    aget bytes_eqb (c_use c') (ToString i) = match aget bytes_eqb (c_use c) (ToString i) with Some r0 => Some r0 | None => Some r end.
  Proof. intros e c ids k c'. apply add_use_all. Qed.

  Theorem gateways_removed : forall id ttl search offer topup m h c ids k c', use_through (NewClient id ttl search offer topup m) h = Ret c ->
    RemoveGatewaysToUse c ids = Ret (k, c') ->
    Z.of_nat (length (c_use c')) = Z.of_nat (length (c_use c)) - k /\
    (forall g, named ids g -> aget bytes_eqb (c_use c') g = None /\ aget bytes_eqb (c_active c') g = None) /\
    (forall g, ~ named ids g -> aget bytes_eqb (c_use c') g = aget bytes_eqb (c_use c) g /\ aget bytes_eqb (c_active c') g = aget bytes_eqb (c_active c) g).
  Proof.
    intros id ttl s o t m h c ids k c' L H.
    destruct (life_alive _ _ _ _ _ _ _ _ _ h h _ _ (incl_refl h) (fresh_alive _ _ _ _ _ _ _ h id ttl s o t m) L) as [[[N1 N2] _ Al] _].
    destruct (remove_use_inv ids c k c' N1 N2 H) as (_ & _ & C & _ & _ & F & G & K). split; [lia|]. split; [|exact G].
    intros g M. destruct (F g M) as [F1 F2]. split; [exact F1|].
    destruct (aget bytes_eqb (c_active c') g) as [r|] eqn:E; [|reflexivity]. apply F2. rewrite (proj1 (Al g r (K g r E))). discriminate.
  Qed.

  Theorem gateways_activated : forall id ttl search offer topup m h c e ids k c' out, use_through (NewClient id ttl search offer topup m) h = Ret c ->
    AddActive e 0 c ids = Ret (k, c', out) ->
    Z.of_nat (length (c_active c')) = Z.of_nat (length (c_active c)) + k /\ c_use c' = c_use c /\
    (forall g r, aget bytes_eqb (c_active c) g = Some r -> aget bytes_eqb (c_active c') g = Some r) /\
    (forall g r, aget bytes_eqb (c_active c') g = Some r -> aget bytes_eqb (c_active c) g = Some r \/ named ids g /\ aget bytes_eqb (c_use c) g = Some r).
  Proof.
    intros id ttl s o t m h c e ids k c' out L H.
    destruct (life_alive _ _ _ _ _ _ _ _ _ h h _ _ (incl_refl h) (fresh_alive _ _ _ _ _ _ _ h id ttl s o t m) L) as [[[_ N] _ _] _].
    destruct (add_active_inv _ _ _ _ _ _ _ _ _ _ _ _ _ _ N H) as ((_ & _ & _ & U) & _ & C & _ & F & G & _). split; [exact C|]. split; [exact U|]. split; [exact F|].
    intros g r X. destruct (G g r X) as [Y|(Y & Z & _)]; auto.
  Qed.

  Theorem gateways_deactivated : forall id ttl search offer topup m h c ids k c', use_through (NewClient id ttl search offer topup m) h = Ret c ->
    RemoveActiveGateways c ids = Ret (k, c') ->
    Z.of_nat (length (c_active c')) = Z.of_nat (length (c_active c)) - k /\ c_use c' = c_use c /\
    (forall g, named ids g -> aget bytes_eqb (c_active c') g = None) /\
    (forall g, ~ named ids g -> aget bytes_eqb (c_active c') g = aget bytes_eqb (c_active c) g).
  Proof.
    intros id ttl s o t m h c ids k c' L H.
    destruct (life_alive _ _ _ _ _ _ _ _ _ h h _ _ (incl_refl h) (fresh_alive _ _ _ _ _ _ _ h id ttl s o t m) L) as [[[_ N] _ _] _].
    destruct (remove_active_inv ids c k c' N H) as ((_ & _ & _ & _ & U) & _ & C & _ & F & G & _). split; [lia|]. auto.
  Qed.

  Theorem all_gateways_removed : forall c,
    fst (RemoveAllGatewaysToUse c) = Z.of_nat (length (c_use c)) /\
    (forall g, aget bytes_eqb (c_use (snd (RemoveAllGatewaysToUse c))) g = None /\ aget bytes_eqb (c_active (snd (RemoveAllGatewaysToUse c))) g = None) /\
    fst (RemoveAllActiveGateways c) = Z.of_nat (length (c_active c)) /\ c_use (snd (RemoveAllActiveGateways c)) = c_use c /\
    forall g, aget bytes_eqb (c_active (snd (RemoveAllActiveGateways c))) g = None.
  Proof. intros c. split; [reflexivity|]. split; [intros g; split; reflexivity|]. split; [reflexivity|]. split; reflexivity. Qed.

  (** Only removal takes a gateway out of use. *)
  Theorem gateways_kept : forall id ttl search offer topup m h c e k c' out, use_through (NewClient id ttl search offer topup m) h = Ret c ->
    perform version supported sha256 pub_of ec_verify blake voucher_text rand_int rand_bytes e c k = Ret (c', out) ->
    match k with CRemoveGateways _ | CRemoveAllGateways => True | _ => forall g r, aget bytes_eqb (c_use c) g = Some r -> aget bytes_eqb (c_use c') g = Some r end.
  Proof.
    intros id ttl s o t m h c e k c' out L H.
    destruct (life_alive _ _ _ _ _ _ _ _ _ h h _ _ (incl_refl h) (fresh_alive _ _ _ _ _ _ _ h id ttl s o t m) L) as [[[N1 N2] _ _] _].
    assert (E : c = with_manager c (c_reg c)) by (destruct c; reflexivity). rewrite E in H.
    assert (R := fun g r => removal_needed _ _ _ _ _ _ _ _ _ _ _ _ _ _ _ g r N1 N2 H).
    destruct k; exact Logic.I || exact R.
  Qed.

  (** ** C124 *)

  (** Everything sent by the call went to the gateway asked, and each request carries the voucher of a payment made in the
      call; the payments are to this gateway, for at most two searches at the configured price and at most [max] offers. *)
  Theorem standard_v2_bill_exact : forall e c cid gid max r c' out, FindStandardV2 e c cid gid max = Ret (r, c', out) ->
    (r = ErrR /\ c_pay c' = c_pay c /\ out = []) \/
    exists id gw rows, gid = Some id /\ aget bytes_eqb (c_active c) (ToString id) = Some gw /\
      spent e c c' rows /\ standard_bill c gw max rows /\ all_paid c gw cid rows out.
  Proof.
    intros e c cid gid max r c' out H. destruct (find_standard_v2_inv _ _ _ _ _ _ _ _ _ _ _ _ _ _ _ _ H) as (_ & id & Eid & [(_ & X)|K]); [left; exact X|right].
    destruct K as (gw & rows & A & B & C & D & _). exists id, gw, rows. auto 8.
  Qed.

  (** Full claim: all payments to the gateway asked, at the configured prices; see [dht_v2_bill_refuted]. *)
  Theorem dht_v2_bill_partial : forall e c cid gid num limit r c' out, FindDHTV2 e c cid gid num limit = Ret (r, c', out) ->
    (r = ErrR /\ c_pay c' = c_pay c /\ out = []) \/
    exists id gw rows, gid = Some id /\ aget bytes_eqb (c_active c) (ToString id) = Some gw /\
      spent e c c' rows /\ dht_bill c gw num limit rows /\ offered_to c gw cid num rows out.
  Proof.
    intros e c cid gid num limit r c' out H. destruct (find_dht_v2_inv _ _ _ _ _ _ _ _ _ _ _ _ _ _ _ _ _ H) as (_ & id & Eid & [(_ & X)|K]); [left; exact X|right].
    destruct K as (gw & rows & A & B & C & D & _). exists id, gw, rows. auto 8.
  Qed.

  (** The calls without payment send one request, to the gateway asked, and pay nothing. *)
  Theorem unpaid_calls : forall e c cid gid num r r' c' c2 out out',
    (FindStandard e c cid gid = Ret (r, c', out) -> c_pay c' = c_pay c /\ (length out <= 1)%nat /\
       forall url m, In (url, m) out -> exists id gw, gid = Some id /\ aget bytes_eqb (c_active c) (ToString id) = Some gw /\ url = r_client_ap gw) /\
    (FindDHT e c cid gid num = Ret (r', c2, out') -> c_pay c2 = c_pay c /\ (length out' <= 1)%nat /\
       forall url m, In (url, m) out' -> exists id gw, gid = Some id /\ aget bytes_eqb (c_active c) (ToString id) = Some gw /\ url = r_client_ap gw).
  Proof.
    intros e c cid gid num r r' c' c2 out out'. split; intros H.
    - destruct (find_standard_inv _ _ _ _ _ _ _ _ _ _ _ _ _ _ H) as (_ & P & id & Eid & [(_ & _ & ->)|(gw & q & A & _ & -> & _)]); (split; [exact P|]).
      + split; [cbn; lia|intros ? ? []].
      + split; [cbn; lia|]. intros url m [I|[]]. injection I as <- <-. eauto.
    - destruct (find_dht_inv _ _ _ _ _ _ _ _ _ _ _ _ _ _ _ H) as (_ & P & id & Eid & [(_ & _ & ->)|(gw & q & A & _ & -> & _)]); (split; [exact P|]).
      + split; [cbn; lia|intros ? ? []].
      + split; [cbn; lia|]. intros url m [I|[]]. injection I as <- <-. eauto.
  Qed.

  (** ** C125 *)

  (** A gateway's answer of another nonce or about other content is not accepted.  Full claim: the offers are also about this
      content and have not expired, see [returned_offers_refuted]. *)
  Theorem answers_about_content_partial : forall e c cid gid l c' out, FindStandard e c cid gid = Ret (OkR l, c', out) ->
    exists id gw j request response i found offers funded, gid = Some id /\ aget bytes_eqb (c_active c) (ToString id) = Some gw /\
      cid = Some j /\ out = [(r_client_ap gw, request)] /\ answered e 0 gw request response /\
      DecodeClientStandardDiscoverResponse sha256 response = Ret (OkR (Some i, rand_int (c_drawn c), found, offers, funded)) /\
      ToString i = ToString j /\ l = items offers.
  Proof.
    intros e c cid gid l c' out H. destruct (find_standard_inv _ _ _ _ _ _ _ _ _ _ _ _ _ _ H) as (_ & _ & id & Eid & [(_ & X & _)|(gw & q & A & _ & O & K)]); [discriminate|].
    destruct (K l eq_refl) as (response & i & f & offers & fu & An & De & El & j & Ej & Eij). exists id, gw, j, q, response, i, f, offers, fu. auto 10.
  Qed.

  (** ** C126 *)

  (** A positive number of gateways: the first ones, in the order of the listing, that are in the region.  Full claim: for any
      number, see [find_gateways_refuted]. *)
  Theorem find_gateways_partial : forall e c location max ids c', FindGateways e c location max = Ret (OkR ids, c') -> 1 <= max ->
    ids = firstn (Z.to_nat max) (nearby location (map snd (ce_order e (gatewaysMap reg (c_reg c))))) /\
    c_use c' = c_use c /\ c_active c' = c_active c.
  Proof.
    intros e c location max ids c' H M. pose proof (find_gateways_exact _ _ _ _ _ _ H) as X. rewrite Z.max_r in X by exact M.
    split; [exact X|]. destruct (find_gateways_inv _ _ _ _ _ _ H) as (_ & U & A & _). auto.
  Qed.

  (** ** C127 *)

  (** Removals with identifiers that are not nil return.  Full claim: no call panics or hangs, see the refuted theorems
      below. *)
  Theorem removals_return_partial : forall c ids,
    (exists k c', RemoveGatewaysToUse c (map Some ids) = Ret (k, c')) /\ (exists k c', RemoveActiveGateways c (map Some ids) = Ret (k, c')).
  Proof.
    intros c ids. split; revert c; induction ids as [|i t IH]; intros c; cbn [map RemoveGatewaysToUse RemoveActiveGateways deref obind]; [eauto| |eauto|].
    - destruct (aget bytes_eqb (c_use c) (ToString i)); [|apply IH]. cbv zeta.
      match goal with |- context [RemoveGatewaysToUse ?x (map Some t)] => destruct (IH x) as (k & c' & ->) end. cbn [obind]. eauto.
    - destruct (aget bytes_eqb (c_active c) (ToString i)); [|apply IH].
      match goal with |- context [RemoveActiveGateways ?x (map Some t)] => destruct (IH x) as (k & c' & ->) end. cbn [obind]. eauto.
  Qed.
End properties.

(** ** C60 with overlapping calls *)

(** Every active gateway was in use, with this registration, at some moment of the execution. *)
Theorem active_was_in_use : forall s l r, at_rest s ->
  (forall g x, aget bytes_eqb (cs_active s) g = Some x -> aget bytes_eqb (cs_use s) g = Some x) -> conc_run s l = Some r ->
  forall pre x post g y, r = pre ++ x :: post -> aget bytes_eqb (cs_active x) g = Some y ->
  exists z, In z (pre ++ [x]) /\ aget bytes_eqb (cs_use z) g = Some y.
Proof. exact active_was_used_pf. Qed.

(** Between removals, an active gateway is not in use only if it was taken out of use while a goroutine was making it active. *)
Theorem overlapping_calls_partial : forall s l r, at_rest s -> active_in_use s -> conc_run s l = Some r ->
  forall pre x post g, r = pre ++ x :: post -> cs_lock x = None ->
  aget bytes_eqb (cs_active x) g <> None -> aget bytes_eqb (cs_use x) g = None ->
  exists z, In z pre /\ activating z g /\ aget bytes_eqb (cs_use z) g = None.
Proof. exact only_race_pf. Qed.

(** So it does not happen when no gateways are being made active, or none taken out of use. *)
Theorem overlapping_removals : forall s l r, at_rest s -> active_in_use s -> Forall (fun t => adds_active t = false) (cs_threads s) ->
  conc_run s l = Some r -> forall pre x post, r = pre ++ x :: post -> cs_lock x = None -> active_in_use x.
Proof. exact no_activation_pf. Qed.

Theorem overlapping_additions : forall s l r, at_rest s -> active_in_use s -> Forall (fun t => removes_use t = false) (cs_threads s) ->
  conc_run s l = Some r -> forall pre x post, r = pre ++ x :: post -> active_in_use x.
Proof. exact no_removal_pf. Qed.

(** One goroutine activates gateway 10, another takes it out of use. *)
Definition g10 : gostring := Eval vm_compute in ToString (idn 10).
Definition race_start : cstate := CState [(g10, gw10)] [] None [AddActive [g10]; RemoveUse [g10]].
Definition yes : given := Given None true.
Definition race : list (nat * given) :=
  [(0%nat, yes); (0%nat, yes); (0%nat, yes); (1%nat, yes); (1%nat, yes); (1%nat, yes); (1%nat, yes); (0%nat, yes); (0%nat, yes)].

Theorem overlapping_calls_refuted : exists r s, at_rest race_start /\ active_in_use race_start /\ conc_run race_start race = Some r /\
  last r race_start = s /\ all_finished s /\ cs_use s = [] /\ cs_active s = [(g10, gw10)].
Proof.
  destruct (conc_run race_start race) as [r|] eqn:E; [|vm_compute in E; discriminate].
  exists r, (last r race_start). split; [|split; [|split; [reflexivity|split; [reflexivity|]]]].
  - split; [reflexivity|]. split; [repeat constructor|]. split; [apply NoDup_cons; [intros []|constructor]|constructor].
  - intros id H. exfalso. apply H. reflexivity.
  - vm_compute in E. injection E as <-. split; [unfold all_finished; repeat constructor|split; vm_compute; reflexivity].
Qed.

(** ** C128 *)

(** No execution is longer than the work at its start, and it can go on until all calls have finished. *)
Theorem overlapping_calls_finish : forall s l r, at_rest s -> conc_run s l = Some r ->
  (length l <= total_work s)%nat /\
  forall pre x post, r = pre ++ x :: post -> ~ all_finished x -> exists i, forall g, conc_step x i g <> None.
Proof. intros s l r R H. split; [exact (executions_end_pf l s r H)|]. intros pre x post. apply (always_progress_pf s l r R H). Qed.

(** ** Refuted *)
Definition toy_proven := proven toy_hash toy_pub PropertiesCrypto.toy_verify toy_blake.

(** The forged offer is not proven. *)
Lemma forged_unproven answers : ~ toy_proven (cworld answers) paying subf.
Proof.
  intros (id & p & k & I & [K|(n & l & K & _)] & D & V & _); [|discriminate K].
  change (s_provider subf) with (Some (idn 70)) in I. injection I as <-.
  assert (A : aget bytes_eqb (providersMap reg (c_reg paying)) (ToString (idn 70)) = Some pvd70) by (vm_compute; reflexivity).
  rewrite A in K. injection K as <-.
  assert (B : DecodePublicKey (r_key pvd70) = Ret (OkR (toy_pubkey 7))) by (vm_compute; reflexivity).
  rewrite B in D. apply ret_inj in D. injection D as <-. vm_compute in V. discriminate V.
Qed.

Lemma ret_case {A} (P : A -> Prop) (o : outcome A) : match o with Ret a => P a | _ => False end -> exists a, o = Ret a /\ P a.
Proof. destruct o; intros H; [eauto|destruct H|destruct H]. Qed.
Lemma ret3 {A B C} (x : A * B * C) a : fst (fst x) = a -> x = (a, snd (fst x), snd x).
Proof. destruct x as [[? ?] ?]. intros <-. reflexivity. Qed.

(** C57: an offer that its provider did not sign is returned. *)
Theorem standard_offers_unverified_refuted : exists e s c' out,
  t_Standard e paying 2 10 = Ret (OkR [s], c', out) /\ ~ toy_proven e paying s.
Proof.
  destruct (ret_case (fun x => fst (fst x) = OkR [subf]) (t_Standard (cworld [std_forged]) paying 2 10)) as (x & E & X); [vm_compute; reflexivity|].
  rewrite (ret3 _ _ X) in E. do 4 eexists. split; [exact E|apply forged_unproven].
Qed.
Theorem dht_v2_offers_unverified_refuted : exists e g s c' out,
  t_DHTV2 e paying 2 10 2 1 = Ret (OkR [(g, [s])], c', out) /\ ~ toy_proven e paying s.
Proof.
  destruct (ret_case (fun x => fst (fst x) = OkR [(ToString (idn 20), [subf])]) (t_DHTV2 (cworld [v2_digests; v2_digests; v2_forged]) paying 2 10 2 1)) as (x & E & X); [vm_compute; reflexivity|].
  rewrite (ret3 _ _ X) in E. do 5 eexists. split; [exact E|apply forged_unproven].
Qed.

(** C58: with a maximum of none, two are returned; with a limit of one, two. *)
Theorem standard_v2_limit_refuted : exists e l c' out, t_StandardV2 e paying 2 10 0 = Ret (OkR l, c', out) /\ length l = 2%nat.
Proof.
  destruct (ret_case (fun x => fst (fst x) = OkR [sub1; sub2]) (t_StandardV2 (cworld [digests3; digests3; offers3]) paying 2 10 0)) as (x & E & X); [vm_compute; reflexivity|].
  rewrite (ret3 _ _ X) in E. do 4 eexists. split; [exact E|reflexivity].
Qed.
(** Gateway 20 has a digest, gateway 30 nothing: with a limit of one gateway 30 is not listened to, with two its answer ends the search. *)
Definition nothing_resp (key : Z) : message :=
  signed key (EncodeGatewayDHTDiscoverResponseV2 1 [1] (Some (idn 2)) 102 false (Some []) (Some []) false []).
Definition t_take (limit : Z) := take_digests toy_hash toy_pub PropertiesCrypto.toy_verify toy_blake (cworld []) 0 paying [(idn 20, digest_resp 2 [dig1]); (idn 30, nothing_resp 3)] limit 0.
Example dht_v2_stops_ex : map (fun n => match t_take n with Ret (x, _) => Some x | _ => None end) [1; 2] = [Some (inr [Some [dig1]]); Some (inl (OkR []))].
Proof. vm_compute. reflexivity. Qed.
Definition alias : list (gostring * list suboffer) := [(ToString (idn 20), [sub2]); (ToString (idn 30), [sub2])].
Theorem dht_v2_limit_refuted : exists e res c' out, t_DHTV2 e paying 2 10 2 1 = Ret (OkR res, c', out) /\
  length (flat_map snd res) = 2%nat.
Proof.
  destruct (ret_case (fun x => fst (fst x) = OkR alias) (t_DHTV2 (cworld [v2_digests; v2_digests; v2_offers]) paying 2 10 2 1)) as (x & E & X); [vm_compute; reflexivity|].
  rewrite (ret3 _ _ X) in E. do 4 eexists. split; [exact E|reflexivity].
Qed.

(** C59: what gateway 30 gave is returned under gateway 20, too; gateway 20 gave [sub1]. *)
Theorem dht_v2_attribution_refuted : exists e res c' out, t_DHTV2 e paying 2 10 2 5 = Ret (OkR res, c', out) /\
  aget bytes_eqb res (ToString (idn 20)) = Some [sub2] /\ s_price sub1 <> s_price sub2.
Proof.
  destruct (ret_case (fun x => fst (fst x) = OkR alias) (t_DHTV2 (cworld [v2_digests; v2_digests; v2_offers]) paying 2 10 2 5)) as (x & E & X); [vm_compute; reflexivity|].
  rewrite (ret3 _ _ X) in E. do 4 eexists. split; [exact E|]. split; [vm_compute; reflexivity|vm_compute; discriminate].
Qed.
(** The answer said to be gateway 20's is not signed by it and left out; then gateway 20 is asked for what gateway 30
    advertised. *)
Theorem dht_v2_digests_refuted : exists e r c' o1 url request a b d f, t_DHTV2 e paying 2 10 2 5 = Ret (r, c', [o1; (url, request)]) /\
  DecodeClientDHTDiscoverOfferRequest toy_hash request = Ret (OkR (a, b, Some [Some [dig2]], [idn 20; idn 30], d, f)).
Proof.
  destruct (ret_case (fun x => match snd x with
      | [_; (_, m)] => match DecodeClientDHTDiscoverOfferRequest toy_hash m with Ret (OkR (_, _, ds, ids, _, _)) => ds = Some [Some [dig2]] /\ ids = [idn 20; idn 30] | _ => False end
      | _ => False end) (t_DHTV2 (cworld [v2_skipped; v2_skipped; v2_one]) paying 2 10 2 5)) as ([[r c'] out] & E & X); [vm_compute; split; reflexivity|].
  cbn [snd] in X. destruct out as [|o1 [|[url m] [|]]]; try destruct X.
  destruct (DecodeClientDHTDiscoverOfferRequest toy_hash m) as [[[[[[[a b] ds] ids] f] g]|]| |] eqn:D; try destruct X. subst ds ids.
  do 10 eexists. split; [exact E|exact D].
Qed.

(** C61: every process draws the same first challenge, so a gateway that has answered one client can be impersonated for
    another by repeating its answer. *)
Theorem challenge_refuted : exists request replay c1 c2 m1 m2, est_resp 10 1 0 = replay /\
  t_AddActive (cworld [replay]) in_use [10] = Ret (1, c1, [m1]) /\
  t_AddActive (cworld [replay]) (Client (Some (idn 98)) 7 3 2 top (c_use in_use) [] None toy_cmgr []) [10] = Ret (1, c2, [m2]) /\
  DecodeClientEstablishmentRequest toy_hash (snd m1) = Ret (OkR (Some (idn 99), request, 45)) /\
  DecodeClientEstablishmentRequest toy_hash (snd m2) = Ret (OkR (Some (idn 98), request, 47)).
Proof.
  set (P := fun i ttl (x : Z * client * list (gostring * message)) => fst (fst x) = 1 /\ match snd x with
      | [(_, m)] => DecodeClientEstablishmentRequest toy_hash m = Ret (OkR (Some (idn i), b64_encode (idn 200), ttl)) | _ => False end).
  destruct (ret_case (P 99 45) (t_AddActive (cworld [est10]) in_use [10])) as ([[k1 c1] o1] & E1 & K1 & X1); [vm_compute; split; reflexivity|].
  destruct (ret_case (P 98 47) (t_AddActive (cworld [est10]) (Client (Some (idn 98)) 7 3 2 top (c_use in_use) [] None toy_cmgr []) [10])) as ([[k2 c2] o2] & E2 & K2 & X2);
    [vm_compute; split; reflexivity|].
  cbn [fst snd] in *. subst k1 k2. destruct o1 as [|[u1 m1] [|]]; [destruct X1| |destruct X1]. destruct o2 as [|[u2 m2] [|]]; [destruct X2| |destruct X2].
  exists (b64_encode (idn 200)), est10, c1, c2, (u1, m1), (u2, m2). split; [vm_compute; reflexivity|]. split; [exact E1|]. split; [exact E2|]. split; [exact X1|exact X2].
Qed.

(** C124: the payment asked for by the gateway goes to whom it names; searches are paid at a fixed price instead of the
    configured one. *)
Theorem dht_v2_bill_refuted : exists e r c' out m, t_DHTV2 e paying 2 10 2 5 = Ret (r, c', out) /\ c_pay c' = Some m /\
  map (fun x => (fst x, c_redeemed (snd x))) (m_out m) = [(gs "addr1", 2 * defaultSearchPrice + 2 * 2); (gs "elsewhere", 3)] /\
  c_search paying = 3.
Proof.
  destruct (ret_case (fun x => match c_pay (snd (fst x)) with Some m =>
      map (fun x => (fst x, c_redeemed (snd x))) (m_out m) = [(gs "addr1", 2 * defaultSearchPrice + 2 * 2); (gs "elsewhere", 3)] | None => False end)
    (t_DHTV2 (cworld [v2_pay; v2_digests; v2_offers]) paying 2 10 2 5)) as ([[r c'] out] & E & X); [vm_compute; reflexivity|].
  cbn [fst snd] in X. destruct (c_pay c') as [m|] eqn:M; [|destruct X]. exists (cworld [v2_pay; v2_digests; v2_offers]), r, c', out, m. split; [exact E|]. split; [exact M|]. split; [exact X|reflexivity].
Qed.

(** C125: an offer of other content that has expired, returned by the most careful call. *)
Definition stale : suboffer := Eval vm_compute in GenerateSubCIDOffer (toy_signed_offer 70 7 [idn 1; idn 3] 10 30) (idn 1).
Definition offers_stale : message := Eval vm_compute in offer_resp 103 [stale].
Theorem returned_offers_refuted : exists e s c' out, t_StandardV2 e paying 2 10 5 = Ret (OkR [s], c', out) /\
  s_cid s = Some (idn 1) /\ s_expiry s < ce_now e.
Proof.
  destruct (ret_case (fun x => fst (fst x) = OkR [stale]) (t_StandardV2 (cworld [digests3; digests3; offers_stale]) paying 2 10 5)) as (x & E & X); [vm_compute; reflexivity|].
  rewrite (ret3 _ _ X) in E. do 4 eexists. split; [exact E|]. split; vm_compute; reflexivity.
Qed.

(** C126: no gateway is asked for and one is returned. *)
Theorem find_gateways_refuted : exists e ids c', FindGateways e toy_client (gs "au") 0 = Ret (OkR ids, c') /\ length ids = 1%nat.
Proof.
  destruct (ret_case (fun x => fst x = OkR [idn 10]) (FindGateways (cworld []) toy_client (gs "au") 0)) as ([r c'] & E & X); [vm_compute; reflexivity|].
  cbn [fst] in X. subst r. do 3 eexists. split; [exact E|reflexivity].
Qed.

(** C127: calls that panic: with a client that has not paid before; with a negative limit; on a gateway's malformed answer; with
    a nil identifier, which other calls check. *)
Theorem calls_panic_refuted :
  t_StandardV2 (cworld [digests3; digests3; offers3]) active 2 10 5 = Panic /\
  t_StandardV2 (cworld [digests3; digests3; offers3]) paying 2 10 (-1) = Panic /\
  t_DHTV2 (cworld [v2_digests; v2_digests; v2_offers]) paying 2 10 2 (-1) = Panic /\
  t_AddActive (cworld [est_bad]) in_use [10] = Panic /\
  RemoveGatewaysToUse paying [None] = Panic /\ (exists c', AddGatewaysToUse (cworld []) 0 paying [None] = Ret (0, c')).
Proof. split; [vm_compute; reflexivity|]. split; [vm_compute; reflexivity|]. split; [vm_compute; reflexivity|]. split; [vm_compute; reflexivity|]. split; [reflexivity|]. eexists. reflexivity. Qed.

(** After an offer of an unregistered provider, looking up a gateway that is not known hangs. *)
Definition sub90 : suboffer := Eval vm_compute in GenerateSubCIDOffer (toy_signed_offer 90 9 [idn 2] 10 100) (idn 2).
Definition std_stranger : message := Eval vm_compute in std_resp 102 [sub90].
Definition listed_world : cenv :=
  CEnv 40 (fun _ _ _ => None) (fun _ => Some [Some gw10]) (fun _ => Some [Some pvd70]) None (fun _ => TxRefused) (fun _ => None) (fun x => x).
Theorem calls_hang_refuted : exists c' out l, t_Standard (cworld [std_stranger]) paying 2 10 = Ret (OkR l, c', out) /\
  AddGatewaysToUse listed_world 0 c' [Some (idn 40)] = Diverge /\
  exists k c2, AddGatewaysToUse listed_world 0 paying [Some (idn 40)] = Ret (k, c2).
Proof.
  destruct (ret_case (fun x => fst (fst x) = OkR [sub90] /\ AddGatewaysToUse listed_world 0 (snd (fst x)) [Some (idn 40)] = Diverge)
    (t_Standard (cworld [std_stranger]) paying 2 10)) as (x & E & X & Y); [vm_compute; split; reflexivity|].
  rewrite (ret3 _ _ X) in E. do 3 eexists. split; [exact E|]. split; [exact Y|].
  destruct (ret_case (fun _ => True) (AddGatewaysToUse listed_world 0 paying [Some (idn 40)])) as ([k c2] & E2 & _); [vm_compute; exact Logic.I|]. eauto.
Qed.

Print Assumptions standard_v2_offers_verified_partial.
Print Assumptions dht_offers_verified_partial.
Print Assumptions standard_v2_offers_exact.
Print Assumptions standard_v2_limit_partial.
Print Assumptions dht_v2_asks_limited.
Print Assumptions dht_v2_stops.
Print Assumptions dht_attribution_partial.
Print Assumptions dht_v2_asks_partial.
Print Assumptions active_in_use_partial.
Print Assumptions active_authenticated_partial.
Print Assumptions challenge_per_request.
Print Assumptions ack_proves_publication.
Print Assumptions gateways_in_use_registered.
Print Assumptions gateways_added.
Print Assumptions registered_gateways_added.
Print Assumptions gateways_removed.
Print Assumptions gateways_activated.
Print Assumptions gateways_deactivated.
Print Assumptions all_gateways_removed.
Print Assumptions gateways_kept.
Print Assumptions standard_v2_bill_exact.
Print Assumptions dht_v2_bill_partial.
Print Assumptions unpaid_calls.
Print Assumptions answers_about_content_partial.
Print Assumptions find_gateways_partial.
Print Assumptions removals_return_partial.
Print Assumptions active_was_in_use.
Print Assumptions overlapping_calls_partial.
Print Assumptions overlapping_removals.
Print Assumptions overlapping_additions.
Print Assumptions overlapping_calls_refuted.
Print Assumptions overlapping_calls_finish.
Print Assumptions standard_offers_unverified_refuted.
Print Assumptions dht_v2_offers_unverified_refuted.
Print Assumptions standard_v2_limit_refuted.
Print Assumptions dht_v2_limit_refuted.
Print Assumptions dht_v2_attribution_refuted.
Print Assumptions dht_v2_digests_refuted.
Print Assumptions challenge_refuted.
Print Assumptions dht_v2_bill_refuted.
Print Assumptions returned_offers_refuted.
Print Assumptions find_gateways_refuted.
Print Assumptions calls_panic_refuted.
Print Assumptions calls_hang_refuted.

(** ** Examples *)
Definition result_of {A} (o : outcome (result A * client * list (gostring * message))) : option (result A * nat) :=
  match o with Ret (r, _, out) => Some (r, length out) | _ => None end.
Definition payments_of {A} (o : outcome (A * client * list (gostring * message))) : list (gostring * Z) :=
  match o with Ret (_, c, _) => match c_pay c with Some m => map (fun x => (fst x, c_redeemed (snd x))) (m_out m) | None => [] end | _ => [] end.
Definition keys_of (c : client) : list bytes * list bytes := (key_ids (map fst (c_use c)), key_ids (map fst (c_active c))).

(** C57, C58: the forged offer is left out; the maximum is kept; a gateway that asks for more is paid and asked
    again. *)
Example toy_standard_v2 :
  result_of (t_StandardV2 (cworld [digests3; digests3; offers3]) paying 2 10 5) = Some (OkR [sub1; sub2], 2%nat) /\
  result_of (t_StandardV2 (cworld [digests3; digests3; offers3]) paying 2 10 1) = Some (OkR [sub1], 2%nat) /\
  result_of (t_StandardV2 (cworld [pay_more; digests3b; offers3b]) paying 2 10 3) = Some (OkR [sub1; sub2], 3%nat) /\
  payments_of (t_StandardV2 (cworld [pay_more; digests3b; offers3b]) paying 2 10 3) = [(gs "addr1", 3 + 3 + 3 * 2)].
Proof. split; [vm_compute; reflexivity|]. split; [vm_compute; reflexivity|]. split; vm_compute; reflexivity. Qed.

(** C57, C59: offers found through gateway 10 by gateways 20 and 30; what gateway 20 did not sign is left out. *)
Example toy_dht :
  result_of (t_DHT (cworld [dht_good]) paying 2 10 2) = Some (OkR [(ToString (idn 20), [sub1]); (ToString (idn 30), [sub2])], 1%nat) /\
  result_of (t_DHT (cworld [dht_fake]) paying 2 10 2) = Some (OkR [(ToString (idn 30), [sub2])], 1%nat).
Proof. split; vm_compute; reflexivity. Qed.
Definition gathered {A} (o : outcome (A * client * list (gostring * message))) : option (option (list (option (list gostring))) * list bytes) :=
  match o with
  | Ret (_, _, [_; (_, m)]) => match DecodeClientDHTDiscoverOfferRequest toy_hash m with Ret (OkR (_, _, ds, ids, _, _)) => Some (ds, ids) | _ => None end
  | _ => None
  end.
Example toy_dht_v2 :
  payments_of (t_DHTV2 (cworld [v2_digests; v2_digests; v2_offers]) paying 2 10 2 1) = [(gs "addr1", 2 * defaultSearchPrice + 2)] /\
  gathered (t_DHTV2 (cworld [v2_digests; v2_digests; v2_offers]) paying 2 10 2 5) = Some (Some [Some [dig1]; Some [dig2]], [idn 20; idn 30]).
Proof. split; vm_compute; reflexivity. Qed.

(** C60, C61, C122, C123: a life. *)
Definition toy_calls : calls :=
  [(toy_cmgr, cworld [], CAddGateways [Some (idn 10); Some (idn 20); None; Some (idn 40); Some (idn 30); Some (idn 10)]);
   (toy_cmgr, cworld [est10; est20], CAddActive [Some (idn 10); Some (idn 20); Some (idn 40)]);
   (toy_cmgr, cworld [dht_good], CFindDHT (Some (idn 2)) (Some (idn 10)) 2);
   (toy_cmgr, cworld [], CRemoveGateways [Some (idn 20)])].
Definition keys_after (o : outcome client) : option (list bytes * list bytes) := match o with Ret c => Some (keys_of c) | _ => None end.
Example toy_client_life :
  keys_after (t_life toy_client toy_calls) = Some ([idn 10; idn 30], [idn 10]) /\
  keys_after (t_life toy_client (firstn 2 toy_calls)) = Some ([idn 10; idn 20; idn 30], [idn 10; idn 20]).
Proof. split; vm_compute; reflexivity. Qed.
(** Answers in another gateway's name, with an old challenge, and signed with another key. *)
Definition added (o : outcome (Z * client * list (gostring * message))) : option Z := match o with Ret (k, _, _) => Some k | _ => None end.
Example toy_impostors :
  added (t_AddActive (cworld [est10]) in_use [10]) = Some 1 /\ added (t_AddActive (cworld [est_other]) in_use [10]) = Some 0 /\
  added (t_AddActive (cworld [est_old]) in_use [10]) = Some 0 /\ added (t_AddActive (cworld [est_wrong]) in_use [10]) = Some 0.
Proof. split; [vm_compute; reflexivity|]. split; [vm_compute; reflexivity|]. split; vm_compute; reflexivity. Qed.
Example toy_counts :
  match AddGatewaysToUse (cworld []) 0 toy_client [Some (idn 10); Some (idn 40); Some (idn 30); Some (idn 10)] with Ret (k, c) => k = 2 /\ keys_of c = ([idn 10; idn 30], []) | _ => False end /\
  match RemoveGatewaysToUse active [Some (idn 20); Some (idn 40); Some (idn 20)] with Ret (k, c) => k = 1 /\ keys_of c = ([idn 10; idn 30], [idn 10]) | _ => False end /\
  match RemoveActiveGateways active [Some (idn 20); Some (idn 30)] with Ret (k, c) => k = 1 /\ keys_of c = ([idn 10; idn 20; idn 30], [idn 10]) | _ => False end /\
  fst (RemoveAllGatewaysToUse active) = 3 /\ keys_of (snd (RemoveAllActiveGateways active)) = ([idn 10; idn 20; idn 30], []).
Proof. vm_compute. repeat split. Qed.

(** C60: two goroutines, one adding gateway 10 and making it active, one making it active; and one removing another. *)
Definition g20 : gostring := Eval vm_compute in ToString (idn 20).
Definition calm : cstate := CState [(g20, gw20)] [(g20, gw20)] None [AddUse [g10]; AddActive [g20; g10]; RemoveAllActive].
Definition with10 : given := Given (Some gw10) true.
Example toy_overlap : at_rest calm /\ active_in_use calm /\ Forall (fun t => removes_use t = false) (cs_threads calm) /\
  match conc_run calm [(0%nat, with10); (1%nat, with10); (0%nat, with10); (0%nat, with10); (1%nat, with10); (2%nat, with10); (1%nat, with10); (1%nat, with10); (1%nat, with10); (0%nat, with10); (1%nat, with10)] with
  | Some r => cs_use (last r calm) = [(g20, gw20); (g10, gw10)] /\ cs_active (last r calm) = [(g10, gw10)] /\ all_finished (last r calm)
  | None => False
  end.
Proof.
  split; [|split; [|split]].
  - split; [reflexivity|]. split; [repeat constructor|]. split; (apply NoDup_cons; [intros []|constructor]).
  - intros id H. exact H.
  - repeat constructor.
  - vm_compute. split; [reflexivity|]. split; [reflexivity|]. repeat constructor.
Qed.
(** A goroutine waits while another is removing. *)
Example toy_waiting : let s := CState [(g10, gw10)] [(g10, gw10)] None [RemoveUse [g10]; RemoveAllUse] in
  match conc_step s 0 yes with Some s' => conc_step s' 1 yes = None /\ cs_lock s' = Some 0%nat | None => False end /\ total_work s = 5%nat.
Proof. vm_compute. repeat split. Qed.

(** C62: publication and acknowledgement; the acknowledgement of something else. *)
Example toy_ack :
  result_of (t_Ack (cworld [ack_good]) toy_client 2 10 70) = Some (OkR true, 1%nat) /\
  result_of (t_Ack (cworld [ack_bad]) toy_client 2 10 70) = Some (OkR false, 1%nat) /\
  result_of (t_Ack (cworld [ack_good]) toy_client 1 10 70) = Some (ErrR, 1%nat) /\
  result_of (t_Ack (cworld [ack_good]) toy_client 2 20 70) = Some (ErrR, 1%nat).
Proof. split; [vm_compute; reflexivity|]. split; [vm_compute; reflexivity|]. split; vm_compute; reflexivity. Qed.

(** C125 *)
Example toy_standard : result_of (t_Standard (cworld [std_good]) paying 2 10) = Some (OkR [sub1; sub2], 1%nat) /\
  result_of (t_Standard (cworld [std_good]) paying 1 10) = Some (ErrR, 1%nat) /\ result_of (t_Standard (cworld [std_good]) paying 2 30) = Some (ErrR, 0%nat).
Proof. split; [vm_compute; reflexivity|]. split; vm_compute; reflexivity. Qed.

(** C126 *)
Definition found_ids (max : Z) : option (list bytes) := match FindGateways (cworld []) toy_client (gs "au") max with Ret (OkR l, _) => Some l | _ => None end.
Example toy_nearby : found_ids 5 = Some [idn 10; idn 30] /\ found_ids 1 = Some [idn 10].
Proof. vm_compute. split; reflexivity. Qed.
