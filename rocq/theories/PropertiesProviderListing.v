(** * Examples of listings, and what is false of providers (C53, C54, C56, C107, C109, C111) *)
From Coq Require Import String List ZArith Bool Lia Sorting.Permutation Sorting.Sorted.
From Coq Require Import Init.Byte.
From Verif Require Import Base Ids Crypto Message Offer Schema Messages WireSpec Register RegisterSpec OfferStore OfferStoreSpec Ring RingSpec SqlOffers SqlOffersSpec
  Rest Gateway GatewaySpec Provider ProviderSpec PropertiesMerkle PropertiesCrypto PropertiesSql ToyGateway ToyProvider PropertiesProvider.
Import ListNotations.
Open Scope Z_scope.

Local Notation toy f := (f 1 [1] toy_hash toy_hash toy_pub toy_sign PropertiesCrypto.toy_verify toy_blake) (only parsing).

(** ** Listings in the toy world *)

Lemma lived_app_toy ss : forall p q s p', toy lived p ss q -> s_before s = p_with_reg q toy_reg ->
  toy pact (s_env s) (s_before s) (s_kind s) (s_msg s) = Ret (s_after s, s_answers s, s_sent s) -> p' = s_after s -> toy lived p (ss ++ [s]) p'.
Proof.
  induction ss as [|x t IH]; intros p q s p' L B E ->.
  - cbn [lived] in L. subst q. cbn [app lived]. split; [exists toy_reg; exact B|]. split; [exact E|reflexivity].
  - destruct L as (R & X & L). cbn [app lived]. split; [exact R|]. split; [exact X|]. exact (IH _ _ _ _ L B E eq_refl).
Qed.

(** What gateway 20 is answered when it lists the range from 10 to 30. *)
Definition list_of (p : provider) (acks : message -> option message) : outcome (provider * list message * list exchange) :=
  toy pact (toy_penv 43) (p_with_reg p toy_reg) (ListDHT acks) (list_req 20 2 10 30).
Definition first_answer (o : outcome (provider * list message * list exchange)) : message :=
  match o with Ret (_, m :: _, _) => m | _ => zero_message end.
Definition then_provider (o : outcome (provider * list message * list exchange)) : provider :=
  match o with Ret (p, _, _) => p | _ => NewProvider toy_reg end.
Definition toy_listing : message := Eval vm_compute in first_answer (list_of toy_prov (fun _ => None)).
Definition toy_listed : provider := Eval vm_compute in then_provider (list_of toy_prov (fun _ => None)).
Definition list_step : pstep :=
  PStep (p_with_reg toy_prov toy_reg) (toy_penv 43) (ListDHT (fun _ => None)) (list_req 20 2 10 30) toy_listed [toy_listing] [].

Lemma toy_shape : exists q1 q2 q3 q4 a1 a2 a3 x1 x2 x3, toy_steps =
  [PStep (p_with_reg (NewProvider toy_reg) toy_reg) (toy_penv 40) AdminInitialiseKey (init_req 70 7) q2 a1 x1;
   PStep (p_with_reg q2 toy_reg) (toy_penv 41) AdminPublishGroup (pub_group_req [1; 2] 10 100) q3 a2 x2;
   PStep (p_with_reg q3 toy_reg) (toy_penv 42) AdminPublishDHT (pub_dht_req [15] 20 100) q4 a3 x3] /\ q1 = q4.
Proof.
  assert (R : is_ret (toy_plife toy_requests) = true) by (vm_compute; reflexivity). unfold toy_steps.
  destruct (toy_plife toy_requests) as [[ss p]| |] eqn:E; try discriminate R. cbn [steps_of].
  unfold toy_plife, toy_requests in E. cbn [map fst snd plife] in E.
  repeat match type of E with context [pact ?a ?b ?c ?d ?e ?f ?g ?h ?i ?p ?k ?m] =>
    let F := fresh in destruct (pact a b c d e f g h i p k m) as [[[? ?] ?]| |] eqn:F; cbn [obind] in E; try discriminate E end.
  injection E as <- <-. cbn [fst snd]. do 10 eexists. split; reflexivity.
Qed.
Lemma toy_ids : map (fun s => p_id (s_before s)) toy_steps = [None; Some (idn 70); Some (idn 70)].
Proof. vm_compute. reflexivity. Qed.

Example list_lived : toy lived (NewProvider toy_reg) (toy_steps ++ [list_step]) toy_listed /\ sized toy_hash (toy_steps ++ [list_step]) /\
  s_answers list_step = [toy_listing] /\ listed_cids toy_listing = [[[15]]].
Proof.
  destruct toy_lived as (L & S & _).
  split. { apply (lived_app_toy _ _ _ _ _ L); [reflexivity|vm_compute; reflexivity|reflexivity]. }
  split. { intros s cids price expiry qos I D. apply in_app_or in I. destruct I as [I|[<-|[]]]; [exact (S s cids price expiry qos I D)|]. vm_compute in D. discriminate D. }
  split; [reflexivity|vm_compute; reflexivity].
Qed.

Local Notation toy_ordered := (ordered toy_hash toy_pub PropertiesCrypto.toy_verify toy_blake).
(** What was ordered. *)
Lemma toy_terms : forall s o, In s (toy_steps ++ [list_step]) -> toy_ordered s o ->
  same_terms o toy_group \/ same_terms o toy_single.
Proof.
  intros s o I O. destruct toy_shape as (q1 & q2 & q3 & q4 & a1 & a2 & a3 & x1 & x2 & x3 & E & _). pose proof toy_ids as T. rewrite E in I, T.
  cbn [map s_before p_with_reg p_id] in T. injection T as T2 T3.
  destruct I as [<-|[<-|[<-|[<-|[]]]]]; destruct O as [(os & (cids & price & expiry & qos & K & D & Len & X) & Io)|(cids & pr & ex & q & K & D & X)];
    cbn [s_kind s_msg s_before] in *; try discriminate K.
  - left. assert (Y : DecodeProviderAdminPublishGroupOfferRequest toy_hash (pub_group_req [1; 2] 10 100) = Ret (OkR ([idn 1; idn 2], 10, 100, 1))) by (vm_compute; reflexivity).
    rewrite Y in D. injection D as <- <- <- <-. destruct X as (pid & k & P & _ & A & B & C & D & F & _). cbn [p_with_reg p_id] in P. rewrite T2 in P. injection P as <-.
    unfold same_terms. rewrite A, B, C, D, F. repeat split; vm_compute; reflexivity.
  - right. assert (Y : DecodeProviderAdminPublishDHTOfferRequest toy_hash (pub_dht_req [15] 20 100) = Ret (OkR ([idn 15], Some [20], Some [100], Some [1]))) by (vm_compute; reflexivity).
    rewrite Y in D. injection D as <- <- <- <-. apply In_nth_error in Io. destruct Io as (j & Ej). destruct (X j o Ej) as (c & pr & ex & q & Z1 & Z2 & Z3 & Z4 & M).
    destruct j as [|[|]]; cbn in Z1, Z2, Z3, Z4; try discriminate Z1. injection Z1 as <-. injection Z2 as <-. injection Z3 as <-. injection Z4 as <-.
    destruct M as (pid & k & P & _ & A & B & C & D & F & _). cbn [p_with_reg p_id] in P. rewrite T3 in P. injection P as <-.
    unfold same_terms. rewrite A, B, C, D, F. repeat split; vm_compute; reflexivity.
Qed.
Lemma digest_terms o o' : same_terms o o' -> GetMessageDigest toy_hash o = GetMessageDigest toy_hash o'.
Proof. intros (A & B & C & D & E). unfold GetMessageDigest. rewrite A, B, C, D, E. reflexivity. Qed.
Lemma same_terms_sym o o' : same_terms o o' -> same_terms o' o.
Proof. intros (A & B & C & D & E). repeat split; symmetry; assumption. Qed.
Lemma same_terms_trans o o' o2 : same_terms o o' -> same_terms o' o2 -> same_terms o o2.
Proof. intros (A & B & C & D & E) (A' & B' & C' & D' & E'). repeat split; etransitivity; eassumption. Qed.

(** This life is orderly. *)
Example list_orderly : orderly toy_hash toy_hash toy_pub PropertiesCrypto.toy_verify toy_blake (toy_steps ++ [list_step]).
Proof.
  destruct toy_shape as (q1 & q2 & q3 & q4 & a1 & a2 & a3 & x1 & x2 & x3 & E & _).
  assert (G : GetMessageDigest toy_hash toy_group <> GetMessageDigest toy_hash toy_single) by (vm_compute; discriminate).
  constructor.
  - rewrite E. cbn [app]. repeat constructor; cbn [s_env list_step toy_penv pe_now]; lia.
  - intros s I. rewrite E in I. destruct I as [<-|[<-|[<-|[<-|[]]]]]; intros l; apply Permutation_refl.
  - intros s os I (cids & price & expiry & qos & K & D & Len & _). rewrite E in I. destruct I as [<-|[<-|[<-|[<-|[]]]]]; try discriminate K.
    cbn [s_msg] in D. assert (Y : DecodeProviderAdminPublishDHTOfferRequest toy_hash (pub_dht_req [15] 20 100) = Ret (OkR ([idn 15], Some [20], Some [100], Some [1]))) by (vm_compute; reflexivity).
    rewrite Y in D. injection D as <- <- <- <-. exact Len.
  - intros s o I O. destruct (toy_terms s o I O) as [(_ & _ & _ & X & _)|(_ & _ & _ & X & _)]; rewrite X; vm_compute; discriminate.
  - intros s o s' o' I I' O O' D. destruct (toy_terms s o I O) as [X|X], (toy_terms s' o' I' O') as [X'|X'];
      try (eapply same_terms_trans; [exact X|apply same_terms_sym; exact X']);
      exfalso; rewrite (digest_terms _ _ X), (digest_terms _ _ X') in D; apply G; first [exact D|symmetry; exact D].
  - intros s acks gid lo hi a b c d I K D. rewrite E in I. destruct I as [<-|[<-|[<-|[<-|[]]]]]; try discriminate K.
    assert (Y : DecodeGatewayListDHTOfferRequest toy_hash (list_req 20 2 10 30) =
      Ret (OkR (Some (idn 20), Some (idn 10), Some (idn 30), gs "TODO", gs "TODO", gs "TODO", Some (Merkle.Proof [idn 1] [1])))) by (vm_compute; reflexivity).
    cbn [s_msg list_step] in D. rewrite Y in D. injection D as <- <- <- <- <- <- <-.
    assert (En : entries (dhtOfferRing (p_offers (s_before list_step))) = [ToString (idn 15)]) by (vm_compute; reflexivity). rewrite En.
    intros _ _. split; [vm_compute; discriminate|]. split; [intros v [<-|[]] H; vm_compute in H; discriminate H|]. split; [intros v [<-|[]] H; vm_compute in H; discriminate H|].
    split; [right; left; vm_compute; constructor|]. right. right. exists (ToString (idn 15)). split; [|vm_compute; reflexivity]. vm_compute. right. left. reflexivity.
Qed.

(** C54: gateway 10, which was not asked to publish the offer for identifier 15, lists and acknowledges it. *)
Definition acked_by_10 : outcome (provider * list message * list exchange) :=
  toy pact (toy_penv 43) (p_with_reg toy_prov toy_reg) (ListDHT (toy_list_ack (idn 10))) (list_req 10 1 10 30).
Example toy_acknowledged :
  kept_ack toy_prov (idn 15) (idn 10) = None /\
  match acked_by_10 with
  | Ret (p, [r], []) => listed_cids r = [[[15]]] /\ toy_list_ack (idn 10) r <> None /\
      match kept_ack p (idn 15) (idn 10) with
      | Some x => countersigned toy_hash toy_pub PropertiesCrypto.toy_verify toy_blake (toy_info 10 1 (gs "addr1")) (a_msg x) (a_ack x)
      | None => False
      end
  | _ => False
  end.
Proof.
  split; [vm_compute; reflexivity|].
  assert (X : match acked_by_10 with
    | Ret (p, [r], []) => listed_cids r = [[[15]]] /\ toy_list_ack (idn 10) r <> None /\
        match kept_ack p (idn 15) (idn 10) with
        | Some x => match DecodePublicKey (n_key (toy_info 10 1 (gs "addr1"))), DecodeProviderPublishDHTOfferResponse toy_hash (a_ack x) with
            | Ret (OkR k), Ret (OkR (_, sig)) => fst (VerifyMessage toy_pub PropertiesCrypto.toy_verify toy_blake k sig (slice (m_body (a_msg x)))) = OkR true
            | _, _ => False end
        | None => False
        end
    | _ => False
    end) by (vm_compute; repeat split; discriminate).
  destruct acked_by_10 as [[[p [|r [|]]] [|]]| |]; try contradiction. destruct X as (A & B & X). split; [exact A|]. split; [exact B|].
  destruct (kept_ack p (idn 15) (idn 10)) as [x|]; [|contradiction].
  destruct (DecodePublicKey _) as [[k|]| |] eqn:E; try contradiction. destruct (DecodeProviderPublishDHTOfferResponse _ _) as [[[nonce sig]|]| |] eqn:F; try contradiction.
  exists k, nonce, sig. auto.
Qed.

(** ** What is false *)

(** C53: of two offers published together, the store keeps two pointers to the second, and a listing of the range that
    has both shows the second twice. *)
Definition pair_requests : list (penv * provider_kind * message) :=
  [(silent_penv 40, AdminInitialiseKey, init_req 70 7); (silent_penv 42, AdminPublishDHT, pub_dht_req [15; 16] 20 100);
   (silent_penv 43, ListDHT (fun _ => None), list_req 20 2 10 30)].
Theorem listing_refuted : exists ss p,
  toy lived (NewProvider toy_reg) ss p /\ sized toy_hash ss /\ length ss = 3%nat /\
  (forall s, nth_error ss 1 = Some s -> s_kind s = AdminPublishDHT /\ s_answers s <> [] /\
     DecodeProviderAdminPublishDHTOfferRequest toy_hash (s_msg s) = Ret (OkR ([idn 15; idn 16], Some [20; 20], Some [100; 100], Some [1; 1]))) /\
  map (fun s => map listed_cids (s_answers s)) (skipn 2 ss) = [[[[[16]; [16]]]]].
Proof.
  exists (steps_of (toy_plife pair_requests)), (end_of (toy_plife pair_requests)).
  destruct (toy_life_of pair_requests) as (L & S); [vm_compute; reflexivity..|].
  split; [exact L|]. split; [exact S|]. split; [vm_compute; reflexivity|]. split; [|vm_compute; reflexivity].
  intros s H.
  assert (X : match nth_error (steps_of (toy_plife pair_requests)) 1 with
    | Some s => s_kind s = AdminPublishDHT /\ s_answers s <> [] /\
       DecodeProviderAdminPublishDHTOfferRequest toy_hash (s_msg s) = Ret (OkR ([idn 15; idn 16], Some [20; 20], Some [100; 100], Some [1; 1]))
    | None => False end) by (vm_compute; repeat split; discriminate).
  rewrite H in X. exact X.
Qed.

(** C54: if no acknowledgement was recorded for the identifier before, a correct acknowledgement of a listing by a
    registered gateway makes the handler panic.  C109: the administrator was told that the offer is published, though
    nobody had acknowledged it. *)
Definition quiet_requests : list (penv * provider_kind * message) :=
  [(silent_penv 40, AdminInitialiseKey, init_req 70 7); (silent_penv 42, AdminPublishDHT, pub_dht_req [15] 20 100)].
Definition quiet_prov : provider := Eval vm_compute in end_of (toy_plife quiet_requests).
Definition quiet_listing : message := Eval vm_compute in first_answer (list_of quiet_prov (fun _ => None)).
Definition quiet_ack : message := Eval vm_compute in match toy_list_ack (idn 20) quiet_listing with Some a => a | None => zero_message end.
Definition key20 : keypair := toy_pubkey 2.
Lemma quiet_lived : toy lived (NewProvider toy_reg) (steps_of (toy_plife quiet_requests)) quiet_prov /\ sized toy_hash (steps_of (toy_plife quiet_requests)).
Proof.
  assert (E : end_of (toy_plife quiet_requests) = quiet_prov) by (vm_compute; reflexivity).
  destruct (toy_life_of quiet_requests) as (L & S); [vm_compute; reflexivity..|]. rewrite E in L. split; assumption.
Qed.
Theorem acknowledged_listing_refuted : exists ss p e m r msgs l,
  toy lived (NewProvider toy_reg) ss p /\ sized toy_hash ss /\
  (exists p', toy pact e p (ListDHT (fun _ => None)) m = Ret (p', [r], [])) /\
  DecodeGatewayListDHTOfferResponse toy_hash r = Ret (OkR (Some msgs)) /\ length msgs = 1%nat /\
  DecodeGatewayListDHTOfferAck toy_hash quiet_ack = Ret (OkR (Some l)) /\ length l = 1%nat /\
  signed_by toy_pub PropertiesCrypto.toy_verify toy_blake (toy_info 20 2 (gs "addr2")) quiet_ack /\
  (forall msg ack, In (msg, ack) (combine msgs l) -> exists nonce sig, DecodeProviderPublishDHTOfferResponse toy_hash ack = Ret (OkR (nonce, sig)) /\
     fst (VerifyMessage toy_pub PropertiesCrypto.toy_verify toy_blake key20 sig (slice (m_body msg))) = OkR true) /\
  toy pact e p (ListDHT (fun _ => Some quiet_ack)) m = Panic.
Proof.
  pose proof quiet_lived as (L & S).
  pose (ms := match DecodeGatewayListDHTOfferResponse toy_hash quiet_listing with Ret (OkR (Some l)) => l | _ => [] end).
  pose (ks := match DecodeGatewayListDHTOfferAck toy_hash quiet_ack with Ret (OkR (Some l)) => l | _ => [] end).
  exists (steps_of (toy_plife quiet_requests)), quiet_prov, (toy_penv 43), (list_req 20 2 10 30), quiet_listing, ms, ks.
  split; [exact L|]. split; [exact S|].
  split. { exists (then_provider (list_of quiet_prov (fun _ => None))). vm_compute. reflexivity. }
  split; [vm_compute; reflexivity|]. split; [vm_compute; reflexivity|]. split; [vm_compute; reflexivity|]. split; [vm_compute; reflexivity|].
  split. { exists key20. split; vm_compute; reflexivity. }
  split; [|vm_compute; reflexivity].
  intros msg ack I.
  assert (X : forallb (fun x => match DecodeProviderPublishDHTOfferResponse toy_hash (snd x) with
    | Ret (OkR (_, sig)) => match fst (VerifyMessage toy_pub PropertiesCrypto.toy_verify toy_blake key20 sig (slice (m_body (fst x)))) with OkR true => true | _ => false end
    | _ => false end) (combine ms ks) = true) by (vm_compute; reflexivity).
  rewrite forallb_forall in X. specialize (X _ I). cbn [fst snd] in X.
  destruct (DecodeProviderPublishDHTOfferResponse _ _) as [[[nonce sig]|]| |]; try discriminate X. exists nonce, sig. split; [reflexivity|].
  destruct (fst (VerifyMessage _ _ _ _ _ _)) as [[]|]; try discriminate X. reflexivity.
Qed.

Theorem told_published_refuted : exists ss p s r,
  toy lived (NewProvider toy_reg) ss p /\ sized toy_hash ss /\ nth_error ss 1 = Some s /\ s_kind s = AdminPublishDHT /\ s_answers s = [r] /\
  DecodeProviderAdminPublishDHTOfferResponse toy_hash r = Ret (OkR true) /\ p_published p = [] /\ p_acks p = [] /\ s_sent s <> [] /\ Forall (fun x => snd x = None) (s_sent s).
Proof.
  pose proof quiet_lived as (L & S).
  pose (s := match nth_error (steps_of (toy_plife quiet_requests)) 1 with Some s => s | None => list_step end).
  assert (N : nth_error (steps_of (toy_plife quiet_requests)) 1 = Some s).
  { assert (X : match nth_error (steps_of (toy_plife quiet_requests)) 1 with Some _ => true | None => false end = true) by (vm_compute; reflexivity).
    unfold s. destruct (nth_error (steps_of (toy_plife quiet_requests)) 1) as [x|]; [reflexivity|discriminate X]. }
  exists (steps_of (toy_plife quiet_requests)), quiet_prov, s, (hd zero_message (s_answers s)).
  split; [exact L|]. split; [exact S|]. split; [exact N|]. split; [vm_compute; reflexivity|]. split; [vm_compute; reflexivity|]. split; [vm_compute; reflexivity|].
  split; [vm_compute; reflexivity|]. split; [vm_compute; reflexivity|]. split; [vm_compute; discriminate|].
  apply Forall_forall. intros x I. assert (X : forallb (fun x => match snd x with None => true | Some _ => false end) (s_sent s) = true) by (vm_compute; reflexivity).
  rewrite forallb_forall in X. specialize (X x I). destruct (snd x); [discriminate X|reflexivity].
Qed.

(** C56: two registered gateways notify their support; both are answered that it was noted. *)
Definition notify_requests : list (penv * provider_kind * message) :=
  [(silent_penv 40, AdminInitialiseKey, init_req 70 7); (silent_penv 41, NotifyGroup, notify_req 20 2 true); (silent_penv 42, NotifyGroup, notify_req 10 1 true)].
Theorem notifications_refuted : exists ss p, toy lived (NewProvider toy_reg) ss p /\ sized toy_hash ss /\
  map (fun s => map (DecodeGatewayNotifyProviderGroupCIDOfferSupportResponse toy_hash) (s_answers s)) (skipn 1 ss) = [[Ret (OkR true)]; [Ret (OkR true)]] /\
  map (fun s => DecodeGatewayNotifyProviderGroupCIDOfferSupportRequest toy_hash (s_msg s)) (skipn 1 ss) = [Ret (OkR (Some (idn 20), true)); Ret (OkR (Some (idn 10), true))] /\
  p_groups p = [].
Proof.
  exists (steps_of (toy_plife notify_requests)), (end_of (toy_plife notify_requests)).
  destruct (toy_life_of notify_requests) as (L & S); [vm_compute; reflexivity..|]. split; [exact L|]. split; [exact S|]. vm_compute. repeat split.
Qed.

(** C107: an offer sent to a gateway though 16 others are nearer to its identifier. *)
Definition crowd_requests : list (penv * provider_kind * message) :=
  [(silent_penv 40, AdminInitialiseKey, init_req 70 7); (silent_penv 42, AdminPublishDHT, pub_dht_req [1; 20] 20 100)].
Definition farther (c : Z) (id : bytes) : list gostring :=
  filter (fun v => circ (hex_val (ToString (idn c))) (hex_val v) <? circ (hex_val (ToString (idn c))) (hex_val (ToString id))) (map fst (gatewaysMap info crowd_reg)).
Theorem near_only_refuted : exists ss p s id request,
  toy lived (NewProvider crowd_reg) ss p /\ sized toy_hash ss /\ nth_error ss 1 = Some s /\ s_kind s = AdminPublishDHT /\ p_reg (s_before s) = crowd_reg /\
  In (id, request, None) (s_sent s) /\
  match DecodeProviderPublishDHTOfferRequest toy_hash request with Ret (OkR (_, _, Some l)) => map o_cids l = [[idn 1]; [idn 20]] | _ => False end /\
  (16 <= length (farther 20 id))%nat.
Proof.
  assert (R : is_ret (crowd_plife crowd_requests) = true) by (vm_compute; reflexivity).
  pose (s := match nth_error (steps_of (crowd_plife crowd_requests)) 1 with Some s => s | None => list_step end).
  assert (N : nth_error (steps_of (crowd_plife crowd_requests)) 1 = Some s).
  { assert (X : match nth_error (steps_of (crowd_plife crowd_requests)) 1 with Some _ => true | None => false end = true) by (vm_compute; reflexivity).
    unfold s. destruct (nth_error (steps_of (crowd_plife crowd_requests)) 1) as [x|]; [reflexivity|discriminate X]. }
  exists (steps_of (crowd_plife crowd_requests)), (end_of (crowd_plife crowd_requests)), s, (idn 1), (snd (fst (hd (idn 1, zero_message, None) (s_sent s)))).
  split. { unfold crowd_plife. apply (toy plife_lived _ _ _ _ (ret_of _ R)). }
  split. { apply small_sized. vm_compute. reflexivity. }
  split; [exact N|]. split; [vm_compute; reflexivity|]. split; [vm_compute; reflexivity|].
  split. { assert (X : match s_sent s with (id, _, None) :: _ => id = idn 1 | _ => False end) by (vm_compute; reflexivity).
    destruct (s_sent s) as [|[[id m] [a|]] t]; try contradiction. subst id. left. reflexivity. }
  split; [vm_compute; reflexivity|]. vm_compute. repeat constructor.
Qed.
(** The same life meets the hypotheses of [nearest_asked_partial]. *)
Example crowd_managed : managed info crowd_reg /\ knows info crowd_reg (map fst crowd) /\ length crowd = 20%nat.
Proof.
  split.
  { apply (managed_refresh info toy_idle (listing info crowd) (listing info [])); [apply managed_start| |vm_compute; reflexivity].
    intros x I. cbn [listing crowd map seq] in I. repeat (destruct I as [I|I]; [injection I as <-; eexists; split; [|reflexivity]; vm_compute; reflexivity|]). destruct I. }
  split; [|reflexivity]. split.
  - assert (X : forall l, StronglySorted Z.lt (map hex_val l) -> StronglySorted (fun a b => hex_val a < hex_val b) l).
    { clear. induction l as [|x t IH]; cbn [map]; intros H; [constructor|]. inversion H; subst. constructor; [apply IH; assumption|]. rewrite Forall_map in H3. exact H3. }
    apply X. assert (Y : map hex_val (map fst crowd) = map Z.of_nat (seq 1 20)) by (vm_compute; reflexivity). rewrite Y. cbn [seq map]. repeat constructor.
  - assert (E : forall v, In v (map fst crowd) <-> exists i, aget bytes_eqb crowd v = Some i).
    { clear. intros v. induction crowd as [|[k i] t IH]; cbn [map In aget]; [split; [contradiction|intros (i & X); discriminate X]|].
      destruct (bytes_eqb v k) eqn:B.
      - apply BaseProofs.bytes_eqb_eq in B. subst. split; intros _; [exists i; reflexivity|left; reflexivity].
      - rewrite <- IH. cbn [fst]. split; [intros [X|X]; [subst; rewrite ProviderProofs.beq_refl in B; discriminate B|exact X]|intros X; right; exact X]. }
    intros v. rewrite E. assert (G : gatewaysMap info crowd_reg = crowd) by (vm_compute; reflexivity). rewrite G. reflexivity.
Qed.

(** C111: an initialisation answered with an error changes the key. *)
Definition reinit_requests : list (penv * provider_kind * message) :=
  [(silent_penv 40, AdminInitialiseKey, init_req 70 7); (silent_penv 41, AdminInitialiseKeyV2, init_v2_req 80 8)].
Theorem failed_init_refuted : exists ss p, toy lived (NewProvider toy_reg) ss p /\ map (fun s => length (s_answers s)) ss = [1; 0]%nat /\
  map (fun s => p_id (s_before s)) (skipn 1 ss) = [Some (idn 70)] /\ p_id p = Some (idn 80) /\ p_key p = Some (toy_key 8).
Proof.
  exists (steps_of (toy_plife reinit_requests)), (end_of (toy_plife reinit_requests)).
  destruct (toy_life_of reinit_requests) as (L & _); [vm_compute; reflexivity..|]. split; [exact L|]. vm_compute. repeat split.
Qed.

Print Assumptions listing_refuted.
Print Assumptions acknowledged_listing_refuted.
Print Assumptions told_published_refuted.
Print Assumptions notifications_refuted.
Print Assumptions near_only_refuted.
Print Assumptions failed_init_refuted.
