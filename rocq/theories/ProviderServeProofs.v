(** * Proofs about what a provider stores, lists and answers *)
From Coq Require Import List ZArith Bool Lia Permutation Sorting.Sorted ZifyBool ZifyNat.
From Coq Require Import Init.Byte.
From Verif Require Import Base BaseProofs Ids IdsProofs Json Crypto Message MessageProofs Offer OfferProofs Schema SchemaProofs Merkle Messages MessagesProofs WireSpec
  Ring RingSpec Register RegisterProofs OfferStore OfferStoreSpec OfferStoreProofs OfferStoreFacts Rest Gateway GatewaySpec GatewayProofs GatewayStoreProofs
  Provider ProviderSpec ProviderProofs ProviderLifeProofs ProviderListProofs.
Import ListNotations.
Open Scope Z_scope.
Open Scope go_scope.

Section serve.
  Variable version : Z.
  Variable supported : list Z.
  Variable sha256 sha512_256 : bytes -> bytes.
  Variable pub_of : bytes -> bytes.
  Variable ec_sign : bytes -> bytes -> option bytes.
  Variable ec_verify : bytes -> bytes -> bytes -> bool.
  Variable blake : bytes -> bytes.

  Local Notation pact := (pact version supported sha256 sha512_256 pub_of ec_sign ec_verify blake).
  Local Notation lived := (lived version supported sha256 sha512_256 pub_of ec_sign ec_verify blake).
  Local Notation sized := (sized sha256).
  Local Notation versions := (versions version supported).
  Local Notation safe_heap := (safe_heap sha256).
  Local Notation own := (own pub_of ec_verify blake).
  Local Notation lists := (lists sha256).
  Local Notation made_by := (made_by pub_of ec_verify blake).
  Local Notation ordered := (ordered sha256 pub_of ec_verify blake).
  Local Notation ordered_batch := (ordered_batch sha256 pub_of ec_verify blake).
  Local Notation ordered_group := (ordered_group sha256 pub_of ec_verify blake).
  Local Notation orderly := (orderly sha256 sha512_256 pub_of ec_verify blake).
  Local Notation stocked := (stocked sha256 pub_of ec_verify blake).
  Local Notation vouches := (vouches sha256 pub_of ec_verify blake).
  Local Notation carries_dht := (carries_dht sha256).
  Local Notation batches := (batches version supported ec_sign blake).
  Local Notation list_dht := (HandleListDHT version supported sha256 sha512_256 pub_of ec_sign ec_verify blake).
  Local Notation record_acks := (record_acks sha256 pub_of ec_verify blake).

  (** ** Messages of at most 50 offers *)
  Local Notation batch := (batch sha256 pub_of ec_verify blake).

  Lemma encode_id p os m : EncodeProviderPublishDHTOfferRequest version supported (p_id p) 1 os = Ret m -> exists pid, p_id p = Some pid.
  Proof. unfold EncodeProviderPublishDHTOfferRequest, id_text. intros H. step H. destruct (p_id p) as [pid|]; [eauto|discriminate E]. Qed.

  Lemma batches_parts p fuel : ecdsa_correct pub_of ec_sign ec_verify -> safe_id p -> forall offers msgs, Forall (wire_offer sha256) offers -> Forall one offers -> offers <> [] ->
    batches p fuel offers = Ret (Some msgs) -> exists parts, Forall2 (batch p) msgs parts /\ concat parts = offers.
  Proof.
    intros Law Safe. induction fuel as [|fuel IH]; intros offers msgs W O Ne H; cbn [Provider.batches] in H; [discriminate|]. cbv zeta in H.
    set (head := if Nat.ltb 50 (length offers) then firstn 50 offers else offers) in *.
    assert (Hl : (1 <= length head <= 50)%nat).
    { unfold head. assert (length offers <> 0)%nat by (destruct offers; [congruence|discriminate]). destruct (Nat.ltb_spec 50 (length offers)); [rewrite firstn_length|]; lia. }
    assert (Hw : Forall (wire_offer sha256) head /\ Forall one head).
    { unfold head. destruct (Nat.ltb 50 (length offers)); [|auto]. split; rewrite Forall_forall in *; intros x X; [apply W|apply O]; rewrite <- (firstn_skipn 50 offers); apply in_or_app; left; exact X. }
    step H. step H. destruct v0 as [ok m]. cbn [fst snd] in H. destruct ok; cbn [negb] in H; [|discriminate].
    destruct (encode_id _ _ _ E) as (pid & Pid).
    assert (Hb : batch p m head).
    { split; [|split; [eapply sign_own; eauto|exact Hl]]. unfold ProviderSpec.lists. pose proof (Safe _ Pid) as Ipid. rewrite Pid in E |- *.
      assert (X : DecodeProviderPublishDHTOfferRequest sha256 m = Ret (OkR (Some pid, 1, Some head)) /\ m_type m = 302)
        by (eapply dht_message; first [exact Ipid|exact (proj1 Hw)|exact (proj2 Hw)|exact E|lia|eapply sign_with_inv; eassumption|assumption]).
      exact (proj1 X). }
    destruct (Nat.ltb_spec 50 (length offers)).
    - step H. destruct v0 as [msgs'|]; [|discriminate]. apply ret_inj in H. injection H as <-.
      destruct (IH (skipn 50 offers) msgs') as (parts & F & C); auto.
      + rewrite Forall_forall in *. intros x X. apply W. rewrite <- (firstn_skipn 50 offers). apply in_or_app. right. exact X.
      + rewrite Forall_forall in *. intros x X. apply O. rewrite <- (firstn_skipn 50 offers). apply in_or_app. right. exact X.
      + intros X. apply (f_equal (@length _)) in X. rewrite skipn_length in X. cbn in X. lia.
      + exists (head :: parts). split; [constructor; assumption|]. cbn [concat]. rewrite C. unfold head. apply firstn_skipn.
    - apply ret_inj in H. injection H as <-. exists [head]. split; [constructor; [exact Hb|constructor]|]. cbn [concat]. rewrite app_nil_r. reflexivity.
  Qed.

  (** ** A listing that is answered *)
  (** What happens with the acknowledgement. *)
  Definition acked (p : provider) (id : bytes) (k : keypair) (msgs : list message) (r : message) (a : option message) : outcome (provider * reply) :=
    match a with
    | None => Ret (p, Reply r)
    | Some a =>
        let v := MessageVerify pub_of ec_verify blake a k in
        if negb (fst v) then Ret (p, Reply r)
        else
          let* d := DecodeGatewayListDHTOfferAck sha256 (snd v) in
          let l := match d with OkR (Some l) => l | _ => [] end in
          if negb (Nat.eqb (length l) (length msgs)) then Ret (p, Reply r)
          else let* m := record_acks (p_acks p) id k msgs l in Ret (p_with_acks p m, Reply r)
    end.

  Lemma list_split e acks p m p' r : ecdsa_correct pub_of ec_sign ec_verify -> versions -> list_dht e acks p m = Ret (p', Reply r) ->
    exists gid lo hi a b c d i k reg os f mm msgs,
      DecodeGatewayListDHTOfferRequest sha256 m = Ret (OkR (Some gid, Some lo, Some hi, a, b, c, d)) /\ id32 gid /\ id32 lo /\ id32 hi /\
      knownR e (p_reg p) gid i /\ DecodePublicKey (n_key i) = Ret (OkR k) /\ fst (MessageVerify pub_of ec_verify blake m k) = true /\
      GetDHTOffersWithinRange sha512_256 (pe_digests e) (pe_now e) (p_heap p) (p_offers p) lo hi 500 = Ret (os, f, mm) /\
      (if f then batches p (S (length os)) os = Ret (Some msgs) else msgs = []) /\
      own p r /\ DecodeGatewayListDHTOfferResponse sha256 r = Ret (OkR (Some msgs)) /\
      forall acks', list_dht e acks' p m = acked (p_with_store (p_with_reg p reg) (p_heap p) mm) gid k msgs r (acks' r).
  Proof.
    intros Law Vs H. unfold HandleListDHT in *. step H. destruct v as [[[[[[[gid lo] hi] x1] x2] x3] x4]|]; [|discriminate].
    destruct (list_request_decoded _ _ _ _ _ _ _ _ _ E) as (I0 & I1 & I2).
    step H. destruct v as [k p1]. destruct (asked_by_rel _ _ _ _ _ _ _ _ _ E0) as (reg & -> & _ & K). destruct k as [k|]; [|discriminate].
    destruct (K k eq_refl) as (d & i & -> & Ki & Dk & V). cbn [deref obind] in H. step H. step H. destruct lo as [lo|]; [|discriminate E1]. apply ret_inj in E1. subst v.
    destruct hi as [hi|]; [|discriminate E2]. apply ret_inj in E2. subst v0. step H. destruct v as [[os f] mm]. step H; [discriminate|]. step H. destruct v as [msgs|]; [|discriminate].
    step H. step H. destruct v0 as [ok rr]. cbn [fst snd] in H. destruct ok; cbn [negb] in H; [|discriminate]. cbn [p_with_reg p_heap p_offers] in E1.
    assert (B : if f then batches p (S (length os)) os = Ret (Some msgs) else msgs = []).
    { destruct f; [|apply ret_inj in E3; congruence]. clear -E3. revert E3. generalize (S (length os)). intros fuel. revert os msgs.
      induction fuel as [|fuel IH]; intros os msgs; cbn [Provider.batches]; [discriminate|]. cbn [p_with_store p_with_reg p_id p_key p_ver].
      destruct (EncodeProviderPublishDHTOfferRequest _ _ _ _ _); cbn [obind]; try discriminate. destruct (SignWith _ _ _ _ _) as [x| |]; cbn [obind]; try discriminate.
      destruct (negb (fst x)); [auto|]. destruct (Nat.ltb 50 (length os)); [|auto].
      intros H. step H. destruct v as [r|]; [|discriminate]. apply IH in E. rewrite E. exact H. }
    assert (R : rr = r).
    { step H; [|apply ret_inj in H; congruence]. step H; [apply ret_inj in H; congruence|]. step H. step H; [apply ret_inj in H; congruence|]. step H. apply ret_inj in H. congruence. }
    subst rr. exists d, lo, hi, x1, x2, x3, x4, i, k, reg, os, f, mm, msgs.
    assert (Wm : Forall wire_message msgs).
    { destruct f; [eapply batches_wire; eauto|]. subst msgs. constructor. }
    destruct (rt_GatewayListDHTOfferResponse version supported sha256 (Some msgs) Wm) as (m0 & M0 & _ & Dm). rewrite E4 in M0. apply ret_inj in M0. subst m0.
    split; [reflexivity|]. split; [auto|]. split; [auto|]. split; [auto|]. split; [exact Ki|]. split; [exact Dk|]. split; [exact V|]. split; [exact E1|]. split; [exact B|].
    assert (Ow : own p r) by (eapply sign_own; [exact Law|exact E5]).
    split; [exact Ow|]. split; [destruct (sign_with_inv _ _ _ _ _ _ _ E5) as (g & ->); exact Dm|].
    intros acks'. cbn [obind]. rewrite ?E. cbn [obind]. rewrite E0. cbn [obind deref p_with_reg p_heap p_offers]. unfold p_with_reg in E2, E3, E5 |- *. cbn [p_heap p_offers] in *. rewrite E1. cbn [obind]. rewrite E2, E3. cbn [obind]. rewrite E4. cbn [obind].
    rewrite E5. cbn [obind fst snd negb]. unfold acked. destruct (acks' r); reflexivity.
  Qed.

  (** ** The history of the store *)
  Definition store_of (p : provider) : store_state := (p_heap p, p_offers p).

  Lemma wire_well o : wire_offer sha256 o -> well_formed o.
  Proof.
    intros (p & ids & pr & ex & q & o0 & A & B & C & D & F & N & ->). apply new_offer_shape in N. destruct N as (_ & t & _ & ->). cbn.
    split; [exists p; auto|]. auto.
  Qed.

  Lemma in_snoc {A} (x s : A) l : In x (l ++ [s]) -> In x l \/ x = s.
  Proof. intros H. apply in_app_or in H. destruct H as [H|[<-|[]]]; auto. Qed.
  Lemma sorted_before {A} (R : A -> A -> Prop) l1 x l2 : StronglySorted R (l1 ++ x :: l2) -> forall y, In y l1 -> R y x.
  Proof.
    induction l1 as [|a t IH]; intros S y I; [destruct I|]. cbn [app] in S. inversion S as [|? ? S' F]; subst. destruct I as [<-|I]; [|apply IH; auto].
    rewrite Forall_forall in F. apply F. apply in_or_app. right. left. reflexivity.
  Qed.

  (** The entry of one step. *)
  Definition entry (s : pstep) (x : store_op) : Prop :=
    forall o, added_offer x = Some o -> x = AddDHT o /\ ordered_batch s [o] \/ x = AddGroup o /\ ordered_group s o.

  Lemma stock_add ss s hist x : stocked ss hist -> entry s x ->
    (s_kind s = AdminPublishDHT -> s_answers s <> [] -> exists o, x = AddDHT o) ->
    (s_kind s = AdminPublishGroup -> s_answers s <> [] -> exists o, x = AddGroup o) ->
    stocked (ss ++ [s]) (hist ++ [(pe_now (s_env s), x)]).
  Proof.
    intros [A B C D] En K1 K2. split.
    - intros t y I. apply in_snoc in I. destruct I as [I|[= -> ->]].
      + destruct (A _ _ I) as (s' & J & T). exists s'. split; [apply in_or_app; auto|exact T].
      + exists s. split; [apply in_or_app; right; left; reflexivity|reflexivity].
    - intros t y o I Ad. apply in_snoc in I. destruct I as [I|[= -> ->]].
      + destruct (B _ _ _ I Ad) as (s' & J & T). exists s'. split; [apply in_or_app; auto|exact T].
      + exists s. split; [apply in_or_app; right; left; reflexivity|]. split; [reflexivity|]. apply En, Ad.
    - intros s' I K N. apply in_snoc in I. destruct I as [I| ->].
      + destruct (C _ I K N) as (o & X & Y). exists o. split; [exact X|apply in_or_app; auto].
      + destruct (K1 K N) as (o & ->). exists o. destruct (En o eq_refl) as [[_ X]|[X _]]; [|discriminate]. split; [exact X|apply in_or_app; right; left; reflexivity].
    - intros s' I K N. apply in_snoc in I. destruct I as [I| ->].
      + destruct (D _ I K N) as (o & X & Y). exists o. split; [exact X|apply in_or_app; auto].
      + destruct (K2 K N) as (o & ->). exists o. destruct (En o eq_refl) as [[X _]|[_ X]]; [discriminate|]. split; [exact X|apply in_or_app; right; left; reflexivity].
  Qed.
  Lemma stock_same ss s hist : stocked ss hist -> (s_kind s = AdminPublishDHT \/ s_kind s = AdminPublishGroup -> s_answers s = []) -> stocked (ss ++ [s]) hist.
  Proof.
    intros [A B C D] K. split.
    - intros t y I. destruct (A _ _ I) as (s' & J & T). exists s'. split; [apply in_or_app; auto|exact T].
    - intros t y o I Ad. destruct (B _ _ _ I Ad) as (s' & J & T). exists s'. split; [apply in_or_app; auto|exact T].
    - intros s' I Ks N. apply in_snoc in I. destruct I as [I| ->]; [eauto|]. exfalso. auto.
    - intros s' I Ks N. apply in_snoc in I. destruct I as [I| ->]; [eauto|]. exfalso. auto.
  Qed.

  Lemma allowed_add pre s post hist st o : orderly (pre ++ s :: post) -> stocked pre hist -> wire_offer sha256 o -> ordered s o ->
    forall x, added_offer x = Some o -> allowed sha512_256 hist st (pe_now (s_env s)) x.
  Proof.
    intros Od St W Or x Ax.
    assert (Is : In s (pre ++ s :: post)) by (apply in_or_app; right; left; reflexivity).
    assert (Ip : forall s', In s' pre -> In s' (pre ++ s :: post)) by (intros s' I; apply in_or_app; auto).
    assert (Clock : forall t y, In (t, y) hist -> t <= pe_now (s_env s)).
    { intros t y I. destruct (st_time _ _ _ _ _ _ St _ _ I) as (s' & J & ->).
      exact (sorted_before _ _ _ _ (od_clock _ _ _ _ _ _ Od) _ J). }
    assert (Sto : storable o /\ forall t y o', In (t, y) hist -> added_offer y = Some o' -> GetMessageDigest sha512_256 o' = GetMessageDigest sha512_256 o -> same_terms o o').
    { split; [split; [apply wire_well, W|eapply (od_expiry _ _ _ _ _ _ Od); eauto]|].
      intros t y o' I Ad Eq. destruct (st_from _ _ _ _ _ _ St _ _ _ I Ad) as (s' & J & _ & Y).
      eapply (od_digests _ _ _ _ _ _ Od s o s' o'); auto. destruct Y as [[_ Y]|[_ Y]]; [left; exists [o']; split; [exact Y|left; reflexivity]|right; exact Y]. }
    split; [exact Clock|]. destruct x; cbn [added_offer] in Ax; try discriminate; injection Ax as <-; exact Sto.
  Qed.

  Lemma batch_one s os : ordered_batch s os -> length os = 1%nat -> exists o, os = [o].
  Proof. intros _ L. destruct os as [|o [|]]; try discriminate. eauto. Qed.

  Lemma idle_store s : ecdsa_correct pub_of ec_sign ec_verify -> versions -> safe_id (s_before s) -> sized1 sha256 (s_msg s) ->
    pact (s_env s) (s_before s) (s_kind s) (s_msg s) = Ret (s_after s, s_answers s, s_sent s) ->
    match s_kind s with AdminPublishDHT | AdminPublishGroup | ListDHT _ => True | _ => store_of (s_after s) = store_of (s_before s) end.
  Proof.
    intros Law Vs Safe Sz H. destruct s as [p e k m p' ans out]. cbn [s_before s_env s_kind s_msg s_after s_answers s_sent] in *.
    unfold ProviderSpec.pact in H. destruct k; try exact I.
    - step H. apply ret_inj in H. injection H as <- <- <-. unfold HandleAdminGetPublished in E. destruct (p_key p); [|apply ret_inj in E; subst v; reflexivity].
      step E. destruct v0; [|apply ret_inj in E; subst v; reflexivity]. step E. apply p_finish_inv in E. destruct E as (A & B & _). rewrite A. reflexivity.
    - step H. apply ret_inj in H. injection H as <- <- <-. unfold HandleAdminInitialiseKey in E. step E. destruct v0 as [[[id key] ver]|]; [|apply ret_inj in E; subst v; reflexivity].
      step E. step E. apply p_finish_inv in E. destruct E as (A & B & _). rewrite A. reflexivity.
    - step H. apply ret_inj in H. injection H as <- <- <-. unfold HandleAdminInitialiseKeyV2 in E. step E. destruct v0 as [[[[[[id key] ver] x1] x2] x3]|]; [|apply ret_inj in E; subst v; reflexivity].
      step E. step E; [apply ret_inj in E; subst v; reflexivity|]. step E. apply p_finish_inv in E. destruct E as (A & B & _). rewrite A. reflexivity.
    - step H. apply ret_inj in H. injection H as <- <- <-. unfold HandleAdminForceRefresh in E. destruct (p_key p); [|apply ret_inj in E; subst v; reflexivity].
      step E. destruct v0; [|apply ret_inj in E; subst v; reflexivity]. step E. step E. apply p_finish_inv in E. destruct E as (A & B & _). rewrite A. reflexivity.
    - step H. apply ret_inj in H. injection H as <- <- <-. unfold HandleOfferAck in E.
      step E. destruct v0 as [[c gid]|]; [|apply ret_inj in E; subst v; reflexivity]. step E. step E. step E. step E. step E. apply p_finish_inv in E. destruct E as (A & B & _). rewrite A. reflexivity.
    - step H. destruct v as [p1 r]. apply ret_inj in H. injection H as <- <- <-. cbn [fst snd]. unfold HandleNotifyGroup in E.
      step E. destruct v as [[gid sup]|]; [|apply ret_inj in E; injection E as <- <-; reflexivity].
      step E. destruct v as [key p2]. destruct (asked_by_rel _ _ _ _ _ _ _ _ _ E1) as (reg & -> & R & _).
      destruct key; [|apply ret_inj in E; injection E as <- <-; reflexivity].
      step E. step E. step E. apply ret_inj in E. injection E as <- <-. reflexivity.
  Qed.

  Lemma list_store2 e acks p m p' r : list_dht e acks p m = Ret (p', r) ->
    store_of p' = store_of p \/ exists gid lo hi a b c d res f, DecodeGatewayListDHTOfferRequest sha256 m = Ret (OkR (gid, Some lo, Some hi, a, b, c, d)) /\ id32 lo /\ id32 hi /\
      p_heap p' = p_heap p /\ GetDHTOffersWithinRange sha512_256 (pe_digests e) (pe_now e) (p_heap p) (p_offers p) lo hi 500 = Ret (res, f, p_offers p').
  Proof.
    intros H. unfold HandleListDHT in H. step H. destruct v as [[[[[[[gid lo] hi] x1] x2] x3] x4]|]; [|apply ret_inj in H; injection H as <- <-; auto].
    destruct (list_request_decoded _ _ _ _ _ _ _ _ _ E) as (_ & I1 & I2).
    step H. destruct v as [k p1]. destruct (asked_by_rel _ _ _ _ _ _ _ _ _ E0) as (reg & -> & _). destruct k as [k|]; [|apply ret_inj in H; injection H as <- <-; auto].
    step H. step H. step H. step H. destruct v2 as [[res f] mm]. cbn [p_with_reg p_heap p_offers] in E4.
    assert (L : lo = Some v0) by (destruct lo; [apply ret_inj in E2; congruence|discriminate]). assert (L' : hi = Some v1) by (destruct hi; [apply ret_inj in E3; congruence|discriminate]).
    subst lo hi. assert (Q : p_heap p' = p_heap p /\ p_offers p' = mm).
    { step H; [discriminate|]. step H. destruct v2 as [msgs|]; [|apply ret_inj in H; injection H as <- <-; auto].
      step H. step H. step H; [apply ret_inj in H; injection H as <- <-; auto|]. step H; [|apply ret_inj in H; injection H as <- <-; auto].
      step H; [apply ret_inj in H; injection H as <- <-; auto|]. step H. step H; [apply ret_inj in H; injection H as <- <-; auto|]. step H. apply ret_inj in H. injection H as <- <-. auto. }
    destruct Q as [Q1 Q2]. right. exists gid, v0, v1, x1, x2, x3, x4, res, f. rewrite Q2. auto 9.
  Qed.

  Lemma store_step_ok pre s post hist : ecdsa_correct pub_of ec_sign ec_verify -> versions -> safe_id (s_before s) -> sized1 sha256 (s_msg s) ->
    pact (s_env s) (s_before s) (s_kind s) (s_msg s) = Ret (s_after s, s_answers s, s_sent s) ->
    orderly (pre ++ s :: post) -> stocked pre hist -> reaches sha512_256 hist (store_of (s_before s)) ->
    exists hist', stocked (pre ++ [s]) hist' /\ reaches sha512_256 hist' (store_of (s_after s)).
  Proof.
    intros Law Vs Safe Sz H Od St Re. pose proof (idle_store s Law Vs Safe Sz H) as Idle.
    assert (Is : In s (pre ++ s :: post)) by (apply in_or_app; right; left; reflexivity).
    assert (Same : match s_kind s with AdminPublishDHT | AdminPublishGroup => s_answers s = [] | _ => True end -> store_of (s_after s) = store_of (s_before s) ->
      exists hist', stocked (pre ++ [s]) hist' /\ reaches sha512_256 hist' (store_of (s_after s))).
    { intros K E. exists hist. rewrite E. split; [|exact Re]. apply stock_same; [exact St|]. intros [X|X]; rewrite X in K; exact K. }
    destruct (s_kind s) as [ | | | | | | |acks| ] eqn:K; try (apply Same; [exact I|exact Idle]); unfold ProviderSpec.pact in H.
    - step H. apply ret_inj in H. injection H as H1 H2 H3.
      destruct (admin_dht_rel _ _ _ _ _ _ _ _ _ _ _ _ Law Safe Sz E) as [(A & B & code & C)|(cids & price & expiry & qos & os & h & mm & code & D & Ne & De & W & O & L & _ & P & N & R & _)].
      + apply Same; [rewrite <- H2, C; reflexivity|]. rewrite <- H1, A. reflexivity.
      + pose proof (described_ordered sha256 pub_of ec_verify blake s _ _ _ _ _ K Ne D De) as Ob.
        destruct (batch_one _ _ Ob (od_single _ _ _ _ _ _ Od _ _ Is Ob)) as (o & ->).
        assert (Or : ordered s o) by (left; exists [o]; split; [exact Ob|left; reflexivity]).
        assert (Wo : wire_offer sha256 o) by (inversion W; assumption).
        pose proof (allowed_add _ _ _ _ (store_of (s_before s)) _ Od St Wo Or (AddDHT o) eq_refl) as Al.
        destruct (publish_one_pf _ _ _ _ _ _ Re Al) as (h' & m' & Eq & Re'). rewrite P in Eq. apply ret_inj in Eq. injection Eq as <- <-.
        exists (hist ++ [(pe_now (s_env s), AddDHT o)]). split.
        * apply stock_add; [exact St| |eauto|rewrite K; discriminate]. intros o' [= <-]. left. auto.
        * destruct R as [(Q1 & Q2 & Q3 & Q4 & Q5 & Q6) _ _ _ _ _ _]. cbn [p_with_store p_heap p_offers] in Q4, Q5. unfold store_of. rewrite <- H1, Q4, Q5. exact Re'.
    - step H. apply ret_inj in H. injection H as H1 H2 H3.
      destruct (admin_group_rel _ _ _ _ _ _ _ _ _ _ _ _ Law Safe E) as [(A & B & code & C)|(cids & price & expiry & qos & o & mm & reg & gws & code & x & D & M & W & _ & P & G & N & R & _)].
      + apply Same; [rewrite <- H2, C; reflexivity|]. rewrite <- H1, A. reflexivity.
      + assert (Og : ordered_group s o) by (exists cids, price, expiry, qos; auto).
        pose proof (allowed_add _ _ _ _ (store_of (s_before s)) _ Od St W (or_intror Og) (AddGroup o) eq_refl) as Al.
        exists (hist ++ [(pe_now (s_env s), AddGroup o)]). split.
        * apply stock_add; [exact St| |rewrite K; discriminate|eauto]. intros o' [= <-]. right. auto.
        * destruct R as [(Q1 & Q2 & Q3 & Q4 & Q5 & Q6) _ _ _ _ _ _]. cbn [p_with_store p_heap p_offers] in Q4, Q5. unfold store_of. rewrite <- H1, Q4, Q5.
          eapply reaches_step; [exact Re|exact Al|]. unfold store_of. cbn [store_step]. rewrite P. cbn [obind fst snd]. reflexivity.
    - step H. destruct v as [p1 r]. apply ret_inj in H. injection H as H1 H2 H3. cbn [fst snd] in *. subst p1.
      destruct (list_store2 _ _ _ _ _ _ E) as [X|(gid & lo & hi & a & b & c & d & res & f & D & I1 & I2 & Eh & Eq)]; [apply Same; [exact I|exact X]|].
      exists (hist ++ [(pe_now (s_env s), GetRange lo hi 500 (pe_digests (s_env s)))]). split.
      + apply stock_add; [exact St|intros o [=]|rewrite K; discriminate|rewrite K; discriminate].
      + unfold store_of at 1. rewrite Eh. eapply reaches_step; [exact Re| |unfold store_of; cbn [store_step]; rewrite Eq; cbn [obind fst snd]; reflexivity].
        split; [|split; [exact I1|split; [exact I2|split; [eapply od_maps; eauto|]]]].
        * intros t y I. destruct (st_time _ _ _ _ _ _ St _ _ I) as (s' & J & ->). exact (sorted_before _ _ _ _ (od_clock _ _ _ _ _ _ Od) _ J).
        * unfold store_of. cbn [snd]. eapply (od_ring _ _ _ _ _ _ Od); eauto.
  Qed.

  Lemma store_life ss : ecdsa_correct pub_of ec_sign ec_verify -> versions -> forall pre p p' post hist, safe_id p -> sized ss -> lived p ss p' ->
    orderly (pre ++ ss ++ post) -> stocked pre hist -> reaches sha512_256 hist (store_of p) ->
    exists hist', stocked (pre ++ ss) hist' /\ reaches sha512_256 hist' (store_of p').
  Proof.
    intros Law Vs. induction ss as [|s t IH]; intros pre p p' post hist Safe Sz H Od St Re; cbn [ProviderSpec.lived] in H.
    - subst p'. exists hist. rewrite app_nil_r. auto.
    - destruct H as ((reg & B) & P & L).
      assert (Sz1 : sized1 sha256 (s_msg s)) by (intros cids price expiry qos D; eapply Sz; [left; reflexivity|exact D]).
      assert (Safe1 : safe_id (s_before s)) by (rewrite B; exact Safe).
      pose proof (step_ok version supported sha256 sha512_256 pub_of ec_sign ec_verify blake s Law Vs Safe1 Sz1 P) as [R1 _ _ _ _ _ _ _].
      assert (Re1 : reaches sha512_256 hist (store_of (s_before s))) by (rewrite B; exact Re).
      destruct (store_step_ok pre s (t ++ post) hist Law Vs Safe1 Sz1 P Od St Re1) as (h1 & St1 & Re2).
      assert (Sz2 : sized t) by (intros s' cids price expiry qos I D; eapply Sz; [right; exact I|exact D]).
      destruct (IH (pre ++ [s]) (s_after s) p' post h1 R1 Sz2 L) as (h2 & St2 & Re3); auto; [rewrite <- app_assoc; exact Od|].
      exists h2. rewrite <- app_assoc in St2. auto.
  Qed.
End serve.
