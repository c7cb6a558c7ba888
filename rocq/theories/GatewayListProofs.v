(** * Proofs about listings between a gateway and a provider *)
From Coq Require Import List ZArith Bool Lia ZifyBool ZifyNat.
From Coq Require Import Init.Byte.
From Verif Require Import Base BaseProofs Ids Json Merkle Crypto CryptoProofs Message MessageProofs Offer OfferProofs Schema SchemaProofs Messages MessagesProofs WireSpec Payment PaymentSpec Register RegisterSpec
  OfferStore OfferStoreSpec SqlOffers SqlOffersSpec SqlOffersProofs Rest Gateway GatewaySpec GatewayProofs GatewayStoreProofs GatewayAdmin GatewayAdminSpec GatewayAdminProofs
  Provider ProviderSpec ProviderProofs ProviderLifeProofs ProviderListProofs ProviderServeProofs ProviderAckProofs ProviderSendProofs.
Import ListNotations.
Open Scope Z_scope.
Open Scope go_scope.

Section gl.
  Variable version : Z.
  Variable supported : list Z.
  Variable sha256 sha512_256 : bytes -> bytes.
  Variable pub_of : bytes -> bytes.
  Variable ec_sign : bytes -> bytes -> option bytes.
  Variable ec_verify : bytes -> bytes -> bytes -> bool.
  Variable blake : bytes -> bytes.

  Local Notation sized := (sized sha256).
  Local Notation lived := (lived version supported sha256 sha512_256 pub_of ec_sign ec_verify blake).
  Local Notation pact := (pact version supported sha256 sha512_256 pub_of ec_sign ec_verify blake).
  Local Notation RequestListCIDOffer := (RequestListCIDOffer version supported sha256 sha512_256 pub_of ec_sign ec_verify blake).
  Local Notation lists_offer := (lists_offer sha256).

  Lemma mock_wire : wire_proof mockProof.
  Proof. split; [repeat constructor; unfold int64; lia|split; vm_compute; reflexivity]. Qed.

  Lemma filter_all {A} (f : A -> bool) l : Forall (fun x => f x = true) l -> filter f l = l.
  Proof. induction 1 as [|x l E _ IH]; [reflexivity|]. cbn [filter]. rewrite E, IH. reflexivity. Qed.

  (** A request of the gateway, as the provider reads it. *)
  Lemma asked_gid g gid l h b rq : g_id g = Some gid -> id32 gid -> id32 l -> id32 h ->
    EncodeGatewayListDHTOfferRequest version supported (g_id g) (Some l) (Some h) todo todo todo (Some mockProof) = Ret b ->
    SignWith ec_sign blake (g_key g) (g_ver g) b = Ret (true, rq) ->
    DecodeGatewayListDHTOfferRequest sha256 rq = Ret (OkR (Some gid, Some l, Some h, todo, todo, todo, Some mockProof)).
  Proof.
    intros Gi Ig Il Ih E S. rewrite Gi in E. destruct (rt_GatewayListDHTOfferRequest version supported sha256 gid l h todo todo todo mockProof Ig Il Ih mock_wire) as (m & Em & _ & Dm).
    rewrite E in Em. apply ret_inj in Em. subst m. apply sign_with_inv in S. destruct S as (sg & ->). exact Dm.
  Qed.

  Lemma listing_pf reg ss s p' r e answer g l h pid a ack kp pkp ip gid kg pkg ig :
    ecdsa_correct pub_of ec_sign ec_verify -> versions version supported -> sized (ss ++ [s]) -> lived (NewProvider reg) (ss ++ [s]) p' ->
    s_kind s = ListDHT (fun _ => None) -> s_answers s = [r] -> shuffle (pe_digests (s_env s)) ->
    id32 l -> id32 h -> RequestListCIDOffer e answer g [ArgCID (Some l); ArgCID (Some h); ArgNode (Some pid)] = Ret a ->
    k_sent a = [s_msg s; ack] -> answer (s_msg s) = Some r ->
    p_key (s_before s) = Some kp -> aget bytes_eqb (providersMap info (g_reg g)) (ToString pid) = Some ip -> DecodePublicKey (n_key ip) = Ret (OkR pkp) -> matches pub_of pkp kp ->
    g_id g = Some gid -> id32 gid -> g_key g = Some kg -> registered s gid ig -> DecodePublicKey (n_key ig) = Ret (OkR pkg) -> matches pub_of pkg kg ->
    (forall o c, lists_offer r o -> o_cids o = [c] -> exists id, kept_ack (s_before s) c id <> None) ->
    (exists p2, pact (s_env s) (s_before s) (ListDHT (fun _ => Some ack)) (s_msg s) = Ret (p2, [r], []) /\
       forall o c, lists_offer r o -> o_cids o = [c] -> kept_ack p2 c gid <> None) /\
    exists att, db_after sha512_256 (g_db g) att = Ret (g_db (k_after a)) /\
      forall o, lists_offer r o -> bindable o = true -> offer_signed_by pub_of ec_verify blake ip o -> In o (map fst att).
  Proof.
    intros Law Vs Sz L K An Sh Il Ih Rq Se Aw Kp Lp Dp Mp Gi Ig Kg Rg Dg Mg Prior.
    destruct (listed_pf version supported sha256 sha512_256 pub_of ec_sign ec_verify blake _ _ _ _ _ _ Law Vs Sz L K An Sh)
      as (gid' & lo' & hi' & xa & xb & xc & xd & i' & msgs & parts & Dq & _ & _ & Ow & Dr & F & _).
    apply (list_inv version supported sha256 sha512_256 pub_of ec_sign ec_verify blake (fun _ _ _ => true) (fun _ => None) (fun _ => true)) in Rq.
    destruct Rq as (Sa & _ & att & (Da & _) & [C|(b & rq & Eb & Sb & [C|(ack' & p & i & pk & rs & ms & acks & c & C & [= <-] & Li & Dk & Ar & Vr & Dm & Fa & Fk & Ec & Sc)])]);
      rewrite Se in C; try discriminate C. injection C as <- <-. rewrite Lp in Li. injection Li as <-. rewrite Dp in Dk. apply ret_inj in Dk. injection Dk as <-.
    rewrite Aw in Ar. injection Ar as <-. rewrite Dr in Dm. apply ret_inj in Dm. injection Dm as <-. cbn [elems] in Fa, Fk.
    pose proof (asked_gid _ _ _ _ _ _ Gi Ig Il Ih Eb Sb) as Dq2.
    assert (Gd : Forall (fun m => good sha256 pub_of ec_verify blake pkp m = true) msgs).
    { clear -F Kp Mp. induction F as [|m b ms ps (Ls & (k & Ek & V) & _) F IH]; constructor; [|exact IH].
      rewrite Kp in Ek. injection Ek as <-. unfold good. rewrite (V _ Mp), Ls. reflexivity. }
    rewrite (filter_all _ _ Gd) in Fa, Fk. destruct (Fk _ Kg) as (Fk1 & Fk2).
    assert (Wa : each wire_message (Some acks)).
    { cbn [each]. clear -Fk2 Vs. induction Fk2 as [|x xs (n & sg & E) _ IH]; constructor; [|exact IH].
      apply response_fresh in E. destruct E as (A & B & C). destruct Vs as (V1 & V2). unfold wire_message. rewrite A, B, C. cbn [each]. split; [unfold int32; lia|auto]. }
    destruct (rt_GatewayListDHTOfferAck version supported sha256 (Some acks) Wa) as (c2 & Ec2 & _ & Dc). rewrite Ec in Ec2. apply ret_inj in Ec2. subst c2.
    assert (Dack : DecodeGatewayListDHTOfferAck sha256 ack = Ret (OkR (Some acks))) by (apply sign_with_inv in Sc; destruct Sc as (sg & ->); exact Dc).
    assert (Sack : signed_by pub_of ec_verify blake ig ack) by (eapply reply_signed; [exact Law|exact Sc|exact Kg|exact Dg|exact Mg]).
    assert (Cs : Forall2 (countersigned sha256 pub_of ec_verify blake ig) msgs acks).
    { clear -Fk1 Law Dg Mg. induction Fk1 as [|m x ms xs (sg & q & nn & ll & Dm & Sg & Dx) F IH]; constructor; [|exact IH].
      exists pkg, nn, sg. split; [exact Dg|]. split; [exact Dx|]. destruct (matches_half _ _ _ Mg) as [A P]. eapply sign_verify_pf; eassumption. }
    split.
    - destruct (acked_pf version supported sha256 sha512_256 pub_of ec_sign ec_verify blake reg ss s p' r gid (Some l) (Some h) _ _ _ _ ig msgs (fun _ => Some ack) ack acks
        Law Vs Sz L K An Sh Dq2 Dr Rg eq_refl Sack Dack Cs) as (p2 & P2 & Kept).
      { intros m o c0 Im (q & nn & ll & Dm & Io) Oc. eapply Prior; [|exact Oc]. exists msgs, m, q, nn, ll. auto. }
      exists p2. split; [exact P2|]. intros o c0 (ms & m & q & nn & ll & Dm & Im & Dq3 & Io) Oc. rewrite Dr in Dm. apply ret_inj in Dm. injection Dm as <-.
      destruct (Kept m o c0 Im) as (x & Ex & _); [exists q, nn, ll; auto|exact Oc|]. rewrite Ex. discriminate.
    - exists att. split; [exact Da|]. intros o (ms & m & q & nn & ll & Dm & Im & Dq3 & Io) Bi (k & Dk & Vo). rewrite Dr in Dm. apply ret_inj in Dm. injection Dm as <-.
      rewrite Dp in Dk. apply ret_inj in Dk. injection Dk as <-. rewrite Fa. apply in_flat_map. exists m. split; [exact Im|]. apply filter_In. split.
      + unfold offers_in. rewrite Dq3. exact Io.
      + unfold sound_for. rewrite Vo. exact Bi.
  Qed.

  Lemma Forall2_in_l {A B} (P : A -> B -> Prop) l l' x : Forall2 P l l' -> In x l -> exists y, In y l' /\ P x y.
  Proof. induction 1 as [|a b l l' Pab F IH]; intros I0; [destruct I0|]. destruct I0 as [<-|I0]; [exists b; split; [left; reflexivity|exact Pab]|]. destruct (IH I0) as (y & Iy & Py). exists y. split; [right; exact Iy|exact Py]. Qed.
  Lemma Forall2_in_r {A B} (P : A -> B -> Prop) l l' y : Forall2 P l l' -> In y l' -> exists x, In x l /\ P x y.
  Proof. induction 1 as [|a b l l' Pab F IH]; intros I0; [destruct I0|]. destruct I0 as [<-|I0]; [exists a; split; [left; reflexivity|exact Pab]|]. destruct (IH I0) as (x & Ix & Px). exists x. split; [right; exact Ix|exact Px]. Qed.

  Lemma listing_acks_pf e answer g lo hi pid a key request ack : versions version supported ->
    RequestListCIDOffer e answer g [ArgCID lo; ArgCID hi; ArgNode pid] = Ret a -> g_key g = Some key -> k_sent a = [request; ack] ->
    exists p i response msgs acks att, pid = Some p /\ aget bytes_eqb (providersMap info (g_reg g)) (ToString p) = Some i /\
      answer request = Some response /\ signed_by pub_of ec_verify blake i response /\ DecodeGatewayListDHTOfferResponse sha256 response = Ret (OkR msgs) /\
      DecodeGatewayListDHTOfferAck sha256 ack = Ret (OkR (Some acks)) /\
      (forall x, In x acks -> exists m, In m (elems msgs) /\ signed_by pub_of ec_verify blake i m /\ acknowledges sha256 ec_sign blake key (g_ver g) m x) /\
      (forall m y, In m (elems msgs) -> signed_by pub_of ec_verify blake i m -> DecodeProviderPublishDHTOfferRequest sha256 m = Ret (OkR y) ->
         exists x, In x acks /\ acknowledges sha256 ec_sign blake key (g_ver g) m x) /\
      db_after sha512_256 (g_db g) att = Ret (g_db (k_after a)) /\
      (forall o, In o (map fst att) -> wire_offer sha256 o /\ offered sha256 pub_of ec_verify blake i response o) /\
      forall o, offered sha256 pub_of ec_verify blake i response o -> bindable o = true -> In o (map fst att).
  Proof.
    intros Vs Rq Kg Se.
    apply (list_inv version supported sha256 sha512_256 pub_of ec_sign ec_verify blake (fun _ _ _ => true) (fun _ => None) (fun _ => true)) in Rq.
    destruct Rq as (Sa & _ & att & (Da & Ga) & [C|(b & rq & Eb & Sb & [C|(ack' & p & i & pk & rs & ms & acks & c & C & -> & Li & Dk & Ar & Vr & Dm & Fa & Fk & Ec & Sc)])]);
      rewrite Se in C; try discriminate C. injection C as <- <-. exists p, i, rs, ms, acks, att.
    destruct (Fk _ Kg) as (Fk1 & Fk2).
    assert (Wa : each wire_message (Some acks)).
    { cbn [each]. clear -Fk2 Vs. induction Fk2 as [|x xs (n & sg & E) _ IH]; constructor; [|exact IH].
      apply response_fresh in E. destruct E as (A & B & C). destruct Vs as (V1 & V2). unfold wire_message. rewrite A, B, C. cbn [each]. split; [unfold int32; lia|auto]. }
    destruct (rt_GatewayListDHTOfferAck version supported sha256 (Some acks) Wa) as (c2 & Ec2 & _ & Dc). rewrite Ec in Ec2. apply ret_inj in Ec2. subst c2.
    assert (Dack : DecodeGatewayListDHTOfferAck sha256 ack = Ret (OkR (Some acks))) by (apply sign_with_inv in Sc; destruct Sc as (sg & ->); exact Dc).
    assert (Gd : forall m, In m (elems ms) -> good sha256 pub_of ec_verify blake pk m = true <->
      signed_by pub_of ec_verify blake i m /\ exists y, DecodeProviderPublishDHTOfferRequest sha256 m = Ret (OkR y)).
    { intros m _. unfold good. rewrite andb_true_iff. split.
      - intros (V & D). split; [exists pk; auto|]. destruct (DecodeProviderPublishDHTOfferRequest sha256 m) as [[y|]| |]; try discriminate. eauto.
      - intros ((k & Dk' & V) & y & D). rewrite Dk in Dk'. apply ret_inj in Dk'. injection Dk' as <-. rewrite D. auto. }
    assert (R : signed_by pub_of ec_verify blake i rs) by (exists pk; auto).
    split; [reflexivity|]. split; [exact Li|]. split; [exact Ar|]. split; [exact R|]. split; [exact Dm|]. split; [exact Dack|].
    split. { intros x Ix. destruct (Forall2_in_r _ _ _ _ Fk1 Ix) as (m & Im & A). apply filter_In in Im. destruct Im as (Im & G). exists m. split; [exact Im|]. split; [apply Gd; assumption|exact A]. }
    split. { intros m y Im S D. apply (Forall2_in_l _ _ _ _ Fk1). apply filter_In. split; [exact Im|]. apply Gd; [exact Im|]. eauto. }
    split; [exact Da|]. split.
    - intros o Io. split; [apply in_map_iff in Io as ([o' f] & <- & Io); destruct (Ga _ _ Io) as ((W & _) & _); exact W|].
      rewrite Fa in Io. apply in_flat_map in Io as (m & Im & Io). apply filter_In in Im as (Im & G), Io as (Io & So). apply Gd in G; [|exact Im].
      destruct G as (Sm & ((q & nn) & ll) & D). unfold offers_in in Io. rewrite D in Io. destruct ll as [l|]; [|destruct Io]. cbn [elems] in Io.
      destruct ms as [msgs|]; [|destruct Im]. exists msgs, m, q, nn, l. repeat (split; [assumption|]). exists pk. split; [exact Dk|].
      unfold sound_for in So. destruct (OfferVerify pub_of ec_verify blake o pk) as [[|]| |]; try discriminate So. reflexivity.
    - intros o (msgs & m & q & nn & l & _ & D & Im & Sm & Dq & Io & (k & Dk' & Vo)) Bi. rewrite Dk in Dk'. apply ret_inj in Dk'. injection Dk' as <-.
      rewrite Dm in D. apply ret_inj in D. injection D as ->. rewrite Fa. apply in_flat_map. exists m. split.
      + apply filter_In. split; [exact Im|]. apply Gd; [exact Im|]. eauto.
      + apply filter_In. split; [unfold offers_in; rewrite Dq; exact Io|]. unfold sound_for. rewrite Vo. exact Bi.
  Qed.
End gl.
