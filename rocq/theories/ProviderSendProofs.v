(** * Proofs about whom a provider asks, and about gateways that answer *)
From Coq Require Import List ZArith Bool Lia Permutation Sorting.Sorted ZifyBool ZifyNat.
From Coq Require Import Init.Byte.
From Verif Require Import Base BaseProofs Ids IdsProofs Json Crypto CryptoProofs Message MessageProofs Offer OfferProofs Schema SchemaProofs Merkle Messages MessagesProofs WireSpec
  Ring RingSpec Register RegisterSpec RegisterProofs OfferStore OfferStoreSpec Rest Gateway GatewaySpec GatewayProofs GatewayStoreProofs
  Provider ProviderSpec ProviderProofs ProviderLifeProofs ProviderListProofs ProviderServeProofs ProviderAckProofs.
Import ListNotations.
Open Scope Z_scope.
Open Scope go_scope.

Section send.
  Variable version : Z.
  Variable supported : list Z.
  Variable sha256 sha512_256 : bytes -> bytes.
  Variable pub_of : bytes -> bytes.
  Variable ec_sign : bytes -> bytes -> option bytes.
  Variable ec_verify : bytes -> bytes -> bytes -> bool.
  Variable blake : bytes -> bytes.

  Local Notation pact := (pact version supported sha256 sha512_256 pub_of ec_sign ec_verify blake).
  Local Notation lived := (lived version supported sha256 sha512_256 pub_of ec_sign ec_verify blake).
  Local Notation sized := (sized sha256).
  Local Notation versions := (versions version supported).
  Local Notation lists := (lists sha256).
  Local Notation ordered_batch := (ordered_batch sha256 pub_of ec_verify blake).
  Local Notation ordered_group := (ordered_group sha256 pub_of ec_verify blake).
  Local Notation ready := (ready ec_sign blake).

  Lemma sign_total k ver m : can_sign ec_sign blake k -> exists m', SignWith ec_sign blake (Some k) ver m = Ret (true, m').
  Proof.
    intros [A H]. unfold SignWith, deref, MessageSign, SignMessage, KeySign. cbn [obind]. rewrite A.
    change (Byte.eqb Byte.x01 Byte.x01) with true. cbv iota.
    destruct (ec_sign _ _) as [raw|] eqn:E; [|exfalso; exact (H _ E)]. cbn [fst snd]. eexists. reflexivity.
  Qed.

  Lemma answered_json (l : list Rest.answer) : flat_map (fun a => match a with Json m => [m] | HttpError _ => [] end) l <> [] -> exists r, In (Json r) l.
  Proof.
    intros H. induction l as [|[c|r] t IH]; [exfalso; apply H; reflexivity| |exists r; left; reflexivity].
    destruct (IH H) as (r & I). exists r. right. exact I.
  Qed.

  Lemma near_asked_pf reg ss s p' c t price expiry qos members : ecdsa_correct pub_of ec_sign ec_verify -> versions -> sized ss -> lived (NewProvider reg) ss p' ->
    In s ss -> s_kind s = AdminPublishDHT -> s_answers s <> [] -> ready (s_before s) ->
    DecodeProviderAdminPublishDHTOfferRequest sha256 (s_msg s) = Ret (OkR (c :: t, price, expiry, qos)) ->
    managed info (p_reg (s_before s)) -> knows info (p_reg (s_before s)) members -> (16 <= length members)%nat ->
    exists res os, RegisterSpec.nearest info (p_reg (s_before s)) members (ToString c) 16 res /\ ordered_batch s os /\
      forall j gw id, nth_error res j = Some gw -> NewNodeIDFromHexString (n_id (snd gw)) = OkR id -> pe_conn (s_env s) j id = true ->
        exists request, In (id, request, pe_net (s_env s) j id request) (s_sent s) /\ lists (s_before s) request os.
  Proof.
    intros Law Vs Sz L Is K An (pid & k & Pid & Ip & Kk & Cs) D Mg Kn Len.
    destruct (new_safe sha256 reg) as (S1 & _ & _).
    destruct (lived_in version supported sha256 sha512_256 pub_of ec_sign ec_verify blake ss Law Vs _ _ S1 Sz L s Is) as (Safe & Sz1 & P).
    destruct s as [p e kd m q ans out]. cbn [s_before s_env s_kind s_msg s_after s_answers s_sent] in *. subst kd.
    unfold ProviderSpec.pact in P. step P. apply ret_inj in P. injection P as <- <- <-.
    destruct (admin_dht_rel _ _ _ _ _ _ _ _ _ _ _ _ Law Safe Sz1 E) as [(A & B & code & C)|(cids & price' & expiry' & qos' & os & h & mm & code & D' & Ne & De & W & O & Ln & _ & Po & N & R & Cn)].
    { rewrite C in An. exfalso. apply An. reflexivity. }
    assert (Ok : code = None) by (destruct (answered_json _ An) as (r & Ir); exact (Cn r Ir)).
    subst code. rewrite D in D'. apply ret_inj in D'. injection D' as <- <- <- <-.
    pose proof (described_ordered sha256 pub_of ec_verify blake (PStep p e AdminPublishDHT m (p_after v) (flat_map (fun a => match a with Json m => [m] | HttpError _ => [] end) (p_wrote v)) (p_sent v)) _ _ _ _ _ eq_refl Ne D De) as Ob.
    destruct (publish_near_made _ _ _ _ _ _ _ _ _ _ _ _ _ _ _ _ N) as (_ & new & En & _ & Cov). cbn [app] in En. subst new.
    destruct (Cov eq_refl c t eq_refl) as (gws & reg' & G & All). cbn [p_with_store p_reg] in G.
    pose proof (admin_dht_decoded _ _ _ _ _ _ D) as (Fc & _).
    destruct (near_ok info (p_reg p) c 16 members) as (res & m' & G' & Nr); auto; try lia.
    { apply managed_ginv, Mg. }
    { inversion Fc. assumption. }
    rewrite G in G'. apply ret_inj in G'. injection G' as <- <-.
    exists gws, os. split; [exact Nr|]. split; [exact Ob|]. intros j gw id Nj Hid Cj.
    assert (Wm : exists b m, EncodeProviderPublishDHTOfferRequest version supported (Some pid) 1 (Some os) = Ret b /\ SignWith ec_sign blake (Some k) (p_ver p) b = Ret (true, m)).
    { destruct (rt_ProviderPublishDHTOfferRequest version supported sha256 pid 1 (Some os)) as (b & Eb & _); auto; [unfold int64; lia|unfold int64, slice_len|].
      - assert (Z.of_nat (length os) < 2 ^ 63) by (rewrite Ln; eapply Sz1; eauto). lia.
      - destruct (sign_total k (p_ver p) b Cs) as (mm' & Sm). eauto. }
    destruct Wm as (b & rq & Eb & Sb). cbn [p_with_store p_id p_key p_ver] in All. rewrite Pid, Kk in All.
    exists rq. split; [apply (All j (snd gw) id) with (b := b); auto; rewrite nth_error_map, Nj; reflexivity|].
    unfold ProviderSpec.lists. rewrite Pid.
    assert (X : DecodeProviderPublishDHTOfferRequest sha256 rq = Ret (OkR (Some pid, 1, Some os)) /\ m_type rq = 302) by (eapply dht_message; first [exact Ip|exact W|exact O|exact Eb|rewrite Ln; eapply Sz1; eassumption|eapply sign_with_inv; eassumption|assumption]).
    exact (proj1 X).
  Qed.

  Lemma group_asked_pf reg ss s p' : ecdsa_correct pub_of ec_sign ec_verify -> versions -> sized ss -> lived (NewProvider reg) ss p' ->
    In s ss -> s_kind s = AdminPublishGroup -> s_answers s <> [] -> ready (s_before s) -> shuffle (pe_nodes (s_env s)) ->
    start info (p_reg (s_before s)) = true -> gatewayDiscv info (p_reg (s_before s)) = true ->
    exists o gws, ordered_group s o /\ Permutation gws (map snd (gatewaysMap info (p_reg (s_before s)))) /\
      forall j gw id, nth_error gws j = Some gw -> NewNodeIDFromHexString (n_id gw) = OkR id -> pe_conn (s_env s) j id = true ->
        exists request, In (id, request, pe_net (s_env s) j id request) (s_sent s) /\
          DecodeProviderPublishGroupOfferRequest sha256 request = Ret (OkR (p_id (s_before s), 1, Some o)).
  Proof.
    intros Law Vs Sz L Is K An (pid & k & Pid & Ip & Kk & Cs) Sh St Gd.
    destruct (new_safe sha256 reg) as (S1 & _ & _).
    destruct (lived_in version supported sha256 sha512_256 pub_of ec_sign ec_verify blake ss Law Vs _ _ S1 Sz L s Is) as (Safe & Sz1 & P).
    destruct s as [p e kd m q ans out]. cbn [s_before s_env s_kind s_msg s_after s_answers s_sent] in *. subst kd.
    unfold ProviderSpec.pact in P. step P. apply ret_inj in P. injection P as <- <- <-.
    destruct (admin_group_rel _ _ _ _ _ _ _ _ _ _ _ _ Law Safe E) as [(A & B & code & C)|(cids & price & expiry & qos & o & mm & rg & gws & code & x & D & M & W & _ & Po & G & N & R & Cn)].
    { rewrite C in An. exfalso. apply An. reflexivity. }
    assert (Ok : code = None) by (destruct (answered_json _ An) as (r & Ir); exact (Cn r Ir)).
    subst code. unfold GetAllGateways in G. rewrite St, Gd in G. cbn [negb orb] in G. step G. apply ret_inj in G. injection G as <- <-.
    destruct (publish_group_to_made _ _ _ _ _ _ _ _ _ _ _ _ _ _ _ _ _ N) as (_ & new & En & _ & Cov). cbn [app] in En. subst new.
    exists o, (map snd (pe_nodes e (gatewaysMap info (p_reg p)))). split; [exists cids, price, expiry, qos; auto|].
    split; [apply Permutation_map; apply Permutation_sym; apply Sh|]. intros j gw id Nj Hid Cj.
    destruct (rt_ProviderPublishGroupOfferRequest version supported sha256 pid 1 o) as (b & Eb & _); auto; [unfold int64; lia|].
    destruct (sign_total k (p_ver p) b Cs) as (rq & Sb). cbn [p_with_reg p_with_store p_id p_key p_ver] in Cov. rewrite Pid, Kk in Cov.
    exists rq. split; [apply (Cov eq_refl j gw id) with (b := b); auto|]. rewrite Pid.
    assert (X : DecodeProviderPublishGroupOfferRequest sha256 rq = Ret (OkR (Some pid, 1, Some o)) /\ m_type rq = 300) by (eapply group_message; first [exact Ip|exact W|exact Eb|eapply sign_with_inv; eassumption|assumption]).
    exact (proj1 X).
  Qed.

  (** ** A gateway that answers *)
  Lemma finish_reply g b g' r : finish_p2p ec_sign blake g b = Ret (g', Reply r) -> g' = g /\ SignWith ec_sign blake (g_key g) (g_ver g) b = Ret (true, r).
  Proof.
    unfold finish_p2p. intros H. step H. destruct v as [[|] m]; apply ret_inj in H; cbn [fst snd] in H; [|discriminate]. injection H as <- <-. auto.
  Qed.
  Lemma dht_reply e g m g' r : HandlePublishDHT version supported sha256 sha512_256 pub_of ec_sign ec_verify blake e g m = Ret (g', Reply r) ->
    exists b, SignWith ec_sign blake (g_key g') (g_ver g') b = Ret (true, r).
  Proof.
    unfold HandlePublishDHT. intros H. step H. destruct v as [[[a b] c]|]; [|apply ret_inj in H; discriminate]. step H. destruct v as [k g1]. destruct k; [|apply ret_inj in H; discriminate].
    step H. destruct v as [[[|]|] g2]; try (apply ret_inj in H; discriminate). step H. step H; [|apply ret_inj in H; discriminate]. step H.
    apply finish_reply in H. destruct H as [-> H]. eauto.
  Qed.
  Lemma group_reply e g m g' r : HandlePublishGroup version supported sha256 sha512_256 pub_of ec_sign ec_verify blake e g m = Ret (g', Reply r) ->
    exists b, SignWith ec_sign blake (g_key g') (g_ver g') b = Ret (true, r).
  Proof.
    unfold HandlePublishGroup. intros H. step H. destruct v as [[[a b] c]|]; [|apply ret_inj in H; discriminate]. step H. destruct v as [k g1]. destruct k; [|apply ret_inj in H; discriminate].
    step H. step H. step H; [apply ret_inj in H; discriminate|]. step H. destruct v1 as [[[|]|] g2]; try (apply ret_inj in H; discriminate). step H. step H. step H.
    apply finish_reply in H. destruct H as [-> H]. eauto.
  Qed.
  Lemma reply_signed g b r i k pk : ecdsa_correct pub_of ec_sign ec_verify -> SignWith ec_sign blake (g_key g) (g_ver g) b = Ret (true, r) ->
    g_key g = Some k -> DecodePublicKey (n_key i) = Ret (OkR pk) -> matches pub_of pk k -> signed_by pub_of ec_verify blake i r.
  Proof.
    intros Law S K Dk M. rewrite K in S. unfold SignWith in S. cbn [deref obind] in S. apply ret_inj in S.
    exists pk. split; [exact Dk|]. destruct (message_roundtrip_pf _ _ _ _ _ _ _ _ _ Law M S) as [V _]. rewrite V. reflexivity.
  Qed.

  Lemma dht_nonce m id nonce l : DecodeProviderPublishDHTOfferRequest sha256 m = Ret (OkR (id, nonce, l)) -> int64 nonce.
  Proof.
    intros H. apply rbind_inv in H. destruct H as ((f1 & f2 & f3 & f4 & []) & E & H). apply decode_ranged in E.
    step H; [discriminate|]. apply ret_inj in H. injection H as <- <- <-. cbn in E. unfold int64. lia.
  Qed.

  Lemma dht_accepted_pf e g m g' r i k pk o : ecdsa_correct pub_of ec_sign ec_verify ->
    HandlePublishDHT version supported sha256 sha512_256 pub_of ec_sign ec_verify blake e g m = Ret (g', Reply r) ->
    g_key g = Some k -> DecodePublicKey (n_key i) = Ret (OkR pk) -> matches pub_of pk k -> carries_dht sha256 m o ->
    accepted sha256 sha512_256 pub_of ec_verify blake i m r o.
  Proof.
    intros Law H K Dk M Ca. destruct (dht_reply _ _ _ _ _ H) as (b & S). apply (publish_dht_inv version supported sha256 sha512_256 pub_of ec_sign ec_verify blake (fun _ _ _ => true) (fun _ => None) (fun _ => true)) in H.
    destruct H as (Se & _ & att & _ & R). unfold settings in Se. injection Se as _ Ek Ev _ _ _. rewrite Ek, Ev in S.
    split; [eapply reply_signed; eauto|]. left. split; [exact Ca|].
    destruct (R r eq_refl) as (id & nonce & l & key & sig & b' & D & _ & Ek' & Sg & (g0 & ->) & Eb). rewrite K in Ek'. injection Ek' as <-.
    exists pk, nonce, sig. split; [exact Dk|]. split.
    - destruct (rt_ProviderPublishDHTOfferResponse version supported sha256 nonce sig) as (b2 & Eb2 & _ & Db); [eapply dht_nonce; eauto|].
      rewrite Eb in Eb2. apply ret_inj in Eb2. subst b2. exact Db.
    - destruct (matches_half _ _ _ M) as [A P]. eapply sign_verify_pf; eassumption.
  Qed.

  Lemma group_accepted_pf e g gid m g' r i k pk o : ecdsa_correct pub_of ec_sign ec_verify -> (forall x, length (sha512_256 x) = 32%nat) ->
    HandlePublishGroup version supported sha256 sha512_256 pub_of ec_sign ec_verify blake e g m = Ret (g', Reply r) ->
    g_id g = Some gid -> id32 gid -> g_key g = Some k -> DecodePublicKey (n_key i) = Ret (OkR pk) -> matches pub_of pk k -> carries_group sha256 m o ->
    accepted sha256 sha512_256 pub_of ec_verify blake i m r o.
  Proof.
    intros Law Hl H Gi Ig K Dk M Ca. destruct (group_reply _ _ _ _ _ H) as (b & S). apply (publish_group_inv version supported sha256 sha512_256 pub_of ec_sign ec_verify blake (fun _ _ _ => true) (fun _ => None) (fun _ => true)) in H.
    destruct H as (Se & _ & att & (_ & G) & R). unfold settings in Se. injection Se as _ Ek Ev _ _ _. rewrite Ek, Ev in S.
    split; [eapply reply_signed; eauto|]. right. split; [exact Ca|].
    destruct (R r eq_refl) as (o' & id & dg & b' & -> & Gi' & Dg & (g0 & ->) & Eb). rewrite Gi in Gi'. injection Gi' as <-.
    destruct (G o' _ (or_introl eq_refl)) as ((_ & i' & pid & (nonce & P) & _) & _). destruct Ca as (pid' & nonce' & D). rewrite P in D. apply ret_inj in D. injection D as <- <- <-.
    destruct (rt_ProviderPublishGroupOfferResponse version supported sha256 gid (EncodeMessageDigest dg) Ig) as (b2 & Eb2 & _ & Db). rewrite Eb in Eb2. apply ret_inj in Eb2. subst b2.
    exists (Some gid), (EncodeMessageDigest dg). split; [exact Db|]. rewrite Dg, digest_text_pf; [reflexivity|].
    unfold GetMessageDigest in Dg. step Dg. apply ret_inj in Dg. subst dg. apply Hl.
  Qed.
End send.

(** ** Only initialisation changes identifier and key *)
Section identity.
  Variable version : Z.
  Variable supported : list Z.
  Variable sha256 sha512_256 : bytes -> bytes.
  Variable pub_of : bytes -> bytes.
  Variable ec_sign : bytes -> bytes -> option bytes.
  Variable ec_verify : bytes -> bytes -> bytes -> bool.
  Variable blake : bytes -> bytes.
  Local Notation pact := (pact version supported sha256 sha512_256 pub_of ec_sign ec_verify blake).

  Lemma asked_same e p id m k p' : asked_by pub_of ec_verify blake e p id m = Ret (k, p') -> same_as p p'.
  Proof. intros H. destruct (asked_by_rel _ _ _ _ _ _ _ _ _ H) as (reg & -> & _). repeat split. Qed.
  Lemma quit_same p c s : p_quit p c = Ret s -> same_as p (p_after s).
  Proof. intros H. unfold p_quit in H. apply ret_inj in H. subst. repeat split. Qed.
  Lemma finish_same p m s : p_finish ec_sign blake p m = Ret s -> same_as p (p_after s).
  Proof. intros H. destruct (p_finish_inv ec_sign blake _ _ _ H) as (-> & _). repeat split. Qed.
  Lemma finish_quietly_same p m out s : p_finish_quietly ec_sign blake p m out = Ret s -> same_as p (p_after s).
  Proof. intros H. destruct (finish_quietly_inv ec_sign blake _ _ _ _ H) as (-> & _). repeat split. Qed.

  Lemma identity_kept_pf e p k m p' a x : pact e p k m = Ret (p', a, x) -> k <> AdminInitialiseKey -> k <> AdminInitialiseKeyV2 -> same_as p p'.
  Proof.
    intros H N1 N2. unfold ProviderSpec.pact in H. destruct k; cbv beta iota in H; try contradiction.
    all: match type of H with obind ?y _ = _ => destruct y as [v| |] eqn:E; try discriminate H end; cbn [obind] in H; injection H as <- _ _.
    - unfold HandleAdminPublishDHT in E. destruct (p_key p) as [key|]; [|exact (quit_same _ _ _ E)]. step E. step E; [|exact (quit_same _ _ _ E)].
      destruct a0 as [[[cids price] expiry] qos]. cbv zeta in E. step E; [exact (quit_same _ _ _ E)|]. step E. step E; [|exact (quit_same _ _ _ E)]. step E. step E.
      match goal with v : (option Z * provider * list exchange)%type |- _ => destruct v as [[code q] out] end. assert (S : same_as p q). { match goal with X : _ = Ret (code, q, out) |- _ => apply publish_near_made in X; destruct X as (S & _); exact S end. }
      destruct code; [apply ret_inj in E; subst; exact S|]. step E. eapply same_trans; [exact S|exact (finish_quietly_same _ _ _ _ E)].
    - unfold HandleAdminPublishGroup in E. destruct (p_key p) as [key|]; [|exact (quit_same _ _ _ E)]. step E. step E; [|exact (quit_same _ _ _ E)].
      destruct a0 as [[[cids price] expiry] qos]. step E. step E; [|exact (quit_same _ _ _ E)]. step E. step E; [exact (quit_same _ _ _ E)|]. cbv zeta in E. step E. step E. step E.
      match goal with v : (option Z * provider * list exchange)%type |- _ => destruct v as [[code q] out] end. assert (S : same_as p q). { match goal with X : _ = Ret (code, q, out) |- _ => apply publish_group_to_made in X; destruct X as (S & _); exact S end. }
      destruct code; [apply ret_inj in E; subst; exact S|]. step E. eapply same_trans; [exact S|exact (finish_quietly_same _ _ _ _ E)].
    - unfold HandleAdminGetPublished in E. destruct (p_key p) as [key|]; [|exact (quit_same _ _ _ E)]. step E. step E; [|exact (quit_same _ _ _ E)]. cbv zeta in E. step E. exact (finish_same _ _ _ E).
    - unfold HandleAdminForceRefresh in E. destruct (p_key p) as [key|] eqn:K; [|exact (quit_same _ _ _ E)]. step E. step E; [|exact (quit_same _ _ _ E)]. step E. step E.
      pose proof (finish_same _ _ _ E) as S. exact S.
    - unfold HandleOfferAck in E. step E. step E; [|exact (quit_same _ _ _ E)]. destruct a0 as [c gid]. repeat step E; exact (finish_same _ _ _ E).
    - destruct v as [q r]. unfold HandleListDHT in E. step E. step E; [|injection E as <- <-; repeat split]. destruct a0 as [[[[[[gid lo] hi] y1] y2] y3] y4]. step E. match goal with X : asked_by _ _ _ _ _ _ _ = Ret ?v |- _ => destruct v as [k q1] end.
      assert (S : same_as p q1) by (match goal with X : _ = Ret (k, q1) |- _ => exact (asked_same _ _ _ _ _ _ X) end). cbv iota in E. destruct k as [k|]; [|injection E as <- <-; exact S].
      step E. step E. step E. step E. destruct v3 as [[offers f] mm]. cbv zeta iota in E. step E; [discriminate E|]. step E. step E; [|injection E as <- <-; exact S].
      step E. step E. step E; [injection E as <- <-; exact S|]. cbv zeta in E. step E; [|injection E as <- <-; exact S]. step E; [injection E as <- <-; exact S|].
      step E. step E; [injection E as <- <-; exact S|]. step E. injection E as <- <-. exact S.
    - destruct v as [q r]. unfold HandleNotifyGroup in E. step E. step E; [|injection E as <- <-; repeat split]. destruct a0 as [gid b]. step E. match goal with X : asked_by _ _ _ _ _ _ _ = Ret ?v |- _ => destruct v as [k q1] end.
      assert (S : same_as p q1) by (match goal with X : _ = Ret (k, q1) |- _ => exact (asked_same _ _ _ _ _ _ X) end). cbv iota in E. destruct k as [k|]; [|injection E as <- <-; exact S]. step E. cbv zeta in E. step E. step E. injection E as <- <-. exact S.
  Qed.
End identity.
