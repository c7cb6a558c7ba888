(** * Proofs about the offers a provider makes, stores, sends and lists *)
From Coq Require Import List ZArith Bool Lia Permutation ZifyBool ZifyNat.
From Coq Require Import Init.Byte.
From Verif Require Import Base BaseProofs Ids IdsProofs Json Crypto Message MessageProofs Offer OfferProofs Schema SchemaProofs Merkle Messages MessagesProofs WireSpec
  Register RegisterProofs OfferStore OfferStoreSpec OfferStoreProofs OfferStoreFacts Rest Gateway GatewaySpec GatewayProofs GatewayStoreProofs
  Provider ProviderSpec ProviderProofs ProviderLifeProofs.
Import ListNotations.
Open Scope Z_scope.
Open Scope go_scope.

Section lists.
  Variable version : Z.
  Variable supported : list Z.
  Variable sha256 sha512_256 : bytes -> bytes.
  Variable pub_of : bytes -> bytes.
  Variable ec_sign : bytes -> bytes -> option bytes.
  Variable ec_verify : bytes -> bytes -> bytes -> bool.
  Variable blake : bytes -> bytes.

  Local Notation pact := (pact version supported sha256 sha512_256 pub_of ec_sign ec_verify blake).
  Local Notation lived := (lived version supported sha256 sha512_256 pub_of ec_sign ec_verify blake).
  Local Notation sized := (sized sha256).
  Local Notation versions := (versions version supported).
  Local Notation safe_heap := (safe_heap sha256).
  Local Notation own := (own pub_of ec_verify blake).
  Local Notation lists := (lists sha256).
  Local Notation made_by := (made_by pub_of ec_verify blake).
  Local Notation described := (described pub_of ec_verify blake).
  Local Notation ordered := (ordered sha256 pub_of ec_verify blake).
  Local Notation ordered_batch := (ordered_batch sha256 pub_of ec_verify blake).
  Local Notation ordered_group := (ordered_group sha256 pub_of ec_verify blake).
  Local Notation ask := (ask pub_of ec_sign ec_verify blake).
  Local Notation publish_to := (publish_to version supported sha256 pub_of ec_sign ec_verify blake).
  Local Notation publish_near := (publish_near version supported sha256 pub_of ec_sign ec_verify blake).
  Local Notation publish_group_to := (publish_group_to version supported sha256 sha512_256 pub_of ec_sign ec_verify blake).

  (** ** Requests to gateways *)
  Definition same_as (p q : provider) : Prop := p_id q = p_id p /\ p_key q = p_key p /\ p_ver q = p_ver p.

  Lemma sign_own p m m' : ecdsa_correct pub_of ec_sign ec_verify -> SignWith ec_sign blake (p_key p) (p_ver p) m = Ret (true, m') -> own p m'.
  Proof.
    intros Law H. unfold SignWith in H. destruct (p_key p) as [k|] eqn:K; [|discriminate]. cbn [deref obind] in H. apply ret_inj in H.
    exists k. split; [exact K|]. intros pk M. destruct (message_roundtrip_pf pub_of ec_sign ec_verify blake m k (p_ver p) m' pk Law M H) as [V _]. rewrite V. reflexivity.
  Qed.

  (** The exchange was made with this message. *)
  Definition made_with (p : provider) (enc : outcome message) (x : exchange) : Prop :=
    exists b, enc = Ret b /\ SignWith ec_sign blake (p_key p) (p_ver p) b = Ret (true, snd (fst x)).

  Lemma ask_made e n p id enc r p' out : ask e n p id enc = Ret (r, p', out) ->
    same_as p p' /\ Forall (fun x => fst (fst x) = id /\ made_with p enc x) out /\
    (pe_conn e n id = true -> forall b m, enc = Ret b -> SignWith ec_sign blake (p_key p) (p_ver p) b = Ret (true, m) -> out = [(id, m, pe_net e n id m)]).
  Proof.
    assert (Same : forall r, same_as p (p_with_reg p r)) by (intros; repeat split).
    unfold Provider.ask. intros H. step H; [apply ret_inj in H; injection H as <- <- <-; split; [repeat split|split; [constructor|intros C; rewrite C in E; discriminate]]|].
    step H. rename v into b. step H. destruct v as [ok m]. cbn [fst snd] in H. destruct ok; cbn [negb] in H.
    2:{ apply ret_inj in H. injection H as <- <- <-. split; [repeat split|split; [constructor|]]. intros _ b' m' [= <-] S. rewrite E1 in S. discriminate. }
    assert (Q : forall q, Forall (fun x => fst (fst x) = id /\ made_with p (Ret b) x) [(id, m, pe_net e n id m)] /\
       (q = true -> forall b0 m0, Ret b = Ret b0 -> SignWith ec_sign blake (p_key p) (p_ver p) b0 = Ret (true, m0) -> [(id, m, pe_net e n id m)] = [(id, m0, pe_net e n id m0)])).
    { intros q. split; [constructor; [|constructor]; split; [reflexivity|exists b; auto]|]. intros _ b0 m0 [= <-] S. rewrite E1 in S. apply ret_inj in S. injection S as <-. reflexivity. }
    step H; [|apply ret_inj in H; injection H as <- <- <-; split; [repeat split|apply Q]].
    step H. destruct v as [i p1]. unfold PGetGateway in E3. step E3. destruct v as [i' r1]. apply ret_inj in E3. injection E3 as <- <-. cbn [fst snd] in *.
    destruct i' as [i|]; [|apply ret_inj in H; injection H as <- <- <-; split; [apply Same|apply Q]].
    step H. destruct v as [k|]; [|apply ret_inj in H; injection H as <- <- <-; split; [apply Same|apply Q]].
    apply ret_inj in H. injection H as <- <- <-. split; [apply Same|apply Q].
  Qed.

  Lemma record_same id request response os : forall p p', record_published p id request response os = Ret p' -> same_as p p'.
  Proof.
    induction os as [|o t IH]; intros p p' H; cbn [record_published] in H; [apply ret_inj in H; subst; repeat split|].
    destruct (o_cids o); [discriminate|]. apply IH in H. exact H.
  Qed.

  Lemma dht_made e n p id os p' out : RequestPublishDHT version supported sha256 pub_of ec_sign ec_verify blake e n p id os = Ret (p', out) ->
    same_as p p' /\ Forall (fun x => fst (fst x) = id /\ made_with p (EncodeProviderPublishDHTOfferRequest version supported (p_id p) 1 (Some os)) x) out /\
    (pe_conn e n id = true -> forall b m, EncodeProviderPublishDHTOfferRequest version supported (p_id p) 1 (Some os) = Ret b ->
       SignWith ec_sign blake (p_key p) (p_ver p) b = Ret (true, m) -> out = [(id, m, pe_net e n id m)]).
  Proof.
    unfold RequestPublishDHT. intros H. step H. destruct v as [[r p1] out1]. apply ask_made in E. destruct E as (S & F & C).
    assert (Q : same_as p p' /\ out = out1 -> same_as p p' /\ Forall (fun x => fst (fst x) = id /\ made_with p (EncodeProviderPublishDHTOfferRequest version supported (p_id p) 1 (Some os)) x) out /\
    (pe_conn e n id = true -> forall b m, EncodeProviderPublishDHTOfferRequest version supported (p_id p) 1 (Some os) = Ret b ->
       SignWith ec_sign blake (p_key p) (p_ver p) b = Ret (true, m) -> out = [(id, m, pe_net e n id m)])) by (intros (A & ->); auto). apply Q. clear Q.
    destruct r as [[[request response] k]|]; [|apply ret_inj in H; injection H as <- <-; auto].
    step H. destruct v as [[nn sg]|]; [|apply ret_inj in H; injection H as <- <-; auto].
    destruct (fst (VerifyMessage _ _ _ _ _ _)) as [[|]|]; try (apply ret_inj in H; injection H as <- <-; auto; fail).
    step H. apply ret_inj in H. injection H as <- <-. apply record_same in E0. split; [|reflexivity].
    destruct S as (A & B & D), E0 as (A' & B' & D'). repeat split; congruence.
  Qed.
  Lemma group_made e n p id o p' out : RequestPublishGroup version supported sha256 sha512_256 pub_of ec_sign ec_verify blake e n p id o = Ret (p', out) ->
    same_as p p' /\ Forall (fun x => fst (fst x) = id /\ made_with p (EncodeProviderPublishGroupOfferRequest version supported (p_id p) 1 (Some o)) x) out /\
    (pe_conn e n id = true -> forall b m, EncodeProviderPublishGroupOfferRequest version supported (p_id p) 1 (Some o) = Ret b ->
       SignWith ec_sign blake (p_key p) (p_ver p) b = Ret (true, m) -> out = [(id, m, pe_net e n id m)]).
  Proof.
    unfold RequestPublishGroup. intros H. step H. destruct v as [[r p1] out1]. apply ask_made in E. destruct E as (S & F & C).
    assert (Q : same_as p p' /\ out = out1 -> same_as p p' /\ Forall (fun x => fst (fst x) = id /\ made_with p (EncodeProviderPublishGroupOfferRequest version supported (p_id p) 1 (Some o)) x) out /\
    (pe_conn e n id = true -> forall b m, EncodeProviderPublishGroupOfferRequest version supported (p_id p) 1 (Some o) = Ret b ->
       SignWith ec_sign blake (p_key p) (p_ver p) b = Ret (true, m) -> out = [(id, m, pe_net e n id m)])) by (intros (A & ->); auto). apply Q. clear Q.
    destruct r as [[[request response] k]|]; [|apply ret_inj in H; injection H as <- <-; auto].
    step H. destruct v as [[nn cand]|]; [|apply ret_inj in H; injection H as <- <-; auto].
    step H. step H; apply ret_inj in H; injection H as <- <-; auto.
  Qed.

  Lemma made_same p q enc x : same_as p q -> made_with q enc x -> made_with p enc x.
  Proof. intros (A & B & C) (b & E & S). exists b. rewrite <- B, <- C. auto. Qed.
  Lemma same_trans p q r : same_as p q -> same_as q r -> same_as p r.
  Proof. intros (A & B & C) (A' & B' & C'). repeat split; congruence. Qed.

  Lemma publish_to_made e os gws : forall n p out code p' out' n', publish_to e n p os gws out = Ret (code, p', out', n') ->
    same_as p p' /\ exists new, out' = out ++ new /\
    Forall (made_with p (EncodeProviderPublishDHTOfferRequest version supported (p_id p) 1 (Some os))) new /\
    (Forall (fun x => exists i, In i gws /\ NewNodeIDFromHexString (n_id i) = OkR (fst (fst x))) new) /\
    (code = None -> forall j gw id, nth_error gws j = Some gw -> NewNodeIDFromHexString (n_id gw) = OkR id -> pe_conn e (n + j)%nat id = true ->
       forall b m, EncodeProviderPublishDHTOfferRequest version supported (p_id p) 1 (Some os) = Ret b ->
       SignWith ec_sign blake (p_key p) (p_ver p) b = Ret (true, m) -> In (id, m, pe_net e (n + j)%nat id m) new).
  Proof.
    induction gws as [|gw t IH]; intros n p out code p' out' n' H; cbn [Provider.publish_to] in H.
    - apply ret_inj in H. injection H as <- <- <- <-. split; [repeat split|]. exists []. rewrite app_nil_r. split; [reflexivity|]. split; [constructor|]. split; [constructor|].
      intros _ [|j] gw id X; discriminate.
    - destruct (NewNodeIDFromHexString (n_id gw)) as [id|] eqn:Eid.
      + step H. destruct v as [p1 o1]. cbn [fst snd] in H. destruct (dht_made _ _ _ _ _ _ _ E) as (S & F & C).
        destruct (IH _ _ _ _ _ _ _ H) as (S' & new & -> & F' & G' & C'). split; [eapply same_trans; eauto|].
        exists (o1 ++ new). rewrite app_assoc. split; [reflexivity|]. split; [|split].
        * rewrite Forall_app. split; [eapply Forall_impl; [|exact F]; intros x (_ & X); exact X|]. eapply Forall_impl; [|exact F']. intros x X.
          destruct S as (S1 & S2 & S3). rewrite S1 in X. eapply made_same; [|exact X]. repeat split; assumption.
        * rewrite Forall_app. split; [eapply Forall_impl; [|exact F]; intros x (X & _); exists gw; split; [left; reflexivity|rewrite X; exact Eid]|].
          eapply Forall_impl; [|exact G']. intros x (i & X & Y). exists i. split; [right; exact X|exact Y].
        * intros Cn j gw' id' X Y Z b m Eb Sb. apply in_or_app. destruct j as [|j].
          -- injection X as <-. rewrite Eid in Y. injection Y as <-. rewrite Nat.add_0_r in *. left. rewrite (C Z _ _ Eb Sb). left. reflexivity.
          -- right. destruct S as (S1 & S2 & S3). rewrite <- Nat.add_succ_comm in *. cbn [nth_error] in X. eapply C'; eauto; rewrite ?S1, ?S2, ?S3; eauto.
      + apply ret_inj in H. injection H as <- <- <- <-. split; [repeat split|]. exists []. rewrite app_nil_r. split; [reflexivity|]. split; [constructor|]. split; [constructor|]. discriminate.
  Qed.

  Lemma publish_near_made e os cids : forall n p out code p' out', publish_near e n p os cids out = Ret (code, p', out') ->
    same_as p p' /\ exists new, out' = out ++ new /\
    Forall (made_with p (EncodeProviderPublishDHTOfferRequest version supported (p_id p) 1 (Some os))) new /\
    (code = None -> forall c t, cids = c :: t -> exists gws reg, GetGatewaysNearCID info (p_reg p) (Some c) 16 None = Ret (OkR gws, reg) /\
       forall j gw id, nth_error (map snd gws) j = Some gw -> NewNodeIDFromHexString (n_id gw) = OkR id -> pe_conn e (n + j)%nat id = true ->
       forall b m, EncodeProviderPublishDHTOfferRequest version supported (p_id p) 1 (Some os) = Ret b ->
       SignWith ec_sign blake (p_key p) (p_ver p) b = Ret (true, m) -> In (id, m, pe_net e (n + j)%nat id m) new).
  Proof.
    induction cids as [|c t IH]; intros n p out code p' out' H; cbn [Provider.publish_near] in H.
    - apply ret_inj in H. injection H as <- <- <-. split; [repeat split|]. exists []. rewrite app_nil_r. split; [reflexivity|]. split; [constructor|]. discriminate.
    - step H. destruct v as [near reg]. cbn [fst snd] in H. destruct near as [gws|].
      2:{ apply ret_inj in H. injection H as <- <- <-. split; [repeat split|]. exists []. rewrite app_nil_r. split; [reflexivity|]. split; [constructor|]. discriminate. }
      step H. destruct v as [[[cd p1] o1] n1]. destruct (publish_to_made _ _ _ _ _ _ _ _ _ _ E0) as (S & new & -> & F & _ & C). cbn [p_with_reg p_id p_key p_ver] in *.
      assert (F0 : Forall (made_with p (EncodeProviderPublishDHTOfferRequest version supported (p_id p) 1 (Some os))) new) by exact F.
      destruct cd as [cd|].
      + apply ret_inj in H. injection H as <- <- <-. split; [exact S|]. exists new. split; [reflexivity|]. split; [exact F0|discriminate].
      + destruct (IH _ _ _ _ _ _ H) as (S' & new' & -> & F' & _). split; [eapply same_trans; eauto; exact S|]. exists (new ++ new'). rewrite app_assoc. split; [reflexivity|].
        split.
        * rewrite Forall_app. split; [exact F0|]. eapply Forall_impl; [|exact F']. intros x X. destruct S as (S1 & S2 & S3). rewrite S1 in X. eapply made_same; [|exact X]. repeat split; assumption.
        * intros Cn c' t' [= <- <-]. exists gws, reg. split; [exact E|]. intros j gw id X Y Z b m Eb Sb. apply in_or_app. left. eapply C; eauto.
  Qed.

  Lemma publish_group_to_made e o gws : forall n p out code p' out', publish_group_to e n p o gws out = Ret (code, p', out') ->
    same_as p p' /\ exists new, out' = out ++ new /\
    Forall (made_with p (EncodeProviderPublishGroupOfferRequest version supported (p_id p) 1 (Some o))) new /\
    (code = None -> forall j gw id, nth_error gws j = Some gw -> NewNodeIDFromHexString (n_id gw) = OkR id -> pe_conn e (n + j)%nat id = true ->
       forall b m, EncodeProviderPublishGroupOfferRequest version supported (p_id p) 1 (Some o) = Ret b ->
       SignWith ec_sign blake (p_key p) (p_ver p) b = Ret (true, m) -> In (id, m, pe_net e (n + j)%nat id m) new).
  Proof.
    induction gws as [|gw t IH]; intros n p out code p' out' H; cbn [Provider.publish_group_to] in H.
    - apply ret_inj in H. injection H as <- <- <-. split; [repeat split|]. exists []. rewrite app_nil_r. split; [reflexivity|]. split; [constructor|].
      intros _ [|j] gw id X; discriminate.
    - destruct (NewNodeIDFromHexString (n_id gw)) as [id|] eqn:Eid.
      + step H. destruct v as [p1 o1]. cbn [fst snd] in H. destruct (group_made _ _ _ _ _ _ _ E) as (S & F & C).
        destruct (IH _ _ _ _ _ _ H) as (S' & new & -> & F' & C'). split; [eapply same_trans; eauto|].
        exists (o1 ++ new). rewrite app_assoc. split; [reflexivity|]. split.
        * rewrite Forall_app. split; [eapply Forall_impl; [|exact F]; intros x (_ & X); exact X|]. eapply Forall_impl; [|exact F']. intros x X.
          destruct S as (S1 & S2 & S3). rewrite S1 in X. eapply made_same; [|exact X]. repeat split; assumption.
        * intros Cn j gw' id' X Y Z b m Eb Sb. apply in_or_app. destruct j as [|j].
          -- injection X as <-. rewrite Eid in Y. injection Y as <-. rewrite Nat.add_0_r in *. left. rewrite (C Z _ _ Eb Sb). left. reflexivity.
          -- right. destruct S as (S1 & S2 & S3). rewrite <- Nat.add_succ_comm in *. cbn [nth_error] in X. eapply C'; eauto; rewrite ?S1, ?S2, ?S3; eauto.
      + apply ret_inj in H. injection H as <- <- <-. split; [repeat split|]. exists []. rewrite app_nil_r. split; [reflexivity|]. split; [constructor|]. discriminate.
  Qed.

  (** ** Where the stored offers come from *)
  Lemma described_nth p : forall cids price expiry qos os, described p cids price expiry qos os -> length os = length cids /\
    forall i o, nth_error os i = Some o -> exists c pr ex q,
      nth_error cids i = Some c /\ nth_error price i = Some pr /\ nth_error expiry i = Some ex /\ nth_error qos i = Some q /\ made_by p [c] pr ex q o.
  Proof.
    intros cids price expiry qos os D. induction D as [|c cids pr price ex expiry q qos o' os M D [L IH]]; [split; [reflexivity|intros [|i]; discriminate]|].
    split; [cbn; congruence|]. intros [|i] o N; [|apply IH, N]. injection N as <-. exists c, pr, ex, q. auto.
  Qed.
  Lemma described_ordered s cids price expiry qos os : s_kind s = AdminPublishDHT -> cids <> [] ->
    DecodeProviderAdminPublishDHTOfferRequest sha256 (s_msg s) = Ret (OkR (cids, price, expiry, qos)) ->
    described (s_before s) cids (values price) (values expiry) (values qos) os -> ordered_batch s os.
  Proof.
    intros K Ne D De. destruct (described_nth _ _ _ _ _ _ De) as [L N]. inversion De as [|c cids' pr price' ex expiry' q qos' o os' M De']; subst; [congruence|].
    destruct price as [price|]; [|discriminate]. destruct expiry as [expiry|]; [|discriminate]. destruct qos as [qos|]; [|discriminate].
    eexists _, price, expiry, qos. split; [exact K|]. split; [exact D|]. split; [exact L|exact N].
  Qed.

  (** The offers single pointers lead to. *)
  Definition ptr_in (s : storage) (q : nat) : Prop := exists k m d, In (k, m) s /\ In (d, q) m.
  Definition singles (p : provider) : Prop := forall q, ptr_in (dhtOffers (p_offers p)) q -> exists o, nth_error (p_heap p) q = Some o /\ one o.
  Definition pointed (h : list offer) (s : storage) : Prop := forall q, ptr_in s q -> exists o, nth_error h q = Some o /\ one o.

  Lemma in_aset {V} (m : list (bytes * V)) k v x : In x (aset bytes_eqb m k v) -> x = (k, v) \/ In x m.
  Proof.
    induction m as [|[k' v'] t IH]; cbn [aset]; [intros [<-|[]]; auto|]. destruct (bytes_eqb k k') eqn:E.
    - intros [<-|I]; [left; reflexivity|right; right; exact I].
    - intros [<-|I]; [right; left; reflexivity|]. destruct (IH I); [auto|right; right; assumption].
  Qed.
  Lemma in_adel {V} (m : list (bytes * V)) k x : In x (adel bytes_eqb m k) -> In x m.
  Proof. induction m as [|[k' v'] t IH]; cbn [adel]; [auto|]. destruct (bytes_eqb k k'); intros H; [right; auto|destruct H as [<-|H]; [left; reflexivity|right; auto]]. Qed.
  Lemma aget_in {V} (m : list (bytes * V)) k v : aget bytes_eqb m k = Some v -> exists k', In (k', v) m.
  Proof.
    induction m as [|[k' v'] t IH]; cbn [aget]; [discriminate|]. destruct (bytes_eqb k k'); [intros [= <-]; exists k'; left; reflexivity|].
    intros H. destruct (IH H) as (x & X). exists x. right. exact X.
  Qed.

  Lemma put_ptr cids d p : forall s q, ptr_in (put s cids d p) q -> ptr_in s q \/ q = p.
  Proof.
    induction cids as [|c t IH]; intros s q H; cbn [put] in H; [auto|]. apply IH in H. destruct H as [(k & m & d' & A & B)|H]; [|auto].
    apply in_aset in A. destruct A as [[= -> ->]|A]; [|left; exists k, m, d'; auto]. apply in_aset in B. destruct B as [[= -> ->]|B]; [auto|].
    destruct (aget bytes_eqb s (ToString c)) as [m0|] eqn:G; [|destruct B]. apply aget_in in G. destruct G as (k' & G). left. exists k', m0, d'. auto.
  Qed.
  Lemma forget_ptr cids d : forall s s' q, forget s cids d = Ret s' -> ptr_in s' q -> ptr_in s q.
  Proof.
    induction cids as [|c t IH]; intros s s' q H P; cbn [forget] in H; [apply ret_inj in H; subst; exact P|].
    destruct (aget bytes_eqb s (ToString c)) as [m0|] eqn:G; [|discriminate]. apply (IH _ _ _ H) in P. destruct P as (k & m & d' & A & B).
    apply in_aset in A. destruct A as [[= -> ->]|A]; [|exists k, m, d'; auto]. apply in_adel in B. apply aget_in in G. destruct G as (k' & G). exists k', m0, d'. auto.
  Qed.
  Lemma purge_ptr os : forall s s' q, purge sha512_256 s os = Ret s' -> ptr_in s' q -> ptr_in s q.
  Proof.
    induction os as [|o t IH]; intros s s' q H P; cbn [purge] in H; [apply ret_inj in H; subst; exact P|].
    step H. step H. eapply forget_ptr; eauto.
  Qed.
  Lemma get_ptr order now h s c os s' q : store_get sha512_256 order now h s c = Ret (os, s') -> ptr_in s' q -> ptr_in s q.
  Proof.
    unfold store_get. intros H P. destruct (aget bytes_eqb s (ToString c)); [|apply ret_inj in H; injection H as <- <-; exact P].
    step H. step H. apply ret_inj in H. injection H as <- <-. eapply purge_ptr; eauto.
  Qed.
  Lemma get_one order now h s c os s' : shuffle order -> pointed h s -> store_get sha512_256 order now h s c = Ret (os, s') -> Forall one os.
  Proof.
    unfold store_get. intros Sh P H. destruct (aget bytes_eqb s (ToString c)) as [m|] eqn:G; [|apply ret_inj in H; injection H as <- <-; constructor].
    step H. step H. apply ret_inj in H. injection H as <- <-.
    assert (L : forall m', (forall x, In x m' -> In x m) -> forall os, load_offers h m' = Ret os -> Forall one os).
    { induction m' as [|[d q] t IH]; intros Sub os L; cbn [load_offers] in L; [apply ret_inj in L; subst; constructor|].
      step L. step L. apply ret_inj in L. subst os. constructor; [|eapply IH; eauto; intros x X; apply Sub; right; exact X].
      apply aget_in in G. destruct G as (k' & G). destruct (P q) as (o & N & O); [exists k', m, d; split; [exact G|apply Sub; left; reflexivity]|].
      unfold cell in E1. rewrite N in E1. apply ret_inj in E1. subst. exact O. }
    specialize (L (order m)). rewrite Forall_forall. intros o Io. apply filter_In in Io. destruct Io as [Io _].
    assert (F : Forall one v) by (eapply L; eauto; intros x X; eapply Permutation_in; [apply Permutation_sym, Sh|exact X]).
    rewrite Forall_forall in F. auto.
  Qed.
  Lemma take_one max new : forall acc r b, Forall one acc -> Forall one new -> take_offers max acc new = (r, b) -> Forall one r.
  Proof.
    induction new as [|o t IH]; intros acc r b A N H; cbn [take_offers] in H; [injection H as <- <-; exact A|].
    inversion N; subst. assert (F : Forall one (acc ++ [o])) by (rewrite Forall_app; auto).
    destruct (max <=? Z.of_nat (length (acc ++ [o]))); [injection H as <- <-; exact F|eapply IH; eauto].
  Qed.
  Lemma collect_one order now h max es : shuffle order -> forall s acc r f s', pointed h s -> Forall one acc ->
    collect sha512_256 order now h max es s acc = Ret (r, f, s') -> Forall one r /\ (f = true -> r <> []) /\ (Forall (fun e => NewNodeIDFromHexString e <> ErrR) es -> f = negb (is_nil r)) /\ pointed h s'.
  Proof.
    intros Sh. induction es as [|e t IH]; intros s acc r f s' P A H; cbn [collect] in H.
    - apply ret_inj in H. injection H as <- <- <-. split; [exact A|]. split; [destruct acc; discriminate|]. split; auto.
    - destruct (NewNodeIDFromHexString e) as [c|] eqn:En.
      2:{ apply ret_inj in H. injection H as <- <- <-. split; [exact A|]. split; [discriminate|]. split; [|exact P]. intros F. inversion F. congruence. }
      step H. destruct v as [os s1]. cbn [fst snd] in H. pose proof (get_one _ _ _ _ _ _ _ Sh P E) as O.
      assert (P1 : pointed h s1) by (intros q Q; apply P; eapply get_ptr; eauto).
      destruct (take_offers max acc os) as [acc' full] eqn:T. pose proof (take_one _ _ _ _ _ A O T) as A'.
      destruct full.
      + apply ret_inj in H. injection H as <- <- <-. split; [exact A'|]. split; [destruct acc'; discriminate|]. split; auto.
      + destruct (IH _ _ _ _ _ P1 A' H) as (X & Y & Z & W). split; [exact X|]. split; [exact Y|]. split; [|exact W]. intros F. inversion F. auto.
  Qed.
  Lemma range_one order now h m lo hi max r f m' : shuffle order -> pointed h (dhtOffers m) ->
    GetDHTOffersWithinRange sha512_256 order now h m lo hi max = Ret (r, f, m') -> Forall one r /\ (f = true -> r <> []) /\ pointed h (dhtOffers m').
  Proof.
    unfold GetDHTOffersWithinRange. intros Sh P H. step H. destruct v as [[es|] rg].
    - step H. destruct v as [[r1 f1] s1]. apply ret_inj in H. injection H as <- <- <-. destruct (collect_one _ _ _ _ _ Sh _ _ _ _ _ P (Forall_nil _) E0) as (A & B & _ & C). auto.
    - apply ret_inj in H. injection H as <- <- <-. split; [constructor|]. split; [discriminate|exact P].
  Qed.

  Lemma nth_set_nth {A} (l : list A) : forall i x j y, nth_error (set_nth l i x) j = Some y -> j = i /\ y = x \/ nth_error l j = Some y.
  Proof.
    induction l as [|a t IH]; intros [|i] x [|j] y H; cbn [set_nth nth_error] in *; try discriminate; auto.
    - injection H as <-. auto.
    - destruct (IH _ _ _ _ H) as [[-> ->]|X]; auto.
  Qed.
  Lemma set_nth_some {A} (l : list A) : forall i x j y, nth_error l j = Some y -> exists z, nth_error (set_nth l i x) j = Some z /\ (z = x \/ z = y).
  Proof.
    induction l as [|a t IH]; intros [|i] x [|j] y H; cbn [set_nth nth_error] in *; try discriminate; eauto.
  Qed.
  Lemma set_nth_at {A} (l : list A) : forall i x, (i < length l)%nat -> nth_error (set_nth l i x) i = Some x.
  Proof. induction l as [|a t IH]; intros [|i] x H; cbn [set_nth nth_error length] in *; try lia; [reflexivity|apply IH; lia]. Qed.

  Lemma add_ptr now h m q x m' : nth_error h q <> None -> AddDHTOffer sha512_256 now h m q = Ret (x, m') ->
    forall r, ptr_in (dhtOffers m') r -> ptr_in (dhtOffers m) r \/ r = q.
  Proof.
    unfold AddDHTOffer. intros N H r R. step H. destruct (o_cids v) as [|c [|]]; try (apply ret_inj in H; injection H as <- <-; auto; fail).
    step H. step H. destruct v1 as [y s]. apply ret_inj in H. injection H as <- <-. cbn [fst snd dhtOffers] in R.
    unfold store_add in E1. step E1. destruct (o_cids v1) as [|c1 t1]; [apply ret_inj in E1; injection E1 as <- <-; auto|].
    step E1. step E1; [apply ret_inj in E1; injection E1 as <- <-; auto|]. step E1; apply ret_inj in E1; injection E1 as <- <-; auto.
    apply (put_ptr (c1 :: t1) v2 q). exact R.
  Qed.
  Lemma publish_loop_pointed now os : forall h m q h' m', (q < length h)%nat -> Forall one os -> pointed h (dhtOffers m) ->
    publish_loop sha512_256 now h m q os = Ret (h', m') -> pointed h' (dhtOffers m').
  Proof.
    induction os as [|o t IH]; intros h m q h' m' L O P H; cbn [publish_loop] in H; [apply ret_inj in H; injection H as <- <-; exact P|].
    inversion O; subst. step H. destruct v as [x m1]. cbn [snd] in H.
    assert (At : nth_error (set_nth h q o) q = Some o) by (apply set_nth_at, L).
    eapply IH; [| |..|exact H]; auto; [rewrite set_nth_length; exact L|].
    intros r R. apply (add_ptr _ _ _ _ _ _ (ltac:(rewrite At; discriminate)) E) in R. destruct R as [R| ->]; [|exists o; auto].
    destruct (P r R) as (y & Y & Z). destruct (set_nth_some _ q o _ _ Y) as (z & W & [->| ->]); eauto.
  Qed.
  Lemma publish_offers_pointed now h m os h' m' : Forall one os -> pointed h (dhtOffers m) ->
    publish_offers sha512_256 now h m os = Ret (h', m') -> pointed h' (dhtOffers m').
  Proof.
    unfold publish_offers. intros O P H. destruct os as [|o t]; [apply ret_inj in H; injection H as <- <-; exact P|].
    eapply publish_loop_pointed; [| | |exact H]; [rewrite app_length; cbn; lia|exact O|].
    intros q Q. destruct (P q Q) as (y & Y & Z). exists y. split; [|exact Z]. rewrite nth_error_app1; [exact Y|]. apply nth_error_Some. congruence.
  Qed.
  Lemma group_pointed now h m o x m' : pointed h (dhtOffers m) -> AddGroupOffer sha512_256 now (h ++ [o]) m (length h) = Ret (x, m') -> pointed (h ++ [o]) (dhtOffers m').
  Proof.
    intros P H q Q. unfold AddGroupOffer in H. step H.
    assert (Q' : ptr_in (dhtOffers m) q) by (step H; [apply ret_inj in H; injection H as <- <-; exact Q|step H; apply ret_inj in H; injection H as <- <-; exact Q]).
    destruct (P q Q') as (y & Y & Z). exists y. split; [|exact Z]. rewrite nth_error_app1; [exact Y|]. apply nth_error_Some. congruence.
  Qed.

  Lemma collect_ptr order now h max es : forall s acc r f s' q, collect sha512_256 order now h max es s acc = Ret (r, f, s') -> ptr_in s' q -> ptr_in s q.
  Proof.
    induction es as [|e t IH]; intros s acc r f s' q H Q; cbn [collect] in H; [apply ret_inj in H; injection H as <- <- <-; exact Q|].
    destruct (NewNodeIDFromHexString e) as [c|]; [|apply ret_inj in H; injection H as <- <- <-; exact Q].
    step H. destruct v as [os s1]. cbn [fst snd] in H. destruct (take_offers max acc os) as [acc' full]. destruct full.
    - apply ret_inj in H. injection H as <- <- <-. eapply get_ptr; eauto.
    - eapply get_ptr; eauto.
  Qed.
  Lemma range_ptr order now h m lo hi max r f m' q : GetDHTOffersWithinRange sha512_256 order now h m lo hi max = Ret (r, f, m') -> ptr_in (dhtOffers m') q -> ptr_in (dhtOffers m) q.
  Proof.
    unfold GetDHTOffersWithinRange. intros H Q. step H. destruct v as [[es|] rg].
    - step H. destruct v as [[r1 f1] s1]. apply ret_inj in H. injection H as <- <- <-. eapply collect_ptr; eauto.
    - apply ret_inj in H. injection H as <- <- <-. exact Q.
  Qed.

  (** A listing asks the store at most once. *)
  Lemma list_dht_store e acks p m p' r : HandleListDHT version supported sha256 sha512_256 pub_of ec_sign ec_verify blake e acks p m = Ret (p', r) ->
    p_heap p' = p_heap p /\ (p_offers p' = p_offers p \/ exists lo hi res f, id32 lo /\ id32 hi /\
      GetDHTOffersWithinRange sha512_256 (pe_digests e) (pe_now e) (p_heap p) (p_offers p) lo hi 500 = Ret (res, f, p_offers p')).
  Proof.
    intros H. unfold HandleListDHT in H. step H. destruct v as [[[[[[[gid lo] hi] x1] x2] x3] x4]|]; [|apply ret_inj in H; injection H as <- <-; auto].
    destruct (list_request_decoded _ _ _ _ _ _ _ _ _ E) as (_ & I1 & I2).
    step H. destruct v as [k p1]. destruct (asked_by_rel _ _ _ _ _ _ _ _ _ E0) as (reg & -> & _). destruct k as [k|]; [|apply ret_inj in H; injection H as <- <-; auto].
    step H. step H. step H. step H. destruct v2 as [[res f] mm]. cbn [p_with_reg p_heap p_offers] in E4.
    assert (L : lo = Some v0) by (destruct lo; [apply ret_inj in E2; congruence|discriminate]). assert (L' : hi = Some v1) by (destruct hi; [apply ret_inj in E3; congruence|discriminate]).
    assert (Q : p_heap p' = p_heap p /\ p_offers p' = mm -> p_heap p' = p_heap p /\ (p_offers p' = p_offers p \/ exists lo hi res f, id32 lo /\ id32 hi /\
      GetDHTOffersWithinRange sha512_256 (pe_digests e) (pe_now e) (p_heap p) (p_offers p) lo hi 500 = Ret (res, f, p_offers p'))).
    { intros [A B]. split; [exact A|]. right. exists v0, v1, res, f. rewrite B. auto. }
    apply Q. clear Q. step H; [discriminate|]. step H. destruct v2 as [msgs|]; [|apply ret_inj in H; injection H as <- <-; auto].
    step H. step H. step H; [apply ret_inj in H; injection H as <- <-; auto|]. step H; [|apply ret_inj in H; injection H as <- <-; auto].
    step H; [apply ret_inj in H; injection H as <- <-; auto|]. step H. step H; [apply ret_inj in H; injection H as <- <-; auto|]. step H. apply ret_inj in H. injection H as <- <-. auto.
  Qed.

  Record step2_rel (s : pstep) : Prop := Step2Rel {
    s2_heap : forall x, In x (p_heap (s_after s)) -> In x (p_heap (s_before s)) \/ ordered s x;
    s2_singles : singles (s_before s) -> singles (s_after s);
    s2_sent : forall id request r, In (id, request, r) (s_sent s) -> own (s_before s) request /\
      ((exists os, lists (s_before s) request os /\ ordered_batch s os) \/
       (exists o, DecodeProviderPublishGroupOfferRequest sha256 request = Ret (OkR (p_id (s_before s), 1, Some o)) /\ ordered_group s o))
  }.

  Lemma idle2 s : p_heap (s_after s) = p_heap (s_before s) -> p_offers (s_after s) = p_offers (s_before s) -> s_sent s = [] -> step2_rel s.
  Proof. intros A B C. split; unfold singles; rewrite ?A, ?B, ?C; auto. intros id request r []. Qed.

  Lemma step2_ok s : ecdsa_correct pub_of ec_sign ec_verify -> versions -> safe_id (s_before s) -> sized1 sha256 (s_msg s) ->
    pact (s_env s) (s_before s) (s_kind s) (s_msg s) = Ret (s_after s, s_answers s, s_sent s) -> step2_rel s.
  Proof.
    intros Law Vs Safe Sz H. destruct s as [p e k m p' ans out]. cbn [s_before s_env s_kind s_msg s_after s_answers s_sent] in *.
    unfold ProviderSpec.pact in H. destruct k.
    - step H. apply ret_inj in H. injection H as <- <- <-.
      destruct (admin_dht_rel _ _ _ _ _ _ _ _ _ _ _ _ Law Safe Sz E) as [(A & B & _)|(cids & price & expiry & qos & os & h & mm & code & D & Ne & De & W & O & L & (pid & Pid & Ipid) & P & N & R & _)].
      + apply idle2; cbn [s_before s_env s_kind s_msg s_after s_answers s_sent]; rewrite ?A, ?B; auto.
      + pose proof (described_ordered (PStep p e AdminPublishDHT m (p_after v) (flat_map (fun a => match a with Json m => [m] | HttpError _ => [] end) (p_wrote v)) (p_sent v)) _ _ _ _ _ eq_refl Ne D De) as Ob.
        destruct R as [(Q1 & Q2 & Q3 & Q4 & Q5 & Q6) _ _ _ _ _ _]. cbn [p_with_store p_heap p_offers] in Q4, Q5.
        split; cbn [s_before s_env s_kind s_msg s_after s_answers s_sent]; unfold singles; rewrite ?Q4, ?Q5.
        * intros x X. destruct (publish_offers_heap _ _ _ _ _ _ _ P x X) as [Y|Y]; [auto|]. right. left. exists os. split; [exact Ob|exact Y].
        * intros S. eapply publish_offers_pointed; eauto.
        * destruct (publish_near_made _ _ _ _ _ _ _ _ _ N) as (_ & new & En & F & _). cbn [app] in En. subst new. rewrite Forall_forall in F.
          intros id request r I. destruct (F _ I) as (b & Eb & Sb). cbn [fst snd p_with_store p_id p_key p_ver] in Eb, Sb.
          split; [eapply sign_own; eauto|]. left. exists os. split; [|exact Ob]. unfold ProviderSpec.lists. rewrite Pid in *.
          assert (X : DecodeProviderPublishDHTOfferRequest sha256 request = Ret (OkR (Some pid, 1, Some os)) /\ m_type request = 302) by (eapply dht_message; first [exact Ipid|exact W|exact O|exact Eb|rewrite L; eapply Sz; eassumption|eapply sign_with_inv; eassumption|assumption]). exact (proj1 X).
    - step H. apply ret_inj in H. injection H as <- <- <-.
      destruct (admin_group_rel _ _ _ _ _ _ _ _ _ _ _ _ Law Safe E) as [(A & B & _)|(cids & price & expiry & qos & o & mm & reg & gws & code & x & D & M & W & (pid & Pid & Ipid) & P & G & N & R & _)].
      + apply idle2; cbn [s_before s_env s_kind s_msg s_after s_answers s_sent]; rewrite ?A, ?B; auto.
      + assert (Og : ordered_group (PStep p e AdminPublishGroup m (p_after v) (flat_map (fun a => match a with Json m => [m] | HttpError _ => [] end) (p_wrote v)) (p_sent v)) o) by (exists cids, price, expiry, qos; auto).
        destruct R as [(Q1 & Q2 & Q3 & Q4 & Q5 & Q6) _ _ _ _ _ _]. cbn [p_with_store p_heap p_offers] in Q4, Q5.
        split; cbn [s_before s_env s_kind s_msg s_after s_answers s_sent]; unfold singles; rewrite ?Q4, ?Q5.
        * intros y Y. apply in_app_or in Y. destruct Y as [Y|[<-|[]]]; [auto|]. right. right. exact Og.
        * intros S. eapply group_pointed; eauto.
        * destruct (publish_group_to_made _ _ _ _ _ _ _ _ _ N) as (_ & new & En & F & _). cbn [app] in En. subst new. rewrite Forall_forall in F.
          intros id request r I. destruct (F _ I) as (b & Eb & Sb). cbn [fst snd p_with_store p_with_reg p_id p_key p_ver] in Eb, Sb.
          split; [eapply sign_own; eauto|]. right. exists o. split; [|exact Og]. rewrite Pid in *.
          assert (X : DecodeProviderPublishGroupOfferRequest sha256 request = Ret (OkR (Some pid, 1, Some o)) /\ m_type request = 300) by (eapply group_message; first [exact Ipid|exact W|exact Eb|eapply sign_with_inv; eassumption|assumption]). exact (proj1 X).
    - step H. apply ret_inj in H. injection H as <- <- <-. unfold HandleAdminGetPublished in E. destruct (p_key p); [|apply ret_inj in E; subst v; apply idle2; auto].
      step E. destruct v0; [|apply ret_inj in E; subst v; apply idle2; auto]. step E. apply p_finish_inv in E. destruct E as (A & B & _).
      apply idle2; cbn [s_before s_env s_kind s_msg s_after s_answers s_sent]; rewrite ?A, ?B; auto.
    - step H. apply ret_inj in H. injection H as <- <- <-. unfold HandleAdminInitialiseKey in E. step E. destruct v0 as [[[id key] ver]|]; [|apply ret_inj in E; subst v; apply idle2; auto].
      step E. step E. apply p_finish_inv in E. destruct E as (A & B & _).
      apply idle2; cbn [s_before s_env s_kind s_msg s_after s_answers s_sent]; rewrite ?A, ?B; auto.
    - step H. apply ret_inj in H. injection H as <- <- <-. unfold HandleAdminInitialiseKeyV2 in E. step E. destruct v0 as [[[[[[id key] ver] x1] x2] x3]|]; [|apply ret_inj in E; subst v; apply idle2; auto].
      step E. step E; [apply ret_inj in E; subst v; apply idle2; auto|]. step E. apply p_finish_inv in E. destruct E as (A & B & _).
      apply idle2; cbn [s_before s_env s_kind s_msg s_after s_answers s_sent]; rewrite ?A, ?B; auto.
    - step H. apply ret_inj in H. injection H as <- <- <-. unfold HandleAdminForceRefresh in E. destruct (p_key p); [|apply ret_inj in E; subst v; apply idle2; auto].
      step E. destruct v0; [|apply ret_inj in E; subst v; apply idle2; auto]. step E. step E. apply p_finish_inv in E. destruct E as (A & B & _).
      apply idle2; cbn [s_before s_env s_kind s_msg s_after s_answers s_sent]; rewrite ?A, ?B; auto.
    - step H. apply ret_inj in H. injection H as <- <- <-. unfold HandleOfferAck in E.
      step E. destruct v0 as [[c gid]|]; [|apply ret_inj in E; subst v; apply idle2; auto]. step E. step E. step E. step E. step E. apply p_finish_inv in E. destruct E as (A & B & _).
      apply idle2; cbn [s_before s_env s_kind s_msg s_after s_answers s_sent]; rewrite ?A, ?B; auto.
    - step H. destruct v as [p1 r]. apply ret_inj in H. injection H as <- <- <-. cbn [fst snd].
      destruct (list_dht_store _ _ _ _ _ _ E) as (A & B). split; cbn [s_before s_env s_kind s_msg s_after s_answers s_sent]; [rewrite A; auto| |intros id request r0 []].
      intros S q Q. rewrite A. apply S. destruct B as [B|(lo & hi & res & f & _ & _ & B)]; [rewrite <- B; exact Q|eapply range_ptr; [exact B|exact Q]].
    - step H. destruct v as [p1 r]. apply ret_inj in H. injection H as <- <- <-. cbn [fst snd]. unfold HandleNotifyGroup in E.
      step E. destruct v as [[gid sup]|]; [|apply ret_inj in E; injection E as <- <-; apply idle2; auto].
      step E. destruct v as [key p2]. destruct (asked_by_rel _ _ _ _ _ _ _ _ _ E1) as (reg & -> & R & _).
      destruct key; [|apply ret_inj in E; injection E as <- <-; apply idle2; auto].
      step E. step E. step E. apply ret_inj in E. injection E as <- <-. apply idle2; auto.
  Qed.

  Lemma life2_ok ss : ecdsa_correct pub_of ec_sign ec_verify -> versions -> forall p p', safe_id p -> sized ss -> lived p ss p' ->
    (forall x, In x (p_heap p') -> In x (p_heap p) \/ exists s, In s ss /\ ordered s x) /\ (singles p -> singles p') /\
    (forall s id request r, In s ss -> In (id, request, r) (s_sent s) -> own (s_before s) request /\
      ((exists os, lists (s_before s) request os /\ ordered_batch s os) \/
       (exists o, DecodeProviderPublishGroupOfferRequest sha256 request = Ret (OkR (p_id (s_before s), 1, Some o)) /\ ordered_group s o))).
  Proof.
    intros Law Vs. induction ss as [|s t IH]; intros p p' Safe Sz H; cbn [ProviderSpec.lived] in H.
    - subst p'. split; [auto|]. split; [auto|]. intros s id request r [].
    - destruct H as ((reg & B) & P & L).
      assert (Sz1 : sized1 sha256 (s_msg s)) by (intros cids price expiry qos D; eapply Sz; [left; reflexivity|exact D]).
      assert (Safe1 : safe_id (s_before s)) by (rewrite B; exact Safe).
      pose proof (step_ok version supported sha256 sha512_256 pub_of ec_sign ec_verify blake s Law Vs Safe1 Sz1 P) as [R1 _ _ _ _ _ _ _].
      destruct (step2_ok s Law Vs Safe1 Sz1 P) as [Q1 Q2 Q3].
      assert (Sz2 : sized t) by (intros s' cids price expiry qos I D; eapply Sz; [right; exact I|exact D]).
      destruct (IH (s_after s) p' R1 Sz2 L) as (A1 & A2 & A3). rewrite B in Q1, Q2. split; [|split].
      + intros x X. destruct (A1 x X) as [Y|(s' & I & Y)]; [|right; exists s'; split; [right; exact I|exact Y]].
        destruct (Q1 x Y) as [Z|Z]; [auto|]. right. exists s. split; [left; reflexivity|exact Z].
      + intros S. apply A2, Q2. exact S.
      + intros s' id request r [<-|I]; [apply Q3|apply A3, I].
  Qed.
End lists.
