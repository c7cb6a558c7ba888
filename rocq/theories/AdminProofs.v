(** * Proofs about the administrators' libraries *)
From Coq Require Import String List ZArith Bool Lia.
From Coq Require Import Init.Byte.
From Verif Require Import Base BaseProofs Ids Crypto CryptoProofs Message MessageProofs Offer OfferProofs Schema SchemaProofs Messages MessagesSpec MessagesProofs WireSpec Register RegisterSpec RegisterProofs
  SqlOffers Rest Routes RoutesProofs Reputation ReputationSpec ReputationProofs Gateway GatewaySpec GatewayProofs GatewayAdmin GatewayAdminProofs Provider ProviderSpec ProviderProofs ProviderListProofs ProviderAckProofs Admin AdminSpec.
From Verif Require Client.
Import ListNotations.
Open Scope Z_scope.
Local Arguments Z.add : simpl never.

Section admin.
  Variable version : Z.
  Variable supported : list Z.
  Variable sha256 sha512_256 : bytes -> bytes.
  Variable pub_of : bytes -> bytes.
  Variable ec_sign : bytes -> bytes -> option bytes.
  Variable ec_verify : bytes -> bytes -> bytes -> bool.
  Variable blake : bytes -> bytes.
  Implicit Types (a : admin) (node : reg) (m r : message).

  Local Notation of_key := (of_key pub_of ec_verify blake).
  Local Notation of_node := (of_node pub_of ec_verify blake).
  Local Notation authority := (authority ec_sign blake).
  Local Notation usable := (usable ec_sign blake).
  Local Notation registered_with := (registered_with pub_of).
  Local Notation asks := (asks sha256).
  Local Notation confirms := (confirms sha256).

  (** ** Signing *)
  Lemma sign_of k v m m' : ecdsa_correct pub_of ec_sign ec_verify -> MessageSign ec_sign blake m k v = (true, m') -> of_key k m' /\ exists s, m' = set_sig m s.
  Proof.
    intros Law H. split.
    - intros pk M. destruct (message_roundtrip_pf pub_of ec_sign ec_verify blake m k v m' pk Law M H) as [V _]. rewrite V. reflexivity.
    - unfold MessageSign in H. destruct (SignMessage _ _ _ _ _) as [s|]; [|discriminate H]. injection H as <-. eexists. reflexivity.
  Qed.
  Lemma sign_can k v m : can_sign ec_sign blake k -> exists m', MessageSign ec_sign blake m k v = (true, m').
  Proof.
    intros [A H]. unfold MessageSign, SignMessage, KeySign. rewrite A. change (Byte.eqb x01 x01) with true. cbv iota.
    destruct (ec_sign _ _) as [raw|] eqn:E; [eauto|exfalso; exact (H _ E)].
  Qed.
  Lemma write_can k v code m : ecdsa_correct pub_of ec_sign ec_verify -> can_sign ec_sign blake k ->
    exists s, SignAndWrite ec_sign blake (Some k) v code m = Ret (Json (set_sig m s)) /\ of_key k (set_sig m s).
  Proof.
    intros Law C. destruct (sign_can k v m C) as (m' & E). destruct (sign_of _ _ _ _ Law E) as (O & s & ->).
    exists s. split; [|exact O]. unfold SignAndWrite, SignWith. cbn [deref obind]. rewrite E. reflexivity.
  Qed.
  Lemma write_json key v code m r : SignAndWrite ec_sign blake key v code m = Ret (Json r) -> exists s, r = set_sig m s.
  Proof.
    unfold SignAndWrite. intros H. step H. apply ret_inj in H. destruct v0 as [ok x]. cbn [fst snd] in H. destruct ok; [|discriminate H]. injection H as <-.
    apply sign_with_inv in E. exact E.
  Qed.
  Lemma of_key_same k k' m : k_priv k = k_priv k' -> of_key k m -> of_key k' m.
  Proof. intros E H pk (A & sk & P & Q). apply H. split; [exact A|]. exists sk. split; [congruence|exact Q]. Qed.

  (** ** The common part of the requesters *)
  Section calls.
    Variable http : gostring -> message -> option message.
    Local Notation contact := (contact pub_of ec_sign ec_verify blake http).
    Local Notation confirmed := (confirmed pub_of ec_sign ec_verify blake http).
    Local Notation use := (use version supported sha256 pub_of ec_sign ec_verify blake http).

    Lemma contact_inv node key ver enc x : contact node key ver enc = Ret x ->
      x = (None, []) \/
      exists k v req s pk, key = Some k /\ ver = Some v /\ enc = Ret (OkR req) /\ MessageSign ec_sign blake req k v = (true, set_sig req s) /\
        DecodePublicKey (Client.r_key node) = Ret (OkR pk) /\ snd x = [(r_admin_ap node, set_sig req s)] /\
        forall r, fst x = Some r -> http (r_admin_ap node) (set_sig req s) = Some r /\ fst (MessageVerify pub_of ec_verify blake r pk) = true.
    Proof.
      unfold Admin.contact. intros H. step H. destruct v as [pk|]; [|left; apply ret_inj in H; symmetry; exact H].
      step H. destruct v as [req|]; [|left; apply ret_inj in H; symmetry; exact H].
      step H. destruct v as [ok m]. cbn [fst snd] in H. destruct ok; cbn [negb] in H; [|left; apply ret_inj in H; symmetry; exact H].
      unfold SignAs in E1. destruct key as [k|]; [|discriminate E1]. cbn [deref obind] in E1.
      destruct ver as [v|]; [|destruct (fst _) in E1; discriminate E1]. apply ret_inj in E1.
      assert (S : exists s, m = set_sig req s). { unfold MessageSign in E1. destruct (SignMessage _ _ _ _ _) as [s|]; [|discriminate E1]. injection E1 as <-. eexists. reflexivity. }
      destruct S as (s & ->). right. exists k, v, req, s, pk. split; [reflexivity|]. split; [reflexivity|]. split; [reflexivity|]. split; [exact E1|].
      split; [exact E|]. destruct (http _ _) as [r|]; apply ret_inj in H; subst x; (split; [reflexivity|]).
      - intros r' R. cbn [fst] in R. rewrite message_verify_state in R. destruct (fst (MessageVerify pub_of ec_verify blake r pk)) eqn:V; [|discriminate R].
        injection R as <-. split; [reflexivity|exact V].
      - intros r' R. discriminate R.
    Qed.
    Lemma confirmed_inv node key ver enc dec ok out : confirmed node key ver enc dec = Ret (ok, out) ->
      out = [] /\ ok = false \/
      exists k v req s pk, key = Some k /\ ver = Some v /\ enc = Ret (OkR req) /\ MessageSign ec_sign blake req k v = (true, set_sig req s) /\
        DecodePublicKey (Client.r_key node) = Ret (OkR pk) /\ out = [(r_admin_ap node, set_sig req s)] /\
        (ok = true -> exists r, http (r_admin_ap node) (set_sig req s) = Some r /\ fst (MessageVerify pub_of ec_verify blake r pk) = true /\ dec r = Ret (OkR true)).
    Proof.
      unfold Admin.confirmed. intros H. step H. destruct (contact_inv _ _ _ _ _ E) as [->|(k & v' & req & s & pk & K & V & Q & S & P & O & R)].
      - apply ret_inj in H. injection H as <- <-. auto.
      - destruct v as [r out']. cbn [fst snd] in O, R. right. exists k, v', req, s, pk. split; [exact K|]. split; [exact V|]. split; [exact Q|]. split; [exact S|]. split; [exact P|].
        destruct r as [r|].
        + step H. apply ret_inj in H. injection H as <- <-. split; [exact O|]. intros T. exists r. destruct (R r eq_refl) as (A & B). split; [exact A|]. split; [exact B|].
          destruct v as [[|]|]; try discriminate T. exact E0.
        + apply ret_inj in H. injection H as <- <-. split; [exact O|discriminate].
    Qed.

    (** What a call sends and when it succeeds. *)
    Definition sent_for (a : admin) (x : call) (ok : bool) (out : list post) : Prop :=
      out = [] /\ ok = false \/
      exists node k v req s pk, target a x = Some node /\ ad_key a = Some k /\ ad_ver a = Some v /\
        MessageSign ec_sign blake req k v = (true, set_sig req s) /\ (in_range x -> asks x req) /\
        DecodePublicKey (Client.r_key node) = Ret (OkR pk) /\ out = [(r_admin_ap node, set_sig req s)] /\
        (ok = true -> exists r, http (r_admin_ap node) (set_sig req s) = Some r /\ fst (MessageVerify pub_of ec_verify blake r pk) = true /\ confirms x r).

    Lemma confirmed_sent a x node enc dec ok out : confirmed node (ad_key a) (ad_ver a) enc dec = Ret (ok, out) -> target a x = Some node ->
      (forall req, enc = Ret (OkR req) -> in_range x -> asks x req) -> (forall r, dec r = Ret (OkR true) -> confirms x r) -> sent_for a x ok out.
    Proof.
      intros H T A C. destruct (confirmed_inv _ _ _ _ _ _ _ H) as [L|(k & v & req & s & pk & K & V & Q & S & P & O & R)]; [left; exact L|].
      right. exists node, k, v, req, s, pk. split; [exact T|]. split; [exact K|]. split; [exact V|]. split; [exact S|]. split; [exact (A _ Q)|]. split; [exact P|]. split; [exact O|].
      intros B. destruct (R B) as (r & X & Y & Z). exists r. auto.
    Qed.
    Lemma put_inv a node o x : put_in_use a node o = Ret x -> exists ok out, o = Ret (ok, out) /\ x = (ok, if ok then with_node a node else a, out).
    Proof. unfold put_in_use. intros H. step H. apply ret_inj in H. subst x. destruct v. eauto. Qed.
    Lemma for_node_ok node f req : for_node node f = Ret (OkR req) -> exists id, NewNodeIDFromHexString (r_id node) = OkR id /\ f (Some id) = Ret req.
    Proof.
      unfold for_node. destruct (NewNodeIDFromHexString (r_id node)) as [id|]; [|discriminate]. unfold plainly. intros H. step H. apply ret_inj in H. injection H as <-. eauto.
    Qed.
    Lemma plainly_ok o req : plainly o = Ret (OkR req) -> o = Ret req.
    Proof. unfold plainly. intros H. step H. apply ret_inj in H. injection H as <-. reflexivity. Qed.
    Lemma used_inv {A} a id fail (f : reg -> outcome (A * list post)) x : with_used a id fail f = Ret x ->
      exists i, id = Some i /\ match aget bytes_eqb (ad_nodes a) (ToString i) with Some node => f node = Ret x | None => x = (fail, []) end.
    Proof.
      unfold with_used, id_text. intros H. destruct id as [i|]; [|discriminate H]. cbn [deref obind] in H. exists i. split; [reflexivity|].
      destruct (aget _ _ _); [exact H|apply ret_inj in H; symmetry; exact H].
    Qed.

    (** Encodings of keys do not depend on a cached public half. *)
    Lemma encode_private k p : k_alg k = x01 -> k_priv k = Some p -> EncodePrivateKey k = EncodePrivateKey (KeyPair (Some p) None x01).
    Proof. intros A P. unfold EncodePrivateKey. rewrite A, P. reflexivity. Qed.

    Ltac used H := apply used_inv in H; destruct H as (i & -> & H).
    Lemma flag_inv (o : outcome (bool * list post)) a ok a' out : (let* y := o in Ret (fst y, a, snd y))%go = Ret (ok, a', out) -> o = Ret (ok, out) /\ a' = a.
    Proof. intros H. step H. apply ret_inj in H. injection H as <- <- <-. destruct v. auto. Qed.
    Lemma value_inv {A} (o : outcome (result A * list post)) a ok a' out :
      (let* y := o in Ret (match fst y with OkR _ => true | ErrR => false end, a, snd y))%go = Ret (ok, a', out) ->
      exists v, o = Ret (v, out) /\ a' = a /\ ok = match v with OkR _ => true | ErrR => false end.
    Proof. intros H. step H. apply ret_inj in H. injection H as <- <- <-. destruct v as [v o']. exists v. auto. Qed.

    Lemma asked_key {B} (mk : option keypair -> option Z -> B) (enc : option keypair -> option Z -> outcome message) dec :
      (forall p vv, length p = 32%nat -> uint32 vv -> exists m, enc (Some (KeyPair (Some p) None x01)) (Some vv) = Ret m /\
        dec m = Ret (OkR (mk (Some (KeyPair (Some p) None x01)) (Some vv)))) ->
      (forall k1 k2 vv, EncodePrivateKey k1 = EncodePrivateKey k2 -> enc (Some k1) vv = enc (Some k2) vv) ->
      (forall vv m, enc None vv <> Ret m) -> (forall kk m, enc kk None <> Ret m) ->
      forall k v req, each_of private k -> each_of uint32 v -> enc k v = Ret req ->
      exists kk vv, k = Some kk /\ v = Some vv /\ dec req = Ret (OkR (mk (Some (KeyPair (k_priv kk) None (k_alg kk))) (Some vv))).
    Proof using.
      intros Rt Same N1 N2 k v req Pk Uv E. destruct k as [kk|]; [|exfalso; exact (N1 _ _ E)]. destruct v as [vv|]; [|exfalso; exact (N2 _ _ E)].
      exists kk, vv. split; [reflexivity|]. split; [reflexivity|]. destruct Pk as (Al & p & P & L). destruct (Rt p vv L Uv) as (m & Em & D).
      rewrite (Same kk (KeyPair (Some p) None x01)) in E by (apply encode_private; assumption). rewrite Em in E. apply ret_inj in E. subst m. rewrite P, Al. exact D.
    Qed.
    Ltac ask_key rt Pk Uv E :=
      match type of E with ?f ?v ?s (Some ?id) ?k ?vv = _ =>
        refine (asked_key (fun kk vv => (Some id, kk, vv)) (f v s (Some id)) _ _ _ _ _ k vv _ Pk Uv E);
          [intros p0 v0 L0 U0; destruct (rt version supported sha256 id p0 v0) as (m0 & A0 & _ & B0); [eapply hex_id32; eassumption|exact L0|exact U0|]; eauto
          |intros k1 k2 [w|] Q; [|reflexivity]; unfold f, id_text; cbn [deref obind]; rewrite Q; reflexivity
          |intros w m0 Q; discriminate Q|intros [w|] m0 Q; discriminate Q]
      end.
    Ltac ask_key2 rt Pk Uv E :=
      match type of E with ?f ?v ?s (Some ?id) ?k ?vv ?w ?ap ?t = _ =>
        refine (asked_key (fun kk vv => (Some id, kk, vv, w, ap, t)) (fun k vv => f v s (Some id) k vv w ap t) _ _ _ _ _ k vv _ Pk Uv E);
          [intros p0 v0 L0 U0; destruct (rt version supported sha256 id p0 v0 w ap t) as (m0 & A0 & _ & B0); [eapply hex_id32; eassumption|exact L0|exact U0|]; eauto
          |intros k1 k2 [x|] Q; [|reflexivity]; unfold f, id_text; cbn [deref obind]; rewrite Q; reflexivity
          |intros x m0 Q; discriminate Q|intros [x|] m0 Q; discriminate Q]
      end.

    Lemma use_inv a x ok a' out : use a x = Ret (ok, a', out) ->
      sent_for a x ok out /\ a' = match puts x with Some node => if ok then with_node a node else a | None => a end.
    Proof.
      destruct x; cbn [AdminSpec.use]; intros H.
      - (* GInit *) apply put_inv in H. destruct H as (o & u & H & Q). injection Q as -> -> ->. split; [|reflexivity].
        eapply confirmed_sent; [exact H|reflexivity| |intros r R; exact R].
        intros req E (Pk & Uv). apply for_node_ok in E. destruct E as (id & N & E). 
        assert (X : exists kk vv, k = Some kk /\ v = Some vv /\ DecodeGatewayAdminInitialiseKeyRequest sha256 req = Ret (OkR (Some id, Some (KeyPair (k_priv kk) None (k_alg kk)), Some vv))) by ask_key rt_GatewayAdminInitialiseKeyRequest Pk Uv E.
        destruct X as (kk & vv & A & B & C). exists id, kk, vv. auto.
      - (* GInitV2 *) apply put_inv in H. destruct H as (o & u & H & Q). injection Q as -> -> ->. split; [|reflexivity].
        eapply confirmed_sent; [exact H|reflexivity| |intros r R; exact R].
        intros req E (Pk & Uv). apply for_node_ok in E. destruct E as (id & N & E). 
        assert (X : exists kk vv, k = Some kk /\ v = Some vv /\ DecodeGatewayAdminInitialiseKeyRequestV2 sha256 req = Ret (OkR (Some id, Some (KeyPair (k_priv kk) None (k_alg kk)), Some vv, wallet, ap, token))) by ask_key2 rt_GatewayAdminInitialiseKeyRequestV2 Pk Uv E.
        destruct X as (kk & vv & A & B & C). exists id, kk, vv. auto.
      - (* GSupport *) apply put_inv in H. destruct H as (o & u & H & Q). injection Q as -> -> ->. split; [|reflexivity].
        eapply confirmed_sent; [exact H|reflexivity| |intros r R; exact R].
        intros req E Fp. apply for_node_ok in E. destruct E as (id & N & E). exists id. split; [exact N|].
        destruct (rt_UpdateGatewayGroupCIDOfferSupportRequest version supported sha256 id providers) as (m0 & A & _ & D); [eapply hex_id32; exact N|exact Fp|].
        rewrite A in E. apply ret_inj in E. subst m0. exact D.
      - (* GUpdate *) apply flag_inv in H. destruct H as (H & ->). split; [|reflexivity].
        used H. destruct (aget bytes_eqb (ad_nodes a) (ToString i)) as [node|] eqn:G; [|injection H as -> ->; left; auto].
        eapply confirmed_sent; [exact H|exact G| |intros r R; exact R].
        intros req E _. apply plainly_ok in E. destruct (rt_GatewayAdminForceRefreshRequest version supported sha256 true) as (m0 & A & _ & D). rewrite A in E. apply ret_inj in E. subst m0. exact D.
      - (* GList *) apply flag_inv in H. destruct H as (H & ->). split; [|reflexivity].
        used H. destruct (aget bytes_eqb (ad_nodes a) (ToString i)) as [node|] eqn:G; [|injection H as -> ->; left; auto].
        eapply confirmed_sent; [exact H|exact G| |intros r R; exact R].
        intros req E _. apply plainly_ok in E. destruct (rt_GatewayAdminListDHTOfferRequest version supported sha256 true) as (m0 & A & _ & D). rewrite A in E. apply ret_inj in E. subst m0. exact D.
      - (* GSetReputation *) apply flag_inv in H. destruct H as (H & ->). split; [|reflexivity].
        unfold RequestSetReputation in H. step H. destruct (contact_inv _ _ _ _ _ E) as [->|(k & vv & req & s & pk & K & V & Q & S & P & O & R)].
        { apply ret_inj in H. injection H as <- <-. left. auto. }
        destruct v0 as [r out']. cbn [fst snd] in O, R. right. exists node, k, vv, req, s, pk. split; [reflexivity|]. split; [exact K|]. split; [exact V|]. split; [exact S|]. split.
        { intros (Ic & Iv). apply plainly_ok in Q. destruct c as [c|]; [|discriminate Q]. 
          destruct (rt_GatewayAdminSetReputationRequest version supported sha256 c v Ic Iv) as (m0 & A & _ & D). rewrite A in Q. apply ret_inj in Q. subst m0. exact D. }
        split; [exact P|]. destruct r as [r|]; [|apply ret_inj in H; injection H as <- <-; split; [exact O|discriminate]].
        step H. destruct v0 as [[[t rn] ex]|]; [|apply ret_inj in H; injection H as <- <-; split; [exact O|discriminate]].
        destruct t as [t|]; [|discriminate H]. cbn [deref obind] in H. destruct c as [c|]; [|discriminate H]. cbn [deref obind] in H.
        apply ret_inj in H. injection H as <- <-. split; [exact O|]. intros T. exists r. destruct (R r eq_refl) as (A & B). split; [exact A|]. split; [exact B|].
        apply andb_true_iff in T. destruct T as (T & T3). apply andb_true_iff in T. destruct T as (T1 & ->). apply bytes_eqb_eq in T1. apply Z.eqb_eq in T3. subst rn.
        exists t, c. split; [reflexivity|]. split; [exact T1|]. assumption.
      - (* GGetReputation *) apply value_inv in H. destruct H as (val & H & -> & ->). split; [|reflexivity].
        unfold RequestGetReputation in H. step H. destruct (contact_inv _ _ _ _ _ E) as [->|(k & vv & req & s & pk & K & V & Q & S & P & O & R)].
        { apply ret_inj in H. injection H as <- <-. left. auto. }
        destruct v as [r out']. cbn [fst snd] in O, R. right. exists node, k, vv, req, s, pk. split; [reflexivity|]. split; [exact K|]. split; [exact V|]. split; [exact S|]. split.
        { intros Ic. apply plainly_ok in Q. destruct c as [c|]; [|discriminate Q]. 
          destruct (rt_GatewayAdminGetReputationRequest version supported sha256 c Ic) as (m0 & A & _ & D). rewrite A in Q. apply ret_inj in Q. subst m0. exact D. }
        split; [exact P|]. destruct r as [r|]; [|apply ret_inj in H; injection H as <- <-; split; [exact O|discriminate]].
        step H. destruct v as [[[t rn] ex]|]; [|apply ret_inj in H; injection H as <- <-; split; [exact O|discriminate]].
        destruct t as [t|]; [|discriminate H]. cbn [deref obind] in H. destruct c as [c|]; [|discriminate H]. cbn [deref obind] in H.
        apply ret_inj in H. injection H as <- <-. split; [exact O|]. intros T. exists r. destruct (R r eq_refl) as (A & B). split; [exact A|]. split; [exact B|].
        destruct (bytes_eqb (ToString t) (ToString c) && ex) eqn:TT; [|discriminate T]. apply andb_true_iff in TT. destruct TT as (T1 & ->). apply bytes_eqb_eq in T1.
        exists t, c, rn. split; [reflexivity|]. split; [exact T1|]. assumption.
      - (* PInit *) apply put_inv in H. destruct H as (o & u & H & Q). injection Q as -> -> ->. split; [|reflexivity].
        eapply confirmed_sent; [exact H|reflexivity| |intros r R; exact R].
        intros req E (Pk & Uv). apply for_node_ok in E. destruct E as (id & N & E). 
        assert (X : exists kk vv, k = Some kk /\ v = Some vv /\ DecodeProviderAdminInitialiseKeyRequest sha256 req = Ret (OkR (Some id, Some (KeyPair (k_priv kk) None (k_alg kk)), Some vv))) by ask_key rt_ProviderAdminInitialiseKeyRequest Pk Uv E.
        destruct X as (kk & vv & A & B & C). exists id, kk, vv. auto.
      - (* PInitV2 *) apply put_inv in H. destruct H as (o & u & H & Q). injection Q as -> -> ->. split; [|reflexivity].
        eapply confirmed_sent; [exact H|reflexivity| |intros r R; exact R].
        intros req E (Pk & Uv). apply for_node_ok in E. destruct E as (id & N & E). 
        assert (X : exists kk vv, k = Some kk /\ v = Some vv /\ DecodeProviderAdminInitialiseKeyRequestV2 sha256 req = Ret (OkR (Some id, Some (KeyPair (k_priv kk) None (k_alg kk)), Some vv, wallet, ap, token))) by ask_key2 rt_ProviderAdminInitialiseKeyRequestV2 Pk Uv E.
        destruct X as (kk & vv & A & B & C). exists id, kk, vv. auto.
      - (* PPublishGroup *) apply flag_inv in H. destruct H as (H & ->). split; [|reflexivity].
        used H. destruct (aget bytes_eqb (ad_nodes a) (ToString i)) as [node|] eqn:G; [|injection H as -> ->; left; auto].
        eapply confirmed_sent; [exact H|exact G| |intros r R; exact R].
        intros req E (R1 & R2 & R3 & R4). apply plainly_ok in E. destruct (rt_ProviderAdminPublishGroupOfferRequest version supported sha256 cids price expiry qos R1 R2 R3 R4) as (m0 & A & _ & D). rewrite A in E. apply ret_inj in E. subst m0. exact D.
      - (* PPublishDHT *) apply flag_inv in H. destruct H as (H & ->). split; [|reflexivity].
        used H. destruct (aget bytes_eqb (ad_nodes a) (ToString i)) as [node|] eqn:G; [|injection H as -> ->; left; auto].
        eapply confirmed_sent; [exact H|exact G| |intros r R; exact R].
        intros req E (R1 & R2 & R3 & R4). apply plainly_ok in E. destruct (rt_ProviderAdminPublishDHTOfferRequest version supported sha256 cids price expiry qos R1 R2 R3 R4) as (m0 & A & _ & D). rewrite A in E. apply ret_inj in E. subst m0. exact D.
      - (* PGetOffers *) apply value_inv in H. destruct H as (val & H & -> & ->). split; [|reflexivity].
        used H. destruct (aget bytes_eqb (ad_nodes a) (ToString i)) as [node|] eqn:G; [|injection H as -> ->; left; auto].
        unfold RequestGetPublishedOffer in H. step H. destruct (contact_inv _ _ _ _ _ E) as [->|(k & vv & req & s & pk & K & V & Q & S & P & O & R)].
        { apply ret_inj in H. injection H as <- <-. left. auto. }
        destruct v as [r out']. cbn [fst snd] in O, R. right. exists node, k, vv, req, s, pk. split; [exact G|]. split; [exact K|]. split; [exact V|]. split; [exact S|]. split.
        { intros Ic. apply plainly_ok in Q.
          destruct (rt_ProviderAdminGetPublishedOfferRequest version supported sha256 gateways Ic) as (m0 & A & _ & D). rewrite A in Q. apply ret_inj in Q. subst m0. exact D. }
        split; [exact P|]. destruct r as [r|]; [|apply ret_inj in H; injection H as <- <-; split; [exact O|discriminate]].
        step H. apply ret_inj in H. injection H as <- <-. split; [exact O|]. intros T. exists r. destruct (R r eq_refl) as (A & B). split; [exact A|]. split; [exact B|].
        destruct v as [[f os]|]; [|discriminate T]. exists f, os. exact E0.
      - (* PUpdate *) apply flag_inv in H. destruct H as (H & ->). split; [|reflexivity].
        used H. destruct (aget bytes_eqb (ad_nodes a) (ToString i)) as [node|] eqn:G; [|injection H as -> ->; left; auto].
        eapply confirmed_sent; [exact H|exact G| |intros r R; exact R].
        intros req E _. apply plainly_ok in E. destruct (rt_ProviderAdminForceRefreshRequest version supported sha256 true) as (m0 & A & _ & D). rewrite A in E. apply ret_inj in E. subst m0. exact D.
    Qed.

    (** ** Calls that succeed *)
    Lemma contact_served node kn a enc req : ecdsa_correct pub_of ec_sign ec_verify -> authority a -> registered_with node kn -> enc = Ret (OkR req) ->
      (forall s, exists r, http (r_admin_ap node) (set_sig req s) = Some r /\ of_key kn r) ->
      exists s r, contact node (ad_key a) (ad_ver a) enc = Ret (Some r, [(r_admin_ap node, set_sig req s)]) /\ http (r_admin_ap node) (set_sig req s) = Some r.
    Proof.
      intros Law (k & v & K & V & C) (pk & P & M) -> H. destruct (sign_can k v req C) as (m & S). destruct (sign_of _ _ _ _ Law S) as (_ & s & ->).
      destruct (H s) as (r & R & O). exists s, r. split; [|exact R].
      unfold Admin.contact, Client.GetSigningKey. rewrite P. cbn [obind]. unfold SignAs. rewrite K, V. cbn [deref obind]. rewrite S. cbn [fst snd negb]. rewrite R.
      rewrite message_verify_state. rewrite (O pk M). reflexivity.
    Qed.
    Lemma confirmed_served node kn a enc req dec : ecdsa_correct pub_of ec_sign ec_verify -> authority a -> registered_with node kn -> enc = Ret (OkR req) ->
      (forall s, exists r, http (r_admin_ap node) (set_sig req s) = Some r /\ of_key kn r /\ dec r = Ret (OkR true)) ->
      exists s, confirmed node (ad_key a) (ad_ver a) enc dec = Ret (true, [(r_admin_ap node, set_sig req s)]).
    Proof.
      intros Law Au Re En H. destruct (contact_served node kn a enc req Law Au Re En) as (s & r & E & R).
      { intros s. destruct (H s) as (r & A & B & _). eauto. }
      exists s. unfold Admin.confirmed. rewrite E. cbn [obind]. destruct (H s) as (r' & A & _ & D). rewrite A in R. injection R as <-. rewrite D. reflexivity.
    Qed.

    (** ** Calls return *)
    Lemma contact_returns node a enc e : authority a -> Client.r_key node <> [] -> enc = Ret e -> exists x, contact node (ad_key a) (ad_ver a) enc = Ret x.
    Proof.
      intros (k & v & K & V & C) N ->. unfold Admin.contact, Client.GetSigningKey. destruct (decode_keys_total _ N) as (_ & pk & P). rewrite P. cbn [obind].
      destruct pk as [pk|]; [|eauto]. destruct e as [req|]; [|eauto]. unfold SignAs. rewrite K, V. cbn [deref obind].
      destruct (negb _); [eauto|]. destruct (http _ _); eauto.
    Qed.
    Lemma confirmed_returns node a enc e dec : authority a -> Client.r_key node <> [] -> enc = Ret e -> (forall r, exists x, dec r = Ret x) ->
      exists x, confirmed node (ad_key a) (ad_ver a) enc dec = Ret x.
    Proof.
      intros Au N En D. destruct (contact_returns node a enc e Au N En) as ([r out] & E). unfold Admin.confirmed. rewrite E. cbn [obind].
      destruct r as [r|]; [|eauto]. destruct (D r) as (x & ->). cbn [obind]. eauto.
    Qed.
    Lemma plainly_ret o x : o = Ret x -> exists e, plainly o = Ret e.
    Proof. intros ->. unfold plainly. cbn [obind]. eauto. Qed.
    Lemma for_node_ret node f : (forall id, exists x, f (Some id) = Ret x) -> exists e, for_node node f = Ret e.
    Proof. intros H. unfold for_node. destruct (NewNodeIDFromHexString _) as [id|]; [|eauto]. destruct (H id) as (x & E). exact (plainly_ret _ _ E). Qed.
    Lemma use_returns a x : authority a -> given x -> hazardous x = false -> (forall node, target a x = Some node -> Client.r_key node <> []) -> exists y, use a x = Ret y.
    Proof.
      intros Au G Hz N.
      assert (Put : forall node o y, o = Ret y -> exists z, put_in_use a node o = Ret z) by (intros node o y ->; unfold put_in_use; cbn [obind]; eauto).
      assert (Flag : forall (o : outcome (bool * list post)) y, o = Ret y -> exists z, (let* y := o in Ret (fst y, a, snd y))%go = Ret z) by (intros o y ->; cbn [obind]; eauto).
      assert (Used : forall id (f : reg -> outcome (bool * list post)), id <> None ->
        (forall node, aget bytes_eqb (ad_nodes a) (ToString (match id with Some i => i | None => [] end)) = Some node -> exists y, f node = Ret y) ->
        exists y, with_used a id false f = Ret y).
      { intros [id|] f A B; [|congruence]. unfold with_used, id_text. cbn [deref obind]. destruct (aget _ _ _) as [node|] eqn:Q; [apply B; reflexivity|eauto]. }
      destruct x; try discriminate Hz; cbn [AdminSpec.use target given] in *.
      - destruct G as (G1 & G2). destruct k as [k|]; [|congruence]. destruct v as [v|]; [|congruence].
        assert (E : exists y, GwRequestInitialiseKey version supported sha256 pub_of ec_sign ec_verify blake http node (Some k) (Some v) (ad_key a) (ad_ver a) = Ret y).
        { destruct (for_node_ret node (fun id => EncodeGatewayAdminInitialiseKeyRequest version supported id (Some k) (Some v))) as (e & E); [intros id; eexists; reflexivity|].
          eapply confirmed_returns; [exact Au|auto|exact E|]. intros r. exact (returns_pf sha256 KGatewayAdminInitialiseKeyResponse r eq_refl). }
        destruct E as (y & E). exact (Put _ _ _ E).
      - destruct G as (G1 & G2). destruct k as [k|]; [|congruence]. destruct v as [v|]; [|congruence].
        assert (E : exists y, GwRequestInitialiseKeyV2 version supported sha256 pub_of ec_sign ec_verify blake http node (Some k) (Some v) (ad_key a) (ad_ver a) wallet ap token = Ret y).
        { destruct (for_node_ret node (fun id => EncodeGatewayAdminInitialiseKeyRequestV2 version supported id (Some k) (Some v) wallet ap token)) as (e & E); [intros id; eexists; reflexivity|].
          eapply confirmed_returns; [exact Au|auto|exact E|]. intros r. exact (returns_pf sha256 KGatewayAdminInitialiseKeyResponse r eq_refl). }
        destruct E as (y & E). exact (Put _ _ _ E).
      - assert (E : exists y, SetGroupCIDOfferSupportedForProviders version supported sha256 pub_of ec_sign ec_verify blake http node providers (ad_key a) (ad_ver a) = Ret y).
        { destruct (for_node_ret node (fun id => EncodeUpdateGatewayGroupCIDOfferSupportRequest version supported id providers)) as (e & E); [intros id; eexists; reflexivity|].
          eapply confirmed_returns; [exact Au|auto|exact E|]. intros r. exact (returns_pf sha256 KUpdateGatewayGroupCIDOfferSupportResponse r eq_refl). }
        destruct E as (y & E). exact (Put _ _ _ E).
      - assert (E : exists y, GwForceUpdate version supported sha256 pub_of ec_sign ec_verify blake http a id = Ret y).
        { apply Used; [exact G|]. intros node Q. destruct (plainly_ret (EncodeGatewayAdminForceRefreshRequest version supported true) _ eq_refl) as (e & E).
          eapply confirmed_returns; [exact Au|destruct id; [apply N, Q|congruence]|exact E|]. intros r. exact (returns_pf sha256 KGatewayAdminForceRefreshResponse r eq_refl). }
        destruct E as (y & E). exact (Flag _ _ E).
      - assert (E : exists y, ListDHTOffer version supported sha256 pub_of ec_sign ec_verify blake http a id = Ret y).
        { apply Used; [exact G|]. intros node Q. destruct (plainly_ret (EncodeGatewayAdminListDHTOfferRequest version supported true) _ eq_refl) as (e & E).
          eapply confirmed_returns; [exact Au|destruct id; [apply N, Q|congruence]|exact E|]. intros r. exact (returns_pf sha256 KGatewayAdminListDHTOfferResponse r eq_refl). }
        destruct E as (y & E). exact (Flag _ _ E).
      - destruct G as (G1 & G2). destruct k as [k|]; [|congruence]. destruct v as [v|]; [|congruence].
        assert (E : exists y, PvRequestInitialiseKey version supported sha256 pub_of ec_sign ec_verify blake http node (Some k) (Some v) (ad_key a) (ad_ver a) = Ret y).
        { destruct (for_node_ret node (fun id => EncodeProviderAdminInitialiseKeyRequest version supported id (Some k) (Some v))) as (e & E); [intros id; eexists; reflexivity|].
          eapply confirmed_returns; [exact Au|auto|exact E|]. intros r. exact (returns_pf sha256 KProviderAdminInitialiseKeyResponse r eq_refl). }
        destruct E as (y & E). exact (Put _ _ _ E).
      - destruct G as (G1 & G2). destruct k as [k|]; [|congruence]. destruct v as [v|]; [|congruence].
        assert (E : exists y, PvRequestInitialiseKeyV2 version supported sha256 pub_of ec_sign ec_verify blake http node (Some k) (Some v) (ad_key a) (ad_ver a) wallet ap token = Ret y).
        { destruct (for_node_ret node (fun id => EncodeProviderAdminInitialiseKeyRequestV2 version supported id (Some k) (Some v) wallet ap token)) as (e & E); [intros id; eexists; reflexivity|].
          eapply confirmed_returns; [exact Au|auto|exact E|]. intros r. exact (returns_pf sha256 KProviderAdminInitialiseKeyResponse r eq_refl). }
        destruct E as (y & E). exact (Put _ _ _ E).
      - assert (E : exists y, PublishGroupCID version supported sha256 pub_of ec_sign ec_verify blake http a id cids price expiry qos = Ret y).
        { apply Used; [exact G|]. intros node Q. destruct (plainly_ret (EncodeProviderAdminPublishGroupOfferRequest version supported cids price expiry qos) _ eq_refl) as (e & E).
          eapply confirmed_returns; [exact Au|destruct id; [apply N, Q|congruence]|exact E|]. intros r. exact (returns_pf sha256 KProviderAdminPublishGroupOfferResponse r eq_refl). }
        destruct E as (y & E). exact (Flag _ _ E).
      - assert (E : exists y, PublishDHTCID version supported sha256 pub_of ec_sign ec_verify blake http a id cids price expiry qos = Ret y).
        { apply Used; [exact G|]. intros node Q. destruct (plainly_ret (EncodeProviderAdminPublishDHTOfferRequest version supported cids price expiry qos) _ eq_refl) as (e & E).
          eapply confirmed_returns; [exact Au|destruct id; [apply N, Q|congruence]|exact E|]. intros r. exact (returns_pf sha256 KProviderAdminPublishDHTOfferResponse r eq_refl). }
        destruct E as (y & E). exact (Flag _ _ E).
      - assert (E : exists y, PvForceUpdate version supported sha256 pub_of ec_sign ec_verify blake http a id = Ret y).
        { apply Used; [exact G|]. intros node Q. destruct (plainly_ret (EncodeProviderAdminForceRefreshRequest version supported true) _ eq_refl) as (e & E).
          eapply confirmed_returns; [exact Au|destruct id; [apply N, Q|congruence]|exact E|]. intros r. exact (returns_pf sha256 KProviderAdminForceRefreshResponse r eq_refl). }
        destruct E as (y & E). exact (Flag _ _ E).
    Qed.
  End calls.

  (** ** Calls one after another *)
  Lemma session_pf h : forall a a' log, session version supported sha256 pub_of ec_sign ec_verify blake a h = Ret (a', log) ->
    ad_key a' = ad_key a /\ ad_ver a' = ad_ver a /\ map fst log = map snd h /\
    forall id, aget bytes_eqb (ad_nodes a') id = in_use (aget bytes_eqb (ad_nodes a) id) log id.
  Proof.
    induction h as [|(http & x) t IH]; intros a a' log H; cbn [session] in H.
    - apply ret_inj in H. injection H as <- <-. auto.
    - step H. destruct v as [[ok a1] out]. cbn [fst snd] in H. step H. destruct v as [a2 log2]. apply ret_inj in H. cbn [fst snd] in H. injection H as <- <-.
      destruct (use_inv _ _ _ _ _ _ E) as (_ & ->). destruct (IH _ _ _ E0) as (K & V & M & N). 
      assert (Q : ad_key (match puts x with Some node => if ok then with_node a node else a | None => a end) = ad_key a /\
                  ad_ver (match puts x with Some node => if ok then with_node a node else a | None => a end) = ad_ver a).
      { destruct (puts x); [destruct ok|]; split; reflexivity. }
      destruct Q as (Q1 & Q2). rewrite Q1 in K. rewrite Q2 in V. split; [exact K|]. split; [exact V|]. split; [cbn [map fst snd]; f_equal; exact M|].
      intros id. rewrite N. unfold in_use. cbn [fold_left fst snd]. f_equal. destruct (puts x) as [node|]; [|reflexivity].
      destruct ok; [|reflexivity]. cbn [andb with_node ad_nodes]. rewrite (aget_aset bytes_eqb bytes_eqb_eq).
      destruct (bytes_eqb (r_id node) id) eqn:B; destruct (bytes_eqb id (r_id node)) eqn:B'; try reflexivity; exfalso.
      + apply bytes_eqb_eq in B. subst id. rewrite (proj2 (bytes_eqb_eq _ _) eq_refl) in B'. discriminate B'.
      + apply bytes_eqb_eq in B'. subst id. rewrite (proj2 (bytes_eqb_eq _ _) eq_refl) in B. discriminate B.
  Qed.
End admin.
