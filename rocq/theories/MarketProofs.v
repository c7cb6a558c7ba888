(** * Proofs about offers on their way from a provider to clients *)
From Coq Require Import String List ZArith Bool Lia Permutation Sorting.Sorted.
From Coq Require Import Init.Byte.
From Verif Require Import Base BaseProofs Ids IdsProofs Crypto CryptoProofs Message MessageProofs Offer OfferProofs Schema SchemaProofs Messages MessagesSpec MessagesProofs WireSpec Payment Ring RingSpec Register RegisterSpec RegisterProofs
  Provider ProviderSpec OfferStoreSpec OfferStoreProofs SqlOffers SqlOffersSpec SqlOffersProofs Json Rest Routes RoutesProofs Gateway GatewaySpec GatewayProofs GatewayStoreProofs GatewayOfferSpec GatewayOfferProofs Client ClientSpec ClientProofs ClientFindProofs
  RetrievalSpec RetrievalProofs DhtSpec DhtProofs MarketSpec.
From Verif Require ProviderAckProofs ProviderListProofs ProviderSendProofs AdminSpec AdminProofs AdminNodeProofs.
Import ListNotations.
Open Scope Z_scope.

(** ** Distances on the ring *)
Section ring.
  Lemma M256_is : M256 = 2 ^ 256.
  Proof. Transparent M256. reflexivity. Opaque M256. Qed.
  Lemma circ_points p v d : 0 <= v < M256 -> circ p v = d -> v = (p + d) mod M256 \/ v = (p - d) mod M256.
  Proof.
    intros B C. assert (Mp : 0 < M256) by (rewrite M256_is; lia). unfold circ, cw in C. destruct (Z.min_spec ((v - p) mod M256) ((p - v) mod M256)) as [[_ E]|[_ E]].
    - left. rewrite <- C, E, Z.add_mod_idemp_r by lia. replace (p + (v - p)) with v by lia. symmetry. apply Z.mod_small, B.
    - right. rewrite <- C, E, Zminus_mod_idemp_r. replace (p - (p - v)) with v by lia. symmetry. apply Z.mod_small, B.
  Qed.
  Lemma circ_two p a b x : 0 <= a < M256 -> 0 <= b < M256 -> 0 <= x < M256 -> circ p a = circ p x -> circ p b = circ p x -> a = b \/ a = x \/ b = x.
  Proof.
    intros A B X Ea Eb. destruct (circ_points p a _ A Ea) as [Qa|Qa]; destruct (circ_points p b _ B Eb) as [Qb|Qb]; destruct (circ_points p x _ X eq_refl) as [Qx|Qx];
      first [left; congruence|right; left; congruence|right; right; congruence].
  Qed.

  Lemma two_of {A} (l : list A) : NoDup l -> (2 <= length l)%nat -> exists a b, In a l /\ In b l /\ a <> b.
  Proof.
    destruct l as [|a [|b t]]; cbn [length]; intros N L; [lia|lia|]. exists a, b. split; [left; reflexivity|]. split; [right; left; reflexivity|].
    inversion N as [|? ? Ni _]; subst. intros ->. apply Ni. left. reflexivity.
  Qed.

  Lemma without_length a l : NoDup l -> (length l <= S (length (without a l)))%nat.
  Proof.
    intros N. assert (Dec : forall u v : gostring, {u = v} + {u <> v}) by (apply list_eq_dec; apply Byte.byte_eq_dec).
    assert (Inc : incl l (a :: without a l)).
    { intros v I. destruct (Dec a v) as [->|Na]; [left; reflexivity|]. right. apply filter_In. split; [exact I|]. apply negb_true_iff, not_true_iff_false. intros E. apply bytes_eqb_eq in E. congruence. }
    exact (NoDup_incl_length N Inc).
  Qed.

  (** The [n] nearest without some node are among the [n + 2] nearest. *)
  Lemma nearest_within members a hex n k l L x : StronglySorted (fun u v => hex_val u < hex_val v) members -> (forall v, In v members -> canonical v) ->
    closest_ok (without a members) hex n l -> closest_ok members hex k L -> n + 2 <= k -> In x l -> In x L.
  Proof.
    intros So Ca Cl CL Le Ix. assert (Nm := sorted_nodup members So).
    assert (Nl : NoDup l) by (eapply closest_nodup; [apply without_nodup; exact Nm|exact Cl]). assert (NL : NoDup L) by (eapply closest_nodup; [exact Nm|exact CL]).
    assert (Dec : forall u v : gostring, {u = v} + {u <> v}) by (apply list_eq_dec; apply Byte.byte_eq_dec).
    destruct (in_dec Dec x L) as [|Nx]; [assumption|exfalso].
    assert (Mx : In x (without a members)) by (eapply closest_in; eassumption).
    destruct Cl as (Ln & o1 & R1 & D1). destruct CL as (Lk & o2 & R2 & D2).
    assert (P1 := Permutation_sym (rotation_perm _ _ R1)). assert (P2 := Permutation_sym (rotation_perm _ _ R2)).
    assert (Ox : In x o2).
    { apply without_in in Mx. apply (Permutation_in _ (Permutation_sym P2)) in Mx. apply in_app_or in Mx as [Mx|Mx]; [contradiction|exact Mx]. }
    set (T := filter (fun v => negb (bytes_eqb v a) && negb (existsb (bytes_eqb v) l)) L).
    assert (It : forall v, In v T -> In v L /\ v <> a /\ ~ In v l).
    { intros v Iv. apply filter_In in Iv as [Iv F]. apply andb_true_iff in F as [F1 F2]. split; [exact Iv|]. split.
      - intros ->. rewrite (proj2 (bytes_eqb_eq a a) eq_refl) in F1. discriminate.
      - intros I. assert (existsb (bytes_eqb v) l = true) by (apply existsb_exists; exists v; split; [exact I|apply bytes_eqb_eq; reflexivity]). rewrite H in F2. discriminate. }
    assert (Cnt : (2 <= length T)%nat).
    { assert (Inc : incl L (a :: T ++ remove Dec x l)).
      { intros v Iv. destruct (Dec a v) as [->|Na]; [left; reflexivity|]. right. apply in_or_app. destruct (in_dec Dec v l) as [I|I].
        - right. apply in_in_remove; [intros ->; contradiction|exact I].
        - left. apply filter_In. split; [exact Iv|]. apply andb_true_iff. split; apply negb_true_iff.
          + apply not_true_iff_false. intros E. apply bytes_eqb_eq in E. congruence.
          + apply not_true_iff_false. intros E. apply existsb_exists in E as (w & Iw & E). apply bytes_eqb_eq in E. subst. contradiction. }
      assert (Len := NoDup_incl_length NL Inc). cbn [length] in Len. rewrite app_length in Len. assert (Lr := remove_length_lt Dec l x Ix). lia. }
    destruct (two_of T) as (u & v & Iu & Iv & Nuv); [apply NoDup_filter; exact NL|exact Cnt|].
    destruct (It u Iu) as (Lu & Nua & Nul). destruct (It v Iv) as (Lv & Nva & Nvl).
    assert (Mem : forall w, In w L -> w <> a -> ~ In w l -> In w members /\ circ (hex_val hex) (hex_val w) = circ (hex_val hex) (hex_val x)).
    { intros w Lw Nwa Nwl. assert (Mw : In w members) by (apply (Permutation_in _ P2), in_or_app; left; exact Lw). split; [exact Mw|].
      assert (Ww : In w (without a members)) by (unfold without; apply filter_In; split; [exact Mw|]; apply negb_true_iff, not_true_iff_false; intros E; apply bytes_eqb_eq in E; congruence).
      apply (Permutation_in _ (Permutation_sym P1)) in Ww. apply in_app_or in Ww as [Ww|Ww]; [contradiction|].
      specialize (D1 _ _ Ix Ww). specialize (D2 _ _ Lw Ox). lia. }
    destruct (Mem u Lu Nua Nul) as (Mu & Eu). destruct (Mem v Lv Nva Nvl) as (Mv & Ev). apply without_in in Mx.
    assert (Rg : forall w, In w members -> 0 <= hex_val w < M256).
    { intros w Mw. destruct (Ca w Mw) as (b & Lb & ->). assert (R := hex_val_range (ToString b)). rewrite (ToString_32 b Lb), hex_encode_length, Lb in R. rewrite M256_is, (ToString_32 b Lb). exact R. }
    assert (Inj : forall w z, In w members -> In z members -> hex_val w = hex_val z -> w = z).
    { clear - So. induction members as [|h t IH]; intros w z Iw Iz E; [destruct Iw|]. apply StronglySorted_inv in So as [St Hh]. rewrite Forall_forall in Hh.
      destruct Iw as [<-|Iw]; destruct Iz as [<-|Iz]; [reflexivity|specialize (Hh _ Iz); lia|specialize (Hh _ Iw); lia|auto]. }
    destruct (circ_two _ _ _ _ (Rg u Mu) (Rg v Mv) (Rg x Mx) Eu Ev) as [E|[E|E]]; apply Inj in E; try assumption; subst; contradiction.
  Qed.
End ring.

Section market.
  Variable version : Z.
  Variable supported : list Z.
  Variable sha256 sha512_256 : bytes -> bytes.
  Variable pub_of : bytes -> bytes.
  Variable ec_sign : bytes -> bytes -> option bytes.
  Variable ec_verify : bytes -> bytes -> bytes -> bool.
  Variable blake : bytes -> bytes.
  Variable verify : gostring -> voucher -> option bytes -> bool.
  Variable voucher_text : voucher -> gostring.
  Variable voucher_of : gostring -> option voucher.
  Variable is_address : gostring -> bool.
  Variable zone : Z.
  Variables BindAdminAPI BindRestAPI BindGatewayAPI BindProviderAPI : gostring.
  Variable rand_int : list draw -> Z.
  Hypothesis Law : ecdsa_correct pub_of ec_sign ec_verify.
  Hypothesis AC : BindAdminAPI <> BindRestAPI.
  Hypothesis GP : BindGatewayAPI <> BindProviderAPI.
  Hypothesis sha256_len : forall x, length (sha256 x) = 32%nat.
  Hypothesis rand_int_64 : forall l, int64 (rand_int l).
  Hypothesis version_32 : int32 version.
  Hypothesis supported_32 : Forall int32 supported.
  Implicit Types (c : client) (g : gateway) (gw : reg) (e : env) (ce : cenv) (m : message).

  Local Notation api := (client_api version supported sha256 sha512_256 pub_of ec_sign ec_verify blake verify voucher_text voucher_of is_address zone BindAdminAPI BindRestAPI BindGatewayAPI BindProviderAPI).
  Local Notation sapi := (supplier_api version supported sha256 sha512_256 pub_of ec_sign ec_verify blake BindAdminAPI BindRestAPI BindGatewayAPI BindProviderAPI).
  Local Notation outlet := (outlet version supported sha256 sha512_256 pub_of ec_sign ec_verify blake BindAdminAPI BindRestAPI BindGatewayAPI BindProviderAPI).
  Local Notation linked := (linked version supported sha256 sha512_256 pub_of ec_sign ec_verify blake verify voucher_of is_address zone BindAdminAPI BindRestAPI BindGatewayAPI BindProviderAPI).
  Local Notation lived := (ProviderSpec.lived version supported sha256 sha512_256 pub_of ec_sign ec_verify blake).
  Local Notation acceptable := (acceptable sha256 pub_of ec_verify blake).
  Local Notation sifted := (ClientSpec.sifted sha256 pub_of ec_verify blake).
  Local Notation OfferVerify := (OfferVerify pub_of ec_verify blake).
  Local Notation new_in := (new_in sha512_256).
  Local Notation stocked := (GatewaySpec.stocked sha256 sha512_256).
  Ltac tagged H := apply rbind_inv in H; destruct H as (? & H & _); exact (AdminNodeProofs.decoded_tag _ _ _ _ _ H).

  (** ** The gateway takes the offer *)
  Lemma api_publish_group e g m z : DecodeProviderPublishGroupOfferRequest sha256 m = Ret (OkR z) ->
    sapi e g m = HandlePublishGroup version supported sha256 sha512_256 pub_of ec_sign ec_verify blake e g m.
  Proof using AC GP.
    intros D. destruct z as ((x1 & x2) & x3). unfold supplier_api.
    assert (T : m_type m = type_of KProviderPublishGroupOfferRequest) by tagged D. rewrite T, routed_type by (assumption || discriminate). reflexivity.
  Qed.
  Lemma api_publish_dht e g m z : DecodeProviderPublishDHTOfferRequest sha256 m = Ret (OkR z) ->
    sapi e g m = HandlePublishDHT version supported sha256 sha512_256 pub_of ec_sign ec_verify blake e g m.
  Proof using AC GP.
    intros D. destruct z as ((x1 & x2) & x3). unfold supplier_api.
    assert (T : m_type m = type_of KProviderPublishDHTOfferRequest) by tagged D. rewrite T, routed_type by (assumption || discriminate). reflexivity.
  Qed.

  Lemma from_known g pid k m : has_provider pub_of (g_reg g) pid k -> (forall pk, matches pub_of pk k -> fst (MessageVerify pub_of ec_verify blake m pk) = true) ->
    exists pk, from_provider pub_of ec_verify blake g (Some pid) m = Ret (Some pk, g) /\ matches pub_of pk k.
  Proof using.
    intros (S & D & i & pk & G & K & M) O. exists pk. split; [|exact M]. unfold from_provider, CoreGetProvider, GetProvider. rewrite S, D.
    cbn [negb orb deref obind RLock RUnlock]. rewrite G. cbn [obind fst snd]. unfold Gateway.GetSigningKey. rewrite K. cbn [obind]. rewrite (O pk M).
    destruct g. destruct g_reg. reflexivity.
  Qed.

  Lemma contents_done f dg : (forall i, f i = Done) -> forall cids i d, fst (insert_contents f dg i cids (OkR tt) d) = Some (OkR tt).
  Proof using. intros F. induction cids as [|a t IH]; intros i d; cbn [insert_contents]; [reflexivity|]. rewrite F. apply IH. Qed.
  Lemma added e n g o pid : o_provider o = Some pid -> (forall i, e_fates e n i = Done) -> bindable o = true ->
    exists d, CoreAddOffer sha512_256 e n g o = Ret (Some (OkR tt), with_db g d) /\ db_after sha512_256 (g_db g) [(o, e_fates e n)] = Ret d.
  Proof using.
    intros P F B. unfold CoreAddOffer. cbn [db_after]. unfold insertOffer, GetMessageDigest. rewrite P. cbn [deref obind]. rewrite F, B. cbn [negb obind].
    match goal with |- context [insert_contents ?a ?b ?c ?d ?x ?y] => pose proof (contents_done a b F d c y) as I; destruct (insert_contents a b c d x y) as [r d'] end.
    cbn [fst snd] in *. subst r. exists d'. split; reflexivity.
  Qed.

  Lemma restocked g g' hist o f d : stocked g hist -> db_after sha512_256 (g_db g) [(o, f)] = Ret d -> g_db g' = d -> wire_offer sha256 o -> bindable o = true -> new_in hist o ->
    stocked g' (hist ++ [(o, f)]).
  Proof using.
    intros ((P1 & P2) & D) A E W B N. apply andb_true_iff in B as [B1 B2]. apply Z.ltb_lt in B1. apply Z.ltb_lt in B2. split; [split|].
    - intros x fx I. apply in_app_or in I as [I|[I|[]]]; [exact (P1 x fx I)|]. injection I as <- <-. auto.
    - intros x fx y fy I J Q. apply in_app_or in I as [I|[I|[]]]; apply in_app_or in J as [J|[J|[]]].
      + exact (P2 _ _ _ _ I J Q).
      + injection J as <- <-. destruct (N _ _ I Q).
      + injection I as <- <-. symmetry in Q. destruct (N _ _ J Q).
      + injection I as <- <-. injection J as <- <-. apply same_terms_refl.
    - rewrite SqlOffersProofs.db_after_app, D. cbn [obind]. rewrite A, E. reflexivity.
  Qed.

  Lemma dht_taken e g hist pid k m o : ready ec_sign blake g -> has_provider pub_of (g_reg g) pid k -> (forall n i, e_fates e n i = Done) -> stocked g hist ->
    DecodeProviderPublishDHTOfferRequest sha256 m = Ret (OkR (Some pid, 1, Some [o])) -> (forall pk, matches pub_of pk k -> fst (MessageVerify pub_of ec_verify blake m pk) = true) ->
    o_provider o = Some pid -> (forall pk, matches pub_of pk k -> OfferVerify o pk = Ret true) -> bindable o = true -> new_in hist o ->
    exists g' r, sapi e g m = Ret (g', Reply r) /\ taken_up g g' /\ stocked g' (hist ++ [(o, e_fates e 0)]) /\ wire_offer sha256 o.
  Proof using AC GP sha256_len voucher_of verify is_address.
    intros (i & kg & pm & Gi & Hi & Gk & Cs & Gp) Hp F St D O P V B N. rewrite (api_publish_dht _ _ _ _ D). unfold HandlePublishDHT. rewrite D. cbn [obind].
    destruct (from_known g pid k m Hp O) as (pk & E & M). rewrite E. cbn [obind elems store_all]. rewrite (V pk M). cbn [obind negb].
    destruct (added e 0 g o pid P (F 0%nat) B) as (d & A & A'). rewrite A. cbn [obind]. assert (Gk' : g_key (with_db g d) = Some kg) by exact Gk. rewrite Gk'. cbn [deref obind].
    assert (W : wire_offer sha256 o).
    { pose proof (dht_sound sha256 sha512_256 pub_of ec_sign ec_verify blake verify voucher_of is_address _ _ _ _ D) as S. cbn [each] in S. inversion S; subst. destruct H1 as [H1 _]. apply H1. congruence. }
    unfold SignMessage. assert (exists raw, KeySign ec_sign blake kg (slice (m_body m)) = OkR raw) as (raw & Kr).
    { destruct Cs as (Al & Sg). unfold KeySign. rewrite Al. cbn [Byte.eqb]. specialize (Sg (slice (m_body m))). destruct (ec_sign _ _) as [raw|]; [exists raw; reflexivity|contradiction]. }
    rewrite Kr. assert (I1 : int64 1) by (unfold int64; lia).
    destruct (rt_ProviderPublishDHTOfferResponse version supported sha256 1 (hex_encode (EncodeKeyVersionAsBytes (g_ver (with_db g d)) ++ raw)) I1) as (b & Eb & _). rewrite Eb. cbn [obind].
    destruct (finish_p2p_total ec_sign blake (with_db g d) b kg Gk' Cs) as (r & Er & _). exists (with_db g d), r. split; [exact Er|]. split; [repeat split|]. split; [|exact W].
    eapply restocked; [exact St|exact A'|reflexivity|exact W|exact B|exact N].
  Qed.

  Lemma group_taken e g hist pid k m o : ready ec_sign blake g -> has_provider pub_of (g_reg g) pid k -> (forall n i, e_fates e n i = Done) -> stocked g hist ->
    DecodeProviderPublishGroupOfferRequest sha256 m = Ret (OkR (Some pid, 1, Some o)) -> (forall pk, matches pub_of pk k -> fst (MessageVerify pub_of ec_verify blake m pk) = true) ->
    o_provider o = Some pid -> (forall pk, matches pub_of pk k -> OfferVerify o pk = Ret true) -> bindable o = true -> new_in hist o ->
    exists g' r, sapi e g m = Ret (g', Reply r) /\ taken_up g g' /\ stocked g' (hist ++ [(o, e_fates e 0)]) /\ wire_offer sha256 o.
  Proof using AC GP sha256_len voucher_of verify is_address.
    intros (i & kg & pm & Gi & Hi & Gk & Cs & Gp) Hp F St D Sg P V B N. rewrite (api_publish_group _ _ _ _ D). unfold HandlePublishGroup. rewrite D. cbn [obind].
    destruct (from_known g pid k m Hp Sg) as (pk & E & M). rewrite E. cbn [obind deref]. rewrite (V pk M). cbn [obind negb].
    destruct (added e 0 g o pid P (F 0%nat) B) as (d & A & A'). rewrite A. cbn [obind]. assert (Gk' : g_key (with_db g d) = Some kg) by exact Gk.
    assert (Gi' : g_id (with_db g d) = Some i) by exact Gi. rewrite Gi'. cbn [deref obind].
    assert (W : wire_offer sha256 o).
    { destruct (group_sound sha256 sha512_256 pub_of ec_sign ec_verify blake verify voucher_of is_address _ _ _ _ D) as (y & Ey & Sy & _). injection Ey as <-. apply Sy. congruence. }
    destruct (digest_ok sha256 sha512_256 o W) as (dg & Ed & _). rewrite Ed. cbn [obind].
    destruct (rt_ProviderPublishGroupOfferResponse version supported sha256 i (EncodeMessageDigest dg) Hi) as (b & Eb & _). rewrite Eb. cbn [obind].
    destruct (finish_p2p_total ec_sign blake (with_db g d) b kg Gk' Cs) as (r & Er & _). exists (with_db g d), r. split; [exact Er|]. split; [repeat split|]. split; [|exact W].
    eapply restocked; [exact St|exact A'|reflexivity|exact W|exact B|exact N].
  Qed.

  (** ** The client believes it *)
  Lemma new_recorded hist o f : new_in hist o -> f 0%nat = Done -> recorded (hist ++ [(o, f)]) o.
  Proof using.
    intros N F. apply (SqlOffersProofs.recorded_snoc hist o f o). right. split; [reflexivity|]. split; [exact F|].
    intros o' f' I S. exfalso. apply (N _ _ I). destruct S as (A & B & C & D & E). unfold GetMessageDigest. rewrite A, B, C, D, E. reflexivity.
  Qed.
  Lemma sold hist now cid os o : on_sale zone hist now cid os -> recorded hist o -> SqlOffers.fresh zone now (o_expiry o) = true -> In cid (o_cids o) -> In o os.
  Proof using.
    intros (l & _ & M & Pm) R F I. apply (Permutation_in _ (Permutation_sym Pm)), in_flat_map. exists o. split; [apply M; auto|]. apply copies_in. auto.
  Qed.
  Lemma believed c pid k o cid : client_has_provider pub_of c pid k -> o_provider o = Some pid -> (forall pk, matches pub_of pk k -> OfferVerify o pk = Ret true) ->
    wire_offer sha256 o -> In cid (o_cids o) -> acceptable c (GenerateSubCIDOffer o cid).
  Proof using.
    intros (S & D & p & pk & G & C & K & M) P V W I. split; [exact S|]. split; [exact D|]. exists pid, p, pk. split; [exact P|]. split; [exact G|]. split; [exact C|].
    split; [exact K|]. split; [apply sub_verifies; exact (V pk M)|]. apply sub_proves; assumption.
  Qed.
  Lemma sifted_keeps c l r s : sifted c l r -> In s l -> acceptable c s -> In s r.
  Proof using.
    induction 1 as [|x l r A H IH|x l r A H IH]; intros I B; [destruct I| |]; destruct I as [<-|I].
    - left. reflexivity.
    - right. auto.
    - contradiction.
    - auto.
  Qed.

  (** ** Group offers *)
  Lemma group_found_pf reg ss s p' pid k gid i e g hist cids pr ex q : ProviderSpec.sized sha256 ss -> lived (NewProvider reg) ss p' ->
    In s ss -> s_kind s = AdminPublishGroup -> s_answers s <> [] ->
    p_id (s_before s) = Some pid -> id32 pid -> p_key (s_before s) = Some k -> can_sign ec_sign blake k ->
    DecodeProviderAdminPublishGroupOfferRequest sha256 (s_msg s) = Ret (OkR (cids, pr, ex, q)) -> pr < 2 ^ 63 -> q < 2 ^ 63 -> Z.of_nat (length cids) < 2 ^ 63 ->
    shuffle (pe_nodes (s_env s)) -> start info (p_reg (s_before s)) = true -> gatewayDiscv info (p_reg (s_before s)) = true ->
    aget bytes_eqb (gatewaysMap info (p_reg (s_before s))) (ToString gid) = Some i -> n_id i = ToString gid -> id32 gid ->
    outlet (s_env s) pid k gid e g hist ->
    exists o, ordered_group sha256 pub_of ec_verify blake s o /\
      (new_in hist o -> exists request r g', In (gid, request, Some r) (s_sent s) /\ sapi e g request = Ret (g', Reply r) /\ taken_up g g' /\
        stocked g' (hist ++ [(o, e_fates e 0)]) /\
        forall ce c gw e2 cid gid2, In cid cids -> represents pub_of gw g' -> reaches (ce_http ce 0) gw (api e2 g') ->
          aget bytes_eqb (c_active c) (ToString gid2) = Some gw -> shuffle (e_rows e2) -> int64 (ce_now ce + c_ttl c) -> unix e2 <= ce_now ce + c_ttl c ->
          keyed c -> client_has_provider pub_of c pid k -> SqlOffers.fresh zone (e_now e2) ex = true ->
          exists found c' sent, FindOffersStandardDiscovery version supported sha256 pub_of ec_verify blake rand_int ce c (Some cid) (Some gid2) = Ret (OkR found, c', sent) /\
            In (GenerateSubCIDOffer o cid) found /\ acceptable c (GenerateSubCIDOffer o cid)).
  Proof using Law AC GP sha256_len rand_int_64 version_32 supported_32.
    intros Sz L I K A Pi Hp Pk Cs D Bp Bq Bl Sh S1 S2 Gm Ni Hg (Cn & Net & Rd & Kp & Fd & St & U & Sd).
    assert (Rp : ProviderSpec.ready ec_sign blake (s_before s)) by (exists pid, k; auto).
    destruct (ProviderSendProofs.group_asked_pf version supported sha256 sha512_256 pub_of ec_sign ec_verify blake reg ss s p' Law (conj version_32 supported_32) Sz L I K A Rp Sh S1 S2) as (o & gws & Og & Pm & Asked).
    exists o. split; [exact Og|]. intros N. destruct Og as (cids' & pr' & ex' & q' & _ & D' & Mk). rewrite D in D'. apply ret_inj in D'. injection D' as <- <- <- <-.
    destruct Mk as (pid' & k' & Pi' & Pk' & Op & Oc & Opr & Oe & Oq & Ov). assert (pid' = pid) by congruence. assert (k' = k) by congruence. subst pid' k'.
    assert (B : bindable o = true). { unfold bindable. rewrite Opr, Oq. apply andb_true_iff. split; apply Z.ltb_lt; assumption. }
    assert (Ig : In i gws). { apply (Permutation_in _ (Permutation_sym Pm)). apply (aget_In bytes_eqb bytes_eqb_eq) in Gm. apply in_map_iff. exists (ToString gid, i). auto. }
    apply In_nth_error in Ig as (j & Ej). destruct (Asked j i gid Ej) as (request & Is & Dr); [rewrite Ni; exact (proj1 (id_hex_roundtrip_pf gid Hg))|apply Cn|].
    destruct (ProviderListProofs.life2_ok version supported sha256 sha512_256 pub_of ec_sign ec_verify blake ss Law (conj version_32 supported_32) _ _ (proj1 (ProviderAckProofs.new_safe sha256 reg)) Sz L) as (_ & _ & X).
    destruct (X _ _ _ _ I Is) as ((k' & Pk'' & Own) & _). assert (k' = k) by congruence. subst k'. clear X.
    rewrite Pi in Dr. destruct (group_taken e g hist pid k request o Rd Kp Fd St Dr Own Op Ov B N) as (g' & r & Es & Tk & St' & W).
    exists request, r, g'. rewrite Net, Es in Is. split; [exact Is|]. split; [exact Es|]. split; [exact Tk|]. split; [exact St'|].
    intros ce c gw e2 cid gid2 Ic Rep Rch Ac Sh2 It Tt Ky Cp Fr. destruct Tk as (T1 & T2 & T3 & T4 & T5).
    assert (Rd' : ready ec_sign blake g'). { destruct Rd as (x1 & x2 & x3 & Rx). exists x1, x2, x3. rewrite T1, T2, T4. exact Rx. }
    assert (U' : all_undisturbed (hist ++ [(o, e_fates e 0)])).
    { intros x f Ix. apply in_app_or in Ix as [Ix|[Ix|[]]]; [exact (U x f Ix)|]. injection Ix as <- <-. intros t _. apply Fd. }
    assert (Sd' : sized (hist ++ [(o, e_fates e 0)])).
    { intros x f Ix. apply in_app_or in Ix as [Ix|[Ix|[]]]; [exact (Sd x f Ix)|]. injection Ix as <- <-. rewrite Oc. exact Bl. }
    assert (Hc : id32 cid). { destruct (wire_parts sha256 o W) as (_ & Fc & _). rewrite Forall_forall in Fc. apply Fc. rewrite Oc. exact Ic. }
    destruct (found_standard_pf version supported sha256 sha512_256 pub_of ec_sign ec_verify blake verify voucher_text voucher_of is_address zone BindAdminAPI BindRestAPI BindGatewayAPI BindProviderAPI rand_int
      Law AC GP sha256_len rand_int_64 ce c gw e2 g' (hist ++ [(o, e_fates e 0)]) cid gid2 Rep Rd' Rch Ac St' U' Sd' Sh2 Hc It Tt Ky) as (os & c' & m & r2 & E & Sale & _).
    eexists _, c', _. split; [exact E|]. split.
    - apply in_map_iff. exists o. split; [reflexivity|]. eapply sold; [exact Sale|apply new_recorded; [exact N|apply Fd]|rewrite Oe; exact Fr|rewrite Oc; exact Ic].
    - eapply believed; [exact Cp|exact Op|exact Ov|exact W|rewrite Oc; exact Ic].
  Qed.

  (** ** Offers for the nearest gateways *)
  Definition hist_after (o : offer) (x : contact) : attempts := at_hist x ++ [(o, e_fates (at_env x) 0)].

  Lemma dht_found_pf reg ss s p' pid k cid pr ex q members at_first : ProviderSpec.sized sha256 ss -> lived (NewProvider reg) ss p' ->
    In s ss -> s_kind s = AdminPublishDHT -> s_answers s <> [] ->
    p_id (s_before s) = Some pid -> id32 pid -> p_key (s_before s) = Some k -> can_sign ec_sign blake k ->
    DecodeProviderAdminPublishDHTOfferRequest sha256 (s_msg s) = Ret (OkR ([cid], Some [pr], Some [ex], Some [q])) -> pr < 2 ^ 63 -> q < 2 ^ 63 ->
    managed info (p_reg (s_before s)) -> self_named (p_reg (s_before s)) -> knows info (p_reg (s_before s)) members -> (16 <= length members)%nat ->
    (forall id, id32 id -> near_one members (ToString cid) 16 (ToString id) -> outlet (s_env s) pid k id (at_env (at_first id)) (at_state (at_first id)) (at_hist (at_first id))) ->
    exists o, ordered_batch sha256 pub_of ec_verify blake s [o] /\
      forall after, (forall id, id32 id -> near_one members (ToString cid) 16 (ToString id) -> new_in (at_hist (at_first id)) o) ->
      (forall id request r, In (id, request, r) (s_sent s) -> exists a, sapi (at_env (at_first id)) (at_state (at_first id)) request = Ret (after id, a)) ->
      forall ce c gw e g gid num i met, represents pub_of gw g -> ready ec_sign blake g -> reaches (ce_http ce 0) gw (api e g) ->
        aget bytes_eqb (c_active c) (ToString gid) = Some gw -> g_id g = Some i ->
        managed info (g_reg g) -> self_named (g_reg g) -> knows info (g_reg g) members -> harmless info (g_reg g) cid num (Some i) -> 1 <= num <= 14 ->
        int64 (ce_now ce + c_ttl c) -> unix e <= ce_now ce + c_ttl c -> int64 (unix e + 10) -> keyed c -> client_has_provider pub_of c pid k ->
        (forall id, id32 id -> near_one (without (ToString i) members) (ToString cid) num (ToString id) ->
           match met id with
           | Some (e', k') => linked e g id e' (after id) k' /\ client_lists pub_of c id k' /\ SqlOffers.fresh zone (e_now e') ex = true
           | None => silent e id end) ->
        exists ids res c' sent, FindOffersDHTDiscovery version supported sha256 pub_of ec_verify blake rand_int ce c (Some cid) (Some gid) num = Ret (OkR res, c', sent) /\
          closest_ok (without (ToString i) members) (ToString cid) num (map ToString ids) /\
          forall id, In id ids -> match met id with
            | Some _ => exists l, aget bytes_eqb res (ToString id) = Some l /\ In (GenerateSubCIDOffer o cid) l
            | None => aget bytes_eqb res (ToString id) = None end.
  Proof using Law AC GP sha256_len rand_int_64 version_32 supported_32.
    intros Sz L I K A Pi Hp Pk Cs D Bp Bq Mg Sn Kn Lm Out.
    assert (Rp : ProviderSpec.ready ec_sign blake (s_before s)) by (exists pid, k; auto).
    destruct (ProviderSendProofs.near_asked_pf version supported sha256 sha512_256 pub_of ec_sign ec_verify blake reg ss s p' cid [] _ _ _ members Law (conj version_32 supported_32) Sz L I K A Rp D Mg Kn Lm) as (near & os & (Cl & Nm) & Ob & Asked).
    assert (exists o, os = [o]) as (o & ->).
    { destruct Ob as (cids & x1 & x2 & x3 & _ & D' & Ln & _). rewrite D in D'. apply ret_inj in D'. injection D' as <- <- <- <-. destruct os as [|o [|]]; [discriminate| |discriminate]. exists o. reflexivity. }
    exists o. split; [exact Ob|]. intros after New Aft ce c gw e g gid num i met Rep Rdy Rch Ac Gi Mg2 Sn2 Kn2 Hm Rng It Tt It10 Ky Cp Met.
    destruct Ob as (cids & x1 & x2 & x3 & _ & D' & _ & Mk). rewrite D in D'. apply ret_inj in D'. injection D' as <- <- <- <-.
    destruct (Mk 0%nat o eq_refl) as (cid' & pr' & ex' & q' & Q1 & Q2 & Q3 & Q4 & Mb). cbn [nth_error] in Q1, Q2, Q3, Q4.
    injection Q1 as <-. injection Q2 as <-. injection Q3 as <-. injection Q4 as <-. clear Mk.
    destruct Mb as (pid' & k' & Pi' & Pk' & Op & Oc & Opr & Oe & Oq & Ov). assert (pid' = pid) by congruence. assert (k' = k) by congruence. subst pid' k'.
    assert (B : bindable o = true). { unfold bindable. rewrite Opr, Oq. apply andb_true_iff. split; apply Z.ltb_lt; assumption. }
    assert (Can : forall v, In v members -> canonical v). { intros v Iv. apply (proj2 Kn) in Iv as (x & Ex). exact (g_canon _ _ (managed_ginv _ _ Mg) v x Ex). }
    assert (Hc : id32 cid) by exact (proj1 Hm).
    (* what became of the gateways the client's gateway asks *)
    assert (Stk : forall id, id32 id -> near_one (without (ToString i) members) (ToString cid) num (ToString id) ->
      stocked (after id) (hist_after o (at_first id)) /\ all_undisturbed (hist_after o (at_first id)) /\ sized (hist_after o (at_first id)) /\ wire_offer sha256 o /\ recorded (hist_after o (at_first id)) o).
    { intros id Hid (l & Cl' & Il). assert (IL : In (ToString id) (map fst near)) by (eapply nearest_within; [exact (proj1 Kn)|exact Can|exact Cl'|exact Cl|lia|exact Il]).
      assert (N1 : near_one members (ToString cid) 16 (ToString id)) by (exists (map fst near); auto).
      apply in_map_iff in IL as ((v & inf) & Ev & In'). cbn [fst] in Ev. subst v. assert (Gm := Nm _ _ In'). assert (Ni := Sn _ _ Gm).
      apply In_nth_error in In' as (j & Ej). destruct (Out id Hid N1) as (Cn & Net & Rd & Kp & Fd & St & U & Sd).
      destruct (Asked j _ id Ej) as (request & Is & Dr); [cbn [snd]; rewrite Ni; exact (proj1 (id_hex_roundtrip_pf id Hid))|apply Cn|].
      destruct (ProviderListProofs.life2_ok version supported sha256 sha512_256 pub_of ec_sign ec_verify blake ss Law (conj version_32 supported_32) _ _ (proj1 (ProviderAckProofs.new_safe sha256 reg)) Sz L) as (_ & _ & X).
      destruct (X _ _ _ _ I Is) as ((k' & Pk'' & Own) & _). assert (k' = k) by congruence. subst k'. clear X.
      unfold ProviderSpec.lists in Dr. rewrite Pi in Dr. assert (N := New id Hid N1).
      destruct (dht_taken (at_env (at_first id)) (at_state (at_first id)) (at_hist (at_first id)) pid k request o Rd Kp Fd St Dr Own Op Ov B N) as (g' & r & Es & _ & St' & W).
      destruct (Aft _ _ _ Is) as (a & Ea). rewrite Es in Ea. apply ret_inj in Ea. injection Ea as <- _.
      split; [exact St'|]. split; [|split; [|split; [exact W|apply new_recorded; [exact N|apply Fd]]]].
      - intros x f Ix. apply in_app_or in Ix as [Ix|[Ix|[]]]; [exact (U x f Ix)|]. injection Ix as <- <-. intros t _. apply Fd.
      - intros x f Ix. apply in_app_or in Ix as [Ix|[Ix|[]]]; [exact (Sd x f Ix)|]. injection Ix as <- <-. rewrite Oc. reflexivity. }
    assert (Emin : Z.min num 16 = num) by lia.
    set (met' := fun id => match met id with Some (e', k') => Some (Contact e' (after id) (hist_after o (at_first id)) k') | None => None end).
    assert (Wl : (15 <= length (without (ToString i) members))%nat).
    { pose proof (without_length (ToString i) members (sorted_nodup members (proj1 Kn))) as Wl. lia. }
    destruct (found_dht_pf version supported sha256 sha512_256 pub_of ec_sign ec_verify blake verify voucher_text voucher_of is_address zone BindAdminAPI BindRestAPI BindGatewayAPI BindProviderAPI rand_int
      Law AC GP sha256_len rand_int_64 version_32 supported_32 ce c gw e g cid gid num i members met' Rep Rdy Rch Ac Gi Mg2 Sn2 Kn2 Hm) as (ids & res & c' & m & g' & r & E & Cl2 & Hids & _ & Found & _); try assumption; try (unfold int64; lia).
    { intros id Hid Ne. rewrite Emin in Ne. specialize (Met id Hid Ne). unfold met'. destruct (met id) as [[e' k']|]; [|exact Met].
      destruct Met as (Lk & Cll & _). split; [|exact Cll]. destruct (Stk id Hid Ne) as (S1 & S2 & S3 & _). split; [exact Lk|]. auto. }
    rewrite Emin in Cl2. exists ids, res, c', [(r_client_ap gw, m)]. split; [exact E|]. split; [exact Cl2|].
    intros id Iid. specialize (Found id Iid). unfold met' in Found. rewrite Forall_forall in Hids. assert (Hid := Hids id Iid).
    assert (Ne : near_one (without (ToString i) members) (ToString cid) num (ToString id)) by (exists (map ToString ids); split; [exact Cl2|apply in_map; exact Iid]).
    specialize (Met id Hid Ne). destruct (met id) as [[e' k']|]; [|exact Found]. destruct Met as (_ & _ & Fr). destruct Found as (os & l & Gl & Sale & Sf). cbn [at_hist at_env] in Sale.
    destruct (Stk id Hid Ne) as (_ & _ & _ & W & Rec). exists l. split; [exact Gl|]. eapply sifted_keeps; [exact Sf| |eapply believed; [exact Cp|exact Op|exact Ov|exact W|rewrite Oc; left; reflexivity]].
    apply in_map_iff. exists o. split; [reflexivity|]. eapply sold; [exact Sale|exact Rec|rewrite Oe; exact Fr|rewrite Oc; left; reflexivity].
  Qed.
End market.
