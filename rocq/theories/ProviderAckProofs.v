(** * Proofs about listings, acknowledgements and the answers given later *)
From Coq Require Import List ZArith Bool Lia Permutation Sorting.Sorted ZifyBool ZifyNat.
From Coq Require Import Init.Byte.
From Verif Require Import Base BaseProofs Ids IdsProofs Json Crypto Message MessageProofs Offer OfferProofs Schema SchemaProofs Merkle Messages MessagesProofs WireSpec
  Ring RingSpec Register RegisterProofs OfferStore OfferStoreSpec OfferStoreProofs OfferStoreHist OfferStoreFacts Rest Gateway GatewaySpec GatewayProofs GatewayStoreProofs
  Provider ProviderSpec ProviderProofs ProviderLifeProofs ProviderListProofs ProviderServeProofs.
Import ListNotations.
Open Scope Z_scope.
Open Scope go_scope.

(** ** Messages inside messages *)
Lemma elems_inv {A} (P : A -> Prop) (dec : json -> option A) zero : P zero -> (forall j a, dec j = Some a -> P a) ->
  forall l x, dec_elems dec zero l = Some x -> Forall P x.
Proof.
  intros Z D. induction l as [|j t IH]; intros x; cbn [dec_elems]; [intros [= <-]; constructor|].
  destruct (match j with JNull => Some zero | _ => dec j end) as [a|] eqn:Ea; [|discriminate].
  destruct (dec_elems dec zero t) as [r|]; [|discriminate]. intros [= <-]. constructor; [|auto].
  destruct j; eauto. injection Ea as <-. exact Z.
Qed.
Lemma message_wire j m : message_of_json j = Some m -> wire_message m.
Proof.
  destruct j; cbn [message_of_json]; try discriminate.
  match goal with |- match ?x with _ => _ end = _ -> _ => destruct x as [t|] eqn:Et; [|discriminate] end.
  match goal with |- match ?x with _ => _ end = _ -> _ => destruct x as [v|] eqn:Ev; [|discriminate] end.
  match goal with |- match ?x with _ => _ end = _ -> _ => destruct x as [s|] eqn:Es; [|discriminate] end.
  match goal with |- match ?x with _ => _ end = _ -> _ => destruct x; [|discriminate] end.
  match goal with |- match ?x with _ => _ end = _ -> _ => destruct x; [|discriminate] end.
  intros [= <-]. unfold wire_message. cbn [m_type m_version m_supported].
  split; [|split].
  - apply int_range in Et; [unfold int32; lia|lia].
  - apply int_range in Ev; [unfold int32; lia|lia].
  - apply ints_range in Es; [|lia]. destruct s; [|exact I]. cbn [each] in *. eapply Forall_impl; [|exact Es]. cbn. unfold int32. lia.
Qed.
Lemma dec_message_wire j m : dec_message j = Some m -> wire_message m.
Proof.
  unfold dec_message. destruct j; try apply message_wire. intros [= <-]. unfold wire_message, zero_message, int32. cbn. lia.
Qed.
Lemma msgs_wire name f x : jslice (dec_list dec_message zero_message) name f = Some x -> each wire_message x.
Proof.
  intros H. destruct x as [l|]; [|exact I]. refine (jslice_inv (Forall wire_message) _ _ _ _ _ H l eq_refl).
  intros j a. destruct j; cbn [dec_list]; try discriminate. apply elems_inv; [|apply dec_message_wire].
  unfold wire_message, zero_message, int32. cbn. lia.
Qed.
Lemma list_ack_wire sha m l : DecodeGatewayListDHTOfferAck sha m = Ret (OkR l) -> each wire_message l.
Proof.
  intros H. apply rbind_inv in H. destruct H as ([x u] & E & H). apply ret_inj in H. injection H as <-.
  unfold decode, unmarshal_body in E. destruct (negb _); [discriminate|]. destruct (json_parse _) as [[| | | | | |fs]|]; try discriminate.
  - apply ret_inj in E. injection E as <- _. exact I.
  - step E. destruct v as [v|]; [|discriminate]. apply ret_inj in E. injection E as ->. cbn [dec_fields gatewayListDHTOfferAck fdec obind] in E0.
    apply ret_inj in E0. destruct (jslice _ _ _) as [y|] eqn:J; [|discriminate]. injection E0 as <- _. eapply msgs_wire; eauto.
Qed.
Lemma list_response_wire sha m l : DecodeGatewayListDHTOfferResponse sha m = Ret (OkR l) -> each wire_message l.
Proof.
  intros H. apply rbind_inv in H. destruct H as ([x u] & E & H). apply ret_inj in H. injection H as <-.
  unfold decode, unmarshal_body in E. destruct (negb _); [discriminate|]. destruct (json_parse _) as [[| | | | | |fs]|]; try discriminate.
  - apply ret_inj in E. injection E as <- _. exact I.
  - step E. destruct v as [v|]; [|discriminate]. apply ret_inj in E. injection E as ->. cbn [dec_fields gatewayListDHTOfferResponse fdec obind] in E0.
    apply ret_inj in E0. destruct (jslice _ _ _) as [y|] eqn:J; [|discriminate]. injection E0 as <- _. eapply msgs_wire; eauto.
Qed.

Lemma group_offer_sound sha m id nonce o : DecodeProviderPublishGroupOfferRequest sha m = Ret (OkR (id, nonce, o)) -> exists x, o = Some x /\ sound_offer sha x.
Proof.
  intros H. apply rbind_inv in H. destruct H as ((f1 & f2 & f3 & []) & E & H). apply decode_sound in E. apply ret_inj in H. injection H as <- <- <-.
  cbn in E. exists f3. tauto.
Qed.
Lemma dht_offers_sound sha m id nonce l : DecodeProviderPublishDHTOfferRequest sha m = Ret (OkR (id, nonce, l)) -> each (sound_offer sha) l.
Proof.
  intros H. apply rbind_inv in H. destruct H as ((f1 & f2 & f3 & f4 & []) & E & H). apply decode_sound in E.
  step H; [discriminate|]. apply ret_inj in H. injection H as <- <- <-. cbn in E. tauto.
Qed.

Section acks.
  Variable version : Z.
  Variable supported : list Z.
  Variable sha256 sha512_256 : bytes -> bytes.
  Variable pub_of : bytes -> bytes.
  Variable ec_sign : bytes -> bytes -> option bytes.
  Variable ec_verify : bytes -> bytes -> bytes -> bool.
  Variable blake : bytes -> bytes.

  Local Notation signed_by := (signed_by pub_of ec_verify blake).
  Local Notation countersigned := (countersigned sha256 pub_of ec_verify blake).
  Local Notation pact := (pact version supported sha256 sha512_256 pub_of ec_sign ec_verify blake).
  Local Notation lived := (lived version supported sha256 sha512_256 pub_of ec_sign ec_verify blake).
  Local Notation sized := (sized sha256).
  Local Notation versions := (versions version supported).
  Local Notation safe_heap := (safe_heap sha256).
  Local Notation own := (own pub_of ec_verify blake).
  Local Notation lists := (lists sha256).
  Local Notation batch := (batch sha256 pub_of ec_verify blake).
  Local Notation ordered := (ordered sha256 pub_of ec_verify blake).
  Local Notation orderly := (orderly sha256 sha512_256 pub_of ec_verify blake).
  Local Notation stocked := (stocked sha256 pub_of ec_verify blake).
  Local Notation vouches := (vouches sha256 pub_of ec_verify blake).
  Local Notation carries_dht := (carries_dht sha256).
  Local Notation record_acks := (record_acks sha256 pub_of ec_verify blake).
  Local Notation ready := (ready ec_sign blake).
  Local Notation batches := (batches version supported ec_sign blake).

  Lemma lived_snoc ss : forall p s p', lived p (ss ++ [s]) p' -> exists q reg, lived p ss q /\ s_before s = p_with_reg q reg /\
    pact (s_env s) (s_before s) (s_kind s) (s_msg s) = Ret (s_after s, s_answers s, s_sent s) /\ p' = s_after s.
  Proof.
    induction ss as [|x t IH]; intros p s p' H; cbn [app ProviderSpec.lived] in H.
    - destruct H as ((reg & B) & P & ->). exists p, reg. split; [reflexivity|auto].
    - destruct H as (B & P & L). destruct (IH _ _ _ L) as (q & reg & L' & X). exists q, reg. split; [cbn; auto|exact X].
  Qed.
  Lemma new_safe reg : safe_id (NewProvider reg) /\ safe_heap (NewProvider reg) /\ singles (NewProvider reg).
  Proof. split; [intros b [=]|]. split; [constructor|]. intros q (k & m & d & [] & _). Qed.

  (** ** A listing in a life *)
  Lemma listed_pf reg ss s p' acks r : ecdsa_correct pub_of ec_sign ec_verify -> versions -> sized (ss ++ [s]) -> lived (NewProvider reg) (ss ++ [s]) p' ->
    s_kind s = ListDHT acks -> s_answers s = [r] -> shuffle (pe_digests (s_env s)) ->
    exists gid lo hi a b c d i msgs parts,
      DecodeGatewayListDHTOfferRequest sha256 (s_msg s) = Ret (OkR (Some gid, Some lo, Some hi, a, b, c, d)) /\
      ProviderSpec.known s gid i /\ signed_by i (s_msg s) /\ own (s_before s) r /\
      DecodeGatewayListDHTOfferResponse sha256 r = Ret (OkR (Some msgs)) /\ Forall2 (batch (s_before s)) msgs parts /\
      (forall o, In o (concat parts) -> exists s', In s' ss /\ ordered s' o) /\
      (orderly (ss ++ [s]) -> exists hist, stocked ss hist /\
         nearest lo 500 (concat parts) (fun o => single_offer hist o /\ live (pe_now (s_env s)) o /\ offset lo o <= cw (be_val lo) (be_val hi))).
  Proof.
    intros Law Vs Sz L K An Sh. destruct (lived_snoc _ _ _ _ L) as (q & rg & L' & B & P & _).
    destruct (new_safe reg) as (S1 & S2 & S3). assert (Sz' : sized ss) by (intros x cids pr ex qq I D; eapply Sz; [apply in_or_app; left; exact I|exact D]).
    destruct (life_ok version supported sha256 sha512_256 pub_of ec_sign ec_verify blake ss Law Vs _ _ S1 Sz' L') as (Safe & Heap & _). specialize (Heap S2).
    destruct (life2_ok version supported sha256 sha512_256 pub_of ec_sign ec_verify blake ss Law Vs _ _ S1 Sz' L') as (From & Sing & _). specialize (Sing S3).
    rewrite K, An in P. unfold ProviderSpec.pact in P. step P. destruct v as [p1 rr]. cbn [fst snd] in P. destruct rr as [|rr|]; try discriminate.
    apply ret_inj in P. injection P as P1 P2 P3. subst p1 rr.
    destruct (list_split version supported sha256 sha512_256 pub_of ec_sign ec_verify blake _ _ _ _ _ _ Law Vs E)
      as (gid & lo & hi & a & b & c & d & i & k & reg' & os & f & mm & msgs & D & Ig & Il & Ih & Ki & Dk & V & Rg & Bt & Ow & Dr & _).
    assert (Eh : p_heap (s_before s) = p_heap q /\ p_offers (s_before s) = p_offers q) by (rewrite B; auto). destruct Eh as [Eh Eo].
    assert (Safe1 : safe_id (s_before s)) by (rewrite B; exact Safe).
    assert (Si : pointed (p_heap (s_before s)) (dhtOffers (p_offers (s_before s)))) by (rewrite Eh, Eo; exact Sing).
    destruct (range_one sha512_256 _ _ _ _ _ _ _ _ _ _ Sh Si Rg) as (One & Ne & _).
    assert (Wo : Forall (wire_offer sha256) os).
    { rewrite Forall_forall. intros o I. pose proof (range_in sha512_256 _ _ _ _ _ _ _ _ _ _ Rg o I) as J. rewrite Eh in J. unfold ProviderProofs.safe_heap in Heap. rewrite Forall_forall in Heap. auto. }
    assert (Pt : exists parts, Forall2 (batch (s_before s)) msgs parts /\ concat parts = if f then os else []).
    { destruct f; [|subst msgs; exists []; split; [constructor|reflexivity]]. eapply batches_parts; eauto. }
    destruct Pt as (parts & F & C). exists gid, lo, hi, a, b, c, d, i, msgs, parts.
    split; [exact D|]. split; [exact Ki|]. split; [exists k; auto|]. split; [exact Ow|]. split; [exact Dr|]. split; [exact F|]. split.
    - intros o I. rewrite C in I. destruct f; [|destruct I]. pose proof (range_in sha512_256 _ _ _ _ _ _ _ _ _ _ Rg o I) as J. rewrite Eh in J.
      destruct (From o J) as [[]|X]. exact X.
    - intros Od. destruct (store_life version supported sha256 sha512_256 pub_of ec_sign ec_verify blake ss Law Vs [] _ _ [s] [] S1 Sz' L') as (hist & St & Re); auto.
      + split; [intros t x []|intros t x o []|intros x []|intros x []].
      + constructor.
      + exists hist. split; [exact St|].
        assert (Is : In s (ss ++ [s])) by (apply in_or_app; right; left; reflexivity).
        assert (Al : allowed sha512_256 hist (p_heap (s_before s), p_offers (s_before s)) (pe_now (s_env s)) (GetRange lo hi 500 (pe_digests (s_env s)))).
        { split; [|split; [exact Il|split; [exact Ih|split; [exact Sh|]]]].
          - intros t y I. destruct (st_time _ _ _ _ _ _ St _ _ I) as (s' & J & ->). exact (sorted_before _ _ _ _ (od_clock _ _ _ _ _ _ Od) _ J).
          - cbn [snd]. eapply (od_ring _ _ _ _ _ _ Od); eauto. }
        assert (Re1 : reaches sha512_256 hist (p_heap (s_before s), p_offers (s_before s))) by (rewrite Eh, Eo; exact Re).
        destruct (history_pf sha512_256 _ _ _ _ Re1 Al) as (st & an & Es & Aw). cbn [store_step] in Es. rewrite Rg in Es. cbn [obind fst snd] in Es. apply ret_inj in Es. injection Es as <- <-.
        cbn [OfferStoreSpec.answer] in Aw. destruct Aw as [Af Aw]. change (Z.max 1 500) with 500 in Aw. rewrite C. destruct f; [exact Aw|]. destruct os; [exact Aw|discriminate].
  Qed.

  (** ** Recording acknowledgements *)
  Lemma record_listed_new id a offers : forall m, (forall o, In o offers -> exists c, o_cids o = [c] /\ aget bytes_eqb m (ToString c) <> None) ->
    exists m', record_listed m id a offers = Ret m' /\ (forall c, aget bytes_eqb m c <> None -> aget bytes_eqb m' c <> None) /\
      (forall o c, In o offers -> o_cids o = [c] -> ack_keys m' c id = Some a) /\
      (forall c id', ack_keys m' c id' = ack_keys m c id' \/ ack_keys m' c id' = Some a).
  Proof.
    induction offers as [|o t IH]; intros m H.
    - exists m. split; [reflexivity|]. split; [auto|]. split; [intros o c []|auto].
    - destruct (H o (or_introl eq_refl)) as (c0 & C & G). cbn [record_listed]. rewrite C. destruct (aget bytes_eqb m (ToString c0)) as [inner|] eqn:Ei; [|congruence]. cbn [deref obind].
      set (m1 := aset bytes_eqb m (ToString c0) (aset bytes_eqb inner (ToString id) a)).
      assert (K : forall c id', ack_keys m1 c id' = if bytes_eqb (ToString c) (ToString c0) && bytes_eqb (ToString id') (ToString id) then Some a else ack_keys m c id').
      { intros c id'. unfold ack_keys, m1. rewrite aget_set. destruct (bytes_eqb (ToString c) (ToString c0)) eqn:E; [|reflexivity].
        apply bytes_eqb_eq in E. rewrite E, Ei, aget_set. destruct (bytes_eqb _ _); reflexivity. }
      assert (Kp : forall c, aget bytes_eqb m c <> None -> aget bytes_eqb m1 c <> None).
      { intros c X. unfold m1. rewrite aget_set. destruct (bytes_eqb c (ToString c0)); [discriminate|exact X]. }
      destruct (IH m1) as (m' & E & A & B & D).
      { intros o' I. destruct (H o' (or_intror I)) as (c & X & Y). exists c. split; [exact X|apply Kp, Y]. }
      exists m'. split; [exact E|]. split; [auto|]. split.
      + intros o' c [<-|I] Co; [|eauto]. rewrite C in Co. injection Co as <-. destruct (D c0 id) as [X|X]; [|exact X]. rewrite X, K, !beq_refl. reflexivity.
      + intros c id'. destruct (D c id') as [X|X]; [|auto]. rewrite X, K. destruct (_ && _); auto.
  Qed.

  Lemma record_acks_new id k (P : message -> list offer -> Prop) : (forall msg b, P msg b -> exists pid nonce, DecodeProviderPublishDHTOfferRequest sha256 msg = Ret (OkR (pid, nonce, Some b))) ->
    forall msgs parts acks m, Forall2 P msgs parts -> Forall2 (vouches k) msgs acks ->
    (forall o, In o (concat parts) -> exists c, o_cids o = [c] /\ aget bytes_eqb m (ToString c) <> None) ->
    exists m', record_acks m id k msgs acks = Ret m' /\
      (forall o c, In o (concat parts) -> o_cids o = [c] -> exists x, ack_keys m' c id = Some x /\ In (a_msg x, a_ack x) (combine msgs acks) /\ exists b, P (a_msg x) b) /\
      (forall c id' x, ack_keys m' c id' = Some x -> ack_keys m c id' = Some x \/ In (a_msg x, a_ack x) (combine msgs acks) /\ exists b, P (a_msg x) b).
  Proof.
    intros HP. induction msgs as [|msg msgs IH]; intros parts acks m F V H; inversion F as [|? b ? parts' Fb Fr]; inversion V as [|? ack ? acks' Va Vr]; subst; cbn [Provider.record_acks].
    - exists m. split; [reflexivity|]. split; [intros o c []|auto].
    - destruct Va as (nonce & sg & D & Ok). rewrite D. cbn [obind]. rewrite Ok. destruct (HP _ _ Fb) as (pid & nn & Dm). rewrite Dm. cbn [obind].
      destruct (record_listed_new id (Acknowledgement msg ack) b m) as (m1 & E1 & A1 & B1 & C1). { intros o I. apply H. cbn [concat]. apply in_or_app. left. exact I. }
      rewrite E1. cbn [obind]. destruct (IH parts' acks' m1 Fr Vr) as (m' & E & A & B).
      { intros o I. destruct (H o) as (c & X & Y); [cbn [concat]; apply in_or_app; right; exact I|]. exists c. split; [exact X|apply A1, Y]. }
      exists m'. split; [exact E|]. split.
      + intros o c I Co. cbn [concat] in I. apply in_app_or in I. destruct I as [I|I].
        * pose proof (B1 o c I Co) as X. destruct (ack_keys m' c id) as [x|] eqn:Kx.
          -- exists x. split; [reflexivity|]. destruct (B _ _ _ Kx) as [Y|[Y Z]]; [|cbn [combine]; split; [right; exact Y|exact Z]]. rewrite X in Y. injection Y as <-.
             cbn [a_msg a_ack combine]. split; [left; reflexivity|exists b; exact Fb].
          -- exfalso. destruct (record_acks_rel sha256 pub_of ec_verify blake _ _ _ _ _ _ E) as (_ & Kp & _). apply (Kp c id); [congruence|exact Kx].
        * destruct (A o c I Co) as (x & X & Y & Z). exists x. split; [exact X|]. split; [cbn [combine]; right; exact Y|exact Z].
      + intros c id' x X. destruct (B _ _ _ X) as [Y|[Y Z]].
        * destruct (C1 c id') as [Z|Z]; [left; congruence|]. rewrite Z in Y. injection Y as <-. right. cbn [a_msg a_ack combine]. split; [left; reflexivity|exists b; exact Fb].
        * right. split; [cbn [combine]; right; exact Y|exact Z].
  Qed.

  (** ** An acknowledged listing *)
  Lemma acked_pf reg ss s p' r gid lo hi x1 x2 x3 x4 i msgs acks a l : ecdsa_correct pub_of ec_sign ec_verify -> versions -> sized (ss ++ [s]) ->
    lived (NewProvider reg) (ss ++ [s]) p' -> s_kind s = ListDHT (fun _ => None) -> s_answers s = [r] -> shuffle (pe_digests (s_env s)) ->
    DecodeGatewayListDHTOfferRequest sha256 (s_msg s) = Ret (OkR (Some gid, lo, hi, x1, x2, x3, x4)) ->
    DecodeGatewayListDHTOfferResponse sha256 r = Ret (OkR (Some msgs)) -> registered s gid i ->
    acks r = Some a -> signed_by i a -> DecodeGatewayListDHTOfferAck sha256 a = Ret (OkR (Some l)) -> Forall2 (countersigned i) msgs l ->
    (forall msg o c, In msg msgs -> carries_dht msg o -> o_cids o = [c] -> exists id, kept_ack (s_before s) c id <> None) ->
    exists p2, pact (s_env s) (s_before s) (ListDHT acks) (s_msg s) = Ret (p2, [r], []) /\
      forall msg o c, In msg msgs -> carries_dht msg o -> o_cids o = [c] ->
        exists x, kept_ack p2 c gid = Some x /\ In (a_msg x, a_ack x) (combine msgs l).
  Proof.
    intros Law Vs Sz L K An Sh Dq Dr Rg Ea (k & Dk & Va) Da Cs Inner.
    destruct (listed_pf _ _ _ _ _ _ Law Vs Sz L K An Sh) as (gid' & lo' & hi' & a' & b' & c' & d' & i' & msgs' & parts & Dq' & Kn & _ & Ow & Dr' & F & Or & _).
    rewrite Dq in Dq'. apply ret_inj in Dq'. injection Dq' as <- -> -> <- <- <- <-. rewrite Dr in Dr'. apply ret_inj in Dr'. injection Dr' as <-.
    destruct (lived_snoc _ _ _ _ L) as (q & rg & _ & B & P & _). rewrite K, An in P. unfold ProviderSpec.pact in P. step P. destruct v as [p1 rr]. cbn [fst snd] in P. destruct rr as [|rr|]; try discriminate.
    apply ret_inj in P. injection P as P1 P2 P3. subst p1 rr.
    destruct (list_split version supported sha256 sha512_256 pub_of ec_sign ec_verify blake _ _ _ _ _ _ Law Vs E)
      as (gid2 & lo2 & hi2 & a2 & b2 & c2 & d2 & i2 & k2 & reg2 & os & f & mm & msgs2 & Dq2 & Ig & _ & _ & Ki & Dk2 & _ & _ & _ & _ & Dr2 & Run).
    rewrite Dq in Dq2. apply ret_inj in Dq2. injection Dq2 as <- <- <- <- <- <- <-. rewrite Dr in Dr2. apply ret_inj in Dr2. injection Dr2 as <-.
    assert (i2 = i) by (destruct Rg as (_ & _ & _ & U); apply U; exact Ki). subst i2. rewrite Dk in Dk2. apply ret_inj in Dk2. injection Dk2 as <-.
    assert (Vo : Forall2 (vouches k) msgs l).
    { clear -Cs Dk. induction Cs as [|x y ? ? (k' & n & sg & D & R & V)]; constructor; auto. rewrite Dk in D. apply ret_inj in D. injection D as <-. exists n, sg. auto. }
    assert (HP : forall msg b, batch (s_before s) msg b -> exists pid nonce, DecodeProviderPublishDHTOfferRequest sha256 msg = Ret (OkR (pid, nonce, Some b))).
    { intros msg b (Ls & _). eexists _, _. exact Ls. }
    assert (Cov : forall o, In o (concat parts) -> exists msg, In msg msgs /\ carries_dht msg o).
    { clear -F. induction F as [|m b msgs parts (Ls & _) F IH]; intros o I; [destruct I|]. cbn [concat] in I. apply in_app_or in I. destruct I as [I|I].
      - exists m. split; [left; reflexivity|]. eexists _, _, b. split; [exact Ls|exact I].
      - destruct (IH o I) as (m' & J & X). exists m'. split; [right; exact J|exact X]. }
    assert (Voc : forall msg o, In msg msgs -> carries_dht msg o -> In o (concat parts)).
    { clear -F. induction F as [|m b msgs parts (Ls & _) F IH]; intros msg o I Ca; [destruct I|]. cbn [concat]. apply in_or_app. destruct I as [<-|I]; [left|right; eauto].
      destruct Ca as (pid & n & bb & D & J). unfold ProviderSpec.lists in Ls. rewrite D in Ls. apply ret_inj in Ls. injection Ls as -> -> ->. exact J. }
    destruct (record_acks_new gid k _ HP msgs parts l (p_acks (s_before s)) F Vo) as (m' & Em & A & _).
    { intros o I. destruct (Cov o I) as (msg & J & Ca).
      assert (One : exists c, o_cids o = [c]).
      { destruct (Or o I) as (s' & _ & _). destruct Ca as (pid & n & bb & D & Jb). pose proof D as D'. apply rbind_inv in D'. destruct D' as ((f1 & f2 & f3 & f4 & []) & _ & D').
        step D'; [discriminate|]. apply ret_inj in D'. injection D' as _ _ ->. apply negb_false_iff in E0. rewrite forallb_forall in E0. specialize (E0 o Jb). apply Nat.eqb_eq in E0.
        destruct (o_cids o) as [|c [|]]; try discriminate. eauto. }
      destruct One as (c & Co). exists c. split; [exact Co|]. destruct (Inner msg o c J Ca Co) as (id & Kp). unfold kept_ack in Kp. destruct (aget bytes_eqb (p_acks (s_before s)) (ToString c)); congruence. }
    specialize (Run acks). rewrite Ea in Run. unfold acked in Run.
    destruct (MessageVerify pub_of ec_verify blake a k) as [good aa] eqn:Vm. cbn [fst] in Va. subst good. cbn [fst snd negb] in Run.
    assert (aa = a) by (eapply verify_same; eauto). subst aa. rewrite Da in Run. cbn [obind] in Run.
    assert (Ln : length l = length msgs) by (clear -Cs; induction Cs; cbn [length]; congruence). rewrite Ln, Nat.eqb_refl in Run. cbn [negb p_with_store p_with_reg p_acks] in Run. rewrite Em in Run. cbn [obind] in Run.
    eexists. split; [unfold ProviderSpec.pact; rewrite Run; cbn [obind fst snd]; reflexivity|].
    intros msg o c I Ca Co. destruct (A o c (Voc _ _ I Ca) Co) as (x & X & Y & _). exists x. split; [exact X|exact Y].
  Qed.

  (** ** Everything kept can be written to the wire *)
  Lemma made_wire p enc tag x : versions -> int32 tag -> (forall b, enc = Ret b -> fresh version supported tag b) ->
    made_with ec_sign blake p enc x -> wire_message (snd (fst x)).
  Proof.
    intros (V & Vs) T Fr (b & Eb & Sb). destruct (Fr b Eb) as (T' & V' & S' & _). apply sign_with_inv in Sb. destruct Sb as (g & ->).
    unfold wire_message. cbn [set_sig m_type m_version m_supported]. rewrite T', V', S'. split; [exact T|]. split; [exact V|exact Vs].
  Qed.
  Lemma dht_fresh pid n os b : EncodeProviderPublishDHTOfferRequest version supported pid n os = Ret b -> fresh version supported 302 b.
  Proof. unfold EncodeProviderPublishDHTOfferRequest, encode. intros H. step H. step H. apply ret_inj in H. subst b. repeat split. Qed.
  Lemma group_fresh pid n o b : EncodeProviderPublishGroupOfferRequest version supported pid n o = Ret b -> fresh version supported 300 b.
  Proof. unfold EncodeProviderPublishGroupOfferRequest, encode. intros H. step H. steps H; apply ret_inj in H; subst b; repeat split. Qed.

  Lemma sent_wire s : ecdsa_correct pub_of ec_sign ec_verify -> versions -> safe_id (s_before s) -> sized1 sha256 (s_msg s) ->
    pact (s_env s) (s_before s) (s_kind s) (s_msg s) = Ret (s_after s, s_answers s, s_sent s) ->
    forall id request r, In (id, request, r) (s_sent s) -> wire_message request.
  Proof.
    intros Law Vs Safe Sz H id request r I. unfold ProviderSpec.pact in H. destruct (s_kind s) as [ | | | | | | |acks| ].
    - step H. apply ret_inj in H. injection H as H1 H2 H3. rewrite <- H3 in I.
      destruct (admin_dht_rel _ _ _ _ _ _ _ _ _ _ _ _ Law Safe Sz E) as [(A & B & C)|(cids & price & expiry & qos & os & h & mm & code & D & Ne & De & W & O & L & _ & P & N & R & _)].
      + rewrite B in I. destruct I.
      + destruct (publish_near_made _ _ _ _ _ _ _ _ _ _ _ _ _ _ _ _ N) as (_ & new & En & F & _). cbn [app] in En. subst new. rewrite Forall_forall in F.
        exact (made_wire _ _ 302 _ Vs ltac:(unfold int32; lia) (fun b => dht_fresh _ _ _ b) (F _ I)).
    - step H. apply ret_inj in H. injection H as H1 H2 H3. rewrite <- H3 in I.
      destruct (admin_group_rel _ _ _ _ _ _ _ _ _ _ _ _ Law Safe E) as [(A & B & C)|(cids & price & expiry & qos & o & mm & reg & gws & code & x & D & M & W & _ & P & G & N & R & _)].
      + rewrite B in I. destruct I.
      + destruct (publish_group_to_made _ _ _ _ _ _ _ _ _ _ _ _ _ _ _ _ _ N) as (_ & new & En & F & _). cbn [app] in En. subst new. rewrite Forall_forall in F.
        exact (made_wire _ _ 300 _ Vs ltac:(unfold int32; lia) (fun b => group_fresh _ _ _ b) (F _ I)).
    - step H. apply ret_inj in H. injection H as H1 H2 H3. rewrite <- H3 in I. unfold HandleAdminGetPublished in E. destruct (p_key (s_before s)); [|apply ret_inj in E; subst v; destruct I].
      step E. destruct v0; [|apply ret_inj in E; subst v; destruct I]. step E. apply p_finish_inv in E. destruct E as (A & B & _). rewrite B in I. destruct I.
    - step H. apply ret_inj in H. injection H as H1 H2 H3. rewrite <- H3 in I. unfold HandleAdminInitialiseKey in E. step E. destruct v0 as [[[id0 key] ver]|]; [|apply ret_inj in E; subst v; destruct I].
      step E. step E. apply p_finish_inv in E. destruct E as (A & B & _). rewrite B in I. destruct I.
    - step H. apply ret_inj in H. injection H as H1 H2 H3. rewrite <- H3 in I. unfold HandleAdminInitialiseKeyV2 in E. step E. destruct v0 as [[[[[[id0 key] ver] x1] x2] x3]|]; [|apply ret_inj in E; subst v; destruct I].
      step E. step E; [apply ret_inj in E; subst v; destruct I|]. step E. apply p_finish_inv in E. destruct E as (A & B & _). rewrite B in I. destruct I.
    - step H. apply ret_inj in H. injection H as H1 H2 H3. rewrite <- H3 in I. unfold HandleAdminForceRefresh in E. destruct (p_key (s_before s)); [|apply ret_inj in E; subst v; destruct I].
      step E. destruct v0; [|apply ret_inj in E; subst v; destruct I]. step E. step E. apply p_finish_inv in E. destruct E as (A & B & _). rewrite B in I. destruct I.
    - step H. apply ret_inj in H. injection H as H1 H2 H3. rewrite <- H3 in I. unfold HandleOfferAck in E.
      step E. destruct v0 as [[c gid]|]; [|apply ret_inj in E; subst v; destruct I]. step E. step E. step E. step E. step E. apply p_finish_inv in E. destruct E as (A & B & _). rewrite B in I. destruct I.
    - step H. apply ret_inj in H. injection H as H1 H2 H3. rewrite <- H3 in I. destruct I.
    - step H. apply ret_inj in H. injection H as H1 H2 H3. rewrite <- H3 in I. destruct I.
  Qed.

  Lemma lived_in ss : ecdsa_correct pub_of ec_sign ec_verify -> versions -> forall p p', safe_id p -> sized ss -> lived p ss p' -> forall s, In s ss ->
    safe_id (s_before s) /\ sized1 sha256 (s_msg s) /\ pact (s_env s) (s_before s) (s_kind s) (s_msg s) = Ret (s_after s, s_answers s, s_sent s).
  Proof.
    intros Law Vs. induction ss as [|x t IH]; intros p p' Safe Sz H s I; [destruct I|]. cbn [ProviderSpec.lived] in H. destruct H as ((reg & B) & P & L).
    assert (Sz1 : sized1 sha256 (s_msg x)) by (intros cids price expiry qos D; eapply Sz; [left; reflexivity|exact D]).
    assert (Safe1 : safe_id (s_before x)) by (rewrite B; exact Safe).
    destruct I as [<-|I]; [auto|].
    pose proof (step_ok version supported sha256 sha512_256 pub_of ec_sign ec_verify blake x Law Vs Safe1 Sz1 P) as [R1 _ _ _ _ _ _ _].
    assert (Sz2 : sized t) by (intros s' cids price expiry qos J D; eapply Sz; [right; exact J|exact D]). eapply IH; eauto.
  Qed.

  Lemma kept_wire reg ss p : ecdsa_correct pub_of ec_sign ec_verify -> versions -> sized ss -> wired ss -> lived (NewProvider reg) ss p ->
    forall c id x, id32 c -> id32 id -> kept_ack p c id = Some x -> wire_message (a_msg x) /\ wire_message (a_ack x).
  Proof.
    intros Law Vs Sz Wi L c id x Ic I K. destruct (new_safe reg) as (S1 & _ & _).
    destruct (life_ok version supported sha256 sha512_256 pub_of ec_sign ec_verify blake ss Law Vs _ _ S1 Sz L) as (_ & _ & _ & _ & _ & G & _).
    destruct (G _ _ _ Ic I K) as [X|(s & Is & i & o & Cm & _)]; [discriminate X|]. destruct Cm as [[Se _]|(acks & m & a & msgs & l & _ & _ & _ & _ & Da & Dm & Ln & Ix)].
    - destruct (lived_in ss Law Vs _ _ S1 Sz L s Is) as (A & B & C). split; [eapply sent_wire; eauto|eapply Wi; eauto].
    - apply list_ack_wire in Da. apply list_response_wire in Dm. cbn [each] in Da, Dm. rewrite Forall_forall in Da, Dm.
      split; [apply Dm; eapply in_combine_l; eauto|apply Da; eapply in_combine_r; eauto].
  Qed.

  (** ** Acknowledgements for clients *)
  Lemma ack_request_decoded m c id : DecodeClientDHTOfferAckRequest sha256 m = Ret (OkR (Some c, Some id)) -> id32 c /\ id32 id.
  Proof.
    intros H. apply rbind_inv in H. destruct H as ([f1 [f2 u]] & E & H). apply ret_inj in H. injection H as H1 H2. split; eapply id_ptr_id32; eauto.
  Qed.
  Lemma dummy_wire p n b : versions -> EncodeProviderPublishDHTOfferRequest version supported p n (Some []) = Ret b -> wire_message b.
  Proof. intros (V & Vs) H. apply dht_fresh in H. destruct H as (A & B & C & _). unfold wire_message. rewrite A, B, C. split; [unfold int32; lia|]. split; [exact V|exact Vs]. Qed.
  Lemma dummy_ack_wire n g b : versions -> EncodeProviderPublishDHTOfferResponse version supported n g = Ret b -> wire_message b.
  Proof.
    intros (V & Vs) H. unfold EncodeProviderPublishDHTOfferResponse, encode in H. step H. apply ret_inj in H. subst b. unfold wire_message. cbn [m_type m_version m_supported].
    split; [|split; [exact V|exact Vs]]. unfold int32. change (- 2 ^ 31 <= 303 <= 2 ^ 31 - 1). lia.
  Qed.

  Lemma offer_ack_pf p m v r c id : ecdsa_correct pub_of ec_sign ec_verify -> versions ->
    (forall x, kept_ack p c id = Some x -> wire_message (a_msg x) /\ wire_message (a_ack x)) ->
    DecodeClientDHTOfferAckRequest sha256 m = Ret (OkR (Some c, Some id)) ->
    HandleOfferAck version supported sha256 ec_sign blake p m = Ret v -> p_wrote v = [Json r] ->
    own p r /\ exists found rq ak, DecodeClientDHTOfferAckResponse sha256 r = Ret (OkR (Some c, Some id, found, Some rq, Some ak)) /\
      match kept_ack p c id with Some x => found = true /\ rq = a_msg x /\ ak = a_ack x | None => found = false end.
  Proof.
    intros Law Vs Wk D H W. destruct (ack_request_decoded _ _ _ D) as [Ic Ii]. unfold HandleOfferAck in H. rewrite D in H. cbn [obind] in H.
    step H. rename v0 into dm. step H. rename v0 into da. step H. rename v0 into r0. cbn [deref obind] in H. step H. rename v0 into r1.
    assert (Q : exists found rq ak, DecodeClientDHTOfferAckResponse sha256 r1 = Ret (OkR (Some c, Some id, found, Some rq, Some ak)) /\
      match kept_ack p c id with Some x => found = true /\ rq = a_msg x /\ ak = a_ack x | None => found = false end).
    { assert (N : exists found rq ak, DecodeClientDHTOfferAckResponse sha256 r0 = Ret (OkR (Some c, Some id, found, Some rq, Some ak)) /\ found = false).
      { destruct (rt_ClientDHTOfferAckResponse version supported sha256 c id false dm da Ic Ii (dummy_wire _ _ _ Vs E) (dummy_ack_wire _ _ _ Vs E0)) as (b & Eb & _ & Db).
        rewrite E1 in Eb. apply ret_inj in Eb. subst b. exists false, dm, da. auto. }
      unfold kept_ack in *. destruct (aget bytes_eqb (p_acks p) (ToString c)) as [inner|]; [|apply ret_inj in E2; subst r1; exact N]. cbn [deref obind] in E2.
      destruct (aget bytes_eqb inner (ToString id)) as [x|]; [|apply ret_inj in E2; subst r1; exact N].
      destruct (Wk x eq_refl) as [W1 W2]. destruct (rt_ClientDHTOfferAckResponse version supported sha256 c id true (a_msg x) (a_ack x) Ic Ii W1 W2) as (b & Eb & _ & Db).
      rewrite E2 in Eb. apply ret_inj in Eb. subst b. exists true, (a_msg x), (a_ack x). auto. }
    unfold p_finish in H. step H. apply ret_inj in H. subst v. cbn [p_wrote] in W. injection W as ->. unfold SignAndWrite in E3. step E3. destruct v as [ok mm]. cbn [fst snd] in E3.
    destruct ok; [|apply ret_inj in E3; discriminate]. apply ret_inj in E3. injection E3 as <-. split; [eapply sign_own; eauto|].
    apply sign_with_inv in E4. destruct E4 as (g & ->). exact Q.
  Qed.

  Lemma finish_total p k response : p_key p = Some k -> can_sign ec_sign blake k -> exists r, p_finish ec_sign blake p response = Ret (PServed p [Json r] []).
  Proof.
    intros K C. unfold p_finish. rewrite K. destruct (ReputationProofs.sign_write ec_sign blake k (p_ver p) 500 response C) as (s & E). rewrite E. cbn [obind]. eauto.
  Qed.
  Lemma offer_ack_total p m c id : versions -> ready p -> (forall x, kept_ack p c id = Some x -> wire_message (a_msg x) /\ wire_message (a_ack x)) ->
    DecodeClientDHTOfferAckRequest sha256 m = Ret (OkR (Some c, Some id)) ->
    exists r, HandleOfferAck version supported sha256 ec_sign blake p m = Ret (PServed p [Json r] []).
  Proof.
    intros Vs (pid & k & Pid & Ip & K & Cs) Wk D. destruct (ack_request_decoded _ _ _ D) as [Ic Ii]. unfold HandleOfferAck. rewrite D. cbn [obind]. rewrite Pid.
    destruct (rt_ProviderPublishDHTOfferRequest version supported sha256 pid 0 (Some [])) as (dm & E & _); auto; try (unfold int64, slice_len; cbn; lia); try constructor.
    rewrite E. cbn [obind]. destruct (rt_ProviderPublishDHTOfferResponse version supported sha256 0 []) as (da & E0 & _); [unfold int64; lia|]. rewrite E0. cbn [obind].
    destruct (rt_ClientDHTOfferAckResponse version supported sha256 c id false dm da Ic Ii (dummy_wire _ _ _ Vs E) (dummy_ack_wire _ _ _ Vs E0)) as (b & Eb & _). rewrite Eb. cbn [obind deref].
    unfold kept_ack in Wk. destruct (aget bytes_eqb (p_acks p) (ToString c)) as [inner|]; [|apply (finish_total p k); auto]. cbn [obind deref].
    destruct (aget bytes_eqb inner (ToString id)) as [x|]; [|apply (finish_total p k); auto].
    destruct (Wk x eq_refl) as [W1 W2]. destruct (rt_ClientDHTOfferAckResponse version supported sha256 c id true (a_msg x) (a_ack x) Ic Ii W1 W2) as (b' & Eb' & _). rewrite Eb'. cbn [obind].
    apply (finish_total p k); auto.
  Qed.

  (** ** What the administrator is told *)
  Lemma not_both m x y : DecodeProviderPublishDHTOfferRequest sha256 m = Ret (OkR x) -> DecodeProviderPublishGroupOfferRequest sha256 m = Ret (OkR y) -> False.
  Proof.
    intros A B. apply rbind_inv in A. destruct A as (v & A & _). apply rbind_inv in B. destruct B as (w & B & _).
    destruct (Z.eq_dec (m_type m) 302); [rewrite decode_tag in B|rewrite decode_tag in A]; try discriminate; unfold ProviderPublishGroupOfferRequestType, ProviderPublishDHTOfferRequestType in *; lia.
  Qed.
  Lemma published_from reg ss p : ecdsa_correct pub_of ec_sign ec_verify -> versions -> sized ss -> lived (NewProvider reg) ss p ->
    forall id o, id32 id -> In o (published p id) -> wire_offer sha256 o /\ exists s, In s ss /\ ordered s o.
  Proof.
    intros Law Vs Sz L id o I Io. destruct (new_safe reg) as (S1 & _ & _).
    destruct (life_ok version supported sha256 sha512_256 pub_of ec_sign ec_verify blake ss Law Vs _ _ S1 Sz L) as (_ & _ & _ & G & _).
    destruct (life2_ok version supported sha256 sha512_256 pub_of ec_sign ec_verify blake ss Law Vs _ _ S1 Sz L) as (_ & _ & Sn).
    destruct (G _ _ I Io) as [[]|(s & request & response & i & Is & Ix & _ & _ & Acc)].
    assert (Q : ordered s o /\ sound_offer sha256 o).
    { destruct (Sn s id request (Some response) Is Ix) as (_ & [(os & Ls & Ob)|(o' & Dg & Og)]).
      - destruct Acc as [[(pid & n & l & D & J) _]|[(pid & n & D) _]]; [|exfalso; eapply not_both; eauto].
        assert (So : each (sound_offer sha256) (Some l)) by (eapply dht_offers_sound; exact D). cbn [each] in So. rewrite Forall_forall in So.
        unfold ProviderSpec.lists in Ls. rewrite Ls in D. apply ret_inj in D. injection D as <- <- <-. split; [left; exists os; auto|apply So, J].
      - destruct Acc as [[(pid & n & l & D & J) _]|[(pid & n & D) _]]; [exfalso; eapply not_both; eauto|].
        rewrite Dg in D. apply ret_inj in D. injection D as _ _ <-. split; [right; exact Og|].
        assert (Gs : exists x, Some o' = Some x /\ sound_offer sha256 x) by (eapply group_offer_sound; exact Dg). destruct Gs as (x & X & Y). injection X as <-. exact Y. }
    destruct Q as [Or So]. split; [|exists s; auto]. apply So. 
    destruct Or as [(os & (cids & pr & ex & q & _ & _ & _ & Nth) & J)|(cids & pr & ex & q & _ & _ & (pid & k & _ & _ & Op & _))]; [|congruence].
    apply In_nth_error in J. destruct J as (n & J). destruct (Nth n o J) as (c & pr' & ex' & q' & _ & _ & _ & _ & (pid & k & _ & _ & Op & _)). congruence.
  Qed.

  Lemma published_ids_decoded m ids : DecodeProviderAdminGetPublishedOfferRequest sha256 m = Ret (OkR ids) -> Forall id32 ids.
  Proof.
    intros H. apply rbind_inv in H. destruct H as ([f1 u] & E & H). step H. apply ret_inj in H. injection H as <-. eapply ids_text_id32; eauto.
  Qed.

  Lemma get_published_pf e p m v r ids : ecdsa_correct pub_of ec_sign ec_verify -> ids <> [] ->
    (forall id o, id32 id -> In o (published p id) -> wire_offer sha256 o) ->
    DecodeProviderAdminGetPublishedOfferRequest sha256 m = Ret (OkR ids) ->
    HandleAdminGetPublished version supported sha256 ec_sign blake e p m = Ret v -> p_wrote v = [Json r] ->
    own p r /\ DecodeProviderAdminGetPublishedOfferResponse sha256 r =
      Ret (OkR (negb (is_nil (flat_map (published p) ids)), Some (flat_map (published p) ids))).
  Proof.
    intros Law Ne Wp D H W. pose proof (published_ids_decoded _ _ D) as Fi. unfold HandleAdminGetPublished in H. destruct (p_key p) as [k|] eqn:K.
    2:{ apply ret_inj in H. subst v. discriminate W. }
    rewrite D in H. cbn [obind] in H.
    assert (Eo : forall x : list offer, match ids with [] => x | _ => flat_map (published p) ids end = flat_map (published p) ids) by (destruct ids; [congruence|reflexivity]).
    change (fun id : bytes => match aget bytes_eqb (p_published p) (ToString id) with Some l => l | None => [] end) with (published p) in H. rewrite Eo in H.
    assert (We : each (wire_offer sha256) (Some (flat_map (published p) ids))).
    { cbn [each]. rewrite Forall_forall in *. intros o Io. apply in_flat_map in Io. destruct Io as (id & I & J). eapply Wp; eauto. }
    destruct (rt_ProviderAdminGetPublishedOfferResponse version supported sha256 (negb (is_nil (flat_map (published p) ids))) _ We) as (b & Eb & _ & Db).
    rewrite Eb in H. cbn [obind] in H. unfold p_finish in H. step H. apply ret_inj in H. subst v. cbn [p_wrote] in W. injection W as ->.
    unfold SignAndWrite in E. step E. destruct v as [ok mm]. cbn [fst snd] in E. destruct ok; [|apply ret_inj in E; discriminate]. apply ret_inj in E. injection E as <-.
    split; [eapply sign_own; eauto|]. apply sign_with_inv in E0. destruct E0 as (g & ->). exact Db.
  Qed.
  Lemma get_published_total e p m ids : ready p -> ids <> [] -> (forall id o, id32 id -> In o (published p id) -> wire_offer sha256 o) ->
    DecodeProviderAdminGetPublishedOfferRequest sha256 m = Ret (OkR ids) ->
    exists r, HandleAdminGetPublished version supported sha256 ec_sign blake e p m = Ret (PServed p [Json r] []).
  Proof.
    intros (pid & k & Pid & Ip & K & Cs) Ne Wp D. pose proof (published_ids_decoded _ _ D) as Fi. unfold HandleAdminGetPublished. rewrite K, D. cbn [obind].
    assert (Eo : forall x : list offer, match ids with [] => x | _ => flat_map (published p) ids end = flat_map (published p) ids) by (destruct ids; [congruence|reflexivity]).
    change (fun id : bytes => match aget bytes_eqb (p_published p) (ToString id) with Some l => l | None => [] end) with (published p). rewrite Eo.
    assert (We : each (wire_offer sha256) (Some (flat_map (published p) ids))).
    { cbn [each]. apply Forall_forall. intros o Io. apply in_flat_map in Io. destruct Io as (id & I & J). apply (Wp id); auto. rewrite Forall_forall in Fi; auto. }
    destruct (rt_ProviderAdminGetPublishedOfferResponse version supported sha256 (negb (is_nil (flat_map (published p) ids))) _ We) as (b & Eb & _). rewrite Eb. cbn [obind].
    apply (finish_total p k); auto.
  Qed.
End acks.
