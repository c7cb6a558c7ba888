(** * Proofs about the whole of a paid search through other gateways *)
From Coq Require Import String List ZArith Bool Lia Permutation.
From Coq Require Import Init.Byte.
From Verif Require Import Base BaseProofs Ids IdsProofs Crypto CryptoProofs Message MessageProofs Offer OfferProofs Schema SchemaProofs Messages MessagesSpec MessagesProofs WireSpec Payment PaymentProofs Ring RingSpec Register RegisterSpec RegisterProofs
  OfferStoreSpec SqlOffers SqlOffersSpec SqlOffersProofs Json Rest Routes RoutesProofs Gateway GatewaySpec GatewayProofs GatewayStoreProofs GatewayMoneyProofs GatewayOfferSpec GatewayOfferProofs Client ClientSpec ClientProofs RetrievalSpec RetrievalProofs DhtSpec DhtProofs DhtPaidSpec DhtPaidProofs DhtOfferSpec DhtOfferProofs DhtWholeSpec.
From Verif Require AdminSpec AdminProofs AdminNodeProofs.
Import ListNotations.
Open Scope Z_scope.

(** ** Lists *)
Lemma choose {B} (R : bytes -> B -> Prop) (d : B) (l : list bytes) : (forall id, In id l -> exists y, R id y) -> exists f, forall id, In id l -> R id (f id).
Proof.
  induction l as [|a l IH]; intros H; [exists (fun _ => d); contradiction|].
  destruct (H a (or_introl eq_refl)) as (y & Y). destruct (IH (fun id I => H id (or_intror I))) as (f & F).
  exists (fun id => if bytes_eqb id a then y else f id). intros id I. destruct (bytes_eqb id a) eqn:E; [apply bytes_eqb_eq in E; subst id; exact Y|].
  destruct I as [<-|I]; [rewrite (proj2 (bytes_eqb_eq _ _) eq_refl) in E; discriminate|exact (F _ I)].
Qed.

Lemma total_nonneg sale ids : 0 <= total sale ids.
Proof. induction ids; cbn [total fold_right]; [lia|]. fold (total sale ids). lia. Qed.

Lemma zip_pairs {A B} (l : list (A * B)) : combine (map fst l) (map snd l) = l.
Proof. induction l as [|[a b] l IH]; [reflexivity|]. cbn [map combine fst snd]. rewrite IH. reflexivity. Qed.

Lemma last_any {A} (l : list A) d d' : l <> [] -> last l d = last l d'.
Proof. induction l as [|a [|b l] IH]; intros N; [contradiction|reflexivity|]. change (last (b :: l) d = last (b :: l) d'). apply IH. discriminate. Qed.

Lemma last_map {A B} (f : A -> B) (l : list A) d d' : l <> [] -> last (map f l) d' = f (last l d).
Proof. induction l as [|a [|b l] IH]; intros N; [contradiction|reflexivity|]. change (last (map f (b :: l)) d' = f (last (b :: l) d)). apply IH. discriminate. Qed.

Lemma aset_new {A} (l : list (gostring * A)) k v : ~ In k (map fst l) -> aset bytes_eqb l k v = l ++ [(k, v)].
Proof.
  induction l as [|[a b] l IH]; intros N; [reflexivity|]. cbn [map fst] in N. cbn [aset app]. destruct (bytes_eqb k a) eqn:E.
  - apply bytes_eqb_eq in E. subst a. exfalso. apply N. left. reflexivity.
  - rewrite IH; [reflexivity|]. intros I. apply N. right. exact I.
Qed.

(** Every key has the offers of the last entry. *)
Lemma by_gateway_last (l : list (bytes * list suboffer)) : NoDup (map (fun p => ToString (fst p)) l) ->
  by_gateway l = map (fun p => (ToString (fst p), snd (last l ([], [])))) l.
Proof.
  intros N. unfold by_gateway. destruct l as [|a0 l0] eqn:El; [reflexivity|]. rewrite <- El in *.
  assert (Ne : l <> []) by (rewrite El; discriminate). clear El a0 l0.
  set (v := snd (last l ([], []))).
  assert (G : forall t acc, NoDup (map (fun p : bytes * list suboffer => ToString (fst p)) t) -> (forall p, In p t -> ~ In (ToString (fst p)) (map fst acc)) ->
    fold_left (fun res entry => aset bytes_eqb res (ToString (fst entry)) (snd (last l entry))) t acc = acc ++ map (fun p => (ToString (fst p), v)) t).
  { induction t as [|a t IH]; intros acc Nt Na; [rewrite app_nil_r; reflexivity|]. cbn [fold_left map]. cbn [map] in Nt. inversion Nt as [|? ? Nn Nt']; subst.
    rewrite (last_any l a ([], []) Ne). fold v. rewrite (aset_new acc) by (apply Na; left; reflexivity). rewrite IH; [rewrite <- app_assoc; reflexivity|exact Nt'|].
    intros p I J. rewrite map_app in J. apply in_app_or in J. destruct J as [J|[J|[]]]; [exact (Na p (or_intror I) J)|]. cbn [fst] in J. apply Nn. rewrite J. apply in_map_iff. exists p. split; [reflexivity|exact I]. }
  rewrite (G l []); [reflexivity|exact N|intros p _ []].
Qed.

Section digests.
  Variable sha256 : bytes -> bytes.
  Variable pub_of : bytes -> bytes.
  Variable ec_verify : bytes -> bytes -> bytes -> bool.
  Variable blake : bytes -> bytes.
  Implicit Types (ce : cenv) (c : client).
  Local Notation of_key := (AdminSpec.of_key pub_of ec_verify blake).
  Local Notation client_lists := (client_lists pub_of).

  (** ** The digests *)
  Definition told c (tags : bytes -> list gostring) (p : bytes * message) : Prop :=
    exists k z1 z2 z3 found, client_lists c (fst p) k /\ of_key k (snd p) /\ (found = true <-> tags (fst p) <> []) /\
      DecodeGatewayDHTDiscoverResponseV2 sha256 (snd p) = Ret (OkR (z1, z2, found, Some (tags (fst p)), z3, false, [])).

  Lemma digests_one ce c tags limit id r cs n added : told c tags (id, r) -> added + Z.of_nat (length (tags id)) <= limit ->
    take_digests sha256 pub_of ec_verify blake ce n c ((id, r) :: cs) limit added =
      match tags id with
      | [] => Ret (inl (OkR []), c)
      | _ => if added + Z.of_nat (length (tags id)) >=? limit then Ret (inr [Some (tags id)], c)
             else (let* y := take_digests sha256 pub_of ec_verify blake ce (S n) c cs limit (added + Z.of_nat (length (tags id))) in
                   Ret (match fst y with inl r => inl r | inr ds => inr (Some (tags id) :: ds) end, snd y))%go
      end.
  Proof using.
    intros (k & z1 & z2 & z3 & found & Kl & O & Fo & D) L. cbn [fst snd] in *.
    destruct (find_known pub_of ce n c id k Kl) as (gw & Ef & Ev & pk & Ek & Em).
    cbn [take_digests]. unfold check_response. rewrite Ef. cbn [obind]. rewrite Ev. cbn [obind negb]. unfold Client.GetSigningKey. rewrite Ek. cbn [obind].
    rewrite message_verify_state, (O pk Em). cbn [obind]. rewrite D. cbn [obind items].
    destruct (tags id) as [|d ds].
    - destruct found; [destruct (proj1 Fo eq_refl eq_refl)|reflexivity].
    - rewrite (proj2 Fo) by discriminate. cbn [negb]. replace (added + Z.of_nat (length (d :: ds)) >? limit) with false by lia. reflexivity.
  Qed.

  Lemma digests_taken ce c tags limit : forall cs n added, Forall (told c tags) cs -> (forall p, In p cs -> tags (fst p) <> []) -> added + count_digests (map (fun p => Some (tags (fst p))) cs) <= limit ->
    take_digests sha256 pub_of ec_verify blake ce n c cs limit added = Ret (inr (map (fun p => Some (tags (fst p))) cs), c).
  Proof using.
    induction cs as [|[id r] cs IH]; intros n added F Ne L; [reflexivity|].
    inversion F as [|? ? T F']; subst. cbn [map fst count_digests items] in L.
    assert (C0 := ClientFindProofs.count_nonneg (map (fun p : bytes * message => Some (tags (fst p))) cs)).
    rewrite (digests_one ce c tags limit id r cs n added T) by lia. assert (N0 := Ne _ (or_introl eq_refl)). cbn [fst] in N0. destruct (tags id) as [|d ds] eqn:Et; [contradiction|]. rewrite <- Et in *. cbn [map fst].
    destruct (added + Z.of_nat (length (tags id)) >=? limit) eqn:G.
    - destruct cs as [|[id' r'] cs]; [reflexivity|]. exfalso. assert (Ne' := Ne _ (or_intror (or_introl eq_refl))). cbn [map fst count_digests items] in *.
      assert (C1 := ClientFindProofs.count_nonneg (map (fun p : bytes * message => Some (tags (fst p))) cs)). destruct (tags id'); [contradiction|]. cbn [length] in L. lia.
    - rewrite IH; [reflexivity|exact F'|intros p I; apply Ne; right; exact I|lia].
  Qed.

  (** One that has nothing ends the search. *)
  Lemma digests_ended ce c tags limit : forall cs n added, Forall (told c tags) cs -> (exists p, In p cs /\ tags (fst p) = []) -> added + count_digests (map (fun p => Some (tags (fst p))) cs) < limit ->
    take_digests sha256 pub_of ec_verify blake ce n c cs limit added = Ret (inl (OkR []), c).
  Proof using.
    induction cs as [|[id r] cs IH]; intros n added F (p & I & Em) L; [contradiction|].
    inversion F as [|? ? T F']; subst. cbn [map fst count_digests items] in L.
    assert (C0 := ClientFindProofs.count_nonneg (map (fun p : bytes * message => Some (tags (fst p))) cs)).
    rewrite (digests_one ce c tags limit id r cs n added T) by lia. destruct (tags id) as [|d ds] eqn:Et; [reflexivity|]. rewrite <- Et in *.
    replace (added + Z.of_nat (length (tags id)) >=? limit) with false by lia.
    rewrite IH; [reflexivity|exact F'| |lia]. destruct I as [<-|I]; [cbn [fst] in Em; congruence|]. exists p. split; assumption.
  Qed.
End digests.

Section whole.
  Variable version : Z.
  Variable supported : list Z.
  Variable sha256 sha512_256 : bytes -> bytes.
  Variable pub_of : bytes -> bytes.
  Variable ec_sign : bytes -> bytes -> option bytes.
  Variable ec_verify : bytes -> bytes -> bytes -> bool.
  Variable blake : bytes -> bytes.
  Variable verify : gostring -> voucher -> option bytes -> bool.
  Variable voucher_text : voucher -> gostring.
  Variable voucher_of : gostring -> option voucher.
  Variable is_address : gostring -> bool.
  Variable zone : Z.
  Variable rand_int : list draw -> Z.
  Variables BindAdminAPI BindRestAPI BindGatewayAPI BindProviderAPI : gostring.
  Hypothesis Law : ecdsa_correct pub_of ec_sign ec_verify.
  Hypothesis AC : BindAdminAPI <> BindRestAPI.
  Hypothesis GP : BindGatewayAPI <> BindProviderAPI.
  Hypothesis version_32 : int32 version.
  Hypothesis supported_32 : Forall int32 supported.
  Hypothesis sha256_len : forall x, length (sha256 x) = 32%nat.
  Hypothesis sha512_256_len : forall x, length (sha512_256 x) = 32%nat.
  Hypothesis voucher_readable : forall v, v_terms v = [] -> voucher_of (voucher_text v) = Some v.
  Hypothesis rand_int_64 : forall d, int64 (rand_int d).
  Implicit Types (g : gateway) (e : env) (ce : cenv) (c : client).

  Local Notation api := (client_api version supported sha256 sha512_256 pub_of ec_sign ec_verify blake verify voucher_text voucher_of is_address zone BindAdminAPI BindRestAPI BindGatewayAPI BindProviderAPI).
  Local Notation papi := (peer_api version supported sha256 sha512_256 pub_of ec_sign ec_verify blake verify voucher_of is_address zone BindAdminAPI BindRestAPI BindGatewayAPI BindProviderAPI).
  Local Notation peer := (peer version supported sha256 sha512_256 pub_of ec_sign ec_verify blake verify voucher_of is_address zone BindAdminAPI BindRestAPI BindGatewayAPI BindProviderAPI).
  Local Notation payable := (payable version supported sha256 sha512_256 pub_of ec_sign ec_verify blake verify voucher_of is_address zone BindAdminAPI BindRestAPI BindGatewayAPI BindProviderAPI).
  Local Notation of_key := (AdminSpec.of_key pub_of ec_verify blake).
  Local Notation client_lists := (client_lists pub_of).
  Local Notation receive := (CoreReceive verify voucher_of is_address).
  Local Notation settled := (settled verify is_address).
  Local Notation account := (account verify is_address).
  Local Notation solvent := (solvent verify is_address).
  Local Notation at_hand := (at_hand version supported sha256 sha512_256 pub_of ec_sign ec_verify blake verify voucher_of is_address zone BindAdminAPI BindRestAPI BindGatewayAPI BindProviderAPI).
  Local Notation paid_for := (paid_for version supported sha256 sha512_256 pub_of ec_sign ec_verify blake verify voucher_of is_address zone BindAdminAPI BindRestAPI BindGatewayAPI BindProviderAPI).

  Local Notation told := (told sha256 pub_of ec_verify blake).

  (** ** The account *)
  Lemma account_moved ce e e' c c' gw g g' mg ch n n' : account ce e c gw g mg ch -> c_pay c' = c_pay c -> g_pay g = Some n -> g_pay g' = Some n' -> m_in n' = m_in n -> m_addr n' = m_addr n ->
    e_chain e' (c_addr ch) = e_chain e (c_addr ch) -> account ce e' c' gw g' mg ch.
  Proof using verify is_address.
    clear sha256_len sha512_256_len. intros (n0 & from & b & Cp & Gp & Go & S & Ad & Sg & Ch) E1 E2 E3 E4 E5 E6. assert (n0 = n) by congruence. subst n0. exists n', from, b.
    split; [rewrite E1; exact Cp|]. split; [exact E3|]. split; [exact Go|]. split. { destruct S as (S0 & S1). split; [exact S0|]. rewrite E4. exact S1. }
    split; [exact Ad|]. split; [exact Sg|]. rewrite E6, E5. exact Ch.
  Qed.

  Lemma pays_at_same g g' id a : DhtPaidSpec.same_gateways g g' -> pays_at g id a -> pays_at g' id a.
  Proof using. intros (_ & _ & S) (i & G & A). exists i. rewrite S. split; assumption. Qed.
  Lemma pays_at_one g id a a' : pays_at g id a -> pays_at g id a' -> a = a'.
  Proof using. clear. intros (i & G & A) (i' & G' & A'). congruence. Qed.
  Lemma pays_at_back g g' id a : DhtPaidSpec.same_gateways g g' -> pays_at g' id a -> pays_at g id a.
  Proof using. intros (_ & _ & S) (i & G & A). exists i. rewrite <- S. split; assumption. Qed.

  (** ** The whole *)
  Lemma whole_pf ce c gw e g cid gid num limit i members met funds chn : represents pub_of gw g -> ready ec_sign blake g -> reaches (ce_http ce 0) gw (api e g) ->
    aget bytes_eqb (c_active c) (ToString gid) = Some gw -> g_id g = Some i ->
    managed info (g_reg g) -> self_named (g_reg g) -> knows info (g_reg g) members -> harmless info (g_reg g) cid num (Some i) ->
    length members <> 1%nat -> 1 <= num -> Z.min num 16 <= Z.of_nat (length (without (ToString i) members)) -> int64 num ->
    int64 (ce_now ce + c_ttl c) -> unix e <= ce_now ce + c_ttl c -> int64 (unix e + 10) ->
    solvent ce e 0 c gw g funds chn -> num * defaultSearchPrice <= funds -> 0 < g_search g <= defaultSearchPrice -> consults g -> addresses_differ g ->
    (forall id address, id32 id -> near_one (without (ToString i) members) (ToString cid) (Z.min num 16) (ToString id) -> pays_at g id address ->
       payable met e g address id /\ match met id with Some x => client_lists c id (at_key x) | None => True end) ->
    exists ids sale mid m g1 r1,
      closest_ok (without (ToString i) members) (ToString cid) (Z.min num 16) (map ToString ids) /\ Forall id32 ids /\ NoDup ids /\ api e g m = Ret (g1, [Json r1]) /\
      (forall id x, In id ids -> met id = Some x -> on_sale zone (at_hist x) (e_now (at_env x)) cid (sale id) /\ exists q r, papi (at_env x) (at_state x) q = Ret (mid id, Reply r)) /\
      let asked := filter (met_one met) ids in
      (total sale asked < limit -> (exists id, In id asked /\ sale id = []) -> exists c' mg ch,
         FindOffersDHTDiscoveryV2 version supported sha256 pub_of ec_verify blake voucher_text rand_int ce c (Some cid) (Some gid) num limit = Ret (OkR [], c', [(r_client_ap gw, m)]) /\
         account ce e c' gw g1 mg ch /\ left_in ch = funds - num * defaultSearchPrice) /\
      (asked <> [] -> (forall id, In id asked -> sale id <> []) -> total sale asked <= limit -> forall e2 env2,
       reaches (ce_http ce 2) gw (api e2 g1) -> e_chain e2 chn = e_chain e chn -> e_sign e2 = e_sign e ->
       0 < g_offer g <= c_offer c -> num * defaultSearchPrice + total sale asked * c_offer c <= funds ->
       (forall id x, In id asked -> met id = Some x -> at_hand g e2 id x (env2 id) (mid id) (sale id)) ->
       exists c' m2 g2 r2 mg ch,
         FindOffersDHTDiscoveryV2 version supported sha256 pub_of ec_verify blake voucher_text rand_int ce c (Some cid) (Some gid) num limit =
           Ret (OkR (map (fun id => (ToString id, map (fun o => GenerateSubCIDOffer o cid) (sale (last asked [])))) asked), c', [(r_client_ap gw, m); (r_client_ap gw, m2)]) /\
         api e2 g1 m2 = Ret (g2, [Json r2]) /\
         account ce e2 c' gw g2 mg ch /\ left_in ch = funds - num * defaultSearchPrice - total sale asked * c_offer c /\
         (forall id, In id asked -> paid_for e2 g g2 id (env2 id) (mid id) (sale id))).
  Proof using Law AC GP version_32 supported_32 sha256_len sha512_256_len voucher_readable rand_int_64.
    intros Rp Rd Re Ac Gi Mg Sn Kn Hm Ln N1 N2 Inum It T Ie Sv Fu (Ps & Pd) Co Ad Met.
    assert (Hc : id32 cid) by exact (proj1 Hm).
    assert (Dp : 0 < defaultSearchPrice) by (unfold defaultSearchPrice; lia).
    assert (P0 : 0 < num * defaultSearchPrice) by (apply Z.mul_pos_pos; lia).
    destruct (paid_first sha256 sha512_256 pub_of ec_sign ec_verify blake verify voucher_text voucher_of is_address voucher_readable ce e 0 c gw g funds chn _ Sv P0 Fu) as (v & mg1 & ch1 & gr & n1 & Pay1 & Rc1 & Eg & L1 & A1 & Ac1).
    set (c1 := drew (with_mgr c mg1) DrawInt63).
    destruct (searched_paid_pf version supported sha256 sha512_256 pub_of ec_sign ec_verify blake verify voucher_text voucher_of is_address zone BindAdminAPI BindRestAPI BindGatewayAPI BindProviderAPI Law AC GP version_32 supported_32 voucher_readable
      ce 0 gw e g cid (rand_int (c_drawn c)) (ce_now ce + c_ttl c) num i members met chn (voucher_text v) (num * defaultSearchPrice) gr
      Rp Rd Re Gi Mg Sn Kn Hm Ln N1 N2 Inum (rand_int_64 _) It T Ie Rc1) as (ids & cs & m & g1 & r1 & Rq & Cl & Fi & Nd & Ec & Bo & A & Db & Se & Fr & Sg & ma & mb & Ga & Gb & Mi & Ma).
    { rewrite Z.mul_comm. apply Z.mul_le_mono_nonneg_l; lia. }
    { exact Ps. } { exact Ad. } { intros id a H1 H2 H3. exact (proj1 (Met id a H1 H2 H3)). }
    assert (Near : forall id, In id ids -> id32 id /\ near_one (without (ToString i) members) (ToString cid) (Z.min num 16) (ToString id)).
    { intros id I. split; [rewrite Forall_forall in Fi; exact (Fi _ I)|]. exists (map ToString ids). split; [exact Cl|]. apply in_map. exact I. }
    assert (Nt : NoDup (map ToString ids)).
    { clear -Nd Fi. induction ids as [|a ids IH]; [constructor|]. inversion Nd as [|? ? Nn Nd']; subst. inversion Fi as [|? ? Ha Fi']; subst. cbn [map]. constructor; [|exact (IH Fi' Nd')].
      intros I. apply in_map_iff in I. destruct I as (b & E & I). apply Nn. rewrite Forall_forall in Fi'. rewrite <- (proj2 (proj2 (proj2 (id_hex_roundtrip_pf a Ha))) b (Fi' _ I) E). exact I. }
    (** What was told by each *)
    set (R := fun id (y : list offer * list gostring * gateway) => forall x, met id = Some x ->
      let '(os, ds, p) := y in
      exists r q address ch ch' nonce found flags k n, In (id, r) cs /\ k = at_key x /\ client_lists c id k /\ of_key k r /\ on_sale zone (at_hist x) (e_now (at_env x)) cid os /\ Forall2 (digest_text sha512_256) os ds /\ (found = true <-> os <> []) /\
        DecodeGatewayDHTDiscoverResponseV2 sha256 r = Ret (OkR (Some cid, nonce, found, Some ds, flags, false, [])) /\
        papi (at_env x) (at_state x) q = Ret (p, Reply r) /\ p = with_pay (at_state x) n /\ peer e g id x /\ pays_at g id address /\ channel_to g address ch /\ settled e g1 address (at_env x) p ch' /\ left_in ch' = left_in ch - g_search g).
    destruct (choose R ([], [], g) ids) as (f & F).
    { intros id I. destruct (Bo id I) as (a & Pa & B). destruct (Near id I) as (H1 & H2). destruct (Met id a H1 H2 Pa) as (Pb & Kl). unfold R. unfold bought in B. unfold DhtPaidSpec.payable in Pb.
      destruct (met id) as [x|]; [|exists ([], [], g); discriminate].
      destruct B as (r & q & p' & ch & ch' & B1 & (B2 & os & ds & nonce & found & flags & B3 & B4 & B5 & B6) & B7 & (n & B8) & B9 & B10 & B11).
      exists (os, ds, p'). intros x' Ex. injection Ex as <-. exists r, q, a, ch, ch', nonce, found, flags, (at_key x), n.
      split; [exact B1|]. split; [reflexivity|]. split; [exact Kl|]. split; [exact B2|]. split; [exact B3|]. split; [exact B4|]. split; [exact B5|]. split; [exact B6|]. split; [exact B7|]. split; [exact B8|].
      split; [exact (proj1 Pb)|]. split; [exact Pa|]. split; [exact B9|]. split; [exact B10|exact B11]. }
    set (sale := fun id => fst (fst (f id))). set (tags := fun id => snd (fst (f id))). set (mid := fun id => snd (f id)).
    assert (F' : forall id x, In id ids -> met id = Some x -> exists r q address ch ch' nonce found flags k n, In (id, r) cs /\ k = at_key x /\ client_lists c id k /\ of_key k r /\ on_sale zone (at_hist x) (e_now (at_env x)) cid (sale id) /\ Forall2 (digest_text sha512_256) (sale id) (tags id) /\ (found = true <-> sale id <> []) /\
        DecodeGatewayDHTDiscoverResponseV2 sha256 r = Ret (OkR (Some cid, nonce, found, Some (tags id), flags, false, [])) /\
        papi (at_env x) (at_state x) q = Ret (mid id, Reply r) /\ mid id = with_pay (at_state x) n /\ peer e g id x /\ pays_at g id address /\ channel_to g address ch /\ settled e g1 address (at_env x) (mid id) ch' /\ left_in ch' = left_in ch - g_search g).
    { intros id x I Ex. specialize (F id I x Ex). unfold sale, tags, mid. destruct (f id) as ((os & ds) & p). exact F. }
    clear F. clearbody sale tags mid. clear R f.
    exists ids, sale, mid, m, g1, r1. split; [exact Cl|]. split; [exact Fi|]. split; [exact Nd|]. split; [exact A|]. split.
    { intros id x I Ex. destruct (F' id x I Ex) as (r & q & a & ch & ch' & nonce & found & flags & k & n & _ & _ & _ & _ & Os & _ & _ & _ & Pq & _). split; [exact Os|]. exists q, r. exact Pq. }
    intros asked. fold asked in Ec.
    assert (As : forall id, In id asked -> In id ids /\ exists x, met id = Some x).
    { intros id I. apply filter_In in I. destruct I as (I & M). split; [exact I|]. unfold met_one in M. destruct (met id) as [x|]; [exists x; reflexivity|discriminate]. }
    assert (Ndc : NoDup (map fst cs)) by (rewrite Ec; apply NoDup_filter; exact Nd).
    assert (Len : forall id, In id asked -> length (tags id) = length (sale id)).
    { intros id I. destruct (As id I) as (Ii & x & Ex). destruct (F' id x Ii Ex) as (r & q & a & ch & ch' & nonce & found & flags & k & n & _ & _ & _ & _ & _ & Fd & _). exact (forall2_count _ _ _ Fd). }
    assert (Emp : forall id, In id asked -> (tags id = [] <-> sale id = [])).
    { intros id I. specialize (Len id I). destruct (tags id), (sale id); cbn [length] in Len; try discriminate; split; (reflexivity || discriminate). }
    assert (Told : Forall (told c1 tags) cs).
    { apply Forall_forall. intros (id & r) I. assert (Ia : In id asked) by (rewrite <- Ec; apply in_map_iff; exists (id, r); split; [reflexivity|exact I]).
      destruct (As id Ia) as (Ii & x & Ex). destruct (F' id x Ii Ex) as (r' & q & a & ch & ch' & nonce & found & flags & k & n & I' & Ek & Kl & Ok & Os & Fd & Fo & De & _).
      assert (r' = r). { clear -Ndc I I'. induction cs as [|(j & y) cs IH]; [contradiction|]. cbn [map fst] in Ndc. inversion Ndc as [|? ? Nn Nd']; subst.
        destruct I as [E|I], I' as [E'|I']; [congruence| | |exact (IH Nd' I I')]; [injection E as -> ->|injection E' as -> ->]; exfalso; apply Nn; apply in_map_iff; [exists (id, r')|exists (id, r)]; split; trivial. }
      subst r'. exists k, (Some cid), nonce, flags, found. cbn [fst snd]. split; [exact Kl|]. split; [exact Ok|]. split; [|exact De].
      rewrite (Emp id Ia). exact Fo. }
    assert (Cnt : count_digests (map (fun p : bytes * message => Some (tags (fst p))) cs) = total sale asked).
    { replace (map (fun p : bytes * message => Some (tags (fst p))) cs) with (map (fun id => Some (tags id)) asked) by (rewrite <- Ec, map_map; reflexivity).
      clear -Len. induction asked as [|a l IH]; [reflexivity|]. cbn [map count_digests items total fold_right]. fold (total sale l). rewrite IH by (intros id I; apply Len; right; exact I). rewrite (Len a (or_introl eq_refl)). reflexivity. }
    assert (Pm : PaymentMgr ce c = c) by (unfold PaymentMgr; destruct Sv as [(y & z & (n & from & b & Cp & _) & _)|(y & n & from & b & Cp & _)]; rewrite Cp; reflexivity).
    split.
    { intros Lim (id & I & Es). exists c1, mg1, ch1. split; [|split; [|exact L1]].
      - unfold FindOffersDHTDiscoveryV2. cbn [deref obind]. rewrite Ac, Pm, Pay1. cbn [obind]. change (c_drawn (with_mgr c mg1)) with (c_drawn c). change (c_ttl (drew (with_mgr c mg1) DrawInt63)) with (c_ttl c). fold c1.
        rewrite Rq. cbn [obind]. rewrite zip_pairs. rewrite (digests_ended sha256 pub_of ec_verify blake ce c1 tags limit cs 0 0 Told); [reflexivity| |rewrite Cnt; exact Lim].
        assert (I' := I). rewrite <- Ec in I'. apply in_map_iff in I'. destruct I' as (p & <- & I'). exists p. split; [exact I'|]. apply Emp; assumption.
      - apply (account_moved ce e e (with_mgr c mg1) c1 gw gr g1 mg1 ch1 ma mb Ac1 eq_refl Ga Gb Mi Ma eq_refl). }
    intros Ne Sl Lim e2 env2 Re2 Ch2 Sg2 (O1 & O2) Fu2 Hand.
    (** The second payment *)
    assert (Setg : g_key g1 = g_key g /\ g_id g1 = g_id g /\ g_search g1 = g_search g /\ g_offer g1 = g_offer g) by (unfold settings in Se; injection Se; intros; repeat split; assumption).
    destruct Setg as (Sk & Si & Ss & So).
    assert (Acc : account ce e2 c1 gw g1 mg1 ch1).
    { apply (account_moved ce e e2 (with_mgr c mg1) c1 gw gr g1 mg1 ch1 ma mb Ac1 eq_refl Ga Gb Mi Ma). rewrite A1. exact Ch2. }
    assert (Tp : 0 < total sale asked).
    { destruct asked as [|a l]; [contradiction|]. cbn [total fold_right]. fold (total sale l). assert (Z0 := total_nonneg sale l). assert (Sa := Sl a (or_introl eq_refl)). destruct (sale a); [contradiction|]. cbn [length]. lia. }
    assert (P2 : 0 < total sale asked * c_offer c1) by (change (c_offer c1) with (c_offer c); apply Z.mul_pos_pos; lia).
    destruct (paid_and_received sha256 sha512_256 pub_of ec_sign ec_verify blake verify voucher_text voucher_of is_address voucher_readable ce e2 c1 gw g1 mg1 ch1 _ Acc P2) as (v2 & mg2 & ch2 & gr2 & n2 & Pay2 & Rc2 & Eg2 & L2 & A2 & Ac2).
    { change (c_offer c1) with (c_offer c). lia. }
    set (rows := map (fun id => (id, tags id)) asked : list order).
    set (met2 := fun id => match met id with Some x => Some (Contact (env2 id) (mid id) (at_hist x) (at_key x), sale id) | None => None end).
    assert (Rf : map fst rows = asked) by (unfold rows; rewrite map_map; cbn [fst]; apply map_id).
    destruct (ordered_pf version supported sha256 sha512_256 pub_of ec_sign ec_verify blake verify voucher_text voucher_of is_address zone BindAdminAPI BindRestAPI BindGatewayAPI BindProviderAPI Law AC GP version_32 supported_32 sha256_len sha512_256_len voucher_readable
      ce 2 gw e2 g1 cid (rand_int (c_drawn c)) rows met2 (c_addr ch1) (voucher_text v2) (total sale asked * c_offer c1) gr2) as (m2 & g2 & r2 & Rq2 & Bo2 & Api2 & _ & _ & _ & _ & mc & md & Gc & Gd & Mi2 & Ma2).
    { destruct Rp as (j & k & H1 & H2 & H3 & H4). exists j, k. rewrite Si, Sk. auto. }
    { destruct Rd as (j & k & y & H1 & H2 & H3 & H4 & H5). exists j, k, mb. rewrite Si, Sk. auto. }
    { exact Re2. }
    { destruct Co as (C1 & C2), Sg as (S1 & S2 & S3). split; congruence. }
    { intros id id' a H1 H2. exact (Ad id id' a (pays_at_back _ _ _ _ Sg H1) (pays_at_back _ _ _ _ Sg H2)). }
    { rewrite Rf. apply NoDup_filter. exact Nd. }
    { rewrite Rf. apply Forall_forall. intros id I. rewrite Forall_forall in Fi. exact (Fi id (proj1 (As id I))). }
    { exact Hc. } { apply rand_int_64. } { rewrite So. exact O1. } { exact Rc2. }
    { assert (E : price_of_all g1 rows = total sale asked * g_offer g).
      { unfold rows. clear -Len So. induction asked as [|a l IH]; [reflexivity|]. cbn [map price_of_all fold_right total snd]. fold (total sale l). fold (price_of_all g1 (map (fun id => (id, tags id)) l)).
        rewrite IH by (intros id I; apply Len; right; exact I). unfold price_of. rewrite So, (Len a (or_introl eq_refl)). lia. }
      rewrite E. change (c_offer c1) with (c_offer c). apply Z.mul_le_mono_nonneg_l; lia. }
    { intros id ds I. unfold rows in I. apply in_map_iff in I. destruct I as (id' & E & I). apply pair_equal_spec in E. destruct E as (-> & <-).
      destruct (As id I) as (Ii & x & Ex). destruct (F' id x Ii Ex) as (r & q & a & ch & ch' & nonce & found & flags & k & n & _ & _ & _ & _ & Os & Fd & _ & _ & _ & Em & Pe & Pa & C1 & (C2 & n0 & from & b & D1 & D2 & D3 & D4 & D5) & L).
      destruct (Hand id x I Ex) as ((An1 & An2 & An3 & An4) & (Sf & Sc) & Le & a' & ch0 & Pa' & C0 & Lf).
      split; [intros E; exact (Sl id I (proj1 (Emp id I) E))|].
      exists a. split; [exact (pays_at_same _ _ _ _ Sg Pa)|]. unfold DhtOfferSpec.orderable, met2. rewrite Ex. assert (a' = a) by exact (pays_at_one _ _ _ _ Pa' Pa). subst a'.
      assert (ch0 = ch) by (destruct C0 as (y0 & Y1 & Y2), C1 as (y & Y3 & Y4); congruence). subst ch0.
      destruct Pe as ((Q1 & Q2 & Q3 & Q4 & Q5 & (Q6 & Q7 & Q8) & Q9 & _) & Q10 & Q11 & Q12).
      split; [|split; [|split]].
      - split; [|split; [|split]]; cbn [at_env at_state at_hist at_key]; [|rewrite Em; exact Q10|exact Q11|exact Q12].
        split; [exact An1|]. split; [exact An2|]. split; [exact An3|]. split; [rewrite Em; exact Q4|]. split; [exact Q5|]. split.
        + destruct Sg as (S1 & S2 & S3). unfold DhtSpec.lists. rewrite S1, S2, S3. split; [exact Q6|]. split; [exact Q7|exact Q8].
        + split; [|exact An4]. destruct Q9 as (j & kj & J1 & J2 & J3). exists j, kj. rewrite Si, Sk, Em. auto.
      - unfold in_stock. cbn [at_hist at_env]. assert (Rec : forall o, In o (sale id) -> recorded (at_hist x) o) by (intros o Io; exact (proj1 (sale_recorded zone _ _ _ _ _ Os Io))).
        clear -Fd Sf Rec. revert Fd Sf Rec. generalize (sale id) (tags id). intros l l' Fd. induction Fd as [|o d l l' H _ IH]; intros Sf Rec; [constructor|].
        constructor; [split; [apply Rec; left; reflexivity|]; split; [apply Sf; left; reflexivity|exact H]|]. apply IH; intros o' Io; [apply Sf|apply Rec]; right; exact Io.
      - cbn [at_state]. rewrite Em, So. exact Le.
      - exists ch'. cbn [at_env at_state]. split; [|unfold price_of; rewrite So, (Len id I); lia]. split; [exact C2|]. exists n0, from, b. split; [exact D1|]. split; [exact D2|]. split; [exact D3|]. rewrite Sg2, Sc. split; [exact D4|exact D5]. }
    exists (with_mgr c1 mg2), m2, g2, r2, mg2, ch2. split; [|split; [exact Api2|split; [|split]]].
    - unfold FindOffersDHTDiscoveryV2. cbn [deref obind]. rewrite Ac.
      rewrite Pm, Pay1. cbn [obind]. change (c_drawn (with_mgr c mg1)) with (c_drawn c). change (c_ttl (drew (with_mgr c mg1) DrawInt63)) with (c_ttl c). fold c1.
      rewrite Rq. cbn [obind]. rewrite zip_pairs. rewrite (digests_taken sha256 pub_of ec_verify blake ce c1 tags limit cs 0 0 Told); [|intros p I E; assert (Ia : In (fst p) asked) by (rewrite <- Ec; apply in_map; exact I); apply (Sl _ Ia), (Emp _ Ia), E|rewrite Cnt; exact Lim]. cbn [obind].
      change (PaymentMgr ce c1) with c1. rewrite Cnt. rewrite (pay_or_topup_paid voucher_text ce 2 c1 gw _ _ _ _ Pay2). cbn [obind].
      assert (Ed : appended (map (fun p : bytes * message => Some (tags (fst p))) cs) = Some (map (fun r : order => Some (snd r)) rows)).
      { replace (map (fun p : bytes * message => Some (tags (fst p))) cs) with (map (fun r : order => Some (snd r)) rows) by (unfold rows; rewrite <- Ec, !map_map; reflexivity).
        unfold rows. destruct asked; [contradiction|reflexivity]. }
      rewrite Ed, Ec, <- Rf, Rq2. cbn [obind fst snd app].
      assert (Dl : delivery met2 cid rows = map (fun id => (id, map (fun o => GenerateSubCIDOffer o cid) (sale id))) asked).
      { unfold delivery, rows. clear -As. induction asked as [|a l IH]; [reflexivity|]. cbn [map flat_map fst]. rewrite IH by (intros id I; apply As; right; exact I).
        destruct (As a (or_introl eq_refl)) as (_ & x & Ex). unfold met2. rewrite Ex. reflexivity. }
      rewrite Dl, by_gateway_last.
      + rewrite map_map. cbn [fst]. rewrite (last_map _ asked [] ([], []) Ne). cbn [snd]. rewrite Rf. reflexivity.
      + rewrite map_map. cbn [fst]. unfold asked. clear -Nt. induction ids as [|a l IH]; [constructor|]. cbn [map] in Nt. inversion Nt as [|? ? Nn Nt']; subst. cbn [filter]. destruct (met_one met a); [|exact (IH Nt')].
        cbn [map]. constructor; [|exact (IH Nt')]. intros I. apply Nn. apply in_map_iff in I. destruct I as (b & E & I). apply filter_In in I. apply in_map_iff. exists b. split; [exact E|exact (proj1 I)].
    - apply (account_moved ce e2 e2 (with_mgr c1 mg2) (with_mgr c1 mg2) gw gr2 g2 mg2 ch2 mc md Ac2 eq_refl Gc Gd Mi2 Ma2 eq_refl).
    - rewrite L2, L1. change (c_offer c1) with (c_offer c). lia.
    - intros id I. destruct (Bo2 id (tags id)) as (a & Pa & C). { unfold rows. apply in_map_iff. exists id. split; [reflexivity|exact I]. }
      destruct (As id I) as (Ii & x & Ex). unfold DhtOfferSpec.charged, met2 in C. rewrite Ex in C. cbn [at_env at_state] in C. destruct C as (q & p' & r & ch & ch' & C1 & C2 & C3 & C4 & _).
      destruct (F' id x Ii Ex) as (r' & q' & a' & ch0 & ch0' & nonce & found & flags & k & n & _ & _ & _ & _ & _ & _ & _ & _ & _ & _ & _ & Pa' & D1 & (D2 & _) & L).
      assert (a' = a) by exact (pays_at_one _ _ _ _ Pa' (pays_at_back _ _ _ _ Sg Pa)). subst a'.
      assert (ch = ch0') by (destruct C2 as (y0 & Y1 & Y2), D2 as (y & Y3 & Y4); congruence). subst ch.
      exists a, q, p', r, ch0, ch'. split; [exact Pa'|]. split; [exact C1|]. split; [exact D1|]. split; [exact C3|]. rewrite C4, L. unfold price_of. rewrite So, (Len id I). lia.
  Qed.
End whole.
