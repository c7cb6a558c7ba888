(** Lemmas about [Offer.v]. *)
From Coq Require Import String List ZArith Bool Lia ZifyBool ZifyNat.
From Coq Require Import Init.Byte.
From Verif Require Import Base BaseProofs Ids IdsProofs Json JsonProofs Merkle MerkleProofs MerkleWire MerkleWireProofs
  Crypto CryptoProofs Message MessageProofs Offer WireSpec.
Import ListNotations.
Open Scope Z_scope.

Lemma ret_inj {A} (a b : A) : Ret a = Ret b -> a = b.
Proof. congruence. Qed.

(** ** Digest *)

Lemma be_val_be_bytes_mod n z : be_val (be_bytes n z) = z mod 256 ^ Z.of_nat n.
Proof.
  revert z. induction n as [|n IH]; intros z.
  - cbn [be_bytes]. rewrite be_val_nil. change (256 ^ Z.of_nat 0) with 1. now rewrite Z.mod_1_r.
  - cbn [be_bytes]. rewrite be_val_app, IH. cbn [length].
    rewrite be_val_cons, be_val_nil. cbn [length]. change (256 ^ Z.of_nat 0) with 1. change (256 ^ Z.of_nat 1) with 256.
    rewrite bz_zb by (generalize (Z.mod_pos_bound z 256 ltac:(lia)); lia).
    replace (Z.of_nat (S n)) with (Z.succ (Z.of_nat n)) by lia.
    rewrite Z.pow_succ_r by lia. rewrite Z.rem_mul_r by lia. lia.
Qed.

Lemma be_bytes8_u64 a b : 0 <= a < 2 ^ 64 -> 0 <= b < 2 ^ 64 -> be_bytes 8 a = be_bytes 8 b -> a = b.
Proof.
  intros Ha Hb H. apply (f_equal be_val) in H. rewrite !be_val_be_bytes_mod in H.
  change (256 ^ Z.of_nat 8) with (2 ^ 64) in H. rewrite !Z.mod_small in H by lia. exact H.
Qed.

Lemma be_bytes8_i64 a b : - 2 ^ 63 <= a < 2 ^ 63 -> - 2 ^ 63 <= b < 2 ^ 63 -> be_bytes 8 a = be_bytes 8 b -> a = b.
Proof.
  intros Ha Hb H. apply (f_equal be_val) in H. rewrite !be_val_be_bytes_mod in H.
  change (256 ^ Z.of_nat 8) with (2 ^ 64) in H. Z.div_mod_to_equations. lia.
Qed.

Lemma app_len_inj {A} (a b c d : list A) : length a = length c -> a ++ b = c ++ d -> a = c /\ b = d.
Proof.
  intros L H. assert (F := f_equal (firstn (length a)) H). assert (S := f_equal (skipn (length a)) H).
  rewrite firstn_app_len in F by reflexivity. rewrite (firstn_app_len c) in F by congruence.
  rewrite skipn_app_len in S by reflexivity. rewrite (skipn_app_len c) in S by congruence. auto.
Qed.

Lemma concat32_length (ids : list bytes) : Forall (fun x => length x = 32%nat) ids -> length (concat ids) = (32 * length ids)%nat.
Proof. induction 1 as [|x l H _ IH]; [reflexivity|]. cbn [concat length]. rewrite app_length. lia. Qed.

Lemma concat32_inj (ids ids' : list bytes) : Forall (fun x => length x = 32%nat) ids -> Forall (fun x => length x = 32%nat) ids' ->
  concat ids = concat ids' -> ids = ids'.
Proof.
  intros H. revert ids'. induction H as [|x l H _ IH]; intros ids' H' E.
  - destruct H' as [|y l' Hy _]; [reflexivity|]. cbn [concat] in E. symmetry in E. apply app_eq_nil in E as [-> _]. discriminate.
  - destruct H' as [|y l' Hy H'']; [cbn [concat] in E; apply app_eq_nil in E as [-> _]; discriminate|].
    cbn [concat] in E. apply app_len_inj in E as [-> E]; [|congruence]. f_equal. auto.
Qed.

Definition offer_ok (o : offer) : Prop :=
  (exists p, o_provider o = Some p /\ length p = 32%nat) /\ Forall (fun x => length x = 32%nat) (o_cids o) /\
  0 <= o_price o < 2 ^ 64 /\ - 2 ^ 63 <= o_expiry o < 2 ^ 63 /\ 0 <= o_qos o < 2 ^ 64.

Lemma well_formed_ok o : well_formed o -> offer_ok o.
Proof. unfold well_formed, offer_ok, uint64, int64, id32. intros (A & B & C & D & E). repeat split; try assumption; lia. Qed.

Definition digest_input (o : offer) : bytes :=
  slice (o_provider o) ++ concat (o_cids o) ++ be_bytes 8 (o_price o) ++ be_bytes 8 (o_expiry o) ++ be_bytes 8 (o_qos o).

Lemma digest_input_inj o o' : offer_ok o -> offer_ok o' -> digest_input o = digest_input o' ->
  o_provider o = o_provider o' /\ o_cids o = o_cids o' /\ o_price o = o_price o' /\
  o_expiry o = o_expiry o' /\ o_qos o = o_qos o'.
Proof.
  intros ((p & P & Lp) & C & HP & HE & HQ) ((p' & P' & Lp') & C' & HP' & HE' & HQ') E.
  unfold digest_input in E. rewrite P, P' in *. cbn [slice] in E.
  assert (LC := concat32_length _ C). assert (LC' := concat32_length _ C').
  assert (L := f_equal (@length byte) E). rewrite !app_length, !be_bytes_length in L.
  apply app_len_inj in E as [-> E]; [|congruence].
  apply app_len_inj in E as [EC E]; [|lia].
  apply concat32_inj in EC; [|assumption|assumption].
  apply app_len_inj in E as [E1 E]; [|now rewrite !be_bytes_length].
  apply app_len_inj in E as [E2 E3]; [|now rewrite !be_bytes_length].
  apply be_bytes8_u64 in E1, E3; try assumption. apply be_bytes8_i64 in E2; try assumption. auto.
Qed.

Lemma digest_binds_pf (sha : bytes -> bytes) o o' d : offer_ok o -> offer_ok o' ->
  GetMessageDigest sha o = Ret d -> GetMessageDigest sha o' = Ret d ->
  (o_provider o = o_provider o' /\ o_cids o = o_cids o' /\ o_price o = o_price o' /\
   o_expiry o = o_expiry o' /\ o_qos o = o_qos o') \/
  (exists x y, x <> y /\ sha x = sha y).
Proof.
  intros H H' D D'. assert (K := digest_input_inj o o' H H').
  destruct H as ((p & P & _) & _). destruct H' as ((p' & P' & _) & _).
  unfold GetMessageDigest in D, D'. unfold digest_input in K. rewrite P, P' in *. cbn [deref obind slice] in *.
  apply ret_inj in D, D'.
  destruct (bytes_eqb_spec (p ++ concat (o_cids o) ++ be_bytes 8 (o_price o) ++ be_bytes 8 (o_expiry o) ++ be_bytes 8 (o_qos o))
    (p' ++ concat (o_cids o') ++ be_bytes 8 (o_price o') ++ be_bytes 8 (o_expiry o') ++ be_bytes 8 (o_qos o'))) as [E|N];
    [left; auto|right]. do 2 eexists. split; [exact N|]. rewrite D, D'. reflexivity.
Qed.

Lemma digest_text_pf d : length d = 32%nat -> DecodeMessageDigest (EncodeMessageDigest d) = d.
Proof.
  intros L. unfold DecodeMessageDigest, EncodeMessageDigest. rewrite b64_roundtrip. cbn [fst].
  rewrite L, Nat.sub_diag. cbn [repeat]. rewrite app_nil_r, <- L. apply firstn_all.
Qed.

Lemma digest_text_length s : length (DecodeMessageDigest s) = 32%nat.
Proof. unfold DecodeMessageDigest. rewrite app_length, firstn_length, repeat_length. lia. Qed.

(** ** Expiry *)

Lemma expired_pf expiry now : - 2 ^ 63 <= expiry -> expiry <= 2 ^ 63 - 1 - 62135596800 ->
  (HasExpired expiry now = true <-> expiry * 1000000000 < now).
Proof.
  intros H1 H2. unfold HasExpired, unixToInternal.
  assert (W : wrap64 (expiry + 62135596800) = expiry + 62135596800).
  { unfold wrap64. rewrite Z.mod_small; lia. }
  rewrite W, orb_true_iff, andb_true_iff, Z.ltb_lt, Z.eqb_eq, Z.ltb_lt. Z.div_mod_to_equations. lia.
Qed.

Lemma expired_wraps expiry now : 2 ^ 63 - 1 - 62135596800 < expiry < 2 ^ 63 -> 0 <= now -> HasExpired expiry now = true.
Proof.
  intros H1 H2. unfold HasExpired, unixToInternal.
  assert (W : wrap64 (expiry + 62135596800) = expiry + 62135596800 - 2 ^ 64).
  { unfold wrap64. replace (expiry + 62135596800 + 2 ^ 63) with (expiry + 62135596800 - 2 ^ 63 + 1 * 2 ^ 64) by lia.
    rewrite Z.mod_add by lia. rewrite Z.mod_small; lia. }
  rewrite W. apply orb_true_iff. left. apply Z.ltb_lt. Z.div_mod_to_equations. lia.
Qed.

(** ** Signing *)

Lemma signing_inj p r a b c p' r' a' b' c' :
  json_print (signing_json p r a b c) = json_print (signing_json p' r' a' b' c') ->
  p = p' /\ r = r' /\ a = a' /\ b = b' /\ c = c'.
Proof.
  intros H. apply json_print_inj in H; [|reflexivity|reflexivity]. unfold signing_json in H.
  injection H as H1 H2 H3 H4 H5. apply b64_encode_inj in H1. auto.
Qed.

Section offer.
  Variable sha256 : bytes -> bytes.
  Variable pub_of : bytes -> bytes.
  Variable ec_sign : bytes -> bytes -> option bytes.
  Variable ec_verify : bytes -> bytes -> bytes -> bool.
  Variable blake : bytes -> bytes.

  Notation NewCIDOffer := (NewCIDOffer sha256).
  Notation OfferSign := (OfferSign ec_sign blake).
  Notation OfferVerify := (OfferVerify pub_of ec_verify blake).
  Notation SubOfferVerify := (SubOfferVerify pub_of ec_verify blake).
  Notation VerifyMerkleProof := (VerifyMerkleProof sha256).

  Lemma new_offer_shape p ids price expiry qos o : NewCIDOffer p ids price expiry qos = Ret (OkR o) ->
    ids <> [] /\ exists t, CreateMerkleTree sha256 ids = Ret (OkR t) /\ o = Offer p ids price expiry qos [] (GetMerkleRoot t) t.
  Proof.
    unfold Offer.NewCIDOffer. destruct ids as [|c ids]; [discriminate|].
    destruct (CreateMerkleTree sha256 (c :: ids)) as [[t|]| |] eqn:E; try discriminate. cbn [obind].
    intros [= <-]. split; [discriminate|]. eauto.
  Qed.

  Lemma new_offer_total p ids price expiry qos : Forall (fun x => length x = 32%nat) ids ->
    (ids = [] -> NewCIDOffer p ids price expiry qos = Ret ErrR) /\
    (ids <> [] -> exists o, NewCIDOffer p ids price expiry qos = Ret (OkR o)).
  Proof.
    intros F. split; [intros ->; reflexivity|]. intros N. destruct (complete_pf sha256 ids N F) as (t & E & _).
    unfold Offer.NewCIDOffer. destruct ids; [congruence|]. rewrite E. cbn [obind]. eauto.
  Qed.

  Lemma suboffer_pf p ids price expiry qos o k ver o' pk c :
    (forall sk d s, ec_sign sk d = Some s -> length s = 65%nat /\ ec_verify (pub_of sk) d (firstn 64 s) = true) ->
    Forall (fun x => length x = 32%nat) ids ->
    NewCIDOffer (Some p) ids price expiry qos = Ret (OkR o) -> OfferSign o k ver = Ret (true, o') ->
    k_alg pk = x01 -> public_half pub_of pk = pub_of (slice (k_priv k)) ->
    OfferVerify o' pk = Ret true /\
    (In c ids ->
      let s := GenerateSubCIDOffer o' c in
      s_provider s = Some p /\ s_cid s = Some c /\ s_price s = price /\ s_expiry s = expiry /\ s_qos s = qos /\
      SubOfferVerify s pk = Ret true /\ VerifyMerkleProof s = Ret true).
  Proof.
    intros Law F N HS HA HP. apply new_offer_shape in N as (NE & t & T & ->).
    destruct (complete_pf sha256 ids NE F) as (t' & T' & V). rewrite T in T'. injection T' as <-.
    unfold Offer.OfferSign, OfferToSign in HS. cbn [o_provider deref obind o_root o_price o_expiry o_qos] in HS.
    destruct (SignMessage ec_sign blake k ver _) as [sg|] eqn:E; [|discriminate]. injection HS as <-.
    assert (W := sign_verify_pf pub_of ec_sign ec_verify blake Law _ _ _ _ _ E HA HP).
    split.
    - unfold Offer.OfferVerify, OfferToSign. cbn [o_provider deref obind o_root o_price o_expiry o_qos o_sig].
      rewrite W. reflexivity.
    - intros Hc. cbv zeta. unfold GenerateSubCIDOffer. cbn [o_provider o_cids o_price o_expiry o_qos o_sig o_root o_tree
        s_provider s_cid s_price s_expiry s_qos].
      repeat (split; [reflexivity|]). split.
      + unfold Offer.SubOfferVerify, SubOfferToSign. cbn [s_provider deref obind s_root s_price s_expiry s_qos s_sig].
        rewrite W. reflexivity.
      + unfold Offer.VerifyMerkleProof. cbn [s_cid deref obind s_proof s_root]. apply V. exact Hc.
  Qed.

  Lemma verify_ok_raw pk sig msg : fst (VerifyMessage pub_of ec_verify blake pk sig msg) = OkR true ->
    exists s, ec_verify (public_half pub_of pk) (blake msg) s = true.
  Proof.
    unfold VerifyMessage. destruct (hex_decode sig) as [b|]; [|discriminate].
    destruct (Nat.ltb _ 4); [discriminate|]. unfold KeyVerify. destruct (Byte.eqb _ _); [|discriminate].
    cbn [fst]. unfold secp256k1Verify. intros [= H]. destruct (Nat.eqb _ _); eauto.
  Qed.

  Lemma offer_binds_pf pk (signed : list (bytes * gostring * Z * Z * Z)) :
    (forall d s, ec_verify (public_half pub_of pk) d s = true ->
      exists p r a b c, In (p, r, a, b, c) signed /\ d = blake (json_print (signing_json p r a b c))) ->
    (forall o, OfferVerify o pk = Ret true ->
      (exists p, o_provider o = Some p /\ In (p, o_root o, o_price o, o_expiry o, o_qos o) signed) \/
      (exists x y, x <> y /\ blake x = blake y)) /\
    (forall o, SubOfferVerify o pk = Ret true ->
      (exists p, s_provider o = Some p /\ In (p, s_root o, s_price o, s_expiry o, s_qos o) signed) \/
      (exists x y, x <> y /\ blake x = blake y)).
  Proof.
    intros U. split; intros o V.
    - unfold Offer.OfferVerify, OfferToSign in V. destruct (o_provider o) as [p|]; [|discriminate]. cbn [deref obind] in V.
      destruct (fst (VerifyMessage _ _ _ _ _ _)) as [[|]|] eqn:E; try discriminate.
      destruct (verify_ok_raw _ _ _ E) as (s & E'). destruct (U _ _ E') as (p' & r & a & b & c & I & D).
      match type of D with blake ?x = blake ?y => destruct (bytes_eqb_spec x y) as [X|X] end; [|right; eauto].
      apply signing_inj in X as (-> & -> & -> & -> & ->). left. eauto.
    - unfold Offer.SubOfferVerify, SubOfferToSign in V. destruct (s_provider o) as [p|]; [|discriminate]. cbn [deref obind] in V.
      destruct (fst (VerifyMessage _ _ _ _ _ _)) as [[|]|] eqn:E; try discriminate.
      destruct (verify_ok_raw _ _ _ E) as (s & E'). destruct (U _ _ E') as (p' & r & a & b & c & I & D).
      match type of D with blake ?x = blake ?y => destruct (bytes_eqb_spec x y) as [X|X] end; [|right; eauto].
      apply signing_inj in X as (-> & -> & -> & -> & ->). left. eauto.
  Qed.

  (** ** Wire *)

  Lemma id_ptr_ToString b : length b = 32%nat -> id_ptr (ToString b) = Some b.
  Proof. intros L. unfold id_ptr. destruct (id_hex_roundtrip_pf b L) as (-> & _). reflexivity. Qed.

  Lemma offer_wire_pf p ids price expiry qos o sig text :
    length p = 32%nat -> Forall (fun x => length x = 32%nat) ids ->
    0 <= price <= 2 ^ 64 - 1 -> - 2 ^ 63 <= expiry <= 2 ^ 63 - 1 -> 0 <= qos <= 2 ^ 64 - 1 ->
    NewCIDOffer (Some p) ids price expiry qos = Ret (OkR o) ->
    let o' := Offer (o_provider o) (o_cids o) (o_price o) (o_expiry o) (o_qos o) sig (o_root o) (o_tree o) in
    MarshalOffer o' = Ret text -> UnmarshalOffer sha256 text = Ret (OkR o').
  Proof.
    intros Lp F HP HE HQ N. apply new_offer_shape in N as (NE & t & T & ->). cbv zeta.
    cbn [o_provider o_cids o_price o_expiry o_qos o_root o_tree]. unfold MarshalOffer.
    cbn [o_provider o_cids o_price o_expiry o_qos o_sig deref obind]. intros E. apply ret_inj in E. subst text.
    unfold UnmarshalOffer. rewrite unmarshal_json; [| |discriminate].
    2:{ cbn [no_float forallb snd]. rewrite no_float_strs. reflexivity. }
    unfold offer_fields. eval_fields. cbn [dec_str dec_list]. rewrite dec_elems_strs.
    unfold dec_u64, dec_i64. rewrite !dec_int_ok by assumption. cbv iota beta.
    rewrite map_string_ids by assumption. cbn [obind]. rewrite T. cbn [obind].
    rewrite id_ptr_ToString by assumption. reflexivity.
  Qed.

  Lemma proof_json_str mp : exists s, proof_json mp = JStr s /\ json_print (proof_json mp) = MarshalProof mp.
  Proof.
    unfold proof_json, MarshalProof. cbv zeta. rewrite json_roundtrip by reflexivity. eexists. split; reflexivity.
  Qed.

  Lemma suboffer_wire_pf p c root mp price expiry qos sig text :
    length p = 32%nat -> length c = 32%nat ->
    0 <= price <= 2 ^ 64 - 1 -> - 2 ^ 63 <= expiry <= 2 ^ 63 - 1 -> 0 <= qos <= 2 ^ 64 - 1 ->
    Forall (fun z => - 2 ^ 63 <= z <= 2 ^ 63 - 1) (p_index mp) ->
    Z.of_nat (length (json_print (json_path (p_path mp)))) < 2 ^ 32 ->
    Z.of_nat (length (json_print (json_index (p_index mp)))) < 2 ^ 32 ->
    let s := SubOffer (Some p) (Some c) root mp price expiry qos sig in
    MarshalSubOffer s = Ret text -> UnmarshalSubOffer text = OkR s.
  Proof.
    intros Lp Lc HP HE HQ HI H1 H2. cbv zeta. unfold MarshalSubOffer.
    cbn [s_provider s_cid s_root s_proof s_price s_expiry s_qos s_sig deref obind]. intros E0. apply ret_inj in E0. subst text.
    destruct (proof_json_str mp) as (ps & E & EP).
    unfold UnmarshalSubOffer. rewrite unmarshal_json; [| |discriminate].
    2:{ rewrite E. reflexivity. }
    unfold suboffer_fields. eval_fields. unfold dec_proof. rewrite EP, proof_wire_roundtrip_pf by assumption.
    cbn [dec_str]. unfold dec_u64, dec_i64. rewrite !dec_int_ok by assumption. cbv iota beta.
    rewrite !id_ptr_ToString by assumption. reflexivity.
  Qed.

  Lemma offer_parse_panics text f s : unmarshal offer_fields ([], [], 0, 0, 0, []) text = Some f ->
    In s (snd (fst (fst (fst (fst f))))) -> NewNodeIDFromHexString s = ErrR -> UnmarshalOffer sha256 text = Panic.
  Proof.
    intros U I E. unfold UnmarshalOffer. rewrite U. destruct f as [[[[[a b] c] d] e] g]. cbn [fst snd] in I.
    replace (MapStringToID b) with (@Panic (list bytes)); [reflexivity|]. symmetry. apply map_string_panics. eauto.
  Qed.

  Lemma map_string_lengths ss ids : MapStringToID ss = Ret ids -> Forall (fun x => length x = 32%nat) ids.
  Proof.
    revert ids. induction ss as [|s ss IH]; intros ids; cbn [MapStringToID]; [intros [= <-]; constructor|].
    destruct (NewNodeIDFromHexString s) as [i|] eqn:E; [|discriminate].
    destruct (MapStringToID ss) as [r| |]; try discriminate. cbn [obind]. intros [= <-].
    constructor; [|auto]. destruct (id_from_hex_pf s) as [H1 H2].
    unfold NewNodeIDFromHexString in E. destruct (hex_decode s) as [b|]; [|discriminate].
    destruct (Nat.ltb_spec WordSize (length b)); [discriminate|]. injection E as <-. apply left_pad_length. assumption.
  Qed.

  Lemma offer_parse_total text :
    (forall f s, unmarshal offer_fields ([], [], 0, 0, 0, []) text = Some f ->
       In s (snd (fst (fst (fst (fst f))))) -> NewNodeIDFromHexString s <> ErrR) ->
    exists r, UnmarshalOffer sha256 text = Ret r.
  Proof.
    intros H. unfold UnmarshalOffer. destruct (unmarshal offer_fields _ text) as [f|]; [|eauto].
    specialize (H f). destruct f as [[[[[a b] c] d] e] g]. cbn [fst snd] in H.
    destruct (MapStringToID b) as [ids| |] eqn:E.
    - cbn [obind]. apply map_string_lengths in E. destruct ids as [|i ids]; [cbn; eauto|].
      destruct (complete_pf sha256 (i :: ids) ltac:(discriminate) E) as (t & -> & _). cbn [obind]. eauto.
    - apply map_string_panics in E as (s & I & X). destruct (H s eq_refl I X).
    - exfalso. clear H. induction b as [|s b IH]; [discriminate|]. cbn [MapStringToID] in E.
      destruct (NewNodeIDFromHexString s); [|discriminate]. destruct (MapStringToID b); try discriminate. auto.
  Qed.
End offer.

Lemma digest_binds_spec sha o o' d : well_formed o -> well_formed o' ->
  GetMessageDigest sha o = Ret d -> GetMessageDigest sha o' = Ret d ->
  (o_provider o = o_provider o' /\ o_cids o = o_cids o' /\ o_price o = o_price o' /\
   o_expiry o = o_expiry o' /\ o_qos o = o_qos o') \/ collision sha.
Proof. intros H H'. apply digest_binds_pf; apply well_formed_ok; assumption. Qed.

Lemma suboffer_spec sha256 pub_of ec_sign ec_verify blake p ids price expiry qos o k ver o' pk :
  ecdsa_correct pub_of ec_sign ec_verify -> Forall id32 ids ->
  NewCIDOffer sha256 (Some p) ids price expiry qos = Ret (OkR o) ->
  OfferSign ec_sign blake o k ver = Ret (true, o') -> matches pub_of pk k ->
  OfferVerify pub_of ec_verify blake o' pk = Ret true /\
  forall c,
    (In c ids ->
      let s := GenerateSubCIDOffer o' c in
      s_provider s = Some p /\ s_cid s = Some c /\ s_price s = price /\ s_expiry s = expiry /\ s_qos s = qos /\
      SubOfferVerify pub_of ec_verify blake s pk = Ret true /\ VerifyMerkleProof sha256 s = Ret true) /\
    (id32 c -> ~ In c ids -> hex_encode c <> o_root o' ->
      VerifyMerkleProof sha256 (GenerateSubCIDOffer o' c) = Ret false).
Proof.
  intros L F N S M. destruct (matches_half _ _ _ M) as [A P].
  assert (K := fun c => suboffer_pf sha256 pub_of ec_sign ec_verify blake p ids price expiry qos o k ver o' pk c L F N S A P).
  split; [exact (proj1 (K []))|]. intros c. split; [exact (proj2 (K c))|]. intros Lc NI NR.
  apply new_offer_shape in N as (NE & t & T & ->).
  unfold OfferSign, OfferToSign in S. cbn [o_provider deref obind o_root o_price o_expiry o_qos] in S.
  destruct (SignMessage ec_sign blake k ver _) as [sg|] eqn:E; [|discriminate]. injection S as <-.
  unfold VerifyMerkleProof, GenerateSubCIDOffer. cbn [s_cid deref obind s_proof s_root o_tree o_root] in *.
  rewrite (absent_pf sha256 ids t c F Lc NI T). f_equal. apply bytes_eqb_neq. exact NR.
Qed.

Lemma new_offer_spec sha256 p ids price expiry qos : Forall id32 ids ->
  (ids = [] -> NewCIDOffer sha256 p ids price expiry qos = Ret ErrR) /\
  (ids <> [] -> exists o, NewCIDOffer sha256 p ids price expiry qos = Ret (OkR o) /\
     o_provider o = p /\ o_cids o = ids /\ o_price o = price /\ o_expiry o = expiry /\ o_qos o = qos /\ o_sig o = []).
Proof.
  intros F. destruct (new_offer_total sha256 p ids price expiry qos F) as [H1 H2]. split; [exact H1|].
  intros NE. destruct (H2 NE) as (o & E). exists o. split; [exact E|].
  apply new_offer_shape in E as (_ & t & _ & ->). repeat split.
Qed.
