(** * Proofs about a client, a gateway and the gateways it pays *)
From Coq Require Import String List ZArith Bool Lia Permutation.
From Coq Require Import Init.Byte.
From Verif Require Import Base BaseProofs Ids IdsProofs Crypto CryptoProofs Message MessageProofs Offer OfferProofs Schema SchemaProofs Messages MessagesSpec MessagesProofs WireSpec Payment PaymentProofs Ring RingSpec Register RegisterSpec RegisterProofs
  OfferStoreSpec SqlOffers SqlOffersSpec SqlOffersProofs Json Rest Routes RoutesProofs Gateway GatewaySpec GatewayProofs GatewayStoreProofs GatewayMoneyProofs GatewayOfferSpec GatewayOfferProofs Client ClientSpec ClientProofs RetrievalSpec RetrievalProofs DhtSpec DhtProofs DhtPaidSpec.
From Verif Require AdminSpec AdminProofs AdminNodeProofs.
Import ListNotations.
Open Scope Z_scope.

Lemma paid_out (e : env) (g : gateway) m address a ch : g_pay g = Some m -> aget bytes_eqb (m_out m) address = Some ch -> a <= left_in ch -> signs e ->
  exists v m' ch', CorePay e g address 0 a = Ret (Paid (c_addr ch) v, with_pay g m') /\ aget bytes_eqb (m_out m') address = Some ch' /\
    left_in ch' = left_in ch - a /\ c_addr ch' = c_addr ch /\ m_in m' = m_in m /\ m_addr m' = m_addr m /\ forall b, b <> address -> aget bytes_eqb (m_out m') b = aget bytes_eqb (m_out m) b.
Proof.
  intros Gp G Le Sg. unfold left_in in Le. unfold CorePay. rewrite Gp. cbn [deref obind]. unfold Pay. rewrite G. replace (c_balance ch <? c_redeemed ch + a) with false by lia.
  destruct (e_sign e _) as [s|] eqn:Es; [|exfalso; revert Es; apply Sg; reflexivity]. do 3 eexists. split; [reflexivity|]. cbn [m_out m_in m_addr]. split; [apply aset_get|].
  split; [unfold left_in; cbn [c_balance c_redeemed]; lia|]. split; [reflexivity|]. split; [reflexivity|]. split; [reflexivity|]. intros b N. rewrite (aget_aset bytes_eqb bytes_eqb_eq).
  destruct (bytes_eqb _ _) eqn:B; [|reflexivity]. apply bytes_eqb_eq in B. congruence.
Qed.

Section paid.
  Variable version : Z.
  Variable supported : list Z.
  Variable sha256 sha512_256 : bytes -> bytes.
  Variable pub_of : bytes -> bytes.
  Variable ec_sign : bytes -> bytes -> option bytes.
  Variable ec_verify : bytes -> bytes -> bytes -> bool.
  Variable blake : bytes -> bytes.
  Variable verify : gostring -> voucher -> option bytes -> bool.
  Variable voucher_text : voucher -> gostring.
  Variable voucher_of : gostring -> option voucher.
  Variable is_address : gostring -> bool.
  Variable zone : Z.
  Variables BindAdminAPI BindRestAPI BindGatewayAPI BindProviderAPI : gostring.
  Hypothesis Law : ecdsa_correct pub_of ec_sign ec_verify.
  Hypothesis AC : BindAdminAPI <> BindRestAPI.
  Hypothesis GP : BindGatewayAPI <> BindProviderAPI.
  Hypothesis version_32 : int32 version.
  Hypothesis supported_32 : Forall int32 supported.
  Hypothesis voucher_readable : forall v, v_terms v = [] -> voucher_of (voucher_text v) = Some v.
  Implicit Types (g : gateway) (e : env) (ce : cenv).

  Local Notation api := (client_api version supported sha256 sha512_256 pub_of ec_sign ec_verify blake verify voucher_text voucher_of is_address zone BindAdminAPI BindRestAPI BindGatewayAPI BindProviderAPI).
  Local Notation papi := (peer_api version supported sha256 sha512_256 pub_of ec_sign ec_verify blake verify voucher_of is_address zone BindAdminAPI BindRestAPI BindGatewayAPI BindProviderAPI).
  Local Notation peer := (peer version supported sha256 sha512_256 pub_of ec_sign ec_verify blake verify voucher_of is_address zone BindAdminAPI BindRestAPI BindGatewayAPI BindProviderAPI).
  Local Notation of_key := (AdminSpec.of_key pub_of ec_verify blake).
  Local Notation lists := (lists pub_of).
  Local Notation receive := (CoreReceive verify voucher_of is_address).
  Local Notation settled := (settled verify is_address).
  Local Notation payable := (payable version supported sha256 sha512_256 pub_of ec_sign ec_verify blake verify voucher_of is_address zone BindAdminAPI BindRestAPI BindGatewayAPI BindProviderAPI).
  Local Notation bought := (bought version supported sha256 sha512_256 pub_of ec_sign ec_verify blake verify voucher_of is_address zone BindAdminAPI BindRestAPI BindGatewayAPI BindProviderAPI).
  Local Notation digests_at := (digests_at sha256 sha512_256 pub_of ec_verify blake zone).
  Ltac tagged H := apply rbind_inv in H; destruct H as (? & H & _); exact (AdminNodeProofs.decoded_tag _ _ _ _ _ H).

  (** ** Paying *)
  (** The payment as it arrives; the client's lemma serves. *)
  Lemma paid_over e g m address ep p ch a : g_pay g = Some m -> settled e g address ep p ch -> 0 < a -> a <= left_in ch ->
    exists v m' ch' n', CorePay e g address 0 a = Ret (Paid (c_addr ch) v, with_pay g m') /\ receive ep p (c_addr ch) (voucher_text v) = Ret (Some a, with_pay p n') /\
      aget bytes_eqb (m_out m') address = Some ch' /\ settled e (with_pay g m') address ep (with_pay p n') ch' /\ left_in ch' = left_in ch - a.
  Proof using voucher_readable sha256 sha512_256 pub_of ec_sign ec_verify blake.
    intros Gp ((m0 & Gp0 & G) & n & from & b & Pp & St & Ad & Sg & Ch) A0 A1. assert (m0 = m) by congruence. subst m0.
    set (ce := CEnv 0 (fun _ _ _ => None) (fun _ => None) (fun _ => None) None (fun _ => TxRefused) (e_sign e) (fun l => l)).
    set (c := with_mgr (NewClient None 0 0 0 0 (NewFCRRegisterMgr reg true true)) m).
    set (gw := Reg [] address [] [] [] [] [] [] []).
    assert (Acc : account verify is_address ce ep c gw p m ch).
    { exists n, from, b. split; [reflexivity|]. split; [exact Pp|]. split; [exact G|]. split; [exact St|]. split; [exact Ad|]. split; [exact Sg|exact Ch]. }
    destruct (paid_and_received sha256 sha512_256 pub_of ec_sign ec_verify blake verify voucher_text voucher_of is_address voucher_readable ce ep c gw p m ch a Acc A0 A1)
      as (v & m' & ch' & p' & n' & Pn & Er & -> & Lf & Ca & (n2 & from2 & b2 & C1 & C2 & C3 & C4 & C5 & C6 & C7)).
    exists v, m', ch', n'. cbn [with_mgr c_pay with_pay g_pay] in C1, C2. split.
    - unfold PayNow in Pn. unfold c in Pn at 1. cbn [with_mgr c_pay deref obind] in Pn. unfold CorePay. rewrite Gp. cbn [deref obind].
      change (r_address gw) with address in Pn. change (ce_sign ce) with (e_sign e) in Pn. change defaultPaymentLane with 0 in Pn.
      destruct (Pay m address 0 a (e_sign e)) as [m1 p1]. apply ret_inj in Pn. injection Pn as -> ->. reflexivity.
    - split; [exact Er|]. split; [exact C3|]. split; [|exact Lf]. split; [exists m'; split; [reflexivity|exact C3]|]. exists n2, from2, b2. split; [exact C2|]. split; [exact C4|]. split; [exact C5|]. split; [exact C6|exact C7].
  Qed.

  Lemma paid_over_frame e g m address ep p ch a : g_pay g = Some m -> settled e g address ep p ch -> 0 < a -> a <= left_in ch ->
    exists v m' ch' n', CorePay e g address 0 a = Ret (Paid (c_addr ch) v, with_pay g m') /\ receive ep p (c_addr ch) (voucher_text v) = Ret (Some a, with_pay p n') /\
      settled e (with_pay g m') address ep (with_pay p n') ch' /\ left_in ch' = left_in ch - a /\
      m_in m' = m_in m /\ m_addr m' = m_addr m /\ (forall b, b <> address -> aget bytes_eqb (m_out m') b = aget bytes_eqb (m_out m) b).
  Proof using voucher_readable sha256 sha512_256 pub_of ec_sign ec_verify blake.
    intros Gp St A0 A1. destruct (paid_over e g m address ep p ch a Gp St A0 A1) as (v & m' & ch' & n' & P & R & _ & S & L).
    destruct St as ((m0 & Gp0 & G) & n & from & b & _ & _ & _ & Sg & _). assert (m0 = m) by congruence. subst m0.
    destruct (paid_out e g m address a ch Gp G A1) as (v2 & m2 & ch2 & P2 & _ & _ & _ & Mi & Ma & Fr).
    { intros w Hw. destruct (Sg w Hw) as (s & -> & _). discriminate. }
    rewrite P in P2. apply ret_inj in P2. assert (m' = m2) by (apply (f_equal (fun z => g_pay (snd z))) in P2; cbn [snd g_pay with_pay] in P2; congruence). subst m2.
    exists v, m', ch', n'. repeat (split; [assumption|]). assumption.
  Qed.

  (** ** The gateway asked *)
  Lemma api_gateway_discover_v2 e g m z : DecodeGatewayDHTDiscoverRequestV2 sha256 m = Ret (OkR z) ->
    papi e g m = HandleGatewayDiscoverV2 version supported sha256 sha512_256 pub_of ec_sign ec_verify blake verify voucher_of is_address zone e g m.
  Proof using AC GP.
    intros D. destruct z as (((((x1 & x2) & x3) & x4) & x5) & x6). unfold peer_api.
    assert (T : m_type m = type_of KGatewayDHTDiscoverRequestV2) by tagged D. rewrite T, routed_type by (assumption || discriminate). reflexivity.
  Qed.

  Lemma peer_sells e g id (x : contact) cid i k chn text a n' : peer e g id x -> g_id g = Some i -> g_key g = Some k -> can_sign ec_sign blake k -> id32 i -> id32 cid -> int64 (unix e + 10) ->
    receive (at_env x) (at_state x) chn text = Ret (Some a, with_pay (at_state x) n') -> g_search (at_state x) <= a ->
    forall n, exists r o q, Gateway.RequestDHTDiscoverV2 version supported pub_of ec_sign ec_verify blake e n g id (Some cid) chn text = Ret (Some r, g, o) /\
      digests_at cid x r /\ wire_message r /\ papi (at_env x) (at_state x) q = Ret (with_pay (at_state x) n', Reply r).
  Proof using Law AC GP version_32 supported_32.
    clear voucher_readable. intros ((Cn & Net & T & Pk & Pc & Gl & (i' & k' & Gi' & Gk' & Pl) & Sh) & St & U & Sz) Gi Gk Cs Hi Hc It Er Pr n.
    assert (i' = i) by congruence. assert (k' = k) by congruence. subst i' k'. destruct x as [ep p hist kp]. cbn [at_env at_state at_hist at_key] in *.
    assert (I1 : int64 1) by (unfold int64; lia).
    destruct (rt_GatewayDHTDiscoverRequestV2 version supported sha256 i cid 1 (unix e + 10) chn text Hi Hc I1 It) as (b & Eb & _ & Db).
    destruct (sign_with_can pub_of ec_sign ec_verify blake Law k (g_ver g) b Cs) as (s & Es & Os).
    destruct (stock_on_sale sha256 sha512_256 zone ep p hist cid St U Sh Hc) as (os & found & Q & S & Fo).
    assert (Pv : forall o, In o os -> o_provider o <> None).
    { intros o I. destruct (sale_recorded zone _ _ _ _ _ S I) as (R & _). destruct (GatewayProofs.recorded_in _ _ R) as (f & If). destruct St as [[P _] _]. destruct (P _ _ If) as (W & _). exact (wire_provider sha256 o W). }
    destruct (digests_total sha512_256 os Pv) as (ds & Ed & Fd).
    destruct (rt_GatewayDHTDiscoverResponseV2 version supported sha256 cid 1 found (Some ds) (Some (falses os)) false [] Hc I1) as (y & Ea & Fa & Da).
    destruct (sign_with_can pub_of ec_sign ec_verify blake Law kp (g_ver p) y Pc) as (t & Et & Ot).
    assert (A : papi ep p (set_sig b s) = Ret (with_pay p n', Reply (set_sig y t))).
    { rewrite (api_gateway_discover_v2 ep p (set_sig b s) (Some i, Some cid, 1, unix e + 10, chn, text) Db). unfold HandleGatewayDiscoverV2.
      change (DecodeGatewayDHTDiscoverRequestV2 sha256 (set_sig b s)) with (DecodeGatewayDHTDiscoverRequestV2 sha256 b). rewrite Db. cbn [obind].
      unfold from_gateway. destruct (core_known pub_of ep 0 p i k Pl) as (ii & pk & Ec & Ek & Em). rewrite Ec. cbn [obind]. unfold Gateway.GetSigningKey. rewrite Ek. cbn [obind].
      rewrite (Os pk Em). cbn [negb]. replace (unix ep >? unix e + 10) with false by lia. rewrite Er. cbn [obind]. unfold CoreGetOffers. cbn [deref obind with_pay g_db]. rewrite Q. cbn [obind fst snd].
      rewrite Ed. cbn [obind]. change (g_search (with_pay p n')) with (g_search p). replace (a <? g_search p) with false by lia. rewrite Ea. cbn [obind]. unfold finish_p2p. cbn [with_pay g_key g_ver]. rewrite Pk, Et. reflexivity. }
    exists (set_sig y t). eexists. exists (set_sig b s). split.
    - unfold Gateway.RequestDHTDiscoverV2, ask_gateway. rewrite Cn. cbn [negb]. rewrite Gi, Eb. cbn [obind]. rewrite Gk, Es. cbn [obind fst snd negb]. rewrite Net, A. cbn [heard].
      destruct (core_known pub_of e n g id kp Gl) as (ii & pk & Ec & Ek & Em). rewrite Ec. cbn [obind]. unfold Gateway.GetSigningKey. rewrite Ek. cbn [obind].
      rewrite message_verify_state, (Ot pk Em). reflexivity.
    - split; [split; [exact Ot|]|split; [|exact A]].
      + exists os, ds, 1, found, (Some (falses os)). split; [exact S|]. split; [exact Fd|]. split; [exact Fo|exact Da].
      + destruct Fa as (F1 & F2 & F3 & _). unfold wire_message. cbn [set_sig m_type m_version m_supported]. rewrite F1, F2, F3. cbn [each]. split; [unfold int32; lia|]. auto.
  Qed.

  Lemma silent_none_v2 e g id cid i k chn text : silent e id -> g_id g = Some i -> g_key g = Some k -> can_sign ec_sign blake k -> id32 i -> id32 cid -> int64 (unix e + 10) ->
    forall n, exists o, Gateway.RequestDHTDiscoverV2 version supported pub_of ec_sign ec_verify blake e n g id (Some cid) chn text = Ret (None, g, o).
  Proof using Law sha256.
    clear voucher_readable AC GP version_32 supported_32. intros Si Gi Gk Cs Hi Hc It n. unfold Gateway.RequestDHTDiscoverV2, ask_gateway.
    destruct (Si n) as [->|N]; [eexists; reflexivity|]. destruct (e_conn e n id); [|eexists; reflexivity]. cbn [negb].
    assert (I1 : int64 1) by (unfold int64; clear; lia).
    destruct (rt_GatewayDHTDiscoverRequestV2 version supported sha256 i cid 1 (unix e + 10) chn text Hi Hc I1 It) as (b & Eb & _ & _).
    destruct (sign_with_can pub_of ec_sign ec_verify blake Law k (g_ver g) b Cs) as (s & Es & _). rewrite Gi, Eb. cbn [obind]. rewrite Gk, Es. cbn [obind fst snd negb]. rewrite N. eexists. reflexivity.
  Qed.

  (** ** The gateway asking *)
  Lemma settled_keeps e g m m' address ep p ch : aget bytes_eqb (m_out m') address = aget bytes_eqb (m_out m) address ->
    settled e (with_pay g m) address ep p ch -> settled e (with_pay g m') address ep p ch.
  Proof using.
    intros E ((m0 & Gp & G) & R). cbn [with_pay g_pay] in Gp. injection Gp as <-. split; [|exact R]. exists m'. split; [reflexivity|]. congruence.
  Qed.
  Lemma channel_keeps g m m' address ch : aget bytes_eqb (m_out m') address = aget bytes_eqb (m_out m) address ->
    channel_to (with_pay g m) address ch -> channel_to (with_pay g m') address ch.
  Proof using.
    intros E (m0 & Gp & G). cbn [with_pay g_pay] in Gp. injection Gp as <-. exists m'. split; [reflexivity|]. congruence.
  Qed.
  Lemma payable_keeps met e g m m' a id : aget bytes_eqb (m_out m') a = aget bytes_eqb (m_out m) a ->
    payable met e (with_pay g m) a id -> payable met e (with_pay g m') a id.
  Proof using.
    intros E P. unfold DhtPaidSpec.payable in *. destruct (met id) as [x|].
    - destruct P as (A & B & ch & C & D). split; [exact A|]. split; [exact B|]. exists ch. split; [exact (settled_keeps _ _ _ _ _ _ _ _ E C)|exact D].
    - destruct P as (A & B & ch & C & D). split; [exact A|]. split; [exact B|]. exists ch. split; [exact (channel_keeps _ _ _ _ _ E C)|exact D].
  Qed.
  Lemma bought_keeps met cid e g m0 m0' m m' a cs cs' id :
    aget bytes_eqb (m_out m0') a = aget bytes_eqb (m_out m0) a -> aget bytes_eqb (m_out m') a = aget bytes_eqb (m_out m) a ->
    (forall y, In y cs -> In y cs') -> bought met cid e (with_pay g m0) (with_pay g m) a cs id -> bought met cid e (with_pay g m0') (with_pay g m') a cs' id.
  Proof using.
    intros E0 E I B. unfold DhtPaidSpec.bought in *. destruct (met id) as [x|].
    - destruct B as (r & q & p' & ch & ch' & B1 & B2 & B3 & Bp & B4 & B5 & B6). exists r, q, p', ch, ch'. split; [exact (I _ B1)|]. split; [exact B2|]. split; [exact B3|]. split; [exact Bp|].
      split; [exact (channel_keeps _ _ _ _ _ E0 B4)|]. split; [exact (settled_keeps _ _ _ _ _ _ _ _ E B5)|exact B6].
    - destruct B as (ch & ch' & B1 & B2 & B3). exists ch, ch'. split; [exact (channel_keeps _ _ _ _ _ E0 B1)|]. split; [exact (channel_keeps _ _ _ _ _ E B2)|exact B3].
  Qed.

  Lemma rounds met e g cid i k : g_id g = Some i -> g_key g = Some k -> can_sign ec_sign blake k -> id32 i -> id32 cid -> int64 (unix e + 10) -> 0 < g_search g ->
    forall gws ids, Forall2 (fun gw id => n_id gw = ToString id /\ id32 id) gws ids -> NoDup (map n_address gws) -> forall m,
    (forall gw id, In (gw, id) (combine gws ids) -> payable met e (with_pay g m) (n_address gw) id) ->
    forall n w, exists cs un o m', discover_all_v2 version supported pub_of ec_sign ec_verify blake voucher_text e n (with_pay g m) (Some cid) gws w =
        Ret (inr (Gathered (contacted w ++ map fst cs) (responses w ++ map snd cs) (unContactable w ++ un) (out w ++ o)), with_pay g m', out w ++ o) /\
      map fst cs = filter (met_one met) ids /\ un = filter (fun id => negb (met_one met id)) ids /\ Forall (fun y => wire_message (snd y)) cs /\
      (forall gw id, In (gw, id) (combine gws ids) -> bought met cid e (with_pay g m) (with_pay g m') (n_address gw) cs id) /\
      (forall b, ~ In b (map n_address gws) -> aget bytes_eqb (m_out m') b = aget bytes_eqb (m_out m) b) /\ m_in m' = m_in m /\ m_addr m' = m_addr m.
  Proof using Law AC GP version_32 supported_32 voucher_readable.
    intros Gi Gk Cs Hi Hc It Ps gws ids F. induction F as [|gw id gws ids (Ni & Hid) F IH]; intros Nd m P n w.
    { exists [], [], [], m. cbn [discover_all_v2 map filter combine]. rewrite !app_nil_r. split; [destruct w; reflexivity|]. split; [reflexivity|]. split; [reflexivity|]. split; [constructor|].
      split; [contradiction|]. split; [reflexivity|]. split; reflexivity. }
    cbn [map] in Nd. inversion Nd as [|? ? Na Nd']; subst.
    assert (P0 := P gw id (or_introl eq_refl)).
    assert (Step : exists v chn m1 r o, CorePay e (with_pay g m) (n_address gw) 0 (g_search g) = Ret (Paid chn v, with_pay (with_pay g m) m1) /\
      Gateway.RequestDHTDiscoverV2 version supported pub_of ec_sign ec_verify blake e n (with_pay g m1) id (Some cid) chn (voucher_text v) = Ret (r, with_pay g m1, o) /\
      match r with Some r => met_one met id = true /\ wire_message r /\ bought met cid e (with_pay g m) (with_pay g m1) (n_address gw) [(id, r)] id
      | None => met_one met id = false /\ bought met cid e (with_pay g m) (with_pay g m1) (n_address gw) [] id end /\
      (m_in m1 = m_in m /\ m_addr m1 = m_addr m) /\ (forall b, b <> n_address gw -> aget bytes_eqb (m_out m1) b = aget bytes_eqb (m_out m) b)).
    { unfold DhtPaidSpec.payable in P0. unfold met_one, DhtPaidSpec.bought. destruct (met id) as [x|].
      - destruct P0 as (Pe & Le & ch & St & Lf).
        destruct (paid_over_frame e (with_pay g m) m (n_address gw) (at_env x) (at_state x) ch (g_search g) eq_refl St Ps Lf) as (v & m1 & ch' & n' & Cp & Rc & St' & L' & Mi & Ma & Fr).
        destruct (peer_sells e (with_pay g m1) id x cid i k (c_addr ch) (voucher_text v) (g_search g) n' Pe Gi Gk Cs Hi Hc It Rc Le n) as (r & o & q & Rq & Da & Wm & Pa).
        exists v, (c_addr ch), m1, (Some r), o. split; [exact Cp|]. split; [exact Rq|]. split; [|split; [split; assumption|assumption]]. split; [reflexivity|]. split; [exact Wm|].
        exists r, q, (with_pay (at_state x) n'), ch, ch'. split; [left; reflexivity|]. split; [exact Da|]. split; [exact Pa|]. split; [exists n'; reflexivity|]. split; [exact (proj1 St)|]. split; [exact St'|exact L'].
      - destruct P0 as (Si & Sg & ch & (m0 & Gp & G) & Lf). cbn [with_pay g_pay] in Gp. injection Gp as <-.
        destruct (paid_out e (with_pay g m) m (n_address gw) (g_search g) ch eq_refl G Lf Sg) as (v & m1 & ch' & Cp & G' & L' & _ & Mi & Ma & Fr).
        destruct (silent_none_v2 e (with_pay g m1) id cid i k (c_addr ch) (voucher_text v) Si Gi Gk Cs Hi Hc It n) as (o & Rq).
        exists v, (c_addr ch), m1, None, o. split; [exact Cp|]. split; [exact Rq|]. split; [|split; [split; assumption|assumption]]. split; [reflexivity|].
        exists ch, ch'. split; [exists m; split; [reflexivity|exact G]|]. split; [exists m1; split; [reflexivity|exact G']|exact L']. }
    destruct Step as (v & chn & m1 & r & o1 & Cp & Rq & Re & (Mi & Ma) & Fr).
    assert (P1 : forall gw' id', In (gw', id') (combine gws ids) -> payable met e (with_pay g m1) (n_address gw') id').
    { intros gw' id' I. apply (payable_keeps met e g m m1); [|exact (P gw' id' (or_intror I))]. apply Fr. intros E. apply Na. rewrite <- E. apply in_map. exact (in_combine_l _ _ _ _ I). }
    destruct (IH Nd' m1 P1 (S n) (gather w id r o1)) as (cs & un & o & m' & Da & Ec & Eu & Fw & Bo & Fr' & Mi' & Ma').
    assert (Back : forall gw' id' , In (gw', id') (combine gws ids) -> forall cs', (forall y, In y cs -> In y cs') -> bought met cid e (with_pay g m) (with_pay g m') (n_address gw') cs' id').
    { intros gw' id' I cs' Su. apply (bought_keeps met cid e g m1 m m' m' (n_address gw') cs cs' id'); [symmetry; apply Fr|reflexivity|exact Su|exact (Bo _ _ I)].
      intros E. apply Na. rewrite <- E. apply in_map. exact (in_combine_l _ _ _ _ I). }
    assert (Start : discover_all_v2 version supported pub_of ec_sign ec_verify blake voucher_text e n (with_pay g m) (Some cid) (gw :: gws) w =
      discover_all_v2 version supported pub_of ec_sign ec_verify blake voucher_text e (S n) (with_pay g m1) (Some cid) gws (gather w id r o1)).
    { cbn [discover_all_v2]. rewrite Ni, (proj1 (id_hex_roundtrip_pf id Hid)). change (g_search (with_pay g m)) with (g_search g). rewrite Cp. cbn [obind].
      change (with_pay (with_pay g m) m1) with (with_pay g m1). rewrite Rq. reflexivity. }
    assert (Fe : forall b, ~ In b (n_address gw :: map n_address gws) -> aget bytes_eqb (m_out m') b = aget bytes_eqb (m_out m) b).
    { intros b N. rewrite Fr' by (intros I; apply N; right; exact I). apply Fr. intros E. apply N. left. symmetry. exact E. }
    rewrite Start, Da. destruct r as [r|].
    - destruct Re as (Me & Wm & Bt). exists ((id, r) :: cs), un, (o1 ++ o), m'.
      cbn [gather contacted responses unContactable out map fst snd filter]. rewrite <- !app_assoc. rewrite Me. cbn [negb]. split; [reflexivity|]. split; [cbn [app]; f_equal; exact Ec|]. split; [exact Eu|].
      split; [constructor; assumption|]. split; [|split; [exact Fe|split; congruence]].
      intros gw' id' [E|I]; [|apply Back; [exact I|intros y Y; right; exact Y]]. injection E as <- <-.
      apply (bought_keeps met cid e g m m m1 m' (n_address gw) [(id, r)]); [reflexivity|exact (Fr' _ Na)|intros y [<-|[]]; left; reflexivity|exact Bt].
    - destruct Re as (Me & Bt). exists cs, (id :: un), (o1 ++ o), m'.
      cbn [gather contacted responses unContactable out map fst snd filter]. rewrite <- !app_assoc. rewrite Me. cbn [negb]. split; [reflexivity|]. split; [exact Ec|]. split; [f_equal; exact Eu|].
      split; [exact Fw|]. split; [|split; [exact Fe|split; congruence]].
      intros gw' id' [E|I]; [|apply Back; [exact I|auto]]. injection E as <- <-.
      apply (bought_keeps met cid e g m m m1 m' (n_address gw) []); [reflexivity|exact (Fr' _ Na)|intros y []|exact Bt].
  Qed.

  Lemma addresses_nodup g : addresses_differ g -> forall near : list (gostring * info), NoDup (map fst near) ->
    (forall id i, In (id, i) near -> canonical id /\ aget bytes_eqb (gatewaysMap info (g_reg g)) id = Some i) -> NoDup (map n_address (map snd near)).
  Proof using.
    intros D. induction near as [|[id i] t IH]; intros N A; [constructor|]. cbn [map fst snd] in *. inversion N as [|? ? Nn N']; subst. constructor; [|apply IH; [exact N'|intros j q I; apply A; right; exact I]].
    intros I. apply in_map_iff in I. destruct I as (q & E & I). apply in_map_iff in I. destruct I as ((j & q') & Eq & I). cbn [snd] in Eq. subst q'.
    destruct (A id i (or_introl eq_refl)) as ((b & _ & ->) & G). destruct (A j q (or_intror I)) as ((b' & _ & ->) & G'). apply Nn.
    rewrite (D b b' (n_address i)); [apply in_map_iff; exists (ToString b', q); split; [reflexivity|exact I]|exists i; auto|exists q; auto].
  Qed.

  Lemma receive_reg e g r ch text x g1 : receive e g ch text = Ret (Some x, g1) ->
    exists m m1, g_pay g = Some m /\ receive e (with_reg g r) ch text = Ret (Some x, with_pay (with_reg g r) m1) /\ g1 = with_pay g m1 /\ m_out m1 = m_out m.
  Proof using.
    unfold CoreReceive. cbn [with_reg g_pay]. destruct (g_pay g) as [m|]; [|destruct (is_address ch); [destruct (voucher_of text)|]; discriminate].
    destruct (Receive verify m ch (voucher_of text) _) as [m1 y] eqn:R. destruct (receive_effect verify _ _ _ _ _ _ R) as (_ & Mo & _). destruct y; try discriminate.
    intros H. apply ret_inj in H. injection H as <- <-. exists m, m1. split; [reflexivity|]. split; [reflexivity|]. split; [reflexivity|exact Mo].
  Qed.

  Lemma api_dht_v2 e g m z : DecodeClientDHTDiscoverRequestV2 sha256 m = Ret (OkR z) ->
    api e g m = (let* s := HandleDHTDiscoverV2 version supported sha256 pub_of ec_sign ec_verify blake verify voucher_text voucher_of is_address e g m in Ret (after s, wrote s))%go.
  Proof using AC GP.
    intros D. destruct z as ((((((x1 & x2) & x3) & x4) & x5) & x6) & x7). unfold client_api.
    assert (T : m_type m = type_of KClientDHTDiscoverRequestV2) by tagged D. rewrite T, routed_type by (assumption || discriminate). reflexivity.
  Qed.

  Lemma searched_paid_pf ce n gw e g cid nonce ttl num i members met channel text x g1 : represents pub_of gw g -> ready ec_sign blake g -> reaches (ce_http ce n) gw (api e g) -> g_id g = Some i ->
    managed info (g_reg g) -> self_named (g_reg g) -> knows info (g_reg g) members -> harmless info (g_reg g) cid num (Some i) ->
    length members <> 1%nat -> 1 <= num -> Z.min num 16 <= Z.of_nat (length (without (ToString i) members)) -> int64 num ->
    int64 nonce -> int64 ttl -> unix e <= ttl -> int64 (unix e + 10) ->
    receive e g channel text = Ret (Some x, g1) -> g_search g * num <= x -> 0 < g_search g -> addresses_differ g ->
    (forall id address, id32 id -> near_one (without (ToString i) members) (ToString cid) (Z.min num 16) (ToString id) -> pays_at g id address -> payable met e g address id) ->
    exists ids cs m g' r,
      Client.RequestDHTDiscoverV2 version supported sha256 pub_of ec_verify blake ce n gw (Some cid) nonce ttl num channel text = Ret (OkR (map fst cs, map snd cs, false, []), [(r_client_ap gw, m)]) /\
      closest_ok (without (ToString i) members) (ToString cid) (Z.min num 16) (map ToString ids) /\ Forall id32 ids /\ NoDup ids /\
      map fst cs = filter (met_one met) ids /\
      (forall id, In id ids -> exists address, pays_at g id address /\ bought met cid e g g' address cs id) /\
      api e g m = Ret (g', [Json r]) /\ g_db g' = g_db g /\ settings g' = settings g /\
      (forall address ch, (forall id, In id ids -> ~ pays_at g id address) -> (channel_to g' address ch <-> channel_to g address ch)) /\
      same_gateways g g' /\
      exists m1 m2, g_pay g1 = Some m1 /\ g_pay g' = Some m2 /\ m_in m2 = m_in m1 /\ m_addr m2 = m_addr m1.
  Proof using Law AC GP version_32 supported_32 voucher_readable.
    intros (id & k' & Gi & Ri & Gk & Rk) (id' & k & mg & Gi' & Hi & Gk' & Cs & Gp) Re Gi2 Mg Sn Kn Hm Ln N1 N2 Inum In It T Ie Er Px Ps Ad Met.
    assert (k' = k) by congruence. assert (id' = i) by congruence. assert (id = i) by congruence. subst k' id' id. clear Gi' Gi2 Gk'.
    assert (Gv := managed_ginv info _ Mg).
    destruct (near_ok_excluding info (g_reg g) cid num i members Gv Hm Kn Ln N1 N2) as (near & reg' & Nr & (Cl & Ng) & _).
    destruct (near_same _ _ _ _ _ _ Nr) as (S1 & S2 & S3).
    assert (Hc : id32 cid) by exact (proj1 Hm).
    assert (Nc : forall j q, List.In (j, q) near -> canonical j /\ aget bytes_eqb (gatewaysMap info (g_reg g)) j = Some q).
    { intros j q I. assert (G := Ng _ _ I). split; [exact (g_canon _ _ Gv _ _ G)|exact G]. }
    destruct (named_ids (g_reg g) Sn near Nc) as (ids & Ei & Em & Fi).
    assert (Nd : NoDup (map fst near)) by exact (closest_nodup _ _ _ _ (without_nodup _ _ (sorted_nodup _ (proj1 Kn))) Cl).
    assert (Ni : NoDup ids) by (rewrite <- Em in Nd; exact (NoDup_map_inv _ _ Nd)).
    assert (Na := addresses_nodup g Ad near Nd Nc).
    destruct (receive_reg e g reg' _ _ _ _ Er) as (m0 & m1 & Gp0 & Er' & Eg1 & Mo).
    set (g0 := with_reg g reg') in *.
    assert (Lm : forall j q, lists (g_reg g) j q -> lists (g_reg g0) j q).
    { intros j q (A & B & D). unfold g0, DhtSpec.lists. cbn [g_reg with_reg]. rewrite S1, S2, S3. auto. }
    assert (F2 : Forall2 (fun gw id => n_id gw = ToString id /\ id32 id) (map snd near) ids).
    { clear -Sn Nc Em Fi. revert ids Em Fi. induction near as [|[j q] t IH]; intros [|id ids] Em Fi; try discriminate; [constructor|]. cbn [map fst snd] in *. injection Em as E Em.
      assert (Hid : id32 id) by (inversion Fi; assumption). assert (Fi' : Forall id32 ids) by (inversion Fi; assumption).
      constructor; [|apply IH; [intros a b I; apply Nc; right; exact I|exact Em|exact Fi']]. split; [|exact Hid]. rewrite E. exact (Sn _ _ (proj2 (Nc _ _ (or_introl eq_refl)))). }
    assert (Pair : forall q id, List.In (q, id) (combine (map snd near) ids) -> id32 id /\ near_one (without (ToString i) members) (ToString cid) (Z.min num 16) (ToString id) /\ pays_at g id (n_address q) /\ List.In id ids).
    { intros q id I. assert (Ii := in_combine_r _ _ _ _ I). split; [rewrite Forall_forall in Fi; exact (Fi _ Ii)|]. split; [exists (map fst near); split; [exact Cl|]; rewrite <- Em; apply in_map; exact Ii|].
      split; [|exact Ii]. exists q. split; [|reflexivity]. clear -Ng Em I. revert ids Em I. induction near as [|[j q'] t IH]; intros [|a ids] Em I; try contradiction. cbn [map fst snd combine] in *. injection Em as E Em.
      destruct I as [E'|I]; [injection E' as -> ->; rewrite E; apply Ng; left; reflexivity|]. apply (IH (fun a b H => Ng a b (or_intror H)) ids Em I). }
    assert (Ch : forall address ch m', channel_to (with_pay g0 m') address ch <-> aget bytes_eqb (m_out m') address = Some ch).
    { intros a ch m'. split; [intros (y & E & H); cbn [with_pay g_pay] in E; congruence|intros H; exists m'; split; [reflexivity|exact H]]. }
    assert (Ch0 : forall address ch, channel_to g address ch <-> aget bytes_eqb (m_out m1) address = Some ch).
    { intros a ch. rewrite Mo. split; [intros (y & E & H); congruence|intros H; exists m0; split; [exact Gp0|exact H]]. }
    assert (Pay0 : forall q id, List.In (q, id) (combine (map snd near) ids) -> payable met e (with_pay g0 m1) (n_address q) id).
    { intros q id I. destruct (Pair _ _ I) as (A & B & D & _). specialize (Met id (n_address q) A B D). unfold DhtPaidSpec.payable in *. destruct (met id) as [y|].
      - destruct Met as (((P1 & P2 & P3 & P4 & P5 & P6 & P7) & Pst) & Le & ch & (C1 & C2) & Lf).
        split; [split; [|exact Pst]; split; [exact P1|]; split; [exact P2|]; split; [exact P3|]; split; [exact P4|]; split; [exact P5|]; split; [exact (Lm _ _ P6)|exact P7]|].
        split; [exact Le|]. exists ch. split; [split; [apply Ch, Ch0; exact C1|exact C2]|exact Lf].
      - destruct Met as (Si & Sg & ch & C1 & Lf). split; [exact Si|]. split; [exact Sg|]. exists ch. split; [apply Ch, Ch0; exact C1|exact Lf]. }
    destruct (rt_ClientDHTDiscoverRequestV2 version supported sha256 cid nonce ttl num false channel text Hc In It Inum) as (m & En & _ & D).
    destruct (rounds met e g0 cid i k Gi Gk Cs Hi Hc Ie Ps (map snd near) ids F2 Na m1 Pay0 0 nothing) as (cs & un & o & m' & Da & Ec & Eu & Fw & Bo & Fr & Mi & Ma).
    cbn [nothing contacted responses unContactable out app] in Da.
    assert (Fc : Forall id32 (map fst cs)).
    { rewrite Ec. apply Forall_forall. intros j I. apply filter_In in I. rewrite Forall_forall in Fi. exact (Fi _ (proj1 I)). }
    assert (Fu : Forall id32 un).
    { rewrite Eu. apply Forall_forall. intros j I. apply filter_In in I. rewrite Forall_forall in Fi. exact (Fi _ (proj1 I)). }
    destruct (rt_ClientDHTDiscoverResponseV2 version supported sha256 (map fst cs) (Some (map snd cs)) un nonce false []) as (b & Eb & _ & Db); [exact Fc| |exact Fu|exact In|].
    { cbn [each]. apply Forall_forall. intros q I. apply in_map_iff in I. destruct I as (y & <- & I). rewrite Forall_forall in Fw. exact (Fw _ I). }
    destruct (AdminProofs.write_can pub_of ec_sign ec_verify blake k (g_ver g) 500 b Law Cs) as (s & F & O).
    assert (A : api e g m = Ret (with_pay g0 m', [Json (set_sig b s)])).
    { rewrite (api_dht_v2 _ _ _ _ D). unfold HandleDHTDiscoverV2. rewrite D. cbn [obind]. replace (unix e >? ttl) with false by (clear -T; lia).
      rewrite Gi, Nr. cbn [obind fst snd]. fold g0. rewrite Er'. cbn [obind]. change (g_search (with_pay g0 m1)) with (g_search g). replace (x <? g_search g * num) with false by (clear -Px; lia).
      rewrite Da. cbn [obind contacted responses unContactable]. rewrite Eb. cbn [obind]. unfold finish_rest. change (g_key (with_pay g0 m')) with (g_key g). change (g_ver (with_pay g0 m')) with (g_ver g). rewrite Gk, F. reflexivity. }
    assert (H : ce_http ce n (r_client_ap gw) m = Some (set_sig b s)) by (rewrite Re, A; reflexivity).
    exists ids, cs, m, (with_pay g0 m'), (set_sig b s). split.
    { unfold Client.RequestDHTDiscoverV2. rewrite (ask_served pub_of ec_verify blake ce n gw k _ m _ Rk En H O). cbn [obind].
      change (DecodeClientDHTDiscoverResponseV2 sha256 (set_sig b s)) with (DecodeClientDHTDiscoverResponseV2 sha256 b). rewrite Db. cbn [obind items].
      rewrite Z.eqb_refl, !map_length, Nat.eqb_refl. reflexivity. }
    split; [rewrite Em; exact Cl|]. split; [exact Fi|]. split; [exact Ni|]. split; [exact Ec|]. split.
    { intros id I. assert (X : exists q, List.In (q, id) (combine (map snd near) ids)).
      { clear -F2 I. induction F2 as [|q j l l' _ _ IH]; [contradiction|]. destruct I as [->|I]; [exists q; left; reflexivity|]. destruct (IH I) as (q' & Q). exists q'. right. exact Q. }
      destruct X as (q & X). destruct (Pair _ _ X) as (_ & _ & Pa & _). exists (n_address q). split; [exact Pa|]. specialize (Bo _ _ X). unfold DhtPaidSpec.bought in *. destruct (met id) as [y|].
      - destruct Bo as (r & q' & p' & ch & ch' & B1 & B2 & B3 & Bp & B4 & B5 & B6). exists r, q', p', ch, ch'. split; [exact B1|]. split; [exact B2|]. split; [exact B3|]. split; [exact Bp|]. split; [apply Ch0; apply Ch in B4; exact B4|]. split; [exact B5|exact B6].
      - destruct Bo as (ch & ch' & B1 & B2 & B3). exists ch, ch'. split; [apply Ch0; apply Ch in B1; exact B1|]. split; [exact B2|exact B3]. }
    split; [exact A|]. split; [reflexivity|]. split; [reflexivity|]. split.
    { intros a ch No. rewrite Ch, Ch0. rewrite Fr; [reflexivity|]. intros I. apply in_map_iff in I. destruct I as (q & Eq & I).
      assert (X : exists id, List.In (q, id) (combine (map snd near) ids)).
      { clear -F2 I. induction F2 as [|q' j l l' _ _ IH]; [contradiction|]. destruct I as [->|I]; [exists j; left; reflexivity|]. destruct (IH I) as (q'' & Q). exists q''. right. exact Q. }
      destruct X as (id & X). destruct (Pair _ _ X) as (_ & _ & Pa & Ii). subst a. exact (No id Ii Pa). }
    split; [subst g0; exact (conj S2 (conj S3 S1))|]. exists m1, m'. split; [subst g1; reflexivity|]. split; [reflexivity|]. split; [exact Mi|exact Ma].
  Qed.
End paid.
