(** * Proofs about offers that a gateway sells and relays *)
From Coq Require Import List ZArith Bool Lia Sorting.Permutation.
From Coq Require Import Init.Byte.
From Verif Require Import Base BaseProofs Ids Crypto Message Offer OfferProofs Schema Messages MessagesProofs WireSpec Payment PaymentSpec Register
  OfferStoreSpec SqlOffers SqlOffersSpec SqlOffersProofs Rest Gateway GatewaySpec GatewayOfferSpec GatewayProofs SubOfferWire.
Import ListNotations.
Open Scope Z_scope.
Open Scope go_scope.

(** ** What the database gives is made by [NewCIDOffer] *)

Lemma read_offers_made sha256 d : forall rows os found, read_offers sha256 d rows = Ret (os, found) -> forall x, In x os ->
  exists p ids o0, NewCIDOffer sha256 p ids (o_price x) (o_expiry x) (o_qos x) = Ret (OkR o0) /\
    x = Offer (o_provider o0) (o_cids o0) (o_price o0) (o_expiry o0) (o_qos o0) (o_sig x) (o_root o0) (o_tree o0).
Proof.
  induction rows as [|r rows IH]; intros os found H x X; cbn [read_offers] in H.
  - apply ret_inj in H. injection H as <- <-. destruct X.
  - step H. step H. apply ret_inj in H. injection H as <- <-. destruct X as [<-|X]; [|destruct v0 as [os' f']; eapply IH; [reflexivity|exact X]].
    unfold read_offer in E. step E. step E. step E; [|discriminate E]. apply ret_inj in E. subst v. cbn [fst]. subst v2.
    destruct (new_offer_shape _ _ _ _ _ _ _ E2) as (N & t & T & ->). cbn [o_price o_expiry o_qos o_provider o_cids o_root o_tree o_sig].
    eexists _, _, _. split; [exact E2|]. reflexivity.
Qed.

Lemma sublist_length {A} (l l' : list A) : sublist l l' -> (length l <= length l')%nat.
Proof. induction 1; cbn [length]; lia. Qed.
Lemma sublist_in {A} (l l' : list A) : sublist l l' -> forall x, In x l -> In x l'.
Proof. induction 1 as [|y l l' S IH|y l l' S IH]; intros x X; [exact X|right; auto|]. destruct X as [->|X]; [left; reflexivity|right; auto]. Qed.

Lemma remains_wire sha256 p ids o0 x o : wire_offer sha256 o -> remains_of x o ->
  NewCIDOffer sha256 p ids (o_price x) (o_expiry x) (o_qos x) = Ret (OkR o0) ->
  x = Offer (o_provider o0) (o_cids o0) (o_price o0) (o_expiry o0) (o_qos o0) (o_sig x) (o_root o0) (o_tree o0) -> wire_offer sha256 x.
Proof.
  intros W (R1 & R2 & R3 & R4 & _ & R6) N E. pose proof (new_offer_shape _ _ _ _ _ _ _ N) as (_ & t & _ & Eo).
  destruct W as (p' & ids' & price & expiry & qos & o1 & Hp & Hi & H1 & H2 & H3 & N' & E').
  pose proof (new_offer_shape _ _ _ _ _ _ _ N') as (_ & t' & _ & Eo'). subst o0 o1. cbn [o_provider o_cids o_price o_expiry o_qos o_root o_tree] in *.
  rewrite E' in R1, R2, R3, R4, R6. cbn [o_provider o_cids o_price o_expiry o_qos] in *.
  assert (Ep : p = Some p') by (rewrite <- R1, E; reflexivity). assert (Ei : o_cids x = ids) by (rewrite E; reflexivity). subst p.
  exists p', ids, (o_price x), (o_expiry x), (o_qos x). eexists. split; [exact Hp|]. split.
  { rewrite Forall_forall in *. intros y Y. apply Hi. eapply sublist_in; [exact R6|]. rewrite Ei. exact Y. }
  rewrite R2, R3, R4 in *. split; [exact H1|]. split; [exact H2|]. split; [exact H3|]. split; [exact N|exact E].
Qed.

Section gw.
  Variable version : Z.
  Variable supported : list Z.
  Variable sha256 sha512_256 : bytes -> bytes.
  Variable pub_of : bytes -> bytes.
  Variable ec_sign : bytes -> bytes -> option bytes.
  Variable ec_verify : bytes -> bytes -> bytes -> bool.
  Variable blake : bytes -> bytes.
  Variable verify : gostring -> voucher -> option bytes -> bool.
  Variable voucher_text : voucher -> gostring.
  Variable voucher_of : gostring -> option voucher.
  Variable is_address : gostring -> bool.
  Variable zone : Z.

  Local Notation receive := (CoreReceive verify voucher_of is_address).
  Local Notation credited := (credited verify voucher_of is_address).
  Local Notation digest_text := (digest_text sha512_256).
  Local Notation trusted := (trusted pub_of ec_verify blake).

  Hypothesis sha256_len : forall x, length (sha256 x) = 32%nat.

  Lemma found_wire e g hist c os found : stocked sha256 sha512_256 g hist -> sized hist -> shuffle (e_rows e) -> id32 c ->
    selectOffersSingle sha256 (e_rows e) zone (e_now e) (g_db g) c = Ret (os, found) -> forall o, In o os -> wire_suboffer (GenerateSubCIDOffer o c).
  Proof.
    intros [P D] Sz Sh Hc Q x X. destruct (sql_single_pf sha256 sha512_256 hist (g_db g) zone (e_now e) (e_rows e) c P D Sh Hc)
      as (os' & found' & Q' & R & _). rewrite Q in Q'. apply ret_inj in Q'. injection Q' as <- <-.
    destruct (R x X) as (o & Ro & _ & Rm & _). destruct (GatewayProofs.recorded_in _ _ Ro) as [f If].
    unfold selectOffersSingle, selectOffers in Q. cbn [Z.ltb Z.compare] in Q. destruct (read_offers_made _ _ _ _ _ Q x X) as (p & ids & o0 & N & E).
    apply (generated_suboffer_wire sha256 sha256_len); [|destruct Rm as (_ & _ & _ & _ & _ & S); apply sublist_length in S; specialize (Sz _ _ If); lia|exact Hc].
    eapply remains_wire; [|exact Rm|exact N|exact E]. destruct P as [P _]. destruct (P _ _ If) as (W & _). exact W.
  Qed.

  Lemma standard_served_exactly e g hist request c nonce ttl ch text : ready ec_sign blake g -> stocked sha256 sha512_256 g hist -> sized hist ->
    shuffle (e_rows e) -> DecodeClientStandardDiscoverRequest sha256 request = Ret (OkR (Some c, nonce, ttl, ch, text)) -> unix e <= ttl ->
    exists os found m, selectOffersSingle sha256 (e_rows e) zone (e_now e) (g_db g) c = Ret (os, found) /\
      HandleStandardDiscover version supported sha256 ec_sign blake zone e g request = Ret (Served g [Json m] []) /\
      DecodeClientStandardDiscoverResponse sha256 m =
        Ret (OkR (Some c, nonce, found, Some (map (fun o => GenerateSubCIDOffer o c) os), Some (falses os))).
  Proof.
    intros R St Sz Sh D T. destruct (standard_served_pf version supported sha256 sha512_256 pub_of ec_sign ec_verify blake verify voucher_of is_address zone e g hist request c nonce ttl ch text R St Sh D T)
      as (os & found & Q & K). destruct (standard_decoded _ _ _ _ _ _ _ D) as [Hc _]. specialize (Hc c eq_refl).
    destruct (K (found_wire _ _ _ _ _ _ St Sz Sh Hc Q)) as (m & H & Dm). exists os, found, m. auto.
  Qed.

  (** ** Offers by digest *)

  Hypothesis sha512_256_len : forall x, length (sha512_256 x) = 32%nat.

  Lemma by_digest_total e g hist c : stocked sha256 sha512_256 g hist -> all_undisturbed hist -> shuffle (e_rows e) ->
    forall os ds, Forall2 (fun o d => recorded hist o /\ SqlOffers.fresh zone (e_now e) (o_expiry o) = true /\ digest_text o d) os ds ->
    offers_by_digest sha256 zone e g ds (Some c) = Ret (map (fun o => (GenerateSubCIDOffer o c, true)) os).
  Proof.
    intros [P D] U Sh os ds. unfold offers_by_digest. induction 1 as [|o d os ds (R & Fr & h & Hh & ->) F IH]; [reflexivity|].
    cbn [mapO map]. unfold CoreGetOfferByDigest.
    assert (L : length h = 32%nat).
    { unfold GetMessageDigest in Hh. step Hh. apply ret_inj in Hh. subst h. apply sha512_256_len. }
    rewrite (digest_text_pf h L).
    assert (Sd : forall o, recorded hist o -> stored hist o).
    { intros o' R'. split; [exact R'|]. destruct (GatewayProofs.recorded_in _ _ R') as [f If]. exists o', f. split; [exact If|]. split; [|apply (U _ _ If)]. repeat split. }
    destruct (sql_digest_pf sha256 sha512_256 hist (g_db g) zone (e_now e) (e_rows e) h P D Sh) as (r & found & Q & K & Fo).
    { intros o' R' _ _. apply Sd, R'. }
    rewrite Q. cbn [obind fst snd]. assert (Er : r = Some o) by (apply K; auto). subst r.
    replace found with true by (symmetry; apply Fo; discriminate). unfold CoreGetOfferByDigest in IH. cbn [deref obind] in *. rewrite IH. reflexivity.
  Qed.

  Lemma recorded_wire hist o c : proper_attempts sha256 sha512_256 hist -> sized hist -> recorded hist o -> id32 c -> wire_suboffer (GenerateSubCIDOffer o c).
  Proof.
    intros P Sz R Hc. destruct (GatewayProofs.recorded_in _ _ R) as [f If]. destruct P as [P _]. destruct (P _ _ If) as (W & _).
    apply (generated_suboffer_wire sha256 sha256_len); [exact W|exact (Sz _ _ If)|exact Hc].
  Qed.

  Lemma last_flags {A} (l : list A) : last (map (fun _ => true) l) false = negb (Nat.eqb (length l) 0).
  Proof. induction l as [|a [|b l] IH]; [reflexivity|reflexivity|]. exact IH. Qed.

  Lemma standard_offer_served_pf e g hist request c nonce ttl ds ch text os : ready ec_sign blake g -> stocked sha256 sha512_256 g hist ->
    all_undisturbed hist -> sized hist -> shuffle (e_rows e) -> chain_clear e ->
    DecodeClientStandardDiscoverOfferRequest sha256 request = Ret (OkR (Some c, nonce, ttl, ds, ch, text)) -> unix e <= ttl ->
    Forall2 (fun o d => recorded hist o /\ SqlOffers.fresh zone (e_now e) (o_expiry o) = true /\ digest_text o d) os (elems ds) ->
    exists g' m, HandleStandardOffer version supported sha256 ec_sign blake verify voucher_of is_address zone e g request = Ret (Served g' [Json m] []) /\
      settings g' = settings g /\ g_db g' = g_db g /\ g_reg g' = g_reg g /\
      ((exists x, credited e g g' ch text x /\ g_offer g * slice_len ds <= x /\
          DecodeClientStandardDiscoverOfferResponse sha256 m =
            Ret (OkR (Some c, nonce, negb (Nat.eqb (length os) 0), Some (map (fun o => GenerateSubCIDOffer o c) os), Some (map (fun _ => true) os), false, []))) \/
       ((forall x, credited e g g' ch text x -> x < g_offer g * slice_len ds) /\
          DecodeClientStandardDiscoverOfferResponse sha256 m = Ret (OkR (Some c, nonce, false, None, None, true, ch)))).
  Proof.
    intros (i & k & mg & Gi & Li & Gk & Cs & Gp) St U Sz Sh Cc D T F.
    destruct (standard_offer_decoded _ _ _ _ _ _ _ _ D) as [Hc Hn]. specialize (Hc c eq_refl).
    destruct (receive_total verify voucher_of is_address e g ch text Cc) as (r & g' & Er & _); [congruence|].
    destruct (receive_inv _ _ _ _ _ _ _ _ _ Er) as (Se & Db & Rg & Cr). destruct (settings_key _ _ Se) as (Kk & _ & _ & Ko).
    unfold HandleStandardOffer. rewrite D. cbn [obind]. replace (unix e >? ttl) with false by lia. rewrite Er. cbn [obind].
    rewrite Ko. rewrite <- Kk in Gk.
    match goal with |- context [if ?b then obind _ _ else _] => destruct b eqn:Ep end.
    - destruct r as [x|]; [|discriminate].
      assert (St' : stocked sha256 sha512_256 g' hist) by (destruct St as [A B]; split; [exact A|rewrite Db; exact B]).
      rewrite (by_digest_total e g' hist c St' U Sh os (elems ds) F). cbn [obind]. rewrite !map_map. cbn [fst snd]. rewrite last_flags.
      destruct (rt_ClientStandardDiscoverOfferResponse version supported sha256 c nonce (negb (Nat.eqb (length os) 0))
        (Some (map (fun o => GenerateSubCIDOffer o c) os)) (Some (map (fun _ => true) os)) false [] Hc Hn) as (m & En & _ & D').
      { cbn [each]. apply Forall_forall. intros s S. apply in_map_iff in S. destruct S as (o & <- & Io). destruct St as [P _].
        apply (recorded_wire hist); [exact P|exact Sz| |exact Hc]. clear -F Io.
        induction F as [|o' d l l' (R & _) F IH]; [destruct Io|]. destruct Io as [->|Io]; auto. }
      rewrite En. cbn [obind]. destruct (finish_rest_total ec_sign blake g' m k [] [] Gk Cs) as (m' & Fn & sg & ->). rewrite Fn.
      eexists g', _. split; [reflexivity|]. repeat (split; [assumption|]). left. exists x. split; [apply Cr; reflexivity|].
      split; [unfold slice_len; unfold elems in Ep; lia|]. rewrite <- D'. reflexivity.
    - destruct (rt_ClientStandardDiscoverOfferResponse version supported sha256 c nonce false None None true ch Hc Hn Logic.I) as (m & En & _ & D').
      rewrite En. cbn [obind]. destruct (finish_rest_total ec_sign blake g' m k [] [] Gk Cs) as (m' & Fn & sg & ->). rewrite Fn.
      eexists g', _. split; [reflexivity|]. repeat (split; [assumption|]). right.
      split; [|rewrite <- D'; reflexivity]. intros x X. rewrite (receive_refused _ _ _ _ _ _ _ _ _ _ Er X) in Ep. unfold slice_len. unfold elems in Ep. lia.
  Qed.
End gw.

Section relay.
  Variable version : Z.
  Variable supported : list Z.
  Variable sha256 : bytes -> bytes.
  Variable pub_of : bytes -> bytes.
  Variable ec_sign : bytes -> bytes -> option bytes.
  Variable ec_verify : bytes -> bytes -> bytes -> bool.
  Variable blake : bytes -> bytes.
  Variable verify : gostring -> voucher -> option bytes -> bool.
  Variable voucher_text : voucher -> gostring.
  Variable voucher_of : gostring -> option voucher.
  Variable is_address : gostring -> bool.

  Local Notation credited := (credited verify voucher_of is_address).

  (** ** Relayed requests for offers *)

  (** One payment in the loop. *)
  Lemma pay_step_offers e n g addr toPay (y : Z + gostring * gostring) g' :
    obind (CorePay e g addr 0 toPay) (fun p => let (r, g) := p in
       match r with
       | PayError => Ret (inl 400, g)
       | Paid ch v => Ret (inr (ch, voucher_text v), g)
       | NeedTopup =>
           let* m := deref (g_pay g) in
           let (m', ok) := Topup m addr (g_topup g) (e_tx e n) in
           let g := with_pay g m' in
           if negb ok then Ret (inl 400, g)
           else
             let* p := CorePay e g addr 0 (g_search g) in
             let (r, g) := p in
             Ret (match r with
                  | PayError => inl 400
                  | Paid ch v => inr (ch, voucher_text v)
                  | NeedTopup => inr ([], [])
                  end, g)
       end) = Ret (y, g') ->
    settings g' = settings g /\ g_db g' = g_db g /\ g_reg g' = g_reg g /\
    forall m, g_pay g = Some m -> exists m' p, g_pay g' = Some m' /\
      pay_trace m m' (match p with Some (a, ch, v) => [(addr, 0, a, ch, v)] | None => [] end) /\
      match y with
      | inr (ch, text) => ch = match p with Some (_, ch, _) => ch | None => [] end /\ text = match p with Some (_, _, v) => voucher_text v | None => [] end /\
          match p with Some (a, _, _) => a = toPay \/ a = g_search g | None => True end
      | inl _ => p = None
      end.
  Proof.
    intros H. step H. destruct v as [r g1]. destruct (pay_inv _ _ _ _ _ _ _ E) as (A & B & C).
    destruct (settings_key _ _ A) as (_ & _ & Ks & _).
    assert (T : forall m, g_pay g = Some m -> exists m', g_pay g1 = Some m' /\ pay_trace m m' (match r with Paid ch v => [(addr, 0, toPay, ch, v)] | _ => [] end)).
    { intros m Em. unfold CorePay in E. rewrite Em in E. cbn [deref obind] in E.
      destruct (Pay m addr 0 toPay (e_sign e)) as [m' p] eqn:Ep. apply ret_inj in E. injection E as <- <-. exists m'.
      split; [reflexivity|]. apply trace_pay in Ep. exact Ep. }
    destruct r as [| |ch v].
    - step H. destruct (Topup v addr (g_topup g1) (e_tx e n)) as [m2 ok] eqn:Et. apply trace_topup in Et. destruct ok; cbn [negb] in H.
      + step H. destruct v0 as [r2 g3]. apply ret_inj in H. injection H as <- <-. destruct (pay_inv _ _ _ _ _ _ _ E1) as (A' & B' & C').
        split; [exact (eq_trans A' A)|]. split; [exact (eq_trans B' B)|]. split; [exact (eq_trans C' C)|].
        intros m Em. destruct (T m Em) as (m1 & Em1 & T1). rewrite Em1 in E0. apply ret_inj in E0. subst v.
        unfold CorePay in E1. cbn [g_pay with_pay deref obind] in E1. change (g_search (with_pay g1 m2)) with (g_search g1) in E1.
        destruct (Pay m2 addr 0 (g_search g1) (e_sign e)) as [m3 p] eqn:Ep. apply ret_inj in E1. injection E1 as <- <-. apply trace_pay in Ep.
        exists m3. pose proof (trace_app _ _ _ _ _ (trace_app _ _ _ _ _ T1 Et) Ep) as Tr. cbn [app] in Tr.
        destruct p as [| |ch v]; [exists None|exists None|exists (Some (g_search g1, ch, v))]; (split; [reflexivity|]); (split; [exact Tr|]); auto.
      + apply ret_inj in H. injection H as <- <-. split; [exact A|]. split; [exact B|]. split; [exact C|].
        intros m Em. destruct (T m Em) as (m1 & Em1 & T1). rewrite Em1 in E0. apply ret_inj in E0. subst v.
        exists m2, None. split; [reflexivity|]. split; [exact (trace_app _ _ _ _ _ T1 Et)|reflexivity].
    - apply ret_inj in H. injection H as <- <-. split; [exact A|]. split; [exact B|]. split; [exact C|].
      intros m Em. destruct (T m Em) as (m1 & Em1 & T1). exists m1, None. auto.
    - apply ret_inj in H. injection H as <- <-. split; [exact A|]. split; [exact B|]. split; [exact C|].
      intros m Em. destruct (T m Em) as (m1 & Em1 & T1). exists m1, (Some (toPay, ch, v)). split; [exact Em1|]. split; [exact T1|]. split; [reflexivity|]. split; [reflexivity|]. left. reflexivity.
  Qed.

  Lemma skipn_nth_error {A} (l : list A) n k : nth_error (skipn n l) k = nth_error l (n + k)%nat.
  Proof. revert l. induction n as [|n IH]; intros [|a l]; cbn; auto. destruct k; reflexivity. Qed.

  Lemma offers_all_asked e c nonce ds : forall ids n g w r g' o,
    offers_all version supported pub_of ec_sign ec_verify blake voucher_text e n g c nonce ds ids w = Ret (r, g', o) ->
    forall m, g_pay g = Some m -> exists m' rows o',
      g_pay g' = Some m' /\ pay_trace m m' (flat_map asked_paid rows) /\ o = out w ++ o' /\
      asked_rightly e g (skipn n ds) ids rows /\ requests_for version supported voucher_text c nonce (skipn n ds) rows o' /\
      match r with inl _ => (length rows < length ids)%nat | inr _ => length rows = length ids end.
  Proof.
    induction ids as [|id t IH]; intros n g w r g' o H m Em; cbn [offers_all] in H.
    - apply ret_inj in H. injection H as <- <- <-. exists m, [], []. rewrite app_nil_r. split; [exact Em|]. split; [apply trace_nil|]. split; [reflexivity|].
      split; [intros [|k] i id p X; discriminate X|]. split; [intros ? ? []|reflexivity].
    - step H. step H. destruct v0 as [i g1]. destruct (get_gateway_inv _ _ _ _ _ _ E0) as (A & B & C).
      destruct (get_gateway_listed _ _ _ _ _ _ E0) as (D & Li). step H. rename v0 into i0.
      match type of H with obind ?a (fun p => let (r, g) := p in obind (@?b r g) ?k) = _ =>
        destruct (obind a (fun p => let (r, g) := p in b r g)) as [[y g2]| |] eqn:Ep end.
      2,3: exfalso; step H; destruct v0 as [rr gg]; cbn [obind] in Ep; step H; discriminate.
      assert (H' : match y with
            | inl code => Ret (inl code, g2, out w)
            | inr (ch, text) =>
                let* x := RequestDHTOffer version supported pub_of ec_sign ec_verify blake e (2 * n + 1) g2 id c nonce v ch text in
                let '(r, g, o) := x in
                offers_all version supported pub_of ec_sign ec_verify blake voucher_text e (S n) g c nonce ds t (gather w id r o)
            end = Ret (r, g', o)).
      { step H. destruct v0 as [rr gg]. cbn [obind] in Ep. rewrite Ep in H. cbn [obind] in H. exact H. }
      clear H. rename H' into H. apply pay_step_offers in Ep. destruct Ep as (A2 & B2 & C2 & T).
      rewrite <- C in Em. destruct (T m Em) as (m1 & p & Em1 & Tr & P). clear T.
      assert (Gr : grown e g g2). { eapply grown_trans; [exact D|]. apply grown_map. rewrite C2. reflexivity. }
      destruct y as [code|[ch text]].
      + apply ret_inj in H. injection H as <- <- <-. subst p. exists m1, [], []. rewrite app_nil_r. split; [exact Em1|]. split; [exact Tr|]. split; [reflexivity|].
        split; [intros [|k] j id0 p X; discriminate X|]. split; [intros ? ? []|cbn [length]; lia].
      + step H. destruct v0 as [[r4 g4] o1]. destruct (ask_inv _ _ _ _ _ _ _ _ _ _ _ _ E2) as (A' & B' & C' & D' & _ & O & _).
        rewrite <- C' in Em1. destruct (IH _ _ _ _ _ _ H m1 Em1) as (m2 & rows & o' & Em2 & Tr2 & -> & Ar & Rq & R). clear IH H.
        destruct P as (-> & -> & Pa).
        assert (Sg : g_offer g4 = g_offer g /\ g_search g4 = g_search g).
        { assert (St : settings g4 = settings g) by congruence. destruct (settings_key _ _ St) as (_ & _ & X & Y). auto. }
        assert (Sg1 : g_offer g1 = g_offer g /\ g_search g1 = g_search g) by (destruct (settings_key _ _ A) as (_ & _ & X & Y); auto).
        destruct Sg as [So Ss], Sg1 as [So1 Ss1].
        assert (Sk : skipn n ds = v :: skipn (S n) ds).
        { destruct (nth_error ds n) as [v'|] eqn:En; [|discriminate E]. apply ret_inj in E. subst v'.
          clear -En. revert ds En. induction n as [|n IH]; intros [|a ds] En; try discriminate En; [injection En as ->; reflexivity|]. apply IH, En. }
        exists m2, ((i0, id, p) :: rows), (o1 ++ o'). split; [exact Em2|]. split.
        { cbn [flat_map]. eapply trace_app; [|exact Tr2]. unfold asked_paid. destruct p as [[[a ch] vv]|]; exact Tr. }
        split; [unfold gather; destruct r4; cbn [out]; rewrite <- app_assoc; reflexivity|].
        assert (Ei : i = Some i0) by (destruct i; [apply ret_inj in E1; congruence|discriminate E1]).
        split; [|split].
        * intros [|k] j id0 p0 X; cbn [nth_error] in X.
          { injection X as <- <- <-. cbn [nth_error]. split; [reflexivity|]. split; [apply Li, Ei|]. rewrite Sk. exists v. split; [reflexivity|].
            destruct p as [[[a ch] vv]|]; [|exact Logic.I]. destruct Pa as [->| ->]; [left|right; exact Ss1]. rewrite So1. unfold slice_len, elems. reflexivity. }
          destruct (Ar k j id0 p0 X) as (X1 & X2 & d & X3 & X4). cbn [nth_error]. split; [exact X1|]. split; [apply Gr, D', X2|]. rewrite Sk. exists d.
          split; [exact X3|]. rewrite So, Ss in X4. exact X4.
        * intros id0 m0 I0. apply in_app_or in I0 as [I0|I0].
          { destruct O as [->|(b & mm & Eb & S & ->)]; [destruct I0|]. destruct I0 as [I0|[]]. injection I0 as <- <-.
            exists 0%nat, i0, p, v, b. cbn [nth_error]. split; [reflexivity|]. rewrite Sk. split; [reflexivity|]. split; [exact Eb|exact S]. }
          destruct (Rq id0 m0 I0) as (k & j & p0 & d & b & X1 & X2 & X3 & X4). exists (S k), j, p0, d, b. cbn [nth_error]. split; [exact X1|]. rewrite Sk. auto.
        * destruct r; cbn [length]; lia.
  Qed.

  Lemma dht_offer_asked_pf e g request s :
    HandleDHTOffer version supported sha256 pub_of ec_sign ec_verify blake verify voucher_text voucher_of is_address e g request = Ret s ->
    sent s <> [] \/ (exists m, In (Json m) (wrote s)) ->
    exists c nonce ds ids ch text g1 x m1 m2 rows,
      DecodeClientDHTDiscoverOfferRequest sha256 request = Ret (OkR (c, nonce, ds, ids, ch, text)) /\
      credited e g g1 ch text x /\ g_pay g1 = Some m1 /\ g_pay (after s) = Some m2 /\ pay_trace m1 m2 (flat_map asked_paid rows) /\
      asked_rightly e g (elems ds) ids rows /\ requests_for version supported voucher_text c nonce (elems ds) rows (sent s) /\
      ((exists m, In (Json m) (wrote s)) -> length rows = length ids).
  Proof.
    unfold HandleDHTOffer. intros H X.
    assert (Qt : forall g0 code s, quit g0 code = Ret s -> ~ (sent s <> [] \/ exists m, In (Json m) (wrote s))).
    { intros g0 code s0 Q. unfold quit in Q. apply ret_inj in Q. subst s0. cbn [after sent wrote].
      intros [Y|(m & [Y|[]])]; [exact (Y eq_refl)|discriminate]. }
    step H. step H; [|destruct (Qt _ _ _ H X)].
    destruct a as [[[[[c nonce] ds] ids] ch] text]. subst v.
    step H. destruct v as [amount g1]. destruct (receive_inv _ _ _ _ _ _ _ _ _ E0) as (Se & Db & Rg & Cr).
    step H; [|destruct (Qt _ _ _ H X)].
    rename z into x. specialize (Cr x eq_refl). destruct (settings_key _ _ Se) as (_ & _ & Gs & Go).
    assert (Gr : grown e g g1). { apply grown_map. rewrite Rg. reflexivity. }
    step H. destruct v as [[r g2] o].
    pose proof Cr as (mm & vv & cs0 & m1 & F1 & F2 & F3 & F4 & F5 & F6).
    destruct (offers_all_asked _ _ _ _ _ _ _ _ _ _ _ E2 m1 F6) as (m2 & rows & o' & Em2 & Tr & Eo & Ar & Rq & R).
    cbn [nothing out app skipn] in *. subst o'.
    assert (Ar' : asked_rightly e g (elems ds) ids rows).
    { intros k i id p Y. destruct (Ar k i id p Y) as (Y1 & Y2 & d & Y3 & Y4). split; [exact Y1|]. split; [apply Gr, Y2|]. exists d. split; [exact Y3|].
      rewrite Go, Gs in Y4. exact Y4. }
    step H.
    - apply ret_inj in H. subst s. cbn [after sent wrote] in *. exists c, nonce, ds, ids, ch, text, g1, x, m1, m2, rows.
      repeat (split; [assumption || reflexivity|]). intros (m & I0). exfalso.
      apply in_app_or in I0 as [I0|[I0|[]]]; [|discriminate]. destruct (_ <? _); [|destruct I0]. destruct I0 as [I0|[]]; discriminate.
    - step H. destruct (finish_rest_inv _ _ _ _ _ _ _ H) as (Af & Sn & an & Wr & Ka). rewrite Af, Sn.
      exists c, nonce, ds, ids, ch, text, g1, x, m1, m2, rows. repeat (split; [assumption || reflexivity|]). intros _. exact R.
  Qed.
End relay.
