(** * Proofs about the gateway's handlers *)
From Coq Require Import List ZArith Bool Lia Permutation ZifyBool ZifyNat.
From Coq Require Import Init.Byte.
From Verif Require Import Base BaseProofs Ids IdsProofs Json Crypto Message Offer OfferProofs Schema SchemaProofs Messages MessagesProofs WireSpec
  Payment PaymentSpec Register RegisterProofs OfferStoreSpec SqlOffers SqlOffersSpec SqlOffersProofs Rest ReputationProofs MerkleProofs Gateway GatewaySpec.
Import ListNotations.
Open Scope Z_scope.
Open Scope go_scope.

Ltac step H :=
  match type of H with
  | obind ?x _ = Ret _ => let E := fresh "E" in let v := fresh "v" in destruct x as [v| |] eqn:E; cbn [obind] in H; [|discriminate H|discriminate H]
  | (let (_, _) := ?p in _) = Ret _ => let E := fresh "E" in destruct p eqn:E
  | (if ?b then _ else _) = Ret _ => let E := fresh "E" in destruct b eqn:E
  | match ?x with _ => _ end = Ret _ => let E := fresh "E" in destruct x eqn:E
  | Panic = Ret _ => discriminate H
  end.
Ltac steps H := repeat (step H).
Ltac done H := apply ret_inj in H; subst; try reflexivity.

(** ** Ranges of decoded values *)

Lemma jfield_inv {A} (P : A -> Prop) (dec : json -> option A) zero name f x :
  P zero -> (forall j a, dec j = Some a -> P a) -> jfield dec zero name f = Some x -> P x.
Proof.
  intros Z D. unfold jfield. assert (G : forall acc, (forall a, acc = Some a -> P a) ->
    forall x, fold_left (fun acc kv => if fold_eq (fst kv) name then match snd kv with
      | JNull => acc | v => match acc, dec v with Some _, Some a => Some a | _, _ => None end end else acc) f acc = Some x -> P x).
  { induction f as [|kv t IH]; intros acc Ha y; cbn [fold_left]; [apply Ha|]. apply IH. intros a.
    destruct (fold_eq _ _); [|apply Ha]. destruct (snd kv) eqn:Ek; try apply Ha;
      (destruct acc; [|discriminate]); (destruct (dec _) eqn:Ed; [|discriminate]); intros [= <-]; eapply D; eauto. }
  apply G. intros a [= <-]. exact Z.
Qed.

Lemma int_range lo hi name f x : lo <= 0 <= hi -> jfield (dec_int lo hi) 0 name f = Some x -> lo <= x <= hi.
Proof.
  intros B. apply (jfield_inv (fun x => lo <= x <= hi)); [exact B|]. intros j a. destruct j; cbn; try discriminate.
  destruct ((lo <=? z) && (z <=? hi)) eqn:E; [|discriminate]. intros [= <-]. lia.
Qed.

Lemma jslice_inv {A} (P : A -> Prop) (dec : json -> option A) name f x :
  (forall j a, dec j = Some a -> P a) -> jslice dec name f = Some x -> forall a, x = Some a -> P a.
Proof.
  intros D. unfold jslice. assert (G : forall acc, (forall a, acc = Some (Some a) -> P a) ->
    forall x, fold_left (fun acc kv => if fold_eq (fst kv) name then match snd kv with
      | JNull => match acc with Some _ => Some None | None => None end
      | v => match acc, dec v with Some _, Some a => Some (Some a) | _, _ => None end end else acc) f acc = Some x -> forall a, x = Some a -> P a).
  { induction f as [|kv t IH]; intros acc Ha y; cbn [fold_left]; [intros E a ->; apply Ha; exact E|]. apply IH. intros a.
    destruct (fold_eq _ _); [|apply Ha]. destruct (snd kv) eqn:Ek; try (destruct acc; discriminate);
      (destruct acc; [|discriminate]); (destruct (dec _) eqn:Ed; [|discriminate]); intros [= <-]; eapply D; eauto. }
  apply G. discriminate.
Qed.
Lemma ints_range lo hi name f x : lo <= 0 <= hi -> jslice (dec_list (dec_int lo hi) 0) name f = Some x -> each (fun v => lo <= v <= hi) x.
Proof.
  intros B H. destruct x as [l|]; [|exact I]. cbn [each].
  refine (jslice_inv (fun l => Forall (fun v => lo <= v <= hi) l) _ _ _ _ _ H l eq_refl). clear -B.
  intros j l. destruct j; cbn [dec_list]; try discriminate. rename l into x, l0 into l. revert x. induction l as [|j t IH]; intros x; cbn [dec_elems]; [intros [= <-]; constructor|].
  destruct (match j with JNull => Some 0 | _ => dec_int lo hi j end) as [a|] eqn:Ea; [|discriminate].
  destruct (dec_elems (dec_int lo hi) 0 t) as [r|]; [|discriminate]. intros [= <-]. constructor; [|auto].
  destruct j; cbn [dec_int] in Ea; try discriminate; [injection Ea as <-; exact B|].
  destruct ((lo <=? z) && (z <=? hi)) eqn:E; [|discriminate]. injection Ea as <-. lia.
Qed.

(** The integers of a struct. *)
Definition franged (t : ftype) : fval t -> Prop :=
  match t with
  | TInt lo hi => fun v => lo <= 0 <= hi -> lo <= v <= hi
  | TInts lo hi => fun v => lo <= 0 <= hi -> each (fun x => lo <= x <= hi) v
  | _ => fun _ => True
  end.
Fixpoint ranged (s : schema) : vals s -> Prop :=
  match s with [] => fun _ => True | (_, t) :: r => fun v => franged t (fst v) /\ ranged r (snd v) end.

Lemma fdec_ranged sha t name f x : fdec sha t name f = Ret (Some x) -> franged t x.
Proof.
  destruct t; cbn [franged]; auto; intros H B; cbn [fdec] in H; apply ret_inj in H; [eapply int_range|eapply ints_range]; eauto.
Qed.
Lemma fzero_ranged t : franged t (fzero t).
Proof. destruct t; cbn; auto. Qed.
Lemma dec_ranged sha s f v : dec_fields sha s f = Ret (Some v) -> ranged s v.
Proof.
  revert v. induction s as [|(k, t) r IH]; intros v H; cbn in *; [exact I|].
  destruct (fdec sha t k f) as [a| |] eqn:Ea; try discriminate. cbn [obind] in H.
  destruct (dec_fields sha r f) as [b| |] eqn:Eb; try discriminate. cbn [obind] in H. apply ret_inj in H.
  destruct a as [x|]; [|discriminate]. destruct b as [y|]; [|discriminate]. injection H as <-. cbn.
  split; [eapply fdec_ranged; eauto|auto].
Qed.
Lemma zeros_ranged s : ranged s (zeros s).
Proof. induction s as [|(k, t) r IH]; cbn; auto using fzero_ranged. Qed.
Lemma decode_ranged sha tag s m v : decode sha tag s m = Ret (OkR v) -> ranged s v.
Proof.
  unfold decode, unmarshal_body. destruct (negb _); [discriminate|]. destruct (json_parse _) as [[| | | | | |fs]|]; try discriminate.
  - intros H. apply ret_inj in H. injection H as <-. apply zeros_ranged.
  - destruct (dec_fields sha s fs) as [[x|]| |] eqn:E; cbn [obind]; try discriminate.
    intros H. apply ret_inj in H. injection H as <-. eapply dec_ranged; eauto.
Qed.

Lemma hex_id32 s b : NewNodeIDFromHexString s = OkR b -> id32 b.
Proof.
  unfold NewNodeIDFromHexString. destruct (hex_decode s); [|discriminate]. destruct (Nat.ltb _ _) eqn:E; [discriminate|].
  intros [= <-]. apply left_pad_length. apply Nat.ltb_ge in E. exact E.
Qed.
Lemma id_ptr_id32 s b : id_ptr s = Some b -> id32 b.
Proof. unfold id_ptr. destruct (NewNodeIDFromHexString s) eqn:E; [|discriminate]. intros [= <-]. eapply hex_id32; eauto. Qed.

Lemma rbind_inv {A B} (x : outcome (result A)) (f : A -> outcome (result B)) b : rbind x f = Ret (OkR b) ->
  exists a, x = Ret (OkR a) /\ f a = Ret (OkR b).
Proof. unfold rbind. destruct x as [[a|]| |]; cbn [obind]; try discriminate. eauto. Qed.

Section decoded.
  Variable sha256 : bytes -> bytes.

  Lemma standard_v2_decoded m c nonce ttl ch text :
    DecodeClientStandardDiscoverRequestV2 sha256 m = Ret (OkR (c, nonce, ttl, ch, text)) ->
    (forall b, c = Some b -> id32 b) /\ int64 nonce.
  Proof.
    intros H. apply rbind_inv in H. destruct H as ((f1 & f2 & f3 & f4 & f5 & []) & E & H). apply decode_ranged in E. apply ret_inj in H. injection H as <- <- <- <- <-.
    split; [apply id_ptr_id32|]. cbn in E. unfold int64. lia.
  Qed.
  Lemma standard_offer_decoded m c nonce ttl ds ch text :
    DecodeClientStandardDiscoverOfferRequest sha256 m = Ret (OkR (c, nonce, ttl, ds, ch, text)) ->
    (forall b, c = Some b -> id32 b) /\ int64 nonce.
  Proof.
    intros H. apply rbind_inv in H. destruct H as ((f1 & f2 & f3 & f4 & f5 & f6 & []) & E & H). apply decode_ranged in E. apply ret_inj in H. injection H as <- <- <- <- <- <-.
    split; [apply id_ptr_id32|]. cbn in E. unfold int64. lia.
  Qed.
  Lemma standard_decoded m c nonce ttl ch text :
    DecodeClientStandardDiscoverRequest sha256 m = Ret (OkR (c, nonce, ttl, ch, text)) ->
    (forall b, c = Some b -> id32 b) /\ int64 nonce.
  Proof.
    intros H. apply rbind_inv in H. destruct H as ((f1 & f2 & f3 & f4 & f5 & []) & E & H). apply decode_ranged in E. apply ret_inj in H. injection H as <- <- <- <- <-.
    split; [apply id_ptr_id32|]. cbn in E. unfold int64. lia.
  Qed.
  Lemma gateway_v2_decoded m i c nonce ttl ch text :
    DecodeGatewayDHTDiscoverRequestV2 sha256 m = Ret (OkR (i, c, nonce, ttl, ch, text)) ->
    (forall b, c = Some b -> id32 b) /\ int64 nonce.
  Proof.
    intros H. apply rbind_inv in H. destruct H as ((f1 & f2 & f3 & f4 & f5 & f6 & []) & E & H). apply decode_ranged in E. apply ret_inj in H. injection H as <- <- <- <- <- <-.
    split; [apply id_ptr_id32|]. cbn in E. unfold int64. lia.
  Qed.
  Lemma gateway_offer_decoded m c nonce ds ch text :
    DecodeGatewayDHTDiscoverOfferRequest sha256 m = Ret (OkR (c, nonce, ds, ch, text)) ->
    (forall b, c = Some b -> id32 b) /\ int64 nonce.
  Proof.
    intros H. apply rbind_inv in H. destruct H as ((f1 & f2 & f3 & f4 & f5 & []) & E & H). apply decode_ranged in E. apply ret_inj in H. injection H as <- <- <- <- <-.
    split; [apply id_ptr_id32|]. cbn in E. unfold int64. lia.
  Qed.
End decoded.

Section gw.
  Variable version : Z.
  Variable supported : list Z.
  Variable sha256 sha512_256 : bytes -> bytes.
  Variable pub_of : bytes -> bytes.
  Variable ec_sign : bytes -> bytes -> option bytes.
  Variable ec_verify : bytes -> bytes -> bytes -> bool.
  Variable blake : bytes -> bytes.
  Variable verify : gostring -> voucher -> option bytes -> bool.
  Variable voucher_text : voucher -> gostring.
  Variable voucher_of : gostring -> option voucher.
  Variable is_address : gostring -> bool.
  Variable zone : Z.

  Local Notation receive := (CoreReceive verify voucher_of is_address).
  Local Notation credited := (credited verify voucher_of is_address).

  Local Notation digest_text := (digest_text sha512_256).
  Local Notation trusted := (trusted pub_of ec_verify blake).
  Local Notation v2_request := (v2_request version supported).

  (** ** What the operations of the core change *)

  Lemma receive_inv e g ch text r g' : receive e g ch text = Ret (r, g') ->
    settings g' = settings g /\ g_db g' = g_db g /\ g_reg g' = g_reg g /\
    (forall x, r = Some x -> credited e g g' ch text x).
  Proof.
    unfold CoreReceive. destruct (g_pay g) as [m|] eqn:Ep.
    - destruct (Receive _ _ _ _ _) as [m' x] eqn:Er. destruct x; intros H; try discriminate; apply ret_inj in H; injection H as <- <-;
        repeat split; try discriminate.
      intros y [= <-]. destruct (voucher_of text) as [v|] eqn:Ev; [|discriminate].
      destruct (is_address ch) eqn:Ea; [|discriminate]. destruct (e_chain e ch) as [cs|] eqn:Ec; [|discriminate].
      exists m, v, cs, m'. auto 8.
    - destruct (is_address ch); [destruct (voucher_of text); [discriminate|]|]; intros H; apply ret_inj in H; injection H as <- <-;
        repeat split; discriminate.
  Qed.

  Lemma receive_refused e g ch text r g' x : receive e g ch text = Ret (r, g') -> credited e g g' ch text x -> r = Some x.
  Proof.
    unfold CoreReceive. intros H (m & v & cs & m' & E1 & E2 & E3 & E4 & E5 & E6). rewrite E1, E2, E3, E4, E5 in H.
    apply ret_inj in H. injection H as <- <-. reflexivity.
  Qed.

  Lemma pay_inv e g rcpt l a r g' : CorePay e g rcpt l a = Ret (r, g') ->
    settings g' = settings g /\ g_db g' = g_db g /\ g_reg g' = g_reg g.
  Proof.
    unfold CorePay. intros H. step H. destruct (Pay _ _ _ _ _). apply ret_inj in H. injection H as <- <-. auto.
  Qed.
  Lemma topup_pay_inv e n g rcpt l a r g' : CoreTopupAndPay e n g rcpt l a = Ret (r, g') ->
    settings g' = settings g /\ g_db g' = g_db g /\ g_reg g' = g_reg g.
  Proof.
    unfold CoreTopupAndPay. intros H. step H. destruct (topupAndPay _ _ _ _ _ _ _ _). apply ret_inj in H. injection H as <- <-. auto.
  Qed.
  Lemma get_gateway_inv e n g id r g' : CoreGetGateway e n g id = Ret (r, g') ->
    settings g' = settings g /\ g_db g' = g_db g /\ g_pay g' = g_pay g.
  Proof.
    unfold CoreGetGateway. intros H. step H. apply ret_inj in H. injection H as <- <-. auto.
  Qed.
  Lemma get_provider_inv g id r g' : CoreGetProvider g id = Ret (r, g') ->
    settings g' = settings g /\ g_db g' = g_db g /\ g_pay g' = g_pay g.
  Proof.
    unfold CoreGetProvider. intros H. step H. apply ret_inj in H. injection H as <- <-. auto.
  Qed.
  Lemma add_offer_inv e n g o r g' : CoreAddOffer sha512_256 e n g o = Ret (r, g') ->
    settings g' = settings g /\ g_reg g' = g_reg g /\ g_pay g' = g_pay g.
  Proof.
    unfold CoreAddOffer. intros H. step H. apply ret_inj in H. injection H as <- <-. auto.
  Qed.

  Lemma sign_with_inv k ver m b m' : SignWith ec_sign blake k ver m = Ret (b, m') -> with_signature m m'.
  Proof.
    unfold SignWith. intros H. step H. apply ret_inj in H. unfold MessageSign in H.
    destruct (SignMessage _ _ _ _ _); injection H as <- <-; eexists; reflexivity.
  Qed.
  Lemma finish_rest_inv g response before sent s : finish_rest ec_sign blake g response before sent = Ret s ->
    after s = g /\ Gateway.sent s = sent /\
    exists a, wrote s = before ++ [a] /\ (a = HttpError 500 \/ exists m, a = Json m /\ with_signature response m).
  Proof.
    unfold finish_rest, SignAndWrite. intros H. step H. step E. destruct v0 as (b, m). apply ret_inj in H, E. subst s v. cbn.
    split; [reflexivity|]. split; [reflexivity|]. eexists. split; [reflexivity|]. apply sign_with_inv in E0.
    destruct b; eauto.
  Qed.
  Lemma finish_p2p_inv g response g' r : finish_p2p ec_sign blake g response = Ret (g', r) ->
    g' = g /\ (r = Invalid \/ exists m, r = Reply m /\ with_signature response m).
  Proof.
    unfold finish_p2p. intros H. step H. destruct v as (b, m). apply sign_with_inv in E. apply ret_inj in H. injection H as <- <-.
    split; [reflexivity|]. destruct b; cbn; eauto.
  Qed.

  (** ** Payment *)

  Lemma wrote_json g response s m : finish_rest ec_sign blake g response [] [] = Ret s -> In (Json m) (wrote s) ->
    after s = g /\ with_signature response m.
  Proof.
    intros H I. apply finish_rest_inv in H. destruct H as (A & _ & a & W & D). split; [exact A|]. rewrite W in I.
    destruct I as [->|[]]. destruct D as [|(m' & D & S)]; [discriminate|]. injection D as ->. exact S.
  Qed.

  Lemma standard_v2_paid_pf e g request s m :
    HandleStandardDiscoverV2 version supported sha256 sha512_256 ec_sign blake verify voucher_of is_address zone e g request = Ret s ->
    In (Json m) (wrote s) ->
    exists c nonce ttl ch text,
      DecodeClientStandardDiscoverRequestV2 sha256 request = Ret (OkR (Some c, nonce, ttl, ch, text)) /\
      ((exists x, credited e g (after s) ch text x /\ g_search g <= x) \/
       (exists found, DecodeClientStandardDiscoverResponseV2 sha256 m = Ret (OkR (Some c, nonce, found, None, None, true, ch)))).
  Proof.
    unfold HandleStandardDiscoverV2. intros H I. step H. destruct v as [[[[[c nonce] ttl] ch] text]|];
      [|unfold quit in H; done H; destruct I as [I|[]]; discriminate].
    destruct (standard_v2_decoded _ _ _ _ _ _ _ E) as [Hc Hn]. destruct (unix e >? ttl) eqn:Et; [done H; destruct I|].
    step H. destruct c as [c|]; [|discriminate E0]. step H. destruct v0 as [r g']. step H.
    destruct (wrote_json _ _ _ _ H I) as [A W]. rewrite A.
    exists c, nonce, ttl, ch, text. split; [reflexivity|].
    destruct (receive_inv _ _ _ _ _ _ E1) as (St & Db & Rg & Cr).
    destruct (match r with Some x => x >=? g_search g' | None => false end) eqn:Ep.
    - left. destruct r as [x|]; [|discriminate]. exists x. split; [apply Cr; reflexivity|]. unfold settings in St. assert (g_search g' = g_search g) by congruence. lia.
    - right. exists (snd v). destruct (rt_ClientStandardDiscoverResponseV2 version supported sha256 c nonce (snd v) None None true ch (Hc c eq_refl) Hn)
        as (m1 & E3 & _ & D). rewrite E3 in E2. apply ret_inj in E2. subst v0. destruct W as [sg ->]. rewrite <- D. reflexivity.
  Qed.

  Lemma standard_offer_paid_pf e g request s m :
    HandleStandardOffer version supported sha256 ec_sign blake verify voucher_of is_address zone e g request = Ret s ->
    In (Json m) (wrote s) ->
    exists c nonce ttl ds ch text,
      DecodeClientStandardDiscoverOfferRequest sha256 request = Ret (OkR (Some c, nonce, ttl, ds, ch, text)) /\
      ((exists x, credited e g (after s) ch text x /\ g_offer g * slice_len ds <= x) \/
       DecodeClientStandardDiscoverOfferResponse sha256 m = Ret (OkR (Some c, nonce, false, None, None, true, ch))).
  Proof.
    unfold HandleStandardOffer. intros H I. step H. destruct v as [[[[[[c nonce] ttl] ds] ch] text]|];
      [|unfold quit in H; done H; destruct I as [I|[]]; discriminate].
    destruct (standard_offer_decoded _ _ _ _ _ _ _ _ E) as [Hc Hn]. destruct (unix e >? ttl) eqn:Et; [done H; destruct I|].
    step H. destruct v as [r g']. step H. destruct (wrote_json _ _ _ _ H I) as [A W]. rewrite A.
    destruct (receive_inv _ _ _ _ _ _ E0) as (St & Db & Rg & Cr).
    destruct c as [c|]; [|exfalso; step E1; [step E1|]; discriminate E1].
    exists c, nonce, ttl, ds, ch, text. split; [reflexivity|].
    match type of E1 with (if ?b then _ else _) = _ => destruct b eqn:Ep end.
    - left. destruct r as [x|]; [|discriminate]. exists x. split; [apply Cr; reflexivity|].
      unfold settings in St. assert (G : g_offer g' = g_offer g) by congruence. rewrite G in Ep. unfold slice_len. unfold elems in Ep. lia.
    - right. destruct (rt_ClientStandardDiscoverOfferResponse version supported sha256 c nonce false None None true ch (Hc c eq_refl) Hn Logic.I)
        as (m1 & E3 & _ & D). rewrite E3 in E1. apply ret_inj in E1. subst v. destruct W as [sg ->]. rewrite <- D. reflexivity.
  Qed.

  (** ** Serving *)

  Lemma receive_total e g ch text : chain_clear e -> g_pay g <> None ->
    exists r g', receive e g ch text = Ret (r, g') /\ g_pay g' <> None.
  Proof.
    intros C P. unfold CoreReceive. destruct (g_pay g) as [m|] eqn:Ep; [|congruence].
    destruct (Receive _ _ _ _ _) as [m' x] eqn:Er. destruct x; try (eexists _, _; split; [reflexivity|discriminate]).
    exfalso. unfold Receive in Er. destruct (voucher_of text) as [v|]; [|discriminate].
    destruct (is_address ch); [|discriminate]. destruct (e_chain e ch) as [cs|] eqn:Ec; [|discriminate].
    destruct (C _ _ Ec) as [Ct Cf].
    assert (K : forall own c c' x, ReceiveOn verify own c v cs = (c', x) -> x <> Crashed).
    { intros own c c' x. unfold ReceiveOn. destruct (ch_to cs); [congruence|intros [= <- <-]; discriminate|].
      destruct (negb _); [intros [= <- <-]; discriminate|].
      destruct (ch_from cs); [congruence|intros [= <- <-]; discriminate|].
      destruct (negb _); [intros [= <- <-]; discriminate|]. cbv zeta.
      repeat match goal with |- context [if ?b then _ else _] => destruct b; [intros [= <- <-]; discriminate|] end.
      intros [= <- <-]; discriminate. }
    destruct (aget _ _ _) as [c|]; unfold ReceiveCreate, ReceiveUpdate in Er.
    - destruct (_ <? _); [discriminate|]. destruct (ReceiveOn _ _ _ _ _) as [c' x] eqn:Eo. injection Er as <- ->. eapply K; eauto.
    - destruct (ReceiveOn _ _ _ _ _) as [c' x] eqn:Eo. injection Er as <- ->. eapply K; eauto.
  Qed.

  Lemma finish_rest_total g response k before sent : g_key g = Some k -> can_sign ec_sign blake k ->
    exists m, finish_rest ec_sign blake g response before sent = Ret (Served g (before ++ [Json m]) sent) /\ with_signature response m.
  Proof.
    intros K C. unfold finish_rest. rewrite K. destruct (sign_write ec_sign blake k (g_ver g) 500 response C) as [s ->].
    cbn [obind]. eexists. split; [reflexivity|]. eexists. reflexivity.
  Qed.
  Lemma finish_p2p_total g response k : g_key g = Some k -> can_sign ec_sign blake k ->
    exists m, finish_p2p ec_sign blake g response = Ret (g, Reply m) /\ with_signature response m.
  Proof.
    intros K C. unfold finish_p2p. rewrite K. destruct (sign_write ec_sign blake k (g_ver g) 500 response C) as [s H].
    unfold SignAndWrite in H. destruct (SignWith _ _ _ _ _) as [[b m]| |]; try discriminate. cbn [obind fst snd] in *.
    apply ret_inj in H. destruct b; [|discriminate]. injection H as ->. eexists. split; [reflexivity|]. eexists. reflexivity.
  Qed.

  Lemma settings_key g g' : settings g' = settings g -> g_key g' = g_key g /\ g_id g' = g_id g /\ g_search g' = g_search g /\ g_offer g' = g_offer g.
  Proof. unfold settings. intros H. repeat split; congruence. Qed.

  Lemma suboffers_total os c : suboffers_of os (Some c) = Ret (map (fun o => GenerateSubCIDOffer o c) os).
  Proof.
    unfold suboffers_of. induction os as [|o t IH]; [reflexivity|]. cbn [mapO deref obind map]. cbn [deref obind] in IH. rewrite IH. reflexivity.
  Qed.

  Lemma digests_total os : (forall o, In o os -> o_provider o <> None) ->
    exists ds, digests_of sha512_256 os = Ret ds /\ Forall2 digest_text os ds.
  Proof.
    intros P. unfold digests_of. induction os as [|o t IH]; [exists []; split; [reflexivity|constructor]|].
    destruct IH as (ds & E & F); [intros; apply P; right; assumption|].
    assert (Po := P o (or_introl eq_refl)). destruct (o_provider o) as [p|] eqn:Ep; [|congruence].
    cbn [mapO]. unfold GetMessageDigest at 1. rewrite Ep. cbn [deref obind]. rewrite E. cbn [obind].
    eexists. split; [reflexivity|]. constructor; [|exact F]. unfold digest_text, GetMessageDigest. rewrite Ep. cbn [deref obind]. eauto.
  Qed.

  Lemma recorded_in h o : recorded h o -> exists f, In (o, f) h.
  Proof. intros (h1 & f & h2 & -> & _). exists f. apply in_or_app. right. left. reflexivity. Qed.
  Lemma wire_provider o : wire_offer sha256 o -> o_provider o <> None.
  Proof.
    intros (p & ids & price & expiry & qos & o0 & _ & _ & _ & _ & _ & N & ->). cbn [o_provider].
    apply new_offer_shape in N as (_ & t & _ & ->). discriminate.
  Qed.

  Lemma lookup_total e g hist c : stocked sha256 sha512_256 g hist -> shuffle (e_rows e) -> id32 c ->
    exists os found, selectOffersSingle sha256 (e_rows e) zone (e_now e) (g_db g) c = Ret (os, found) /\
      (forall o, In o os -> o_provider o <> None).
  Proof.
    intros [P D] S C. destruct (sql_single_pf sha256 sha512_256 hist (g_db g) zone (e_now e) (e_rows e) c P D S C)
      as (os & found & E & R & _). exists os, found. split; [exact E|]. intros x X. destruct (R x X) as (o & Ro & _ & Rm & _).
    destruct (recorded_in _ _ Ro) as [f If]. destruct P as [P _]. destruct (P _ _ If) as (W & _).
    destruct Rm as (-> & _). apply wire_provider. exact W.
  Qed.

  Lemma establishment_served_pf e g request c challenge ttl : ready ec_sign blake g ->
    DecodeClientEstablishmentRequest sha256 request = Ret (OkR (Some c, challenge, ttl)) -> unix e <= ttl ->
    exists i m, HandleEstablishment version supported sha256 ec_sign blake e g request = Ret (Served g [Json m] []) /\
      g_id g = Some i /\ DecodeClientEstablishmentResponse sha256 m = Ret (OkR (Some i, challenge)).
  Proof.
    intros (i & k & mg & Gi & Li & Gk & Cs & Gp) D T. unfold HandleEstablishment. rewrite D. cbn [obind deref].
    replace (unix e >? ttl) with false by lia. rewrite Gi.
    destruct (rt_ClientEstablishmentResponse version supported sha256 i challenge Li) as (m & E & _ & D'). rewrite E. cbn [obind].
    destruct (finish_rest_total g m k [] [] Gk Cs) as (m' & F & sg & ->). rewrite F. eexists i, _. split; [reflexivity|].
    split; [reflexivity|]. rewrite <- D'. reflexivity.
  Qed.

  Lemma standard_served_pf e g hist request c nonce ttl ch text : ready ec_sign blake g -> stocked sha256 sha512_256 g hist ->
    shuffle (e_rows e) -> DecodeClientStandardDiscoverRequest sha256 request = Ret (OkR (Some c, nonce, ttl, ch, text)) -> unix e <= ttl ->
    exists os found, selectOffersSingle sha256 (e_rows e) zone (e_now e) (g_db g) c = Ret (os, found) /\
      ((forall o, In o os -> wire_suboffer (GenerateSubCIDOffer o c)) ->
      exists m,
      HandleStandardDiscover version supported sha256 ec_sign blake zone e g request = Ret (Served g [Json m] []) /\
      DecodeClientStandardDiscoverResponse sha256 m =
        Ret (OkR (Some c, nonce, found, Some (map (fun o => GenerateSubCIDOffer o c) os), Some (falses os)))).
  Proof.
    intros (i & k & mg & Gi & Li & Gk & Cs & Gp) St Sh D T. destruct (standard_decoded _ _ _ _ _ _ _ D) as [Hc Hn].
    specialize (Hc c eq_refl). destruct (lookup_total e g hist c St Sh Hc) as (os & found & E & _). exists os, found. split; [exact E|].
    intros W. unfold HandleStandardDiscover. rewrite D. cbn [obind].
    replace (unix e >? ttl) with false by lia. unfold CoreGetOffers. cbn [deref obind]. rewrite E. cbn [obind fst snd].
    rewrite suboffers_total. cbn [obind].
    destruct (rt_ClientStandardDiscoverResponse version supported sha256 c nonce found (Some (map (fun o => GenerateSubCIDOffer o c) os)) (Some (falses os)) Hc Hn)
      as (m & En & _ & D').
    { cbn [each]. apply Forall_forall. intros s Hs. apply in_map_iff in Hs as (o & <- & Ho). apply W, Ho. }
    rewrite En. cbn [obind]. destruct (finish_rest_total g m k [] [] Gk Cs) as (m' & F & sg & ->). rewrite F. eexists. split; [reflexivity|].
    rewrite <- D'. reflexivity.
  Qed.

  Lemma standard_v2_served_pf e g hist request c nonce ttl ch text : ready ec_sign blake g -> stocked sha256 sha512_256 g hist ->
    shuffle (e_rows e) -> chain_clear e ->
    DecodeClientStandardDiscoverRequestV2 sha256 request = Ret (OkR (Some c, nonce, ttl, ch, text)) -> unix e <= ttl ->
    exists g' m os found,
      HandleStandardDiscoverV2 version supported sha256 sha512_256 ec_sign blake verify voucher_of is_address zone e g request
        = Ret (Served g' [Json m] []) /\ settings g' = settings g /\ g_db g' = g_db g /\ g_reg g' = g_reg g /\
      selectOffersSingle sha256 (e_rows e) zone (e_now e) (g_db g) c = Ret (os, found) /\
      ((exists x ds, credited e g g' ch text x /\ g_search g <= x /\ Forall2 digest_text os ds /\
         DecodeClientStandardDiscoverResponseV2 sha256 m = Ret (OkR (Some c, nonce, found, Some ds, Some (falses os), false, []))) \/
       ((forall x, credited e g g' ch text x -> x < g_search g) /\
         DecodeClientStandardDiscoverResponseV2 sha256 m = Ret (OkR (Some c, nonce, found, None, None, true, ch)))).
  Proof.
    intros (i & k & mg & Gi & Li & Gk & Cs & Gp) St Sh Cc D T. destruct (standard_v2_decoded _ _ _ _ _ _ _ D) as [Hc Hn].
    specialize (Hc c eq_refl). destruct (lookup_total e g hist c St Sh Hc) as (os & found & E & P).
    destruct (receive_total e g ch text Cc) as (r & g' & Er & _); [congruence|].
    destruct (receive_inv _ _ _ _ _ _ Er) as (Se & Db & Rg & Cr). destruct (settings_key _ _ Se) as (Kk & _ & Ks & _).
    unfold HandleStandardDiscoverV2. rewrite D. cbn [obind]. replace (unix e >? ttl) with false by lia.
    unfold CoreGetOffers. cbn [deref obind]. rewrite E. cbn [obind fst snd]. rewrite Er. cbn [obind].
    rewrite Ks. rewrite <- Kk in Gk. destruct (match r with Some x => x >=? g_search g | None => false end) eqn:Ep.
    - destruct r as [x|]; [|discriminate]. destruct (digests_total os P) as (ds & Ed & Fd). rewrite Ed. cbn [obind].
      destruct (rt_ClientStandardDiscoverResponseV2 version supported sha256 c nonce found (Some ds) (Some (falses os)) false [] Hc Hn)
        as (m & En & _ & D'). rewrite En. cbn [obind].
      destruct (finish_rest_total g' m k [] [] Gk Cs) as (m' & F & sg & ->). rewrite F.
      eexists g', _, os, found. split; [reflexivity|]. repeat (split; [assumption||reflexivity|]). left. exists x, ds.
      split; [apply Cr; reflexivity|]. split; [lia|]. split; [exact Fd|]. rewrite <- D'. reflexivity.
    - destruct (rt_ClientStandardDiscoverResponseV2 version supported sha256 c nonce found None None true ch Hc Hn)
        as (m & En & _ & D'). rewrite En. cbn [obind].
      destruct (finish_rest_total g' m k [] [] Gk Cs) as (m' & F & sg & ->). rewrite F.
      eexists g', _, os, found. split; [reflexivity|]. repeat (split; [assumption||reflexivity|]). right.
      split; [|rewrite <- D'; reflexivity]. intros x X. rewrite (receive_refused _ _ _ _ _ _ _ Er X) in Ep. lia.
  Qed.

  (** ** Registrations *)

  Definition grown (e : env) (g g' : gateway) : Prop := forall id i, listed e g' id i -> listed e g id i.
  Lemma grown_refl e g : grown e g g. Proof. intros id i H. exact H. Qed.
  Lemma grown_trans e g1 g2 g3 : grown e g1 g2 -> grown e g2 g3 -> grown e g1 g3.
  Proof. intros A B id i H. apply A, B, H. Qed.
  Lemma grown_map e g g' : gatewaysMap info (g_reg g') = gatewaysMap info (g_reg g) -> grown e g g'.
  Proof. unfold grown, listed. intros -> id i H. exact H. Qed.

  Lemma pulled_in (a : Register.answer info) l x : pulled info a = Ret l -> In x l -> exists l0, a = Some l0 /\ In (Some x) l0.
  Proof.
    unfold pulled. destruct a as [l0|]; [|intros H; apply ret_inj in H; subst; intros []].
    intros H X. exists l0. split; [reflexivity|]. revert l H X. induction l0 as [|y t IH]; cbn [fold_right]; intros l H X.
    - apply ret_inj in H. subst. destruct X.
    - step H. step H. apply ret_inj in H. subst. destruct y; [|discriminate]. apply ret_inj in E0. subst.
      destruct X as [->|X]; [left; reflexivity|right; eapply IH; eauto].
  Qed.
  Lemma add_gateways_in l : forall m m' id (i : info), add_gateways info m l = Ret m' ->
    aget bytes_eqb (gatewaysMap info m') id = Some i -> aget bytes_eqb (gatewaysMap info m) id = Some i \/ In (id, i) l.
  Proof.
    induction l as [|(k, v) t IH]; intros m m' id i H A; cbn [add_gateways] in H; [apply ret_inj in H; subst; auto|].
    step H.
    assert (G : aget bytes_eqb (aset bytes_eqb (gatewaysMap info m) k v) id = Some i \/ In (id, i) t -> aget bytes_eqb (gatewaysMap info m) id = Some i \/ In (id, i) ((k, v) :: t)).
    { intros [B|B]; [|right; right; exact B]. destruct (bytes_eqb k id) eqn:Ek.
      - apply bytes_eqb_eq in Ek. subst k. rewrite aget_aset_eq in B by apply bytes_eqb_eq. injection B as ->. right. left. reflexivity.
      - rewrite aget_aset_neq in B; [left; exact B|apply bytes_eqb_eq|]. intros Q. rewrite (proj2 (bytes_eqb_eq k id) (eq_sym Q)) in Ek || rewrite (proj2 (bytes_eqb_eq k id) Q) in Ek. discriminate. }
    apply G. step H; [|step H; step H]; destruct (IH _ _ _ _ H A) as [B|B]; auto.
  Qed.
  Lemma add_providers_gateways l : forall m m', add_providers info m l = Ret m' -> gatewaysMap info m' = gatewaysMap info m.
  Proof.
    induction l as [|(k, v) t IH]; intros m m' H; cbn [add_providers] in H; [apply ret_inj in H; subst; auto|].
    step H. apply IH in H. exact H.
  Qed.
  Lemma get_gateway_listed e n g id r g' : CoreGetGateway e n g (Some id) = Ret (r, g') ->
    grown e g g' /\ (forall i, r = Some i -> listed e g id i).
  Proof.
    unfold CoreGetGateway, GetGateway. intros H. step H. apply ret_inj in H. injection H as <- <-. step E.
    { apply ret_inj in E. subst v. split; [apply grown_map; reflexivity|discriminate]. }
    cbn [deref obind RLock RUnlock] in E.
    destruct (aget bytes_eqb (gatewaysMap info (g_reg g)) (ToString id)) as [i|] eqn:Ea.
    { apply ret_inj in E. subst v. cbn [fst snd]. split; [apply grown_map; reflexivity|]. intros j [= <-]. left. exact Ea. }
    step E. apply ret_inj in E. subst v. cbn [fst snd].
    assert (K : forall id0 i, aget bytes_eqb (gatewaysMap info v0) (ToString id0) = Some i -> listed e g id0 i).
    { intros id0 i A. unfold Refresh in E1. step E1. { apply ret_inj in E1. subst v0. left. exact A. }
      step E1. assert (A' : aget bytes_eqb (gatewaysMap info v) (ToString id0) = Some i).
      { unfold updateProviders in E1. step E1; [apply ret_inj in E1; subst v0; exact A|]. step E1.
        apply add_providers_gateways in E1. rewrite E1 in A. exact A. }
      unfold updateGateways in E2. step E2; [apply ret_inj in E2; subst v; left; exact A'|]. step E2.
      destruct (add_gateways_in _ _ _ _ _ E2 A') as [B|B]; [left; exact B|]. right.
      destruct (pulled_in _ _ _ E4 B) as (l0 & L & I0). exists n, l0. auto. }
    split.
    - intros id0 i [A|A]; [|right; exact A]. apply K. exact A.
    - intros i A. apply K. exact A.
  Qed.
  Lemma near_map (m : manager info) c num ex r m' : GetGatewaysNearCID info m c num ex = Ret (r, m') -> gatewaysMap info m' = gatewaysMap info m.
  Proof.
    unfold GetGatewaysNearCID. intros H. step H. step H; [discriminate|]. step H. cbn [RLock RUnlock obind] in H.
    apply ret_inj in H. injection H as <- <-. reflexivity.
  Qed.

  Lemma from_gateway_inv e g id request ok g' : from_gateway pub_of ec_verify blake e g id request = Ret (ok, g') ->
    settings g' = settings g /\ g_db g' = g_db g /\ g_pay g' = g_pay g /\
    (ok = true -> forall d, id = Some d -> exists i, listed e g d i /\ signed_by pub_of ec_verify blake i request).
  Proof.
    unfold from_gateway. intros H. step H. destruct v as [i g1]. destruct (get_gateway_inv _ _ _ _ _ _ E) as (A & B & C).
    step H; [|step H; apply ret_inj in H; injection H as <- <-; repeat split; auto; discriminate].
    step H. step H; [|step H; apply ret_inj in H; injection H as <- <-; repeat split; auto; discriminate].
    apply ret_inj in H. injection H as <- <-. repeat split; auto. intros V d ->.
    destruct (get_gateway_listed _ _ _ _ _ _ E) as [_ L]. exists i0. subst i. split; [apply L; reflexivity|].
    subst. exists a. split; [exact E1|exact V].
  Qed.
  Lemma from_gateway_nil e g request ok g' : from_gateway pub_of ec_verify blake e g None request = Ret (ok, g') -> ok = false.
  Proof.
    unfold from_gateway, CoreGetGateway, GetGateway. intros H. step H. step E. step E0; [|discriminate].
    apply ret_inj in E0. subst v0. apply ret_inj in E. subst v. discriminate H.
  Qed.

  Lemma gateway_discover_answers_pf e g request g' m :
    HandleGatewayDiscover version supported sha256 pub_of ec_sign ec_verify blake zone e g request = Ret (g', Reply m) ->
    exists id c nonce ttl ch text i,
      DecodeGatewayDHTDiscoverRequest sha256 request = Ret (OkR (Some id, c, nonce, ttl, ch, text)) /\
      unix e <= ttl /\ listed e g id i /\ signed_by pub_of ec_verify blake i request.
  Proof.
    unfold HandleGatewayDiscover. intros H. step H. step H; [|discriminate]. destruct a as [[[[[id c] nonce] ttl] ch] text].
    step H. destruct v0 as [ok g1]. step H; [discriminate|]. step H; [discriminate|].
    destruct ok; [|discriminate]. destruct id as [id|]; [|apply from_gateway_nil in E1; discriminate].
    destruct (from_gateway_inv _ _ _ _ _ _ E1) as (_ & _ & _ & L). destruct (L eq_refl id eq_refl) as (i & Li & Si).
    subst. exists id, c, nonce, ttl, ch, text, i. repeat split; auto. lia.
  Qed.

  Lemma gateway_v2_answers_pf e g request g' m :
    HandleGatewayDiscoverV2 version supported sha256 sha512_256 pub_of ec_sign ec_verify blake verify voucher_of is_address zone e g request
      = Ret (g', Reply m) ->
    exists id c nonce ttl ch text i x found ds fs,
      DecodeGatewayDHTDiscoverRequestV2 sha256 request = Ret (OkR (Some id, Some c, nonce, ttl, ch, text)) /\
      unix e <= ttl /\ listed e g id i /\ signed_by pub_of ec_verify blake i request /\ credited e g g' ch text x /\
      DecodeGatewayDHTDiscoverResponseV2 sha256 m =
        Ret (OkR (Some c, nonce, found, ds, fs, x <? g_search g, if x <? g_search g then ch else [])).
  Proof.
    unfold HandleGatewayDiscoverV2. intros H. step H. step H; [|discriminate]. destruct a as [[[[[id c] nonce] ttl] ch] text].
    subst v. destruct (gateway_v2_decoded _ _ _ _ _ _ _ _ E) as [Hc Hn].
    step H. destruct v as [ok g1]. step H; [discriminate|]. step H; [discriminate|]. step H. destruct v as [r g2].
    step H; [|discriminate]. step H. step H. step H. destruct c as [c|]; [|discriminate E5].
    apply finish_p2p_inv in H. destruct H as (-> & [H|(m1 & H & sg & S)]); [discriminate|]. injection H as <-.
    destruct ok; [|discriminate]. destruct id as [id|]; [|apply from_gateway_nil in E0; discriminate].
    destruct (from_gateway_inv _ _ _ _ _ _ E0) as (Se & _ & Gp & L). destruct (L eq_refl id eq_refl) as (i & Li & Si).
    destruct (receive_inv _ _ _ _ _ _ E3) as (Se' & _ & _ & Cr).
    assert (Ks : g_search g2 = g_search g) by (unfold settings in *; congruence). rewrite Ks in E7.
    exists id, c, nonce, ttl, ch, text, i, z, (snd v), (Some v0), (Some (falses (fst v))).
    repeat (split; [auto; try lia; reflexivity|]). split.
    { subst. destruct (Cr z eq_refl) as (mm & vv & cs & m' & F1 & F2 & F3 & F4 & F5 & F6). exists mm, vv, cs, m'.
      rewrite Gp in F1. auto 8. }
    destruct (z <? g_search g).
    - destruct (rt_GatewayDHTDiscoverResponseV2 version supported sha256 c nonce (snd v) (Some v0) (Some (falses (fst v))) true ch (Hc c eq_refl) Hn)
        as (m2 & En & _ & D'). rewrite En in E7. apply ret_inj in E7. subst v1. rewrite S, <- D'. reflexivity.
    - destruct (rt_GatewayDHTDiscoverResponseV2 version supported sha256 c nonce (snd v) (Some v0) (Some (falses (fst v))) false [] (Hc c eq_refl) Hn)
        as (m2 & En & _ & D'). rewrite En in E7. apply ret_inj in E7. subst v1. rewrite S, <- D'. reflexivity.
  Qed.

  Lemma gateway_offer_answers_pf e g request g' r :
    HandleGatewayOffer version supported sha256 ec_sign blake verify voucher_of is_address zone e g request = Ret (g', r) ->
    match DecodeGatewayDHTDiscoverOfferRequest sha256 request with
    | Ret (OkR (c, nonce, ds, ch, text)) =>
        (r = Invalid /\ settings g' = settings g) \/
        exists x, credited e g g' ch text x /\ g_offer g' = g_offer g * slice_len ds /\ g_search g' = g_search g /\ r <> NoReply
    | _ => r = Invalid /\ g' = g
    end.
  Proof.
    unfold HandleGatewayOffer. intros H. step H. rename v into q. destruct q as [[[[[c nonce] ds] ch] text]|];
      [|apply ret_inj in H; injection H as <- <-; auto].
    step H. destruct v as [r2 g2]. destruct (receive_inv _ _ _ _ _ _ E0) as (Se & _ & _ & Cr).
    step H; [|apply ret_inj in H; injection H as <- <-; auto]. step H. step H.
    apply finish_p2p_inv in H. destruct H as (-> & K). right. subst r2.
    destruct (Cr z eq_refl) as (mm & vv & cs & m' & F1 & F2 & F3 & F4 & F5 & F6). exists z.
    destruct (settings_key _ _ Se) as (_ & _ & Hs & Ho).
    split; [exists mm, vv, cs, m'; auto 8|]. unfold with_offer_price. cbn [g_offer g_search]. rewrite Ho. split; [reflexivity|].
    split; [exact Hs|]. destruct K as [->|(x & -> & _)]; discriminate.
  Qed.

  (** ** Asking other gateways *)

  Lemma verify_same m k m' : MessageVerify pub_of ec_verify blake m k = (true, m') -> m' = m.
  Proof.
    unfold MessageVerify. destruct (fst _) as [[|]|]; try discriminate. intros [= <-]. destruct m. reflexivity.
  Qed.

  Lemma ask_inv e n g id enc r g' o : ask_gateway pub_of ec_sign ec_verify blake e n g id enc = Ret (r, g', o) ->
    settings g' = settings g /\ g_db g' = g_db g /\ g_pay g' = g_pay g /\ grown e g g' /\
    (forall m, r = Some m -> exists i, listed e g id i /\ signed_by pub_of ec_verify blake i m) /\
    (o = [] \/ exists b m, enc = Ret b /\ with_signature b m /\ o = [(id, m)]) /\ (r <> None -> o <> []).
  Proof.
    unfold ask_gateway. intros H. step H.
    { apply ret_inj in H. injection H as <- <- <-. repeat split; auto using grown_refl; discriminate. }
    step H. step H. destruct v0 as [b m]. apply sign_with_inv in E1. cbn [fst snd] in H. step H.
    { apply ret_inj in H. injection H as <- <- <-. repeat split; auto using grown_refl; discriminate. }
    assert (O : exists b m0, Ret v = Ret b /\ with_signature b m0 /\ [(id, m)] = [(id, m0)]) by eauto.
    step H; [|apply ret_inj in H; injection H as <- <- <-; repeat split; auto using grown_refl; discriminate].
    step H. destruct v0 as [i g1]. destruct (get_gateway_inv _ _ _ _ _ _ E4) as (A & B & C).
    destruct (get_gateway_listed _ _ _ _ _ _ E4) as (D & L).
    step H; [|apply ret_inj in H; injection H as <- <- <-; repeat split; auto; discriminate].
    step H. step H; [|apply ret_inj in H; injection H as <- <- <-; repeat split; auto; discriminate].
    apply ret_inj in H. injection H as <- <- <-. repeat split; auto; [|discriminate].
    intros x. destruct (MessageVerify pub_of ec_verify blake m0 a) as [ok m1] eqn:V. cbn [fst snd]. destruct ok; [|discriminate].
    intros [= <-]. assert (m1 = m0) by (eapply verify_same; eauto). subst m1.
    exists i0. split; [apply L; first [reflexivity|assumption]|]. exists a. subst. split; [assumption|]. rewrite V. reflexivity.
  Qed.

  Lemma discover_all_inv e c : forall ids n g w w' g',
    discover_all version supported pub_of ec_sign ec_verify blake e n g c ids w = Ret (w', g') ->
    settings g' = settings g /\ g_db g' = g_db g /\ g_pay g' = g_pay g /\ grown e g g' /\
    exists cs rs un o, contacted w' = contacted w ++ cs /\ responses w' = responses w ++ rs /\
      unContactable w' = unContactable w ++ un /\ out w' = out w ++ o /\
      Forall2 (trusted e g) cs rs /\ Permutation ids (cs ++ un) /\
      (forall id m, In (id, m) o -> In id ids /\
        exists b, EncodeGatewayDHTDiscoverRequest version supported (g_id g) c 1 (unix e + 10) [] [] = Ret b /\ with_signature b m).
  Proof.
    induction ids as [|id t IH]; intros n g w w' g' H; cbn [discover_all] in H.
    - apply ret_inj in H. injection H as <- <-. repeat split; auto using grown_refl. exists [], [], [], [].
      rewrite !app_nil_r. repeat split; auto; try constructor; intros; contradiction.
    - step H. destruct v as [[r g1] o1]. destruct (ask_inv _ _ _ _ _ _ _ _ E) as (A & B & C & D & L & O & _).
      destruct (IH _ _ _ _ _ H) as (A' & B' & C' & D' & cs & rs & un & o & W1 & W2 & W3 & W4 & F & P & Q).
      split; [congruence|]. split; [congruence|]. split; [congruence|]. split; [eapply grown_trans; eauto|].
      assert (F' : Forall2 (trusted e g) cs rs).
      { clear -F D. induction F as [|x y l l' T F IH]; constructor; auto. destruct T as (i & Li & Si). exists i. split; [apply D; exact Li|exact Si]. }
      assert (Gi : g_id g1 = g_id g) by (apply settings_key, A).
      assert (Q' : forall id0 m, In (id0, m) (o1 ++ o) -> In id0 (id :: t) /\
        exists b, EncodeGatewayDHTDiscoverRequest version supported (g_id g) c 1 (unix e + 10) [] [] = Ret b /\ with_signature b m).
      { intros id0 m I0. apply in_app_or in I0 as [I0|I0].
        - destruct O as [->|(b & m0 & Eb & S & ->)]; [destruct I0|]. destruct I0 as [I0|[]]. injection I0 as <- <-.
          split; [left; reflexivity|]. exists b. split; [exact Eb|exact S].
        - destruct (Q _ _ I0) as (X & b & Eb & S). split; [right; exact X|]. rewrite Gi in Eb. eauto. }
      unfold gather in W1, W2, W3, W4. destruct r as [m|]; cbn [contacted responses unContactable out] in W1, W2, W3, W4.
      + exists (id :: cs), (m :: rs), un, (o1 ++ o). rewrite W1, W2, W3, W4, <- !app_assoc. repeat (split; [reflexivity|]).
        split; [constructor; [exact (L m eq_refl)|exact F']|]. split; [cbn; constructor; exact P|exact Q'].
      + exists cs, rs, (id :: un), (o1 ++ o). rewrite W1, W2, W3, W4, <- !app_assoc. repeat (split; [reflexivity|]).
        split; [exact F'|]. split; [apply Permutation_cons_app; exact P|exact Q'].
  Qed.

  Lemma ids_of_inv l ids : ids_of l = OkR ids -> Forall2 (fun i id => NewNodeIDFromHexString (n_id i) = OkR id) l ids.
  Proof.
    revert ids. induction l as [|i t IH]; cbn; intros ids H; [injection H as <-; constructor|].
    destruct (NewNodeIDFromHexString (n_id i)) as [id|] eqn:E; [|discriminate]. destruct (ids_of t) as [r|]; [|discriminate].
    injection H as <-. constructor; auto.
  Qed.

  Lemma dht_discover_pf e g request s :
    HandleDHTDiscover version supported sha256 pub_of ec_sign ec_verify blake e g request = Ret s ->
    settings (after s) = settings g /\ g_db (after s) = g_db g /\ g_pay (after s) = g_pay g /\
    (sent s <> [] \/ (exists m, In (Json m) (wrote s)) ->
      exists c nonce ttl num inc ch text near reg ids cs rs un,
        DecodeClientDHTDiscoverRequest sha256 request = Ret (OkR (c, nonce, ttl, num, inc, ch, text)) /\ unix e <= ttl /\
        GetGatewaysNearCID info (g_reg g) c num (g_id g) = Ret (OkR near, reg) /\
        Forall2 (fun x id => NewNodeIDFromHexString (n_id (snd x)) = OkR id) near ids /\
        Permutation ids (cs ++ un) /\ Forall2 (trusted e g) cs rs /\
        (forall m, In (Json m) (wrote s) -> exists b, with_signature b m /\
          EncodeClientDHTDiscoverResponse version supported cs (Some rs) un nonce false [] = Ret b) /\
        (forall id m, In (id, m) (sent s) -> In id ids /\
          exists b, EncodeGatewayDHTDiscoverRequest version supported (g_id g) c 1 (unix e + 10) [] [] = Ret b /\ with_signature b m)).
  Proof.
    unfold HandleDHTDiscover. intros H. step H. step H; [|unfold quit in H; done H; repeat split; auto; intros [X|(m & [X|[]])]; [destruct (X eq_refl)|discriminate]].
    destruct a as [[[[[[c nonce] ttl] num] inc] ch] text]. subst v.
    step H; [done H; repeat split; auto; intros [X|(m & [])]; destruct (X eq_refl)|].
    step H. destruct v as [near reg]. cbn [fst snd] in H.
    assert (Gm := near_map _ _ _ _ _ _ E1).
    step H; [|unfold quit in H; done H; repeat split; auto; intros [X|(m & [X|[]])]; [destruct (X eq_refl)|discriminate]].
    step H; [|unfold quit in H; done H; repeat split; auto; intros [X|(m & [X|[]])]; [destruct (X eq_refl)|discriminate]].
    step H. destruct v as [w g1]. step H. subst near.
    destruct (discover_all_inv _ _ _ _ _ _ _ _ E4) as (A & B & C & D & cs & rs & un & o & W1 & W2 & W3 & W4 & F & P & Q).
    cbn [nothing contacted responses unContactable out app] in W1, W2, W3, W4. rewrite W1, W2, W3 in E5.
    destruct (finish_rest_inv _ _ _ _ _ H) as (Af & Sn & an & Wr & K). rewrite Af.
    split; [exact A|]. split; [exact B|]. split; [exact C|]. intros _.
    exists c, nonce, ttl, num, inc, ch, text, a, reg, a0, cs, rs, un.
    split; [reflexivity|]. split; [lia|]. split; [exact E1|]. split.
    { apply ids_of_inv in E3. clear -E3. remember (map snd a) as l eqn:El. revert a El. induction E3 as [|x y l l' T F IH]; intros a El; destruct a; try discriminate; constructor; injection El as -> ->; auto. }
    split; [exact P|]. split.
    { clear -F Gm. induction F as [|x y l l' T F IH]; constructor; auto. destruct T as (i & Li & Si). exists i. split; [|exact Si].
      unfold listed in *. cbn [g_reg with_reg] in Li. rewrite Gm in Li. exact Li. }
    split.
    - intros m I0. rewrite Wr in I0. destruct I0 as [->|[]]. destruct K as [|(m' & Em & S)]; [discriminate|]. injection Em as <-.
      exists v. split; [exact S|exact E5].
    - rewrite Sn, W4. exact Q.
  Qed.

  (** ** Paying other gateways *)

  Lemma payer_run_cat : forall a m b m1 e1 m2 e2, payer_run m a = (m1, e1) -> payer_run m1 b = (m2, e2) ->
    payer_run m (a ++ b) = (m2, e1 ++ e2).
  Proof.
    induction a as [|o t IH]; intros m b m1 e1 m2 e2 A B; cbn [payer_run app] in *; [injection A as <- <-; exact B|].
    destruct (payer_step m o) as [mo eo]. destruct (payer_run mo t) as [mt et] eqn:Et. injection A as <- <-.
    rewrite (IH _ _ _ _ _ _ Et B). reflexivity.
  Qed.
  Lemma paid_app a b : paid (a ++ b) = paid a ++ paid b.
  Proof. apply flat_map_app. Qed.

  Lemma trace_nil m : pay_trace m m []. Proof. exists [], []. auto. Qed.
  Lemma trace_app m1 m2 m3 a b : pay_trace m1 m2 a -> pay_trace m2 m3 b -> pay_trace m1 m3 (a ++ b).
  Proof.
    intros (o1 & e1 & R1 & P1) (o2 & e2 & R2 & P2). exists (o1 ++ o2), (e1 ++ e2). rewrite paid_app, P1, P2.
    split; [eapply payer_run_cat; eauto|reflexivity].
  Qed.
  Lemma trace_pay m r k a sg m' p : Pay m r k a sg = (m', p) ->
    pay_trace m m' (match p with Paid ch v => [(r, k, a, ch, v)] | _ => [] end).
  Proof.
    intros H. exists [OPay r k a sg], [EPay r k a sg p]. cbn [payer_run payer_step]. rewrite H. split; [reflexivity|].
    destruct p; reflexivity.
  Qed.
  Lemma trace_topup m r a t m' ok : Topup m r a t = (m', ok) -> pay_trace m m' [].
  Proof.
    intros H. exists [OTopup r a t], [ETopup r a t ok]. cbn [payer_run payer_step]. rewrite H. split; reflexivity.
  Qed.
  Lemma trace_topup_pay m r k a cfg t1 t2 sg m' res : topupAndPay m r k a cfg t1 t2 sg = (m', res) ->
    pay_trace m m' (match res with OkR (ch, v) => [(r, k, a, ch, v)] | ErrR => [] end).
  Proof.
    unfold topupAndPay. destruct (Topup m r cfg t1) as [m1 ok1] eqn:E1. apply trace_topup in E1.
    destruct ok1; cbn [negb]; [|intros [= <- <-]; exact E1].
    destruct (Pay m1 r k a sg) as [m2 p] eqn:E2. apply trace_pay in E2. assert (T2 := trace_app _ _ _ _ _ E1 E2).
    destruct p; [|intros [= <- <-]; exact T2|intros [= <- <-]; exact T2].
    destruct (Topup m2 r cfg t2) as [m3 ok2] eqn:E3. apply trace_topup in E3. assert (T3 := trace_app _ _ _ _ _ T2 E3).
    destruct ok2; cbn [negb]; [|intros [= <- <-]; exact T3].
    destruct (Pay m3 r k a sg) as [m4 p2] eqn:E4. apply trace_pay in E4. assert (T4 := trace_app _ _ _ _ _ T3 E4).
    destruct p2; intros [= <- <-]; exact T4.
  Qed.

  Lemma pay_step_v2 e n g addr (y : Z + gostring * gostring) g' :
    obind (CorePay e g addr 0 (g_search g)) (fun p => let (r, g) := p in
       match r with
       | PayError => Ret (inl 400, g)
       | Paid ch v => Ret (inr (ch, voucher_text v), g)
       | NeedTopup =>
           let* q := CoreTopupAndPay e n g addr 0 (g_search g) in
           Ret (match fst q with ErrR => inl 500 | OkR (ch, v) => inr (ch, voucher_text v) end, snd q)
       end) = Ret (y, g') ->
    settings g' = settings g /\ g_db g' = g_db g /\ g_reg g' = g_reg g /\
    forall m, g_pay g = Some m -> exists m' l, g_pay g' = Some m' /\ pay_trace m m' l /\
      match y with
      | inr (ch, text) => exists v, text = voucher_text v /\ l = [(addr, 0, g_search g, ch, v)]
      | inl _ => l = []
      end.
  Proof.
    intros H. step H. destruct v as [r g1]. destruct (pay_inv _ _ _ _ _ _ _ E) as (A & B & C).
    destruct (settings_key _ _ A) as (_ & _ & Ks & _).
    assert (T : forall m, g_pay g = Some m -> exists m', g_pay g1 = Some m' /\ pay_trace m m' (match r with Paid ch v => [(addr, 0, g_search g, ch, v)] | _ => [] end)).
    { intros m Em. unfold CorePay in E. rewrite Em in E. cbn [deref obind] in E.
      destruct (Pay m addr 0 (g_search g) (e_sign e)) as [m' p] eqn:Ep. apply ret_inj in E. injection E as <- <-. exists m'.
      split; [reflexivity|]. apply trace_pay in Ep. exact Ep. }
    destruct r as [| |ch v].
    - step H. destruct v as [q g2]. apply ret_inj in H. injection H as <- <-. cbn [fst snd] in *.
      destruct (topup_pay_inv _ _ _ _ _ _ _ _ E0) as (A' & B' & C').
      split; [congruence|]. split; [congruence|]. split; [congruence|]. intros m Em. destruct (T m Em) as (m1 & Em1 & T1).
      unfold CoreTopupAndPay in E0. rewrite Em1 in E0. cbn [deref obind] in E0.
      destruct (topupAndPay _ _ _ _ _ _ _ _) as [m2 res] eqn:Et. apply ret_inj in E0. injection E0 as <- <-.
      apply trace_topup_pay in Et. rewrite Ks in Et. exists m2. eexists. split; [reflexivity|].
      split; [eapply trace_app; eauto|]. destruct res as [[ch v]|]; [|reflexivity]. exists v. split; reflexivity.
    - apply ret_inj in H. injection H as <- <-. split; [exact A|]. split; [exact B|]. split; [exact C|].
      intros m Em. destruct (T m Em) as (m1 & Em1 & T1). exists m1, []. auto.
    - apply ret_inj in H. injection H as <- <-. split; [exact A|]. split; [exact B|]. split; [exact C|].
      intros m Em. destruct (T m Em) as (m1 & Em1 & T1). exists m1. eexists. split; [exact Em1|]. split; [exact T1|]. exists v. auto.
  Qed.

  Lemma discover_v2_inv e c : forall gws n g w r g' o,
    discover_all_v2 version supported pub_of ec_sign ec_verify blake voucher_text e n g c gws w = Ret (r, g', o) ->
    settings g' = settings g /\ g_db g' = g_db g /\ grown e g g' /\
    forall m, g_pay g = Some m -> exists m' rows o',
      g_pay g' = Some m' /\ pay_trace m m' (map row_paid rows) /\ o = out w ++ o' /\
      vouched voucher_text (v2_request (g_id g) c e) rows o' /\
      map row_info rows = firstn (length rows) gws /\
      Forall (fun x => row_amount x = g_search g /\ NewNodeIDFromHexString (n_id (row_info x)) = OkR (row_id x)) rows /\
      match r with
      | inl _ => (length rows < length gws)%nat
      | inr w' => length rows = length gws /\
          exists cs rs un, contacted w' = contacted w ++ cs /\ responses w' = responses w ++ rs /\
            unContactable w' = unContactable w ++ un /\ Forall2 (trusted e g) cs rs /\ Permutation (map row_id rows) (cs ++ un)
      end.
  Proof.
    induction gws as [|gw t IH]; intros n g w r g' o H; cbn [discover_all_v2] in H.
    - apply ret_inj in H. injection H as <- <- <-. repeat split; auto using grown_refl. intros m Em. exists m, [], [].
      rewrite app_nil_r. cbn. repeat (split; [auto using trace_nil|]). { intros ? ? []. } repeat (split; [auto|]).
      exists [], [], []. rewrite !app_nil_r. repeat split; auto; constructor.
    - destruct (NewNodeIDFromHexString (n_id gw)) as [id|] eqn:Ei.
      2:{ apply ret_inj in H. injection H as <- <- <-. repeat split; auto using grown_refl. intros m Em. exists m, [], [].
          rewrite app_nil_r. cbn. repeat (split; [auto using trace_nil|]). { intros ? ? []. } repeat (split; [auto|]). lia. }
      match type of H with obind ?a (fun p => let (r, g) := p in obind (@?b r g) ?k) = _ =>
        destruct (obind a (fun p => let (r, g) := p in b r g)) as [[y g1]| |] eqn:Ep end.
      2,3: exfalso; step H; destruct v as [rr gg]; cbn [obind] in Ep; step H; discriminate.
      assert (H' : match y with
            | inl code => Ret (inl code, g1, out w)
            | inr (ch, text) =>
                let* x := RequestDHTDiscoverV2 version supported pub_of ec_sign ec_verify blake e n g1 id c ch text in
                let '(r, g, o) := x in
                discover_all_v2 version supported pub_of ec_sign ec_verify blake voucher_text e (S n) g c t (gather w id r o)
            end = Ret (r, g', o)).
      { step H. destruct v as [rr gg]. cbn [obind] in Ep. rewrite Ep in H. cbn [obind] in H. exact H. }
      clear H. rename H' into H.
      destruct (pay_step_v2 e n g (n_address gw) y g1 Ep) as (A & B & C & T). clear Ep.
      assert (Gr : grown e g g1) by (apply grown_map; rewrite C; reflexivity).
      destruct y as [code|[ch text]].
      + apply ret_inj in H. injection H as <- <- <-. repeat (split; [assumption|]). intros m Em.
        destruct (T m Em) as (m' & l & Em' & Tr & ->). exists m', [], []. rewrite app_nil_r. cbn.
        repeat (split; [auto|]). { intros ? ? []. } repeat (split; [auto|]). lia.
      + step H. destruct v as [[r1 g2] o1]. destruct (ask_inv _ _ _ _ _ _ _ _ E) as (A' & B' & C' & D' & L & O & _).
        destruct (IH _ _ _ _ _ _ H) as (A2 & B2 & D2 & K). clear IH H.
        split; [congruence|]. split; [congruence|]. split; [eapply grown_trans; [exact Gr|]; eapply grown_trans; eauto|].
        intros m Em. destruct (T m Em) as (m1 & l & Em1 & Tr & v & -> & ->).
        rewrite <- C' in Em1. destruct (K m1 Em1) as (m2 & rows & o' & Em2 & Tr2 & -> & Vo & Ri & Fr & R). clear K.
        assert (St : settings g2 = settings g) by congruence.
        destruct (settings_key _ _ A) as (_ & Gi & _). destruct (settings_key _ _ St) as (_ & Gi2 & Gs2 & _).
        exists m2, ((gw, id, g_search g, ch, v) :: rows), (o1 ++ o'). split; [exact Em2|].
        split; [exact (trace_app _ _ _ _ _ Tr Tr2)|].
        split; [unfold gather; destruct r1; cbn [out]; rewrite <- app_assoc; reflexivity|]. split.
        { intros id0 m0 I0. apply in_app_or in I0 as [I0|I0].
          - destruct O as [->|(b & mm & Eb & S & ->)]; [destruct I0|]. destruct I0 as [I0|[]]. injection I0 as <- <-.
            exists gw, (g_search g), ch, v, b. split; [left; reflexivity|]. split; [|exact S]. unfold v2_request. rewrite <- Gi. exact Eb.
          - destruct (Vo _ _ I0) as (i & a & ch0 & v0 & b & I1 & Eb & S). exists i, a, ch0, v0, b. split; [right; exact I1|].
            split; [|exact S]. unfold v2_request in *. rewrite Gi2 in Eb. exact Eb. }
        split; [cbn; rewrite Ri; reflexivity|]. split.
        { constructor; [split; [reflexivity|exact Ei]|]. eapply Forall_impl; [|exact Fr]. intros x (X1 & X2). rewrite Gs2 in X1. auto. }
        destruct r as [code|w']; [cbn; lia|]. destruct R as (Ln & cs & rs & un & W1 & W2 & W3 & F & P).
        split; [cbn; lia|].
        assert (F' : Forall2 (trusted e g) cs rs).
        { clear -F D' Gr. induction F as [|x y l l' T F IH]; constructor; auto. destruct T as (i & Li & Si). exists i. split; [apply Gr, D', Li|exact Si]. }
        unfold gather in W1, W2, W3. destruct r1 as [mm|]; cbn [contacted responses unContactable] in W1, W2, W3.
        * exists (id :: cs), (mm :: rs), un. rewrite W1, W2, W3, <- !app_assoc. repeat (split; [reflexivity|]).
          split; [constructor; [|exact F']; destruct (L mm eq_refl) as (i & Li & Si); exists i; split; [apply Gr, Li|exact Si]|].
          cbn. constructor. exact P.
        * exists cs, rs, (id :: un). rewrite W1, W2, W3, <- !app_assoc. repeat (split; [reflexivity|]).
          split; [exact F'|]. cbn. apply Permutation_cons_app. exact P.
  Qed.

  Lemma trusted_grown e g g1 cs rs : grown e g g1 -> Forall2 (trusted e g1) cs rs -> Forall2 (trusted e g) cs rs.
  Proof.
    intros D F. induction F as [|x y l l' T F IH]; constructor; auto. destruct T as (i & Li & Si). exists i. split; [apply D, Li|exact Si].
  Qed.

  Lemma dht_v2_pf e g request s :
    HandleDHTDiscoverV2 version supported sha256 pub_of ec_sign ec_verify blake verify voucher_text voucher_of is_address e g request = Ret s ->
    settings (after s) = settings g /\ g_db (after s) = g_db g /\
    (sent s <> [] \/ (exists m, In (Json m) (wrote s)) ->
      exists c nonce ttl num inc ch text near reg g1 x m1 m2 rows,
        DecodeClientDHTDiscoverRequestV2 sha256 request = Ret (OkR (c, nonce, ttl, num, inc, ch, text)) /\ unix e <= ttl /\
        GetGatewaysNearCID info (g_reg g) c num (g_id g) = Ret (OkR near, reg) /\
        credited e g g1 ch text x /\ g_pay g1 = Some m1 /\ g_pay (after s) = Some m2 /\
        pay_trace m1 m2 (map row_paid rows) /\ map row_info rows = firstn (length rows) (map snd near) /\
        Forall (fun y => row_amount y = g_search g /\ NewNodeIDFromHexString (n_id (row_info y)) = OkR (row_id y)) rows /\
        vouched voucher_text (v2_request (g_id g) c e) rows (sent s) /\
        (x < g_search g * num -> exists t, wrote s = HttpError 500 :: t) /\
        (forall m, In (Json m) (wrote s) -> exists b cs rs un, with_signature b m /\
          EncodeClientDHTDiscoverResponseV2 version supported cs (Some rs) un nonce false [] = Ret b /\
          map row_info rows = map snd near /\ Permutation (map row_id rows) (cs ++ un) /\ Forall2 (trusted e g) cs rs)).
  Proof.
    unfold HandleDHTDiscoverV2. intros H.
    assert (Qt : forall g0, settings g0 = settings g -> g_db g0 = g_db g -> forall code s, quit g0 code = Ret s ->
      settings (after s) = settings g /\ g_db (after s) = g_db g /\ ~ (sent s <> [] \/ exists m, In (Json m) (wrote s))).
    { intros g0 A B code s0 Q. unfold quit in Q. apply ret_inj in Q. subst s0. cbn [after sent wrote]. split; [exact A|]. split; [exact B|].
      intros [X|(m & [X|[]])]; [exact (X eq_refl)|discriminate]. }
    step H. step H; [|destruct (Qt g eq_refl eq_refl _ _ H) as (A & B & N); split; [exact A|split; [exact B|]]; intros X; destruct (N X)].
    destruct a as [[[[[[c nonce] ttl] num] inc] ch] text]. subst v.
    step H; [done H; repeat split; auto; intros [X|(m & [])]; destruct (X eq_refl)|].
    step H. destruct v as [near reg]. cbn [fst snd] in H. assert (Gm := near_map _ _ _ _ _ _ E1).
    step H; [|destruct (Qt (with_reg g reg) eq_refl eq_refl _ _ H) as (A & B & N); split; [exact A|split; [exact B|]]; intros X; destruct (N X)].
    step H. destruct v as [amount g1]. destruct (receive_inv _ _ _ _ _ _ E3) as (Se & Db & Rg & Cr).
    change (settings (with_reg g reg)) with (settings g) in Se. change (g_db (with_reg g reg)) with (g_db g) in Db.
    step H; [|destruct (Qt g1 Se Db _ _ H) as (A & B & N); split; [exact A|split; [exact B|]]; intros X; destruct (N X)].
    rename z into x. specialize (Cr x eq_refl). subst near amount. rename a into near.
    destruct (settings_key _ _ Se) as (_ & Gi & Gs & _).
    assert (Gr : grown e g g1). { apply grown_map. rewrite Rg. exact Gm. }
    step H. destruct v as [[r g2] o]. destruct (discover_v2_inv _ _ _ _ _ _ _ _ _ E2) as (A & B & D & K).
    destruct Cr as (mm & vv & cs0 & m1 & F1 & F2 & F3 & F4 & F5 & F6).
    destruct (K m1 F6) as (m2 & rows & o' & Em2 & Tr & Eo & Vo & Ri & Fr & R). clear K. cbn [nothing out app] in Eo. subst o'.
    assert (Cr : credited e g g1 ch text x) by (exists mm, vv, cs0, m1; auto 8).
    assert (Fr' : Forall (fun y => row_amount y = g_search g /\ NewNodeIDFromHexString (n_id (row_info y)) = OkR (row_id y)) rows).
    { eapply Forall_impl; [|exact Fr]. intros y (Y1 & Y2). rewrite Gs in Y1. auto. }
    rewrite Gi in Vo. rewrite Gs in H. step H.
    - (* a failure in the loop *)
      apply ret_inj in H. subst s. cbn [after sent wrote]. split; [congruence|]. split; [congruence|]. intros _.
      exists c, nonce, ttl, num, inc, ch, text, near, reg, g1, x, m1, m2, rows. repeat (split; [assumption || reflexivity || lia|]). split.
      + intros X. replace (x <? g_search g * num) with true by lia. eexists. reflexivity.
      + intros m I0. exfalso. apply in_app_or in I0 as [I0|[I0|[]]]; [|discriminate]. destruct (_ <? _); [|destruct I0]. destruct I0 as [I0|[]]; discriminate.
    - step H. destruct (finish_rest_inv _ _ _ _ _ H) as (Af & Sn & an & Wr & Ka). rewrite Af, Sn, Wr.
      split; [congruence|]. split; [congruence|]. intros _.
      exists c, nonce, ttl, num, inc, ch, text, near, reg, g1, x, m1, m2, rows. repeat (split; [assumption || reflexivity || lia|]). split.
      + intros X. replace (x <? g_search g * num) with true by lia. eexists. reflexivity.
      + intros m I0. apply in_app_or in I0 as [I0|[I0|[]]].
        { exfalso. destruct (_ <? _); [|destruct I0]. destruct I0 as [I0|[]]; discriminate. }
        subst an. destruct Ka as [|(m' & Em & S)]; [discriminate|]. injection Em as <-.
        destruct R as (Ln & cs & rs & un & W1 & W2 & W3 & F & P). cbn [nothing contacted responses unContactable app] in W1, W2, W3.
        rewrite W1, W2, W3 in E5. exists v, cs, rs, un. split; [exact S|]. split; [exact E5|]. split.
        { rewrite Ri, Ln. apply firstn_all. }
        split; [exact P|]. eapply trusted_grown; eauto.
  Qed.

  Lemma offers_all_inv e c nonce ds : forall ids n g w r g' o,
    offers_all version supported pub_of ec_sign ec_verify blake voucher_text e n g c nonce ds ids w = Ret (r, g', o) ->
    settings g' = settings g /\ g_db g' = g_db g /\ grown e g g' /\
    exists o', o = out w ++ o' /\ (forall id m, In (id, m) o' -> In id ids) /\
    match r with
    | inl _ => True
    | inr w' => exists cs rs un, contacted w' = contacted w ++ cs /\ responses w' = responses w ++ rs /\
            unContactable w' = unContactable w ++ un /\ Forall2 (trusted e g) cs rs /\ Permutation ids (cs ++ un)
    end.
  Proof.
    induction ids as [|id t IH]; intros n g w r g' o H; cbn [offers_all] in H.
    - apply ret_inj in H. injection H as <- <- <-. repeat split; auto using grown_refl. exists []. rewrite app_nil_r.
      repeat split; [intros ? ? []|]. exists [], [], []. rewrite !app_nil_r. repeat split; auto; constructor.
    - step H. step H. destruct v0 as [i g1]. destruct (get_gateway_inv _ _ _ _ _ _ E0) as (A & B & C).
      destruct (get_gateway_listed _ _ _ _ _ _ E0) as (D & _). step H. step H. destruct v1 as [r1 g2].
      destruct (pay_inv _ _ _ _ _ _ _ E2) as (A2 & B2 & C2).
      step H. destruct v1 as [y g3].
      assert (St : settings g3 = settings g2 /\ g_db g3 = g_db g2 /\ g_reg g3 = g_reg g2).
      { destruct r1; try (apply ret_inj in E3; injection E3 as <- <-; auto).
        step E3. destruct (Topup _ _ _ _) as [m' ok]. destruct ok; cbn [negb] in E3; [|apply ret_inj in E3; injection E3 as <- <-; auto].
        step E3. destruct v2 as [r3 g4]. apply ret_inj in E3. injection E3 as <- <-. destruct (pay_inv _ _ _ _ _ _ _ E5) as (A5 & B5 & C5). auto. }
      destruct St as (A3 & B3 & C3). assert (Gr : grown e g g3).
      { eapply grown_trans; [exact D|]. apply grown_map. rewrite C3, C2. reflexivity. }
      destruct y as [code|[ch text]].
      + apply ret_inj in H. injection H as <- <- <-. split; [congruence|]. split; [congruence|]. split; [exact Gr|]. exists [].
        rewrite app_nil_r. repeat split. intros ? ? [].
      + step H. destruct v1 as [[r4 g4] o1]. destruct (ask_inv _ _ _ _ _ _ _ _ E4) as (A' & B' & C' & D' & L & O & _).
        destruct (IH _ _ _ _ _ _ H) as (A5 & B5 & D5 & o' & -> & Q & R). clear IH H.
        split; [congruence|]. split; [congruence|]. split; [eapply grown_trans; [exact Gr|]; eapply grown_trans; eauto|].
        exists (o1 ++ o'). split; [unfold gather; destruct r4; cbn [out]; rewrite <- app_assoc; reflexivity|]. split.
        { intros id0 m0 I0. apply in_app_or in I0 as [I0|I0]; [|right; eapply Q; eauto].
          destruct O as [->|(b & mm & Eb & S & ->)]; [destruct I0|]. destruct I0 as [I0|[]]. injection I0 as <- <-. left. reflexivity. }
        destruct r as [code|w']; [exact I|]. destruct R as (cs & rs & un & W1 & W2 & W3 & F & P).
        assert (F' : Forall2 (trusted e g) cs rs). { eapply trusted_grown; [|exact F]. eapply grown_trans; eauto. }
        unfold gather in W1, W2, W3. destruct r4 as [mm|]; cbn [contacted responses unContactable] in W1, W2, W3.
        * exists (id :: cs), (mm :: rs), un. rewrite W1, W2, W3, <- !app_assoc. repeat (split; [reflexivity|]).
          split; [constructor; [|exact F']; destruct (L mm eq_refl) as (j & Li & Si); exists j; split; [apply Gr, Li|exact Si]|].
          cbn. constructor. exact P.
        * exists cs, rs, (id :: un). rewrite W1, W2, W3, <- !app_assoc. repeat (split; [reflexivity|]).
          split; [exact F'|]. cbn. apply Permutation_cons_app. exact P.
  Qed.

  Lemma dht_offer_pf e g request s :
    HandleDHTOffer version supported sha256 pub_of ec_sign ec_verify blake verify voucher_text voucher_of is_address e g request = Ret s ->
    settings (after s) = settings g /\ g_db (after s) = g_db g /\
    (sent s <> [] \/ (exists m, In (Json m) (wrote s)) ->
      exists c nonce ds ids ch text g1 x,
        DecodeClientDHTDiscoverOfferRequest sha256 request = Ret (OkR (c, nonce, ds, ids, ch, text)) /\
        credited e g g1 ch text x /\ (forall id m, In (id, m) (sent s) -> In id ids) /\
        (x < units (elems ds) * g_offer g -> exists t, wrote s = HttpError 500 :: t) /\
        (forall m, In (Json m) (wrote s) -> exists b cs rs un, with_signature b m /\
          EncodeClientDHTDiscoverOfferResponse version supported c nonce cs (Some rs) false [] = Ret b /\
          Permutation ids (cs ++ un) /\ Forall2 (trusted e g) cs rs)).
  Proof.
    unfold HandleDHTOffer. intros H.
    assert (Qt : forall g0, settings g0 = settings g -> g_db g0 = g_db g -> forall code s, quit g0 code = Ret s ->
      settings (after s) = settings g /\ g_db (after s) = g_db g /\ ~ (sent s <> [] \/ exists m, In (Json m) (wrote s))).
    { intros g0 A B code s0 Q. unfold quit in Q. apply ret_inj in Q. subst s0. cbn [after sent wrote]. split; [exact A|]. split; [exact B|].
      intros [X|(m & [X|[]])]; [exact (X eq_refl)|discriminate]. }
    step H. step H; [|destruct (Qt g eq_refl eq_refl _ _ H) as (A & B & N); split; [exact A|split; [exact B|]]; intros X; destruct (N X)].
    destruct a as [[[[[c nonce] ds] ids] ch] text]. subst v.
    step H. destruct v as [amount g1]. destruct (receive_inv _ _ _ _ _ _ E0) as (Se & Db & Rg & Cr).
    step H; [|destruct (Qt g1 Se Db _ _ H) as (A & B & N); split; [exact A|split; [exact B|]]; intros X; destruct (N X)].
    rename z into x. specialize (Cr x eq_refl). destruct (settings_key _ _ Se) as (_ & _ & _ & Go).
    assert (Gr : grown e g g1). { apply grown_map. rewrite Rg. reflexivity. }
    step H. destruct v as [[r g2] o]. destruct (offers_all_inv _ _ _ _ _ _ _ _ _ _ _ E2) as (A & B & D & o' & Eo & Q & R).
    cbn [nothing out app] in Eo. subst o'. rewrite Go in H. step H.
    - apply ret_inj in H. subst s. cbn [after sent wrote]. split; [congruence|]. split; [congruence|]. intros _.
      exists c, nonce, ds, ids, ch, text, g1, x. repeat (split; [assumption || reflexivity|]). split.
      + intros X. replace (x <? units (elems ds) * g_offer g) with true by lia. eexists. reflexivity.
      + intros m I0. exfalso. apply in_app_or in I0 as [I0|[I0|[]]]; [|discriminate]. destruct (_ <? _); [|destruct I0]. destruct I0 as [I0|[]]; discriminate.
    - step H. destruct (finish_rest_inv _ _ _ _ _ H) as (Af & Sn & an & Wr & Ka). rewrite Af, Sn, Wr.
      split; [congruence|]. split; [congruence|]. intros _.
      exists c, nonce, ds, ids, ch, text, g1, x. repeat (split; [assumption || reflexivity|]). split.
      + intros X. replace (x <? units (elems ds) * g_offer g) with true by lia. eexists. reflexivity.
      + intros m I0. apply in_app_or in I0 as [I0|[I0|[]]].
        { exfalso. destruct (_ <? _); [|destruct I0]. destruct I0 as [I0|[]]; discriminate. }
        subst an. destruct Ka as [|(m' & Em & S)]; [discriminate|]. injection Em as <-.
        destruct R as (cs & rs & un & W1 & W2 & W3 & F & P). cbn [nothing contacted responses unContactable app] in W1, W2, W3.
        rewrite W1, W2 in E4. exists v, cs, rs, un. split; [exact S|]. split; [exact E4|]. split; [exact P|]. eapply trusted_grown; eauto.
  Qed.
End gw.
