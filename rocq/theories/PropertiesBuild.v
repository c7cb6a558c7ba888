(** * Properties of the settings that users of the libraries build (C150, C170) *)
From Coq Require Import String List ZArith Bool Lia.
From Verif Require Import Base Crypto OfferProofs Register Client ClientSpec ClientBuild ClientBuildSpec PropertiesClient.
From Verif Require Admin Payment.
Import ListNotations.
Open Scope Z_scope.
Open Scope go_scope.

(** ** C170: the client library *)

Definition choose (b : cbuilder) (c : choice) : cbuilder :=
  match c with
  | TTL x => SetEstablishmentTTL b x | URL x => SetRegisterURL b x | Chain k => SetBlockchainPrivateKey b k | Key k v => SetRetrievalPrivateKey b k v
  | Wallet x => SetWalletPrivateKey b x | Lotus x => SetLotusAP b x | Token x => SetLotusAuthToken b x
  | Search x => SetSearchPrice b x | OfferP x => SetOfferPrice b x | Topup x => SetTopUpAmount b x
  end.
Lemma chosen l : forall b, let d := fold_left choose l b in
  cb_ttl d = last_choice ttl_of (cb_ttl b) l /\ cb_url d = last_choice url_of (cb_url b) l /\ cb_chain d = last_choice chain_of (cb_chain b) l /\
  (cb_key d, cb_ver d) = last_choice key_of (cb_key b, cb_ver b) l /\ cb_wallet d = last_choice wallet_of (cb_wallet b) l /\
  cb_lotus d = last_choice lotus_of (cb_lotus b) l /\ cb_token d = last_choice token_of (cb_token b) l /\ cb_search d = last_choice search_of (cb_search b) l /\
  cb_offer d = last_choice offer_of (cb_offer b) l /\ cb_topup d = last_choice topup_of (cb_topup b) l.
Proof.
  induction l as [|c l IH]; intros b; [cbn; repeat split|]. cbn [fold_left]. specialize (IH (choose b c)). cbv zeta in *. unfold last_choice. cbn [fold_left].
  destruct c; exact IH.
Qed.

(** The settings are what was chosen last, or the defaults; a key that was not given is made, with version 1, and the client identifier is
    random.  Without a blockchain key nothing is built. *)
Theorem client_settings_chosen : forall l random gen s, Build (fold_left choose l CreateSettings) random gen = Ret s ->
  cs_ttl s = last_choice ttl_of 100 l /\ cs_url s = last_choice url_of (gs "http://register:9020") l /\ cs_id s = Some random /\
  cs_chain s = last_choice chain_of None l /\ cs_chain s <> None /\
  cs_wallet s = last_choice wallet_of [] l /\ cs_lotus s = last_choice lotus_of [] l /\ cs_token s = last_choice token_of [] l /\
  cs_search s = last_choice search_of (Some (10 ^ 15)) l /\ cs_offer s = last_choice offer_of (Some (10 ^ 15)) l /\ cs_topup s = last_choice topup_of (Some (10 ^ 17)) l /\
  match last_choice key_of (None, None) l with
  | (Some k, v) => cs_key s = Some k /\ cs_ver s = v
  | (None, _) => exists k, gen = OkR k /\ cs_key s = Some k /\ cs_ver s = Some 1
  end.
Proof.
  intros l random gen s H. destruct (chosen l CreateSettings) as (A1 & A2 & A3 & A4 & A5 & A6 & A7 & A8 & A9 & A10). set (d := fold_left choose l CreateSettings) in *.
  unfold Build in H. destruct (cb_chain d) as [ch|] eqn:C; [|discriminate].
  assert (K : (exists k, cb_key d = Some k /\ exists v, cs_key s = Some k /\ cs_ver s = v /\ v = cb_ver d) \/ (cb_key d = None /\ exists k, gen = OkR k /\ cs_key s = Some k /\ cs_ver s = Some 1)).
  { destruct (cb_key d) as [k|]; [left|right; split; [reflexivity|destruct gen as [k|]; [|discriminate]]]; apply ret_inj in H; rewrite <- H; exists k; [split; [reflexivity|]; exists (cb_ver d)|]; repeat split. }
  assert (R : exists k v, s = CSettings (cb_ttl d) (cb_url d) (Some random) (Some ch) k v (cb_wallet d) (cb_lotus d) (cb_token d) (cb_search d) (cb_offer d) (cb_topup d)).
  { destruct (cb_key d) as [k|]; [|destruct gen as [k|]; [|discriminate]]; apply ret_inj in H; rewrite <- H; eexists; eexists; reflexivity. }
  change (cb_ttl CreateSettings) with 100 in A1. change (cb_url CreateSettings) with (gs "http://register:9020") in A2. change (cb_chain CreateSettings) with (@None keypair) in A3.
  change (cb_key CreateSettings, cb_ver CreateSettings) with (@None keypair, @None Z) in A4. change (cb_wallet CreateSettings) with (@nil Byte.byte) in A5.
  change (cb_lotus CreateSettings) with (@nil Byte.byte) in A6. change (cb_token CreateSettings) with (@nil Byte.byte) in A7.
  change (cb_search CreateSettings) with (Some (10 ^ 15)) in A8. change (cb_offer CreateSettings) with (Some (10 ^ 15)) in A9. change (cb_topup CreateSettings) with (Some (10 ^ 17)) in A10.
  rewrite <- A4. clear H. destruct R as (k & v & ->). cbn [cs_ttl cs_url cs_id cs_chain cs_wallet cs_lotus cs_token cs_search cs_offer cs_topup cs_key cs_ver] in *.
  split; [exact A1|]. split; [exact A2|]. split; [reflexivity|]. split; [exact A3|]. split; [discriminate|]. split; [exact A5|]. split; [exact A6|]. split; [exact A7|].
  split; [exact A8|]. split; [exact A9|]. split; [exact A10|].
  destruct K as [(k0 & E & v0 & K1 & K2 & K3)|(E & k0 & K1 & K2 & K3)]; rewrite E; [split; congruence|exists k0; auto].
Qed.
(** A blockchain key is all that is needed. *)
Theorem client_builds : forall l random gen k, last_choice chain_of None l = Some k ->
  (exists x v, last_choice key_of (None, None) l = (Some x, v)) \/ (exists x, gen = OkR x) -> exists s, Build (fold_left choose l CreateSettings) random gen = Ret s.
Proof.
  intros l random gen k C K. destruct (chosen l CreateSettings) as (_ & _ & A3 & A4 & _). change (cb_chain CreateSettings) with (@None keypair) in A3.
  change (cb_key CreateSettings, cb_ver CreateSettings) with (@None keypair, @None Z) in A4. unfold Build. rewrite A3, C.
  destruct (cb_key (fold_left choose l CreateSettings)) as [x|] eqn:E; [eexists; reflexivity|]. destruct K as [(x & v & K)|(x & ->)]; [|eexists; reflexivity].
  rewrite <- A4 in K. congruence.
Qed.

Section life.
  Variable version : Z.
  Variable supported : list Z.
  Variable sha256 : bytes -> bytes.
  Variable pub_of : bytes -> bytes.
  Variable ec_verify : bytes -> bytes -> bytes -> bool.
  Variable blake : bytes -> bytes.
  Variable voucher_text : Payment.voucher -> gostring.
  Variable rand_int : list draw -> Z.
  Variable rand_bytes : list draw -> bytes.

  (** A client keeps its settings in all that it does, and pays a gateway it asks no price but those chosen. *)
  Theorem client_pays_chosen : forall l random gen s m c0 h c, Build (fold_left choose l CreateSettings) random gen = Ret s -> NewClientWith s m = Some c0 ->
    use_through version supported sha256 pub_of ec_verify blake voucher_text rand_int rand_bytes c0 h = Ret c ->
    c_id c = Some random /\ c_ttl c = last_choice ttl_of 100 l /\
    forall e cid gid max r c' out, FindOffersStandardDiscoveryV2 version supported sha256 pub_of ec_verify blake voucher_text rand_int e c cid gid max = Ret (r, c', out) ->
    exists rows, spent e c c' rows /\ forall x, In x rows ->
      last_choice search_of (Some (10 ^ 15)) l = Some (how_much x) \/
      exists price k, last_choice offer_of (Some (10 ^ 15)) l = Some price /\ 0 <= k <= max /\ how_much x = k * price.
  Proof.
    intros l random gen s m c0 h c B N U. apply client_settings_chosen in B. destruct B as (B1 & _ & B3 & _ & _ & _ & _ & _ & B9 & B10 & B11 & _).
    unfold NewClientWith in N. destruct (cs_search s) as [a|]; [|discriminate]. destruct (cs_offer s) as [b|]; [|discriminate]. destruct (cs_topup s) as [t|]; [|discriminate]. injection N as <-.
    apply gateways_in_use_registered in U. destruct U as (U & _). unfold client_settings in U. injection U as U1 U2 U3 U4 U5. split; [congruence|]. split; [congruence|].
    intros e cid gid max r c' out H. apply standard_v2_bill_exact in H. destruct H as [(_ & H & _)|(id & gw & rows & _ & _ & S & Bl & _)].
    - exists []. split; [left; auto|contradiction].
    - exists rows. split; [exact S|]. intros x I. destruct Bl as (p & q & -> & _ & F & Q). apply in_app_iff in I. destruct I as [I|I].
      + left. rewrite Forall_forall in F. destruct (F x I) as (_ & W). congruence.
      + right. destruct Q as [->|(y & k & -> & _ & W & K)]; [contradiction|]. destruct I as [<-|[]]. exists b, k. rewrite <- U4. split; [congruence|]. split; [exact K|]. rewrite W. reflexivity.
  Qed.
End life.

(** ** C150: the administrators' libraries *)

Definition admin_choose (b : Admin.builder) (c : choice) : Admin.builder :=
  match c with
  | URL x => Admin.SetRegisterURL b x | Chain k => Admin.SetBlockchainPrivateKey b k | Key k v => Admin.SetAdminPrivateKey b k v | _ => b
  end.
Lemma admin_chosen l : forall b, let d := fold_left admin_choose l b in
  Admin.b_url d = last_choice url_of (Admin.b_url b) l /\ Admin.b_chain d = last_choice chain_of (Admin.b_chain b) l /\
  (Admin.b_key d, Admin.b_ver d) = last_choice key_of (Admin.b_key b, Admin.b_ver b) l.
Proof. induction l as [|c l IH]; intros b; [cbn; repeat split|]. cbn [fold_left]. specialize (IH (admin_choose b c)). cbv zeta in *. unfold last_choice. cbn [fold_left]. destruct c; exact IH. Qed.

(** The key chosen last is used with its version, or else a new one with version 1; likewise address and blockchain key. *)
Theorem admin_settings_chosen : forall l gateway gen s,
  Admin.Build (fold_left admin_choose l (if gateway : bool then Admin.CreateGatewaySettings else Admin.CreateProviderSettings)) gen = Ret s ->
  Admin.st_url s = last_choice url_of (if gateway then [] else gs "http://register:9020") l /\
  Admin.st_chain s = last_choice chain_of None l /\ Admin.st_chain s <> None /\
  match last_choice key_of (None, None) l with
  | (Some k, v) => Admin.ad_key (Admin.NewAdmin s) = Some k /\ Admin.ad_ver (Admin.NewAdmin s) = v
  | (None, _) => exists k, gen = OkR k /\ Admin.ad_key (Admin.NewAdmin s) = Some k /\ Admin.ad_ver (Admin.NewAdmin s) = Some 1
  end.
Proof.
  intros l gateway gen s H. set (b := if gateway then _ else _) in H. destruct (admin_chosen l b) as (A1 & A2 & A3).
  assert (B : Admin.b_url b = (if gateway then [] else gs "http://register:9020") /\ Admin.b_chain b = None /\ Admin.b_key b = None /\ Admin.b_ver b = None) by (unfold b; destruct gateway; repeat split).
  destruct B as (B1 & B2 & B3 & B4). rewrite B1 in A1. rewrite B2 in A2. rewrite B3, B4 in A3. set (d := fold_left admin_choose l b) in *. rewrite <- A1, <- A2, <- A3. clear A1 A2 A3.
  unfold Admin.Build in H. destruct (Admin.b_chain d) as [ch|]; [|discriminate].
  destruct (Admin.b_key d) as [k|]; [|destruct gen as [k|]; [|discriminate]]; apply ret_inj in H; subst s; (split; [reflexivity|]; split; [reflexivity|]; split; [discriminate|]).
  - split; reflexivity.
  - exists k. split; [reflexivity|]. split; reflexivity.
Qed.

Print Assumptions client_settings_chosen.
Print Assumptions client_builds.
Print Assumptions client_pays_chosen.
Print Assumptions admin_settings_chosen.

(** ** Examples *)

Definition key_n (c : Byte.byte) : keypair := KeyPair (Some (repeat c 32)) None Byte.x01.
Definition my_choices : list choice := [Search (Some 7); Chain (Some (key_n Byte.x03)); Key (Some (key_n Byte.x04)) (Some 2); Search (Some 9); TTL 30; Key None (Some 5)].
Example client_settings_ex : Build (fold_left choose my_choices CreateSettings) (repeat Byte.x05 32) (OkR (key_n Byte.x06)) =
  Ret (CSettings 30 (gs "http://register:9020") (Some (repeat Byte.x05 32)) (Some (key_n Byte.x03)) (Some (key_n Byte.x06)) (Some 1) [] [] [] (Some 9) (Some (10 ^ 15)) (Some (10 ^ 17))).
Proof. reflexivity. Qed.
Example nothing_chosen_ex : Build CreateSettings (repeat Byte.x05 32) (OkR (key_n Byte.x06)) = Panic.
Proof. reflexivity. Qed.
Example admin_settings_ex : Admin.Build (fold_left admin_choose my_choices Admin.CreateProviderSettings) (OkR (key_n Byte.x06)) =
  Ret (Admin.Settings 0 (gs "http://register:9020") (Some (key_n Byte.x03)) (Some (key_n Byte.x06)) (Some 1)).
Proof. reflexivity. Qed.
