(** * C151 to C154: a client and a gateway together

    Both programs on a network that delivers what they send: what the client library
    returns is what the gateway's database holds, and both sides count the same money. *)
From Coq Require Import String List ZArith Bool Lia Permutation.
From Coq Require Import Init.Byte.
From Verif Require Import Base BaseProofs Ids Crypto Message Offer OfferProofs Schema Messages MessagesSpec WireSpec Payment Register OfferStoreSpec SqlOffers SqlOffersSpec Json Rest
  Gateway GatewaySpec GatewayOfferSpec Client ClientSpec RetrievalSpec RetrievalProofs PropertiesMerkle PropertiesCrypto PropertiesSql ToyGateway ToyClient.
From Verif Require AdminSpec PropertiesProvider OfferStoreProofs.
Import ListNotations.
Open Scope Z_scope.

Section properties.
  Variable version : Z.
  Variable supported : list Z.
  Variable sha256 sha512_256 : bytes -> bytes.
  Variable pub_of : bytes -> bytes.
  Variable ec_sign : bytes -> bytes -> option bytes.
  Variable ec_verify : bytes -> bytes -> bytes -> bool.
  Variable blake : bytes -> bytes.
  Variable verify : gostring -> voucher -> option bytes -> bool.
  Variable voucher_text : voucher -> gostring.
  Variable voucher_of : gostring -> option voucher.
  Variable is_address : gostring -> bool.
  Variable zone : Z.
  Variables BindAdminAPI BindRestAPI BindGatewayAPI BindProviderAPI : gostring.
  Variable rand_int : list draw -> Z.
  Variable rand_bytes : list draw -> bytes.
  (** Signatures verify; the four interfaces have addresses of their own; hashes and random
      numbers have their sizes; vouchers can be read back. *)
  Hypothesis Law : ecdsa_correct pub_of ec_sign ec_verify.
  Hypothesis admin_rest : BindAdminAPI <> BindRestAPI.
  Hypothesis gateway_provider : BindGatewayAPI <> BindProviderAPI.
  Hypothesis sha256_len : forall x, length (sha256 x) = 32%nat.
  Hypothesis sha512_256_len : forall x, length (sha512_256 x) = 32%nat.
  Hypothesis rand_int_64 : forall l, int64 (rand_int l).
  Hypothesis rand_bytes_32 : forall l, length (rand_bytes l) = 32%nat.
  Hypothesis voucher_readable : forall v, v_terms v = [] -> voucher_of (voucher_text v) = Some v.
  Local Notation api := (client_api version supported sha256 sha512_256 pub_of ec_sign ec_verify blake verify voucher_text voucher_of is_address zone BindAdminAPI BindRestAPI BindGatewayAPI BindProviderAPI).
  Local Notation AddActive := (AddActiveGateways version supported sha256 pub_of ec_verify blake rand_bytes).
  Local Notation Find := (FindOffersStandardDiscovery version supported sha256 pub_of ec_verify blake rand_int).
  Local Notation FindPaid := (FindOffersStandardDiscoveryV2 version supported sha256 pub_of ec_verify blake voucher_text rand_int).
  Local Notation account := (account verify is_address).
  Local Notation solvent := (solvent verify is_address).

  (** ** C151 *)

  (** A gateway in use whose registration is its own, and which the client's request reaches in
      time, becomes active, and nothing about it changes. *)
  Theorem gateway_activated : forall ce n c gw e g id i,
    represents pub_of gw g -> ready ec_sign blake g -> reaches (ce_http ce n) gw (api e g) ->
    aget bytes_eqb (c_active c) (ToString id) = None -> aget bytes_eqb (c_use c) (lower (ToString id)) = Some gw ->
    c_id c = Some i -> id32 i -> int64 (ce_now ce + c_ttl c) -> unix e <= ce_now ce + c_ttl c ->
    exists m r, AddActive ce n c [Some id] =
        Ret (1, with_active (drew c DrawBytes32) (aset bytes_eqb (c_active c) (ToString id) gw), [(r_client_ap gw, m)]) /\
      api e g m = Ret (g, [Json r]).
  Proof using Law admin_rest gateway_provider rand_bytes_32. intros. eapply activated_pf; eassumption. Qed.

  (** ** C152 *)

  (** Discovery without payment returns the offers on sale at the gateway for the content,
      no other and none less. *)
  Theorem standard_discovery_exact : forall ce c gw e g hist cid gid,
    represents pub_of gw g -> ready ec_sign blake g -> reaches (ce_http ce 0) gw (api e g) ->
    aget bytes_eqb (c_active c) (ToString gid) = Some gw -> stocked sha256 sha512_256 g hist -> all_undisturbed hist -> sized hist ->
    shuffle (e_rows e) -> id32 cid -> int64 (ce_now ce + c_ttl c) -> unix e <= ce_now ce + c_ttl c -> keyed c ->
    exists os c' m r, Find ce c (Some cid) (Some gid) = Ret (OkR (map (fun o => GenerateSubCIDOffer o cid) os), c', [(r_client_ap gw, m)]) /\
      on_sale zone hist (e_now e) cid os /\ api e g m = Ret (g, [Json r]).
  Proof using Law admin_rest gateway_provider sha256_len rand_int_64. intros. eapply found_standard_pf; eassumption. Qed.

  (** ** C153 *)

  (** Paid discovery: with prices at least the gateway's and money for them, the first [max]
      offers on sale are bought and returned, except those that do not verify; the price of the
      search and of each offer bought leaves the channel, and both sides count the same afterwards.
      When nothing is on sale only the search is paid.  The channel may have to be opened first. *)
  Theorem paid_discovery_exact : forall ce c gw e g hist cid gid max funds chn,
    represents pub_of gw g -> ready ec_sign blake g -> reaches (ce_http ce 0) gw (api e g) ->
    aget bytes_eqb (c_active c) (ToString gid) = Some gw -> stocked sha256 sha512_256 g hist -> all_undisturbed hist -> sized hist ->
    shuffle (e_rows e) -> id32 cid -> int64 (ce_now ce + c_ttl c) -> unix e <= ce_now ce + c_ttl c -> keyed c -> 0 < max ->
    solvent ce e 0 c gw g funds chn -> 0 < c_search c -> g_search g <= c_search c -> 0 < c_offer c -> g_offer g <= c_offer c ->
    c_search c + max * c_offer c <= funds ->
    exists os m r g1, on_sale zone hist (e_now e) cid os /\ api e g m = Ret (g1, [Json r]) /\
      (os = [] -> exists c' mg' ch', FindPaid ce c (Some cid) (Some gid) max = Ret (OkR [], c', [(r_client_ap gw, m)]) /\
         account ce e c' gw g1 mg' ch' /\ left_in ch' = funds - c_search c) /\
      (os <> [] -> forall e2, reaches (ce_http ce 2) gw (api e2 g1) -> shuffle (e_rows e2) -> unix e2 <= ce_now ce + c_ttl c ->
         e_chain e2 chn = e_chain e chn -> (forall o, In o (chosen max os) -> SqlOffers.fresh zone (e_now e2) (o_expiry o) = true) ->
         exists found c' m2 r2 g2 mg' ch',
           FindPaid ce c (Some cid) (Some gid) max = Ret (OkR found, c', [(r_client_ap gw, m); (r_client_ap gw, m2)]) /\
           sifted sha256 pub_of ec_verify blake c (map (fun o => GenerateSubCIDOffer o cid) (chosen max os)) found /\
           api e2 g1 m2 = Ret (g2, [Json r2]) /\ account ce e2 c' gw g2 mg' ch' /\
           left_in ch' = funds - (c_search c + Z.of_nat (length (chosen max os)) * c_offer c)).
  Proof using Law admin_rest gateway_provider sha256_len sha512_256_len rand_int_64 voucher_readable. intros. eapply found_paid_pf; eassumption. Qed.

  (** ** C154 *)

  (** A client that pays less than the gateway's price: the gateway keeps the payment and
      declines.  The client tops the channel up, pays the same again and is declined again; the
      call then reports success without offers.  If it cannot top up the call fails. *)
  Theorem underpaid_search_kept : forall ce c gw e g hist cid gid max mg ch,
    represents pub_of gw g -> ready ec_sign blake g -> reaches (ce_http ce 0) gw (api e g) ->
    aget bytes_eqb (c_active c) (ToString gid) = Some gw -> stocked sha256 sha512_256 g hist -> all_undisturbed hist -> shuffle (e_rows e) ->
    id32 cid -> int64 (ce_now ce + c_ttl c) -> unix e <= ce_now ce + c_ttl c ->
    account ce e c gw g mg ch -> 0 < c_search c < g_search g -> c_search c <= left_in ch -> 0 <= c_topup c ->
    exists m r g1 mg1 ch1, api e g m = Ret (g1, [Json r]) /\ account ce e (with_mgr c mg1) gw g1 mg1 ch1 /\ c_addr ch1 = c_addr ch /\
      left_in ch1 = left_in ch - c_search c /\
      (ce_tx ce 2 = TxRefused -> exists c', c_pay c' = Some mg1 /\ FindPaid ce c (Some cid) (Some gid) max = Ret (ErrR, c', [(r_client_ap gw, m)])) /\
      (forall e1 t, ce_tx ce 2 = TxDone t -> 2 * c_search c <= left_in ch + c_topup c -> reaches (ce_http ce 1) gw (api e1 g1) ->
         shuffle (e_rows e1) -> unix e1 <= ce_now ce + c_ttl c ->
         (forall b to from, e_chain e (c_addr ch) = Some (ChainState b to from) -> e_chain e1 (c_addr ch) = Some (ChainState (b + c_topup c) to from)) ->
         exists c' m2 r2 g2 mg2 ch2, api e1 g1 m2 = Ret (g2, [Json r2]) /\ account ce e1 c' gw g2 mg2 ch2 /\
           left_in ch2 = left_in ch + c_topup c - 2 * c_search c /\
           FindPaid ce c (Some cid) (Some gid) max = Ret (OkR [], c', [(r_client_ap gw, m); (r_client_ap gw, m2)])).
  Proof using Law admin_rest gateway_provider sha256_len sha512_256_len rand_int_64 voucher_readable. intros. eapply underpaid_pf; eassumption. Qed.
End properties.
Print Assumptions gateway_activated.
Print Assumptions standard_discovery_exact.
Print Assumptions paid_discovery_exact.
Print Assumptions underpaid_search_kept.

(** ** Client 99 and gateway 10 *)

(** A text for vouchers that can be read back. *)
Fixpoint pos_text (p : positive) : bytes := match p with xH => [x00] | xO p => x01 :: pos_text p | xI p => x02 :: pos_text p end.
Fixpoint pos_of (t : bytes) : option (positive * bytes) :=
  match t with
  | x00 :: t => Some (1%positive, t)
  | x01 :: t => match pos_of t with Some (p, r) => Some (xO p, r) | None => None end
  | x02 :: t => match pos_of t with Some (p, r) => Some (xI p, r) | None => None end
  | _ => None
  end.
Definition z_text (z : Z) : bytes := match z with Z0 => [x00] | Zpos p => x01 :: pos_text p | Zneg p => x02 :: pos_text p end.
Definition z_of (t : bytes) : option (Z * bytes) :=
  match t with
  | x00 :: t => Some (0, t)
  | x01 :: t => match pos_of t with Some (p, r) => Some (Zpos p, r) | None => None end
  | x02 :: t => match pos_of t with Some (p, r) => Some (Zneg p, r) | None => None end
  | _ => None
  end.
Fixpoint b_text (b : bytes) : bytes := match b with [] => [x00] | a :: b => x01 :: a :: b_text b end.
Fixpoint b_of (t : bytes) : option (bytes * bytes) :=
  match t with
  | x00 :: t => Some ([], t)
  | x01 :: a :: t => match b_of t with Some (b, r) => Some (a :: b, r) | None => None end
  | _ => None
  end.
Definition vtext (v : voucher) : gostring :=
  b_text (v_chan v) ++ z_text (v_lane v) ++ z_text (v_nonce v) ++ z_text (v_amount v) ++
  match v_sig v with None => [x00] | Some s => x01 :: b_text s end.
Definition vof (t : gostring) : option voucher :=
  match b_of t with Some (c, t) => match z_of t with Some (l, t) => match z_of t with Some (n, t) => match z_of t with Some (a, t) =>
    match t with
    | [x00] => Some (Voucher c l n a [] None)
    | x01 :: t => match b_of t with Some (s, []) => Some (Voucher c l n a [] (Some s)) | _ => None end
    | _ => None
    end
  | None => None end | None => None end | None => None end | None => None end.
Lemma pos_back p r : pos_of (pos_text p ++ r) = Some (p, r).
Proof. induction p as [p IH|p IH|]; cbn [pos_text app pos_of]; try rewrite IH; reflexivity. Qed.
Lemma z_back z r : z_of (z_text z ++ r) = Some (z, r).
Proof. destruct z; cbn [z_text app z_of]; try rewrite pos_back; reflexivity. Qed.
Lemma b_back b r : b_of (b_text b ++ r) = Some (b, r).
Proof. induction b as [|a b IH]; cbn [b_text app b_of]; try rewrite IH; reflexivity. Qed.
Example vouchers_readable : forall v, v_terms v = [] -> vof (vtext v) = Some v.
Proof.
  intros [c l n a t s] T. cbn [v_terms] in T. subst t. unfold vof, vtext. cbn [v_chan v_lane v_nonce v_amount v_sig].
  rewrite b_back, !z_back. destruct s as [s|]; [|reflexivity].
  assert (B := b_back s []). rewrite app_nil_r in B. rewrite B. reflexivity.
Qed.

(** The gateway with two offers, selling a search for 3 and an offer for 2; the chain knows a channel
    "to0" from the client with the client's top-up. *)
Definition sold : attempts := [(off1, well); (off2, well)].
Definition shop : gateway :=
  Gateway (Some (idn 10)) (Some (toy_key 1)) 1 3 2 10 (Some (NewMgr (gs "addr1"))) (g_db stocked_gw) toy_reg.
Definition shop_env : env :=
  Env (40 * 1000000000) (fun x => x) (fun _ => well) (fun a => if bytes_eqb a (gs "to0") then Some (ChainState top (Account (gs "addr1")) (Account (gs "me"))) else None)
    (fun _ => None) (fun _ => None) (fun _ => TxRefused) (fun _ => None) (fun _ _ => false) (fun _ _ _ => None).
Definition toy_api (e : env) (g : gateway) (m : message) :=
  client_api 1 [1] toy_hash toy_hash toy_pub toy_sign PropertiesCrypto.toy_verify toy_blake toy_pay_verify vtext vof toy_address 0 (gs "9013") (gs "9011") (gs "9012") (gs "9014") e g m.
(** The client's network: request number n reaches the gateway in its state number n. *)
Definition shop_net (g : nat -> gateway) (e : nat -> env) (topup : nat -> tx) : cenv :=
  CEnv 40 (fun n url m => if bytes_eqb url (r_client_ap gw10) then AdminSpec.received (toy_api (e n) (g n) m) else None) (fun _ => None) (fun _ => None) (Some (gs "me"))
    topup (fun _ => Some (gs "me")) (fun x => x).
Definition opens (n : nat) : tx := TxDone (Some (gs "to0")).
Definition shop_client (search offer : Z) : client :=
  Client (c_id paying) (c_ttl paying) search offer top (c_use paying) (c_active paying) (c_pay paying) (c_reg paying) (c_drawn paying).

Definition run (ce : cenv) (c : client) (cid max : Z) :=
  FindOffersStandardDiscoveryV2 1 [1] toy_hash toy_pub PropertiesCrypto.toy_verify toy_blake vtext toy_int ce c (Some (idn cid)) (Some (idn 10)) max.
(** The requests of a call. *)
Definition asked {A} (o : outcome (A * client * list (gostring * message))) : list message := match o with Ret (_, _, l) => map snd l | _ => [] end.
Definition next (e : env) (g : gateway) (m : option message) : gateway :=
  match m with Some m => match toy_api e g m with Ret (g', _) => g' | _ => g end | None => g end.

(** The hypotheses hold: registration, database, keys and money. *)
Example shop_open : represents toy_pub gw10 shop /\ ready toy_sign toy_blake shop /\ stocked toy_hash toy_hash shop sold /\ all_undisturbed sold /\ sized sold /\
  keyed (shop_client 3 2) /\ aget bytes_eqb (c_active (shop_client 3 2)) (ToString (idn 10)) = Some gw10 /\
  solvent toy_pay_verify toy_address (shop_net (fun _ => shop) (fun _ => shop_env) opens) shop_env 0 (shop_client 3 2) gw10 shop top (gs "to0") /\
  reaches (ce_http (shop_net (fun _ => shop) (fun _ => shop_env) opens) 0) gw10 (toy_api shop_env shop).
Proof.
  split. { exists (idn 10), (toy_key 1). split; [reflexivity|]. split; [reflexivity|]. split; [reflexivity|]. exists (KeyPair None (Some (toy_pub (idn 1))) x01). split; [vm_compute; reflexivity|]. split; [reflexivity|]. exists (idn 1). split; [reflexivity|left; reflexivity]. }
  split. { exists (idn 10), (toy_key 1), (NewMgr (gs "addr1")). split; [reflexivity|]. split; [reflexivity|]. split; [reflexivity|]. split; [apply PropertiesProvider.toy_signs|reflexivity]. }
  split.
  { split; [|vm_compute; reflexivity]. split.
    - intros o f [E|[E|[]]]; injection E as <- <-; (split; [|vm_compute; split; reflexivity]).
      + exists (idn 70), [idn 1; idn 2], 10, 100, 1, (ok_or zero_offer (obind (NewCIDOffer toy_hash (Some (idn 70)) [idn 1; idn 2] 10 100 1) (fun r => Ret (match r with OkR o => o | ErrR => zero_offer end)))).
        split; [reflexivity|]. split; [repeat constructor|]. repeat split; vm_compute; try reflexivity; discriminate.
      + exists (idn 70), [idn 2], 20, 100, 1, (ok_or zero_offer (obind (NewCIDOffer toy_hash (Some (idn 70)) [idn 2] 20 100 1) (fun r => Ret (match r with OkR o => o | ErrR => zero_offer end)))).
        split; [reflexivity|]. split; [repeat constructor|]. repeat split; vm_compute; try reflexivity; discriminate.
    - assert (D : GetMessageDigest toy_hash off1 <> GetMessageDigest toy_hash off2) by (vm_compute; discriminate).
      intros o f o' f' [E|[E|[]]] [E'|[E'|[]]] G; injection E as <- <-; injection E' as <- <-; [apply OfferStoreProofs.same_terms_refl|destruct (D G)|destruct (D (eq_sym G))|apply OfferStoreProofs.same_terms_refl]. }
  split. { intros o f [E|[E|[]]] i _; injection E as <- <-; reflexivity. }
  split. { intros o f [E|[E|[]]]; injection E as <- <-; reflexivity. }
  split. { intros id p H. assert (B : forallb (fun x => negb (bytes_eqb (r_root (snd x)) []) && negb (bytes_eqb (Client.r_key (snd x)) [])) (providersMap reg (c_reg (shop_client 3 2))) = true) by (vm_compute; reflexivity).
    rewrite forallb_forall in B. apply (aget_In bytes_eqb bytes_eqb_eq) in H. specialize (B _ H). cbn [snd] in B. apply andb_prop in B. destruct B as [B1 B2].
    split; intros X; rewrite X in *; discriminate. }
  split; [vm_compute; reflexivity|]. split; [|intros m; unfold shop_net; cbn [ce_http]; rewrite (proj2 (bytes_eqb_eq _ _) eq_refl); reflexivity].
  right. exists (NewMgr (gs "me")), (NewMgr (gs "addr1")), (gs "me"), top. split; [reflexivity|]. split; [reflexivity|]. split; [reflexivity|]. split; [reflexivity|]. split; [reflexivity|]. split; [reflexivity|].
  split. { intros v _. exists (gs "me"). split; reflexivity. }
  split; [reflexivity|]. split; [apply Z.le_refl|reflexivity].
Qed.

(** The gateway's states as the calls go on. *)
Definition states (e : nat -> env) (topup : nat -> tx) (c : client) (max : Z) : gateway * gateway :=
  let g1 := next (e 0%nat) shop (nth_error (asked (run (shop_net (fun _ => shop) e topup) c 2 max)) 0) in
  let g2 := next (e 1%nat) g1 (nth_error (asked (run (shop_net (fun n => match n with O => shop | _ => g1 end) e topup) c 2 max)) 1) in (g1, g2).
Definition left_of (c : client) : list Z :=
  match c_pay c with Some m => map (fun x => left_in (snd x)) (m_out m) | None => [] end.
Definition seen_by (g : gateway) : list (Z * Z) :=
  match g_pay g with Some m => map (fun x => (c_balance (snd x), c_redeemed (snd x))) (m_in m) | None => [] end.
Definition told (o : outcome (result (list suboffer) * client * list (gostring * message))) : option (option (list Z) * list Z * nat) :=
  match o with Ret (OkR l, c, out) => Some (Some (map s_price l), left_of c, length out) | Ret (ErrR, c, out) => Some (None, left_of c, length out) | _ => None end.

(** The client opens a channel with its top-up, pays 3 for the search and 4 for both offers. *)
Definition shop1 : gateway := Eval vm_compute in fst (states (fun _ => shop_env) opens (shop_client 3 2) 5).
Example paid_ex :
  told (run (shop_net (fun n => match n with O => shop | _ => shop1 end) (fun _ => shop_env) opens) (shop_client 3 2) 2 5) = Some (Some [10; 20], [top - 7], 2%nat) /\
  seen_by shop1 = [(top, 3)].
Proof. vm_compute. split; reflexivity. Qed.

(** With room for one offer, one is bought; for content nobody sells only the search is paid. *)
Example paid_limit_ex :
  told (run (shop_net (fun n => match n with O => shop | _ => shop1 end) (fun _ => shop_env) opens) (shop_client 3 2) 2 1) = Some (Some [10], [top - 5], 2%nat) /\
  told (run (shop_net (fun _ => shop) (fun _ => shop_env) opens) (shop_client 3 2) 9 5) = Some (Some [], [top - 3], 1%nat).
Proof. vm_compute. split; reflexivity. Qed.

(** Unpaid discovery, and what becomes active. *)
Example standard_ex :
  told (FindOffersStandardDiscovery 1 [1] toy_hash toy_pub PropertiesCrypto.toy_verify toy_blake toy_int (shop_net (fun _ => shop) (fun _ => shop_env) opens) (shop_client 3 2) (Some (idn 2)) (Some (idn 10)))
    = Some (Some [10; 20], [], 1%nat).
Proof. vm_compute. reflexivity. Qed.
Example activated_ex :
  match AddActiveGateways 1 [1] toy_hash toy_pub PropertiesCrypto.toy_verify toy_blake toy_bytes (shop_net (fun _ => shop) (fun _ => shop_env) opens) 0 ToyClient.in_use [Some (idn 10)] with
  | Ret (n, c, out) => Some (n, map fst (c_active c), length out)
  | _ => None
  end = Some (1, [ToString (idn 10)], 1%nat).
Proof. vm_compute. reflexivity. Qed.

(** A client that has a channel with 10 and pays 2 for a search that costs 3: both payments are kept. *)
Definition thrifty : client :=
  with_mgr (shop_client 2 2) (Mgr (gs "me") [(gs "addr1", Chan (gs "to0") 10 0 [])] []).
Definition thrifty1 : gateway := Eval vm_compute in fst (states (fun _ => shop_env) opens thrifty 5).
Definition topped (n : nat) : env :=
  match n with
  | O => shop_env
  | _ => Env (40 * 1000000000) (fun x => x) (fun _ => well) (fun a => if bytes_eqb a (gs "to0") then Some (ChainState (top + top) (Account (gs "addr1")) (Account (gs "me"))) else None)
    (fun _ => None) (fun _ => None) (fun _ => TxRefused) (fun _ => None) (fun _ _ => false) (fun _ _ _ => None)
  end.
Definition thrifty2 : gateway := Eval vm_compute in snd (states topped opens thrifty 5).
Example underpaid_account : account toy_pay_verify toy_address (shop_net (fun _ => shop) (fun _ => shop_env) opens) shop_env thrifty gw10 shop
    (Mgr (gs "me") [(gs "addr1", Chan (gs "to0") 10 0 [])] []) (Chan (gs "to0") 10 0 []) /\ 0 < c_search thrifty < g_search shop.
Proof.
  split; [|vm_compute; split; reflexivity]. exists (NewMgr (gs "addr1")), (gs "me"), top. split; [reflexivity|]. split; [reflexivity|]. split; [reflexivity|].
  split; [vm_compute; repeat split; discriminate|]. split; [reflexivity|]. split; [|reflexivity]. intros v _. exists (gs "me"). split; reflexivity.
Qed.
Example underpaid_ex :
  told (run (shop_net (fun n => match n with O => shop | _ => thrifty1 end) topped opens) thrifty 2 5) = Some (Some [], [10 + top - 4], 2%nat) /\
  told (run (shop_net (fun _ => shop) topped (fun _ => TxRefused)) thrifty 2 5) = Some (None, [8], 1%nat) /\
  (map snd (seen_by thrifty1), map snd (seen_by thrifty2)) = ([2], [4]).
Proof. vm_compute. repeat split. Qed.
