(** * C219: searches for nothing

    A gateway may ask for nothing and a client may offer nothing; a voucher for nothing is never
    credited, so that the gateway declines whatever it asks for. *)
From Coq Require Import String List ZArith Bool Lia Permutation.
From Coq Require Import Init.Byte.
From Verif Require Import Base BaseProofs Ids Crypto Message Offer OfferProofs Schema Messages MessagesSpec WireSpec Payment Register OfferStoreSpec SqlOffers SqlOffersSpec Json Rest
  Gateway GatewaySpec GatewayOfferSpec Client ClientSpec RetrievalSpec RetrievalProofs PropertiesRetrieval PropertiesMerkle PropertiesCrypto PropertiesSql ToyGateway ToyClient.
From Verif Require AdminSpec PropertiesProvider OfferStoreProofs.
Import ListNotations.
Open Scope Z_scope.

Section properties.
  Variable version : Z.
  Variable supported : list Z.
  Variable sha256 sha512_256 : bytes -> bytes.
  Variable pub_of : bytes -> bytes.
  Variable ec_sign : bytes -> bytes -> option bytes.
  Variable ec_verify : bytes -> bytes -> bytes -> bool.
  Variable blake : bytes -> bytes.
  Variable verify : gostring -> voucher -> option bytes -> bool.
  Variable voucher_text : voucher -> gostring.
  Variable voucher_of : gostring -> option voucher.
  Variable is_address : gostring -> bool.
  Variable zone : Z.
  Variables BindAdminAPI BindRestAPI BindGatewayAPI BindProviderAPI : gostring.
  Variable rand_int : list draw -> Z.
  Variable rand_bytes : list draw -> bytes.
  (** Signatures verify; the four interfaces have addresses of their own; hashes and random
      numbers have their sizes; vouchers can be read back. *)
  Hypothesis Law : ecdsa_correct pub_of ec_sign ec_verify.
  Hypothesis admin_rest : BindAdminAPI <> BindRestAPI.
  Hypothesis gateway_provider : BindGatewayAPI <> BindProviderAPI.
  Hypothesis sha256_len : forall x, length (sha256 x) = 32%nat.
  Hypothesis sha512_256_len : forall x, length (sha512_256 x) = 32%nat.
  Hypothesis rand_int_64 : forall l, int64 (rand_int l).
  Hypothesis rand_bytes_32 : forall l, length (rand_bytes l) = 32%nat.
  Hypothesis voucher_readable : forall v, v_terms v = [] -> voucher_of (voucher_text v) = Some v.
  Local Notation api := (client_api version supported sha256 sha512_256 pub_of ec_sign ec_verify blake verify voucher_text voucher_of is_address zone BindAdminAPI BindRestAPI BindGatewayAPI BindProviderAPI).
  Local Notation FindPaid := (FindOffersStandardDiscoveryV2 version supported sha256 pub_of ec_verify blake voucher_text rand_int).
  Local Notation solvent := (solvent verify is_address).

  (** ** C219 *)

  (** A client whose price of a search is nothing, whatever the gateway asks for, zero included:
      the gateway declines the search.  The client tops the channel up although nothing left it, is
      declined again, and the call reports success without offers; when the chain refuses the
      top-up the call fails. *)
  Theorem free_search_refuted : forall ce c gw e g hist cid gid max funds chn,
    represents pub_of gw g -> ready ec_sign blake g -> reaches (ce_http ce 0) gw (api e g) ->
    aget bytes_eqb (c_active c) (ToString gid) = Some gw -> stocked sha256 sha512_256 g hist -> all_undisturbed hist -> shuffle (e_rows e) ->
    id32 cid -> int64 (ce_now ce + c_ttl c) -> unix e <= ce_now ce + c_ttl c ->
    solvent ce e 0 c gw g funds chn -> c_search c = 0 -> 0 <= funds -> 0 <= c_topup c ->
    exists m r g1 mg1 ch1, api e g m = Ret (g1, [Json r]) /\ aget bytes_eqb (m_out mg1) (r_address gw) = Some ch1 /\ c_addr ch1 = chn /\ left_in ch1 = funds /\
      (ce_tx ce 2 = TxRefused -> exists c', c_pay c' = Some mg1 /\ FindPaid ce c (Some cid) (Some gid) max = Ret (ErrR, c', [(r_client_ap gw, m)])) /\
      (forall e1 t, ce_tx ce 2 = TxDone t -> reaches (ce_http ce 1) gw (api e1 g1) -> shuffle (e_rows e1) -> unix e1 <= ce_now ce + c_ttl c ->
         (forall b to from, e_chain e chn = Some (ChainState b to from) -> e_chain e1 chn = Some (ChainState (b + c_topup c) to from)) ->
         exists c' m2 r2 g2 mg2 ch2, api e1 g1 m2 = Ret (g2, [Json r2]) /\ c_pay c' = Some mg2 /\ aget bytes_eqb (m_out mg2) (r_address gw) = Some ch2 /\
           left_in ch2 = funds + c_topup c /\
           FindPaid ce c (Some cid) (Some gid) max = Ret (OkR [], c', [(r_client_ap gw, m); (r_client_ap gw, m2)])).
  Proof using Law admin_rest gateway_provider sha256_len sha512_256_len rand_int_64 voucher_readable. intros. eapply free_pf; eassumption. Qed.

  (** A gateway that asks for nothing serves the client that pays something. *)
  Theorem free_search_partial : forall ce c gw e g hist cid gid max funds chn,
    represents pub_of gw g -> ready ec_sign blake g -> reaches (ce_http ce 0) gw (api e g) ->
    aget bytes_eqb (c_active c) (ToString gid) = Some gw -> stocked sha256 sha512_256 g hist -> all_undisturbed hist -> sized hist ->
    shuffle (e_rows e) -> id32 cid -> int64 (ce_now ce + c_ttl c) -> unix e <= ce_now ce + c_ttl c -> keyed c -> 0 < max ->
    solvent ce e 0 c gw g funds chn -> g_search g = 0 -> g_offer g = 0 -> 0 < c_search c -> 0 < c_offer c -> c_search c + max * c_offer c <= funds ->
    exists os m r g1, on_sale zone hist (e_now e) cid os /\ api e g m = Ret (g1, [Json r]) /\
      (os <> [] -> forall e2, reaches (ce_http ce 2) gw (api e2 g1) -> shuffle (e_rows e2) -> unix e2 <= ce_now ce + c_ttl c ->
         e_chain e2 chn = e_chain e chn -> (forall o, In o (chosen max os) -> SqlOffers.fresh zone (e_now e2) (o_expiry o) = true) ->
         exists found c' m2, FindPaid ce c (Some cid) (Some gid) max = Ret (OkR found, c', [(r_client_ap gw, m); (r_client_ap gw, m2)]) /\
           sifted sha256 pub_of ec_verify blake c (map (fun o => GenerateSubCIDOffer o cid) (chosen max os)) found).
  Proof using Law admin_rest gateway_provider sha256_len sha512_256_len rand_int_64 voucher_readable.
    intros ce c gw e g hist cid gid max funds chn H1 H2 H3 H4 H5 H6 H7 H8 H9 H10 H11 H12 H13 H14 G1 G2 P1 P2 Fu.
    assert (L1 : g_search g <= c_search c) by (rewrite G1; apply Z.lt_le_incl, P1). assert (L2 : g_offer g <= c_offer c) by (rewrite G2; apply Z.lt_le_incl, P2).
    destruct (found_paid_pf version supported sha256 sha512_256 pub_of ec_sign ec_verify blake verify voucher_text voucher_of is_address zone BindAdminAPI BindRestAPI BindGatewayAPI BindProviderAPI rand_int
      Law admin_rest gateway_provider sha256_len sha512_256_len rand_int_64 voucher_readable ce c gw e g hist cid gid max funds chn H1 H2 H3 H4 H5 H6 H7 H8 H9 H10 H11 H12 H13 H14 P1 L1 P2 L2 Fu) as (os & m & r & g1 & S & A & _ & W).
    exists os, m, r, g1. split; [exact S|]. split; [exact A|]. intros N e2 R2 Sh2 T2 C2 Fr.
    destruct (W N e2 R2 Sh2 T2 C2 Fr) as (found & c' & m2 & r2 & g2 & mg' & ch' & F & Sf & _). exists found, c', m2. split; [exact F|exact Sf].
  Qed.
End properties.
Print Assumptions free_search_refuted.
Print Assumptions free_search_partial.

(** ** A gateway that asks for nothing *)
Definition free_shop : gateway :=
  Gateway (g_id shop) (g_key shop) (g_ver shop) 0 0 (g_topup shop) (g_pay shop) (g_db shop) (g_reg shop).
Definition next_of (topup : nat -> tx) (c : client) : gateway :=
  next shop_env free_shop (nth_error (asked (run (shop_net (fun _ => free_shop) (fun _ => shop_env) topup) c 2 5)) 0).

(** With prices of nothing the client opens a channel, tops it up and receives nothing of the two offers on sale;
    having paid 1 for each it receives both. *)
Example free_ex :
  (g_search free_shop, g_offer free_shop) = (0, 0) /\
  told (run (shop_net (fun n => match n with O => free_shop | _ => next_of opens (shop_client 0 0) end) topped opens) (shop_client 0 0) 2 5) = Some (Some [], [top + top], 2%nat) /\
  told (run (shop_net (fun n => match n with O => free_shop | _ => next_of opens (shop_client 1 1) end) (fun _ => shop_env) opens) (shop_client 1 1) 2 5) = Some (Some [10; 20], [top - 3], 2%nat).
Proof. vm_compute. repeat split. Qed.
(** The chain refuses the top-up: the call fails. *)
Example free_refused_ex :
  told (run (shop_net (fun _ => free_shop) (fun _ => shop_env) (fun n => match n with O => TxDone (Some (gs "to0")) | _ => TxRefused end)) (shop_client 0 0) 2 5) = Some (None, [top], 1%nat).
Proof. vm_compute. reflexivity. Qed.
(** The hypotheses hold for this gateway. *)
Example free_open : represents toy_pub gw10 free_shop /\ ready toy_sign toy_blake free_shop /\ stocked toy_hash toy_hash free_shop sold /\
  solvent toy_pay_verify toy_address (shop_net (fun _ => free_shop) (fun _ => shop_env) opens) shop_env 0 (shop_client 0 0) gw10 free_shop top (gs "to0").
Proof.
  destruct shop_open as (A & B & C & _ & _ & _ & _ & [D|D] & _).
  - split; [exact A|]. split; [exact B|]. split; [exact C|]. left. exact D.
  - split; [exact A|]. split; [exact B|]. split; [exact C|]. right. exact D.
Qed.
