(** * Properties of the gateway's offer database (C28, C29, C93)

    [db_after d hist]: the database after the attempts [hist] to store offers, in each
    of which any statement may fail and the process may stop between statements. *)
From Coq Require Import String List ZArith Bool Lia Sorting.Permutation.
From Coq Require Import Init.Byte.
From Verif Require Import Base BaseProofs Ids Merkle Offer WireSpec OfferProofs OfferStoreSpec OfferStoreProofs SqlOffers SqlOffersSpec SqlOffersProofs
  PropertiesMerkle PropertiesCrypto PropertiesOffer PropertiesOfferStore.
Import ListNotations.
Open Scope Z_scope.
Open Scope go_scope.

(** All is well; the process stops before statement [n]; statement [n] fails. *)
Definition well : nat -> fate := fun _ => Done.
Definition stop_at (n : nat) : nat -> fate := fun i => if Nat.eqb i n then Stopped else Done.
Definition fail_at (n : nat) : nat -> fate := fun i => if Nat.eqb i n then Failed else Done.

(** What is found of each offer: price and number of identifiers. *)
Definition seen (x : outcome (list offer * bool)) : outcome (list (Z * nat) * bool) :=
  let* y := x in Ret (map (fun o => (o_price o, length (o_cids o))) (fst y), snd y).
Definition find_cid (hist : attempts) (zone now : Z) (c : bytes) : outcome (list (Z * nat) * bool) :=
  let* d := db_after toy_hash empty_db hist in seen (selectOffersSingle toy_hash (fun x => x) zone now d c).
Definition find_range (hist : attempts) (zone now max : Z) (lo hi : bytes) : outcome (list (Z * nat) * bool) :=
  let* d := db_after toy_hash empty_db hist in seen (selectOffersRange toy_hash (@rev _) zone now d max lo hi).
Definition find_digest (hist : attempts) (zone now : Z) (o : offer) : outcome (option Z * bool) :=
  let* d := db_after toy_hash empty_db hist in
  let* x := GetMessageDigest toy_hash o in
  let* r := selectOffersDigest toy_hash (fun x => x) zone now d x in
  Ret (option_map o_price (fst r), snd r).

(** Storing never panics, whatever fails. *)
Theorem sql_store_total : forall sha256 sha hist, proper_attempts sha256 sha hist -> exists d, db_after sha empty_db hist = Ret d.
Proof. exact sql_total_pf. Qed.
Print Assumptions sql_store_total.

(** ** C28 *)

(** Full claim: also for offers that list an identifier twice, for prices and QoS of
    2^63 and more, and for every unexpired offer.  These are false, see below.  Missing as
    well: offers with different terms and the same digest ([proper_attempts]), and
    histories in which statements failed (C29). *)
Theorem sql_lookup_partial : forall sha256 sha hist d zone now order c,
  proper_attempts sha256 sha hist -> all_undisturbed hist -> (forall o f, In (o, f) hist -> NoDup (o_cids o)) ->
  db_after sha empty_db hist = Ret d -> shuffle order -> id32 c ->
  exists os found, selectOffersSingle sha256 order zone now d c = Ret (os, found) /\
    NoDup os /\ (forall o, In o os <-> recorded hist o /\ fresh zone now (o_expiry o) = true /\ In c (o_cids o)) /\
    (found = true <-> os <> []).
Proof. exact sql_single_once_pf. Qed.
Print Assumptions sql_lookup_partial.

(** Without the condition on the identifiers: each offer as often as it lists [c]. *)
Theorem sql_lookup_copies_partial : forall sha256 sha hist d zone now order c,
  proper_attempts sha256 sha hist -> all_undisturbed hist -> db_after sha empty_db hist = Ret d -> shuffle order -> id32 c ->
  exists os found l, selectOffersSingle sha256 order zone now d c = Ret (os, found) /\
    NoDup l /\ (forall o, In o l <-> recorded hist o /\ fresh zone now (o_expiry o) = true) /\
    Permutation os (flat_map (copies c) l) /\ (found = true <-> os <> []).
Proof. exact sql_single_exact_pf. Qed.
Print Assumptions sql_lookup_copies_partial.

(** With the computer's clock on UTC, what is found is unexpired, and what expires
    later, but before the year 10000, is found. *)
Theorem sql_fresh_live_partial : forall now o, 0 <= now -> fresh 0 now (o_expiry o) = true -> live now o.
Proof. exact fresh_live. Qed.
Print Assumptions sql_fresh_live_partial.
Theorem sql_live_fresh_partial : forall now o, 0 <= now ->
  now < o_expiry o * 1000000000 -> o_expiry o <= 253402300799 -> fresh 0 now (o_expiry o) = true.
Proof. exact live_fresh. Qed.
Print Assumptions sql_live_fresh_partial.

(** Lookup by digest. *)
Theorem sql_digest_partial : forall sha256 sha hist d zone now order x,
  proper_attempts sha256 sha hist -> db_after sha empty_db hist = Ret d -> shuffle order ->
  (forall o, recorded hist o -> GetMessageDigest sha o = Ret x -> fresh zone now (o_expiry o) = true -> stored hist o) ->
  exists r found, selectOffersDigest sha256 order zone now d x = Ret (r, found) /\
    (forall o, r = Some o <-> stored hist o /\ GetMessageDigest sha o = Ret x /\ fresh zone now (o_expiry o) = true) /\
    (found = true <-> r <> None).
Proof. exact sql_digest_pf. Qed.
Print Assumptions sql_digest_partial.

(** ** C93 *)

(** Full claim: with wrap-around.  It is false, see below. *)
Theorem sql_range_partial : forall sha256 sha hist d zone now order max lo hi,
  proper_attempts sha256 sha hist -> all_undisturbed hist -> db_after sha empty_db hist = Ret d -> shuffle order -> id32 lo -> id32 hi ->
  exists all found, NoDup all /\ (forall o, In o all <-> recorded hist o /\ fresh zone now (o_expiry o) = true /\ in_range lo hi o) /\
    let os := if 0 <? max then firstn (Z.to_nat max) all else all in
    selectOffersRange sha256 order zone now d max lo hi = Ret (os, found) /\ (found = true <-> os <> []).
Proof. exact sql_range_exact_pf. Qed.
Print Assumptions sql_range_partial.

Definition offer_a : offer := an_offer [idn 1; idn 2] 10 100.
Definition offer_b : offer := an_offer [idn 2; idn 3] 20 50.
Definition offer_c : offer := an_offer [idn 2] 30 100.
Definition three : attempts := [(offer_a, well); (offer_b, well); (offer_c, well); (offer_a, well)].

Lemma three_members o f : In (o, f) three -> o = offer_a \/ o = offer_b \/ o = offer_c.
Proof. intros I. unfold three in I. cbn [In] in I. intuition congruence. Qed.
Example three_proper : proper_attempts toy_hash toy_hash three.
Proof.
  assert (W : forall o, In o [offer_a; offer_b; offer_c] -> wire_offer toy_hash o /\ o_price o < 2 ^ 63 /\ o_qos o < 2 ^ 63).
  { intros o O. cbn [In] in O. destruct O as [<-|[<-|[<-|[]]]]; (split; [|vm_compute; split; reflexivity]).
    - exists (idn 99), [idn 1; idn 2], 10, 100, 1, offer_a.
      split; [reflexivity|]. split; [repeat constructor|]. repeat split; vm_compute; try reflexivity; discriminate.
    - exists (idn 99), [idn 2; idn 3], 20, 50, 1, offer_b.
      split; [reflexivity|]. split; [repeat constructor|]. repeat split; vm_compute; try reflexivity; discriminate.
    - exists (idn 99), [idn 2], 30, 100, 1, offer_c.
      split; [reflexivity|]. split; [repeat constructor|]. repeat split; vm_compute; try reflexivity; discriminate. }
  split.
  - intros o f I. apply W. unfold three in I. cbn [In] in *. intuition congruence.
  - assert (D : GetMessageDigest toy_hash offer_a <> GetMessageDigest toy_hash offer_b /\
                GetMessageDigest toy_hash offer_a <> GetMessageDigest toy_hash offer_c /\
                GetMessageDigest toy_hash offer_b <> GetMessageDigest toy_hash offer_c)
      by (vm_compute; repeat split; discriminate).
    destruct D as (D1 & D2 & D3).
    intros o f o' f' I I' E. apply three_members in I. apply three_members in I'.
    destruct I as [-> |[-> | ->]]; destruct I' as [-> |[-> | ->]].
    + apply same_terms_refl.
    + exfalso. exact (D1 E).
    + exfalso. exact (D2 E).
    + exfalso. exact (D1 (eq_sym E)).
    + apply same_terms_refl.
    + exfalso. exact (D3 E).
    + exfalso. exact (D2 (eq_sym E)).
    + exfalso. exact (D3 (eq_sym E)).
    + apply same_terms_refl.
Qed.
Example three_undisturbed : all_undisturbed three.
Proof. intros o f I i L. assert (f = well) by (unfold three in I; cbn [In] in I; intuition congruence). subst f. reflexivity. Qed.

Example sql_lookup_ex :
  find_cid three 0 (49 * sec) (idn 2) = Ret ([(10, 2%nat); (20, 2%nat); (30, 1%nat)], true) /\
  find_cid three 0 (50 * sec) (idn 2) = Ret ([(10, 2%nat); (30, 1%nat)], true) /\
  find_cid three 0 (49 * sec) (idn 3) = Ret ([(20, 2%nat)], true) /\
  find_cid three 0 (50 * sec) (idn 3) = Ret ([], false) /\
  find_cid three 0 (49 * sec) (idn 4) = Ret ([], false) /\
  find_digest three 0 (49 * sec) offer_b = Ret (Some 20, true) /\
  find_digest three 0 (50 * sec) offer_b = Ret (None, false).
Proof. vm_compute. repeat split. Qed.
Example sql_range_ex :
  find_range three 0 (49 * sec) 0 (idn 2) (idn 3) = Ret ([(30, 1%nat); (20, 2%nat); (10, 2%nat)], true) /\
  find_range three 0 (49 * sec) 2 (idn 1) (idn 9) = Ret ([(30, 1%nat); (20, 2%nat)], true) /\
  find_range three 0 (49 * sec) 5 (idn 3) (idn 9) = Ret ([(20, 2%nat)], true) /\
  find_range three 0 (49 * sec) (-1) (idn 4) (idn 9) = Ret ([], false).
Proof. vm_compute. repeat split. Qed.

(** An offer listing an identifier twice is returned twice. *)
Theorem sql_lookup_twice_refuted :
  find_cid [(an_offer [idn 2; idn 1; idn 2] 10 100, well)] 0 0 (idn 2) = Ret ([(10, 3%nat); (10, 3%nat)], true).
Proof. vm_compute. reflexivity. Qed.
Print Assumptions sql_lookup_twice_refuted.

(** An unexpired offer is not returned: in its last nanosecond, after the year 9999, or if
    the computer is set to a time zone west of UTC; east of UTC expired ones are. *)
Theorem sql_lookup_unexpired_refuted :
  let far := an_offer [idn 2] 10 253402300800 in
  (live (100 * sec) offer_a /\ find_cid [(offer_a, well)] 0 (100 * sec) (idn 2) = Ret ([], false)) /\
  (live 0 far /\ find_cid [(far, well)] 0 0 (idn 2) = Ret ([], false)) /\
  (live (40 * sec) offer_b /\ find_cid [(offer_b, well)] (-3600) (40 * sec) (idn 2) = Ret ([], false)) /\
  (~ live (60 * sec) offer_b /\ find_cid [(offer_b, well)] 3600 (60 * sec) (idn 2) = Ret ([(20, 2%nat)], true)).
Proof.
  cbv zeta. split; [|split; [|split]].
  - split; [vm_compute; discriminate|vm_compute; reflexivity].
  - split; [vm_compute; discriminate|vm_compute; reflexivity].
  - split; [vm_compute; discriminate|vm_compute; reflexivity].
  - split; [intros L; vm_compute in L; apply L; reflexivity|vm_compute; reflexivity].
Qed.
Print Assumptions sql_lookup_unexpired_refuted.

(** A price of 2^63 is refused. *)
Theorem sql_large_price_refuted :
  let o := an_offer [idn 2] (2 ^ 63) 100 in
  insertOffer toy_hash well empty_db o = Ret (Some ErrR, empty_db) /\ find_cid [(o, well)] 0 0 (idn 2) = Ret ([], false).
Proof. vm_compute. split; reflexivity. Qed.
Print Assumptions sql_large_price_refuted.

(** The provider's store takes a range from 3 to 1 to be 3, 4, ... 0, 1; the gateway's
    takes it to be empty. *)
Theorem sql_range_wrap_refuted :
  find_range three 0 (49 * sec) 0 (idn 3) (idn 1) = Ret ([], false) /\
  find_range three 0 (49 * sec) 0 (idn 0) (idn 1) = Ret ([(10, 2%nat)], true).
Proof. vm_compute. split; reflexivity. Qed.
Print Assumptions sql_range_wrap_refuted.

(** ** C29 *)

(** Whatever stopped or failed, looking up by identifier works, returns everything
    that was stored without disturbance, and invents nothing: an offer may only have
    lost identifiers.  Full claim: also by digest, and no identifiers are lost. *)
Theorem sql_crash_lookup_partial : forall sha256 sha hist d zone now order c,
  proper_attempts sha256 sha hist -> db_after sha empty_db hist = Ret d -> shuffle order -> id32 c ->
  exists os found, selectOffersSingle sha256 order zone now d c = Ret (os, found) /\
    (forall x, In x os -> exists o, recorded hist o /\ fresh zone now (o_expiry o) = true /\ remains_of x o /\ In c (o_cids x)) /\
    (forall o, stored hist o -> fresh zone now (o_expiry o) = true -> In c (o_cids o) -> In o os) /\
    (found = true <-> os <> []).
Proof. exact sql_single_pf. Qed.
Print Assumptions sql_crash_lookup_partial.

Theorem sql_crash_range_partial : forall sha256 sha hist d zone now order max lo hi,
  proper_attempts sha256 sha hist -> db_after sha empty_db hist = Ret d -> shuffle order -> id32 lo -> id32 hi ->
  exists os found, selectOffersRange sha256 order zone now d max lo hi = Ret (os, found) /\
    (forall x, In x os -> exists o, recorded hist o /\ fresh zone now (o_expiry o) = true /\ remains_of x o /\ in_range lo hi x) /\
    (max <= 0 -> forall o, stored hist o -> fresh zone now (o_expiry o) = true -> in_range lo hi o -> In o os) /\
    (0 < max -> Z.of_nat (length os) <= max) /\
    (found = true <-> os <> []).
Proof. exact sql_range_pf. Qed.
Print Assumptions sql_crash_range_partial.

(** Whatever happened before and whatever happens after, an offer that was stored once
    without disturbance is found completely, by each identifier and by its digest. *)
Theorem sql_crash_retry : forall sha256 sha h1 o f h2 d zone now order c,
  proper_attempts sha256 sha (h1 ++ (o, f) :: h2) -> undisturbed o f ->
  db_after sha empty_db (h1 ++ (o, f) :: h2) = Ret d -> shuffle order -> fresh zone now (o_expiry o) = true -> In c (o_cids o) ->
  exists os x, selectOffersSingle sha256 order zone now d c = Ret (os, true) /\ In x os /\
    stored (h1 ++ (o, f) :: h2) x /\ same_terms x o.
Proof. exact sql_retry_lookup_pf. Qed.
Print Assumptions sql_crash_retry.
Theorem sql_crash_retry_digest : forall sha256 sha h1 o f h2 d zone now order dg,
  proper_attempts sha256 sha (h1 ++ (o, f) :: h2) -> undisturbed o f ->
  db_after sha empty_db (h1 ++ (o, f) :: h2) = Ret d -> shuffle order -> fresh zone now (o_expiry o) = true ->
  GetMessageDigest sha o = Ret dg ->
  exists x, selectOffersDigest sha256 order zone now d dg = Ret (Some x, true) /\ stored (h1 ++ (o, f) :: h2) x /\ same_terms x o.
Proof. exact sql_retry_digest_pf. Qed.
Print Assumptions sql_crash_retry_digest.

(** Stopped after the first identifier, then stored again. *)
Example sql_crash_ex :
  find_cid [(offer_a, stop_at 2)] 0 0 (idn 1) = Ret ([(10, 1%nat)], true) /\
  find_cid [(offer_a, stop_at 2)] 0 0 (idn 2) = Ret ([], false) /\
  find_cid [(offer_a, stop_at 1)] 0 0 (idn 1) = Ret ([], false) /\
  find_cid [(offer_a, stop_at 2); (offer_b, stop_at 0); (offer_a, well)] 0 0 (idn 2) = Ret ([(10, 2%nat)], true) /\
  find_digest [(offer_a, stop_at 1); (offer_a, well)] 0 0 offer_a = Ret (Some 10, true).
Proof. vm_compute. repeat split. Qed.

(** Stopped between the offer and its first identifier, the next lookup by digest
    panics. *)
Theorem sql_crash_digest_refuted : find_digest [(offer_a, stop_at 1)] 0 0 offer_a = Panic.
Proof. vm_compute. reflexivity. Qed.
Print Assumptions sql_crash_digest_refuted.

(** Stopped between two identifiers, an offer the provider did not sign is served. *)
Theorem sql_crash_truncated_refuted :
  match db_after toy_hash empty_db [(offer_a, stop_at 2)] with
  | Ret d => match selectOffersSingle toy_hash (fun x => x) 0 0 d (idn 1) with
             | Ret ([x], true) => o_sig x = o_sig offer_a /\ o_cids x = [idn 1] /\ GetMessageDigest toy_hash x <> GetMessageDigest toy_hash offer_a
             | _ => False
             end
  | _ => False
  end.
Proof. vm_compute. repeat split. discriminate. Qed.
Print Assumptions sql_crash_truncated_refuted.

(** A statement fails, but the caller is told that the offer was stored. *)
Theorem sql_failure_hidden_refuted :
  match insertOffer toy_hash (fail_at 1) empty_db offer_a with
  | Ret (Some (OkR _), d) => seen (selectOffersSingle toy_hash (fun x => x) 0 0 d (idn 1)) = Ret ([], false)
  | _ => False
  end.
Proof. vm_compute. reflexivity. Qed.
Print Assumptions sql_failure_hidden_refuted.
