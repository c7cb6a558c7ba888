(** * Properties of the provider's offer store (C24-C27, C84, C85)

    [reaches hist s]: the store is in state [s] after the history [hist] of timed
    operations ([OfferStoreSpec]); [answer] says what an operation must return. *)
From Coq Require Import String List ZArith Bool Lia Sorting.Permutation.
From Coq Require Import Init.Byte.
From Verif Require Import Base BaseProofs Ids Json Merkle MerkleWire Crypto Offer WireSpec Ring RingSpec RingFacts
  OfferStore OfferStoreSpec OfferStoreProofs OfferStoreHist OfferStoreFacts OfferConc OfferConcProofs
  PropertiesMerkle PropertiesCrypto PropertiesOffer PropertiesRing.
Import ListNotations.
Open Scope Z_scope.
Open Scope go_scope.

(** Offers of one provider for the examples. *)
Definition an_offer (ids : list bytes) (price expiry : Z) : offer :=
  match toy_offer ids price expiry 1 with Some o => o | None => Offer None [] 0 0 0 [] [] (Tree [] []) end.
Definition sec : Z := 1000000000.

Fixpoint steps (s : store_state) (xs : history) : outcome (store_state * list store_answer) :=
  match xs with
  | [] => Ret (s, [])
  | (t, x) :: xs =>
      let* r := store_step toy_hash s t x in
      let* q := steps (fst r) xs in
      Ret (fst q, snd r :: snd q)
  end.
(** The prices of the returned offers. *)
Definition prices (a : store_answer) : option (list Z) :=
  match a with
  | RAdd (OkR _) => Some []
  | RAdd ErrR => None
  | ROffers os _ => Some (map o_price os)
  | ROffer (Some o) => Some [o_price o]
  | ROffer None => Some []
  end.
Definition answers (xs : history) : outcome (list (option (list Z))) :=
  let* r := steps new_store xs in Ret (map prices (snd r)).

(** ** C24 *)

(** Full claim: also that an expired offer is always refused.  Missing: that one
    (false, see below); digest collisions between different offers, and range
    queries that hit a fault of the ring, are excluded by [allowed]. *)
Theorem offer_store_answers_partial : forall sha hist s now x,
  reaches sha hist s -> allowed sha hist s now x ->
  exists s' a, store_step sha s now x = Ret (s', a) /\ answer sha hist now x a.
Proof. exact history_pf. Qed.
Print Assumptions offer_store_answers_partial.

(** The query for all offers of a content identifier, spelled out. *)
Theorem offer_store_live_partial : forall sha hist s now c f g,
  reaches sha hist s -> allowed sha hist s now (GetBoth c f g) ->
  exists s' os found, store_step sha s now (GetBoth c f g) = Ret (s', ROffers os found) /\ NoDup os /\
    forall o, In o os <-> (group_offer hist o \/ single_offer hist o) /\ live now o /\ In c (o_cids o).
Proof.
  intros sha hist s now c f g R A. destruct (history_pf sha hist s now _ R A) as (s' & a & E & An).
  destruct a as [r|os found|o]; try contradiction. destruct An as (_ & N & M). exists s', os, found. auto.
Qed.
Print Assumptions offer_store_live_partial.

(** Two group offers, one that expires in between, and one that is added twice. *)
Example offer_store_ex :
  let a := an_offer [idn 1; idn 2] 10 100 in
  let b := an_offer [idn 2; idn 3] 20 50 in
  let c := an_offer [idn 2] 30 100 in
  answers [(0, AddGroup a); (1 * sec, AddGroup b); (2 * sec, AddDHT c); (3 * sec, AddGroup a);
           (50 * sec, GetBoth (idn 2) (@rev _) (@rev _)); (50 * sec, GetGroup (idn 1) (@rev _));
           (50 * sec + 1, GetBoth (idn 2) (@rev _) (@rev _)); (51 * sec, GetGroup (idn 3) (@rev _));
           (52 * sec, AddGroup b); (100 * sec, GetDHT (idn 2) (@rev _)); (101 * sec, GetBoth (idn 2) (@rev _) (@rev _))]
  = Ret [Some []; Some []; Some []; Some [];
         Some [20; 10; 30]; Some [10];
         Some [10; 30]; Some [];
         None; Some [30]; Some []].
Proof. vm_compute. reflexivity. Qed.

Lemma rev_shuffle {A} : shuffle (@rev A).
Proof. intros l. apply Permutation_rev. Qed.

(** The hypotheses can be met: a group offer, a single offer, then queries. *)
Definition after (xs : history) : store_state :=
  match steps new_store xs with Ret r => fst r | _ => new_store end.
Definition ex_a : offer := Eval vm_compute in an_offer [idn 1; idn 2] 10 100.
Definition ex_c : offer := Eval vm_compute in an_offer [idn 2] 30 100.
Definition ex_h1 : history := [(0, AddGroup ex_a)].
Definition ex_h2 : history := ex_h1 ++ [(5, AddDHT ex_c)].

Lemma ex_a_storable : storable ex_a.
Proof.
  split; [|vm_compute; discriminate]. unfold well_formed.
  split; [exists (idn 99); split; vm_compute; reflexivity|].
  split; [repeat constructor; vm_compute; reflexivity|].
  unfold uint64, int64. vm_compute. repeat split; discriminate.
Qed.
Lemma ex_c_storable : storable ex_c.
Proof.
  split; [|vm_compute; discriminate]. unfold well_formed.
  split; [exists (idn 99); split; vm_compute; reflexivity|].
  split; [repeat constructor; vm_compute; reflexivity|].
  unfold uint64, int64. vm_compute. repeat split; discriminate.
Qed.

Example offer_store_reach_ex :
  reaches toy_hash ex_h2 (after ex_h2) /\
  allowed toy_hash ex_h2 (after ex_h2) 7 (GetBoth (idn 2) (@rev _) (@rev _)) /\
  allowed toy_hash ex_h2 (after ex_h2) 7 (GetRange (idn 3) (idn 2) 10 (@rev _)).
Proof.
  assert (T1 : forall t y, In (t, y) ex_h1 -> t <= 5 /\ y = AddGroup ex_a)
    by (intros t y [J|[]]; apply (f_equal fst) in J as J'; apply (f_equal snd) in J; cbn [fst snd] in *; subst; split; [lia|reflexivity]).
  assert (T2 : forall t y, In (t, y) ex_h2 -> t <= 7).
  { intros t y J. apply in_app_iff in J. destruct J as [J|[J|[]]].
    - apply T1 in J. lia.
    - apply (f_equal fst) in J. cbn [fst] in J. lia. }
  split; [|split].
  - apply (reaches_step toy_hash ex_h1 (after ex_h1) 5 (AddDHT ex_c) _ (RAdd (OkR tt))).
    + apply (reaches_step toy_hash [] new_store 0 (AddGroup ex_a) _ (RAdd (OkR tt))); [constructor| |vm_compute; reflexivity].
      split; [intros t y []|]. split; [exact ex_a_storable|intros t y o' []].
    + split; [intros t y J; apply T1 in J; lia|]. split; [exact ex_c_storable|].
      intros t y o' J X. apply T1 in J. destruct J as [_ ->]. cbn [added_offer] in X. injection X as <-. vm_compute. discriminate.
    + vm_compute. reflexivity.
  - split; [exact T2|]. split; [vm_compute; reflexivity|]. split; apply rev_shuffle.
  - split; [exact T2|]. split; [vm_compute; reflexivity|]. split; [vm_compute; reflexivity|]. split; [apply rev_shuffle|].
    replace (entries (dhtOfferRing (snd (after ex_h2)))) with [ToString (idn 2)] by (vm_compute; reflexivity).
    intros _ _. split; [vm_compute; discriminate|].
    split; [intros v [<-|[]]; vm_compute; intros; discriminate|]. split; [intros v [<-|[]]; vm_compute; reflexivity|].
    split; [right; left; vm_compute; lia|]. left. vm_compute. right. left. reflexivity.
Qed.

(** An expired offer that nobody queried since it expired is accepted. *)
Theorem expired_refused_refuted :
  exists o now, ~ live now o /\
    answers [(0, AddGroup o); (now, AddGroup o)] = Ret [Some []; Some []].
Proof.
  exists (an_offer [idn 1; idn 2] 10 100), (101 * sec). split; [vm_compute; intros H; apply H; reflexivity|vm_compute; reflexivity].
Qed.
Print Assumptions expired_refused_refuted.

(** ** C25 *)

(** Full claim: also for queries that, after the refused addition, hit a fault of
    the ring (false, see below). *)
Theorem refused_invisible_partial : forall sha hist s now x o s' t q,
  reaches sha hist s -> allowed sha hist s now x -> added_offer x = Some o ->
  store_step sha s now x = Ret (s', RAdd ErrR) -> allowed sha hist s' t q ->
  exists s'' a, store_step sha s' t q = Ret (s'', a) /\ answer sha hist t q a.
Proof. exact refused_pf. Qed.
Print Assumptions refused_invisible_partial.

Theorem kinds_apart : forall sha hist s now c f,
  reaches sha hist s ->
  (allowed sha hist s now (GetGroup c f) -> exists s' os found,
     store_step sha s now (GetGroup c f) = Ret (s', ROffers os found) /\
     forall o, In o os -> (2 <= length (o_cids o))%nat /\ exists t, In (t, AddGroup o) hist) /\
  (allowed sha hist s now (GetDHT c f) -> exists s' os found,
     store_step sha s now (GetDHT c f) = Ret (s', ROffers os found) /\
     forall o, In o os -> o_cids o = [c] /\ exists t, In (t, AddDHT o) hist).
Proof.
  intros sha hist s now c f R. split; intros A; destruct (history_pf sha hist s now _ R A) as (s' & a & E & An);
    destruct a as [r|os found|o]; try contradiction; destruct An as (_ & N & M); exists s', os, found; (split; [exact E|]);
    intros o I; apply M in I; destruct I as ((F & L) & _ & Ic); apply first_In in F.
  - auto.
  - split; [|exact F]. destruct (o_cids o) as [|c1 [|]]; try discriminate. destruct Ic as [->|[]]. reflexivity.
Qed.
Print Assumptions kinds_apart.

Example kinds_apart_ex :
  let g := an_offer [idn 1; idn 2] 10 100 in
  let d := an_offer [idn 1] 20 100 in
  answers [(0, AddGroup d); (0, AddDHT g); (0, AddGroup g); (0, AddDHT d); (1, GetGroup (idn 1) (@rev _)); (1, GetDHT (idn 1) (@rev _))]
  = Ret [None; None; Some []; Some []; Some [10]; Some [20]].
Proof. vm_compute. reflexivity. Qed.

(** Two refused (expired) single offers leave entries in the ring; a later range
    query then damages it, and the stored offer is no longer found.  Without the
    refused additions it is. *)
Theorem refused_invisible_refuted :
  let kept := an_offer [idn 40] 40 100 in
  let late1 := an_offer [idn 20] 20 1 in
  let late2 := an_offer [idn 30] 30 1 in
  let query := (3 * sec, GetRange (idn 10) (idn 50) 10 (@rev _)) in
  answers [(0, AddDHT kept); (2 * sec, AddDHT late1); (2 * sec, AddDHT late2); query; query]
    = Ret [Some []; None; None; Some [40]; Some []] /\
  answers [(0, AddDHT kept); query; query] = Ret [Some []; Some [40]; Some [40]].
Proof. vm_compute. split; reflexivity. Qed.
Print Assumptions refused_invisible_refuted.

(** ** C26 *)

(** Full claim: without the assumption that content identifiers shared by two of
    the offers already have an entry (false, see below).  The offers are new and
    have different digests; the store is any. *)
Theorem concurrent_adds_partial : forall sha s h ts sched i o p d c order now os st,
  in_range s ->
  (forall a, In a ts -> exists o p d, a = start_add o p d /\ nth_error h p = Some o /\ storable o /\
     GetMessageDigest sha o = Ret d /\ forall m, In m (dMaps s) -> aget bytes_eqb m d = None) ->
  (forall i j a b, i <> j -> nth_error ts i = Some a -> nth_error ts j = Some b ->
     a_digest a <> a_digest b /\
     forall c, In c (o_cids (a_offer a)) -> In c (o_cids (a_offer b)) -> aget bytes_eqb (cidMap s) (ToString c) <> None) ->
  nth_error ts i = Some (start_add o p d) ->
  let (s', ts') := sys_run s ts sched in
  nth_error ts' i = Some (Adder o p d (AtEnd (OkR tt))) -> In c (o_cids o) ->
  shuffle order -> live now o -> store_get sha order now h (flatten s') c = Ret (os, st) -> In o os.
Proof. exact concurrent_pf. Qed.
Print Assumptions concurrent_adds_partial.

(** A goroutine alone does what the sequential model says. *)
Theorem add_alone : forall sha now h s o p d,
  distinct_maps s -> nth_error h p = Some o -> GetMessageDigest sha o = Ret d ->
  exists n s' r, alone now n s (start_add o p d) = (s', at_pc (start_add o p d) (AtEnd r)) /\ distinct_maps s' /\
    store_add sha now h (flatten s) p = Ret (r, flatten s').
Proof. exact alone_pf. Qed.
Print Assumptions add_alone.

Definition dig_of (o : offer) : bytes := match GetMessageDigest toy_hash o with Ret d => d | _ => [] end.

(** Three offers share identifier 2, which has an entry; their steps alternate. *)
Example concurrent_adds_ex :
  let a := an_offer [idn 1; idn 2] 10 100 in
  let b := an_offer [idn 2; idn 3] 20 100 in
  let c := an_offer [idn 5; idn 2] 30 100 in
  let ts := [start_add a 0 (dig_of a); start_add b 1 (dig_of b); start_add c 2 (dig_of c)] in
  let s := CStore [(ToString (idn 2), 0%nat)] [[]] in
  let r := sys_run s ts (concat (repeat [(0%nat, 0); (1%nat, 0); (2%nat, 0)] 10)) in
  map a_pc (snd r) = [AtEnd (OkR tt); AtEnd (OkR tt); AtEnd (OkR tt)] /\
  match store_get toy_hash (fun l => l) 1 [a; b; c] (flatten (fst r)) (idn 2) with Ret (os, _) => map o_price os = [20; 10; 30] | _ => False end.
Proof. vm_compute. split; reflexivity. Qed.

(** Both find no entry for the shared identifier, both create one; the offer
    written to the first is lost although its addition succeeded. *)
Theorem concurrent_adds_refuted :
  let a := an_offer [idn 1; idn 2] 10 100 in
  let b := an_offer [idn 2; idn 3] 20 100 in
  let ts := [start_add a 0 (dig_of a); start_add b 1 (dig_of b)] in
  exists sched,
    let r := sys_run (CStore [] []) ts sched in
    map a_pc (snd r) = [AtEnd (OkR tt); AtEnd (OkR tt)] /\ In (idn 2) (o_cids a) /\ live 1 a /\
    match store_get toy_hash (fun l => l) 1 [a; b] (flatten (fst r)) (idn 2) with Ret (os, _) => ~ In a os | _ => False end.
Proof.
  exists (repeat (0%nat, 0) 5 ++ repeat (1%nat, 0) 3 ++ repeat (0%nat, 0) 4 ++ repeat (1%nat, 0) 6).
  vm_compute. split; [reflexivity|]. split; [auto|]. split; [discriminate|]. intros [H|[]]. discriminate.
Qed.
Print Assumptions concurrent_adds_refuted.

(** ** C27 *)

(** Full claim: batches of any size (false from two on, see below). *)
Theorem batch_publication_partial : forall sha hist h m now o,
  reaches sha hist (h, m) -> allowed sha hist (h, m) now (AddDHT o) ->
  exists h' m', publish_offers sha now h m [o] = Ret (h', m') /\ reaches sha (hist ++ [(now, AddDHT o)]) (h', m').
Proof. exact publish_one_pf. Qed.
Print Assumptions batch_publication_partial.

Example batch_publication_ex :
  let o := an_offer [idn 7] 10 100 in
  match publish_offers toy_hash 0 [] NewFCROfferMgr [o] with
  | Ret (h, m) => match GetDHTOffers toy_hash (@rev _) 1 h m (idn 7) with Ret (os, found, _) => os = [o] /\ found = true | _ => False end
  | _ => False
  end.
Proof. vm_compute. split; reflexivity. Qed.

(** Whatever the batch, every query returns nothing but the last offer of it: all
    entries point to the loop variable.  In particular the first identifier of a
    batch of two gets the offer of the second. *)
Theorem batch_publication_refuted :
  (forall sha now os o h m order t c res s' x, shuffle order ->
     publish_offers sha now [] NewFCROfferMgr (os ++ [o]) = Ret (h, m) ->
     store_get sha order t h (dhtOffers m) c = Ret (res, s') -> In x res -> x = o) /\
  (let a := an_offer [idn 7] 10 100 in
   let b := an_offer [idn 8] 20 100 in
   match publish_offers toy_hash 0 [] NewFCROfferMgr [a; b] with
   | Ret (h, m) =>
       match GetDHTOffers toy_hash (@rev _) 1 h m (idn 7), GetDHTOffers toy_hash (@rev _) 1 h m (idn 8) with
       | Ret (os, _, _), Ret (os', _, _) => os = [b] /\ os' = [b]
       | _, _ => False
       end
   | _ => False
   end).
Proof. split; [intros; eapply publish_last_pf; eauto|vm_compute; split; reflexivity]. Qed.
Print Assumptions batch_publication_refuted.

(** ** C84 *)

(** Full claim: also that an expired offer is not returned (false, see below). *)
Theorem digest_lookup_partial : forall sha hist s now d f g,
  reaches sha hist s -> allowed sha hist s now (GetByDigest d f g) ->
  exists s' r, store_step sha s now (GetByDigest d f g) = Ret (s', ROffer r) /\
    (forall o, r = Some o -> (group_offer hist o \/ single_offer hist o) /\ GetMessageDigest sha o = Ret d) /\
    (forall o, group_offer hist o \/ single_offer hist o -> live now o -> GetMessageDigest sha o = Ret d -> r = Some o).
Proof.
  intros sha hist s now d f g R A. destruct (history_pf sha hist s now _ R A) as (s' & a & E & An).
  destruct a as [r|os found|o]; try contradiction. exists s', o. auto.
Qed.
Print Assumptions digest_lookup_partial.

Example digest_lookup_ex :
  let a := an_offer [idn 1; idn 2] 10 100 in
  let b := an_offer [idn 2] 20 100 in
  answers [(0, AddGroup a); (0, AddDHT b); (1, GetByDigest (dig_of a) (@rev _) (@rev _)); (1, GetByDigest (dig_of b) (@rev _) (@rev _));
           (1, GetByDigest (dig_of (an_offer [idn 2] 21 100)) (@rev _) (@rev _))]
  = Ret [Some []; Some []; Some [10]; Some [20]; Some []].
Proof. vm_compute. reflexivity. Qed.

Theorem digest_lookup_refuted :
  let a := an_offer [idn 1; idn 2] 10 100 in
  answers [(0, AddGroup a); (101 * sec, GetByDigest (dig_of a) (@rev _) (@rev _))] = Ret [Some []; Some [10]] /\
  ~ live (101 * sec) a.
Proof. vm_compute. split; [reflexivity|intros H; apply H; reflexivity]. Qed.
Print Assumptions digest_lookup_refuted.

(** ** C85 *)

(** Full claim: also for limits below one, and for range queries that hit a fault
    of the ring (both false, see below and C25). *)
Theorem range_query_partial : forall sha hist s now lo hi max f,
  reaches sha hist s -> allowed sha hist s now (GetRange lo hi max f) -> 1 <= max ->
  exists s' os found rest, store_step sha s now (GetRange lo hi max f) = Ret (s', ROffers os found) /\
    found = negb (is_nil os) /\
    exactly (os ++ rest) (fun o => single_offer hist o /\ live now o /\ offset lo o <= cw (be_val lo) (be_val hi)) /\
    Sorted.StronglySorted (fun a b => offset lo a <= offset lo b) (os ++ rest) /\
    Z.of_nat (length os) = Z.min max (Z.of_nat (length (os ++ rest))).
Proof.
  intros sha hist s now lo hi max f R A M. destruct (history_pf sha hist s now _ R A) as (s' & a & E & An).
  destruct a as [r|os found|o]; try contradiction. destruct An as (F & rest & X & S & L).
  exists s', os, found, rest. rewrite L. replace (Z.max 1 max) with max by lia. auto.
Qed.
Print Assumptions range_query_partial.

Example range_query_ex :
  let o := fun k => an_offer [idn k] k 100 in
  answers [(0, AddDHT (o 10)); (0, AddDHT (o 20)); (0, AddDHT (o 30)); (0, AddDHT (o 40));
           (1, GetRange (idn 15) (idn 30) 10 (@rev _)); (1, GetRange (idn 35) (idn 20) 10 (@rev _)); (1, GetRange (idn 35) (idn 20) 2 (@rev _))]
  = Ret [Some []; Some []; Some []; Some []; Some [20; 30]; Some [40; 10; 20]; Some [40; 10]].
Proof. vm_compute. reflexivity. Qed.

(** A limit of zero still returns an offer; equal bounds return it twice. *)
Theorem range_query_refuted :
  let o := fun k => an_offer [idn k] k 100 in
  answers [(0, AddDHT (o 10)); (0, AddDHT (o 20)); (1, GetRange (idn 5) (idn 30) 0 (@rev _)); (1, GetRange (idn 10) (idn 10) 5 (@rev _))]
  = Ret [Some []; Some []; Some [10]; Some [10; 20; 10]].
Proof. vm_compute. reflexivity. Qed.
Print Assumptions range_query_refuted.
