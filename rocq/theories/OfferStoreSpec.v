(** * Specification of the offer store

    A store is judged by its history: which offers were added when.  Nothing here
    mentions maps, pointers or digests except as the names callers use. *)
From Coq Require Import List ZArith Bool Sorting.Permutation Sorting.Sorted.
From Coq Require Import Init.Byte.
From Verif Require Import Base Ids Offer WireSpec Ring RingSpec OfferStore.
Import ListNotations.
Open Scope Z_scope.
Open Scope go_scope.

(** Same provider, identifiers, price, expiry and quality of service; signatures
    may differ. *)
Definition same_terms (o o' : offer) : Prop :=
  o_provider o = o_provider o' /\ o_cids o = o_cids o' /\ o_price o = o_price o' /\
  o_expiry o = o_expiry o' /\ o_qos o = o_qos o'.

(** The expiry (seconds) is not before now (nanoseconds). *)
Definition live (now : Z) (o : offer) : Prop := now <= o_expiry o * 1000000000.

(** Offers of the system, expiring before the clock library overflows. *)
Definition storable (o : offer) : Prop :=
  well_formed o /\ o_expiry o <= 2 ^ 63 - 1 - 62135596800.

(** A way to walk a map. *)
Definition shuffle {A} (f : list A -> list A) : Prop := forall l, Permutation l (f l).

(** ** Histories *)
Inductive store_op :=
| AddGroup (o : offer)
| AddDHT (o : offer)
| GetGroup (c : bytes) (order : digest_map -> digest_map)
| GetDHT (c : bytes) (order : digest_map -> digest_map)
| GetBoth (c : bytes) (order order' : digest_map -> digest_map)
| GetRange (lo hi : bytes) (max : Z) (order : digest_map -> digest_map)
| GetByDigest (d : bytes) (order order' : storage -> storage).

Inductive store_answer :=
| RAdd (r : result unit)
| ROffers (os : list offer) (found : bool)
| ROffer (o : option offer).

Definition store_state := (list offer * offer_mgr)%type.
Definition new_store : store_state := ([], NewFCROfferMgr).

Definition history := list (Z * store_op).

Definition added_offer (x : store_op) : option offer :=
  match x with AddGroup o | AddDHT o => Some o | _ => None end.

(** [o] was added, and was the first with its terms. *)
Definition first_added (add : offer -> store_op) (hist : history) (o : offer) : Prop :=
  exists h1 t h2, hist = h1 ++ (t, add o) :: h2 /\
    forall t' o', In (t', add o') h1 -> ~ same_terms o o'.

Definition group_offer (hist : history) (o : offer) : Prop :=
  first_added AddGroup hist o /\ (2 <= length (o_cids o))%nat.
Definition single_offer (hist : history) (o : offer) : Prop :=
  first_added AddDHT hist o /\ length (o_cids o) = 1%nat.

(** ** Answers *)

(** Exactly the offers described, each once. *)
Definition exactly (os : list offer) (P : offer -> Prop) : Prop :=
  NoDup os /\ forall o, In o os <-> P o.

(** How far clockwise from [lo] the identifier of a single offer lies. *)
Definition offset (lo : bytes) (o : offer) : Z :=
  match o_cids o with c :: _ => cw (be_val lo) (be_val c) | [] => 0 end.

(** The first [n] of the offers described, by distance from [lo]. *)
Definition nearest (lo : bytes) (n : Z) (os : list offer) (P : offer -> Prop) : Prop :=
  exists rest, exactly (os ++ rest) P /\
    StronglySorted (fun a b => offset lo a <= offset lo b) (os ++ rest) /\
    Z.of_nat (length os) = Z.min n (Z.of_nat (length (os ++ rest))).

Definition answer (sha512_256 : bytes -> bytes) (hist : history) (now : Z) (x : store_op) (a : store_answer) : Prop :=
  match x, a with
  | AddGroup o, RAdd r =>
      ((length (o_cids o) < 2)%nat -> r = ErrR) /\
      ((2 <= length (o_cids o))%nat -> live now o -> r = OkR tt) /\
      (~ live now o -> (forall t o', In (t, AddGroup o') hist -> ~ same_terms o o') -> r = ErrR)
  | AddDHT o, RAdd r =>
      (length (o_cids o) <> 1%nat -> r = ErrR) /\
      (length (o_cids o) = 1%nat -> live now o -> r = OkR tt) /\
      (~ live now o -> (forall t o', In (t, AddDHT o') hist -> ~ same_terms o o') -> r = ErrR)
  | GetGroup c _, ROffers os found =>
      found = negb (is_nil os) /\
      exactly os (fun o => group_offer hist o /\ live now o /\ In c (o_cids o))
  | GetDHT c _, ROffers os found =>
      found = negb (is_nil os) /\
      exactly os (fun o => single_offer hist o /\ live now o /\ In c (o_cids o))
  | GetBoth c _ _, ROffers os found =>
      found = negb (is_nil os) /\
      exactly os (fun o => (group_offer hist o \/ single_offer hist o) /\ live now o /\ In c (o_cids o))
  | GetRange lo hi max _, ROffers os found =>
      found = negb (is_nil os) /\
      nearest lo (Z.max 1 max) os (fun o => single_offer hist o /\ live now o /\ offset lo o <= cw (be_val lo) (be_val hi))
  | GetByDigest d _ _, ROffer r =>
      (forall o, r = Some o ->
         (group_offer hist o \/ single_offer hist o) /\ GetMessageDigest sha512_256 o = Ret d) /\
      (forall o, group_offer hist o \/ single_offer hist o -> live now o ->
         GetMessageDigest sha512_256 o = Ret d -> r = Some o)
  | _, _ => False
  end.

Section histories.
  Variable sha512_256 : bytes -> bytes.

  (** One operation; a new offer gets a cell of its own. *)
  Definition store_step (s : store_state) (now : Z) (x : store_op) : outcome (store_state * store_answer) :=
    let (h, m) := s in
    match x with
    | AddGroup o =>
        let* r := AddGroupOffer sha512_256 now (h ++ [o]) m (length h) in
        Ret ((h ++ [o], snd r), RAdd (fst r))
    | AddDHT o =>
        let* r := AddDHTOffer sha512_256 now (h ++ [o]) m (length h) in
        Ret ((h ++ [o], snd r), RAdd (fst r))
    | GetGroup c f =>
        let* r := GetGroupOffers sha512_256 f now h m c in
        Ret ((h, snd r), ROffers (fst (fst r)) (snd (fst r)))
    | GetDHT c f =>
        let* r := GetDHTOffers sha512_256 f now h m c in
        Ret ((h, snd r), ROffers (fst (fst r)) (snd (fst r)))
    | GetBoth c f g =>
        let* r := GetOffers sha512_256 f g now h m c in
        Ret ((h, snd r), ROffers (fst (fst r)) (snd (fst r)))
    | GetRange lo hi max f =>
        let* r := GetDHTOffersWithinRange sha512_256 f now h m lo hi max in
        Ret ((h, snd r), ROffers (fst (fst r)) (snd (fst r)))
    | GetByDigest d f g =>
        let* r := GetOfferByDigest f g h m d in
        Ret ((h, m), ROffer r)
    end.

  (** The operation may come next: the clock does not go back, offers are storable
      and do not collide with the digest of a different earlier offer, identifiers
      have 32 bytes, and a range query does not hit a fault of the ring ([RingSpec]). *)
  Definition allowed (hist : history) (s : store_state) (now : Z) (x : store_op) : Prop :=
    (forall t y, In (t, y) hist -> t <= now) /\
    match x with
    | AddGroup o | AddDHT o =>
        storable o /\
        forall t y o', In (t, y) hist -> added_offer y = Some o' ->
          GetMessageDigest sha512_256 o' = GetMessageDigest sha512_256 o -> same_terms o o'
    | GetGroup c f | GetDHT c f => id32 c /\ shuffle f
    | GetBoth c f g => id32 c /\ shuffle f /\ shuffle g
    | GetRange lo hi _ f =>
        id32 lo /\ id32 hi /\ shuffle f /\
        faultless (entries (dhtOfferRing (snd s))) (OpRange (ToString lo) (ToString hi))
    | GetByDigest _ f g => shuffle f /\ shuffle g
    end.

  Inductive reaches : history -> store_state -> Prop :=
  | reaches_new : reaches [] new_store
  | reaches_step hist s now x s' a :
      reaches hist s -> allowed hist s now x -> store_step s now x = Ret (s', a) ->
      reaches (hist ++ [(now, x)]) s'.
End histories.
