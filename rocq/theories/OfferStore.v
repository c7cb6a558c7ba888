(** * The provider's in-memory offer store

    Models common/pkg/fcroffermgr/offer_storage.go and offer_manager.go, and the
    storing loop of provider/internal/api/adminapi/publish_dht_offer_handler.go.
    Definitions only.

    The store holds pointers to offers: positions in a list of cells.  The clock is
    read once per call.  The order in which Go walks a map is an argument of the
    functions that depend on it. *)
From Coq Require Import List ZArith Bool.
From Coq Require Import Init.Byte.
From Verif Require Import Base Ids Merkle MerkleWire Crypto Offer Ring.
Import ListNotations.
Open Scope Z_scope.
Open Scope go_scope.

(** offer_storage.go L27-30 [digestOffer]: digest to pointer. *)
Definition digest_map := list (bytes * nat).
(** offer_storage.go L33-37 [offerStorage]: printed content identifier to digest map. *)
Definition storage := list (gostring * digest_map).

(** The offer a pointer leads to. *)
Definition cell (h : list offer) (p : nat) : outcome offer := deref (nth_error h p).

(** offer_storage.go L56-63: is the digest known under this content identifier? *)
Definition known (s : storage) (k : gostring) (d : bytes) : bool :=
  match aget bytes_eqb s k with
  | Some m => match aget bytes_eqb m d with Some _ => true | None => false end
  | None => false
  end.

(** offer_storage.go L73-92. *)
Fixpoint put (s : storage) (cids : list bytes) (d : bytes) (p : nat) : storage :=
  match cids with
  | [] => s
  | c :: t =>
      let m := match aget bytes_eqb s (ToString c) with Some m => m | None => [] end in
      put (aset bytes_eqb s (ToString c) (aset bytes_eqb m d p)) t d p
  end.

(** offer_storage.go L109-115: the offers of a digest map, in the given order. *)
Fixpoint load_offers (h : list offer) (m : digest_map) : outcome (list offer) :=
  match m with
  | [] => Ret []
  | (_, p) :: t => let* o := cell h p in let* os := load_offers h t in Ret (o :: os)
  end.

(** offer_storage.go L123-134. *)
Fixpoint forget (s : storage) (cids : list bytes) (d : bytes) : outcome storage :=
  match cids with
  | [] => Ret s
  | c :: t =>
      match aget bytes_eqb s (ToString c) with
      | None => Panic
      | Some m => forget (aset bytes_eqb s (ToString c) (adel bytes_eqb m d)) t d
      end
  end.

(** offer_manager.go L34-38 [FCROfferMgr]. *)
Record offer_mgr := OfferMgr { dhtOffers : storage; dhtOfferRing : ring; groupOffers : storage }.

(** offer_manager.go L41-47 [NewFCROfferMgr]. *)
Definition NewFCROfferMgr : offer_mgr := OfferMgr [] CreateRing [].

(** offer_manager.go L93-98: append one by one, stop once there are [max]. *)
Fixpoint take_offers (max : Z) (acc new : list offer) : list offer * bool :=
  match new with
  | [] => (acc, false)
  | o :: t =>
      let acc := acc ++ [o] in
      if max <=? Z.of_nat (length acc) then (acc, true) else take_offers max acc t
  end.

(** offer_manager.go L117-124 and L126-133: the first digest map that knows [d]. *)
Fixpoint find_digest (s : storage) (d : bytes) : option nat :=
  match s with
  | [] => None
  | (_, m) :: t => match aget bytes_eqb m d with Some p => Some p | None => find_digest t d end
  end.

Definition is_nil {A} (l : list A) : bool := match l with [] => true | _ => false end.

Section store.
  Variable sha512_256 : bytes -> bytes.

  (** offer_storage.go L48-94 [add]; the error and the new store. *)
  Definition store_add (now : Z) (h : list offer) (s : storage) (p : nat) : outcome (result unit * storage) :=
    let* o := cell h p in
    match o_cids o with
    | [] => Ret (ErrR, s)
    | c :: _ =>
        let* d := GetMessageDigest sha512_256 o in
        if known s (ToString c) d then Ret (OkR tt, s)
        else if HasExpired (o_expiry o) now then Ret (ErrR, s)
        else Ret (OkR tt, put s (o_cids o) d p)
    end.

  (** offer_storage.go L121-135. *)
  Fixpoint purge (s : storage) (os : list offer) : outcome storage :=
    match os with
    | [] => Ret s
    | o :: t =>
        let* d := GetMessageDigest sha512_256 o in
        let* s := forget s (o_cids o) d in
        purge s t
    end.

  (** offer_storage.go L97-138 [get]. *)
  Definition store_get (order : digest_map -> digest_map) (now : Z) (h : list offer) (s : storage) (c : bytes)
      : outcome (list offer * storage) :=
    match aget bytes_eqb s (ToString c) with
    | None => Ret ([], s)
    | Some m =>
        let* os := load_offers h (order m) in
        let* s := purge s (filter (fun o => HasExpired (o_expiry o) now) os) in
        Ret (filter (fun o => negb (HasExpired (o_expiry o) now)) os, s)
    end.

  (** offer_manager.go L50-55 [AddGroupOffer]. *)
  Definition AddGroupOffer (now : Z) (h : list offer) (m : offer_mgr) (p : nat) : outcome (result unit * offer_mgr) :=
    let* o := cell h p in
    if Nat.leb (length (o_cids o)) 1 then Ret (ErrR, m)
    else
      let* r := store_add now h (groupOffers m) p in
      Ret (fst r, OfferMgr (dhtOffers m) (dhtOfferRing m) (snd r)).

  (** offer_manager.go L58-64 [AddDHTOffer]. *)
  Definition AddDHTOffer (now : Z) (h : list offer) (m : offer_mgr) (p : nat) : outcome (result unit * offer_mgr) :=
    let* o := cell h p in
    match o_cids o with
    | [c] =>
        let* ring := Insert (dhtOfferRing m) (ToString c) in
        let* r := store_add now h (dhtOffers m) p in
        Ret (fst r, OfferMgr (snd r) ring (groupOffers m))
    | _ => Ret (ErrR, m)
    end.

  (** offer_manager.go L67-70 [GetGroupOffers], L73-76 [GetDHTOffers]. *)
  Definition GetGroupOffers (order : digest_map -> digest_map) (now : Z) (h : list offer) (m : offer_mgr) (c : bytes)
      : outcome (list offer * bool * offer_mgr) :=
    let* r := store_get order now h (groupOffers m) c in
    Ret (fst r, negb (is_nil (fst r)), OfferMgr (dhtOffers m) (dhtOfferRing m) (snd r)).
  Definition GetDHTOffers (order : digest_map -> digest_map) (now : Z) (h : list offer) (m : offer_mgr) (c : bytes)
      : outcome (list offer * bool * offer_mgr) :=
    let* r := store_get order now h (dhtOffers m) c in
    Ret (fst r, negb (is_nil (fst r)), OfferMgr (snd r) (dhtOfferRing m) (groupOffers m)).

  (** offer_manager.go L106-109 [GetOffers]. *)
  Definition GetOffers (order order' : digest_map -> digest_map) (now : Z) (h : list offer) (m : offer_mgr) (c : bytes)
      : outcome (list offer * bool * offer_mgr) :=
    let* r := store_get order now h (groupOffers m) c in
    let* r' := store_get order' now h (dhtOffers m) c in
    let res := fst r ++ fst r' in
    Ret (res, negb (is_nil res), OfferMgr (snd r') (dhtOfferRing m) (snd r)).

  (** offer_manager.go L87-102: the loop over the entries of the ring. *)
  Fixpoint collect (order : digest_map -> digest_map) (now : Z) (h : list offer) (max : Z)
      (entries : list gostring) (s : storage) (acc : list offer) : outcome (list offer * bool * storage) :=
    match entries with
    | [] => Ret (acc, negb (is_nil acc), s)
    | e :: t =>
        match NewNodeIDFromHexString e with
        | ErrR => Ret (acc, false, s)
        | OkR c =>
            let* r := store_get order now h s c in
            let (acc, full) := take_offers max acc (fst r) in
            if full : bool then Ret (acc, negb (is_nil acc), snd r)
            else collect order now h max t (snd r) acc
        end
    end.

  (** offer_manager.go L79-103 [GetDHTOffersWithinRange]. *)
  Definition GetDHTOffersWithinRange (order : digest_map -> digest_map) (now : Z) (h : list offer) (m : offer_mgr)
      (cidMin cidMax : bytes) (max : Z) : outcome (list offer * bool * offer_mgr) :=
    let* e := GetWithinRange (dhtOfferRing m) (ToString cidMin) (ToString cidMax) in
    match e with
    | (ErrR, r) => Ret ([], false, OfferMgr (dhtOffers m) r (groupOffers m))
    | (OkR es, r) =>
        let* res := collect order now h max es (dhtOffers m) [] in
        Ret (fst res, OfferMgr (snd res) r (groupOffers m))
    end.

  (** offer_manager.go L112-134 [GetOfferByDigest]; the offer the returned pointer
      leads to. *)
  Definition GetOfferByDigest (order order' : storage -> storage) (h : list offer) (m : offer_mgr) (d : bytes)
      : outcome (option offer) :=
    match find_digest (order (dhtOffers m)) d with
    | Some p => let* o := cell h p in Ret (Some o)
    | None =>
        match find_digest (order' (groupOffers m)) d with
        | Some p => let* o := cell h p in Ret (Some o)
        | None => Ret None
        end
    end.

  (** publish_dht_offer_handler.go L79-83: up to Go 1.21 the variable of a range loop
      is one cell, overwritten in each round; its address [p] is what is stored. *)
  Fixpoint publish_loop (now : Z) (h : list offer) (m : offer_mgr) (p : nat) (os : list offer)
      : outcome (list offer * offer_mgr) :=
    match os with
    | [] => Ret (h, m)
    | o :: t =>
        let h := set_nth h p o in
        let* r := AddDHTOffer now h m p in
        publish_loop now h (snd r) p t
    end.
  Definition publish_offers (now : Z) (h : list offer) (m : offer_mgr) (os : list offer)
      : outcome (list offer * offer_mgr) :=
    match os with
    | [] => Ret (h, m)
    | o :: _ => publish_loop now (h ++ [o]) m (length h) os
    end.
End store.
