(** * The gateway's offer database

    Models common/pkg/offermgr/offer_manager.go and the statements it gives to SQLite
    (through common/pkg/database/database.go).  Each statement is atomic and durable.
    A statement may fail, or the process may stop before it.  Definitions only. *)
From Coq Require Import List ZArith Bool.
From Coq Require Import Init.Byte.
From Verif Require Import Base Ids Offer.
Import ListNotations.
Open Scope Z_scope.
Open Scope go_scope.

(** offer_manager.go L33: table [offer]. *)
Record offer_row := OfferRow {
  r_digest : gostring; r_provider : gostring; r_expiry : Z; r_price : Z; r_qos : Z; r_sig : gostring
}.
(** offer_manager.go L34: table [content]. *)
Record content_row := ContentRow { k_cid : gostring; k_no : nat; k_digest : gostring }.
(** Both tables. *)
Record db := Db { offer_t : list offer_row; content_t : list content_row }.

(** offer_manager.go L22-40 [NewFCROfferMgr] without an earlier file. *)
Definition empty_db : db := Db [] [].

(** offer_manager.go L80-84: the insert is left out if the digest is there. *)
Definition insert_offer_row (d : db) (r : offer_row) : db :=
  if existsb (fun x => bytes_eqb (r_digest x) (r_digest r)) (offer_t d) then d
  else Db (offer_t d ++ [r]) (content_t d).

(** offer_manager.go L85-89. *)
Definition insert_content_row (d : db) (k : content_row) : db :=
  if existsb (fun x => Nat.eqb (k_no x) (k_no k) && bytes_eqb (k_digest x) (k_digest k)) (content_t d) then d
  else Db (offer_t d) (content_t d ++ [k]).

(** What becomes of a statement: it is executed, it fails, or the process stops before. *)
Inductive fate := Done | Failed | Stopped.

(** offer_manager.go L102-105: the loop over the identifiers; an error is forgotten by the
    next round.  No result: the process stopped. *)
Fixpoint insert_contents (f : nat -> fate) (dg : gostring) (i : nat) (cids : list bytes) (err : result unit) (d : db)
    : option (result unit) * db :=
  match cids with
  | [] => (Some err, d)
  | c :: t =>
      match f (S i) with
      | Done => insert_contents f dg (S i) t (OkR tt) (insert_content_row d (ContentRow (ToString c) i dg))
      | Failed => insert_contents f dg (S i) t ErrR d
      | Stopped => (None, d)
      end
  end.

(** [database/sql] refuses uint64 values of 2^63 and more. *)
Definition bindable (o : offer) : bool := (o_price o <? 2 ^ 63) && (o_qos o <? 2 ^ 63).

(** [datetime(s, 'unixepoch')] is NULL outside of these seconds (the years -4713 to 9999),
    otherwise its text sorts by time, with years before 0 first. *)
Definition datetime_min : Z := - 210866760000.
Definition datetime_max : Z := 253402300799.

(** offer_manager.go L116, L128, L140: [datetime(o.expiry, 'unixepoch') > datetime('now', 'utc')]
    at [now] nanoseconds since 1970, for a computer set to [zone] seconds east of UTC:
    the modifier takes the time for local time.  Dates of clocks before 1970 are left out. *)
Definition fresh (zone now expiry : Z) : bool :=
  (datetime_min <=? expiry) && (expiry <=? datetime_max) && (now / 1000000000 - zone <? expiry).

(** [order by content_no]. *)
Definition by_no (l : list content_row) : list content_row :=
  flat_map (fun n => filter (fun k => Nat.eqb (k_no k) n) l) (seq 0 (S (fold_right Nat.max O (map k_no l)))).

Section sql.
  Variable sha256 : bytes -> bytes.
  Variable sha512_256 : bytes -> bytes.

  (** offer_manager.go L78-107 [insertOffer], also [AddGroupOffer] and [AddDHTOffer] L43-50. *)
  Definition insertOffer (f : nat -> fate) (d : db) (o : offer) : outcome (option (result unit) * db) :=
    let* digest := GetMessageDigest sha512_256 o in
    let dg := hex_encode digest in
    let* p := deref (o_provider o) in
    match f O with
    | Stopped => Ret (None, d)
    | Failed => Ret (Some ErrR, d)
    | Done =>
        if negb (bindable o) then Ret (Some ErrR, d)
        else
          let d := insert_offer_row d (OfferRow dg (ToString p) (o_expiry o) (o_price o) (o_qos o) (o_sig o)) in
          Ret (insert_contents f dg O (o_cids o) (OkR tt) d)
    end.

  (** offer_manager.go L163-170: the identifiers of an offer. *)
  Fixpoint read_cids (l : list content_row) : outcome (list bytes) :=
    match l with
    | [] => Ret []
    | k :: t =>
        match NewNodeIDFromHexString (k_cid k) with
        | ErrR => Panic
        | OkR c => let* r := read_cids t in Ret (c :: r)
        end
    end.

  (** offer_manager.go L155-175: one offer; without identifiers there is none to sign. *)
  Definition read_offer (d : db) (r : offer_row) : outcome (offer * bool) :=
    let provider := match NewNodeIDFromHexString (r_provider r) with OkR p => Some p | ErrR => None end in
    let* cids := read_cids (by_no (filter (fun k => bytes_eqb (k_digest k) (r_digest r)) (content_t d))) in
    let* o := NewCIDOffer sha256 provider cids (r_price r) (r_expiry r) (r_qos r) in
    match o with
    | ErrR => Panic
    | OkR o =>
        Ret (Offer (o_provider o) (o_cids o) (o_price o) (o_expiry o) (o_qos o) (r_sig r) (o_root o) (o_tree o),
             negb (Nat.eqb (length cids) 0))
    end.

  (** offer_manager.go L148-182 [selectOffers] on the selected rows. *)
  Fixpoint read_offers (d : db) (rows : list offer_row) : outcome (list offer * bool) :=
    match rows with
    | [] => Ret ([], false)
    | r :: t =>
        let* x := read_offer d r in
        let* y := read_offers d t in
        Ret (fst x :: fst y, snd x || snd y)
    end.
  Definition selectOffers (d : db) (rows : list offer_row) (maxOffers : Z) : outcome (list offer * bool) :=
    read_offers d (if 0 <? maxOffers then firstn (Z.to_nat maxOffers) rows else rows).

  (** The order of the rows is up to the database. *)
  Variable order : list offer_row -> list offer_row.
  Variable zone : Z.

  (** offer_manager.go L110-118 [selectOffersSingle], also L53-60 and L68-70. *)
  Definition selectOffersSingle (now : Z) (d : db) (c : bytes) : outcome (list offer * bool) :=
    selectOffers d
      (order (flat_map (fun r =>
         if fresh zone now (r_expiry r) then
           map (fun _ => r) (filter (fun k => bytes_eqb (k_digest k) (r_digest r) && bytes_eqb (k_cid k) (ToString c)) (content_t d))
         else []) (offer_t d))) (-1).

  (** offer_manager.go L121-130 [selectOffersRange], also L63-65. *)
  Definition text_le (a b : gostring) : bool := match bytes_cmp a b with Gt => false | _ => true end.
  Definition selectOffersRange (now : Z) (d : db) (maxOffers : Z) (cidMin cidMax : bytes) : outcome (list offer * bool) :=
    selectOffers d
      (order (filter (fun r => fresh zone now (r_expiry r) &&
         existsb (fun k => bytes_eqb (k_digest k) (r_digest r) && text_le (ToString cidMin) (k_cid k) && text_le (k_cid k) (ToString cidMax)) (content_t d))
         (offer_t d))) maxOffers.

  (** offer_manager.go L133-145 [selectOffersDigest], also L73-75. *)
  Definition selectOffersDigest (now : Z) (d : db) (digest : bytes) : outcome (option offer * bool) :=
    let* q := selectOffers d
      (order (filter (fun r => bytes_eqb (r_digest r) (hex_encode digest) && fresh zone now (r_expiry r)) (offer_t d))) 1 in
    if negb (snd q) then Ret (None, snd q)
    else let* o := deref (hd_error (fst q)) in Ret (Some o, snd q).
End sql.
