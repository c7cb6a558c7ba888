(** * What is expected of the gateway's offer database *)
From Coq Require Import List ZArith Bool.
From Coq Require Import Init.Byte.
From Verif Require Import Base Ids Offer WireSpec OfferStoreSpec SqlOffers.
Import ListNotations.
Open Scope Z_scope.
Open Scope go_scope.

(** Attempts to store offers, with what became of their statements.  A stopped process
    comes back with the same files. *)
Definition attempts := list (offer * (nat -> fate)).

Section histories.
  Variable sha256 sha512_256 : bytes -> bytes.

  Fixpoint db_after (d : db) (hist : attempts) : outcome db :=
    match hist with
    | [] => Ret d
    | (o, f) :: t => let* r := insertOffer sha512_256 f d o in db_after (snd r) t
    end.

  (** The offers are ones of the system, small enough for the database, and different
      offers have different digests. *)
  Definition proper_attempts (hist : attempts) : Prop :=
    (forall o f, In (o, f) hist -> wire_offer sha256 o /\ o_price o < 2 ^ 63 /\ o_qos o < 2 ^ 63) /\
    forall o f o' f', In (o, f) hist -> In (o', f') hist ->
      GetMessageDigest sha512_256 o = GetMessageDigest sha512_256 o' -> same_terms o o'.
End histories.

(** [o] is the first offer with its terms whose storing began. *)
Definition recorded (hist : attempts) (o : offer) : Prop :=
  exists h1 f h2, hist = h1 ++ (o, f) :: h2 /\ f O = Done /\
    forall o' f', In (o', f') h1 -> same_terms o o' -> f' O <> Done.

(** An attempt in which everything worked. *)
Definition undisturbed (o : offer) (f : nat -> fate) : Prop := forall i, (i <= length (o_cids o))%nat -> f i = Done.

Definition all_undisturbed (hist : attempts) : Prop := forall o f, In (o, f) hist -> undisturbed o f.

(** [recorded] and its terms were stored by some undisturbed attempt. *)
Definition stored (hist : attempts) (o : offer) : Prop :=
  recorded hist o /\ exists o' f, In (o', f) hist /\ same_terms o o' /\ undisturbed o' f.

(** [o] once for each time it lists [c]. *)
Definition copies (c : bytes) (o : offer) : list offer := map (fun _ => o) (filter (bytes_eqb c) (o_cids o)).

(** [o] has an identifier in the range. *)
Definition in_range (lo hi : bytes) (o : offer) : Prop := exists c, In c (o_cids o) /\ be_val lo <= be_val c <= be_val hi.

(** [o] with some identifiers missing. *)
Inductive sublist {A} : list A -> list A -> Prop :=
| sub_nil : sublist [] []
| sub_skip x l l' : sublist l l' -> sublist l (x :: l')
| sub_keep x l l' : sublist l l' -> sublist (x :: l) (x :: l').
Definition remains_of (x o : offer) : Prop :=
  o_provider x = o_provider o /\ o_price x = o_price o /\ o_expiry x = o_expiry o /\ o_qos x = o_qos o /\
  o_sig x = o_sig o /\ sublist (o_cids x) (o_cids o).
