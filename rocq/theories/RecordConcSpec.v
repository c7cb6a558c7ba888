(** * What overlapping publications should leave behind *)
From Coq Require Import List ZArith.
From Verif Require Import Base Ids Offer Provider.
Import ListNotations.

(** The entry of a gateway in a map of offers. *)
Definition entry (m : list (gostring * list offer)) (g : gostring) : list offer :=
  match aget bytes_eqb m g with Some l => l | None => [] end.
(** What a gateway accepted, of all that was accepted. *)
Definition accepted_by (g : gostring) (l : list (gostring * option acknowledgement * list offer)) : list offer :=
  flat_map (fun x => if bytes_eqb g (fst (fst x)) then snd x else []) l.
(** The acknowledgement kept for an identifier and a gateway. *)
Definition kept (m : list (gostring * list (gostring * acknowledgement))) (c g : gostring) : option acknowledgement :=
  match aget bytes_eqb m c with Some x => aget bytes_eqb x g | None => None end.
(** The identifier an acknowledgement of an offer is kept for. *)
Definition filed_under (o : offer) (c : gostring) : Prop := exists id rest, o_cids o = id :: rest /\ c = ToString id.
(** A gateway acknowledged an offer for the identifier with this. *)
Definition acknowledged (l : list (gostring * option acknowledgement * list offer)) (c g : gostring) (a : acknowledgement) : Prop :=
  exists offers o, In (g, Some a, offers) l /\ In o offers /\ filed_under o c.
