(** * Overlapping publications of a provider

    Models what a provider does after gateways accepted its offers, as goroutines over the two maps and
    their locks: provider/internal/api/providerapi/publish_dht_offer_requester.go L102-124 and
    publish_group_offer_requester.go L92-102.  Definitions only.

    A step is one access to a lock or a map; accesses happen in one order, which the locks guarantee. *)
From Coq Require Import List ZArith.
From Verif Require Import Base Ids Offer Provider.
Import ListNotations.

(** provider/internal/core/core.go L82-88: [NodeOfferMap], [AcknowledgementMap] and their locks. *)
Record memory := Memory {
  n_locked : bool; node_offers : list (gostring * list offer);
  a_locked : bool; ack_map : list (gostring * list (gostring * acknowledgement)) }.

(** Where a goroutine is: at [c.NodeOfferMapLock.Lock()] for the first offer to record, past it, with the entry of
    the gateway read, with the entry written, at [c.AcknowledgementMapLock.Lock()], past it, with the inner map at
    hand, and with the acknowledgement written. *)
Inductive point := AtN | InN | GotN (sent : list offer) | OutN | AtA | InA | GotA (cid : gostring) | OutA.

(** The gateway that accepted, the messages to keep (none for a group offer), and the offers not recorded yet. *)
Record recorder := Recorder { r_at : point; r_gateway : gostring; r_ack : option acknowledgement; r_todo : list offer }.

Definition go (r : recorder) (p : point) : recorder := Recorder p (r_gateway r) (r_ack r) (r_todo r).
Definition next_offer (r : recorder) : recorder := Recorder AtN (r_gateway r) (r_ack r) (tl (r_todo r)).

Definition with_n (m : memory) (b : bool) (x : list (gostring * list offer)) : memory := Memory b x (a_locked m) (ack_map m).
Definition with_a (m : memory) (b : bool) (x : list (gostring * list (gostring * acknowledgement))) : memory :=
  Memory (n_locked m) (node_offers m) b x.

(** [c.NodeOfferMap[gatewayID.ToString()]], and nothing if there is no entry: L105-108. *)
Definition sent_to (m : list (gostring * list offer)) (g : gostring) : list offer :=
  match aget bytes_eqb m g with Some l => l | None => [] end.

(** One step, if it is possible: not if a lock is held, if the offers are through, or if the offer has no identifier
    (L114, L117 take the first; the process ends then). *)
Definition record_step (m : memory) (r : recorder) : option (memory * recorder) :=
  match r_todo r with
  | [] => None
  | o :: _ =>
      match r_at r with
      | AtN => if n_locked m then None else Some (with_n m true (node_offers m), go r InN)
      | InN => Some (m, go r (GotN (sent_to (node_offers m) (r_gateway r))))
      | GotN sent => Some (with_n m (n_locked m) (aset bytes_eqb (node_offers m) (r_gateway r) (sent ++ [o])), go r OutN)
      | OutN => Some (with_n m false (node_offers m), match r_ack r with Some _ => go r AtA | None => next_offer r end)
      | AtA => if a_locked m then None else Some (with_a m true (ack_map m), go r InA)
      | InA =>
          match o_cids o with
          | [] => None
          | c :: _ =>
              let cid := ToString c in
              Some (with_a m (a_locked m) (match aget bytes_eqb (ack_map m) cid with Some _ => ack_map m | None => aset bytes_eqb (ack_map m) cid [] end), go r (GotA cid))
          end
      | GotA cid =>
          let inner := match aget bytes_eqb (ack_map m) cid with Some x => x | None => [] end in
          Some (with_a m (a_locked m) (match r_ack r with Some a => aset bytes_eqb (ack_map m) cid (aset bytes_eqb inner (r_gateway r) a) | None => ack_map m end), go r OutA)
      | OutA => Some (with_a m false (ack_map m), next_offer r)
      end
  end.

Record recording := Recording { memory_of : memory; recorders : list recorder }.
Definition recording_step (s : recording) (i : nat) : option recording :=
  match nth_error (recorders s) i with
  | None => None
  | Some r => match record_step (memory_of s) r with
              | Some (m, r) => Some (Recording m (set_nth (recorders s) i r))
              | None => None
              end
  end.
Fixpoint recording_run (s : recording) (l : list nat) : option recording :=
  match l with
  | [] => Some s
  | i :: l => match recording_step s i with Some s => recording_run s l | None => None end
  end.

(** The goroutines begin with free locks; each has a gateway, its answer, and offers. *)
Definition accepted (x : gostring * option acknowledgement * list offer) : recorder :=
  Recorder AtN (fst (fst x)) (snd (fst x)) (snd x).
Definition begin_recording (n : list (gostring * list offer)) (a : list (gostring * list (gostring * acknowledgement)))
    (l : list (gostring * option acknowledgement * list offer)) : recording :=
  Recording (Memory false n false a) (map accepted l).
