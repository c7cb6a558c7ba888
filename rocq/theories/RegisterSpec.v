(** * What is expected of the register manager *)
From Coq Require Import List ZArith Bool Sorting.Sorted.
From Coq Require Import Init.Byte.
From Verif Require Import Base Ids Ring RingSpec Register.
Import ListNotations.
Open Scope Z_scope.

Section spec.
  Variable Info : Type.

  (** The last registration of a node in a list. *)
  Definition latest (l : list (gostring * Info)) (id : gostring) : option Info :=
    fold_left (fun acc e => if bytes_eqb (fst e) id then Some (snd e) else acc) l None.

  (** A usable answer of the register service. *)
  Definition listing (l : list (gostring * Info)) : answer Info := Some (map Some l).

  (** Node identifiers in the spelling that nodes use for themselves. *)
  Definition canonical (id : gostring) : Prop := exists i, length i = 32%nat /\ id = ToString i.

  Definition proper (a : answer Info) : Prop :=
    match a with None => True | Some l => forall x, In (Some x) l -> canonical (fst x) end.

  (** The gateways the manager knows, by increasing identifier. *)
  Definition knows (m : manager Info) (members : list gostring) : Prop :=
    StronglySorted (fun a b => hex_val a < hex_val b) members /\
    forall v, In v members <-> exists i, aget bytes_eqb (gatewaysMap Info m) v = Some i.

  Definition excluded (ex : option bytes) : gostring := match ex with None => [] | Some n => ToString n end.

  (** A lookup that does not hit one of the faults of the ring (C07 and others). *)
  Definition harmless (m : manager Info) (c : bytes) (num : Z) (ex : option bytes) : Prop :=
    length c = 32%nat /\ (forall n, ex = Some n -> length n = 32%nat) /\ 0 <= num /\
    forall members, knows m members ->
      undisturbed (without (excluded ex) members) (ToString c) /\
      ((3 <= length members)%nat -> hd_error members <> Some (excluded ex)).

  (** Managers of started nodes that discover gateways, after any sequence of refreshes
      and lookups. *)
  Inductive managed : manager Info -> Prop :=
  | managed_start pd : managed (snd (StartMgr Info (NewFCRRegisterMgr Info pd true)))
  | managed_refresh m ga pa m' : managed m -> proper ga -> Refresh Info m ga pa = Ret m' -> managed m'
  | managed_gateway m id ga pa x m' : managed m -> proper ga -> GetGateway Info m id ga pa = Ret (x, m') -> managed m'
  | managed_provider m id x m' : managed m -> GetProvider Info m id = Ret (x, m') -> managed m'
  | managed_near m c num ex x m' : managed m -> harmless m c num ex ->
      GetGatewaysNearCID Info m (Some c) num ex = Ret (x, m') -> managed m'
  | managed_range m g x m' : managed m -> harmless m g 16 (Some g) ->
      GetGatewayCIDRange Info m (Some g) = Ret (x, m') -> managed m'.

  (** The registrations of the [n] gateways nearest to a point, in ring order. *)
  Definition nearest (m : manager Info) (members : list gostring) (p : gostring) (n : Z) (res : list (gostring * Info)) : Prop :=
    closest_ok members p n (map fst res) /\
    forall id i, In (id, i) res -> aget bytes_eqb (gatewaysMap Info m) id = Some i.
End spec.
