(** * Properties of identifiers and distances (C01-C04) *)
From Coq Require Import String List ZArith Bool Lia Sorting.Sorted Sorting.Permutation.
From Coq Require Import Init.Byte.
From Verif Require Import Base BaseProofs Ids IdsProofs.
Import ListNotations.
Open Scope Z_scope.

(** The identifier with a given value, for examples. *)
Definition idn (k : Z) : bytes := be_bytes 32 k.

(** ** C01 *)
Theorem id_hex_roundtrip : forall id, length id = 32%nat ->
  NewNodeIDFromHexString (ToString id) = OkR id /\
  length (ToString id) = 64%nat /\ Forall lower_hex (ToString id) /\
  (forall id', length id' = 32%nat -> ToString id' = ToString id -> id' = id).
Proof. exact id_hex_roundtrip_pf. Qed.
Print Assumptions id_hex_roundtrip.

Example id_hex_roundtrip_ex : length (idn 48879) = 32%nat /\
  ToString (idn 48879) = gs "000000000000000000000000000000000000000000000000000000000000beef".
Proof. split; vm_compute; reflexivity. Qed.

(** Lists of identifiers travel as lists of hex strings. *)
Theorem id_list_roundtrip : forall ids, Forall (fun id => length id = 32%nat) ids ->
  MapStringToID (MapIDToString ids) = Ret ids.
Proof. exact map_string_ids. Qed.
Print Assumptions id_list_roundtrip.

Example id_list_roundtrip_ex : Forall (fun id => length id = 32%nat) [idn 1; idn 255; idn 1].
Proof. repeat constructor. Qed.

Theorem content_id_equality : forall a b, length a = 32%nat -> length b = 32%nat ->
  (ContentIDEquals a b = true <-> a = b).
Proof. exact content_equals. Qed.
Print Assumptions content_id_equality.

(** ** C02 *)
Theorem id_from_bytes : forall b,
  ((length b <= 32)%nat -> exists id, NewNodeIDFromBytes b = OkR id /\ length id = 32%nat /\ be_val id = be_val b) /\
  ((32 < length b)%nat -> NewNodeIDFromBytes b = ErrR).
Proof. exact id_from_bytes_pf. Qed.
Print Assumptions id_from_bytes.

Theorem id_from_hex : forall s,
  (Nat.even (length s) = true /\ (length s <= 64)%nat /\ Forall (fun c => hex_digit c <> None) s ->
     exists id, NewNodeIDFromHexString s = OkR id /\ length id = 32%nat /\ be_val id = hex_val s) /\
  (~ (Nat.even (length s) = true /\ (length s <= 64)%nat /\ Forall (fun c => hex_digit c <> None) s) ->
     NewNodeIDFromHexString s = ErrR).
Proof. exact id_from_hex_pf. Qed.
Print Assumptions id_from_hex.

Theorem id_from_int : forall z,
  (Z.abs z < 2 ^ 256 -> exists id, NewNodeID z = OkR id /\ length id = 32%nat /\ be_val id = Z.abs z) /\
  (2 ^ 256 <= Z.abs z -> NewNodeID z = ErrR).
Proof. exact id_from_int_pf. Qed.
Print Assumptions id_from_int.

(** Bytes and text mean the same identifier exactly when they have the same value. *)
Theorem id_value_determines : forall a b ia ib,
  NewNodeIDFromBytes a = OkR ia -> NewNodeIDFromHexString b = OkR ib ->
  (ia = ib <-> be_val a = hex_val b).
Proof. exact id_same_value. Qed.
Print Assumptions id_value_determines.

Example id_construction_ex :
  NewNodeIDFromHexString (gs "0A0b") = OkR (idn 2571) /\
  NewNodeIDFromBytes [x0a; x0b] = OkR (idn 2571) /\ NewNodeID 2571 = OkR (idn 2571) /\
  NewNodeIDFromHexString (gs "0a0") = ErrR /\ NewNodeIDFromBytes (repeat x00 33) = ErrR.
Proof. repeat split; vm_compute; reflexivity. Qed.

(** A list with an undecodable string crashes the list parser. *)
Theorem id_list_malformed_panics : forall ss,
  MapStringToID ss = Panic <-> exists s, In s ss /\ NewNodeIDFromHexString s = ErrR.
Proof. exact map_string_panics. Qed.
Print Assumptions id_list_malformed_panics.

(** ** C03 *)
Theorem sort_clockwise : forall start ids, id32 start -> Forall id32 ids ->
  Permutation ids (SortClockwise start ids) /\
  StronglySorted (fun a b => (be_val a - be_val start) mod 2 ^ 256 <= (be_val b - be_val start) mod 2 ^ 256)
    (SortClockwise start ids).
Proof. exact sort_clockwise_pf. Qed.
Print Assumptions sort_clockwise.

Example sort_clockwise_ex :
  id32 (idn 7) /\ Forall id32 [idn 3; idn 9; idn 1; idn 9; idn 7] /\
  SortClockwise (idn 7) [idn 3; idn 9; idn 1; idn 9; idn 7] = [idn 7; idn 9; idn 9; idn 1; idn 3].
Proof. split; [reflexivity|]. split; [repeat constructor|]. vm_compute. reflexivity. Qed.

(** ** C04: for any ring size [n], in particular 2^256 *)
Theorem distance_shorter_way : forall a b n, be_val a < n -> be_val b < n ->
  GetDistance a b n = Z.min ((be_val b - be_val a) mod n) ((be_val a - be_val b) mod n).
Proof. exact distance_pf. Qed.
Print Assumptions distance_shorter_way.

Theorem distance_is_metric : forall a b c n, be_val a < n -> be_val b < n -> be_val c < n ->
  GetDistance a b n = GetDistance b a n /\
  (GetDistance a b n = 0 <-> be_val a = be_val b) /\
  0 <= 2 * GetDistance a b n <= n /\
  GetDistance a c n <= GetDistance a b n + GetDistance b c n.
Proof. exact distance_metric. Qed.
Print Assumptions distance_is_metric.

Example distance_ex : GetDistance (idn (2 ^ 256 - 3)) (idn 4) (2 ^ 256) = 7 /\ be_val (idn (2 ^ 256 - 3)) < 2 ^ 256.
Proof. split; vm_compute; reflexivity. Qed.
