(** * C04: the distance between identifiers is the least number of steps, and that of the ring *)
From Coq Require Import String List ZArith Lia.
From Coq Require Import Init.Byte.
From Verif Require Import Base BaseProofs Ids RingSpec.
Import ListNotations.
Open Scope Z_scope.

(** [k] steps, all forwards or all backwards, lead from [x] to [y] on a circle of [n] places. *)
Definition apart (n x y k : Z) : Prop := 0 <= k /\ ((x + k) mod n = y \/ (x - k) mod n = y).

Lemma mod_once n z : 0 < n -> - n <= z < 2 * n -> z mod n = if z <? 0 then z + n else if z <? n then z else z - n.
Proof.
  intros N B. destruct (Z.ltb_spec z 0) as [A|A]; [|destruct (Z.ltb_spec z n) as [C|C]].
  - symmetry. apply (Z.mod_unique_pos z n (-1)); lia.
  - apply Z.mod_small. lia.
  - symmetry. apply (Z.mod_unique_pos z n 1); lia.
Qed.

(** It is the least number of steps from one to the other. *)
Theorem distance_steps : forall a b n, be_val a < n -> be_val b < n ->
  apart n (be_val a) (be_val b) (GetDistance a b n) /\ forall k, apart n (be_val a) (be_val b) k -> GetDistance a b n <= k.
Proof.
  intros a b n A B. pose proof (proj1 (be_val_range a)) as Ha. pose proof (proj1 (be_val_range b)) as Hb. unfold GetDistance. cbv zeta.
  set (x := be_val a) in *. set (y := be_val b) in *. clearbody x y. clear a b. split.
  - assert (D : Z.abs (n - Z.abs (y - x)) = n - Z.abs (y - x)) by lia. rewrite D. unfold apart.
    destruct (Z.ltb_spec (Z.abs (y - x)) (n - Z.abs (y - x))); (split; [lia|]); destruct (Z.leb_spec x y).
    + left. rewrite Z.mod_small by lia. lia.
    + right. rewrite Z.mod_small by lia. lia.
    + right. rewrite mod_once by lia. destruct (Z.ltb_spec (x - (n - Z.abs (y - x))) 0); [lia|]. destruct (Z.ltb_spec (x - (n - Z.abs (y - x))) n); lia.
    + left. rewrite mod_once by lia. destruct (Z.ltb_spec (x + (n - Z.abs (y - x))) 0); [lia|]. destruct (Z.ltb_spec (x + (n - Z.abs (y - x))) n); lia.
  - intros k (K & [E|E]).
    + assert (X : x + k = n * ((x + k) / n) + y) by (pose proof (Z.div_mod (x + k) n ltac:(lia)); lia).
      assert (0 <= (x + k) / n) by (apply Z.div_pos; lia). set (q := (x + k) / n) in *. clearbody q.
      destruct (Z.ltb_spec (Z.abs (y - x)) (Z.abs (n - Z.abs (y - x)))); (destruct (Z.eq_dec q 0); [subst q; lia|]); assert (n <= n * q) by nia; lia.
    + assert (X : x - k = n * ((x - k) / n) + y) by (pose proof (Z.div_mod (x - k) n ltac:(lia)); lia).
      assert ((x - k) / n <= 0) by (assert ((x - k) / n < 1); [apply Z.div_lt_upper_bound; lia|lia]). set (q := (x - k) / n) in *. clearbody q.
      destruct (Z.ltb_spec (Z.abs (y - x)) (Z.abs (n - Z.abs (y - x)))); (destruct (Z.eq_dec q 0); [subst q; lia|]); assert (n * q <= - n) by nia; lia.
Qed.

(** Between identifiers of 32 bytes it is the distance by which the ring picks the nearest entries ([RingSpec.closest_ok]). *)
Theorem distance_ring : forall a b, length a = 32%nat -> length b = 32%nat -> GetDistance a b (2 ^ 256) = circ (be_val a) (be_val b).
Proof.
  intros a b A B. pose proof (be_val_range a) as Ha. pose proof (be_val_range b) as Hb. rewrite A in Ha. rewrite B in Hb.
  change (256 ^ Z.of_nat 32) with (2 ^ 256) in *. unfold GetDistance, circ, cw. cbv zeta. change M256 with (2 ^ 256). set (n := 2 ^ 256) in *.
  set (x := be_val a) in *. set (y := be_val b) in *. assert (0 < n) by (subst n; reflexivity). clearbody x y n. clear a b A B.
  rewrite !mod_once by lia. repeat match goal with |- context [?u <? ?v] => destruct (Z.ltb_spec u v) end; lia.
Qed.

Print Assumptions distance_steps.
Print Assumptions distance_ring.

(** The values of the package's test, and across the end of the circle with leading zeros. *)
Example distances : map (fun p => GetDistance (fst p) (snd p) 65536)
  [([x00], [x00]); ([x01], [x00]); ([x01], [x02]); ([x01], [x5a]); ([x01], [xff; xff]); ([x00; x00; x05], [xff; xfb]); ([x00], [x80; x00])] = [0; 1; 1; 89; 2; 10; 32768].
Proof. vm_compute. reflexivity. Qed.
Example distances_apart : apart 65536 1 65535 2 /\ ~ apart 65536 1 65535 1.
Proof. unfold apart. split; [split; [lia|right; reflexivity]|]. intros (_ & [H|H]); vm_compute in H; discriminate H. Qed.
(** Values beyond the circle are not reduced. *)
Example beyond : GetDistance [x00] [x02; x00] 256 = 256 /\ ~ apart 256 0 512 256.
Proof. split; [vm_compute; reflexivity|]. intros (_ & [H|H]); vm_compute in H; discriminate H. Qed.
