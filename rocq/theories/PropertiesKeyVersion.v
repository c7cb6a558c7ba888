(** * Successive key versions *)
From Coq Require Import ZArith Lia.
From Verif Require Import Base Crypto WireSpec.
Open Scope Z_scope.

(** The version after [n] renewals. *)
Definition renewed (n : nat) (v : Z) : Z := Nat.iter n NextKeyVersion v.

(** Versions are counted upwards, and one that was used returns only after all the others. *)
Theorem key_versions_counted : forall v, uint32 v ->
  (forall n, v + Z.of_nat n < 2 ^ 32 -> renewed n v = v + Z.of_nat n) /\
  (forall n, renewed n v = v <-> Z.of_nat n mod 2 ^ 32 = 0).
Proof.
  unfold uint32. intros v H.
  assert (E : forall n, renewed n v = (v + Z.of_nat n) mod 2 ^ 32).
  { induction n as [|n IH]; [cbn [renewed Nat.iter nat_rect]; rewrite Z.add_0_r, Z.mod_small by lia; reflexivity|].
    change (renewed (S n) v) with (NextKeyVersion (renewed n v)). rewrite IH. unfold NextKeyVersion. rewrite Zplus_mod_idemp_l. f_equal. lia. }
  split; intros n; rewrite E; [intros L; apply Z.mod_small; lia|].
  rewrite Zplus_mod, (Z.mod_small v) by lia. assert (B := Z.mod_pos_bound (Z.of_nat n) (2 ^ 32) ltac:(lia)). set (k := Z.of_nat n mod 2 ^ 32) in *. split; intros K.
  - assert (D := Z.div_mod (v + k) (2 ^ 32) ltac:(lia)). rewrite K in D. lia.
  - rewrite K, Z.add_0_r. apply Z.mod_small. lia.
Qed.
Print Assumptions key_versions_counted.

Example key_versions_ex : renewed 3 InitialKeyVersion = 4 /\ renewed 2 4294967295 = 1.
Proof. split; reflexivity. Qed.
