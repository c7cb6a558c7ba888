(** * Proofs about dumps *)
From Coq Require Import List ZArith Lia Bool Init.Byte Strings.Byte.
From Verif Require Import Base BaseProofs Json JsonProofs Dump DumpSpec.
Import ListNotations.
Open Scope Z_scope.

Lemma byte_eqb_neq a b : a <> b -> Byte.eqb a b = false.
Proof. intros N. destruct (Byte.eqb a b) eqn:E; [|reflexivity]. apply Byte.byte_dec_bl in E. contradiction. Qed.

Lemma hex_plain z : 0 <= z <= 15 -> digit_hex z <> x20 /\ digit_hex z <> x7c /\ digit_hex z <> x3a /\ digit_hex z <> x0a.
Proof.
  intros H. assert (D := hex_digit_of_digit z H). assert (N : hex_digit x20 = None /\ hex_digit x7c = None /\ hex_digit x3a = None /\ hex_digit x0a = None) by (vm_compute; auto).
  destruct N as (N1 & N2 & N3 & N4). repeat split; intros E; rewrite E in D; congruence.
Qed.

Definition sober (c : byte) : Prop := c <> x7c /\ c <> x0a.

Lemma hex_column_sober row : forall i, Forall sober (hex_column i row).
Proof.
  induction row as [|c row IH]; intros i; cbn [hex_column]; [constructor|]. pose proof (bz_range c).
  destruct (hex_plain (bz c / 16)) as (A1 & A2 & A3 & A4); [Z.div_mod_to_equations; lia|]. destruct (hex_plain (bz c mod 16)) as (B1 & B2 & B3 & B4); [Z.div_mod_to_equations; lia|].
  cbn [hex_encode app]. constructor; [split; assumption|]. constructor; [split; assumption|]. constructor; [split; discriminate|].
  apply Forall_app. split; [destruct (_ =? _); repeat constructor; discriminate|apply IH].
Qed.

Lemma read_pairs_step a b t x : a <> x20 -> a <> x7c -> hex_decode [a; b] = Some x -> read_pairs (a :: b :: t) = x ++ read_pairs t.
Proof. intros A B H. cbn [read_pairs]. rewrite (byte_eqb_neq a x20 A), (byte_eqb_neq a x7c B), H. reflexivity. Qed.

Lemma read_spaces n t : read_pairs (repeat x20 n ++ t) = read_pairs t.
Proof. induction n as [|n IH]; [reflexivity|]. cbn [repeat app read_pairs]. change (Byte.eqb x20 x20) with true. cbn iota. exact IH. Qed.

Lemma read_column row : forall i t, read_pairs (hex_column i row ++ t) = row ++ read_pairs t.
Proof.
  induction row as [|c row IH]; intros i t; [reflexivity|]. cbn [hex_column]. pose proof (bz_range c).
  destruct (hex_plain (bz c / 16)) as (A1 & A2 & _); [Z.div_mod_to_equations; lia|]. rewrite <- !app_assoc. cbn [hex_encode app].
  rewrite (read_pairs_step _ _ _ [c]); [|exact A1|exact A2|exact (hex_decode_encode [c])]. cbn [app]. f_equal.
  cbn [read_pairs]. change (Byte.eqb x20 x20) with true. cbn iota.
  destruct (i mod 4 =? 3); cbn [app]; [cbn [read_pairs]; change (Byte.eqb x20 x20) with true; cbn iota|]; apply IH.
Qed.

Lemma split_line body : forall cur rest, Forall (fun c => c <> x0a) body -> split_lines cur (body ++ x0a :: rest) = (rev cur ++ body) :: split_lines [] rest.
Proof.
  induction body as [|c body IH]; intros cur rest H; cbn [app split_lines].
  - change (Byte.eqb x0a x0a) with true. cbn iota. now rewrite app_nil_r.
  - inversion H; subst. rewrite (byte_eqb_neq c x0a) by assumption. rewrite IH by assumption. cbn [rev]. now rewrite <- app_assoc.
Qed.

Lemma past_prefix p t : Forall (fun c => c <> x3a) p -> past_colon (p ++ x3a :: t) = t.
Proof. intros H. induction H as [|c p Hc _ IH]; [reflexivity|]. cbn [app past_colon]. rewrite (byte_eqb_neq c x3a Hc). exact IH. Qed.

Lemma bar_prefix p t : Forall (fun c => c <> x7c) p -> bar_at (p ++ x7c :: t) = length p.
Proof. intros H. induction H as [|c p Hc _ IH]; [reflexivity|]. cbn [app bar_at length]. rewrite (byte_eqb_neq c x7c Hc). now rewrite IH. Qed.

Lemma digit_of z : exists n, (n < 10)%nat /\ zb (48 + z mod 10) = zb (48 + Z.of_nat n).
Proof. exists (Z.to_nat (z mod 10)). pose proof (Z.mod_pos_bound z 10). split; [lia|]. now rewrite Z2Nat.id by lia. Qed.

Lemma digit_plain_all : forallb (fun n => let c := zb (48 + Z.of_nat n) in negb (Byte.eqb c x3a) && negb (Byte.eqb c x7c) && negb (Byte.eqb c x0a)) (seq 0 10) = true.
Proof. vm_compute. reflexivity. Qed.

Lemma digit_sober z : let c := zb (48 + z mod 10) in c <> x3a /\ c <> x7c /\ c <> x0a.
Proof.
  cbv zeta. destruct (digit_of z) as (n & L & ->). pose proof digit_plain_all as A. rewrite forallb_forall in A. specialize (A n). cbv zeta in A.
  rewrite in_seq in A. specialize (A ltac:(lia)). apply andb_true_iff in A as [A C]. apply andb_true_iff in A as [A B].
  repeat split; intros E; rewrite E in *; discriminate.
Qed.

Lemma dec_sober f : forall z, Forall (fun c => c <> x3a /\ c <> x7c /\ c <> x0a) (dec_nat f z).
Proof.
  induction f as [|f IH]; intros z; cbn [dec_nat]; [constructor|]. apply Forall_app. split; [destruct (z <? 10); [constructor|apply IH]|].
  constructor; [apply digit_sober|constructor].
Qed.

Lemma fmt5_sober z : 0 <= z -> Forall (fun c => c <> x3a /\ c <> x7c /\ c <> x0a) (fmt5 z).
Proof.
  intros H. unfold fmt5. apply Forall_app. split.
  - apply Forall_forall. intros c I. apply repeat_spec in I. subst c. repeat split; discriminate.
  - unfold dec_print. destruct (Z.ltb_spec z 0); [lia|]. apply dec_sober.
Qed.

Lemma ascii_sober row : Forall (fun c => c <> x0a) (ascii_column row).
Proof.
  apply Forall_forall. intros c I. apply in_flat_map in I as (b & _ & I). destruct ((bz b <? 32) || (127 <=? bz b)) eqn:E.
  - destruct I as [<-|[<-|[<-|[]]]]; discriminate.
  - destruct I as [<-|[]]. intros ->. assert (N : (bz x0a <? 32) = true) by (vm_compute; reflexivity). rewrite N in E. discriminate E.
Qed.

Lemma spaces_sober n : Forall sober (repeat x20 n).
Proof. apply Forall_forall. intros c I. apply repeat_spec in I. subst c. split; discriminate. Qed.

(** What a row looks like. *)
Lemma dump_row_is idx mx row : 0 <= idx -> Z.of_nat (length row) <= 32 -> 0 <= mx <= 32 ->
  exists n, dump_row idx mx row = Ret (fmt5 (idx * 32) ++ x3a :: (x20 :: hex_column 0 row ++ repeat x20 n ++ x20 :: x7c :: x20 :: ascii_column row) ++ [x0a]) /\
    (mx <= Z.of_nat (length row) -> n = 0%nat).
Proof.
  intros I L M. unfold dump_row. cbv zeta. destruct (Z.ltb_spec (Z.of_nat (length row)) mx) as [S|S].
  - unfold repeat_str. destruct (Z.ltb_spec (mx * 2 + mx / 4 - Z.of_nat (length row) * 2 - Z.of_nat (length row) / 4) 0) as [N|N]; [exfalso; Z.div_mod_to_equations; lia|].
    eexists. split; [cbn [obind]; cbn [app]; rewrite <- !app_assoc; cbn [app]; rewrite <- ?app_assoc; reflexivity|lia].
  - exists 0%nat. split; [|reflexivity]. cbn [obind app repeat]. rewrite app_nil_r, <- !app_assoc. reflexivity.
Qed.

Lemma row_line idx row n rest : 0 <= idx ->
  split_lines [] ((fmt5 (idx * 32) ++ x3a :: (x20 :: hex_column 0 row ++ repeat x20 n ++ x20 :: x7c :: x20 :: ascii_column row) ++ [x0a]) ++ rest) =
  (fmt5 (idx * 32) ++ x3a :: x20 :: hex_column 0 row ++ repeat x20 n ++ x20 :: x7c :: x20 :: ascii_column row) :: split_lines [] rest.
Proof.
  intros I. pose proof (split_line (fmt5 (idx * 32) ++ x3a :: x20 :: hex_column 0 row ++ repeat x20 n ++ x20 :: x7c :: x20 :: ascii_column row) [] rest) as S. cbn [rev app] in S.
  rewrite <- S; [f_equal; rewrite <- !app_assoc; cbn [app]; rewrite <- !app_assoc; reflexivity|].
  apply Forall_app. split; [eapply Forall_impl; [|apply fmt5_sober; lia]; intros c Q; cbv beta in Q; tauto|]. constructor; [discriminate|]. constructor; [discriminate|].
  apply Forall_app. split; [eapply Forall_impl; [|apply hex_column_sober]; intros c [_ Q]; exact Q|].
  apply Forall_app. split; [eapply Forall_impl; [|apply spaces_sober]; intros c [_ Q]; exact Q|].
  constructor; [discriminate|]. constructor; [discriminate|]. constructor; [discriminate|]. apply ascii_sober.
Qed.

Lemma row_read idx row n : 0 <= idx -> read_pairs (past_colon (fmt5 (idx * 32) ++ x3a :: x20 :: hex_column 0 row ++ repeat x20 n ++ x20 :: x7c :: x20 :: ascii_column row)) = row.
Proof.
  intros I. rewrite past_prefix by (eapply Forall_impl; [|apply fmt5_sober; lia]; intros c Q; cbv beta in Q; tauto).
  cbn [read_pairs]. change (Byte.eqb x20 x20) with true. cbn iota. rewrite read_column, read_spaces.
  cbn [read_pairs]. change (Byte.eqb x20 x20) with true. change (Byte.eqb x7c x20) with false. change (Byte.eqb x7c x7c) with true. cbn iota. apply app_nil_r.
Qed.

Lemma rows_read fuel : forall buf idx mx, (length buf <= fuel)%nat -> 0 <= idx -> 0 <= mx <= 32 ->
  exists s, dump_rows fuel idx mx buf = Ret s /\ read_dump s = buf.
Proof.
  induction fuel as [|fuel IH]; intros buf idx mx L I M.
  - destruct buf; [|cbn in L; lia]. exists []. split; reflexivity.
  - destruct buf as [|b buf]; [exists []; split; reflexivity|]. cbn [dump_rows].
    assert (F : Z.of_nat (length (firstn 32 (b :: buf))) <= 32) by (pose proof (firstn_le_length 32 (b :: buf)); lia).
    destruct (dump_row_is idx mx (firstn 32 (b :: buf)) I F M) as (n & E & _). rewrite E. cbn [obind].
    destruct (IH (skipn 32 (b :: buf)) (idx + 1) (Z.of_nat (length (firstn 32 (b :: buf))))) as (s & R & D); [rewrite skipn_length; cbn [length] in *; lia|lia|lia|].
    rewrite R. cbn [obind]. eexists. split; [reflexivity|]. unfold read_dump in *. rewrite row_line by exact I. cbn [flat_map]. rewrite row_read by exact I. rewrite D. apply firstn_skipn.
Qed.

Theorem dump_read_pf data : exists s, dumpMessage data = Ret s /\ read_dump s = data.
Proof. apply rows_read; lia. Qed.

(** ** Columns *)
Lemma hex_column_length row : forall i, 0 <= i -> Z.of_nat (length (hex_column i row)) = 3 * Z.of_nat (length row) + ((i + Z.of_nat (length row)) / 4 - i / 4).
Proof.
  induction row as [|c row IH]; intros i I; cbn [hex_column length]; [rewrite Z.add_0_r; lia|].
  rewrite !app_length. cbn [hex_encode length]. specialize (IH (i + 1) ltac:(lia)). rewrite !Nat2Z.inj_add, IH.
  destruct (Z.eqb_spec (i mod 4) 3); cbn [length]; Z.div_mod_to_equations; lia.
Qed.

Lemma dec_nat_length k : forall f z, 0 <= z < 10 ^ Z.of_nat (S k) -> (length (dec_nat f z) <= S k)%nat.
Proof.
  induction k as [|k IH]; intros f z H; (destruct f as [|f]; [cbn; lia|]); cbn [dec_nat]; rewrite app_length; cbn [length].
  - destruct (Z.ltb_spec z 10); [cbn; lia|]. change (10 ^ Z.of_nat 1) with 10 in H. lia.
  - destruct (Z.ltb_spec z 10); [cbn; lia|]. specialize (IH f (z / 10)).
    assert (Q : 0 <= z / 10 < 10 ^ Z.of_nat (S k)).
    { rewrite (Nat2Z.inj_succ (S k)), Z.pow_succ_r in H by lia. split; [apply Z.div_pos; lia|]. apply Z.div_lt_upper_bound; lia. }
    specialize (IH Q). lia.
Qed.

Lemma fmt5_length z : 0 <= z < 100000 -> length (fmt5 z) = 5%nat.
Proof.
  intros H. unfold fmt5. rewrite app_length, repeat_length. unfold dec_print. destruct (Z.ltb_spec z 0); [lia|].
  pose proof (dec_nat_length 4 (S (Z.to_nat (Z.log2 z))) z). change (10 ^ Z.of_nat 5) with 100000 in *. lia.
Qed.

Lemma row_bar idx row n : 0 <= idx -> idx * 32 < 100000 ->
  Z.of_nat (bar_at (fmt5 (idx * 32) ++ x3a :: x20 :: hex_column 0 row ++ repeat x20 n ++ x20 :: x7c :: x20 :: ascii_column row)) =
  8 + 3 * Z.of_nat (length row) + Z.of_nat (length row) / 4 + Z.of_nat n.
Proof.
  intros I L.
  assert (E : fmt5 (idx * 32) ++ x3a :: x20 :: hex_column 0 row ++ repeat x20 n ++ x20 :: x7c :: x20 :: ascii_column row =
    (fmt5 (idx * 32) ++ x3a :: x20 :: hex_column 0 row ++ repeat x20 n ++ [x20]) ++ x7c :: x20 :: ascii_column row).
  { rewrite <- !app_assoc. cbn [app]. rewrite <- !app_assoc. reflexivity. }
  rewrite E, bar_prefix.
  - rewrite app_length, fmt5_length by lia. cbn [length]. rewrite !app_length, repeat_length. cbn [length]. pose proof (hex_column_length row 0 ltac:(lia)) as H. rewrite Z.add_0_l in H.
    change (0 / 4) with 0 in H. lia.
  - apply Forall_app. split; [eapply Forall_impl; [|apply fmt5_sober; lia]; intros c Q; cbv beta in Q; tauto|]. constructor; [discriminate|]. constructor; [discriminate|].
    apply Forall_app. split; [eapply Forall_impl; [|apply hex_column_sober]; intros c [Q _]; exact Q|].
    apply Forall_app. split; [eapply Forall_impl; [|apply spaces_sober]; intros c [Q _]; exact Q|]. constructor; [discriminate|constructor].
Qed.

Lemma rows_bars fuel : forall k buf idx mx, (length buf <= fuel)%nat -> length buf = (32 * k)%nat -> 0 <= idx -> (idx + Z.of_nat k) * 32 <= 100000 -> 0 <= mx <= 32 ->
  exists s, dump_rows fuel idx mx buf = Ret s /\ bars s = repeat 112%nat k.
Proof.
  induction fuel as [|fuel IH]; intros k buf idx mx L K I B M.
  - destruct buf; [|cbn in L; lia]. destruct k; [|cbn in K; lia]. exists []. split; reflexivity.
  - destruct k as [|k]; [destruct buf; [exists []; split; reflexivity|cbn in K; lia]|]. destruct buf as [|b buf]; [cbn in K; lia|]. cbn [dump_rows].
    assert (F : length (firstn 32 (b :: buf)) = 32%nat) by (apply firstn_length_le; lia).
    destruct (dump_row_is idx mx (firstn 32 (b :: buf)) I ltac:(lia) M) as (n & E & N). specialize (N ltac:(lia)). rewrite E. cbn [obind].
    destruct (IH k (skipn 32 (b :: buf)) (idx + 1) (Z.of_nat (length (firstn 32 (b :: buf))))) as (s & R & D); [rewrite skipn_length; cbn [length] in *; lia|rewrite skipn_length; lia|lia|lia|lia|].
    rewrite R. cbn [obind]. eexists. split; [reflexivity|]. unfold bars in *. rewrite row_line by exact I. cbn [map repeat]. rewrite D. f_equal.
    pose proof (row_bar idx (firstn 32 (b :: buf)) n I ltac:(lia)) as Q. rewrite F in Q. change (Z.of_nat 32 / 4) with 8 in Q. lia.
Qed.

Theorem dump_bars_pf data k : length data = (32 * k)%nat -> Z.of_nat (length data) <= 100000 -> exists s, dumpMessage data = Ret s /\ bars s = repeat 112%nat k.
Proof. intros H L. apply rows_bars; lia. Qed.
