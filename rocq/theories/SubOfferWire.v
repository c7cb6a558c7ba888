(** * Generated sub-offers go over the wire

    The proof in a sub-offer is as long as the tree is high, so it is far below the 4 GiB
    that its length fields allow. *)
From Coq Require Import List ZArith Bool Lia.
From Coq Require Import Init.Byte.
From Verif Require Import Base BaseProofs Ids Json Merkle MerkleProofs MerkleWire Crypto Offer OfferProofs Schema Messages WireSpec.
Import ListNotations.
Open Scope Z_scope.

(** ** Lengths of printed values *)

Lemma esc_len c : (length (esc_char c) <= 6)%nat.
Proof. unfold esc_char. repeat (destruct (_ : bool); cbn [length]; try lia). Qed.
Lemma str_len s : (length (print_str s) <= 6 * length s + 2)%nat.
Proof.
  unfold print_str. cbn [length]. rewrite app_length. cbn [length].
  induction s as [|c s IH]; [cbn; lia|]. cbn [flat_map length]. rewrite app_length. pose proof (esc_len c). lia.
Qed.
Lemma b64_len n : forall l, (length l <= n)%nat -> (length (b64_encode l) <= 4 * length l)%nat.
Proof.
  induction n as [|n IH]; intros l L; destruct l as [|a [|b [|c t]]]; try (cbn in *; lia).
  cbn [b64_encode length] in *. specialize (IH t). lia.
Qed.
Lemma join_len k l : Forall (fun s => (length s <= k)%nat) l -> (length (join_commas l) <= length l * S k)%nat.
Proof.
  induction 1 as [|s l H F IH]; [cbn; lia|]. destruct l as [|s' l]; [cbn; lia|].
  change (join_commas (s :: s' :: l)) with (s ++ x2c :: join_commas (s' :: l)). rewrite app_length. cbn [length] in *. lia.
Qed.

Lemma path_len k p : (length p <= k)%nat -> Forall (fun b => length b = 32%nat) p -> (length (json_print (json_path p)) <= k * 771 + 4)%nat.
Proof.
  intros L F. unfold json_path. destruct p as [|b p]; [cbn; lia|]. set (q := b :: p) in *. cbn [json_print length]. rewrite app_length, map_map. cbn [length].
  assert (J := join_len 770 (map (fun b => json_print (JStr (b64_encode b))) q)). rewrite map_length in J.
  assert (length (join_commas (map (fun b => json_print (JStr (b64_encode b))) q)) <= length q * 771)%nat as B.
  2:{ rewrite Nat.add_comm. match goal with |- (S (1 + length ?a) <= _)%nat => change (length a) with (length (join_commas (map (fun b => json_print (JStr (b64_encode b))) q))) end. lia. }
  apply J. apply Forall_map. eapply Forall_impl; [|exact F]. intros a A. cbn [json_print].
  pose proof (str_len (b64_encode a)). pose proof (b64_len _ a (le_n _)). cbn beta in *. lia.
Qed.
Lemma index_len k p : (length p <= k)%nat -> Forall (fun z => z = 0 \/ z = 1) p -> (length (json_print (json_index p)) <= k * 2 + 4)%nat.
Proof.
  intros L F. unfold json_index. destruct p as [|b p]; [cbn; lia|]. set (q := b :: p) in *. cbn [json_print length]. rewrite app_length, map_map. cbn [length].
  assert (J := join_len 1 (map (fun z => json_print (JNum z)) q)). rewrite map_length in J.
  assert (length (join_commas (map (fun z => json_print (JNum z)) q)) <= length q * 2)%nat as B.
  2:{ rewrite Nat.add_comm. match goal with |- (S (1 + length ?a) <= _)%nat => change (length a) with (length (join_commas (map (fun z => json_print (JNum z)) q))) end. lia. }
  apply J. apply Forall_map. eapply Forall_impl; [|exact F]. intros a [->| ->]; vm_compute; lia.
Qed.

(** ** Proofs are as long as the tree is high *)

Section wire.
  Variable hash : bytes -> bytes.
  Hypothesis hash32 : forall x, length (hash x) = 32%nat.
  Local Notation is32 := (fun b : bytes => length b = 32%nat).

  Lemma chain_height k : forall ls, chain hash ls -> (length (hd [] ls) <= 2 ^ S k)%nat -> (length ls <= S (S k))%nat.
  Proof.
    induction k as [|k IH]; intros ls C L.
    - destruct C as [l H|l rest H C]; [cbn; lia|]. cbn [hd] in L. cbn in L. lia.
    - destruct C as [l H|l rest H C]; [cbn; lia|]. cbn [hd] in L. cbn [length].
      assert (length (pair_up hash l :: rest) <= S (S k))%nat; [|cbn [length] in *; lia]. apply IH; [exact C|]. cbn [hd].
      rewrite pair_up_length. apply Nat.lt_succ_r, Nat.div_lt_upper_bound; [lia|]. rewrite !Nat.pow_succ_r' in *. lia.
  Qed.

  Lemma nth_32 j l d : Forall is32 l -> is32 d -> is32 (nth j l d).
  Proof. intros F D. destruct (nth_in_or_default j l d) as [I| ->]; [|exact D]. rewrite Forall_forall in F. apply F, I. Qed.

  Lemma climb_wire ls : chain hash ls -> Forall is32 (hd [] ls) -> forall i, (i < length (hd [] ls))%nat -> forall cur,
    (length (fst (climb ls i cur)) < length ls)%nat /\ (length (snd (climb ls i cur)) < length ls)%nat /\
    Forall is32 (fst (climb ls i cur)) /\ Forall (fun z => z = 0 \/ z = 1) (snd (climb ls i cur)).
  Proof.
    induction 1 as [l H|l rest H C IH]; intros F i Li cur; cbn [hd] in *.
    - cbn [climb fst snd length hd]. assert (E : (i / 2 = 0)%nat) by (apply Nat.div_small; lia). rewrite E.
      assert (L0 : is32 (nth (2 * 0) l [])). { rewrite Forall_forall in F. apply F, nth_In. lia. }
      destruct (bytes_eqb _ _); cbn [fst snd]; (split; [lia|]); (split; [lia|]); (split; constructor; auto using nth_32).
    - change (climb (l :: pair_up hash l :: rest) i cur) with
        (let j := (i / 2)%nat in
         let left := nth (2 * j) l [] in
         let right := nth (2 * j + 1) l left in
         let here := if bytes_eqb left cur then (right, 1) else (left, 0) in
         let rest' := climb (pair_up hash l :: rest) j (nth j (hd [] (pair_up hash l :: rest)) []) in
         (fst here :: fst rest', snd here :: snd rest')).
      cbv zeta. cbn [fst snd length hd].
      assert (L0 : is32 (nth (2 * (i / 2)) l [])).
      { rewrite Forall_forall in F. apply F, nth_In. pose proof (Nat.div_mod i 2). lia. }
      assert (Lj : (i / 2 < length (pair_up hash l))%nat).
      { rewrite pair_up_length. apply Nat.div_lt_upper_bound; [lia|]. pose proof (Nat.div_mod (length l + 1) 2). pose proof (Nat.mod_upper_bound (length l + 1) 2). lia. }
      destruct (IH (pair_up_32 hash hash32 l) _ Lj (nth (i / 2) (pair_up hash l) [])) as (A & B & D & E).
      cbn [length] in A, B. split; [lia|]. split; [lia|].
      destruct (bytes_eqb _ _); cbn [fst snd]; split; constructor; auto using nth_32.
  Qed.

  Lemma find_leaf_lt leafs c i : find_leaf leafs c = Some i -> (i < length leafs)%nat.
  Proof.
    revert i. induction leafs as [|x t IH]; intros i; cbn [find_leaf length]; [discriminate|]. destruct (ContentIDEquals x c); [intros [= <-]; lia|].
    destruct (find_leaf t c) as [j|]; [|discriminate]. intros [= <-]. specialize (IH j eq_refl). lia.
  Qed.

  Lemma generated_proof_wire ids t c : Forall is32 ids -> Z.of_nat (length ids) < 2 ^ 63 -> CreateMerkleTree hash ids = Ret (OkR t) ->
    wire_proof (GenerateMerkleProof t c).
  Proof.
    intros F L E. assert (N : ids <> []) by (intros ->; discriminate E).
    destruct (create_tree hash ids N) as (rest & E' & C). rewrite E in E'. injection E' as ->.
    unfold GenerateMerkleProof. cbn [t_leafs t_levels]. destruct (find_leaf (padded ids) c) as [i|] eqn:Fi.
    2:{ unfold wire_proof. cbn [p_path p_index]. split; [apply Forall_nil|]. split; vm_compute; reflexivity. }
    apply find_leaf_lt in Fi. set (ls := padded ids :: rest) in *.
    assert (F' : Forall is32 (hd [] ls)). { unfold ls. cbn [hd]. apply Forall_forall. intros x X. rewrite Forall_forall in F. apply F, (proj1 (padded_in hash ids x)), X. }
    destruct (climb_wire ls C F' i Fi (nth i (hd [] ls) [])) as (A & B & D & I).
    assert (H : (length ls <= 66)%nat).
    { apply (chain_height 64 ls C). cbn [ls hd].
      assert (P : (length (padded ids) <= length ids + 1)%nat).
      { destruct ids as [|a u]; [congruence|]. unfold padded. destruct (Nat.odd _); rewrite ?app_length; cbn [length]; lia. }
      apply Nat2Z.inj_le. rewrite Nat2Z.inj_pow. change (Z.of_nat 2) with 2. change (Z.of_nat 65) with 65.
      assert (2 ^ 63 + 1 <= 2 ^ 65) by (vm_compute; discriminate). lia. }
    assert (P1 := path_len 65 (fst (climb ls i (nth i (hd [] ls) []))) ltac:(lia) D).
    assert (P2 := index_len 65 (snd (climb ls i (nth i (hd [] ls) []))) ltac:(lia) I).
    unfold wire_proof. cbn [p_path p_index]. split; [|split].
    - eapply Forall_impl; [|exact I]. intros z [->| ->]; unfold int64; lia.
    - change (2 ^ 32) with 4294967296. lia.
    - change (2 ^ 32) with 4294967296. lia.
  Qed.

  (** Offers with as many identifiers as a Go slice can have. *)
  Lemma generated_suboffer_wire o c : wire_offer hash o -> Z.of_nat (length (o_cids o)) < 2 ^ 63 -> id32 c -> wire_suboffer (GenerateSubCIDOffer o c).
  Proof.
    intros (p & ids & price & expiry & qos & o0 & Hp & Hi & H1 & H2 & H3 & N & ->) L C. apply new_offer_shape in N. destruct N as (_ & t & T & ->).
    cbn [o_cids] in L. unfold GenerateSubCIDOffer. cbn [o_provider o_cids o_price o_expiry o_qos o_sig o_root o_tree].
    split; [exists p, c; cbn [s_provider s_cid]; auto|]. cbn [s_price s_expiry s_qos s_proof]. split; [exact H1|]. split; [exact H2|]. split; [exact H3|].
    eapply generated_proof_wire; [exact Hi|exact L|exact T].
  Qed.
End wire.
