(** * Proofs about the wire form of Merkle proofs *)
From Coq Require Import List ZArith Bool Lia.
From Coq Require Import Init.Byte.
From Coq Require Import ZifyBool ZifyNat.
From Verif Require Import Base BaseProofs Ids Json JsonProofs Merkle MerkleWire.
Import ListNotations.
Open Scope Z_scope.

Lemma dec_bytes_enc b : dec_bytes (JStr (b64_encode b)) = Some b.
Proof. cbn [dec_bytes]. now rewrite b64_roundtrip. Qed.

Lemma unmarshal_json {A} (dec : json -> option A) zero j : no_float j = true -> j <> JNull ->
  unmarshal dec zero (json_print j) = dec j.
Proof. intros H Hn. unfold unmarshal. rewrite json_roundtrip by exact H. destruct j; congruence. Qed.

Lemma unmarshal_path p : unmarshal (dec_list dec_bytes []) [] (json_print (json_path p)) = Some p.
Proof.
  destruct p as [|b t]; [reflexivity|]. unfold json_path.
  rewrite unmarshal_json; [| |discriminate].
  - cbn [dec_list]. induction (b :: t) as [|x l IH]; [reflexivity|].
    cbn [map dec_elems]. rewrite dec_bytes_enc. now rewrite IH.
  - cbn [no_float]. induction (b :: t) as [|x l IH]; [reflexivity|]. cbn. exact IH.
Qed.

Lemma unmarshal_index l : Forall (fun z => - 2 ^ 63 <= z <= 2 ^ 63 - 1) l ->
  unmarshal (dec_list dec_i64 0) [] (json_print (json_index l)) = Some l.
Proof.
  intros H. destruct l as [|b t]; [reflexivity|]. unfold json_index.
  rewrite unmarshal_json; [|  |discriminate].
  - cbn [dec_list]. induction H as [|x l Hx Hl IH]; [reflexivity|].
    cbn [map dec_elems].
    assert (E : dec_i64 (JNum x) = Some x).
    { unfold dec_i64, dec_int. replace (_ && _) with true; [reflexivity|].
      symmetry. apply andb_true_iff. split; apply Z.leb_le; tauto. }
    rewrite E, IH. reflexivity.
  - cbn [no_float]. clear. induction (b :: t) as [|x l IH]; [reflexivity|]. cbn. exact IH.
Qed.

Lemma slice_to_app a b n : Z.of_nat (length a) = n -> slice_to (a ++ b) n = Ret a.
Proof.
  intros <-. unfold slice_to. rewrite app_length.
  replace (_ && _) with true by lia. rewrite Nat2Z.id, firstn_app, Nat.sub_diag, firstn_all.
  cbn. now rewrite app_nil_r.
Qed.
Lemma slice_from_app a b n : Z.of_nat (length a) = n -> slice_from (a ++ b) n = Ret b.
Proof.
  intros <-. unfold slice_from. rewrite app_length.
  replace (_ && _) with true by lia. rewrite Nat2Z.id, skipn_app, Nat.sub_diag, skipn_all. reflexivity.
Qed.

Lemma json_print_nonempty j : no_float j = true -> (0 < length (json_print j))%nat.
Proof. intros H. destruct (print_first j H) as (c & t & -> & _). cbn. lia. Qed.

Lemma path_no_float p : no_float (json_path p) = true.
Proof.
  destruct p as [|b t]; [reflexivity|]. unfold json_path. cbn [no_float].
  induction (b :: t) as [|x l IH]; [reflexivity|]. cbn. exact IH.
Qed.
Lemma index_no_float p : no_float (json_index p) = true.
Proof.
  destruct p as [|b t]; [reflexivity|]. unfold json_index. cbn [no_float].
  induction (b :: t) as [|x l IH]; [reflexivity|]. cbn. exact IH.
Qed.

Lemma proof_wire_roundtrip_pf mp :
  Forall (fun z => - 2 ^ 63 <= z <= 2 ^ 63 - 1) (p_index mp) ->
  Z.of_nat (length (json_print (json_path (p_path mp)))) < 2 ^ 32 ->
  Z.of_nat (length (json_print (json_index (p_index mp)))) < 2 ^ 32 ->
  UnmarshalProof (MarshalProof mp) = Ret (OkR mp).
Proof.
  intros Hi H1 H2. destruct mp as [path index]. cbn [p_path p_index] in *.
  unfold UnmarshalProof, MarshalProof. cbn [p_path p_index].
  unfold json_bytes. rewrite unmarshal_json; [|reflexivity|discriminate]. rewrite dec_bytes_enc.
  assert (Lp := json_print_nonempty _ (path_no_float path)).
  assert (Li := json_print_nonempty _ (index_no_float index)).
  set (pb := json_print (json_path path)) in *. set (ib := json_print (json_index index)) in *.
  assert (L4 : forall z, length (be_bytes 4 z) = 4%nat) by (intro; apply be_bytes_length).
  replace (Nat.leb _ 4) with false.
  2:{ symmetry. apply Nat.leb_gt. rewrite !app_length, L4. lia. }
  rewrite slice_to_app by now rewrite L4. cbn [obind].
  rewrite slice_from_app by now rewrite L4. cbn [obind].
  rewrite be_val_be_bytes by (change (256 ^ Z.of_nat 4) with (2 ^ 32); lia).
  replace (_ <=? Z.of_nat (length pb)) with false.
  2:{ symmetry. apply Z.leb_gt. rewrite !app_length, L4. lia. }
  rewrite slice_to_app by reflexivity. cbn [obind].
  rewrite slice_from_app by reflexivity. cbn [obind].
  unfold pb at 1. rewrite unmarshal_path.
  replace (Nat.leb _ 4) with false.
  2:{ symmetry. apply Nat.leb_gt. rewrite !app_length, L4. lia. }
  rewrite slice_to_app by now rewrite L4. cbn [obind].
  rewrite slice_from_app by now rewrite L4. cbn [obind].
  rewrite be_val_be_bytes by (change (256 ^ Z.of_nat 4) with (2 ^ 32); lia).
  rewrite Z.eqb_refl. cbn [negb]. unfold ib. rewrite unmarshal_index by exact Hi. reflexivity.
Qed.

Lemma proof_wire_total_pf p : exists r, UnmarshalProof p = Ret r.
Proof.
  unfold UnmarshalProof.
  destruct (unmarshal dec_bytes [] p) as [cur|]; [|eauto].
  destruct (Nat.leb_spec (length cur) 4); [eauto|].
  unfold slice_to at 1. replace (_ && _) with true by lia. cbn [obind].
  unfold slice_from at 1. replace (_ && _) with true by lia. cbn [obind].
  set (cur1 := skipn (Z.to_nat 4) cur). set (d1 := firstn (Z.to_nat 4) cur).
  destruct (Z.of_nat (length cur1) <=? be_val d1) eqn:E; [eauto|].
  assert (0 <= be_val d1) by (generalize (be_val_range d1); lia).
  unfold slice_to at 1. replace (_ && _) with true by lia. cbn [obind].
  unfold slice_from at 1. replace (_ && _) with true by lia. cbn [obind].
  destruct (unmarshal (dec_list dec_bytes []) [] _) as [path|]; [|eauto].
  set (cur2 := skipn (Z.to_nat (be_val d1)) cur1).
  destruct (Nat.leb_spec (length cur2) 4); [eauto|].
  unfold slice_to at 1. replace (_ && _) with true by lia. cbn [obind].
  unfold slice_from at 1. replace (_ && _) with true by lia. cbn [obind].
  destruct (negb _); [eauto|]. destruct (unmarshal _ _ _); eauto.
Qed.
