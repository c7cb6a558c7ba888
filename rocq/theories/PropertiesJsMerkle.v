(** * C207, C208: the Merkle trees of the TypeScript client, and Go's over the same texts

    [sha256] is any function; where its output length matters that is a hypothesis. *)
From Coq Require Import String List ZArith Bool Lia.
From Coq Require Import Init.Byte.
From Verif Require Import Base BaseProofs Merkle JsMerkle JsMerkleProofs PropertiesMerkle.
Import ListNotations.
Open Scope Z_scope.

(** ** C207 *)

(** Every list of contents gives a tree, and the proof made for any of them verifies against its root.  The array of the caller keeps its elements; if its length is
    odd it ends up with a second copy of the last one, and otherwise as it was. *)
Theorem js_merkle_complete : forall sha256 texts, exists t texts', js_new_tree sha256 texts = Ret (t, texts') /\
  (forall c, In c texts -> js_verify sha256 (js_proof sha256 t c) (sha256 c) (js_root t) = true) /\
  (Nat.Even (length texts) -> texts' = texts) /\
  (forall pre c, texts = pre ++ [c] -> Nat.Odd (length texts) -> texts' = texts ++ [c]).
Proof.
  intros sha256 texts. destruct (complete_pf sha256 texts) as (t & C & V). exists t, (filled texts). split; [exact C|]. split; [exact V|]. split.
  - intros E. unfold filled. apply Nat.even_spec in E. rewrite <- Nat.negb_even, E. reflexivity.
  - intros pre c -> O. unfold filled. apply Nat.odd_spec in O. rewrite O. rewrite last_last. reflexivity.
Qed.
Print Assumptions js_merkle_complete.

(** A tree made again from the same array, now extended, is the same, and leaves the array alone. *)
Theorem js_merkle_again : forall sha256 texts t texts', js_new_tree sha256 texts = Ret (t, texts') -> js_new_tree sha256 texts' = Ret (t, texts').
Proof.
  intros sha256 texts t texts' H. destruct (new_tree_layered sha256 texts) as (t1 & C & _). rewrite H in C. injection C as <- ->.
  assert (filled (filled texts) = filled texts) as F by (unfold filled at 1; rewrite filled_even; reflexivity).
  unfold js_new_tree in *. rewrite F. exact H.
Qed.
Print Assumptions js_merkle_again.

(** A proof that verifies is for a node of the tree; or two different values with the same hash are known; or a content of the tree begins or ends
    with the hash in question or another one. *)
Theorem js_merkle_sound_partial : forall (sha256 : bytes -> bytes) texts t texts' proof h,
  (forall x, length (sha256 x) = 32%nat) -> length h = 32%nat -> texts <> [] -> js_new_tree sha256 texts = Ret (t, texts') ->
  js_verify sha256 proof h (js_root t) = true ->
  In h (concat t) \/ (exists u v, u <> v /\ sha256 u = sha256 v) \/
  exists c w d, In c texts /\ (c = w ++ d \/ c = d ++ w) /\ (w = h \/ exists z, w = sha256 z).
Proof.
  intros sha256 texts t texts' proof h S32 H32 N C V. destruct (new_tree_layered sha256 texts) as (t1 & C1 & _).
  assert (texts' = filled texts) as -> by congruence. eapply sound_pf; eassumption.
Qed.
Print Assumptions js_merkle_sound_partial.

(** Refuted: the hash need not be that of a content.  The hash of the first two leaves together is accepted, though it is the hash of none of the contents. *)
Definition texts4 : list gostring := map gs ["a"; "b"; "c"; "d"]%string.
Definition tree4 : js_tree := Eval vm_compute in match js_new_tree toy_hash texts4 with Ret (t, _) => t | _ => [] end.
Definition inner4 : bytes := Eval vm_compute in nth 0 (nth 1 tree4 []) [].
Definition outer4 : bytes := Eval vm_compute in nth 1 (nth 1 tree4 []) [].
Theorem js_merkle_sound_refuted : js_new_tree toy_hash texts4 = Ret (tree4, texts4) /\ js_verify toy_hash [(false, outer4)] inner4 (js_root tree4) = true /\
  ~ In inner4 (map toy_hash texts4) /\ NoDup (map toy_hash texts4).
Proof.
  split; [vm_compute; reflexivity|]. split; [vm_compute; reflexivity|]. split.
  - vm_compute. intros [H|[H|[H|[H|[]]]]]; discriminate H.
  - vm_compute. repeat constructor; cbn; intuition discriminate.
Qed.
Print Assumptions js_merkle_sound_refuted.

(** ** C208 *)

(** Refuted: for five texts the two trees have different roots.  The tests of the repository show it with the same five texts: tree_test.go L48 expects 93fe...,
    tree.class.test.ts L19 934b.... *)
Definition texts5 : list gostring := map gs ["01"; "02"; "03"; "04"; "05"]%string.
Theorem js_merkle_agrees_refuted : exists t texts' g, js_new_tree toy_hash texts5 = Ret (t, texts') /\ adapter_tree toy_hash texts5 = Ret (OkR g) /\ GetMerkleRoot g <> js_root t.
Proof. eexists _, _, _. split; [vm_compute; reflexivity|]. split; [vm_compute; reflexivity|]. vm_compute. discriminate. Qed.
Print Assumptions js_merkle_agrees_refuted.

(** They agree when the number of texts, rounded up to an even number, is a power of two. *)
Theorem js_merkle_agrees_partial : forall sha256 texts k n, n = length texts -> (n = 2 ^ S k \/ n = 2 ^ S k - 1)%nat ->
  exists t texts' g, js_new_tree sha256 texts = Ret (t, texts') /\ adapter_tree sha256 texts = Ret (OkR g) /\ GetMerkleRoot g = js_root t.
Proof.
  intros sha256 texts k n -> H. destruct (agrees_pf sha256 texts k) as (t & g & C & A & R); [|exists t, (filled texts), g; auto].
  pose proof (pow_pos k). assert (2 ^ S k = 2 * 2 ^ k)%nat as D by reflexivity. unfold filled.
  destruct H as [H|H].
  - rewrite H, D, Nat.odd_mul. cbn [Nat.odd Nat.even negb andb]. exact H.
  - replace (Nat.odd (length texts)) with true; [rewrite app_length, H; cbn [length]; lia|]. symmetry. apply Nat.odd_spec. exists (2 ^ k - 1)%nat. lia.
Qed.
Print Assumptions js_merkle_agrees_partial.

(** They agree for no other number, unless SHA-256 fails: two different values have the same hash, or one of the texts is itself made of two hashes. *)
Theorem js_merkle_differs : forall sha256 texts t texts' g, (forall x, length (sha256 x) = 32%nat) -> texts <> [] ->
  js_new_tree sha256 texts = Ret (t, texts') -> adapter_tree sha256 texts = Ret (OkR g) -> GetMerkleRoot g = js_root t ->
  (exists k, length texts = 2 ^ S k \/ length texts = 2 ^ S k - 1)%nat \/
  (exists u v, u <> v /\ sha256 u = sha256 v) \/ exists c x y, In c texts /\ c = sha256 x ++ sha256 y.
Proof.
  intros sha256 texts t texts' g S32 N C A R. destruct (new_tree_layered sha256 texts) as (t1 & C1 & _).
  assert (texts' = filled texts) as -> by (rewrite C in C1; injection C1 as <- ->; reflexivity).
  destruct (differs_pf sha256 texts S32 t g N C A R) as [(k & K)|F]; [left|right; exact F]. exists k. unfold filled in K.
  destruct (Nat.odd (length texts)); [right|left; exact K]. rewrite app_length in K. destruct texts as [|c r]; [congruence|].
  cbn [length last] in *. lia.
Qed.
Print Assumptions js_merkle_differs.

(** ** Examples *)
Definition js_report (texts : list gostring) : option (list nat * nat * bool) :=
  match js_new_tree toy_hash texts, adapter_tree toy_hash texts with
  | Ret (t, texts'), Ret (OkR g) => Some (map (fun c => length (js_proof toy_hash t c)) texts, length texts', bytes_eqb (GetMerkleRoot g) (js_root t))
  | _, _ => None
  end.
(** Five texts: the proof for the last skips the layer where its node has no neighbour; the array has grown to six.  With four, three, two and one the roots agree. *)
Example js_five : js_report texts5 = Some ([3; 3; 3; 3; 2]%nat, 6%nat, false).
Proof. vm_compute. reflexivity. Qed.
Example js_small : map (fun n => option_map snd (js_report (firstn n texts5))) [1; 2; 3; 4]%nat = [Some true; Some true; Some true; Some true].
Proof. vm_compute. reflexivity. Qed.
Example js_verified : match js_new_tree toy_hash texts5 with
  | Ret (t, _) => (js_verify toy_hash (js_proof toy_hash t (gs "05")) (toy_hash (gs "05")) (js_root t), js_verify toy_hash (js_proof toy_hash t (gs "05")) (toy_hash (gs "04")) (js_root t),
                   js_verify toy_hash (js_proof toy_hash t (gs "05")) (toy_hash (gs "05")) (gs "0x" ++ js_root t), js_proof toy_hash t (gs "06"))
  | _ => (false, false, false, []) end = (true, false, true, []).
Proof. vm_compute. reflexivity. Qed.
