(** * C220: the gateways a client lists

    [GetGatewaysToUse] and [GetActiveGateways] at any time in the life of a client
    ([ClientSpec.use_through]). *)
From Coq Require Import String List ZArith Bool Lia Permutation.
From Coq Require Import Init.Byte.
From Coq Require Strings.Byte.
From Verif Require Import Base BaseProofs Ids IdsProofs Json Crypto Message Offer Schema Messages WireSpec Payment PaymentSpec Register Client ClientSpec ClientProofs
  ClientFindProofs ClientLifeProofs OfferProofs GatewayProofs PropertiesMerkle PropertiesCrypto ToyGateway ToyClient.
Import ListNotations.
Open Scope Z_scope.

(** Identifiers given to [AddGatewaysToUse] have 32 bytes, as all constructors make them. *)
Definition well_named (h : calls) : Prop :=
  forall m e ids, In (m, e, CAddGateways ids) h -> forall i, In (Some i) ids -> id32 i.
(** A Go map may be visited in any order. *)
Definition any_order (e : cenv) : Prop := forall l, Permutation (ce_order e l) l.

Lemma aget_some_in {V} (l : list (gostring * V)) g : aget bytes_eqb l g <> None <-> In g (map fst l).
Proof.
  induction l as [|[k v] t IH]; cbn [aget map fst In]; [split; [congruence|intros []]|].
  destruct (bytes_eqb g k) eqn:E.
  - apply bytes_eqb_eq in E. subst. split; [auto|discriminate].
  - rewrite IH. split; [auto|]. intros [->|H]; [|exact H]. rewrite (proj2 (bytes_eqb_eq g g) eq_refl) in E. discriminate.
Qed.

(** The keys of a map whose keys are texts of identifiers. *)
Lemma key_ids_exact l : (forall g, In g l -> exists i, id32 i /\ g = ToString i) -> NoDup l ->
  NoDup (key_ids l) /\ length (key_ids l) = length l /\ forall i, In i (key_ids l) <-> id32 i /\ In (ToString i) l.
Proof.
  induction l as [|g t IH]; intros W N; cbn [key_ids].
  - split; [constructor|]. split; [reflexivity|]. intros i. split; [intros []|intros [_ []]].
  - destruct (W g (or_introl eq_refl)) as (i & Hi & ->). destruct (id_hex_roundtrip_pf i Hi) as (R & _). rewrite R.
    inversion N as [|? ? N1 N2]; subst. destruct (IH (fun g H => W g (or_intror H)) N2) as (A & L & B). split; [|split].
    + constructor; [|exact A]. intros H. apply B in H. exact (N1 (proj2 H)).
    + cbn [length]. rewrite L. reflexivity.
    + intros j. cbn [In]. rewrite B. split.
      * intros [<-|[H1 H2]]; auto.
      * intros [H1 [H2|H2]]; [left|right; auto]. destruct (id_hex_roundtrip_pf j H1) as (R' & _). rewrite <- H2, R in R'. injection R' as ->. reflexivity.
Qed.

Section properties.
  Variable version : Z.
  Variable supported : list Z.
  Variable sha256 : bytes -> bytes.
  Variable pub_of : bytes -> bytes.
  Variable ec_verify : bytes -> bytes -> bytes -> bool.
  Variable blake : bytes -> bytes.
  Variable voucher_text : voucher -> gostring.
  Variable rand_int : list draw -> Z.
  Variable rand_bytes : list draw -> bytes.
  Local Notation AddActive := (AddActiveGateways version supported sha256 pub_of ec_verify blake rand_bytes).
  Local Notation perform := (ClientSpec.perform version supported sha256 pub_of ec_verify blake voucher_text rand_int rand_bytes).
  Local Notation use_through := (ClientSpec.use_through version supported sha256 pub_of ec_verify blake voucher_text rand_int rand_bytes).
  Local Notation alive := (alive version supported sha256 pub_of ec_verify blake rand_bytes).

  Lemma used_from m e k c c' out g : NoDup (map fst (c_use c)) -> NoDup (map fst (c_active c)) -> perform e (with_manager c m) k = Ret (c', out) ->
    aget bytes_eqb (c_use c') g <> None -> aget bytes_eqb (c_use c) g <> None \/ exists ids i, k = CAddGateways ids /\ In (Some i) ids /\ g = ToString i.
  Proof.
    intros N1 N2 P U. set (c0 := with_manager c m) in *.
    assert (Same : c_use c' = c_use c0 -> aget bytes_eqb (c_use c) g <> None \/ exists ids i, k = CAddGateways ids /\ In (Some i) ids /\ g = ToString i) by (intros X; rewrite X in U; left; exact U).
    destruct k; cbn [ClientSpec.perform] in P.
    - step P. destruct v as [q c1]. apply ret_inj in P. injection P as <- <-. apply Same. apply (find_gateways_inv _ _ _ _ _ _ E).
    - step P. destruct v as [q c1]. apply ret_inj in P. injection P as <- <-. cbn [snd] in *. destruct (add_use_inv e ids 0 c0 q c1 N1 E) as (_ & _ & _ & _ & _ & _ & X).
      destruct (aget bytes_eqb (c_use c1) g) as [r|] eqn:Eg; [|destruct (U eq_refl)]. destruct (X g r Eg) as [Y|(i & I & -> & _)]; [left; change (c_use c) with (c_use c0); congruence|right; eauto].
    - step P. destruct v as [q c1]. apply ret_inj in P. injection P as <- <-. cbn [snd] in *. destruct (remove_use_inv ids c0 q c1 N1 N2 E) as (_ & _ & _ & _ & _ & F & G & _).
      left. destruct (aget bytes_eqb (c_use c) g) as [r|] eqn:Eg; [discriminate|]. exfalso. apply U.
      destruct (in_dec (list_eq_dec Coq.Strings.Byte.byte_eq_dec) g
        (map (fun o => match o with Some i => ToString i | None => [] end) (filter (fun o => match o with Some _ => true | None => false end) ids))) as [I|I].
      + apply in_map_iff in I. destruct I as (o & Eo & I). apply filter_In in I. destruct I as [I J]. destruct o as [i|]; [|discriminate]. apply F. exists i. auto.
      + destruct (G g) as [Q _]; [|rewrite Q; exact Eg]. intros (i & I1 & I2). apply I. apply in_map_iff. exists (Some i). split; [symmetry; exact I2|]. apply filter_In. auto.
    - apply ret_inj in P. injection P as <- <-. destruct (U eq_refl).
    - step P. destruct v as [[q c1] o]. apply ret_inj in P. injection P as <- <-. destruct (add_active_inv _ _ _ _ _ _ _ e ids 0 c0 q c1 o N2 E) as ((_ & _ & _ & X2) & _). apply Same. exact X2.
    - step P. destruct v as [q c1]. apply ret_inj in P. injection P as <- <-. destruct (remove_active_inv ids c0 q c1 N2 E) as ((_ & _ & _ & _ & X2) & _). apply Same. exact X2.
    - apply ret_inj in P. injection P as <- <-. apply Same. reflexivity.
    - step P. destruct v as [[q c1] o]. apply ret_inj in P. injection P as <- <-. apply Same. apply (d_use _ _ _ (proj1 (find_standard_inv _ _ _ _ _ _ _ _ _ _ _ _ _ _ E))).
    - step P. destruct v as [[q c1] o]. apply ret_inj in P. injection P as <- <-. apply Same. apply (d_use _ _ _ (proj1 (find_standard_v2_inv _ _ _ _ _ _ _ _ _ _ _ _ _ _ _ _ E))).
    - step P. destruct v as [[q c1] o]. apply ret_inj in P. injection P as <- <-. apply Same. apply (d_use _ _ _ (proj1 (find_dht_inv _ _ _ _ _ _ _ _ _ _ _ _ _ _ _ E))).
    - step P. destruct v as [[q c1] o]. apply ret_inj in P. injection P as <- <-. apply Same. apply (d_use _ _ _ (proj1 (find_dht_v2_inv _ _ _ _ _ _ _ _ _ _ _ _ _ _ _ _ _ E))).
    - step P. destruct v as [[q c1] o]. apply ret_inj in P. injection P as <- <-. apply Same. apply (d_use _ _ _ (proj1 (find_ack_inv _ _ _ _ _ _ _ _ _ _ _ _ _ _ E))).
  Qed.

  Lemma life_named H : forall h c c', incl h H -> well_named H -> alive H c -> use_through c h = Ret c' ->
    (forall g, aget bytes_eqb (c_use c) g <> None -> exists i, id32 i /\ g = ToString i) -> forall g, aget bytes_eqb (c_use c') g <> None -> exists i, id32 i /\ g = ToString i.
  Proof.
    induction h as [|[[m e] k] t IH]; intros c c' In0 W Al L K; cbn [ClientSpec.use_through] in L.
    - apply ret_inj in L. subst. exact K.
    - step L. destruct v as [c1 o]. cbn [fst] in L. destruct (perform_alive _ _ _ _ _ _ _ _ _ H m e k c c1 o (In0 _ (or_introl eq_refl)) Al E) as [A1 _].
      apply (IH c1 c' (fun x X => In0 x (or_intror X)) W A1 L). intros g U. destruct (used_from m e k c c1 o g (proj1 (a_nodup _ _ _ _ _ _ _ _ _ Al)) (proj2 (a_nodup _ _ _ _ _ _ _ _ _ Al)) E U) as [U0|(ids & i & -> & I & ->)]; [apply K, U0|].
      exists i. split; [|reflexivity]. apply (W m e ids); [apply In0; left; reflexivity|exact I].
  Qed.

  (** At any time the lists have each gateway in use and each active gateway exactly once, and nothing
      else; every active gateway is also in the other list. *)
  Theorem gateways_listed : forall id ttl search offer topup m h c e, use_through (NewClient id ttl search offer topup m) h = Ret c -> well_named h -> any_order e ->
    NoDup (GetGatewaysToUse e c) /\ NoDup (GetActiveGateways e c) /\
    length (GetGatewaysToUse e c) = length (c_use c) /\ length (GetActiveGateways e c) = length (c_active c) /\
    (forall i, In i (GetGatewaysToUse e c) <-> id32 i /\ aget bytes_eqb (c_use c) (ToString i) <> None) /\
    (forall i, In i (GetActiveGateways e c) <-> id32 i /\ aget bytes_eqb (c_active c) (ToString i) <> None) /\
    incl (GetActiveGateways e c) (GetGatewaysToUse e c).
  Proof.
    intros id ttl s o t m h c e L W Or.
    destruct (life_alive _ _ _ _ _ _ _ _ _ h h _ _ (incl_refl h) (fresh_alive _ _ _ _ _ _ _ h id ttl s o t m) L) as [[[N1 N2] _ Al] _].
    assert (K := life_named h h _ _ (incl_refl h) W (fresh_alive _ _ _ _ _ _ _ h id ttl s o t m) L ltac:(intros g X; destruct (X eq_refl))).
    assert (One : forall l : list (gostring * reg), NoDup (map fst l) -> (forall g, In g (map fst l) -> exists i, id32 i /\ g = ToString i) ->
      NoDup (key_ids (map fst (ce_order e l))) /\ length (key_ids (map fst (ce_order e l))) = length l /\ forall i, In i (key_ids (map fst (ce_order e l))) <-> id32 i /\ aget bytes_eqb l (ToString i) <> None).
    { intros l N Wl. assert (Pm := Permutation_map fst (Or l)). destruct (key_ids_exact (map fst (ce_order e l))) as (A & B & C).
      - intros g I. apply Wl. exact (Permutation_in _ Pm I).
      - exact (Permutation_NoDup (Permutation_sym Pm) N).
      - split; [exact A|]. split; [rewrite B, map_length; apply Permutation_length, Or|]. intros i. rewrite C, aget_some_in. split; intros [X Y]; (split; [exact X|]).
        + exact (Permutation_in _ Pm Y).
        + exact (Permutation_in _ (Permutation_sym Pm) Y). }
    assert (Sub : forall g, aget bytes_eqb (c_active c) g <> None -> aget bytes_eqb (c_use c) g <> None).
    { intros g X. destruct (aget bytes_eqb (c_active c) g) as [r|] eqn:E; [|destruct (X eq_refl)]. destruct (Al g r E) as [Y _]. congruence. }
    destruct (One (c_use c) N1) as (A1 & A2 & A3); [intros g I; apply K, aget_some_in, I|].
    destruct (One (c_active c) N2) as (B1 & B2 & B3); [intros g I; apply K, Sub, aget_some_in, I|].
    split; [exact A1|]. split; [exact B1|]. split; [exact A2|]. split; [exact B2|]. split; [exact A3|]. split; [exact B3|].
    intros i I. apply A3. apply B3 in I. split; [apply I|apply Sub, I].
  Qed.
End properties.
Print Assumptions gateways_listed.

(** A client that uses 10, 20 and 30, of which 10 and 20 are active; then without 20. *)
Example listed_ex :
  (GetGatewaysToUse (cworld []) active, GetActiveGateways (cworld []) active) = ([idn 10; idn 20; idn 30], [idn 10; idn 20]) /\
  match RemoveGatewaysToUse active [Some (idn 20)] with
  | Ret (k, c) => (k, GetGatewaysToUse (cworld []) c, GetActiveGateways (cworld []) c) = (1, [idn 10; idn 30], [idn 10])
  | _ => False
  end.
Proof. vm_compute. split; reflexivity. Qed.
