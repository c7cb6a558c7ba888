(** * Everything a provider has published: theorem *)
From Coq Require Import List ZArith Bool Permutation.
From Coq Require Import Init.Byte.
From Verif Require Import Base BaseProofs Ids IdsProofs Json Crypto Message Offer OfferProofs Schema Messages WireSpec
  Ring Register OfferStore OfferStoreSpec OfferStoreProofs Rest Gateway GatewaySpec GatewayProofs
  Provider ProviderSpec ProviderProofs ProviderLifeProofs ProviderListProofs ProviderServeProofs ProviderAckProofs ProviderAllProofs
  PropertiesMerkle PropertiesCrypto ToyGateway ToyProvider PropertiesProvider.
Import ListNotations.
Open Scope Z_scope.

Section all.
  Variable version : Z.
  Variable supported : list Z.
  Variable sha256 sha512_256 : bytes -> bytes.
  Variable pub_of : bytes -> bytes.
  Variable ec_sign : bytes -> bytes -> option bytes.
  Variable ec_verify : bytes -> bytes -> bytes -> bool.
  Variable blake : bytes -> bytes.

  (** The administrator naming no gateway is shown what is published at any, in some order; all of it was ordered. *)
  Theorem all_published_shown : forall reg ss p e m,
    ecdsa_correct pub_of ec_sign ec_verify -> int32 version -> Forall int32 supported -> sized sha256 ss ->
    lived version supported sha256 sha512_256 pub_of ec_sign ec_verify blake (NewProvider reg) ss p -> ready ec_sign blake p -> shuffle (pe_listed e) ->
    DecodeProviderAdminGetPublishedOfferRequest sha256 m = Ret (OkR []) ->
    exists r l ids, HandleAdminGetPublished version supported sha256 ec_sign blake e p m = Ret (PServed p [Json r] []) /\ own pub_of ec_verify blake p r /\
      DecodeProviderAdminGetPublishedOfferResponse sha256 r = Ret (OkR (negb (is_nil l), Some l)) /\
      Permutation l (flat_map (published p) ids) /\ NoDup ids /\ (forall id, In id ids <-> id32 id /\ published p id <> []) /\
      forall o, In o l -> exists s, In s ss /\ ordered sha256 pub_of ec_verify blake s o.
  Proof.
    intros reg ss p e m Law V1 V2 Sz L R Sh D.
    pose proof (published_from version supported sha256 sha512_256 pub_of ec_sign ec_verify blake reg ss p Law (conj V1 V2) Sz L) as P.
    pose proof (lived_tidy version supported sha256 sha512_256 pub_of ec_sign ec_verify blake (conj V1 V2) ss _ _ L (new_tidy reg)) as T.
    destruct (tidy_ids _ T) as (ids & A & B & C). pose proof (flat_published _ ids (proj1 T) A) as F.
    assert (Pm : Permutation (flat_map snd (pe_listed e (p_published p))) (flat_map (published p) ids)).
    { unfold published at 1. fold (published p). change (flat_map (published p) ids) with (flat_map (fun id => match aget bytes_eqb (p_published p) (ToString id) with Some l => l | None => [] end) ids).
      rewrite <- F. apply Permutation_flat_map. apply Permutation_sym. apply Sh. }
    assert (W : Forall (wire_offer sha256) (flat_map snd (pe_listed e (p_published p)))).
    { apply Forall_forall. intros o I. apply (Permutation_in _ Pm) in I. apply in_flat_map in I. destruct I as (id & I & J). rewrite Forall_forall in B. exact (proj1 (P id o (B id I) J)). }
    destruct (all_published_pf version supported sha256 pub_of ec_sign ec_verify blake e p m _ Law R W eq_refl D) as (r & H1 & H2 & H3).
    exists r, (flat_map snd (pe_listed e (p_published p))), ids. split; [exact H1|]. split; [exact H2|]. split; [exact H3|]. split; [exact Pm|]. split; [exact C|]. split.
    - intros id. rewrite Forall_forall in B. split.
      + intros I. split; [exact (B id I)|]. assert (X : In (ToString id) (map fst (p_published p))) by (rewrite A; apply in_map; exact I).
        apply in_map_iff in X. destruct X as ([k l] & Ek & X). cbn in Ek. subst k. destruct (proj2 T _ _ X) as [N _]. unfold published.
        destruct (aget bytes_eqb (p_published p) (ToString id)) as [l'|] eqn:G.
        * apply (aget_In bytes_eqb bytes_eqb_eq) in G. exact (proj1 (proj2 T _ _ G)).
        * exfalso. apply (aget_None bytes_eqb bytes_eqb_eq) in G. apply G. apply in_map_iff. exists (ToString id, l). auto.
      + intros [I N]. unfold published in N. destruct (aget bytes_eqb (p_published p) (ToString id)) as [l|] eqn:G; [|congruence].
        apply (aget_In bytes_eqb bytes_eqb_eq) in G. assert (X : In (ToString id) (map fst (p_published p))) by (apply in_map_iff; exists (ToString id, l); auto).
        rewrite A in X. apply in_map_iff in X. destruct X as (id' & E & X). replace id with id'; [exact X|]. apply ToString_inj; auto.
    - intros o I. apply (Permutation_in _ Pm) in I. apply in_flat_map in I. destruct I as (id & I & J). rewrite Forall_forall in B. exact (proj2 (P id o (B id I) J)).
  Qed.
End all.

Example toy_all_shown : shown (get_pub_req []) = [(true, [10; 10; 20; 10; 20])].
Proof. vm_compute. reflexivity. Qed.

Print Assumptions all_published_shown.
