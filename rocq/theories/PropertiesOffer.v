(** * Properties of offers and Merkle proof text (C15, C30-C33, C76-C79) *)
From Coq Require Import String List ZArith Bool Lia.
From Coq Require Import Init.Byte.
From Verif Require Import Base BaseProofs Ids Json Merkle MerkleWire MerkleWireProofs Crypto Offer WireSpec
  OfferProofs PropertiesMerkle PropertiesCrypto.
Import ListNotations.
Open Scope Z_scope.

(** ** C15 *)
Theorem merkle_proof_wire_roundtrip : forall mp, Forall int64 (p_index mp) ->
  Z.of_nat (length (json_print (json_path (p_path mp)))) < 2 ^ 32 ->
  Z.of_nat (length (json_print (json_index (p_index mp)))) < 2 ^ 32 ->
  UnmarshalProof (MarshalProof mp) = Ret (OkR mp).
Proof. exact proof_wire_roundtrip_pf. Qed.
Print Assumptions merkle_proof_wire_roundtrip.

Example merkle_proof_wire_ex :
  MarshalProof (Proof [gs "ab"; []] [1; -3]) = gs """AAAAC1siWVdJPSIsIiJdAAAABlsxLC0zXQ==""" /\
  UnmarshalProof (MarshalProof (Proof [gs "ab"; []] [1; -3])) = Ret (OkR (Proof [gs "ab"; []] [1; -3])).
Proof. vm_compute. split; reflexivity. Qed.

Theorem merkle_proof_parse_total : forall p, exists r, UnmarshalProof p = Ret r.
Proof. exact proof_wire_total_pf. Qed.
Print Assumptions merkle_proof_parse_total.

(** Lengths that lie are refused: one byte too many, one too few, none at all. *)
Example merkle_proof_parse_ex :
  UnmarshalProof (json_print (json_bytes (be_bytes 4 2 ++ gs "[]" ++ be_bytes 4 2 ++ gs "[]"))) = Ret (OkR (Proof [] [])) /\
  UnmarshalProof (json_print (json_bytes (be_bytes 4 2 ++ gs "[]" ++ be_bytes 4 3 ++ gs "[]"))) = Ret ErrR /\
  UnmarshalProof (json_print (json_bytes (be_bytes 4 1 ++ gs "[]" ++ be_bytes 4 2 ++ gs "[]"))) = Ret ErrR /\
  UnmarshalProof (json_print (json_bytes (be_bytes 4 4294967295))) = Ret ErrR /\
  UnmarshalProof (gs "null") = Ret ErrR.
Proof. vm_compute. repeat split. Qed.

(** ** C30 *)
Theorem offer_digest_binds : forall sha o o' d, well_formed o -> well_formed o' ->
  GetMessageDigest sha o = Ret d -> GetMessageDigest sha o' = Ret d ->
  (o_provider o = o_provider o' /\ o_cids o = o_cids o' /\ o_price o = o_price o' /\
   o_expiry o = o_expiry o' /\ o_qos o = o_qos o') \/ collision sha.
Proof. exact digest_binds_spec. Qed.
Print Assumptions offer_digest_binds.

Definition toy_offer (ids : list bytes) (price expiry qos : Z) : option offer :=
  match NewCIDOffer toy_hash (Some (idn 99)) ids price expiry qos with Ret (OkR o) => Some o | _ => None end.

Example offer_digest_ex :
  match toy_offer [idn 1; idn 2; idn 3] 10 (-5) 7, toy_offer [idn 1; idn 2; idn 3] 10 (-5) 8,
        toy_offer [idn 1; idn 2] 10 (-5) 7 with
  | Some a, Some b, Some c =>
      well_formed a /\ GetMessageDigest toy_hash a <> GetMessageDigest toy_hash b /\
      GetMessageDigest toy_hash a <> GetMessageDigest toy_hash c
  | _, _, _ => False
  end.
Proof.
  vm_compute. split; [|split; discriminate].
  split; [eexists; split; reflexivity|]. split; [repeat constructor|]. repeat split; discriminate.
Qed.

(** ** C31 *)
Theorem digest_text_roundtrip_partial : forall d, length d = 32%nat -> DecodeMessageDigest (EncodeMessageDigest d) = d.
Proof. exact digest_text_pf. Qed.
Print Assumptions digest_text_roundtrip_partial.

Example digest_text_ex :
  EncodeMessageDigest (idn 1) = gs "AAAAAAAAAAAAAAAAAAAAAAAAAAAAAAAAAAAAAAAAAAE=" /\
  DecodeMessageDigest (gs "AAAAAAAAAAAAAAAAAAAAAAAAAAAAAAAAAAAAAAAAAAE=") = idn 1.
Proof. vm_compute. split; reflexivity. Qed.

(** Any text at all decodes to some 32-byte digest, so malformed text is mistaken
    for a valid one. *)
Theorem digest_text_rejects_refuted : (forall s, length (DecodeMessageDigest s) = 32%nat) /\
  DecodeMessageDigest (gs "not base64!") = DecodeMessageDigest (gs "not baseNONSENSE").
Proof. split; [exact digest_text_length|vm_compute; reflexivity]. Qed.
Print Assumptions digest_text_rejects_refuted.

(** ** C32 *)
Theorem suboffer_inherits_partial : forall sha256 pub_of ec_sign ec_verify blake p ids price expiry qos o k ver o' pk,
  ecdsa_correct pub_of ec_sign ec_verify -> Forall id32 ids ->
  NewCIDOffer sha256 (Some p) ids price expiry qos = Ret (OkR o) ->
  OfferSign ec_sign blake o k ver = Ret (true, o') -> matches pub_of pk k ->
  OfferVerify pub_of ec_verify blake o' pk = Ret true /\
  forall c,
    (In c ids ->
      let s := GenerateSubCIDOffer o' c in
      s_provider s = Some p /\ s_cid s = Some c /\ s_price s = price /\ s_expiry s = expiry /\ s_qos s = qos /\
      SubOfferVerify pub_of ec_verify blake s pk = Ret true /\ VerifyMerkleProof sha256 s = Ret true) /\
    (id32 c -> ~ In c ids -> hex_encode c <> o_root o' ->
      VerifyMerkleProof sha256 (GenerateSubCIDOffer o' c) = Ret false).
Proof. exact suboffer_spec. Qed.
Print Assumptions suboffer_inherits_partial.

Example suboffer_inherits_ex :
  match toy_offer [idn 1; idn 2; idn 3] 10 2000000000 7 with
  | Some o =>
      match OfferSign toy_sign toy_blake o (toy_key 7) 1 with
      | Ret (ok, o') =>
          ok = true /\ OfferVerify toy_pub toy_verify toy_blake o' (toy_pubkey 7) = Ret true /\
          OfferVerify toy_pub toy_verify toy_blake o' (toy_pubkey 8) = Ret false /\
          VerifyMerkleProof toy_hash (GenerateSubCIDOffer o' (idn 3)) = Ret true /\
          VerifyMerkleProof toy_hash (GenerateSubCIDOffer o' (idn 4)) = Ret false
      | _ => False
      end
  | None => False
  end.
Proof. vm_compute. repeat split. Qed.

(** Asking for an identifier outside the offer is not refused: a sub-offer with
    the provider's valid signature is handed out. *)
Theorem suboffer_absent_refuted : exists o c,
  ~ In c (o_cids o) /\
  SubOfferVerify toy_pub toy_verify toy_blake (GenerateSubCIDOffer o c) (toy_pubkey 7) = Ret true /\
  s_cid (GenerateSubCIDOffer o c) = Some c.
Proof.
  exists (match toy_offer [idn 1; idn 2] 10 20 7 with
     | Some o => match OfferSign toy_sign toy_blake o (toy_key 7) 1 with Ret (_, o') => o' | _ => o end
     | None => Offer None [] 0 0 0 [] [] (Tree [] []) end), (idn 4).
  split; [vm_compute; intros [H|[H|[]]]; discriminate|]. vm_compute. split; reflexivity.
Qed.
Print Assumptions suboffer_absent_refuted.

(** ** C33: [signed] lists what the provider signed with the key; the hypothesis is
    that nobody else can make signatures that verify *)
Theorem offer_terms_bound : forall pub_of ec_verify blake pk (signed : list (bytes * gostring * Z * Z * Z)),
  (forall d s, ec_verify (public_half pub_of pk) d s = true ->
     exists p r a b c, In (p, r, a, b, c) signed /\ d = blake (json_print (signing_json p r a b c))) ->
  (forall o, OfferVerify pub_of ec_verify blake o pk = Ret true ->
     (exists p, o_provider o = Some p /\ In (p, o_root o, o_price o, o_expiry o, o_qos o) signed) \/ collision blake) /\
  (forall s, SubOfferVerify pub_of ec_verify blake s pk = Ret true ->
     (exists p, s_provider s = Some p /\ In (p, s_root s, s_price s, s_expiry s, s_qos s) signed) \/ collision blake).
Proof. exact (fun pub_of ec_verify blake => offer_binds_pf pub_of ec_verify blake). Qed.
Print Assumptions offer_terms_bound.

(** A key that signed one offer: raising the price breaks the signature, and the
    bytes signed are these. *)
Example offer_terms_ex :
  match toy_offer [idn 1; idn 2] 10 2000000000 7 with
  | Some o =>
      match OfferSign toy_sign toy_blake o (toy_key 7) 1 with
      | Ret (_, o') =>
          OfferVerify toy_pub toy_verify toy_blake o' (toy_pubkey 7) = Ret true /\
          OfferVerify toy_pub toy_verify toy_blake
            (Offer (o_provider o') (o_cids o') 9 (o_expiry o') (o_qos o') (o_sig o') (o_root o') (o_tree o')) (toy_pubkey 7) = Ret false /\
          OfferVerify toy_pub toy_verify toy_blake
            (Offer (Some (idn 98)) (o_cids o') 10 (o_expiry o') (o_qos o') (o_sig o') (o_root o') (o_tree o')) (toy_pubkey 7) = Ret false
      | _ => False
      end
  | None => False
  end.
Proof. vm_compute. repeat split. Qed.

Example offer_signing_text :
  json_print (signing_json (idn 99) (gs "beef") 10 (-1) 7) =
  gs "{""provider_id"":""AAAAAAAAAAAAAAAAAAAAAAAAAAAAAAAAAAAAAAAAAGM="",""merkle_root"":""beef"",""price"":10,""expiry"":-1,""qos"":7}".
Proof. vm_compute. reflexivity. Qed.

(** The hypothesis of [offer_terms_bound] can hold: a key that signed one digest. *)
Example offer_terms_hyp_ex :
  let signed := [(idn 99, gs "beef", 10, 20, 7)] in
  let ver := fun (pk d s : bytes) => bytes_eqb d (toy_blake (json_print (signing_json (idn 99) (gs "beef") 10 20 7))) in
  (forall d s, ver (public_half toy_pub (toy_pubkey 7)) d s = true ->
     exists p r a b c, In (p, r, a, b, c) signed /\ d = toy_blake (json_print (signing_json p r a b c))) /\
  OfferVerify toy_pub ver toy_blake (Offer (Some (idn 99)) [] 10 20 7 (gs "00000001") (gs "beef") (Tree [] [])) (toy_pubkey 7) = Ret true.
Proof.
  split; [|vm_compute; reflexivity]. intros d s H. apply bytes_eqb_eq in H. do 5 eexists. split; [left; reflexivity|exact H].
Qed.

(** ** C76 *)
Theorem offer_expiry_partial : forall expiry now, - 2 ^ 63 <= expiry -> expiry <= 2 ^ 63 - 1 - 62135596800 ->
  (HasExpired expiry now = true <-> expiry * 1000000000 < now).
Proof. exact expired_pf. Qed.
Print Assumptions offer_expiry_partial.

Example offer_expiry_ex :
  HasExpired 100 100000000000 = false /\ HasExpired 100 100000000001 = true /\ HasExpired (-1) 0 = true.
Proof. vm_compute. repeat split. Qed.

(** Expiry times at the far end of the range have always expired. *)
Theorem offer_expiry_refuted : forall expiry now,
  2 ^ 63 - 1 - 62135596800 < expiry < 2 ^ 63 -> 0 <= now -> HasExpired expiry now = true.
Proof. exact expired_wraps. Qed.
Print Assumptions offer_expiry_refuted.

Example offer_expiry_max_ex : HasExpired 9223372036854775807 1600000000000000000 = true.
Proof. vm_compute. reflexivity. Qed.

(** ** C77 *)
Theorem offer_wire_roundtrip : forall sha256 p ids price expiry qos o sig text,
  id32 p -> Forall id32 ids -> uint64 price -> int64 expiry -> uint64 qos ->
  NewCIDOffer sha256 (Some p) ids price expiry qos = Ret (OkR o) ->
  let o' := Offer (o_provider o) (o_cids o) (o_price o) (o_expiry o) (o_qos o) sig (o_root o) (o_tree o) in
  MarshalOffer o' = Ret text -> UnmarshalOffer sha256 text = Ret (OkR o').
Proof. exact offer_wire_pf. Qed.
Print Assumptions offer_wire_roundtrip.

Example offer_wire_ex :
  match toy_offer [idn 1; idn 2; idn 3] 18446744073709551615 (-1) 0 with
  | Some o => match MarshalOffer o with
              | Ret t => UnmarshalOffer toy_hash t = Ret (OkR o) /\
                  firstn 16 t = gs "{""provider_id"":"""
              | _ => False end
  | None => False
  end.
Proof. vm_compute. split; reflexivity. Qed.

Theorem suboffer_wire_roundtrip : forall p c root mp price expiry qos sig text,
  id32 p -> id32 c -> uint64 price -> int64 expiry -> uint64 qos -> Forall int64 (p_index mp) ->
  Z.of_nat (length (json_print (json_path (p_path mp)))) < 2 ^ 32 ->
  Z.of_nat (length (json_print (json_index (p_index mp)))) < 2 ^ 32 ->
  let s := SubOffer (Some p) (Some c) root mp price expiry qos sig in
  MarshalSubOffer s = Ret text -> UnmarshalSubOffer text = OkR s.
Proof. exact suboffer_wire_pf. Qed.
Print Assumptions suboffer_wire_roundtrip.

Example suboffer_wire_ex :
  match toy_offer [idn 1; idn 2; idn 3] 5 (-1) 0 with
  | Some o => let s := GenerateSubCIDOffer o (idn 3) in
              match MarshalSubOffer s with
              | Ret t => UnmarshalSubOffer t = OkR s
              | _ => False end
  | None => False
  end.
Proof. vm_compute. reflexivity. Qed.

(** ** C78 *)
Theorem offer_parse_total_partial : forall sha256 text,
  (forall f s, unmarshal offer_fields ([], [], 0, 0, 0, []) text = Some f ->
     In s (snd (fst (fst (fst (fst f))))) -> NewNodeIDFromHexString s <> ErrR) ->
  exists r, UnmarshalOffer sha256 text = Ret r.
Proof. exact offer_parse_total. Qed.
Print Assumptions offer_parse_total_partial.

Example offer_parse_ex : UnmarshalOffer toy_hash (gs "{""cids"":[]}") = Ret ErrR /\ UnmarshalOffer toy_hash (gs "[") = Ret ErrR.
Proof. vm_compute. split; reflexivity. Qed.

(** One malformed identifier in received text brings the process down; a malformed
    provider is accepted, and using the offer then brings it down. *)
Theorem offer_parse_total_refuted : forall sha256 k pub_of ec_verify blake,
  UnmarshalOffer sha256 (gs "{""provider_id"":""00"",""cids"":[""zz""]}") = Panic /\
  exists o, UnmarshalOffer sha256 (gs "{""provider_id"":""zz"",""cids"":[""01""]}") = Ret (OkR o) /\
    OfferVerify pub_of ec_verify blake o k = Panic.
Proof.
  intros. split; [vm_compute; reflexivity|]. eexists. split; [vm_compute; reflexivity|]. reflexivity.
Qed.
Print Assumptions offer_parse_total_refuted.

(** A received sub-offer whose proof has more path elements than indices crashes
    the check (end of C73). *)
Theorem suboffer_check_total_refuted : exists text s,
  UnmarshalSubOffer text = OkR s /\ VerifyMerkleProof toy_hash s = Panic.
Proof.
  exists (gs "{""sub_cid"":""01"",""merkle_proof"":" ++ MarshalProof (Proof [idn 1] []) ++ gs "}").
  exists (SubOffer (Some (idn 0)) (Some (idn 1)) [] (Proof [idn 1] []) 0 0 0 []). split; vm_compute; reflexivity.
Qed.
Print Assumptions suboffer_check_total_refuted.

(** ** C79 *)
Theorem new_offer_needs_content : forall sha256 p ids price expiry qos, Forall id32 ids ->
  (ids = [] -> NewCIDOffer sha256 p ids price expiry qos = Ret ErrR) /\
  (ids <> [] -> exists o, NewCIDOffer sha256 p ids price expiry qos = Ret (OkR o) /\
     o_provider o = p /\ o_cids o = ids /\ o_price o = price /\ o_expiry o = expiry /\ o_qos o = qos /\ o_sig o = []).
Proof. exact new_offer_spec. Qed.
Print Assumptions new_offer_needs_content.

Example new_offer_ex : NewCIDOffer toy_hash None [] 1 2 3 = Ret ErrR /\
  exists o, NewCIDOffer toy_hash (Some (idn 1)) [idn 2] 1 2 3 = Ret (OkR o) /\ o_root o = hex_encode (toy_hash (idn 2 ++ idn 2)).
Proof. split; [reflexivity|]. eexists. split; [reflexivity|vm_compute; reflexivity]. Qed.
