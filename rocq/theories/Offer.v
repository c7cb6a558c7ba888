(** * Offers and sub-offers

    Models common/pkg/cidoffer/cidoffer.go and subcidoffer.go.  A provider
    identifier is a pointer, nil after parsing malformed text.  Definitions only. *)
From Coq Require Import String List ZArith Bool.
From Coq Require Import Init.Byte.
From Verif Require Import Base Ids Json Merkle MerkleWire Crypto.
Import ListNotations.
Open Scope Z_scope.
Open Scope go_scope.

(** cidoffer.go L43-53 [CIDOffer]. *)
Record offer := Offer {
  o_provider : option bytes;
  o_cids : list bytes;
  o_price : Z;
  o_expiry : Z;
  o_qos : Z;
  o_sig : gostring;
  o_root : gostring;
  o_tree : tree
}.

(** subcidoffer.go L32-41 [SubCIDOffer]. *)
Record suboffer := SubOffer {
  s_provider : option bytes;
  s_cid : option bytes;
  s_root : gostring;
  s_proof : proof;
  s_price : Z;
  s_expiry : Z;
  s_qos : Z;
  s_sig : gostring
}.

(** Dereference of a pointer. *)
Definition deref {A} (p : option A) : outcome A := match p with Some a => Ret a | None => Panic end.

(** int64 wrap-around. *)
Definition wrap64 (z : Z) : Z := (z + 2 ^ 63) mod 2 ^ 64 - 2 ^ 63.

(** Seconds between year 1 and 1970, added by [time.Unix]. *)
Definition unixToInternal : Z := 62135596800.

(** cidoffer.go L139-143 [HasExpired], subcidoffer.go L119-123:
    [time.Unix(expiry, 0).Before(now)] with [now] in nanoseconds since 1970.
    [time.Unix] adds [unixToInternal] in int64 arithmetic. *)
Definition HasExpired (expiry now : Z) : bool :=
  let e := wrap64 (expiry + unixToInternal) in
  let n := now / 1000000000 + unixToInternal in
  (e <? n) || ((e =? n) && (0 <? now mod 1000000000)).

(** cidoffer.go L66-72, subcidoffer.go L56-62: what is signed.  The identifier
    prints as base64 (nodeid.go L121-123 [MarshalJSON]). *)
Definition signing_json (provider : bytes) (root : gostring) (price expiry qos : Z) : json :=
  JObj [(gs "provider_id", JStr (b64_encode provider));
        (gs "merkle_root", JStr root);
        (gs "price", JNum price);
        (gs "expiry", JNum expiry);
        (gs "qos", JNum qos)].

(** cidoffer.go L217-225 [MarshalToSign]. *)
Definition OfferToSign (o : offer) : outcome bytes :=
  let* p := deref (o_provider o) in
  Ret (json_print (signing_json p (o_root o) (o_price o) (o_expiry o) (o_qos o))).

(** subcidoffer.go L183-191 [MarshalToSign]. *)
Definition SubOfferToSign (s : suboffer) : outcome bytes :=
  let* p := deref (s_provider s) in
  Ret (json_print (signing_json p (s_root s) (s_price s) (s_expiry s) (s_qos s))).

(** cidoffer.go L256-267 [EncodeMessageDigest], [DecodeMessageDigest]: the
    decoding error is dropped, the bytes are cut or zero-padded to 32. *)
Definition EncodeMessageDigest (d : bytes) : gostring := b64_encode d.
Definition DecodeMessageDigest (s : gostring) : bytes :=
  let d := fst (b64_decode s) in
  firstn 32 d ++ repeat x00 (32 - length d).

Section offer.
  Variable sha256 : bytes -> bytes.
  Variable sha512_256 : bytes -> bytes.
  Variable pub_of : bytes -> bytes.
  Variable ec_sign : bytes -> bytes -> option bytes.
  Variable ec_verify : bytes -> bytes -> bytes -> bool.
  Variable blake : bytes -> bytes.

  (** cidoffer.go L75-101 [NewCIDOffer]. *)
  Definition NewCIDOffer (provider : option bytes) (cids : list bytes) (price expiry qos : Z)
      : outcome (result offer) :=
    match cids with
    | [] => Ret ErrR
    | _ =>
        let* t := CreateMerkleTree sha256 cids in
        match t with
        | ErrR => Ret ErrR
        | OkR t => Ret (OkR (Offer provider cids price expiry qos [] (GetMerkleRoot t) t))
        end
    end.

  (** cidoffer.go L146-157 [Sign]. *)
  Definition OfferSign (o : offer) (k : keypair) (ver : Z) : outcome (bool * offer) :=
    let* raw := OfferToSign o in
    match SignMessage ec_sign blake k ver raw with
    | ErrR => Ret (false, o)
    | OkR s => Ret (true, Offer (o_provider o) (o_cids o) (o_price o) (o_expiry o) (o_qos o) s (o_root o) (o_tree o))
    end.

  (** cidoffer.go L160-173 [Verify]. *)
  Definition OfferVerify (o : offer) (k : keypair) : outcome bool :=
    let* raw := OfferToSign o in
    match fst (VerifyMessage pub_of ec_verify blake k (o_sig o) raw) with
    | OkR true => Ret true
    | _ => Ret false
    end.

  (** subcidoffer.go L126-139 [Verify]. *)
  Definition SubOfferVerify (s : suboffer) (k : keypair) : outcome bool :=
    let* raw := SubOfferToSign s in
    match fst (VerifyMessage pub_of ec_verify blake k (s_sig s) raw) with
    | OkR true => Ret true
    | _ => Ret false
    end.

  (** subcidoffer.go L142-147 [VerifyMerkleProof]. *)
  Definition VerifyMerkleProof (s : suboffer) : outcome bool :=
    let* c := deref (s_cid s) in
    VerifyContent sha256 (s_proof s) c (s_root s).

  (** cidoffer.go L176-182 [GenerateSubCIDOffer]; the proof generation it calls
      reports no error for an absent identifier, so neither does it. *)
  Definition GenerateSubCIDOffer (o : offer) (c : bytes) : suboffer :=
    SubOffer (o_provider o) (Some c) (o_root o) (GenerateMerkleProof (o_tree o) c)
      (o_price o) (o_expiry o) (o_qos o) (o_sig o).

  (** cidoffer.go L187-202 [GetMessageDigest]. *)
  Definition GetMessageDigest (o : offer) : outcome bytes :=
    let* p := deref (o_provider o) in
    Ret (sha512_256 (p ++ concat (o_cids o) ++ be_bytes 8 (o_price o)
                       ++ be_bytes 8 (o_expiry o) ++ be_bytes 8 (o_qos o))).

  (** cidoffer.go L56-63, L205-214 [MarshalJSON]. *)
  Definition MarshalOffer (o : offer) : outcome gostring :=
    let* p := deref (o_provider o) in
    Ret (json_print (JObj
      [(gs "provider_id", JStr (ToString p));
       (gs "cids", JArr (map JStr (MapIDToString (o_cids o))));
       (gs "price", JNum (o_price o));
       (gs "expiry", JNum (o_expiry o));
       (gs "qos", JNum (o_qos o));
       (gs "signature", JStr (o_sig o))])).

  (** A pointer to a parsed identifier; parse errors leave nil. *)
  Definition id_ptr (s : gostring) : option bytes :=
    match NewNodeIDFromHexString s with OkR b => Some b | ErrR => None end.

  (** The fields of [cidOfferJson]. *)
  Definition offer_fields (j : json) : option (gostring * list gostring * Z * Z * Z * gostring) :=
    match j with
    | JObj f =>
        match jfield dec_str [] (gs "provider_id") f, jslice (dec_list dec_str []) (gs "cids") f,
              jfield dec_u64 0 (gs "price") f, jfield dec_i64 0 (gs "expiry") f,
              jfield dec_u64 0 (gs "qos") f, jfield dec_str [] (gs "signature") f with
        | Some a, Some b, Some c, Some d, Some e, Some g => Some (a, match b with Some l => l | None => [] end, c, d, e, g)
        | _, _, _, _, _, _ => None
        end
    | _ => None
    end.

  (** cidoffer.go L228-252 [UnmarshalJSON]: a malformed provider identifier leaves a
      nil pointer, a malformed content identifier panics. *)
  Definition UnmarshalOffer (p : gostring) : outcome (result offer) :=
    match unmarshal offer_fields ([], [], 0, 0, 0, []) p with
    | None => Ret ErrR
    | Some (prov, cids, price, expiry, qos, sig) =>
        let* ids := MapStringToID cids in
        let* t := CreateMerkleTree sha256 ids in
        match t with
        | ErrR => Ret ErrR
        | OkR t => Ret (OkR (Offer (id_ptr prov) ids price expiry qos sig (GetMerkleRoot t) t))
        end
    end.

  (** subcidoffer.go L44-53, L150-161 [MarshalJSON].  The proof's own [MarshalJSON]
      yields a JSON string, embedded as it is. *)
  Definition proof_json (mp : proof) : json :=
    match json_parse (MarshalProof mp) with Some j => j | None => JNull end.
  Definition MarshalSubOffer (s : suboffer) : outcome gostring :=
    let* p := deref (s_provider s) in
    let* c := deref (s_cid s) in
    Ret (json_print (JObj
      [(gs "provider_id", JStr (ToString p));
       (gs "sub_cid", JStr (ToString c));
       (gs "merkle_root", JStr (s_root s));
       (gs "merkle_proof", proof_json (s_proof s));
       (gs "price", JNum (s_price s));
       (gs "expiry", JNum (s_expiry s));
       (gs "qos", JNum (s_qos s));
       (gs "signature", JStr (s_sig s))])).

  (** The embedded proof of a received sub-offer: the text of the field, null
      included, is handed to the proof's [UnmarshalJSON]; the model hands over the
      text printed from the parsed value. *)
  Definition dec_proof (j : json) : option proof :=
    match UnmarshalProof (json_print j) with Ret (OkR mp) => Some mp | _ => None end.

  (** The fields of [subCIDOfferJson] and their use, L44-53 and L170-179. *)
  Definition suboffer_fields (j : json) : option suboffer :=
    match j with
    | JObj f =>
        match jfield dec_str [] (gs "provider_id") f, jfield dec_str [] (gs "sub_cid") f,
              jfield dec_str [] (gs "merkle_root") f, jcustom dec_proof (Proof [] []) (gs "merkle_proof") f,
              jfield dec_u64 0 (gs "price") f, jfield dec_i64 0 (gs "expiry") f,
              jfield dec_u64 0 (gs "qos") f, jfield dec_str [] (gs "signature") f with
        | Some p, Some c, Some r, Some mp, Some pr, Some ex, Some q, Some sg =>
            Some (SubOffer (id_ptr p) (id_ptr c) r mp pr ex q sg)
        | _, _, _, _, _, _, _, _ => None
        end
    | _ => None
    end.

  (** What null gives: empty texts, which parse as the zero identifier. *)
  Definition zero_suboffer : suboffer :=
    SubOffer (id_ptr []) (id_ptr []) [] (Proof [] []) 0 0 0 [].

  (** subcidoffer.go L164-181 [UnmarshalJSON]. *)
  Definition UnmarshalSubOffer (p : gostring) : result suboffer :=
    match unmarshal suboffer_fields zero_suboffer p with
    | None => ErrR
    | Some s => OkR s
    end.
End offer.
