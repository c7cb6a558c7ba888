(** * Keys, key versions and signature text

    Models common/pkg/fcrcrypto/key_version.go, key_sig_alg.go,
    keypair_retrieval.go and msg_signing.go.  The curve operations of secp256k1.go
    and the Blake2b hash are Section variables.  Definitions only. *)
From Coq Require Import List ZArith Bool.
From Coq Require Import Init.Byte.
From Verif Require Import Base.
Import ListNotations.
Open Scope Z_scope.
Open Scope go_scope.

(** key_version.go L31, L41-48 [InitialKeyVersion], [NextKeyVersion]: versions are 32-bit and wrap. *)
Definition InitialKeyVersion : Z := 1.
Definition NextKeyVersion (v : Z) : Z := (v + 1) mod 2 ^ 32.

(** key_version.go L56-63 [DecodeKeyVersionFromBytes]. *)
Definition DecodeKeyVersionFromBytes (b : bytes) : result Z :=
  if Nat.ltb (length b) 4 then ErrR else OkR (be_val (firstn 4 b)).

(** key_version.go L71-75 [EncodeKeyVersionAsBytes]. *)
Definition EncodeKeyVersionAsBytes (v : Z) : bytes := be_bytes 4 v.

(** keypair_retrieval.go L27-31 [KeyPair]; a nil slice is [None].  The algorithm is
    the single byte of key_sig_alg.go L32-34, 1 being the only known one (L28). *)
Record keypair := KeyPair {
  k_priv : option bytes;
  k_pub : option bytes;
  k_alg : byte
}.

Definition slice (o : option bytes) : bytes := match o with Some b => b | None => [] end.

Section crypto.
  (** secp256k1.go L42-50: public key of a private key, and signing (error as
      [None]); the library's [VerifySignature] called at L62 and L65; hash.go L57-60
      [RetrievalV1Hash]. *)
  Variable pub_of : bytes -> bytes.
  Variable ec_sign : bytes -> bytes -> option bytes.
  Variable ec_verify : bytes -> bytes -> bytes -> bool.
  Variable blake : bytes -> bytes.

  (** keypair_retrieval.go L43-47 [EncodePrivateKey]. *)
  Definition EncodePrivateKey (k : keypair) : gostring := hex_encode (k_alg k :: slice (k_priv k)).

  (** keypair_retrieval.go L85-93 [decodeSecP256K1PrivateKey]. *)
  Definition decodeSecP256K1PrivateKey (b : bytes) : result keypair :=
    if Nat.eqb (length b) 32 then OkR (KeyPair (Some b) None x01) else ErrR.

  (** keypair_retrieval.go L60-73 [DecodePrivateKey]; [algKeyBytes[0]] panics when
      the text is empty. *)
  Definition DecodePrivateKey (s : gostring) : outcome (result keypair) :=
    match hex_decode s with
    | None => Ret ErrR
    | Some [] => Panic
    | Some (alg :: key) => if Byte.eqb alg x01 then Ret (decodeSecP256K1PrivateKey key) else Ret ErrR
    end.

  (** keypair_retrieval.go L77-83 [DecodeRawPrivateKey]. *)
  Definition DecodeRawPrivateKey (s : gostring) : result keypair :=
    match hex_decode s with None => ErrR | Some b => decodeSecP256K1PrivateKey b end.

  (** keypair_retrieval.go L52-57 [EncodeRawPrivateKey]. *)
  Definition EncodeRawPrivateKey (k : keypair) : result gostring :=
    if Byte.eqb (k_alg k) x01 then OkR (hex_encode (slice (k_priv k))) else ErrR.

  (** The public half, computed from the private one when not yet known. *)
  Definition public_half (k : keypair) : bytes :=
    match k_pub k with Some p => p | None => pub_of (slice (k_priv k)) end.

  (** The cached public key ([k.pubKey = ...], keypair_retrieval.go L100-102,
      L148-150, L177-179). *)
  Definition with_pub (k : keypair) : keypair := KeyPair (k_priv k) (Some (public_half k)) (k_alg k).

  (** keypair_retrieval.go L96-106 [EncodePublicKey]. *)
  Definition EncodePublicKey (k : keypair) : result gostring * keypair :=
    if Byte.eqb (k_alg k) x01
    then (OkR (hex_encode (k_alg k :: public_half k)), with_pub k)
    else (ErrR, k).

  (** keypair_retrieval.go L124-132 [decodeSecP256K1PublicKey]. *)
  Definition decodeSecP256K1PublicKey (b : bytes) : result keypair :=
    if Nat.eqb (length b) 65 then OkR (KeyPair None (Some b) x01) else ErrR.

  (** keypair_retrieval.go L109-122 [DecodePublicKey]. *)
  Definition DecodePublicKey (s : gostring) : outcome (result keypair) :=
    match hex_decode s with
    | None => Ret ErrR
    | Some [] => Panic
    | Some (alg :: key) => if Byte.eqb alg x01 then Ret (decodeSecP256K1PublicKey key) else Ret ErrR
    end.

  (** keypair_retrieval.go L135-141 [Sign]. *)
  Definition KeySign (k : keypair) (msg : bytes) : result bytes :=
    if Byte.eqb (k_alg k) x01 then
      match ec_sign (slice (k_priv k)) (blake msg) with Some s => OkR s | None => ErrR end
    else ErrR.

  (** secp256k1.go L58-66 [secp256k1Verify]: of a 65-byte signature the last byte
      is dropped. *)
  Definition secp256k1Verify (pk digest sig : bytes) : bool :=
    if Nat.eqb (length sig) 65 then ec_verify pk digest (firstn 64 sig) else ec_verify pk digest sig.

  (** keypair_retrieval.go L144-154 [Verify]. *)
  Definition KeyVerify (k : keypair) (sig msg : bytes) : result bool * keypair :=
    if Byte.eqb (k_alg k) x01
    then (OkR (secp256k1Verify (public_half k) (blake msg) sig), with_pub k)
    else (ErrR, k).

  (** keypair_retrieval.go L172-185 [HashPublicKey]. *)
  Definition HashPublicKey (k : keypair) : result bytes * keypair :=
    if Byte.eqb (k_alg k) x01 then (OkR (blake (k_alg k :: public_half k)), with_pub k) else (ErrR, k).

  (** msg_signing.go L39-47 [SignMessage]. *)
  Definition SignMessage (k : keypair) (ver : Z) (msg : bytes) : result gostring :=
    match KeySign k msg with
    | ErrR => ErrR
    | OkR raw => OkR (hex_encode (EncodeKeyVersionAsBytes ver ++ raw))
    end.

  (** The buffer behind [hex.DecodeString]: the text is decoded in place, so the
      decoded bytes are followed by the rest of the text and by zeroes up to the
      capacity.  Taken from the Go implementation and not from its
      specification: the decoded bytes do not outlive the call, so short text gets a
      zeroed 32-byte buffer.  TestExtractKeyVersionFromEmptyMsg relies on it. *)
  Definition decode_buffer (s : gostring) : option bytes :=
    match hex_decode s with
    | None => None
    | Some d => Some (d ++ skipn (length d) s ++ [x00; x00; x00; x00])
    end.

  (** msg_signing.go L50-56 [ExtractKeyVersionFromMessage]: [sigBytes[0:4]] may
      reach past the decoded bytes into the buffer. *)
  Definition ExtractKeyVersionFromMessage (signature : gostring) : result Z :=
    match decode_buffer signature with
    | None => ErrR
    | Some b => DecodeKeyVersionFromBytes (firstn 4 b)
    end.

  (** msg_signing.go L60-71 [VerifyMessage]. *)
  Definition VerifyMessage (k : keypair) (signature : gostring) (msg : bytes) : result bool * keypair :=
    match hex_decode signature with
    | None => (ErrR, k)
    | Some b => if Nat.ltb (length b) 4 then (ErrR, k) else KeyVerify k (skipn 4 b) msg
    end.
End crypto.
