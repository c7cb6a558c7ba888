(** * Signing in the TypeScript client

    Models client-js/src/fcrcrypto: key_pair.class.ts, key_version.class.ts, the signing half of msg_signing.ts and decodeSecP256K1PrivateKey of
    secp256k1.service.ts.  [SigAlgEcdsaSecP256K1Blake2b] is one object shared by all keys made from private keys; the number in it is passed
    in as [current].  An exception is [ErrR].  Definitions only. *)
From Coq Require Import String List ZArith Bool.
From Coq Require Import Init.Byte.
From Verif Require Import Base Json JsClient.
Import ListNotations.
Open Scope Z_scope.

(** ** Keys *)

(** key_pair.class.ts L5-12: the algorithm of a key is the shared object, or (msg_signing.ts L56) a number. *)
Inductive js_alg := Shared | Number (n : Z).
(** key_pair.class.ts L9-27 [KeyPair]. *)
Record js_key := JsKey { jk_priv : bytes; jk_pub : bytes; jk_alg : js_alg }.

(** msg_signing.ts L21-31 [decodePrivateKey], secp256k1.service.ts L15-22 [decodeSecP256K1PrivateKey]. *)
Definition js_private (current : Z) (encoded : gostring) : result js_key :=
  match decodeStringAsHexArray encoded with
  | alg :: key => if (bz alg =? current) && Nat.eqb (length key) 32 then OkR (JsKey key [] Shared) else ErrR
  | [] => ErrR
  end.

(** msg_signing.ts L34-44 [decodePublicKey], L55-63 [decodeSecP256K1PublicKey]; [JsClient.decodePublicKey] has the number fixed at 1. *)
Definition js_public (current : Z) (encoded : gostring) : result js_key :=
  match decodeStringAsHexArray encoded with
  | alg :: key => if (bz alg =? current) && Nat.eqb (length key) 65 then OkR (JsKey [] key (Number current)) else ErrR
  | [] => ErrR
  end.

(** [key.alg.algorithm = n] (msg_signing.test.ts L105): the shared number afterwards; a number has no properties to set. *)
Definition set_algorithm (k : js_key) (n : Z) : result Z := match jk_alg k with Shared => OkR n | Number _ => ErrR end.

(** ** Key versions *)

(** key_version.class.ts L25-33 [encodeKeyVersionAsBytes]: shifts of a 32-bit number, elements modulo 256. *)
Definition js_version_bytes (v : Z) : bytes := map (fun s => zb (Z.shiftr v s mod 256)) [24; 16; 8; 0].

(** [Number(s)] for text of blanks and digits; [None] is NaN.  Signs, points, exponents and other bases, which texts with a
    zero character cannot have, are not modelled. *)
Definition digit_of (c : byte) : option Z := if (48 <=? bz c) && (bz c <=? 57) then Some (bz c - 48) else None.
Fixpoint digits_of (acc : Z) (s : gostring) : option Z :=
  match s with
  | [] => Some acc
  | c :: t => match digit_of c with Some d => digits_of (acc * 10 + d) t | None => None end
  end.
Definition js_Number (s : gostring) : option Z := digits_of 0 (skip_blanks (rev (skip_blanks (rev s)))).

(** key_version.class.ts L15-23 [decodeKeyVersionFromBytes]; encode.helper.ts L42-47 [array2str]: one character for each byte. *)
Definition js_version_of (b : bytes) : result (option Z) := if Nat.ltb (length b) 4 then ErrR else OkR (js_Number b).

(** msg_signing.ts L75-78 [extractKeyVersionFromMessage]. *)
Definition js_extract_version (signature : gostring) : result (option Z) := js_version_of (firstn 4 (decodeStringAsHexArray signature)).

(** ** Messages *)

(** [String(j)]. *)
Definition js_string (j : json) : gostring := match j with JNull => gs "null" | _ => js_text j end.
(** msg_signing.ts L80-87 [getToBeSigned]: the values one after the other.  Keys that look like indexes, which come first, are not modelled. *)
Definition getToBeSigned (msg : list (gostring * json)) : bytes := flat_map (fun kv => js_string (snd kv)) msg.

Section crypto.
  (** The library's [ecdsaSign] with key and digest, [None] if it throws, and [ecdsaVerify] with key, digest and signature; Blake2b. *)
  Variable js_ec_sign : bytes -> bytes -> option bytes.
  Variable js_ec : bytes -> bytes -> bytes -> bool.
  Variable blake : bytes -> bytes.

  (** key_pair.class.ts L20-26 [sign], secp256k1.service.ts L9-13 [secp256k1Sign]. *)
  Definition js_key_sign (k : js_key) (toBeSigned : bytes) : result bytes :=
    match jk_alg k with
    | Number _ => ErrR
    | Shared => match js_ec_sign (jk_priv k) (blake toBeSigned) with Some s => OkR s | None => ErrR end
    end.

  (** msg_signing.ts L12-18 [signMessage]: a zero byte takes the place of the recovery bit. *)
  Definition js_signMessage (k : js_key) (version : Z) (msg : list (gostring * json)) : result gostring :=
    match js_key_sign k (getToBeSigned msg) with
    | ErrR => ErrR
    | OkR raw => OkR (hex_encode (js_version_bytes version ++ raw ++ [x00]))
    end.

  (** msg_signing.ts L50-53 [verifyMessage]. *)
  Definition js_verifyMessage (k : js_key) (signature : gostring) (text : bytes) : result bool :=
    match extractKeyFromMessage signature with ErrR => ErrR | OkR raw => OkR (js_ec (jk_pub k) (blake text) raw) end.
End crypto.
