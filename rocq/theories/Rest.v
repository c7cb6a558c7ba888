(** * Answers of the HTTP handlers

    What a handler writes to its [rest.ResponseWriter], and signing with a key
    pointer that may be nil.  Definitions only. *)
From Coq Require Import List ZArith Bool.
From Coq Require Import Init.Byte.
From Verif Require Import Base Crypto Message Offer.
Import ListNotations.
Open Scope Z_scope.

(** [rest.Error(w, text, code)] or [w.WriteJson(message)]; go-json-rest v3.3.2.  The
    texts are not modelled and writing succeeds. *)
Inductive answer :=
| HttpError (code : Z)
| Json (m : message).

Section rest.
  Variable ec_sign : bytes -> bytes -> option bytes.
  Variable blake : bytes -> bytes.

  (** common/pkg/fcrmessages/fcrmessage.go L89-102 [Sign], through a key pointer: nil is
      dereferenced in keypair_retrieval.go L136. *)
  Definition SignWith (key : option keypair) (ver : Z) (m : message) : outcome (bool * message) :=
    let* k := deref key in Ret (MessageSign ec_sign blake m k ver).

  (** The last steps of the handlers: sign, then write; a failed signature is answered
      with the given code and ends the handler. *)
  Definition SignAndWrite (key : option keypair) (ver : Z) (code : Z) (m : message) : outcome answer :=
    let* s := SignWith key ver m in
    Ret (if fst s then Json (snd s) else HttpError code).

  (** The key is of the known algorithm and signing with it does not fail. *)
  Definition can_sign (k : keypair) : Prop :=
    k_alg k = x01 /\ forall msg, ec_sign (slice (k_priv k)) (blake msg) <> None.
End rest.
