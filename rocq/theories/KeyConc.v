(** * Initialisation of a gateway while it serves others

    Models the handlers that set and use the identity of a gateway as goroutines: the REST server
    (net/http) runs each in its own, and no lock guards the fields of the core.  Definitions only.

    Of the handlers that answer, the one for establishment stands for all.  A step is one access to one
    of the fields; what a handler computes in between touches no field.  Go promises less for such races
    (the accesses need not appear to all in one order); the version is the number pointed to. *)
From Coq Require Import List ZArith.
From Verif Require Import Base Crypto Message Gateway GatewayAdmin.
Import ListNotations.
Open Scope go_scope.

(** gateway/internal/core/core.go L54-61: [GatewayID], [GatewayPrivateKey],
    [GatewayPrivateKeyVersion]. *)
Record identity := Identity { f_id : option bytes; f_key : option keypair; f_ver : Z }.

(** Where a goroutine is.  gateway/internal/api/adminapi/initialise_key_handler.go L41-43 and
    initialise_key_handler_v2.go L42-44: three assignments.
    gateway/internal/api/clientapi/establishment_handler.go L51, L60: the identifier is read when the answer is
    made, key and version when it is signed.  The request is kept to say what was answered. *)
Inductive goroutine :=
| SetID (i : identity) | SetKey (i : identity) | SetVersion (i : identity) | IsSet (i : identity)
| GetID (request : message) | GetKey (request : message) (id : option bytes)
| GetVersion (request : message) (id : option bytes) (key : option keypair) | Got (request : message) (read : identity).

Record core := Core { fields : identity; goroutines : list goroutine }.

(** One access. *)
Definition access (f : identity) (g : goroutine) : identity * goroutine :=
  match g with
  | SetID i => (Identity (f_id i) (f_key f) (f_ver f), SetKey i)
  | SetKey i => (Identity (f_id f) (f_key i) (f_ver f), SetVersion i)
  | SetVersion i => (Identity (f_id f) (f_key f) (f_ver i), IsSet i)
  | IsSet i => (f, IsSet i)
  | GetID r => (f, GetKey r (f_id f))
  | GetKey r id => (f, GetVersion r id (f_key f))
  | GetVersion r id key => (f, Got r (Identity id key (f_ver f)))
  | Got r i => (f, Got r i)
  end.
Definition core_step (s : core) (i : nat) : core :=
  match nth_error (goroutines s) i with
  | None => s
  | Some g => let x := access (fields s) g in Core (fst x) (set_nth (goroutines s) i (snd x))
  end.
(** A schedule: whose turn it is. *)
Definition core_run (s : core) (l : list nat) : core := fold_left core_step l s.

(** What establishment_handler.go L30-71 answers with what it read. *)
Section answer.
  Variable version : Z.
  Variable supported : list Z.
  Variable sha256 : bytes -> bytes.
  Variable ec_sign : bytes -> bytes -> option bytes.
  Variable blake : bytes -> bytes.
  Definition answer_with (e : env) (g : gateway) (read : identity) (request : message) : outcome served :=
    HandleEstablishment version supported sha256 ec_sign blake e (with_key g (f_id read) (f_key read) (f_ver read)) request.
End answer.
