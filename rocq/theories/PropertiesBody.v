(** * What decoders accept (C88) *)
From Coq Require Import String List ZArith Bool.
From Coq Require Import Init.Byte.
From Verif Require Import Base Ids Json Merkle MerkleWire Crypto Message Offer Schema Messages MessagesSpec BodySpec BodyProofs.
Import ListNotations.
Open Scope Z_scope.

(** A decoder accepts a message only if every entry of its body that is named like a
    field has a value of the type of that field, integers within their bounds. *)
Theorem accepted_body_typed : forall sha256 k m, accepted sha256 k m -> fits (struct_of k) (m_body m).
Proof. exact accepted_fits. Qed.
Print Assumptions accepted_body_typed.

Definition raw (tag : Z) (text : gostring) : message := Message tag 1 (Some [1; 1]) (Some text) [].

Example accepted_body_ex :
  accepted (fun x => x) KClientEstablishmentRequest (raw 100 (gs "{""client_id"":""0a"",""challenge"":null,""TTL"":5}")).
Proof. eexists. vm_compute. reflexivity. Qed.

(** A text, a fraction or a number out of range in place of an integer is refused, also under
    another spelling of the key and even if a good value follows. *)
Example accepted_body_refused : forall sha256,
  DecodeClientEstablishmentRequest sha256 (raw 100 (gs "{""client_id"":""0a"",""challenge"":""x"",""ttl"":""5""}")) = Ret ErrR /\
  DecodeClientEstablishmentRequest sha256 (raw 100 (gs "{""client_id"":""0a"",""challenge"":""x"",""ttl"":5.5}")) = Ret ErrR /\
  DecodeClientEstablishmentRequest sha256 (raw 100 (gs "{""client_id"":""0a"",""challenge"":""x"",""ttl"":9223372036854775808}")) = Ret ErrR /\
  DecodeClientEstablishmentRequest sha256 (raw 100 (gs "{""client_id"":7,""challenge"":""x"",""client_id"":""0a"",""ttl"":5}")) = Ret ErrR /\
  DecodeClientEstablishmentRequest sha256 (raw 100 (gs "[]")) = Ret ErrR.
Proof. intros sha. repeat (split; [vm_compute; reflexivity|]). vm_compute; reflexivity. Qed.

(** In a list of sub-offers a null stands for one with zero identifiers and terms. *)
Example null_suboffer :
  UnmarshalSubOffer (gs "null") = OkR (SubOffer (Some (repeat x00 32)) (Some (repeat x00 32)) [] (Proof [] []) 0 0 0 []) /\
  fdec (fun x => x) TSubs (gs "subs") [(gs "subs", JArr [JNull])]
  = Ret (Some (Some [SubOffer (Some (repeat x00 32)) (Some (repeat x00 32)) [] (Proof [] []) 0 0 0 []])).
Proof. split; vm_compute; reflexivity. Qed.
