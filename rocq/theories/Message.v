(** * Signed messages

    Models common/pkg/fcrmessages/fcrmessage.go over the JSON text and signature
    models.  A nil slice is [None].  Definitions only. *)
From Coq Require Import String List ZArith Bool.
From Coq Require Import Init.Byte.
From Verif Require Import Base Json Crypto.
Import ListNotations.
Open Scope Z_scope.

(** fcrmessage.go L35-41 [FCRMessage]. *)
Record message := Message {
  m_type : Z;
  m_version : Z;
  m_supported : option (list Z);
  m_body : option bytes;
  m_sig : gostring
}.

(** fcrmessage.go L53-61 [CreateFCRMessage], with the two package variables of
    L31-32 (1 and [1; 1] unless changed by [SetCurrentProtocolVersion]). *)
Definition CreateFCRMessage (version : Z) (supported : list Z) (t : Z) (body : bytes) : message :=
  Message t version (Some supported) (Some body) [].

(** fcrmessage.go L44-50 [fcrMessageJson]. *)
Definition message_json (m : message) (sig : gostring) : json :=
  JObj [(gs "message_type", JNum (m_type m));
        (gs "protocol_version", JNum (m_version m));
        (gs "protocol_supported", json_slice JNum (m_supported m));
        (gs "message_body", json_blob (m_body m));
        (gs "message_signature", JStr sig)].

(** fcrmessage.go L126-128 [FCRMsgToBytes], L141-149 [MarshalJSON]. *)
Definition FCRMsgToBytes (m : message) : bytes := json_print (message_json m (m_sig m)).

(** fcrmessage.go L168-175 [MarshalToSign]: the signature field is left empty. *)
Definition MessageToSign (m : message) : bytes := json_print (message_json m []).

(** fcrmessage.go L152-164 [UnmarshalJSON] on a parsed object. *)
Definition message_of_json (j : json) : option message :=
  match j with
  | JObj f =>
      match jfield dec_i32 0 (gs "message_type") f,
            jfield dec_i32 0 (gs "protocol_version") f,
            jslice (dec_list dec_i32 0) (gs "protocol_supported") f,
            jslice dec_bytes (gs "message_body") f,
            jfield dec_str [] (gs "message_signature") f with
      | Some t, Some v, Some s, Some b, Some g => Some (Message t v s b g)
      | _, _, _, _, _ => None
      end
  | _ => None
  end.

(** fcrmessage.go L131-138 [FCRMsgFromBytes]. *)
Definition FCRMsgFromBytes (data : bytes) : result message :=
  match unmarshal message_of_json (Message 0 0 None None []) data with
  | None => ErrR
  | Some m => OkR m
  end.

Definition set_sig (m : message) (s : gostring) : message :=
  Message (m_type m) (m_version m) (m_supported m) (m_body m) s.

Section sign.
  Variable pub_of : bytes -> bytes.
  Variable ec_sign : bytes -> bytes -> option bytes.
  Variable ec_verify : bytes -> bytes -> bytes -> bool.
  Variable blake : bytes -> bytes.

  (** fcrmessage.go L89-102 [Sign]: error flag and the message afterwards. *)
  Definition MessageSign (m : message) (k : keypair) (ver : Z) : bool * message :=
    let m0 := set_sig m [] in
    match SignMessage ec_sign blake k ver (MessageToSign m0) with
    | ErrR => (false, m0)
    | OkR s => (true, set_sig m0 s)
    end.

  (** fcrmessage.go L105-123 [Verify]: success flag and the message afterwards. *)
  Definition MessageVerify (m : message) (k : keypair) : bool * message :=
    let sig := m_sig m in
    let m0 := set_sig m [] in
    match fst (VerifyMessage pub_of ec_verify blake k sig (MessageToSign m0)) with
    | ErrR => (false, m0)
    | OkR false => (false, m0)
    | OkR true => (true, set_sig m0 sig)
    end.
End sign.
