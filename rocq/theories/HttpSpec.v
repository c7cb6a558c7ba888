(** * A server reached over HTTP *)
From Coq Require Import String List ZArith Bool.
From Coq Require Import Init.Byte.
From Verif Require Import Base Message WireSpec Server Http.
From Verif Require Rest.
Import ListNotations.
Open Scope Z_scope.

(** Answers as handlers write them: errors have error codes, and messages have 32-bit integers. *)
Definition sound (l : list Rest.answer) : Prop :=
  Forall (fun a => match a with Rest.HttpError c => c <> 200 | Rest.Json r => wire_message r end) l.

(** Who posts to the address [url] reaches the interface [addr] of the server, whose node is in the state [st]: the
    texts of errors and what was written before a panic can be anything. *)
Definition posts_to {St} (post : gostring -> bytes -> option response) (url : gostring)
    (s : server (rest_handler St)) (addr : gostring) (st : St) : Prop :=
  forall body, exists texts before, sound before /\
    post (gs "http://" ++ url ++ gs "/v1") body = answered texts (msgRouter s addr st (Some body)) before.

(** What comes back. *)
Definition to_result {A} (o : option A) : result A := match o with Some a => OkR a | None => ErrR end.

(** The routes of a node with the handlers put in. *)
Definition with_handlers {K H} (f : K -> H) (adds : list (gostring * Z * K)) : list (gostring * Z * H) := map (fun r => (fst r, f (snd r))) adds.
