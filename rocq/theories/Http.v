(** * Messages over HTTP

    Models [SendMessage] of common/pkg/request/request.go and what go-json-rest v3.3.2 does
    around the handlers of common/pkg/fcrrestserver/server.go.  Definitions only.

    HTTP itself carries a body as it is; of the status line only the code is modelled.
    Logging is not modelled; the lock of the communicator is in HttpConc.v. *)
From Coq Require Import String List ZArith Bool.
From Coq Require Import Init.Byte.
From Verif Require Import Base Json Crypto Message Server.
From Verif Require Rest.
Import ListNotations.
Open Scope Z_scope.
Open Scope go_scope.

(** ** Indented JSON *)

(** [json.Indent] with no prefix and two blanks: a new line at a depth. *)
Definition newline (d : nat) : gostring := x0a :: repeat x20 (2 * d).

(** [json.MarshalIndent] with these, used by the [JsonIndentMiddleware] of [DefaultDevStack],
    server.go L79. *)
Fixpoint json_indent (d : nat) (j : json) : gostring :=
  match j with
  | JArr [] | JObj [] => json_print j
  | JArr l => x5b :: join_commas (map (fun x => newline (S d) ++ json_indent (S d) x) l) ++ newline d ++ [x5d]
  | JObj l =>
      x7b :: join_commas (map (fun kv => newline (S d) ++ print_str (fst kv) ++ x3a :: x20 :: json_indent (S d) (snd kv)) l)
        ++ newline d ++ [x7d]
  | _ => json_print j
  end.

(** ** Responses *)

Record response := Response { code : Z; content : bytes }.

(** [rest.Error] writes the code and an object with the text; [w.WriteJson] writes a message
    (common/pkg/fcrmessages/fcrmessage.go L141-149 [MarshalJSON]). *)
Definition written (a : Rest.answer) (text : gostring) : bytes :=
  match a with
  | Rest.HttpError _ => json_indent 0 (JObj [(gs "Error", JStr text)])
  | Rest.Json m => json_indent 0 (message_json m (m_sig m))
  end.

(** The code is that of the first write, and 200 if it gives none; what is written is put
    together.  [texts k]: the text of the error at position [k]. *)
Fixpoint bodies (k : nat) (texts : nat -> gostring) (l : list Rest.answer) : bytes :=
  match l with [] => [] | a :: t => written a (texts k) ++ bodies (S k) texts t end.
Definition respond (texts : nat -> gostring) (l : list Rest.answer) : response :=
  Response (match l with Rest.HttpError c :: _ => c | _ => 200 end) (bodies 0 texts l).

(** server.go L70-101 [Start], the route, and [RecoverMiddleware]: a handler that panics is
    answered with code 500 and some text, after what it may have written before.
    [None]: the handler does not return.  The node after a panic is not modelled. *)
Definition answered {St} (texts : nat -> gostring) (o : outcome (St * list Rest.answer)) (before : list Rest.answer) : option response :=
  match o with
  | Ret (_, l) => Some (respond texts l)
  | Panic => Some (respond texts (before ++ [Rest.HttpError 500]))
  | Diverge => None
  end.

(** ** Requests *)

(** common/pkg/request/request.go L99-135 [SendMessage].  [post url body] is the response;
    [None]: the address is none, there is no connection, it breaks, or time is up. *)
Definition SendMessage (post : gostring -> bytes -> option response) (url : gostring) (m : message) : result message :=
  match post (gs "http://" ++ url ++ gs "/v1") (FCRMsgToBytes m) with
  | None => ErrR
  | Some r => if code r =? 200 then FCRMsgFromBytes (content r) else ErrR
  end.
