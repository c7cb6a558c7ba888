(** * Dispatch of requests to handlers

    Models common/pkg/fcrp2pserver/server.go (handlers) and
    common/pkg/fcrrestserver/server.go.  Definitions only.

    A handler is any function; what it does to the node is a list of replies and a
    flag, see [handler].  Requesters are in [Pool]. *)
From Coq Require Import List ZArith Bool.
From Coq Require Import Init.Byte.
From Verif Require Import Base Json Crypto Message MerkleWire Offer Schema Messages Frame.
From Verif Require Rest.
Import ListNotations.
Open Scope Z_scope.
Open Scope go_scope.

(** A table: listening address to message type to handler.  Both servers have one:
    server.go L40 of fcrp2pserver and L38 of fcrrestserver. *)
Definition table (H : Type) := list (gostring * list (Z * H)).

Record server (H : Type) := Server { s_start : bool; s_handlers : table H }.
Arguments Server {H} s_start s_handlers.
Arguments s_start {H} s.
Arguments s_handlers {H} s.

(** fcrp2pserver/server.go L45-67 [NewFCRP2PServer], fcrrestserver/server.go L42-54
    [NewFCRRESTServer]. *)
Definition new_server {H} (addrs : list gostring) : server H :=
  Server false (fold_left (fun t a => aset bytes_eqb t a []) addrs []).

(** fcrp2pserver/server.go L70-80, fcrrestserver/server.go L57-67 [AddHandler]. *)
Definition AddHandler {H} (s : server H) (addr : gostring) (t : Z) (h : H) : server H :=
  if s_start s then s
  else
    match aget bytes_eqb (s_handlers s) addr with
    | None => s
    | Some m => Server false (aset bytes_eqb (s_handlers s) addr (aset Z.eqb m t h))
    end.

(** fcrp2pserver/server.go L92-117, fcrrestserver/server.go L70-101 [Start]; listening
    succeeds. *)
Definition Start {H} (s : server H) : result unit * server H :=
  if s_start s then (ErrR, s) else (OkR tt, Server true (s_handlers s)).

(** The lookup of fcrp2pserver/server.go L110, L140 and fcrrestserver/server.go L128: a
    missing address is a nil map. *)
Definition handler_of {H} (s : server H) (addr : gostring) (t : Z) : option H :=
  match aget bytes_eqb (s_handlers s) addr with
  | None => None
  | Some m => aget Z.eqb m t
  end.

(** ** The TCP server *)

(** A handler reads a request, may read more from the connection, and writes replies;
    [false] asks to drop the connection. *)
Definition p2p_handler (St : Type) := St -> list event -> message -> outcome (St * list event * list message * bool).

(** What the connection loop does: a handler runs on a message, an invalid-message
    reply is sent. *)
Inductive served := Handled (t : Z) (m : message) (replies : list message) | Invalid (m : message).

Section p2p.
  Variable St : Type.
  Variable version : Z.
  Variable supported : list Z.

  (** fcrp2pserver/server.go L129-160: one round.  [None]: the connection is dropped.
      Writing to the connection succeeds. *)
  Definition serve_one (handlers : list (Z * p2p_handler St)) (st : St) (conn : list event)
      : outcome (St * list served * option (list event)) :=
    let* r := readTCPMessage conn in
    match r with
    | (Broken, _) | (Got ErrR, _) => Ret (st, [], None)
    | (Timeout, conn) => Ret (st, [], Some conn)
    | (Got (OkR m), conn) =>
        match aget Z.eqb handlers (m_type m) with
        | Some h =>
            let* q := h st conn m in
            match q with (st, conn, replies, ok) =>
              Ret (st, [Handled (m_type m) m replies], if ok : bool then Some conn else None) end
        | None => Ret (st, [Invalid m], Some conn)
        end
    end.

  (** fcrp2pserver/server.go L120-161 [handleIncomingConnection]. *)
  Fixpoint serve (fuel : nat) (handlers : list (Z * p2p_handler St)) (st : St) (conn : list event)
      : outcome (St * list served) :=
    match fuel with
    | O => Diverge
    | S fuel =>
        let* r := serve_one handlers st conn in
        match r with
        | (st, log, None) => Ret (st, log)
        | (st, log, Some conn) =>
            let* q := serve fuel handlers st conn in
            Ret (fst q, log ++ snd q)
        end
    end.
End p2p.

(** ** The REST server *)

(** A handler: the node afterwards and what was written, in order. *)
Definition rest_handler (St : Type) := St -> message -> outcome (St * list Rest.answer).

(** fcrrestserver/server.go L104-135 [msgRouter]; [None]: reading the body failed. *)
Definition msgRouter {St} (s : server (rest_handler St)) (addr : gostring) (st : St) (content : option bytes)
    : outcome (St * list Rest.answer) :=
  match content with
  | None | Some [] => Ret (st, [Rest.HttpError 400])
  | Some b =>
      match FCRMsgFromBytes b with
      | ErrR => Ret (st, [Rest.HttpError 400])
      | OkR m =>
          match handler_of s addr (m_type m) with
          | Some h => h st m
          | None => Ret (st, [Rest.HttpError 400])
          end
      end
  end.
