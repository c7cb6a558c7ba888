(** * Specification of message delivery and dispatch *)
From Coq Require Import List ZArith Bool.
From Coq Require Import Init.Byte.
From Verif Require Import Base Json Crypto Message WireSpec Frame Server.
Import ListNotations.
Open Scope Z_scope.
Open Scope go_scope.

(** Messages that fit the frame: integers in range and less than 4 GiB of text. *)
Definition sendable (m : message) : Prop :=
  int32 (m_type m) /\ int32 (m_version m) /\ (forall l, m_supported m = Some l -> Forall int32 l) /\
  Z.of_nat (length (FCRMsgToBytes m)) < 2 ^ 32.

(** The messages arrive one after the other, each in any number of pieces, none of
    which has bytes of two messages; deadlines may pass between messages. *)
Inductive arrives : list message -> list event -> Prop :=
| arrives_end : arrives [] []
| arrives_idle ms conn : arrives ms conn -> arrives ms (Idle :: conn)
| arrives_message m cs ms conn :
    concat cs = sendTCPMessage m -> arrives ms conn -> arrives (m :: ms) (map Data cs ++ conn).

(** The messages read from a connection until it is dropped; timeouts are ignored
    (fcrp2pserver/server.go L129-139). *)
Fixpoint received (fuel : nat) (conn : list event) : outcome (list message) :=
  match fuel with
  | O => Diverge
  | S fuel =>
      let* r := readTCPMessage conn in
      match r with
      | (Got (OkR m), conn) => let* ms := received fuel conn in Ret (m :: ms)
      | (Timeout, conn) => received fuel conn
      | _ => Ret []
      end
  end.

(** Handlers are registered by a list of calls; the last one for an address and type
    counts. *)
Definition registrations (H : Type) := list (gostring * Z * H).
Fixpoint registered {H} (adds : registrations H) (addr : gostring) (t : Z) : option H :=
  match adds with
  | [] => None
  | (a, t', h) :: r =>
      match registered r addr t with
      | Some h => Some h
      | None => if bytes_eqb a addr && (t' =? t) then Some h else None
      end
  end.

(** A server with these handlers, started. *)
Definition running {H} (addrs : list gostring) (adds : registrations H) : server H :=
  snd (Start (fold_left (fun s r => AddHandler s (fst (fst r)) (snd (fst r)) (snd r)) adds (new_server addrs))).

(** What serving the messages in order means: each goes to its handler alone, others
    are answered as invalid; the handler may end it. *)
Fixpoint dispatched {St} (find : Z -> option (p2p_handler St)) (st : St) (ms : list message) : outcome (St * list served) :=
  match ms with
  | [] => Ret (st, [])
  | m :: ms =>
      match find (m_type m) with
      | None => let* q := dispatched find st ms in Ret (fst q, Invalid m :: snd q)
      | Some h =>
          let* r := h st [] m in
          match r with (st, _, replies, ok) =>
            if ok : bool then
              let* q := dispatched find st ms in Ret (fst q, Handled (m_type m) m replies :: snd q)
            else Ret (st, [Handled (m_type m) m replies])
          end
      end
  end.

(** The handler does not read from the connection itself. *)
Definition answers_only {St} (h : p2p_handler St) : Prop :=
  forall st conn m,
    h st conn m = let* r := h st [] m in Ret (fst (fst (fst r)), conn, snd (fst r), snd r).
