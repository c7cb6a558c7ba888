(** * Messages on TCP connections

    Models common/pkg/fcrp2pserver/tcp_comms.go, with the parts of Go's [bufio] and
    [io] it uses.  Definitions only.

    A connection is the list of what its reader will see: pieces of data, and moments
    at which a deadline passes without any; after the last one the connection is
    closed by the peer.  The connection is open on this side ([SetDeadline] does not
    fail), see [Pool] for the other case. *)
From Coq Require Import List ZArith Bool.
From Coq Require Import Init.Byte.
From Verif Require Import Base Json Crypto Message.
Import ListNotations.
Open Scope Z_scope.
Open Scope go_scope.

Inductive event := Data (b : bytes) | Idle.

(** What a read returns: bytes, a timeout ([isTimeoutError], tcp_comms.go L29-32), or
    another error. *)
Inductive io (A : Type) := Got (a : A) | Timeout | Broken.
Arguments Got {A} a.
Arguments Timeout {A}.
Arguments Broken {A}.

Definition takeZ (n : Z) (l : bytes) : bytes := firstn (Z.to_nat (Z.min n (Z.of_nat (length l)))) l.
Definition dropZ (n : Z) (l : bytes) : bytes := skipn (Z.to_nat (Z.min n (Z.of_nat (length l)))) l.

(** [net.Conn.Read] with a buffer of [n] bytes. *)
Fixpoint net_read (n : Z) (conn : list event) : io bytes * list event :=
  match conn with
  | [] => (Broken, [])
  | Idle :: t => (Timeout, t)
  | Data [] :: t => net_read n t
  | Data c :: t => (Got (takeZ n c), Data (dropZ n c) :: t)
  end.

(** The size of the buffer of [bufio.NewReader]. *)
Definition bufio_size : Z := 4096.

(** [bufio.Reader.Read] with a buffer of [n] bytes; [buf] is what the reader holds. *)
Definition bufio_read (n : Z) (buf : bytes) (conn : list event) : io bytes * bytes * list event :=
  match buf with
  | [] =>
      if bufio_size <=? n then
        let (r, conn) := net_read n conn in (r, [], conn)
      else
        match net_read bufio_size conn with
        | (Got b, conn) => (Got (takeZ n b), dropZ n b, conn)
        | (r, conn) => (r, [], conn)
        end
  | _ => (Got (takeZ n buf), dropZ n buf, conn)
  end.

(** [io.ReadFull] of [n] bytes. *)
Fixpoint read_full (fuel : nat) (n : Z) (buf : bytes) (conn : list event) : outcome (io bytes * bytes * list event) :=
  if n <=? 0 then Ret (Got [], buf, conn)
  else
    match fuel with
    | O => Diverge
    | S fuel =>
        match bufio_read n buf conn with
        | (Got b, buf, conn) =>
            let* r := read_full fuel (n - Z.of_nat (length b)) buf conn in
            match r with
            | (Got b', buf, conn) => Ret (Got (b ++ b'), buf, conn)
            | r => Ret r
            end
        | r => Ret r
        end
    end.

(** The bytes still to come. *)
Definition stream (conn : list event) : bytes :=
  concat (map (fun e => match e with Data b => b | Idle => [] end) conn).

(** Enough rounds: each takes a byte, or ends the reading. *)
Definition rounds (buf : bytes) (conn : list event) : nat := S (length buf + length (stream conn)).

(** tcp_comms.go L35-59 [readTCPMessage].  The reader, with what it holds, is dropped
    in the end. *)
Definition readTCPMessage (conn : list event) : outcome (io (result message) * list event) :=
  let* r := read_full (rounds [] conn) 4 [] conn in
  match r with
  | (Got len, buf, conn) =>
      let* r := read_full (rounds buf conn) (be_val len) buf conn in
      match r with
      | (Got data, _, conn) => Ret (Got (FCRMsgFromBytes data), conn)
      | (Timeout, _, conn) => Ret (Timeout, conn)
      | (Broken, _, conn) => Ret (Broken, conn)
      end
  | (Timeout, _, conn) => Ret (Timeout, conn)
  | (Broken, _, conn) => Ret (Broken, conn)
  end.

(** tcp_comms.go L62-85 [sendTCPMessage]: the bytes written. *)
Definition sendTCPMessage (m : message) : bytes :=
  let data := FCRMsgToBytes m in
  be_bytes 4 (Z.of_nat (length data) mod 2 ^ 32) ++ data.
