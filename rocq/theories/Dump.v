(** * The dump of a message

    common/pkg/fcrmessages/dump.go and [DumpMessage] of fcrmessage.go. *)
From Coq Require Import List ZArith Bool Init.Byte.
From Verif Require Import Base Json Message.
Import ListNotations.
Open Scope Z_scope.

(** dump.go L66-81 [printable]: the hexadecimal column, [i] bytes of the row being
    done, ... *)
Fixpoint hex_column (i : Z) (row : bytes) : gostring :=
  match row with
  | [] => []
  | c :: t => hex_encode [c] ++ [x20] ++ (if i mod 4 =? 3 then [x20] else []) ++ hex_column (i + 1) t
  end.

(** ... and the characters, with a shade (U+2591 in UTF-8) for what is not ASCII text. *)
Definition ascii_column (row : bytes) : gostring :=
  flat_map (fun c => if (bz c <? 32) || (127 <=? bz c) then [xe2; x96; x91] else [c]) row.

(** [strings.Repeat]; panics for a negative count. *)
Definition repeat_str (n : Z) : outcome gostring := if n <? 0 then Panic else Ret (repeat x20 (Z.to_nat n)).

(** [%5d] for a number not below zero. *)
Definition fmt5 (z : Z) : gostring := let d := dec_print z in repeat x20 (5 - length d) ++ d.

(** dump.go L50-62: one row; [idx] is [rowIndex], [mx] is [maxRowWidth]. *)
Definition dump_row (idx mx : Z) (row : bytes) : outcome gostring :=
  let n := Z.of_nat (length row) in
  let* pad := (if n <? mx then repeat_str (mx * 2 + mx / 4 - n * 2 - n / 4) else Ret []) in
  Ret (fmt5 (idx * 32) ++ [x3a; x20] ++ (hex_column 0 row ++ pad) ++ [x20; x7c; x20] ++ ascii_column row ++ [x0a]).

(** dump.go L44-64 [dump]: the loop over rows of 32 bytes; [fuel] counts rows. *)
Fixpoint dump_rows (fuel : nat) (idx mx : Z) (buf : bytes) : outcome gostring :=
  match buf with
  | [] => Ret []
  | _ =>
      match fuel with
      | O => Diverge
      | S f =>
          let row := firstn 32 buf in
          let* line := dump_row idx mx row in
          let* rest := dump_rows f (idx + 1) (Z.of_nat (length row)) (skipn 32 buf) in
          Ret (line ++ rest)
      end
  end.

(** dump.go L31-36 [dumpMessage]. *)
Definition dumpMessage (data : bytes) : outcome gostring := dump_rows (length data) 0 0 data.

(** fcrmessage.go L189-195 [DumpMessage]; [MarshalJSON] of a message does not fail. *)
Definition DumpMessage (m : message) : outcome gostring := dumpMessage (FCRMsgToBytes m).
