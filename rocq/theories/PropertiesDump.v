(** * Properties of dumps of messages *)
From Coq Require Import String List ZArith Lia Bool Init.Byte.
From Verif Require Import Base BaseProofs Json WireSpec Message MessageProofs Dump DumpSpec DumpProofs.
Import ListNotations.
Open Scope Z_scope.

(** ** C180: a dump shows the message completely *)
Theorem dump_reads_back : forall m, exists s, DumpMessage m = Ret s /\ read_dump s = FCRMsgToBytes m /\
  (int32 (m_type m) -> int32 (m_version m) -> (forall l, m_supported m = Some l -> Forall int32 l) -> FCRMsgFromBytes (read_dump s) = OkR m).
Proof.
  intros m. destruct (dump_read_pf (FCRMsgToBytes m)) as (s & D & R). exists s. split; [exact D|]. split; [exact R|].
  intros A B C. rewrite R. apply message_wire_pf'; assumption.
Qed.
Print Assumptions dump_reads_back.

Theorem dump_any : forall data, exists s, dumpMessage data = Ret s /\ read_dump s = data.
Proof. exact dump_read_pf. Qed.
Print Assumptions dump_any.

Definition dump_msg : message := Message 7 1 (Some [1]) (Some [x00; xff; x7c; x0a]) (gs "s").
Example dump_ex : FCRMsgToBytes dump_msg = gs "{""message_type"":7,""protocol_version"":1,""protocol_supported"":[1],""message_body"":""AP98Cg=="",""message_signature"":""s""}" /\
  dumpMessage [x00; x7c; x0a; x41; x42] = Ret (gs "    0: 00 7c 0a 41  42  | " ++ [xe2; x96; x91; x7c; xe2; x96; x91; x41; x42; x0a]) /\
  (exists s, DumpMessage dump_msg = Ret s /\ read_dump s = FCRMsgToBytes dump_msg /\ List.length (split_lines [] s) = 4%nat).
Proof. split; [vm_compute; reflexivity|]. split; [vm_compute; reflexivity|]. eexists. split; [vm_compute; reflexivity|]. split; vm_compute; reflexivity. Qed.

(** ** C181: the columns of a dump *)

(** Full claim: the bars of all rows stand in one column; see
    [dump_columns_refuted].  Missing: a last row of fewer than 32 bytes after
    others, and offsets of more than five digits. *)
Theorem dump_columns_partial : forall data k, length data = (32 * k)%nat -> Z.of_nat (length data) <= 100000 ->
  exists s, dumpMessage data = Ret s /\ bars s = repeat 112%nat k.
Proof. exact dump_bars_pf. Qed.
Print Assumptions dump_columns_partial.

Example dump_columns_ex : exists s, dumpMessage (repeat x7c 64) = Ret s /\ bars s = [112; 112]%nat.
Proof. eexists. split; [vm_compute; reflexivity|]. vm_compute. reflexivity. Qed.

(** The padding counts two characters to a byte, the rows take three. *)
Theorem dump_columns_refuted : exists data s, dumpMessage data = Ret s /\ bars s = [112; 81]%nat.
Proof. exists (repeat x41 33). eexists. split; [vm_compute; reflexivity|]. vm_compute. reflexivity. Qed.
Print Assumptions dump_columns_refuted.
