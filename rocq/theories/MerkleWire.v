(** * Wire form of Merkle proofs

    Models common/pkg/fcrmerkletree/proof.go L53-120 over the JSON text model.  An
    empty path or index list stands for Go's nil slice, printed as null; parsing
    can also give an empty non-nil slice, which is not observable.  Definitions
    only. *)
From Coq Require Import List ZArith Bool.
From Coq Require Import Init.Byte.
From Verif Require Import Base Ids Json Merkle.
Import ListNotations.
Open Scope Z_scope.
Open Scope go_scope.

(** [b[:n]] and [b[n:]], which panic outside the slice. *)
Definition slice_to (b : bytes) (n : Z) : outcome bytes :=
  if (0 <=? n) && (n <=? Z.of_nat (length b)) then Ret (firstn (Z.to_nat n) b) else Panic.
Definition slice_from (b : bytes) (n : Z) : outcome bytes :=
  if (0 <=? n) && (n <=? Z.of_nat (length b)) then Ret (skipn (Z.to_nat n) b) else Panic.

(** [json.Marshal] of [[][]byte], [[]int64] and [[]byte]. *)
Definition json_path (p : list bytes) : json :=
  match p with [] => JNull | _ => JArr (map (fun b => JStr (b64_encode b)) p) end.
Definition json_index (l : list Z) : json :=
  match l with [] => JNull | _ => JArr (map JNum l) end.
Definition json_bytes (b : bytes) : json := JStr (b64_encode b).

(** proof.go L53-76 [MarshalJSON]: both parts preceded by their length in 32 bits. *)
Definition MarshalProof (mp : proof) : gostring :=
  let pathBytes := json_print (json_path (p_path mp)) in
  let length1 := be_bytes 4 (Z.of_nat (length pathBytes)) in
  let indexBytes := json_print (json_index (p_index mp)) in
  let length2 := be_bytes 4 (Z.of_nat (length indexBytes)) in
  json_print (json_bytes (length1 ++ pathBytes ++ length2 ++ indexBytes)).

(** proof.go L79-120 [UnmarshalJSON]. *)
Definition UnmarshalProof (p : gostring) : outcome (result proof) :=
  match unmarshal dec_bytes [] p with
  | None => Ret ErrR
  | Some current =>
      if Nat.leb (length current) 4 then Ret ErrR
      else
        let* data := slice_to current 4 in
        let* current := slice_from current 4 in
        let length1 := be_val data in
        if Z.of_nat (length current) <=? length1 then Ret ErrR
        else
          let* data := slice_to current length1 in
          let* current := slice_from current length1 in
          match unmarshal (dec_list dec_bytes []) [] data with
          | None => Ret ErrR
          | Some path =>
              if Nat.leb (length current) 4 then Ret ErrR
              else
                let* data := slice_to current 4 in
                let* current := slice_from current 4 in
                let length2 := be_val data in
                if negb (Z.of_nat (length current) =? length2) then Ret ErrR
                else
                  match unmarshal (dec_list dec_i64 0) [] current with
                  | None => Ret ErrR
                  | Some index => Ret (OkR (Proof path index))
                  end
          end
  end.
