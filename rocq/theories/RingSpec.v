(** Specification vocabulary for the DHT ring.

    Ring arithmetic and list vocabulary are independent of the model; the last
    part says how a ring is observed ([Dump]) and which histories are
    considered. *)
From Coq Require Import List ZArith Bool Sorting.Sorted.
From Coq Require Import Init.Byte.
From Verif Require Import Base Ring.
Import ListNotations.
Open Scope Z_scope.
Open Scope go_scope.

(** ** Ring arithmetic *)
Definition M256 : Z := 2 ^ 256.

(** Clockwise walk from [a] to [b], and the shorter way round. *)
Definition cw (a b : Z) : Z := (b - a) mod M256.
Definition circ (a b : Z) : Z := Z.min (cw a b) (cw b a).

Definition rotation {A} (a b : list A) : Prop := exists u v, a = u ++ v /\ b = v ++ u.

(** Exactly 64 hex digits of either case. *)
Definition is_point (s : gostring) : Prop :=
  length s = 64%nat /\ Forall (fun b => hex_digit b <> None) s.

(** ** Answers *)

(** [num] entries forming an arc of the ring (in clockwise order), none further
    from the point than an entry left out. *)
Definition closest_ok (members : list gostring) (hex : gostring) (num : Z) (res : list gostring) : Prop :=
  Z.of_nat (length res) = num /\
  exists others, rotation members (res ++ others) /\
    forall x y, In x res -> In y others ->
      circ (hex_val hex) (hex_val x) <= circ (hex_val hex) (hex_val y).

(** Exactly the entries on the clockwise walk from [s] to [e], in that order. *)
Definition range_ok (members : list gostring) (s e : gostring) (res : list gostring) : Prop :=
  (forall v, In v res <-> In v members /\
     cw (hex_val s) (hex_val v) <= cw (hex_val s) (hex_val e)) /\
  StronglySorted (fun a b => cw (hex_val s) (hex_val a) < cw (hex_val s) (hex_val b)) res.

(** Strings that are the first spelling of a valid key in a list. *)
Definition first_spelling (hs : list gostring) (v : gostring) : Prop :=
  exists l1 l2, hs = l1 ++ v :: l2 /\ is_point v /\
    forall u, In u l1 -> is_point u -> hex_val u <> hex_val v.

(** A temporary entry at [p] is cleaned up correctly afterwards: it is an entry
    anyway, or there is at most one other entry, or some entry is smaller (so the
    temporary entry does not become the head). *)
Definition undisturbed (members : list gostring) (p : gostring) : Prop :=
  In p members \/ (length members <= 1)%nat \/ exists v, In v members /\ hex_val v < hex_val p.

(** Nobody spelled the key of [p] differently. *)
Definition spelled (members : list gostring) (p : gostring) : Prop :=
  forall v, In v members -> hex_val v = hex_val p -> v = p.

(** The entries without [x]. *)
Definition without (x : gostring) (members : list gostring) : list gostring :=
  filter (fun v => negb (bytes_eqb v x)) members.

(** ** Observation and histories *)

(** The entries a ring shows when dumped. *)
Definition entries (r : ring) : list gostring :=
  match Dump r with Ret d => map (fun t => fst (fst t)) d | _ => [] end.

(** A new ring after a list of insertions. *)
Definition inserts (hs : list gostring) : outcome ring :=
  fold_left (fun o h => let* r := o in Insert r h) hs (Ret CreateRing).

Inductive ring_op :=
| OpInsert (h : gostring)
| OpRemove (h : gostring)
| OpClosest (hex : gostring) (num : Z) (exclude : gostring)
| OpRange (s e : gostring).

(** The ring after an operation. *)
Definition run_op (r : ring) (o : ring_op) : outcome ring :=
  match o with
  | OpInsert h => Insert r h
  | OpRemove h => Remove r h
  | OpClosest hex num ex => let* p := GetClosest r hex num ex in Ret (snd p)
  | OpRange s e => let* p := GetWithinRange r s e in Ret (snd p)
  end.

(** Operations that do not hit one of the faults described in the refuted
    properties: removing from a one-entry ring something else than its entry,
    removing the smallest entry of three or more, and queries whose temporary
    entry would have to be removed that way. *)
Definition faultless (members : list gostring) (o : ring_op) : Prop :=
  match o with
  | OpInsert _ => True
  | OpRemove h =>
      is_point h ->
      (length members = 1%nat -> In h members) /\
      ((3 <= length members)%nat -> hd_error members <> Some h)
  | OpClosest hex num ex =>
      is_point hex -> ex = [] \/ is_point ex ->
      0 <= num /\ spelled members hex /\ undisturbed (without ex members) hex /\
      ((3 <= length members)%nat -> hd_error members <> Some ex)
  | OpRange s e =>
      is_point s -> is_point e ->
      hex_val s <> hex_val e /\ spelled members s /\ spelled members e /\
      undisturbed members s /\
      undisturbed (if existsb (bytes_eqb s) members then members else s :: members) e
  end.

(** Rings obtained from a new ring by any sequence of faultless operations. *)
Inductive healthy : ring -> Prop :=
| healthy_new : healthy CreateRing
| healthy_step r o r' :
    healthy r -> faultless (entries r) o -> run_op r o = Ret r' -> healthy r'.
