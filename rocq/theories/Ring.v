(** * DHT ring: model of common/pkg/dhtring/dhtring.go

    The ring is modelled at pointer level.  A pointer is [option nat], an
    index into the list of all nodes ever allocated; [None] is [nil].  Nodes are
    never collected, which is unobservable.  Definitions only. *)
From Coq Require Import List ZArith Bool.
From Coq Require Import Init.Byte.
From Verif Require Import Base.
Import ListNotations.
Open Scope Z_scope.
Open Scope go_scope.

(** dhtring.go L30-39 [ringNode]. *)
Record node := Node {
  prv : option nat;
  distPrv : option Z;
  key : Z;
  val : gostring;
  distNext : option Z;
  next : option nat
}.

(** dhtring.go L42-45 [Ring], plus the heap its pointers point into. *)
Record ring := Ring {
  heap : list node;
  head : option nat;
  size : Z
}.

(** Field assignments [n.f = x]. *)
Definition set_prv (x : option nat) (n : node) :=
  Node x (distPrv n) (key n) (val n) (distNext n) (next n).
Definition set_distPrv (x : option Z) (n : node) :=
  Node (prv n) x (key n) (val n) (distNext n) (next n).
Definition set_distNext (x : option Z) (n : node) :=
  Node (prv n) (distPrv n) (key n) (val n) x (next n).
Definition set_next (x : option nat) (n : node) :=
  Node (prv n) (distPrv n) (key n) (val n) (distNext n) x.

(** Pointer dereference; a nil pointer panics. *)
Definition load (h : list node) (p : option nat) : outcome node :=
  match p with
  | None => Panic
  | Some a => match nth_error h a with Some n => Ret n | None => Panic end
  end.

(** Assignment through a pointer; a nil pointer panics. *)
Definition store (h : list node) (p : option nat) (f : node -> node) : outcome (list node) :=
  match p with
  | None => Panic
  | Some a =>
      match nth_error h a with
      | Some n => Ret (set_nth h a (f n))
      | None => Panic
      end
  end.

(** Reading a [*big.Int] that may be nil ([Add] with a nil argument panics). *)
Definition loadz (z : option Z) : outcome Z :=
  match z with Some v => Ret v | None => Panic end.

(** dhtring.go L48-53 [CreateRing]. *)
Definition CreateRing : ring := Ring [] None 0.

(** dhtring.go L429-439 [validateInput].  Go ranges over runes; a byte of 128
    or more always yields a rune outside the three accepted ranges, so testing
    bytes is the same. *)
Definition validateInput (hex : gostring) : bool :=
  (Nat.eqb (length hex) 64)
  && forallb (fun c =>
       let v := bz c in
       negb (((v <? 48) || (57 <? v)) && ((v <? 65) || (70 <? v)) && ((v <? 97) || (102 <? v)))) hex.

(** dhtring.go L413-426 [getDist]. *)
Definition max256 : Z := 2 ^ 256 - 1.
Definition getDist (from to : Z) : Z :=
  if from <? to then to - from
  else (max256 - from) + (to - 0) + 1.

(** Result of the search loops of [Insert]. *)
Inductive scan :=
| SExists
| SBefore (prvp curp : option nat)   (* current is bigger *)
| SEnd (prvp curp : option nat).     (* nil or back at the head *)

(** dhtring.go L103-126, the loop of [Insert]; it only reads.  [fuel] is the
    number of nodes plus one: a walk that long has revisited a node and, since
    the loop writes nothing before returning, never ends. *)
Fixpoint insert_scan (fuel : nat) (h : list node) (headVal : gostring) (newKey : Z)
    (prvp curp : option nat) : outcome scan :=
  match fuel with
  | O => Diverge
  | S fuel' =>
      match curp with
      | None => Ret (SEnd prvp curp)
      | Some _ =>
          let* c := load h curp in
          if bytes_eqb (val c) headVal then Ret (SEnd prvp curp)
          else
            match key c ?= newKey with
            | Eq => Ret SExists
            | Gt => Ret (SBefore prvp curp)
            | Lt => insert_scan fuel' h headVal newKey curp (next c)
            end
      end
  end.

(** The eight assignments linking [newp] between [prvp] and [curp]
    (dhtring.go L111-118 and L132-139).  [toKey] is the key used for the new
    node's [distNext]: [current.key] at L114, [r.head.key] at L135. *)
Definition link_between (h : list node) (prvp curp newp : option nat) (newKey toKey : Z)
    : outcome (list node) :=
  let* cur := load h curp in
  let* h := store h curp (set_prv newp) in
  let* h := store h curp (set_distPrv (Some (getDist newKey (key cur)))) in
  let* h := store h newp (set_next curp) in
  let* h := store h newp (set_distNext (Some (getDist newKey toKey))) in
  let* p := load h prvp in
  let* h := store h prvp (set_next newp) in
  let* h := store h prvp (set_distNext (Some (getDist (key p) newKey))) in
  let* h := store h newp (set_prv prvp) in
  store h newp (set_distPrv (Some (getDist (key p) newKey))).

(** dhtring.go L56-143 [Insert]. *)
Definition Insert (r : ring) (hex : gostring) : outcome ring :=
  if negb (validateInput hex) then Ret r
  else
    let hexKey := hex_val hex in
    let newp := Some (length (heap r)) in
    let h := heap r ++ [Node None None hexKey hex None None] in
    (* L70-73 *)
    let hd := if size r =? 0 then newp else head r in
    let sz := if size r =? 0 then size r + 1 else size r in
    let* hn := load h hd in
    match key hn ?= hexKey with
    | Eq => Ret (Ring h hd sz)
    | Gt =>
        (* L80-99 *)
        let tailp := match prv hn with None => hd | t => t end in
        let* h := store h hd (set_prv newp) in
        let* h := store h hd (set_distPrv (Some (getDist hexKey (key hn)))) in
        let* h := store h newp (set_next hd) in
        let* h := store h newp (set_distNext (Some (getDist hexKey (key hn)))) in
        let* h := store h tailp (set_next newp) in
        let* t := load h tailp in
        let* h := store h tailp (set_distNext (Some (getDist (key t) hexKey))) in
        let* h := store h newp (set_prv tailp) in
        let* h := store h newp (set_distPrv (Some (getDist (key t) hexKey))) in
        Ret (Ring h newp (sz + 1))
    | Lt =>
        let* s := insert_scan (S (length h)) h (val hn) hexKey hd (next hn) in
        match s with
        | SExists => Ret (Ring h hd sz)
        | SBefore prvp curp =>
            let* c := load h curp in
            let* h := link_between h prvp curp newp hexKey (key c) in
            Ret (Ring h hd (sz + 1))
        | SEnd prvp curp =>
            let curp := match curp with None => prvp | c => c end in
            let* h := link_between h prvp curp newp hexKey (key hn) in
            Ret (Ring h hd (sz + 1))
        end
    end.

(** Removal of a node found at [curp] (dhtring.go L196-215).  The test
    [r.head.val == current.val] at L211 is kept. *)
Definition unlink (r : ring) (hd : node) (curp : option nat) (c : node) : outcome ring :=
  match prv c, next c with
  | Some _, Some _ =>
      let* p := load (heap r) (prv c) in
      let* n := load (heap r) (next c) in
      let* h :=
        (if bytes_eqb (val p) (val n) then
           store (heap r) (next c)
             (fun m => Node None None (key m) (val m) None None)
         else
           let* h := store (heap r) (prv c) (set_next (next c)) in
           let* h := store h (prv c) (set_distNext (Some (getDist (key p) (key n)))) in
           let* h := store h (next c) (set_prv (prv c)) in
           store h (next c) (set_distPrv (Some (getDist (key p) (key n))))) in
      Ret (Ring h (if bytes_eqb (val hd) (val c) then next c else head r) (size r - 1))
  | _, _ =>
      Ret (Ring (heap r) (if bytes_eqb (val hd) (val c) then next c else head r) (size r - 1))
  end.

(** dhtring.go L194-224, the loop of [Remove]. *)
Fixpoint remove_scan (fuel : nat) (r : ring) (hd : node) (hex : gostring) (hexKey : Z)
    (curp : option nat) : outcome ring :=
  match fuel with
  | O => Diverge
  | S fuel' =>
      match curp with
      | None => Ret r
      | Some _ =>
          let* c := load (heap r) curp in
          if bytes_eqb (val c) (val hd) then Ret r
          else if bytes_eqb (val c) hex then unlink r hd curp c
          else if hexKey <? key c then Ret r
          else remove_scan fuel' r hd hex hexKey (next c)
      end
  end.

(** The four assignments that turn a node into the only one (L162-165, L168-171). *)
Definition make_single (n : node) : node :=
  Node None (Some 0) (key n) (val n) (Some 0) None.

(** dhtring.go L146-225 [Remove]. *)
Definition Remove (r : ring) (hex : gostring) : outcome ring :=
  if negb (validateInput hex) then Ret r
  else if size r =? 0 then Ret r
  else if size r =? 1 then Ret (Ring (heap r) None 0)
  else
    let* hd := load (heap r) (head r) in
    if size r =? 2 then
      if bytes_eqb (val hd) hex then
        let* h := store (heap r) (next hd) make_single in
        Ret (Ring h (next hd) 1)
      else
        let* n := load (heap r) (next hd) in
        if bytes_eqb (val n) hex then
          let* h := store (heap r) (head r) make_single in
          Ret (Ring h (head r) 1)
        else Ret r
    else if bytes_eqb (val hd) hex then
      (* L176-190: [oldHead.prv] is set, the tail is not relinked *)
      let newHead := next hd in
      let* h := store (heap r) (head r) (set_prv newHead) in
      let* nh := load h newHead in
      let* p := load h (prv nh) in
      let d := getDist (key p) (key nh) in
      let* h := store h newHead (set_distPrv (Some d)) in
      let* nh := load h newHead in
      let* h := store h (prv nh) (set_distNext (Some d)) in
      Ret (Ring h newHead (size r - 1))
    else
      remove_scan (S (length (heap r))) r hd hex (hex_val hex) (next hd).

(** dhtring.go L365-367 [Size]. *)
Definition Size (r : ring) : Z := size r.

(** dhtring.go L370-387 [Dump]: the entries printed, each with its two
    distances, starting at the head. *)
Fixpoint dump_scan (fuel : nat) (h : list node) (headVal : gostring) (curp : option nat)
    : outcome (list (gostring * option Z * option Z)) :=
  match fuel with
  | O => Diverge
  | S fuel' =>
      match curp with
      | None => Ret []
      | Some _ =>
          let* c := load h curp in
          if bytes_eqb (val c) headVal then Ret []
          else
            let* rest := dump_scan fuel' h headVal (next c) in
            Ret ((val c, distPrv c, distNext c) :: rest)
      end
  end.

Definition Dump (r : ring) : outcome (list (gostring * option Z * option Z)) :=
  match head r with
  | None => Ret []
  | Some _ =>
      let* hd := load (heap r) (head r) in
      let* rest := dump_scan (S (length (heap r))) (heap r) (val hd) (next hd) in
      Ret ((val hd, distPrv hd, distNext hd) :: rest)
  end.

(** dhtring.go L390-410 [get]. *)
Fixpoint get_scan (fuel : nat) (h : list node) (headVal hex : gostring) (curp : option nat)
    : outcome (option nat) :=
  match fuel with
  | O => Diverge
  | S fuel' =>
      match curp with
      | None => Ret None
      | Some _ =>
          let* c := load h curp in
          if bytes_eqb (val c) headVal then Ret None
          else if bytes_eqb (val c) hex then Ret curp
          else get_scan fuel' h headVal hex (next c)
      end
  end.

Definition get (r : ring) (hex : gostring) : outcome (option nat) :=
  if negb (validateInput hex) then Ret None
  else if size r =? 0 then Ret None
  else
    let* hd := load (heap r) (head r) in
    if bytes_eqb (val hd) hex then Ret (head r)
    else get_scan (S (length (heap r))) (heap r) (val hd) hex (next hd).

(** dhtring.go L250-256: the loop listing all entries after the head. *)
Fixpoint list_scan (fuel : nat) (h : list node) (headVal : gostring) (curp : option nat)
    (acc : list gostring) : outcome (list gostring) :=
  match fuel with
  | O => Diverge
  | S fuel' =>
      match curp with
      | None => Ret acc
      | Some _ =>
          let* c := load h curp in
          if bytes_eqb (val c) headVal then Ret acc
          else list_scan fuel' h headVal (next c) (acc ++ [val c])
      end
  end.

(** dhtring.go L272-279: walk from the head to the node holding [hex]; stops
    when back at the head. *)
Fixpoint find_scan (fuel : nat) (h : list node) (headVal hex : gostring) (curp : option nat)
    : outcome (option nat) :=
  match fuel with
  | O => Diverge
  | S fuel' =>
      let* c := load h curp in
      if bytes_eqb (val c) hex then Ret curp
      else
        let* n := load h (next c) in
        if bytes_eqb (val n) headVal then Ret (next c)
        else find_scan fuel' h headVal hex (next c)
  end.

(** dhtring.go L287-308: the two-pointer loop of [GetClosest].  The state of the
    loop is the two pointers, the two accumulated distances and the result. *)
Fixpoint closest_scan (fuel : nat) (h : list node) (num : Z)
    (prvp : option nat) (dprv : Z) (nextp : option nat) (dnext : Z)
    (res : list gostring) : outcome (list gostring) :=
  match fuel with
  | O => Diverge
  | S fuel' =>
      let* p := load h prvp in
      let* n := load h nextp in
      if bytes_eqb (val p) (val n) then Ret (res ++ [val p])
      else if dprv <=? dnext then
        let* d := loadz (distPrv p) in
        let res := val p :: res in
        if Z.of_nat (length res) =? num then Ret res
        else closest_scan fuel' h num (prv p) (dprv + d) nextp dnext res
      else
        let* d := loadz (distNext n) in
        let res := res ++ [val n] in
        if Z.of_nat (length res) =? num then Ret res
        else closest_scan fuel' h num prvp dprv (next n) (dnext + d) res
  end.

(** dhtring.go L264-309: the search part of [GetClosest], entered after the
    exclusion has been handled.  Returns the result and whether the deferred
    [Remove(hex)] is pending, together with the ring before deferred calls.
    Every iteration extends the result, so for [0 < num <= size] the loop ends
    within [num] iterations; the fuel (square of the number of nodes) covers
    that.  For [num < 0] only the meeting of the pointers ends the loop. *)
Definition closest_search (r : ring) (hex : gostring) (num : Z)
    : outcome (list gostring * ring * bool) :=
  let before := size r in
  let* r' := Insert r hex in
  let existed := size r' =? before in
  let res := if existed then [hex] else [] in
  if existed && (num =? 1) then Ret (res, r', false)
  else
    let* hd := load (heap r') (head r') in
    let* curp := find_scan (S (length (heap r'))) (heap r') (val hd) hex (head r') in
    let* c := load (heap r') curp in
    let* dp := loadz (distPrv c) in
    let* dn := loadz (distNext c) in
    let* res := closest_scan (S (length (heap r') * length (heap r')))
                  (heap r') num (prv c) dp (next c) dn res in
    Ret (res, r', negb existed).

(** dhtring.go L228-310 [GetClosest].  Deferred calls run last-in first-out:
    [Remove(hex)] and then [Insert(exclude)]. *)
Definition GetClosest (r : ring) (hex : gostring) (num : Z) (exclude : gostring)
    : outcome (result (list gostring) * ring) :=
  let hasEx := negb (bytes_eqb exclude []) in
  if negb (validateInput hex) || (hasEx && negb (validateInput exclude)) then Ret (ErrR, r)
  else if (num =? 0) || (size r =? 0) || (hasEx && (size r =? 1)) then Ret (OkR [], r)
  else
    let before := size r in
    let* r1 := (if hasEx then Remove r exclude else Ret r) in
    let removed := negb (size r1 =? before) in
    let* out :=
      (if size r1 <? num then
         let* hd := load (heap r1) (head r1) in
         let res := if bytes_eqb (val hd) hex then [val hd] else [] in
         let* res := list_scan (S (length (heap r1))) (heap r1) (val hd) (next hd) res in
         Ret (res, r1, false)
       else closest_search r1 hex num) in
    let '(res, r2, pending) := out in
    let* r3 := (if pending : bool then Remove r2 hex else Ret r2) in
    let* r4 := (if removed then Insert r3 exclude else Ret r3) in
    Ret (OkR res, r4).

(** dhtring.go L350-354: the collecting loop of [GetWithinRange]. *)
Fixpoint range_scan (fuel : nat) (h : list node) (endVal : gostring) (nextp : option nat)
    (acc : list gostring) : outcome (list gostring) :=
  match fuel with
  | O => Diverge
  | S fuel' =>
      let* n := load h nextp in
      if bytes_eqb (val n) endVal then Ret acc
      else range_scan fuel' h endVal (next n) (acc ++ [val n])
  end.

(** One endpoint of [GetWithinRange] (dhtring.go L323-333 and L335-345): the
    node, whether it was already there, and the ring; [None] is the
    "internal error" return. *)
Definition endpoint (r : ring) (hex : gostring) : outcome (option (nat * bool) * ring) :=
  let* t := get r hex in
  match t with
  | Some a => Ret (Some (a, true), r)
  | None =>
      let* r := Insert r hex in
      let* t := get r hex in
      match t with
      | Some a => Ret (Some (a, false), r)
      | None => Ret (None, r)
      end
  end.

(** dhtring.go L313-362 [GetWithinRange]; deferred calls run [Remove(endHex)]
    first, then [Remove(startHex)]. *)
Definition GetWithinRange (r : ring) (startHex endHex : gostring)
    : outcome (result (list gostring) * ring) :=
  if negb (validateInput startHex) || negb (validateInput endHex) then Ret (ErrR, r)
  else
    let* sres := endpoint r startHex in
    match sres with
    | (None, r) => Ret (ErrR, r)
    | (Some (startp, addStart), r) =>
        let* eres := endpoint r endHex in
        match eres with
        | (None, r) =>
            let* r := (if addStart : bool then Ret r else Remove r startHex) in
            Ret (ErrR, r)
        | (Some (endp, addEnd), r) =>
            let acc := if addStart : bool then [startHex] else [] in
            let* sn := load (heap r) (Some startp) in
            let* en := load (heap r) (Some endp) in
            let* acc := range_scan (S (length (heap r))) (heap r) (val en) (next sn) acc in
            let res := if addEnd : bool then acc ++ [endHex] else acc in
            let* r := (if addEnd then Ret r else Remove r endHex) in
            let* r := (if addStart then Ret r else Remove r startHex) in
            Ret (OkR res, r)
        end
    end.
