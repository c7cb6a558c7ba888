(** * Digit buffers of [big.Int] and the configured top-up amount

    payment_manager.go L178 stores [*amount] in the channel state: a copy of the
    [big.Int] header that shares its digit buffer with the caller's value, which
    is the configured top-up amount (client filecoin_retrieval_client.go L769 and
    L778, gateway dht_discover_handler_v2.go L140 and L149).  Line 203 of
    payment_manager.go later adds in place.  This file models the part of Go 1.16's math/big (nat.go [make],
    [add], [norm]) that decides whether the addition writes into the shared
    buffer.  Non-negative values only. *)
From Coq Require Import List ZArith Bool.
From Verif Require Import Base.
Import ListNotations.
Open Scope Z_scope.

Definition W : Z := 2 ^ 64.

(** Digit buffers in memory; the capacity of a buffer is its length. *)
Notation bufs := (list (list Z)).

(** A [nat]: the first [n_len] words of a buffer. *)
Record nat_ := Nat_ { n_buf : nat; n_len : nat }.

Definition words (h : bufs) (x : nat_) : list Z := firstn (n_len x) (nth (n_buf x) h []).

Fixpoint wval (ws : list Z) : Z :=
  match ws with [] => 0 | w :: t => w + W * wval t end.

Definition nval (h : bufs) (x : nat_) : Z := wval (words h x).

(** nat.go [make]: reuse the buffer when it is large enough, else allocate, with
    four spare words unless one word is asked for. *)
Definition nat_make (h : bufs) (z : nat_) (n : nat) : bufs * nat_ :=
  if Nat.leb n (length (nth (n_buf z) h [])) then (h, Nat_ (n_buf z) n)
  else (h ++ [repeat 0 (if Nat.eqb n 1 then 1 else n + 4)], Nat_ (length h) n).

(** arith.go [addVV] then [addVW] then the final carry word. *)
Fixpoint addw (xs ys : list Z) (c : Z) : list Z :=
  match xs, ys with
  | x :: xs', y :: ys' => (x + y + c) mod W :: addw xs' ys' ((x + y + c) / W)
  | x :: xs', [] => (x + c) mod W :: addw xs' [] ((x + c) / W)
  | [], _ => [c]
  end.

(** Write words at the start of a buffer. *)
Definition write (h : bufs) (b : nat) (ws : list Z) : bufs :=
  set_nth h b (ws ++ skipn (length ws) (nth b h [])).

(** nat.go [norm]: drop leading zero words. *)
Fixpoint norm_len (ws : list Z) : nat :=
  match ws with
  | [] => O
  | w :: t => match norm_len t with O => if w =? 0 then O else 1%nat | S k => S (S k) end
  end.

(** nat.go [add] (and [set] when the second operand is empty). *)
Definition nat_add (h : bufs) (z x y : nat_) : bufs * nat_ :=
  let (x, y) := if Nat.ltb (n_len x) (n_len y) then (y, x) else (x, y) in
  if Nat.eqb (n_len x) 0 then (h, Nat_ (n_buf z) 0)
  else if Nat.eqb (n_len y) 0 then
    let ws := words h x in
    let (h1, z1) := nat_make h z (n_len x) in (write h1 (n_buf z1) ws, z1)
  else
    let ws := addw (words h x) (words h y) 0 in
    let (h1, z1) := nat_make h z (S (n_len x)) in
    (write h1 (n_buf z1) ws, Nat_ (n_buf z1) (norm_len ws)).

(** One successful [Topup] by the configured amount: L178 for a new channel,
    L203 for a known one. *)
Definition topup_buf (s : bufs * option nat_) (amount : nat_) : bufs * option nat_ :=
  match snd s with
  | None => (fst s, Some amount)
  | Some bal => let (h', b') := nat_add (fst s) bal bal amount in (h', Some b')
  end.

Fixpoint topups (n : nat) (s : bufs * option nat_) (amount : nat_) : bufs * option nat_ :=
  match n with O => s | S k => topup_buf (topups k s amount) amount end.

(** The configured amount before any top-up: its words in a buffer with
    [spare] further words.  [big.NewInt] leaves none; [fmt.Sscan] of a number of
    more than 19 digits leaves some (nat.go [mulAddWW] through [make]). *)
Definition config (ws : list Z) (spare : nat) : bufs * nat_ :=
  ([ws ++ repeat 0 spare], Nat_ 0 (length ws)).
