(** * Vocabulary for the payment properties

    Histories of calls, the records of what they returned, and the sums and
    lists one reads off those records.  Only [Topup], [Pay], [Receive] and
    [NewMgr] of the model are used. *)
From Coq Require Import List ZArith Bool Init.Byte.
From Verif Require Import Base Payment.
Import ListNotations.
Open Scope Z_scope.

Definition zsum (l : list Z) : Z := fold_right Z.add 0 l.
Definition highest (l : list Z) : Z := fold_right Z.max 0 l.

(** ** Payer *)
Inductive payer_op :=
| OTopup (r : gostring) (a : Z) (t : tx)
| OPay (r : gostring) (lane_id a : Z) (sg : voucher -> option bytes).

(** A call together with what it returned. *)
Inductive payer_ev :=
| ETopup (r : gostring) (a : Z) (t : tx) (ok : bool)
| EPay (r : gostring) (lane_id a : Z) (sg : voucher -> option bytes) (p : pay_res).

Definition payer_step (m : mgr) (o : payer_op) : mgr * payer_ev :=
  match o with
  | OTopup r a t => let (m', ok) := Topup m r a t in (m', ETopup r a t ok)
  | OPay r k a sg => let (m', p) := Pay m r k a sg in (m', EPay r k a sg p)
  end.

Fixpoint payer_run (m : mgr) (os : list payer_op) : mgr * list payer_ev :=
  match os with
  | [] => (m, [])
  | o :: t => let (m1, e) := payer_step m o in let (m2, es) := payer_run m1 t in (m2, e :: es)
  end.

(** Funds the payer has successfully put in for [r]. *)
Definition funded (r : gostring) (es : list payer_ev) : Z :=
  zsum (flat_map (fun e => match e with ETopup r' a _ true => if bytes_eqb r' r then [a] else [] | _ => [] end) es).

(** Payments made to [r]: amount and voucher, in order. *)
Definition payments (r : gostring) (es : list payer_ev) : list (Z * voucher) :=
  flat_map (fun e => match e with EPay r' _ a _ (Paid _ v) => if bytes_eqb r' r then [(a, v)] else [] | _ => [] end) es.

(** Payments made to [r] on one lane. *)
Definition issued (r : gostring) (k : Z) (es : list payer_ev) : list (Z * voucher) :=
  flat_map (fun e => match e with EPay r' k' a _ (Paid _ v) => if bytes_eqb r' r && (k' =? k) then [(a, v)] else [] | _ => [] end) es.

(** The channel to [r]: the address the chain returned for the first successful
    top-up. *)
Fixpoint channel_of (r : gostring) (es : list payer_ev) : option gostring :=
  match es with
  | [] => None
  | ETopup r' _ (TxDone (Some a)) true :: t => if bytes_eqb r' r then Some a else channel_of r t
  | _ :: t => channel_of r t
  end.

(** What the channel to [r] had been given when each payment was made. *)
Fixpoint funded_when (r : gostring) (acc : Z) (es : list payer_ev) : list Z :=
  match es with
  | [] => []
  | ETopup r' a _ true :: t => funded_when r (if bytes_eqb r' r then acc + a else acc) t
  | EPay r' _ _ _ (Paid _ _) :: t => if bytes_eqb r' r then acc :: funded_when r acc t else funded_when r acc t
  | _ :: t => funded_when r acc t
  end.

(** Amounts of money: no call asks for a negative one. *)
Definition nonneg_ops (os : list payer_op) : Prop :=
  Forall (fun o => match o with OTopup _ a _ | OPay _ _ a _ => 0 <= a end) os.

(** ** Payee *)
Inductive recv_op := ORecv (ch : gostring) (dv : option voucher) (rs : option chain_state).
Inductive recv_ev := ERecv (ch : gostring) (dv : option voucher) (rs : option chain_state) (x : recv_res).

Section Verify.
  Variable verify : gostring -> voucher -> option bytes -> bool.

  Definition recv_step (m : mgr) (o : recv_op) : mgr * recv_ev :=
    match o with ORecv ch dv rs => let (m', x) := Receive verify m ch dv rs in (m', ERecv ch dv rs x) end.

  Fixpoint recv_run (m : mgr) (os : list recv_op) : mgr * list recv_ev :=
    match os with
    | [] => (m, [])
    | o :: t => let (m1, e) := recv_step m o in let (m2, es) := recv_run m1 t in (m2, e :: es)
    end.
End Verify.

(** Total credited on a channel. *)
Definition credited (ch : gostring) (es : list recv_ev) : Z :=
  zsum (flat_map (fun e => match e with ERecv ch' _ _ (Credited x) => if bytes_eqb ch' ch then [x] else [] | _ => [] end) es).

(** Vouchers credited on a channel and lane, in order. *)
Definition accepted (ch : gostring) (k : Z) (es : list recv_ev) : list voucher :=
  flat_map (fun e => match e with ERecv ch' (Some v) _ (Credited _) => if bytes_eqb ch' ch && (v_lane v =? k) then [v] else [] | _ => [] end) es.

(** On-chain balances read for a channel. *)
Definition seen (ch : gostring) (es : list recv_ev) : list Z :=
  flat_map (fun e => match e with ERecv ch' (Some _) (Some cs) _ => if bytes_eqb ch' ch then [ch_balance cs] else [] | _ => [] end) es.

(** Results of the calls for one channel. *)
Definition results_on (ch : gostring) (es : list recv_ev) : list recv_res :=
  flat_map (fun e => match e with ERecv ch' _ _ x => if bytes_eqb ch' ch then [x] else [] end) es.

(** Calls for one channel. *)
Definition calls_on (ch : gostring) (os : list recv_op) : list recv_op :=
  filter (fun o => match o with ORecv ch' _ _ => bytes_eqb ch' ch end) os.

(** Smallest nonce the next voucher may have: uint64 successor of the last one. *)
Definition next_nonce (vs : list voucher) : Z :=
  match rev vs with [] => 0 | v :: _ => (v_nonce v + 1) mod 2 ^ 64 end.
