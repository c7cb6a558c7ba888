(** * The TypeScript client's payment manager

    client-js/src/fcrPaymentMgr/payment_manager.class.ts, and the part of the
    searches of client-js/src/FilecoinRetrievalClient.ts that pays.  Javascript
    runs one piece of code at a time and changes over only where a call is
    awaited: a top-up is a task that stops at each of its four remote calls and
    goes on when the answer comes, whatever has run in between.  [BN] numbers
    are integers; a channel and its lanes are those of [Payment.v]. *)
From Coq Require Import List ZArith Bool Init.Byte Strings.Byte.
From Verif Require Import Base Payment PaymentSpec.
Import ListNotations.
Open Scope Z_scope.

(** [ls.nonce++], payment_manager.class.ts L180: a double stops counting at 2^53. *)
Definition js_incr (n : Z) : Z := if n <? 2 ^ 53 then n + 1 else n.

(** payment_manager.class.ts L178: the text of the signing library made to fit
    Go's [base64.RawURLEncoding]. *)
Definition js_swap (c : byte) : byte := if (c =? x2b)%byte then x2d else if (c =? x2f)%byte then x5f else c.
Fixpoint drop_pad (s : gostring) : gostring :=
  match s with [] => [] | c :: t => if (c =? x3d)%byte then drop_pad t else s end.
Definition js_voucher_text (s : gostring) : gostring := rev (drop_pad (rev (map js_swap s))).

(** payment_manager.class.ts L141-185 [pay]; [sign] is the signing library.  The
    result has [topup] set, [error] set, or a channel and a voucher. *)
Definition js_pay (out : list (gostring * chan)) (recipient : gostring) (lane_id amount : Z) (sign : voucher -> option bytes) :
    list (gostring * chan) * pay_res :=
  match aget bytes_eqb out recipient with
  | None => (out, NeedTopup)
  | Some cs =>
      if c_balance cs <? c_redeemed cs + amount then (out, NeedTopup)
      else
        let ls := get_lane cs lane_id in
        let total := l_redeemed ls + amount in
        match sign (Voucher (c_addr cs) lane_id (l_nonce ls) total [] None) with
        | None =>
            (aset bytes_eqb out recipient (Chan (c_addr cs) (c_balance cs) (c_redeemed cs) (aset Z.eqb (c_lanes cs) lane_id ls)), PayError)
        | Some s =>
            let v := Voucher (c_addr cs) lane_id (l_nonce ls) total [] (Some s) in
            let ls' := Lane (js_incr (l_nonce ls)) total (l_vouchers ls ++ [v]) in
            (aset bytes_eqb out recipient
               (Chan (c_addr cs) (c_balance cs) (c_redeemed cs + amount) (aset Z.eqb (c_lanes cs) lane_id ls')), Paid (c_addr cs) v)
        end
  end.

(** What [waitMessage] (filecoin_rpc.class.ts L58-67) comes back with, and what
    really happened: whether the message was executed with exit code zero and
    the channel it made, if it was to make one; no answer, or an answer whose
    [ReturnDec] has no [IDAddress], or the [RobustAddress] beside it. *)
Record wait := Wait { w_done : bool; w_made : gostring; w_reply : option (option gostring) }.

(** Where a top-up has stopped: at the nonce, the gas estimate, the sending or
    the waiting (L63, L76, L83, L84 of [updateExistingChannelState], L103, L117,
    L127, L128 of [createNewChannelState]).  [upd] tells which of the two it is;
    [dest] is the address the money is sent to (L67). *)
Inductive task :=
| AtNonce (upd : bool) (r : gostring) (a : Z)
| AtGas (upd : bool) (r : gostring) (a : Z) (dest : option gostring)
| AtSend (upd : bool) (r : gostring) (a : Z) (dest : option gostring)
| AtWait (upd : bool) (r : gostring) (a : Z) (dest : option gostring)
| Over.

Record jsmgr := JsMgr { j_out : list (gostring * chan); j_tasks : list task }.

(** payment_manager.class.ts L40-46. *)
Definition NewJsMgr : jsmgr := JsMgr [] [].

(** Calls made on the manager, and answers coming in for task [i]. *)
Inductive jsop :=
| JPay (r : gostring) (lane_id a : Z) (sg : voucher -> option bytes)
| JTopup (r : gostring) (a : Z)
| JNonce (i : nat) (n : option Z)
| JGas (i : nat) (ok : bool)
| JSend (i : nat) (ok : bool)
| JWait (i : nat) (w : wait).

(** A message that was waited for: its kind, where it sends how much, and what
    became of it. *)
Record moved := Moved { mv_upd : bool; mv_dest : option gostring; mv_amount : Z; mv_wait : wait }.

(** What one step leaves behind: results handed to callers, messages waited for. *)
Definition note : Type := list payer_ev * list moved.

(** The task has thrown. *)
Definition thrown (s : jsmgr) (i : nat) (r : gostring) (a : Z) : jsmgr * note :=
  (JsMgr (j_out s) (set_nth (j_tasks s) i Over), ([ETopup r a TxRefused false], [])).

Definition goes_to (s : jsmgr) (i : nat) (t : task) : jsmgr * note := (JsMgr (j_out s) (set_nth (j_tasks s) i t), ([], [])).

(** payment_manager.class.ts L48-54: which of the two is decided at once. *)
Definition js_topup (s : jsmgr) (r : gostring) (a : Z) : jsmgr :=
  let known := match aget bytes_eqb (j_out s) r with Some _ => true | None => false end in
  JsMgr (j_out s) (j_tasks s ++ [AtNonce known r a]).

(** L63-76: any nonce will do, the channel's address is read now; L103-117:
    [!nonceRes.result] throws for no nonce and for nonce 0. *)
Definition js_nonce (s : jsmgr) (i : nat) (n : option Z) (upd : bool) (r : gostring) (a : Z) : jsmgr * note :=
  if upd then goes_to s i (AtGas true r a (option_map c_addr (aget bytes_eqb (j_out s) r)))
  else match n with
    | Some z => if z =? 0 then thrown s i r a else goes_to s i (AtGas false r a None)
    | None => thrown s i r a
    end.

(** L84-91: the answer is not looked at; the channel in the map now is credited. *)
Definition js_update_done (s : jsmgr) (i : nat) (w : wait) (r : gostring) (a : Z) : jsmgr * list payer_ev :=
  match w_reply w with
  | None => (JsMgr (j_out s) (set_nth (j_tasks s) i Over), [ETopup r a TxRefused false])
  | Some _ =>
      match aget bytes_eqb (j_out s) r with
      | None => (JsMgr (j_out s) (set_nth (j_tasks s) i Over), [ETopup r a TxRefused false])
      | Some cs =>
          (JsMgr (aset bytes_eqb (j_out s) r (Chan (c_addr cs) (c_balance cs + a) (c_redeemed cs) (c_lanes cs))) (set_nth (j_tasks s) i Over),
           [ETopup r a (TxDone None) true])
      end
  end.

(** L128-138. *)
Definition js_create_done (s : jsmgr) (i : nat) (w : wait) (r : gostring) (a : Z) : jsmgr * list payer_ev :=
  match w_reply w with
  | Some (Some addr) =>
      (JsMgr (aset bytes_eqb (j_out s) r (Chan addr a 0 [])) (set_nth (j_tasks s) i Over), [ETopup r a (TxDone (Some addr)) true])
  | _ => (JsMgr (j_out s) (set_nth (j_tasks s) i Over), [ETopup r a TxRefused false])
  end.

(** One step of the program; an answer nobody waits for does nothing. *)
Definition js_step (s : jsmgr) (o : jsop) : jsmgr * note :=
  match o with
  | JPay r k a sg => let (out, p) := js_pay (j_out s) r k a sg in (JsMgr out (j_tasks s), ([EPay r k a sg p], []))
  | JTopup r a => (js_topup s r a, ([], []))
  | JNonce i n => match nth_error (j_tasks s) i with Some (AtNonce upd r a) => js_nonce s i n upd r a | _ => (s, ([], [])) end
  | JGas i ok =>
      match nth_error (j_tasks s) i with
      | Some (AtGas upd r a dest) => if ok then goes_to s i (AtSend upd r a dest) else thrown s i r a
      | _ => (s, ([], []))
      end
  | JSend i ok =>
      match nth_error (j_tasks s) i with
      | Some (AtSend upd r a dest) => if ok then goes_to s i (AtWait upd r a dest) else thrown s i r a
      | _ => (s, ([], []))
      end
  | JWait i w =>
      match nth_error (j_tasks s) i with
      | Some (AtWait upd r a dest) =>
          let (s', es) := if upd then js_update_done s i w r a else js_create_done s i w r a in (s', (es, [Moved upd dest a w]))
      | _ => (s, ([], []))
      end
  end.

Fixpoint js_run (s : jsmgr) (os : list jsop) : jsmgr * note :=
  match os with
  | [] => (s, ([], []))
  | o :: t => let (s1, n1) := js_step s o in let (s2, n2) := js_run s1 t in (s2, (fst n1 ++ fst n2, snd n1 ++ snd n2))
  end.

(** FilecoinRetrievalClient.ts L118-129, L189-200 and L274-279: pay; if that asks
    for a top-up, start one and, without waiting for it, pay again.  [target] is
    whom the top-up is for: [gw.address] in a DHT search, [gw.nodeId] in a
    standard one (L277). *)
Definition js_search_pay (s : jsmgr) (address target : gostring) (lane_id price cfg : Z) (sg : voucher -> option bytes) : jsmgr * pay_res :=
  let (o1, p1) := js_pay (j_out s) address lane_id price sg in
  let s1 := JsMgr o1 (j_tasks s) in
  match p1 with
  | NeedTopup =>
      let s2 := js_topup s1 target cfg in
      let (o2, p2) := js_pay (j_out s2) address lane_id price sg in
      (JsMgr o2 (j_tasks s2), p2)
  | _ => (s1, p1)
  end.

(** A client's life as far as payments go: standard searches with gateways
    (FilecoinRetrievalClient.ts L267-279: lane 0, whatever the search then asks)
    and answers to its top-ups. *)
Inductive client_step :=
| Search (address node : gostring) (price cfg : Z) (sg : voucher -> option bytes)
| Nonce (i : nat) (n : option Z) | Gas (i : nat) (ok : bool) | Send (i : nat) (ok : bool) | Answered (i : nat) (w : wait).

Definition js_client_step (s : jsmgr) (c : client_step) : jsmgr * list pay_res :=
  match c with
  | Search address node price cfg sg => let (s', p) := js_search_pay s address node 0 price cfg sg in (s', [p])
  | Nonce i n => (fst (js_step s (JNonce i n)), [])
  | Gas i ok => (fst (js_step s (JGas i ok)), [])
  | Send i ok => (fst (js_step s (JSend i ok)), [])
  | Answered i w => (fst (js_step s (JWait i w)), [])
  end.

Fixpoint js_client_run (s : jsmgr) (cs : list client_step) : jsmgr * list pay_res :=
  match cs with
  | [] => (s, [])
  | c :: t => let (s1, p1) := js_client_step s c in let (s2, p2) := js_client_run s1 t in (s2, p1 ++ p2)
  end.
