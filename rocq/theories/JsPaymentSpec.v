(** * Vocabulary for the TypeScript payment manager *)
From Coq Require Import List ZArith Bool Init.Byte.
From Verif Require Import Base Payment PaymentSpec JsPayment.
Import ListNotations.
Open Scope Z_scope.

(** RFC 4648 section 5 without padding: what Go's [base64.RawURLEncoding] writes. *)
Definition url_char (z : Z) : byte :=
  if z <? 26 then zb (65 + z) else if z <? 52 then zb (71 + z) else if z <? 62 then zb (z - 4) else if z =? 62 then x2d else x5f.
Fixpoint raw_url (l : bytes) : gostring :=
  match l with
  | [] => []
  | [a] => let n := bz a * 65536 in [url_char (n / 262144); url_char (n / 4096 mod 64)]
  | [a; b] => let n := bz a * 65536 + bz b * 256 in [url_char (n / 262144); url_char (n / 4096 mod 64); url_char (n / 64 mod 64)]
  | a :: b :: c :: t =>
      let n := bz a * 65536 + bz b * 256 + bz c in
      url_char (n / 262144) :: url_char (n / 4096 mod 64) :: url_char (n / 64 mod 64) :: url_char (n mod 64) :: raw_url t
  end.

(** A task for [r] that has not ended. *)
Definition for_recipient (r : gostring) (t : task) : bool :=
  match t with AtNonce _ r' _ | AtGas _ r' _ _ | AtSend _ r' _ _ | AtWait _ r' _ _ => bytes_eqb r' r | Over => false end.
Definition busy (r : gostring) (s : jsmgr) : bool := existsb (for_recipient r) (j_tasks s).

(** While there is no channel to a recipient, a top-up for it is started only
    when no other one is under way. *)
Definition opened_alone (os : list jsop) : Prop :=
  forall pre r a post, os = pre ++ JTopup r a :: post ->
    let s := fst (js_run NewJsMgr pre) in aget bytes_eqb (j_out s) r = None -> busy r s = false.

Definition js_results (os : list jsop) : list payer_ev := fst (snd (js_run NewJsMgr os)).
Definition js_moved (os : list jsop) : list moved := snd (snd (js_run NewJsMgr os)).

(** The call behind a result. *)
Definition call_of (e : payer_ev) : payer_op :=
  match e with ETopup r a t _ => OTopup r a t | EPay r k a sg _ => OPay r k a sg end.

(** The channel a message really put money into. *)
Definition mv_target (m : moved) : option gostring := if mv_upd m then mv_dest m else Some (w_made (mv_wait m)).

(** What has really been put into channel [ch]. *)
Definition deposits (ch : gostring) (ms : list moved) : Z :=
  zsum (flat_map (fun m => if w_done (mv_wait m) then match mv_target m with Some x => if bytes_eqb x ch then [mv_amount m] else [] | None => [] end else []) ms).

(** A reply naming a channel means that the message was executed and made it. *)
Definition truthful (m : moved) : Prop :=
  forall a, w_reply (mv_wait m) = Some (Some a) -> mv_upd m = false -> w_done (mv_wait m) = true /\ w_made (mv_wait m) = a.

(** A message to an existing channel about which there was a reply was executed. *)
Definition went_through (m : moved) : Prop := mv_upd m = true -> w_reply (mv_wait m) <> None -> w_done (mv_wait m) = true.

(** No negative amounts. *)
Definition js_nonneg (os : list jsop) : Prop :=
  Forall (fun o => match o with JPay _ _ a _ | JTopup _ a => 0 <= a | _ => True end) os.
