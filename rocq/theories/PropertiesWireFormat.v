(** * The bodies of messages have the documented form (C204, C205) *)
From Coq Require Import String List ZArith Bool Lia.
From Coq Require Import Init.Byte.
From Verif Require Import Base BaseProofs Ids Json JsonProofs Crypto Message Offer Schema SchemaProofs Messages MessagesSpec WireFormatSpec WireFormatProofs PropertiesMerkle.
Import ListNotations.
Open Scope Z_scope.

(** ** C204 *)
(** Whatever is encoded: the body is the text of an object with just the fields of its kind, in order and of their types. *)
Theorem wire_format : forall version supported k m, sends version supported k m -> exists j, m_body m = Some (json_print j) /\ object_of has_type (wire_fields k) j.
Proof. exact body_form. Qed.
Print Assumptions wire_format.
Example wire_format_ex : option_map (fun m => m_body m) (match EncodeClientStandardDiscoverRequestV2 1 [1] (Some (idn 7)) 5 9 (gs "ch") (gs "v") with Ret m => Some m | _ => None end) =
  Some (Some (gs "{""piece_cid"":""0000000000000000000000000000000000000000000000000000000000000007"",""nonce"":5,""ttl"":9,""payment_channel_address"":""ch"",""voucher"":""v""}")).
Proof. vm_compute. reflexivity. Qed.

(** ** C205 *)
(** Fields with other names are ignored, wherever they are. *)
Theorem unknown_fields_ignored : forall sha k m m' pre post x j, m_type m = m_type m' ->
  json_parse (slice (m_body m)) = Some (JObj (pre ++ post)) -> json_parse (slice (m_body m')) = Some (JObj (pre ++ (x, j) :: post)) ->
  (forall w, In w (wire_fields k) -> ~ same_name x (fst w)) -> reads_same sha k m m'.
Proof.
  intros sha k m m' pre post x j T P P' N. apply (same_pf sha k m m' _ _ T P P'). intros w I. rewrite !filter_app. cbn [filter]. now rewrite (named_not x j (fst w) (N w I)).
Qed.
Print Assumptions unknown_fields_ignored.

(** The order of fields with different names does not matter. *)
Theorem field_order_ignored : forall sha k m m' pre post x y i j, m_type m = m_type m' ->
  json_parse (slice (m_body m)) = Some (JObj (pre ++ (x, i) :: (y, j) :: post)) -> json_parse (slice (m_body m')) = Some (JObj (pre ++ (y, j) :: (x, i) :: post)) ->
  ~ same_name x y -> reads_same sha k m m'.
Proof.
  intros sha k m m' pre post x y i j T P P' N. apply (same_pf sha k m m' _ _ T P P'). intros w _. rewrite !filter_app. cbn [filter]. f_equal.
  destruct (named (fst w) (x, i)) eqn:E; destruct (named (fst w) (y, j)) eqn:F; try reflexivity. destruct N.
  unfold named, fold_eq in E, F. cbn [fst] in E, F. apply bytes_eqb_eq in E, F. unfold same_name. congruence.
Qed.
Print Assumptions field_order_ignored.
Definition ping (t : gostring) : message := Message 100 1 (Some [1]) (Some t) [].
(** A field more and another order; a field given twice, of which the last counts. *)
Example fields_ex : map (fun t => DecodeClientEstablishmentRequest (fun b => b) (ping (gs t)))
    ["{""client_id"":""07"",""challenge"":""c"",""ttl"":3}"; "{""ttl"":3,""more"":{},""challenge"":""c"",""client_id"":""07""}"; "{""TTL"":4,""challenge"":""c"",""client_id"":""07"",""ttl"":3}"]%string =
  repeat (Ret (OkR (Some (idn 7), gs "c", 3))) 3.
Proof. vm_compute. reflexivity. Qed.
