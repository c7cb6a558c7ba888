(** * C211: the same JSON value is read alike however it is written *)
From Coq Require Import String List ZArith Bool Lia.
From Coq Require Import Init.Byte.
From Verif Require Import Base BaseProofs Ids Json Crypto Message Offer Schema Messages MessagesSpec BodySpec WireFormatSpec JsClient JsonTextSpec JsonTextProofs PropertiesMerkle.
Import ListNotations.
Open Scope Z_scope.

(** The parser reads the texts of the grammar and no others, and each as the value it stands for. *)
Theorem json_reader : forall s j, json_parse s = Some j <-> json_text s j.
Proof. exact json_parse_iff. Qed.
Print Assumptions json_reader.

(** No text stands for two values. *)
Theorem json_unambiguous : forall s i j, json_text s i -> json_text s j -> i = j.
Proof. intros s i j H K. apply json_parse_iff in H, K. congruence. Qed.
Print Assumptions json_unambiguous.

(** Bodies that stand for the same value are the same to every receiver; what receivers accept is JSON. *)
Theorem layout_ignored : forall sha256 k m m' j, m_type m = m_type m' -> json_text (slice (m_body m)) j -> json_text (slice (m_body m')) j -> reads_same sha256 k m m'.
Proof. intros sha256 k m m' j T H K. apply json_parse_iff in H, K. apply reads_parse; congruence. Qed.
Print Assumptions layout_ignored.
Theorem accepted_json : forall sha256 k m, accepted sha256 k m -> exists j, json_text (slice (m_body m)) j.
Proof.
  intros sha256 k m A. apply accepted_parse in A. destruct (json_parse (slice (m_body m))) as [j|] eqn:E; [|congruence]. exists j. apply json_parse_iff. exact E.
Qed.
Print Assumptions accepted_json.

(** So are whole messages. *)
Theorem envelope_layout_ignored : forall s s' j, json_text s j -> json_text s' j -> FCRMsgFromBytes s = FCRMsgFromBytes s'.
Proof. intros s s' j H K. apply json_parse_iff in H, K. unfold FCRMsgFromBytes, unmarshal. rewrite H, K. reflexivity. Qed.
Print Assumptions envelope_layout_ignored.
Theorem envelope_json : forall s m, FCRMsgFromBytes s = OkR m -> exists j, json_text s j.
Proof.
  intros s m H. unfold FCRMsgFromBytes, unmarshal in H. destruct (json_parse s) as [j|] eqn:E; [|discriminate H]. exists j. apply json_parse_iff. exact E.
Qed.
Print Assumptions envelope_json.

(** [json.Marshal] and [JSON.stringify] escape different characters; both write texts that stand for the value. *)
Theorem printers_write_json : forall j, whole j -> json_text (json_print j) j /\ json_text (js_print j) j.
Proof.
  assert (forall t j, denotes t j -> json_text t j) as K.
  { intros t j D. exists [], t, []. split; [rewrite app_nil_r; reflexivity|]. split; [constructor|]. split; [exact D|constructor]. }
  intros j W. rewrite <- go_text, <- js_text_eq. split; apply K; apply text_denotes; try exact W; [exact JsonProofs.parse_esc_char|exact js_esc].
Qed.
Print Assumptions printers_write_json.

(** Byte strings in messages: the base64 texts, and no others. *)
Theorem base64_reader : forall j b, dec_bytes j = Some b <-> exists s, j = JStr s /\ base64 s b.
Proof.
  intros j b. split.
  - destruct j as [ | | | |s| | ]; try discriminate. cbn [dec_bytes]. destruct (b64_decode s) as [l [|]] eqn:E; [|discriminate]. intros [= <-]. exists s. split; [reflexivity|]. apply b64_decode_iff. exact E.
  - intros (s & -> & H). apply b64_decode_iff in H. cbn [dec_bytes]. rewrite H. reflexivity.
Qed.
Print Assumptions base64_reader.

(** ** Examples *)
(** Blanks, escapes, a pair of surrogates, a half of one, numbers. *)
Example reader_ex : map (fun s => json_parse (gs s)) [" { ""a"" : [ 1 ,-0,2e3 ] ,""b"":""\u003c\/\n"" } "; "[""\ud83d\uDE00"",""\ud83dx"",""\uDE00""]"; "01"; "[1,]"; "{""a"" 1}"; "1 2"; "-"; "1."; """\x"""]%string =
  [Some (JObj [(gs "a", JArr [JNum 1; JNum 0; JFloat (gs "2e3")]); (gs "b", JStr (gs "</" ++ [x0a]))]);
   Some (JArr [JStr [xf0; x9f; x98; x80]; JStr ([xef; xbf; xbd] ++ gs "x"); JStr [xef; xbf; xbd]]); None; None; None; None; None; None; None].
Proof. vm_compute. reflexivity. Qed.
(** The two printers differ on this text, the readers do not. *)
Definition both (j : json) : gostring * gostring := (json_print j, js_print j).
Example printers_ex : both (JStr (gs "a<b")) = (gs """a\u003cb""", gs """a<b""") /\
  map (fun t => DecodeClientEstablishmentRequest (fun b => b) (Message 100 1 (Some [1]) (Some (gs t)) []))
    ["{""client_id"":""07"",""challenge"":""a\u003cb"",""ttl"":3}"; "{ ""ttl"" : 3 , ""challenge"":""a<b"", ""client_id"":""07"" }"]%string =
  let r := Ret (OkR (Some (idn 7), gs "a<b", 3)) in [r; r].
Proof. vm_compute. split; reflexivity. Qed.
Example base64_ex : map (fun s => dec_bytes (JStr (gs s))) ["AAEC/w=="; "TWFu"; "TWE="; "TWF="; "TWE"; "T*Fu"; "TQ==TWFu"; ""]%string =
  [Some [x00; x01; x02; xff]; Some (gs "Man"); Some (gs "Ma"); Some (gs "Ma"); None; None; None; Some []] /\ dec_bytes (JStr (gs "TW" ++ [x0d; x0a] ++ gs "Fu")) = Some (gs "Man").
Proof. vm_compute. split; reflexivity. Qed.
