(** * The client written in TypeScript: messages and establishment

    Models client-js/src: fcrcrypto/encode.helper.ts, msg_signing.ts (verification), secp256k1.service.ts,
    fcrMessages/fcrMessage.class.ts, client_establishment.ts, request/request.ts, register/register.class.ts,
    clientapi/establishment_requester.ts and the gateways of FilecoinRetrievalClient.ts.  Definitions only.

    Strings are byte strings as in [Json]; numbers that are read are written again as they were, as integers up to 2^53 are.
    An exception or a rejected promise is [ErrR].  A property that is undefined is [None].  Logging is not modelled. *)
From Coq Require Import String List ZArith Bool.
From Coq Require Import Init.Byte.
From Verif Require Import Base Json Client Http.
Import ListNotations.
Open Scope Z_scope.

(** ** JSON *)

(** [JSON.stringify] of a string: unlike Go it does not escape < > & and has short forms for two more characters. *)
Definition js_esc_char (c : byte) : gostring :=
  if ((c =? x22) || (c =? x5c))%byte then [x5c; c]
  else if (c =? x08)%byte then [x5c; x62]
  else if (c =? x0c)%byte then [x5c; x66]
  else if (c =? x0a)%byte then [x5c; x6e]
  else if (c =? x0d)%byte then [x5c; x72]
  else if (c =? x09)%byte then [x5c; x74]
  else if bz c <? 32 then [x5c; x75; x30; x30; digit_hex (bz c / 16); digit_hex (bz c mod 16)]
  else [c].
Definition js_print_str (s : gostring) : gostring := x22 :: flat_map js_esc_char s ++ [x22].

(** [JSON.stringify]. *)
Fixpoint js_print (j : json) : gostring :=
  match j with
  | JStr s => js_print_str s
  | JArr l => x5b :: join_commas (map js_print l) ++ [x5d]
  | JObj l => x7b :: join_commas (map (fun kv => js_print_str (fst kv) ++ x3a :: js_print (snd kv)) l) ++ [x7d]
  | _ => json_print j
  end.

(** Properties that are undefined are left out. *)
Definition js_object (l : list (gostring * option json)) : json :=
  JObj (flat_map (fun kv => match snd kv with Some j => [(fst kv, j)] | None => [] end) l).

(** [o.key]: undefined unless [o] is an object with the key; of two the last counts.  [ErrR] for null. *)
Definition js_get (j : json) (k : gostring) : result (option json) :=
  match j with
  | JNull => ErrR
  | JObj l => OkR (fold_left (fun acc kv => if bytes_eqb (fst kv) k then Some (snd kv) else acc) l None)
  | _ => OkR None
  end.

(** ** Text to bytes *)

(** [\w]. *)
Definition is_word (c : byte) : bool :=
  let v := bz c in
  ((48 <=? v) && (v <=? 57)) || ((65 <=? v) && (v <=? 90)) || ((97 <=? v) && (v <=? 122)) || (v =? 95).

(** fcrcrypto/encode.helper.ts L23-25: pairs of word characters, and what is between them if anything. *)
Definition some_piece (p : gostring) : list gostring := match p with [] => [] | _ => [p] end.
Fixpoint js_split (before s : gostring) : list gostring :=
  match s with
  | a :: ((b :: t) as u) =>
      if is_word a && is_word b then some_piece before ++ [a; b] :: js_split [] t
      else js_split (before ++ [a]) u
  | _ => some_piece (before ++ s)
  end.

(** [parseInt(s, 16)]; [None] for NaN.  Blanks beyond ASCII are not modelled. *)
Fixpoint hex_prefix (acc : option Z) (s : gostring) : option Z :=
  match s with
  | c :: t => match hex_digit c with Some d => hex_prefix (Some (match acc with Some v => v | None => 0 end * 16 + d)) t | None => acc end
  | [] => acc
  end.
Fixpoint skip_blanks (s : gostring) : gostring :=
  match s with c :: t => if ((9 <=? bz c) && (bz c <=? 13)) || (bz c =? 32) then skip_blanks t else s | [] => [] end.
Definition parseInt16 (s : gostring) : option Z :=
  let s := skip_blanks s in
  let '(neg, s) := match s with c :: t => if (c =? x2d)%byte then (true, t) else if (c =? x2b)%byte then (false, t) else (false, s) | [] => (false, s) end in
  let s := match s with a :: b :: t => if (a =? x30)%byte && ((b =? x78) || (b =? x58))%byte then t else s | _ => s end in
  option_map (fun v => if neg : bool then - v else v) (hex_prefix None s).

(** fcrcrypto/encode.helper.ts L21-28 [decodeStringAsHexArray]: elements of a [Uint8Array] are taken modulo 256, NaN as 0. *)
Definition decodeStringAsHexArray (s : gostring) : bytes :=
  map (fun p => zb (match parseInt16 p with Some v => v mod 256 | None => 0 end)) (js_split [] s).

(** fcrcrypto/msg_signing.ts L34-44 [decodePublicKey], L55-63 [decodeSecP256K1PublicKey]: the bytes of the key. *)
Definition decodePublicKey (s : gostring) : result bytes :=
  match decodeStringAsHexArray s with
  | alg :: key => if (alg =? x01)%byte && Nat.eqb (length key) 65 then OkR key else ErrR
  | [] => ErrR
  end.

(** fcrcrypto/msg_signing.ts L66-72 [extractKeyFromMessage]: without the key version and the last byte. *)
Definition extractKeyFromMessage (s : gostring) : result bytes :=
  let b := decodeStringAsHexArray s in
  if Nat.ltb (length b) 4 then ErrR else OkR (firstn (length b - 1 - 4) (skipn 4 b)).

(** ** Messages *)

(** fcrMessages/fcrMessage.class.ts L8-13 [FCRMessage]; what comes from outside can have any type. *)
Record jsmsg := JsMsg {
  j_type : option json;
  j_version : option json;
  j_supported : option json;
  j_body : option json;
  j_sig : option json
}.

(** fcrMessages/fcrMessage.class.ts L4-6, L15-27: the constructor; defaults for what is undefined. *)
Definition or_default (d : json) (o : option json) : option json := match o with Some j => Some j | None => Some d end.
Definition new_message (t version supported body sig : option json) : jsmsg :=
  JsMsg t (or_default (JNum 1) version) (or_default (JArr [JNum 1; JNum 1]) supported) body (or_default (JStr []) sig).
Definition message_of_data (data : json) : result jsmsg :=
  match js_get data (gs "message_type"), js_get data (gs "protocol_version"), js_get data (gs "protocol_supported"),
        js_get data (gs "message_body"), js_get data (gs "message_signature") with
  | OkR t, OkR v, OkR s, OkR b, OkR g => OkR (new_message t v s b g)
  | _, _, _, _, _ => ErrR
  end.

(** [JSON.stringify] of a message: properties in the order in which the constructor sets them. *)
Definition message_text (m : jsmsg) : gostring :=
  js_print (js_object [(gs "message_type", j_type m); (gs "message_body", j_body m); (gs "protocol_version", j_version m);
                       (gs "protocol_supported", j_supported m); (gs "message_signature", j_sig m)]).

(** fcrMessages/fcrMessage.class.ts L33-39: the text that is signed. *)
Definition signed_text (m : jsmsg) : gostring :=
  js_print (js_object [(gs "message_type", j_type m); (gs "protocol_version", j_version m); (gs "protocol_supported", j_supported m);
                       (gs "message_body", j_body m); (gs "message_signature", Some (JStr []))]).

(** request/request.ts L11-22 [sendMessage] through axios, which parses what it can and rejects other codes. *)
Definition js_data (content : bytes) : json := match json_parse content with Some j => j | None => JStr content end.
Definition sendMessage (post : gostring -> bytes -> option response) (url : gostring) (m : jsmsg) : result jsmsg :=
  match post url (message_text m) with
  | None => ErrR
  | Some r => if code r =? 200 then message_of_data (js_data (content r)) else ErrR
  end.

(** ** Establishment *)

(** fcrMessages/client_establishment.ts L24-35 [encodeClientEstablishmentRequest]. *)
Definition encodeClientEstablishmentRequest (client_id challenge : gostring) (ttl : Z) : jsmsg :=
  let body := js_print (JObj [(gs "client_id", JStr client_id); (gs "challenge", JStr challenge); (gs "ttl", JNum ttl)]) in
  new_message (Some (JNum 100)) None None (Some (JStr (b64_encode body))) None.

(** [String(j)] for an element of an array, null being empty there; numbers as in the text. *)
Fixpoint js_text (j : json) : gostring :=
  match j with
  | JNull => []
  | JStr s => s
  | JArr l => join_commas (map js_text l)
  | JObj _ => gs "[object Object]"
  | _ => json_print j
  end.
(** [v == s] for the text of a challenge, which as a number is NaN. *)
Definition same_challenge (v : option json) (s : gostring) : bool :=
  match v with
  | Some (JStr t) => bytes_eqb t s
  | Some (JArr l) => bytes_eqb (js_text (JArr l)) s
  | _ => false
  end.

Section crypto.
  (** [Buffer.from(s, 'base64')]; the library's [ecdsaVerify] with key, digest and signature, false if it throws; Blake2b. *)
  Variable unb64 : gostring -> bytes.
  Variable js_ec : bytes -> bytes -> bytes -> bool.
  Variable blake : bytes -> bytes.

  (** fcrMessages/fcrMessage.class.ts L29-41 [verify], fcrcrypto/msg_signing.ts L50-53 [verifyMessage], secp256k1.service.ts
      L24-33 [secp256k1Verify].  A signature that is no string has no [split]. *)
  Definition js_verify (m : jsmsg) (pubKey : bytes) : result bool :=
    match j_sig m with
    | Some (JStr s) => match extractKeyFromMessage s with OkR raw => OkR (js_ec pubKey (blake (signed_text m)) raw) | ErrR => ErrR end
    | _ => ErrR
    end.

  (** fcrMessages/client_establishment.ts L43-52 [decodeClientEstablishmentResponse]: identifier and challenge.  [Buffer.from] also
      takes arrays, which is not modelled. *)
  Definition decodeClientEstablishmentResponse (m : jsmsg) : result (option json * option json) :=
    match j_type m, j_body m with
    | Some (JNum 101), Some (JStr b) =>
        match json_parse (unb64 b) with
        | Some j => match js_get j (gs "gateway_id"), js_get j (gs "challenge") with OkR i, OkR c => OkR (i, c) | _, _ => ErrR end
        | None => ErrR
        end
    | _, _ => ErrR
    end.

  (** clientapi/establishment_requester.ts L18-43 [requestEstablishment]: done or thrown.  [toLowerCase] is that of ASCII; register
      fields are strings. *)
  Definition requestEstablishment (post : gostring -> bytes -> option response) (gw : reg) (challenge : bytes) (clientID : gostring) (ttl : Z)
      : result unit :=
    if negb (Nat.eqb (length challenge) 32) then ErrR
    else
      let sent := b64_encode challenge in
      match sendMessage post (gs "http://" ++ r_client_ap gw ++ gs "/v1") (encodeClientEstablishmentRequest clientID sent ttl) with
      | ErrR => ErrR
      | OkR response =>
          match decodePublicKey (r_key gw) with
          | ErrR => ErrR
          | OkR pub =>
              match js_verify response pub with
              | OkR true =>
                  match decodeClientEstablishmentResponse response with
                  | OkR (Some (JStr id), recv) =>
                      if bytes_eqb (Client.lower (r_id gw)) (Client.lower id) && same_challenge recv sent then OkR tt else ErrR
                  | _ => ErrR
                  end
              | _ => ErrR
              end
          end
      end.

  (** ** Gateways of a client *)

  (** FilecoinRetrievalClient.ts L26-37, config/settings.config.ts L28-43, with what establishment uses. *)
  Record jsclient := JsClient { jc_id : gostring; jc_ttl : Z; jc_use : list (gostring * reg); jc_active : list (gostring * reg) }.

  (** register/register.class.ts L52-63 [validateInfo]. *)
  Definition validateInfo (gw : reg) : bool := match decodePublicKey (r_key gw) with OkR _ => true | ErrR => false end.

  (** FilecoinRetrievalClient.ts L46-64 [addGatewaysToUse].  [find n id]: what the register answers the question number [n], [None] if
      the call fails (register/register.service.ts L25-31 [getGatewayByID]). *)
  Fixpoint addGatewaysToUse (find : nat -> gostring -> option reg) (n : nat) (c : jsclient) (ids : list gostring) : Z * jsclient :=
    match ids with
    | [] => (0, c)
    | id :: t =>
        match aget bytes_eqb (jc_use c) id with
        | Some _ => addGatewaysToUse find n c t
        | None =>
            match find n id with
            | Some gw =>
                if validateInfo gw then
                  let (k, c) := addGatewaysToUse find (S n) (JsClient (jc_id c) (jc_ttl c) (aset bytes_eqb (jc_use c) id gw) (jc_active c)) t in (k + 1, c)
                else addGatewaysToUse find (S n) c t
            | None => addGatewaysToUse find (S n) c t
            end
        end
    end.

  (** FilecoinRetrievalClient.ts L73-101 [addActiveGateways].  For attempt number [n]: the connection, 32 random bytes, and the time
      [new Date().getTime()], in milliseconds. *)
  Fixpoint addActiveGateways (post : nat -> gostring -> bytes -> option response) (rand : nat -> bytes) (now : nat -> Z) (n : nat) (c : jsclient)
      (ids : list gostring) : Z * jsclient :=
    match ids with
    | [] => (0, c)
    | id :: t =>
        match aget bytes_eqb (jc_active c) id with
        | Some _ => addActiveGateways post rand now n c t
        | None =>
            match aget bytes_eqb (jc_use c) id with
            | None => addActiveGateways post rand now n c t
            | Some gw =>
                match requestEstablishment (post n) gw (rand n) (jc_id c) (now n + jc_ttl c) with
                | OkR _ =>
                    let (k, c) := addActiveGateways post rand now (S n) (JsClient (jc_id c) (jc_ttl c) (jc_use c) (aset bytes_eqb (jc_active c) id gw)) t in (k + 1, c)
                | ErrR => addActiveGateways post rand now (S n) c t
                end
            end
        end
    end.
End crypto.
