(** * Base64, decimal and JSON text

    Models the parts of the Go standard library the wire formats rest on:
    [encoding/base64] StdEncoding, decimal integers, and [encoding/json] (Go
    1.16) at the level of text.  Byte strings with bytes of 128 or more are passed
    through as they are; Go does the same for valid UTF-8, except that it prints
    U+2028/U+2029 as escapes, and replaces invalid UTF-8, which is not modelled.
    Nesting deeper than 10000 is refused by Go and not here.  Definitions only. *)
From Coq Require Import List ZArith Bool.
From Coq Require Import Init.Byte.
From Verif Require Import Base.
Import ListNotations.
Open Scope Z_scope.

Notation "c =? d" := (Byte.eqb c d) : byte_scope.
Delimit Scope byte_scope with byte.

(** ** encoding/base64, StdEncoding *)

(** The alphabet A-Z a-z 0-9 + /. *)
Definition b64_char (z : Z) : byte :=
  if z <? 26 then zb (65 + z)
  else if z <? 52 then zb (71 + z)
  else if z <? 62 then zb (z - 4)
  else if z =? 62 then x2b else x2f.

Definition b64_val (c : byte) : option Z :=
  let v := bz c in
  if (65 <=? v) && (v <=? 90) then Some (v - 65)
  else if (97 <=? v) && (v <=? 122) then Some (v - 71)
  else if (48 <=? v) && (v <=? 57) then Some (v + 4)
  else if v =? 43 then Some 62
  else if v =? 47 then Some 63
  else None.

(** [EncodeToString]. *)
Fixpoint b64_encode (l : bytes) : gostring :=
  match l with
  | [] => []
  | [a] => [b64_char (bz a / 4); b64_char (bz a mod 4 * 16); x3d; x3d]
  | [a; b] =>
      [b64_char (bz a / 4); b64_char (bz a mod 4 * 16 + bz b / 16);
       b64_char (bz b mod 16 * 4); x3d]
  | a :: b :: c :: t =>
      b64_char (bz a / 4) :: b64_char (bz a mod 4 * 16 + bz b / 16)
      :: b64_char (bz b mod 16 * 4 + bz c / 64) :: b64_char (bz c mod 64) :: b64_encode t
  end.

(** [Decode], four characters at a time: the bytes decoded so far and whether
    there was no error.  Bits left over before padding are ignored. *)
Fixpoint b64_quanta (l : gostring) : bytes * bool :=
  match l with
  | [] => ([], true)
  | a :: b :: c :: d :: t =>
      match b64_val a, b64_val b with
      | Some x, Some y =>
          let b1 := zb (x * 4 + y / 16) in
          match b64_val c with
          | Some z =>
              let b2 := zb (y mod 16 * 16 + z / 4) in
              match b64_val d with
              | Some w =>
                  let r := b64_quanta t in
                  (b1 :: b2 :: zb (z mod 4 * 64 + w) :: fst r, snd r)
              | None =>
                  if (d =? x3d)%byte then ([b1; b2], match t with [] => true | _ => false end)
                  else ([], false)
              end
          | None =>
              if (c =? x3d)%byte && (d =? x3d)%byte
              then ([b1], match t with [] => true | _ => false end)
              else ([], false)
          end
      | _, _ => ([], false)
      end
  | _ => ([], false)
  end.

(** [DecodeString]; line breaks are skipped wherever they are. *)
Definition b64_decode (s : gostring) : bytes * bool :=
  b64_quanta (filter (fun c => negb ((c =? x0a)%byte || (c =? x0d)%byte)) s).

(** ** Decimal integers *)

Definition is_digit (c : byte) : bool := (48 <=? bz c) && (bz c <=? 57).

Fixpoint dec_nat (fuel : nat) (z : Z) : gostring :=
  match fuel with
  | O => []
  | S f => (if z <? 10 then [] else dec_nat f (z / 10)) ++ [zb (48 + z mod 10)]
  end.

(** [strconv.FormatInt], [big.Int.String]. *)
Definition dec_print (z : Z) : gostring :=
  if z <? 0 then x2d :: dec_nat (S (Z.to_nat (Z.log2 (- z)))) (- z)
  else dec_nat (S (Z.to_nat (Z.log2 z))) z.

(** Value of a run of digits. *)
Definition dec_val (ds : gostring) : Z := fold_left (fun acc d => acc * 10 + (bz d - 48)) ds 0.

(** ** JSON values *)

(** A parsed JSON text.  Numbers with a fraction or an exponent keep their text. *)
Inductive json :=
| JNull
| JBool (b : bool)
| JNum (z : Z)
| JFloat (text : gostring)
| JStr (s : gostring)
| JArr (l : list json)
| JObj (l : list (gostring * json)).

(** *** Printing: [json.Marshal] *)

(** One character of a string ([encodeState.string], HTML escaping on). *)
Definition esc_char (c : byte) : gostring :=
  if ((c =? x22) || (c =? x5c))%byte then [x5c; c]
  else if (c =? x0a)%byte then [x5c; x6e]
  else if (c =? x0d)%byte then [x5c; x72]
  else if (c =? x09)%byte then [x5c; x74]
  else if (bz c <? 32) || ((c =? x3c) || (c =? x3e) || (c =? x26))%byte
  then [x5c; x75; x30; x30; digit_hex (bz c / 16); digit_hex (bz c mod 16)]
  else [c].

Definition print_str (s : gostring) : gostring := x22 :: flat_map esc_char s ++ [x22].

(** Elements separated by commas. *)
Fixpoint join_commas (l : list gostring) : gostring :=
  match l with
  | [] => []
  | [a] => a
  | a :: t => a ++ x2c :: join_commas t
  end.

Fixpoint json_print (j : json) : gostring :=
  match j with
  | JNull => [x6e; x75; x6c; x6c]
  | JBool true => [x74; x72; x75; x65]
  | JBool false => [x66; x61; x6c; x73; x65]
  | JNum z => dec_print z
  | JFloat t => t
  | JStr s => print_str s
  | JArr l => x5b :: join_commas (map json_print l) ++ [x5d]
  | JObj l =>
      x7b :: join_commas (map (fun kv => print_str (fst kv) ++ x3a :: json_print (snd kv)) l) ++ [x7d]
  end.

(** *** Parsing: [json.Unmarshal] *)

Definition is_ws (c : byte) : bool := ((c =? x20) || (c =? x09) || (c =? x0a) || (c =? x0d))%byte.

Fixpoint skip_ws (s : gostring) : gostring :=
  match s with
  | c :: t => if is_ws c then skip_ws t else s
  | [] => []
  end.

(** UTF-8 encoding of a code point. *)
Definition utf8 (v : Z) : bytes :=
  if v <? 128 then [zb v]
  else if v <? 2048 then [zb (192 + v / 64); zb (128 + v mod 64)]
  else if v <? 65536 then [zb (224 + v / 4096); zb (128 + v / 64 mod 64); zb (128 + v mod 64)]
  else [zb (240 + v / 262144); zb (128 + v / 4096 mod 64); zb (128 + v / 64 mod 64); zb (128 + v mod 64)].

Definition hex4 (a b c d : byte) : option Z :=
  match hex_digit a, hex_digit b, hex_digit c, hex_digit d with
  | Some w, Some x, Some y, Some z => Some (w * 4096 + x * 256 + y * 16 + z)
  | _, _, _, _ => None
  end.

Definition prepend (b : bytes) (r : option (gostring * gostring)) : option (gostring * gostring) :=
  match r with Some (s, t) => Some (b ++ s, t) | None => None end.

Definition surrogate_hi (v : Z) : bool := (55296 <=? v) && (v <? 56320).
Definition surrogate_lo (v : Z) : bool := (56320 <=? v) && (v <? 57344).

(** The rest of a string after its opening quote. *)
Fixpoint parse_str (s : gostring) : option (gostring * gostring) :=
  match s with
  | [] => None
  | c :: t =>
      if (c =? x22)%byte then Some ([], t)
      else if (c =? x5c)%byte then
        match t with
        | [] => None
        | e :: t =>
            if ((e =? x22) || (e =? x5c) || (e =? x2f))%byte then prepend [e] (parse_str t)
            else if (e =? x62)%byte then prepend [x08] (parse_str t)
            else if (e =? x66)%byte then prepend [x0c] (parse_str t)
            else if (e =? x6e)%byte then prepend [x0a] (parse_str t)
            else if (e =? x72)%byte then prepend [x0d] (parse_str t)
            else if (e =? x74)%byte then prepend [x09] (parse_str t)
            else if (e =? x75)%byte then
              match t with
              | a1 :: a2 :: a3 :: a4 :: t =>
                  match hex4 a1 a2 a3 a4 with
                  | None => None
                  | Some v =>
                      if surrogate_hi v then
                        match t with
                        | b0 :: bu :: b1 :: b2 :: b3 :: b4 :: t' =>
                            match (if (b0 =? x5c)%byte && (bu =? x75)%byte then hex4 b1 b2 b3 b4 else None) with
                            | Some w =>
                                if surrogate_lo w
                                then prepend (utf8 (65536 + (v - 55296) * 1024 + (w - 56320))) (parse_str t')
                                else prepend (utf8 65533) (parse_str t)
                            | None => prepend (utf8 65533) (parse_str t)
                            end
                        | _ => prepend (utf8 65533) (parse_str t)
                        end
                      else if surrogate_lo v then prepend (utf8 65533) (parse_str t)
                      else prepend (utf8 v) (parse_str t)
                  end
              | _ => None
              end
            else None
        end
      else if bz c <? 32 then None
      else prepend [c] (parse_str t)
  end.

Fixpoint span_digits (s : gostring) : gostring * gostring :=
  match s with
  | c :: t => if is_digit c then (c :: fst (span_digits t), snd (span_digits t)) else ([], s)
  | [] => ([], [])
  end.

(** A number: sign, integer part, optional fraction and exponent. *)
Definition parse_num (s : gostring) : option (json * gostring) :=
  let '(neg, s1) := match s with c :: t => if (c =? x2d)%byte then (true, t) else (false, s) | [] => (false, s) end in
  let '(ip, s2) :=
    match s1 with
    | c :: t => if (c =? x30)%byte then ([c], t) else span_digits s1
    | [] => ([], s1)
    end in
  match ip with
  | [] => None
  | _ =>
      let fracr :=
        match s2 with
        | c :: t =>
            if (c =? x2e)%byte then
              match span_digits t with
              | ([], _) => None
              | (f, r) => Some (c :: f, r)
              end
            else Some ([], s2)
        | [] => Some ([], s2)
        end in
      match fracr with
      | None => None
      | Some (f, s3) =>
          let expr :=
            match s3 with
            | c :: t =>
                if ((c =? x65) || (c =? x45))%byte then
                  let '(sg, t1) :=
                    match t with
                    | d :: t' => if ((d =? x2b) || (d =? x2d))%byte then ([d], t') else ([], t)
                    | [] => ([], t)
                    end in
                  match span_digits t1 with
                  | ([], _) => None
                  | (e, r) => Some (c :: sg ++ e, r)
                  end
                else Some ([], s3)
            | [] => Some ([], s3)
            end in
          match expr with
          | None => None
          | Some (e, s4) =>
              match f, e with
              | [], [] => Some (JNum (if neg : bool then - dec_val ip else dec_val ip), s4)
              | _, _ => Some (JFloat ((if neg then [x2d] else []) ++ ip ++ f ++ e), s4)
              end
          end
      end
  end.

(** Removes a literal from the front. *)
Fixpoint strip (lit s : gostring) : option gostring :=
  match lit, s with
  | [], _ => Some s
  | a :: l, b :: t => if (a =? b)%byte then strip l t else None
  | _, [] => None
  end.

(** Values, array elements and object members.  The callers give one unit of fuel
    per character, more than the recursion can use. *)
Fixpoint parse_value (fuel : nat) (s0 : gostring) : option (json * gostring) :=
  match fuel with
  | O => None
  | S f =>
      let s := skip_ws s0 in
      match s with
      | [] => None
      | c :: t =>
          if (c =? x6e)%byte then
            match strip [x6e; x75; x6c; x6c] s with Some r => Some (JNull, r) | None => None end
          else if (c =? x74)%byte then
            match strip [x74; x72; x75; x65] s with Some r => Some (JBool true, r) | None => None end
          else if (c =? x66)%byte then
            match strip [x66; x61; x6c; x73; x65] s with Some r => Some (JBool false, r) | None => None end
          else if (c =? x22)%byte then
            match parse_str t with Some (x, r) => Some (JStr x, r) | None => None end
          else if (c =? x5b)%byte then
            match skip_ws t with
            | d :: r =>
                if (d =? x5d)%byte then Some (JArr [], r)
                else match parse_elems f t with Some (l, r) => Some (JArr l, r) | None => None end
            | [] => None
            end
          else if (c =? x7b)%byte then
            match skip_ws t with
            | d :: r =>
                if (d =? x7d)%byte then Some (JObj [], r)
                else match parse_members f t with Some (l, r) => Some (JObj l, r) | None => None end
            | [] => None
            end
          else parse_num s
      end
  end
with parse_elems (fuel : nat) (s : gostring) : option (list json * gostring) :=
  match fuel with
  | O => None
  | S f =>
      match parse_value f s with
      | None => None
      | Some (v, r) =>
          match skip_ws r with
          | c :: t =>
              if (c =? x5d)%byte then Some ([v], t)
              else if (c =? x2c)%byte then
                match parse_elems f t with Some (l, r') => Some (v :: l, r') | None => None end
              else None
          | [] => None
          end
      end
  end
with parse_members (fuel : nat) (s : gostring) : option (list (gostring * json) * gostring) :=
  match fuel with
  | O => None
  | S f =>
      match skip_ws s with
      | q :: t0 =>
          if (q =? x22)%byte then
            match parse_str t0 with
            | None => None
            | Some (k, r0) =>
                match skip_ws r0 with
                | col :: r1 =>
                    if (col =? x3a)%byte then
                      match parse_value f r1 with
                      | None => None
                      | Some (v, r) =>
                          match skip_ws r with
                          | c :: t =>
                              if (c =? x7d)%byte then Some ([(k, v)], t)
                              else if (c =? x2c)%byte then
                                match parse_members f t with
                                | Some (l, r') => Some ((k, v) :: l, r')
                                | None => None
                                end
                              else None
                          | [] => None
                          end
                      end
                    else None
                | [] => None
                end
            end
          else None
      | [] => None
      end
  end.

(** The whole text must be one value. *)
Definition json_parse (s : gostring) : option json :=
  match parse_value (2 * length s + 2) s with
  | Some (j, r) => match skip_ws r with [] => Some j | _ => None end
  | None => None
  end.

(** ** Decoding into Go values *)

Definition dec_str (j : json) : option gostring := match j with JStr s => Some s | _ => None end.
Definition dec_bool (j : json) : option bool := match j with JBool b => Some b | _ => None end.
Definition dec_int (lo hi : Z) (j : json) : option Z :=
  match j with JNum z => if (lo <=? z) && (z <=? hi) then Some z else None | _ => None end.
Definition dec_i64 := dec_int (- 2 ^ 63) (2 ^ 63 - 1).
Definition dec_i32 := dec_int (- 2 ^ 31) (2 ^ 31 - 1).
Definition dec_u64 := dec_int 0 (2 ^ 64 - 1).
Definition dec_u32 := dec_int 0 (2 ^ 32 - 1).

(** [[]byte] travels as base64 text. *)
Definition dec_bytes (j : json) : option bytes :=
  match j with
  | JStr s => match b64_decode s with (b, true) => Some b | _ => None end
  | _ => None
  end.

(** A slice; a null element is the zero value. *)
Fixpoint dec_elems {A} (dec : json -> option A) (zero : A) (l : list json) : option (list A) :=
  match l with
  | [] => Some []
  | j :: t =>
      match (match j with JNull => Some zero | _ => dec j end), dec_elems dec zero t with
      | Some a, Some r => Some (a :: r)
      | _, _ => None
      end
  end.
Definition dec_list {A} (dec : json -> option A) (zero : A) (j : json) : option (list A) :=
  match j with JArr l => dec_elems dec zero l | _ => None end.

(** [json.Unmarshal] of a whole text into a variable: null leaves the zero value. *)
Definition unmarshal {A} (dec : json -> option A) (zero : A) (s : gostring) : option A :=
  match json_parse s with
  | None => None
  | Some JNull => Some zero
  | Some j => dec j
  end.

(** Key comparison ignoring ASCII case ([bytes.EqualFold] on ASCII names). *)
Definition lower (c : byte) : byte := if (65 <=? bz c) && (bz c <=? 90) then zb (bz c + 32) else c.
Definition fold_eq (a b : gostring) : bool := bytes_eqb (map lower a) (map lower b).

(** A struct field: absent or null leaves the zero value, the last occurrence
    wins, and an occurrence of the wrong type is an error. *)
Definition jfield {A} (dec : json -> option A) (zero : A) (name : gostring)
    (fields : list (gostring * json)) : option A :=
  fold_left (fun acc kv =>
    if fold_eq (fst kv) name then
      match snd kv with
      | JNull => acc
      | v => match acc, dec v with Some _, Some a => Some a | _, _ => None end
      end
    else acc) fields (Some zero).

(** A struct field of slice type: [None] is the nil slice, which null gives.
    (With a repeated key Go decodes into the same backing array, so that a null
    element keeps an earlier value; here it is the zero value.) *)
Definition jslice {A} (dec : json -> option A) (name : gostring)
    (fields : list (gostring * json)) : option (option A) :=
  fold_left (fun acc kv =>
    if fold_eq (fst kv) name then
      match snd kv with
      | JNull => match acc with Some _ => Some None | None => None end
      | v => match acc, dec v with Some _, Some a => Some (Some a) | _, _ => None end
      end
    else acc) fields (Some None).

(** A struct field whose type has its own [UnmarshalJSON], which is given any
    value, null included. *)
Definition jcustom {A} (dec : json -> option A) (zero : A) (name : gostring)
    (fields : list (gostring * json)) : option A :=
  fold_left (fun acc kv =>
    if fold_eq (fst kv) name then
      match acc, dec (snd kv) with Some _, Some a => Some a | _, _ => None end
    else acc) fields (Some zero).

(** Slices as printed: the nil slice is null. *)
Definition json_slice {A} (f : A -> json) (o : option (list A)) : json :=
  match o with None => JNull | Some l => JArr (map f l) end.
Definition json_blob (o : option bytes) : json :=
  match o with None => JNull | Some b => JStr (b64_encode b) end.
