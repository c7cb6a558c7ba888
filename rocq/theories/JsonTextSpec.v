(** * JSON texts (RFC 8259), independently of the parser

    Which texts stand for which value: the grammar of the RFC as relations between text and value.  Text is bytes; what Go makes of halves of surrogate pairs
    (U+FFFD) is part of it.  Used by C211. *)
From Coq Require Import String List ZArith Bool.
From Coq Require Import Init.Byte.
From Verif Require Import Base Json.
Import ListNotations.
Open Scope Z_scope.

(** Section 2: blanks. *)
Definition blank (s : gostring) : Prop := Forall (fun c => In c [x20; x09; x0a; x0d]) s.

(** Section 6: digits, and the number they stand for. *)
Definition digits (ds : gostring) : Prop := ds <> [] /\ Forall (fun c => 48 <= bz c <= 57) ds.
Fixpoint place_value (ds : gostring) : Z :=
  match ds with [] => 0 | d :: t => (bz d - 48) * 10 ^ Z.of_nat (length t) + place_value t end.
(** No leading zero. *)
Definition natural (ds : gostring) : Prop := digits ds /\ (hd x30 ds = x30 -> ds = [x30]).
Definition sign (s : gostring) (k : Z) : Prop := s = [] /\ k = 1 \/ s = [x2d] /\ k = -1.
Definition fraction (s : gostring) : Prop := exists ds, s = x2e :: ds /\ digits ds.
Definition exponent (s : gostring) : Prop := exists e sg ds, s = e :: sg ++ ds /\ In e [x65; x45] /\ In sg [[]; [x2b]; [x2d]] /\ digits ds.
(** Numbers with a fraction or an exponent keep their text. *)
Inductive number : gostring -> json -> Prop :=
| number_int : forall sg k ds, sign sg k -> natural ds -> number (sg ++ ds) (JNum (k * place_value ds))
| number_float : forall sg k ds f e, sign sg k -> natural ds -> f = [] \/ fraction f -> e = [] \/ exponent e -> f ++ e <> [] ->
    number (sg ++ ds ++ f ++ e) (JFloat (sg ++ ds ++ f ++ e)).

(** Section 7: strings. *)
Inductive hex_char : byte -> Z -> Prop :=
| hex_dig : forall c, 48 <= bz c <= 57 -> hex_char c (bz c - 48)
| hex_low : forall c, 97 <= bz c <= 102 -> hex_char c (bz c - 97 + 10)
| hex_upp : forall c, 65 <= bz c <= 70 -> hex_char c (bz c - 65 + 10).
(** Four hexadecimal digits. *)
Inductive unit16 : gostring -> Z -> Prop :=
| unit16_intro : forall a b c d w x y z, hex_char a w -> hex_char b x -> hex_char c y -> hex_char d z -> unit16 [a; b; c; d] (16 * (16 * (16 * w + x) + y) + z).
Definition high (n : Z) : Prop := 55296 <= n <= 56319.
Definition low (n : Z) : Prop := 56320 <= n <= 57343.
(** RFC 3629 section 3: the bytes of a character. *)
Inductive character : Z -> bytes -> Prop :=
| char1 : forall n, 0 <= n <= 127 -> character n [zb n]
| char2 : forall x y, 0 <= x < 32 -> 0 <= y < 64 -> 128 <= 64 * x + y -> character (64 * x + y) [zb (192 + x); zb (128 + y)]
| char3 : forall x y z, 0 <= x < 16 -> 0 <= y < 64 -> 0 <= z < 64 -> 2048 <= 64 * (64 * x + y) + z ->
    character (64 * (64 * x + y) + z) [zb (224 + x); zb (128 + y); zb (128 + z)]
| char4 : forall w x y z, 0 <= w < 8 -> 0 <= x < 64 -> 0 <= y < 64 -> 0 <= z < 64 -> 65536 <= 64 * (64 * (64 * w + x) + y) + z ->
    character (64 * (64 * (64 * w + x) + y) + z) [zb (240 + w); zb (128 + x); zb (128 + y); zb (128 + z)].
Definition escapes : list (byte * byte) := [(x22, x22); (x5c, x5c); (x2f, x2f); (x62, x08); (x66, x0c); (x6e, x0a); (x72, x0d); (x74, x09)].
(** The text between the quotes and the string it stands for. *)
Inductive chars : gostring -> gostring -> Prop :=
| chars_end : chars [] []
| chars_raw : forall c t v, 32 <= bz c -> c <> x22 -> c <> x5c -> chars t v -> chars (c :: t) (c :: v)
| chars_esc : forall e c t v, In (e, c) escapes -> chars t v -> chars (x5c :: e :: t) (c :: v)
| chars_unit : forall h n b t v, unit16 h n -> ~ high n -> ~ low n -> character n b -> chars t v -> chars (x5c :: x75 :: h ++ t) (b ++ v)
| chars_pair : forall h n l m b t v, unit16 h n -> high n -> unit16 l m -> low m -> character (65536 + 1024 * (n - 55296) + (m - 56320)) b -> chars t v ->
    chars (x5c :: x75 :: h ++ x5c :: x75 :: l ++ t) (b ++ v)
| chars_half : forall h n t v, unit16 h n -> (high n /\ ~ (exists l m u, t = x5c :: x75 :: l ++ u /\ unit16 l m /\ low m)) \/ low n -> chars t v ->
    chars (x5c :: x75 :: h ++ t) ([xef; xbf; xbd] ++ v).

(** Sections 3 to 5: values, the elements of arrays and the members of objects. *)
Inductive denotes : gostring -> json -> Prop :=
| denotes_null : denotes [x6e; x75; x6c; x6c] JNull
| denotes_true : denotes [x74; x72; x75; x65] (JBool true)
| denotes_false : denotes [x66; x61; x6c; x73; x65] (JBool false)
| denotes_num : forall s j, number s j -> denotes s j
| denotes_str : forall t v, chars t v -> denotes (x22 :: t ++ [x22]) (JStr v)
| denotes_arr0 : forall b, blank b -> denotes (x5b :: b ++ [x5d]) (JArr [])
| denotes_arr : forall s l, elements s l -> denotes (x5b :: s ++ [x5d]) (JArr l)
| denotes_obj0 : forall b, blank b -> denotes (x7b :: b ++ [x7d]) (JObj [])
| denotes_obj : forall s l, members s l -> denotes (x7b :: s ++ [x7d]) (JObj l)
with elements : gostring -> list json -> Prop :=
| elements_last : forall b s c j, blank b -> denotes s j -> blank c -> elements (b ++ s ++ c) [j]
| elements_more : forall b s c j r l, blank b -> denotes s j -> blank c -> elements r l -> elements (b ++ s ++ c ++ x2c :: r) (j :: l)
with members : gostring -> list (gostring * json) -> Prop :=
| members_last : forall b t k c d s e j, blank b -> chars t k -> blank c -> blank d -> denotes s j -> blank e ->
    members (b ++ (x22 :: t ++ [x22]) ++ c ++ x3a :: d ++ s ++ e) [(k, j)]
| members_more : forall b t k c d s e j r l, blank b -> chars t k -> blank c -> blank d -> denotes s j -> blank e -> members r l ->
    members (b ++ (x22 :: t ++ [x22]) ++ c ++ x3a :: d ++ s ++ e ++ x2c :: r) ((k, j) :: l).

(** A whole text. *)
Definition json_text (s : gostring) (j : json) : Prop := exists b t c, s = b ++ t ++ c /\ blank b /\ denotes t j /\ blank c.

(** Values without fractions and exponents. *)
Inductive whole : json -> Prop :=
| whole_null : whole JNull
| whole_bool : forall b, whole (JBool b)
| whole_num : forall z, whole (JNum z)
| whole_str : forall s, whole (JStr s)
| whole_arr : forall l, Forall whole l -> whole (JArr l)
| whole_obj : forall l, Forall (fun kv => whole (snd kv)) l -> whole (JObj l).

(** ** Base64 (RFC 4648 section 4), line breaks left out, left-over bits ignored *)
Definition alphabet : gostring := gs "ABCDEFGHIJKLMNOPQRSTUVWXYZabcdefghijklmnopqrstuvwxyz0123456789+/".
Definition sextet (c : byte) (v : Z) : Prop := 0 <= v /\ nth_error alphabet (Z.to_nat v) = Some c.
Inductive quanta : gostring -> bytes -> Prop :=
| quanta_end : quanta [] []
| quanta_more : forall w x y z cw cx cy cz a b c t l, sextet cw w -> sextet cx x -> sextet cy y -> sextet cz z ->
    64 * (64 * (64 * w + x) + y) + z = 256 * (256 * bz a + bz b) + bz c -> quanta t l -> quanta (cw :: cx :: cy :: cz :: t) (a :: b :: c :: l)
| quanta_two : forall w x y cw cx cy a b rest, sextet cw w -> sextet cx x -> sextet cy y ->
    64 * (64 * w + x) + y = 4 * (256 * bz a + bz b) + rest -> 0 <= rest < 4 -> quanta [cw; cx; cy; x3d] [a; b]
| quanta_one : forall w x cw cx a rest, sextet cw w -> sextet cx x -> 64 * w + x = 16 * bz a + rest -> 0 <= rest < 16 -> quanta [cw; cx; x3d; x3d] [a].
(** The second text is the first without its line breaks. *)
Inductive unbroken : gostring -> gostring -> Prop :=
| unbroken_end : unbroken [] []
| unbroken_break : forall c s t, In c [x0a; x0d] -> unbroken s t -> unbroken (c :: s) t
| unbroken_char : forall c s t, ~ In c [x0a; x0d] -> unbroken s t -> unbroken (c :: s) (c :: t).
Definition base64 (s : gostring) (b : bytes) : Prop := exists t, unbroken s t /\ quanta t b.
