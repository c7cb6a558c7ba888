(** * Settings of gateways and providers

    gateway/config/config.go, provider/config/config.go, and how the settings reach the gateway in gateway/cmd/gateway/main.go.

    Environment variables are texts; the library viper is modelled for what is used of it: values set, then command line flags given,
    then the environment (where an empty variable counts as unset), then defaults of flags.  The settings for logging are left out.
    A file .env is assumed to have been loaded into the environment. *)
From Coq Require Import String List ZArith Bool Lia.
From Coq Require Import Init.Byte.
From Verif Require Import Base Crypto Payment Register SqlOffers Gateway.
Import ListNotations.
Open Scope Z_scope.
Open Scope go_scope.

(** ** Numbers: [fmt.Sscan] into a [big.Int]

    The standard library of Go 1.16: [(z *Int) Scan] with the verb v, [(z *Int) scan], [scanSign], [(z nat) scan] with base 0 and no fraction. *)

(** fmt/scan.go [isSpace], ASCII. *)
Definition is_space (c : byte) : bool := ((9 <=? bz c) && (bz c <=? 13)) || (bz c =? 32).
(** fmt/scan.go [SkipSpace] where newlines are spaces. *)
Fixpoint skip_space (s : gostring) : gostring :=
  match s with c :: r => if is_space c then skip_space r else s | [] => [] end.

(** What came before a character: nothing, a digit (or the prefix), or a separator. *)
Inductive before := Start | Digit | Sep.
(** The value of a character as a digit; 63 if it is none. *)
Definition digit_of (c : byte) : Z :=
  if (48 <=? bz c) && (bz c <=? 57) then bz c - 48
  else if (97 <=? bz c) && (bz c <=? 122) then bz c - 87
  else if (65 <=? bz c) && (bz c <=? 90) then bz c - 55
  else 63.

(** The loop of [nat.scan] in base [b]: value, number of digits, last character, misplaced separators.  A byte above 127 is taken
    as part of a rune of several bytes, which is an error; bytes that are no UTF-8 are not modelled. *)
Fixpoint scan_digits (b : Z) (s : gostring) (acc : Z) (count : nat) (prev : before) (inval : bool) : option (Z * nat * before * bool) :=
  match s with
  | [] => Some (acc, count, prev, inval)
  | c :: r =>
      if 128 <=? bz c then None
      else if bz c =? 95 then scan_digits b r acc count Sep (inval || match prev with Digit => false | _ => true end)
      else if b <=? digit_of c then Some (acc, count, prev, inval)
      else scan_digits b r (acc * b + digit_of c) (S count) Digit inval
  end.

(** The end of [nat.scan]; [octal] if the prefix was 0. *)
Definition scan_rest (b : Z) (octal : bool) (prev : before) (s : gostring) : option Z :=
  match scan_digits b s 0 0 prev false with
  | None => None
  | Some (v, count, last, inval) =>
      if inval || match last with Sep => true | _ => false end then None
      else match count with O => if octal then Some 0 else None | S _ => Some v end
  end.

(** [nat.scan]: the prefixes 0b, 0o, 0x and 0. *)
Definition scan_nat (s : gostring) : option Z :=
  match s with
  | c :: r =>
      if bz c =? 48 then
        match r with
        | [] => Some 0
        | d :: r' =>
            if 128 <=? bz d then None
            else if (bz d =? 98) || (bz d =? 66) then scan_rest 2 false Digit r'
            else if (bz d =? 111) || (bz d =? 79) then scan_rest 8 false Digit r'
            else if (bz d =? 120) || (bz d =? 88) then scan_rest 16 false Digit r'
            else scan_rest 8 true Digit r
        end
      else scan_rest 10 false Start s
  | [] => None
  end.

(** [fmt.Sscan(s, z)]: what follows the number is not looked at. *)
Definition Sscan (s : gostring) : option Z :=
  match skip_space s with
  | c :: r =>
      if bz c =? 45 then option_map Z.opp (scan_nat r)
      else if bz c =? 43 then scan_nat r
      else scan_nat (c :: r)
  | [] => None
  end.

(** ** Durations: [time.ParseDuration]

    time/format.go of Go 1.16.  A duration is a number of nanoseconds.  [fraction f n unit] is what
    [int64(float64(f) * (float64(unit) / scale))] gives for [scale] 10^[n]. *)

Definition is_dig (c : byte) : bool := (48 <=? bz c) && (bz c <=? 57).
Definition max63 : Z := 2 ^ 63 - 1.

(** [leadingInt]; [None] when the number is too large. *)
Fixpoint leadingInt (s : gostring) (x : Z) : option (Z * gostring) :=
  match s with
  | c :: r =>
      if is_dig c then
        if (max63 / 10 <? x) || (max63 <? x * 10 + (bz c - 48)) then None
        else leadingInt r (x * 10 + (bz c - 48))
      else Some (x, s)
  | [] => Some (x, [])
  end.

(** [leadingFraction]: digits that do not fit are skipped. *)
Fixpoint leadingFraction (s : gostring) (x : Z) (scale : nat) (overflow : bool) : Z * nat * gostring :=
  match s with
  | c :: r =>
      if is_dig c then
        if overflow || (max63 / 10 <? x) || (max63 <? x * 10 + (bz c - 48)) then leadingFraction r x scale true
        else leadingFraction r (x * 10 + (bz c - 48)) (S scale) false
      else (x, scale, s)
  | [] => (x, scale, [])
  end.

(** The characters of a unit: up to the next point or digit. *)
Fixpoint span_unit (s : gostring) : gostring * gostring :=
  match s with
  | c :: r => if (bz c =? 46) || is_dig c then ([], s) else let (u, t) := span_unit r in (c :: u, t)
  | [] => ([], [])
  end.

(** [unitMap]; the letter mu in its two encodings. *)
Definition unitMap : list (gostring * Z) :=
  [(gs "ns", 1); (gs "us", 1000); ([xc2; xb5; x73], 1000); ([xce; xbc; x73], 1000); (gs "ms", 1000000); (gs "s", 1000000000);
   (gs "m", 60000000000); (gs "h", 3600000000000)].

Section duration.
  Variable fraction : Z -> nat -> Z -> Z.

  (** The loop; [fuel] bounds the length of the text. *)
  Fixpoint parse_parts (fuel : nat) (s : gostring) (d : Z) : outcome (option Z) :=
    match s with
    | [] => Ret (Some d)
    | c :: _ =>
        match fuel with
        | O => Diverge
        | S fuel =>
            if negb ((bz c =? 46) || is_dig c) then Ret None
            else match leadingInt s 0 with
                 | None => Ret None
                 | Some (v, s1) =>
                     let pre := negb (Nat.eqb (length s) (length s1)) in
                     let '(f, scale, s2, post) :=
                       match s1 with
                       | p :: s1' =>
                           if bz p =? 46 then
                             let '(f, scale, s2) := leadingFraction s1' 0 O false in (f, scale, s2, negb (Nat.eqb (length s1') (length s2)))
                           else (0, O, s1, false)
                       | [] => (0, O, s1, false)
                       end in
                     if negb pre && negb post then Ret None
                     else
                       let (u, s3) := span_unit s2 in
                       match u, aget bytes_eqb unitMap u with
                       | [], _ => Ret None
                       | _, None => Ret None
                       | _, Some unit =>
                           if max63 / unit <? v then Ret None
                           else
                             let v := v * unit in
                             let v := if 0 <? f then v + fraction f scale unit else v in
                             if (0 <? f) && ((v <? 0) || (max63 <? v)) then Ret None
                             else if (d + v <? 0) || (max63 <? d + v) then Ret None
                             else parse_parts fuel s3 (d + v)
                       end
                 end
        end
    end.

  (** [time.ParseDuration]. *)
  Definition ParseDuration (s : gostring) : outcome (option Z) :=
    let '(neg, s) := match s with c :: r => if bz c =? 45 then (true, r) else if bz c =? 43 then (false, r) else (false, s) | [] => (false, s) end in
    if bytes_eqb s (gs "0") then Ret (Some 0)
    else match s with
         | [] => Ret None
         | _ => let* x := parse_parts (length s) s 0 in Ret (option_map (fun d => if neg : bool then - d else d) x)
         end.

  (** ** Settings *)

  (** What the settings are read from: the command line flag ip, and the environment. *)
  Record sources := Sources { flag_ip : option gostring; env_of : gostring -> option gostring }.

  (** viper [GetString] of a name that is no flag. *)
  Definition GetString (v : sources) (k : gostring) : gostring := match env_of v k with Some x => x | None => [] end.

  (** gateway/config/config.go L115-117 [setValues], provider/config/config.go L125-127: the flag if given, the environment
      unless empty, the default of the flag (gateway/config/config.go L102-105 [defineFlags]). *)
  Definition IP (v : sources) : gostring :=
    match flag_ip v with
    | Some x => x
    | None => match env_of v (gs "IP") with Some (c :: r) => c :: r | _ => gs "127.0.0.1" end
    end.

  (** gateway/internal/util/settings/settings.go L36-69 [AppSettings], without logging; durations in nanoseconds. *)
  Record settings := Settings {
    BindRestAPI : gostring; BindProviderAPI : gostring; BindGatewayAPI : gostring; BindAdminAPI : gostring;
    RegisterAPIURL : gostring; RegisterRefreshDuration : Z;
    NetworkInfoGateway : gostring; NetworkInfoClient : gostring; NetworkInfoProvider : gostring; NetworkInfoAdmin : gostring;
    TCPInactivityTimeout : Z; TCPLongInactivityTimeout : Z;
    SearchPrice : Z; OfferPrice : Z; TopupAmount : Z }.

  (** A duration that is not understood is replaced by its default, as is a number. *)
  Definition duration_or (v : sources) (k : gostring) (default : Z) : outcome Z :=
    let* d := ParseDuration (GetString v k) in Ret (match d with Some d => d | None => default end).
  Definition number_or (v : sources) (k : gostring) (default : Z) : Z :=
    match Sscan (GetString v k) with Some n => n | None => default end.

  (** gateway/config/config.go L30-100 [Map]. *)
  Definition Map (v : sources) : outcome settings :=
    let* refresh := duration_or v (gs "REGISTER_REFRESH_DURATION") 5000000000 in
    let* tcp := duration_or v (gs "TCP_INACTIVITY_TIMEOUT") 100000000 in
    let* tcpLong := duration_or v (gs "TCP_LONG_INACTIVITY_TIMEOUT") 5000000000 in
    let at_port k := IP v ++ gs ":" ++ GetString v k in
    Ret (Settings (GetString v (gs "BIND_REST_API")) (GetString v (gs "BIND_PROVIDER_API")) (GetString v (gs "BIND_GATEWAY_API")) (GetString v (gs "BIND_ADMIN_API"))
           (GetString v (gs "REGISTER_API_URL")) refresh
           (at_port (gs "BIND_GATEWAY_API")) (at_port (gs "BIND_REST_API")) (at_port (gs "BIND_PROVIDER_API")) (at_port (gs "BIND_ADMIN_API"))
           tcp tcpLong
           (number_or v (gs "SEARCH_PRICE") 1000000000000000) (number_or v (gs "OFFER_PRICE") 1000000000000000) (number_or v (gs "TOPUP_AMOUNT") 100000000000000000)).

  (** [strconv.ParseUint(value, 10, 8)]: digits only, at most 255. *)
  Fixpoint uint8_digits (s : gostring) (x : Z) : option Z :=
    match s with
    | [] => Some x
    | c :: r => if is_dig c then if 255 <? x * 10 + (bz c - 48) then None else uint8_digits r (x * 10 + (bz c - 48)) else None
    end.
  (** provider/config/config.go L31-37 [parseUint8]. *)
  Definition parseUint8 (s : gostring) : outcome Z :=
    match s, uint8_digits s 0 with
    | [], _ => Panic
    | _, Some n => Ret n
    | _, None => Panic
    end.

  (** provider/config/config.go L40-110 [Map]: the signature algorithm and the settings; the provider has no interface for providers, and its
      network addresses are read from variables of their own. *)
  Definition ProviderMap (v : sources) : outcome (Z * settings) :=
    let* refresh := duration_or v (gs "REGISTER_REFRESH_DURATION") 5000000000 in
    let* tcp := duration_or v (gs "TCP_INACTIVITY_TIMEOUT") 100000000 in
    let* tcpLong := duration_or v (gs "TCP_LONG_INACTIVITY_TIMEOUT") 5000000000 in
    let* alg := parseUint8 (GetString v (gs "PROVIDER_SIG_ALG")) in
    let at_port k := IP v ++ gs ":" ++ GetString v k in
    Ret (alg, Settings (GetString v (gs "BIND_REST_API")) [] (GetString v (gs "BIND_GATEWAY_API")) (GetString v (gs "BIND_ADMIN_API"))
           (GetString v (gs "REGISTER_API_URL")) refresh
           (at_port (gs "NETWORK_GATEWAY_INFO")) (at_port (gs "NETWORK_CLIENT_INFO")) [] (at_port (gs "NETWORK_ADMIN_INFO"))
           tcp tcpLong
           (number_or v (gs "SEARCH_PRICE") 1000000000000000) (number_or v (gs "OFFER_PRICE") 1000000000000000) (number_or v (gs "TOPUP_AMOUNT") 100000000000000000)).
End duration.

(** ** The start of a gateway *)

(** gateway/cmd/gateway/main.go L55-59: the gateway with its settings and without identity; [m] is the register manager, [d] the database.  The
    second value is the interval at which the register is read, in nanoseconds. *)
Definition StartGateway (s : settings) (d : db) (m : manager info) : gateway * Z :=
  (Gateway None None 0 (SearchPrice s) (OfferPrice s) (TopupAmount s) None d m, 10000000000).
