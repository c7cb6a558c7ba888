(** * Properties of the settings (C158-C161, C201) *)
From Coq Require Import String List ZArith Bool Lia ZifyBool.
From Coq Require Import Init.Byte.
From Verif Require Import Base BaseProofs Ids Crypto Message Offer Schema Messages Payment Register SqlOffers OfferProofs Rest Gateway GatewaySpec GatewayProofs GatewayAdmin GatewayAdminSpec
  Config ConfigSpec ConfigProofs PropertiesGateway ToyGateway.
Import ListNotations.
Open Scope Z_scope.

(** ** C158: prices *)

(** A whole number in decimal, with blanks around it and digits grouped by underscores or not, is the value of the setting. *)
Theorem configured_number_partial : forall v k n default, whole_number (GetString v k) n -> number_or v k default = n.
Proof. intros v k n default H. unfold number_or. rewrite (number_read _ _ H). reflexivity. Qed.

(** A variable that is not set, or whose text does not begin like a number, leaves the default. *)
Theorem unreadable_default_partial : forall v k default b r, GetString v k = b ++ r -> blank b ->
  match r with [] => True | c :: _ => is_dig c = false /\ c <> x2d /\ c <> x2b /\ c <> x20 /\ bz c <> 95 /\ 13 < bz c end ->
  number_or v k default = default.
Proof. intros v k default b r E B H. unfold number_or. rewrite E, (number_none b r B H). reflexivity. Qed.

(** Without a minus sign in the text the value is not negative. *)
Theorem number_not_negative_partial : forall v k default, ~ In x2d (GetString v k) -> 0 <= default -> 0 <= number_or v k default.
Proof. intros v k default N D. unfold number_or. destruct (Sscan (GetString v k)) as [n|] eqn:E; [eapply number_pos; eassumption|exact D]. Qed.

Section life.
  Variable version : Z.
  Variable supported : list Z.
  Variable sha256 sha512_256 : bytes -> bytes.
  Variable pub_of : bytes -> bytes.
  Variable ec_sign : bytes -> bytes -> option bytes.
  Variable ec_verify : bytes -> bytes -> bytes -> bool.
  Variable blake : bytes -> bytes.
  Variable verify : gostring -> voucher -> option bytes -> bool.
  Variable voucher_text : voucher -> gostring.
  Variable voucher_of : gostring -> option voucher.
  Variable is_address : gostring -> bool.
  Variable zone : Z.
  Variable fraction : Z -> nat -> Z -> Z.

  (** A gateway started with a search price written as a whole number: whatever has happened to it since, a client gets the digests of
      a search only if it was credited that much. *)
  Theorem configured_price_charged_partial : forall v s n d m h g e request r a,
    Map fraction v = Ret s -> whole_number (GetString v (gs "SEARCH_PRICE")) n ->
    live_all version supported sha256 sha512_256 pub_of ec_sign ec_verify blake verify voucher_text voucher_of is_address zone (fst (StartGateway s d m)) h = Ret g ->
    HandleStandardDiscoverV2 version supported sha256 sha512_256 ec_sign blake verify voucher_of is_address zone e g request = Ret r -> In (Json a) (wrote r) ->
    exists c nonce ttl ch text, DecodeClientStandardDiscoverRequestV2 sha256 request = Ret (OkR (Some c, nonce, ttl, ch, text)) /\
      ((exists x, credited verify voucher_of is_address e g (after r) ch text x /\ n <= x) \/
       (exists found, DecodeClientStandardDiscoverResponseV2 sha256 a = Ret (OkR (Some c, nonce, found, None, None, true, ch)))).
  Proof.
    intros v s n d m h g e request r a M W L H A.
    assert (P : g_search g = n).
    { apply life_prices in L. unfold prices in L. assert (g_search g = SearchPrice s) as -> by (cbn in L; congruence).
      unfold Map in M. step M. step M. step M. apply ret_inj in M. subst s. cbn [SearchPrice]. apply configured_number_partial. exact W. }
    rewrite <- P. eapply standard_v2_paid_partial; eassumption.
  Qed.
End life.

(** ** C159: durations *)

(** A duration given as whole numbers with units is the value of the setting if it fits. *)
Theorem configured_duration_partial : forall fraction v k d default, duration (GetString v k) d -> d <= 2 ^ 63 - 1 -> duration_or fraction v k default = Ret d.
Proof. intros fraction v k d default H M. unfold duration_or. rewrite (duration_read fraction _ _ H M). reflexivity. Qed.

(** ** C161: start *)

(** A gateway starts whatever is in the environment. *)
Theorem gateway_settings_total : forall fraction v, exists s, Map fraction v = Ret s /\
  BindRestAPI s = GetString v (gs "BIND_REST_API") /\ BindProviderAPI s = GetString v (gs "BIND_PROVIDER_API") /\
  BindGatewayAPI s = GetString v (gs "BIND_GATEWAY_API") /\ BindAdminAPI s = GetString v (gs "BIND_ADMIN_API") /\
  RegisterAPIURL s = GetString v (gs "REGISTER_API_URL") /\ NetworkInfoClient s = IP v ++ gs ":" ++ GetString v (gs "BIND_REST_API") /\
  NetworkInfoGateway s = IP v ++ gs ":" ++ GetString v (gs "BIND_GATEWAY_API") /\ NetworkInfoProvider s = IP v ++ gs ":" ++ GetString v (gs "BIND_PROVIDER_API") /\
  NetworkInfoAdmin s = IP v ++ gs ":" ++ GetString v (gs "BIND_ADMIN_API").
Proof.
  intros fraction v. assert (T : forall k x, exists d, duration_or fraction v k x = Ret d).
  { intros k x. unfold duration_or. destruct (duration_total fraction (GetString v k)) as (d & ->). eexists. reflexivity. }
  unfold Map. destruct (T (gs "REGISTER_REFRESH_DURATION") 5000000000) as (a & ->). destruct (T (gs "TCP_INACTIVITY_TIMEOUT") 100000000) as (b & ->).
  destruct (T (gs "TCP_LONG_INACTIVITY_TIMEOUT") 5000000000) as (c & ->). cbn [obind]. eexists. split; [reflexivity|]. repeat split.
Qed.

(** A provider starts if and only if its signature algorithm is a number up to 255. *)
Theorem provider_starts_partial : forall fraction v,
  (exists ds, GetString v (gs "PROVIDER_SIG_ALG") = row ds /\ ds <> [] /\ digits_ok ds /\ value ds <= 255 /\ exists s, ProviderMap fraction v = Ret (value ds, s)) \/
  ProviderMap fraction v = Panic.
Proof.
  intros fraction v. assert (T : forall k x, exists d, duration_or fraction v k x = Ret d).
  { intros k x. unfold duration_or. destruct (duration_total fraction (GetString v k)) as (d & ->). eexists. reflexivity. }
  unfold ProviderMap. destruct (T (gs "REGISTER_REFRESH_DURATION") 5000000000) as (a & ->). destruct (T (gs "TCP_INACTIVITY_TIMEOUT") 100000000) as (b & ->).
  destruct (T (gs "TCP_LONG_INACTIVITY_TIMEOUT") 5000000000) as (c & ->). cbn [obind]. set (t := GetString v (gs "PROVIDER_SIG_ALG")).
  assert (U : forall s x n, 0 <= x <= 255 -> uint8_digits s x = Some n -> exists ds, s = row ds /\ digits_ok ds /\ n = fold_left (fun a d => a * 10 + d) ds x /\ n <= 255).
  { clear. induction s as [|c s IH]; intros x n X H; cbn [uint8_digits] in H; [injection H as <-; exists []; split; [reflexivity|]; split; [intros ? []|]; split; [reflexivity|cbn; lia]|].
    destruct (is_dig c) eqn:D; [|discriminate]. destruct (255 <? x * 10 + (bz c - 48)) eqn:L; [discriminate|]. unfold is_dig in D.
    destruct (IH (x * 10 + (bz c - 48)) n ltac:(lia) H) as (ds & -> & O & -> & M). exists (bz c - 48 :: ds). split.
    { cbn. f_equal. unfold digit. replace (48 + (bz c - 48)) with (bz c) by lia. symmetry. apply zb_bz. }
    split; [intros d [<-|I]; [lia|apply O; exact I]|]. split; [reflexivity|exact M]. }
  unfold parseUint8. destruct t as [|c0 r] eqn:Et; [right; reflexivity|]. destruct (uint8_digits (c0 :: r) 0) as [n|] eqn:E; [|right; reflexivity].
  left. destruct (U _ 0 _ ltac:(lia) E) as (ds & R & O & -> & M). exists ds. split; [exact R|]. split; [intros ->; discriminate|]. split; [exact O|]. split; [exact M|]. eexists. reflexivity.
Qed.
Print Assumptions configured_number_partial.
Print Assumptions unreadable_default_partial.
Print Assumptions number_not_negative_partial.
Print Assumptions configured_price_charged_partial.
Print Assumptions configured_duration_partial.
Print Assumptions gateway_settings_total.
Print Assumptions provider_starts_partial.

(** ** C201: announced addresses *)

(** The host is the one given on the command line, or else the one in the environment unless that is empty, or else the machine itself. *)
Definition host_of (v : sources) (h : gostring) : Prop :=
  flag_ip v = Some h \/
  (flag_ip v = None /\ h <> [] /\ env_of v (gs "IP") = Some h) \/
  (flag_ip v = None /\ GetString v (gs "IP") = [] /\ h = gs "127.0.0.1").
Theorem gateway_announces : forall fraction v s h, Map fraction v = Ret s -> host_of v h ->
  NetworkInfoClient s = h ++ gs ":" ++ BindRestAPI s /\ NetworkInfoGateway s = h ++ gs ":" ++ BindGatewayAPI s /\
  NetworkInfoProvider s = h ++ gs ":" ++ BindProviderAPI s /\ NetworkInfoAdmin s = h ++ gs ":" ++ BindAdminAPI s.
Proof.
  intros fraction v s h M H. destruct (gateway_settings_total fraction v) as (s' & M' & X). rewrite M in M'. apply ret_inj in M'. subst s'. destruct X as (-> & -> & -> & -> & _ & -> & -> & -> & ->).
  assert (E : IP v = h).
  { unfold IP. destruct H as [->|[(-> & N & ->)|(-> & N & ->)]]; [reflexivity|destruct h; [contradiction|reflexivity]|]. unfold GetString in N. destruct (env_of v (gs "IP")) as [x|]; [subst x|]; reflexivity. }
  rewrite E. repeat split.
Qed.
(** A provider announces what its variables say, after the host. *)
Theorem provider_announces_partial : forall fraction v a s h, ProviderMap fraction v = Ret (a, s) -> host_of v h ->
  NetworkInfoClient s = h ++ gs ":" ++ GetString v (gs "NETWORK_CLIENT_INFO") /\ NetworkInfoGateway s = h ++ gs ":" ++ GetString v (gs "NETWORK_GATEWAY_INFO") /\
  NetworkInfoAdmin s = h ++ gs ":" ++ GetString v (gs "NETWORK_ADMIN_INFO") /\ NetworkInfoProvider s = [] /\
  BindRestAPI s = GetString v (gs "BIND_REST_API") /\ BindGatewayAPI s = GetString v (gs "BIND_GATEWAY_API") /\ BindAdminAPI s = GetString v (gs "BIND_ADMIN_API") /\
  RegisterAPIURL s = GetString v (gs "REGISTER_API_URL").
Proof.
  intros fraction v a s h M H. unfold ProviderMap in M. step M. step M. step M. step M. apply ret_inj in M. apply pair_equal_spec in M. destruct M as (_ & <-). cbn [NetworkInfoClient NetworkInfoGateway NetworkInfoAdmin NetworkInfoProvider BindRestAPI BindGatewayAPI BindAdminAPI RegisterAPIURL].
  assert (Ei : IP v = h).
  { unfold IP. destruct H as [->|[(-> & N & ->)|(-> & N & ->)]]; [reflexivity|destruct h; [contradiction|reflexivity]|]. unfold GetString in N. destruct (env_of v (gs "IP")) as [x|]; [subst x|]; reflexivity. }
  rewrite Ei. repeat split.
Qed.
Print Assumptions gateway_announces.
Print Assumptions provider_announces_partial.

(** ** Examples and counterexamples *)

(** An environment given as a list. *)
Definition env_list (l : list (gostring * gostring)) : sources := Sources None (aget bytes_eqb l).
(** No fractions occur below. *)
Definition no_fraction (f : Z) (n : nat) (unit : Z) : Z := 0.

(** gateway/.env.example *)
Definition example_env : sources := env_list
  [(gs "BIND_REST_API", gs "9010"); (gs "BIND_PROVIDER_API", gs "9011"); (gs "BIND_GATEWAY_API", gs "9012"); (gs "BIND_ADMIN_API", gs "9013");
   (gs "REGISTER_API_URL", gs "http://register:9020"); (gs "REGISTER_REFRESH_DURATION", gs "5s"); (gs "TCP_INACTIVITY_TIMEOUT", gs "100ms");
   (gs "TCP_LONG_INACTIVITY_TIMEOUT", gs "5000ms"); (gs "SEARCH_PRICE", gs "1_000_000_000_000_000"); (gs "OFFER_PRICE", gs " 42 "); (gs "TOPUP_AMOUNT", gs "ten")].
Example example_settings : Map no_fraction example_env =
  Ret (Settings (gs "9010") (gs "9011") (gs "9012") (gs "9013") (gs "http://register:9020") (5 * 10 ^ 9)
         (gs "127.0.0.1:9012") (gs "127.0.0.1:9010") (gs "127.0.0.1:9011") (gs "127.0.0.1:9013") (100 * 10 ^ 6) (5 * 10 ^ 9) (10 ^ 15) 42 (10 ^ 17)).
Proof. vm_compute. reflexivity. Qed.
Example example_price : whole_number (GetString example_env (gs "SEARCH_PRICE")) (10 ^ 15).
Proof.
  exists [], [1], [[0;0;0]; [0;0;0]; [0;0;0]; [0;0;0]; [0;0;0]], []. split; [intros ? []|]. split; [intros ? []|]. split; [vm_compute; reflexivity|].
  split; [intros d I; cbn in I; repeat (destruct I as [<-|I]; [lia|]); destruct I|]. split; [intros x I; cbn in I; repeat (destruct I as [<-|I]; [discriminate|]); destruct I|].
  split; [discriminate|vm_compute; reflexivity].
Qed.
Example example_duration : duration (gs "1m30s") (90 * 10 ^ 9) /\ ParseDuration no_fraction (gs "1m30s") = Ret (Some (90 * 10 ^ 9)) /\ ParseDuration no_fraction (gs "5 s") = Ret None.
Proof.
  split; [|split; vm_compute; reflexivity]. exists [([1], gs "m", 60 * 10 ^ 9); ([3; 0], gs "s", 10 ^ 9)]. split; [discriminate|]. split.
  { intros p [<-|[<-|[]]]; (split; [discriminate|]; split; [intros d I; cbn in I; repeat (destruct I as [<-|I]; [lia|]); destruct I|]).
    - do 4 right. left. reflexivity.
    - do 3 right. left. reflexivity. }
  split; [vm_compute; reflexivity|vm_compute; reflexivity].
Qed.

(** Prices that are no whole numbers are not refused: 0.001 (the default as the comment in the code writes it) is free, 1e15 is 1, 0100 is 64, and
    a price may be negative. *)
Theorem price_misread_refuted :
  let price t := number_or (env_list [(gs "SEARCH_PRICE", t)]) (gs "SEARCH_PRICE") (10 ^ 15) in
  price (gs "0.001") = 0 /\ price (gs "1e15") = 1 /\ price (gs "0100") = 64 /\ price (gs "089") = 0 /\ price (gs "5 FIL") = 5 /\ price (gs "-7") = - 7.
Proof. vm_compute. repeat split. Qed.

(** A timeout may be negative or zero; one with a unit forgotten is replaced by the default. *)
Theorem timeout_refuted :
  let timeout t := duration_or no_fraction (env_list [(gs "TCP_INACTIVITY_TIMEOUT", t)]) (gs "TCP_INACTIVITY_TIMEOUT") (100 * 10 ^ 6) in
  timeout (gs "-5s") = Ret (- 5 * 10 ^ 9) /\ timeout (gs "0") = Ret 0 /\ timeout (gs "500") = Ret (100 * 10 ^ 6).
Proof. vm_compute. repeat split. Qed.

(** ** C160: the interval at which the register is read *)

(** It is ten seconds whatever is configured. *)
Theorem refresh_interval_refuted :
  exists v s, Map no_fraction v = Ret s /\ RegisterRefreshDuration s = 5 * 10 ^ 9 /\ snd (StartGateway s empty_db toy_reg) <> RegisterRefreshDuration s.
Proof. exists example_env. eexists. split; [exact example_settings|]. split; [reflexivity|]. discriminate. Qed.

(** A provider without PROVIDER_SIG_ALG in its environment does not start. *)
Theorem provider_start_refuted : ProviderMap no_fraction (env_list []) = Panic /\ ProviderMap no_fraction (env_list [(gs "PROVIDER_SIG_ALG", gs "300")]) = Panic.
Proof. split; vm_compute; reflexivity. Qed.
Example provider_starts_ex : exists s, ProviderMap no_fraction (env_list [(gs "PROVIDER_SIG_ALG", gs "1"); (gs "NETWORK_CLIENT_INFO", gs "provider:9030")]) = Ret (1, s) /\
  NetworkInfoClient s = gs "127.0.0.1:provider:9030".
Proof. eexists. split; vm_compute; reflexivity. Qed.
Print Assumptions price_misread_refuted.
Print Assumptions timeout_refuted.
Print Assumptions refresh_interval_refuted.
Print Assumptions provider_start_refuted.

(** Full claim: a node announces an address at which it listens.  With the settings of provider/.env.example what the provider announces has two hosts. *)
Definition provider_env : sources := env_list
  [(gs "PROVIDER_SIG_ALG", gs "1"); (gs "BIND_REST_API", gs "9030"); (gs "NETWORK_CLIENT_INFO", gs "provider:9030")].
Theorem provider_announces_refuted : exists s, ProviderMap no_fraction provider_env = Ret (1, s) /\ BindRestAPI s = gs "9030" /\ NetworkInfoClient s = gs "127.0.0.1:provider:9030".
Proof. eexists. split; [vm_compute; reflexivity|]. split; vm_compute; reflexivity. Qed.
Print Assumptions provider_announces_refuted.
Example hosts_ex : host_of (Sources (Some (gs "10.0.0.1")) (aget bytes_eqb [(gs "IP", gs "10.0.0.2")])) (gs "10.0.0.1") /\
  host_of (env_list [(gs "IP", gs "10.0.0.2")]) (gs "10.0.0.2") /\ host_of (env_list [(gs "IP", [])]) (gs "127.0.0.1").
Proof. split; [left; reflexivity|]. split; [right; left; split; [reflexivity|split; [discriminate|reflexivity]]|]. right. right. split; [reflexivity|split; reflexivity]. Qed.
