(** * Lemmas about the settings *)
From Coq Require Import String List ZArith Bool Lia.
From Coq Require Import Init.Byte.
From Verif Require Import Base BaseProofs Ids Crypto Message Offer Schema Messages Payment Register SqlOffers OfferProofs Rest Gateway GatewaySpec GatewayProofs GatewayStoreProofs GatewayAdmin GatewayAdminSpec GatewayAdminProofs Config ConfigSpec.
Import ListNotations.
Open Scope Z_scope.
Open Scope go_scope.

Lemma bz_digit d : 0 <= d <= 9 -> bz (digit d) = 48 + d.
Proof. intros H. assert (d = 0 \/ d = 1 \/ d = 2 \/ d = 3 \/ d = 4 \/ d = 5 \/ d = 6 \/ d = 7 \/ d = 8 \/ d = 9) as C by lia. repeat (destruct C as [->|C]; [reflexivity|]). subst. reflexivity. Qed.

Lemma skip_blank b s : blank b -> skip_space (b ++ s) = skip_space s.
Proof.
  induction b as [|c b IH]; intros B; [reflexivity|]. cbn [app skip_space].
  assert (is_space c = true) as -> by (destruct (B c (or_introl eq_refl)) as [->|[->|[->| ->]]]; reflexivity).
  apply IH. intros x I. apply B. right. exact I.
Qed.

Lemma digit_plain d : 0 <= d <= 9 -> (128 <=? bz (digit d)) = false /\ (bz (digit d) =? 95) = false /\ digit_of (digit d) = d /\ is_space (digit d) = false /\ is_dig (digit d) = true.
Proof.
  intros H. unfold digit_of, is_space, is_dig. rewrite (bz_digit _ H).
  assert ((48 <=? 48 + d) && (48 + d <=? 57) = true) as -> by lia. repeat split; lia.
Qed.

Lemma scan_row ds s acc n p iv : digits_ok ds ->
  scan_digits 10 (row ds ++ s) acc n p iv = scan_digits 10 s (fold_left (fun a d => a * 10 + d) ds acc) (n + length ds) (match ds with [] => p | _ => Digit end) iv.
Proof.
  revert acc n p. induction ds as [|d ds IH]; intros acc n p D; cbn [row map app fold_left length]; [rewrite Nat.add_0_r; reflexivity|].
  destruct (digit_plain d (D d (or_introl eq_refl))) as (A & B & C & _). cbn [scan_digits]. rewrite A, B, C.
  assert (10 <=? d = false) as -> by (specialize (D d (or_introl eq_refl)); lia).
  fold (row ds). rewrite IH by (intros x I; apply D; right; exact I). replace (S n + length ds)%nat with (n + S (length ds))%nat by lia. destruct ds; reflexivity.
Qed.

Lemma scan_grouped g gs s acc n p : digits_ok (concat (g :: gs)) -> (forall x, In x (g :: gs) -> x <> []) ->
  exists m, scan_digits 10 (grouped g gs ++ s) acc n p false = scan_digits 10 s (fold_left (fun a d => a * 10 + d) (concat (g :: gs)) acc) (S m) Digit false.
Proof.
  revert g acc n p. induction gs as [|g' gs IH]; intros g acc n p D N; cbn [grouped concat].
  - rewrite app_nil_r. rewrite scan_row by (intros d I; apply D; cbn [concat]; rewrite app_nil_r; exact I).
    assert (g <> []) as G by (apply N; left; reflexivity). destruct g as [|x g]; [contradiction|]. exists (n + length g)%nat. cbn [length]. rewrite Nat.add_succ_r. reflexivity.
  - rewrite <- app_assoc, scan_row by (intros d I; apply D; cbn [concat]; apply in_or_app; left; exact I).
    assert (g <> []) as G by (apply N; left; reflexivity). destruct g as [|x g]; [contradiction|].
    cbn [app]. set (v := fold_left _ (x :: g) acc). cbn [scan_digits]. change (128 <=? bz x5f) with false. change (bz x5f =? 95) with true. cbn match. cbn [orb].
    destruct (IH g' v (n + length (x :: g))%nat Sep) as (m & E).
    + intros d I. apply D. cbn [concat] in *. apply in_or_app. right. exact I.
    + intros y I. apply N. right. exact I.
    + exists m. rewrite E. unfold v. rewrite <- fold_left_app. reflexivity.
Qed.

Lemma blank_ends b acc n : blank b -> scan_digits 10 b acc n Digit false = Some (acc, n, Digit, false).
Proof. intros B. destruct b as [|c b]; [reflexivity|]. cbn [scan_digits]. destruct (B c (or_introl eq_refl)) as [->|[->|[->| ->]]]; reflexivity. Qed.

Lemma grouped_head g gs : g <> [] -> exists r, grouped g gs = digit (hd 0 g) :: r.
Proof. intros G. destruct g as [|d g]; [contradiction|]. destruct gs; eexists; reflexivity. Qed.

Lemma number_read s n : whole_number s n -> Sscan s = Some n.
Proof.
  intros (b1 & g & gs & b2 & B1 & B2 & -> & D & N & F & ->). unfold Sscan. rewrite skip_blank by exact B1.
  assert (G : g <> []) by (apply N; left; reflexivity). destruct (grouped_head g gs G) as (r & R).
  assert (Dh : 0 <= hd 0 g <= 9). { destruct g as [|d g]; [contradiction|]. apply D. left. reflexivity. }
  destruct (digit_plain _ Dh) as (_ & _ & _ & S & _). pose proof (bz_digit _ Dh) as V.
  rewrite R. cbn [app skip_space]. rewrite S. assert (bz (digit (hd 0 g)) =? 45 = false) as -> by lia. assert (bz (digit (hd 0 g)) =? 43 = false) as -> by lia.
  unfold scan_nat. assert (bz (digit (hd 0 g)) =? 48 = false) as -> by lia.
  change (digit (hd 0 g) :: r ++ b2) with ((digit (hd 0 g) :: r) ++ b2). rewrite <- R.
  unfold scan_rest. destruct (scan_grouped g gs b2 0 0 Start D N) as (m & E). rewrite E, blank_ends by exact B2. reflexivity.
Qed.

Lemma number_none b r : blank b -> match r with [] => True | c :: _ => is_dig c = false /\ c <> x2d /\ c <> x2b /\ c <> x20 /\ bz c <> 95 /\ 13 < bz c end -> Sscan (b ++ r) = None.
Proof.
  intros B H. unfold Sscan. rewrite skip_blank by exact B. destruct r as [|c r]; [reflexivity|]. destruct H as (D & M & P & S & U & L).
  assert (V : forall c d, bz c = bz d -> c = d) by (intros; apply bz_inj; assumption).
  assert (N45 : bz c <> 45) by (intros Q; apply M, V; exact Q). assert (N43 : bz c <> 43) by (intros Q; apply P, V; exact Q).
  assert (N32 : bz c <> 32) by (intros Q; apply S, V; exact Q).
  cbn [skip_space]. unfold is_space. assert ((9 <=? bz c) && (bz c <=? 13) || (bz c =? 32) = false) as -> by lia.
  assert (bz c =? 45 = false) as -> by lia. assert (bz c =? 43 = false) as -> by lia. unfold is_dig in D. unfold scan_nat. assert (bz c =? 48 = false) as -> by lia.
  unfold scan_rest. cbn [scan_digits]. destruct (128 <=? bz c) eqn:A; [reflexivity|]. assert (bz c =? 95 = false) as -> by lia.
  assert (10 <=? digit_of c = true) as ->; [|reflexivity]. unfold digit_of. rewrite D.
  destruct ((97 <=? bz c) && (bz c <=? 122)) eqn:X; [lia|]. destruct ((65 <=? bz c) && (bz c <=? 90)) eqn:Y; lia.
Qed.

Lemma digit_of_pos c : 0 <= digit_of c.
Proof. unfold digit_of. destruct ((48 <=? bz c) && (bz c <=? 57)) eqn:X; [lia|]. destruct ((97 <=? bz c) && (bz c <=? 122)) eqn:Y; [lia|]. destruct ((65 <=? bz c) && (bz c <=? 90)) eqn:Z; lia. Qed.
Lemma scan_pos b s : 0 <= b -> forall acc n p iv v m q jv, 0 <= acc -> scan_digits b s acc n p iv = Some (v, m, q, jv) -> 0 <= v.
Proof.
  intros B. induction s as [|c s IH]; intros acc n p iv v m q jv A H; cbn [scan_digits] in H; [injection H as <- _ _ _; exact A|].
  destruct (128 <=? bz c); [discriminate|]. destruct (bz c =? 95); [eapply IH; eassumption|]. destruct (b <=? digit_of c); [injection H as <- _ _ _; exact A|].
  eapply IH; [|exact H]. pose proof (digit_of_pos c). nia.
Qed.
Lemma scan_rest_pos b o p s v : 0 <= b -> scan_rest b o p s = Some v -> 0 <= v.
Proof.
  intros B H. unfold scan_rest in H. destruct (scan_digits b s 0 0 p false) as [[[[x n] q] iv]|] eqn:E; [|discriminate].
  destruct (iv || match q with Sep => true | _ => false end); [discriminate|]. destruct n; [destruct o; [injection H as <-; lia|discriminate]|].
  injection H as <-. eapply scan_pos; [exact B| |exact E]. lia.
Qed.
Lemma scan_nat_pos s v : scan_nat s = Some v -> 0 <= v.
Proof.
  destruct s as [|c r]; [discriminate|]. cbn [scan_nat]. intros H. destruct (bz c =? 48); [|eapply scan_rest_pos; [|exact H]; lia].
  destruct r as [|d r]; [injection H as <-; lia|]. destruct (128 <=? bz d); [discriminate|].
  repeat match type of H with (if ?b then _ else _) = _ => destruct b end; (eapply scan_rest_pos; [|exact H]; lia).
Qed.
Lemma number_pos s v : ~ In x2d s -> Sscan s = Some v -> 0 <= v.
Proof.
  intros N H. unfold Sscan in H.
  assert (I : forall c, In c (skip_space s) -> In c s). { clear. induction s as [|c s IH]; intros x J; [exact J|]. cbn [skip_space] in J. destruct (is_space c); [right; apply IH; exact J|exact J]. }
  destruct (skip_space s) as [|c r]; [discriminate|]. destruct (bz c =? 45) eqn:M.
  - exfalso. apply N, I. left. apply bz_inj. apply Z.eqb_eq in M. exact M.
  - destruct (bz c =? 43); eapply scan_nat_pos; exact H.
Qed.

(** ** Durations *)

Lemma value_pos ds x : digits_ok ds -> 0 <= x -> x <= fold_left (fun a d => a * 10 + d) ds x.
Proof.
  revert x. induction ds as [|d ds IH]; intros x D X; cbn [fold_left]; [lia|]. assert (0 <= d <= 9) by (apply D; left; reflexivity).
  etransitivity; [|apply IH; [intros y I; apply D; right; exact I|]]; lia.
Qed.
Lemma leading_row ds s x : digits_ok ds -> 0 <= x -> fold_left (fun a d => a * 10 + d) ds x <= max63 -> match s with [] => True | c :: _ => is_dig c = false end ->
  leadingInt (row ds ++ s) x = Some (fold_left (fun a d => a * 10 + d) ds x, s).
Proof.
  revert x. induction ds as [|d ds IH]; intros x D X M S; cbn [row map app fold_left] in *.
  - destruct s as [|c s]; [reflexivity|]. cbn [leadingInt]. rewrite S. reflexivity.
  - assert (Dd : 0 <= d <= 9) by (apply D; left; reflexivity). assert (D' : digits_ok ds) by (intros y I; apply D; right; exact I).
    destruct (digit_plain d Dd) as (_ & _ & _ & _ & Q). cbn [leadingInt]. rewrite Q, (bz_digit d Dd). replace (48 + d - 48) with d by lia.
    assert (L : x * 10 + d <= max63) by (etransitivity; [apply value_pos; [exact D'|lia]|exact M]).
    assert (max63 / 10 <? x = false) as -> by (pose proof (Z.div_le_lower_bound max63 10 x); lia). assert (max63 <? x * 10 + d = false) as -> by lia. cbn [orb].
    apply IH; [exact D'|lia|exact M|exact S].
Qed.
Lemma span_letters u s : (forall c, In c u -> is_dig c = false /\ bz c <> 46) -> match s with [] => True | c :: _ => is_dig c = true end -> span_unit (u ++ s) = (u, s).
Proof.
  intros U S. induction u as [|c u IH]; cbn [app].
  - destruct s as [|c s]; [reflexivity|]. cbn [span_unit]. rewrite S, orb_true_r. reflexivity.
  - cbn [span_unit]. destruct (U c (or_introl eq_refl)) as (D & P). assert (bz c =? 46 = false) as -> by lia. rewrite D. cbn [orb].
    rewrite IH by (intros x I; apply U; right; exact I). reflexivity.
Qed.
Lemma unit_known u n : In (u, n) units -> aget bytes_eqb unitMap u = Some n /\ u <> [] /\ 0 < n /\ forall c, In c u -> is_dig c = false /\ bz c <> 46.
Proof.
  intros H. repeat (destruct H as [H|H]; [injection H as <- <-; split; [reflexivity|]; split; [discriminate|]; split; [reflexivity|];
    intros c I; repeat (destruct I as [<-|I]; [split; [reflexivity|discriminate]|]); destruct I|]). destruct H.
Qed.
Lemma total_pos ps : (forall p, In p ps -> part_ok p) -> 0 <= total ps.
Proof.
  induction ps as [|[[ds u] n] ps IH]; intros H; cbn [total fold_right]; [lia|]. fold (total ps). destruct (H _ (or_introl eq_refl)) as (_ & D & U).
  destruct (unit_known _ _ U) as (_ & _ & P & _). pose proof (value_pos ds 0 D ltac:(lia)). cbn [part_time]. unfold value. specialize (IH (fun p I => H p (or_intror I))). nia.
Qed.
Lemma texts_head ps : (forall p, In p ps -> part_ok p) -> match concat (map part_text ps) with [] => True | c :: _ => is_dig c = true end.
Proof.
  intros H. destruct ps as [|[[ds u] n] ps]; [exact I|]. destruct (H _ (or_introl eq_refl)) as (E & D & _). destruct ds as [|d ds]; [contradiction|].
  cbn. destruct (digit_plain d (D d (or_introl eq_refl))) as (_ & _ & _ & _ & Q). exact Q.
Qed.

Lemma parts_read fr ps d fuel : (forall p, In p ps -> part_ok p) -> 0 <= d -> d + total ps <= max63 -> (length ps <= fuel)%nat ->
  parse_parts fr fuel (concat (map part_text ps)) d = Ret (Some (d + total ps)).
Proof.
  revert d fuel. induction ps as [|[[ds u] n] ps IH]; intros d fuel H D M F.
  - cbn. rewrite Z.add_0_r. destruct fuel; reflexivity.
  - assert (Hp := H _ (or_introl eq_refl)). cbn [part_ok] in Hp. destruct Hp as (E & Dd & U). destruct (unit_known _ _ U) as (K & NE & P & L).
    assert (Hps : forall p, In p ps -> part_ok p) by (intros p I; apply H; right; exact I). pose proof (total_pos ps Hps) as T. pose proof (value_pos ds 0 Dd ltac:(lia)) as V. fold (value ds) in V.
    cbn [total fold_right part_time] in M. fold (total ps) in M.
    destruct fuel as [|fuel]; [cbn in F; lia|]. cbn [map concat part_text]. rewrite <- app_assoc. set (rest := concat (map part_text ps)) in *.
    assert (R : leadingInt (row ds ++ u ++ rest) 0 = Some (value ds, u ++ rest)).
    { apply leading_row; [exact Dd|lia|fold (value ds); nia|]. destruct u as [|c u]; [contradiction|]. apply L. left. reflexivity. }
    destruct ds as [|d0 ds]; [contradiction|]. cbn [row map app] in R |- *. cbn [parse_parts].
    destruct (digit_plain d0 (Dd d0 (or_introl eq_refl))) as (_ & _ & _ & _ & Q). rewrite Q, orb_true_r. cbn [negb]. rewrite R.
    assert (Nat.eqb (length (digit d0 :: map digit ds ++ u ++ rest)) (length (u ++ rest)) = false) as -> by (apply Nat.eqb_neq; cbn [length]; rewrite !app_length; lia). cbn [negb andb].
    destruct u as [|c u]; [contradiction|]. assert (NP : bz c =? 46 = false) by (destruct (L c (or_introl eq_refl)); lia). cbn [app]. rewrite NP. cbn match.
    change (c :: u ++ rest) with ((c :: u) ++ rest). rewrite (span_letters (c :: u) rest L) by (apply texts_head; exact Hps). rewrite K.
    assert (max63 / n <? value (d0 :: ds) = false) as -> by (pose proof (Z.div_le_lower_bound max63 n (value (d0 :: ds)) P); nia).
    change (0 <? 0) with false. cbn match. cbn [andb].
    assert ((d + value (d0 :: ds) * n <? 0) || (max63 <? d + value (d0 :: ds) * n) = false) as -> by (apply orb_false_iff; split; nia).
    rewrite IH; [f_equal; f_equal; cbn [total fold_right part_time]; fold (total ps); lia|exact Hps|nia|lia|cbn in F; lia].
Qed.

Lemma part_len p : part_ok p -> (1 <= length (part_text p))%nat.
Proof. destruct p as [[ds u] n]. intros (E & _). destruct ds; [contradiction|]. cbn. lia. Qed.
Lemma texts_len ps : (forall p, In p ps -> part_ok p) -> (length ps <= length (concat (map part_text ps)))%nat.
Proof. induction ps as [|p ps IH]; intros H; [cbn; lia|]. cbn [map concat length]. rewrite app_length. pose proof (part_len p (H _ (or_introl eq_refl))). specialize (IH (fun q I => H q (or_intror I))). lia. Qed.

Lemma duration_read fr s d : duration s d -> d <= max63 -> ParseDuration fr s = Ret (Some d).
Proof.
  intros (ps & N & H & -> & ->) M. unfold ParseDuration. pose proof (texts_head ps H) as T. set (s := concat (map part_text ps)) in *.
  pose proof (texts_len ps H) as L. fold s in L. destruct s as [|c r] eqn:S; [destruct ps; [contradiction|cbn in L; lia]|].
  unfold is_dig in T. assert (bz c =? 45 = false) as -> by lia. assert (bz c =? 43 = false) as -> by lia.
  destruct (bytes_eqb (c :: r) (gs "0")) eqn:Z0.
  { exfalso. apply bytes_eqb_eq in Z0. rewrite Z0 in *. destruct ps as [|p [|? ?]]; [contradiction| |cbn in L; lia].
    destruct p as [[ds u] n]. destruct (H _ (or_introl eq_refl)) as (E & _ & U). destruct (unit_known _ _ U) as (_ & NE & _ & _).
    destruct ds; [contradiction|]. destruct u; [contradiction|]. unfold s in S. cbn in S. injection S as _ S. destruct (map digit ds); discriminate. }
  rewrite <- S. unfold s at 2. rewrite (parts_read fr ps 0) by (exact H || lia || (fold s; rewrite S; exact L)). reflexivity.
Qed.

Lemma leading_len s x v t : leadingInt s x = Some (v, t) -> (length t <= length s)%nat.
Proof.
  revert x. induction s as [|c s IH]; intros x H; cbn [leadingInt] in H; [injection H as _ <-; lia|]. destruct (is_dig c).
  - destruct ((max63 / 10 <? x) || (max63 <? x * 10 + (bz c - 48))); [discriminate|]. apply IH in H. cbn. lia.
  - injection H as _ <-. cbn. lia.
Qed.
Lemma fraction_len s x n o f m t : leadingFraction s x n o = (f, m, t) -> (length t <= length s)%nat.
Proof.
  revert x n o. induction s as [|c s IH]; intros x n o H; cbn [leadingFraction] in H; [injection H as _ _ <-; lia|]. destruct (is_dig c).
  - destruct (o || (max63 / 10 <? x) || (max63 <? x * 10 + (bz c - 48))); apply IH in H; cbn; lia.
  - injection H as _ _ <-. cbn. lia.
Qed.
Lemma span_len s u t : span_unit s = (u, t) -> (length u + length t = length s)%nat.
Proof.
  revert u t. induction s as [|c s IH]; intros u t H; cbn [span_unit] in H; [injection H as <- <-; reflexivity|].
  destruct ((bz c =? 46) || is_dig c); [injection H as <- <-; reflexivity|]. destruct (span_unit s) as [u' t'] eqn:E. injection H as <- <-. specialize (IH _ _ eq_refl). cbn. lia.
Qed.
Lemma parts_total fr fuel s d : (length s <= fuel)%nat -> exists x, parse_parts fr fuel s d = Ret x.
Proof.
  revert s d. induction fuel as [|fuel IH]; intros s d L; destruct s as [|c s]; try (eexists; reflexivity); [cbn in L; lia|].
  cbn [parse_parts]. destruct (negb ((bz c =? 46) || is_dig c)); [eexists; reflexivity|].
  destruct (leadingInt (c :: s) 0) as [[v s1]|] eqn:E; [|eexists; reflexivity]. apply leading_len in E.
  assert (X : forall f scale s2 post, (length s2 <= length s1)%nat -> exists x,
    (if negb (negb (Nat.eqb (length (c :: s)) (length s1))) && negb post then Ret None else
     let (u, s3) := span_unit s2 in
     match u, aget bytes_eqb unitMap u with
     | [], _ => Ret None | _, None => Ret None
     | _, Some unit =>
         if max63 / unit <? v then Ret None else
         let v := v * unit in let v := if 0 <? f then v + fr f scale unit else v in
         if (0 <? f) && ((v <? 0) || (max63 <? v)) then Ret None else if (d + v <? 0) || (max63 <? d + v) then Ret None else parse_parts fr fuel s3 (d + v)
     end) = Ret x).
  { intros f scale s2 post L2. destruct (negb (negb (Nat.eqb (length (c :: s)) (length s1))) && negb post); [eexists; reflexivity|].
    destruct (span_unit s2) as [u s3] eqn:U. apply span_len in U. destruct u as [|a u]; [eexists; reflexivity|].
    destruct (aget bytes_eqb unitMap (a :: u)); [|eexists; reflexivity]. destruct (max63 / z <? v); [eexists; reflexivity|]. cbn zeta.
    set (v' := if 0 <? f then _ else _). destruct ((0 <? f) && ((v' <? 0) || (max63 <? v'))); [eexists; reflexivity|]. destruct ((d + v' <? 0) || (max63 <? d + v')); [eexists; reflexivity|].
    apply IH. cbn [length] in *. lia. }
  destruct s1 as [|p s1]; [apply (X 0 O [] false); lia|]. destruct (bz p =? 46); [|apply (X 0 O (p :: s1) false); lia].
  destruct (leadingFraction s1 0 0 false) as [[f scale] s2] eqn:Fr. apply fraction_len in Fr. apply (X f scale s2). cbn [length]. lia.
Qed.
Lemma duration_total fr s : exists x, ParseDuration fr s = Ret x.
Proof.
  unfold ParseDuration.
  assert (X : forall (neg : bool) t, exists x, (if bytes_eqb t (gs "0") then Ret (Some 0) else match t with [] => Ret None | _ => let* x := parse_parts fr (length t) t 0 in Ret (option_map (fun d => if neg then - d else d) x) end) = Ret x).
  { intros neg t. destruct (bytes_eqb t (gs "0")); [eexists; reflexivity|]. destruct t as [|c t]; [eexists; reflexivity|].
    destruct (parts_total fr (length (c :: t)) (c :: t) 0 (le_n _)) as (x & E). rewrite E. eexists. reflexivity. }
  destruct s as [|c s]; [apply (X false [])|]. destruct (bz c =? 45); [apply (X true s)|]. destruct (bz c =? 43); [apply (X false s)|apply (X false (c :: s))].
Qed.

(** ** Prices over a life *)

Section life.
  Variable version : Z.
  Variable supported : list Z.
  Variable sha256 sha512_256 : bytes -> bytes.
  Variable pub_of : bytes -> bytes.
  Variable ec_sign : bytes -> bytes -> option bytes.
  Variable ec_verify : bytes -> bytes -> bytes -> bool.
  Variable blake : bytes -> bytes.
  Variable verify : gostring -> voucher -> option bytes -> bool.
  Variable voucher_text : voucher -> gostring.
  Variable voucher_of : gostring -> option voucher.
  Variable is_address : gostring -> bool.
  Variable zone : Z.

  Definition prices (g : gateway) := (g_search g, g_topup g).
  Lemma gact_prices e g ev x : gact version supported sha256 sha512_256 pub_of ec_sign ec_verify blake verify voucher_text voucher_of is_address zone e g ev = Ret x -> prices (fst x) = prices g.
  Proof.
    intros H. assert (S : forall g', GatewaySpec.settings g' = GatewaySpec.settings g -> prices g' = prices g) by (unfold GatewaySpec.settings, prices; intros g' S; congruence).
    destruct ev; unfold gact in H; cbv zeta in H; step H; apply ret_inj in H; subst x; cbn [fst].
    - destruct v as [[g1 a] s]. pose (h := [(g_reg g, e, k, m)]).
      assert (L : live_through version supported sha256 sha512_256 pub_of ec_sign ec_verify blake verify voucher_text voucher_of is_address zone g h = Ret g1).
      { unfold h. cbn [live_through]. replace (with_reg g (g_reg g)) with g by (destruct g; reflexivity). rewrite E. reflexivity. }
      apply life_settings in L. destruct L as (L & _). cbn [fst]. unfold prices. congruence.
    - apply (fun a b c => list_inv version supported sha256 sha512_256 pub_of ec_sign ec_verify blake a b c) in E; [|assumption..]. apply S. apply E.
    - apply admin_list_kept in E. apply S. apply E.
    - apply admin_support_kept in E. apply S. apply E.
    - unfold HandleAdminInitialiseKey, quit in E. step E. destruct v0 as [[[id pk] kv]|]; [|apply ret_inj in E; subst v; reflexivity].
      step E. step E. apply finish_rest_inv in E. destruct E as (-> & _). reflexivity.
    - unfold HandleAdminInitialiseKeyV2, quit in E. step E. destruct v0 as [[[[[[id pk] kv] w] la] lt]|]; [|apply ret_inj in E; subst v; reflexivity].
      step E. destruct (wallet w); [|apply ret_inj in E; subst v; reflexivity].
      step E. apply finish_rest_inv in E. destruct E as (-> & _). reflexivity.
    - apply admin_refresh_kept in E. apply S. apply E.
  Qed.
  Lemma life_prices h : forall g g', live_all version supported sha256 sha512_256 pub_of ec_sign ec_verify blake verify voucher_text voucher_of is_address zone g h = Ret g' -> prices g' = prices g.
  Proof.
    induction h as [|[[reg e] ev] h IH]; intros g g' H; cbn [live_all] in H; [apply ret_inj in H; subst; reflexivity|].
    step H. apply gact_prices in E. apply IH in H. rewrite H, E. reflexivity.
  Qed.
End life.
