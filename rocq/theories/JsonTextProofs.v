(** * The parser reads exactly the texts of the grammar (for C211) *)
From Coq Require Import List ZArith Bool Lia.
From Coq Require Import Init.Byte.
From Coq Require Import ZifyBool ZifyNat.
From Verif Require Import Base BaseProofs Ids Crypto Message Offer Schema Messages MessagesSpec BodySpec Json JsonProofs JsClient WireFormatSpec JsonTextSpec.
Import ListNotations.
Open Scope Z_scope.

Lemma eqb_neq c d : (c =? d)%byte = false -> c <> d.
Proof. intros H ->. assert ((d =? d)%byte = true) by (apply byte_eqb_eq; reflexivity). congruence. Qed.

(** ** Blanks *)
Lemma is_ws_in c : is_ws c = true <-> In c [x20; x09; x0a; x0d].
Proof.
  unfold is_ws. rewrite !orb_true_iff, !byte_eqb_eq. cbn. intuition congruence.
Qed.
Lemma skip_blank b s : blank b -> skip_ws (b ++ s) = skip_ws s.
Proof. induction 1 as [|c t H _ IH]; [reflexivity|]. cbn [app skip_ws]. apply is_ws_in in H. rewrite H. exact IH. Qed.
Lemma skip_ws_split s : exists b, blank b /\ s = b ++ skip_ws s /\ match skip_ws s with c :: _ => is_ws c = false | [] => True end.
Proof.
  induction s as [|c t (b & B & E & N)]; [exists []; repeat split; constructor|]. cbn [skip_ws]. destruct (is_ws c) eqn:W.
  - exists (c :: b). split; [constructor; [apply is_ws_in; exact W|exact B]|]. split; [cbn [app]; f_equal; exact E|exact N].
  - exists []. split; [constructor|]. split; [reflexivity|exact W].
Qed.
Lemma blank_app a b : blank a -> blank b -> blank (a ++ b).
Proof. intros A B. apply Forall_app. auto. Qed.

(** ** Numbers *)
Lemma is_digit_iff c : is_digit c = true <-> 48 <= bz c <= 57.
Proof. unfold is_digit. lia. Qed.
Lemma digits_forall ds : Forall (fun c => 48 <= bz c <= 57) ds <-> Forall (fun c => is_digit c = true) ds.
Proof. split; intros H; (eapply Forall_impl; [|exact H]); intros c C; apply is_digit_iff; exact C. Qed.
Definition no_digit (s : gostring) : Prop := match s with c :: _ => is_digit c = false | [] => True end.
Lemma span_app ds s : Forall (fun c => 48 <= bz c <= 57) ds -> no_digit s -> span_digits (ds ++ s) = (ds, s).
Proof.
  induction 1 as [|c t H _ IH]; intros N; cbn [app].
  - destruct s as [|c t]; [reflexivity|]. cbn in *. rewrite N. reflexivity.
  - cbn [span_digits]. apply is_digit_iff in H. rewrite H, IH by exact N. reflexivity.
Qed.
Lemma span_split s : forall ds r, span_digits s = (ds, r) -> s = ds ++ r /\ Forall (fun c => 48 <= bz c <= 57) ds /\ no_digit r.
Proof.
  induction s as [|c t IH]; intros ds r H; cbn [span_digits] in H; [injection H as <- <-; repeat split; constructor|].
  destruct (is_digit c) eqn:D; [|injection H as <- <-; repeat split; [constructor|exact D]].
  destruct (span_digits t) as [a b] eqn:E. injection H as <- <-. destruct (IH a b eq_refl) as (E' & F & N). cbn [fst snd app]. split; [congruence|]. split; [|exact N].
  constructor; [apply is_digit_iff; exact D|exact F].
Qed.
Lemma place_value_eq ds : forall acc, fold_left (fun acc d => acc * 10 + (bz d - 48)) ds acc = acc * 10 ^ Z.of_nat (length ds) + place_value ds.
Proof.
  induction ds as [|d t IH]; intros acc; cbn [fold_left place_value length]; [cbn; lia|]. rewrite IH, Nat2Z.inj_succ, Z.pow_succ_r by lia. ring.
Qed.
Lemma dec_val_place ds : dec_val ds = place_value ds.
Proof. unfold dec_val. rewrite place_value_eq. lia. Qed.

(** The parts of [parse_num]. *)
Definition num_sign (s : gostring) : bool * gostring := match s with c :: t => if (c =? x2d)%byte then (true, t) else (false, s) | [] => (false, s) end.
Definition num_int (s1 : gostring) : gostring * gostring := match s1 with c :: t => if (c =? x30)%byte then ([c], t) else span_digits s1 | [] => ([], s1) end.
Definition num_frac (s2 : gostring) : option (gostring * gostring) :=
  match s2 with
  | c :: t => if (c =? x2e)%byte then match span_digits t with ([], _) => None | (f, r) => Some (c :: f, r) end else Some ([], s2)
  | [] => Some ([], s2) end.
Definition num_exp (s3 : gostring) : option (gostring * gostring) :=
  match s3 with
  | c :: t =>
      if ((c =? x65) || (c =? x45))%byte then
        let '(sg, t1) := match t with d :: t' => if ((d =? x2b) || (d =? x2d))%byte then ([d], t') else ([], t) | [] => ([], t) end in
        match span_digits t1 with ([], _) => None | (e, r) => Some (c :: sg ++ e, r) end
      else Some ([], s3)
  | [] => Some ([], s3) end.
Lemma parse_num_parts s : parse_num s =
  let '(neg, s1) := num_sign s in
  let '(ip, s2) := num_int s1 in
  match ip with [] => None | _ =>
    match num_frac s2 with None => None | Some (f, s3) =>
      match num_exp s3 with None => None | Some (e, s4) =>
        match f, e with
        | [], [] => Some (JNum (if neg : bool then - dec_val ip else dec_val ip), s4)
        | _, _ => Some (JFloat ((if neg then [x2d] else []) ++ ip ++ f ++ e), s4)
        end end end end.
Proof. reflexivity. Qed.

Lemma num_sign_split s neg t : num_sign s = (neg, t) -> exists sg, s = sg ++ t /\ sign sg (if neg then -1 else 1) /\ sg = if neg then [x2d] else [].
Proof.
  unfold num_sign. destruct s as [|c u]; [intros [= <- <-]; exists []; repeat split; left; auto|].
  destruct (c =? x2d)%byte eqn:E; intros [= <- <-].
  - apply byte_eqb_eq in E. subst c. exists [x2d]. repeat split. right. auto.
  - exists []. repeat split. left. auto.
Qed.
Lemma num_int_split s ip r : num_int s = (ip, r) -> ip <> [] -> s = ip ++ r /\ natural ip.
Proof.
  unfold num_int, natural, digits. destruct s as [|c u]; [intros [= <- <-] N; congruence|]. destruct (c =? x30)%byte eqn:E.
  - apply byte_eqb_eq in E. subst c. intros [= <- <-] _. repeat split; try discriminate. constructor; [vm_compute; split; discriminate|constructor].
  - intros H N. destruct (span_split _ _ _ H) as (S & F & _). split; [exact S|]. split; [auto|]. intros Q. destruct ip as [|d ip]; [congruence|].
    cbn in S, Q. injection S as -> _. subst d. discriminate E.
Qed.
Lemma num_frac_split s f r : num_frac s = Some (f, r) -> s = f ++ r /\ (f = [] \/ fraction f).
Proof.
  unfold num_frac. destruct s as [|c u]; [intros [= <- <-]; auto|]. destruct (c =? x2e)%byte eqn:E; [|intros [= <- <-]; auto].
  apply byte_eqb_eq in E. subst c. destruct (span_digits u) as [[|d ds] b] eqn:D; [discriminate|]. intros [= <- <-]. destruct (span_split _ _ _ D) as (-> & F & _).
  split; [reflexivity|]. right. exists (d :: ds). split; [reflexivity|]. split; [discriminate|exact F].
Qed.
Lemma num_exp_split s e r : num_exp s = Some (e, r) -> s = e ++ r /\ (e = [] \/ exponent e).
Proof.
  unfold num_exp. destruct s as [|c u]; [intros [= <- <-]; auto|]. destruct ((c =? x65) || (c =? x45))%byte eqn:E; [|intros [= <- <-]; auto].
  assert (In c [x65; x45]) as C by (apply orb_prop in E; destruct E as [E|E]; apply byte_eqb_eq in E; subst c; cbn; auto).
  assert (exists sg t1, match u with d :: t' => if ((d =? x2b) || (d =? x2d))%byte then ([d], t') else ([], u) | [] => ([], u) end = (sg, t1) /\ u = sg ++ t1 /\ In sg [[]; [x2b]; [x2d]])
    as (sg & t1 & -> & -> & S).
  { destruct u as [|d t']; [exists [], []; cbn; auto|]. destruct ((d =? x2b) || (d =? x2d))%byte eqn:D.
    - exists [d], t'. repeat split. apply orb_prop in D. destruct D as [D|D]; apply byte_eqb_eq in D; subst d; cbn; auto.
    - exists [], (d :: t'). cbn; auto. }
  destruct (span_digits t1) as [[|d ds] b] eqn:D; [discriminate|]. intros [= <- <-]. destruct (span_split _ _ _ D) as (-> & F & _).
  split; [cbn [app]; rewrite <- app_assoc; reflexivity|]. right. exists c, sg, (d :: ds). repeat split; auto. discriminate.
Qed.

Lemma parse_num_sound s j r : parse_num s = Some (j, r) -> exists t, s = t ++ r /\ number t j.
Proof.
  rewrite parse_num_parts. destruct (num_sign s) as [neg s1] eqn:E1. destruct (num_sign_split _ _ _ E1) as (sg & -> & Sg & Esg).
  destruct (num_int s1) as [ip s2] eqn:E2. destruct ip as [|i0 ip0]; [discriminate|]. destruct (num_int_split _ _ _ E2 ltac:(discriminate)) as (-> & Nat).
  set (ip := i0 :: ip0) in *. destruct (num_frac s2) as [[f s3]|] eqn:E3; [|discriminate]. destruct (num_frac_split _ _ _ E3) as (-> & F).
  destruct (num_exp s3) as [[e s4]|] eqn:E4; [|discriminate]. destruct (num_exp_split _ _ _ E4) as (-> & Ex).
  assert (f = [] /\ e = [] /\ Some (JNum (if neg then - dec_val ip else dec_val ip), s4) = Some (j, r) \/ f ++ e <> [] /\ Some (JFloat ((if neg then [x2d] else []) ++ ip ++ f ++ e), s4) = Some (j, r) -> exists t, sg ++ ip ++ f ++ e ++ s4 = t ++ r /\ number t j) as K.
  { intros [(-> & -> & [= <- <-])|(N & [= <- <-])].
    - exists (sg ++ ip). split; [cbn [app]; rewrite <- app_assoc; reflexivity|].
      replace (if neg then - dec_val ip else dec_val ip) with ((if neg then -1 else 1) * place_value ip) by (rewrite dec_val_place; destruct neg; lia).
      apply number_int; assumption.
    - exists (sg ++ ip ++ f ++ e). split; [rewrite <- !app_assoc; reflexivity|]. rewrite <- Esg. eapply number_float; eassumption. }
  intros H. apply K. destruct f as [|f0 f]; [destruct e as [|e0 e]; [left; auto|right]|right]; (split; [discriminate|exact H]).
Qed.

Lemma sign_complete sg k t : sign sg k -> match t with c :: _ => c <> x2d | [] => False end -> num_sign (sg ++ t) = ((k =? -1), t) /\ sg = if k =? -1 then [x2d] else [].
Proof.
  intros [(-> & ->)|(-> & ->)] H; [|split; reflexivity]. destruct t as [|c t]; [destruct H|]. cbn [app num_sign]. rewrite byte_eqb_false by exact H. split; reflexivity.
Qed.
Lemma natural_first ds t : natural ds -> match ds ++ t with c :: _ => c <> x2d | [] => False end.
Proof.
  intros ((N & F) & _). destruct ds as [|d ds]; [congruence|]. inversion F as [|? ? D _]; subst. cbn. intros ->. vm_compute in D. destruct D as (D & _). apply D. reflexivity.
Qed.
Lemma int_complete ds t : natural ds -> no_digit t -> num_int (ds ++ t) = (ds, t).
Proof.
  intros ((N & F) & Z0) T. destruct ds as [|d ds]; [congruence|]. unfold num_int. cbn [app]. destruct (d =? x30)%byte eqn:E.
  - apply byte_eqb_eq in E. subst d. specialize (Z0 eq_refl). injection Z0 as ->. reflexivity.
  - apply (span_app (d :: ds) t F T).
Qed.
Lemma frac_complete f t : f = [] /\ match t with c :: _ => c <> x2e | [] => True end \/ fraction f /\ no_digit t -> num_frac (f ++ t) = Some (f, t).
Proof.
  intros [(-> & H)|((ds & -> & (N & F)) & H)].
  - destruct t as [|c t]; [reflexivity|]. unfold num_frac. cbn [app]. rewrite byte_eqb_false by exact H. reflexivity.
  - unfold num_frac. cbn [app]. change (x2e =? x2e)%byte with true. cbn iota. rewrite span_app by assumption. destruct ds; [congruence|reflexivity].
Qed.
Lemma exp_complete e t : e = [] /\ match t with c :: _ => c <> x65 /\ c <> x45 | [] => True end \/ exponent e /\ no_digit t -> num_exp (e ++ t) = Some (e, t).
Proof.
  intros [(-> & H)|((c & sg & ds & -> & C & S & (N & F)) & H)].
  - destruct t as [|c t]; [reflexivity|]. destruct H. unfold num_exp. cbn [app]. rewrite !byte_eqb_false by assumption. reflexivity.
  - unfold num_exp. cbn [app]. assert (((c =? x65) || (c =? x45))%byte = true) as -> by (destruct C as [<-|[<-|[]]]; reflexivity).
    assert (match (sg ++ ds) ++ t with d :: t' => if ((d =? x2b) || (d =? x2d))%byte then ([d], t') else ([], (sg ++ ds) ++ t) | [] => ([], (sg ++ ds) ++ t) end = (sg, ds ++ t)) as ->.
    { rewrite <- app_assoc. destruct S as [<-|[<-|[<-|[]]]]; [|reflexivity|reflexivity]. cbn [app]. destruct ds as [|d ds]; [congruence|]. cbn [app].
      inversion F as [|? ? D _]; subst. rewrite !byte_eqb_false; [reflexivity| |]; intros ->; vm_compute in D; destruct D as (D & _); apply D; reflexivity. }
    rewrite span_app by assumption. destruct ds as [|d ds]; [congruence|reflexivity].
Qed.
Lemma ends_parts s : ends_num s -> no_digit s /\ match s with c :: _ => c <> x2e | [] => True end /\ match s with c :: _ => c <> x65 /\ c <> x45 | [] => True end.
Proof. destruct s as [|c s]; [repeat split|]. intros (A & B & C & D). repeat split; assumption. Qed.
Lemma exponent_first e t : exponent e -> no_digit (e ++ t) /\ match e ++ t with c :: _ => c <> x2e | [] => True end.
Proof. intros (c & sg & ds & -> & C & _). cbn. destruct C as [<-|[<-|[]]]; split; (reflexivity || discriminate). Qed.
Lemma fraction_first f t : fraction f -> no_digit (f ++ t).
Proof. intros (ds & -> & _). reflexivity. Qed.

Lemma parse_num_complete t j r : number t j -> ends_num r -> parse_num (t ++ r) = Some (j, r).
Proof.
  intros H R. destruct (ends_parts r R) as (R1 & R2 & R3). rewrite parse_num_parts. destruct H as [sg k ds S N|sg k ds f e S N F E Ne].
  - rewrite <- app_assoc. destruct (sign_complete sg k (ds ++ r) S (natural_first ds r N)) as (-> & _). rewrite int_complete by assumption.
    destruct ds as [|d ds]; [destruct N as ((N & _) & _); congruence|].
    pose proof (frac_complete [] r (or_introl (conj eq_refl R2))) as Xf. pose proof (exp_complete [] r (or_introl (conj eq_refl R3))) as Xe. cbn [app] in Xf, Xe. rewrite Xf, Xe. do 3 f_equal.
    rewrite dec_val_place. destruct S as [(_ & ->)|(_ & ->)]; [change (1 =? -1) with false|change (-1 =? -1) with true]; cbv iota; ring.
  - rewrite <- !app_assoc.
    assert (num_exp (e ++ r) = Some (e, r)) as Xe by (apply exp_complete; destruct E as [->|E]; auto).
    assert (num_frac (f ++ e ++ r) = Some (f, e ++ r)) as Xf.
    { apply frac_complete. destruct F as [->|F]; [left|right]; (split; [auto|]); destruct E as [->|E]; cbn [app]; auto; apply exponent_first; exact E. }
    assert (no_digit (f ++ e ++ r)) as Xn.
    { destruct F as [->|F]; [|apply fraction_first; exact F]. cbn [app]. destruct E as [->|E]; [exact R1|apply exponent_first; exact E]. }
    destruct (sign_complete sg k (ds ++ f ++ e ++ r) S (natural_first ds _ N)) as (-> & Esg). rewrite int_complete by assumption.
    destruct ds as [|d ds]; [destruct N as ((N & _) & _); congruence|]. rewrite Xf, Xe, <- Esg. destruct f as [|f0 f]; [destruct e as [|e0 e]; [cbn in Ne; congruence|]|]; reflexivity.
Qed.

(** ** Strings *)
Lemma hex_digit_iff c d : hex_digit c = Some d <-> hex_char c d.
Proof.
  unfold hex_digit. cbv zeta. split.
  - destruct ((48 <=? bz c) && (bz c <=? 57)) eqn:A; [intros [= <-]; apply hex_dig; lia|].
    destruct ((97 <=? bz c) && (bz c <=? 102)) eqn:B; [intros [= <-]; replace (bz c - 87) with (bz c - 97 + 10) by lia; apply hex_low; lia|].
    destruct ((65 <=? bz c) && (bz c <=? 70)) eqn:C; [intros [= <-]; replace (bz c - 55) with (bz c - 65 + 10) by lia; apply hex_upp; lia|discriminate].
  - intros [x H|x H|x H].
    + replace ((48 <=? bz x) && (bz x <=? 57)) with true by lia. reflexivity.
    + replace ((48 <=? bz x) && (bz x <=? 57)) with false by lia. replace ((97 <=? bz x) && (bz x <=? 102)) with true by lia. f_equal. lia.
    + replace ((48 <=? bz x) && (bz x <=? 57)) with false by lia. replace ((97 <=? bz x) && (bz x <=? 102)) with false by lia.
      replace ((65 <=? bz x) && (bz x <=? 70)) with true by lia. f_equal. lia.
Qed.
Lemma hex_char_range c d : hex_char c d -> 0 <= d <= 15.
Proof. intros [x H|x H|x H]; lia. Qed.
Lemma hex4_unit a b c d n : hex4 a b c d = Some n <-> unit16 [a; b; c; d] n.
Proof.
  unfold hex4. split.
  - destruct (hex_digit a) as [w|] eqn:A; [|discriminate]. destruct (hex_digit b) as [x|] eqn:B; [|discriminate]. destruct (hex_digit c) as [y|] eqn:C; [|discriminate].
    destruct (hex_digit d) as [z|] eqn:D; [|discriminate]. intros [= <-]. apply hex_digit_iff in A, B, C, D.
    replace (w * 4096 + x * 256 + y * 16 + z) with (16 * (16 * (16 * w + x) + y) + z) by lia. constructor; assumption.
  - intros H. inversion H as [? ? ? ? w x y z A B C D]; subst. apply hex_digit_iff in A, B, C, D. rewrite A, B, C, D. f_equal. lia.
Qed.
Lemma unit16_range h n : unit16 h n -> 0 <= n <= 65535.
Proof. intros [a b c d w x y z A B C D]. apply hex_char_range in A, B, C, D. lia. Qed.
Lemma hi_iff n : surrogate_hi n = true <-> high n.
Proof. unfold surrogate_hi, high. lia. Qed.
Lemma lo_iff n : surrogate_lo n = true <-> low n.
Proof. unfold surrogate_lo, low. lia. Qed.
Lemma utf8_char m b : character m b -> b = utf8 m.
Proof.
  unfold utf8. intros [n' H|x y X Y H|x y z X Y Z H|w x y z W X Y Z H].
  - replace (n' <? 128) with true by lia. reflexivity.
  - replace (64 * x + y <? 128) with false by lia. replace (64 * x + y <? 2048) with true by lia.
    replace ((64 * x + y) / 64) with x by (apply Z.div_unique with y; lia). replace ((64 * x + y) mod 64) with y by (apply Z.mod_unique with x; lia). reflexivity.
  - set (n := 64 * (64 * x + y) + z) in *. replace (n <? 128) with false by lia. replace (n <? 2048) with false by lia. replace (n <? 65536) with true by lia.
    replace (n / 4096) with x by (apply Z.div_unique with (64 * y + z); lia). replace (n / 64) with (64 * x + y) by (apply Z.div_unique with z; lia).
    replace ((64 * x + y) mod 64) with y by (apply Z.mod_unique with x; lia). replace (n mod 64) with z by (apply Z.mod_unique with (64 * x + y); lia). reflexivity.
  - set (n := 64 * (64 * (64 * w + x) + y) + z) in *. replace (n <? 128) with false by lia. replace (n <? 2048) with false by lia. replace (n <? 65536) with false by lia.
    replace (n / 262144) with w by (apply Z.div_unique with (64 * (64 * x + y) + z); lia). replace (n / 4096) with (64 * w + x) by (apply Z.div_unique with (64 * y + z); lia).
    replace (n / 64) with (64 * (64 * w + x) + y) by (apply Z.div_unique with z; lia).
    replace ((64 * w + x) mod 64) with x by (apply Z.mod_unique with w; lia). replace ((64 * (64 * w + x) + y) mod 64) with y by (apply Z.mod_unique with (64 * w + x); lia).
    replace (n mod 64) with z by (apply Z.mod_unique with (64 * (64 * w + x) + y); lia). reflexivity.
Qed.
Lemma utf8_is n : 0 <= n < 2097152 -> character n (utf8 n).
Proof.
  intros R. assert (exists w x y z, n = 64 * (64 * (64 * w + x) + y) + z /\ 0 <= w < 8 /\ 0 <= x < 64 /\ 0 <= y < 64 /\ 0 <= z < 64) as (w & x & y & z & E & W & X & Y & Z).
  { exists (n / 64 / 64 / 64), (n / 64 / 64 mod 64), (n / 64 mod 64), (n mod 64).
    pose proof (Z.div_mod n 64 ltac:(lia)) as A. pose proof (Z.div_mod (n / 64) 64 ltac:(lia)) as B. pose proof (Z.div_mod (n / 64 / 64) 64 ltac:(lia)) as C.
    pose proof (Z.mod_pos_bound n 64 ltac:(lia)). pose proof (Z.mod_pos_bound (n / 64) 64 ltac:(lia)). pose proof (Z.mod_pos_bound (n / 64 / 64) 64 ltac:(lia)). lia. }
  destruct (Z.ltb_spec n 128) as [A|A]; [replace (utf8 n) with [zb n] by (unfold utf8; replace (n <? 128) with true by lia; reflexivity); apply char1; lia|].
  destruct (Z.ltb_spec n 2048) as [B|B].
  { assert (w = 0 /\ x = 0) as (-> & ->) by lia. replace n with (64 * y + z) in * by lia. assert (character (64 * y + z) [zb (192 + y); zb (128 + z)]) as K by (apply char2; lia).
    rewrite <- (utf8_char _ _ K). exact K. }
  destruct (Z.ltb_spec n 65536) as [C|C].
  { assert (w = 0) as -> by lia. replace n with (64 * (64 * x + y) + z) in * by lia.
    assert (character (64 * (64 * x + y) + z) [zb (224 + x); zb (128 + y); zb (128 + z)]) as K by (apply char3; lia). rewrite <- (utf8_char _ _ K). exact K. }
  subst n. assert (character (64 * (64 * (64 * w + x) + y) + z) [zb (240 + w); zb (128 + x); zb (128 + y); zb (128 + z)]) as K by (apply char4; lia).
  rewrite <- (utf8_char _ _ K). exact K.
Qed.
Lemma fffd : utf8 65533 = [xef; xbf; xbd].
Proof. vm_compute. reflexivity. Qed.

Definition look (t : gostring) : option (Z * gostring) :=
  match t with
  | b0 :: bu :: b1 :: b2 :: b3 :: b4 :: t' =>
      match (if (b0 =? x5c)%byte && (bu =? x75)%byte then hex4 b1 b2 b3 b4 else None) with
      | Some w => if surrogate_lo w then Some (w, t') else None
      | None => None end
  | _ => None
  end.
Lemma parse_unit a b c d t : parse_str (x5c :: x75 :: a :: b :: c :: d :: t) =
  match hex4 a b c d with
  | None => None
  | Some v =>
      if surrogate_hi v then
        match look t with
        | Some (w, t') => prepend (utf8 (65536 + (v - 55296) * 1024 + (w - 56320))) (parse_str t')
        | None => prepend (utf8 65533) (parse_str t)
        end
      else if surrogate_lo v then prepend (utf8 65533) (parse_str t) else prepend (utf8 v) (parse_str t)
  end.
Proof.
  transitivity (match hex4 a b c d with
  | None => None
  | Some v =>
      if surrogate_hi v then
        match t with
        | b0 :: bu :: b1 :: b2 :: b3 :: b4 :: t' =>
            match (if (b0 =? x5c)%byte && (bu =? x75)%byte then hex4 b1 b2 b3 b4 else None) with
            | Some w => if surrogate_lo w then prepend (utf8 (65536 + (v - 55296) * 1024 + (w - 56320))) (parse_str t') else prepend (utf8 65533) (parse_str t)
            | None => prepend (utf8 65533) (parse_str t)
            end
        | _ => prepend (utf8 65533) (parse_str t)
        end
      else if surrogate_lo v then prepend (utf8 65533) (parse_str t) else prepend (utf8 v) (parse_str t)
  end); [reflexivity|]. destruct (hex4 a b c d) as [v|]; [|reflexivity]. destruct (surrogate_hi v); [|reflexivity].
  destruct t as [|b0 [|bu [|b1 [|b2 [|b3 [|b4 t']]]]]]; try reflexivity. unfold look.
  destruct (if (b0 =? x5c)%byte && (bu =? x75)%byte then hex4 b1 b2 b3 b4 else None) as [w|]; [|reflexivity]. destruct (surrogate_lo w); reflexivity.
Qed.
Lemma look_iff t w u : look t = Some (w, u) <-> exists l, t = x5c :: x75 :: l ++ u /\ unit16 l w /\ low w.
Proof.
  split.
  - unfold look. destruct t as [|b0 [|bu [|b1 [|b2 [|b3 [|b4 t']]]]]]; try discriminate. destruct (b0 =? x5c)%byte eqn:A; [|discriminate]. destruct (bu =? x75)%byte eqn:B; [|discriminate].
    cbn [andb]. destruct (hex4 b1 b2 b3 b4) as [n|] eqn:H; [|discriminate]. destruct (surrogate_lo n) eqn:L; [|discriminate]. intros [= <- <-].
    apply byte_eqb_eq in A, B. subst. exists [b1; b2; b3; b4]. split; [reflexivity|]. split; [apply hex4_unit; exact H|apply lo_iff; exact L].
  - intros (l & -> & U & L). inversion U as [a b c d w' x y z A B C D]; subst. apply hex4_unit in U. cbn [app look]. change (x5c =? x5c)%byte with true. change (x75 =? x75)%byte with true.
    cbn [andb]. rewrite U. apply lo_iff in L. rewrite L. reflexivity.
Qed.
Lemma not_hex z : ~ hex_char x22 z.
Proof. intros H. apply hex_digit_iff in H. vm_compute in H. discriminate H. Qed.
Lemma look_within t r w u : look (t ++ x22 :: r) = Some (w, u) -> exists l v, t = x5c :: x75 :: l ++ v /\ unit16 l w /\ low w.
Proof.
  intros H. apply look_iff in H. destruct H as (l & E & U & L). pose proof U as U'. inversion U as [a b c d w' x y z A B C D]; subst. cbn [app] in E.
  destruct t as [|t0 [|t1 [|t2 [|t3 [|t4 [|t5 t]]]]]]; cbn [app] in E; injection E; intros; subst; try discriminate; try (exfalso; eapply not_hex; eassumption).
  exists [a; b; c; d], t. split; [reflexivity|]. auto.
Qed.

Lemma parse_esc e c t : In (e, c) escapes -> parse_str (x5c :: e :: t) = prepend [c] (parse_str t).
Proof. intros H. repeat (destruct H as [[= <- <-]|H]; [reflexivity|]). destruct H. Qed.
Lemma parse_raw c t : 32 <= bz c -> c <> x22 -> c <> x5c -> parse_str (c :: t) = prepend [c] (parse_str t).
Proof. intros B N M. cbn [parse_str]. rewrite !byte_eqb_false by assumption. replace (bz c <? 32) with false by lia. reflexivity. Qed.

Lemma chars_complete t v r : chars t v -> parse_str (t ++ x22 :: r) = Some (v, r).
Proof.
  induction 1 as [|c t v B N M _ IH|e c t v I _ IH|h n b t v U Nh Nl C _ IH|h n l m b t v U Hi U2 Lo C _ IH|h n t v U W _ IH].
  - reflexivity.
  - cbn [app]. rewrite parse_raw by assumption. rewrite IH. reflexivity.
  - cbn [app]. rewrite (parse_esc e c) by exact I. rewrite IH. reflexivity.
  - inversion U; subst. apply hex4_unit in U. cbn [app]. rewrite parse_unit, U.
    destruct (surrogate_hi _) eqn:X; [apply hi_iff in X; contradiction|]. clear X. destruct (surrogate_lo _) eqn:X; [apply lo_iff in X; contradiction|].
    rewrite IH. apply utf8_char in C. subst b. reflexivity.
  - pose proof U as V. inversion V; subst. apply hex4_unit in U. apply hi_iff in Hi. cbn [app]. rewrite parse_unit, U, Hi.
    rewrite <- app_assoc. assert (look (x5c :: x75 :: l ++ t ++ x22 :: r) = Some (m, t ++ x22 :: r)) as -> by (apply look_iff; exists l; auto).
    rewrite IH. apply utf8_char in C. subst b. cbn [prepend]. do 3 f_equal. f_equal. lia.
  - pose proof U as V. inversion V; subst. apply hex4_unit in U. cbn [app]. rewrite parse_unit, U. destruct W as [(Hi & No)|Lo].
    + apply hi_iff in Hi. rewrite Hi. destruct (look (t ++ x22 :: r)) as [[wq uq]|] eqn:K; [|rewrite IH, fffd; reflexivity].
      exfalso. apply No. apply look_within in K. destruct K as (l & u' & K). exists l, wq, u'. exact K.
    + destruct (surrogate_hi _) eqn:X; [apply hi_iff in X; unfold high, low in *; lia|]. apply lo_iff in Lo. rewrite Lo, IH, fffd. reflexivity.
Qed.

Lemma prepend_some b x v r : prepend b x = Some (v, r) -> exists w, x = Some (w, r) /\ v = b ++ w.
Proof. destruct x as [[s t]|]; [|discriminate]. intros [= <- <-]. eauto. Qed.
Lemma chars_sound : forall n s v r, (length s <= n)%nat -> parse_str s = Some (v, r) -> exists t, s = t ++ x22 :: r /\ chars t v.
Proof.
  induction n as [|n IH]; intros s v r L H; [destruct s; [discriminate H|cbn in L; lia]|].
  destruct s as [|c s]; [discriminate H|]. cbn [length] in L. cbn [parse_str] in H. destruct (c =? x22)%byte eqn:E1.
  { apply byte_eqb_eq in E1. subst c. injection H as <- <-. exists []. split; [reflexivity|constructor]. }
  destruct (c =? x5c)%byte eqn:E2.
  2:{ destruct (bz c <? 32) eqn:E3; [discriminate H|]. apply prepend_some in H. destruct H as (w & H & ->). destruct (IH s _ _ ltac:(lia) H) as (t & -> & C).
      exists (c :: t). split; [reflexivity|]. apply chars_raw; [lia|apply eqb_neq; assumption|apply eqb_neq; assumption|exact C]. }
  apply byte_eqb_eq in E2. subst c. destruct s as [|e s]; [discriminate H|]. cbn [length] in L.
  assert (forall d, In (e, d) escapes -> prepend [d] (parse_str s) = Some (v, r) -> exists t, x5c :: e :: s = t ++ x22 :: r /\ chars t v) as K.
  { intros d D P. apply prepend_some in P. destruct P as (w & P & ->). destruct (IH s _ _ ltac:(lia) P) as (t & -> & C). exists (x5c :: e :: t). split; [reflexivity|].
    apply chars_esc; assumption. }
  destruct (e =? x22)%byte eqn:A1; [apply byte_eqb_eq in A1; subst e; apply (K x22); [cbn; auto|exact H]|].
  destruct (e =? x5c)%byte eqn:A2; [apply byte_eqb_eq in A2; subst e; apply (K x5c); [cbn; auto|exact H]|].
  destruct (e =? x2f)%byte eqn:A3; [apply byte_eqb_eq in A3; subst e; apply (K x2f); [cbn; auto|exact H]|].
  cbn [orb] in H.
  destruct (e =? x62)%byte eqn:A4; [apply byte_eqb_eq in A4; subst e; apply (K x08); [cbn; auto|exact H]|].
  destruct (e =? x66)%byte eqn:A5; [apply byte_eqb_eq in A5; subst e; apply (K x0c); [cbn; auto 7|exact H]|].
  destruct (e =? x6e)%byte eqn:A6; [apply byte_eqb_eq in A6; subst e; apply (K x0a); [cbn; auto 8|exact H]|].
  destruct (e =? x72)%byte eqn:A7; [apply byte_eqb_eq in A7; subst e; apply (K x0d); [cbn; auto 9|exact H]|].
  destruct (e =? x74)%byte eqn:A8; [apply byte_eqb_eq in A8; subst e; apply (K x09); [cbn; auto 10|exact H]|].
  destruct (e =? x75)%byte eqn:A9; [|discriminate H]. apply byte_eqb_eq in A9. subst e. clear K A1 A2 A3 A4 A5 A6 A7 A8 E1.
  destruct s as [|a [|b [|c [|d s]]]]; try discriminate H. cbn [length] in L.
  assert (parse_str (x5c :: x75 :: a :: b :: c :: d :: s) = Some (v, r)) as H' by exact H. clear H. rewrite parse_unit in H'.
  destruct (hex4 a b c d) as [m|] eqn:U; [|discriminate H']. apply hex4_unit in U. pose proof (unit16_range _ _ U) as R.
  destruct (surrogate_hi m) eqn:Hi.
  - apply hi_iff in Hi. destruct (look s) as [[w u]|] eqn:K.
    + apply look_iff in K. destruct K as (l & -> & U2 & Lo). apply prepend_some in H'. destruct H' as (w' & H & ->). cbn [length] in L. rewrite app_length in L.
      destruct (IH u _ _ ltac:(lia) H) as (t & -> & C). exists (x5c :: x75 :: [a; b; c; d] ++ x5c :: x75 :: l ++ t). split; [cbn [app]; rewrite <- app_assoc; reflexivity|].
      eapply chars_pair; try eassumption. replace (65536 + 1024 * (m - 55296) + (w - 56320)) with (65536 + (m - 55296) * 1024 + (w - 56320)) by lia. apply utf8_is. unfold high, low in *. lia.
    + apply prepend_some in H'. destruct H' as (w' & H & ->). destruct (IH s _ _ ltac:(lia) H) as (t & -> & C). exists (x5c :: x75 :: [a; b; c; d] ++ t). split; [reflexivity|].
      rewrite fffd. eapply chars_half; [exact U| |exact C]. left. split; [exact Hi|]. intros (l & m' & u & -> & X & Y).
      assert (look ((x5c :: x75 :: l ++ u) ++ x22 :: r) = Some (m', u ++ x22 :: r)) as Q.
      { apply look_iff. exists l. split; [cbn [app]; rewrite <- app_assoc; reflexivity|auto]. }
      rewrite Q in K. discriminate K.
  - destruct (surrogate_lo m) eqn:Lo; apply prepend_some in H'; destruct H' as (w' & H & ->); destruct (IH s _ _ ltac:(lia) H) as (t & -> & C); exists (x5c :: x75 :: [a; b; c; d] ++ t);
      (split; [reflexivity|]).
    + rewrite fffd. eapply chars_half; [exact U|right; apply lo_iff; exact Lo|exact C].
    + eapply chars_unit; [exact U| | |apply utf8_is; lia|exact C]; intros X; [apply hi_iff in X|apply lo_iff in X]; congruence.
Qed.

(** ** Values *)
Scheme denotes_mut := Induction for denotes Sort Prop
  with elements_mut := Induction for elements Sort Prop
  with members_mut := Induction for members Sort Prop.
Combined Scheme json_text_ind from denotes_mut, elements_mut, members_mut.

Lemma number_first s j : number s j -> exists c t, s = c :: t /\ (is_digit c = true \/ c = x2d).
Proof.
  assert (forall sg k ds r, sign sg k -> natural ds -> exists c t, sg ++ ds ++ r = c :: t /\ (is_digit c = true \/ c = x2d)) as K.
  { intros sg k ds r [(-> & _)|(-> & _)] ((N & F) & _); cbn [app]; [|eauto]. destruct ds as [|d ds]; [congruence|]. inversion F as [|? ? D _]; subst. apply is_digit_iff in D. cbn [app]. eauto. }
  intros [sg k ds S N|sg k ds f e S N _ _ _]; [|eapply K; eassumption]. rewrite <- (app_nil_r ds). eapply K; eassumption.
Qed.
Lemma denotes_first s j : denotes s j -> exists c t, s = c :: t /\ is_ws c = false /\ c <> x5d /\ c <> x7d.
Proof.
  intros H. destruct H; try (eexists _, _; split; [reflexivity|]; split; [reflexivity|]; split; discriminate).
  destruct (number_first _ _ H) as (c & t & -> & C). exists c, t. split; [reflexivity|]. destruct (digit_plain c C) as (A & _ & _ & _ & _ & _ & _ & B). tauto.
Qed.
Lemma blank_ends b s : blank b -> ends_num s -> ends_num (b ++ s).
Proof.
  intros [|c t C _] E; [exact E|]. cbn [app ends_num]. destruct C as [<-|[<-|[<-|[<-|[]]]]]; repeat split; (reflexivity || discriminate).
Qed.
Lemma parse_value_blank fuel b s : blank b -> parse_value fuel (b ++ s) = parse_value fuel s.
Proof. intros B. destruct fuel as [|fuel]; [reflexivity|]. cbn [parse_value]. rewrite skip_blank by exact B. reflexivity. Qed.
Lemma skip_after b c s : blank b -> is_ws c = false -> skip_ws (b ++ c :: s) = c :: s.
Proof. intros B C. rewrite skip_blank by exact B. apply skip_ws_first. exact C. Qed.
Lemma elements_first s l r : elements s l -> exists c t, skip_ws (s ++ r) = c :: t /\ c <> x5d.
Proof.
  intros H. destruct H as [b s c j B D C|b s c j q l B D C _]; destruct (denotes_first _ _ D) as (d & t & -> & W & N & _); rewrite <- app_assoc, skip_blank by exact B;
    cbn [app]; rewrite skip_ws_first by exact W; eauto.
Qed.
Lemma members_first s l r : members s l -> exists t, skip_ws (s ++ r) = x22 :: t.
Proof. intros H. destruct H; rewrite <- app_assoc, skip_blank by assumption; cbn [app]; rewrite skip_ws_first by reflexivity; eauto. Qed.

Lemma all_complete :
  (forall s j, denotes s j -> forall fuel r, (length s <= fuel)%nat -> ends_num r -> parse_value fuel (s ++ r) = Some (j, r)) /\
  (forall s l, elements s l -> forall fuel r, (length s < fuel)%nat -> parse_elems fuel (s ++ x5d :: r) = Some (l, r)) /\
  (forall s l, members s l -> forall fuel r, (length s < fuel)%nat -> parse_members fuel (s ++ x7d :: r) = Some (l, r)).
Proof.
  apply (json_text_ind
    (fun s j _ => forall fuel r, (length s <= fuel)%nat -> ends_num r -> parse_value fuel (s ++ r) = Some (j, r))
    (fun s l _ => forall fuel r, (length s < fuel)%nat -> parse_elems fuel (s ++ x5d :: r) = Some (l, r))
    (fun s l _ => forall fuel r, (length s < fuel)%nat -> parse_members fuel (s ++ x7d :: r) = Some (l, r))).
  - intros [|fuel] r L _; [cbn in L; lia|reflexivity].
  - intros [|fuel] r L _; [cbn in L; lia|reflexivity].
  - intros [|fuel] r L _; [cbn in L; lia|reflexivity].
  - intros s j N fuel r L E. destruct (number_first _ _ N) as (c & t & -> & C). destruct fuel as [|fuel]; [cbn in L; lia|].
    destruct (digit_plain c C) as (W & H1 & H2 & H3 & H4 & H5 & H6 & _). cbn [app]. rewrite parse_value_ws by exact W. cbv zeta.
    rewrite !byte_eqb_false by assumption. exact (parse_num_complete _ _ r N E).
  - intros t v C [|fuel] r L E; [cbn in L; lia|]. cbn [app]. rewrite parse_value_ws by reflexivity. cbv zeta.
    change (x22 =? x6e)%byte with false. change (x22 =? x74)%byte with false. change (x22 =? x66)%byte with false. change (x22 =? x22)%byte with true. cbv iota.
    rewrite <- app_assoc. cbn [app]. rewrite (chars_complete t v) by exact C. reflexivity.
  - intros b B [|fuel] r L E; [cbn in L; lia|]. cbn [app]. rewrite parse_value_ws by reflexivity. cbv zeta.
    change (x5b =? x6e)%byte with false. change (x5b =? x74)%byte with false. change (x5b =? x66)%byte with false. change (x5b =? x22)%byte with false. change (x5b =? x5b)%byte with true. cbv iota.
    rewrite <- app_assoc. cbn [app]. rewrite skip_after by (exact B || reflexivity). reflexivity.
  - intros s l El IH [|fuel] r L E; [cbn in L; lia|]. cbn [app]. rewrite parse_value_ws by reflexivity. cbv zeta.
    change (x5b =? x6e)%byte with false. change (x5b =? x74)%byte with false. change (x5b =? x66)%byte with false. change (x5b =? x22)%byte with false. change (x5b =? x5b)%byte with true. cbv iota.
    rewrite <- app_assoc. cbn [app]. destruct (elements_first s l (x5d :: r) El) as (c & t & -> & N). rewrite byte_eqb_false by exact N.
    cbn [length] in L. rewrite app_length in L. cbn [length] in L. rewrite IH by lia. reflexivity.
  - intros b B [|fuel] r L E; [cbn in L; lia|]. cbn [app]. rewrite parse_value_ws by reflexivity. cbv zeta.
    change (x7b =? x6e)%byte with false. change (x7b =? x74)%byte with false. change (x7b =? x66)%byte with false. change (x7b =? x22)%byte with false. change (x7b =? x5b)%byte with false.
    change (x7b =? x7b)%byte with true. cbv iota.
    rewrite <- app_assoc. cbn [app]. rewrite skip_after by (exact B || reflexivity). reflexivity.
  - intros s l El IH [|fuel] r L E; [cbn in L; lia|]. cbn [app]. rewrite parse_value_ws by reflexivity. cbv zeta.
    change (x7b =? x6e)%byte with false. change (x7b =? x74)%byte with false. change (x7b =? x66)%byte with false. change (x7b =? x22)%byte with false. change (x7b =? x5b)%byte with false.
    change (x7b =? x7b)%byte with true. cbv iota.
    rewrite <- app_assoc. cbn [app]. destruct (members_first s l (x7d :: r) El) as (t & ->). change (x22 =? x7d)%byte with false. cbv iota.
    cbn [length] in L. rewrite app_length in L. cbn [length] in L. rewrite IH by lia. reflexivity.
  - intros b s c j B D IH C [|fuel] r L; [lia|]. rewrite !app_length in L. cbn [parse_elems]. rewrite <- !app_assoc, parse_value_blank by exact B.
    rewrite IH; [|lia|apply blank_ends; [exact C|repeat split; discriminate]]. rewrite skip_after by (exact C || reflexivity). reflexivity.
  - intros b s c j q l B D IH C _ IHq [|fuel] r L; [lia|]. rewrite !app_length in L. cbn [length] in L. cbn [parse_elems]. rewrite <- !app_assoc, parse_value_blank by exact B.
    destruct (denotes_first _ _ D) as (c0 & t0 & Es & _). assert (1 <= length s)%nat by (rewrite Es; cbn; lia). cbn [app].
    rewrite IH; [|lia|apply blank_ends; [exact C|repeat split; discriminate]]. rewrite skip_after by (exact C || reflexivity).
    change (x2c =? x5d)%byte with false. change (x2c =? x2c)%byte with true. cbv iota. rewrite IHq by lia. reflexivity.
  - intros b t k c d s e j B T C D V IH E [|fuel] r L; [lia|]. repeat (rewrite app_length in L || cbn [length] in L). cbn [parse_members]. rewrite <- app_assoc, skip_blank by exact B.
    cbn [app]. rewrite skip_ws_first by reflexivity. change (x22 =? x22)%byte with true. cbv iota. rewrite <- !app_assoc. cbn [app]. rewrite (chars_complete t k) by exact T.
    rewrite <- app_assoc. cbn [app]. rewrite skip_after by (exact C || reflexivity). change (x3a =? x3a)%byte with true. cbv iota. rewrite <- !app_assoc, parse_value_blank by exact D.
    rewrite IH; [|lia|apply blank_ends; [exact E|repeat split; discriminate]]. rewrite skip_after by (exact E || reflexivity). reflexivity.
  - intros b t k c d s e j q l B T C D V IH E _ IHq [|fuel] r L; [lia|]. repeat (rewrite app_length in L || cbn [length] in L). cbn [parse_members]. rewrite <- app_assoc, skip_blank by exact B.
    cbn [app]. rewrite skip_ws_first by reflexivity. change (x22 =? x22)%byte with true. cbv iota. rewrite <- !app_assoc. cbn [app]. rewrite (chars_complete t k) by exact T.
    rewrite <- app_assoc. cbn [app]. rewrite skip_after by (exact C || reflexivity). change (x3a =? x3a)%byte with true. cbv iota. rewrite <- !app_assoc, parse_value_blank by exact D.
    cbn [app]. rewrite IH; [|lia|apply blank_ends; [exact E|repeat split; discriminate]]. rewrite skip_after by (exact E || reflexivity).
    change (x2c =? x7d)%byte with false. change (x2c =? x2c)%byte with true. cbv iota. rewrite IHq by lia. reflexivity.
Qed.

Lemma strip_some lit : forall s r, strip lit s = Some r -> s = lit ++ r.
Proof.
  induction lit as [|a l IH]; intros s r H; [injection H as ->; reflexivity|]. destruct s as [|b t]; [discriminate H|]. cbn [strip] in H.
  destruct (a =? b)%byte eqn:E; [|discriminate H]. apply byte_eqb_eq in E. subst b. cbn [app]. f_equal. apply IH. exact H.
Qed.

Lemma all_sound : forall fuel,
  (forall s j r, parse_value fuel s = Some (j, r) -> exists b t, s = b ++ t ++ r /\ blank b /\ denotes t j) /\
  (forall s l r, parse_elems fuel s = Some (l, r) -> exists t, s = t ++ x5d :: r /\ elements t l) /\
  (forall s l r, parse_members fuel s = Some (l, r) -> exists t, s = t ++ x7d :: r /\ members t l).
Proof.
  induction fuel as [|fuel (IHv & IHe & IHm)]; [repeat split; discriminate|]. split; [|split].
  - intros s j r H. cbn [parse_value] in H. destruct (skip_ws_split s) as (b & B & E & W). destruct (skip_ws s) as [|c t]; [discriminate H|].
    exists b. cut (exists u, c :: t = u ++ r /\ denotes u j); [intros (u & Q & D); exists u; rewrite <- Q; auto|]. clear b B E s.
    destruct (c =? x6e)%byte.
    { destruct (strip _ _) as [q|] eqn:S; [|discriminate H]. injection H as <- <-. apply strip_some in S. eexists. split; [exact S|constructor]. }
    destruct (c =? x74)%byte.
    { destruct (strip _ _) as [q|] eqn:S; [|discriminate H]. injection H as <- <-. apply strip_some in S. eexists. split; [exact S|constructor]. }
    destruct (c =? x66)%byte.
    { destruct (strip _ _) as [q|] eqn:S; [|discriminate H]. injection H as <- <-. apply strip_some in S. eexists. split; [exact S|constructor]. }
    destruct (c =? x22)%byte eqn:C1.
    { apply byte_eqb_eq in C1. subst c. destruct (parse_str t) as [[x q]|] eqn:P; [|discriminate H]. injection H as <- <-. destruct (chars_sound _ _ _ _ (le_n _) P) as (u & -> & U).
      exists (x22 :: u ++ [x22]). split; [cbn [app]; rewrite <- app_assoc; reflexivity|constructor; exact U]. }
    destruct (c =? x5b)%byte eqn:C2.
    { apply byte_eqb_eq in C2. subst c. destruct (skip_ws_split t) as (b & B & E & _). destruct (skip_ws t) as [|d q]; [discriminate H|]. destruct (d =? x5d)%byte eqn:D.
      - apply byte_eqb_eq in D. subst d. injection H as <- <-. exists (x5b :: b ++ [x5d]). split; [cbn [app]; rewrite <- app_assoc, E; reflexivity|constructor; exact B].
      - destruct (parse_elems fuel t) as [[l q']|] eqn:P; [|discriminate H]. injection H as <- <-. destruct (IHe _ _ _ P) as (u & -> & U).
        exists (x5b :: u ++ [x5d]). split; [cbn [app]; rewrite <- app_assoc; reflexivity|constructor; exact U]. }
    destruct (c =? x7b)%byte eqn:C3.
    { apply byte_eqb_eq in C3. subst c. destruct (skip_ws_split t) as (b & B & E & _). destruct (skip_ws t) as [|d q]; [discriminate H|]. destruct (d =? x7d)%byte eqn:D.
      - apply byte_eqb_eq in D. subst d. injection H as <- <-. exists (x7b :: b ++ [x7d]). split; [cbn [app]; rewrite <- app_assoc, E; reflexivity|constructor; exact B].
      - destruct (parse_members fuel t) as [[l q']|] eqn:P; [|discriminate H]. injection H as <- <-. destruct (IHm _ _ _ P) as (u & -> & U).
        exists (x7b :: u ++ [x7d]). split; [cbn [app]; rewrite <- app_assoc; reflexivity|constructor; exact U]. }
    destruct (parse_num_sound _ _ _ H) as (u & Q & N). exists u. split; [exact Q|apply denotes_num; exact N].
  - intros s l r H. cbn [parse_elems] in H. destruct (parse_value fuel s) as [[v q]|] eqn:P; [|discriminate H]. destruct (IHv _ _ _ P) as (b & t & -> & B & D).
    destruct (skip_ws_split q) as (c & C & E & _). destruct (skip_ws q) as [|d u]; [discriminate H|]. subst q. destruct (d =? x5d)%byte eqn:X.
    + apply byte_eqb_eq in X. subst d. injection H as <- <-. exists (b ++ t ++ c). split; [rewrite <- !app_assoc; reflexivity|constructor; assumption].
    + destruct (d =? x2c)%byte eqn:Y; [|discriminate H]. apply byte_eqb_eq in Y. subst d. destruct (parse_elems fuel u) as [[l' q]|] eqn:P'; [|discriminate H]. injection H as <- <-.
      destruct (IHe _ _ _ P') as (w & -> & W). exists (b ++ t ++ c ++ x2c :: w). split; [rewrite <- !app_assoc; reflexivity|constructor; assumption].
  - intros s l r H. cbn [parse_members] in H. destruct (skip_ws_split s) as (b & B & E & _). destruct (skip_ws s) as [|q0 t0]; [discriminate H|]. subst s.
    destruct (q0 =? x22)%byte eqn:X0; [|discriminate H]. apply byte_eqb_eq in X0. subst q0. destruct (parse_str t0) as [[k r0]|] eqn:PS; [|discriminate H].
    destruct (chars_sound _ _ _ _ (le_n _) PS) as (kt & -> & K). destruct (skip_ws_split r0) as (c & C & E & _). destruct (skip_ws r0) as [|col r1]; [discriminate H|]. subst r0.
    destruct (col =? x3a)%byte eqn:X1; [|discriminate H]. apply byte_eqb_eq in X1. subst col. destruct (parse_value fuel r1) as [[v q]|] eqn:P; [|discriminate H].
    destruct (IHv _ _ _ P) as (d & t & -> & D & V). destruct (skip_ws_split q) as (e & Bl & E & _). destruct (skip_ws q) as [|z u]; [discriminate H|]. subst q.
    destruct (z =? x7d)%byte eqn:X.
    + apply byte_eqb_eq in X. subst z. injection H as <- <-. exists (b ++ (x22 :: kt ++ [x22]) ++ c ++ x3a :: d ++ t ++ e).
      split; [repeat (rewrite <- app_assoc || cbn [app]); reflexivity|constructor; assumption].
    + destruct (z =? x2c)%byte eqn:Y; [|discriminate H]. apply byte_eqb_eq in Y. subst z. destruct (parse_members fuel u) as [[l' q]|] eqn:P'; [|discriminate H]. injection H as <- <-.
      destruct (IHm _ _ _ P') as (w & -> & W). exists (b ++ (x22 :: kt ++ [x22]) ++ c ++ x3a :: d ++ t ++ e ++ x2c :: w).
      split; [repeat (rewrite <- app_assoc || cbn [app]); reflexivity|constructor; assumption].
Qed.

Lemma json_parse_iff s j : json_parse s = Some j <-> json_text s j.
Proof.
  unfold json_parse. split.
  - destruct (parse_value _ s) as [[v r]|] eqn:P; [|discriminate]. destruct (skip_ws_split r) as (c & C & E & _). destruct (skip_ws r); [|discriminate]. intros [= <-].
    destruct (proj1 (all_sound _) _ _ _ P) as (b & t & -> & B & D). exists b, t, c. rewrite app_nil_r in E. subst r. auto.
  - intros (b & t & c & -> & B & D & C). rewrite parse_value_blank by exact B. rewrite (proj1 all_complete t j D).
    + rewrite <- (app_nil_r c), skip_blank by exact C. reflexivity.
    + rewrite !app_length. lia.
    + rewrite <- (app_nil_r c). apply blank_ends; [exact C|exact I].
Qed.

(** ** What the printers of Go and of JavaScript write *)
Section printers.
  Variable esc : byte -> gostring.
  Hypothesis Esc : forall c t, parse_str (esc c ++ t) = prepend [c] (parse_str t).
  Definition a_string (s : gostring) : gostring := x22 :: flat_map esc s ++ [x22].
  Fixpoint a_text (j : json) : gostring :=
    match j with
    | JStr s => a_string s
    | JArr l => x5b :: join_commas (map a_text l) ++ [x5d]
    | JObj l => x7b :: join_commas (map (fun kv => a_string (fst kv) ++ x3a :: a_text (snd kv)) l) ++ [x7d]
    | _ => json_print j
    end.
  Lemma escaped s : chars (flat_map esc s) s.
  Proof.
    assert (parse_str (flat_map esc s ++ [x22]) = Some (s, [])) as H.
    { induction s as [|c s IH]; [reflexivity|]. cbn [flat_map]. rewrite <- app_assoc, Esc, IH. reflexivity. }
    destruct (chars_sound _ _ _ _ (le_n _) H) as (t & E & C). apply app_inj_tail in E. destruct E as (-> & _). exact C.
  Qed.
  Lemma text_denotes : forall j, whole j -> denotes (a_text j) j.
  Proof.
    induction j as [ |b|z|t|s|l IH|l IH] using json_ind'; intros W; cbn [a_text].
    - constructor.
    - destruct b; constructor.
    - cbn [json_print]. apply denotes_num. pose proof (parse_dec_print z [] I) as P. rewrite app_nil_r in P. destruct (parse_num_sound _ _ _ P) as (t & E & N).
      rewrite app_nil_r in E. subst t. exact N.
    - inversion W.
    - apply denotes_str. apply escaped.
    - inversion W as [| | | |? F|]; subst. clear W. destruct l as [|j l]; [apply (denotes_arr0 []); constructor|]. apply denotes_arr. revert j IH F. induction l as [|k l IHl]; intros j IH F.
      + inversion IH as [|? ? H _]; subst. inversion F as [|? ? G _]; subst. cbn [map join_commas].
        pose proof (elements_last [] (a_text j) [] j (Forall_nil _) (H G) (Forall_nil _)) as E. rewrite app_nil_r in E. exact E.
      + inversion IH as [|? ? H IH']; subst. inversion F as [|? ? G F']; subst. exact (elements_more [] (a_text j) [] j _ _ (Forall_nil _) (H G) (Forall_nil _) (IHl k IH' F')).
    - inversion W as [| | | | |? F]; subst. clear W. destruct l as [|[x j] l]; [apply (denotes_obj0 []); constructor|]. apply denotes_obj. revert x j IH F. induction l as [|[y k] l IHl]; intros x j IH F.
      + inversion IH as [|? ? H _]; subst. inversion F as [|? ? G _]; subst. cbn [map join_commas fst snd].
        pose proof (members_last [] _ x [] [] _ [] j (Forall_nil _) (escaped x) (Forall_nil _) (Forall_nil _) (H G) (Forall_nil _)) as E. cbn [app fst snd] in *. rewrite app_nil_r in E. exact E.
      + inversion IH as [|? ? H IH']; subst. inversion F as [|? ? G F']; subst.
        pose proof (members_more [] _ x [] [] _ [] j _ _ (Forall_nil _) (escaped x) (Forall_nil _) (Forall_nil _) (H G) (Forall_nil _) (IHl y k IH' F')) as E. cbn [app fst snd] in *.
        change (join_commas (map (fun kv => a_string (fst kv) ++ x3a :: a_text (snd kv)) ((x, j) :: (y, k) :: l)))
          with ((a_string x ++ x3a :: a_text j) ++ x2c :: join_commas (map (fun kv => a_string (fst kv) ++ x3a :: a_text (snd kv)) ((y, k) :: l))).
        rewrite <- app_assoc. exact E.
  Qed.
End printers.
Lemma js_esc c t : parse_str (js_esc_char c ++ t) = prepend [c] (parse_str t).
Proof. destruct c; reflexivity. Qed.
Lemma go_text j : a_text esc_char j = json_print j.
Proof.
  induction j as [ |b|z|t|s|l IH|l IH] using json_ind'; try reflexivity; cbn [a_text json_print].
  - replace (map (a_text esc_char) l) with (map json_print l); [reflexivity|]. apply map_ext_Forall. eapply Forall_impl; [|exact IH]. intros x E. symmetry. exact E.
  - do 3 f_equal. apply map_ext_Forall. eapply Forall_impl; [|exact IH]. intros kv E. cbv beta in *. rewrite E. reflexivity.
Qed.
Lemma js_text_eq j : a_text js_esc_char j = js_print j.
Proof. destruct j; reflexivity. Qed.

(** ** Messages *)
Lemma decode_parse sha tag s m m' : m_type m = m_type m' -> json_parse (slice (m_body m)) = json_parse (slice (m_body m')) -> decode sha tag s m = decode sha tag s m'.
Proof. intros T P. unfold decode. rewrite T. destruct (negb _); [reflexivity|]. unfold unmarshal_body. rewrite P. reflexivity. Qed.
Ltac decoder e := lazymatch e with ?f _ => decoder f | _ => e end.
Lemma reads_parse sha k m m' : m_type m = m_type m' -> json_parse (slice (m_body m)) = json_parse (slice (m_body m')) -> reads_same sha k m m'.
Proof.
  intros T P. destruct k; cbn [reads_same];
  match goal with |- ?e = _ => let h := decoder e in unfold h end; unfold rbind;
  match goal with |- context [decode sha ?t ?s m] => rewrite (decode_parse sha t s m m' T P); reflexivity end.
Qed.
Lemma accepted_parse sha k m : accepted sha k m -> json_parse (slice (m_body m)) <> None.
Proof.
  intros A N. destruct k; cbn [accepted] in A; destruct A as (v & A);
  match type of A with ?e = _ => let h := decoder e in unfold h in A end; unfold rbind in A;
  match type of A with context [decode sha ?t ?s m] =>
    assert (decode sha t s m = Ret ErrR) as D by (unfold decode, unmarshal_body; rewrite N; destruct (negb _); reflexivity); rewrite D in A; discriminate A end.
Qed.

(** ** Base64 *)
Lemma sextet_range c v : sextet c v -> 0 <= v < 64.
Proof. intros (A & B). split; [exact A|]. assert (nth_error alphabet (Z.to_nat v) <> None) as N by congruence. apply nth_error_Some in N. change (length alphabet) with 64%nat in N. lia. Qed.
Lemma alphabet_char : forall n, (n < 64)%nat -> nth_error alphabet n = Some (b64_char (Z.of_nat n)).
Proof.
  assert (forallb (fun n => match nth_error alphabet n with Some c => (c =? b64_char (Z.of_nat n))%byte | None => false end) (seq 0 64) = true) as H by (vm_compute; reflexivity).
  intros n N. rewrite forallb_forall in H. specialize (H n ltac:(apply in_seq; lia)). destruct (nth_error alphabet n) as [c|]; [|discriminate H]. apply byte_eqb_eq in H. congruence.
Qed.
Lemma b64_val_iff c v : b64_val c = Some v <-> sextet c v.
Proof.
  split.
  - intros H. assert (match b64_val c with Some v => (0 <=? v) && match nth_error alphabet (Z.to_nat v) with Some d => (d =? c)%byte | None => false end | None => true end = true) as K
      by (destruct c; vm_compute; reflexivity).
    rewrite H in K. apply andb_prop in K. destruct K as (A & B). split; [lia|]. destruct (nth_error alphabet (Z.to_nat v)) as [d|]; [|discriminate B]. apply byte_eqb_eq in B. congruence.
  - intros H. pose proof (sextet_range c v H) as R. destruct H as (A & B). rewrite alphabet_char in B by lia. injection B as <-. rewrite Z2Nat.id by lia. apply b64_val_char. exact R.
Qed.
Lemma unbroken_iff s : forall t, unbroken s t <-> filter (fun c => negb ((c =? x0a)%byte || (c =? x0d)%byte)) s = t.
Proof.
  induction s as [|c s IH]; intros t; [split; [intros H; inversion H; reflexivity|intros <-; constructor]|]. cbn [filter].
  destruct ((c =? x0a)%byte || (c =? x0d)%byte) eqn:E; cbn [negb].
  - assert (In c [x0a; x0d]) as C by (apply orb_prop in E; destruct E as [E|E]; apply byte_eqb_eq in E; subst c; cbn; auto).
    split; [intros H; inversion H; subst; [apply IH; assumption|contradiction]|intros H; apply unbroken_break; [exact C|apply IH; exact H]].
  - assert (~ In c [x0a; x0d]) as C by (apply orb_false_elim in E; destruct E as (E1 & E2); apply eqb_neq in E1, E2; intros [X|[X|[]]]; congruence).
    split; [intros H; inversion H; subst; [contradiction|f_equal; apply IH; assumption]|]. intros <-. apply unbroken_char; [exact C|apply IH; reflexivity].
Qed.
Lemma no_pad v : ~ sextet x3d v.
Proof. intros H. apply b64_val_iff in H. vm_compute in H. discriminate H. Qed.
Lemma quanta_complete t b : quanta t b -> b64_quanta t = (b, true).
Proof.
  induction 1 as [|w x y z cw cx cy cz a b c t l W X Y Z E _ IH|w x y cw cx cy a b rest W X Y E R|w x cw cx a rest W X E R]; [reflexivity| | |];
  pose proof (sextet_range _ _ W); pose proof (sextet_range _ _ X); apply b64_val_iff in W, X; cbn [b64_quanta]; rewrite W, X; pose proof (bz_range a).
  - pose proof (sextet_range _ _ Y); pose proof (sextet_range _ _ Z); apply b64_val_iff in Y, Z. rewrite Y, Z, IH. cbn [fst snd]. pose proof (bz_range b). pose proof (bz_range c).
    pose proof (Z.div_mod x 16 ltac:(lia)). pose proof (Z.mod_pos_bound x 16 ltac:(lia)). pose proof (Z.div_mod y 4 ltac:(lia)). pose proof (Z.mod_pos_bound y 4 ltac:(lia)).
    repeat f_equal; apply zb_bz'; lia.
  - pose proof (sextet_range _ _ Y). apply b64_val_iff in Y. rewrite Y. change (b64_val x3d) with (@None Z). change (x3d =? x3d)%byte with true. cbv iota. pose proof (bz_range b).
    pose proof (Z.div_mod x 16 ltac:(lia)). pose proof (Z.mod_pos_bound x 16 ltac:(lia)). pose proof (Z.div_mod y 4 ltac:(lia)). pose proof (Z.mod_pos_bound y 4 ltac:(lia)).
    repeat f_equal; apply zb_bz'; lia.
  - change (b64_val x3d) with (@None Z). change (x3d =? x3d)%byte with true. cbn [andb]. cbv iota.
    pose proof (Z.div_mod x 16 ltac:(lia)). pose proof (Z.mod_pos_bound x 16 ltac:(lia)).
    repeat f_equal; apply zb_bz'; lia.
Qed.
Lemma quanta_sound : forall n t b, (length t <= n)%nat -> b64_quanta t = (b, true) -> quanta t b.
Proof.
  induction n as [|n IH]; intros t b L H; [destruct t; [injection H as <-; constructor|cbn in L; lia]|].
  destruct t as [|cw [|cx [|cy [|cz t]]]]; cbn [b64_quanta] in H; try discriminate H; [injection H as <-; constructor|]. cbn [length] in L.
  destruct (b64_val cw) as [w|] eqn:W; [|discriminate H]. destruct (b64_val cx) as [x|] eqn:X; [|discriminate H].
  apply b64_val_iff in W, X. pose proof (sextet_range _ _ W). pose proof (sextet_range _ _ X).
  pose proof (Z.div_mod x 16 ltac:(lia)). pose proof (Z.mod_pos_bound x 16 ltac:(lia)).
  assert (bz (zb (w * 4 + x / 16)) = w * 4 + x / 16) as A by (apply bz_zb; lia).
  destruct (b64_val cy) as [y|] eqn:Y.
  - apply b64_val_iff in Y. pose proof (sextet_range _ _ Y). pose proof (Z.div_mod y 4 ltac:(lia)). pose proof (Z.mod_pos_bound y 4 ltac:(lia)).
    assert (bz (zb (x mod 16 * 16 + y / 4)) = x mod 16 * 16 + y / 4) as B by (apply bz_zb; lia).
    destruct (b64_val cz) as [z|] eqn:Z.
    + apply b64_val_iff in Z. pose proof (sextet_range _ _ Z). destruct (b64_quanta t) as [l ok] eqn:Q. cbn [fst snd] in H. injection H as <- ->.
      assert (bz (zb (y mod 4 * 64 + z)) = y mod 4 * 64 + z) as C by (apply bz_zb; lia).
      eapply quanta_more; try eassumption; [rewrite A, B, C; lia|apply IH; [lia|exact Q]].
    + destruct (cz =? x3d)%byte eqn:E; [|discriminate H]. apply byte_eqb_eq in E. subst cz. destruct t; [|discriminate H]. injection H as <-.
      eapply quanta_two with (rest := y mod 4); try eassumption. rewrite A, B. lia.
  - destruct (cy =? x3d)%byte eqn:E; [|discriminate H]. destruct (cz =? x3d)%byte eqn:E'; [|discriminate H]. apply byte_eqb_eq in E, E'. subst cy cz. cbn [andb] in H.
    destruct t; [|discriminate H]. injection H as <-. eapply quanta_one with (rest := x mod 16); try eassumption. rewrite A. lia.
Qed.
Lemma b64_decode_iff s b : b64_decode s = (b, true) <-> base64 s b.
Proof.
  unfold b64_decode, base64. split.
  - intros H. eexists. split; [apply unbroken_iff; reflexivity|]. eapply quanta_sound; [apply le_n|exact H].
  - intros (t & U & Q). apply unbroken_iff in U. rewrite U. apply quanta_complete. exact Q.
Qed.
