(** * Round trips of base64, decimal and JSON text *)
From Coq Require Import List ZArith Bool Lia.
From Coq Require Import Init.Byte.
From Coq Require Import ZifyBool ZifyNat.
From Verif Require Import Base BaseProofs Json.
Import ListNotations.
Open Scope Z_scope.

(** ** Base64 *)
Lemma b64_val_char : forall z, 0 <= z < 64 -> b64_val (b64_char z) = Some z.
Proof.
  intros z Hz.
  assert (H : forallb (fun n => match b64_val (b64_char (Z.of_nat n)) with Some v => v =? Z.of_nat n | None => false end)
                (seq 0 64) = true) by (vm_compute; reflexivity).
  rewrite forallb_forall in H. specialize (H (Z.to_nat z)).
  rewrite Z2Nat.id in H by lia.
  assert (Hin : In (Z.to_nat z) (seq 0 64)) by (apply in_seq; lia).
  specialize (H Hin). destruct (b64_val (b64_char z)) as [v|]; [|discriminate]. f_equal. lia.
Qed.

Lemma zb_bz' b z : z = bz b -> zb z = b.
Proof. intros ->. apply zb_bz. Qed.

Lemma triple_ind (P : bytes -> Prop) :
  P [] -> (forall a, P [a]) -> (forall a b, P [a; b]) ->
  (forall a b c t, P t -> P (a :: b :: c :: t)) -> forall l, P l.
Proof.
  intros H0 H1 H2 H3.
  assert (Hk : forall l, P l /\ (forall a, P (a :: l)) /\ (forall a b, P (a :: b :: l))).
  { induction l as [|x t (IHa & IHb & IHc)].
    - repeat split; auto.
    - repeat split; auto. }
  intro l. apply Hk.
Qed.

Lemma b64_char_plain : forall z, 0 <= z < 64 -> b64_char z <> x3d /\ b64_char z <> x0a /\ b64_char z <> x0d.
Proof.
  intros z Hz. assert (H := b64_val_char z Hz).
  repeat split; intros E; rewrite E in H; vm_compute in H; discriminate.
Qed.

Ltac byte_ranges :=
  repeat match goal with
  | b : byte |- _ => lazymatch goal with
     | _ : 0 <= bz b < 256 |- _ => fail
     | _ => assert (0 <= bz b < 256) by (generalize (bz_range b); lia) end
  end.

Lemma b64_quanta_encode : forall l, b64_quanta (b64_encode l) = (l, true).
Proof.
  induction l as [|a|a b|a b c t IH] using triple_ind; byte_ranges.
  - reflexivity.
  - cbn [b64_encode b64_quanta].
    rewrite !b64_val_char by (split; Z.div_mod_to_equations; lia).
    change (b64_val x3d) with (@None Z). cbn [Byte.eqb]. 
    replace ((x3d =? x3d)%byte) with true by reflexivity. cbn [andb].
    f_equal. f_equal. apply zb_bz'. Z.div_mod_to_equations. lia.
  - cbn [b64_encode b64_quanta].
    rewrite !b64_val_char by (split; Z.div_mod_to_equations; lia).
    change (b64_val x3d) with (@None Z).
    replace ((x3d =? x3d)%byte) with true by reflexivity.
    f_equal. f_equal; [|f_equal]; apply zb_bz'; Z.div_mod_to_equations; lia.
  - cbn [b64_encode b64_quanta].
    rewrite !b64_val_char by (split; Z.div_mod_to_equations; lia).
    rewrite IH. cbn [fst snd].
    f_equal. f_equal; [|f_equal; [|f_equal]]; apply zb_bz'; Z.div_mod_to_equations; lia.
Qed.

Lemma b64_encode_plain : forall l, Forall (fun c => c <> x0a /\ c <> x0d) (b64_encode l).
Proof.
  assert (Hp : forall z, 0 <= z < 64 -> b64_char z <> x0a /\ b64_char z <> x0d).
  { intros z Hz. apply b64_char_plain in Hz. tauto. }
  assert (He : x3d <> x0a /\ x3d <> x0d) by (split; discriminate).
  induction l as [|a|a b|a b c t IH] using triple_ind; byte_ranges; cbn [b64_encode];
    repeat (apply Forall_cons; [try exact He; apply Hp; Z.div_mod_to_equations; lia|]); auto.
Qed.

Lemma byte_eqb_false c d : c <> d -> Byte.eqb c d = false.
Proof.
  intros H. destruct (Byte.eqb c d) eqn:E; [|reflexivity].
  exfalso. apply H. now apply Byte.byte_dec_bl.
Qed.

Lemma b64_roundtrip : forall l, b64_decode (b64_encode l) = (l, true).
Proof.
  intro l. unfold b64_decode.
  assert (H : filter (fun c => negb ((c =? x0a)%byte || (c =? x0d)%byte)) (b64_encode l) = b64_encode l).
  { induction (b64_encode_plain l) as [|c t [H1 H2] _ IH]; [reflexivity|].
    cbn [filter]. rewrite (byte_eqb_false c x0a H1), (byte_eqb_false c x0d H2). cbn [orb negb]. now rewrite IH. }
  rewrite H. apply b64_quanta_encode.
Qed.

(** ** Decimal *)
Lemma dec_val_snoc l d : dec_val (l ++ [d]) = dec_val l * 10 + (bz d - 48).
Proof. unfold dec_val. now rewrite fold_left_app. Qed.

Lemma bz_zb_small z : 0 <= z < 256 -> bz (zb z) = z.
Proof. intros; apply bz_zb; lia. Qed.

Lemma dec_nat_spec : forall fuel z, 0 <= z -> Z.log2 z < Z.of_nat fuel ->
  dec_val (dec_nat fuel z) = z /\ Forall (fun c => is_digit c = true) (dec_nat fuel z) /\
  dec_nat fuel z <> [] /\ (z <> 0 -> hd x30 (dec_nat fuel z) <> x30).
Proof.
  induction fuel as [|f IH]; intros z Hz Hf; [assert (0 <= Z.log2 z) by apply Z.log2_nonneg; lia|].
  cbn [dec_nat].
  assert (Hd : 0 <= z mod 10 < 10) by (apply Z.mod_pos_bound; lia).
  assert (Hb : bz (zb (48 + z mod 10)) = 48 + z mod 10) by (apply bz_zb_small; lia).
  assert (Hdig : is_digit (zb (48 + z mod 10)) = true).
  { unfold is_digit. rewrite Hb. lia. }
  destruct (z <? 10) eqn:E.
  - cbn [app]. assert (Hm : z mod 10 = z) by (apply Z.mod_small; lia).
    split. { unfold dec_val. cbn [fold_left]. rewrite Hb. lia. }
    split. { repeat constructor. exact Hdig. }
    split; [discriminate|].
    intros Hnz. cbn [hd]. intros E2. apply (f_equal bz) in E2. rewrite Hb in E2.
    change (bz x30) with 48 in E2. lia.
  - assert (Hq : 0 < z / 10) by (apply Z.div_str_pos; lia).
    assert (Hl : Z.log2 (z / 10) < Z.of_nat f).
    { assert (Z.log2 (z / 10) <= Z.log2 (z / 2)).
      { apply Z.log2_le_mono. apply Z.div_le_compat_l; lia. }
      assert (H2 : Z.log2 (z / 2) = Z.log2 z - 1).
      { replace 2 with (2 ^ 1) by reflexivity. rewrite <- Z.shiftr_div_pow2 by lia.
        rewrite Z.log2_shiftr by lia. assert (1 <= Z.log2 z) by (apply Z.log2_le_pow2; lia). lia. }
      lia. }
    destruct (IH (z / 10) ltac:(lia) Hl) as (H1 & H2 & H3 & H4).
    split. { rewrite dec_val_snoc, H1, Hb. assert (Hdm := Z.div_mod z 10). lia. }
    split. { apply Forall_app. split; [exact H2|]. repeat constructor. exact Hdig. }
    split. { destruct (dec_nat f (z / 10)); discriminate. }
    intros Hnz. destruct (dec_nat f (z / 10)) as [|c t]; [congruence|].
    cbn [hd app]. cbn [hd] in H4. apply H4. lia.
Qed.

Lemma dec_nat_log z : 0 <= z -> Z.log2 z < Z.of_nat (S (Z.to_nat (Z.log2 z))).
Proof. intros H. assert (0 <= Z.log2 z) by apply Z.log2_nonneg. lia. Qed.

(** Characters that end a number. *)
Definition ends_num (s : gostring) : Prop :=
  match s with
  | [] => True
  | c :: _ => is_digit c = false /\ c <> x2e /\ c <> x65 /\ c <> x45
  end.

Lemma span_digits_app ds rest : Forall (fun c => is_digit c = true) ds -> ends_num rest ->
  span_digits (ds ++ rest) = (ds, rest).
Proof.
  induction 1 as [|c t Hc Ht IH]; intros He; cbn [app].
  - destruct rest as [|c t]; [reflexivity|]. destruct He as (H1 & _). cbn [span_digits]. now rewrite H1.
  - cbn [span_digits]. rewrite Hc. rewrite IH by exact He. reflexivity.
Qed.

(** Number text of the printer. *)
Definition num_body (ds : gostring) : Prop :=
  ds <> [] /\ Forall (fun c => is_digit c = true) ds /\ (hd x30 ds = x30 -> ds = [x30]).

Lemma digit_not c : is_digit c = true -> c <> x2d /\ c <> x2e /\ c <> x65 /\ c <> x45.
Proof. intros H. repeat split; intros ->; discriminate. Qed.

Lemma parse_num_tail ds rest (neg : bool) : num_body ds -> ends_num rest ->
  parse_num ((if neg then [x2d] else []) ++ ds ++ rest) =
    Some (JNum (if neg then - dec_val ds else dec_val ds), rest).
Proof.
  intros (Hne & Hd & Hz) He.
  destruct ds as [|c t]; [congruence|].
  inversion Hd as [|? ? Hc Ht]; subst.
  destruct (digit_not c Hc) as (Hc1 & _).
  assert (Hr : match rest with
         | [] => Some ([] : gostring, rest)
         | c :: t => if (c =? x2e)%byte then match span_digits t with ([], _) => None | (f, r) => Some (c :: f, r) end
                     else Some ([], rest) end = Some ([], rest)).
  { destruct rest as [|r rs]; [reflexivity|]. destruct He as (_ & H2 & _). now rewrite (byte_eqb_false r x2e H2). }
  assert (Hr2 : match rest with
         | [] => Some ([] : gostring, rest)
         | c :: t => if ((c =? x65) || (c =? x45))%byte then
                  let '(sg, t1) :=
                    match t with
                    | d :: t' => if ((d =? x2b) || (d =? x2d))%byte then ([d], t') else ([], t)
                    | [] => ([], t)
                    end in
                  match span_digits t1 with
                  | ([], _) => None
                  | (e, r) => Some (c :: sg ++ e, r)
                  end
                else Some ([], rest) end = Some ([], rest)).
  { destruct rest as [|r rs]; [reflexivity|]. destruct He as (_ & _ & H3 & H4).
    now rewrite (byte_eqb_false r x65 H3), (byte_eqb_false r x45 H4). }
  assert (Hs : (let '(ip, s2) := match (c :: t) ++ rest with
             | c :: t => if (c =? x30)%byte then ([c], t) else span_digits ((c :: t))
             | [] => ([], (c :: t) ++ rest) end in (ip, s2)) = (c :: t, rest)).
  { cbn [app]. destruct (Byte.eqb c x30) eqn:E.
    - apply Byte.byte_dec_bl in E. subst c. rewrite (Hz eq_refl). specialize (Hz eq_refl). injection Hz as ->.
      reflexivity.
    - change (c :: t ++ rest) with ((c :: t) ++ rest). rewrite span_digits_app; auto. }
  unfold parse_num.
  destruct neg; cbn [app].
  - change (x2d =? x2d)%byte with true. cbn iota beta.
    cbn [app] in Hs.
    destruct (Byte.eqb c x30) eqn:E; [|rewrite ?E in *];
    (match goal with |- context [let '(_, _) := ?X in _] => idtac end || idtac).
    + apply Byte.byte_dec_bl in E. subst c. specialize (Hz eq_refl). injection Hz as ->. cbn [app].
      rewrite Hr, Hr2. reflexivity.
    + change (c :: t ++ rest) with ((c :: t) ++ rest). rewrite span_digits_app by auto.
      rewrite Hr, Hr2. reflexivity.
  - rewrite (byte_eqb_false c x2d Hc1).
    destruct (Byte.eqb c x30) eqn:E.
    + apply Byte.byte_dec_bl in E. subst c. specialize (Hz eq_refl). injection Hz as ->. cbn [app].
      rewrite Hr, Hr2. reflexivity.
    + change (c :: t ++ rest) with ((c :: t) ++ rest). rewrite span_digits_app by auto.
      rewrite Hr, Hr2. reflexivity.
Qed.

Lemma dec_nat_body z : 0 <= z -> num_body (dec_nat (S (Z.to_nat (Z.log2 z))) z).
Proof.
  intros Hz. destruct (dec_nat_spec _ z Hz (dec_nat_log z Hz)) as (H1 & H2 & H3 & H4).
  split; [exact H3|]. split; [exact H2|]. intros H.
  destruct (Z.eq_dec z 0) as [->|Hnz]; [reflexivity|]. now apply H4 in H.
Qed.

Lemma parse_dec_print z rest : ends_num rest -> parse_num (dec_print z ++ rest) = Some (JNum z, rest).
Proof.
  intros He. unfold dec_print. destruct (z <? 0) eqn:E.
  - assert (H := parse_num_tail _ rest true (dec_nat_body (- z) ltac:(lia)) He).
    cbn [app] in H. cbn [app]. rewrite H.
    destruct (dec_nat_spec _ (- z) ltac:(lia) (dec_nat_log (- z) ltac:(lia))) as (H1 & _). rewrite H1.
    repeat f_equal. lia.
  - assert (H := parse_num_tail _ rest false (dec_nat_body z ltac:(lia)) He).
    cbn [app] in H. rewrite H.
    destruct (dec_nat_spec _ z ltac:(lia) (dec_nat_log z ltac:(lia))) as (H1 & _). now rewrite H1.
Qed.

(** ** Strings *)
Lemma parse_esc_char c t : parse_str (esc_char c ++ t) = prepend [c] (parse_str t).
Proof. destruct c; reflexivity. Qed.

Lemma parse_print_str s rest : parse_str (flat_map esc_char s ++ x22 :: rest) = Some (s, rest).
Proof.
  induction s as [|c s IH]; [reflexivity|].
  cbn [flat_map]. rewrite <- app_assoc, parse_esc_char, IH. reflexivity.
Qed.

(** ** Values *)

(** Values whose numbers are integers. *)
Fixpoint no_float (j : json) : bool :=
  match j with
  | JFloat _ => false
  | JArr l => forallb no_float l
  | JObj l => forallb (fun kv => no_float (snd kv)) l
  | _ => true
  end.

Section json_ind'.
  Variable P : json -> Prop.
  Hypothesis Hnull : P JNull.
  Hypothesis Hbool : forall b, P (JBool b).
  Hypothesis Hnum : forall z, P (JNum z).
  Hypothesis Hfloat : forall t, P (JFloat t).
  Hypothesis Hstr : forall s, P (JStr s).
  Hypothesis Harr : forall l, Forall P l -> P (JArr l).
  Hypothesis Hobj : forall l, Forall (fun kv => P (snd kv)) l -> P (JObj l).
  Fixpoint json_ind' (j : json) : P j :=
    match j with
    | JNull => Hnull
    | JBool b => Hbool b
    | JNum z => Hnum z
    | JFloat t => Hfloat t
    | JStr s => Hstr s
    | JArr l => Harr l ((fix go l : Forall P l :=
        match l with [] => Forall_nil P | x :: t => Forall_cons x (json_ind' x) (go t) end) l)
    | JObj l => Hobj l ((fix go l : Forall (fun kv => P (snd kv)) l :=
        match l with [] => Forall_nil _ | x :: t => Forall_cons x (json_ind' (snd x)) (go t) end) l)
    end.
End json_ind'.

(** Fuel the parser needs. *)
Fixpoint jcost (j : json) : nat :=
  match j with
  | JArr l => S (fold_right (fun x n => S (jcost x + n)) 0%nat l)
  | JObj l => S (fold_right (fun kv n => S (jcost (snd kv) + n)) 0%nat l)
  | _ => 1%nat
  end.

(** First character of a printed value. *)
Lemma dec_print_first z : exists c t, dec_print z = c :: t /\ (is_digit c = true \/ c = x2d).
Proof.
  unfold dec_print. destruct (z <? 0) eqn:E; [do 2 eexists; eauto|].
  destruct (dec_nat_body z ltac:(lia)) as (H1 & H2 & _).
  destruct (dec_nat _ z) as [|c t]; [congruence|]. inversion H2; subst. eauto.
Qed.

Lemma digit_plain c : is_digit c = true \/ c = x2d ->
  is_ws c = false /\ c <> x6e /\ c <> x74 /\ c <> x66 /\ c <> x22 /\ c <> x5b /\ c <> x7b /\ c <> x5d /\ c <> x7d.
Proof.
  intros [H| ->]; [|repeat split; discriminate].
  destruct c; try discriminate H; repeat split; discriminate.
Qed.

Lemma print_first j : no_float j = true -> exists c t, json_print j = c :: t /\ is_ws c = false /\ c <> x5d /\ c <> x7d.
Proof.
  destruct j; intros H; try discriminate; cbn [json_print].
  - do 2 eexists. repeat split; discriminate.
  - destruct b; do 2 eexists; repeat split; discriminate.
  - destruct (dec_print_first z) as (c & t & E & Hc). exists c, t. apply digit_plain in Hc. tauto.
  - unfold print_str. do 2 eexists. repeat split; discriminate.
  - do 2 eexists. repeat split; discriminate.
  - do 2 eexists. repeat split; discriminate.
Qed.

Lemma skip_ws_first c t : is_ws c = false -> skip_ws (c :: t) = c :: t.
Proof. intros H. cbn [skip_ws]. now rewrite H. Qed.

Lemma parse_value_num fuel z rest : ends_num rest ->
  parse_value (S fuel) (dec_print z ++ rest) = Some (JNum z, rest).
Proof.
  intros He. destruct (dec_print_first z) as (c & t & E & Hc).
  destruct (digit_plain c Hc) as (Hw & H1 & H2 & H3 & H4 & H5 & H6 & _).
  assert (HP := parse_dec_print z rest He). rewrite E in *. cbn [app] in *.
  cbn [parse_value]. rewrite (skip_ws_first c _ Hw).
  rewrite (byte_eqb_false c x6e H1), (byte_eqb_false c x74 H2), (byte_eqb_false c x66 H3),
    (byte_eqb_false c x22 H4), (byte_eqb_false c x5b H5), (byte_eqb_false c x7b H6).
  exact HP.
Qed.

Lemma parse_value_ws fuel c t : is_ws c = false -> parse_value (S fuel) (c :: t) =
  (let s := c :: t in
          if (c =? x6e)%byte then
            match strip [x6e; x75; x6c; x6c] s with Some r => Some (JNull, r) | None => None end
          else if (c =? x74)%byte then
            match strip [x74; x72; x75; x65] s with Some r => Some (JBool true, r) | None => None end
          else if (c =? x66)%byte then
            match strip [x66; x61; x6c; x73; x65] s with Some r => Some (JBool false, r) | None => None end
          else if (c =? x22)%byte then
            match parse_str t with Some (x, r) => Some (JStr x, r) | None => None end
          else if (c =? x5b)%byte then
            match skip_ws t with
            | d :: r =>
                if (d =? x5d)%byte then Some (JArr [], r)
                else match parse_elems fuel t with Some (l, r) => Some (JArr l, r) | None => None end
            | [] => None
            end
          else if (c =? x7b)%byte then
            match skip_ws t with
            | d :: r =>
                if (d =? x7d)%byte then Some (JObj [], r)
                else match parse_members fuel t with Some (l, r) => Some (JObj l, r) | None => None end
            | [] => None
            end
          else parse_num s).
Proof. intros H. cbn [parse_value]. rewrite (skip_ws_first c t H). reflexivity. Qed.

Definition parses (j : json) : Prop :=
  no_float j = true -> forall fuel rest, (jcost j <= fuel)%nat -> ends_num rest ->
  parse_value fuel (json_print j ++ rest) = Some (j, rest).

Lemma parse_elems_print l : forall fuel rest, l <> [] -> Forall parses l -> forallb no_float l = true ->
  (fold_right (fun x n => S (jcost x + n)) 0 l <= fuel)%nat ->
  parse_elems fuel (join_commas (map json_print l) ++ x5d :: rest) = Some (l, rest).
Proof.
  induction l as [|j t IH]; intros fuel rest Hne HP Hf Hc; [congruence|].
  inversion HP as [|? ? Hj Ht]; subst. cbn [forallb] in Hf. apply andb_true_iff in Hf as [Hfj Hft].
  cbn [fold_right] in Hc. destruct fuel as [|fuel]; [lia|].
  cbn [parse_elems].
  destruct t as [|j2 t].
  - cbn [map join_commas]. rewrite (Hj Hfj) by (try lia; cbn; repeat split; discriminate).
    reflexivity.
  - change (join_commas (map json_print (j :: j2 :: t)))
      with (json_print j ++ x2c :: join_commas (map json_print (j2 :: t))).
    rewrite <- app_assoc. cbn [app].
    rewrite (Hj Hfj) by (try lia; cbn; repeat split; discriminate).
    rewrite (skip_ws_first x2c) by reflexivity.
    change (x2c =? x5d)%byte with false. change (x2c =? x2c)%byte with true. cbv iota.
    rewrite IH; [reflexivity|discriminate|exact Ht|exact Hft|lia].
Qed.

Lemma parse_members_print l : forall fuel rest, l <> [] -> Forall (fun kv => parses (snd kv)) l ->
  forallb (fun kv => no_float (snd kv)) l = true ->
  (fold_right (fun kv n => S (jcost (snd kv) + n)) 0 l <= fuel)%nat ->
  parse_members fuel (join_commas (map (fun kv => print_str (fst kv) ++ x3a :: json_print (snd kv)) l)
    ++ x7d :: rest) = Some (l, rest).
Proof.
  induction l as [|[k j] t IH]; intros fuel rest Hne HP Hf Hc; [congruence|].
  inversion HP as [|? ? Hj Ht]; subst. cbn [forallb snd] in Hf. apply andb_true_iff in Hf as [Hfj Hft].
  cbn [fold_right snd] in Hc. destruct fuel as [|fuel]; [lia|]. cbn [snd] in Hj.
  assert (step : forall tail, ends_num tail ->
    parse_members (S fuel) ((print_str k ++ x3a :: json_print j) ++ tail) =
      match skip_ws tail with
      | c :: t => if (c =? x7d)%byte then Some ([(k, j)], t)
                  else if (c =? x2c)%byte then
                    match parse_members fuel t with Some (l, r') => Some ((k, j) :: l, r') | None => None end
                  else None
      | [] => None end).
  { intros tail He. cbn [parse_members]. unfold print_str. rewrite <- app_assoc. cbn [app].
    rewrite (skip_ws_first x22) by reflexivity.
    change (x22 =? x22)%byte with true. cbv iota.
    rewrite <- app_assoc. cbn [app]. rewrite parse_print_str.
    rewrite (skip_ws_first x3a) by reflexivity.
    change (x3a =? x3a)%byte with true. cbv iota.
    rewrite (Hj Hfj) by (try lia; exact He). reflexivity. }
  destruct t as [|[k2 j2] t].
  - cbn [map join_commas fst snd]. rewrite step by (cbn; repeat split; discriminate).
    reflexivity.
  - change (join_commas (map (fun kv => print_str (fst kv) ++ x3a :: json_print (snd kv)) ((k, j) :: (k2, j2) :: t)))
      with ((print_str k ++ x3a :: json_print j) ++ x2c ::
            join_commas (map (fun kv => print_str (fst kv) ++ x3a :: json_print (snd kv)) ((k2, j2) :: t))).
    rewrite <- (app_assoc _ (x2c :: _)). cbn [app].
    change ((x2c :: join_commas (map (fun kv => print_str (fst kv) ++ x3a :: json_print (snd kv)) ((k2, j2) :: t))) ++ x7d :: rest)
      with (x2c :: join_commas (map (fun kv => print_str (fst kv) ++ x3a :: json_print (snd kv)) ((k2, j2) :: t)) ++ x7d :: rest).
    rewrite step by (cbn; repeat split; discriminate).
    rewrite (skip_ws_first x2c) by reflexivity.
    change (x2c =? x7d)%byte with false. change (x2c =? x2c)%byte with true. cbv iota.
    rewrite IH; [reflexivity|discriminate|exact Ht|exact Hft|lia].
Qed.

Lemma join_first (l : list byte) x t : join_commas (x :: t) = x ++ match t with [] => [] | _ => x2c :: join_commas t end.
Proof. destruct t; cbn; [now rewrite app_nil_r|reflexivity]. Qed.

Lemma all_parse : forall j, parses j.
Proof.
  induction j as [ |b|z|t|s|l IH|l IH] using json_ind'; intros Hf fuel rest Hc He;
    cbn [jcost] in Hc; (destruct fuel as [|fuel]; [lia|]).
  - reflexivity.
  - destruct b; reflexivity.
  - now apply parse_value_num.
  - discriminate.
  - cbn [json_print]. unfold print_str. rewrite <- app_comm_cons, <- app_assoc. cbn [app].
    rewrite parse_value_ws by reflexivity. cbn zeta.
    change (x22 =? x6e)%byte with false. change (x22 =? x74)%byte with false.
    change (x22 =? x66)%byte with false. change (x22 =? x22)%byte with true. cbv iota.
    now rewrite parse_print_str.
  - cbn [json_print]. rewrite <- app_comm_cons, <- app_assoc. cbn [app].
    rewrite parse_value_ws by reflexivity. cbn zeta.
    change (x5b =? x6e)%byte with false. change (x5b =? x74)%byte with false.
    change (x5b =? x66)%byte with false. change (x5b =? x22)%byte with false.
    change (x5b =? x5b)%byte with true. cbv iota.
    destruct l as [|j t]; [reflexivity|].
    cbn [no_float] in Hf.
    assert (Hf' := Hf). cbn [forallb] in Hf'. apply andb_true_iff in Hf' as [Hfj _].
    destruct (print_first j Hfj) as (c & u & E & Hw & Hc1 & _).
    assert (Hp := parse_elems_print (j :: t) fuel rest ltac:(discriminate) IH Hf ltac:(lia)).
    assert (Hs : exists v, join_commas (map json_print (j :: t)) ++ x5d :: rest = c :: v).
    { cbn [map]. rewrite (join_first []), E. cbn [app]. eauto. }
    destruct Hs as (v & Hv). rewrite Hv in *. rewrite (skip_ws_first c v Hw).
    rewrite (byte_eqb_false c x5d Hc1), Hp. reflexivity.
  - cbn [json_print]. rewrite <- app_comm_cons, <- app_assoc. cbn [app].
    rewrite parse_value_ws by reflexivity. cbn zeta.
    change (x7b =? x6e)%byte with false. change (x7b =? x74)%byte with false.
    change (x7b =? x66)%byte with false. change (x7b =? x22)%byte with false.
    change (x7b =? x5b)%byte with false. change (x7b =? x7b)%byte with true. cbv iota.
    destruct l as [|[k j] t]; [reflexivity|].
    cbn [no_float] in Hf.
    assert (Hp := parse_members_print ((k, j) :: t) fuel rest ltac:(discriminate) IH Hf ltac:(lia)).
    assert (Hs : exists v, join_commas (map (fun kv => print_str (fst kv) ++ x3a :: json_print (snd kv)) ((k, j) :: t))
       ++ x7d :: rest = x22 :: v).
    { cbn [map fst snd]. rewrite (join_first []). unfold print_str. cbn [app]. eauto. }
    destruct Hs as (v & Hv). rewrite Hv in *. rewrite (skip_ws_first x22 v) by reflexivity.
    change (x22 =? x7d)%byte with false. cbv iota. now rewrite Hp.
Qed.

Lemma jcost_length : forall j, no_float j = true -> (jcost j <= length (json_print j))%nat.
Proof.
  induction j as [ |b|z|t|s|l IH|l IH] using json_ind'; intros Hf; cbn [jcost json_print].
  - cbn. lia.
  - destruct b; cbn; lia.
  - destruct (dec_print_first z) as (c & t & E & _). rewrite E. cbn. lia.
  - discriminate.
  - unfold print_str. cbn [length]. lia.
  - cbn [length]. rewrite app_length. cbn [length]. apply le_n_S.
    cbn [no_float] in Hf. revert Hf. induction IH as [|j t Hj Ht IHt]; intros Hf; [cbn; lia|].
    cbn [forallb] in Hf. apply andb_true_iff in Hf as [H1 H2].
    cbn [fold_right map]. rewrite (join_first []), app_length.
    specialize (Hj H1). specialize (IHt H2).
    destruct t; cbn [map length fold_right] in *; [lia|].
    cbn [map] in IHt. lia.
  - cbn [length]. rewrite app_length. cbn [length]. apply le_n_S.
    cbn [no_float] in Hf. revert Hf. induction IH as [|[k j] t Hj Ht IHt]; intros Hf; [cbn; lia|].
    cbn [forallb snd] in Hf. apply andb_true_iff in Hf as [H1 H2].
    cbn [fold_right map fst snd]. rewrite (join_first []), !app_length. cbn [length].
    cbn [snd] in Hj. specialize (Hj H1). specialize (IHt H2).
    destruct t; cbn [map length fold_right] in *; [lia|].
    cbn [map] in IHt. lia.
Qed.

(** Printing and parsing give back the same value. *)
Lemma json_roundtrip : forall j, no_float j = true -> json_parse (json_print j) = Some j.
Proof.
  intros j Hf. unfold json_parse.
  assert (H := all_parse j Hf (2 * length (json_print j) + 2)%nat [] ).
  rewrite app_nil_r in H. rewrite H; [reflexivity| |exact I].
  assert (HC := jcost_length j Hf). lia.
Qed.

Lemma json_print_inj j j' : no_float j = true -> no_float j' = true -> json_print j = json_print j' -> j = j'.
Proof.
  intros H H' E. apply json_roundtrip in H, H'. rewrite E in H. congruence.
Qed.
