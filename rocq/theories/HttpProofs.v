(** * Proofs about messages over HTTP *)
From Coq Require Import String List ZArith Bool Lia.
From Coq Require Import Init.Byte.
From Verif Require Import Base BaseProofs Json JsonProofs Crypto Message WireSpec MessageProofs Server Http.
From Verif Require Rest.
Import ListNotations.
Open Scope Z_scope.
Open Scope go_scope.

(** ** Blanks *)
Definition blank (s : gostring) : Prop := Forall (fun c => is_ws c = true) s.

Lemma newline_blank d : blank (newline d).
Proof. constructor; [reflexivity|]. induction (2 * d)%nat; constructor; [reflexivity|assumption]. Qed.
Lemma skip_blank w s : blank w -> skip_ws (w ++ s) = skip_ws s.
Proof. induction 1 as [|c w H W IH]; [reflexivity|]. cbn [app skip_ws]. now rewrite H. Qed.
Lemma value_blank fuel w s : blank w -> parse_value fuel (w ++ s) = parse_value fuel s.
Proof. intros H. destruct fuel as [|fuel]; [reflexivity|]. cbn [parse_value]. now rewrite skip_blank. Qed.
Lemma members_blank fuel w s : blank w -> parse_members fuel (w ++ s) = parse_members fuel s.
Proof. intros H. destruct fuel as [|fuel]; [reflexivity|]. cbn [parse_members]. now rewrite skip_blank. Qed.
Lemma blank_ends w c s : blank w -> ends_num (c :: s) -> ends_num (w ++ c :: s).
Proof.
  intros H E. destruct H as [|d w H W]; [exact E|]. cbn. destruct d; try discriminate H; repeat split; discriminate.
Qed.

(** ** Elements and members in any layout *)
Definition parses_as (f : json -> gostring) (j : json) : Prop :=
  forall fuel rest, (jcost j <= fuel)%nat -> ends_num rest -> parse_value fuel (f j ++ rest) = Some (j, rest).

Lemma elems_laid_out f w l : blank w -> forall fuel rest, l <> [] -> Forall (parses_as f) l ->
  (fold_right (fun x n => S (jcost x + n)) 0 l <= fuel)%nat ->
  parse_elems fuel (join_commas (map f l) ++ w ++ x5d :: rest) = Some (l, rest).
Proof.
  intros W. induction l as [|j t IH]; intros fuel rest Hne HP Hc; [congruence|].
  inversion HP as [|? ? Hj Ht]; subst. cbn [fold_right] in Hc. destruct fuel as [|fuel]; [lia|]. cbn [parse_elems].
  destruct t as [|j2 t].
  - cbn [map join_commas]. rewrite Hj; [|lia|apply blank_ends; [exact W|repeat split; discriminate]].
    rewrite skip_blank by exact W. reflexivity.
  - change (join_commas (map f (j :: j2 :: t))) with (f j ++ x2c :: join_commas (map f (j2 :: t))).
    rewrite <- app_assoc. cbn [app]. rewrite Hj by (try lia; cbn; repeat split; discriminate).
    rewrite (skip_ws_first x2c) by reflexivity. change (x2c =? x5d)%byte with false. change (x2c =? x2c)%byte with true. cbv iota.
    rewrite IH; [reflexivity|discriminate|exact Ht|lia].
Qed.

Lemma members_laid_out f v w l : blank v -> blank w -> forall fuel rest, l <> [] -> Forall (fun kv => parses_as f (snd kv)) l ->
  (fold_right (fun kv n => S (jcost (snd kv) + n)) 0 l <= fuel)%nat ->
  parse_members fuel (join_commas (map (fun kv => v ++ print_str (fst kv) ++ x3a :: x20 :: f (snd kv)) l) ++ w ++ x7d :: rest) = Some (l, rest).
Proof.
  intros V W. induction l as [|[k j] t IH]; intros fuel rest Hne HP Hc; [congruence|].
  inversion HP as [|? ? Hj Ht]; subst. cbn [fold_right snd] in Hc. destruct fuel as [|fuel]; [lia|]. cbn [snd] in Hj.
  assert (step : forall tail, ends_num tail ->
    parse_members (S fuel) ((v ++ print_str k ++ x3a :: x20 :: f j) ++ tail) =
      match skip_ws tail with
      | c :: t => if (c =? x7d)%byte then Some ([(k, j)], t)
                  else if (c =? x2c)%byte then
                    match parse_members fuel t with Some (l, r') => Some ((k, j) :: l, r') | None => None end
                  else None
      | [] => None end).
  { intros tail He. rewrite <- app_assoc, members_blank by exact V. cbn [parse_members]. unfold print_str. rewrite <- app_assoc. cbn [app].
    rewrite (skip_ws_first x22) by reflexivity. change (x22 =? x22)%byte with true. cbv iota.
    rewrite <- app_assoc. cbn [app]. rewrite parse_print_str. rewrite (skip_ws_first x3a) by reflexivity.
    change (x3a =? x3a)%byte with true. cbv iota.
    change (x20 :: f j ++ tail) with ([x20] ++ f j ++ tail). rewrite value_blank by (repeat constructor).
    rewrite Hj by (try lia; exact He). reflexivity. }
  destruct t as [|[k2 j2] t].
  - cbn [map join_commas fst snd]. rewrite step by (apply blank_ends; [exact W|repeat split; discriminate]).
    rewrite skip_blank by exact W. reflexivity.
  - set (g := fun kv => v ++ print_str (fst kv) ++ x3a :: x20 :: f (snd kv)) in *.
    change (join_commas (map g ((k, j) :: (k2, j2) :: t))) with ((v ++ print_str k ++ x3a :: x20 :: f j) ++ x2c :: join_commas (map g ((k2, j2) :: t))).
    rewrite <- (app_assoc _ (x2c :: _)). cbn [app].
    rewrite step by (cbn; repeat split; discriminate).
    rewrite (skip_ws_first x2c) by reflexivity. change (x2c =? x7d)%byte with false. change (x2c =? x2c)%byte with true. cbv iota.
    change (join_commas (map g ((k2, j2) :: t)) ++ w ++ x7d :: rest) with ((join_commas (map g ((k2, j2) :: t))) ++ w ++ x7d :: rest).
    rewrite IH; [reflexivity|discriminate|exact Ht|lia].
Qed.

(** ** Indented values *)
Lemma indent_first d j : no_float j = true -> exists c t, json_indent d j = c :: t /\ is_ws c = false /\ c <> x5d /\ c <> x7d.
Proof.
  intros H. assert (P := print_first j H).
  destruct j as [ | | | | |[|x l]|[|x l]]; try exact P; cbn [json_indent]; do 2 eexists; (split; [reflexivity|]); repeat split; discriminate.
Qed.

Lemma skip_second w c t s : blank w -> is_ws c = false -> skip_ws ((w ++ c :: t) ++ s) = c :: t ++ s.
Proof. intros W C. rewrite <- app_assoc, skip_blank by exact W. cbn [app]. now apply skip_ws_first. Qed.

Lemma indent_parses : forall j d, no_float j = true -> parses_as (json_indent d) j.
Proof.
  induction j as [ |b|z|t|s|l IH|l IH] using json_ind'; intros d Hf fuel rest Hc He.
  1-5: exact (all_parse _ Hf fuel rest Hc He).
  - destruct l as [|j t]; [exact (all_parse _ Hf fuel rest Hc He)|].
    cbn [jcost] in Hc. destruct fuel as [|fuel]; [lia|]. cbn [no_float] in Hf. rewrite forallb_forall in Hf.
    set (f := fun x => newline (S d) ++ json_indent (S d) x).
    change (json_indent d (JArr (j :: t))) with (x5b :: join_commas (map f (j :: t)) ++ newline d ++ [x5d]).
    cbn [app]. rewrite <- !app_assoc. cbn [app]. rewrite parse_value_ws by reflexivity. cbn zeta.
    change (x5b =? x6e)%byte with false. change (x5b =? x74)%byte with false. change (x5b =? x66)%byte with false.
    change (x5b =? x22)%byte with false. change (x5b =? x5b)%byte with true. cbv iota.
    assert (P : Forall (parses_as f) (j :: t)).
    { apply Forall_forall. intros x I fuel' rest' C' E'. unfold f. rewrite <- app_assoc, value_blank by apply newline_blank.
      rewrite Forall_forall in IH. apply IH; auto. }
    rewrite (elems_laid_out f (newline d) (j :: t)); [|apply newline_blank|discriminate|exact P|lia].
    destruct (indent_first (S d) j (Hf j (or_introl eq_refl))) as (c & u & E & Hw & H1 & _).
    assert (S : exists v, skip_ws (join_commas (map f (j :: t)) ++ newline d ++ x5d :: rest) = c :: v).
    { cbn [map]. rewrite (join_first []). unfold f at 1. rewrite E, <- !app_assoc, skip_blank by apply newline_blank. cbn [app].
      rewrite skip_ws_first by exact Hw. eauto. }
    destruct S as (v & ->). rewrite (byte_eqb_false c x5d H1). reflexivity.
  - destruct l as [|[k j] t]; [exact (all_parse _ Hf fuel rest Hc He)|].
    cbn [jcost] in Hc. destruct fuel as [|fuel]; [lia|]. cbn [no_float] in Hf. rewrite forallb_forall in Hf.
    set (f := fun kv : gostring * json => newline (S d) ++ print_str (fst kv) ++ x3a :: x20 :: json_indent (S d) (snd kv)).
    change (json_indent d (JObj ((k, j) :: t))) with (x7b :: join_commas (map f ((k, j) :: t)) ++ newline d ++ [x7d]).
    cbn [app]. rewrite <- !app_assoc. cbn [app]. rewrite parse_value_ws by reflexivity. cbn zeta.
    change (x7b =? x6e)%byte with false. change (x7b =? x74)%byte with false. change (x7b =? x66)%byte with false.
    change (x7b =? x22)%byte with false. change (x7b =? x5b)%byte with false. change (x7b =? x7b)%byte with true. cbv iota.
    unfold f at 2. rewrite (members_laid_out (json_indent (S d)) (newline (S d)) (newline d) ((k, j) :: t));
      [|apply newline_blank|apply newline_blank|discriminate| |lia].
    + assert (S : exists v, skip_ws (join_commas (map f ((k, j) :: t)) ++ newline d ++ x7d :: rest) = x22 :: v).
      { cbn [map]. rewrite (join_first []). unfold f at 1. rewrite <- !app_assoc, skip_blank by apply newline_blank. unfold print_str. cbn [app fst].
        rewrite skip_ws_first by reflexivity. eauto. }
      destruct S as (v & ->). reflexivity.
    + apply Forall_forall. intros x I. rewrite Forall_forall in IH. apply IH; [exact I|]. now apply Hf.
Qed.

Lemma join_longer {A} (f g : A -> gostring) l : Forall (fun x => (length (f x) <= length (g x))%nat) l ->
  (length (join_commas (map f l)) <= length (join_commas (map g l)))%nat.
Proof.
  induction 1 as [|x l H F IH]; [cbn; lia|]. cbn [map]. rewrite !(join_first []), !app_length.
  destruct l as [|y l]; cbn [map length] in *; lia.
Qed.

Lemma indent_longer : forall j d, (length (json_print j) <= length (json_indent d j))%nat.
Proof.
  induction j as [ |b|z|t|s|l IH|l IH] using json_ind'; intros d; try (cbn [json_indent]; lia).
  - destruct l as [|x l]; [cbn; lia|].
    set (f := fun x => newline (S d) ++ json_indent (S d) x).
    change (json_indent d (JArr (x :: l))) with (x5b :: join_commas (map f (x :: l)) ++ newline d ++ [x5d]).
    change (json_print (JArr (x :: l))) with (x5b :: join_commas (map json_print (x :: l)) ++ [x5d]).
    cbn [length]. rewrite !app_length.
    assert (L := join_longer json_print f (x :: l)). enough (length (join_commas (map json_print (x :: l))) <= length (join_commas (map f (x :: l))))%nat by lia.
    apply L. rewrite Forall_forall in *. intros y I. unfold f. rewrite app_length. specialize (IH y I (S d)). lia.
  - destruct l as [|x l]; [cbn; lia|].
    set (f := fun kv : gostring * json => newline (S d) ++ print_str (fst kv) ++ x3a :: x20 :: json_indent (S d) (snd kv)).
    set (g := fun kv : gostring * json => print_str (fst kv) ++ x3a :: json_print (snd kv)).
    change (json_indent d (JObj (x :: l))) with (x7b :: join_commas (map f (x :: l)) ++ newline d ++ [x7d]).
    change (json_print (JObj (x :: l))) with (x7b :: join_commas (map g (x :: l)) ++ [x7d]).
    cbn [length]. rewrite !app_length.
    assert (L := join_longer g f (x :: l)). enough (length (join_commas (map g (x :: l))) <= length (join_commas (map f (x :: l))))%nat by lia.
    apply L. rewrite Forall_forall in *. intros y I. unfold f, g. rewrite !app_length. cbn [length]. specialize (IH y I (S d)). lia.
Qed.

(** The text of a value and more after it: a value only if there is nothing more. *)
Lemma indent_then j rest : no_float j = true -> ends_num rest ->
  json_parse (json_indent 0 j ++ rest) = match skip_ws rest with [] => Some j | _ => None end.
Proof.
  intros H E. unfold json_parse. rewrite (indent_parses j 0 H); [reflexivity| |exact E].
  assert (A := jcost_length j H). assert (B := indent_longer j 0). rewrite app_length. lia.
Qed.

(** ** Messages *)
Lemma object_ends k j l : exists t, json_indent 0 (JObj ((k, j) :: l)) = x7b :: t.
Proof. cbn [json_indent]. eauto. Qed.
Lemma written_first a text : exists t, written a text = x7b :: t.
Proof. destruct a; cbn [written]; apply object_ends. Qed.

Lemma text_read m rest : ends_num rest ->
  FCRMsgFromBytes (json_indent 0 (message_json m (m_sig m)) ++ rest) = match skip_ws rest with [] => FCRMsgFromBytes (FCRMsgToBytes m) | _ => ErrR end.
Proof.
  intros E. unfold FCRMsgFromBytes, FCRMsgToBytes, unmarshal. rewrite indent_then by (try exact E; apply no_float_message).
  rewrite json_roundtrip by apply no_float_message. now destruct (skip_ws rest).
Qed.

(** A response is read as a message if and only if one message was written and nothing else. *)
Lemma response_read texts l :
  (forall c, In (Rest.HttpError c) l -> c <> 200) -> (forall r, In (Rest.Json r) l -> wire_message r) ->
  (if code (respond texts l) =? 200 then FCRMsgFromBytes (content (respond texts l)) else ErrR) =
  match l with [Rest.Json r] => OkR r | _ => ErrR end.
Proof.
  intros C W. unfold respond. cbn [code content]. destruct l as [|[c|r] l].
  - reflexivity.
  - replace (c =? 200) with false by (symmetry; apply Z.eqb_neq, C; now left). reflexivity.
  - change (200 =? 200) with true. cbn [bodies written]. destruct l as [|a l].
    + cbn [bodies]. rewrite text_read by exact I. cbn [skip_ws]. destruct (W r (or_introl eq_refl)) as (A & B & D). now apply message_wire_pf.
    + cbn [bodies]. destruct (written_first a (texts 1%nat)) as (t & ->). cbn [app]. rewrite text_read by (cbn; repeat split; discriminate). reflexivity.
Qed.
