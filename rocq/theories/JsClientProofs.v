(** * Proofs about the client written in TypeScript *)
From Coq Require Import String List ZArith Bool Lia.
From Coq Require Import Init.Byte.
From Verif Require Import Base BaseProofs Ids Json JsonProofs Crypto CryptoProofs Message WireSpec OfferProofs MessageProofs Client Http HttpProofs JsClient.
From Verif Require Rest.
Import ListNotations.
Open Scope Z_scope.

(** ** Text that both languages write alike *)
Definition plain (s : gostring) : Prop := Forall (fun c => js_esc_char c = esc_char c) s.
Fixpoint plain_json (j : json) : Prop :=
  match j with
  | JStr s => plain s
  | JArr l => (fix all l := match l with [] => True | x :: t => plain_json x /\ all t end) l
  | JObj l => (fix all l := match l with [] => True | x :: t => (plain (fst x) /\ plain_json (snd x)) /\ all t end) l
  | _ => True
  end.

Lemma plain_str s : plain s -> js_print_str s = print_str s.
Proof.
  intros P. unfold js_print_str, print_str. f_equal. f_equal. induction P as [|c s E P IH]; [reflexivity|]. cbn [flat_map]. now rewrite E, IH.
Qed.
Lemma plain_print : forall j, plain_json j -> js_print j = json_print j.
Proof.
  induction j as [ |b|z|t|s|l IH|l IH] using json_ind'; intros P; try reflexivity.
  - exact (plain_str s P).
  - cbn [js_print json_print]. f_equal. f_equal. f_equal. induction IH as [|x l Hx IH IHl]; [reflexivity|]. cbn [plain_json] in P. destruct P as (P & Q).
    cbn [map]. now rewrite Hx, IHl.
  - cbn [js_print json_print]. f_equal. f_equal. f_equal. induction IH as [|[k x] l Hx IH IHl]; [reflexivity|]. cbn [plain_json fst snd] in P. destruct P as ((P1 & P2) & Q).
    cbn [map fst snd] in *. now rewrite plain_str, Hx, IHl.
Qed.

Lemma byte_plain c : (48 <= bz c <= 57 \/ 65 <= bz c <= 90 \/ 97 <= bz c <= 122 \/ c = x2b \/ c = x2f \/ c = x3d \/ c = x5f) -> js_esc_char c = esc_char c.
Proof. intros H. assert (js_esc_char c = esc_char c \/ (c = x08 \/ c = x0c \/ c = x3c \/ c = x3e \/ c = x26)) as [E|E]; [destruct c; auto 10; left; vm_compute; reflexivity|exact E|].
  exfalso. Transparent bz. repeat destruct E as [E|E]; subst c; vm_compute in H; repeat (destruct H as [H|H]; [try discriminate H; destruct H as [H1 H2]; try (now apply H1); now apply H2|]); discriminate H.
Qed.
Opaque bz.
Lemma b64_char_is z : 0 <= z < 64 -> js_esc_char (b64_char z) = esc_char (b64_char z).
Proof.
  intros H. apply byte_plain. unfold b64_char.
  destruct (Z.ltb_spec z 26); [rewrite bz_zb_small; lia|]. destruct (Z.ltb_spec z 52); [rewrite bz_zb_small; lia|]. destruct (Z.ltb_spec z 62); [rewrite bz_zb_small; lia|].
  destruct (Z.eqb_spec z 62); tauto.
Qed.
Lemma b64_plain : forall l, plain (b64_encode l).
Proof.
  apply (triple_ind (fun l => plain (b64_encode l))).
  - constructor.
  - intros a. pose proof (bz_range a). cbn [b64_encode]. repeat (apply Forall_cons; [first [reflexivity|apply b64_char_is; Z.div_mod_to_equations; lia]|]). constructor.
  - intros a b. pose proof (bz_range a). pose proof (bz_range b). cbn [b64_encode]. repeat (apply Forall_cons; [first [reflexivity|apply b64_char_is; Z.div_mod_to_equations; lia]|]). constructor.
  - intros a b c t IH. pose proof (bz_range a). pose proof (bz_range b). pose proof (bz_range c). cbn [b64_encode].
    repeat (apply Forall_cons; [apply b64_char_is; Z.div_mod_to_equations; lia|]). exact IH.
Qed.
Lemma hex_plain b : plain (hex_encode b).
Proof.
  induction b as [|x b IH]; [constructor|]. cbn [hex_encode]. pose proof (bz_range x).
  assert (D : forall z, 0 <= z <= 15 -> js_esc_char (digit_hex z) = esc_char (digit_hex z)).
  { intros z Hz. apply byte_plain. unfold digit_hex. destruct (Z.ltb_spec z 10); rewrite bz_zb_small; lia. }
  constructor; [apply D; Z.div_mod_to_equations; lia|]. constructor; [apply D; Z.div_mod_to_equations; lia|exact IH].
Qed.
Lemma id_plain i : plain (ToString i).
Proof. unfold ToString. destruct (bytes_eqb _ _); [repeat constructor|apply hex_plain]. Qed.

(** ** Hexadecimal text *)
Lemma js_pair a b x y : hex_digit a = Some x -> hex_digit b = Some y -> is_word a = true /\ is_word b = true /\ parseInt16 [a; b] = Some (x * 16 + y).
Proof.
  Transparent bz. intros A B. destruct a; try discriminate A; injection A as <-; destruct b; try discriminate B; injection B as <-; vm_compute; auto.
Qed.
Opaque bz.
Lemma js_hex : forall s b, hex_decode s = Some b -> decodeStringAsHexArray s = b.
Proof.
  enough (G : forall n s b, (length s <= n)%nat -> hex_decode s = Some b -> decodeStringAsHexArray s = b) by (intros s b; exact (G _ s b (le_n _))).
  induction n as [|n IH]; intros [|a [|c t]] b N H; cbn [length] in N; try lia; try (injection H as <-; reflexivity); try discriminate H. cbn [hex_decode] in H.
  destruct (hex_digit a) as [x|] eqn:A; [|discriminate H]. destruct (hex_digit c) as [y|] eqn:C; [|discriminate H]. destruct (hex_decode t) as [r|] eqn:T; [|discriminate H].
  injection H as <-. destruct (js_pair a c x y A C) as (Wa & Wc & P). unfold decodeStringAsHexArray. cbn [js_split]. rewrite Wa, Wc. cbn [andb some_piece app map].
  rewrite P. fold (decodeStringAsHexArray t). rewrite (IH t r ltac:(lia) T). pose proof (hex_digit_range _ _ A). pose proof (hex_digit_range _ _ C). rewrite Z.mod_small by lia. reflexivity.
Qed.

Lemma js_key t pk : DecodePublicKey t = Ret (OkR pk) -> exists p, k_pub pk = Some p /\ k_alg pk = x01 /\ decodePublicKey t = OkR p.
Proof.
  unfold DecodePublicKey, decodePublicKey. destruct (hex_decode t) as [[|a p]|] eqn:H; try discriminate. rewrite (js_hex _ _ H).
  destruct (Byte.eqb a x01); [|discriminate]. unfold decodeSecP256K1PublicKey. destruct (Nat.eqb (length p) 65); [|discriminate]. intros E. apply ret_inj in E. injection E as <-. exists p. split; [reflexivity|]. split; reflexivity.
Qed.
Lemma js_raw s b : hex_decode s = Some b -> length b = 69%nat -> extractKeyFromMessage s = OkR (firstn 64 (skipn 4 b)).
Proof. intros H L. unfold extractKeyFromMessage. rewrite (js_hex _ _ H), L. reflexivity. Qed.

(** ** Messages of Go *)

(** The message as the other language sees it. *)
Definition js_of (m : message) : jsmsg :=
  JsMsg (Some (JNum (m_type m))) (Some (JNum (m_version m))) (Some (json_slice JNum (m_supported m))) (Some (json_blob (m_body m))) (Some (JStr (m_sig m))).

Lemma js_reads m s : message_of_data (message_json m s) = OkR (js_of (set_sig m s)).
Proof. reflexivity. Qed.
Lemma nums_plain l : plain_json (JArr (map JNum l)).
Proof. cbn [plain_json]. induction l as [|x l IH]; cbn [map]; [exact I|]. split; [exact I|exact IH]. Qed.
Lemma message_plain m s : plain s -> plain_json (message_json m s).
Proof.
  intros P. unfold message_json. cbn [plain_json fst snd]. split; [split; [repeat constructor|exact I]|]. split; [split; [repeat constructor|exact I]|].
  split; [split; [repeat constructor|]|split; [split; [repeat constructor|]|split; [split; [repeat constructor|exact P]|exact I]]].
  - destruct (m_supported m); [apply nums_plain|exact I].
  - destruct (m_body m); [apply b64_plain|exact I].
Qed.
Lemma js_signed m : signed_text (js_of m) = MessageToSign m.
Proof. unfold signed_text, MessageToSign. change (js_object _) with (message_json m []). apply plain_print, message_plain. constructor. Qed.

Section verify.
  Variable pub_of : bytes -> bytes.
  Variable ec_sign : bytes -> bytes -> option bytes.
  Variable ec_verify : bytes -> bytes -> bytes -> bool.
  Variable js_ec : bytes -> bytes -> bytes -> bool.
  Variable blake : bytes -> bytes.
  Hypothesis same_curve : forall pk d s, length pk = 65%nat -> length s = 64%nat -> js_ec pk d s = ec_verify pk d s.

  Lemma js_agree m t pk b : DecodePublicKey t = Ret (OkR pk) -> hex_decode (m_sig m) = Some b -> length b = 69%nat ->
    exists p, decodePublicKey t = OkR p /\ js_verify js_ec blake (js_of m) p = OkR (fst (MessageVerify pub_of ec_verify blake m pk)).
  Proof using same_curve.
    intros D H L. destruct (js_key t pk D) as (p & P & A & J). exists p. split; [exact J|]. unfold js_verify. change (j_sig (js_of m)) with (Some (JStr (m_sig m))). cbv iota.
    rewrite (js_raw _ _ H L), js_signed. unfold MessageVerify. change (MessageToSign (set_sig m [])) with (MessageToSign m). unfold VerifyMessage. rewrite H.
    replace (Nat.ltb (length b) 4) with false by (rewrite L; reflexivity). unfold KeyVerify. rewrite A. change (Byte.eqb x01 x01) with true. cbv iota.
    unfold public_half. rewrite P. unfold secp256k1Verify. assert (L' : length (skipn 4 b) = 65%nat) by (rewrite skipn_length, L; reflexivity). rewrite L'. change (Nat.eqb 65 65) with true. cbv iota. cbn [fst].
    rewrite same_curve; [now destruct (ec_verify _ _ _)| |rewrite firstn_length, L'; reflexivity].
    unfold decodePublicKey in J. destruct (decodeStringAsHexArray t) as [|a q]; [discriminate J|]. destruct (Byte.eqb a x01); [|discriminate J]. cbn [andb] in J. destruct (Nat.eqb_spec (length q) 65) as [Q|Q]; [|discriminate J]. injection J as <-. exact Q.
  Qed.

  (** What Go signs has a signature of this form. *)
  Lemma signed_form m k ver ok m' : ecdsa_correct pub_of ec_sign ec_verify -> MessageSign ec_sign blake m k ver = (ok, m') -> ok = true ->
    exists b, hex_decode (m_sig m') = Some b /\ length b = 69%nat.
  Proof using.
    intros Law. unfold MessageSign. destruct (SignMessage _ _ _ _ _) as [s|] eqn:S; intros [= <- <-]; [intros _|discriminate].
    destruct (sign_shape ec_sign blake _ _ _ _ S) as (raw & _ & E & ->). destruct (Law _ _ _ E) as [L _]. eexists. cbn [m_sig set_sig]. rewrite hex_decode_encode. split; [reflexivity|].
    rewrite app_length, L. unfold EncodeKeyVersionAsBytes. rewrite be_bytes_length. reflexivity.
  Qed.
End verify.

(** ** Text of a message between two languages *)
Lemma js_escaped_quote : forall b x c y, flat_map js_esc_char b = x ++ c :: x22 :: y -> c = x5c.
Proof.
  induction b as [|a b IH]; intros x c y H; [destruct x; discriminate H|]. cbn [flat_map] in H.
  assert (H0 : js_esc_char a = [x5c; x22] \/ ~ In x22 (js_esc_char a)).
  { Transparent bz. destruct a; try (left; reflexivity); right; vm_compute; intuition discriminate. }
  assert (Q : forall b y, flat_map js_esc_char b <> x22 :: y).
  { clear. intros b y E. destruct b as [|a b]; [discriminate E|]. cbn [flat_map] in E. destruct a; vm_compute (js_esc_char _) in E; discriminate E. }
  apply app_eq_app in H. destruct H as (l & [(E & F)|(E & F)]).
  - destruct H0 as [H0|H0].
    + rewrite H0 in E. destruct x as [|x1 [|x2 x]].
      * cbn [app] in *. subst l. cbn [app] in F. injection F as -> _. reflexivity.
      * injection E as -> E. subst l. cbn [app] in F. injection F as -> F. symmetry in F. exfalso. exact (Q _ _ F).
      * injection E as <- <- E. apply eq_sym, app_eq_nil in E. destruct E as [-> ->]. cbn [app] in F. symmetry in F. apply (IH [] c y). exact F.
    + destruct l as [|l1 l]; cbn [app] in F.
      * symmetry in F. apply (IH [] c y). exact F.
      * injection F as <- F. destruct l as [|l2 l]; cbn [app] in F; [symmetry in F; exfalso; exact (Q _ _ F)|]. injection F as <- F.
        exfalso. apply H0. rewrite E. apply in_or_app. right. right. left. reflexivity.
  - symmetry in F. apply (IH l c y). rewrite <- F. reflexivity.
Qed.
Opaque bz.

(** ** The text that is signed tells what it says *)
Lemma object_parts (k1 k2 k3 k4 k5 f1 f2 f3 f4 f5 : gostring) :
  (exists r, x7b :: join_commas [k1 ++ x3a :: f1; k2 ++ x3a :: f2; k3 ++ x3a :: f3; k4 ++ x3a :: f4; k5 ++ x3a :: f5] ++ [x7d] = (x7b :: k1 ++ [x3a]) ++ f1 ++ x2c :: r) /\
  (exists a, x7b :: join_commas [k1 ++ x3a :: f1; k2 ++ x3a :: f2; k3 ++ x3a :: f3; k4 ++ x3a :: f4; k5 ++ x3a :: f5] ++ [x7d] = a ++ x3a :: f4 ++ (x2c :: k5 ++ x3a :: f5 ++ [x7d])).
Proof.
  split.
  - exists (k2 ++ x3a :: f2 ++ x2c :: k3 ++ x3a :: f3 ++ x2c :: k4 ++ x3a :: f4 ++ x2c :: k5 ++ x3a :: f5 ++ [x7d]). cbn [join_commas app]. repeat (rewrite <- app_assoc; cbn [app]). reflexivity.
  - exists (x7b :: k1 ++ x3a :: f1 ++ x2c :: k2 ++ x3a :: f2 ++ x2c :: k3 ++ x3a :: f3 ++ x2c :: k4). cbn [join_commas app]. repeat (rewrite <- app_assoc; cbn [app]). reflexivity.
Qed.
Transparent bz.
Lemma esc_cases c : js_esc_char c = [c] \/ In x5c (js_esc_char c).
Proof. destruct c; first [left; reflexivity|right; left; reflexivity]. Qed.
Lemma esc_self c : c <> x22 -> c <> x5c -> 32 <= bz c -> js_esc_char c = [c].
Proof. intros A B C. destruct c; try reflexivity; try contradiction; exfalso; apply C; reflexivity. Qed.
Lemma esc_first a t y : js_esc_char a ++ t <> x22 :: y.
Proof. destruct a; vm_compute (js_esc_char _); discriminate. Qed.
Opaque bz.
Lemma escaped_plain : forall b, ~ In x5c (flat_map js_esc_char b) -> flat_map js_esc_char b = b.
Proof.
  induction b as [|c b IH]; intros N; [reflexivity|]. cbn [flat_map] in *.
  assert (C : js_esc_char c = [c] \/ In x5c (js_esc_char c)) by exact (esc_cases c).
  destruct C as [C|C]; [|exfalso; apply N, in_or_app; now left]. rewrite C. cbn [app]. f_equal. apply IH. intros I. apply N, in_or_app. now right.
Qed.

Transparent bz.
Lemma bz_quote : bz x22 = 34 /\ bz x5c = 92 /\ bz x2b = 43 /\ bz x2f = 47 /\ bz x3d = 61. Proof. repeat split; reflexivity. Qed.
Opaque bz.
Lemma b64_quoteless : forall l c, In c (b64_encode l) -> bz c <> 34 /\ bz c <> 92 /\ 32 <= bz c.
Proof.
  destruct bz_quote as (B1 & B2 & B3 & B4 & B5).
  assert (Q : forall z, 0 <= z < 64 -> bz (b64_char z) <> 34 /\ bz (b64_char z) <> 92 /\ 32 <= bz (b64_char z)).
  { intros z H. unfold b64_char. destruct (Z.ltb_spec z 26); [rewrite bz_zb_small; lia|]. destruct (Z.ltb_spec z 52); [rewrite bz_zb_small; lia|]. destruct (Z.ltb_spec z 62); [rewrite bz_zb_small; lia|].
    destruct (z =? 62); lia. }
  intros l. pattern l. apply triple_ind; clear l.
  - intros c [].
  - intros a c. pose proof (bz_range a). cbn [b64_encode In]. intros [<-|[<-|[<-|[<-|[]]]]]; try lia; apply Q; Z.div_mod_to_equations; lia.
  - intros a b c. pose proof (bz_range a). pose proof (bz_range b). cbn [b64_encode In]. intros [<-|[<-|[<-|[<-|[]]]]]; try lia; apply Q; Z.div_mod_to_equations; lia.
  - intros a b d l IH c. pose proof (bz_range a). pose proof (bz_range b). pose proof (bz_range d). cbn [b64_encode In]. intros [<-|[<-|[<-|[<-|I]]]]; [| | | |exact (IH c I)]; apply Q; Z.div_mod_to_equations; lia.
Qed.
Lemma b64_unescaped l : flat_map esc_char (b64_encode l) = b64_encode l.
Proof.
  assert (N := b64_plain l). assert (B := b64_quoteless l). destruct bz_quote as (B1 & B2 & _). induction N as [|c t C N IH]; [reflexivity|]. cbn [flat_map]. rewrite <- C.
  destruct (B c (or_introl eq_refl)) as (X & Y & Z). rewrite esc_self by (congruence || exact Z). cbn [app]. f_equal. apply IH. intros x I. apply B. now right.
Qed.

Lemma esc_no_quote : forall b y, flat_map js_esc_char b <> x22 :: y.
Proof. intros b y E. destruct b as [|a b]; [discriminate E|]. cbn [flat_map] in E. exact (esc_first _ _ _ E). Qed.

(** A text in quotes at the end. *)
Lemma quoted_end a b a' t : ~ In x22 t -> ~ In x5c t -> a ++ x3a :: x22 :: flat_map js_esc_char b = a' ++ x3a :: x22 :: t -> b = t.
Proof.
  intros Q B E. assert (G : flat_map js_esc_char b = t); [|rewrite <- G; symmetry; apply escaped_plain; rewrite G; exact B].
  change (a ++ [x3a; x22] ++ flat_map js_esc_char b = a' ++ [x3a; x22] ++ t) in E. rewrite !app_assoc in E. apply app_eq_app in E. destruct E as (z & [(E & F)|(E & F)]).
  - (* a ++ :" = (a' ++ :") ++ z, t = z ++ esc *)
    destruct z as [|y z] using rev_ind; [rewrite app_nil_r in E; cbn [app] in F; congruence|]. clear IHz.
    assert (y = x22). { rewrite app_assoc in E. change [x3a; x22] with ([x3a] ++ [x22]) in E at 1. rewrite (app_assoc a) in E. apply app_inj_tail in E. symmetry. apply E. } subst y.
    exfalso. apply Q. rewrite F. apply in_or_app. left. apply in_or_app. right. now left.
  - destruct z as [|y z] using rev_ind; [rewrite app_nil_r in E; cbn [app] in F; congruence|]. clear IHz.
    rewrite app_assoc in E. change [x3a; x22] with ([x3a] ++ [x22]) in E at 1. rewrite (app_assoc a') in E. apply app_inj_tail in E. destruct E as [E <-].
    exfalso. destruct z as [|w z] using rev_ind; [exact (esc_no_quote _ _ F)|]. clear IHz. rewrite app_assoc in E. apply app_inj_tail in E. destruct E as [_ <-].
    rewrite <- !app_assoc in F. cbn [app] in F. apply js_escaped_quote in F. discriminate F.
Qed.

Lemma js_says v s b g m : signed_text (JsMsg (Some (JNum 101)) (Some v) (Some s) (Some (JStr b)) g) = MessageToSign m ->
  m_type m = 101 /\ exists body, m_body m = Some body /\ b = b64_encode body.
Proof.
  intros E.
  destruct (object_parts (js_print_str (gs "message_type")) (js_print_str (gs "protocol_version")) (js_print_str (gs "protocol_supported")) (js_print_str (gs "message_body")) (js_print_str (gs "message_signature"))
    (dec_print 101) (js_print v) (js_print s) (js_print_str b) (js_print_str [])) as ((r & R) & (a & A)).
  change (signed_text (JsMsg (Some (JNum 101)) (Some v) (Some s) (Some (JStr b)) g) = (x7b :: js_print_str (gs "message_type") ++ [x3a]) ++ dec_print 101 ++ x2c :: r) in R.
  change (signed_text (JsMsg (Some (JNum 101)) (Some v) (Some s) (Some (JStr b)) g) = a ++ x3a :: js_print_str b ++ (x2c :: js_print_str (gs "message_signature") ++ x3a :: js_print_str [] ++ [x7d])) in A.
  destruct (object_parts (js_print_str (gs "message_type")) (js_print_str (gs "protocol_version")) (js_print_str (gs "protocol_supported")) (js_print_str (gs "message_body")) (js_print_str (gs "message_signature"))
    (dec_print (m_type m)) (dec_print (m_version m)) (json_print (json_slice JNum (m_supported m))) (json_print (json_blob (m_body m))) (js_print_str [])) as ((r' & R') & (a' & A')).
  change (MessageToSign m = (x7b :: js_print_str (gs "message_type") ++ [x3a]) ++ dec_print (m_type m) ++ x2c :: r') in R'.
  change (MessageToSign m = a' ++ x3a :: json_print (json_blob (m_body m)) ++ (x2c :: js_print_str (gs "message_signature") ++ x3a :: js_print_str [] ++ [x7d])) in A'.
  rewrite E in R, A. rewrite R in R'. rewrite A in A'. clear E R A. split.
  - apply app_inv_head in R'. assert (P := parse_dec_print 101 (x2c :: r) ltac:(cbn; repeat split; discriminate)). rewrite R', parse_dec_print in P by (cbn; repeat split; discriminate). now injection P.
  - change (a ++ (x3a :: js_print_str b) ++ (x2c :: js_print_str (gs "message_signature") ++ x3a :: js_print_str [] ++ [x7d]) =
      a' ++ (x3a :: json_print (json_blob (m_body m))) ++ (x2c :: js_print_str (gs "message_signature") ++ x3a :: js_print_str [] ++ [x7d])) in A'.
    rewrite !app_assoc in A'. apply app_inv_tail in A'. destruct (m_body m) as [body|]; cbn [json_blob json_print] in A'.
    + exists body. split; [reflexivity|]. unfold js_print_str, print_str in A'.
      change (a ++ x3a :: x22 :: flat_map js_esc_char b ++ [x22] = a' ++ x3a :: x22 :: flat_map esc_char (b64_encode body) ++ [x22]) in A'.
      rewrite b64_unescaped in A'. 
      assert (A2 : (a ++ x3a :: x22 :: flat_map js_esc_char b) ++ [x22] = (a' ++ x3a :: x22 :: b64_encode body) ++ [x22]) by (rewrite <- !app_assoc; exact A').
      apply app_inj_tail in A2. destruct A2 as [A2 _]. apply quoted_end in A2; [exact A2| |]; destruct bz_quote as (B1 & B2 & _); intros I; destruct (b64_quoteless _ _ I) as (X & Y & _); congruence.
    + exfalso. unfold js_print_str in A'. 
      assert (A2 : (a ++ x3a :: x22 :: flat_map js_esc_char b) ++ [x22] = (a' ++ [x3a; x6e; x75; x6c]) ++ [x6c]) by (rewrite <- !app_assoc; exact A').
      apply app_inj_tail in A2. destruct A2 as [_ A2]. discriminate A2.
Qed.
