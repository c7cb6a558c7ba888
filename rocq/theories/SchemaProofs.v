(** Lemmas about [Schema.v]. *)
From Coq Require Import String List ZArith Bool Lia ZifyBool ZifyNat.
From Coq Require Import Init.Byte.
From Verif Require Import Base BaseProofs Ids IdsProofs Json JsonProofs Merkle MerkleWire MerkleWireProofs
  Crypto Message MessageProofs Offer OfferProofs WireSpec Schema.
Import ListNotations.
Open Scope Z_scope.

(** ** Looking up a field *)

Definition named (name : gostring) (kv : gostring * json) : bool := fold_eq (fst kv) name.

Lemma fold_none {B} (g : B -> gostring * json -> B) name f init :
  (forall b kv, named name kv = false -> g b kv = b) -> filter (named name) f = [] -> fold_left g f init = init.
Proof.
  intros G. revert init. induction f as [|kv f IH]; intros init; cbn [filter fold_left]; [reflexivity|].
  destruct (named name kv) eqn:E; [discriminate|]. intros H. rewrite G by exact E. auto.
Qed.

Lemma fold_one {B} (g : B -> gostring * json -> B) name f kv init :
  (forall b kv, named name kv = false -> g b kv = b) -> filter (named name) f = [kv] ->
  fold_left g f init = g init kv.
Proof.
  intros G. revert init. induction f as [|kv0 f IH]; intros init; cbn [filter fold_left]; [discriminate|].
  destruct (named name kv0) eqn:E.
  - intros [= <- H]. apply (fold_none g name); assumption.
  - intros H. rewrite G by exact E. auto.
Qed.

Lemma filter_named name f kv : filter (named name) f = [kv] -> fold_eq (fst kv) name = true.
Proof.
  intros H. assert (I : In kv (filter (named name) f)) by (rewrite H; left; reflexivity).
  apply filter_In in I. apply I.
Qed.

Ltac skip_step := let b := fresh "b" in let kv := fresh "kv" in let H := fresh "H" in
  intros b kv H; unfold named in H; rewrite H; try reflexivity; destruct b; reflexivity.

Lemma jfield_one {A} (dec : json -> option A) zero name f k j : filter (named name) f = [(k, j)] -> j <> JNull ->
  jfield dec zero name f = dec j.
Proof.
  intros H N. unfold jfield. rewrite (fold_one _ name f (k, j)); [|skip_step|exact H].
  cbn [fst snd]. apply filter_named in H. cbn [fst] in H. rewrite H.
  destruct j; try congruence; destruct (dec _); reflexivity.
Qed.

Lemma jslice_one {A} (dec : json -> option A) name f k j : filter (named name) f = [(k, j)] ->
  jslice dec name f = match j with JNull => Some None | _ => match dec j with Some a => Some (Some a) | None => None end end.
Proof.
  intros H. unfold jslice. rewrite (fold_one _ name f (k, j)); [|skip_step|exact H].
  cbn [fst snd]. apply filter_named in H. cbn [fst] in H. rewrite H.
  destruct j; try reflexivity; destruct (dec _); reflexivity.
Qed.

Lemma jcustom_one {A} (dec : json -> option A) zero name f k j : filter (named name) f = [(k, j)] ->
  jcustom dec zero name f = dec j.
Proof.
  intros H. unfold jcustom. rewrite (fold_one _ name f (k, j)); [|skip_step|exact H].
  cbn [fst snd]. apply filter_named in H. cbn [fst] in H. rewrite H. destruct (dec j); reflexivity.
Qed.

Lemma jcustomO_one {A} (dec : json -> outcome (result A)) zero name f k j : filter (named name) f = [(k, j)] ->
  jcustomO dec zero name f = obind (dec j) (fun r => Ret (match r with OkR x => Some x | ErrR => None end)).
Proof.
  intros H. unfold jcustomO. rewrite (fold_one _ name f (k, j)).
  - cbn [fst snd obind]. apply filter_named in H. cbn [fst] in H. rewrite H. destruct (dec j) as [[|]| |]; reflexivity.
  - intros b kv E. unfold named in E. rewrite E. destruct b; reflexivity.
  - exact H.
Qed.

Lemma jsliceO_one {A} (dec : json -> outcome (result A)) name f k j : filter (named name) f = [(k, j)] ->
  jsliceO dec name f =
    match j with
    | JNull => Ret (Some None)
    | JArr l => obind (mapO dec l) (fun rs => Ret (match all_ok rs with Some x => Some (Some x) | None => None end))
    | _ => Ret None
    end.
Proof.
  intros H. unfold jsliceO. rewrite (fold_one _ name f (k, j)).
  - cbn [fst snd obind]. apply filter_named in H. cbn [fst] in H. rewrite H. destruct j; reflexivity.
  - intros b kv E. unfold named in E. rewrite E. destruct b; reflexivity.
  - exact H.
Qed.

(** ** Valid values *)

Definition fok (sha256 : bytes -> bytes) (t : ftype) : fval t -> Prop :=
  match t return fval t -> Prop with
  | TInt lo hi => fun z => lo <= z <= hi
  | TInts lo hi => each (fun z => lo <= z <= hi)
  | TMsg => wire_message
  | TMsgs => each wire_message
  | TProof => wire_proof
  | TOffer => wire_offer sha256
  | TOffers => each (wire_offer sha256)
  | TSubs => each wire_suboffer
  | _ => fun _ => True
  end.

Fixpoint all_fok (sha256 : bytes -> bytes) (s : schema) : vals s -> Prop :=
  match s return vals s -> Prop with
  | [] => fun _ => True
  | (_, t) :: r => fun v => fok sha256 t (fst v) /\ all_fok sha256 r (snd v)
  end.

(** ** Elements *)

Lemma dec_elems_map {A} (dec : json -> option A) zero (enc : A -> json) l :
  Forall (fun a => dec (enc a) = Some a /\ enc a <> JNull) l -> dec_elems dec zero (map enc l) = Some l.
Proof.
  induction 1 as [|a l [H N] _ IH]; [reflexivity|]. cbn [map dec_elems]. rewrite IH.
  destruct (enc a); try congruence; rewrite H; reflexivity.
Qed.

Lemma dec_elems_bools l : dec_elems dec_bool false (map JBool l) = Some l.
Proof. apply dec_elems_map. apply Forall_forall. intros b _. split; [reflexivity|discriminate]. Qed.

Lemma dec_elems_strss l : dec_elems dec_strs None (map (json_slice JStr) l) = Some l.
Proof.
  induction l as [|o l IH]; [reflexivity|]. cbn [map dec_elems]. rewrite IH.
  destruct o as [x|]; cbn [json_slice]; [|reflexivity]. unfold dec_strs. cbn [dec_list].
  rewrite dec_elems_strs. reflexivity.
Qed.

Lemma no_float_map {A} (enc : A -> json) l : (forall a, no_float (enc a) = true) -> forallb no_float (map enc l) = true.
Proof. intros H. induction l as [|a l IH]; [reflexivity|]. cbn [map forallb]. now rewrite H. Qed.

Lemma no_float_slice {A} (enc : A -> json) o : (forall a, no_float (enc a) = true) -> no_float (json_slice enc o) = true.
Proof. intros H. destruct o; [|reflexivity]. cbn [json_slice no_float]. now apply no_float_map. Qed.

Lemma wire_message_dec m : wire_message m -> dec_message (enc_message m) = Some m.
Proof.
  intros (A & B & C). assert (W := message_wire_pf m A B).
  assert (C' : match m_supported m with Some l => Forall int32 l | None => True end) by exact C.
  specialize (W C'). unfold FCRMsgFromBytes, FCRMsgToBytes in W.
  rewrite unmarshal_json in W; [|apply no_float_message|discriminate].
  unfold dec_message, enc_message. destruct (message_of_json (message_json m (m_sig m))) as [x|] eqn:E; [|discriminate].
  injection W as <-. reflexivity.
Qed.

Lemma wire_proof_dec p : wire_proof p -> dec_proof (proof_json p) = Some p.
Proof.
  intros (A & B & C). destruct (proof_json_str p) as (s & E & P). unfold dec_proof. rewrite P.
  rewrite proof_wire_roundtrip_pf by assumption. reflexivity.
Qed.

Lemma embed_obj f : forallb (fun kv => no_float (snd kv)) f = true -> embed (json_print (JObj f)) = JObj f.
Proof. intros H. unfold embed. rewrite json_roundtrip by exact H. reflexivity. Qed.

Lemma wire_offer_enc sha o : wire_offer sha o ->
  exists f, enc_offer o = Ret (JObj f) /\ no_float (JObj f) = true /\ dec_offer sha (JObj f) = Ret (OkR o).
Proof.
  intros (p & ids & price & expiry & qos & o0 & Lp & F & HP & HE & HQ & N & E).
  assert (W := offer_wire_pf sha p ids price expiry qos o0 (o_sig o)). unfold id32, uint64, int64 in *.
  specialize (W (json_print (JObj
      [(gs "provider_id", JStr (ToString p));
       (gs "cids", JArr (map JStr (MapIDToString (o_cids o))));
       (gs "price", JNum (o_price o));
       (gs "expiry", JNum (o_expiry o));
       (gs "qos", JNum (o_qos o));
       (gs "signature", JStr (o_sig o))])) Lp F HP HE HQ N).
  cbv zeta in W. rewrite <- E in W.
  assert (P : o_provider o = Some p).
  { apply new_offer_shape in N as (_ & t & _ & ->). rewrite E. reflexivity. }
  assert (M : enc_offer o = Ret (embed (json_print (JObj
      [(gs "provider_id", JStr (ToString p));
       (gs "cids", JArr (map JStr (MapIDToString (o_cids o))));
       (gs "price", JNum (o_price o));
       (gs "expiry", JNum (o_expiry o));
       (gs "qos", JNum (o_qos o));
       (gs "signature", JStr (o_sig o))])))).
  { unfold enc_offer, MarshalOffer. rewrite P. reflexivity. }
  eexists. rewrite M, embed_obj by (cbn [forallb snd no_float]; rewrite no_float_strs; reflexivity).
  split; [reflexivity|]. split; [cbn [no_float forallb snd]; rewrite no_float_strs; reflexivity|].
  unfold dec_offer. apply W. unfold MarshalOffer. rewrite P. reflexivity.
Qed.

Lemma wire_suboffer_enc s : wire_suboffer s ->
  exists f, enc_sub s = Ret (JObj f) /\ no_float (JObj f) = true /\ dec_sub (JObj f) = Some s.
Proof.
  intros ((p & c & P & C & Lp & Lc) & HP & HE & HQ & H1 & H2 & H3).
  destruct s as [sp sc root mp price expiry qos sig].
  cbn [s_provider s_cid s_proof s_price s_expiry s_qos] in *. subst sp sc. unfold id32, uint64, int64 in *.
  assert (W := suboffer_wire_pf p c root mp price expiry qos sig
    (json_print (JObj
      [(gs "provider_id", JStr (ToString p));
       (gs "sub_cid", JStr (ToString c));
       (gs "merkle_root", JStr root);
       (gs "merkle_proof", proof_json mp);
       (gs "price", JNum price);
       (gs "expiry", JNum expiry);
       (gs "qos", JNum qos);
       (gs "signature", JStr sig)])) Lp Lc HP HE HQ H1 H2 H3 eq_refl).
  destruct (proof_json_str mp) as (ps & E & _).
  unfold enc_sub, MarshalSubOffer. cbn [s_provider s_cid s_root s_proof s_price s_expiry s_qos s_sig deref obind].
  eexists. rewrite embed_obj by (rewrite E; reflexivity). split; [reflexivity|].
  split; [rewrite E; reflexivity|]. unfold dec_sub. rewrite W. reflexivity.
Qed.

Lemma mapO_enc {A} (enc : A -> outcome json) (P : A -> json -> Prop) l :
  Forall (fun a => exists f, enc a = Ret (JObj f) /\ no_float (JObj f) = true /\ P a (JObj f)) l ->
  exists js, mapO enc l = Ret js /\ forallb no_float js = true /\ Forall2 (fun a j => P a j /\ j <> JNull) l js.
Proof.
  induction 1 as [|a l (f & E & N & D) _ (js & IE & IN & IF)].
  - exists []. repeat constructor.
  - exists (JObj f :: js). cbn [mapO]. rewrite E, IE. cbn [obind]. split; [reflexivity|].
    split; [cbn [forallb]; rewrite N, IN; reflexivity|]. constructor; [split; [exact D|discriminate]|assumption].
Qed.

Lemma dec_elems_F2 {A} (dec : json -> option A) zero l js :
  Forall2 (fun a j => dec j = Some a /\ j <> JNull) l js -> dec_elems dec zero js = Some l.
Proof.
  induction 1 as [|a j l js [H N] _ IH]; [reflexivity|]. cbn [dec_elems]. rewrite IH.
  destruct j; try congruence; rewrite H; reflexivity.
Qed.

Lemma mapO_F2 {A} (dec : json -> outcome (result A)) l js :
  Forall2 (fun a j => dec j = Ret (OkR a) /\ j <> JNull) l js -> mapO dec js = Ret (map OkR l).
Proof.
  induction 1 as [|a j l js [H N] _ IH]; [reflexivity|]. cbn [mapO map]. rewrite H, IH. reflexivity.
Qed.

Lemma all_ok_map {A} (l : list A) : all_ok (map OkR l) = Some l.
Proof. induction l as [|a l IH]; [reflexivity|]. cbn [map all_ok]. rewrite IH. reflexivity. Qed.

(** ** One field *)

Lemma fenc_total sha t v : fok sha t v ->
  exists j, fenc t v = Ret j /\ no_float j = true /\
    forall name k f, filter (named name) f = [(k, j)] -> fdec sha t name f = Ret (Some v).
Proof.
  destruct t; cbn [fval fenc fok fdec] in *; intros H.
  - eexists. split; [reflexivity|]. split; [reflexivity|]. intros name k f E.
    now rewrite (jfield_one _ _ _ _ _ _ E) by discriminate.
  - eexists. split; [reflexivity|]. split; [reflexivity|]. intros name k f E.
    now rewrite (jfield_one _ _ _ _ _ _ E) by discriminate.
  - eexists. split; [reflexivity|]. split; [reflexivity|]. intros name k f E.
    rewrite (jfield_one _ _ _ _ _ _ E) by discriminate. now rewrite dec_int_ok.
  - eexists. split; [reflexivity|]. split; [now apply no_float_slice|]. intros name k f E.
    rewrite (jslice_one _ _ _ _ _ E). destruct v as [l|]; cbn [json_slice dec_list]; [now rewrite dec_elems_strs|reflexivity].
  - eexists. split; [reflexivity|]. split; [apply no_float_slice; intros a; now apply no_float_slice|]. intros name k f E.
    rewrite (jslice_one _ _ _ _ _ E). destruct v as [l|]; cbn [json_slice dec_list]; [now rewrite dec_elems_strss|reflexivity].
  - eexists. split; [reflexivity|]. split; [now apply no_float_slice|]. intros name k f E.
    rewrite (jslice_one _ _ _ _ _ E). destruct v as [l|]; cbn [json_slice dec_list]; [now rewrite dec_elems_bools|reflexivity].
  - eexists. split; [reflexivity|]. split; [now apply no_float_slice|]. intros name k f E.
    rewrite (jslice_one _ _ _ _ _ E). destruct v as [l|]; cbn [json_slice dec_list]; [now rewrite dec_elems_nums|reflexivity].
  - eexists. split; [reflexivity|]. split; [apply no_float_message|]. intros name k f E.
    rewrite (jcustom_one _ _ _ _ _ _ E). now rewrite wire_message_dec.
  - eexists. split; [reflexivity|]. split; [apply no_float_slice; intros a; apply no_float_message|]. intros name k f E.
    rewrite (jslice_one _ _ _ _ _ E). destruct v as [l|]; cbn [json_slice dec_list]; [|reflexivity].
    rewrite dec_elems_map; [reflexivity|]. eapply Forall_impl; [|exact H]. intros m W.
    split; [now apply wire_message_dec|discriminate].
  - destruct (proof_json_str v) as (s & E & _). eexists. split; [reflexivity|]. split; [rewrite E; reflexivity|].
    intros name k f F. rewrite (jcustom_one _ _ _ _ _ _ F). now rewrite wire_proof_dec.
  - destruct (wire_offer_enc sha v H) as (f & E & N & D). exists (JObj f). split; [exact E|]. split; [exact N|].
    intros name k f' F. rewrite (jcustomO_one _ _ _ _ _ _ F), D. reflexivity.
  - destruct v as [l|].
    + destruct (mapO_enc enc_offer (fun o j => dec_offer sha j = Ret (OkR o)) l) as (js & E & N & D).
      { eapply Forall_impl; [|exact H]. apply wire_offer_enc. }
      exists (JArr js). cbn [enc_sliceO]. rewrite E. split; [reflexivity|]. split; [exact N|].
      intros name k f F. rewrite (jsliceO_one _ _ _ _ _ F), (mapO_F2 _ _ _ D). cbn [obind]. now rewrite all_ok_map.
    + exists JNull. split; [reflexivity|]. split; [reflexivity|].
      intros name k f F. rewrite (jsliceO_one _ _ _ _ _ F). reflexivity.
  - destruct v as [l|].
    + destruct (mapO_enc enc_sub (fun o j => dec_sub j = Some o) l) as (js & E & N & D).
      { eapply Forall_impl; [|exact H]. apply wire_suboffer_enc. }
      exists (JArr js). cbn [enc_sliceO]. rewrite E. split; [reflexivity|]. split; [exact N|].
      intros name k f F. rewrite (jslice_one _ _ _ _ _ F). cbn [dec_list]. now rewrite (dec_elems_F2 _ _ _ _ D).
    + exists JNull. split; [reflexivity|]. split; [reflexivity|].
      intros name k f F. rewrite (jslice_one _ _ _ _ _ F). reflexivity.
Qed.

(** ** Whole structs *)

Fixpoint keys_distinct (l : list gostring) : bool :=
  match l with
  | [] => true
  | k :: r => negb (existsb (fun k' => fold_eq k' k || fold_eq k k') r) && keys_distinct r
  end.

Lemma filter_one (f : list (gostring * json)) k j : keys_distinct (map fst f) = true -> In (k, j) f ->
  fold_eq k k = true -> filter (named k) f = [(k, j)].
Proof.
  induction f as [|[k' j'] f IH]; cbn [map fst keys_distinct]; intros D I R; [destruct I|].
  apply andb_true_iff in D as [D1 D2]. apply negb_true_iff in D1.
  assert (N : forall x, In x f -> fold_eq (fst x) k' = false /\ fold_eq k' (fst x) = false).
  { intros x Hx. apply orb_false_iff. destruct (_ || _) eqn:E; [|reflexivity]. rewrite <- D1. symmetry.
    apply existsb_exists. exists (fst x). split; [now apply in_map|exact E]. }
  cbn [filter]. unfold named at 1. cbn [fst]. destruct I as [[= -> ->]|I].
  - rewrite R. f_equal. clear IH D1 D2. induction f as [|x f IHf]; [reflexivity|]. cbn [filter]. unfold named at 1.
    rewrite (proj1 (N x (or_introl eq_refl))). apply IHf. intros y Hy. apply N. right. exact Hy.
  - assert (N2 := proj2 (N (k, j) I)). cbn [fst] in N2. rewrite N2. auto.
Qed.

Lemma fold_eq_refl k : fold_eq k k = true.
Proof. apply bytes_eqb_eq. reflexivity. Qed.

Lemma enc_fields_total sha s v : all_fok sha s v ->
  exists fs, enc_fields s v = Ret fs /\ forallb (fun kv => no_float (snd kv)) fs = true /\ map fst fs = map fst s /\
    forall f, (forall k j, In (k, j) fs -> filter (named k) f = [(k, j)]) -> dec_fields sha s f = Ret (Some v).
Proof.
  revert v. induction s as [|[k t] s IH]; intros v H.
  - exists []. destruct v. repeat split.
  - cbn [vals] in v. destruct v as [x y]. destruct H as [H1 H2]. cbn [fst snd] in *.
    destruct (fenc_total sha t x H1) as (j & E & N & D). destruct (IH y H2) as (fs & E' & N' & K & D').
    exists ((k, j) :: fs). cbn [enc_fields fst snd]. rewrite E, E'. cbn [obind]. split; [reflexivity|].
    split; [cbn [forallb snd]; now rewrite N, N'|]. split; [cbn [map fst]; now rewrite K|].
    intros f F. cbn [dec_fields]. rewrite (D k k f (F k j (or_introl eq_refl))). cbn [obind].
    rewrite D' by (intros k' j' I; apply F; right; exact I). reflexivity.
Qed.

Lemma codec_pf sha version supported tag s v : keys_distinct (map fst s) = true -> all_fok sha s v ->
  exists m, encode version supported tag s v = Ret m /\ fresh version supported tag m /\
    decode sha tag s m = Ret (OkR v).
Proof.
  intros K H. destruct (enc_fields_total sha s v H) as (fs & E & N & KF & D).
  unfold encode, marshal_body. rewrite E. cbn [obind]. eexists. split; [reflexivity|].
  split; [repeat split|]. unfold decode. cbn [CreateFCRMessage m_type m_body]. rewrite Z.eqb_refl. cbn [negb].
  unfold unmarshal_body. cbn [slice]. rewrite json_roundtrip by exact N.
  rewrite D; [reflexivity|]. intros k j I. apply filter_one; [now rewrite KF|exact I|apply fold_eq_refl].
Qed.

Lemma decode_tag sha tag s m : m_type m <> tag -> decode sha tag s m = Ret ErrR.
Proof. intros H. unfold decode. apply Z.eqb_neq in H. rewrite H. reflexivity. Qed.

Lemma encode_fresh version supported tag s v m : encode version supported tag s v = Ret m -> fresh version supported tag m.
Proof.
  unfold encode. destruct (marshal_body s v); try discriminate. cbn [obind]. intros E. apply ret_inj in E. subst m.
  repeat split.
Qed.
