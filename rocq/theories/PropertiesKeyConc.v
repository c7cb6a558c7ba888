(** * C226: a gateway that is initialised while it serves others *)
From Coq Require Import String List ZArith Bool Lia.
From Coq Require Import Init.Byte.
From Verif Require Import Base BaseProofs Ids Crypto CryptoProofs Message MessageProofs WireSpec OfferProofs Schema Messages
  Gateway GatewaySpec GatewayAdmin HttpNodeProofs KeyConc KeyConcSpec KeyConcProofs.
From Verif Require Import PropertiesCrypto PropertiesMerkle ToyGateway PropertiesSigned.
From Verif Require Rest Offer.
Import ListNotations.
Open Scope Z_scope.
Open Scope go_scope.

(** Full claim: the gateway, and each handler, at any time has one of the identities given, as a whole.  False, see below.
    Each part is that of one of the identities: the one before or one of those given meanwhile. *)
Theorem identity_parts_partial : forall f l schedule, Forall unbegun l ->
  composed (f :: given l) (fields (core_run (Core f l) schedule)) /\
  forall r i, has_read (core_run (Core f l) schedule) r i -> composed (f :: given l) i.
Proof.
  intros f l schedule U. set (known := f :: given l).
  assert (G : forall g, In g l -> match g with SetID i => In i (given l) | _ => True end).
  { clear - l. induction l as [|h l IH]; intros g []; [subst h; destruct g; cbn; auto|]. specialize (IH g H). destruct g; auto. destruct h; cbn; auto. }
  assert (S : sparts (fun x => exists a, In a known /\ x = f_id a) (fun x => exists a, In a known /\ x = f_key a) (fun x => exists a, In a known /\ x = f_ver a) (core_run (Core f l) schedule)).
  { apply parts_run. split; cbn [fields goroutines].
    - repeat split; exists f; (split; [left; reflexivity|reflexivity]).
    - intros i g E. apply nth_error_In in E. pose proof (G g E) as K. rewrite Forall_forall in U. specialize (U g E).
      destruct g as [x| | | | | | |]; cbn in U |- *; try tauto. repeat split; exists x; (split; [right; exact K|reflexivity]). }
  destruct S as (S & T). split; [exact S|]. intros r i H. apply In_nth_error in H. destruct H as (j & H). exact (T j _ H).
Qed.
Print Assumptions identity_parts_partial.

(** If nobody initialises it, it is who it was, for every handler. *)
Theorem identity_kept_partial : forall f l schedule, Forall unbegun l -> given l = [] ->
  fields (core_run (Core f l) schedule) = f /\ forall r i, has_read (core_run (Core f l) schedule) r i -> i = f.
Proof.
  intros f l schedule U N. destruct (identity_parts_partial f l schedule U) as (A & B). rewrite N in A, B.
  assert (E : forall i, composed [f] i -> i = f).
  { intros [a b c] ((x & [X|[]] & X') & (y & [Y|[]] & Y') & (z & [Z|[]] & Z')). subst x y z. destruct f. cbn in *. congruence. }
  split; [apply E, A|]. intros r i H. apply E, (B r i H).
Qed.
Print Assumptions identity_kept_partial.

(** One initialisation, with any number of other handlers: until it begins the gateway is who it was, and when it is over
    the one given. *)
Theorem identity_set_partial : forall f n l j schedule, nth_error l j = Some (SetID n) ->
  (forall i g, i <> j -> nth_error l i = Some g -> exists r, g = GetID r) ->
  let s := core_run (Core f l) schedule in
  (nth_error (goroutines s) j = Some (SetID n) -> fields s = f) /\ (nth_error (goroutines s) j = Some (IsSet n) -> fields s = n) /\
  (forall g, nth_error (goroutines s) j = Some g -> g = SetID n \/ g = SetKey n \/ g = SetVersion n \/ g = IsSet n).
Proof.
  intros f n l j schedule J O s. assert (A : alone f n j s).
  { apply alone_run. split; cbn [fields goroutines]; [exists (SetID n); tauto|]. intros i g N E. destruct (O i g N E) as (r & ->). exact I. }
  destruct A as ((g & E & K) & _). rewrite E. repeat split.
  - intros H. inversion H; subst g. destruct K as [(_ & K)|[(K & _)|[(K & _)|(K & _)]]]; [exact K|discriminate..].
  - intros H. inversion H; subst g. destruct K as [(K & _)|[(K & _)|[(K & _)|(_ & K)]]]; [discriminate..|exact K].
  - intros h H. inversion H; subst h. destruct K as [(K & _)|[(K & _)|[(K & _)|(K & _)]]]; tauto.
Qed.
Print Assumptions identity_set_partial.

Section answers.
  Variable version : Z.
  Variable supported : list Z.
  Variable sha256 : bytes -> bytes.
  Variable pub_of : bytes -> bytes.
  Variable ec_sign : bytes -> bytes -> option bytes.
  Variable ec_verify : bytes -> bytes -> bytes -> bool.
  Variable blake : bytes -> bytes.
  Hypothesis Law : ecdsa_correct pub_of ec_sign ec_verify.

  (** Whatever a handler answers in such a run is signed with a key the gateway was given. *)
  Theorem answers_signed_partial : forall f l schedule r i e g s, Forall unbegun l -> has_read (core_run (Core f l) schedule) r i ->
    answer_with version supported sha256 ec_sign blake e g i r = Ret s ->
    exists a, In a (f :: given l) /\ Forall (signed_as pub_of ec_verify blake (f_key a)) (messages (wrote s)).
  Proof using Law.
    intros f l schedule r i e g s U H A. destruct (identity_parts_partial f l schedule U) as (_ & B). destruct (B r i H) as (_ & (a & Ia & Ka) & _).
    exists a. split; [exact Ia|]. rewrite <- Ka. clear - A Law.
    assert (S : sat (fun s => Forall (signed_as pub_of ec_verify blake (f_key i)) (messages (wrote s))) (answer_with version supported sha256 ec_sign blake e g i r)); [|rewrite A in S; exact S].
    unfold answer_with, HandleEstablishment. apply sat_bind. intros [[[c ch] ttl]|] _; [|constructor]. apply sat_bind. intros c' _. destruct (unix e >? ttl); [constructor|].
    apply sat_bind. intros m _. unfold finish_rest. eapply sat_then; [exact (write_good pub_of ec_sign ec_verify blake Law (f_key i) (f_ver i) 500 m)|]. intros w W. exact W.
  Qed.
End answers.
Print Assumptions answers_signed_partial.

(** ** Mixed identities *)
Definition here (id key ver : Z) : identity := Identity (Some (idn id)) (Some (toy_key key)) ver.
Definition est_request : message := match EncodeClientEstablishmentRequest 1 [1] (Some (idn 99)) (gs "challenge") 45 with Ret m => m | _ => zero_message end.
Definition toy_answer (i : identity) : list message := match answer_with 1 [1] toy_hash toy_sign toy_blake toy_env toy_gw i est_request with Ret s => messages (wrote s) | _ => [] end.
Definition names (l : list message) : list (result Z) := map (fun m => ExtractKeyVersionFromMessage (m_sig m)) l.

(** A gateway with version 1 of its key is given version 2; an answer made meanwhile is signed with the new key and says that it
    is version 1. *)
Theorem mixed_answer_refuted : exists schedule i, let s := core_run (Core (here 50 5 1) [SetID (here 50 6 2); GetID est_request]) schedule in
  has_read s est_request i /\ names (toy_answer i) = [OkR 1] /\ verified 6 (toy_answer i) = [true] /\ verified 5 (toy_answer i) = [false] /\
  fields s = here 50 6 2.
Proof. exists [0; 0; 1; 1; 1; 0]%nat, (here 50 6 1). vm_compute. repeat split. right. left. reflexivity. Qed.
Print Assumptions mixed_answer_refuted.

(** A gateway is given another identifier and key; an answer made meanwhile has the old identifier and is signed with the
    new key, and the gateway never was both. *)
Theorem stale_identifier_refuted : exists schedule i, let s := core_run (Core (here 50 5 1) [GetID est_request; SetID (here 60 6 2)]) schedule in
  has_read s est_request i /\ map (DecodeClientEstablishmentResponse toy_hash) (toy_answer i) = [Ret (OkR (Some (idn 50), gs "challenge"))] /\
  verified 6 (toy_answer i) = [true] /\ verified 5 (toy_answer i) = [false] /\ fields s = here 60 6 2.
Proof. exists [0; 1; 1; 1; 0; 0]%nat, (here 50 6 2). vm_compute. repeat split. left. reflexivity. Qed.
Print Assumptions stale_identifier_refuted.

(** Two administrators initialise a gateway at once, each with an identifier and a key of its own.  When both are told so, it
    has the identifier of one and the key of the other, and keeps them. *)
Theorem mixed_gateway_refuted : exists schedule, let s := core_run (Core (here 50 5 1) [SetID (here 10 1 1); SetID (here 20 2 2)]) schedule in
  goroutines s = [IsSet (here 10 1 1); IsSet (here 20 2 2)] /\ fields s = here 20 1 1 /\
  map (DecodeClientEstablishmentResponse toy_hash) (toy_answer (fields s)) = [Ret (OkR (Some (idn 20), gs "challenge"))] /\
  verified 2 (toy_answer (fields s)) = [false] /\ verified 1 (toy_answer (fields s)) = [true].
Proof. exists [0; 1; 1; 1; 0; 0]%nat. vm_compute. repeat split. Qed.
Print Assumptions mixed_gateway_refuted.

(** One after the other. *)
Example in_turn_ex : let s := core_run (Core (here 50 5 1) [SetID (here 10 1 1); SetID (here 20 2 2); GetID est_request]) [0; 0; 0; 1; 1; 1; 2; 2; 2]%nat in
  fields s = here 20 2 2 /\ nth_error (goroutines s) 2 = Some (Got est_request (here 20 2 2)) /\ verified 2 (toy_answer (here 20 2 2)) = [true] /\ names (toy_answer (here 20 2 2)) = [OkR 2].
Proof. vm_compute. repeat split. Qed.
