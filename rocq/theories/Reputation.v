(** * The reputation of clients

    Models gateway/internal/reputation and the two admin handlers that use it.  The
    maps of gateways and of providers (reputation.go L36-39) are never used by the code.
    Reading [GetSingleInstance] and logging are left out.  Definitions only. *)
From Coq Require Import String List ZArith Bool.
From Verif Require Import Base Ids Crypto Message Offer Schema Messages Rest.
Import ListNotations.
Open Scope Z_scope.
Open Scope go_scope.

(** reputation_constants.go L5-9. *)
Definition clientMaxReputation : Z := 10000.
Definition clientMinReputaiton : Z := -10000.
Definition clientInitialReputation : Z := 10.
Definition clientEstablishmentChallenge : Z := -1.
Definition clientOnChainDeposit : Z := 1000.
(** reputation_constants.go L12, L15, L18, L21. *)
Definition clientStdDiscOneCidOffer : Z := 10.
Definition clientStdDiscNoCidOffers : Z := 1.
Definition clientStdDiscLateCidOffers : Z := 1.
Definition clientStdDiscNonPayment : Z := -100.
(** reputation_constants.go L24, L27, L30, L33. *)
Definition clientDhtDiscOneCidOffer : Z := 10.
Definition clientDhtDiscNoCidOffers : Z := 1.
Definition clientDhtDiscLateCidOffers : Z := 1.
Definition clientDhtDiscNonPayment : Z := -300.
(** reputation_constants.go L36, L39. *)
Definition clientMicroPayment : Z := 1.
Definition clientInvalidMessage : Z := -10.

(** reputation.go L34 [clients]. *)
Definition reps := list (gostring * Z).

(** reputation_store.go L12-18 [getClientReputation]. *)
Definition getClientReputation (r : reps) (id : option bytes) : outcome (Z * bool) :=
  let* s := id_text id in
  Ret (match aget bytes_eqb r s with Some v => (v, true) | None => (0, false) end).

(** reputation_store.go L20-25 [setClientReputation]. *)
Definition setClientReputation (r : reps) (id : option bytes) (val : Z) : outcome reps :=
  let* s := id_text id in
  Ret (aset bytes_eqb r s val).

(** reputation_store.go L27-48 [changeClientReputation]; the lock is released before the
    panic of L35. *)
Definition changeClientReputation (r : reps) (id : option bytes) (amount : Z) : outcome (Z * reps) :=
  let* s := id_text id in
  match aget bytes_eqb r s with
  | None => Panic
  | Some val =>
      let newVal := wrap64 (val + amount) in
      let newVal := if newVal >? clientMaxReputation then clientMaxReputation
                    else if newVal <? clientMinReputaiton then clientMinReputaiton else newVal in
      Ret (newVal, aset bytes_eqb r s newVal)
  end.

(** reputation.go L60-62 [establishClientReputation]. *)
Definition establishClientReputation (r : reps) (id : option bytes) : outcome reps :=
  setClientReputation r id clientInitialReputation.

(** reputation.go L65-67 [SetClientReputation]. *)
Definition SetClientReputation (r : reps) (id : option bytes) (val : Z) : outcome reps := setClientReputation r id val.

(** reputation.go L70-73 [ClientExists]. *)
Definition ClientExists (r : reps) (id : option bytes) : outcome bool :=
  let* x := getClientReputation r id in Ret (snd x).

(** reputation.go L76-79 [GetClientReputation]. *)
Definition GetClientReputation (r : reps) (id : option bytes) : outcome (Z * bool) := getClientReputation r id.

(** reputation.go L84-90 [ClientEstablishmentChallenge]. *)
Definition ClientEstablishmentChallenge (r : reps) (id : option bytes) : outcome (Z * reps) :=
  let* x := getClientReputation r id in
  let* r := (if snd x then Ret r else establishClientReputation r id) in
  changeClientReputation r id clientEstablishmentChallenge.

(** reputation.go L94-158: the functions that report an event. *)
Inductive event :=
| OnChainDeposit
| ClientStdDiscOneCidOffer
| ClientStdDiscNoCidOffers
| ClientStdDiscLateCidOffers
| ClientStdDiscNonPayment
| ClientDhtDiscOneCidOffer
| ClientDhtDiscNoCidOffers
| ClientDhtDiscLateCidOffers
| ClientDhtDiscNonPayment
| ClientMicroPayment
| ClientInvalidMessage.

(** reputation.go L95, L101, L107, L113, L120, L126, L132, L139, L146, L152, L157: the amounts. *)
Definition amount (e : event) : Z :=
  match e with
  | OnChainDeposit => clientOnChainDeposit
  | ClientStdDiscOneCidOffer => clientStdDiscOneCidOffer
  | ClientStdDiscNoCidOffers => clientStdDiscNoCidOffers
  | ClientStdDiscLateCidOffers => clientStdDiscLateCidOffers
  | ClientStdDiscNonPayment => clientStdDiscNonPayment
  | ClientDhtDiscOneCidOffer => clientDhtDiscOneCidOffer
  | ClientDhtDiscNoCidOffers => clientDhtDiscNoCidOffers
  | ClientDhtDiscLateCidOffers => clientDhtDiscLateCidOffers
  | ClientDhtDiscNonPayment => clientDhtDiscNonPayment
  | ClientMicroPayment => clientMicroPayment
  | ClientInvalidMessage => clientInvalidMessage
  end.

(** reputation.go L94-158. *)
Definition Report (r : reps) (id : option bytes) (e : event) : outcome reps :=
  let* x := changeClientReputation r id (amount e) in Ret (snd x).

Section admin.
  Variable version : Z.
  Variable supported : list Z.
  Variable sha256 : bytes -> bytes.
  Variable ec_sign : bytes -> bytes -> option bytes.
  Variable blake : bytes -> bytes.

  (** adminapi/set_client_reputation_handler.go L29-76
      [HandleGatewayAdminSetReputationRequest]. *)
  Definition HandleSetReputation (key : option keypair) (ver : Z) (r : reps) (request : message)
      : outcome (answer * reps) :=
    match key with
    | None => Ret (HttpError 400, r)
    | Some _ =>
        let* d := DecodeGatewayAdminSetReputationRequest sha256 request in
        match d with
        | ErrR => Ret (HttpError 400, r)
        | OkR (clientID, reputation) =>
            let* exists_ := ClientExists r clientID in
            let* r' := (if exists_ then SetClientReputation r clientID reputation else Ret r) in
            let currentRep := if exists_ then reputation else 0 in
            let* response := EncodeGatewayAdminSetReputationResponse version supported clientID currentRep exists_ in
            let* a := SignAndWrite ec_sign blake key ver 500 response in
            Ret (a, r')
        end
    end.

  (** adminapi/get_client_reputation_handler.go L29-70
      [HandleGatewayAdminGetReputationRequest]. *)
  Definition HandleGetReputation (key : option keypair) (ver : Z) (r : reps) (request : message) : outcome answer :=
    match key with
    | None => Ret (HttpError 400)
    | Some _ =>
        let* d := DecodeGatewayAdminGetReputationRequest sha256 request in
        match d with
        | ErrR => Ret (HttpError 400)
        | OkR clientID =>
            let* x := GetClientReputation r clientID in
            let* response := EncodeGatewayAdminGetReputationResponse version supported clientID (fst x) (snd x) in
            SignAndWrite ec_sign blake key ver 500 response
        end
    end.
End admin.

(** ** Several goroutines

    What can be asked of the package: an establishment challenge, an event, a plain
    setting, the admin's setting (set_client_reputation_handler.go L49-55). *)
Inductive op :=
| Challenge (id : option bytes)
| Reported (id : option bytes) (e : event)
| SetTo (id : option bytes) (v : Z)
| AdminSetTo (id : option bytes) (v : Z).

(** One after the other: a panic ends the operation and nothing else. *)
Definition do_op (r : reps) (o : op) : reps :=
  match (match o with
         | Challenge id => let* x := ClientEstablishmentChallenge r id in Ret (snd x)
         | Reported id e => Report r id e
         | SetTo id v => SetClientReputation r id v
         | AdminSetTo id v =>
             let* exists_ := ClientExists r id in
             if exists_ then SetClientReputation r id v else Ret r
         end) with
  | Ret r' => r'
  | _ => r
  end.

(** [clientsMapLock] is held for one access only (reputation_store.go L14-16, L22-24,
    L31-45), so other goroutines run between the accesses of one operation. *)
Inductive pc :=
| Idle
| AtEstablish (id : option bytes)            (* reputation.go L87 *)
| AtChange (id : option bytes)               (* reputation.go L89 *)
| AtSet (id : option bytes) (v : Z).         (* set_client_reputation_handler.go L53 *)

Record thread := Thread { t_pc : pc; t_todo : list op }.

(** One critical section of one goroutine: the map afterwards, where the goroutine
    continues and whether the operation panicked. *)
Definition step_pc (r : reps) (p : pc) : outcome (reps * pc) :=
  match p with
  | Idle => Ret (r, Idle)
  | AtEstablish id => let* r' := establishClientReputation r id in Ret (r', AtChange id)
  | AtChange id => let* x := changeClientReputation r id clientEstablishmentChallenge in Ret (snd x, Idle)
  | AtSet id v => let* r' := SetClientReputation r id v in Ret (r', Idle)
  end.

Definition step_op (r : reps) (o : op) : outcome (reps * pc) :=
  match o with
  | Challenge id =>
      let* x := getClientReputation r id in
      Ret (r, if snd x then AtChange id else AtEstablish id)
  | Reported id e => let* r' := Report r id e in Ret (r', Idle)
  | SetTo id v => let* r' := SetClientReputation r id v in Ret (r', Idle)
  | AdminSetTo id v => let* x := ClientExists r id in Ret (r, if x then AtSet id v else Idle)
  end.

Record system := System { s_reps : reps; s_threads : list thread; s_panics : nat }.

Definition settle (s : system) (i : nat) (todo : list op) (x : outcome (reps * pc)) : system :=
  match x with
  | Ret (r, p) => System r (set_nth (s_threads s) i (Thread p todo)) (s_panics s)
  | _ => System (s_reps s) (set_nth (s_threads s) i (Thread Idle todo)) (S (s_panics s))
  end.

Definition step (s : system) (i : nat) : system :=
  match nth_error (s_threads s) i with
  | None => s
  | Some (Thread Idle []) => s
  | Some (Thread Idle (o :: todo)) => settle s i todo (step_op (s_reps s) o)
  | Some (Thread p todo) => settle s i todo (step_pc (s_reps s) p)
  end.

Definition start (r : reps) (jobs : list (list op)) : system := System r (map (Thread Idle) jobs) 0.
Definition run (s : system) (schedule : list nat) : system := fold_left step schedule s.
