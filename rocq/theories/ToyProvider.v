(** * A concrete world for the examples about providers

    Provider 70 with key 7, and the three gateways of [ToyGateway], which answer as
    modelled in [Gateway].  Definitions only, and that a computed life is one. *)
From Coq Require Import String List ZArith Bool.
From Coq Require Import Init.Byte.
From Verif Require Import Base Ids Crypto Message Offer Schema Messages Payment Register RegisterSpec SqlOffers Rest Gateway GatewaySpec
  OfferStore GatewayAdmin Provider ProviderSpec PropertiesMerkle PropertiesCrypto PropertiesSql ToyGateway.
Import ListNotations.
Open Scope Z_scope.
Open Scope go_scope.

Section lives.
  Variable version : Z.
  Variable supported : list Z.
  Variable sha256 sha512_256 : bytes -> bytes.
  Variable pub_of : bytes -> bytes.
  Variable ec_sign : bytes -> bytes -> option bytes.
  Variable ec_verify : bytes -> bytes -> bytes -> bool.
  Variable blake : bytes -> bytes.

  (** The steps of serving these requests. *)
  Fixpoint plife (p : provider) (l : list (manager info * penv * provider_kind * message)) : outcome (list pstep * provider) :=
    match l with
    | [] => Ret ([], p)
    | (reg, e, k, m) :: t =>
        let* x := pact version supported sha256 sha512_256 pub_of ec_sign ec_verify blake e (p_with_reg p reg) k m in
        let '(p', answers, sent) := x in
        let* r := plife p' t in
        Ret (PStep (p_with_reg p reg) e k m p' answers sent :: fst r, snd r)
    end.

  Lemma plife_lived l : forall p ss p', plife p l = Ret (ss, p') ->
    lived version supported sha256 sha512_256 pub_of ec_sign ec_verify blake p ss p'.
  Proof.
    induction l as [|[[[reg e] k] m] t IH]; intros p ss p' H; cbn [plife] in H.
    - injection H as <- <-. reflexivity.
    - destruct (pact _ _ _ _ _ _ _ _ e (p_with_reg p reg) k m) as [[[q answers] sent]| |] eqn:E; try discriminate.
      cbn [obind] in H. destruct (plife q t) as [[ts r]| |] eqn:F; try discriminate. injection H as <- <-.
      cbn [lived s_before s_env s_kind s_msg s_after s_answers s_sent fst snd]. split; [exists reg; reflexivity|]. split; [exact E|].
      apply IH. exact F.
  Qed.
End lives.

(** Gateways 10, 20, 30 with keys 1, 2, 3 and empty databases. *)
Definition toy_gw_at (id : bytes) : gateway :=
  Gateway (Some id) (Some (toy_key (be_val id / 10))) 1 3 2 10 (Some (NewMgr (gs "gw"))) empty_db toy_reg.

(** What such a gateway answers to a request of a provider. *)
Definition toy_answer (id : bytes) (m : message) : option message :=
  let r :=
    if m_type m =? ProviderPublishDHTOfferRequestType
    then HandlePublishDHT 1 [1] toy_hash toy_hash toy_pub toy_sign PropertiesCrypto.toy_verify toy_blake toy_env (toy_gw_at id) m
    else HandlePublishGroup 1 [1] toy_hash toy_hash toy_pub toy_sign PropertiesCrypto.toy_verify toy_blake toy_env (toy_gw_at id) m in
  match r with Ret (_, Reply a) => Some a | _ => None end.

(** Second [t]; everybody can be reached and answers. *)
Definition toy_penv (t : Z) : penv :=
  PEnv (t * 1000000000) (fun x => x) (fun x => x) (fun x => x) (fun _ => None) (fun _ => None) (fun _ _ => true) (fun _ => toy_answer) true.
(** Only gateway 10 answers. *)
Definition lonely_penv (t : Z) : penv :=
  PEnv (t * 1000000000) (fun x => x) (fun x => x) (fun x => x) (fun _ => None) (fun _ => None) (fun _ _ => true)
    (fun _ id m => if bytes_eqb id (idn 10) then toy_answer id m else None) true.
(** Nobody answers, and there is no payment manager. *)
Definition silent_penv (t : Z) : penv :=
  PEnv (t * 1000000000) (fun x => x) (fun x => x) (fun x => x) (fun _ => None) (fun _ => None) (fun _ _ => true) (fun _ _ _ => None) false.

Definition msg_of (o : outcome message) : message := ok_or zero_message o.
Definition init_req (id key : Z) : message := msg_of (EncodeProviderAdminInitialiseKeyRequest 1 [1] (Some (idn id)) (Some (toy_key key)) (Some 1)).
Definition init_v2_req (id key : Z) : message :=
  msg_of (EncodeProviderAdminInitialiseKeyRequestV2 1 [1] (Some (idn id)) (Some (toy_key key)) (Some 1) (gs "ab") (gs "lotus") (gs "token")).
Definition pub_dht_req (cids : list Z) (price expiry : Z) : message :=
  msg_of (EncodeProviderAdminPublishDHTOfferRequest 1 [1] (map idn cids) (Some (map (fun _ => price) cids)) (Some (map (fun _ => expiry) cids))
    (Some (map (fun _ => 1) cids))).
Definition pub_group_req (cids : list Z) (price expiry : Z) : message :=
  msg_of (EncodeProviderAdminPublishGroupOfferRequest 1 [1] (map idn cids) price expiry 1).
Definition get_pub_req (ids : list Z) : message := msg_of (EncodeProviderAdminGetPublishedOfferRequest 1 [1] (map idn ids)).
Definition ack_req (c id : Z) : message := msg_of (EncodeClientDHTOfferAckRequest 1 [1] (Some (idn c)) (Some (idn id))).
Definition list_req (id key lo hi : Z) : message :=
  signed key (EncodeGatewayListDHTOfferRequest 1 [1] (Some (idn id)) (Some (idn lo)) (Some (idn hi)) (gs "TODO") (gs "TODO") (gs "TODO") (Some (Merkle.Proof [idn 1] [1]))).
Definition notify_req (id key : Z) (b : bool) : message :=
  signed key (EncodeGatewayNotifyProviderGroupCIDOfferSupportRequest 1 [1] (Some (idn id)) b).

Definition toy_plife (l : list (penv * provider_kind * message)) : outcome (list pstep * provider) :=
  plife 1 [1] toy_hash toy_hash toy_pub toy_sign PropertiesCrypto.toy_verify toy_blake (NewProvider toy_reg)
    (map (fun x => (toy_reg, fst (fst x), snd (fst x), snd x)) l).
Definition steps_of (o : outcome (list pstep * provider)) : list pstep := match o with Ret (ss, _) => ss | _ => [] end.
Definition end_of (o : outcome (list pstep * provider)) : provider := match o with Ret (_, p) => p | _ => NewProvider toy_reg end.

(** The key is set, a group offer and an offer are published. *)
Definition toy_requests : list (penv * provider_kind * message) :=
  [(toy_penv 40, AdminInitialiseKey, init_req 70 7); (toy_penv 41, AdminPublishGroup, pub_group_req [1; 2] 10 100);
   (toy_penv 42, AdminPublishDHT, pub_dht_req [15] 20 100)].

(** What such a gateway acknowledges when the provider answers its listing with [m]. *)
Definition toy_list_ack (id : bytes) (m : message) : option message :=
  match GatewayAdmin.RequestListCIDOffer 1 [1] toy_hash toy_hash toy_pub toy_sign PropertiesCrypto.toy_verify toy_blake toy_env (fun _ => Some m) (toy_gw_at id)
          [GatewayAdmin.ArgCID (Some (idn 0)); GatewayAdmin.ArgCID (Some (idn 0)); GatewayAdmin.ArgNode (Some (idn 70))] with
  | Ret a => match GatewayAdmin.k_sent a with [_; ack] => Some ack | _ => None end
  | _ => None
  end.

(** Twenty gateways with the identifiers 1 to 20. *)
Definition crowd : list (gostring * info) := map (fun n => (ToString (idn n), toy_info n n (gs "addr"))) (map Z.of_nat (seq 1 20)).
Definition crowd_reg : manager info := Eval vm_compute in ok_or toy_idle (Refresh info toy_idle (listing info crowd) (listing info [])).
Definition crowd_plife (l : list (penv * provider_kind * message)) : outcome (list pstep * provider) :=
  plife 1 [1] toy_hash toy_hash toy_pub toy_sign PropertiesCrypto.toy_verify toy_blake (NewProvider crowd_reg)
    (map (fun x => (crowd_reg, fst (fst x), snd (fst x), snd x)) l).

Definition is_ret {A} (o : outcome A) : bool := match o with Ret _ => true | _ => false end.
Lemma ret_of o : is_ret o = true -> o = Ret (steps_of o, end_of o).
Proof. destruct o as [[ss p]| |]; try discriminate. reflexivity. Qed.

(** The provider afterwards. *)
Definition toy_prov : provider := Eval vm_compute in end_of (toy_plife toy_requests).
Definition toy_steps : list pstep := steps_of (toy_plife toy_requests).
(** The exchanges with gateways meanwhile. *)
Definition toy_exchanges : list exchange := Eval vm_compute in flat_map s_sent toy_steps.

(** The two offers. *)
Definition toy_group : offer := Eval vm_compute in toy_signed_offer 70 7 [idn 1; idn 2] 10 100.
Definition toy_single : offer := Eval vm_compute in toy_signed_offer 70 7 [idn 15] 20 100.

Definition listed_cids (m : message) : list (list (list Z)) :=
  match DecodeGatewayListDHTOfferResponse toy_hash m with
  | Ret (OkR (Some l)) => map (fun x => match DecodeProviderPublishDHTOfferRequest toy_hash x with
      Ret (OkR (_, _, Some os)) => map (fun o => map be_val (o_cids o)) os | _ => [] end) l
  | _ => []
  end.
