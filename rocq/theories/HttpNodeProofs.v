(** * What the handlers of the nodes write *)
From Coq Require Import String List ZArith Bool Lia.
From Coq Require Import Init.Byte.
From Verif Require Import Base BaseProofs Ids Crypto Message WireSpec OfferProofs Schema SchemaProofs Messages MessagesSpec MessagesProofs Payment Register Rest Routes Server Reputation
  Gateway GatewaySpec GatewayProofs GatewayAdmin Provider Client HttpSpec.
From Verif Require AdminSpec RetrievalSpec AckSpec.
Import ListNotations.
Open Scope Z_scope.
Open Scope go_scope.

Definition sat {A} (P : A -> Prop) (o : outcome A) : Prop := match o with Ret v => P v | _ => True end.
Lemma sat_bind {A B} (P : B -> Prop) (c : outcome A) k : (forall v, c = Ret v -> sat P (k v)) -> sat P (obind c k).
Proof. destruct c; cbn; auto. Qed.
Lemma sat_then {A B} (Q : A -> Prop) (P : B -> Prop) (c : outcome A) k : sat Q c -> (forall v, Q v -> sat P (k v)) -> sat P (obind c k).
Proof. destruct c; cbn; auto. Qed.
Lemma sat_ret {A} (P : A -> Prop) v : P v -> sat P (Ret v).
Proof. exact (fun H => H). Qed.

Section nodes.
  Variable version : Z.
  Variable supported : list Z.
  Variable sha256 sha512_256 : bytes -> bytes.
  Variable pub_of : bytes -> bytes.
  Variable ec_sign : bytes -> bytes -> option bytes.
  Variable ec_verify : bytes -> bytes -> bytes -> bool.
  Variable blake : bytes -> bytes.
  Variable verify : gostring -> voucher -> option bytes -> bool.
  Variable voucher_text : voucher -> gostring.
  Variable voucher_of : gostring -> option voucher.
  Variable is_address : gostring -> bool.
  Variable zone : Z.
  Variables BindAdminAPI BindRestAPI BindGatewayAPI BindProviderAPI : gostring.
  Hypothesis Hv : int32 version.
  Hypothesis Hs : Forall int32 supported.

  Lemma encoded tag s v m : int32 tag -> encode version supported tag s v = Ret m -> wire_message m.
  Proof using Hv Hs. intros T H. apply encode_fresh in H. destruct H as (A & B & C & _). unfold wire_message. rewrite A, B, C. repeat split; auto; [apply T|apply T|apply Hv|apply Hv]. Qed.
  Lemma signed_wire m m' : with_signature m m' -> wire_message m -> wire_message m'.
  Proof using. intros [s ->] H. exact H. Qed.

  Definition fine (s : served) : Prop := sound (wrote s).
  Definition pfine (s : pserved) : Prop := sound (p_wrote s).

  Lemma sign_sound key ver code m : code <> 200 -> wire_message m -> sat (fun a => sound [a]) (SignAndWrite ec_sign blake key ver code m).
  Proof using.
    intros C W. unfold SignAndWrite. apply sat_bind. intros [ok m'] S. apply sign_with_inv in S. apply sat_ret. constructor; [|constructor].
    destruct ok; cbn [fst snd]; [exact (signed_wire m m' S W)|exact C].
  Qed.
  Lemma finish_sound g m before out : sound before -> wire_message m -> sat fine (finish_rest ec_sign blake g m before out).
  Proof using.
    intros B W. unfold finish_rest. eapply sat_then; [apply (sign_sound _ _ 500); [discriminate|exact W]|]. intros a A. apply Forall_app. split; [exact B|exact A].
  Qed.
  Lemma p_finish_sound p m : wire_message m -> sat pfine (p_finish ec_sign blake p m).
  Proof using. intros W. unfold p_finish. eapply sat_then; [apply (sign_sound _ _ 500); [discriminate|exact W]|]. intros a A. exact A. Qed.
  Lemma p_quiet_sound p m out : wire_message m -> sat pfine (p_finish_quietly ec_sign blake p m out).
  Proof using.
    intros W. unfold p_finish_quietly. apply sat_bind. intros [ok m'] S. apply sign_with_inv in S. unfold pfine. cbn [sat p_wrote fst snd].
    destruct ok; [constructor; [exact (signed_wire m m' S W)|]|]; constructor.
  Qed.

  Ltac head t := lazymatch t with ?f _ => head f | _ => t end.
  Ltac wired := match goal with
    | H : ?e = Ret ?m |- wire_message ?m =>
        try (match e with (if ?b then _ else _) => destruct b end); strip H;
        (let e := lazymatch type of H with ?e = _ => e end in let h := head e in try unfold h in H; strip H);
        (eapply encoded; [|exact H]); vm_compute; split; discriminate
    end.
  Ltac go := repeat match goal with
    | |- sat _ (obind _ _) => apply sat_bind; intros ? ?
    | |- sat fine (quit _ _) => repeat constructor; discriminate
    | |- sat fine (drop _) => constructor
    | |- sat pfine (p_quit _ _) => repeat constructor; discriminate
    | |- sat fine (finish_rest _ _ _ _ _ _) => apply finish_sound
    | |- sat pfine (p_finish _ _ _ _) => apply p_finish_sound
    | |- sat pfine (p_finish_quietly _ _ _ _ _) => apply p_quiet_sound
    | |- sat _ (match ?x with _ => _ end) => destruct x eqn:?
    | |- sound [] => constructor
    | |- wire_message _ => wired
    end.

  Lemma establishment_sound e g m : sat fine (HandleEstablishment version supported sha256 ec_sign blake e g m).
  Proof using Hv Hs. unfold HandleEstablishment. go. Qed.
  Lemma standard_sound e g m : sat fine (HandleStandardDiscover version supported sha256 ec_sign blake zone e g m).
  Proof using Hv Hs. unfold HandleStandardDiscover. go. Qed.
  Lemma standard_v2_sound e g m : sat fine (HandleStandardDiscoverV2 version supported sha256 sha512_256 ec_sign blake verify voucher_of is_address zone e g m).
  Proof using Hv Hs. unfold HandleStandardDiscoverV2. go. Qed.
  Lemma standard_offer_sound e g m : sat fine (HandleStandardOffer version supported sha256 ec_sign blake verify voucher_of is_address zone e g m).
  Proof using Hv Hs. unfold HandleStandardOffer. go. Qed.
  Lemma dht_sound e g m : sat fine (HandleDHTDiscover version supported sha256 pub_of ec_sign ec_verify blake e g m).
  Proof using Hv Hs. unfold HandleDHTDiscover. go. Qed.
  Definition coded {A B} (x : (Z + A) * gateway * B) : Prop := match fst (fst x) with inl code => code <> 200 | inr _ => True end.
  Lemma all_v2_coded e c gws : forall n g w, sat coded (discover_all_v2 version supported pub_of ec_sign ec_verify blake voucher_text e n g c gws w).
  Proof using.
    induction gws as [|i t IH]; intros n g w; cbn [discover_all_v2]; [exact I|]. destruct (NewNodeIDFromHexString (n_id i)); [|discriminate].
    apply sat_bind. intros [r g1] _. eapply (sat_then (fun y : (Z + (gostring * gostring)) * gateway => match fst y with inl code => code <> 200 | inr _ => True end)).
    - destruct r; cbn; auto; [|discriminate]. apply sat_bind. intros [[[ch v]|] g2] _; cbn; [exact I|discriminate].
    - intros [[code|[ch text]] g2] C; cbn [fst] in C; [exact C|]. apply sat_bind. intros [[r2 g3] o] _. apply IH.
  Qed.
  Lemma dht_v2_sound e g m : sat fine (HandleDHTDiscoverV2 version supported sha256 pub_of ec_sign ec_verify blake verify voucher_text voucher_of is_address e g m).
  Proof using Hv Hs.
    unfold HandleDHTDiscoverV2. cbv zeta. repeat match goal with
    | |- sat _ (obind (discover_all_v2 _ _ _ _ _ _ _ _ _ _ _ _ _) _) => apply (sat_then coded); [apply all_v2_coded|intros [[[code|w] ga] out1] C; unfold coded in C; cbn [fst] in C]
    | |- sat _ (obind _ _) => apply sat_bind; intros ? ?
    | |- sat fine (quit _ _) => repeat constructor; discriminate
    | |- sat fine (drop _) => constructor
    | |- sat fine (finish_rest _ _ _ _ _ _) => apply finish_sound
    | |- sat _ (match ?x with _ => _ end) => destruct x eqn:?
    | |- wire_message _ => wired
    end.
    - unfold fine. cbn [sat wrote]. apply Forall_app. split; [destruct (_ <? _); repeat constructor; discriminate|repeat constructor; exact C].
    - destruct (_ <? _); repeat constructor; discriminate.
  Qed.
  Lemma offers_all_coded e c nonce ds ids : forall n g w, sat coded (offers_all version supported pub_of ec_sign ec_verify blake voucher_text e n g c nonce ds ids w).
  Proof using.
    induction ids as [|i t IH]; intros n g w; cbn [offers_all]; [exact I|]. apply sat_bind. intros these _. apply sat_bind. intros [j g1] _. cbv zeta. apply sat_bind. intros k _.
    apply sat_bind. intros [r g2] _. eapply (sat_then (fun y : (Z + (gostring * gostring)) * gateway => match fst y with inl code => code <> 200 | inr _ => True end)).
    - destruct r; cbn; auto; [|discriminate]. apply sat_bind. intros mg _. destruct (Topup mg _ _ _) as [m' ok]. destruct ok; cbn [negb]; [|discriminate].
      apply sat_bind. intros [[ | | ] g3] _; cbn; auto. discriminate.
    - intros [[code|[ch text]] g3] C; cbn [fst] in C; [exact C|]. apply sat_bind. intros [[r2 g4] o] _. apply IH.
  Qed.
  Lemma dht_offer_sound e g m : sat fine (HandleDHTOffer version supported sha256 pub_of ec_sign ec_verify blake verify voucher_text voucher_of is_address e g m).
  Proof using Hv Hs.
    unfold HandleDHTOffer. cbv zeta. repeat match goal with
    | |- sat _ (obind (offers_all _ _ _ _ _ _ _ _ _ _ _ _ _ _ _) _) => apply (sat_then coded); [apply offers_all_coded|intros [[[code|w] ga] out1] C; unfold coded in C; cbn [fst] in C]
    | |- sat _ (obind _ _) => apply sat_bind; intros ? ?
    | |- sat fine (quit _ _) => repeat constructor; discriminate
    | |- sat fine (finish_rest _ _ _ _ _ _) => apply finish_sound
    | |- sat _ (match ?x with _ => _ end) => destruct x eqn:?
    | |- wire_message _ => wired
    end.
    - unfold fine. cbn [sat wrote]. apply Forall_app. split; [destruct (_ <? _); repeat constructor; discriminate|repeat constructor; exact C].
    - destruct (_ <? _); repeat constructor; discriminate.
  Qed.

  Definition fine_pair {A} (x : A * list Rest.answer) : Prop := sound (snd x).
  Lemma done_sound {A} (o : outcome served) (f : served -> A) : sat fine o -> sat fine_pair (let* s := o in Ret (f s, wrote s)).
  Proof using. intros H. eapply sat_then; [exact H|]. intros s S. exact S. Qed.
  Lemma client_api_sound e g m :
    sat fine_pair (RetrievalSpec.client_api version supported sha256 sha512_256 pub_of ec_sign ec_verify blake verify voucher_text voucher_of is_address zone
      BindAdminAPI BindRestAPI BindGatewayAPI BindProviderAPI e g m).
  Proof using Hv Hs.
    unfold RetrievalSpec.client_api. destruct (routed _ _ _ _ _ _ _) as [k|]; [|constructor]. unfold RetrievalSpec.client_handler. destruct k; try (constructor); apply done_sound;
      [apply dht_offer_sound|apply dht_sound|apply dht_v2_sound|apply establishment_sound|apply standard_offer_sound|apply standard_sound|apply standard_v2_sound].
  Qed.

  (** ** Administration *)
  Lemma gateway_api_sound e order wallet n m :
    sat fine_pair (AdminSpec.gateway_api version supported sha256 ec_sign blake BindAdminAPI BindRestAPI BindGatewayAPI BindProviderAPI e order wallet n m).
  Proof using Hv Hs.
    unfold AdminSpec.gateway_api. destruct (routed _ _ _ _ _ _ _) as [k|]; [|constructor]. unfold AdminSpec.gateway_handler. destruct k; try (constructor).
    - apply done_sound. unfold GatewayAdmin.HandleAdminForceRefresh. go.
    - eapply sat_then; [|intros a A; exact A]. unfold HandleGetReputation. go; try (repeat constructor; discriminate). apply sign_sound; [discriminate|]. wired.
    - apply done_sound. unfold GatewayAdmin.HandleAdminInitialiseKey. go.
    - apply done_sound. unfold GatewayAdmin.HandleAdminInitialiseKeyV2. go.
    - eapply (sat_then (fun x => fine (fst x))); [|intros x X; exact X]. unfold HandleAdminListDHT. destruct (g_key _); [|repeat constructor; discriminate].
      apply sat_bind. intros [refresh|] _; [|repeat constructor; discriminate]. apply sat_bind. intros x _. apply sat_bind. intros resp R.
      eapply sat_then; [apply finish_sound; [constructor|wired]|]. intros s S. exact S.
    - eapply (sat_then (fun x : answer * reps => sound [fst x])); [|intros a A; exact A]. unfold HandleSetReputation. destruct (g_key _); [|repeat constructor; discriminate].
      apply sat_bind. intros [[c v]|] _; [|repeat constructor; discriminate]. apply sat_bind. intros ex _. apply sat_bind. intros r' _. cbv zeta. apply sat_bind. intros resp R.
      eapply sat_then; [apply (sign_sound _ _ 500); [discriminate|wired]|]. intros a A. exact A.
    - eapply (sat_then (fun x : served * option (list bytes) * list started => fine (fst (fst x)))); [|intros [[s ids] st] A; exact A]. unfold HandleAdminSupport.
      apply sat_bind. intros [[x ids]|] _; [|repeat constructor; discriminate]. apply sat_bind. intros resp R. eapply sat_then; [apply (sign_sound _ _ 500); [discriminate|wired]|].
      intros [c|r] S; [exact S|]. apply sat_bind. intros pv _. exact S.
  Qed.

  Definition some_coded (code : option Z) : Prop := match code with Some c => c <> 200 | None => True end.
  Lemma publish_to_coded e os gws : forall n p out, sat (fun x => some_coded (fst (fst (fst x)))) (publish_to version supported sha256 pub_of ec_sign ec_verify blake e n p os gws out).
  Proof using.
    induction gws as [|i t IH]; intros n p out; cbn [publish_to]; [exact I|]. destruct (NewNodeIDFromHexString (n_id i)); [|discriminate].
    apply sat_bind. intros x _. apply IH.
  Qed.
  Lemma publish_near_coded e os cids : forall n p out, sat (fun x => some_coded (fst (fst x))) (publish_near version supported sha256 pub_of ec_sign ec_verify blake e n p os cids out).
  Proof using.
    induction cids as [|c t IH]; intros n p out; cbn [publish_near]; [exact I|]. apply sat_bind. intros near _. cbv zeta. destruct (fst near); [|discriminate].
    eapply sat_then; [apply publish_to_coded|]. intros [[[code p1] o1] n1] C. cbn [fst] in C. destruct code; [exact C|apply IH].
  Qed.
  Lemma publish_group_coded e o gws : forall n p out, sat (fun x => some_coded (fst (fst x))) (publish_group_to version supported sha256 sha512_256 pub_of ec_sign ec_verify blake e n p o gws out).
  Proof using.
    induction gws as [|i t IH]; intros n p out; cbn [publish_group_to]; [exact I|]. destruct (NewNodeIDFromHexString (n_id i)); [|discriminate].
    apply sat_bind. intros x _. apply IH.
  Qed.
  Lemma publish_dht_sound e p m : sat pfine (HandleAdminPublishDHT version supported sha256 sha512_256 pub_of ec_sign ec_verify blake e p m).
  Proof using Hv Hs.
    unfold HandleAdminPublishDHT. cbv zeta. destruct (p_key p); [|repeat constructor; discriminate]. apply sat_bind. intros [[[[cids pr] ex] q]|] _; [|repeat constructor; discriminate].
    destruct (_ || _); [repeat constructor; discriminate|]. apply sat_bind. intros [os|] _; [|repeat constructor; discriminate]. apply sat_bind. intros st _.
    eapply sat_then; [apply publish_near_coded|]. intros [[[code|] p1] out] C; cbn [fst some_coded] in C; [repeat constructor; exact C|].
    apply sat_bind. intros resp R. apply p_quiet_sound. wired.
  Qed.
  Lemma publish_group_sound e p m : sat pfine (HandleAdminPublishGroup version supported sha256 sha512_256 pub_of ec_sign ec_verify blake e p m).
  Proof using Hv Hs.
    unfold HandleAdminPublishGroup. cbv zeta. destruct (p_key p); [|repeat constructor; discriminate]. apply sat_bind. intros [[[[cids pr] ex] q]|] _; [|repeat constructor; discriminate].
    apply sat_bind. intros [o|] _; [|repeat constructor; discriminate]. apply sat_bind. intros s _. destruct (negb (fst s)); [repeat constructor; discriminate|].
    apply sat_bind. intros st _. apply sat_bind. intros gs _.
    eapply sat_then; [apply publish_group_coded|]. intros [[[code|] p1] out] C; cbn [fst some_coded] in C; [repeat constructor; exact C|].
    apply sat_bind. intros resp R. apply p_quiet_sound. wired.
  Qed.
  Lemma p_done_sound {A} (o : outcome pserved) (f : pserved -> A) : sat pfine o -> sat fine_pair (let* s := o in Ret (f s, p_wrote s)).
  Proof using. intros H. eapply sat_then; [exact H|]. intros s S. exact S. Qed.
  Lemma provider_api_sound e p m :
    sat fine_pair (AdminSpec.provider_api version supported sha256 sha512_256 pub_of ec_sign ec_verify blake BindAdminAPI BindRestAPI BindGatewayAPI BindProviderAPI e p m).
  Proof using Hv Hs.
    unfold AdminSpec.provider_api. destruct (routed _ _ _ _ _ _ _) as [k|]; [|constructor]. unfold AdminSpec.provider_handler. destruct k; try (constructor); apply p_done_sound.
    - unfold Provider.HandleAdminForceRefresh. go.
    - unfold HandleAdminGetPublished. go.
    - unfold Provider.HandleAdminInitialiseKey. go.
    - unfold Provider.HandleAdminInitialiseKeyV2. go.
    - apply publish_dht_sound.
    - apply publish_group_sound.
  Qed.
  Lemma counter_api_sound p m :
    sat fine_pair (AckSpec.counter_api version supported sha256 ec_sign blake BindAdminAPI BindRestAPI BindGatewayAPI BindProviderAPI p m).
  Proof using Hv Hs.
    unfold AckSpec.counter_api. destruct (routed _ _ _ _ _ _ _) as [k|]; [|constructor]. unfold AckSpec.counter_handler. destruct k; try (constructor); apply p_done_sound.
    unfold HandleOfferAck. go.
    assert (W : wire_message v2) by (clear H4; wired). destruct (aget _ _ _); [|apply ret_inj in H4; subst v4; exact W].
    destruct o0 as [id|]; [|discriminate H4]. cbn [Offer.deref obind] in H4. destruct (aget _ _ _); [wired|apply ret_inj in H4; subst v4; exact W].
  Qed.
End nodes.
