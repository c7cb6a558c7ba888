(** * Properties of the register service (C63, C89, C129-C134) *)
From Coq Require Import String List ZArith Bool Lia Permutation.
From Coq Require Import Init.Byte.
From Verif Require Import Base BaseProofs Ids Json OfferStoreSpec Register RegisterSpec RegisterProofs
  RegisterService RegisterServiceSpec RegisterServiceProofs RegisterServiceConc PropertiesRegister.
Import ListNotations.
Open Scope Z_scope.

(** ** Toy registrations *)

Definition gate (id region : string) : gateway_reg :=
  GatewayReg (gs "f01") (gs "g:9013") (gs "g:9010") (gs "g:9012") (gs "g:9011") (gs id) (gs region) (gs "aa") (gs "bb").
Definition prov (id region : string) : provider_reg :=
  ProviderReg (gs "f02") (gs "p:9033") (gs "p:9030") (gs "p:9032") (gs id) (gs region) [] (gs "cc").
Definition ok : event := Event Fine (fun l => l).
Definition ok_rev : event := Event Fine (@rev _).
Definition lost : event := Event Lost (fun l => l).
Definition late : event := Event Late (fun l => l).

Lemma ok_fine : fine ok.
Proof. split; [reflexivity|]. intros l. apply Permutation_refl. Qed.
Lemma ok_rev_fine : fine ok_rev.
Proof. split; [reflexivity|]. intros l. apply Permutation_rev. Qed.

(** ** C63: the last registration of each node *)

(** Any history of requests: each is answered rightly. *)
Theorem register_answers : forall qs es n q o, (forall k, fine (es k)) ->
  nth_error qs n = Some q -> nth_error (fst (fst (serve qs [] es))) n = Some o -> right_answer (firstn n qs) q o.
Proof.
  intros qs es n q o F Q O.
  destruct (serve_right qs [] [] es F tidy_empty (holds_nil _ _ _ _ _) (holds_nil _ _ _ _ _)) as [H _]. exact (H n q o Q O).
Qed.
Print Assumptions register_answers.

Theorem register_answers_all : forall qs es, (forall k, fine (es k)) -> length (fst (fst (serve qs [] es))) = length qs.
Proof.
  intros qs es F.
  destruct (serve_right qs [] [] es F tidy_empty (holds_nil _ _ _ _ _) (holds_nil _ _ _ _ _)) as (_ & L & _). exact L.
Qed.
Print Assumptions register_answers_all.

(** Registered again, deleted, registered anew; the listing comes in another order. *)
Example register_history :
  fst (fst (serve [RegisterGateway (gate "01" "AU"); RegisterGateway (gate "02" "US"); RegisterProvider (prov "01" "NZ");
                   RegisterGateway (gate "01" "FR"); FindGateway (gs "01"); ListGateways; DeleteGateways;
                   FindGateway (gs "02"); ListProviders; RegisterGateway (gate "03" "DE"); ListGateways; PostGateway (gs "[]")]
                  [] (fun _ => ok_rev)))
  = [Ret (Gateway (gate "01" "AU")); Ret (Gateway (gate "02" "US")); Ret (Provider (prov "01" "NZ"));
     Ret (Gateway (gate "01" "FR")); Ret (Gateway (gate "01" "FR")); Ret (Gateways [gate "02" "US"; gate "01" "FR"]); Ret Ack;
     Ret (Status 404); Ret (Providers [prov "01" "NZ"]); Ret (Gateway (gate "03" "DE")); Ret (Gateways [gate "03" "DE"]); Ret (Status 422)].
Proof. vm_compute. reflexivity. Qed.

(** A body of [null] registers a node without an identifier, which is then found under the empty one. *)
Theorem null_registered : forall d es, (forall k, fine (es k)) ->
  fst (fst (serve [PostGateway (gs "null"); PostProvider (gs "null"); FindGateway []; FindProvider []] d es)) =
    let g := Ret (Gateway (GatewayReg [] [] [] [] [] [] [] [] [])) in let p := Ret (Provider (ProviderReg [] [] [] [] [] [] [] [])) in [g; p; g; p].
Proof.
  intros d es F. cbn [serve handle]. assert (G : bind_gateway (gs "null") = Some zero_gateway) by (vm_compute; reflexivity).
  assert (P : bind_provider (gs "null") = Some zero_provider) by (vm_compute; reflexivity). rewrite G, P.
  unfold AddGatewayRegister, AddProviderRegister, GetGatewayRegisterByID, GetProviderRegisterByID.
  unfold later. cbn [run_program]. cbv zeta. repeat (rewrite exec_fine by apply F; cbn [redis snd fst run_program]).
  destruct keys_differ as [K1 K2].
  do 2 (rewrite !hash_set, ?K1, ?K2, ?bytes_eqb_refl; cbv iota; rewrite ?hash_set, ?bytes_eqb_refl, ?(aget_aset_eq bytes_eqb bytes_eqb_eq); cbn [run_program fst snd redis];
    rewrite ?exec_fine by apply F; cbn [redis snd fst run_program]).
  assert (U : unmarshal provider_of_json zero_provider (json_print (provider_json zero_provider)) = Some zero_provider) by (vm_compute; reflexivity).
  rewrite U, stored_gateway_print. reflexivity.
Qed.
Print Assumptions null_registered.

(** A text in the store that is not a registration: the provider is not found, and for a gateway an empty registration is. *)
Theorem unreadable_stored : forall d es id t, (forall k, fine (es k)) ->
  aget bytes_eqb (hash d key_gateway) id = Some t -> aget bytes_eqb (hash d key_provider) id = Some t -> json_parse t = None ->
  fst (fst (serve [FindGateway id; FindProvider id] d es)) = [Ret (Gateway (GatewayReg [] [] [] [] [] [] [] [] [])); Ret (Status 404)].
Proof.
  intros d es id t F G P J. cbn [serve handle]. unfold GetGatewayRegisterByID, GetProviderRegisterByID. cbn [run_program]. cbv zeta. unfold later.
  rewrite exec_fine by apply F. cbn [redis snd fst]. rewrite G. cbn [run_program fst snd]. rewrite exec_fine by apply F. cbn [redis snd fst]. rewrite P.
  unfold stored_gateway, unmarshal. rewrite J. reflexivity.
Qed.
Print Assumptions unreadable_stored.
Example unreadable_ex : fst (fst (serve [FindGateway (gs "01"); FindProvider (gs "01")]
  [(key_gateway, [(gs "01", gs "{")]); (key_provider, [(gs "01", gs "{")])] (fun _ => ok))) = [Ret (Gateway zero_gateway); Ret (Status 404)].
Proof. vm_compute. reflexivity. Qed.

(** ** C129: registrations arrive as they were sent *)

(** What a node sends is what is registered. *)
Theorem registration_understood : forall r p,
  gateway_in (RegisterGateway r) = Some r /\ provider_in (RegisterProvider p) = Some p.
Proof. intros r p. split; [apply bind_gateway_post|apply bind_provider_post]. Qed.
Print Assumptions registration_understood.

(** A manager that refreshes from the service afterwards knows each registered node by its
    last registration; nodes that are not registered it knows as before. *)
Theorem registrations_arrive : forall qs es og op m m', (forall k, fine (es k)) ->
  let os := fst (fst (serve (qs ++ [ListGateways; ListProviders]) [] es)) in
  nth_error os (length qs) = Some og -> nth_error os (S (length qs)) = Some op ->
  start node_reg m = true -> gatewayDiscv node_reg m = true -> providerDiscv node_reg m = true ->
  Refresh node_reg m (pull_gateways og) (pull_providers op) = Ret m' ->
  (forall i r, last_gateway qs i r -> aget bytes_eqb (gatewaysMap node_reg m') i = Some (inl r)) /\
  (forall i r, last_provider qs i r -> aget bytes_eqb (providersMap node_reg m') i = Some (inr r)) /\
  (forall i, (forall r, ~ last_gateway qs i r) -> aget bytes_eqb (gatewaysMap node_reg m') i = aget bytes_eqb (gatewaysMap node_reg m) i) /\
  (forall i, (forall r, ~ last_provider qs i r) -> aget bytes_eqb (providersMap node_reg m') i = aget bytes_eqb (providersMap node_reg m) i).
Proof.
  intros qs es og op m m' F os G P S GD PD R.
  destruct (listings_after qs es og op F G P) as (lg & lp & -> & -> & Ng & Hg & Np & Hp).
  rewrite pull_gateways_eq, pull_providers_eq in R. pose proof (refresh_overlays_partial node_reg m _ _ m' S GD PD R) as H.
  split; [|split; [|split]].
  - intros i r L. destruct (H i) as [E _]. rewrite E. pose proof (last_id _ _ _ _ _ _ L) as I.
    destruct (latest_listed gr_id (fun r => inl r : node_reg) lg i Ng) as [A _]. pose proof (A r) as Z. unfold node_reg in *. rewrite Z; [reflexivity| |exact I]. apply Hg. rewrite I. exact L.
  - intros i r L. destruct (H i) as [_ E]. rewrite E. pose proof (last_id _ _ _ _ _ _ L) as I.
    destruct (latest_listed pr_id (fun r => inr r : node_reg) lp i Np) as [A _]. pose proof (A r) as Z. unfold node_reg in *. rewrite Z; [reflexivity| |exact I]. apply Hp. rewrite I. exact L.
  - intros i N. destruct (H i) as [E _]. rewrite E. destruct (latest_listed gr_id (fun r => inl r : node_reg) lg i Ng) as [_ B].
    unfold node_reg in *. rewrite B; [reflexivity|]. intros r I X. apply (N r). rewrite <- X. apply Hg, I.
  - intros i N. destruct (H i) as [_ E]. rewrite E. destruct (latest_listed pr_id (fun r => inr r : node_reg) lp i Np) as [_ B].
    unfold node_reg in *. rewrite B; [reflexivity|]. intros r I X. apply (N r). rewrite <- X. apply Hp, I.
Qed.
Print Assumptions registrations_arrive.

(** While gateways are registered under the spelling of their identifiers that nodes use, a
    node that does not know a gateway finds it by looking it up. *)
Theorem registered_gateway_found_partial : forall qs es og op m i, (forall k, fine (es k)) ->
  let os := fst (fst (serve (qs ++ [ListGateways; ListProviders]) [] es)) in
  nth_error os (length qs) = Some og -> nth_error os (S (length qs)) = Some op ->
  managed node_reg m -> providersLock node_reg m = O ->
  (forall j r, last_gateway qs j r -> canonical j) -> aget bytes_eqb (gatewaysMap node_reg m) (ToString i) = None ->
  exists x m', GetGateway node_reg m (Some i) (pull_gateways og) (pull_providers op) = Ret (x, m') /\
    forall n, x = Some n <-> exists r, n = inl r /\ last_gateway qs (ToString i) r.
Proof.
  intros qs es og op m i F os G P M L C N.
  destruct (listings_after qs es og op F G P) as (lg & lp & -> & -> & Ng & Hg & Np & Hp).
  rewrite pull_gateways_eq, pull_providers_eq.
  destruct (gateway_lookup_refreshes node_reg m i (map (fun r => (gr_id r, inl r)) lg) (map (fun r => (pr_id r, inr r)) lp) M L) as [m' E].
  - intros x X. apply in_map_iff in X. destruct X as (r & <- & I). cbn [fst]. eapply C. apply Hg, I.
  - exact N.
  - eexists _, _. split; [exact E|]. destruct (latest_listed gr_id (fun r => inl r : node_reg) lg (ToString i) Ng) as [A B].
    intros n. split.
    + intros X. destruct (last_dec gateway_in wipes_gateways gr_id qs (ToString i)) as [[r Lr]|Nr].
      * pose proof (last_id _ _ _ _ _ _ Lr) as I. unfold node_reg in *. rewrite (A r) in X; [|apply Hg; rewrite I; exact Lr|exact I]. injection X as <-. eauto.
      * unfold node_reg in *. rewrite B in X; [discriminate|]. intros r I Y. apply (Nr r). rewrite <- Y. apply Hg, I.
    + intros (r & -> & Lr). pose proof (last_id _ _ _ _ _ _ Lr) as I. apply A; [apply Hg; rewrite I; exact Lr|exact I].
Qed.
Print Assumptions registered_gateway_found_partial.

(** Two gateways and a provider register, one gateway moves; a fresh manager refreshes. *)
Example manager_learns :
  let os := fst (fst (serve [RegisterGateway (gate "01" "AU"); RegisterGateway (gate "02" "US"); RegisterProvider (prov "07" "NZ");
                             RegisterGateway (gate "01" "FR"); ListGateways; ListProviders] [] (fun _ => ok_rev))) in
  match nth_error os 4, nth_error os 5 with
  | Some og, Some op =>
      pull_gateways og = Some [Some (gs "02", inl (gate "02" "US")); Some (gs "01", inl (gate "01" "FR"))] /\
      pull_providers op = Some [Some (gs "07", inr (prov "07" "NZ"))] /\
      pull_gateways op <> pull_gateways og /\ pull_gateways (Ret (Status 404)) = None
  | _, _ => False
  end.
Proof. vm_compute. split; [reflexivity|]. split; [reflexivity|]. split; [discriminate|reflexivity]. Qed.

(** ** C130: a confirmed registration is found until it is replaced or deleted *)

(** However requests overlap and whichever commands to the store fail: a gateway that was told its
    registration is found by every later lookup, unless meanwhile gateways are deleted or one is
    registered under the same identifier. *)
Theorem gateway_confirmed_found : forall qs before j e between g e' q r,
  nth_error qs j = Some q -> gateway_in q = Some r -> ~ In j (map fst before) ->
  nth_error (snd (turns (arriving qs []) (before ++ [(j, e)]))) j = Some (End (Ret (Gateway r))) ->
  (forall k q', In k (map fst between) -> nth_error qs k = Some q' ->
     q' <> DeleteGateways /\ forall r', gateway_in q' = Some r' -> gr_id r' <> gr_id r) ->
  nth_error qs g = Some (FindGateway (gr_id r)) -> ~ In g (map fst (before ++ (j, e) :: between)) -> ev_fate e' = Fine ->
  nth_error (snd (turns (arriving qs []) (before ++ (j, e) :: between ++ [(g, e')]))) g = Some (End (Ret (Gateway r))).
Proof.
  intros qs before j e between g e' q r Q G N C L. apply (gateway_stays_pf qs before j e between g e' q r Q G N C).
  intros k q' K Q'. destruct (L k q' K Q') as [D X]. split.
  - intros [[_ E]|[E _]]; [congruence|discriminate E].
  - intros v P. apply posts_gateway in P. destruct P as (r' & G' & E & _). exact (X r' G' (eq_sym E)).
Qed.
Print Assumptions gateway_confirmed_found.

Theorem provider_confirmed_found : forall qs before j e between g e' q r,
  nth_error qs j = Some q -> provider_in q = Some r -> ~ In j (map fst before) ->
  nth_error (snd (turns (arriving qs []) (before ++ [(j, e)]))) j = Some (End (Ret (Provider r))) ->
  (forall k q', In k (map fst between) -> nth_error qs k = Some q' ->
     q' <> DeleteProviders /\ forall r', provider_in q' = Some r' -> pr_id r' <> pr_id r) ->
  nth_error qs g = Some (FindProvider (pr_id r)) -> ~ In g (map fst (before ++ (j, e) :: between)) -> ev_fate e' = Fine ->
  nth_error (snd (turns (arriving qs []) (before ++ (j, e) :: between ++ [(g, e')]))) g = Some (End (Ret (Provider r))).
Proof.
  intros qs before j e between g e' q r Q G N C L. apply (provider_stays_pf qs before j e between g e' q r Q G N C).
  intros k q' K Q'. destruct (L k q' K Q') as [D X]. split.
  - intros [[E _]|[_ E]]; [discriminate E|congruence].
  - intros v P. apply posts_provider in P. destruct P as (r' & G' & E & _). exact (X r' G' (eq_sym E)).
Qed.
Print Assumptions provider_confirmed_found.

(** In the middle of a deletion of all providers, and with a failing store, a gateway registers;
    it is found. *)
Example confirmed_among_others :
  let qs := [RegisterProvider (prov "01" "NZ"); DeleteProviders; RegisterGateway (gate "01" "AU"); RegisterGateway (gate "02" "US"); FindGateway (gs "01")] in
  map (nth_error (snd (turns (arriving qs []) [(0%nat, ok); (1%nat, ok); (2%nat, ok); (3%nat, lost); (1%nat, late); (4%nat, ok)]))) [1; 2; 3; 4]%nat
  = [Some (End Panic); Some (End (Ret (Gateway (gate "01" "AU")))); Some (End Panic); Some (End (Ret (Gateway (gate "01" "AU"))))].
Proof. vm_compute. reflexivity. Qed.

(** ** C131: deleting all *)

(** Once a deletion of all gateways is acknowledged, a gateway that is found was registered after the
    deletion began, whatever else was going on. *)
Theorem deleted_gateways_gone_partial : forall qs i before after g e r, nth_error qs i = Some DeleteGateways ->
  ~ In i (map fst before) -> (forall x, In x (before ++ after) -> shuffled (snd x)) ->
  nth_error (snd (turns (arriving qs []) (before ++ after))) i = Some (End (Ret Ack)) ->
  nth_error qs g = Some (FindGateway (gr_id r)) -> ~ In g (map fst (before ++ after)) ->
  nth_error (snd (turns (arriving qs []) (before ++ after ++ [(g, e)]))) g = Some (End (Ret (Gateway r))) ->
  exists j q, In j (map fst after) /\ nth_error qs j = Some q /\ gateway_in q = Some r.
Proof.
  intros qs i before after g e r Qi N Sh A Qg Ng E. rewrite app_assoc, turns_app in E.
  pose proof (arriving_handle qs [] _ g _ Qg Ng) as H. set (s := turns (arriving qs []) (before ++ after)) in *.
  cbn [turns fold_left fst snd] in E. unfold turn in E. rewrite H in E. cbn [handle] in E. unfold GetGatewayRegisterByID in E.
  cbn [snd] in E. rewrite nth_error_set_eq in E by (apply nth_error_Some; congruence).
  destruct (snd (exec (fst s) (HGet key_gateway (gr_id r)) e)) as [| |v|] eqn:X; try discriminate. apply exec_get in X.
  destruct (delete_clears qs i DeleteGateways key_gateway Qi eq_refl gateways_only before after (gr_id r) v) as (j & q & J & Q & P);
    [intros x I; apply Sh, in_or_app; right; exact I|exact N|exact A|exact X|].
  apply posts_gateway in P. destruct P as (r' & G & _ & ->). rewrite stored_gateway_print in E. injection E as ->. eauto.
Qed.
Print Assumptions deleted_gateways_gone_partial.

Theorem deleted_providers_gone_partial : forall qs i before after g e r, nth_error qs i = Some DeleteProviders ->
  ~ In i (map fst before) -> (forall x, In x (before ++ after) -> shuffled (snd x)) ->
  nth_error (snd (turns (arriving qs []) (before ++ after))) i = Some (End (Ret Ack)) ->
  nth_error qs g = Some (FindProvider (pr_id r)) -> ~ In g (map fst (before ++ after)) ->
  nth_error (snd (turns (arriving qs []) (before ++ after ++ [(g, e)]))) g = Some (End (Ret (Provider r))) ->
  exists j q, In j (map fst after) /\ nth_error qs j = Some q /\ provider_in q = Some r.
Proof.
  intros qs i before after g e r Qi N Sh A Qg Ng E. rewrite app_assoc, turns_app in E.
  pose proof (arriving_handle qs [] _ g _ Qg Ng) as H. set (s := turns (arriving qs []) (before ++ after)) in *.
  cbn [turns fold_left fst snd] in E. unfold turn in E. rewrite H in E. cbn [handle] in E. unfold GetProviderRegisterByID in E.
  cbn [snd] in E. rewrite nth_error_set_eq in E by (apply nth_error_Some; congruence).
  destruct (snd (exec (fst s) (HGet key_provider (pr_id r)) e)) as [| |v|] eqn:X; try discriminate. apply exec_get in X.
  destruct (delete_clears qs i DeleteProviders key_provider Qi eq_refl providers_only before after (pr_id r) v) as (j & q & J & Q & P);
    [intros x I; apply Sh, in_or_app; right; exact I|exact N|exact A|exact X|].
  apply posts_provider in P. destruct P as (r' & G & _ & ->). rewrite unmarshal_provider in E. injection E as ->. eauto.
Qed.
Print Assumptions deleted_providers_gone_partial.

(** A deletion while a gateway registers: the early gateway is gone, the late one stays. *)
Example deletion_overlapped :
  let qs := [RegisterGateway (gate "01" "AU"); DeleteGateways; RegisterGateway (gate "02" "US"); FindGateway (gs "01"); FindGateway (gs "02")] in
  map (nth_error (snd (turns (arriving qs []) [(0%nat, ok); (1%nat, ok); (2%nat, ok); (1%nat, ok); (3%nat, ok); (4%nat, ok)]))) [1; 2; 3; 4]%nat
  = [Some (End (Ret Ack)); Some (End (Ret (Gateway (gate "02" "US")))); Some (End (Ret (Status 404))); Some (End (Ret (Gateway (gate "02" "US"))))].
Proof. vm_compute. reflexivity. Qed.

(** But a deletion is not one step.  Gateway 02 is confirmed before 01 registers again; the deletion takes
    the new registration of 01 and leaves 02, which deleting at any one moment would not do. *)
Definition racing : list request :=
  [RegisterGateway (gate "01" "AU"); DeleteGateways; RegisterGateway (gate "02" "US"); RegisterGateway (gate "01" "FR")].

Lemma split_once {A} (x : A) a b a' b' : NoDup (a ++ x :: b) -> a ++ x :: b = a' ++ x :: b' -> b = b'.
Proof.
  revert a'. induction a as [|y a IH]; intros [|z a'] N E; cbn [app] in *.
  - congruence.
  - injection E as -> ->. inversion N as [|? ? X _]; subst. exfalso. apply X, in_or_app. right. left. reflexivity.
  - injection E as -> E. inversion N as [|? ? X _]; subst. exfalso. apply X, in_or_app. right. left. reflexivity.
  - injection E as -> E. inversion N; subst. eauto.
Qed.

Theorem deletion_atomic_refuted : exists l1 l2 l3,
  let qs := racing ++ [FindGateway (gs "01"); FindGateway (gs "02")] in
  (forall x, In x (l1 ++ l2 ++ l3) -> fine (snd x)) /\
  (* 02 is confirmed before 01 is registered again, and all end before the lookups *)
  nth_error (snd (turns (arriving qs []) l1)) 2 = Some (End (Ret (Gateway (gate "02" "US")))) /\
  ~ In 3%nat (map fst l1) /\ ~ In 4%nat (map fst (l1 ++ l2)) /\ ~ In 5%nat (map fst (l1 ++ l2)) /\
  nth_error (snd (turns (arriving qs []) (l1 ++ l2))) 1 = Some (End (Ret Ack)) /\
  nth_error (snd (turns (arriving qs []) (l1 ++ l2))) 3 = Some (End (Ret (Gateway (gate "01" "FR")))) /\
  nth_error (snd (turns (arriving qs []) (l1 ++ l2 ++ l3))) 4 = Some (End (Ret (Status 404))) /\
  nth_error (snd (turns (arriving qs []) (l1 ++ l2 ++ l3))) 5 = Some (End (Ret (Gateway (gate "02" "US")))) /\
  (* no order of the four requests with 02 before the second 01 explains this *)
  (forall h a b c, Permutation racing h ->
     h = a ++ RegisterGateway (gate "02" "US") :: b ++ RegisterGateway (gate "01" "FR") :: c ->
     ~ (last_gateway h (gs "02") (gate "02" "US") /\ forall r, ~ last_gateway h (gs "01") r)).
Proof.
  exists [(0%nat, ok); (1%nat, ok); (2%nat, ok)], [(3%nat, ok); (1%nat, ok)], [(4%nat, ok); (5%nat, ok)].
  split; [intros x X; cbn [app In] in X; repeat (destruct X as [<-|X]; [exact ok_fine|]); destruct X|].
  split; [vm_compute; reflexivity|]. split; [cbn; intuition discriminate|]. split; [cbn; intuition discriminate|]. split; [cbn; intuition discriminate|].
  split; [vm_compute; reflexivity|]. split; [vm_compute; reflexivity|]. split; [vm_compute; reflexivity|]. split; [vm_compute; reflexivity|].
  intros h a b c P E [L N].
  assert (ND : NoDup h).
  { eapply Permutation_NoDup; [exact P|]. unfold racing. repeat constructor; cbn [In]; intros H; repeat (destruct H as [H|H]; [discriminate H|]); exact H. }
  destruct L as (a' & q & b' & E' & G & _ & W).
  assert (Q : q = RegisterGateway (gate "02" "US")).
  { assert (I : In q racing) by (eapply Permutation_in; [apply Permutation_sym, P|]; rewrite E'; apply in_or_app; right; left; reflexivity).
    unfold racing in I. cbn [In] in I. destruct I as [<-|[<-|[<-|[<-|[]]]]]; try reflexivity.
    - change (bind_gateway (json_print (gateway_post (gate "01" "AU"))) = Some (gate "02" "US")) in G. rewrite bind_gateway_post in G. discriminate G.
    - discriminate G.
    - change (bind_gateway (json_print (gateway_post (gate "01" "FR"))) = Some (gate "02" "US")) in G. rewrite bind_gateway_post in G. discriminate G. }
  subst q. rewrite E in ND, E'. apply split_once in E'; [|exact ND]. subst b'.
  destruct (last_exists gateway_in wipes_gateways gr_id (a ++ RegisterGateway (gate "02" "US") :: b) (RegisterGateway (gate "01" "FR")) c (gate "01" "FR") (gs "01"))
    as [r' L'].
  - apply bind_gateway_post.
  - reflexivity.
  - intros q' I. apply W. apply in_or_app. right. right. exact I.
  - apply (N r'). rewrite E. rewrite <- app_assoc in L'. exact L'.
Qed.
Print Assumptions deletion_atomic_refuted.

(** ** C132: nothing is invented *)

(** However requests overlap and whichever commands fail, what is found or listed was registered by a request
    that had begun, under the identifier asked for, and each identifier is listed once. *)
Theorem found_was_registered : forall qs l n i r, (forall x, In x l -> shuffled (snd x)) ->
  (nth_error qs n = Some (FindGateway i) -> nth_error (snd (turns (arriving qs []) l)) n = Some (End (Ret (Gateway r))) ->
   gr_id r = i /\ exists j q, In j (map fst l) /\ nth_error qs j = Some q /\ gateway_in q = Some r) /\
  (forall p, nth_error qs n = Some (FindProvider i) -> nth_error (snd (turns (arriving qs []) l)) n = Some (End (Ret (Provider p))) ->
   pr_id p = i /\ exists j q, In j (map fst l) /\ nth_error qs j = Some q /\ provider_in q = Some p).
Proof.
  intros qs l n i r Sh. destruct (arriving_ok qs []) as [S T].
  destruct (turns_truthful qs l [] (arriving qs []) Sh S T (arriving_sourced qs) (arriving_truthful qs)) as [_ (H1 & _ & H3 & _)].
  split; [apply H1|intros p; apply H3].
Qed.
Print Assumptions found_was_registered.

Theorem listed_was_registered : forall qs l n, (forall x, In x l -> shuffled (snd x)) ->
  (forall rs, nth_error qs n = Some ListGateways -> nth_error (snd (turns (arriving qs []) l)) n = Some (End (Ret (Gateways rs))) ->
   NoDup (map gr_id rs) /\ forall r, In r rs -> exists j q, In j (map fst l) /\ nth_error qs j = Some q /\ gateway_in q = Some r) /\
  (forall rs, nth_error qs n = Some ListProviders -> nth_error (snd (turns (arriving qs []) l)) n = Some (End (Ret (Providers rs))) ->
   NoDup (map pr_id rs) /\ forall r, In r rs -> exists j q, In j (map fst l) /\ nth_error qs j = Some q /\ provider_in q = Some r).
Proof.
  intros qs l n Sh. destruct (arriving_ok qs []) as [S T].
  destruct (turns_truthful qs l [] (arriving qs []) Sh S T (arriving_sourced qs) (arriving_truthful qs)) as [_ (_ & H2 & _ & H4)].
  split; [apply H2|apply H4].
Qed.
Print Assumptions listed_was_registered.

(** A registration whose confirmation was lost is listed all the same, one that never reached the store is not. *)
Example listed_unconfirmed :
  let qs := [RegisterGateway (gate "01" "AU"); RegisterGateway (gate "02" "US"); RegisterGateway (gate "03" "FR"); ListGateways] in
  map (nth_error (snd (turns (arriving qs []) [(2%nat, ok); (0%nat, late); (1%nat, lost); (3%nat, ok_rev)]))) [0; 1; 2; 3]%nat
  = [Some (End Panic); Some (End Panic); Some (End (Ret (Gateway (gate "03" "FR")))); Some (End (Ret (Gateways [gate "01" "AU"; gate "03" "FR"])))].
Proof. vm_compute. reflexivity. Qed.

(** ** C133: gateways and providers apart *)

(** What is answered about gateways does not depend on the requests about providers, and the other way round: leaving the
    turns of the latter out changes nothing for the former. *)
Theorem sorts_apart : forall qs l n q, nth_error qs n = Some q ->
  nth_error (snd (turns (arriving qs []) l)) n =
  nth_error (snd (turns (arriving qs []) (filter (fun x => match nth_error qs (fst x) with
                                                           | Some q' => Bool.eqb (about_gateways q') (about_gateways q)
                                                           | None => false
                                                           end) l))) n.
Proof.
  intros qs l n q Q.
  destruct (turns_alike qs (about_gateways q) l (arriving qs []) (arriving qs []) (arriving_shaped _ _) (arriving_shaped _ _)) as [_ H].
  - split; [reflexivity|]. intros; reflexivity.
  - exact (H n q Q eq_refl).
Qed.
Print Assumptions sorts_apart.

(** The same identifier as a gateway and as a provider. *)
Example same_identifier :
  fst (fst (serve [RegisterProvider (prov "01" "NZ"); RegisterGateway (gate "01" "AU"); DeleteProviders; FindGateway (gs "01"); FindProvider (gs "01")] [] (fun _ => ok)))
  = [Ret (Provider (prov "01" "NZ")); Ret (Gateway (gate "01" "AU")); Ret Ack; Ret (Gateway (gate "01" "AU")); Ret (Status 404)].
Proof. vm_compute. reflexivity. Qed.

(** ** C134: a node that is told it is registered is *)

(** A gateway whose registration reports no error is registered: the service answered with just this registration,
    so that C130 applies. *)
Theorem gateway_told_partial : forall qs before j e r o, nth_error qs j = Some (RegisterGateway r) -> ~ In j (map fst before) ->
  nth_error (snd (turns (arriving qs []) (before ++ [(j, e)]))) j = Some (End o) -> SendJSON_reports o = OkR tt -> o = Ret (Gateway r).
Proof.
  intros qs before j e r o Q N. rewrite turns_app. pose proof (arriving_handle qs [] before j _ Q N) as H.
  set (s := turns (arriving qs []) before) in *. cbn [turns fold_left fst snd]. unfold turn. rewrite H.
  cbn [handle RegisterGateway]. rewrite bind_gateway_post. unfold AddGatewayRegister. cbn [snd].
  rewrite nth_error_set_eq by (apply nth_error_Some; congruence).
  destruct (snd (exec (fst s) _ e)); intros [= <-]; try discriminate; reflexivity.
Qed.
Print Assumptions gateway_told_partial.

(** A provider may be told so although the store failed and it is not registered. *)
Theorem provider_told_refuted : exists r o,
  nth_error (snd (turns (arriving [RegisterProvider r; FindProvider (pr_id r)] []) [(0%nat, lost); (1%nat, ok)])) 0 = Some (End o) /\
  SendJSON_reports o = OkR tt /\
  nth_error (snd (turns (arriving [RegisterProvider r; FindProvider (pr_id r)] []) [(0%nat, lost); (1%nat, ok)])) 1 = Some (End (Ret (Status 404))).
Proof. exists (prov "01" "NZ"). eexists. split; [vm_compute; reflexivity|]. split; vm_compute; reflexivity. Qed.
Print Assumptions provider_told_refuted.

(** A deletion that is reported to have worked did: whatever commands fail, no node is found or listed after it; and it is
    reported to have failed only if a command did. *)
Definition fates_left (es es' : nat -> event) : Prop := exists k, forall n, es' n = es (k + n)%nat.
Lemma run_left p : forall d es o d' es', run_program p d es = (o, d', es') -> fates_left es es'.
Proof.
  induction p as [o|c k IH]; intros d es o' d' es'; cbn [run_program]; cbv zeta.
  - intros [= _ _ <-]. exists O. reflexivity.
  - intros H. destruct (IH _ _ _ _ _ _ H) as [m M]. exists (S m). intros n. rewrite M. reflexivity.
Qed.
Lemma run_tidy p : forall d es o d' es', tidy d -> run_program p d es = (o, d', es') -> tidy d'.
Proof.
  induction p as [o|c k IH]; intros d es o' d' es' T; cbn [run_program]; cbv zeta.
  - intros [= _ <- _]. exact T.
  - apply IH, tidy_exec, T.
Qed.
Lemma serve_left qs : forall d es os d' es', serve qs d es = (os, d', es') -> tidy d -> length os = length qs /\ tidy d' /\ fates_left es es'.
Proof.
  induction qs as [|q qs IH]; intros d es os d' es'; cbn [serve].
  - intros [= <- <- <-] T. split; [reflexivity|]. split; [exact T|]. exists O. reflexivity.
  - destruct (run_program (handle q) d es) as [[o d1] es1] eqn:E. destruct (serve qs d1 es1) as [[os2 d2] es2] eqn:E2. intros [= <- <- <-] T.
    destruct (IH _ _ _ _ _ E2 (run_tidy _ _ _ _ _ _ T E)) as (L & T2 & k2 & K2). destruct (run_left _ _ _ _ _ _ E) as [k K].
    split; [cbn [length]; rewrite L; reflexivity|]. split; [exact T2|]. exists (k + k2)%nat. intros n. rewrite K2, K. f_equal. apply Nat.add_assoc.
Qed.
Lemma serve_app qs t : forall d es, serve (qs ++ t) d es =
  let '(os, d1, es1) := serve qs d es in let '(os2, d2, es2) := serve t d1 es1 in (os ++ os2, d2, es2).
Proof.
  induction qs as [|q qs IH]; intros d es; cbn [app serve].
  - destruct (serve t d es) as [[os2 d2] es2]. reflexivity.
  - destruct (run_program (handle q) d es) as [[o d1] es1]. rewrite IH. destruct (serve qs d1 es1) as [[os1 d2] es2]. destruct (serve t d2 es2) as [[os2 d3] es3]. reflexivity.
Qed.
Lemma delete_told key ids : forall d es o d' es', tidy d -> run_program (delete_each key ids) d es = (o, d', es') ->
  (o = Ret Ack /\ forall i, aget bytes_eqb (hash d' key) i = if existsb (bytes_eqb i) ids then None else aget bytes_eqb (hash d key) i) \/
  (o = Panic /\ exists n, ev_fate (es n) <> Fine).
Proof.
  induction ids as [|j ids IH]; intros d es o d' es' T; cbn [delete_each run_program].
  - intros [= <- <- _]. left. split; reflexivity.
  - cbv zeta. destruct (ev_fate (es O)) eqn:Fa; unfold exec; rewrite Fa; cbn [redis snd fst run_program]; intros H.
    + set (d1 := aset _ d key _) in H. assert (T1 : tidy d1) by (apply (tidy_redis d (HDel key j) (fun x => x)), T).
      destruct (IH _ _ _ _ _ T1 H) as [(-> & A)|(-> & n & N)]; [left|right; split; [reflexivity|exists (S n); exact N]]. split; [reflexivity|].
      intros i. rewrite A. unfold d1. rewrite hash_set, bytes_eqb_refl, aget_adel; [|exact beq_spec|apply T].
      cbn [existsb]. destruct (bytes_eqb i j), (existsb (bytes_eqb i) ids); reflexivity.
    + injection H as <- _ _. right. split; [reflexivity|]. exists O. rewrite Fa. discriminate.
    + injection H as <- _ _. right. split; [reflexivity|]. exists O. rewrite Fa. discriminate.
Qed.
Lemma wipe_told key d es o d' es' : (forall n, shuffled (es n)) -> tidy d ->
  run_program (Send (HGetAll key) (fun x => match x with RAll l => delete_each key (map fst l) | _ => End (Ret (Status 404)) end)) d es = (o, d', es') ->
  (Delete_reports o = OkR tt /\ hash d' key = []) \/ (Delete_reports o = ErrR /\ exists n, ev_fate (es n) <> Fine).
Proof.
  intros Sh T. cbn [run_program]. cbv zeta. unfold exec. destruct (ev_fate (es O)) eqn:Fa; cbn [redis snd fst run_program]; intros H.
  - destruct (delete_told key _ _ _ _ _ _ T H) as [(-> & A)|(-> & n & N)]; [left|right; split; [reflexivity|exists (S n); exact N]]. split; [reflexivity|].
    destruct (hash d' key) as [|[i v] h] eqn:E; [reflexivity|]. exfalso. specialize (A i). cbn [aget] in A. rewrite bytes_eqb_refl in A.
    destruct (existsb (bytes_eqb i) _) eqn:X; [discriminate A|].
    assert (I : In i (map fst (hash d key))).
    { destruct (aget bytes_eqb (hash d key) i) eqn:G; [|discriminate A]. destruct (in_dec (list_eq_dec Byte.byte_eq_dec) i (map fst (hash d key))) as [I|I]; [exact I|].
      apply (aget_None _ beq_spec) in I. congruence. }
    assert (Y : existsb (bytes_eqb i) (map fst (ev_order (es 0%nat) (hash d key))) = true); [|congruence].
    apply existsb_exists. exists i. split; [|apply bytes_eqb_refl]. eapply Permutation_in; [apply Permutation_map, (Sh 0%nat)|exact I].
  - injection H as <- _ _. right. split; [reflexivity|]. exists O. rewrite Fa. discriminate.
  - injection H as <- _ _. right. split; [reflexivity|]. exists O. rewrite Fa. discriminate.
Qed.

Lemma empty_order (es : nat -> event) n : (forall n, shuffled (es n)) -> ev_order (es n) [] = [].
Proof. intros Sh. apply Permutation_nil, (Sh n). Qed.

Theorem deletion_told : forall qs es wipe ask, (forall n, shuffled (es n)) ->
  (wipe = DeleteGateways /\ (ask = ListGateways \/ exists i, ask = FindGateway i)) \/
  (wipe = DeleteProviders /\ (ask = ListProviders \/ exists i, ask = FindProvider i)) ->
  exists o answer, nth_error (fst (fst (serve (qs ++ [wipe; ask]) [] es))) (length qs) = Some o /\
    nth_error (fst (fst (serve (qs ++ [wipe; ask]) [] es))) (S (length qs)) = Some (Ret answer) /\
    (Delete_reports o = OkR tt -> answer = Status 404 \/ answer = Gateways [] \/ answer = Providers []) /\
    (Delete_reports o = ErrR -> exists n, ev_fate (es n) <> Fine).
Proof.
  intros qs es wipe ask Sh W. rewrite serve_app. destruct (serve qs [] es) as [[os d] es1] eqn:E.
  destruct (serve_left _ _ _ _ _ _ E tidy_empty) as (L & T & k & K). cbn [serve].
  destruct (run_program (handle wipe) d es1) as [[o d1] es2] eqn:E1. destruct (run_program (handle ask) d1 es2) as [[o2 d2] es3] eqn:E2. cbn [fst].
  rewrite nth_error_app2 by lia. rewrite L, Nat.sub_diag. rewrite nth_error_app2 by lia. rewrite L. replace (S (length qs) - length qs)%nat with 1%nat by lia. cbn [nth_error].
  assert (Sh1 : forall n, shuffled (es1 n)) by (intros n; rewrite K; apply Sh).
  assert (Told : exists key, ((key = key_gateway /\ (ask = ListGateways \/ exists i, ask = FindGateway i)) \/ (key = key_provider /\ (ask = ListProviders \/ exists i, ask = FindProvider i))) /\
     ((Delete_reports o = OkR tt /\ hash d1 key = []) \/ (Delete_reports o = ErrR /\ exists n, ev_fate (es n) <> Fine))).
  { destruct W as [(-> & A)|(-> & A)]; [exists key_gateway|exists key_provider]; (split; [tauto|]).
    - destruct (wipe_told key_gateway d es1 o d1 es2 Sh1 T E1) as [X|(X & n & N)]; [left; exact X|right; split; [exact X|]]. exists (k + n)%nat. rewrite <- K. exact N.
    - destruct (wipe_told key_provider d es1 o d1 es2 Sh1 T E1) as [X|(X & n & N)]; [left; exact X|right; split; [exact X|]]. exists (k + n)%nat. rewrite <- K. exact N. }
  destruct Told as (key & A & Told).
  assert (Sh2 : forall n, shuffled (es2 n)) by (destruct (run_left _ _ _ _ _ _ E1) as [k2 K2]; intros n; rewrite K2; apply Sh1).
  assert (Ans : exists answer, o2 = Ret answer /\ (hash d1 key = [] -> answer = Status 404 \/ answer = Gateways [] \/ answer = Providers [])).
  { destruct A as [(-> & [->|(i & ->)])|(-> & [->|(i & ->)])]; revert E2;
      cbn [handle run_program GetGatewayRegisters GetGatewayRegisterByID GetProviderRegisters GetProviderRegisterByID]; unfold GetGatewayRegisters, GetGatewayRegisterByID, GetProviderRegisters, GetProviderRegisterByID; cbn [run_program]; cbv zeta; unfold exec;
      destruct (ev_fate (es2 O)); cbn [redis snd fst run_program].
    all: try (intros [= <- _ _]; eexists; split; [reflexivity|]; intros _; left; reflexivity).
    - intros [= <- _ _]. eexists. split; [reflexivity|]. intros H. rewrite H, (empty_order es2 0 Sh2). right. left. reflexivity.
    - destruct (aget bytes_eqb (hash d1 key_gateway) i) eqn:G; intros [= <- _ _]; eexists; (split; [reflexivity|]); intros H; [rewrite H in G; discriminate G|left; reflexivity].
    - intros [= <- _ _]. eexists. split; [reflexivity|]. intros H. rewrite H, (empty_order es2 0 Sh2). right. right. reflexivity.
    - destruct (aget bytes_eqb (hash d1 key_provider) i) eqn:G; [destruct (unmarshal _ _ _)|]; intros [= <- _ _]; eexists; (split; [reflexivity|]); intros H; try (left; reflexivity); rewrite H in G; discriminate G. }
  destruct Ans as (answer & -> & Ans). exists o, answer. split; [reflexivity|]. split; [reflexivity|].
  destruct Told as [(R & H)|(R & N)]; rewrite R.
  - split; [intros _; exact (Ans H)|discriminate].
  - split; [discriminate|intros _; exact N].
Qed.
Print Assumptions deletion_told.

(** A registration that fails is reported to a gateway; a deletion that fails is reported, too. *)
Example failures_reported :
  map (fun o => (SendJSON_reports o, Delete_reports o))
    (fst (fst (serve [RegisterGateway (gate "01" "AU"); DeleteGateways; DeleteProviders] [] (fun n => if Nat.eqb n 2 then ok else lost))))
  = [(ErrR, ErrR); (OkR tt, ErrR); (OkR tt, OkR tt)].
Proof. vm_compute. reflexivity. Qed.

(** ** C89: stopping a node leaves other registrations alone *)

(** The requests of a manager that stops. *)
Definition stopping (ds : list deletion) : list request :=
  map (fun x => match x with DeleteAllGateways => DeleteGateways | DeleteAllProviders => DeleteProviders end) ds.

(** After the manager of any one node has stopped, no lookup at the register service finds any node. *)
Theorem stop_unregisters_all_refuted : forall qs es m, (forall k, fine (es k)) -> start node_reg m = true ->
  gatewayDiscv node_reg m = true -> providerDiscv node_reg m = true -> gatewaysLock node_reg m = O -> providersLock node_reg m = O ->
  exists ds m', Shutdown node_reg m = Ret (ds, m') /\
    forall i o, nth_error (fst (fst (serve (qs ++ stopping ds ++ [FindGateway i]) [] es))) (length (qs ++ stopping ds)) = Some o ->
      o = Ret (Status 404).
Proof.
  intros qs es m F S G P Lg Lp. destruct (shutdown_deletes_all_refuted node_reg m S G P Lg Lp) as (m' & E & _).
  exists [DeleteAllGateways; DeleteAllProviders], m'. split; [exact E|]. intros i o O. cbn [stopping map] in *. rewrite app_assoc in O.
  set (h := qs ++ [DeleteGateways; DeleteProviders]) in *.
  assert (Q : nth_error (h ++ [FindGateway i]) (length h) = Some (FindGateway i)) by (rewrite nth_error_app2, Nat.sub_diag by lia; reflexivity).
  pose proof (register_answers _ es _ _ o F Q O) as A. rewrite firstn_app, Nat.sub_diag, firstn_all, app_nil_r in A.
  destruct A as [(r & L & _)|[_ A]]; [|exact A]. exfalso. unfold h in L.
  change (qs ++ [DeleteGateways; DeleteProviders]) with (qs ++ [DeleteGateways] ++ [DeleteProviders]) in L. rewrite app_assoc in L.
  apply last_snoc in L. destruct L as [[X _]|(_ & _ & L)]; [discriminate X|]. apply last_snoc in L. destruct L as [[X _]|(X & _)]; discriminate X.
Qed.
Print Assumptions stop_unregisters_all_refuted.
