(** * What is expected of the register service *)
From Coq Require Import List ZArith Bool.
From Coq Require Import Init.Byte.
From Verif Require Import Base OfferStoreSpec RegisterService.
Import ListNotations.
Open Scope Z_scope.

(** Redis answers every command, and gives hashes in any order. *)
Definition shuffled (e : event) : Prop := shuffle (ev_order e).
Definition fine (e : event) : Prop := ev_fate e = Fine /\ shuffled e.

(** The registration a request asks for. *)
Definition gateway_in (q : request) : option gateway_reg :=
  match q with PostGateway b => bind_gateway b | _ => None end.
Definition provider_in (q : request) : option provider_reg :=
  match q with PostProvider b => bind_provider b | _ => None end.
Definition wipes_gateways (q : request) : bool := match q with DeleteGateways => true | _ => false end.
Definition wipes_providers (q : request) : bool := match q with DeleteProviders => true | _ => false end.

(** [r] is what was last registered under [i], and not deleted since. *)
Definition last_post {R} (post : request -> option R) (wipe : request -> bool) (id : R -> gostring)
    (qs : list request) (i : gostring) (r : R) : Prop :=
  exists before q after, qs = before ++ q :: after /\ post q = Some r /\ id r = i /\
    forall q', In q' after -> wipe q' = false /\ forall r', post q' = Some r' -> id r' <> i.
Definition last_gateway := last_post gateway_in wipes_gateways gr_id.
Definition last_provider := last_post provider_in wipes_providers pr_id.

(** The right answer to a request after others. *)
Definition right_answer (before : list request) (q : request) (o : outcome response) : Prop :=
  match q with
  | PostGateway b =>
      match bind_gateway b with Some r => o = Ret (Gateway r) | None => exists c, o = Ret (Status c) end
  | ListGateways => exists l, o = Ret (Gateways l) /\ NoDup (map gr_id l) /\
      forall r, In r l <-> last_gateway before (gr_id r) r
  | FindGateway i =>
      (exists r, last_gateway before i r /\ o = Ret (Gateway r)) \/
      ((forall r, ~ last_gateway before i r) /\ o = Ret (Status 404))
  | DeleteGateways => o = Ret Ack
  | PostProvider b =>
      match bind_provider b with Some r => o = Ret (Provider r) | None => exists c, o = Ret (Status c) end
  | ListProviders => exists l, o = Ret (Providers l) /\ NoDup (map pr_id l) /\
      forall r, In r l <-> last_provider before (pr_id r) r
  | FindProvider i =>
      (exists r, last_provider before i r /\ o = Ret (Provider r)) \/
      ((forall r, ~ last_provider before i r) /\ o = Ret (Status 404))
  | DeleteProviders => o = Ret Ack
  end.

(** Requests about gateways. *)
Definition about_gateways (q : request) : bool :=
  match q with PostGateway _ | ListGateways | FindGateway _ | DeleteGateways => true | _ => false end.
