(** * The register service

    Models register/internal/handlers/gateways_handler.go and providers_handler.go with
    the structs of register/models, and the calls of
    common/pkg/fcrregistermgr/register_manager.go that reach the service through
    common/pkg/request/request.go.  Definitions only.

    A handler is a program of Redis commands.  Redis executes one command at a time.  A
    command may fail before or after it took effect, and the hash it returns is in any
    order.  Connecting, the database number, passwords and Redis values of another type
    are not modelled.  Routing, CORS and the documentation pages of go-openapi are not
    modelled: a request arrives at its handler as configured in
    restapi/configure_register.go L52-78.  The answers are printed as [json.Marshal]
    does; go-openapi leaves the three HTML characters unescaped and adds a line break,
    which any reader undoes. *)
From Coq Require Import String List ZArith Bool.
From Coq Require Import Init.Byte.
From Verif Require Import Base Json Register.
Import ListNotations.
Open Scope Z_scope.

(** ** Registrations *)

(** register/models/gateway_register.go L18-46; also the fields of
    common/pkg/register/gateway_register.go L13-23, in the order of the former. *)
Record gateway_reg := GatewayReg {
  gr_address : gostring;
  gr_admin : gostring;
  gr_client : gostring;
  gr_gateway : gostring;
  gr_provider : gostring;
  gr_id : gostring;
  gr_region : gostring;
  gr_root : gostring;
  gr_signing : gostring
}.

(** register/models/provider_register.go L18-43; also the fields of
    common/pkg/register/provider_register.go L28-37, in the order of the former. *)
Record provider_reg := ProviderReg {
  pr_address : gostring;
  pr_admin : gostring;
  pr_client : gostring;
  pr_gateway : gostring;
  pr_id : gostring;
  pr_region : gostring;
  pr_root : gostring;
  pr_signing : gostring
}.

(** The zero values, gateways_handler.go L61 and providers_handler.go L62. *)
Definition zero_gateway : gateway_reg := GatewayReg [] [] [] [] [] [] [] [] [].
Definition zero_provider : provider_reg := ProviderReg [] [] [] [] [] [] [] [].

(** A string field tagged [omitempty]. *)
Definition omit (k : string) (v : gostring) : list (gostring * json) :=
  match v with [] => [] | _ => [(gs k, JStr v)] end.

(** [swag.WriteJSON] in [MarshalBinary], gateway_register.go L59-64 and
    provider_register.go L56-61: the struct as JSON. *)
Definition gateway_json (r : gateway_reg) : json :=
  JObj (omit "address" (gr_address r) ++ omit "networkInfoAdmin" (gr_admin r) ++
        omit "networkInfoClient" (gr_client r) ++ omit "networkInfoGateway" (gr_gateway r) ++
        omit "networkInfoProvider" (gr_provider r) ++ omit "nodeId" (gr_id r) ++
        omit "regionCode" (gr_region r) ++ omit "rootSigningKey" (gr_root r) ++
        omit "signingKey" (gr_signing r)).
Definition provider_json (r : provider_reg) : json :=
  JObj (omit "address" (pr_address r) ++ omit "networkInfoAdmin" (pr_admin r) ++
        omit "networkInfoClient" (pr_client r) ++ omit "networkInfoGateway" (pr_gateway r) ++
        omit "nodeId" (pr_id r) ++
        omit "regionCode" (pr_region r) ++ omit "rootSigningKey" (pr_root r) ++
        omit "signingKey" (pr_signing r)).

(** A string field read by [json.Unmarshal]. *)
Definition jstr (f : list (gostring * json)) (k : string) : option gostring := jfield dec_str [] (gs k) f.

(** Reading the structs; the keys are the same in register/models and in
    common/pkg/register.  After a wrong type Go goes on with the other fields before it
    reports the error; here nothing is read. *)
Definition gateway_of_json (j : json) : option gateway_reg :=
  match j with
  | JObj f =>
      match jstr f "address", jstr f "networkInfoAdmin", jstr f "networkInfoClient",
            jstr f "networkInfoGateway", jstr f "networkInfoProvider", jstr f "nodeId",
            jstr f "regionCode", jstr f "rootSigningKey", jstr f "signingKey" with
      | Some a, Some b, Some c, Some d, Some e, Some i, Some g, Some h, Some s =>
          Some (GatewayReg a b c d e i g h s)
      | _, _, _, _, _, _, _, _, _ => None
      end
  | _ => None
  end.
Definition provider_of_json (j : json) : option provider_reg :=
  match j with
  | JObj f =>
      match jstr f "address", jstr f "networkInfoAdmin", jstr f "networkInfoClient",
            jstr f "networkInfoGateway", jstr f "nodeId",
            jstr f "regionCode", jstr f "rootSigningKey", jstr f "signingKey" with
      | Some a, Some b, Some c, Some d, Some i, Some g, Some h, Some s =>
          Some (ProviderReg a b c d i g h s)
      | _, _, _, _, _, _, _, _ => None
      end
  | _ => None
  end.

(** ** Redis *)

(** The commands used: L29, L50, L84, L112, L121 of gateways_handler.go and L29, L52, L84, L114, L123 of providers_handler.go. *)
Inductive command :=
| HSet (key field value : gostring)
| HGet (key field : gostring)
| HGetAll (key : gostring)
| HDel (key field : gostring).

(** What the client of Redis returns; a missing field is an error ([redis.Nil]). *)
Inductive reply :=
| RFailed
| RDone
| RValue (v : gostring)
| RAll (l : list (gostring * gostring)).

(** The hashes by key; an absent hash is empty. *)
Definition db := list (gostring * list (gostring * gostring)).
Definition hash (d : db) (key : gostring) : list (gostring * gostring) :=
  match aget bytes_eqb d key with Some h => h | None => [] end.

(** What becomes of a command. *)
Inductive fate := Fine | Lost | Late.
Record event := Event {
  ev_fate : fate;
  ev_order : list (gostring * gostring) -> list (gostring * gostring)
}.

(** Redis executes a command. *)
Definition redis (d : db) (c : command) (order : list (gostring * gostring) -> list (gostring * gostring)) : db * reply :=
  match c with
  | HSet k f v => (aset bytes_eqb d k (aset bytes_eqb (hash d k) f v), RDone)
  | HGet k f => (d, match aget bytes_eqb (hash d k) f with Some v => RValue v | None => RFailed end)
  | HGetAll k => (d, RAll (order (hash d k)))
  | HDel k f => (aset bytes_eqb d k (adel bytes_eqb (hash d k) f), RDone)
  end.
Definition exec (d : db) (c : command) (e : event) : db * reply :=
  match ev_fate e with
  | Fine => redis d c (ev_order e)
  | Lost => (d, RFailed)
  | Late => (fst (redis d c (ev_order e)), RFailed)
  end.

(** ** Handlers *)

(** The answers of the service.  The texts of errors are not modelled. *)
Inductive response :=
| Gateway (r : gateway_reg)
| Gateways (l : list gateway_reg)
| Provider (r : provider_reg)
| Providers (l : list provider_reg)
| Ack
| Status (code : Z).

(** A handler: it ends, or sends a command and goes on with the reply. *)
Inductive program :=
| End (o : outcome response)
| Send (c : command) (k : reply -> program).

Definition key_gateway : gostring := gs "gateway".
Definition key_provider : gostring := gs "provider".

(** register/internal/handlers/gateways_handler.go L19-39 [AddGatewayRegister]. *)
Definition AddGatewayRegister (r : gateway_reg) : program :=
  Send (HSet key_gateway (gr_id r) (json_print (gateway_json r))) (fun x =>
    match x with RFailed => End Panic | _ => End (Ret (Gateway r)) end).

(** A stored text read back, L61-64 and L91-94 of gateways_handler.go: an error is only logged. *)
Definition stored_gateway (t : gostring) : gateway_reg :=
  match unmarshal gateway_of_json zero_gateway t with Some r => r | None => zero_gateway end.

(** gateways_handler.go L42-71 [GetGatewayRegisters]. *)
Definition GetGatewayRegisters : program :=
  Send (HGetAll key_gateway) (fun x =>
    match x with
    | RAll l => End (Ret (Gateways (map (fun kv => stored_gateway (snd kv)) l)))
    | _ => End (Ret (Status 404))
    end).

(** gateways_handler.go L74-98 [GetGatewayRegisterByID]. *)
Definition GetGatewayRegisterByID (id : gostring) : program :=
  Send (HGet key_gateway id) (fun x =>
    match x with
    | RValue t => End (Ret (Gateway (stored_gateway t)))
    | _ => End (Ret (Status 404))
    end).

(** gateways_handler.go L119-129 and providers_handler.go L121-131: the loop of the deletions. *)
Fixpoint delete_each (key : gostring) (ids : list gostring) : program :=
  match ids with
  | [] => End (Ret Ack)
  | id :: t =>
      Send (HDel key id) (fun x => match x with RFailed => End Panic | _ => delete_each key t end)
  end.

(** gateways_handler.go L101-130 [DeleteGatewayRegisters]. *)
Definition DeleteGatewayRegisters : program :=
  Send (HGetAll key_gateway) (fun x =>
    match x with
    | RAll l => delete_each key_gateway (map fst l)
    | _ => End (Ret (Status 404))
    end).

(** register/internal/handlers/providers_handler.go L19-40 [AddProviderRegister]. *)
Definition AddProviderRegister (r : provider_reg) : program :=
  Send (HSet key_provider (pr_id r) (json_print (provider_json r))) (fun x =>
    match x with RFailed => End (Ret (Status 404)) | _ => End (Ret (Provider r)) end).

(** providers_handler.go L62-65. *)
Definition stored_provider (t : gostring) : provider_reg :=
  match unmarshal provider_of_json zero_provider t with Some r => r | None => zero_provider end.

(** providers_handler.go L43-71 [GetProviderRegisters]. *)
Definition GetProviderRegisters : program :=
  Send (HGetAll key_provider) (fun x =>
    match x with
    | RAll l => End (Ret (Providers (map (fun kv => stored_provider (snd kv)) l)))
    | _ => End (Ret (Status 404))
    end).

(** providers_handler.go L74-100 [GetProviderRegisterByID]. *)
Definition GetProviderRegisterByID (id : gostring) : program :=
  Send (HGet key_provider id) (fun x =>
    match x with
    | RValue t =>
        match unmarshal provider_of_json zero_provider t with
        | Some r => End (Ret (Provider r))
        | None => End (Ret (Status 404))
        end
    | _ => End (Ret (Status 404))
    end).

(** providers_handler.go L103-132 [DeleteProviderRegisters]. *)
Definition DeleteProviderRegisters : program :=
  Send (HGetAll key_provider) (fun x =>
    match x with
    | RAll l => delete_each key_provider (map fst l)
    | _ => End (Ret (Status 404))
    end).

(** ** Requests *)

Inductive request :=
| PostGateway (body : gostring)
| ListGateways
| FindGateway (id : gostring)
| DeleteGateways
| PostProvider (body : gostring)
| ListProviders
| FindProvider (id : gostring)
| DeleteProviders.

(** [route.Consumer.Consume], add_gateway_register_parameters.go L57: the first JSON value of the body. *)
Definition consume {A} (dec : json -> option A) (zero : A) (s : gostring) : option A :=
  match parse_value (2 * length s + 2) s with
  | None => None
  | Some (JNull, _) => Some zero
  | Some (j, _) => dec j
  end.

(** [BindRequest] in register/restapi/operations/gateway/add_gateway_register_parameters.go L49-85
    and provider/add_provider_register_parameters.go L49-85.  An empty body is refused like a
    malformed one. *)
Definition bind_gateway (body : gostring) : option gateway_reg := consume gateway_of_json zero_gateway body.
Definition bind_provider (body : gostring) : option provider_reg := consume provider_of_json zero_provider body.

(** register/restapi/configure_register.go L52-78.  The code of a refused body is not modelled. *)
Definition handle (q : request) : program :=
  match q with
  | PostGateway b => match bind_gateway b with Some r => AddGatewayRegister r | None => End (Ret (Status 422)) end
  | ListGateways => GetGatewayRegisters
  | FindGateway id => GetGatewayRegisterByID id
  | DeleteGateways => DeleteGatewayRegisters
  | PostProvider b => match bind_provider b with Some r => AddProviderRegister r | None => End (Ret (Status 422)) end
  | ListProviders => GetProviderRegisters
  | FindProvider id => GetProviderRegisterByID id
  | DeleteProviders => DeleteProviderRegisters
  end.

(** ** Running *)

(** The events still to come. *)
Definition later (es : nat -> event) : nat -> event := fun n => es (S n).

(** A program alone: the outcome, the store and the events left. *)
Fixpoint run_program (p : program) (d : db) (es : nat -> event) : outcome response * db * (nat -> event) :=
  match p with
  | End o => (o, d, es)
  | Send c k => let x := exec d c (es O) in run_program (k (snd x)) (fst x) (later es)
  end.

(** Requests one after another. *)
Fixpoint serve (qs : list request) (d : db) (es : nat -> event) : list (outcome response) * db * (nat -> event) :=
  match qs with
  | [] => ([], d, es)
  | q :: t =>
      let '(o, d, es) := run_program (handle q) d es in
      let '(os, d, es) := serve t d es in
      (o :: os, d, es)
  end.

(** Requests that overlap: the handler of one of them sends its next command. *)
Definition service := (db * list program)%type.
Definition turn (s : service) (i : nat) (e : event) : service :=
  match nth_error (snd s) i with
  | Some (Send c k) => let x := exec (fst s) c e in (fst x, set_nth (snd s) i (k (snd x)))
  | _ => s
  end.
Definition turns (s : service) (l : list (nat * event)) : service :=
  fold_left (fun s x => turn s (fst x) (snd x)) l s.
Definition arriving (qs : list request) (d : db) : service := (d, map handle qs).

(** ** The nodes *)

(** The struct of common/pkg/register/gateway_register.go L13-23 as JSON, and
    provider_register.go L28-37. *)
Definition gateway_post (r : gateway_reg) : json :=
  JObj [(gs "nodeId", JStr (gr_id r)); (gs "address", JStr (gr_address r));
        (gs "rootSigningKey", JStr (gr_root r)); (gs "signingKey", JStr (gr_signing r));
        (gs "regionCode", JStr (gr_region r)); (gs "networkInfoGateway", JStr (gr_gateway r));
        (gs "networkInfoProvider", JStr (gr_provider r)); (gs "networkInfoClient", JStr (gr_client r));
        (gs "networkInfoAdmin", JStr (gr_admin r))].
Definition provider_post (r : provider_reg) : json :=
  JObj [(gs "nodeId", JStr (pr_id r)); (gs "address", JStr (pr_address r));
        (gs "rootSigningKey", JStr (pr_root r)); (gs "signingKey", JStr (pr_signing r));
        (gs "regionCode", JStr (pr_region r)); (gs "networkInfoGateway", JStr (pr_gateway r));
        (gs "networkInfoClient", JStr (pr_client r));
        (gs "networkInfoAdmin", JStr (pr_admin r))].

(** What the node sends: register_manager.go L165-168 [RegisterGateway], L171-174 [RegisterProvider]
    through request.go L78-96 [SendJSON]. *)
Definition RegisterGateway (r : gateway_reg) : request := PostGateway (json_print (gateway_post r)).
Definition RegisterProvider (r : provider_reg) : request := PostProvider (json_print (provider_post r)).

(** What [SendJSON] reports: request.go L88-95 does not look at the status.  A handler that
    panics closes the connection. *)
Definition SendJSON_reports (o : outcome response) : result unit :=
  match o with Ret _ => OkR tt | _ => ErrR end.

(** What [Delete] reports, request.go L138-153. *)
Definition Delete_reports (o : outcome response) : result unit :=
  match o with Ret (Status _) => ErrR | Ret _ => OkR tt | _ => ErrR end.

(** The body of an answer; the status line is not looked at (request.go L59-75). *)
Definition answer_json (x : response) : json :=
  match x with
  | Gateway r => gateway_json r
  | Gateways l => JArr (map gateway_json l)
  | Provider r => provider_json r
  | Providers l => JArr (map provider_json l)
  | Ack => JObj [(gs "message", JStr []); (gs "status", JStr (gs "success"))]
  | Status _ => JObj [(gs "code", JNull); (gs "message", JStr [])]
  end.
Definition GetJSON (o : outcome response) : option gostring :=
  match o with Ret x => Some (json_print (answer_json x)) | _ => None end.

(** [json.Unmarshal] into a slice of pointers, register_manager.go L261-262 and L280, L286: null is
    a nil pointer, and a null list has no elements. *)
Definition pointers {A} (dec : json -> option A) (text : gostring) : option (list (option A)) :=
  match json_parse text with
  | Some JNull => Some []
  | Some (JArr l) => dec_elems (fun j => match dec j with Some r => Some (Some r) | None => None end) None l
  | _ => None
  end.
(** A registration under its identifier, as the manager keeps it. *)
Definition node_reg := (gateway_reg + provider_reg)%type.
Definition by_id {A} (id : A -> gostring) (node : A -> node_reg) (l : list (option A)) : list (option (gostring * node_reg)) :=
  map (fun x => match x with Some r => Some (id r, node r) | None => None end) l.
(** register_manager.go L250-272 [pullGatewaysFromRegisterSrv], L275-295 [pullProvidersFromRegisterSrv], up to the copying. *)
Definition pull_gateways (o : outcome response) : Register.answer node_reg :=
  match GetJSON o with
  | None => None
  | Some t => match pointers gateway_of_json t with Some l => Some (by_id gr_id inl l) | None => None end
  end.
Definition pull_providers (o : outcome response) : Register.answer node_reg :=
  match GetJSON o with
  | None => None
  | Some t => match pointers provider_of_json t with Some l => Some (by_id pr_id inr l) | None => None end
  end.
