(** * The command line programs of the administrators

    itest/demo/provideradmin-cli/main.go and itest/demo/gatewayadmin-cli/main.go over the model of the administrators'
    libraries.  What is printed is a list of replies; the texts of errors and the completion of commands are left
    out, and so is the register manager, of which only the registering of nodes is used (its result is an input).
    Definitions only. *)
From Coq Require Import String List ZArith Bool Init.Byte.
From Verif Require Import Base Ids Json Crypto Message Offer Admin.
From Verif Require Client Cli.
Import ListNotations.
Open Scope Z_scope.
Open Scope go_scope.

(** provideradmin-cli/main.go L31-37, gatewayadmin-cli/main.go L28-33: the administrator is nil until initialised. *)
Record desk := Desk { dk_on : bool; dk_admin : option admin }.
Definition NewDesk : desk := Desk false None.

(** provideradmin-cli/main.go L32, gatewayadmin-cli/main.go L29. *)
Definition networkLotusAP : gostring := gs "http://lotus:1234/rpc/v0".

(** What is printed. *)
Inductive notice :=
| NNotInitialised | NAlready | NFailed | NDone | NAccount (address : gostring) | NRegisterError | NRegistered (id : gostring)
| NNodes (l : list gostring) | NUsage | NInvalid (w : gostring) | NPublishFailed | NPublished (cids : list gostring) (price : Z)
| NPublishedDht (cid : gostring) | NUnimplemented | NBye | NUnknown (w : gostring).

(** The answers of the world during a command: those of the nodes (to the node number [i]), new keys (for initialising: of the
    chain and of the administrator; then the root and retrieval keys of node [i]), accounts made on the chain (private key and
    address) with the token, the random identifiers, whether the register takes node [i], the time and the random price. *)
Record denv := DEnv {
  de_http : nat -> gostring -> message -> option message;
  de_chain : result keypair; de_generated : result keypair;
  de_root : nat -> result keypair; de_retrieval : nat -> result keypair;
  de_accounts : outcome (result (list (gostring * gostring) * gostring));
  de_random : nat -> bytes;
  de_registers : nat -> bool;
  de_now : Z; de_price : Z;
  de_order : list (gostring * reg) -> list (gostring * reg)
}.

Definition notify (d : desk) (n : notice) : outcome (option desk * list notice * list post) := Ret (Some d, [n], []).

(** provideradmin-cli/main.go L57-74, gatewayadmin-cli/main.go L51-68: the error of starting the register manager is
    not looked at. *)
Definition Init (settings : builder) (w : denv) (d : desk) : outcome (option desk * list notice * list post) :=
  if dk_on d then notify d NAlready
  else
    match de_chain w with
    | ErrR => notify d NFailed
    | OkR k =>
        let* conf := Build (SetBlockchainPrivateKey settings (Some k)) (de_generated w) in
        Ret (Some (Desk true (Some (NewAdmin conf))), [NDone], [])
    end.

(** gatewayadmin-cli/main.go L107-112: [%X] of a number below sixteen is one digit. *)
Definition gateway_id (i : nat) : gostring :=
  [nth (Nat.div i 2) (gs "0123456789ABCDEF") x30] ++ (if Nat.even i then gs "0" else gs "8") ++ repeat x30 62.
(** gatewayadmin-cli/main.go L113-123. *)
Definition gateway_register (i : nat) (address root signing : gostring) : reg :=
  Client.Reg (gateway_id i) address root signing (gs "au")
    (gs "gateway" ++ dec_print (Z.of_nat i) ++ gs ":9012") (gs "gateway" ++ dec_print (Z.of_nat i) ++ gs ":9011")
    (gs "127.0.0.1:" ++ dec_print (8018 + Z.of_nat i)) (gs "127.0.0.1:" ++ dec_print (7013 + Z.of_nat i)).
(** provideradmin-cli/main.go L109-118. *)
Definition provider_register (id : bytes) (address root signing : gostring) : reg :=
  Client.Reg (ToString id) address root signing (gs "au") (gs "provider:9032") [] (gs "127.0.0.1:9030") (gs "127.0.0.1:9033").

Section desk.
  Variable version : Z.
  Variable supported : list Z.
  Variable sha256 : bytes -> bytes.
  Variable pub_of : bytes -> bytes.
  Variable ec_sign : bytes -> bytes -> option bytes.
  Variable ec_verify : bytes -> bytes -> bytes -> bool.
  Variable blake : bytes -> bytes.

  (** provideradmin-cli/main.go L89-108, gatewayadmin-cli/main.go L87-106: the root key's public text, the retrieval key and its
      public text; encoding a key stores the public half in it. *)
  Definition new_keys (w : denv) (i : nat) : result (gostring * keypair * gostring) :=
    match de_root w i with
    | ErrR => ErrR
    | OkR root =>
        match fst (EncodePublicKey pub_of root) with
        | ErrR => ErrR
        | OkR rootText =>
            match de_retrieval w i with
            | ErrR => ErrR
            | OkR k =>
                match EncodePublicKey pub_of k with
                | (ErrR, _) => ErrR
                | (OkR text, k) => OkR (rootText, k, text)
                end
            end
        end
    end.

  (** A node is initialised with key version 1 and given to the register, provideradmin-cli/main.go L119-129,
      gatewayadmin-cli/main.go L124-134: failing to register is only printed. *)
  Definition enroll (w : denv) (i : nat) (init : (gostring -> message -> option message) -> outcome (bool * admin * list post)) (node : reg)
      : outcome (bool * admin * list notice * list post) :=
    let* x := init (de_http w i) in
    let '(ok, a, out) := x in
    if negb ok then Ret (false, a, [NFailed], out)
    else Ret (true, a, (if de_registers w i then [] else [NRegisterError]) ++ [NRegistered (r_id node)], out).

  (** provideradmin-cli/main.go L75-130 [register-pvd]. *)
  Definition RegisterPvd (w : denv) (a : admin) : outcome (admin * list notice * list post) :=
    let* acc := de_accounts w in
    match acc with
    | ErrR => Ret (a, [NFailed], [])
    | OkR (l, token) =>
        let* x := deref (nth_error l 0) in
        let (key, address) := x in
        match new_keys w 0 with
        | ErrR => Ret (a, [NAccount address; NFailed], [])
        | OkR (root, k, text) =>
            let node := provider_register (de_random w 0) address root text in
            let* x := enroll w 0 (fun http => InitialiseProviderV2 version supported sha256 pub_of ec_sign ec_verify blake http a node (Some k) (Some 1) key networkLotusAP token) node in
            let '(_, a, n, out) := x in
            Ret (a, NAccount address :: n, out)
        end
    end.

  (** gatewayadmin-cli/main.go L81-135: the loop of [register-gw]; [n] more gateways from number [i]. *)
  Fixpoint register_gateways (w : denv) (l : list (gostring * gostring)) (token : gostring) (n i : nat) (a : admin)
      : outcome (admin * list notice * list post) :=
    match n with
    | O => Ret (a, [], [])
    | S n =>
        let* x := deref (nth_error l i) in
        let (key, address) := x in
        match new_keys w i with
        | ErrR => Ret (a, [NAccount address; NFailed], [])
        | OkR (root, k, text) =>
            let node := gateway_register i address root text in
            let* x := enroll w i (fun http => InitialiseGatewayV2 version supported sha256 pub_of ec_sign ec_verify blake http a node (Some k) (Some 1) key networkLotusAP token) node in
            let '(ok, a, m, out) := x in
            if negb ok then Ret (a, NAccount address :: m, out)
            else
              let* y := register_gateways w l token n (S i) a in
              let '(a, m', out') := y in
              Ret (a, NAccount address :: m ++ m', out ++ out')
        end
    end.
  (** gatewayadmin-cli/main.go L69-135 [register-gw]. *)
  Definition RegisterGw (w : denv) (a : admin) : outcome (admin * list notice * list post) :=
    let* acc := de_accounts w in
    match acc with
    | ErrR => Ret (a, [NFailed], [])
    | OkR (l, token) => register_gateways w l token 20 0 a
    end.

  (** A command for the administrator. *)
  Definition at_desk (d : desk) (f : admin -> outcome (admin * list notice * list post)) : outcome (option desk * list notice * list post) :=
    if negb (dk_on d) then notify d NNotInitialised
    else
      let* a := deref (dk_admin d) in
      let* x := f a in
      let '(a, n, out) := x in
      Ret (Some (Desk (dk_on d) (Some a)), n, out).

  (** Texts of identifiers one after the other, provideradmin-cli/main.go L182-201: the first that is none is reported. *)
  Fixpoint identifiers (ws : list gostring) (f : list bytes -> outcome (list notice * list post)) : outcome (list notice * list post) :=
    match ws with
    | [] => f []
    | w :: t =>
        match NewNodeIDFromHexString w with
        | ErrR => Ret ([NInvalid w], [])
        | OkR id => identifiers t (fun ids => f (id :: ids))
        end
    end.

  (** provideradmin-cli/main.go L163-172, L202-209: an offer for a day. *)
  Definition publish_group (w : denv) (a : admin) (id : bytes) (cids : list bytes) (price : Z) : outcome (list notice * list post) :=
    let* x := PublishGroupCID version supported sha256 pub_of ec_sign ec_verify blake (de_http w 0) a (Some id) cids price (de_now w + 86400) 42 in
    Ret ([if fst x then NPublished (map ToString cids) price else NPublishFailed], snd x).
  (** provideradmin-cli/main.go L229-235. *)
  Definition publish_dht (w : denv) (a : admin) (id : bytes) (c : bytes) : outcome (list notice * list post) :=
    let* x := PublishDHTCID version supported sha256 pub_of ec_sign ec_verify blake (de_http w 0) a (Some id) [c] (Some [45]) (Some [de_now w + 86400]) (Some [43]) in
    Ret ([if fst x then NPublishedDht (ToString c) else NPublishFailed], snd x).
  Definition saying (a : admin) (o : outcome (list notice * list post)) : outcome (admin * list notice * list post) :=
    let* x := o in Ret (a, fst x, snd x).

  (** provideradmin-cli/main.go L52-243 [executor]. *)
  Definition provider_executor (w : denv) (d : desk) (line : gostring) : outcome (option desk * list notice * list post) :=
    let bs := Cli.blocks line in
    if Cli.is bs "init" then Init CreateProviderSettings w d
    else if Cli.is bs "register-pvd" then at_desk d (RegisterPvd w)
    else if Cli.is bs "list-pvds" then at_desk d (fun a => Ret (a, [NNodes (map (fun x => r_id (snd x)) (de_order w (ad_nodes a)))], []))
    else if Cli.is bs "publish-offer-from-file" then at_desk d (fun a => Ret (a, [NUnimplemented], []))
    else if Cli.is bs "publish-random-offer" then
      at_desk d (fun a => match bs with
        | [_; n] => saying a (identifiers [n] (fun ids => match ids with
            | [id] => publish_group w a id [de_random w 0; de_random w 1; de_random w 2] (de_price w)
            | _ => Panic end))
        | _ => Ret (a, [NUsage], [])
        end)
    else if Cli.is bs "publish-offer-given-cids" then
      at_desk d (fun a => match bs with
        | [_; n; c1; c2; c3] => saying a (identifiers [n; c1; c2; c3] (fun ids => match ids with
            | [id; i1; i2; i3] => publish_group w a id [i1; i2; i3] 44
            | _ => Panic end))
        | _ => Ret (a, [NUsage], [])
        end)
    else if Cli.is bs "publish-dht-offer" then
      at_desk d (fun a => match bs with
        | [_; n; c] => saying a (identifiers [n; c] (fun ids => match ids with
            | [id; i] => publish_dht w a id i
            | _ => Panic end))
        | _ => Ret (a, [NUsage], [])
        end)
    else if Cli.is bs "exit" then Ret (None, [NBye], [])
    else notify d (NUnknown (Cli.command bs)).

  (** gatewayadmin-cli/main.go L46-155 [executor]. *)
  Definition gateway_executor (w : denv) (d : desk) (line : gostring) : outcome (option desk * list notice * list post) :=
    let bs := Cli.blocks line in
    if Cli.is bs "init" then Init CreateGatewaySettings w d
    else if Cli.is bs "register-gw" then at_desk d (RegisterGw w)
    else if Cli.is bs "inspect-gw-offer-traffic" then at_desk d (fun a => Ret (a, [NUnimplemented], []))
    else if Cli.is bs "cache-offer-content" then at_desk d (fun a => Ret (a, [NUnimplemented], []))
    else if Cli.is bs "exit" then Ret (None, [NBye], [])
    else notify d (NUnknown (Cli.command bs)).

  (** A life: lines typed one after another until the program ends. *)
  Fixpoint desk_lines (exec : denv -> desk -> gostring -> outcome (option desk * list notice * list post)) (d : desk) (l : list (denv * gostring))
      : outcome (option desk * list notice * list post) :=
    match l with
    | [] => Ret (Some d, [], [])
    | (w, line) :: t =>
        let* x := exec w d line in
        let '(d', n, o) := x in
        match d' with
        | None => Ret (None, n, o)
        | Some d' =>
            let* y := desk_lines exec d' t in
            let '(d2, n2, o2) := y in
            Ret (d2, n ++ n2, o ++ o2)
        end
    end.
End desk.
