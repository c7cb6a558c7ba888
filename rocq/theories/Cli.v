(** * The command line program of the client

    itest/demo/client-cli/main.go over the model of the client library.  What is
    printed is a list of replies; the texts of errors and the completion of commands are left
    out.  A panic ends the program.  Definitions only. *)
From Coq Require Import String List ZArith Bool Init.Byte Strings.Byte.
From Verif Require Import Base Ids Crypto Message Offer Payment Register Client ClientBuild.
Import ListNotations.
Open Scope Z_scope.
Open Scope go_scope.

(** [strings.TrimSpace] on text whose white space is ASCII. *)
Definition space (c : byte) : bool := ((9 <=? bz c) && (bz c <=? 13)) || (bz c =? 32).
Fixpoint trim_left (s : gostring) : gostring := match s with [] => [] | c :: t => if space c then trim_left t else s end.
Definition TrimSpace (s : gostring) : gostring := rev (trim_left (rev (trim_left s))).

(** [strings.Split(in, " ")]. *)
Fixpoint Split (s : gostring) : list gostring :=
  match s with
  | [] => [[]]
  | c :: t =>
      if (c =? x20)%byte then [] :: Split t
      else match Split t with w :: r => (c :: w) :: r | [] => [[c]] end
  end.

(** client-cli/main.go L54-56; the same in the other two programs. *)
Definition blocks (line : gostring) : list gostring := Split (TrimSpace line).
Definition command (bs : list gostring) : gostring := hd [] bs.
Definition is (bs : list gostring) (name : string) : bool := bytes_eqb (command bs) (gs name).

(** client-cli/main.go L31-35: the variables of the program. *)
Record shell := Shell {
  sh_on : bool;
  sh_reg : manager reg;
  sh_client : option client;
  sh_offers : list (gostring * suboffer)
}.

(** client-cli/main.go L31-35, L244. *)
Definition NewShell : shell := Shell false (NewFCRRegisterMgr reg true true) None [].

(** What is printed. *)
Inductive reply :=
| NotInitialised | AlreadyInitialised | InitFailed | Usage | Invalid (w : gostring)
| Nodes (l : list gostring) | CannotUse | NoChannel | Added
| QueryFailed (gw : gostring) | Offers (l : list (gostring * suboffer))
| DhtFailed | DhtOffers (l : list (gostring * list suboffer))
| Unimplemented | Bye | Unknown (w : gostring).

(** The answers of the world during a command: during the calls of the library one by one, and when initialising
    the account made on the chain (its key and the token, client-cli/main.go L260-281 and L284-353), the blockchain key, the client's
    identifier and its retrieval key, and the address of the payment manager made of a wallet key, the address of a Lotus node and a token
    (common/pkg/fcrpaymentmgr/payment_manager.go L89). *)
Record wenv := WEnv {
  we_call : nat -> cenv;
  we_account : outcome (result (gostring * gostring));
  we_chain : result keypair;
  we_random : bytes;
  we_key : result keypair;
  we_mgr : gostring -> gostring -> gostring -> option gostring
}.

(** client-cli/main.go L30. *)
Definition localLotusAP : gostring := gs "http://127.0.0.1:1234/rpc/v0".

(** Posts sent, with where they went. *)
Definition sent : Type := list (gostring * message).

(** Replies that change nothing and send nothing. *)
Definition says (s : shell) (r : reply) : outcome (option shell * list reply * sent) := Ret (Some s, [r], []).

(** client/pkg/fcrclient/filecoin_retrieval_client.go L83-88: the payment manager is made of the settings. *)
Definition with_wallet (e : cenv) (a : option gostring) : cenv :=
  CEnv (ce_now e) (ce_http e) (ce_gateways e) (ce_providers e) a (ce_tx e) (ce_sign e) (ce_order e).

(** client-cli/main.go L58-101. *)
Definition Init (w : wenv) (s : shell) : outcome (option shell * list reply * sent) :=
  if sh_on s then says s AlreadyInitialised
  else
    let* account := we_account w in
    match account with
    | ErrR => says s InitFailed
    | OkR (key, token) =>
        match we_chain w with
        | ErrR => says s InitFailed
        | OkR k =>
            let b := SetEstablishmentTTL CreateSettings 101 in
            let b := SetBlockchainPrivateKey b (Some k) in
            let b := SetWalletPrivateKey b key in
            let b := SetLotusAP b localLotusAP in
            let b := SetLotusAuthToken b token in
            let* conf := Build b (we_random w) (we_key w) in
            match StartMgr reg (sh_reg s) with
            | (ErrR, _) => says s InitFailed
            | (OkR _, m) =>
                match NewClientWith conf m with
                | None => Ret (Some (Shell false m (sh_client s) (sh_offers s)), [InitFailed], [])
                | Some c =>
                    let c := PaymentMgr (with_wallet (we_call w 0) (we_mgr w (cs_wallet conf) (cs_lotus conf) (cs_token conf))) c in
                    match c_pay c with
                    | None => Ret (Some (Shell false m (Some c) (sh_offers s)), [InitFailed], [])
                    | Some _ => Ret (Some (Shell true m (Some c) []), [], [])
                    end
                end
            end
        end
    end.

(** client-cli/main.go L172-174: every entry is the address of the variable [offer], which the iterations share and which holds the last
    offer in the end. *)
Definition keep (res : list suboffer) (temp : list (gostring * suboffer)) : list (gostring * suboffer) :=
  fold_left (fun m o => aset bytes_eqb m (s_sig o) (last res o)) res temp.

(** client-cli/main.go L177-178. *)
Definition merge (temp offers : list (gostring * suboffer)) : list (gostring * suboffer) :=
  fold_left (fun m x => aset bytes_eqb m (fst x) (snd x)) temp offers.

Section cli.
  Variable version : Z.
  Variable supported : list Z.
  Variable sha256 : bytes -> bytes.
  Variable pub_of : bytes -> bytes.
  Variable ec_verify : bytes -> bytes -> bytes -> bool.
  Variable blake : bytes -> bytes.
  Variable voucher_text : voucher -> gostring.
  Variable rand_int : list draw -> Z.
  Variable rand_bytes : list draw -> bytes.

  (** A command that calls the library; the register manager is shared with it. *)
  Definition use (s : shell) (f : client -> outcome (client * list (gostring * suboffer) * list reply * sent))
      : outcome (option shell * list reply * sent) :=
    let* c := deref (sh_client s) in
    let* x := f (with_manager c (sh_reg s)) in
    let '(c, offers, r, out) := x in
    Ret (Some (Shell (sh_on s) (c_reg c) (Some c) offers), r, out).

  (** client-cli/main.go L123-149 [add-active]: a registration that is not found is nil. *)
  Definition AddActive (w : wenv) (s : shell) (id : bytes) (c : client) : outcome (client * list (gostring * suboffer) * list reply * sent) :=
    let* x := AddGatewaysToUse (we_call w 0) 0 c [Some id] in
    let* y := AddActiveGateways version supported sha256 pub_of ec_verify blake rand_bytes (we_call w 1) 0 (snd x) [Some id] in
    let '(added, c, out) := y in
    if negb (added =? 1) then Ret (c, sh_offers s, [CannotUse], out)
    else
      let* g := FindGateway (we_call w 2) 0 c (Some id) in
      let (info, c) := g in
      let* info := deref info in
      let c := PaymentMgr (we_call w 2) c in
      let* m := deref (c_pay c) in
      let (m', ok) := Topup m (r_address info) (c_topup c) (ce_tx (we_call w 2) 0) in
      Ret (with_mgr c m', sh_offers s, [if ok then Added else NoChannel], out).

  (** client-cli/main.go L164-175: the loop over the gateways; the answers number [n], [n+1], ... *)
  Fixpoint query (w : wenv) (n : nat) (c : client) (id : bytes) (gws : list bytes) (temp : list (gostring * suboffer))
      : outcome (client * list (gostring * suboffer) * list reply * sent) :=
    match gws with
    | [] => Ret (c, temp, [], [])
    | gw :: t =>
        let* x := FindOffersStandardDiscoveryV2 version supported sha256 pub_of ec_verify blake voucher_text rand_int (we_call w n) c (Some id) (Some gw) 5 in
        let '(res, c, out) := x in
        let temp := match res with OkR res => keep res temp | ErrR => temp end in
        let failed := match res with OkR _ => [] | ErrR => [QueryFailed (ToString gw)] end in
        let* y := query w (S n) c id t temp in
        let '(c, temp, r, o) := y in
        Ret (c, temp, failed ++ r, out ++ o)
    end.

  (** client-cli/main.go L150-180 [find-offer]. *)
  Definition FindOffer (w : wenv) (s : shell) (id : bytes) (c : client) : outcome (client * list (gostring * suboffer) * list reply * sent) :=
    let* x := query w 1 c id (GetActiveGateways (we_call w 0) c) [] in
    let '(c, temp, r, out) := x in
    Ret (c, merge temp (sh_offers s), r ++ [Offers temp], out).

  (** client-cli/main.go L181-212 [find-offer-dht]: nothing is kept. *)
  Definition FindOfferDht (w : wenv) (s : shell) (node id : bytes) (c : client) : outcome (client * list (gostring * suboffer) * list reply * sent) :=
    let* x := FindOffersDHTDiscoveryV2 version supported sha256 pub_of ec_verify blake voucher_text rand_int (we_call w 0) c (Some id) (Some node) 4 4 in
    let '(res, c, out) := x in
    Ret (c, sh_offers s, [match res with ErrR => DhtFailed | OkR l => DhtOffers l end], out).

  (** client-cli/main.go L53-241 [executor]; no shell remains after [exit]. *)
  Definition executor (w : wenv) (s : shell) (line : gostring) : outcome (option shell * list reply * sent) :=
    let bs := blocks line in
    if is bs "init" then Init w s
    else if is bs "ls-registered" then
      if negb (sh_on s) then says s NotInitialised
      else
        let* x := GetAllGateways reg (ce_order (we_call w 0)) (sh_reg s) in
        Ret (Some (Shell (sh_on s) (snd x) (sh_client s) (sh_offers s)), [Nodes (map r_id (items (fst x)))], [])
    else if is bs "ls-active" then
      if negb (sh_on s) then says s NotInitialised
      else use s (fun c => Ret (c, sh_offers s, [Nodes (map ToString (GetActiveGateways (we_call w 0) c))], []))
    else if is bs "add-active" then
      if negb (sh_on s) then says s NotInitialised
      else match bs with
        | [_; a] =>
            match NewNodeIDFromHexString a with
            | ErrR => says s (Invalid a)
            | OkR id => use s (AddActive w s id)
            end
        | _ => says s Usage
        end
    else if is bs "find-offer" then
      if negb (sh_on s) then says s NotInitialised
      else match bs with
        | [_; a] =>
            match NewNodeIDFromHexString a with
            | ErrR => says s (Invalid a)
            | OkR id => use s (FindOffer w s id)
            end
        | _ => says s Usage
        end
    else if is bs "find-offer-dht" then
      if negb (sh_on s) then says s NotInitialised
      else match bs with
        | [_; a; b] =>
            match NewNodeIDFromHexString a with
            | ErrR => says s (Invalid a)
            | OkR node =>
                match NewNodeIDFromHexString b with
                | ErrR => says s (Invalid b)
                | OkR id => use s (FindOfferDht w s node id)
                end
            end
        | _ => says s Usage
        end
    else if is bs "list-offers" then
      if negb (sh_on s) then says s NotInitialised else says s (Offers (sh_offers s))
    else if is bs "retrieve" then
      if negb (sh_on s) then says s NotInitialised else says s Unimplemented
    else if is bs "retrieve-fast" then
      if negb (sh_on s) then says s NotInitialised else says s Unimplemented
    else if is bs "exit" then Ret (None, [Bye], [])
    else says s (Unknown (command bs)).

  (** Between two lines the goroutines of a started manager may bring its maps up to date. *)
  Definition background (m : manager reg) (b : option (list (gostring * reg) * Ring.ring * list (gostring * reg))) : manager reg :=
    match b with
    | Some (g, r, p) => if start reg m then with_providers reg (with_ring reg (with_gateways reg m g) r) p else m
    | None => m
    end.

  (** A life: lines typed one after another until the program ends. *)
  Fixpoint type_lines (s : shell) (l : list (option (list (gostring * reg) * Ring.ring * list (gostring * reg)) * wenv * gostring))
      : outcome (option shell * list reply * sent) :=
    match l with
    | [] => Ret (Some s, [], [])
    | (b, w, line) :: t =>
        let* x := executor w (Shell (sh_on s) (background (sh_reg s) b) (sh_client s) (sh_offers s)) line in
        let '(s', r, o) := x in
        match s' with
        | None => Ret (None, r, o)
        | Some s' =>
            let* y := type_lines s' t in
            let '(s2, r2, o2) := y in
            Ret (s2, r ++ r2, o ++ o2)
        end
    end.
End cli.
