(** * The register manager

    Models common/pkg/fcrregistermgr/register_manager.go.  Definitions only.

    The answers of the register service are inputs.  Calls run one after another; the
    update goroutines run when a refresh is due, so a refresh is one more call.  Taking
    a lock that is never released gives [Diverge].  For calls that overlap see
    [RegisterLocks].  A registration is a node identifier with its other fields, whose
    type is a parameter. *)
From Coq Require Import List ZArith Bool.
From Coq Require Import Init.Byte.
From Verif Require Import Base Ids Offer Ring.
Import ListNotations.
Open Scope Z_scope.
Open Scope go_scope.

(** [sync.RWMutex] (register_manager.go L59-70) between calls: no writer, some readers. *)
Definition lock := nat.
Definition RLock (l : lock) : lock := S l.
Definition RUnlock (l : lock) : outcome lock := match l with O => Panic | S l => Ret l end.
(** [Lock] directly followed by writing and [Unlock]. *)
Definition Locked (l : lock) : outcome unit := match l with O => Ret tt | S _ => Diverge end.

Section manager.
  Variable Info : Type.

  (** register_manager.go L39-72 [FCRRegisterMgr]. *)
  Record manager := Manager {
    start : bool;
    gatewayDiscv : bool;
    providerDiscv : bool;
    gatewaysMap : list (gostring * Info);
    gatewaysLock : lock;
    closest : ring;
    closestLock : lock;
    providersMap : list (gostring * Info);
    providersLock : lock
  }.

  (** register_manager.go L75-99 [NewFCRRegisterMgr]. *)
  Definition NewFCRRegisterMgr (providerDiscv gatewayDiscv : bool) : manager :=
    Manager false gatewayDiscv providerDiscv [] O CreateRing O [] O.

  (** register_manager.go L102-114 [Start]; the first update is a refresh. *)
  Definition StartMgr (m : manager) : result unit * manager :=
    if start m then (ErrR, m)
    else (OkR tt, Manager true (gatewayDiscv m) (providerDiscv m) (gatewaysMap m) (gatewaysLock m)
                    (closest m) (closestLock m) (providersMap m) (providersLock m)).

  (** Assignments to the fields of register_manager.go L39-72. *)
  Definition with_gateways (m : manager) (x : list (gostring * Info)) : manager :=
    Manager (start m) (gatewayDiscv m) (providerDiscv m) x (gatewaysLock m) (closest m) (closestLock m) (providersMap m) (providersLock m).
  Definition with_ring (m : manager) (x : ring) : manager :=
    Manager (start m) (gatewayDiscv m) (providerDiscv m) (gatewaysMap m) (gatewaysLock m) x (closestLock m) (providersMap m) (providersLock m).
  Definition with_providers (m : manager) (x : list (gostring * Info)) : manager :=
    Manager (start m) (gatewayDiscv m) (providerDiscv m) (gatewaysMap m) (gatewaysLock m) (closest m) (closestLock m) x (providersLock m).
  Definition with_locks (m : manager) (g c p : lock) : manager :=
    Manager (start m) (gatewayDiscv m) (providerDiscv m) (gatewaysMap m) g (closest m) c (providersMap m) p.

  (** What the register service answers: nothing usable, or a list in which an element
      may be null. *)
  Definition answer := option (list (option (gostring * Info))).

  (** register_manager.go L250-272 [pullGatewaysFromRegisterSrv], L275-295 [pullProvidersFromRegisterSrv]: a null
      element is dereferenced. *)
  Definition pulled (a : answer) : outcome (list (gostring * Info)) :=
    match a with
    | None => Ret []
    | Some l => fold_right (fun x o => let* r := o in let* e := deref x in Ret (e :: r)) (Ret []) l
    end.

  (** register_manager.go L371-392, the loop over the gateways.  The stored and the new registration are pointers,
      which always differ (L385). *)
  Fixpoint add_gateways (m : manager) (l : list (gostring * Info)) : outcome manager :=
    match l with
    | [] => Ret m
    | (id, info) :: t =>
        let* _ := Locked (gatewaysLock m) in
        let m' := with_gateways m (aset bytes_eqb (gatewaysMap m) id info) in
        match aget bytes_eqb (gatewaysMap m) id with
        | None =>
            let* _ := Locked (closestLock m) in
            let* r := Insert (closest m) id in
            add_gateways (with_ring m' r) t
        | Some _ => add_gateways m' t
        end
    end.

  (** register_manager.go L421-439, the loop over the providers. *)
  Fixpoint add_providers (m : manager) (l : list (gostring * Info)) : outcome manager :=
    match l with
    | [] => Ret m
    | (id, info) :: t =>
        let* _ := Locked (providersLock m) in
        add_providers (with_providers m (aset bytes_eqb (providersMap m) id info)) t
    end.

  (** register_manager.go L366-392 and L416-439: one round of [updateGateways] and [updateProviders]. *)
  Definition updateGateways (m : manager) (a : answer) : outcome manager :=
    if negb (start m) || negb (gatewayDiscv m) then Ret m
    else let* l := pulled a in add_gateways m l.
  Definition updateProviders (m : manager) (a : answer) : outcome manager :=
    if negb (start m) || negb (providerDiscv m) then Ret m
    else let* l := pulled a in add_providers m l.

  (** register_manager.go L150-162 [Refresh]: asks both goroutines for a round and waits for them. *)
  Definition Refresh (m : manager) (ga pa : answer) : outcome manager :=
    if negb (start m) then Ret m
    else let* m := updateGateways m ga in updateProviders m pa.

  (** register_manager.go L177-195 [GetGateway]. *)
  Definition GetGateway (m : manager) (id : option bytes) (ga pa : answer) : outcome (option Info * manager) :=
    if negb (start m) || negb (gatewayDiscv m) then Ret (None, m)
    else
      let l := RLock (gatewaysLock m) in
      let* i := deref id in
      let g := aget bytes_eqb (gatewaysMap m) (ToString i) in
      let* l := RUnlock l in
      let m := with_locks m l (closestLock m) (providersLock m) in
      match g with
      | Some g => Ret (Some g, m)
      | None =>
          let* m := Refresh m ga pa in
          let l := RLock (gatewaysLock m) in
          let g := aget bytes_eqb (gatewaysMap m) (ToString i) in
          let* l := RUnlock l in
          Ret (g, with_locks m l (closestLock m) (providersLock m))
      end.

  (** register_manager.go L198-217 [GetProvider]: the return at L212 keeps the lock. *)
  Definition GetProvider (m : manager) (id : option bytes) : outcome (option Info * manager) :=
    if negb (start m) || negb (providerDiscv m) then Ret (None, m)
    else
      let l := RLock (providersLock m) in
      let* i := deref id in
      match aget bytes_eqb (providersMap m) (ToString i) with
      | None =>
          let* l := RUnlock l in
          let l := RLock l in
          match aget bytes_eqb (providersMap m) (ToString i) with
          | None => Ret (None, with_locks m (gatewaysLock m) (closestLock m) l)
          | Some p =>
              let* l := RUnlock l in Ret (Some p, with_locks m (gatewaysLock m) (closestLock m) l)
          end
      | Some p =>
          let* l := RUnlock l in Ret (Some p, with_locks m (gatewaysLock m) (closestLock m) l)
      end.

  (** register_manager.go L220-232 [GetAllGateways], L235-247 [GetAllProviders]; [order] is the map iteration order.
      [None]: a nil slice. *)
  Variable order : list (gostring * Info) -> list (gostring * Info).
  Definition GetAllGateways (m : manager) : outcome (option (list Info) * manager) :=
    if negb (start m) || negb (gatewayDiscv m) then Ret (None, m)
    else
      let* l := RUnlock (RLock (gatewaysLock m)) in
      Ret (Some (map snd (order (gatewaysMap m))), with_locks m l (closestLock m) (providersLock m)).
  Definition GetAllProviders (m : manager) : outcome (option (list Info) * manager) :=
    if negb (start m) || negb (providerDiscv m) then Ret (None, m)
    else
      let* l := RUnlock (RLock (providersLock m)) in
      Ret (Some (map snd (order (providersMap m))), with_locks m (gatewaysLock m) (closestLock m) l).

  (** register_manager.go L345-353: the registrations of the identifiers found. *)
  Fixpoint registrations_of (m : list (gostring * Info)) (ids : list gostring) : result (list (gostring * Info)) :=
    match ids with
    | [] => OkR []
    | id :: t =>
        match aget bytes_eqb m id with
        | None => ErrR
        | Some g => match registrations_of m t with OkR r => OkR ((id, g) :: r) | ErrR => ErrR end
        end
    end.

  (** register_manager.go L326-354 [GetGatewaysNearCID]; without gateway discovery the ring is nil. *)
  Definition GetGatewaysNearCID (m : manager) (cID : option bytes) (numDHT : Z) (notAllowed : option bytes)
      : outcome (result (list (gostring * Info)) * manager) :=
    let numDHT := if 16 <? numDHT then 16 else numDHT in
    let cl := RLock (closestLock m) in
    let gl := RLock (gatewaysLock m) in
    let* c := deref cID in
    if negb (gatewayDiscv m) then Panic
    else
      let* q := GetClosest (closest m) (ToString c) numDHT (match notAllowed with None => [] | Some n => ToString n end) in
      let m := with_ring m (snd q) in
      let res := match fst q with OkR ids => registrations_of (gatewaysMap m) ids | ErrR => ErrR end in
      let* gl := RUnlock gl in
      let* cl := RUnlock cl in
      Ret (res, with_locks m gl cl (providersLock m)).

  (** register_manager.go L298-323 [GetGatewayCIDRange]. *)
  Definition GetGatewayCIDRange (m : manager) (gatewayID : option bytes) : outcome (result (bytes * bytes) * manager) :=
    let cl := RLock (closestLock m) in
    let* g := deref gatewayID in
    match NewNodeIDFromHexString (ToString g) with
    | ErrR => let* cl := RUnlock cl in Ret (ErrR, with_locks m (gatewaysLock m) cl (providersLock m))
    | OkR cID =>
        let* q := GetGatewaysNearCID (with_locks m (gatewaysLock m) cl (providersLock m)) (Some cID) 16 (Some g) in
        let m := snd q in
        let res :=
          match fst q with
          | OkR (f :: ((s :: t) as rest)) =>
              match NewNodeIDFromHexString (fst f), NewNodeIDFromHexString (fst (last rest f)) with
              | OkR lo, OkR hi => OkR (lo, hi)
              | _, _ => ErrR
              end
          | _ => ErrR
          end in
        let* cl := RUnlock (closestLock m) in
        Ret (res, with_locks m (gatewaysLock m) cl (providersLock m))
    end.

  (** What the manager asks the register service to do in the end (register_manager.go L484-500). *)
  Inductive deletion := DeleteAllGateways | DeleteAllProviders.

  (** register_manager.go L116-128 [Shutdown] with L406-410, L453-457, L462-500: the update goroutines empty the maps
      and delete all nodes from the register service. *)
  Definition Shutdown (m : manager) : outcome (list deletion * manager) :=
    if negb (start m) then Ret ([], m)
    else
      let* _ := (if gatewayDiscv m then Locked (gatewaysLock m) else Ret tt) in
      let* _ := (if providerDiscv m then Locked (providersLock m) else Ret tt) in
      Ret ((if gatewayDiscv m then [DeleteAllGateways] else []) ++ (if providerDiscv m then [DeleteAllProviders] else []),
           Manager false (gatewayDiscv m) (providerDiscv m)
             (if gatewayDiscv m then [] else gatewaysMap m) (gatewaysLock m) (closest m) (closestLock m)
             (if providerDiscv m then [] else providersMap m) (providersLock m)).
End manager.
