(** * Overlapping calls that manage a client's gateways

    Models client/pkg/fcrclient/filecoin_retrieval_client.go L126-273 run by several
    goroutines at once.  A step is one section protected by a lock; only
    [RemoveGatewaysToUse] keeps a lock over several sections.  Identifiers are given by
    their texts, which are in lower case, and are not nil.  Definitions only. *)
From Coq Require Import List ZArith Bool.
From Verif Require Import Base Client.
Import ListNotations.

(** Where a goroutine stands. *)
Inductive goroutine :=
| AddUse (ids : list gostring)                                  (* L133 *)
| AddUseFind (id : gostring) (ids : list gostring)              (* L139 *)
| AddUseWrite (id : gostring) (r : reg) (ids : list gostring)   (* L149 *)
| RemoveUse (ids : list gostring)                               (* L160 *)
| RemoveUseLoop (ids : list gostring)                           (* L164, lock held *)
| RemoveUseActive (id : gostring) (ids : list gostring)         (* L169, lock held *)
| RemoveAllUse                                                  (* L181 *)
| AddActive (ids : list gostring)                               (* L216 *)
| AddActiveUse (id : gostring) (ids : list gostring)            (* L222 *)
| AddActiveAsk (id : gostring) (r : reg) (ids : list gostring)  (* L233 *)
| AddActiveWrite (id : gostring) (r : reg) (ids : list gostring) (* L239 *)
| RemoveActive (ids : list gostring)                            (* L249 *)
| RemoveAllActive                                               (* L266 *)
| Finished.

(** The maps, who holds [GatewaysToUseLock] for writing between steps, and the goroutines. *)
Record cstate := CState {
  cs_use : list (gostring * reg);
  cs_active : list (gostring * reg);
  cs_lock : option nat;
  cs_threads : list goroutine
}.

(** What comes from outside: the registration looked up (L139-147; none when invalid), and whether an
    establishment succeeds (L233). *)
Record given := Given { found : option reg; established : bool }.

Definition remove_all (m : list (gostring * reg)) (ids : list gostring) : list (gostring * reg) :=
  fold_left (fun m id => adel bytes_eqb m id) ids m.

(** One step of goroutine [i], which stands at [t]: the maps, the lock and where it stands next.  [None]: it
    waits for the lock, or is finished. *)
Definition one_step (u a : list (gostring * reg)) (lock : option nat) (i : nat) (g : given) (t : goroutine)
    : option (list (gostring * reg) * list (gostring * reg) * option nat * goroutine) :=
  let free x := match lock with None => Some x | Some _ => None end in
  match t with
  | AddUse [] => Some (u, a, lock, Finished)
  | AddUse (id :: t) =>
      free (u, a, lock, match aget bytes_eqb u id with Some _ => AddUse t | None => AddUseFind id t end)
  | AddUseFind id t => Some (u, a, lock, match found g with None => AddUse t | Some r => AddUseWrite id r t end)
  | AddUseWrite id r t => free (aset bytes_eqb u id r, a, lock, AddUse t)
  | RemoveUse ids => free (u, a, Some i, RemoveUseLoop ids)
  | RemoveUseLoop [] => Some (u, a, None, Finished)
  | RemoveUseLoop (id :: t) =>
      match aget bytes_eqb u id with
      | Some _ => Some (adel bytes_eqb u id, a, lock, RemoveUseActive id t)
      | None => Some (u, a, lock, RemoveUseLoop t)
      end
  | RemoveUseActive id t => Some (u, adel bytes_eqb a id, lock, RemoveUseLoop t)
  | RemoveAllUse => free ([], [], lock, Finished)
  | AddActive [] => Some (u, a, lock, Finished)
  | AddActive (id :: t) =>
      Some (u, a, lock, match aget bytes_eqb a id with Some _ => AddActive t | None => AddActiveUse id t end)
  | AddActiveUse id t =>
      free (u, a, lock, match aget bytes_eqb u id with Some r => AddActiveAsk id r t | None => AddActive t end)
  | AddActiveAsk id r t => Some (u, a, lock, if established g then AddActiveWrite id r t else AddActive t)
  | AddActiveWrite id r t => Some (u, aset bytes_eqb a id r, lock, AddActive t)
  | RemoveActive ids => Some (u, remove_all a ids, lock, Finished)
  | RemoveAllActive => Some (u, [], lock, Finished)
  | Finished => None
  end.

(** A step of the goroutine with this number. *)
Definition conc_step (s : cstate) (i : nat) (g : given) : option cstate :=
  match nth_error (cs_threads s) i with
  | None => None
  | Some t =>
      match one_step (cs_use s) (cs_active s) (cs_lock s) i g t with
      | None => None
      | Some (u, a, l, t') => Some (CState u a l (set_nth (cs_threads s) i t'))
      end
  end.

(** An execution: the states after each step. *)
Fixpoint conc_run (s : cstate) (l : list (nat * given)) : option (list cstate) :=
  match l with
  | [] => Some [s]
  | (i, g) :: t =>
      match conc_step s i g with
      | None => None
      | Some s' => match conc_run s' t with None => None | Some r => Some (s :: r) end
      end
  end.

(** ** What is expected *)

(** Calls that have not begun. *)
Definition begins (t : goroutine) : Prop :=
  match t with
  | AddUse _ | RemoveUse _ | RemoveAllUse | AddActive _ | RemoveActive _ | RemoveAllActive | Finished => True
  | _ => False
  end.
Definition removes_use (t : goroutine) : bool := match t with RemoveUse _ | RemoveAllUse => true | _ => false end.
Definition adds_active (t : goroutine) : bool := match t with AddActive _ => true | _ => false end.

(** A client that does nothing, with calls about to be made. *)
Definition at_rest (s : cstate) : Prop :=
  cs_lock s = None /\ Forall begins (cs_threads s) /\
  NoDup (map fst (cs_use s)) /\ NoDup (map fst (cs_active s)).

(** Every active gateway is a gateway to use. *)
Definition active_in_use (s : cstate) : Prop :=
  forall id, aget bytes_eqb (cs_active s) id <> None -> aget bytes_eqb (cs_use s) id <> None.

(** A goroutine is making this gateway active: it has read the gateway's registration and has not
    recorded the gateway as active yet. *)
Definition activating (s : cstate) (id : gostring) : Prop :=
  exists i r l, nth_error (cs_threads s) i = Some (AddActiveAsk id r l) \/ nth_error (cs_threads s) i = Some (AddActiveWrite id r l).

(** Nothing is left to do. *)
Definition all_finished (s : cstate) : Prop := Forall (fun t => t = Finished) (cs_threads s).
