(** * Concurrent calls to one payment manager

    payment_manager.go uses one read-write lock per direction and a lock per
    channel.  [Pay], a [Topup] that finds its channel and a [Receive] that finds
    its channel hold the read lock and the channel lock to the end (L140-141 with
    L186-188, L216-227, L303-304 with L319-321), so each is one atomic step with
    respect to calls on the same channel.  A [Topup] or [Receive] that does not
    find its channel gives up the read lock and then takes the write lock without
    looking again (L144-147, L306-309): two steps.  Calls that fail before the
    lookup are one step. *)
From Coq Require Import List ZArith Bool Init.Byte.
From Verif Require Import Base Payment PaymentSpec.
Import ListNotations.

Inductive call := CPayer (o : payer_op) | CRecv (o : recv_op).
Inductive answer := APayer (e : payer_ev) | ARecv (e : recv_ev).

Section Conc.
  Variable verify : gostring -> voucher -> option bytes -> bool.

  (** The call run alone. *)
  Definition run_call (m : mgr) (c : call) : mgr * answer :=
    match c with
    | CPayer o => let (m', e) := payer_step m o in (m', APayer e)
    | CRecv o => let (m', e) := recv_step verify m o in (m', ARecv e)
    end.

  (** The lookup under the read lock: does the call finish without giving it up? *)
  Definition found (m : mgr) (c : call) : bool :=
    match c with
    | CPayer (OTopup r _ _) => match aget bytes_eqb (m_out m) r with Some _ => true | None => false end
    | CRecv (ORecv ch (Some _) (Some _)) => match aget bytes_eqb (m_in m) ch with Some _ => true | None => false end
    | _ => true
    end.

  (** The second step, under the write lock. *)
  Definition create_call (m : mgr) (c : call) : mgr * answer :=
    match c with
    | CPayer (OTopup r a t) => let (m', ok) := TopupCreate m r a t in (m', APayer (ETopup r a t ok))
    | CRecv (ORecv ch (Some sv) (Some cs)) =>
        let (m', x) := ReceiveCreate verify m ch sv cs in (m', ARecv (ERecv ch (Some sv) (Some cs) x))
    | _ => run_call m c
    end.

  Inductive thread := Start (c : call) | Missed (c : call) | Done (c : call) (a : answer).

  Definition thread_step (m : mgr) (t : thread) : mgr * thread :=
    match t with
    | Start c => if found m c then let (m', a) := run_call m c in (m', Done c a) else (m, Missed c)
    | Missed c => let (m', a) := create_call m c in (m', Done c a)
    | Done _ _ => (m, t)
    end.

  (** One step of thread [i]; nothing happens if there is no such thread. *)
  Definition conc_step (s : mgr * list thread) (i : nat) : mgr * list thread :=
    match nth_error (snd s) i with
    | None => s
    | Some t => let (m', t') := thread_step (fst s) t in (m', set_nth (snd s) i t')
    end.

  Definition conc_run (m : mgr) (cs : list call) (sched : list nat) : mgr * list thread :=
    fold_left conc_step sched (m, map Start cs).

  (** The same calls one after another. *)
  Fixpoint seq_run (m : mgr) (cs : list call) : mgr * list answer :=
    match cs with
    | [] => (m, [])
    | c :: t => let (m1, a) := run_call m c in let (m2, l) := seq_run m1 t in (m2, a :: l)
    end.
End Conc.

(** The channel a call may create. *)
Definition opens (c : call) : option (bool * gostring) :=
  match c with
  | CPayer (OTopup r _ _) => Some (true, r)
  | CRecv (ORecv ch (Some _) (Some _)) => Some (false, ch)
  | _ => None
  end.

(** No two calls both have to open the same channel. *)
Definition no_double_open (m : mgr) (cs : list call) : Prop :=
  forall i j c c', nth_error cs i = Some c -> nth_error cs j = Some c' -> i <> j ->
    opens c <> None -> opens c = opens c' -> found m c = true.
