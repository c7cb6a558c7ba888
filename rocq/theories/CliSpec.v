(** * What is expected of the client's command line program *)
From Coq Require Import String List ZArith Bool Init.Byte.
From Verif Require Import Base Ids Crypto Message Offer Payment Register Client ClientSpec Cli.
Import ListNotations.
Open Scope Z_scope.

(** A line is words with one blank between two, and white space around. *)
Definition white (c : byte) : Prop := In c [x09; x0a; x0b; x0c; x0d; x20].
Definition word (w : gostring) : Prop := w <> [] /\ forall c, In c w -> ~ white c.
Fixpoint spaced (ws : list gostring) : gostring :=
  match ws with
  | [] => []
  | [w] => w
  | w :: t => w ++ x20 :: spaced t
  end.
Definition typed (line : gostring) (ws : list gostring) : Prop :=
  exists a b, Forall white a /\ Forall white b /\ line = a ++ spaced ws ++ b.

(** Text of an identifier, at most 32 bytes. *)
Definition hex_id (t : gostring) (id : bytes) : Prop :=
  exists d, hex_decode t = Some d /\ (length d <= 32)%nat /\ id = repeat x00 (32 - length d) ++ d.

(** The orders that may do something outside or change what the program holds. *)
Definition effective (ws : list gostring) : Prop :=
  (exists t, ws = [gs "add-active"; t] /\ exists id, hex_id t id) \/
  (exists t, ws = [gs "find-offer"; t] /\ exists id, hex_id t id) \/
  (exists t u, ws = [gs "find-offer-dht"; t; u] /\ (exists id, hex_id t id) /\ exists id, hex_id u id).

(** The worlds in which the lines of a life were typed. *)
Definition worlds (l : list (option (list (gostring * reg) * Ring.ring * list (gostring * reg)) * wenv * gostring)) : list wenv :=
  map (fun x => snd (fst x)) l.

Section spec.
  Variable version : Z.
  Variable supported : list Z.
  Variable sha256 : bytes -> bytes.
  Variable pub_of : bytes -> bytes.
  Variable ec_verify : bytes -> bytes -> bytes -> bool.
  Variable blake : bytes -> bytes.
  Variable voucher_text : voucher -> gostring.
  Variable rand_int : list draw -> Z.

  (** One gateway was asked for offers in the world [w] and these were accepted; all are proven. *)
  Definition search (w : wenv) (res : list suboffer) : Prop :=
    exists n c gw id c' out,
      FindOffersStandardDiscoveryV2 version supported sha256 pub_of ec_verify blake voucher_text rand_int (we_call w n) c (Some id) (Some gw) 5
        = Ret (OkR res, c', out) /\
      forall s, In s res -> proven sha256 pub_of ec_verify blake (we_call w n) c s.

  (** Gateways asked one after the other, the first in call [n]: what each gave, or nothing when asking failed. *)
  Inductive asked (w : wenv) (id : bytes) : nat -> client -> list bytes -> list (option (list suboffer)) -> client -> Prop :=
  | asked_nil n c : asked w id n c [] [] c
  | asked_gave n c gw t res c1 out l c2 :
      FindOffersStandardDiscoveryV2 version supported sha256 pub_of ec_verify blake voucher_text rand_int (we_call w n) c (Some id) (Some gw) 5 = Ret (OkR res, c1, out) ->
      asked w id (S n) c1 t l c2 -> asked w id n c (gw :: t) (Some res :: l) c2
  | asked_failed n c gw t c1 out l c2 :
      FindOffersStandardDiscoveryV2 version supported sha256 pub_of ec_verify blake voucher_text rand_int (we_call w n) c (Some id) (Some gw) 5 = Ret (ErrR, c1, out) ->
      asked w id (S n) c1 t l c2 -> asked w id n c (gw :: t) (None :: l) c2.

  (** Kept under [k] is [v]: both come from the same answer of one gateway. *)
  Definition kept_from (ws : list wenv) (k : gostring) (v : suboffer) : Prop :=
    exists w res o, In w ws /\ search w res /\ In o res /\ s_sig o = k /\ In v res.
End spec.
