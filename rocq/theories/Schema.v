(** * Message bodies as JSON objects

    Models what [json.Marshal] and [json.Unmarshal] do with the structs that the
    files of common/pkg/fcrmessages use as message bodies.  A struct is a list of
    keys and field types, in order.  A nil slice is [None].  When one embedded
    value is refused and another one panics, Go's outcome depends on their order
    in the text; here it is a panic.  Definitions only. *)
From Coq Require Import String List ZArith Bool.
From Coq Require Import Init.Byte.
From Verif Require Import Base Ids Json Merkle MerkleWire Crypto Message Offer.
Import ListNotations.
Open Scope Z_scope.
Open Scope go_scope.

(** The Go types occurring as fields. *)
Inductive ftype :=
| TStr                   (* string *)
| TBool                  (* bool *)
| TInt (lo hi : Z)       (* int32, int64, uint32, uint64 *)
| TStrs                  (* []string *)
| TStrss                 (* [][]string *)
| TBools                 (* []bool *)
| TInts (lo hi : Z)      (* []int64, []uint64 *)
| TMsg                   (* FCRMessage *)
| TMsgs                  (* []FCRMessage *)
| TProof                 (* fcrmerkletree.FCRMerkleProof *)
| TOffer                 (* cidoffer.CIDOffer *)
| TOffers                (* []cidoffer.CIDOffer *)
| TSubs.                 (* []cidoffer.SubCIDOffer *)

Notation TI32 := (TInt (- 2 ^ 31) (2 ^ 31 - 1)).
Notation TI64 := (TInt (- 2 ^ 63) (2 ^ 63 - 1)).
Notation TU32 := (TInt 0 (2 ^ 32 - 1)).
Notation TU64 := (TInt 0 (2 ^ 64 - 1)).
Notation TI64s := (TInts (- 2 ^ 63) (2 ^ 63 - 1)).
Notation TU64s := (TInts 0 (2 ^ 64 - 1)).

Definition fval (t : ftype) : Type :=
  match t with
  | TStr => gostring
  | TBool => bool
  | TInt _ _ => Z
  | TStrs => option (list gostring)
  | TStrss => option (list (option (list gostring)))
  | TBools => option (list bool)
  | TInts _ _ => option (list Z)
  | TMsg => message
  | TMsgs => option (list message)
  | TProof => proof
  | TOffer => offer
  | TOffers => option (list offer)
  | TSubs => option (list suboffer)
  end.

Definition schema := list (gostring * ftype).

(** The values of a struct. *)
Fixpoint vals (s : schema) : Type :=
  match s with [] => unit | (_, t) :: r => (fval t * vals r)%type end.

(** Go zero values. *)
Definition zero_message : message := Message 0 0 None None [].
Definition zero_offer : offer := Offer None [] 0 0 0 [] [] (Tree [] []).
Definition fzero (t : ftype) : fval t :=
  match t with
  | TStr => [] | TBool => false | TInt _ _ => 0
  | TStrs => None | TStrss => None | TBools => None | TInts _ _ => None
  | TMsg => zero_message | TMsgs => None | TProof => Proof [] []
  | TOffer => zero_offer | TOffers => None | TSubs => None
  end.
Fixpoint zeros (s : schema) : vals s :=
  match s with [] => tt | (_, t) :: r => (fzero t, zeros r) end.

Fixpoint mapO {A B} (f : A -> outcome B) (l : list A) : outcome (list B) :=
  match l with
  | [] => Ret []
  | a :: t => let* b := f a in let* r := mapO f t in Ret (b :: r)
  end.

(** The text made by a type's own [MarshalJSON] is embedded as it is. *)
Definition embed (text : gostring) : json := match json_parse text with Some j => j | None => JNull end.
Definition enc_offer (o : offer) : outcome json := let* t := MarshalOffer o in Ret (embed t).
Definition enc_sub (s : suboffer) : outcome json := let* t := MarshalSubOffer s in Ret (embed t).
Definition enc_message (m : message) : json := message_json m (m_sig m).

Definition enc_sliceO {A} (f : A -> outcome json) (o : option (list A)) : outcome json :=
  match o with None => Ret JNull | Some l => let* js := mapO f l in Ret (JArr js) end.

(** [json.Marshal] of a field. *)
Definition fenc (t : ftype) : fval t -> outcome json :=
  match t with
  | TStr => fun v => Ret (JStr v)
  | TBool => fun v => Ret (JBool v)
  | TInt _ _ => fun v => Ret (JNum v)
  | TStrs => fun v => Ret (json_slice JStr v)
  | TStrss => fun v => Ret (json_slice (json_slice JStr) v)
  | TBools => fun v => Ret (json_slice JBool v)
  | TInts _ _ => fun v => Ret (json_slice JNum v)
  | TMsg => fun v => Ret (enc_message v)
  | TMsgs => fun v => Ret (json_slice enc_message v)
  | TProof => fun v => Ret (proof_json v)
  | TOffer => enc_offer
  | TOffers => enc_sliceO enc_offer
  | TSubs => enc_sliceO enc_sub
  end.

Fixpoint enc_fields (s : schema) : vals s -> outcome (list (gostring * json)) :=
  match s with
  | [] => fun _ => Ret []
  | (k, t) :: r => fun v =>
      let* j := fenc t (fst v) in
      let* js := enc_fields r (snd v) in
      Ret ((k, j) :: js)
  end.

(** [json.Marshal] of the struct.  None of the structs can make it fail. *)
Definition marshal_body (s : schema) (v : vals s) : outcome bytes :=
  let* f := enc_fields s v in Ret (json_print (JObj f)).

(** A field or slice element whose own [UnmarshalJSON] may panic. *)
Definition jcustomO {A} (dec : json -> outcome (result A)) (zero : A) (name : gostring)
    (fields : list (gostring * json)) : outcome (option A) :=
  fold_left (fun acc kv =>
    let* a := acc in
    if fold_eq (fst kv) name then
      let* r := dec (snd kv) in
      Ret (match a, r with Some _, OkR x => Some x | _, _ => None end)
    else Ret a) fields (Ret (Some zero)).
Fixpoint all_ok {A} (l : list (result A)) : option (list A) :=
  match l with
  | [] => Some []
  | OkR a :: t => match all_ok t with Some r => Some (a :: r) | None => None end
  | ErrR :: _ => None
  end.
Definition jsliceO {A} (dec : json -> outcome (result A)) (name : gostring)
    (fields : list (gostring * json)) : outcome (option (option (list A))) :=
  fold_left (fun acc kv =>
    let* a := acc in
    if fold_eq (fst kv) name then
      match snd kv with
      | JNull => Ret (match a with Some _ => Some None | None => None end)
      | JArr l =>
          let* rs := mapO dec l in
          Ret (match a, all_ok rs with Some _, Some x => Some (Some x) | _, _ => None end)
      | _ => Ret None
      end
    else Ret a) fields (Ret (Some None)).

Definition dec_message (j : json) : option message :=
  match j with JNull => Some zero_message | _ => message_of_json j end.
Definition dec_sub (j : json) : option suboffer :=
  match UnmarshalSubOffer (json_print j) with OkR s => Some s | ErrR => None end.
Definition dec_strs (j : json) : option (option (list gostring)) :=
  match dec_list dec_str [] j with Some l => Some (Some l) | None => None end.

Section body.
  Variable sha256 : bytes -> bytes.

  Definition dec_offer (j : json) : outcome (result offer) := UnmarshalOffer sha256 (json_print j).

  (** [json.Unmarshal] of a field. *)
  Definition fdec (t : ftype) (name : gostring) (f : list (gostring * json)) : outcome (option (fval t)) :=
    match t return outcome (option (fval t)) with
    | TStr => Ret (jfield dec_str [] name f)
    | TBool => Ret (jfield dec_bool false name f)
    | TInt lo hi => Ret (jfield (dec_int lo hi) 0 name f)
    | TStrs => Ret (jslice (dec_list dec_str []) name f)
    | TStrss => Ret (jslice (dec_list dec_strs None) name f)
    | TBools => Ret (jslice (dec_list dec_bool false) name f)
    | TInts lo hi => Ret (jslice (dec_list (dec_int lo hi) 0) name f)
    | TMsg => Ret (jcustom dec_message zero_message name f)
    | TMsgs => Ret (jslice (dec_list dec_message zero_message) name f)
    | TProof => Ret (jcustom dec_proof (Proof [] []) name f)
    | TOffer => jcustomO dec_offer zero_offer name f
    | TOffers => jsliceO dec_offer name f
    | TSubs => Ret (jslice (dec_list dec_sub zero_suboffer) name f)
    end.

  Fixpoint dec_fields (s : schema) (f : list (gostring * json)) : outcome (option (vals s)) :=
    match s return outcome (option (vals s)) with
    | [] => Ret (Some tt)
    | (k, t) :: r =>
        let* a := fdec t k f in
        let* b := dec_fields r f in
        Ret (match a, b with Some x, Some y => Some (x, y) | _, _ => None end)
    end.

  (** [json.Unmarshal] into a fresh struct. *)
  Definition unmarshal_body (s : schema) (body : option bytes) : outcome (result (vals s)) :=
    match json_parse (slice body) with
    | None => Ret ErrR
    | Some JNull => Ret (OkR (zeros s))
    | Some (JObj f) =>
        let* r := dec_fields s f in
        Ret (match r with Some v => OkR v | None => ErrR end)
    | Some _ => Ret ErrR
    end.

  (** The common part of the decoders: the type is checked, then the body parsed. *)
  Definition decode (tag : Z) (s : schema) (m : message) : outcome (result (vals s)) :=
    if negb (m_type m =? tag) then Ret ErrR else unmarshal_body s (m_body m).

  (** The common part of the encoders, with the two package variables of
      fcrmessage.go L31-32. *)
  Definition encode (version : Z) (supported : list Z) (tag : Z) (s : schema) (v : vals s) : outcome message :=
    let* b := marshal_body s v in
    Ret (CreateFCRMessage version supported tag b).
End body.

(** [id.ToString()] through a pointer. *)
Definition id_text (p : option bytes) : outcome gostring := let* b := deref p in Ret (ToString b).

(** [MapNodeIDToString], [MapStringToNodeID] and their counterparts in cid.go on
    slices that may be nil. *)
Definition ids_text (l : list bytes) : option (list gostring) := Some (MapIDToString l).
Definition ids_of_text (o : option (list gostring)) : outcome (list bytes) :=
  MapStringToID (match o with Some l => l | None => [] end).

(** [int64(len(s))]. *)
Definition slice_len {A} (o : option (list A)) : Z := Z.of_nat (length (match o with Some l => l | None => [] end)).

(** Continue unless the error is set. *)
Definition rbind {A B} (x : outcome (result A)) (f : A -> outcome (result B)) : outcome (result B) :=
  let* r := x in match r with ErrR => Ret ErrR | OkR a => f a end.
Notation "'let!' x ':=' e1 'in' e2" := (rbind e1 (fun x => e2)) (at level 200, x pattern, right associativity) : go_scope.
