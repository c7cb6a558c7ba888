(** * What was chosen last *)
From Coq Require Import String List ZArith Bool.
From Verif Require Import Base Crypto.
Import ListNotations.
Open Scope Z_scope.

(** What users of the three libraries choose before they build their settings. *)
Inductive choice :=
| TTL (x : Z) | URL (x : gostring) | Chain (k : option keypair) | Key (k : option keypair) (v : option Z)
| Wallet (x : gostring) | Lotus (x : gostring) | Token (x : gostring) | Search (x : option Z) | OfferP (x : option Z) | Topup (x : option Z).

(** The last choice of a kind, and otherwise the default. *)
Definition last_choice {A} (of_kind : choice -> option A) (default : A) (l : list choice) : A :=
  fold_left (fun a c => match of_kind c with Some x => x | None => a end) l default.
Definition ttl_of c := match c with TTL x => Some x | _ => None end.
Definition url_of c := match c with URL x => Some x | _ => None end.
Definition chain_of c := match c with Chain k => Some k | _ => None end.
Definition key_of c := match c with Key k v => Some (k, v) | _ => None end.
Definition wallet_of c := match c with Wallet x => Some x | _ => None end.
Definition lotus_of c := match c with Lotus x => Some x | _ => None end.
Definition token_of c := match c with Token x => Some x | _ => None end.
Definition search_of c := match c with Search x => Some x | _ => None end.
Definition offer_of c := match c with OfferP x => Some x | _ => None end.
Definition topup_of c := match c with Topup x => Some x | _ => None end.
