(** * Proofs about the handler tables *)
From Coq Require Import List ZArith Bool Lia.
From Coq Require Import Init.Byte.
From Verif Require Import Base BaseProofs Message Messages MessagesSpec MessagesProofs Server FrameSpec FrameProofs Routes.
Import ListNotations.
Open Scope Z_scope.

Lemma eqb_refl_bytes a : bytes_eqb a a = true.
Proof. apply bytes_eqb_eq. reflexivity. Qed.
Lemma eqb_neq_bytes a b : a <> b -> bytes_eqb a b = false.
Proof. intros H. apply not_true_iff_false. intros X. apply bytes_eqb_eq in X. contradiction. Qed.

Lemma routed_type admin client gateway provider n w k : admin <> client -> gateway <> provider -> k <> KGatewayPingRequest ->
  routed admin client gateway provider n w (type_of k) =
  match request k with
  | Some (n', w') => if same_node n n' && same_sender w w' then Some k else None
  | None => None
  end.
Proof.
  intros AC GP NP.
  assert (CA : client <> admin) by congruence. assert (PG : provider <> gateway) by congruence.
  unfold routed, gateway_rest_server, gateway_p2p_server, provider_rest_server, provider_p2p_server.
  rewrite !running_pf. unfold gateway_rest, gateway_p2p, provider_rest, provider_p2p.
  cbn [existsb registered].
  rewrite !eqb_refl_bytes, ?(eqb_neq_bytes _ _ AC), ?(eqb_neq_bytes _ _ CA), ?(eqb_neq_bytes _ _ GP), ?(eqb_neq_bytes _ _ PG).
  cbn [andb orb].
  destruct n, w, k; try reflexivity; contradiction NP; reflexivity.
Qed.

Lemma routed_pf version supported admin client gateway provider n w k m :
  admin <> client -> gateway <> provider -> k <> KGatewayPingRequest -> sends version supported k m ->
  routed admin client gateway provider n w (m_type m) =
  match request k with
  | Some (n', w') => if same_node n n' && same_sender w w' then Some k else None
  | None => None
  end.
Proof.
  intros AC GP NP S. rewrite (sends_type _ _ _ _ S). apply routed_type; assumption.
Qed.
