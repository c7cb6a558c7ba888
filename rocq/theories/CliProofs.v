(** * Proofs about the client's command line program *)
From Coq Require Import String List ZArith Bool Lia ZifyBool ZifyNat Init.Byte Strings.Byte.
From Verif Require Import Base BaseProofs Ids IdsProofs Crypto Message Offer OfferProofs Payment Register GatewayProofs Client ClientBuild ClientSpec ClientProofs ClientFindProofs
  ClientLifeProofs Cli CliSpec.
Import ListNotations.
Open Scope Z_scope.
Open Scope go_scope.

(** ** Words *)

Transparent bz.
Lemma space_white c : space c = true <-> white c.
Proof.
  assert (E : space c = existsb (fun x => (x =? c)%byte) [x09; x0a; x0b; x0c; x0d; x20]) by (destruct c; reflexivity).
  rewrite E. unfold white. rewrite existsb_exists. split.
  - intros (x & I & B). apply Byte.byte_dec_bl in B. subst. exact I.
  - intros I. exists c. split; [exact I|]. apply Byte.byte_dec_lb. reflexivity.
Qed.
Opaque bz.
Lemma not_white c : space c = false <-> ~ white c.
Proof. rewrite <- space_white. destruct (space c); split; congruence. Qed.

Lemma trim_left_pad a s : Forall white a -> trim_left (a ++ s) = trim_left s.
Proof. induction 1 as [|c a W _ IH]; [reflexivity|]. cbn. apply space_white in W. rewrite W. exact IH. Qed.
Lemma trim_left_word c s : ~ white c -> trim_left (c :: s) = c :: s.
Proof. intros W. apply not_white in W. cbn. rewrite W. reflexivity. Qed.
Lemma trim_left_inv s : exists a, Forall white a /\ s = a ++ trim_left s.
Proof.
  induction s as [|c t (a & A & E)]; [exists []; auto|]. cbn. destruct (space c) eqn:W; [|exists []; auto].
  exists (c :: a). split; [constructor; [apply space_white; exact W|exact A]|]. cbn. rewrite <- E. reflexivity.
Qed.
Lemma trim_inv s : exists a b, Forall white a /\ Forall white b /\ s = a ++ TrimSpace s ++ b.
Proof.
  unfold TrimSpace. destruct (trim_left_inv s) as (a & A & E). destruct (trim_left_inv (rev (trim_left s))) as (b & B & F).
  exists a, (rev b). split; [exact A|]. split; [apply Forall_rev; exact B|]. rewrite <- rev_app_distr, <- F, rev_involutive. exact E.
Qed.
Lemma trim_pad a b c s d t : Forall white a -> Forall white b -> c :: s = t ++ [d] -> ~ white c -> ~ white d -> TrimSpace (a ++ (c :: s) ++ b) = c :: s.
Proof.
  intros A B E C D. unfold TrimSpace. rewrite (trim_left_pad a _ A). cbn [app]. rewrite (trim_left_word _ _ C).
  change (c :: s ++ b) with ((c :: s) ++ b). rewrite rev_app_distr, (trim_left_pad _ _ (Forall_rev B)), E, rev_app_distr. cbn [rev app].
  rewrite (trim_left_word _ _ D). cbn [rev]. rewrite rev_involutive. reflexivity.
Qed.

Lemma spaced_start : forall ws, ws <> [] -> Forall word ws -> exists c s, spaced ws = c :: s /\ ~ white c.
Proof.
  intros [|w t] N F; [congruence|]. inversion F as [|? ? [W1 W2] Ft]; subst. destruct w as [|c w]; [congruence|]. exists c.
  destruct t; cbn; eexists; (split; [reflexivity|apply W2; left; reflexivity]).
Qed.
Lemma spaced_end : forall ws, ws <> [] -> Forall word ws -> exists d s, spaced ws = s ++ [d] /\ ~ white d.
Proof.
  induction ws as [|w t IH]; intros N F; [congruence|]. inversion F as [|? ? [W1 W2] Ft]; subst. destruct t as [|x t].
  - cbn. destruct (exists_last W1) as (s & d & ->). exists d, s. split; [reflexivity|]. apply W2. apply in_or_app. right. left. reflexivity.
  - destruct (IH ltac:(discriminate) Ft) as (d & s & E & D). cbn [spaced] in *. rewrite E. exists d, (w ++ x20 :: s). split; [|exact D].
    rewrite <- app_assoc. reflexivity.
Qed.
Lemma not_blank c : ~ white c -> (c =? x20)%byte = false.
Proof. intros W. destruct (c =? x20)%byte eqn:E; [|reflexivity]. apply Byte.byte_dec_bl in E. subst. exfalso. apply W. cbn. auto 10. Qed.
Lemma split_one : forall w, (forall c, In c w -> ~ white c) -> Split w = [w].
Proof.
  induction w as [|c t IH]; intros W; [reflexivity|]. cbn. rewrite (not_blank _ (W c (or_introl eq_refl))), IH; [reflexivity|]. intros x I. apply W. right. exact I.
Qed.
Lemma split_word : forall w s, (forall c, In c w -> ~ white c) -> Split (w ++ x20 :: s) = w :: Split s.
Proof.
  induction w as [|c t IH]; intros s W; [reflexivity|]. cbn. rewrite (not_blank _ (W c (or_introl eq_refl))).
  change (t ++ x20 :: s)%list with (t ++ x20 :: s). rewrite IH; [reflexivity|]. intros x I. apply W. right. exact I.
Qed.
Lemma split_spaced : forall ws, ws <> [] -> Forall word ws -> Split (spaced ws) = ws.
Proof.
  induction ws as [|w t IH]; intros N F; [congruence|]. inversion F as [|? ? [W1 W2] Ft]; subst. destruct t as [|x t].
  - apply split_one. exact W2.
  - cbn [spaced]. rewrite (split_word _ _ W2). f_equal. apply IH; [discriminate|exact Ft].
Qed.
Lemma split_inv : forall s, spaced (Split s) = s /\ Split s <> [].
Proof.
  induction s as [|c t [E N]]; [split; [reflexivity|discriminate]|]. cbn. destruct (c =? x20)%byte eqn:B.
  - apply Byte.byte_dec_bl in B. subst c. split; [|discriminate]. destruct (Split t) as [|w r]; [congruence|]. cbn [spaced app]. cbn [spaced] in E. rewrite E. reflexivity.
  - destruct (Split t) as [|w r]; [congruence|]. split; [|discriminate]. destruct r; cbn [spaced app] in *; congruence.
Qed.

Lemma blocks_pf line ws : typed line ws -> ws <> [] -> Forall word ws -> blocks line = ws.
Proof.
  intros (a & b & A & B & ->) N F. unfold blocks. destruct (spaced_start ws N F) as (c & s & E & C). destruct (spaced_end ws N F) as (d & t & E2 & D).
  replace (TrimSpace (a ++ spaced ws ++ b)) with (spaced ws); [apply split_spaced; assumption|]. rewrite E. symmetry.
  apply (trim_pad a b c s d t A B); [rewrite <- E; exact E2|exact C|exact D].
Qed.
Lemma blocks_inv line : typed line (blocks line).
Proof.
  destruct (trim_inv line) as (a & b & A & B & E). exists a, b. split; [exact A|]. split; [exact B|]. unfold blocks. destruct (split_inv (TrimSpace line)) as [-> _]. exact E.
Qed.

(** ** Identifiers *)

Lemma hex_id_iff t id : NewNodeIDFromHexString t = OkR id <-> hex_id t id.
Proof.
  unfold NewNodeIDFromHexString, hex_id, left_pad, WordSize. destruct (hex_decode t) as [d|].
  - destruct (Nat.ltb_spec 32 (length d)) as [L|L].
    + split; [discriminate|]. intros (d' & E & L' & _). injection E as <-. lia.
    + split; [intros H; injection H as <-; exists d; auto|]. intros (d' & E & L' & ->). injection E as <-. reflexivity.
  - split; [discriminate|]. intros (d' & E & _). discriminate.
Qed.

(** ** Offers kept *)

Lemma keep_inv res0 : forall res temp k v, incl res res0 -> aget bytes_eqb (fold_left (fun m o => aset bytes_eqb m (s_sig o) (last res0 o)) res temp) k = Some v ->
  aget bytes_eqb temp k = Some v \/ exists o, In o res /\ s_sig o = k /\ v = last res0 o.
Proof.
  induction res as [|o t IH]; intros temp k v Inc H; [left; exact H|]. cbn in H. destruct (IH _ _ _ (fun x X => Inc x (or_intror X)) H) as [A|(o' & I' & E)].
  - rewrite set_get in A. destruct (bytes_eqb k (s_sig o)) eqn:E; [|auto]. apply bytes_eqb_eq in E. injection A as <-. right. exists o. split; [left; reflexivity|auto].
  - right. exists o'. split; [right; exact I'|exact E].
Qed.
Lemma keep_some res0 : forall res temp k, (aget bytes_eqb temp k <> None \/ exists o, In o res /\ s_sig o = k) ->
  aget bytes_eqb (fold_left (fun m o => aset bytes_eqb m (s_sig o) (last res0 o)) res temp) k <> None.
Proof.
  induction res as [|o t IH]; intros temp k H; cbn; [destruct H as [H|(o & [] & _)]; exact H|]. apply IH. rewrite set_get.
  destruct H as [H|(o' & [<-|I] & <-)].
  - left. destruct (bytes_eqb k (s_sig o)); [discriminate|exact H].
  - left. replace (bytes_eqb (s_sig o) (s_sig o)) with true by (symmetry; apply bytes_eqb_eq; reflexivity). discriminate.
  - right. eauto.
Qed.
Lemma last_In {A} : forall (l : list A) d, l <> [] -> In (last l d) l.
Proof.
  induction l as [|x [|y t] IH]; intros d N; [congruence|left; reflexivity|]. right. apply IH. discriminate.
Qed.
Lemma merge_inv : forall temp offers k v, aget bytes_eqb (merge temp offers) k = Some v -> aget bytes_eqb offers k = Some v \/ In (k, v) temp.
Proof.
  unfold merge. induction temp as [|[k' v'] t IH]; intros offers k v H; [left; exact H|]. cbn in H. destruct (IH _ _ _ H) as [A|A]; [|right; right; exact A].
  rewrite set_get in A. destruct (bytes_eqb k k') eqn:E; [|auto]. apply bytes_eqb_eq in E. injection A as <-. subst. right. left. reflexivity.
Qed.
Lemma merge_old : forall temp offers k, aget bytes_eqb offers k <> None -> aget bytes_eqb (merge temp offers) k <> None.
Proof.
  unfold merge. induction temp as [|[k' v'] t IH]; intros offers k H; [exact H|]. cbn. apply IH. rewrite set_get. destruct (bytes_eqb k k'); [discriminate|exact H].
Qed.
Lemma merge_new : forall temp offers k, NoDup (map fst temp) -> aget bytes_eqb (merge temp offers) k = match aget bytes_eqb temp k with Some v => Some v | None => aget bytes_eqb offers k end.
Proof.
  unfold merge. induction temp as [|[k' v'] t IH]; intros offers k N; [reflexivity|]. cbn [map fst snd fold_left] in *. inversion N as [|? ? N1 N2]; subst. rewrite (IH _ _ N2), set_get. cbn.
  destruct (bytes_eqb k k') eqn:E; [|reflexivity]. apply bytes_eqb_eq in E. subst. replace (aget bytes_eqb t k') with (@None suboffer); [reflexivity|].
  symmetry. apply (aget_None bytes_eqb bytes_eqb_eq). exact N1.
Qed.

Section cli.
  Variable version : Z.
  Variable supported : list Z.
  Variable sha256 : bytes -> bytes.
  Variable pub_of : bytes -> bytes.
  Variable ec_verify : bytes -> bytes -> bytes -> bool.
  Variable blake : bytes -> bytes.
  Variable voucher_text : voucher -> gostring.
  Variable rand_int : list draw -> Z.
  Variable rand_bytes : list draw -> bytes.

  Notation executor := (Cli.executor version supported sha256 pub_of ec_verify blake voucher_text rand_int rand_bytes).
  Notation type_lines := (Cli.type_lines version supported sha256 pub_of ec_verify blake voucher_text rand_int rand_bytes).
  Notation AddActive := (Cli.AddActive version supported sha256 pub_of ec_verify blake rand_bytes).
  Notation query := (Cli.query version supported sha256 pub_of ec_verify blake voucher_text rand_int).
  Notation FindOffer := (Cli.FindOffer version supported sha256 pub_of ec_verify blake voucher_text rand_int).
  Notation FindOfferDht := (Cli.FindOfferDht version supported sha256 pub_of ec_verify blake voucher_text rand_int).
  Notation search := (CliSpec.search version supported sha256 pub_of ec_verify blake voucher_text rand_int).
  Notation kept_from := (CliSpec.kept_from version supported sha256 pub_of ec_verify blake voucher_text rand_int).
  Notation authenticates := (ClientSpec.authenticates version supported sha256 pub_of ec_verify blake).

  (** ** What a line does *)

  Inductive did (w : wenv) (s : shell) (bs : list gostring) : option shell -> list reply -> sent -> Prop :=
  | did_nothing r : did w s bs (Some s) [r] []
  | did_exit : command bs = gs "exit" -> did w s bs None [Bye] []
  | did_init x r o : command bs = gs "init" -> sh_on s = false -> Init w s = Ret (x, r, o) -> did w s bs x r o
  | did_registered x : sh_on s = true -> GetAllGateways reg (ce_order (we_call w 0)) (sh_reg s) = Ret x ->
      did w s bs (Some (Shell true (snd x) (sh_client s) (sh_offers s))) [Nodes (map r_id (items (fst x)))] []
  | did_active c : sh_on s = true -> sh_client s = Some c ->
      did w s bs (Some (Shell true (sh_reg s) (Some (with_manager c (sh_reg s))) (sh_offers s)))
        [Nodes (map ToString (GetActiveGateways (we_call w 0) (with_manager c (sh_reg s))))] []
  | did_add t id c c' offers r o : bs = [gs "add-active"; t] -> NewNodeIDFromHexString t = OkR id -> sh_on s = true -> sh_client s = Some c ->
      AddActive w s id (with_manager c (sh_reg s)) = Ret (c', offers, r, o) -> did w s bs (Some (Shell true (c_reg c') (Some c') offers)) r o
  | did_find t id c c' offers r o : bs = [gs "find-offer"; t] -> NewNodeIDFromHexString t = OkR id -> sh_on s = true -> sh_client s = Some c ->
      FindOffer w s id (with_manager c (sh_reg s)) = Ret (c', offers, r, o) -> did w s bs (Some (Shell true (c_reg c') (Some c') offers)) r o
  | did_dht t u node id c c' offers r o : bs = [gs "find-offer-dht"; t; u] -> NewNodeIDFromHexString t = OkR node -> NewNodeIDFromHexString u = OkR id ->
      sh_on s = true -> sh_client s = Some c ->
      FindOfferDht w s node id (with_manager c (sh_reg s)) = Ret (c', offers, r, o) -> did w s bs (Some (Shell true (c_reg c') (Some c') offers)) r o.

  Lemma is_command bs n : is bs n = true -> command bs = gs n.
  Proof. apply bytes_eqb_eq. Qed.

  Lemma use_inv s f x r o : use s f = Ret (x, r, o) -> exists c c' offers, sh_client s = Some c /\ f (with_manager c (sh_reg s)) = Ret (c', offers, r, o) /\
    x = Some (Shell (sh_on s) (c_reg c') (Some c') offers).
  Proof.
    unfold use. destruct (sh_client s) as [c|]; [|discriminate]. cbn [deref obind]. intros H. step H. destruct v as [[[c' offers] r'] o'].
    apply ret_inj in H. injection H as <- <- <-. eauto 10.
  Qed.

  Lemma executor_did w s line x r o : executor w s line = Ret (x, r, o) -> did w s (blocks line) x r o.
  Proof.
    assert (S : forall q x r o, says s q = Ret (x, r, o) -> did w s (blocks line) x r o).
    { intros q x0 r0 o0 H. apply ret_inj in H. injection H as <- <- <-. constructor. }
    unfold Cli.executor. cbv zeta. intros H.
    destruct (is (blocks line) "init") eqn:C1.
    { apply is_command in C1. destruct (sh_on s) eqn:On; [unfold Init in H; rewrite On in H; eapply S; exact H|]. eapply did_init; eauto. }
    destruct (is (blocks line) "ls-registered") eqn:C2.
    { destruct (sh_on s) eqn:On; cbn [negb] in H; [|eapply S; exact H]. step H. apply ret_inj in H. injection H as <- <- <-. apply did_registered; assumption. }
    destruct (is (blocks line) "ls-active") eqn:C3.
    { destruct (sh_on s) eqn:On; cbn [negb] in H; [|eapply S; exact H]. destruct (use_inv _ _ _ _ _ H) as (c & c' & offers & Ec & F & ->).
      apply ret_inj in F. injection F as <- <- <- <-. rewrite On. apply did_active; assumption. }
    destruct (is (blocks line) "add-active") eqn:C4.
    { apply is_command in C4. destruct (sh_on s) eqn:On; cbn [negb] in H; [|eapply S; exact H].
      destruct (blocks line) as [|n [|t [|]]] eqn:B; try (eapply S; exact H). destruct (NewNodeIDFromHexString t) as [id|] eqn:Id; [|eapply S; exact H].
      destruct (use_inv _ _ _ _ _ H) as (c & c' & offers & Ec & F & ->). rewrite On. cbn in C4. subst n. eapply did_add; eauto. }
    destruct (is (blocks line) "find-offer") eqn:C5.
    { apply is_command in C5. destruct (sh_on s) eqn:On; cbn [negb] in H; [|eapply S; exact H].
      destruct (blocks line) as [|n [|t [|]]] eqn:B; try (eapply S; exact H). destruct (NewNodeIDFromHexString t) as [id|] eqn:Id; [|eapply S; exact H].
      destruct (use_inv _ _ _ _ _ H) as (c & c' & offers & Ec & F & ->). rewrite On. cbn in C5. subst n. eapply did_find; eauto. }
    destruct (is (blocks line) "find-offer-dht") eqn:C6.
    { apply is_command in C6. destruct (sh_on s) eqn:On; cbn [negb] in H; [|eapply S; exact H].
      destruct (blocks line) as [|n [|t [|u [|]]]] eqn:B; try (eapply S; exact H). destruct (NewNodeIDFromHexString t) as [id|] eqn:Id; [|eapply S; exact H].
      destruct (NewNodeIDFromHexString u) as [id2|] eqn:Id2; [|eapply S; exact H].
      destruct (use_inv _ _ _ _ _ H) as (c & c' & offers & Ec & F & ->). rewrite On. cbn in C6. subst n. eapply did_dht; eauto. }
    destruct (is (blocks line) "list-offers"); [destruct (sh_on s); cbn [negb] in H; eapply S; exact H|].
    destruct (is (blocks line) "retrieve"); [destruct (sh_on s); cbn [negb] in H; eapply S; exact H|].
    destruct (is (blocks line) "retrieve-fast"); [destruct (sh_on s); cbn [negb] in H; eapply S; exact H|].
    destruct (is (blocks line) "exit") eqn:C10; [|eapply S; exact H]. apply ret_inj in H. injection H as <- <- <-. apply did_exit. apply is_command. exact C10.
  Qed.

  (** ** Initialising *)

  Lemma init_inv w s x r o : sh_on s = false -> Init w s = Ret (x, r, o) -> exists s', x = Some s' /\ o = [] /\
    ((s' = s /\ r = [InitFailed]) \/
     (start reg (sh_reg s) = false /\ exists key token k kk c m, we_account w = Ret (OkR (key, token)) /\ we_chain w = OkR k /\ we_key w = OkR kk /\ m = snd (StartMgr reg (sh_reg s)) /\
       c = NewClient (Some (we_random w)) 101 defaultSearchPrice 1000000000000000 100000000000000000 m /\
       ((we_mgr w key localLotusAP token = None /\ s' = Shell false m (Some c) (sh_offers s) /\ r = [InitFailed]) \/
        exists a, we_mgr w key localLotusAP token = Some a /\ s' = Shell true m (Some (with_mgr c (NewMgr a))) [] /\ r = []))).
  Proof.
    unfold Init, says. intros -> H. step H. destruct v as [[key token]|]; [|apply ret_inj in H; injection H as <- <- <-; eauto 10].
    destruct (we_chain w) as [k|] eqn:K; [|apply ret_inj in H; injection H as <- <- <-; eauto 10].
    unfold Build in H. cbn [cb_chain SetLotusAuthToken SetLotusAP SetWalletPrivateKey SetBlockchainPrivateKey SetEstablishmentTTL CreateSettings cb_key cb_ver cb_ttl cb_url cb_wallet cb_lotus cb_token cb_search cb_offer cb_topup] in H.
    destruct (we_key w) as [kk|] eqn:KK; [|discriminate]. cbn [obind fst snd] in H. unfold StartMgr in H. destruct (start reg (sh_reg s)) eqn:St; [apply ret_inj in H; injection H as <- <- <-; eauto 10|].
    cbn [NewClientWith cs_search cs_offer cs_topup cs_id cs_ttl] in H. unfold PaymentMgr in H. cbn [c_pay NewClient] in H.
    cbn [ce_wallet with_wallet cs_wallet cs_lotus cs_token] in H. destruct (we_mgr w key localLotusAP token) as [a|] eqn:Wa.
    - cbn [with_mgr c_pay] in H. apply ret_inj in H. injection H as <- <- <-. eexists. split; [reflexivity|]. split; [reflexivity|]. right. split; [reflexivity|].
      exists key, token, k, kk, (NewClient (Some (we_random w)) 101 defaultSearchPrice 1000000000000000 100000000000000000 (snd (StartMgr reg (sh_reg s)))), (snd (StartMgr reg (sh_reg s))). repeat (split; [first [reflexivity|assumption]|]). right. exists a. split; [exact Wa|].
      unfold StartMgr. rewrite St. cbn. auto.
    - cbn [c_pay NewClient] in H. apply ret_inj in H. injection H as <- <- <-. eexists. split; [reflexivity|]. split; [reflexivity|]. right. split; [reflexivity|].
      exists key, token, k, kk, (NewClient (Some (we_random w)) 101 defaultSearchPrice 1000000000000000 100000000000000000 (snd (StartMgr reg (sh_reg s)))), (snd (StartMgr reg (sh_reg s))). repeat (split; [first [reflexivity|assumption]|]). left. split; [exact Wa|].
      unfold StartMgr. rewrite St. cbn. auto.
  Qed.

  (** ** Commands that call the library *)

  Definition same (c c' : client) : Prop := client_settings c' = client_settings c /\ c_use c' = c_use c /\ c_active c' = c_active c.

  Lemma query_inv w id : forall gws n c temp c' temp' r o, query w n c id gws temp = Ret (c', temp', r, o) -> NoDup (map fst temp) ->
    same c c' /\ NoDup (map fst temp') /\
    (forall k v, aget bytes_eqb temp' k = Some v -> aget bytes_eqb temp k = Some v \/ exists res x, search w res /\ In x res /\ s_sig x = k /\ v = last res x).
  Proof.
    induction gws as [|gw t IH]; intros n c temp c' temp' r o H ND; cbn [Cli.query] in H.
    - apply ret_inj in H. injection H as <- <- <- <-. split; [repeat split|]. auto.
    - step H. destruct v as [[res c1] out]. step H. destruct v as [[[c2 temp2] r2] o2]. apply ret_inj in H. injection H as <- <- <- <-.
      destruct (find_standard_v2_inv _ _ _ _ _ _ _ _ _ _ _ _ _ _ _ _ E) as (D & id' & Eid & K).
      assert (Ok : forall l, res = OkR l -> search w l).
      { intros l ->. exists n, c, gw, id, c1, out. split; [exact E|]. intros s I. destruct K as [(_ & X & _)|(g & rows & _ & _ & _ & _ & K)]; [discriminate|].
        destruct (K l eq_refl) as [->|(j & offers & _ & _ & P & _)]; [destruct I|]. apply P. exact I. }
      assert (N2 : NoDup (map fst (match res with OkR res => keep res temp | ErrR => temp end))).
      { destruct res as [l|]; [|exact ND]. unfold keep. clear - ND. generalize l at 1. intros l0. revert temp ND. induction l as [|x t IH]; intros temp ND; cbn; [exact ND|].
        apply IH. apply set_nodup. exact ND. }
      destruct (IH _ _ _ _ _ _ _ E0 N2) as ((A1 & A2 & A3) & B & C). split.
      { split; [rewrite A1; apply D|]. split; [rewrite A2; apply D|rewrite A3; apply D]. }
      split; [exact B|]. intros k v G. destruct (C k v G) as [G'|G']; [|right; exact G']. destruct res as [l|]; [|auto]. unfold keep in G'.
      destruct (keep_inv l l temp k v (fun x X => X) G') as [G2|(x & I & S & V)]; [auto|]. right. exists l, x. auto.
  Qed.

  Lemma find_offer_inv w s id c c' offers r o : FindOffer w s id c = Ret (c', offers, r, o) ->
    same c c' /\ exists temp r1, r = r1 ++ [Offers temp] /\ NoDup (map fst temp) /\
    (forall k v, aget bytes_eqb temp k = Some v -> exists res x, search w res /\ In x res /\ s_sig x = k /\ v = last res x) /\
    (forall k, aget bytes_eqb offers k = match aget bytes_eqb temp k with Some v => Some v | None => aget bytes_eqb (sh_offers s) k end).
  Proof.
    unfold Cli.FindOffer. intros H. step H. destruct v as [[[c1 temp] r1] o1]. apply ret_inj in H. injection H as <- <- <- <-.
    destruct (query_inv _ _ _ _ _ _ _ _ _ _ E (NoDup_nil _)) as (A & B & C). split; [exact A|]. exists temp, r1. split; [reflexivity|]. split; [exact B|]. split.
    - intros k v G. destruct (C k v G) as [X|X]; [discriminate|exact X].
    - intros k. apply merge_new. exact B.
  Qed.

  Lemma dht_inv w s node id c c' offers r o : FindOfferDht w s node id c = Ret (c', offers, r, o) -> same c c' /\ offers = sh_offers s.
  Proof.
    unfold Cli.FindOfferDht. intros H. step H. destruct v as [[res c1] out]. apply ret_inj in H. injection H as <- <- <- <-.
    destruct (find_dht_v2_inv _ _ _ _ _ _ _ _ _ _ _ _ _ _ _ _ _ E) as (D & _). split; [|reflexivity]. split; [apply D|]. split; apply D.
  Qed.

  Lemma add_inv w s id c c' offers r o : NoDup (map fst (c_use c)) -> NoDup (map fst (c_active c)) -> AddActive w s id c = Ret (c', offers, r, o) ->
    client_settings c' = client_settings c /\ offers = sh_offers s /\ NoDup (map fst (c_use c')) /\ NoDup (map fst (c_active c')) /\
    (forall k g, aget bytes_eqb (c_use c') k = Some g -> aget bytes_eqb (c_use c) k = Some g \/ complete g /\ k = ToString id /\ gateway_known (we_call w 0) c k g) /\
    (forall k g, aget bytes_eqb (c_use c) k = Some g -> aget bytes_eqb (c_use c') k = Some g) /\
    (forall k g, aget bytes_eqb (c_active c) k = Some g -> aget bytes_eqb (c_active c') k = Some g) /\
    (forall k g, aget bytes_eqb (c_active c') k = Some g -> aget bytes_eqb (c_active c) k = Some g \/
       k = ToString id /\ aget bytes_eqb (c_use c') k = Some g /\ exists ds, length (rand_bytes ds) = 32%nat /\ authenticates (we_call w 1) g (rand_bytes ds)) /\
    (r = [CannotUse] \/ r = [NoChannel] \/
     r = [Added] /\ aget bytes_eqb (c_active c) (ToString id) = None /\ aget bytes_eqb (c_active c') (ToString id) <> None /\
       exists c1 info m m' ch ret, gateway_known (we_call w 2) c1 (ToString id) info /\
         match c_pay c with Some m0 => m = m0 | None => exists a, ce_wallet (we_call w 2) = Some a /\ m = NewMgr a end /\
         ce_tx (we_call w 2) 0 = TxDone ret /\ c_pay c' = Some m' /\ aget bytes_eqb (m_out m') (r_address info) = Some ch /\
         c_balance ch = match aget bytes_eqb (m_out m) (r_address info) with Some x => c_balance x | None => 0 end + c_topup c).
  Proof.
    intros N1 N2 H. unfold Cli.AddActive in H. step H. destruct v as [k1 c1]. cbn [snd] in H. step H. destruct v as [[added c2] out].
    destruct (add_use_inv _ _ _ _ _ _ N1 E) as ((X1 & X2 & X3 & X4) & _ & _ & X5 & _ & X6 & X7).
    assert (N2' : NoDup (map fst (c_active c1))) by (rewrite X2; exact N2).
    destruct (add_active_inv _ _ _ _ _ _ _ _ _ _ _ _ _ _ N2' E0) as ((Y1 & Y2 & Y3 & Y4) & Y5 & Y6 & Y7 & Y8 & Y9 & _).
    assert (Fin : forall c3, client_settings c3 = client_settings c2 -> c_use c3 = c_use c2 -> c_active c3 = c_active c2 ->
      client_settings c3 = client_settings c /\ NoDup (map fst (c_use c3)) /\ NoDup (map fst (c_active c3)) /\
      (forall k g, aget bytes_eqb (c_use c3) k = Some g -> aget bytes_eqb (c_use c) k = Some g \/ complete g /\ k = ToString id /\ gateway_known (we_call w 0) c k g) /\
      (forall k g, aget bytes_eqb (c_use c) k = Some g -> aget bytes_eqb (c_use c3) k = Some g) /\
      (forall k g, aget bytes_eqb (c_active c) k = Some g -> aget bytes_eqb (c_active c3) k = Some g) /\
      (forall k g, aget bytes_eqb (c_active c3) k = Some g -> aget bytes_eqb (c_active c) k = Some g \/
         k = ToString id /\ aget bytes_eqb (c_use c3) k = Some g /\ exists ds, length (rand_bytes ds) = 32%nat /\ authenticates (we_call w 1) g (rand_bytes ds))).
    { intros c3 Z1 Z2 Z3. rewrite Z1, Z2, Z3. split; [congruence|]. split; [rewrite Y4; exact X5|]. split; [exact Y7|]. rewrite Y4. split.
      - intros k g U. destruct (X7 k g U) as [V|(i & I & -> & K & Cm)]; [auto|]. destruct I as [I|[]]. injection I as <-. auto.
      - split; [exact X6|]. split; [intros k g A; apply Y8; rewrite X2; exact A|].
        intros k g A. destruct (Y9 k g A) as [V|((i & I & ->) & U & B)]; [left; rewrite <- X2; exact V|]. destruct I as [I|[]]. injection I as <-. right. auto. }
    step H.
    - apply ret_inj in H. injection H as <- <- <- <-. destruct (Fin c2 eq_refl eq_refl eq_refl) as (F1 & F2). split; [exact F1|]. split; [reflexivity|].
      destruct F2 as (F2 & F3 & F4 & F5 & F6 & F7). repeat (split; [assumption|]). left. reflexivity.
    - step H. destruct v as [info c3]. destruct (find_gateway_inv _ _ _ _ _ _ E2) as (D & P & _ & K). destruct info as [info|]; [|discriminate]. cbn [deref obind] in H.
      destruct (manager_inv (we_call w 2) c3) as (D2 & _ & _).
      assert (Pm : match c_pay (PaymentMgr (we_call w 2) c3) with None => True | Some m => match c_pay c with Some m0 => m = m0 | None => exists a, ce_wallet (we_call w 2) = Some a /\ m = NewMgr a end end).
      { unfold PaymentMgr. rewrite P, Y3, X3. destruct (c_pay c) as [m0|] eqn:Q; [rewrite P, Y3, X3; reflexivity|].
        destruct (ce_wallet (we_call w 2)) as [a|]; [cbn; eauto|]. rewrite P, Y3, X3. exact Logic.I. }
      destruct (c_pay (PaymentMgr (we_call w 2) c3)) as [m|] eqn:Q; [|discriminate]. cbn [deref obind] in H.
      destruct (Topup m (r_address info) (c_topup (PaymentMgr (we_call w 2) c3)) (ce_tx (we_call w 2) 0)) as [m' ok] eqn:T.
      apply ret_inj in H. injection H as <- <- <- <-.
      assert (Tp : c_topup (PaymentMgr (we_call w 2) c3) = c_topup c).
      { destruct (Fin (PaymentMgr (we_call w 2) c3)) as (F1 & _); [rewrite (d_settings _ _ _ D2); apply D|rewrite (d_use _ _ _ D2); apply D|rewrite (d_active _ _ _ D2); apply D|].
        unfold client_settings in F1. congruence. }
      destruct (Fin (with_mgr (PaymentMgr (we_call w 2) c3) m')) as (F1 & F2 & F3 & F4 & F5 & F6 & F7).
      { transitivity (client_settings (PaymentMgr (we_call w 2) c3)); [reflexivity|]. rewrite (d_settings _ _ _ D2). apply D. }
      { transitivity (c_use (PaymentMgr (we_call w 2) c3)); [reflexivity|]. rewrite (d_use _ _ _ D2). apply D. }
      { transitivity (c_active (PaymentMgr (we_call w 2) c3)); [reflexivity|]. rewrite (d_active _ _ _ D2). apply D. }
      split; [exact F1|]. split; [reflexivity|]. repeat (split; [assumption|]). destruct ok; [|right; left; reflexivity]. right. right. split; [reflexivity|].
      assert (One : added = 1) by lia. subst added.
      assert (Was : aget bytes_eqb (c_active c) (ToString id) = None /\ aget bytes_eqb (c_active c2) (ToString id) <> None).
      { clear - E0 X2. cbn [AddActiveGateways deref obind] in E0. rewrite X2 in E0. destruct (aget bytes_eqb (c_active c) (ToString id)) as [g|].
        { discriminate E0. }
        split; [reflexivity|]. destruct (aget bytes_eqb (c_use c1) (lower (ToString id))) as [gw|]; [|discriminate E0].
        step E0. destruct v as [ok out']. destruct ok; cbn [negb obind app] in E0; apply ret_inj in E0.
        - injection E0 as <- _. cbn. rewrite set_get. replace (bytes_eqb (ToString id) (ToString id)) with true by (symmetry; apply bytes_eqb_eq; reflexivity). discriminate.
        - discriminate E0. }
      destruct Was as [Was1 Was2]. split; [exact Was1|]. split.
      { intros X. apply Was2. rewrite <- X. cbn. rewrite (d_active _ _ _ D2). symmetry. rewrite (d_active _ _ _ D). reflexivity. }
      unfold Topup in T. rewrite Tp in T. destruct (aget bytes_eqb (m_out m) (r_address info)) as [ch0|] eqn:Ch.
      + unfold TopupAdd in T. destruct (ce_tx (we_call w 2) 0) as [|ret] eqn:Tx; [discriminate|]. injection T as <-.
        exists c2, info, m, (Mgr (m_addr m) (aset bytes_eqb (m_out m) (r_address info) (Chan (c_addr ch0) (c_balance ch0 + c_topup c) (c_redeemed ch0) (c_lanes ch0))) (m_in m)), (Chan (c_addr ch0) (c_balance ch0 + c_topup c) (c_redeemed ch0) (c_lanes ch0)), ret.
        split; [apply K; reflexivity|]. split; [exact Pm|]. split; [reflexivity|]. split; [reflexivity|]. split; [|rewrite Ch; reflexivity].
        cbn [m_out]. rewrite set_get. replace (bytes_eqb (r_address info) (r_address info)) with true by (symmetry; apply bytes_eqb_eq; reflexivity). reflexivity.
      + unfold TopupCreate in T. destruct (ce_tx (we_call w 2) 0) as [|[a|]] eqn:Tx; [discriminate| |discriminate]. injection T as <-.
        exists c2, info, m, (Mgr (m_addr m) (aset bytes_eqb (m_out m) (r_address info) (Chan a (c_topup c) 0 [])) (m_in m)), (Chan a (c_topup c) 0 []), (Some a).
        split; [apply K; reflexivity|]. split; [exact Pm|]. split; [reflexivity|]. split; [reflexivity|]. split; [|rewrite Ch; cbn; lia].
        cbn [m_out]. rewrite set_get. replace (bytes_eqb (r_address info) (r_address info)) with true by (symmetry; apply bytes_eqb_eq; reflexivity). reflexivity.
  Qed.

  (** ** Lives *)

  Record kempt (ws : list wenv) (c : client) : Prop := Kempt {
    k_settings : exists w, In w ws /\ client_settings c = (Some (we_random w), 101, defaultSearchPrice, 1000000000000000, 100000000000000000);
    k_nodup : NoDup (map fst (c_use c)) /\ NoDup (map fst (c_active c));
    k_use : forall k g, aget bytes_eqb (c_use c) k = Some g -> complete g;
    k_active : forall k g, aget bytes_eqb (c_active c) k = Some g -> aget bytes_eqb (c_use c) k = Some g /\
      exists w n ds, In w ws /\ length (rand_bytes ds) = 32%nat /\ authenticates (we_call w n) g (rand_bytes ds)
  }.
  Record inv (ws : list wenv) (s : shell) : Prop := Inv {
    i_client : forall c, sh_client s = Some c -> kempt ws c;
    i_offers : forall k v, aget bytes_eqb (sh_offers s) k = Some v -> kept_from ws k v;
    i_on : sh_on s = true -> sh_client s <> None
  }.

  Lemma kempt_same ws c c' : kempt ws c -> same c c' -> kempt ws c'.
  Proof. intros [A B C D] (E & F & G). split; rewrite ?E, ?F, ?G; assumption. Qed.
  Lemma kempt_more ws ws' c : incl ws ws' -> kempt ws c -> kempt ws' c.
  Proof.
    intros I [(w & W & A) B C D]. split; [exists w; auto|exact B|exact C|]. intros k g X. destruct (D k g X) as (Y & w' & n & ds & W' & Z).
    split; [exact Y|]. exists w', n, ds. auto.
  Qed.
  Lemma kept_more ws ws' k v : incl ws ws' -> kept_from ws k v -> kept_from ws' k v.
  Proof. intros I (w & res & o & W & X). exists w, res, o. auto. Qed.
  Lemma kempt_new ws w m : In w ws -> kempt ws (NewClient (Some (we_random w)) 101 defaultSearchPrice 1000000000000000 100000000000000000 m).
  Proof. intros W. split; [exists w; auto|split; constructor|discriminate|discriminate]. Qed.

  Lemma executor_inv ws w s line s' r o : inv ws s -> In w ws -> executor w s line = Ret (Some s', r, o) ->
    inv ws s' /\ (sh_on s = true -> sh_on s' = true) /\ (sh_on s = false -> o = []) /\ (sh_on s' = false -> start reg (sh_reg s) = true -> s' = s).
  Proof.
    intros [Ic Io In0] W H. apply executor_did in H. remember (Some s') as x eqn:Ex. destruct H; try discriminate Ex.
    - injection Ex as <-. split; [split; assumption|]. auto.
    - subst x. destruct (init_inv _ _ _ _ _ H0 H1) as (s1 & E & -> & K). injection E as <-. rewrite H0. destruct K as [[-> _]|(St & key & token & k & kk & c & m & _ & _ & _ & _ & Ec & K)].
      + split; [split; assumption|]. split; [discriminate|]. auto.
      + destruct K as [(_ & -> & _)|(a & _ & -> & _)].
        * split; [|split; [discriminate|split; [reflexivity|congruence]]]. split; cbn [sh_client sh_offers sh_on]; [|exact Io|discriminate].
          intros c0 [= <-]. subst c. apply kempt_new. exact W.
        * split; [|split; [reflexivity|split; [reflexivity|discriminate]]]. split; cbn [sh_client sh_offers sh_on]; [|discriminate|discriminate].
          intros c0 [= <-]. subst c. apply (kempt_same ws (NewClient (Some (we_random w)) 101 defaultSearchPrice 1000000000000000 100000000000000000 m)); [apply kempt_new; exact W|repeat split].
    - injection Ex as <-. split; [split; cbn; auto|]. split; [reflexivity|]. split; [reflexivity|discriminate].
    - injection Ex as <-. split; [|split; [reflexivity|split; [reflexivity|discriminate]]]. split; cbn; [|exact Io|discriminate]. intros c0 [= <-].
      apply (kempt_same ws c); [apply Ic; assumption|repeat split].
    - injection Ex as <-. split; [|split; [reflexivity|split; [congruence|discriminate]]]. destruct (Ic c H2) as [A [N1 N2] C D].
      destruct (add_inv w s id (with_manager c (sh_reg s)) c' offers r o N1 N2 H3) as (B1 & -> & B2 & B3 & B4 & B5 & B6 & B7 & _).
      split; cbn [sh_client sh_offers sh_on]; [|exact Io|discriminate]. intros c0 [= <-]. split.
      + rewrite B1. exact A.
      + auto.
      + intros k g X. destruct (B4 k g X) as [Y|(Y & _)]; [exact (C k g Y)|exact Y].
      + intros k g X. destruct (B7 k g X) as [Y|(-> & Y & ds & L & Z)].
        * destruct (D k g Y) as (U & V). split; [apply B5; exact U|exact V].
        * split; [exact Y|]. exists w, 1%nat, ds. auto.
    - injection Ex as <-. split; [|split; [reflexivity|split; [congruence|discriminate]]].
      destruct (find_offer_inv w s id _ c' offers r o H3) as (Sm & temp & r1 & _ & _ & T & M). split; cbn [sh_client sh_offers sh_on]; [| |discriminate].
      + intros c0 [= <-]. apply (kempt_same ws (with_manager c (sh_reg s))); [|exact Sm]. apply (kempt_same ws c); [apply Ic; assumption|repeat split].
      + intros k v G. rewrite M in G. destruct (aget bytes_eqb temp k) as [v'|] eqn:Et; [|apply Io; exact G]. injection G as ->.
        destruct (T k v Et) as (res & x & S & I & Sg & ->). exists w, res, x. split; [exact W|]. split; [exact S|]. split; [exact I|]. split; [exact Sg|].
        apply last_In. intros ->. destruct I.
    - injection Ex as <-. split; [|split; [reflexivity|split; [congruence|discriminate]]].
      destruct (dht_inv w s node id _ c' offers r o H4) as (Sm & ->). split; cbn [sh_client sh_offers sh_on]; [|exact Io|discriminate].
      intros c0 [= <-]. apply (kempt_same ws (with_manager c (sh_reg s))); [|exact Sm]. apply (kempt_same ws c); [apply Ic; assumption|repeat split].
  Qed.

  Lemma executor_end w s line r o : executor w s line = Ret (None, r, o) -> r = [Bye] /\ o = [].
  Proof.
    intros H. apply executor_did in H. remember (@None shell) as x eqn:Ex. destruct H; try discriminate Ex; [auto|]. subst x.
    destruct (init_inv _ _ _ _ _ H0 H1) as (s1 & E & _). discriminate.
  Qed.

  Lemma inv_background ws s b : inv ws s -> inv ws (Shell (sh_on s) (background (sh_reg s) b) (sh_client s) (sh_offers s)).
  Proof. intros [A B C]. split; assumption. Qed.
  Lemma background_start m b : start reg (background m b) = start reg m.
  Proof. unfold background. destruct b as [[[g r] p]|]; [|reflexivity]. destruct (start reg m) eqn:E; [cbn|]; exact E. Qed.

  Lemma lines_inv ws : forall l s s' r o, incl (worlds l) ws -> inv ws s -> type_lines s l = Ret (Some s', r, o) ->
    inv ws s' /\ (sh_on s = true -> sh_on s' = true) /\ (sh_on s' = false -> o = []) /\
    (sh_on s = false -> start reg (sh_reg s) = true -> sh_on s' = false).
  Proof.
    induction l as [|[[b w] line] t IH]; intros s s' r o W I H; cbn [Cli.type_lines] in H.
    - apply ret_inj in H. injection H as <- <- <-. auto.
    - step H. destruct v as [[s1 r1] o1]. destruct s1 as [s1|]; [|discriminate]. step H. destruct v as [[s2 r2] o2]. apply ret_inj in H. injection H as -> <- <-.
      assert (Ww : In w ws) by (apply W; left; reflexivity).
      destruct (executor_inv ws w _ line s1 r1 o1 (inv_background ws s b I) Ww E) as (A1 & A2 & A3 & A4). cbn [sh_on sh_reg] in *. rewrite background_start in A4.
      destruct (IH s1 s' r2 o2 (fun x X => W x (or_intror X)) A1 E0) as (B1 & B2 & B3 & B4). split; [exact B1|]. split; [auto|]. split.
      + intros Off. rewrite (B3 Off), app_nil_r. apply A3. destruct (sh_on s) eqn:On; [|reflexivity]. rewrite (B2 (A2 eq_refl)) in Off. discriminate.
      + intros Off St. destruct (sh_on s1) eqn:On1.
        * exfalso. apply executor_did in E. remember (Some s1) as x eqn:Ex. destruct E; try discriminate Ex; cbn [sh_on] in *; try congruence.
          -- injection Ex as <-. cbn in On1. congruence.
          -- subst x. pose proof (fun h => init_inv w _ _ _ _ h H1) as X. destruct (X H0) as (s3 & E & _ & K). injection E as <-. cbn [sh_reg] in K. rewrite background_start in K.
             destruct K as [[-> _]|(St' & _)]; [cbn in On1|]; congruence.
        * apply B4; [reflexivity|]. rewrite (A4 eq_refl St). cbn [sh_reg]. rewrite background_start. exact St.
  Qed.
  Lemma inv_new ws : inv ws NewShell.
  Proof. split; cbn; discriminate. Qed.

  (** ** Everything found is shown *)

  Notation asked := (CliSpec.asked version supported sha256 pub_of ec_verify blake voucher_text rand_int).
  Lemma query_asked w id : forall gws n c temp c' temp' r o, query w n c id gws temp = Ret (c', temp', r, o) ->
    exists l, asked w id n c gws l c' /\
      (forall k, aget bytes_eqb temp' k <> None <-> aget bytes_eqb temp k <> None \/ exists res x, In (Some res) l /\ In x res /\ s_sig x = k) /\
      length (filter (fun x => match x with None => true | Some _ => false end) l) = length r.
  Proof.
    induction gws as [|gw t IH]; intros n c temp c' temp' r o H; cbn [Cli.query] in H.
    - apply ret_inj in H. injection H as <- <- <- <-. exists []. split; [constructor|]. split; [|reflexivity]. intros k. split; [auto|]. intros [X|(res & x & [] & _)]. exact X.
    - step H. destruct v as [[res c1] out]. step H. destruct v as [[[c2 temp2] r2] o2]. apply ret_inj in H. injection H as <- <- <- <-.
      destruct (IH _ _ _ _ _ _ _ E0) as (l & A & B & C). destruct res as [res|].
      + exists (Some res :: l). split; [econstructor; eassumption|]. split; [|exact C]. intros k. rewrite B. unfold keep. split.
        * intros [X|(res' & x & I & J)]; [|right; exists res', x; split; [right; exact I|exact J]].
          destruct (aget bytes_eqb (fold_left _ res temp) k) as [v|] eqn:G; [|congruence].
          destruct (keep_inv res res temp k v (fun x X => X) G) as [Y|(x & I & S & _)]; [left; congruence|]. right. exists res, x. split; [left; reflexivity|auto].
        * intros [X|(res' & x & [I|I] & J & S)].
          -- left. apply keep_some. auto.
          -- injection I as <-. left. apply keep_some. right. eauto.
          -- right. exists res', x. auto.
      + exists (None :: l). split; [eapply asked_failed; eassumption|]. split; [|cbn; congruence]. intros k. rewrite B. split.
        * intros [X|(res' & x & I & J)]; [auto|]. right. exists res', x. split; [right; exact I|exact J].
        * intros [X|(res' & x & [I|I] & J)]; [auto|discriminate|]. right. exists res', x. auto.
  Qed.
End cli.
