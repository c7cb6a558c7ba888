(** * Lemmas on random numbers *)
From Coq Require Import String List ZArith Bool Lia.
From Verif Require Import Base BaseProofs OfferProofs Prng PrngSpec.
Import ListNotations.
Open Scope Z_scope.
Open Scope go_scope.

Lemma nodup_left {A} (a b : list A) : NoDup (a ++ b) -> NoDup a.
Proof. induction a as [|x a IH]; intros H; [constructor|]. inversion H as [|? ? N1 N2]; subst. constructor; [intros I; apply N1, in_app_iff; left; exact I|apply IH; exact N2]. Qed.

Section life.
  Context {D : Type}.
  Variable drbg_read : D -> nat -> option (bytes * D).
  Variable hash : bytes -> bytes.
  Let hashed := hashed drbg_read hash.
  Let ReadBytes := ReadBytes drbg_read hash.
  Let fill := fill drbg_read hash.

  Lemma need n : ((S n + 31) / 32 = S ((S n - 32 + 31) / 32))%nat.
  Proof.
    clear. destruct (Nat.le_gt_cases 32 (S n)) as [H|H].
    - replace (S n + 31)%nat with ((S n - 32 + 31) + 1 * 32)%nat by lia. rewrite Nat.div_add by discriminate. lia.
    - replace (S n - 32)%nat with O by lia. replace (S n + 31)%nat with (n + 1 * 32)%nat by lia. rewrite Nat.div_add, Nat.div_small by lia. reflexivity.
  Qed.
  Lemma fill_none fuel n r : (n <= fuel)%nat -> (forall d m, drbg_read d m <> None) -> exists b r', fill fuel 32 n r = Ret (b, r').
  Proof.
    revert n r. induction fuel as [|fuel IH]; intros n r L T; (destruct n as [|n]; [eexists; eexists; reflexivity|]); [lia|].
    unfold fill. cbn [Prng.fill]. destruct (drbg_read (drbg r) 32) as [[x d]|] eqn:R; [|destruct (T _ _ R)]. cbv zeta.
    destruct (IH (S n - 32)%nat (Prng d (hash (big_bytes (prfCounter r + 1) ++ x ++ prfState r)) (prfCounter r + 1)) ltac:(lia) T) as (b & r' & E).
    unfold fill in E. rewrite E. eexists. eexists. reflexivity.
  Qed.
  Lemma fill_more fuel fuel' n r : (n <= fuel)%nat -> (n <= fuel')%nat -> fill fuel 32 n r = fill fuel' 32 n r.
  Proof.
    revert fuel' n r. induction fuel as [|f IH]; intros fuel' n r A B; [destruct n; [|lia]; destruct fuel'; reflexivity|]. destruct n as [|n]; [destruct fuel'; reflexivity|].
    destruct fuel' as [|f']; [lia|]. unfold fill. cbn [Prng.fill]. destruct (drbg_read (drbg r) 32) as [[x d]|]; [|reflexivity]. cbv zeta.
    specialize (IH f' (S n - 32)%nat). unfold fill in IH. rewrite IH by lia. reflexivity.
  Qed.
  Lemma blocks_cut fuel is n : (forall i, In i is -> List.length i = 32%nat) -> List.length is = ((n + 31) / 32)%nat -> (n <= fuel)%nat ->
    exists m, cut_blocks fuel (firstn n (concat is)) = firstn m is.
  Proof.
    clear. revert is n. induction fuel as [|fuel IH]; intros is n L K F; [exists O; reflexivity|]. cbn [cut_blocks].
    destruct (Nat.leb_spec 32 (List.length (firstn n (concat is)))) as [H|H]; [|exists O; reflexivity].
    rewrite firstn_length in H. assert (N : (32 <= n)%nat) by lia. destruct n as [|n]; [lia|]. rewrite need in K. destruct is as [|i is]; [discriminate|]. cbn [concat].
    assert (I : List.length i = 32%nat) by (apply L; left; reflexivity).
    rewrite (firstn_app (S n) i), I, (firstn_all2 i) by lia. rewrite firstn_app, I, Nat.sub_diag, firstn_O, app_nil_r, (firstn_all2 i) by lia.
    rewrite skipn_app, I, Nat.sub_diag, (skipn_all2 i) by lia. cbn [app skipn]. cbn [List.length] in K. injection K as K.
    destruct (IH is (S n - 32)%nat) as (m & E); [intros j J; apply L; right; exact J|exact K|lia|]. exists (S m). rewrite E. reflexivity.
  Qed.
  Lemma cut_fuel fuel fuel' b : (List.length b <= fuel)%nat -> (List.length b <= fuel')%nat -> cut_blocks fuel b = cut_blocks fuel' b.
  Proof.
    clear. revert fuel' b. induction fuel as [|f IH]; intros fuel' b A B.
    - destruct b; [|cbn in A; lia]. destruct fuel'; reflexivity.
    - destruct fuel' as [|f']; [destruct b; [|cbn in B; lia]; reflexivity|]. cbn [cut_blocks]. destruct (Nat.leb_spec 32 (List.length b)); [|reflexivity].
      f_equal. apply IH; rewrite skipn_length; lia.
  Qed.
  (** The counter in what was hashed. *)
  Definition counter_of (i : bytes) : Z := be_val (firstn (List.length i - 64) i).
  Lemma big_val z : 0 <= z -> be_val (big_bytes z) = z.
  Proof.
    clear. intros H. unfold big_bytes. destruct (z =? 0) eqn:E; [apply Z.eqb_eq in E; subst; reflexivity|]. apply Z.eqb_neq in E. rewrite Z.abs_eq by exact H.
    apply be_val_be_bytes. split; [exact H|]. assert (L := Z.log2_nonneg z). assert (Q : 0 <= Z.log2 z / 8) by (apply Z.div_pos; lia). rewrite Z2Nat.id by lia.
    change 256 with (2 ^ 8). rewrite <- Z.pow_mul_r by lia. apply Z.log2_lt_pow2; [lia|]. assert (M := Z.mul_succ_div_gt (Z.log2 z) 8 ltac:(lia)). lia.
  Qed.
  Lemma counter_read c x s : 0 <= c -> List.length x = 32%nat -> List.length s = 32%nat -> counter_of (big_bytes c ++ x ++ s) = c.
  Proof.
    clear. intros H X S. unfold counter_of. rewrite !app_length, X, S. replace (_ + (32 + 32) - 64)%nat with (List.length (big_bytes c)) by lia.
    rewrite firstn_app, firstn_all, Nat.sub_diag, firstn_O, app_nil_r. apply big_val. exact H.
  Qed.
  Hypothesis hash_len : forall x, List.length (hash x) = 32%nat.
  Lemma fill_hashed fuel n r b r' : fill fuel 32 n r = Ret (b, r') ->
    exists is, hashed ((n + 31) / 32) r = (is, r') /\ List.length is = ((n + 31) / 32)%nat /\ b = firstn n (concat (map hash is)).
  Proof.
    revert n r b r'. induction fuel as [|fuel IH]; intros n r b r' H; (destruct n as [|n]; cbn [Prng.fill fill] in H; [apply ret_inj in H; injection H as <- <-; exists []; repeat split; reflexivity|]).
    - discriminate.
    - unfold fill in H. cbn [Prng.fill] in H. destruct (drbg_read (drbg r) 32) as [[x d]|] eqn:R; [|discriminate]. cbv zeta in H.
      set (i := big_bytes (prfCounter r + 1) ++ x ++ prfState r) in *.
      change (Prng.fill drbg_read hash fuel 32 (S n - 32) (Prng d (hash i) (prfCounter r + 1))) with (fill fuel 32 (S n - 32) (Prng d (hash i) (prfCounter r + 1))) in H.
      destruct (fill fuel 32 (S n - 32) _) as [[b1 r1]| |] eqn:F; try discriminate. apply ret_inj in H. cbn [fst snd] in H. injection H as <- <-.
      apply IH in F. destruct F as (is & A & B & C). rewrite need. exists (i :: is). split; [|split].
      + unfold hashed. cbn [PrngSpec.hashed]. rewrite R. fold i. unfold hashed in A. rewrite A. reflexivity.
      + cbn [List.length]. rewrite B. reflexivity.
      + cbn [map concat]. rewrite firstn_app, hash_len, C. reflexivity.
  Qed.

  Lemma hashed_state k r is r' : hashed k r = (is, r') -> List.length is = k -> prfCounter r' = prfCounter r + Z.of_nat k /\
    (k <> O -> prfState r' = last (map hash is) []) /\ (k = O -> r' = r).
  Proof.
    revert r is r'. induction k as [|k IH]; intros r is r' H L; cbn [PrngSpec.hashed hashed] in H.
    - injection H as <- <-. split; [lia|]. split; [congruence|reflexivity].
    - unfold hashed in H. cbn [PrngSpec.hashed] in H. destruct (drbg_read (drbg r) 32) as [[x d]|]; [|injection H as <- <-; discriminate].
      destruct (PrngSpec.hashed drbg_read hash k _) as [t r1] eqn:E. injection H as <- <-. cbn [List.length] in L. injection L as L.
      destruct (IH _ _ _ E L) as (A & B & C). cbn [prfCounter] in A. split; [lia|]. split; [|discriminate]. intros _.
      destruct k as [|k]; [destruct t; [|discriminate]; rewrite (C eq_refl); reflexivity|].
      rewrite (B ltac:(discriminate)). destruct t; [discriminate|]. reflexivity.
  Qed.
  Lemma hashed_len32 k r is r' : List.length (prfState r) = 32%nat -> hashed k r = (is, r') -> List.length (prfState r') = 32%nat.
  Proof.
    revert r is r'. induction k as [|k IH]; intros r is r' L H; unfold hashed in H; cbn [PrngSpec.hashed] in H; [injection H as <- <-; exact L|].
    destruct (drbg_read (drbg r) 32) as [[x d]|]; [|injection H as <- <-; exact L]. destruct (PrngSpec.hashed drbg_read hash k _) as [t r1] eqn:E. injection H as <- <-.
    eapply IH; [|exact E]. apply hash_len.
  Qed.



  Lemma read_inv r n b r' : List.length (prfState r) = 32%nat -> ReadBytes r n = Ret (b, r') ->
    exists is, hashed ((n + 31) / 32) r = (is, r') /\ List.length is = ((n + 31) / 32)%nat /\ b = firstn n (concat (map hash is)) /\ List.length b = n.
  Proof.
    intros L H. unfold ReadBytes, Prng.ReadBytes in H. rewrite L in H. apply fill_hashed in H. destruct H as (is & A & B & C). exists is. split; [exact A|]. split; [exact B|]. split; [exact C|].
    rewrite C, firstn_length. assert (X : List.length (concat (map hash is)) = (32 * List.length is)%nat).
    { clear -hash_len. induction is as [|i is IH]; [reflexivity|]. cbn [map concat List.length]. rewrite app_length, hash_len, IH. lia. }
    rewrite X, B. assert (Y := Nat.mul_succ_div_gt (n + 31) 32 ltac:(discriminate)). lia.
  Qed.
  Lemma fill_split k m fuel fuel1 fuel2 r : (32 * k + m <= fuel)%nat -> (32 * k <= fuel1)%nat -> (m <= fuel2)%nat ->
    fill fuel 32 (32 * k + m) r = (let* x := fill fuel1 32 (32 * k) r in let* y := fill fuel2 32 m (snd x) in Ret (fst x ++ fst y, snd y)).
  Proof.
    revert fuel fuel1 r. induction k as [|k IH]; intros fuel fuel1 r A B C.
    - replace (32 * 0 + m)%nat with m by lia. change (32 * 0)%nat with O. assert (Z1 : forall f, fill f 32 0 r = Ret ([], r)) by (intros f; unfold fill; destruct f; reflexivity). rewrite Z1. cbn [obind fst snd app].
      rewrite (fill_more fuel fuel2) by lia. destruct (fill fuel2 32 m r) as [[b r']| |]; reflexivity.
    - destruct fuel as [|fuel]; [lia|]. destruct fuel1 as [|fuel1]; [lia|]. replace (32 * S k + m)%nat with (S (31 + 32 * k + m)) by lia. replace (32 * S k)%nat with (S (31 + 32 * k)) by lia.
      unfold fill at 1 2. cbn [Prng.fill]. destruct (drbg_read (drbg r) 32) as [[x d]|]; [|reflexivity]. cbv zeta.
      replace (S (31 + 32 * k + m) - 32)%nat with (32 * k + m)%nat by lia. replace (S (31 + 32 * k) - 32)%nat with (32 * k)%nat by lia.
      set (i := hash _). specialize (IH fuel fuel1 (Prng d i (prfCounter r + 1)) ltac:(lia) ltac:(lia) C). unfold fill in IH. rewrite IH.
      assert (Hi : List.length i = 32%nat) by apply hash_len. rewrite !firstn_all2 by lia.
      destruct (Prng.fill drbg_read hash fuel1 32 (32 * k) _) as [[b1 r1]| |]; cbn [obind fst snd]; try reflexivity.
      fold fill. destruct (fill fuel2 32 m r1) as [[b2 r2]| |]; cbn [obind fst snd]; try reflexivity. rewrite app_assoc. reflexivity.
  Qed.

  Variable drbg_reseed : D -> bytes -> D.
  Hypothesis read_len : forall d n x d', drbg_read d n = Some (x, d') -> List.length x = n.
  Let Reseed := Reseed drbg_reseed hash.
  Let uses := uses drbg_read drbg_reseed hash.
  Let hashed_in := hashed_in drbg_read drbg_reseed hash.
  Lemma hashed_counters k r is r' : 0 <= prfCounter r -> List.length (prfState r) = 32%nat -> hashed k r = (is, r') ->
    NoDup is /\ prfCounter r <= prfCounter r' /\ forall i, In i is -> prfCounter r < counter_of i <= prfCounter r'.
  Proof.
    revert r is r'. induction k as [|k IH]; intros r is r' P L H; unfold hashed in H; cbn [PrngSpec.hashed] in H.
    - injection H as <- <-. split; [constructor|]. split; [lia|contradiction].
    - destruct (drbg_read (drbg r) 32) as [[x d]|] eqn:R; [|injection H as <- <-; split; [constructor|]; split; [lia|contradiction]].
      destruct (PrngSpec.hashed drbg_read hash k _) as [t r1] eqn:E. injection H as <- <-. apply IH in E; [|cbn [prfCounter]; lia|apply hash_len].
      cbn [prfCounter] in E. destruct E as (A & B & C). apply read_len in R. assert (K := counter_read (prfCounter r + 1) x (prfState r) ltac:(lia) R L).
      split; [|split].
      + constructor; [|exact A]. intros I. apply C in I. lia.
      + lia.
      + intros i [<-|I]; [lia|]. apply C in I. lia.
  Qed.
  Lemma uses_blocks l r outs r' : 0 <= prfCounter r -> List.length (prfState r) = 32%nat -> uses r l = Ret (outs, r') ->
    (forall i, In i (hashed_in r l) -> prfCounter r < counter_of i) /\ NoDup (hashed_in r l) /\
    (no_collision hash (hashed_in r l) -> NoDup (flat_map whole_blocks outs) /\ incl (flat_map whole_blocks outs) (map hash (hashed_in r l))).
  Proof.
    revert r outs r'. induction l as [|[n|s] l IH]; intros r outs r' P L H.
    - apply ret_inj in H. injection H as <- <-. split; [contradiction|]. split; [constructor|]. intros _. split; [constructor|intros x []].
    - unfold uses in H. cbn [PrngSpec.uses] in H. destruct (Prng.ReadBytes drbg_read hash r n) as [[b r1]| |] eqn:R; try discriminate. cbn [obind fst snd] in H.
      destruct (PrngSpec.uses drbg_read drbg_reseed hash r1 l) as [[outs1 r2]| |] eqn:U; try discriminate. apply ret_inj in H. cbn [fst snd] in H. injection H as <- <-.
      destruct (read_inv _ _ _ _ L R) as (is & A & B & C & Bl). destruct (hashed_counters _ _ _ _ P L A) as (N & Le & Cs).
      assert (L1 := hashed_len32 _ _ _ _ L A). apply IH in U; [|lia|exact L1]. destruct U as (U1 & U2 & U3).
      unfold hashed_in. cbn [PrngSpec.hashed_in]. unfold hashed in A. rewrite A. fold hashed_in.
      split; [|split].
      + intros i I. apply in_app_iff in I. destruct I as [I|I]; [apply Cs in I; lia|apply U1 in I; lia].
      + assert (X : forall i, In i is -> ~ In i (hashed_in r1 l)) by (intros i I J; apply Cs in I; apply U1 in J; lia).
        clear -N U2 X. induction is as [|i is IH]; [exact U2|]. inversion N as [|? ? N1 N2]; subst. cbn [app]. constructor.
        * rewrite in_app_iff. intros [I|I]; [contradiction|]. apply (X i); [left; reflexivity|exact I].
        * apply IH; [exact N2|]. intros j J. apply X. right. exact J.
      + intros NC. destruct U3 as (V1 & V2); [intros x y I J; apply NC; apply in_app_iff; right; assumption|].
        cbn [flat_map]. destruct (blocks_cut (List.length b) (map hash is) n) as (m & M).
        { intros i I. apply in_map_iff in I. destruct I as (j & <- & _). apply hash_len. }
        { rewrite map_length. exact B. } { lia. }
        unfold whole_blocks at 1 3. assert (Mb : cut_blocks (List.length b) b = firstn m (map hash is)) by (rewrite C at 2; exact M). rewrite Mb.
        assert (Sub : incl (firstn m (map hash is)) (map hash is)) by (intros x I; rewrite <- (firstn_skipn m (map hash is)); apply in_app_iff; left; exact I).
        split.
        * assert (Nm : NoDup (map hash is)).
          { assert (NC1 : no_collision hash is) by (intros x y I J; apply NC; apply in_app_iff; left; assumption). clear -N NC1.
            induction is as [|i is IH]; [constructor|]. inversion N as [|? ? N1 N2]; subst. cbn [map]. constructor.
            - intros I. apply in_map_iff in I. destruct I as (j & E & J). apply N1. rewrite <- (NC1 j i); [exact J|right; exact J|left; reflexivity|exact E].
            - apply IH; [exact N2|]. intros x y I J. apply NC1; right; assumption. }
          assert (Nf : NoDup (firstn m (map hash is))) by (rewrite <- (firstn_skipn m (map hash is)) in Nm; exact (nodup_left _ _ Nm)).
          assert (Dis : forall x, In x (firstn m (map hash is)) -> ~ In x (flat_map whole_blocks outs1)).
          { intros x I J. apply Sub in I. apply V2 in J. apply in_map_iff in I, J. destruct I as (i & E1 & I), J as (j & E2 & J).
            assert (i = j) by (apply NC; [apply in_app_iff; left; exact I|apply in_app_iff; right; exact J|congruence]). subst j. apply Cs in I. apply U1 in J. lia. }
          clear -Nf Dis V1. induction (firstn m (map hash is)) as [|x t IH]; [exact V1|]. inversion Nf as [|? ? N1 N2]; subst. cbn [app]. constructor.
          -- rewrite in_app_iff. intros [I|I]; [contradiction|]. apply (Dis x); [left; reflexivity|exact I].
          -- apply IH; [exact N2|]. intros y J. apply Dis. right. exact J.
        * intros x I. rewrite map_app. apply in_app_iff in I. apply in_app_iff. destruct I as [I|I]; [left; apply Sub; exact I|right; apply V2; exact I].
    - unfold uses in H. cbn [PrngSpec.uses] in H. unfold hashed_in. cbn [PrngSpec.hashed_in]. apply (IH (Reseed r s) outs r' P); [apply hash_len|exact H].
  Qed.
End life.

(** ** The generators of a process *)
Section calls.
  Context {D : Type}.
  Variable drbg_new : bytes -> bytes -> D.
  Variable drbg_reseed : D -> bytes -> D.
  Variable hash : bytes -> bytes.
  Let called := called drbg_new drbg_reseed hash.
  Let after_calls := after_calls drbg_new drbg_reseed hash.
  Let kick := kick drbg_reseed hash.

  Lemma update_length (l : list (prng D)) i r : List.length (update l i r) = List.length l.
  Proof. revert i. induction l as [|x l IH]; intros [|i]; cbn; auto. Qed.
  Lemma update_other (l : list (prng D)) i j r : i <> j -> nth_error (update l i r) j = nth_error l j.
  Proof. revert i j. induction l as [|x l IH]; intros [|i] [|j] N; cbn; try reflexivity; [contradiction|apply IH; congruence]. Qed.
  Lemma update_same (l : list (prng D)) i r x : nth_error l i = Some x -> nth_error (update l i r) i = Some r.
  Proof. revert i. induction l as [|y l IH]; intros [|i] H; cbn in *; try discriminate; auto. Qed.
  Lemma kick_length m pool times : List.length (kick m pool times) = List.length m.
  Proof. revert m times. induction pool as [|i t IH]; intros m times; [reflexivity|]. unfold kick. cbn [Prng.kick]. fold kick. rewrite IH. destruct (nth_error m i); [apply update_length|reflexivity]. Qed.
  Lemma kick_other m pool times j : ~ In j pool -> nth_error (kick m pool times) j = nth_error m j.
  Proof.
    revert m times. induction pool as [|i t IH]; intros m times N; [reflexivity|]. unfold kick. cbn [Prng.kick]. fold kick. rewrite IH by (intros I; apply N; right; exact I).
    destruct (nth_error m i); [|reflexivity]. apply update_other. intros ->. apply N. left. reflexivity.
  Qed.
  Lemma kick_in m pool times k i r : NoDup pool -> nth_error pool k = Some i -> nth_error m i = Some r ->
    nth_error (kick m pool times) i = Some (QuickReseedKick drbg_reseed hash r (times k)).
  Proof.
    revert m times k. induction pool as [|j t IH]; intros m times k N P M; [destruct k; discriminate|]. inversion N as [|? ? N1 N2]; subst. unfold kick. cbn [Prng.kick]. fold kick.
    destruct k as [|k]; cbn in P.
    - injection P as ->. rewrite M, kick_other by exact N1. eapply update_same. exact M.
    - assert (j <> i) by (intros ->; apply N1; eapply nth_error_In; exact P). rewrite (IH _ (fun k => times (S k)) k N2 P); [reflexivity|].
      destruct (nth_error m j); [rewrite update_other by assumption; exact M|exact M].
  Qed.

  (** The pool has places of generators, each once; so do the variables for the public and the private one. *)
  Definition sound (p : package D) : Prop :=
    NoDup (prngPool p) /\ (forall i, In i (prngPool p) -> (i < List.length (made p))%nat) /\
    (forall i, publicPRNG p = Some i -> In i (prngPool p) /\ privatePRNG p <> Some i) /\ (forall i, privatePRNG p = Some i -> In i (prngPool p)).
  Lemma nodup_snoc (l : list nat) i : NoDup l -> ~ In i l -> NoDup (l ++ [i]).
  Proof.
    intros N I. induction l as [|x l IH]; cbn; [constructor; [exact I|constructor]|]. inversion N as [|? ? N1 N2]; subst. constructor.
    - rewrite in_app_iff. intros [J|[->|[]]]; [contradiction|]. apply I. left. reflexivity.
    - apply IH; [exact N2|]. intros J. apply I. right. exact J.
  Qed.
  Lemma called_sound p c : sound p -> sound (called p c).
  Proof.
    intros S0. assert (S1 := S0). destruct S1 as (A & B & C & E). assert (F : ~ In (List.length (made p)) (prngPool p)) by (intros I; apply B in I; lia).
    assert (G : forall i, In i (prngPool p ++ [List.length (made p)]) -> (i < List.length (made p ++ [snd (NewPRNG drbg_new (whole (gs "public")) [] 0 0 [] [])]))%nat).
    { intros i I. rewrite app_length. cbn. apply in_app_iff in I. destruct I as [I|[<-|[]]]; [apply B in I; lia|lia]. }
    destruct c as [b|b|s b|s b|i r|times]; cbn [called PrngSpec.called].
    - unfold called. cbn [PrngSpec.called]. unfold GetPublicPRNG. destruct (publicPRNG p) eqn:P; cbn [snd]; [exact S0|].
      unfold make, sound. cbn [made prngPool publicPRNG privatePRNG]. split; [apply nodup_snoc; assumption|]. split; [intros i I; specialize (G i I); rewrite app_length in *; exact G|].
      split; [|intros i I; apply in_app_iff; left; apply E; exact I]. intros i I. injection I as <-. split; [apply in_app_iff; right; left; reflexivity|]. intros Q. apply E in Q. contradiction.
    - unfold called. cbn [PrngSpec.called]. unfold GetPrivatePRNG. destruct (privatePRNG p) eqn:P; cbn [snd]; [exact S0|].
      unfold make, sound. cbn [made prngPool publicPRNG privatePRNG]. split; [apply nodup_snoc; assumption|]. split; [intros i I; specialize (G i I); rewrite app_length in *; exact G|].
      split; [|intros i I; injection I as <-; apply in_app_iff; right; left; reflexivity]. intros i I. destruct (C i I) as (X & _). split; [apply in_app_iff; left; exact X|]. intros Q. injection Q as Q. apply F. rewrite Q. exact X.
    - unfold called. cbn [PrngSpec.called NewPrivatePRNG snd]. unfold NewPrivatePRNG, make, sound. cbn [made prngPool publicPRNG privatePRNG snd]. split; [apply nodup_snoc; assumption|].
      split; [intros i I; specialize (G i I); rewrite app_length in *; exact G|]. split; [|intros i I; apply in_app_iff; left; apply E; exact I].
      intros i I. destruct (C i I) as (X & Y). split; [apply in_app_iff; left; exact X|exact Y].
    - unfold called. cbn [PrngSpec.called]. unfold make, sound. cbn [made prngPool publicPRNG privatePRNG]. split; [exact A|]. split; [intros i I; rewrite app_length; apply B in I; cbn; lia|]. auto.
    - unfold called. cbn [PrngSpec.called]. unfold sound. cbn [made prngPool publicPRNG privatePRNG]. rewrite update_length. auto.
    - unfold called. cbn [PrngSpec.called]. unfold PRNGEntropyKick, sound. cbn [made prngPool publicPRNG privatePRNG]. fold kick. rewrite kick_length. auto.
  Qed.
  Lemma after_sound l : sound (after_calls l).
  Proof.
    unfold after_calls, PrngSpec.after_calls. assert (G : forall l p, sound p -> sound (fold_left called l p)) by (clear l; intros l; induction l as [|c l IH]; intros p S; [exact S|cbn; apply IH, called_sound, S]).
    apply G. split; [constructor|]. split; [contradiction|]. split; discriminate.
  Qed.

  (** Without generators made apart the pool has them all. *)
  Lemma called_pool p c : apart c = false -> (forall i, (i < List.length (made p))%nat -> In i (prngPool p)) ->
    forall i, (i < List.length (made (called p c)))%nat -> In i (prngPool (called p c)).
  Proof.
    intros A H. assert (G : forall i, (i < List.length (made p) + 1)%nat -> In i (prngPool p ++ [List.length (made p)])).
    { intros i L. apply in_app_iff. destruct (Nat.eq_dec i (List.length (made p))) as [->|N]; [right; left; reflexivity|left; apply H; lia]. }
    destruct c as [b|b|s b|s b|i r|times]; [| | |discriminate| |]; unfold called; cbn [PrngSpec.called].
    - unfold GetPublicPRNG. destruct (publicPRNG p); cbn [snd]; [exact H|]. unfold make. cbn [made prngPool]. rewrite app_length. exact G.
    - unfold GetPrivatePRNG. destruct (privatePRNG p); cbn [snd]; [exact H|]. unfold make. cbn [made prngPool]. rewrite app_length. exact G.
    - unfold NewPrivatePRNG, make. cbn [made prngPool snd]. rewrite app_length. exact G.
    - cbn [made prngPool]. rewrite update_length. exact H.
    - unfold PRNGEntropyKick. cbn [made prngPool]. fold kick. rewrite kick_length. exact H.
  Qed.
  Lemma after_pool l : forallb (fun c => negb (apart c)) l = true -> forall i, (i < List.length (made (after_calls l)))%nat -> In i (prngPool (after_calls l)).
  Proof.
    unfold after_calls, PrngSpec.after_calls. assert (G : forall l p, forallb (fun c => negb (apart c)) l = true -> (forall i, (i < List.length (made p))%nat -> In i (prngPool p)) ->
      forall i, (i < List.length (made (fold_left called l p)))%nat -> In i (prngPool (fold_left called l p))).
    { clear l. intros l. induction l as [|c l IH]; intros p A H; [exact H|]. cbn in A. apply andb_prop in A. destruct A as (A1 & A2). cbn. apply IH; [exact A2|].
      apply called_pool; [destruct (apart c); [discriminate|reflexivity]|exact H]. }
    intros A. apply G; [exact A|]. cbn. intros i L. lia.
  Qed.
  Lemma public_stays p c i : publicPRNG p = Some i -> publicPRNG (called p c) = Some i.
  Proof.
    intros H. destruct c as [b|b|s b|s b|j r|times]; unfold called; cbn [PrngSpec.called]; try exact H.
    - unfold GetPublicPRNG. rewrite H. exact H.
    - unfold GetPrivatePRNG. destruct (privatePRNG p); exact H.
  Qed.
  Lemma private_stays p c i : privatePRNG p = Some i -> privatePRNG (called p c) = Some i.
  Proof.
    intros H. destruct c as [b|b|s b|s b|j r|times]; unfold called; cbn [PrngSpec.called]; try exact H.
    - unfold GetPublicPRNG. destruct (publicPRNG p); exact H.
    - unfold GetPrivatePRNG. rewrite H. exact H.
  Qed.
End calls.
