(** * Properties of random numbers (C164 to C169, C202) *)
From Coq Require Import String List ZArith Bool Lia.
From Verif Require Import Base BaseProofs OfferProofs Prng PrngSpec PrngProofs.
Import ListNotations.
Open Scope Z_scope.
Open Scope go_scope.

Section life.
  Context {D : Type}.
  Variable drbg_read : D -> nat -> option (bytes * D).
  Variable drbg_reseed : D -> bytes -> D.
  Variable hash : bytes -> bytes.
  Hypothesis hash_len : forall x, List.length (hash x) = 32%nat.
  Hypothesis read_len : forall d n x d', drbg_read d n = Some (x, d') -> List.length x = n.

  (** ** C164: as many bytes as asked for, however they are drawn *)

  Theorem random_filled : forall r n, List.length (prfState r) = 32%nat -> (forall d m, drbg_read d m <> None) ->
    exists b r', ReadBytes drbg_read hash r n = Ret (b, r') /\ List.length b = n.
  Proof using hash_len read_len.
    intros r n L T. unfold ReadBytes. rewrite L. destruct (fill_none drbg_read hash n n r (le_n n) T) as (b & r' & E). exists b, r'. split; [exact E|].
    assert (R : ReadBytes drbg_read hash r n = Ret (b, r')) by (unfold ReadBytes; rewrite L; exact E).
    eapply read_inv in R; [|assumption|assumption]. destruct R as (? & _ & _ & _ & X). exact X.
  Qed.
  (** Whole blocks and what follows can be drawn together or one after the other. *)
  Theorem random_split : forall r k m, List.length (prfState r) = 32%nat ->
    ReadBytes drbg_read hash r (32 * k + m) =
    (let* x := ReadBytes drbg_read hash r (32 * k) in let* y := ReadBytes drbg_read hash (snd x) m in Ret (fst x ++ fst y, snd y)).
  Proof using hash_len read_len.
    intros r k m L. unfold ReadBytes at 1 2. rewrite L. rewrite (fill_split drbg_read hash hash_len k m _ (32 * k) m r) by lia.
    destruct (fill drbg_read hash (32 * k) 32 (32 * k) r) as [[b r1]| |] eqn:F; cbn [obind fst snd]; try reflexivity. unfold ReadBytes.
    destruct (fill_hashed drbg_read hash hash_len _ _ _ _ _ F) as (is & A & _). rewrite (hashed_len32 drbg_read hash hash_len _ _ _ _ L A). reflexivity.
  Qed.

  (** ** C165: no block of random bytes is given out twice *)

  (** In the life of a generator, unless the digest collides on what it was applied to in that life. *)
  Theorem random_blocks_distinct : forall r l outs r', 0 <= prfCounter r -> List.length (prfState r) = 32%nat ->
    uses drbg_read drbg_reseed hash r l = Ret (outs, r') -> no_collision hash (hashed_in drbg_read drbg_reseed hash r l) ->
    NoDup (flat_map whole_blocks outs).
  Proof using hash_len read_len.
    intros r l outs r' P L U N. eapply uses_blocks in U; try eassumption. destruct U as (_ & _ & U). apply U. exact N.
  Qed.

  (** ** C166: reads that overlap *)

  (** Full claim: goroutines that draw from one generator at the same time get different bytes.  It holds if they draw one after another. *)
  Theorem serial_reads_partial : forall s i, List.length (prfState (sh_prng s)) = 32%nat -> nth_error (threads s) i = Some L79 -> (forall d m, drbg_read d m <> None) ->
    exists s' b, race drbg_read hash s [i; i; i; i; i; i; i] = Some s' /\ nth_error (threads s') i = Some (Done b) /\
      ReadBytes drbg_read hash (sh_prng s) 32 = Ret (b, sh_prng s') /\ forall j, j <> i -> nth_error (threads s') j = nth_error (threads s) j.
  Proof using hash_len.
    clear read_len drbg_reseed. intros [r w ts] i L T N. cbn [sh_prng threads] in *.
    assert (A : forall (l : list at_line) x y, nth_error l i = Some x -> nth_error (firstn i l ++ y :: skipn (S i) l) i = Some y).
    { clear. induction i as [|i IH]; intros [|z l] x y H; try discriminate; [reflexivity|]. cbn. cbn in H. exact (IH l x y H). }
    assert (B : forall (l : list at_line) x y z, nth_error l i = Some x -> firstn i (firstn i l ++ y :: skipn (S i) l) ++ z :: skipn (S i) (firstn i l ++ y :: skipn (S i) l) = firstn i l ++ z :: skipn (S i) l).
    { clear. induction i as [|i IH]; intros [|v l] x y z H; try discriminate; [reflexivity|]. cbn [firstn skipn app]. cbn in H. f_equal. apply (IH l x y z H). }
    assert (C : forall (l : list at_line) x y j, nth_error l i = Some x -> j <> i -> nth_error (firstn i l ++ y :: skipn (S i) l) j = nth_error l j).
    { clear. induction i as [|i IH]; intros [|v l] x y j H J; try discriminate; [destruct j; [contradiction|reflexivity]|]. cbn [firstn skipn app]. destruct j as [|j]; [reflexivity|]. cbn in *. apply (IH l x); [exact H|congruence]. }
    destruct (drbg_read (drbg r) 32) as [[x d]|] eqn:R; [|destruct (N _ _ R)].
    set (out := hash (big_bytes (prfCounter r + 1) ++ x ++ prfState r)).
    exists (Shared (Prng d out (prfCounter r + 1)) (big_bytes (prfCounter r + 1) ++ x ++ prfState r) (firstn i ts ++ Done out :: skipn (S i) ts)), out.
    split; [|split; [eapply A; exact T|split; [|intros j J; eapply C; eassumption]]].
    - cbn [race]. unfold race_step at 1. cbn [threads]. rewrite T. cbn [sh_prng written].
      do 6 (cbn [race]; unfold race_step at 1; cbn [threads]; rewrite (A _ _ _ T); cbn [sh_prng written drbg prfState prfCounter]; rewrite ?L, ?R; rewrite (B _ _ _ _ T)).
      cbn [app]. rewrite <- !app_assoc. reflexivity.
    - unfold ReadBytes. rewrite L. assert (F : forall f, fill drbg_read hash (S f) 32 32 r = Ret (out, Prng d out (prfCounter r + 1))).
      { intros f. cbn [fill]. rewrite R. cbv zeta. fold out. change (32 - 32)%nat with O. assert (Z1 : forall q, fill drbg_read hash f 32 0 q = Ret ([], q)) by (intros q; destruct f; reflexivity).
        rewrite Z1. cbn [obind fst snd]. rewrite app_nil_r, firstn_all2 by (unfold out; rewrite hash_len; lia). reflexivity. }
      exact (F 31%nat).
  Qed.

  (** If they overlap, two may get the same bytes, whatever the DRBG and the digest. *)
  Theorem overlapping_reads_refuted : forall r w, (forall d m, drbg_read d m <> None) ->
    exists schedule s b, race drbg_read hash (Shared r w [L79; L79]) schedule = Some s /\ threads s = [Done b; Done b].
  Proof using.
    intros r w N. exists [0; 0; 0; 0; 1; 1; 1; 1; 0; 1; 0; 1; 0; 1]%nat.
    destruct (drbg_read (drbg r) (List.length (prfState r))) as [[x d]|] eqn:R; [|destruct (N _ _ R)].
    destruct (drbg_read d (List.length (prfState r))) as [[x' d']|] eqn:R'; [|destruct (N _ _ R')].
    eexists. eexists. split.
    - do 14 (cbn [race]; unfold race_step at 1; cbn [threads nth_error sh_prng written drbg prfState prfCounter]; rewrite ?R, ?R'; cbn [firstn skipn app]). cbn [race]. reflexivity.
    - reflexivity.
  Qed.

  (** ** C167: output that an attacker on the DRBG cannot predict *)

  (** Full claim: an attacker who knows the DRBG and the counter cannot tell the bytes to come.  Those that come first depend on the secret
      state: they differ for different states unless the digest collides. *)
  Theorem secret_state_matters_partial : forall d c s s' n b r b' r', (32 <= n)%nat -> List.length s = 32%nat -> List.length s' = 32%nat -> s <> s' ->
    ReadBytes drbg_read hash (Prng d s c) n = Ret (b, r) -> ReadBytes drbg_read hash (Prng d s' c) n = Ret (b', r') ->
    (forall x, hash (big_bytes (c + 1) ++ x ++ s) <> hash (big_bytes (c + 1) ++ x ++ s')) -> firstn 32 b <> firstn 32 b'.
  Proof using hash_len.
    clear read_len drbg_reseed. intros d c s s' n b r b' r' N L L' S H H' X. destruct n as [|n]; [lia|]. unfold ReadBytes in H, H'. cbn [prfState] in H, H'. rewrite L in H. rewrite L' in H'.
    cbn [fill drbg prfState prfCounter] in H, H'. destruct (drbg_read d 32) as [[x d1]|]; [|discriminate]. cbv zeta in H, H'.
    destruct (fill _ _ _ _ _ (Prng d1 (hash (_ ++ x ++ s)) _)) as [[t u]| |]; try discriminate. destruct (fill _ _ _ _ _ (Prng d1 (hash (_ ++ x ++ s')) _)) as [[t' u']| |]; try discriminate.
    apply ret_inj in H, H'. apply (f_equal fst) in H, H'. cbn [fst snd] in H, H'. subst b b'.
    rewrite !(firstn_all2 (hash _)) by (rewrite hash_len; exact N). rewrite !firstn_app, !hash_len, Nat.sub_diag, !firstn_O, !app_nil_r, !firstn_all2 by (rewrite hash_len; lia).
    apply X.
  Qed.

  (** After whole blocks were drawn the secret state is the last block given out: all that follows is computed from it, the DRBG
      and the counter. *)
  Theorem prng_predicted_refuted : forall r k b r', List.length (prfState r) = 32%nat -> (0 < k)%nat -> ReadBytes drbg_read hash r (32 * k) = Ret (b, r') ->
    forall m, ReadBytes drbg_read hash r' m = ReadBytes drbg_read hash (Prng (drbg r') (last_bytes 32 b) (prfCounter r + Z.of_nat k)) m.
  Proof using hash_len.
    clear read_len drbg_reseed. intros r k b r' L K H m. eapply read_inv in H; [|assumption|assumption]. destruct H as (is & A & B & C & E).
    assert (Q : ((32 * k + 31) / 32 = k)%nat) by (rewrite Nat.mul_comm, Nat.div_add_l by discriminate; rewrite (Nat.div_small 31) by lia; lia). rewrite Q in A, B.
    destruct (hashed_state drbg_read hash hash_len _ _ _ _ A B) as (S1 & S2 & _). rewrite <- S1. f_equal.
    assert (X : forall l, (0 < List.length l)%nat -> last_bytes 32 (concat (map hash l)) = last (map hash l) [] /\ List.length (concat (map hash l)) = (32 * List.length l)%nat).
    { clear -hash_len. induction l as [|i l IH]; [cbn; lia|]. intros _. destruct l as [|j l].
      - cbn [map concat last List.length]. rewrite app_nil_r, hash_len. split; [|reflexivity]. unfold last_bytes. rewrite hash_len. reflexivity.
      - destruct IH as (I1 & I2); [cbn; lia|]. change (map hash (i :: j :: l)) with (hash i :: map hash (j :: l)). cbn [concat]. fold (concat (map hash (j :: l))).
        rewrite app_length, hash_len, I2. cbn [List.length]. split; [|lia].
        transitivity (last_bytes 32 (concat (map hash (j :: l)))); [|rewrite I1; reflexivity]. unfold last_bytes. rewrite app_length, hash_len, I2. cbn [List.length].
        rewrite skipn_app, hash_len. rewrite (skipn_all2 (hash i)) by (rewrite hash_len; lia). cbn [app]. f_equal. }
    destruct (X is ltac:(lia)) as (X1 & X2). assert (Cb : b = concat (map hash is)) by (rewrite C; apply firstn_all2; rewrite X2, B; lia).
    destruct r' as [d' s' c']. cbn [drbg prfCounter prfState] in *. f_equal. rewrite Cb, X1. apply S2. lia.
  Qed.

  (** ** C202: seeds add to what is secret *)

  (** Two generators that differ in their secret states still give out different bytes after the same seed, even one that an attacker has chosen,
      unless the digest collides. *)
  Theorem seed_keeps_secret : forall d c s s' seed n b r b' r', (32 <= n)%nat ->
    ReadBytes drbg_read hash (Reseed drbg_reseed hash (Prng d s c) seed) n = Ret (b, r) -> ReadBytes drbg_read hash (Reseed drbg_reseed hash (Prng d s' c) seed) n = Ret (b', r') ->
    hash (seed ++ s) <> hash (seed ++ s') ->
    (forall x, hash (big_bytes (c + 1) ++ x ++ hash (seed ++ s)) <> hash (big_bytes (c + 1) ++ x ++ hash (seed ++ s'))) -> firstn 32 b <> firstn 32 b'.
  Proof using hash_len read_len.
    intros d c s s' seed n b r b' r' N H H' X Y. unfold Reseed in H, H'. cbn [drbg prfState prfCounter] in H, H'.
    exact (secret_state_matters_partial _ _ _ _ _ _ _ _ _ N (hash_len _) (hash_len _) X H H' Y).
  Qed.
  (** And different seeds make the next bytes differ, also if the DRBG ignores them. *)
  Theorem seed_counts : forall d c s seed seed' n b r b' r', (32 <= n)%nat -> (forall k, drbg_reseed d k = d) ->
    ReadBytes drbg_read hash (Reseed drbg_reseed hash (Prng d s c) seed) n = Ret (b, r) -> ReadBytes drbg_read hash (Reseed drbg_reseed hash (Prng d s c) seed') n = Ret (b', r') ->
    hash (seed ++ s) <> hash (seed' ++ s) ->
    (forall x, hash (big_bytes (c + 1) ++ x ++ hash (seed ++ s)) <> hash (big_bytes (c + 1) ++ x ++ hash (seed' ++ s))) -> firstn 32 b <> firstn 32 b'.
  Proof using hash_len read_len.
    intros d c s seed seed' n b r b' r' N I H H' X Y. unfold Reseed in H, H'. cbn [drbg prfState prfCounter] in H, H'. rewrite I in H, H'.
    exact (secret_state_matters_partial _ _ _ _ _ _ _ _ _ N (hash_len _) (hash_len _) X H H' Y).
  Qed.
End life.

Section calls.
  Context {D : Type}.
  Variable drbg_new : bytes -> bytes -> D.
  Variable drbg_reseed : D -> bytes -> D.
  Variable hash : bytes -> bytes.

  (** ** C168: the generators of a process *)

  Let after_calls := after_calls drbg_new drbg_reseed hash.
  (** There is one public and one private generator, which stay the same whatever is called, and they are not the same. *)
  Theorem generators_stay : forall l l' b b' b'' i p, GetPublicPRNG drbg_new (after_calls l) b = (i, p) ->
    fst (GetPublicPRNG drbg_new (fold_left (called drbg_new drbg_reseed hash) l' p) b') = i /\
    fst (GetPrivatePRNG drbg_new (fold_left (called drbg_new drbg_reseed hash) l' p) b'') <> i.
  Proof.
    intros l l' b b' b'' i p H. assert (P : publicPRNG p = Some i).
    { unfold GetPublicPRNG in H. destruct (publicPRNG (after_calls l)) eqn:E; injection H as <- <-; [exact E|reflexivity]. }
    assert (Sp : sound p).
    { replace p with (called drbg_new drbg_reseed hash (after_calls l) (AskPublic b)) by (cbn [called]; rewrite H; reflexivity). apply called_sound, after_sound. }
    assert (G : publicPRNG (fold_left (called drbg_new drbg_reseed hash) l' p) = Some i /\ sound (fold_left (called drbg_new drbg_reseed hash) l' p)).
    { clear H. revert p P Sp. induction l' as [|c l' IH]; intros p P Sp; [split; assumption|]. cbn [fold_left]. apply IH; [apply public_stays; exact P|apply called_sound; exact Sp]. }
    destruct G as (G1 & G2). split; [unfold GetPublicPRNG; rewrite G1; reflexivity|]. unfold GetPrivatePRNG. destruct G2 as (_ & B & C & _). destruct (C i G1) as (C1 & C2).
    destruct (privatePRNG _) as [j|]; cbn [fst]; [intros ->; apply C2; reflexivity|]. apply B in C1. lia.
  Qed.

  (** Full claim: an entropy kick reseeds every generator.  It holds for those that the package keeps track of. *)
  Theorem kick_reseeds_partial : forall l times i r, forallb (fun c => negb (apart c)) l = true -> nth_error (made (after_calls l)) i = Some r ->
    exists k, nth_error (made (PRNGEntropyKick drbg_reseed hash (after_calls l) times)) i = Some (Reseed drbg_reseed hash r (nanotime (times k))).
  Proof.
    intros l times i r A M. assert (I : In i (prngPool (after_calls l))).
    { apply after_pool; [exact A|]. apply nth_error_Some. fold after_calls. rewrite M. discriminate. }
    apply In_nth_error in I. destruct I as (k & K). exists k. destruct (after_sound drbg_new drbg_reseed hash l) as (N & _). exact (kick_in drbg_reseed hash _ _ _ _ _ _ N K M).
  Qed.
  (** And a generator that was made with NewPRNG is never reseeded. *)
  Theorem kick_reseeds_refuted : forall s b times, exists r, made (after_calls [MakeApart s b]) = [r] /\
    made (PRNGEntropyKick drbg_reseed hash (after_calls [MakeApart s b]) times) = [r].
  Proof. intros s b times. eexists. split; reflexivity. Qed.

  (** ** C169: a security domain stays as it was *)

  (** Full claim: making a generator does not change the array in which the caller has the security domain.  It holds for the domain itself,
      and for all of the array if the domain has no room after it for what is appended. *)
  Theorem domain_kept_partial : forall s mac now now' e rnd, (len s <= List.length (array s))%nat ->
    firstn (len s) (fst (NewPRNG drbg_new s mac now now' e rnd)) = content s /\
    ((List.length (array s) < len s + List.length mac)%nat -> fst (NewPRNG drbg_new s mac now now' e rnd) = array s).
  Proof.
    intros [a n] mac now now' e rnd. cbn [len array]. intros L. unfold NewPRNG, append, content. cbn [len array].
    destruct (Nat.leb_spec (n + List.length mac) (List.length a)) as [H|H].
    - cbn [len array]. split; [|lia]. set (a1 := firstn n a ++ mac ++ skipn (n + List.length mac) a).
      assert (F1 : firstn n a1 = firstn n a) by (unfold a1; rewrite firstn_app, firstn_firstn, Nat.min_id, firstn_length, Nat.min_l, Nat.sub_diag, firstn_O, app_nil_r by exact L; reflexivity).
      destruct (_ <=? _)%nat; cbn [fst]; [|exact F1]. rewrite firstn_app, firstn_firstn, Nat.min_l by lia.
      rewrite F1. rewrite (proj2 (Nat.sub_0_le n (List.length (firstn (n + List.length mac) a1)))); [rewrite firstn_O, app_nil_r; reflexivity|].
      unfold a1. rewrite firstn_length, !app_length, firstn_length, skipn_length. lia.
    - cbn [len array]. destruct (_ <=? _)%nat; cbn [fst]; auto.
  Qed.

  (** Whatever room the array has, a new generator takes its seed from the operating system's entropy and is set apart by the domain, the
      addresses and the time, in this order. *)
  Theorem generator_seeded : forall s mac now now' e rnd, (len s <= List.length (array s))%nat ->
    snd (NewPRNG drbg_new s mac now now' e rnd) =
      Prng (drbg_new e (firstn (len s) (array s) ++ mac ++ be_bytes 8 (now mod 2 ^ 64))) rnd now'.
  Proof.
    intros [a n] mac now now' e rnd. cbn [len array]. intros L. unfold NewPRNG.
    assert (A : forall o sh t x, (len t <= List.length (array t))%nat ->
      let '(_, _, t') := append o sh t x in content t' = content t ++ x /\ (len t' <= List.length (array t'))%nat).
    { intros o sh [b m] x. unfold append, content. cbn [len array]. intros M.
      destruct (Nat.leb_spec (m + List.length x) (List.length b)) as [H|H]; cbn [len array].
      - split; [|rewrite !app_length, firstn_length, skipn_length; lia].
        rewrite app_assoc, firstn_app. rewrite firstn_all2 by (rewrite app_length, firstn_length; lia).
        rewrite (proj2 (Nat.sub_0_le _ _)) by (rewrite app_length, firstn_length; lia). rewrite firstn_O, app_nil_r. reflexivity.
      - split; [apply firstn_all|lia]. }
    pose proof (A a true (Slice a n) mac L) as A1. cbn [array]. destruct (append a true (Slice a n) mac) as [[o sh] s1]. destruct A1 as [E1 L1].
    pose proof (A o sh s1 (nanotime now) L1) as A2. destruct (append o sh s1 (nanotime now)) as [[o2 sh2] s2]. destruct A2 as [E2 _].
    cbn [snd]. rewrite E2, E1, <- app_assoc. reflexivity.
  Qed.
End calls.

(** ** Examples *)

Definition toy_hash (x : bytes) : bytes := be_bytes 32 ((be_val x * 7919 + Z.of_nat (List.length x)) mod 2 ^ 256).
Definition toy_read (d : Z) (n : nat) : option (bytes * Z) := Some (be_bytes n (d * 31), d + 1).
Definition toy_seed (d : Z) (s : bytes) : Z := d + be_val s.
Definition toy_new (e s : bytes) : Z := be_val (e ++ s).
Definition toy_prng : prng Z := Prng 5 (be_bytes 32 77) 1605000000.

Example filled_ex : match ReadBytes toy_read toy_hash toy_prng 70 with Ret (b, r) => List.length b = 70%nat /\ prfCounter r = 1605000003 | _ => False end.
Proof. vm_compute. split; reflexivity. Qed.
Example toy_hash_len : forall x, List.length (toy_hash x) = 32%nat.
Proof. intros x. apply be_bytes_length. Qed.
Example toy_read_len : forall d n x d', toy_read d n = Some (x, d') -> List.length x = n.
Proof. intros d n x d' H. injection H as <- _. apply be_bytes_length. Qed.

(** Two identifiers, a seed, and three blocks and a half. *)
Definition toy_life := [Draw 32; Draw 32; Seed (gs "noise"); Draw 112].
Definition distinct (l : list bytes) : bool := Nat.eqb (List.length (nodup (list_eq_dec Byte.byte_eq_dec) l)) (List.length l).
Example distinct_ex : match uses toy_read toy_seed toy_hash toy_prng toy_life with
  | Ret (outs, _) => List.length (flat_map whole_blocks outs) = 5%nat /\ distinct (flat_map whole_blocks outs) = true
  | _ => False end /\ no_collision toy_hash (hashed_in toy_read toy_seed toy_hash toy_prng toy_life).
Proof.
  split; [vm_compute; split; reflexivity|]. intros x y I J E.
  set (l := hashed_in toy_read toy_seed toy_hash toy_prng toy_life) in *.
  assert (P : forallb (fun x => forallb (fun y => implb (bytes_eqb (toy_hash x) (toy_hash y)) (bytes_eqb x y)) l) l = true) by (vm_compute; reflexivity).
  rewrite forallb_forall in P. specialize (P x I). rewrite forallb_forall in P. specialize (P y J). rewrite E in P.
  assert (Q : bytes_eqb (toy_hash y) (toy_hash y) = true) by (apply bytes_eqb_eq; reflexivity). rewrite Q in P. apply bytes_eqb_eq. exact P.
Qed.

(** Anyone who saw an identifier, knows the DRBG and guesses the counter computes the next one. *)
Example predicted_ex : match ReadBytes toy_read toy_hash toy_prng 32 with
  | Ret (id, r) => match ReadBytes toy_read toy_hash r 32 with
                   | Ret (next, _) => bytes_eqb next (toy_hash (big_bytes 1605000002 ++ be_bytes 32 (6 * 31) ++ id)) = true
                   | _ => False end
  | _ => False end.
Proof. vm_compute. reflexivity. Qed.

(** The same seed for two generators with different secrets, and two seeds for one. *)
Example seeded_ex : let next r k := match ReadBytes toy_read toy_hash (Reseed toy_seed toy_hash r k) 32 with Ret (b, _) => b | _ => [] end in
  bytes_eqb (next toy_prng (gs "noise")) (next (Prng 5 (be_bytes 32 78) 1605000000) (gs "noise")) = false /\
  bytes_eqb (next toy_prng (gs "noise")) (next toy_prng (gs "hum")) = false /\ List.length (next toy_prng (gs "noise")) = 32%nat.
Proof. vm_compute. repeat split. Qed.

Definition toy_birth : birth := Birth (gs "mac") 16 1605 (gs "entropy") (be_bytes 32 9).
Example kick_ex : let p := after_calls toy_new toy_seed toy_hash [AskPublic toy_birth; AskPrivate toy_birth; AskPublic toy_birth; AskNew (whole (gs "mine")) toy_birth] in
  publicPRNG p = Some O /\ privatePRNG p = Some 1%nat /\ List.length (made p) = 3%nat /\
  map (fun r => bytes_eqb (prfState r) (be_bytes 32 9)) (made (PRNGEntropyKick toy_seed toy_hash p (fun k => Z.of_nat k))) = [false; false; false].
Proof. vm_compute. repeat split. Qed.

(** A domain at the start of an array with room for eleven bytes: what follows is overwritten. *)
Theorem domain_kept_refuted : let a := gs "wallet:my secret notes" in
  fst (NewPRNG toy_new (Slice a 7) (gs "mac") 16 1605 [] []) = gs "wallet:mac" ++ be_bytes 8 16 ++ gs "otes".
Proof. vm_compute. reflexivity. Qed.
Example domain_kept_ex : fst (NewPRNG toy_new (whole (gs "wallet")) (gs "mac") 16 1605 [] []) = gs "wallet".
Proof. vm_compute. reflexivity. Qed.

(** Room for the addresses but not for the time as well: the second [append] moves the slice. *)
Example generator_seeded_ex : snd (NewPRNG (fun e x => (e, x)) (Slice (gs "wallet:my notes") 6) (gs "mac") 16 1605 (gs "os") (gs "rnd")) =
  Prng (gs "os", gs "walletmac" ++ repeat Byte.x00 7 ++ [Byte.x10]) (gs "rnd") 1605.
Proof. vm_compute. reflexivity. Qed.

Print Assumptions random_filled.
Print Assumptions random_split.
Print Assumptions random_blocks_distinct.
Print Assumptions serial_reads_partial.
Print Assumptions overlapping_reads_refuted.
Print Assumptions secret_state_matters_partial.
Print Assumptions prng_predicted_refuted.
Print Assumptions generators_stay.
Print Assumptions kick_reseeds_partial.
Print Assumptions kick_reseeds_refuted.
Print Assumptions domain_kept_partial.
Print Assumptions generator_seeded.
Print Assumptions domain_kept_refuted.
Print Assumptions seed_keeps_secret.
Print Assumptions seed_counts.
