(** * Proofs about framing and dispatch *)
From Coq Require Import List ZArith Bool Lia ZifyBool ZifyNat.
From Coq Require Import Init.Byte.
From Verif Require Import Base BaseProofs Json Crypto CryptoProofs Message WireSpec MessageProofs Frame Server FrameSpec.
Import ListNotations.
Open Scope Z_scope.
Open Scope go_scope.

Lemma take_drop n l : takeZ n l ++ dropZ n l = l.
Proof. apply firstn_skipn. Qed.
Lemma takeZ_length n l : 0 <= n -> Z.of_nat (length (takeZ n l)) = Z.min n (Z.of_nat (length l)).
Proof. intros H. unfold takeZ. rewrite firstn_length. lia. Qed.

Lemma stream_data cs t : stream (map Data cs ++ t) = concat cs ++ stream t.
Proof. unfold stream. rewrite map_app, concat_app, map_map, map_id. reflexivity. Qed.

(** Reading from pieces. *)
Lemma net_read_pieces n cs t : 0 < n -> concat cs <> [] ->
  exists b cs', net_read n (map Data cs ++ t) = (Got b, map Data cs' ++ t) /\ b <> [] /\
    Z.of_nat (length b) <= n /\ concat cs = b ++ concat cs'.
Proof.
  intros Hn. induction cs as [|c cs IH]; [intros []; reflexivity|]. intros H.
  destruct c as [|x c].
  - cbn [map app net_read]. apply IH. exact H.
  - exists (takeZ n (x :: c)), (dropZ n (x :: c) :: cs).
    pose proof (takeZ_length n (x :: c)) as L. cbn [length] in L.
    split; [reflexivity|]. split.
    + intros E. rewrite E in L. cbn [length] in L. lia.
    + split; [lia|]. cbn [concat]. rewrite app_assoc, take_drop. reflexivity.
Qed.

Lemma app_eq_len {A} (a b c d : list A) : length a = length c -> a ++ b = c ++ d -> a = c /\ b = d.
Proof.
  revert c. induction a as [|x a IH]; intros [|y c]; cbn [length app]; try discriminate; [auto|].
  intros [= L] [= -> E]. destruct (IH c L E) as [-> ->]. auto.
Qed.

Lemma bufio_pieces n buf cs t : 0 < n -> buf ++ concat cs <> [] ->
  exists b buf' cs', bufio_read n buf (map Data cs ++ t) = (Got b, buf', map Data cs' ++ t) /\ b <> [] /\
    Z.of_nat (length b) <= n /\ buf ++ concat cs = b ++ buf' ++ concat cs' /\
    Z.of_nat (length buf') <= Z.max (Z.of_nat (length buf)) bufio_size - 1.
Proof.
  intros Hn H. unfold bufio_read. destruct buf as [|x buf].
  - cbn [app] in H. destruct (bufio_size <=? n) eqn:E.
    + destruct (net_read_pieces n cs t Hn H) as (b & cs' & R & N & L & C). rewrite R.
      exists b, [], cs'. cbn [app length]. unfold bufio_size in *. repeat split; auto; lia.
    + destruct (net_read_pieces bufio_size cs t ltac:(reflexivity) H) as (b & cs' & R & N & L & C). rewrite R.
      exists (takeZ n b), (dropZ n b), cs'. pose proof (takeZ_length n b) as L'.
      assert (0 < Z.of_nat (length b)) by (destruct b; [contradiction|cbn [length]; lia]).
      pose proof (f_equal (@length byte) (take_drop n b)) as L2. rewrite app_length in L2.
      split; [reflexivity|]. split; [intros E2; rewrite E2 in L'; cbn [length] in L'; lia|].
      split; [lia|]. split; [cbn [app]; rewrite app_assoc, take_drop; exact C|].
      cbn [length]. unfold bufio_size in *. lia.
  - exists (takeZ n (x :: buf)), (dropZ n (x :: buf)), cs.
    pose proof (takeZ_length n (x :: buf)) as L'.
    pose proof (f_equal (@length byte) (take_drop n (x :: buf))) as L2. rewrite app_length in L2. cbn [length] in *.
    split; [reflexivity|]. split; [intros E2; rewrite E2 in L'; cbn [length] in L'; lia|].
    split; [lia|]. split; [rewrite (app_assoc (takeZ _ _)), take_drop; reflexivity|lia].
Qed.

Lemma full_pieces fuel : forall n buf cs t, 0 <= n <= Z.of_nat (length (buf ++ concat cs)) ->
  (length (buf ++ concat cs) < fuel)%nat ->
  exists b buf' cs', read_full fuel n buf (map Data cs ++ t) = Ret (Got b, buf', map Data cs' ++ t) /\
    Z.of_nat (length b) = n /\ buf ++ concat cs = b ++ buf' ++ concat cs' /\
    Z.of_nat (length buf') <= Z.max (Z.of_nat (length buf)) (bufio_size - 1).
Proof.
  induction fuel as [|fuel IH]; intros n buf cs t Hn Hf; [lia|].
  cbn [read_full]. destruct (n <=? 0) eqn:E.
  - exists [], buf, cs. cbn [length app]. repeat split; lia.
  - destruct (bufio_pieces n buf cs t ltac:(lia)) as (b & buf1 & cs1 & R & N & L & C & B).
    { intros X. rewrite X in Hn. cbn [length] in Hn. lia. }
    rewrite R. assert (0 < Z.of_nat (length b)) by (destruct b; [contradiction|cbn [length]; lia]).
    pose proof (f_equal (@length byte) C) as LC. rewrite !app_length in LC.
    rewrite app_length in Hn, Hf.
    destruct (IH (n - Z.of_nat (length b)) buf1 cs1 t) as (b' & buf2 & cs2 & R2 & L2 & C2 & B2);
      [rewrite app_length; lia|rewrite app_length; lia|].
    rewrite R2. cbn [obind]. exists (b ++ b'), buf2, cs2. split; [reflexivity|].
    split; [rewrite app_length; lia|]. split; [rewrite C, C2, app_assoc; reflexivity|].
    unfold bufio_size in *. lia.
Qed.

Lemma rounds_pieces buf cs t : (length (buf ++ concat cs) < rounds buf (map Data cs ++ t))%nat.
Proof. unfold rounds. rewrite stream_data, !app_length. lia. Qed.

(** One message, whose bytes are there; what follows may be lost in part. *)
Lemma read_message m cs rest t : sendable m -> concat cs = sendTCPMessage m ++ rest ->
  exists lost cs', readTCPMessage (map Data cs ++ t) = Ret (Got (OkR m), map Data cs' ++ t) /\
    rest = lost ++ concat cs' /\ Z.of_nat (length lost) < bufio_size.
Proof.
  intros (T & V & S & B) C. unfold sendTCPMessage in C. rewrite <- app_assoc in C.
  set (data := FCRMsgToBytes m) in *. set (len := be_bytes 4 _) in *.
  assert (L4 : length len = 4%nat) by apply be_bytes_length.
  assert (LV : be_val len = Z.of_nat (length data)).
  { unfold len. rewrite Z.mod_small by lia. apply be_val_be_bytes. change (256 ^ Z.of_nat 4) with (2 ^ 32). lia. }
  unfold readTCPMessage.
  pose proof (f_equal (@length byte) C) as LC. rewrite !app_length in LC.
  destruct (full_pieces (rounds [] (map Data cs ++ t)) 4 [] cs t ltac:(cbn [app]; lia) (rounds_pieces _ _ _))
    as (b & buf & cs1 & R & Lb & C1 & B1). rewrite R. cbn [obind].
  cbn [app] in C1. rewrite C in C1. destruct (app_eq_len len _ b _ ltac:(lia) C1) as [<- C2].
  rewrite LV.
  pose proof (f_equal (@length byte) C2) as LC2. rewrite !app_length in LC2.
  destruct (full_pieces (rounds buf (map Data cs1 ++ t)) (Z.of_nat (length data)) buf cs1 t
              ltac:(rewrite app_length; lia) (rounds_pieces _ _ _))
    as (b2 & buf2 & cs2 & R2 & Lb2 & C3 & B2). rewrite R2. cbn [obind].
  rewrite <- C2 in C3. destruct (app_eq_len data _ b2 _ ltac:(lia) C3) as [<- C4].
  unfold data. rewrite (message_wire_pf' m T V S). exists buf2, cs2. split; [reflexivity|]. split; [exact C4|].
  cbn [length] in *. unfold bufio_size in *. lia.
Qed.

Lemma read_empty cs t : concat cs = [] -> readTCPMessage (map Data cs ++ t) = readTCPMessage t.
Proof.
  intros H. assert (E : forall n, net_read n (map Data cs ++ t) = net_read n t).
  { intros n. induction cs as [|c cs IH]; [reflexivity|]. cbn [concat] in H. apply app_eq_nil in H. destruct H as [-> H].
    cbn [map app net_read]. apply IH. exact H. }
  assert (F : forall fuel n, 0 < n -> read_full fuel n [] (map Data cs ++ t) = read_full fuel n [] t).
  { intros fuel n Hn. destruct fuel; cbn [read_full]; (destruct (n <=? 0) eqn:L; [lia|]); [reflexivity|].
    unfold bufio_read. rewrite !E. reflexivity. }
  unfold readTCPMessage. unfold rounds at 1 3. rewrite stream_data, H. cbn [app]. rewrite F by lia. reflexivity.
Qed.

Lemma received_pf ms conn : arrives ms conn -> Forall sendable ms ->
  forall es fuel, concat es = [] -> (length conn < fuel)%nat -> received fuel (map Data es ++ conn) = Ret ms.
Proof.
  induction 1 as [|ms conn A IH|m cs ms conn C A IH]; intros FS es fuel E L; (destruct fuel as [|fuel]; [lia|]); cbn [received].
  - rewrite read_empty by exact E. reflexivity.
  - rewrite read_empty by exact E. cbn [length] in L.
    change (readTCPMessage (Idle :: conn)) with (Ret (@Timeout (result message), conn)). cbn [obind].
    apply (IH FS [] fuel); [reflexivity|lia].
  - rewrite read_empty by exact E. inversion_clear FS as [|? ? S1 S2].
    destruct (read_message m cs [] conn S1) as (lost & cs' & R & D & _); [rewrite app_nil_r; exact C|].
    rewrite R. cbn [obind]. symmetry in D. apply app_eq_nil in D. destruct D as [_ D].
    rewrite app_length, map_length in L.
    assert (length cs <> 0)%nat.
    { intros Z. destruct cs; [|discriminate]. apply (f_equal (@length byte)) in C. unfold sendTCPMessage in C.
      rewrite app_length, be_bytes_length in C. cbn in C. lia. }
    rewrite (IH S2 cs' fuel D) by lia. reflexivity.
Qed.

(** ** What a read returns was sent *)
Lemma net_read_stream n conn b conn' : net_read n conn = (Got b, conn') -> stream conn = b ++ stream conn'.
Proof.
  induction conn as [|[[|x c]|] conn IH]; cbn [net_read]; try discriminate.
  - intros H. exact (IH H).
  - intros H. assert (E : takeZ n (x :: c) = b /\ Data (dropZ n (x :: c)) :: conn = conn') by (split; congruence).
    destruct E as [<- <-]. unfold stream. cbn [map concat]. rewrite app_assoc, take_drop. reflexivity.
Qed.

Lemma bufio_stream n buf conn b buf' conn' : bufio_read n buf conn = (Got b, buf', conn') ->
  buf ++ stream conn = b ++ buf' ++ stream conn'.
Proof.
  unfold bufio_read. destruct buf as [|x buf].
  - destruct (bufio_size <=? n).
    + destruct (net_read n conn) as [r c] eqn:E. intros H.
      assert (X : r = Got b /\ [] = buf' /\ c = conn') by (repeat split; congruence). destruct X as (-> & <- & ->).
      apply net_read_stream in E. exact E.
    + destruct (net_read bufio_size conn) as [[d| |] c] eqn:E; intros H; try discriminate.
      assert (X : takeZ n d = b /\ dropZ n d = buf' /\ c = conn') by (repeat split; congruence). destruct X as (<- & <- & <-).
      apply net_read_stream in E. rewrite (app_assoc (takeZ n d)), take_drop. exact E.
  - intros H. assert (X : takeZ n (x :: buf) = b /\ dropZ n (x :: buf) = buf' /\ conn = conn') by (repeat split; congruence).
    destruct X as (<- & <- & <-). rewrite (app_assoc (takeZ n _)), take_drop. reflexivity.
Qed.

Lemma bufio_length n buf conn b buf' conn' : 0 <= n -> bufio_read n buf conn = (Got b, buf', conn') ->
  Z.of_nat (length b) <= n.
Proof.
  assert (T : forall l, 0 <= n -> Z.of_nat (length (takeZ n l)) <= n) by (intros; rewrite takeZ_length; lia).
  assert (R : forall c d c', 0 <= n -> net_read n c = (Got d, c') -> Z.of_nat (length d) <= n).
  { intros c d c' H. induction c as [|[[|x p]|] c IH]; cbn [net_read]; try discriminate; [exact IH|].
    intros X. assert (Y : takeZ n (x :: p) = d) by congruence. rewrite <- Y. apply T. exact H. }
  intros Hn. unfold bufio_read. destruct buf as [|x buf].
  - destruct (bufio_size <=? n).
    + destruct (net_read n conn) as [r c] eqn:E. intros H. assert (r = Got b) by congruence. subst r. eapply R; eauto.
    + destruct (net_read bufio_size conn) as [[d| |] c] eqn:E; intros H; try discriminate.
      assert (X : takeZ n d = b) by congruence. rewrite <- X. auto.
  - intros H. assert (X : takeZ n (x :: buf) = b) by congruence. rewrite <- X. auto.
Qed.

Lemma full_stream fuel : forall n buf conn b buf' conn', 0 <= n -> read_full fuel n buf conn = Ret (Got b, buf', conn') ->
  Z.of_nat (length b) = n /\ buf ++ stream conn = b ++ buf' ++ stream conn'.
Proof.
  induction fuel as [|fuel IH]; intros n buf conn b buf' conn' Hn; cbn [read_full]; destruct (n <=? 0) eqn:E; try discriminate.
  - intros H. assert (X : [] = b /\ buf = buf' /\ conn = conn') by (repeat split; congruence). destruct X as (<- & <- & <-).
    cbn [length app]. split; [lia|reflexivity].
  - intros H. assert (X : [] = b /\ buf = buf' /\ conn = conn') by (repeat split; congruence). destruct X as (<- & <- & <-).
    cbn [length app]. split; [lia|reflexivity].
  - destruct (bufio_read n buf conn) as [[[d| |] buf1] c1] eqn:R; try discriminate.
    destruct (read_full fuel (n - Z.of_nat (length d)) buf1 c1) as [[[[e| |] buf2] c2]| |] eqn:F; cbn [obind]; try discriminate.
    intros H. assert (X : d ++ e = b /\ buf2 = buf' /\ c2 = conn') by (repeat split; congruence). destruct X as (<- & <- & <-).
    pose proof (bufio_length _ _ _ _ _ _ Hn R) as L.
    apply IH in F; [|lia]. destruct F as [L2 C2]. rewrite app_length. split; [lia|].
    rewrite (bufio_stream _ _ _ _ _ _ R), C2, !app_assoc. reflexivity.
Qed.

Lemma read_sound conn r conn' : readTCPMessage conn = Ret (Got r, conn') ->
  exists len data lost, stream conn = len ++ data ++ lost ++ stream conn' /\ length len = 4%nat /\
    be_val len = Z.of_nat (length data) /\ FCRMsgFromBytes data = r.
Proof.
  unfold readTCPMessage.
  destruct (read_full (rounds [] conn) 4 [] conn) as [[[[len| |] buf] c1]| |] eqn:R; cbn [obind]; try discriminate.
  destruct (read_full (rounds buf c1) (be_val len) buf c1) as [[[[data| |] buf2] c2]| |] eqn:R2; cbn [obind]; try discriminate.
  intros H. assert (X : FCRMsgFromBytes data = r /\ c2 = conn') by (split; congruence). destruct X as (<- & <-).
  apply full_stream in R; [|lia]. apply full_stream in R2; [|apply be_val_range].
  destruct R as [L C], R2 as [L2 C2]. exists len, data, buf2. cbn [app] in C. rewrite C, C2.
  repeat split; auto; lia.
Qed.

(** ** Reading always ends *)
Lemma net_read_nonempty n conn b conn' : 0 < n -> net_read n conn = (Got b, conn') -> b <> [].
Proof.
  intros Hn. induction conn as [|[[|x c]|] conn IH]; cbn [net_read]; try discriminate; [exact IH|].
  intros H. assert (X : takeZ n (x :: c) = b) by congruence. intros ->.
  apply (f_equal (fun l => Z.of_nat (length l))) in X. rewrite takeZ_length in X by lia. cbn [length] in X. lia.
Qed.
Lemma takeZ_nonempty n l : 0 < n -> l <> [] -> takeZ n l <> [].
Proof.
  intros Hn Hl E. apply (f_equal (fun l => Z.of_nat (length l))) in E. rewrite takeZ_length in E by lia.
  destruct l; [contradiction|]. cbn [length] in E. lia.
Qed.
Lemma bufio_nonempty n buf conn b buf' conn' : 0 < n -> bufio_read n buf conn = (Got b, buf', conn') -> b <> [].
Proof.
  intros Hn. unfold bufio_read. destruct buf as [|x buf].
  - destruct (bufio_size <=? n).
    + destruct (net_read n conn) as [r c] eqn:E. intros H. assert (r = Got b) by congruence. subst r. eapply net_read_nonempty; eauto.
    + destruct (net_read bufio_size conn) as [[d| |] c] eqn:E; intros H; try discriminate.
      assert (X : takeZ n d = b) by congruence. rewrite <- X. apply takeZ_nonempty; [exact Hn|].
      eapply net_read_nonempty; [|exact E]. reflexivity.
  - intros H. assert (X : takeZ n (x :: buf) = b) by congruence. rewrite <- X. apply takeZ_nonempty; [exact Hn|discriminate].
Qed.

Lemma full_ends fuel : forall n buf conn, (length buf + length (stream conn) < fuel)%nat ->
  exists r, read_full fuel n buf conn = Ret r.
Proof.
  induction fuel as [|fuel IH]; intros n buf conn L; [lia|]. cbn [read_full]. destruct (n <=? 0) eqn:E; [eexists; reflexivity|].
  destruct (bufio_read n buf conn) as [[[d| |] buf1] c1] eqn:R; try (eexists; reflexivity).
  assert (N : d <> []) by (eapply bufio_nonempty; [|exact R]; lia). apply bufio_stream in R.
  apply (f_equal (@length byte)) in R. rewrite !app_length in R.
  destruct (IH (n - Z.of_nat (length d)) buf1 c1) as [[[[e| |] buf2] c2] F];
    [destruct d; [contradiction|cbn [length] in R; lia]| | |]; rewrite F; eexists; reflexivity.
Qed.

Lemma read_ends conn : exists r, readTCPMessage conn = Ret r.
Proof.
  unfold readTCPMessage. destruct (full_ends (rounds [] conn) 4 [] conn) as [[[[len| |] buf] c1] R];
    [unfold rounds; cbn [length]; lia| | |]; rewrite R; cbn [obind]; try (eexists; reflexivity).
  destruct (full_ends (rounds buf c1) (be_val len) buf c1) as [[[[data| |] buf2] c2] R2];
    [unfold rounds; lia| | |]; rewrite R2; cbn [obind]; eexists; reflexivity.
Qed.

(** ** Dispatch *)
Section dispatch.
  Context {H : Type}.

  Definition add_all (adds : registrations H) (s : server H) : server H :=
    fold_left (fun s r => AddHandler s (fst (fst r)) (snd (fst r)) (snd r)) adds s.

  Lemma Zeqb_eq : forall a b, (a =? b) = true <-> a = b.
  Proof. exact Z.eqb_eq. Qed.

  Lemma handler_add (s : server H) a t h addr t' : s_start s = false -> aget bytes_eqb (s_handlers s) addr <> None ->
    handler_of (AddHandler s a t h) addr t' =
    if bytes_eqb a addr && (t =? t') then Some h else handler_of s addr t'.
  Proof.
    intros St L. unfold AddHandler. rewrite St. destruct (aget bytes_eqb (s_handlers s) a) as [m|] eqn:E.
    - unfold handler_of. cbn [s_handlers]. rewrite (aget_aset bytes_eqb bytes_eqb_eq).
      destruct (bytes_eqb a addr) eqn:B.
      + apply bytes_eqb_eq in B. subst a. rewrite E, (proj2 (bytes_eqb_eq addr addr) eq_refl).
        rewrite (aget_aset Z.eqb Zeqb_eq). cbn [andb]. rewrite (Z.eqb_sym t t'). reflexivity.
      + replace (bytes_eqb addr a) with false; [reflexivity|]. symmetry. apply not_true_iff_false. intros X.
        apply bytes_eqb_eq in X. subst. rewrite (proj2 (bytes_eqb_eq a a) eq_refl) in B. discriminate.
    - destruct (bytes_eqb a addr) eqn:B; [|reflexivity]. apply bytes_eqb_eq in B. subst. contradiction.
  Qed.

  Lemma listens_add (s : server H) a t h addr : aget bytes_eqb (s_handlers s) addr <> None ->
    aget bytes_eqb (s_handlers (AddHandler s a t h)) addr <> None.
  Proof.
    intros L. unfold AddHandler. destruct (s_start s); [exact L|]. destruct (aget bytes_eqb (s_handlers s) a); [|exact L].
    cbn [s_handlers]. rewrite (aget_aset bytes_eqb bytes_eqb_eq). destruct (bytes_eqb addr a); [discriminate|exact L].
  Qed.
  Lemma start_add (s : server H) a t h : s_start s = false -> s_start (AddHandler s a t h) = false.
  Proof. intros St. unfold AddHandler. rewrite St. destruct (aget _ _ _); [reflexivity|exact St]. Qed.

  Lemma handler_all adds : forall s addr t, s_start s = false -> aget bytes_eqb (s_handlers s) addr <> None ->
    handler_of (add_all adds s) addr t = match registered adds addr t with Some h => Some h | None => handler_of s addr t end.
  Proof.
    induction adds as [|[[a t'] h] adds IH]; intros s addr t St L; [reflexivity|].
    unfold add_all. cbn [fold_left fst snd]. change (handler_of (add_all adds (AddHandler s a t' h)) addr t = match registered ((a, t', h) :: adds) addr t with Some h => Some h | None => handler_of s addr t end).
    rewrite IH; [|apply start_add; exact St|apply listens_add; exact L]. cbn [registered].
    destruct (registered adds addr t); [reflexivity|]. rewrite handler_add by assumption.
    destruct (bytes_eqb a addr && (t' =? t)); reflexivity.
  Qed.

  Lemma unlisted_all adds : forall s addr, aget bytes_eqb (s_handlers s) addr = None ->
    aget bytes_eqb (s_handlers (add_all adds s)) addr = None.
  Proof.
    induction adds as [|[[a t'] h] adds IH]; intros s addr L; [exact L|]. unfold add_all. cbn [fold_left fst snd]. apply IH.
    unfold AddHandler. destruct (s_start s); [exact L|]. destruct (aget bytes_eqb (s_handlers s) a) eqn:E; [|exact L].
    cbn [s_handlers]. rewrite (aget_aset bytes_eqb bytes_eqb_eq). destruct (bytes_eqb addr a) eqn:B; [|exact L].
    apply bytes_eqb_eq in B. subst. congruence.
  Qed.

  Lemma new_lists addrs addr : aget bytes_eqb (s_handlers (@new_server H addrs)) addr = if existsb (bytes_eqb addr) addrs then Some [] else None.
  Proof.
    unfold new_server. cbn [s_handlers].
    assert (G : forall t, aget bytes_eqb (fold_left (fun t a => aset bytes_eqb t a ([] : list (Z * H))) addrs t) addr
                = if existsb (bytes_eqb addr) addrs then Some [] else aget bytes_eqb t addr).
    { induction addrs as [|a addrs IH]; intros t; [reflexivity|]. cbn [fold_left existsb]. rewrite IH, (aget_aset bytes_eqb bytes_eqb_eq).
      destruct (bytes_eqb addr a), (existsb (bytes_eqb addr) addrs); reflexivity. }
    apply G.
  Qed.

  Lemma started_all adds : forall s, s_start s = false -> s_start (add_all adds s) = false.
  Proof.
    induction adds as [|[[a t'] h] adds IH]; intros s St; [exact St|]. apply IH. apply start_add. exact St.
  Qed.

  Lemma running_pf addrs adds addr t :
    handler_of (@running H addrs adds) addr t = if existsb (bytes_eqb addr) addrs then registered adds addr t else None.
  Proof.
    unfold running. change (fold_left _ adds (new_server addrs)) with (add_all adds (new_server addrs)).
    unfold Start. rewrite started_all by reflexivity. cbn [snd].
    change (handler_of (Server true (s_handlers (add_all adds (new_server addrs)))) addr t) with (handler_of (add_all adds (new_server addrs)) addr t).
    pose proof (new_lists addrs addr) as L. destruct (existsb (bytes_eqb addr) addrs).
    - rewrite handler_all; [|reflexivity|rewrite L; discriminate]. destruct (registered adds addr t); [reflexivity|].
      unfold handler_of. rewrite L. reflexivity.
    - unfold handler_of. rewrite unlisted_all by exact L. reflexivity.
  Qed.

  Lemma running_late addrs adds addr t h : AddHandler (@running H addrs adds) addr t h = running addrs adds.
  Proof.
    unfold running. change (fold_left _ adds (new_server addrs)) with (add_all adds (new_server addrs)).
    unfold Start. rewrite started_all by reflexivity. reflexivity.
  Qed.
End dispatch.

(** The handlers the loop of an address is given. *)
Definition table_of {H} (s : server H) (addr : gostring) : list (Z * H) :=
  match aget bytes_eqb (s_handlers s) addr with Some m => m | None => [] end.
Lemma table_of_spec {H} (s : server H) addr t : aget Z.eqb (table_of s addr) t = handler_of s addr t.
Proof. unfold table_of, handler_of. destruct (aget bytes_eqb (s_handlers s) addr); reflexivity. Qed.

Lemma serve_pf St (tb : list (Z * p2p_handler St)) ms conn : arrives ms conn -> Forall sendable ms ->
  (forall t h, aget Z.eqb tb t = Some h -> answers_only h) ->
  forall es st fuel, concat es = [] -> (length conn < fuel)%nat ->
  serve St fuel tb st (map Data es ++ conn) = dispatched (aget Z.eqb tb) st ms.
Proof.
  intros A FS AO. revert FS.
  induction A as [|ms conn A IH|m cs ms conn C A IH]; intros FS es st fuel E L; (destruct fuel as [|fuel]; [lia|]); cbn [serve]; unfold serve_one.
  - rewrite read_empty by exact E. reflexivity.
  - rewrite read_empty by exact E. cbn [length] in L.
    change (readTCPMessage (Idle :: conn)) with (Ret (@Timeout (result message), conn)). cbn [obind].
    pose proof (IH FS [] st fuel eq_refl ltac:(lia)) as X. cbn [map app] in X. rewrite X. destruct (dispatched _ st ms) as [[s l]| |]; reflexivity.
  - rewrite read_empty by exact E. inversion_clear FS as [|? ? S1 S2].
    destruct (read_message m cs [] conn S1) as (lost & cs' & R & D & _); [rewrite app_nil_r; exact C|].
    rewrite R. cbn [obind]. symmetry in D. apply app_eq_nil in D. destruct D as [_ D].
    rewrite app_length, map_length in L.
    assert (length cs <> 0)%nat.
    { intros Z. destruct cs; [|discriminate]. apply (f_equal (@length byte)) in C. unfold sendTCPMessage in C.
      rewrite app_length, be_bytes_length in C. cbn in C. lia. }
    cbn [dispatched]. destruct (aget Z.eqb tb (m_type m)) as [h|] eqn:G.
    + rewrite (AO _ _ G). destruct (h st [] m) as [[[[st' c'] replies] ok]| |]; cbn [obind fst snd]; try reflexivity.
      destruct ok; [|reflexivity].
      rewrite (IH S2 cs' st' fuel D) by lia. destruct (dispatched _ st' ms) as [[s l]| |]; reflexivity.
    + cbn [obind]. rewrite (IH S2 cs' st fuel D) by lia. destruct (dispatched _ st ms) as [[s l]| |]; reflexivity.
Qed.
