(** * C221 and C222: the programs that check the versions of modules *)
From Coq Require Import String List ZArith Bool Lia.
From Coq Require Import Init.Byte.
From Verif Require Import Base BaseProofs OfferProofs ModuleCheck ModuleCheckSpec.
Import ListNotations.
Open Scope Z_scope.

(** ** Patterns and parts *)
Lemma eqb_iff a b : Byte.eqb a b = true <-> a = b.
Proof. apply byte_eqb_eq. Qed.
Lemma fits_iff : forall re s, fits re s = true <-> exists m b, s = m ++ b /\ Forall2 agrees re m.
Proof.
  induction re as [|p re IH]; intros s; cbn [fits].
  - split; [|reflexivity]. intros _. exists [], s. split; [reflexivity|constructor].
  - destruct s as [|a s]; [split; [discriminate|]|].
    + intros (m & b & E & F). inversion F; subst. discriminate.
    + rewrite andb_true_iff, IH. split.
      * intros [X (m & b & -> & F)]. exists (a :: m), b. split; [reflexivity|]. constructor; [|exact F]. destruct (Byte.eqb p x2e) eqn:E.
        -- left. apply eqb_iff in E. split; [exact E|]. intros ->. discriminate.
        -- right. apply eqb_iff in X. split; [|exact X]. intros ->. discriminate.
      * intros (m & b & E & F). inversion F as [|p' a' re' m' A F' E1 E2]; subst. cbn [app] in E. injection E as -> ->. split; [|eauto].
        destruct A as [[-> N]|[N ->]].
        -- cbn. destruct (Byte.eqb a' x0a) eqn:X; [apply eqb_iff in X; congruence|reflexivity].
        -- destruct (Byte.eqb a' x2e) eqn:X; [apply eqb_iff in X; congruence|apply eqb_iff; reflexivity].
Qed.
Lemma occurs_iff re : forall s, occurs re s = true <-> found_in re s.
Proof.
  induction s as [|a s IH]; cbn [occurs]; rewrite orb_true_iff, fits_iff.
  - split.
    + intros [(m & b & E & F)|X]; [|discriminate]. exists [], m, b. auto.
    + intros (x & m & b & E & F). left. exists m, b. destruct x; [auto|discriminate].
  - rewrite IH. split.
    + intros [(m & b & E & F)|(x & m & b & -> & F)]; [exists [], m, b; auto|exists (a :: x), m, b; auto].
    + intros (x & m & b & E & F). destruct x as [|a' x]; [left; exists m, b; auto|]. injection E as -> ->. right. exists x, m, b. auto.
Qed.
Lemma split_parts sep : forall s cur, ~ In sep cur -> after_last sep (rev cur ++ s) (last (split_on sep cur s) []).
Proof.
  induction s as [|a s IH]; intros cur N; cbn [split_on].
  - rewrite app_nil_r. cbn [last]. split; [intros I; apply N, in_rev, I|left; reflexivity].
  - destruct (Byte.eqb a sep) eqn:E.
    + apply eqb_iff in E. subst a. assert (L : forall x, last (rev cur :: split_on sep [] s) x = last (split_on sep [] s) x).
      { intros x. destruct (split_on sep [] s) eqn:Es; [|reflexivity]. exfalso. destruct s as [|b s]; cbn in Es; [discriminate|destruct (Byte.eqb b sep)]; [discriminate|].
        clear -Es. revert Es. generalize [b]. induction s as [|c s IH]; intros l Es; cbn in Es; [discriminate|]. destruct (Byte.eqb c sep); [discriminate|]. exact (IH _ Es). }
      rewrite L. destruct (IH [] (fun x => x)) as [A [B|(x & B)]]; cbn [rev app] in B.
      * split; [exact A|]. right. exists (rev cur). rewrite <- B. reflexivity.
      * split; [exact A|]. right. exists (rev cur ++ sep :: x). rewrite <- app_assoc. cbn [app]. rewrite <- B. reflexivity.
    + assert (N' : ~ In sep (a :: cur)). { intros [->|I]; [|exact (N I)]. rewrite (proj2 (eqb_iff sep sep) eq_refl) in E. discriminate. }
      destruct (IH (a :: cur) N') as [A B]. split; [exact A|]. cbn [rev] in B. rewrite <- app_assoc in B. exact B.
Qed.

(** ** C221 *)

(** The name of the repository is what follows the last slash of the path, and the version searched for is what follows
    the last dash of the version. *)
Theorem parts_exact : forall pkg, after_last x2f (q_path pkg) (repo_of pkg) /\ after_last x2d (q_version pkg) (version_of pkg).
Proof. intros pkg. split; exact (split_parts _ _ [] (fun x => x)). Qed.

Section properties.
  Variable compile : gostring -> outcome (gostring -> bool).
  Variable branches : gostring -> option (list branch).
  Variable commits : gostring -> gostring -> option (list commit).
  Local Notation main_branches := (main_branches compile commits).
  Local Notation main_packages := (main_packages compile branches commits).
  Local Notation check_main := (check_main_modules compile branches commits).
  Local Notation check_all := (check_modules compile branches commits).
  Local Notation holds := (holds commits).
  Local Notation answered := (answered branches commits).
  Local Notation reported := (reported branches commits).

  Lemma find_exact version : plain version = true -> forall l, exists r, findInBranch compile version l = Ret r /\
    match r with
    | None => forall c, In c l -> ~ found_in version (k_sha c)
    | Some c => exists before after, l = before ++ c :: after /\ (forall c', In c' before -> ~ found_in version (k_sha c')) /\ found_in version (k_sha c)
    end.
  Proof using.
    intros P. induction l as [|c t IH]; cbn [findInBranch]; [exists None; split; [reflexivity|intros c []]|].
    unfold MustCompile. rewrite P. cbn [obind]. destruct (occurs version (k_sha c)) eqn:O.
    - exists (Some c). split; [reflexivity|]. exists [], t. split; [reflexivity|]. split; [intros c' []|]. apply occurs_iff, O.
    - assert (N : ~ found_in version (k_sha c)) by (intros F; apply occurs_iff in F; congruence).
      destruct IH as (r & -> & H). exists r. split; [reflexivity|]. destruct r as [c'|].
      + destruct H as (b & a & -> & H1 & H2). exists (c :: b), a. split; [reflexivity|]. split; [|exact H2]. intros x [<-|I]; [exact N|apply H1, I].
      + intros x [<-|I]; [exact N|apply H, I].
  Qed.

  Lemma main_branches_exact pkg : plain (version_of pkg) = true -> forall bs, (forall b, In b bs -> commits (repo_of pkg) (b_sha b) <> None) ->
    exists out k, main_branches (repo_of pkg) (version_of pkg) bs = Ret (out, Some k) /\ ~ In AllOnMain out /\
      (k = O <-> forall b, In b bs -> b_name b = gs "main" -> holds pkg b).
  Proof using.
    intros P. induction bs as [|b t IH]; intros A; cbn [ModuleCheck.main_branches].
    - exists [], O. split; [reflexivity|]. split; [intros []|]. split; [intros _ b []|reflexivity].
    - destruct IH as (out & k & E & N & K); [intros b' I; apply A; right; exact I|].
      destruct (bytes_eqb (b_name b) (gs "main")) eqn:B.
      + apply bytes_eqb_eq in B. destruct (commits (repo_of pkg) (b_sha b)) as [cs|] eqn:C; [|destruct (A b (or_introl eq_refl) C)].
        destruct (find_exact (version_of pkg) P cs) as (r & -> & F). cbn [obind]. rewrite E. cbn [obind fst snd option_map]. destruct r as [c|].
        * destruct F as (x & y & -> & _ & F). exists (MainFound (repo_of pkg) :: out), k. split; [reflexivity|]. split; [intros [X|X]; [discriminate|exact (N X)]|]. rewrite K. split.
          -- intros H b' [<-|I] M; [|apply H; assumption]. exists (x ++ c :: y), c. split; [exact C|]. split; [apply in_elt|exact F].
          -- intros H b' I M. apply H; [right; exact I|exact M].
        * exists (MainMissing (repo_of pkg) :: out), (S k). split; [reflexivity|]. split; [intros [X|X]; [discriminate|exact (N X)]|]. split; [discriminate|].
          intros H. destruct (H b (or_introl eq_refl) B) as (cs' & c & C' & I & G). rewrite C in C'. injection C' as <-. destruct (F c I G).
      + exists out, k. split; [exact E|]. split; [exact N|]. rewrite K. split.
        * intros H b' [<-|I] M; [|apply H; assumption]. rewrite M, (proj2 (bytes_eqb_eq _ _) eq_refl) in B. discriminate.
        * intros H b' I M. apply H; [right; exact I|exact M].
  Qed.

  Definition main_ok (pkg : require) : Prop := forall bs b, branches (repo_of pkg) = Some bs -> In b bs -> b_name b = gs "main" -> holds pkg b.

  Lemma main_packages_exact : forall l, readable l -> answered l -> exists out k, main_packages l = Ret (out, Some k) /\ ~ In AllOnMain out /\
    (k = O <-> forall pkg, In pkg l -> owned pkg = true -> main_ok pkg).
  Proof using.
    induction l as [|pkg t IH]; intros R A; cbn [ModuleCheck.main_packages].
    - exists [], O. split; [reflexivity|]. split; [intros []|]. split; [intros _ pkg []|reflexivity].
    - destruct IH as (out & k & E & N & K); [intros p I; apply R; right; exact I|intros p I; apply A; right; exact I|].
      destruct (owned pkg) eqn:O; cbn [negb].
      + destruct (A pkg (or_introl eq_refl) O) as (bs & Eb & C). rewrite Eb.
        destruct (main_branches_exact pkg (R pkg (or_introl eq_refl) O) bs C) as (out1 & k1 & E1 & N1 & K1). rewrite E1. cbn [obind fst snd]. rewrite E. cbn [obind fst snd option_map].
        exists (out1 ++ out), (k1 + k)%nat. split; [reflexivity|]. split; [intros I; apply in_app_or in I; tauto|]. split.
        * intros Z p [<-|I] Op; [|apply K; [lia|exact I|exact Op]]. intros bs' b Eb'. rewrite Eb in Eb'. injection Eb' as <-. apply K1. lia.
        * intros H. assert (k = 0%nat) by (apply K; intros p I; apply H; right; exact I). assert (k1 = 0%nat) by (apply K1; intros b I M; exact (H pkg (or_introl eq_refl) O bs b Eb I M)). lia.
      + rewrite E. cbn [obind fst snd]. exists (Skipped (q_path pkg) :: out), k. split; [reflexivity|]. split; [intros [X|X]; [discriminate|exact (N X)]|]. rewrite K. split.
        * intros H p [<-|I] Op; [congruence|apply H; assumption].
        * intros H p I Op. apply H; [right; exact I|exact Op].
  Qed.

  (** The program says that all packages are on branch main, and ends with code 0, exactly if every branch called
      main that GitHub lists for a package of the owner holds the commit of the package.  Full claim: there is
      such a branch. *)
  Theorem main_check_partial : forall l, readable l -> answered l -> exists out code, check_main l = Ret (out, code) /\ (code = 0 \/ code = 1) /\
    (In AllOnMain out <-> code = 0) /\ (code = 0 <-> forall pkg, In pkg l -> owned pkg = true -> main_ok pkg).
  Proof using.
    intros l R A. destruct (main_packages_exact l R A) as (out & k & E & N & K). unfold check_main_modules. rewrite E. cbn [obind fst snd]. destruct k as [|k].
    - exists (out ++ [AllOnMain]), 0. split; [reflexivity|]. split; [auto|]. split; [split; [reflexivity|intros _; apply in_or_app; right; left; reflexivity]|]. split; [intros _; apply K; reflexivity|reflexivity].
    - exists (out ++ [NotOnMain (S k)]), 1. split; [reflexivity|]. split; [auto|]. split.
      + split; [|discriminate]. intros I. apply in_app_or in I. destruct I as [I|[I|[]]]; [destruct (N I)|discriminate].
      + split; [discriminate|]. intros H. apply K in H. discriminate.
  Qed.

  (** Without a branch of this name, whatever the versions: the program says that all packages are on it. *)
  Theorem main_check_refuted : forall l,
    (forall pkg, In pkg l -> owned pkg = true -> exists bs, branches (repo_of pkg) = Some bs /\ forall b, In b bs -> b_name b <> gs "main") ->
    exists out, check_main l = Ret (out ++ [AllOnMain], 0) /\ forall x, In x out -> exists path, x = Skipped path.
  Proof using.
    assert (None_ : forall repo version bs, (forall b, In b bs -> b_name b <> gs "main") -> main_branches repo version bs = Ret ([], Some O)).
    { intros repo version. induction bs as [|b t IH]; intros H; cbn [ModuleCheck.main_branches]; [reflexivity|].
      destruct (bytes_eqb (b_name b) (gs "main")) eqn:B; [apply bytes_eqb_eq in B; destruct (H b (or_introl eq_refl) B)|]. apply IH. intros b' I. apply H. right. exact I. }
    intros l H. assert (P : exists out, main_packages l = Ret (out, Some O) /\ forall x, In x out -> exists path, x = Skipped path).
    { induction l as [|pkg t IH]; cbn [ModuleCheck.main_packages]; [exists []; split; [reflexivity|intros x []]|].
      destruct IH as (out & E & F); [intros p I; apply H; right; exact I|]. destruct (owned pkg) eqn:O; cbn [negb].
      - destruct (H pkg (or_introl eq_refl) O) as (bs & Eb & N). rewrite Eb, (None_ _ _ _ N). cbn [obind fst snd]. rewrite E. cbn [obind fst snd option_map app]. exists out. auto.
      - rewrite E. cbn [obind fst snd]. eexists. split; [reflexivity|]. intros x [<-|I]; [eauto|apply F, I]. }
    destruct P as (out & E & F). exists out. unfold check_main_modules. rewrite E. split; [reflexivity|exact F].
  Qed.

  (** A package required by a release: no commit has a name in which the version occurs, so the program ends with
      code 1 although the release may well be on branch main. *)
  Theorem main_release_refuted : forall l pkg bs b cs rest, readable l -> answered l -> In pkg l -> owned pkg = true -> q_version pkg = x76 :: rest -> ~ In x2d rest ->
    branches (repo_of pkg) = Some bs -> In b bs -> b_name b = gs "main" -> commits (repo_of pkg) (b_sha b) = Some cs ->
    (forall c, In c cs -> ~ In x76 (k_sha c)) -> exists out, check_main l = Ret (out, 1).
  Proof using.
    intros l pkg bs b cs rest R A I O V D Eb Ib M C Hx. destruct (main_check_partial l R A) as (out & code & E & [Z0 | Z0] & _ & K); [|subst code; eauto]. exfalso. subst code.
    destruct (proj1 K eq_refl pkg I O bs b Eb Ib M) as (cs' & c & C' & Ic & (x & m & y & Es & F)). rewrite C in C'. injection C' as <-.
    assert (Ev : version_of pkg = x76 :: rest).
    { destruct (parts_exact pkg) as [_ [N [E1|(a & E1)]]]; [rewrite <- E1; exact V|]. exfalso. rewrite V in E1. destruct a as [|a0 a]; [discriminate|]. injection E1 as _ E1. apply D. rewrite E1. apply in_elt. }
    rewrite Ev in F. inversion F as [|p a' re' m' Ag F' E1 E2]; subst. destruct Ag as [[X _]|[_ <-]]; [discriminate|].
    apply (Hx c Ic). rewrite Es. apply in_or_app. right. left. reflexivity.
  Qed.

  (** ** C222 *)
  Lemma branches_exact pkg : plain (version_of pkg) = true -> forall bs, (forall b, In b bs -> commits (repo_of pkg) (b_sha b) <> None) ->
    exists r, findInBranches compile commits (repo_of pkg) (version_of pkg) bs = Ret (Some r) /\
    match r with
    | None => forall b, In b bs -> ~ holds pkg b
    | Some (b, c) => exists pre post before after, bs = pre ++ b :: post /\ (forall b', In b' pre -> ~ holds pkg b') /\
        commits (repo_of pkg) (b_sha b) = Some (before ++ c :: after) /\ (forall c', In c' before -> ~ found_in (version_of pkg) (k_sha c')) /\ found_in (version_of pkg) (k_sha c)
    end.
  Proof using.
    intros P. induction bs as [|b t IH]; intros A; cbn [findInBranches]; [exists None; split; [reflexivity|intros b []]|].
    destruct (commits (repo_of pkg) (b_sha b)) as [cs|] eqn:C; [|destruct (A b (or_introl eq_refl) C)].
    destruct (find_exact (version_of pkg) P cs) as (r & -> & F). cbn [obind]. destruct r as [c|].
    - destruct F as (x & y & -> & F1 & F2). exists (Some (b, c)). split; [reflexivity|]. exists [], t, x, y. split; [reflexivity|]. split; [intros b' []|auto].
    - assert (N : ~ holds pkg b) by (intros (cs' & c & C' & I & G); rewrite C in C'; injection C' as <-; exact (F c I G)).
      destruct IH as (r & -> & H); [intros b' I; apply A; right; exact I|]. exists r. split; [reflexivity|]. destruct r as [[b' c]|].
      + destruct H as (pre & post & x & y & -> & H1 & H2). exists (b :: pre), post, x, y. split; [reflexivity|]. split; [intros z [<-|I]; [exact N|apply H1, I]|exact H2].
      + intros z [<-|I]; [exact N|apply H, I].
  Qed.

  (** For each package the first branch listed that holds its commit is printed with this commit, and that there
      is none exactly if there is none. *)
  Theorem modules_reported : forall l, readable l -> answered l -> exists parts, check_all l = Ret (concat parts, 0) /\ Forall2 reported l parts.
  Proof using.
    induction l as [|pkg t IH]; intros R A; cbn [check_modules]; [exists []; split; [reflexivity|constructor]|].
    destruct IH as (parts & E & F); [intros p I; apply R; right; exact I|intros p I; apply A; right; exact I|].
    destruct (owned pkg) eqn:O; cbn [negb].
    - destruct (A pkg (or_introl eq_refl) O) as (bs & Eb & C). rewrite Eb.
      destruct (branches_exact pkg (R pkg (or_introl eq_refl) O) bs C) as (r & -> & H). cbn [obind]. rewrite E. cbn [obind fst snd].
      eexists ([_; _] :: parts). split; [reflexivity|]. constructor; [|exact F]. right. split; [exact O|]. exists bs. eexists. split; [exact Eb|]. split; [reflexivity|].
      destruct r as [[b c]|]; [right|left; split; [reflexivity|exact H]].
      destruct H as (pre & post & x & y & H1 & H2 & H3 & H4 & H5). exists pre, b, post, x, c, y. auto 8.
    - rewrite E. cbn [obind fst snd]. exists ([Skipped (q_path pkg)] :: parts). split; [reflexivity|]. constructor; [|exact F]. left. auto.
  Qed.
End properties.
Print Assumptions parts_exact.
Print Assumptions main_check_partial.
Print Assumptions main_check_refuted.
Print Assumptions main_release_refuted.
Print Assumptions modules_reported.

(** ** Modules of this project *)
Definition common : require := Require_ (gs "github.com/ConsenSys/fc-retrieval-common") (gs "v0.0.0-20210416040512-a1b2c3d4e5f6").
Definition released : require := Require_ (gs "github.com/ConsenSys/fc-retrieval-common") (gs "v1.0.0").
Definition lotus : require := Require_ (gs "github.com/filecoin-project/lotus") (gs "v1.9.0").
Definition on_main : commit := Commit (gs "a1b2c3d4e5f60718293a4b5c6d7e8f9012345678") (gs "A") (gs "2021").
Definition older : commit := Commit (gs "ffffffffffffffffffffffffffffffffffffffff") (gs "B") (gs "2020").
Definition hub (main : gostring) (repo : gostring) : option (list branch) := Some [Branch (gs "dev") (gs "d") false false; Branch main (gs "m") false true].
Definition log_of (repo sha : gostring) : option (list commit) := if bytes_eqb sha (gs "m") then Some [older; on_main] else Some [older].
Definition none (re : gostring) : outcome (gostring -> bool) := Panic.
Definition t_main (main : gostring) := check_main_modules none (hub main) log_of.

Example module_parts : (repo_of common, version_of common, version_of released) = (gs "fc-retrieval-common", gs "a1b2c3d4e5f6", gs "v1.0.0").
Proof. reflexivity. Qed.
Example main_ex : t_main (gs "main") [lotus; common] = Ret ([Skipped (q_path lotus); MainFound (gs "fc-retrieval-common"); AllOnMain], 0) /\
  t_main (gs "main") [released] = Ret ([MainMissing (gs "fc-retrieval-common"); NotOnMain 1], 1) /\
  t_main (gs "master") [lotus; released] = Ret ([Skipped (q_path lotus); AllOnMain], 0).
Proof. vm_compute. repeat split. Qed.
Example modules_ex : check_modules none (hub (gs "main")) log_of [lotus; common; released] =
  Ret ([Skipped (q_path lotus); Package (gs "fc-retrieval-common") (gs "a1b2c3d4e5f6");
        OnBranch (gs "main") (gs "A") (gs "2021") (gs "https://github.com/ConsenSys/fc-retrieval-common/tree/a1b2c3d4e5f60718293a4b5c6d7e8f9012345678");
        Package (gs "fc-retrieval-common") (gs "v1.0.0"); NoBranch], 0).
Proof. vm_compute. reflexivity. Qed.
Example modules_hypotheses : readable [lotus; common; released] /\ answered (hub (gs "main")) log_of [lotus; common; released].
Proof.
  split.
  - intros pkg [<-|[<-|[<-|[]]]] _; reflexivity.
  - intros pkg _ _. eexists. split; [reflexivity|]. intros b _. unfold log_of. destruct (bytes_eqb (b_sha b) (gs "m")); discriminate.
Qed.

(** The commit shown need not be the one required: its name only contains the version somewhere. *)
Theorem modules_commit_refuted : exists pkg bs b c url, owned pkg = true /\ hub (gs "main") (repo_of pkg) = Some bs /\ In b bs /\ In (OnBranch (b_name b) (k_author c) (k_date c) url)
    (match check_modules none (hub (gs "main")) log_of [pkg] with Ret (out, _) => out | _ => [] end) /\
  log_of (repo_of pkg) (b_sha b) = Some [older; c] /\ firstn (length (version_of pkg)) (k_sha c) <> version_of pkg.
Proof.
  exists (Require_ (gs "github.com/ConsenSys/fc-retrieval-common") (gs "v0.0.0-20210416040512-0718293a4b5c")), [Branch (gs "dev") (gs "d") false false; Branch (gs "main") (gs "m") false true],
    (Branch (gs "main") (gs "m") false true), on_main. eexists.
  split; [vm_compute; reflexivity|]. split; [reflexivity|]. split; [right; left; reflexivity|]. split; [vm_compute; right; left; reflexivity|]. split; [reflexivity|vm_compute; discriminate].
Qed.
Print Assumptions modules_commit_refuted.
