(** * Properties of logging (C213, C214, C215) *)
From Coq Require Import String List ZArith Bool Lia.
From Verif Require Import Base BaseProofs Crypto ClientBuild Logging.
From Verif Require Admin.
Import ListNotations.
Open Scope Z_scope.

(** The levels, from the least severe one. *)
Definition severities : list gostring := [gs "trace"; gs "debug"; gs "info"; gs "warn"; gs "error"; gs "fatal"; gs "panic"].
(** The names in the comments of the gateway's and the provider's settings (settings.go L41). *)
Definition documented : list gostring := [gs "NONE"; gs "ERROR"; gs "WARN"; gs "INFO"; gs "TRACE"].
(** The number under which messages of the level with this place are written. *)
Definition number (place : nat) : Z := Z.of_nat place - 1.
(** The outcome of a call, without what was logged. *)
Definition quiet {A} (x : ended A) : outcome A := match x with Returned _ a => Ret a | _ => Panic end.
Definition logged_by {A} (x : ended A) : logger := match x with Returned l _ | Panicked l | Exited l => l end.
Definition made (generated : keypair * bool) : result keypair := if snd generated then OkR (fst generated) else ErrR.

Section properties.
  Variable other : gostring -> option Z.
  Variable mkdir : gostring -> bool.
  Local Notation Init := (Init other mkdir).
  Local Notation Init1 := (Init1 other mkdir).
  Local Notation ParseLevel := (ParseLevel other).

  Lemma severity_number place s : nth_error severities place = Some s -> ParseLevel s = Some (number place).
  Proof.
    unfold severities. do 7 (destruct place as [|place]; [cbn [nth_error]; intros [= <-]; vm_compute; reflexivity|]). cbn [nth_error]. destruct place; discriminate.
  Qed.
  Lemma severity_bound place s : nth_error severities place = Some s -> (place < 7)%nat.
  Proof. intros H. assert (X : nth_error severities place <> None) by congruence. apply nth_error_Some in X. exact X. Qed.

  Lemma write_level l z m : level (write l z m) = level l.
  Proof. unfold write. destruct (z <? level l); [reflexivity|]. destruct (goes_to l); reflexivity. Qed.
  Lemma init_level conf l : level (Init conf l) = match ParseLevel (conf (gs "LOG_LEVEL")) with Some z => z | None => 1 end.
  Proof.
    unfold Logging.Init. assert (S : level (setLogLevel other conf l) = match ParseLevel (conf (gs "LOG_LEVEL")) with Some z => z | None => 1 end) by (unfold setLogLevel; destruct (ParseLevel _); reflexivity).
    unfold getLogTarget, newLogTargetFile. destruct (bytes_eqb _ _); [destruct (mkdir _)|]; cbn [level]; rewrite ?write_level; exact S.
  Qed.
  Lemma init1_level s t l : level (Init1 s t l) = match ParseLevel s with Some z => z | None => 1 end.
  Proof. unfold Logging.Init1. rewrite init_level. assert (E : bytes_eqb (gs "LOG_LEVEL") (gs "LOG_LEVEL") = true) by (vm_compute; reflexivity). rewrite E. reflexivity. Qed.
  Lemma panics_at l m : quiet (LogPanic l m) = if 5 <? level l then Ret tt else Panic.
  Proof. unfold LogPanic. destruct (5 <? level l); reflexivity. Qed.

  Lemma panic_level s t l : (exists place, nth_error severities place = Some s) \/ s <> [] /\ ~ In s severities /\ other s = None -> level (Init1 s t l) <= 5.
  Proof.
    intros H. rewrite init1_level. destruct H as [(p & H)|(Ne & No & Hs)].
    - rewrite (severity_number _ _ H). apply severity_bound in H. unfold number. lia.
    - destruct (ParseLevel s) as [z|] eqn:E; [|lia]. unfold Logging.ParseLevel in E. destruct (aget bytes_eqb level_names s) as [y|] eqn:A; [|congruence].
      apply (aget_In bytes_eqb bytes_eqb_eq) in A. exfalso. unfold level_names in A. cbn [In] in A.
      destruct A as [A|[A|[A|[A|[A|[A|[A|[A|[]]]]]]]]]; apply (f_equal fst) in A; cbn [fst] in A; try (apply No; rewrite <- A; vm_compute; tauto). apply Ne. symmetry. exact A.
  Qed.

  (** ** C214 *)

  (** With a level in small letters, exactly the messages of this level and above are written, in the order logged, to the standard output or to the file. *)
  Theorem log_levels_partial : forall conf l place msgs, nth_error severities place = Some (conf (gs "LOG_LEVEL")) ->
    conf (gs "LOG_TARGET") <> gs "FILE" \/ mkdir (conf (gs "LOG_DIR")) = true ->
    let there := if bytes_eqb (conf (gs "LOG_TARGET")) (gs "FILE") then File (conf (gs "LOG_DIR")) (conf (gs "LOG_FILE")) else Stdout in
    lines (fold_left (fun l (m : nat * gostring) => write l (number (fst m)) (snd m)) msgs (Init conf l)) =
      lines l ++ map (fun m => (there, number (fst m), snd m)) (filter (fun m => Nat.leb place (fst m)) msgs).
  Proof.
    intros conf l place msgs P T there. pose proof (severity_number _ _ P) as N.
    assert (I : Init conf l = Logger (number place) there (lines l)).
    { unfold Logging.Init, setLogLevel. rewrite N. unfold getLogTarget, newLogTargetFile, there. destruct (bytes_eqb (conf (gs "LOG_TARGET")) (gs "FILE")) eqn:E; [|reflexivity].
      destruct T as [T|T]; [apply bytes_eqb_eq in E; contradiction|]. rewrite T. reflexivity. }
    rewrite I. assert (W : there <> Nowhere) by (unfold there; destruct (bytes_eqb _ _); discriminate). clearbody there. generalize (lines l) as ls. clear I.
    induction msgs as [|m msgs IH]; intros ls; cbn [fold_left filter map]; [rewrite app_nil_r; reflexivity|].
    assert (C : (number (fst m) <? number place) = negb (Nat.leb place (fst m))) by (unfold number; destruct (Nat.leb_spec place (fst m)), (Z.ltb_spec (Z.of_nat (fst m) - 1) (Z.of_nat place - 1)); try reflexivity; lia).
    unfold write at 2. cbn [level goes_to lines]. rewrite C. destruct (Nat.leb place (fst m)); cbn [negb map]; [|apply IH].
    destruct there eqn:Eth; [| |contradiction]; rewrite IH, <- app_assoc; reflexivity.
  Qed.

  (** Every documented name, unless read as a number, is taken for "info". *)
  Theorem documented_levels_refuted : forall conf l s, In s documented -> other s = None -> conf (gs "LOG_LEVEL") = s -> level (Init conf l) = number 2.
  Proof.
    intros conf l s I O E. rewrite init_level, E. unfold Logging.ParseLevel. rewrite O.
    destruct I as [<-|[<-|[<-|[<-|[<-|[]]]]]]; vm_compute; reflexivity.
  Qed.

  (** The libraries cannot log to a file: the directory is never set, and nothing that is logged is written, whatever the level. *)
  Theorem library_file_refuted : forall s l msgs, mkdir [] = false ->
    let l1 := Init1 s (gs "FILE") l in
    lines (fold_left (fun l (m : Z * gostring) => write l (fst m) (snd m)) msgs l1) = lines l1 /\ goes_to l1 = Nowhere.
  Proof.
    intros s l msgs M l1. assert (G : goes_to l1 = Nowhere).
    { unfold l1, Logging.Init1, Logging.Init, getLogTarget, newLogTargetFile.
      assert (E1 : bytes_eqb (gs "LOG_TARGET") (gs "LOG_LEVEL") = false) by (vm_compute; reflexivity). assert (E2 : bytes_eqb (gs "LOG_TARGET") (gs "LOG_TARGET") = true) by (vm_compute; reflexivity).
      assert (E3 : bytes_eqb (gs "FILE") (gs "FILE") = true) by (vm_compute; reflexivity). assert (E4 : bytes_eqb (gs "LOG_DIR") (gs "LOG_LEVEL") = false) by (vm_compute; reflexivity).
      assert (E5 : bytes_eqb (gs "LOG_DIR") (gs "LOG_TARGET") = false) by (vm_compute; reflexivity). rewrite E1, E2, E3, E4, E5, M. reflexivity. }
    split; [|exact G]. clearbody l1. revert l1 G. induction msgs as [|m msgs IH]; intros l1 G; [reflexivity|]. cbn [fold_left].
    assert (W : write l1 (fst m) (snd m) = l1) by (unfold write; rewrite G; destruct (_ <? _); reflexivity). rewrite W. apply IH, G.
  Qed.

  (** A level set later counts from then on, and a text that is no level changes nothing: the messages of the level and above are written, "info"
      counts as enabled up to its own level, and a fatal message ends the process, unless the level is above it. *)
  Theorem level_set_later : forall l s place msg, nth_error severities place = Some s ->
    let l1 := SetLogLevel other s l in
    InfoEnabled l1 = Nat.leb place 2 /\ lines l1 = lines l /\ goes_to l1 = goes_to l /\
    match Fatal l1 msg with Exited l2 => (place <= 5)%nat /\ l2 = write l1 (number 5) msg | Returned l2 _ => place = 6%nat /\ l2 = l1 | Panicked _ => False end.
  Proof.
    intros l s place msg P l1. assert (E : l1 = Logger (number place) (goes_to l) (lines l)) by (unfold l1, SetLogLevel; rewrite (severity_number _ _ P); reflexivity).
    pose proof (severity_bound _ _ P) as B. rewrite E. unfold InfoEnabled, Fatal, number. cbn [level lines goes_to].
    split; [destruct (Z.ltb_spec 1 (Z.of_nat place - 1)), (Nat.leb_spec place 2); try reflexivity; lia|]. split; [reflexivity|]. split; [reflexivity|].
    destruct (Z.ltb_spec 4 (Z.of_nat place - 1)); split; try reflexivity; lia.
  Qed.
  Theorem level_not_set : forall l s, s <> [] -> ~ In s severities -> other s = None ->
    level (SetLogLevel other s l) = level l /\ goes_to (SetLogLevel other s l) = goes_to l /\ level (Init1 s [] l) = number 2.
  Proof.
    intros l s Ne No O. assert (N : ParseLevel s = None).
    { unfold Logging.ParseLevel. destruct (aget bytes_eqb level_names s) as [y|] eqn:A; [|exact O]. apply (aget_In bytes_eqb bytes_eqb_eq) in A. exfalso. unfold level_names in A. cbn [In] in A.
      destruct A as [A|[A|[A|[A|[A|[A|[A|[A|[]]]]]]]]]; apply (f_equal fst) in A; cbn [fst] in A; try (apply No; rewrite <- A; vm_compute; tauto). apply Ne. symmetry. exact A. }
    unfold SetLogLevel. rewrite N, init1_level, N. split; [apply write_level|]. split; [|reflexivity].
    unfold write. destruct (_ <? _); [reflexivity|]. destruct (goes_to l) eqn:G; cbn [goes_to]; congruence.
  Qed.

  (** ** C213 *)

  (** Whatever the level that messages can have, or if the text is none, the libraries build the same settings or panic for the same reasons. *)
  Theorem build_any_level_partial : forall s t l b random generated, (exists place, nth_error severities place = Some s) \/ s <> [] /\ ~ In s severities /\ other s = None ->
    quiet (BuildLogged other mkdir l s t b random generated) = Build b random (made generated).
  Proof.
    intros s t l b random generated H. assert (L : level (Init1 s t l) <= 5) by (apply panic_level, H).
    unfold BuildLogged, Build, made. set (l1 := Init1 s t l) in *. clearbody l1.
    destruct (cb_chain b) as [ch|]; cbn [andthen].
    - destruct (cb_key b) as [k|]; cbn [andthen]; [reflexivity|]. destruct (snd generated); cbn [andthen quiet obind fst snd]; [reflexivity|].
      unfold LogPanic. rewrite write_level. destruct (Z.ltb_spec 5 (level l1)); [lia|]. reflexivity.
    - unfold LogPanic. destruct (Z.ltb_spec 5 (level l1)); [lia|]. reflexivity.
  Qed.
  Theorem admin_build_any_level_partial : forall s t l b generated, (exists place, nth_error severities place = Some s) \/ s <> [] /\ ~ In s severities /\ other s = None ->
    quiet (AdminBuildLogged other mkdir l s t b generated) = Admin.Build b (made generated).
  Proof.
    intros s t l b generated H. assert (L : level (Init1 s t l) <= 5) by (apply panic_level, H).
    unfold AdminBuildLogged, Admin.Build, made. set (l1 := Init1 s t l) in *. clearbody l1.
    destruct (Admin.b_chain b) as [ch|]; cbn [andthen].
    - destruct (Admin.b_key b) as [k|]; cbn [andthen]; [reflexivity|]. destruct (snd generated); cbn [andthen quiet fst snd]; [reflexivity|].
      unfold LogPanic. destruct (Z.ltb_spec 5 (level l1)); [lia|]. reflexivity.
    - unfold LogPanic. destruct (Z.ltb_spec 5 (level l1)); [lia|]. reflexivity.
  Qed.

  (** With an empty level nothing panics: settings without a blockchain key, and with a key that could not be made, are built without a word. *)
  Theorem build_silent_refuted : forall t l b random generated, exists l' s, BuildLogged other mkdir l [] t b random generated = Returned l' s /\
    cs_chain s = cb_chain b /\ (cb_key b = None -> cs_key s = Some (fst generated)) /\ lines l' = lines (Init1 [] t l) /\
    (cb_chain b = None -> Build b random (made generated) = Panic).
  Proof.
    intros t l b random generated. unfold BuildLogged, LogPanic. assert (L : level (Init1 [] t l) = 6) by (rewrite init1_level; vm_compute; reflexivity). set (l1 := Init1 [] t l) in *. clearbody l1.
    assert (W : write l1 1 (gs "Settings: No Client ID set. Generating random client ID") = l1) by (unfold write; rewrite L; reflexivity).
    rewrite L. change (5 <? 6) with true. unfold Build.
    destruct (cb_chain b) as [ch|]; cbn [andthen]; rewrite W, ?L; (destruct (cb_key b) as [k|]; cbn [andthen]; [|destruct (snd generated); change (5 <? 6) with true; cbn [andthen]]);
      eexists _, _; (split; [reflexivity|]); cbn [cs_chain cs_key fst snd]; repeat split; intros; congruence.
  Qed.

  (** ** C215 *)

  (** Once a call with one set of settings comes first, every call gives the instance made of them, whatever is passed and logged. *)
  Theorem single_instance_partial : forall S (l : logger) (s : S) calls, map quiet (get_all l (Once false None) ([s] :: calls)) = repeat (Ret (Some s)) (length ([s] :: calls)).
  Proof.
    intros S l s calls. cbn [get_all GetSingleInstance did andthen map quiet length repeat]. f_equal. generalize l as l0.
    induction calls as [|c t IH]; intros l0; [reflexivity|]. cbn [get_all GetSingleInstance did instance map quiet length repeat]. f_equal. apply IH.
  Qed.
  (** After a first call without settings, which panics at any level, all calls give nil, also with settings. *)
  Theorem single_instance_refuted : forall S (l : logger) calls, map quiet (get_all (S := S) l (Once false None) ([] :: calls)) = Panic :: repeat (Ret None) (length calls).
  Proof.
    intros S l calls. cbn [get_all]. destruct (GetSingleInstance l (@Once S false None) []) as [x o] eqn:E.
    assert (X : quiet x = Panic /\ o = Once true None).
    { unfold GetSingleInstance, LogPanic in E. cbn [did] in E. destruct (5 <? level l) eqn:B; cbn [andthen] in E; rewrite ?B in E; cbn [andthen] in E; injection E as <- <-; split; reflexivity. }
    destruct X as (X & ->). cbn [map]. rewrite X. f_equal. generalize (match x with Returned l _ | Panicked l | Exited l => l end) as l0.
    induction calls as [|c t IH]; intros l0; [reflexivity|]. cbn [get_all GetSingleInstance did instance map quiet length repeat]. f_equal. apply IH.
  Qed.
  (** Two sets of settings: refused at the levels of messages, and the first one taken above them. *)
  Theorem two_settings : forall S (l : logger) (s s' : S) more, quiet (fst (GetSingleInstance l (Once false None) (s :: s' :: more))) = if 5 <? level l then Ret (Some s) else Panic.
  Proof. intros S l s s' more. unfold GetSingleInstance, LogPanic. cbn [did andthen]. destruct (5 <? level l); reflexivity. Qed.
End properties.
Print Assumptions log_levels_partial.
Print Assumptions documented_levels_refuted.
Print Assumptions library_file_refuted.
Print Assumptions level_set_later.
Print Assumptions level_not_set.
Print Assumptions build_any_level_partial.
Print Assumptions admin_build_any_level_partial.
Print Assumptions build_silent_refuted.
Print Assumptions single_instance_partial.
Print Assumptions single_instance_refuted.
Print Assumptions two_settings.

(** ** Some settings *)
Definition no_other (_ : gostring) : option Z := None.
Definition dirs (d : gostring) : bool := negb (bytes_eqb d []).
Definition conf_of (l : list (gostring * gostring)) (k : gostring) : gostring := match aget bytes_eqb l k with Some v => v | None => [] end.
Definition fresh : logger := Logger (-1) Stdout [].
Definition some_key : keypair := KeyPair None (Some (repeat Byte.x05 32)) Byte.x01.
Example log_levels_ex :
  lines (fold_left (fun l (m : nat * gostring) => write l (number (fst m)) (snd m)) [(1%nat, gs "a"); (4%nat, gs "b"); (3%nat, gs "c")]
    (Init no_other dirs (conf_of [(gs "LOG_LEVEL", gs "warn"); (gs "LOG_TARGET", gs "FILE"); (gs "LOG_DIR", gs "/var/log"); (gs "LOG_FILE", gs "g.log")]) fresh)) =
    [(File (gs "/var/log") (gs "g.log"), 3, gs "b"); (File (gs "/var/log") (gs "g.log"), 2, gs "c")] /\
  lines (write (Init no_other dirs (conf_of [(gs "LOG_LEVEL", gs "NONE")]) fresh) 1 (gs "d")) =
    [(Stdout, 3, gs "can't parse log level"); (Stdout, 2, gs "using level 'info' as default"); (Stdout, 1, gs "d")] /\
  level (Init no_other dirs (conf_of [(gs "LOG_LEVEL", gs "TRACE")]) fresh) = 1 /\ level (SetLogLevel no_other (gs "TRACE") fresh) = -1 /\ InfoEnabled (SetLogLevel no_other (gs "warn") fresh) = false.
Proof. vm_compute. repeat split; reflexivity. Qed.
Example library_file_ex : lines (write (Init1 no_other dirs (gs "trace") (gs "FILE") fresh) 5 (gs "lost")) = [(Stdout, 3, gs "can't create log directory")].
Proof. vm_compute. reflexivity. Qed.
Example build_logged_ex : quiet (BuildLogged no_other dirs fresh (gs "ERROR") (gs "STDOUT") CreateSettings [] (some_key, true)) = Panic /\
  lines (logged_by (BuildLogged no_other dirs fresh (gs "panic") (gs "STDOUT") CreateSettings [] (some_key, true))) = [(Stdout, 5, gs "Settings: Blockchain Private Key not set")] /\
  match BuildLogged no_other dirs fresh [] (gs "STDOUT") CreateSettings [] (some_key, false) with Returned l s => cs_chain s = None /\ cs_key s = Some some_key /\ lines l = [] | _ => False end /\
  quiet (AdminBuildLogged no_other dirs fresh (gs "debug") [] (Admin.SetBlockchainPrivateKey Admin.CreateGatewaySettings (Some some_key)) (some_key, true)) =
    Ret (Admin.Settings 0 [] (Some some_key) (Some some_key) (Some 1)).
Proof. vm_compute. repeat split; reflexivity. Qed.
Example fatal_ex : Fatal fresh (gs "x") = Exited (Logger (-1) Stdout [(Stdout, 4, gs "x")]) /\ Fatal (Logger 5 Stdout []) (gs "x") = Returned (Logger 5 Stdout []) tt.
Proof. vm_compute. split; reflexivity. Qed.
Example single_instance_ex : map quiet (get_all fresh (Once false None) [[7; 8]; [7]; []]) = [Panic; Ret None; Ret None] /\
  map quiet (get_all (Logger 6 Stdout []) (Once false None) [[7; 8]; [9]; []]) = [Ret (Some 7); Ret (Some 7); Ret (Some 7)].
Proof. vm_compute. split; reflexivity. Qed.
