(** * Properties of the program that makes environment files (C162, C163, C200) *)
From Coq Require Import String List ZArith Bool Lia Sorting.Permutation.
From Coq Require Import Init.Byte.
From Verif Require Import Base BaseProofs EnvFile EnvFileSpec EnvFileProofs.
Import ListNotations.
Open Scope Z_scope.

(** ** C162: with leave to overwrite, the file says afterwards what the source says *)

(** Full claim: after a run that may overwrite, the destination says what the source says.  It holds if no value contains the
    separator and no remark does. *)
Theorem env_synced_partial : forall s es d ed, (forall l, In l s -> plain l) -> (forall l, In l d -> plain l) ->
  exists t et, Main (Some (file_text es s)) (Some (file_text ed d)) true = OkR (Some (file_text et t)) /\ Permutation (says t) (says s) /\
    (t = s /\ et = es \/ t = d /\ et = ed).
Proof.
  intros s es d ed Ps Pd. unfold Main, CheckEnv. rewrite (parse_file s Ps es), (parse_file d Pd ed).
  destruct (GetConfigDiff (says s) (says d)) as [[[f ne] nf] l] eqn:G. unfold MakeEnv. cbn [DestExists NotEquals SourceNotFound DestNotFound negb].
  destruct ne; [|exists s, es; split; [reflexivity|]; split; [reflexivity|left; split; reflexivity]].
  destruct nf; [|exists s, es; split; [reflexivity|]; split; [reflexivity|left; split; reflexivity]].
  destruct l; [|exists s, es; split; [reflexivity|]; split; [reflexivity|left; split; reflexivity]].
  exists d, ed. split; [reflexivity|]. split; [symmetry; eapply no_diff; [exact G|reflexivity]|right; split; reflexivity].
Qed.

(** Without a destination the source is copied; without leave to overwrite an existing destination stays. *)
Theorem env_copied : forall s overwrite r, Main (Some s) None overwrite = OkR r -> r = Some s.
Proof. intros s overwrite r H. unfold Main, CheckEnv in H. destruct (ParseConfig s); [|discriminate]. injection H as <-. reflexivity. Qed.
Theorem env_kept : forall s d r, Main s (Some d) false = OkR r -> r = Some d.
Proof.
  intros s d r H. unfold Main, CheckEnv in H. destruct s as [s|]; [|discriminate]. destruct (ParseConfig s); [|discriminate]. destruct (ParseConfig d); [|discriminate].
  destruct (GetConfigDiff _ _) as [[[? ?] ?] ?]. injection H as <-. unfold MakeEnv. cbn [DestExists NotEquals SourceNotFound DestNotFound negb].
  destruct (_ || _ || _); reflexivity.
Qed.

(** ** C163: the report *)

(** Full claim: the settings reported as equal, different and missing are just these.  For different and missing ones this
    holds if no name occurs twice; those reported as equal are all that were found. *)
Theorem env_report_partial : forall source dest f ne nf lo, GetConfigDiff source dest = (f, ne, nf, lo) -> NoDup (map fst source) -> NoDup (map fst dest) ->
  (forall n v, In (n, v) f <-> In (n, v) source /\ In n (map fst dest)) /\
  (forall n v, In (n, v) ne <-> In (n, v) source /\ exists v', In (n, v') dest /\ v' <> v) /\
  (forall n v, In (n, v) nf <-> In (n, v) source /\ ~ In n (map fst dest)) /\
  (forall n v, In (n, v) lo <-> In (n, v) dest /\ ~ In n (map fst source)).
Proof.
  induction source as [|[n0 v0] s IH]; intros dest f ne nf lo H Ns Nd; cbn [GetConfigDiff] in H.
  - injection H as <- <- <- <-. cbn. repeat split; intros; tauto.
  - cbn [map fst] in Ns. inversion Ns as [|? ? A B]; subst. cbn [fst snd] in H. destruct (take_named n0 dest) as [[[n1 v1] d']|] eqn:T.
    + destruct (GetConfigDiff s d') as [[[f' ne'] nf'] l'] eqn:G. injection H as <- <- <- <-.
      apply taken in T. cbn [fst] in T. destruct T as (-> & P). destruct (nodup_drop _ _ _ P Nd) as (Nd' & D). cbn [fst] in D.
      destruct (IH _ _ _ _ _ G B Nd') as (F & NE & NF & L).
      assert (M : forall n, n <> n0 -> In n (map fst d') <-> In n (map fst dest)).
      { intros n Q. rewrite !in_map_iff. split; intros ([a b] & E & I); cbn in E; subst a; exists (n, b); (split; [reflexivity|]); [apply D in I; apply I|apply D; split; [exact I|exact Q]]. }
      assert (I1 : In (n0, v1) dest) by (eapply Permutation_in; [symmetry; exact P|left; reflexivity]).
      assert (U : forall v', In (n0, v') dest -> v' = v1).
      { intros v' I. apply (Permutation_in _ P) in I. destruct I as [Q|I]; [congruence|]. exfalso. apply D in I. destruct I as (_ & X). apply X. reflexivity. }
      assert (S : forall n v, In (n, v) s -> n <> n0) by (intros n v I ->; apply A; apply in_map_iff; exists (n0, v); auto).
      repeat split.
      * destruct H as [H|H]; [left; exact H|right; apply F; exact H].
      * destruct H as [H|H]; [injection H as <- <-; apply in_map_iff; exists (n0, v1); auto|]. apply F in H. destruct H as (I & J). apply M; [apply (S n v I)|exact J].
      * intros ([Q|I] & J); [left; exact Q|right; apply F; split; [exact I|apply M; [apply (S n v I)|exact J]]].
      * destruct (bytes_eqb v0 v1) eqn:V; [|destruct H as [H|H]; [left; exact H|]]; right; apply NE in H; apply H.
      * destruct (bytes_eqb v0 v1) eqn:V; [|destruct H as [H|H]]; [| |]; try (apply NE in H; destruct H as (I & v' & J & Q); exists v'; split; [apply D in J; apply J|exact Q]).
        injection H as <- <-. exists v1. split; [exact I1|]. intros ->. assert (bytes_eqb v0 v0 = true) by (apply bytes_eqb_eq; reflexivity). congruence.
      * intros ([Q|I] & v' & J & W).
        -- injection Q as <- <-. rewrite (U _ J) in W. destruct (bytes_eqb v0 v1) eqn:V; [apply bytes_eqb_eq in V; congruence|left; reflexivity].
        -- assert (K : In (n, v) ne') by (apply NE; split; [exact I|]; exists v'; split; [apply D; split; [exact J|apply (S n v I)]|exact W]). destruct (bytes_eqb v0 v1); [exact K|right; exact K].
      * apply NF in H. right. apply H.
      * intros J. apply NF in H. destruct H as (I & K). apply K. apply M; [apply (S n v I)|exact J].
      * intros ([Q|I] & J); [injection Q as <- <-; exfalso; apply J; apply in_map_iff; exists (n0, v1); auto|]. apply NF. split; [exact I|]. intros K. apply J. apply M in K; [exact K|apply (S n v I)].
      * apply L in H. destruct H as (I & _). apply D in I. apply I.
      * intros [Q|J]; apply L in H; destruct H as (I & K); [apply D in I; destruct I as (_ & X); apply X; symmetry; exact Q|apply K; exact J].
      * intros (I & J). apply L. split; [apply D; split; [exact I|intros Q; apply J; left; symmetry; exact Q]|]. intros K. apply J. right. exact K.
    + destruct (GetConfigDiff s dest) as [[[f' ne'] nf'] l'] eqn:G. injection H as <- <- <- <-. apply untaken in T.
      destruct (IH _ _ _ _ _ G B Nd) as (F & NE & NF & L). repeat split.
      * right. apply F in H. apply H.
      * apply F in H. apply H.
      * intros ([Q|I] & J); [injection Q as <- <-; contradiction|apply F; auto].
      * right. apply NE in H. apply H.
      * apply NE in H. apply H.
      * intros ([Q|I] & v' & J & W); [injection Q as <- <-; exfalso; apply T; apply in_map_iff; exists (n0, v'); auto|apply NE; eauto].
      * destruct H as [H|H]; [left; exact H|right; apply NF in H; apply H].
      * intros J. destruct H as [H|H]; [injection H as <- <-; contradiction|apply NF in H; destruct H as (_ & K); apply K; exact J].
      * intros ([Q|I] & J); [left; exact Q|right; apply NF; auto].
      * apply L in H. apply H.
      * intros [Q|J]; apply L in H; destruct H as (I & K); [cbn [fst] in Q; rewrite Q in T; apply T; apply in_map_iff; exists (n, v); auto|apply K; exact J].
      * intros (I & J). apply L. split; [exact I|]. intros K. apply J. right. exact K.
Qed.
Print Assumptions env_synced_partial.
Print Assumptions env_copied.
Print Assumptions env_kept.
Print Assumptions env_report_partial.

(** ** C200 *)

(** The last line counts whether or not a line feed follows it. *)
Theorem env_last_line : forall ends ls l, (forall x, In x ls -> plain x) -> plain l -> ParseConfig (file_text ends ls ++ line_text l) = OkR (says (ls ++ [l])).
Proof.
  intros ends ls l P Pl. destruct (text_within l Pl) as (Wa & Wb).
  assert (R : forall t cur, ~ In x0a t -> read_lines t cur = match rev t ++ cur with [] => [] | x => [rev x] end).
  { clear. induction t as [|c t IH]; intros cur N; [destruct cur; reflexivity|]. assert (c <> x0a) by (intros ->; apply N; left; reflexivity).
    replace (read_lines (c :: t) cur) with (read_lines t (c :: cur)) by (destruct c; try reflexivity; contradiction).
    rewrite IH by (intros I; apply N; right; exact I). cbn [rev]. rewrite <- app_assoc. reflexivity. }
  revert ends. induction ls as [|x ls IH]; intros ends.
  - cbn [file_text app]. unfold ParseConfig. rewrite R by exact Wa. rewrite app_nil_r. destruct (rev (line_text l)) as [|c r] eqn:E.
    + apply (f_equal (@rev _)) in E. rewrite rev_involutive in E. destruct l as [n v|t]; cbn in E; [destruct n; discriminate E|]. subst t. reflexivity.
    + rewrite <- E, rev_involutive. cbn [parse_lines]. rewrite parse_plain by exact Pl. destruct l; reflexivity.
  - cbn [file_text]. assert (Px : plain x) by (apply P; left; reflexivity). destruct (text_within x Px) as (A & B). unfold ParseConfig.
    rewrite <- !app_assoc. cbn [app]. rewrite app_assoc.
    rewrite lines_of by (intros I; apply in_app_or in I; destruct I as [I|I]; [exact (A I)|]; destruct (hd false ends); [destruct I as [I|[]]; discriminate I|destruct I]).
    replace (chomp _) with (line_text x) by (symmetry; destruct (hd false ends); [apply chomp_return|rewrite (app_nil_r (line_text x)); apply chomp_line; exact B]).
    cbn [parse_lines]. rewrite parse_plain by exact Px.
    assert (Q := IH ltac:(intros y I; apply P; right; exact I) (tl ends)). unfold ParseConfig in Q. rewrite Q. destruct x; reflexivity.
Qed.

(** A line that is neither a setting, nor a remark, nor blank makes the program give up, and no file changes. *)
Theorem env_not_understood : forall ends ls t rest dest overwrite c d, (forall x, In x ls -> plain x) -> within_line t -> ~ In x3d t -> hd_error t = Some c -> c <> x23 ->
  In d t -> white d = false ->
  Main (Some (file_text ends ls ++ t ++ x0a :: rest)) dest overwrite = ErrR.
Proof.
  intros ends ls t rest dest overwrite c d P (Ta & Tb) Ts H C D W. unfold Main, CheckEnv.
  assert (Q : ParseConfig (file_text ends ls ++ t ++ x0a :: rest) = ErrR); [|rewrite Q; reflexivity].
  revert ends. induction ls as [|x ls IH]; intros ends.
  - cbn [file_text app]. unfold ParseConfig. rewrite lines_of by exact Ta. rewrite chomp_line by exact Tb. cbn [parse_lines].
    assert (E : parse_line t = ErrR); [|rewrite E; reflexivity]. unfold parse_line. rewrite cut_none by exact Ts.
    assert (F : reComment t = false); [|rewrite F; reflexivity]. destruct t as [|c0 t]; [discriminate H|]. injection H as ->.
    assert (G : forallb white (c :: t) = false).
    { destruct (forallb white (c :: t)) eqn:G; [|reflexivity]. rewrite forallb_forall in G. specialize (G _ D). congruence. }
    unfold reComment. destruct c; try exact G. contradiction.
  - cbn [file_text]. assert (Px : plain x) by (apply P; left; reflexivity). destruct (text_within x Px) as (A & B). unfold ParseConfig.
    rewrite <- !app_assoc. cbn [app]. rewrite app_assoc.
    rewrite lines_of by (intros I; apply in_app_or in I; destruct I as [I|I]; [exact (A I)|]; destruct (hd false ends); [destruct I as [I|[]]; discriminate I|destruct I]).
    replace (chomp _) with (line_text x) by (symmetry; destruct (hd false ends); [apply chomp_return|rewrite (app_nil_r (line_text x)); apply chomp_line; exact B]).
    cbn [parse_lines]. rewrite parse_plain by exact Px.
    assert (Q := IH ltac:(intros y I; apply P; right; exact I) (tl ends)). unfold ParseConfig in Q. rewrite Q. reflexivity.
Qed.
Print Assumptions env_last_line.
Print Assumptions env_not_understood.

(** ** Examples and counterexamples *)

Definition file (l : list string) : gostring := concat (map (fun s => gs s ++ [x0a]) l).
(** A remark, a changed value and a new setting. *)
Example synced_ex : let s := [Remark (gs "# ports"); Set_ (gs "PORT") (gs "9010"); Remark []; Set_ (gs "LEVEL") (gs "debug")] in
  let d := [Set_ (gs "PORT") (gs "9011")] in
  Main (Some (file_text [] s)) (Some (file_text [] d)) true = OkR (Some (file_text [] s)) /\ Main (Some (file_text [] s)) (Some (file_text [] d)) false = OkR (Some (file_text [] d)) /\
  Main (Some (file_text [true; true; false; true] s)) (Some (file_text [] s)) true = OkR (Some (file_text [] s)) /\
  (forall l, In l s -> plain l).
Proof.
  split; [vm_compute; reflexivity|]. split; [vm_compute; reflexivity|]. split; [vm_compute; reflexivity|]. intros l I.
  assert (X : forall t : gostring, forallb (fun c => negb (bz c =? 61) && negb (bz c =? 10) && negb (bz c =? 13)) t = true -> within_line t /\ ~ In x3d t).
  { intros t H. rewrite forallb_forall in H. repeat split; intros J; specialize (H _ J); discriminate. }
  repeat (destruct I as [<-|I]; [cbn [plain]|]); [| | | |destruct I].
  - destruct (X (gs "# ports") eq_refl). split; [assumption|]. split; [assumption|]. right. eexists. reflexivity.
  - destruct (X (gs "PORT") eq_refl), (X (gs "9010") eq_refl). auto.
  - destruct (X [] eq_refl). auto.
  - destruct (X (gs "LEVEL") eq_refl), (X (gs "debug") eq_refl). auto.
Qed.

Example report_ex : CheckEnv (Some (file ["A=1"; "B=2"; "C=3"]%string)) (Some (file ["C=4"; "D=5"; "A=1"]%string)) =
  OkR (Report true [(gs "A", gs "1"); (gs "C", gs "3")] [(gs "C", gs "3")] [(gs "B", gs "2")] [(gs "D", gs "5")]).
Proof. vm_compute. reflexivity. Qed.
Example copied_ex : Main (Some (file ["A=1"]%string)) None false = OkR (Some (file ["A=1"]%string)) /\ Main (Some (file ["A"]%string)) None true = ErrR.
Proof. split; vm_compute; reflexivity. Qed.

(** Values that differ only after a second separator count as equal, and the destination is left alone. *)
Theorem env_synced_refuted : let s := file ["KEY=YWJj="; "URL=http://h/?a=1"]%string in let d := file ["KEY=YWJj"; "URL=http://h/?a=2"]%string in
  Main (Some s) (Some d) true = OkR (Some d) /\ s <> d.
Proof. split; [vm_compute; reflexivity|]. vm_compute. discriminate. Qed.

(** A setting with another value is reported as equal as well; a remark with a separator is taken for a setting. *)
Theorem env_report_refuted :
  CheckEnv (Some (file ["A=1"; "# B=2"]%string)) (Some (file ["A=3"]%string)) =
  OkR (Report true [(gs "A", gs "1")] [(gs "A", gs "1")] [(gs "# B", gs "2")] []).
Proof. vm_compute. reflexivity. Qed.
Print Assumptions env_synced_refuted.
Print Assumptions env_report_refuted.

(** No line feed after the last line; a line that is not understood. *)
Example last_line_ex : ParseConfig (gs "A=1" ++ [x0a] ++ gs "B=2") = OkR [(gs "A", gs "1"); (gs "B", gs "2")] /\
  Main (Some (gs "A=1" ++ [x0a] ++ gs "B:2" ++ [x0a])) (Some (gs "A=0")) true = ErrR /\ Main (Some (gs "A=1" ++ [x0a] ++ gs " " ++ [x0a])) (Some (gs "A=0")) true = OkR (Some (gs "A=1" ++ [x0a] ++ gs " " ++ [x0a])).
Proof. split; [vm_compute; reflexivity|]. split; vm_compute; reflexivity. Qed.
