(** * Logging, and what depends on it

    common/pkg/logging/logging.go over zerolog v1.23.0: an event below the global level is nil, and methods of a nil event do nothing, also those of
    events that panic or exit.  Time formats, the name of the service and the rotation of files are left out; writing succeeds. *)
From Coq Require Import String List ZArith Bool.
From Verif Require Import Base Crypto ClientBuild.
From Verif Require Admin.
Import ListNotations.
Open Scope Z_scope.

(** Where messages go: logging.go L79-103, [Nowhere] for a nil writer. *)
Inductive target := Stdout | File (dir name : gostring) | Nowhere.

(** zerolog's global level, the target of [log.Logger], and what was written, with the numbers of the levels. *)
Record logger := Logger { level : Z; goes_to : target; lines : list (target * Z * gostring) }.

(** zerolog v1.23.0, log.go: the names of the levels; the empty text is [NoLevel]. *)
Definition level_names : list (gostring * Z) :=
  [(gs "trace", -1); (gs "debug", 0); (gs "info", 1); (gs "warn", 2); (gs "error", 3); (gs "fatal", 4); (gs "panic", 5); ([], 6)].

Section logging.
  (** zerolog's reading of texts that are not names of messages' levels. *)
  Variable other : gostring -> option Z.
  (** [os.MkdirAll]: does the directory exist then? *)
  Variable mkdir : gostring -> bool.

  (** [zerolog.ParseLevel]. *)
  Definition ParseLevel (s : gostring) : option Z := match aget bytes_eqb level_names s with Some z => Some z | None => other s end.

  (** logging.go L114-132: a message of a level. *)
  Definition write (l : logger) (z : Z) (msg : gostring) : logger :=
    if z <? level l then l
    else match goes_to l with Nowhere => l | t => Logger (level l) t (lines l ++ [(t, z, msg)]) end.
  Definition with_level (l : logger) (z : Z) : logger := Logger z (goes_to l) (lines l).

  (** logging.go L52-61 [setLogLevel]. *)
  Definition setLogLevel (conf : gostring -> gostring) (l : logger) : logger :=
    match ParseLevel (conf (gs "LOG_LEVEL")) with
    | Some z => with_level l z
    | None => with_level (write (write l 3 (gs "can't parse log level")) 2 (gs "using level 'info' as default")) 1
    end.

  (** logging.go L89-103 [newLogTargetFile]. *)
  Definition newLogTargetFile (conf : gostring -> gostring) (l : logger) : target * logger :=
    if mkdir (conf (gs "LOG_DIR")) then (File (conf (gs "LOG_DIR")) (conf (gs "LOG_FILE")), l)
    else (Nowhere, write l 3 (gs "can't create log directory")).

  (** logging.go L79-87 [getLogTarget]. *)
  Definition getLogTarget (conf : gostring -> gostring) (l : logger) : target * logger :=
    if bytes_eqb (conf (gs "LOG_TARGET")) (gs "FILE") then newLogTargetFile conf l else (Stdout, l).

  (** logging.go L33-41 [Init]. *)
  Definition Init (conf : gostring -> gostring) (l : logger) : logger :=
    let l := setLogLevel conf l in
    let (t, l) := getLogTarget conf l in
    Logger (level l) t (lines l).

  (** logging.go L44-50 [Init1]: nothing but these is set. *)
  Definition Init1 (logLevel logTarget : gostring) (l : logger) : logger :=
    Init (fun k => if bytes_eqb k (gs "LOG_LEVEL") then logLevel else if bytes_eqb k (gs "LOG_TARGET") then logTarget else []) l.

  (** logging.go L105-112 [SetLogLevel]. *)
  Definition SetLogLevel (s : gostring) (l : logger) : logger :=
    match ParseLevel s with Some z => with_level l z | None => write l 3 (gs "can't parse log level") end.

  (** A call returns, panics or ends the process. *)
  Inductive ended (A : Type) := Returned (l : logger) (a : A) | Panicked (l : logger) | Exited (l : logger).
  Arguments Returned {A}. Arguments Panicked {A}. Arguments Exited {A}.
  Definition andthen {A B} (x : ended A) (f : logger -> A -> ended B) : ended B :=
    match x with Returned l a => f l a | Panicked l => Panicked l | Exited l => Exited l end.

  (** logging.go L138-145 [Panic], [ErrorAndPanic]. *)
  Definition LogPanic (l : logger) (msg : gostring) : ended unit := if 5 <? level l then Returned l tt else Panicked (write l 5 msg).
  (** logging.go L134-136 [Fatal]. *)
  Definition Fatal (l : logger) (msg : gostring) : ended unit := if 4 <? level l then Returned l tt else Exited (write l 4 msg).
  (** logging.go L153-155 [InfoEnabled]. *)
  Definition InfoEnabled (l : logger) : bool := negb (1 <? level l).

  (** client/pkg/fcrclient/builder.go L121-163 [Build], with the logging; [generated] is the new key and whether it could be made
      (keypair_retrieval.go L34-40 returns a key in any case). *)
  Definition BuildLogged (l : logger) (logLevel logTarget : gostring) (b : cbuilder) (random : bytes) (generated : keypair * bool) : ended csettings :=
    let l := Init1 logLevel logTarget l in
    andthen (match cb_chain b with None => LogPanic l (gs "Settings: Blockchain Private Key not set") | Some _ => Returned l tt end) (fun l _ =>
    let l := write l 1 (gs "Settings: No Client ID set. Generating random client ID") in
    andthen (match cb_key b with
             | None =>
                 andthen (if snd generated then Returned l tt else LogPanic l (gs "Settings: Error while generating random retrieval key pair"))
                   (fun l _ => Returned l (fst generated, Some 1))
             | Some k => Returned l (k, cb_ver b)
             end) (fun l kv =>
    Returned l (CSettings (cb_ttl b) (cb_url b) (Some random) (cb_chain b) (Some (fst kv)) (snd kv) (cb_wallet b) (cb_lotus b) (cb_token b) (cb_search b) (cb_offer b) (cb_topup b)))).

  (** gateway-admin/pkg/fcrgatewayadmin/builder.go L79-103 [Build], provider-admin/pkg/fcrprovideradmin/builder.go L80-105 [Build]. *)
  Definition AdminBuildLogged (l : logger) (logLevel logTarget : gostring) (b : Admin.builder) (generated : keypair * bool) : ended Admin.settings :=
    let l := Init1 logLevel logTarget l in
    andthen (match Admin.b_chain b with None => LogPanic l (gs "Settings: Blockchain Private Key not set") | Some _ => Returned l tt end) (fun l _ =>
    andthen (match Admin.b_key b with
             | None =>
                 andthen (if snd generated then Returned l tt else LogPanic l (gs "Settings: Error while generating random retrieval key pair"))
                   (fun l _ => Returned l (fst generated, Some 1))
             | Some k => Returned l (k, Admin.b_ver b)
             end) (fun l kv =>
    Returned l (Admin.Settings 0 (Admin.b_url b) (Admin.b_chain b) (Some (fst kv)) (snd kv)))).

  (** gateway/internal/core/core.go L95-96, provider/internal/core/core.go L95-96: [doOnce] and the instance, known by its settings.
      [sync.Once] takes a function that panicked as done. *)
  Record once (S : Type) := Once { did : bool; instance : option S }.
  Arguments Once {S}. Arguments did {S}. Arguments instance {S}.

  (** gateway/internal/core/core.go L99-140, provider/internal/core/core.go L99-125 [GetSingleInstance]; reading [confs[0]] of no settings panics. *)
  Definition GetSingleInstance {S} (l : logger) (o : once S) (confs : list S) : ended (option S) * once S :=
    if did o then (Returned l (instance o), o)
    else
      let x := andthen (match confs with [] => LogPanic l (gs "No settings supplied to Gateway start-up") | _ => Returned l tt end) (fun l _ =>
               andthen (match confs with [_] => Returned l tt | _ => LogPanic l (gs "More than one sets of settings supplied to Gateway start-up") end) (fun l _ =>
               match confs with [] => Panicked l | s :: _ => Returned l (Some s) end)) in
      (x, Once true (match x with Returned _ i => i | _ => instance o end)).
  (** The calls of a process one after another; a process that panics in a handler goes on. *)
  Fixpoint get_all {S} (l : logger) (o : once S) (calls : list (list S)) : list (ended (option S)) :=
    match calls with
    | [] => []
    | c :: t =>
        let (x, o) := GetSingleInstance l o c in
        x :: get_all (match x with Returned l _ | Panicked l | Exited l => l end) o t
    end.
End logging.
Arguments Returned {A}. Arguments Panicked {A}. Arguments Exited {A}.
Arguments Once {S}. Arguments did {S}. Arguments instance {S}.
