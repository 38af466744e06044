(** The command tlsproxy (main.go): its flags, how it starts, and its signals. *)
From Verif Require Import Base.
From Verif Require LogModel.
Open Scope nat_scope.

(** *** The flags *)

(** Artefact: the kinds of values of flags. *)
Inductive kind := KStr | KBool | KDur.
(** main.go:52-59: the flags and the kinds of their values. *)
Definition flag_kinds : list (str * kind) :=
  [(lit "config", KStr); (lit "v", KBool); (lit "revoke-all-certificates", KStr); (lit "passphrase", KStr);
   (lit "shutdown-grace-period", KDur); (lit "use-ephemeral-certificate-manager", KBool); (lit "stdout", KBool); (lit "quiet", KBool)].
(** main.go:52-59: the values; the duration in nanoseconds. *)
Record settings := {
  f_config : str; f_version : bool; f_revoke : str; f_pass : str; f_grace : Z; f_test : bool; f_stdout : bool; f_quiet : bool
}.
(** strconv.ParseBool (standard library). *)
Definition parse_bool (s : str) : option bool :=
  if mem s [lit "1"; lit "t"; lit "T"; lit "TRUE"; lit "true"; lit "True"] then Some true
  else if mem s [lit "0"; lit "f"; lit "F"; lit "FALSE"; lit "false"; lit "False"] then Some false
  else None.

(** main.go:52-59, with the Set methods of package flag (standard library).  [dur]: time.ParseDuration.
    [None]: the value is refused, or there is no such flag. *)
Definition set_flag (dur : str -> option Z) (name v : str) (s : settings) : option settings :=
  let str_ok x := Some x in
  let bool_ok f := match parse_bool v with Some b => Some (f b) | None => None end in
  if str_eqb name (lit "config") then
    str_ok {| f_config := v; f_version := f_version s; f_revoke := f_revoke s; f_pass := f_pass s; f_grace := f_grace s; f_test := f_test s; f_stdout := f_stdout s; f_quiet := f_quiet s |}
  else if str_eqb name (lit "v") then
    bool_ok (fun b => {| f_config := f_config s; f_version := b; f_revoke := f_revoke s; f_pass := f_pass s; f_grace := f_grace s; f_test := f_test s; f_stdout := f_stdout s; f_quiet := f_quiet s |})
  else if str_eqb name (lit "revoke-all-certificates") then
    str_ok {| f_config := f_config s; f_version := f_version s; f_revoke := v; f_pass := f_pass s; f_grace := f_grace s; f_test := f_test s; f_stdout := f_stdout s; f_quiet := f_quiet s |}
  else if str_eqb name (lit "passphrase") then
    str_ok {| f_config := f_config s; f_version := f_version s; f_revoke := f_revoke s; f_pass := v; f_grace := f_grace s; f_test := f_test s; f_stdout := f_stdout s; f_quiet := f_quiet s |}
  else if str_eqb name (lit "shutdown-grace-period") then
    match dur v with
    | Some d => Some {| f_config := f_config s; f_version := f_version s; f_revoke := f_revoke s; f_pass := f_pass s; f_grace := d; f_test := f_test s; f_stdout := f_stdout s; f_quiet := f_quiet s |}
    | None => None
    end
  else if str_eqb name (lit "use-ephemeral-certificate-manager") then
    bool_ok (fun b => {| f_config := f_config s; f_version := f_version s; f_revoke := f_revoke s; f_pass := f_pass s; f_grace := f_grace s; f_test := b; f_stdout := f_stdout s; f_quiet := f_quiet s |})
  else if str_eqb name (lit "stdout") then
    bool_ok (fun b => {| f_config := f_config s; f_version := f_version s; f_revoke := f_revoke s; f_pass := f_pass s; f_grace := f_grace s; f_test := f_test s; f_stdout := b; f_quiet := f_quiet s |})
  else if str_eqb name (lit "quiet") then
    bool_ok (fun b => {| f_config := f_config s; f_version := f_version s; f_revoke := f_revoke s; f_pass := f_pass s; f_grace := f_grace s; f_test := f_test s; f_stdout := f_stdout s; f_quiet := b |})
  else None.

(** Artefact: what one argument is. *)
Inductive arg := Plain | Stop | BadSyntax | Flag (name : str) (value : option str).
(** flag.FlagSet parseOne (standard library): an argument. *)
Definition read_arg (s : str) : arg :=
  match s with
  | "-"%char :: c :: r =>
      let name := if Ascii.eqb c "-" then r else c :: r in
      if Ascii.eqb c "-" && str_eqb r [] then Stop
      else match name with
           | [] => BadSyntax
           | d :: _ => if Ascii.eqb d "-" || Ascii.eqb d "=" then BadSyntax
                       else let '(n, v, found) := cut "=" name in Flag n (if found then Some v else None)
           end
  | _ => Plain
  end.

(** Artefact: the result of reading the arguments: the settings and what is left, the usage
    was asked for, or an error with its message. *)
Inductive parsed := Parsed (s : settings) (rest : list str) | Help | Bad (msg : str).

(** flag.FlagSet Parse and parseOne (standard library).  The messages for values that are
    refused do not name the reason. *)
Fixpoint parse (dur : str -> option Z) (args : list str) (s : settings) : parsed :=
  match args with
  | [] => Parsed s []
  | a :: rest =>
      match read_arg a with
      | Plain => Parsed s args
      | Stop => Parsed s rest
      | BadSyntax => Bad (lit "bad flag syntax: " ++ a)
      | Flag name value =>
          match assoc name flag_kinds with
          | None => if mem name [lit "help"; lit "h"] then Help else Bad (lit "flag provided but not defined: -" ++ name)
          | Some k =>
              match k, value with
              | KBool, None => match set_flag dur name (lit "true") s with Some s => parse dur rest s | None => Bad [] end
              | KBool, Some v => match set_flag dur name v s with Some s => parse dur rest s | None => Bad (lit "invalid boolean value for -" ++ name) end
              | _, Some v => match set_flag dur name v s with Some s => parse dur rest s | None => Bad (lit "invalid value for flag -" ++ name) end
              | _, None =>
                  match rest with
                  | [] => Bad (lit "flag needs an argument: -" ++ name)
                  | v :: rest => match set_flag dur name v s with Some s => parse dur rest s | None => Bad (lit "invalid value for flag -" ++ name) end
                  end
              end
          end
      end
  end.

(** *** Start *)

(** What the command finds: the environment, time.ParseDuration and strconv.Quote above ASCII
    (see LogModel), the version, how the configuration file is read (proxy/config.go ReadConfig: whether
    the terms are accepted, or an error), and whether proxy.New, proxy.NewTestProxy,
    RevokeAllCertificates and Start fail. *)
Record world := {
  w_pass : str; w_quiet : str; w_dur : str -> option Z; w_wide : str -> str; w_version : str;
  w_read : str -> bool + str; w_new : str -> str -> option str; w_new_test : str -> option str; w_revoke : str -> option str; w_start : option str
}.
(** main.go:52-59: the values without flags. *)
Definition defaults (w : world) : settings :=
  {| f_config := []; f_version := false; f_revoke := []; f_pass := w_pass w; f_grace := 60000000000; f_test := false;
     f_stdout := false; f_quiet := str_eqb (w_quiet w) (lit "true") |}.
(** flag.PrintDefaults (standard library): the default value of a flag of text; it is shown when it is not empty. *)
Definition default_text (w : world) (v : str) : str :=
  if str_eqb v [] then [] else lit " (default " ++ LogModel.quoted (w_wide w) v ++ lit ")".
(** main.go:52-59, flag.PrintDefaults (standard library): the flags in the order of their names.
    Simplified: the descriptions are left out. *)
Definition usage (w : world) : str :=
  lit "Usage:  -config string  -passphrase string" ++ default_text w (w_pass w) ++
  lit "  -quiet" ++ (if str_eqb (w_quiet w) (lit "true") then lit " (default true)" else []) ++
  lit "  -revoke-all-certificates string  -shutdown-grace-period duration (default 1m0s)  -stdout  -use-ephemeral-certificate-manager  -v".

(** Artefact: what the command does: lines to the standard output or the standard error, the
    calls into the proxy, and the end of logging. *)
Inductive action :=
| Write (stdout : bool) (line : str)
| New (config pass : str)
| NewTest (config : str)
| Revoke (reason : str)
| Start
| Mute.
(** Artefact: how far it comes: the end of the process with a status, or it serves. *)
Inductive outcome := Exit (code : N) | Serve.

(** main.go:93-104: after the proxy has been made. *)
Definition begin (w : world) (s : settings) (log : str -> action) : list action * outcome :=
  if negb (f_test s) && negb (str_eqb (f_revoke s) []) then
    match w_revoke w (f_revoke s) with
    | Some e => ([Revoke (f_revoke s); log (lit "ERR RevokeAllCertificates: " ++ e)], Exit 1)
    | None => ([Revoke (f_revoke s)], Exit 0)
    end
  else
    match w_start w with
    | Some e => ([Start; log e], Exit 1)
    | None => (Start :: (if f_quiet s then [Mute] else []), Serve)
    end.
(** Artefact: more before. *)
Definition after {A} (l : list action) (r : list action * A) : list action * A := (l ++ fst r, snd r).

(** main.go:48-106: main until it waits for signals. *)
Definition main (w : world) (args : list str) : list action * outcome :=
  match parse (w_dur w) args (defaults w) with
  | Bad msg => ([Write false msg; Write false (usage w)], Exit 2)
  | Help => ([Write false (usage w)], Exit 0)
  | Parsed s _ =>
      let log := Write (f_stdout s) in
      if f_version s then ([Write true (w_version w)], Exit 0)
      else if str_eqb (f_config s) [] then ([log (lit "--config must be set")], Exit 1)
      else
        after [log (lit "INF tlsproxy " ++ w_version w)]
          match w_read w (f_config s) with
          | inr e => ([log (lit "ERR " ++ e)], Exit 1)
          | inl tos =>
              if f_test s then
                after [log (lit "WRN Using ephemeral certificate manager"); NewTest (f_config s)]
                  match w_new_test w (f_config s) with
                  | Some e => ([log (lit "FATAL " ++ e)], Exit 1)
                  | None => begin w s log
                  end
              else if str_eqb (f_pass s) [] then ([log (lit "--passphrase or $TLSPROXY_PASSPHRASE must be set")], Exit 1)
              else if negb tos then ([log (lit "acceptTOS must be set to true in the config file")], Exit 1)
              else
                after [New (f_config s) (f_pass s)]
                  match w_new w (f_config s) (f_pass s) with
                  | Some e => ([log (lit "FATAL " ++ e)], Exit 1)
                  | None => begin w s log
                  end
          end
  end.

(** *** Signals *)

(** Artefact: the signals that matter. *)
Inductive signal := INT | TERM.
(** main.go:99-127: where main is: Start has returned; after each of the two calls of Notify; a
    signal was received; Shutdown runs; Shutdown has returned. *)
Inductive main_at := MStarted | MInt | MWait | MGot | MDown | MBack.
(** main.go:116-124: where the second goroutine is: not started, started, after each of the two calls of
    Notify, ended. *)
Inductive go_at := GNone | GNew | GInt | GWait | GGone.
(** Artefact: the process. *)
Inductive process := Running | Exited (code : N) | Killed (s : signal).
(** main.go:107-127: the state.  The channels have room for one signal. *)
Record sigs := { s_main : main_at; s_go : go_at; s_ch1 : option signal; s_ch2 : option signal; s_expired : bool; s_proc : process }.
(** main.go:99-101: Start has returned. *)
Definition sig_init : sigs := {| s_main := MStarted; s_go := GNone; s_ch1 := None; s_ch2 := None; s_expired := false; s_proc := Running |}.
(** main.go:108-109: who is told of a signal: the first channel. *)
Definition first_told (m : main_at) (s : signal) : bool :=
  match m, s with MStarted, _ => false | MInt, TERM => false | _, _ => true end.
(** main.go:118-119: the second channel. *)
Definition second_told (g : go_at) (s : signal) : bool :=
  match g, s with (GNone | GNew), _ => false | GInt, TERM => false | _, _ => true end.
(** os/signal (standard library): sending does not block. *)
Definition put (told : bool) (s : signal) (ch : option signal) : option signal :=
  if told then match ch with None => Some s | Some x => Some x end else ch.

(** Artefact: what happens: a signal arrives; main or the goroutine makes a step, for the
    goroutine one case of its select; the grace period is over; Shutdown returns. *)
Inductive event := Signal (s : signal) | MainStep | GoStep | GoSignal | GoDone | Grace | Finished.

(** Artefact: changes of the state. *)
Definition at_main (st : sigs) (m : main_at) : sigs := {| s_main := m; s_go := s_go st; s_ch1 := s_ch1 st; s_ch2 := s_ch2 st; s_expired := s_expired st; s_proc := s_proc st |}.
(** Artefact: changes of the state. *)
Definition at_go (st : sigs) (g : go_at) : sigs := {| s_main := s_main st; s_go := g; s_ch1 := s_ch1 st; s_ch2 := s_ch2 st; s_expired := s_expired st; s_proc := s_proc st |}.
(** Artefact: changes of the state. *)
Definition ends (st : sigs) (p : process) : sigs := {| s_main := s_main st; s_go := s_go st; s_ch1 := s_ch1 st; s_ch2 := s_ch2 st; s_expired := s_expired st; s_proc := p |}.

(** main.go:99-127, os/signal (standard library): one step.  A signal that nobody asked for ends the
    process.  The context is done when the grace period is over. *)
Definition sig_step (st : sigs) (e : event) : option sigs :=
  match s_proc st with
  | Running =>
      match e with
      | Signal s =>
          if first_told (s_main st) s || second_told (s_go st) s then
            Some {| s_main := s_main st; s_go := s_go st; s_ch1 := put (first_told (s_main st) s) s (s_ch1 st);
                    s_ch2 := put (second_told (s_go st) s) s (s_ch2 st); s_expired := s_expired st; s_proc := Running |}
          else Some (ends st (Killed s))
      | MainStep =>
          match s_main st with
          | MStarted => Some (at_main st MInt)
          | MInt => Some (at_main st MWait)
          | MWait => match s_ch1 st with
                     | Some _ => Some {| s_main := MGot; s_go := s_go st; s_ch1 := None; s_ch2 := s_ch2 st; s_expired := s_expired st; s_proc := Running |}
                     | None => None
                     end
          | MGot => Some (at_go (at_main st MDown) GNew)
          | MDown => None
          | MBack => Some (ends st (Exited 0))
          end
      | GoStep => match s_go st with GNew => Some (at_go st GInt) | GInt => Some (at_go st GWait) | _ => None end
      | GoSignal => match s_go st, s_ch2 st with GWait, Some _ => Some (ends st (Exited 1)) | _, _ => None end
      | GoDone => match s_go st with GWait => if s_expired st then Some (at_go st GGone) else None | _ => None end
      | Grace => match s_main st with
                 | MDown | MBack => if s_expired st then None
                     else Some {| s_main := s_main st; s_go := s_go st; s_ch1 := s_ch1 st; s_ch2 := s_ch2 st; s_expired := true; s_proc := Running |}
                 | _ => None
                 end
      | Finished => match s_main st with MDown => Some (at_main st MBack) | _ => None end
      end
  | _ => None
  end.
(** Artefact: a run; [None]: a step that was not possible. *)
Fixpoint sig_run (st : sigs) (l : list event) : option sigs :=
  match l with [] => Some st | e :: r => match sig_step st e with Some st => sig_run st r | None => None end end.
