(** Command lines, and runs of the process, as a user sees them. *)
From Verif Require Import Base MainModel.
Open Scope nat_scope.

(** *** Command lines *)

(** One flag as a user writes it: -name=value, --name=value, -name value, or -name alone. *)
Inductive written := Joined (dashes : bool) (name value : str) | Apart (dashes : bool) (name value : str) | Alone (dashes : bool) (name : str).
Definition dash (two : bool) : str := if two then lit "--" else lit "-".
Definition texts (g : written) : list str :=
  match g with
  | Joined d n v => [dash d ++ n ++ lit "=" ++ v]
  | Apart d n v => [dash d ++ n; v]
  | Alone d n => [dash d ++ n]
  end.
Definition line (l : list written) : list str := flat_map texts l.
Definition name_of (g : written) : str := match g with Joined _ n _ | Apart _ n _ | Alone _ n => n end.
Definition value_of (g : written) : str := match g with Joined _ _ v | Apart _ _ v => v | Alone _ _ => lit "true" end.
(** The flags of the command. *)
Definition text_flags : list str := [lit "config"; lit "revoke-all-certificates"; lit "passphrase"].
Definition switches : list str := [lit "v"; lit "use-ephemeral-certificate-manager"; lit "stdout"; lit "quiet"].
Definition grace_flag : str := lit "shutdown-grace-period".
Definition yes : list str := [lit "1"; lit "t"; lit "T"; lit "TRUE"; lit "true"; lit "True"].
Definition no : list str := [lit "0"; lit "f"; lit "F"; lit "FALSE"; lit "false"; lit "False"].
(** Switches are written alone or joined with one of the words for yes and no; the others have a
    value, which must be a duration for the grace period. *)
Definition proper (dur : str -> option Z) (g : written) : Prop :=
  match g with
  | Joined _ n v => List.In n text_flags \/ (List.In n switches /\ List.In v (yes ++ no)) \/ (n = grace_flag /\ dur v <> None)
  | Apart _ n v => List.In n text_flags \/ (n = grace_flag /\ dur v <> None)
  | Alone _ n => List.In n switches
  end.
(** The last value that was given for a name. *)
Fixpoint chosen (n : str) (l : list written) : option str :=
  match l with
  | [] => None
  | g :: r => match chosen n r with Some v => Some v | None => if str_eqb (name_of g) n then Some (value_of g) else None end
  end.
Definition text_of (n default : str) (l : list written) : str := match chosen n l with Some v => v | None => default end.
Definition switch_of (n : str) (default : bool) (l : list written) : bool := match chosen n l with Some v => mem v yes | None => default end.
Definition grace_of (dur : str -> option Z) (l : list written) : option Z :=
  match chosen grace_flag l with Some v => dur v | None => Some 60000000000%Z end.
(** An argument that is no flag: it is empty, a dash, or does not start with one. *)
Definition no_flag (a : str) : Prop := a = [] \/ a = lit "-" \/ (exists c r, a = c :: r /\ c <> "-"%char).

(** *** What is seen from outside *)

Definition written_lines (l : list action) : list (bool * str) :=
  flat_map (fun a => match a with Write o s => [(o, s)] | _ => [] end) l.
Definition contains (s x : str) : Prop := exists a b, s = a ++ x ++ b.

(** *** Signals *)

Definition signals (l : list event) : nat :=
  List.length (filter (fun e => match e with Signal _ => true | _ => false end) l).
(** Nothing that the program itself does is left to do. *)
Definition at_rest (st : sigs) : Prop := forall e, List.In e [MainStep; GoStep; GoSignal; GoDone] -> sig_step st e = None.

(** The same surroundings with another passphrase in the environment. *)
Definition with_pass (p : str) (w : world) : world :=
  {| w_pass := p; w_quiet := w_quiet w; w_dur := w_dur w; w_wide := w_wide w; w_version := w_version w; w_read := w_read w;
     w_new := w_new w; w_new_test := w_new_test w; w_revoke := w_revoke w; w_start := w_start w |}.
(** What a line asks for. *)
Definition ask_config (l : list written) : str := text_of (lit "config") [] l.
Definition ask_version (l : list written) : bool := switch_of (lit "v") false l.
Definition ask_revoke (l : list written) : str := text_of (lit "revoke-all-certificates") [] l.
Definition ask_pass (w : world) (l : list written) : str := text_of (lit "passphrase") (w_pass w) l.
Definition ask_test (l : list written) : bool := switch_of (lit "use-ephemeral-certificate-manager") false l.
Definition ask_stdout (l : list written) : bool := switch_of (lit "stdout") false l.
Definition ask_quiet (w : world) (l : list written) : bool := switch_of (lit "quiet") (str_eqb (w_quiet w) (lit "true")) l.
(** A flag that the command does not have: help is one, and so is every misspelt name. *)
Definition unknown_flag (a : str) : Prop :=
  exists d c r, a = dash d ++ c :: r /\ c <> "-"%char /\ ~ List.In "="%char (c :: r) /\ ~ List.In (c :: r) (text_flags ++ switches ++ [grace_flag]).
(** Text that is quoted as it is. *)
Definition plain_text (s : str) : Prop :=
  forall c, List.In c s -> (32 <= N_of_ascii c)%N /\ (N_of_ascii c < 127)%N /\ c <> """"%char /\ c <> "\"%char.
(** Two lines that ask for the same, but for the passphrase. *)
Definition same_but_pass (w : world) (l l' : list written) : Prop :=
  ask_config l = ask_config l' /\ ask_version l = ask_version l' /\ ask_revoke l = ask_revoke l' /\ ask_test l = ask_test l' /\
  ask_stdout l = ask_stdout l' /\ ask_quiet w l = ask_quiet w l'.
(** Mistakes: dashes without a name; a name that is not known, with or without a value; a value that is not
    one for a switch or the grace period; a missing value. *)
Inductive mistaken (dur : str -> option Z) : str -> list str -> Prop :=
| m_dashes d c r rest : c = "="%char \/ (d = true /\ c = "-"%char) -> mistaken dur (dash d ++ c :: r) rest
| m_unknown d c r tail rest : c <> "-"%char -> ~ List.In "="%char (c :: r) -> tail = [] \/ (exists v, tail = lit "=" ++ v) ->
    ~ List.In (c :: r) (text_flags ++ switches ++ [grace_flag; lit "help"; lit "h"]) -> mistaken dur (dash d ++ (c :: r) ++ tail) rest
| m_switch d n v rest : List.In n switches -> ~ List.In v (yes ++ no) -> mistaken dur (dash d ++ n ++ lit "=" ++ v) rest
| m_grace d v rest : dur v = None -> mistaken dur (dash d ++ grace_flag ++ lit "=" ++ v) rest
| m_grace_apart d v rest : dur v = None -> mistaken dur (dash d ++ grace_flag) (v :: rest)
| m_missing d n : List.In n (grace_flag :: text_flags) -> mistaken dur (dash d ++ n) [].
