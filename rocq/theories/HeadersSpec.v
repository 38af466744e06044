(** Specification for the headers the proxy adds. *)
From Verif Require Import Base TokenModel HttpModel HttpSpec HeadersModel.
Open Scope list_scope.

(** A configured header value: text, and variables written ${NAME} or $NAME.  The
    rest is what remains of the shell in the documentation of os.Expand: variables
    with a name of one special character, a dollar sign that stands for itself, and
    two mistakes. *)
Inductive piece :=
| Text (s : str)
| Braced (n : str)
| Plain (n : str)
| Special (c : ascii)
| Dollar
| Nameless
| Unclosed.

Definition print1 (p : piece) : str :=
  match p with
  | Text s => s
  | Braced n => lit "${" ++ n ++ lit "}"
  | Plain n => "$"%char :: n
  | Special c => ["$"%char; c]
  | Dollar => lit "$"
  | Nameless => lit "${}"
  | Unclosed => lit "${"
  end.
Definition print (l : list piece) : str := List.concat (map print1 l).

(** The same, with the values of the variables. *)
Definition fill1 (m : str -> str) (p : piece) : str :=
  match p with
  | Text s => s
  | Braced n | Plain n => m n
  | Special c => m [c]
  | Dollar => lit "$"
  | Nameless | Unclosed => []
  end.
Definition fill (m : str -> str) (l : list piece) : str := List.concat (map (fill1 m) l).

(** Letters, digits and underscores. *)
Definition word_char (c : ascii) : Prop :=
  c = "_"%char \/ (48 <= N_of_ascii c <= 57 \/ 65 <= N_of_ascii c <= 90 \/ 97 <= N_of_ascii c <= 122)%N.

(** The one-character names. *)
Definition special_char (c : ascii) : Prop := In c (lit "*#$@!?-0123456789").

(** Text has no dollar sign; a name in braces has no closing brace; a name without
    braces is a word that does not start with a digit, and what follows it cannot be
    taken for a part of it.  A dollar sign stands for itself if what follows is no
    name and no brace. *)
Fixpoint well_written (l : list piece) : Prop :=
  match l with
  | [] => True
  | p :: l' =>
      (match p with
       | Text s => ~ In "$"%char s
       | Braced n => n <> [] /\ ~ In "}"%char n
       | Plain n => (exists c r, n = c :: r /\ ~ (48 <= N_of_ascii c <= 57)%N) /\ Forall word_char n /\
                    (forall c r, print l' = c :: r -> ~ word_char c)
       | Special c => special_char c
       | Dollar => forall c r, print l' = c :: r -> ~ word_char c /\ ~ special_char c /\ c <> "{"%char
       | Nameless => True
       | Unclosed => ~ In "}"%char (print l')
       end) /\ well_written l'
  end.

(** The header rules in force. *)
Definition rules (be : backend) (ov : option nat) : list (str * str) :=
  match ov with
  | None => be_headers be
  | Some i => match nth_error (be_overrides be) i with
              | Some po => match po_headers po with Some l => l | None => be_headers be end
              | None => be_headers be
              end
  end.

(** The claims that variables may use: those of the bearer token, if the request has
    a valid one, else those of its session cookie; in either case only if they name a
    user. *)
Definition session_of (ev : env) (be : backend) (r : request) : option claims :=
  match be_sso be with
  | None => None
  | Some s =>
      match (match check_bearer ev (sso_cm s) r with Some c => Some c | None => check_session ev (sso_cm s) r end) with
      | Some c => match assoc (lit "email") c with Some (VStr (_ :: _)) => Some c | _ => None end
      | None => None
      end
  end.

(** What a configured value becomes: no header at all if nothing is left of it. *)
Definition rendered (ev : env) (be : backend) (r : request) (v : str) : list str :=
  match ev_expand ev (session_of ev be r) v with [] => [] | w => [w] end.

(** No two rules are about the same header. *)
Definition distinct (l : list (str * str)) : Prop := NoDup (map (fun kv => to_lower (fst kv)) l).

(** The port in a Host header, 443 if there is none; nothing if it is not the number
    of a port. *)
Definition port_in (host : str) (p : N) : Prop :=
  (port_of host = [] /\ p = 443)%N \/ (port_of host <> [] /\ atoi (port_of host) = Some p /\ 0 < p < 65536)%N.
