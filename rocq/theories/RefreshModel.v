(** Where the browser is sent when the proxy renews its identity token
    (backend-sso.go:139-144): the URL of the request as net/url reads and writes it, and
    http.Redirect. *)
From Verif Require Import Base PathModel TokenModel HttpModel.
From Verif Require OcspGetModel.

(** Artefact: control characters. *)
Definition ctl (c : ascii) : bool := let n := N_of_ascii c in ((n <? 32) || (n =? 127))%N.

(** net/url URL, the fields of the target of a request: Path, RawPath, RawQuery, ForceQuery. *)
Record url := { u_path : str; u_raw : str; u_query : str; u_force : bool }.

(** net/url ParseRequestURI and setPath (standard library), as net/http calls it.
    Simplified: only targets that start with a slash, which is what browsers send. *)
Definition parse_target (t : str) : option url :=
  if negb (has_prefix t [slash]) || existsb ctl t then None
  else
    let '(p, q, found) := cut question t in
    match OcspGetModel.unescape p with
    | None => None
    | Some d => Some {| u_path := d; u_raw := if str_eqb p (escape_path d) then [] else p; u_query := q; u_force := found && str_eqb q [] |}
    end.

(** net/url validEncoded, mode encodePath (standard library). *)
Definition valid_char (c : ascii) : bool :=
  mem [c] (map (fun x => [x]) (lit "!$&'()*+,;=:@[]%")) || keep c.
(** net/url EscapedPath (standard library). *)
Definition escaped_path (u : url) : str :=
  if negb (str_eqb (u_raw u) []) && forallb valid_char (u_raw u) &&
     match OcspGetModel.unescape (u_raw u) with Some d => str_eqb d (u_path u) | None => false end
  then u_raw u else escape_path (u_path u).
(** net/url String (standard library), without scheme and host. *)
Definition url_string (u : url) : str :=
  escaped_path u ++ (if u_force u || negb (str_eqb (u_query u) []) then question :: u_query u else []).

(** net/http hexEscapeNonASCII (standard library). *)
Definition hex_escape (s : str) : str :=
  List.concat (map (fun c =>
    let n := N_of_ascii c in
    let d (k : N) := ascii_of_N (if (k <? 10)%N then 48 + k else 87 + k) in
    if (n <? 128)%N then [c] else ["%"%char; d (n / 16)%N; d (n mod 16)%N]) s).

(** Artefact: up to the first of these characters. *)
Fixpoint until (stop : str) (s : str) : str :=
  match s with [] => [] | c :: r => if has_char c stop then [] else c :: until stop r end.
(** Artefact: after the last at sign. *)
Fixpoint after_at (s : str) : str :=
  match s with [] => [] | c :: r => if has_char "@" r then after_at r else if Ascii.eqb c "@" then r else s end.
(** net/url Parse (standard library): the host of a URL without scheme. *)
Definition host_of_ref (s : str) : str :=
  match s with
  | a :: b :: r =>
      if Ascii.eqb a slash && Ascii.eqb b slash && negb (has_prefix r [slash]) then after_at (until (lit "/?#") r) else []
  | _ => []
  end.

(** net/http Redirect (standard library): the Location.  [parsed]: url.Parse gives no error.
    Without a host the path is cleaned. *)
Definition redirect_location (parsed : bool) (s : str) : str :=
  hex_escape
    (if parsed && str_eqb (host_of_ref s) [] then
       let '(p, q, found) := cut question s in
       let p1 := path_clean p in
       let p2 := if has_suffix p [slash] && negb (has_suffix p1 [slash]) then p1 ++ [slash] else p1 in
       p2 ++ (if found then question :: q else [])
     else s).

(** backend-sso.go:89-94, 108-145: authenticateUser and checkCookies: the status and the
    Location when the identity token is renewed.  Simplified: SetIDTokenCookie works. *)
Definition refresh (parsed : bool) (ev : env) (be : backend) (r : request) (u : url) : option (N * str) :=
  match authenticate ev be r with
  | None => Some (302%N, redirect_location parsed (url_string u))
  | Some _ => None
  end.
