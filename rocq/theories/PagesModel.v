(** The pages of single sign-on (proxy/backend-sso.go): the login page, the page for users
    that are not permitted, the status page, and the endpoints their buttons lead to.  A
    page is its link, its rows and its buttons; the text around them is not modelled.
    html/template escapes what is put into the page for the place where it stands; what the
    reader sees and where the links lead is the text that was put in. *)
From Verif Require Import Base PathModel TokenModel HttpModel RefreshModel BrowserModel.
From Verif Require KeygenModel ConsoleModel.
Open Scope nat_scope.

(** *** Addresses *)

(** net/url shouldEscape, mode encodeHost (standard library). *)
Definition host_keep (c : ascii) : bool :=
  has_char c (lit "abcdefghijklmnopqrstuvwxyzABCDEFGHIJKLMNOPQRSTUVWXYZ0123456789-_.~!$&'()*+,;=:[]<>") || Ascii.eqb c """".
(** net/url escape, mode encodeHost (standard library). *)
Definition host_escape (s : str) : str :=
  List.concat (map (fun c => if host_keep c then [c] else
    let n := N_of_ascii c in ["%"%char; hex_digit (n / 16); hex_digit (n mod 16)]) s).
(** proxy/backend-sso.go:191-192, 244-245, 292-293: the scheme and the host are set, and
    net/url String (standard library).  The path of a request starts with a slash. *)
Definition full_url (host : str) (u : url) : str := lit "https://" ++ host_escape host ++ url_string u.

(** What a backend's provider and the process supply: whether the provider is the passkey
    manager, proxy/config.go actualIDP, idna.Lookup.ToUnicode (library), the text of a
    token, whether there is a TPM, fmt.Sprint and time.Time.String (standard library), the
    Domain of the cookies. *)
Record site := {
  si_passkeys : bool; si_idp : str; si_unicode : str -> option str; si_encode : jwt -> str; si_tpm : bool;
  si_print : cval -> str; si_date : Z -> str; si_domain : str
}.

(** proxy/internal/tokenmanager/urltoken.go:65-81 URLToken: the URL to display. *)
Definition display_url (st : site) (host : str) (u : url) : str :=
  full_url (match si_unicode st (url_hostname host) with Some h => h | None => host end) u.
(** proxy/internal/tokenmanager/urltoken.go:65-81 URLToken: the token and the URL to
    display.  [None]: there is no key (see TokenModel). *)
Definition url_token (st : site) (ev : env) (fresh : str) (r : request) (u : url) (email : option str) : option (str * str) :=
  match create_token (ev_keys ev) (ev_now ev) (default_type (si_tpm st)) (url_claims (full_url (rq_host r) u) (session_id fresh r) email) with
  | Some t => Some (si_encode st t, display_url st (rq_host r) u)
  | None => None
  end.
(** net/url Parse and String (standard library), for URLs that start with https:// and a host
    that is written as it is read.  Simplified: fragments stay as they are; other texts too. *)
Definition reparse (s : str) : option str :=
  if has_prefix s (lit "https://") then
    let '(main, frag, _) := cut "#" (skipn 8 s) in
    let h := until (lit "/?") main in
    match parse_target (skipn (List.length h) main) with
    | Some u => Some (lit "https://" ++ h ++ url_string u ++ (if str_eqb frag [] then [] else "#"%char :: frag))
    | None => None
    end
  else Some s.
(** proxy/backend-sso.go:263-265, 324-326: long URLs are cut. *)
Definition shorten (s : str) : str := if 100 <? List.length s then firstn 97 s ++ lit "..." else s.

(** *** Answers *)

(** Artefact: a page: its status, the user it names, its link and the text of the link, its
    rows, and its buttons with their targets. *)
Record page := { pg_status : N; pg_user : str; pg_link : option (str * str); pg_rows : list (str * str); pg_buttons : list (str * str) }.
(** Artefact: the answers.  [AskLogin]: the provider's RequestLogin for this URL, with this
    hint, and whether the user is asked to choose an account. *)
Inductive answer :=
| Shown (p : page)
| Goto (location : str)
| AskLogin (url hint : str) (choose : bool)
| Refused (status : N)
| Crashed
| Elsewhere.

(** proxy/backend-sso.go:295-301, 215-218, 240-243: the e-mail address in the claims. *)
Definition email_text (c : claims) : option str := match assoc (lit "email") c with Some (VStr e) => Some e | _ => None end.

(** proxy/login-template.html: the text of the button. *)
Definition login_label (idp : str) : str :=
  if str_eqb idp (lit "google") then lit "Continue with Google"
  else if str_eqb idp (lit "facebook") then lit "Continue with Facebook"
  else if str_eqb idp (lit "github") then lit "Continue with GitHub"
  else lit "Login".
(** proxy/backend-sso.go:309, proxy/login-template.html: the address of the login endpoint. *)
Definition login_target (tok : str) : str := lit "/.sso/login?redirect=" ++ tok.
(** proxy/sso-status-template.html, proxy/permission-denied-template.html: the address of the
    logout endpoint. *)
Definition logout_target : str := lit "/.sso/logout".
(** proxy/sso-status-template.html, proxy/permission-denied-template.html *)
Definition switch_target (tok : str) : str := lit "/.sso/logout?u=" ++ tok.

(** proxy/backend-sso.go:292-328: enforceSSOPolicy when a login is needed. *)
Definition login_answer (st : site) (ev : env) (fresh : str) (r : request) (u : url) (c : option claims) : answer :=
  let email := match c with Some c => email_text c | None => None end in
  match url_token st ev fresh r u email with
  | None => Crashed
  | Some (tok, shown) =>
      if si_passkeys st || negb (str_eqb (h_get (lit "x-skip-login-confirmation") (rq_headers r)) []) then
        Goto (redirect_location true (login_target tok))
      else Shown {| pg_status := 403; pg_user := []; pg_link := Some (shown, shorten shown); pg_rows := [];
                    pg_buttons := [(login_label (si_idp st), login_target tok)] |}
  end.

(** proxy/backend-sso.go:239-268 servePermissionDenied *)
Definition denied_answer (st : site) (ev : env) (fresh : str) (r : request) (u : url) (c : option claims) : answer :=
  let email := match c with Some c => match email_text c with Some e => e | None => [] end | None => [] end in
  match url_token st ev fresh r u None with
  | None => Crashed
  | Some (tok, shown) =>
      Shown {| pg_status := 403; pg_user := email; pg_link := Some (shown, shorten shown); pg_rows := [];
               pg_buttons := [(lit "Switch Account", switch_target tok); (lit "Logout", logout_target)] |}
  end.

(** golang-jwt MapClaims.parseNumericDate (library): 0 is no date; the error is ignored. *)
Definition numeric_date (k : str) (c : claims) : option Z :=
  match assoc k c with Some (VNum n) => if (n =? 0)%Z then None else Some n | _ => None end.
(** proxy/backend-sso.go:178-190: one row.  [None]: String of a nil date is a panic. *)
Definition status_row (st : site) (c : claims) (k : str) : option (str * str) :=
  if str_eqb k (lit "iat") || str_eqb k (lit "exp") then
    match numeric_date k c with Some n => Some (k, si_date st n) | None => None end
  else match assoc k c with Some v => Some (k, si_print st v) | None => Some (k, []) end.
(** proxy/backend-sso.go:178-190: the rows. *)
Fixpoint status_rows (st : site) (c : claims) (ks : list str) : option (list (str * str)) :=
  match ks with
  | [] => Some []
  | k :: r => match status_row st c k, status_rows st c r with Some x, Some l => Some (x :: l) | _, _ => None end
  end.
(** proxy/backend-sso.go:163-201 serveSSOStatus, proxy/sso-status-template.html.  The claims
    are a map: each name is there once. *)
Definition status_answer (st : site) (ev : env) (fresh : str) (r : request) (u : url) (c : option claims) : answer :=
  let c := match c with Some c => c | None => [] end in
  match status_rows st c (ConsoleModel.sort_strs (map fst c)) with
  | None => Crashed
  | Some rows =>
      match url_token st ev fresh r u None with
      | None => Crashed
      | Some (tok, _) =>
          Shown {| pg_status := 200; pg_user := []; pg_link := None; pg_rows := rows;
                   pg_buttons :=
                     match rows with
                     | [] => [(lit "Login", switch_target tok)]
                     | _ => (if si_passkeys st then [(lit "Passkeys", lit "/.sso/passkeys")] else []) ++
                            [(lit "Switch Account", switch_target tok); (lit "Logout", logout_target)]
                     end |}
      end
  end.

(** net/http ParseForm and url.ParseQuery (standard library): pieces that cannot be read are
    left out; the values of the body come first. *)
Definition form_of (body : list (str * str)) (u : url) : list (str * str) :=
  body ++ flat_map (fun p => match KeygenModel.parse_pair p with Some l => l | None => [] end) (split_on "&" (u_query u)).

(** proxy/internal/tokenmanager/urltoken.go:85-104 ValidateURLToken, followed by url.String()
    as its callers do: the URL and the claims. *)
Definition token_url (ev : env) (fresh : str) (r : request) (tok : str) : option (str * claims) :=
  match ev_decode ev tok with
  | None => None
  | Some t =>
      match accept_url (ev_keys ev) (ev_now ev) (session_id fresh r) t with
      | None => None
      | Some s => match reparse s with Some s => Some (s, t_claims t) | None => None end
      end
  end.

(** proxy/backend-sso.go:203-220 serveLogin *)
Definition serve_login (ev : env) (fresh : str) (r : request) (body : list (str * str)) (u : url) : answer :=
  let tok := KeygenModel.value (form_of body u) (lit "redirect") in
  if str_eqb tok [] then Refused 400
  else match token_url ev fresh r tok with
       | None => Refused 400
       | Some (s, c) => AskLogin s (match email_text c with Some e => e | None => [] end) false
       end.

(** proxy/backend-sso.go:222-237 serveLogout: the cookies that are set, and the answer. *)
Definition serve_logout (st : site) (ev : env) (fresh : str) (r : request) (body : list (str * str)) (u : url) : list attrs * answer :=
  (clear_attrs (si_domain st),
   let tok := KeygenModel.value (form_of body u) (lit "u") in
   if str_eqb tok [] then Shown {| pg_status := 200; pg_user := []; pg_link := None; pg_rows := []; pg_buttons := [] |}
   else match token_url ev fresh r tok with
        | None => Refused 400
        | Some (s, _) => AskLogin s [] true
        end).

(** proxy/proxy.go:461-485: the endpoints, and proxy/backend-sso.go:270-345 enforceSSOPolicy,
    servePermissionDenied.  The cookies and the answer to a request. *)
Definition respond (st : site) (ev : env) (be : backend) (cn : conn) (fresh : str) (r : request) (body : list (str * str)) (u : url) : list attrs * answer :=
  match authenticate ev be r with
  | None => ([], Elsewhere)
  | Some (r1, c) =>
      match reverse_proxy ev be cn r with
      | Login => ([], login_answer st ev fresh r1 u c)
      | AuthRequired => ([], Refused 403)
      | Denied => ([], denied_answer st ev fresh r1 u c)
      | Local h =>
          if str_eqb (lh_path h) (lit "/.sso/") then ([], status_answer st ev fresh r1 u c)
          else if str_eqb (lh_path h) (lit "/.sso/login") then ([], serve_login ev fresh r1 body u)
          else if str_eqb (lh_path h) (lit "/.sso/logout") then serve_logout st ev fresh r1 body u
          else ([], Elsewhere)
      | _ => ([], Elsewhere)
      end
  end.
