(** The cookies that the proxy gives to browsers (cookiemanager.go, urltoken.go)
    and what browsers do with them (RFC 6265, which is the environment here).
    Requests are navigations, which carry SameSite=Lax cookies, and use TLS, so
    the attributes Secure, HttpOnly and SameSite restrict nothing and are left out.
    A Set-Cookie header is its attributes; its text is not modelled, but the text of
    the Cookie header is. *)
From Verif Require Import Base PathModel TokenModel HttpModel.
Local Open Scope Z_scope.

(** ** The server *)

(** http.Cookie as it is given to http.SetCookie; [at_gone]: MaxAge is negative. *)
Record attrs := {
  at_name : str; at_value : str; at_domain : str; at_path : str;
  at_expires : option Z; at_gone : bool
}.

(** net/http isCookieDomainName: the state of the loop is the previous byte, the
    length of the current label, and whether there was a letter. *)
Fixpoint domain_loop (s : str) (last : ascii) (part : N) (ok : bool) : bool :=
  match s with
  | [] => negb (Ascii.eqb last "-") && (part <=? 63)%N && ok
  | c :: r =>
      let n := N_of_ascii c in
      if ((97 <=? n) && (n <=? 122) || (65 <=? n) && (n <=? 90))%N then domain_loop r c (part + 1) true
      else if ((48 <=? n) && (n <=? 57))%N then domain_loop r c (part + 1) ok
      else if Ascii.eqb c "-" then negb (Ascii.eqb last ".") && domain_loop r c (part + 1) ok
      else if Ascii.eqb c "." then
        negb (Ascii.eqb last "." || Ascii.eqb last "-") && ((part <=? 63) && negb (part =? 0))%N && domain_loop r c 0 ok
      else false
  end.
(** Artefact: the length of a string. *)
Definition size (s : str) : N := N.of_nat (List.length s).
(** Artefact: a leading dot is removed. *)
Definition undot (s : str) : str := match s with c :: r => if Ascii.eqb c "." then r else s | [] => [] end.
(** net/http isCookieDomainName *)
Definition cookie_domain_name (s : str) : bool :=
  negb (str_eqb s []) && (size s <=? 255)%N && domain_loop (undot s) "." 0 false.
(** net/http Cookie.String: the Domain attribute that is written.  Simplified: the
    case of an IP address as Domain is left out (validCookieDomain), it is dropped
    here. *)
Definition written_domain (d : str) : str := if cookie_domain_name d then undot d else [].

(** cookiemanager.go:64-106 SetAuthTokenCookie: the cookie.  [domain] is cm.domain. *)
Definition auth_attrs (domain token : str) (now : Z) : attrs :=
  {| at_name := auth_cookie; at_value := token; at_domain := domain; at_path := [slash];
     at_expires := Some (now + day); at_gone := false |}.
(** cookiemanager.go:108-143 SetIDTokenCookie: the cookie. *)
Definition id_attrs (token : str) (now : Z) : attrs :=
  {| at_name := id_cookie; at_value := token; at_domain := []; at_path := [slash];
     at_expires := Some (now + day); at_gone := false |}.
(** cookiemanager.go:172-191 ClearCookies. *)
Definition clear_attrs (domain : str) : list attrs :=
  [{| at_name := auth_cookie; at_value := []; at_domain := domain; at_path := [slash];
      at_expires := None; at_gone := true |};
   {| at_name := id_cookie; at_value := []; at_domain := []; at_path := [slash];
      at_expires := None; at_gone := true |}].
(** cookiemanager.go:45: tlsProxyNonce *)
Definition nonce_cookie : str := lit "TLSPROXYNONCE".
(** cookiemanager.go:145-155 SetNonce. *)
Definition nonce_attrs (domain nonce : str) : attrs :=
  {| at_name := nonce_cookie; at_value := nonce; at_domain := domain; at_path := [slash];
     at_expires := None; at_gone := false |}.
(** cookiemanager.go:157-165: the cookie that Nonce removes. *)
Definition nonce_gone (domain : str) : attrs :=
  {| at_name := nonce_cookie; at_value := []; at_domain := domain; at_path := [slash];
     at_expires := None; at_gone := true |}.
(** urltoken.go:43-62 sessionID: the identifier, and the cookie.  [fresh] is the
    random one. *)
Definition session_id (fresh : str) (r : request) : str :=
  match get_cookie sid_cookie (rq_headers r) with Some s => s | None => fresh end.
(** urltoken.go:52-60 *)
Definition sid_attrs (sid : str) (now : Z) : attrs :=
  {| at_name := sid_cookie; at_value := sid; at_domain := []; at_path := [slash];
     at_expires := Some (now + 30 * day); at_gone := false |}.
(** cookiemanager.go:157-170 Nonce: what is read. *)
Definition read_nonce (r : request) : str :=
  match get_cookie nonce_cookie (rq_headers r) with Some s => s | None => [] end.

(** ** The browser *)

(** Artefact: what differs between browsers: the public suffixes they know, which
    hosts are IP addresses, and the largest name and value that they store. *)
Record browser := { br_public : str -> bool; br_ip : str -> bool; br_max : N }.

(** Artefact: RFC 6265 5.3, a cookie in the store.  The store is a list in the order
    of the creation times. *)
Record stored := {
  st_name : str; st_value : str; st_domain : str; st_host_only : bool; st_path : str; st_expires : option Z
}.

(** Artefact: RFC 6265 5.1.3, a host name matches a domain. *)
Definition domain_match (br : browser) (host d : str) : bool :=
  str_eqb host d || (has_suffix host ("."%char :: d) && negb (br_ip br host)).

(** Artefact: RFC 6265 5.1.4, a request path matches the path of a cookie. *)
Definition path_match (path p : str) : bool :=
  str_eqb path p ||
  (has_prefix path p && (has_suffix p [slash] || has_prefix path (p ++ [slash]))).

(** Artefact: RFC 6265 5.3 item 11, two cookies take the same place. *)
Definition same_place (a b : stored) : bool :=
  str_eqb (st_name a) (st_name b) && str_eqb (st_domain a) (st_domain b) &&
  Bool.eqb (st_host_only a) (st_host_only b) && str_eqb (st_path a) (st_path b).
(** Artefact: RFC 6265 5.3 items 11 and 12, a cookie is stored; one that replaces
    another one keeps its creation time. *)
Fixpoint store (c : stored) (j : list stored) : list stored :=
  match j with
  | [] => [c]
  | x :: r => if same_place x c then c :: r else x :: store c r
  end.
(** Artefact: RFC 6265 5.3 after item 12, expired cookies are evicted. *)
Definition evict (c : stored) (j : list stored) : list stored := filter (fun x => negb (same_place x c)) j.

(** Artefact: the value of an optional expiry time lies in the past. *)
Definition expired (e : option Z) (now : Z) : bool := match e with Some t => t <=? now | None => false end.

(** Artefact: RFC 6265 5.3, the cookie that a Set-Cookie from [host] asks for: none if
    it is too long, or its domain is a public suffix or does not match the host. *)
Definition wanted (br : browser) (host : str) (a : attrs) : option stored :=
  let d := to_lower (written_domain (at_domain a)) in
  if (br_max br <? size (at_name a) + size (at_value a))%N then None
  else
    let d := if br_public br d && str_eqb d host then [] else d in
    if str_eqb d [] then
      Some {| st_name := at_name a; st_value := at_value a; st_domain := host; st_host_only := true;
              st_path := at_path a; st_expires := at_expires a |}
    else if br_public br d || negb (domain_match br host d) then None
    else Some {| st_name := at_name a; st_value := at_value a; st_domain := d; st_host_only := false;
                 st_path := at_path a; st_expires := at_expires a |}.
(** Artefact: RFC 6265 5.3, a Set-Cookie from [host] is received. *)
Definition receive (br : browser) (host : str) (now : Z) (a : attrs) (j : list stored) : list stored :=
  match wanted br host a with
  | None => j
  | Some c => if at_gone a || expired (at_expires a) now then evict c j else store c j
  end.

(** Artefact: RFC 6265 5.4 item 1, a cookie goes with a request. *)
Definition goes (br : browser) (host path : str) (now : Z) (c : stored) : bool :=
  (if st_host_only c then str_eqb host (st_domain c) else domain_match br host (st_domain c)) &&
  path_match path (st_path c) && negb (expired (st_expires c) now).

(** Artefact: RFC 6265 5.4 item 2, longer paths first, then by creation time. *)
Fixpoint by_path (c : stored) (l : list stored) : list stored :=
  match l with
  | [] => [c]
  | x :: r => if (List.length (st_path x) <=? List.length (st_path c))%nat then c :: l else x :: by_path c r
  end.
(** Artefact: a stable sort. *)
Fixpoint arrange (l : list stored) : list stored :=
  match l with [] => [] | c :: r => by_path c (arrange r) end.

(** Artefact: RFC 6265 5.4, the cookies of a request in their order. *)
Definition sent (br : browser) (j : list stored) (host path : str) (now : Z) : list stored :=
  arrange (filter (goes br host path now) j).
(** Artefact: RFC 6265 5.4 item 4, the text of one cookie. *)
Definition cookie_text (c : stored) : str := st_name c ++ "="%char :: st_value c.
(** Artefact: RFC 6265 5.4 item 4, the value of the Cookie header. *)
Fixpoint cookie_string (l : list stored) : str :=
  match l with
  | [] => []
  | c :: r => cookie_text c ++ match r with [] => [] | _ => lit "; " ++ cookie_string r end
  end.
(** Artefact: RFC 6265 5.4, the Cookie header. *)
Definition cookie_header (l : list stored) : headers :=
  match l with [] => [] | _ => [(lit "Cookie", cookie_string l)] end.

(** Artefact: a GET request by the browser; [more] are its other headers. *)
Definition browse (br : browser) (j : list stored) (host path : str) (now : Z) (more : headers) : request :=
  {| rq_method := lit "GET"; rq_proto := lit "HTTP/1.1"; rq_host := host; rq_path := path;
     rq_headers := cookie_header (sent br j host path now) ++ more |}.
