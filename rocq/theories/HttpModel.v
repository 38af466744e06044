(** HTTP requests: headers, cookies, single sign-on, local endpoints, path
    overrides and forwarding (proxy/backend-http.go, proxy/backend-sso.go). *)
From Verif Require Import Base PathModel TokenModel.
Open Scope Z_scope.

(** ** Headers
    net/http Header: here the lines in order, with names compared without regard
    to case, which is what storing them under canonical names amounts to. *)
Definition headers := list (str * str).
(** textproto.CanonicalMIMEHeaderKey: names are equal up to case. *)
Definition same_name (a b : str) : bool := str_eqb (to_lower a) (to_lower b).
(** http.Header.Del *)
Definition h_del (n : str) (h : headers) : headers := filter (fun kv => negb (same_name (fst kv) n)) h.
(** http.Header.Values *)
Definition h_values (n : str) (h : headers) : list str := map snd (filter (fun kv => same_name (fst kv) n) h).
(** http.Header.Get *)
Definition h_get (n : str) (h : headers) : str := match h_values n h with v :: _ => v | [] => [] end.
(** http.Header.Set *)
Definition h_set (n v : str) (h : headers) : headers := h_del n h ++ [(n, v)].

(** textproto.TrimString: white space at both ends *)
Definition is_space (c : ascii) : bool :=
  Ascii.eqb c " " || Ascii.eqb c (ascii_of_nat 9) || Ascii.eqb c (ascii_of_nat 10) || Ascii.eqb c (ascii_of_nat 13).
(** textproto.TrimString, at the left end. *)
Fixpoint trim_left (s : str) : str :=
  match s with
  | c :: r => if is_space c then trim_left r else s
  | [] => []
  end.
(** textproto.TrimString *)
Definition trim (s : str) : str := rev (trim_left (rev (trim_left s))).

(** ** Cookies *)
Definition semicolon : ascii := ";".
(** Artefact: a character. *)
Definition dquote : ascii := """".
(** Artefact: a character. *)
Definition comma : ascii := ",".

(** net/http isToken *)
Definition token_char (c : ascii) : bool :=
  let n := N_of_ascii c in
  ((48 <=? n) && (n <=? 57) || (65 <=? n) && (n <=? 90) || (97 <=? n) && (n <=? 122))%N ||
  has_char c (lit "!#$%&'*+-.^_`|~").
(** net/http isToken *)
Definition is_token (s : str) : bool := negb (str_eqb s []) && forallb token_char s.

(** net/http validCookieValueByte *)
Definition cookie_char (c : ascii) : bool :=
  let n := N_of_ascii c in
  ((32 <=? n) && (n <? 127))%N && negb (Ascii.eqb c dquote) && negb (Ascii.eqb c semicolon) && negb (Ascii.eqb c backslash).

(** http.Cookie, the fields that are read. *)
Record cookie := { ck_name : str; ck_value : str; ck_quoted : bool }.

(** net/http parseCookieValue(val, true) *)
Definition strip_quotes (v : str) : option str :=
  match v with
  | c :: (_ :: _) as r => if Ascii.eqb c dquote && has_suffix v [dquote] then Some (removelast r) else None
  | _ => None
  end.
(** net/http parseCookieValue *)
Definition parse_value (v : str) : option (str * bool) :=
  let '(v', q) := match strip_quotes v with Some r => (r, true) | None => (v, false) end in
  if forallb cookie_char v' then Some (v', q) else None.

(** net/http readCookies: one part between semicolons *)
Definition parse_part (p : str) : list cookie :=
  let p := trim p in
  if str_eqb p [] then [] else
  let '(name, val, _) := cut "=" p in
  let name := trim name in
  if is_token name then
    match parse_value val with
    | Some (v, q) => [{| ck_name := name; ck_value := v; ck_quoted := q |}]
    | None => []
    end
  else [].
(** net/http readCookies: one Cookie line *)
Definition parse_line (line : str) : list cookie := List.concat (map parse_part (split_on semicolon line)).

(** net/http Request.Cookies and Request.Cookie *)
Definition cookies (h : headers) : list cookie := List.concat (map parse_line (h_values (lit "cookie") h)).
(** http.Request.Cookie *)
Definition get_cookie (name : str) (h : headers) : option str :=
  match filter (fun c => str_eqb (ck_name c) name) (cookies h) with c :: _ => Some (ck_value c) | [] => None end.

(** net/http Request.AddCookie.  Every cookie added comes from readCookies, so
    sanitizing its name and value changes nothing. *)
Definition write_cookie (c : cookie) : str :=
  ck_name c ++ lit "=" ++
  match ck_value c with
  | [] => []
  | v => if has_char " " v || has_char comma v || ck_quoted c then [dquote] ++ v ++ [dquote] else v
  end.
(** http.Request.AddCookie *)
Definition add_cookie (h : headers) (c : cookie) : headers :=
  let old := h_get (lit "cookie") h in
  h_set (lit "cookie") (if str_eqb old [] then write_cookie c else old ++ lit "; " ++ write_cookie c) h.

(** cookiemanager.go:42-46, urltoken.go:40 *)
Definition auth_cookie : str := lit "TLSPROXYAUTH".
(** cookiemanager.go:44: tlsProxyIDTokenCookie *)
Definition id_cookie : str := lit "TLSPROXYIDTOKEN".
(** urltoken.go:40: SessionIDCookieName *)
Definition sid_cookie : str := lit "TLSPROXYSID".

(** cookiemanager.go:248-256 FilterOutAuthTokenCookie(req, SessionIDCookieName) *)
Definition filter_auth_cookie (h : headers) : headers :=
  fold_left (fun h c => if str_eqb (ck_name c) auth_cookie || str_eqb (ck_name c) sid_cookie then h else add_cookie h c)
    (cookies h) (h_del (lit "cookie") h).

(** ** Host names *)
Definition colon : ascii := ":".
(** net/url validOptionalPort: a digit. *)
Definition is_digit (c : ascii) : bool := let n := N_of_ascii c in ((48 <=? n) && (n <=? 57))%N.

(** strings.LastIndexByte, as a split: (before, after) *)
Fixpoint cut_last (c : ascii) (s : str) : option (str * str) :=
  match s with
  | [] => None
  | x :: r =>
      match cut_last c r with
      | Some (a, b) => Some (x :: a, b)
      | None => if Ascii.eqb x c then Some ([], r) else None
      end
  end.

(** net.SplitHostPort: the host *)
Definition split_host_port (hp : str) : option str :=
  match cut_last colon hp with
  | None => None
  | Some (before, port) =>
      match hp with
      | c :: rest =>
          if Ascii.eqb c "[" then
            match cut "]" rest with
            | (h, after, true) =>
                (* the closing bracket must be right before the last colon *)
                if str_eqb before (("["%char :: h) ++ lit "]") && negb (has_char "[" rest) && negb (has_char "]" after)
                then Some h else None
            | _ => None
            end
          else if has_char colon before || has_char "[" hp || has_char "]" hp then None else Some before
      | [] => None
      end
  end.

(** proxy.go:1518-1524 hostFromReq *)
Definition host_from_req (host : str) : str := match split_host_port host with Some h => h | None => host end.

(** net/url URL.Hostname *)
Definition url_hostname (hp : str) : str :=
  let h := match cut_last colon hp with
           | Some (before, port) => if forallb is_digit port then before else hp
           | None => hp
           end in
  match h with
  | c :: rest => if Ascii.eqb c "[" && has_suffix h (lit "]") then removelast rest else h
  | [] => []
  end.

(** ** Configuration *)

(** config.go BackendSSO *)
Record sso := {
  sso_cm : cookie_mgr;
  sso_paths : list str;
  sso_acl : option (list str);
  sso_force : Z;               (* ForceReAuth, 0: not set *)
  sso_user_header : bool;      (* SetUserIDHeader *)
  sso_gen_id : bool            (* GenerateIDTokens *)
}.

(** proxy.go localHandler; [lh_id] stands for the handler itself. *)
Record local_handler := { lh_id : nat; lh_host : str; lh_path : str; lh_prefix : bool; lh_bypass : bool }.

(** config.go PathOverride *)
Record override := {
  po_paths : list str;
  po_addrs : list str;
  po_root : str;
  po_sanitize : option bool;
  po_headers : option (list (str * str))
}.

(** config.go:223-443 Backend, the fields of an HTTP backend that are read here. *)
Record backend := {
  be_names : list str;          (* ServerNames *)
  be_sso : option sso;
  be_handlers : list local_handler;
  be_overrides : list override;
  be_addrs : list str;
  be_root : str;
  be_sanitize : option bool;
  be_headers : list (str * str);   (* ForwardHTTPHeaders, in the order of iteration *)
  be_xfcc : list str               (* ClientAuth.AddClientCertHeader *)
}.

(** What is known about the connection. *)
Record conn := {
  cn_name : str;       (* the server name of the TLS handshake *)
  cn_local : str;      (* the local address *)
  cn_peer : str;       (* the IP address of the peer *)
  cn_cert : option str (* with a client certificate: the header value made from it, see XfccModel *)
}.

(** http.Request, the fields that are read. *)
Record request := { rq_method : str; rq_proto : str; rq_host : str; rq_path : str; rq_headers : headers }.

(** The rest of the world: the signing keys, the clock, decoding of a compact token,
    the hash of host names, expansion of variables in configured headers (given the
    user's claims), the file system. *)
Record env := {
  ev_keys : list key;
  ev_now : Z;
  ev_decode : str -> option jwt;
  ev_hash : str -> str;
  ev_expand : option claims -> str -> str;
  ev_fs : fs
}.

(** What the proxy does with a request. *)
Record forwarded := { fw_override : option nat; fw_host : str; fw_path : str; fw_headers : headers }.
(** Artefact: the possible answers. *)
Inductive result :=
| SetIDToken                    (* sets the ID token cookie, redirects to the same URL *)
| Redirect (path : str)
| Local (h : local_handler)     (* a local endpoint answers *)
| AuthRequired                  (* 403 for a request that is not a GET *)
| Login                         (* the login page or a redirect to it *)
| Denied                        (* permission denied page *)
| Misdirected                   (* 421 *)
| Static (r : response)
| LoopDetected                  (* 508 *)
| Forward (f : forwarded).

(** ** Authentication *)

(** backend-sso.go:50: xTLSProxyUserIDHeader *)
Definition user_header : str := lit "X-tlsproxy-user-id".

(** cookiemanager.go:233-239: the token in the Authorization header. *)
Definition bearer_token (h : headers) : option str :=
  let v := h_get (lit "authorization") h in
  if (List.length v <? 7)%nat then None
  else if str_eqb (to_upper (firstn 7 v)) (lit "BEARER ") then Some (skipn 7 v) else None.

(** the e-mail address in the claims, when it is a non-empty string *)
Definition email_of (c : claims) : option str :=
  match assoc (lit "email") c with
  | Some (VStr e) => if str_eqb e [] then None else Some e
  | _ => None
  end.

(** cookiemanager.go:233-246 ValidateAuthorizationHeader *)
Definition check_bearer (ev : env) (cm : cookie_mgr) (r : request) : option claims :=
  match bearer_token (rq_headers r) with
  | Some s =>
      match ev_decode ev s with
      | Some t => accept_bearer (ev_keys ev) (ev_now ev) cm (host_from_req (rq_host r)) t
      | None => None
      end
  | None => None
  end.

(** cookiemanager.go:193-209 ValidateAuthTokenCookie *)
Definition check_session (ev : env) (cm : cookie_mgr) (r : request) : option claims :=
  match get_cookie auth_cookie (rq_headers r) with
  | Some s => match ev_decode ev s with Some t => accept_session (ev_keys ev) (ev_now ev) cm t | None => None end
  | None => None
  end.

(** cookiemanager.go:211-231 ValidateIDTokenCookie *)
Definition check_id_cookie (ev : env) (cm : cookie_mgr) (r : request) (session : claims) : bool :=
  match get_cookie id_cookie (rq_headers r) with
  | Some s =>
      match ev_decode ev s with
      | Some t => accept_idcookie (ev_keys ev) (ev_now ev) cm (host_from_req (rq_host r)) session t
      | None => false
      end
  | None => false
  end.

(** backend-sso.go:108-145 checkCookies.  [None]: the request was answered. *)
Definition check_cookies (ev : env) (be : backend) (s : sso) (r : request) : option (option claims) :=
  match check_bearer ev (sso_cm s) r with
  | Some c => Some (Some c)
  | None =>
      match check_session ev (sso_cm s) r with
      | None => Some None
      | Some c =>
          match email_of c with
          | None => Some None
          | Some _ =>
              if negb (sso_gen_id s) then Some (Some c)
              else if negb (mem (host_from_req (rq_host r)) (be_names be)) then Some (Some c)
              else if check_id_cookie ev (sso_cm s) r c then Some (Some c)
              else None
          end
      end
  end.

(** Artefact: record update. *)
Definition set_headers (h : headers) (r : request) : request :=
  {| rq_method := rq_method r; rq_proto := rq_proto r; rq_host := rq_host r; rq_path := rq_path r; rq_headers := h |}.

(** backend-sso.go:89-106 authenticateUser: the request and the user's claims *)
Definition authenticate (ev : env) (be : backend) (r : request) : option (request * option claims) :=
  let h := h_del user_header (rq_headers r) in
  match be_sso be with
  | None => Some (set_headers h r, None)
  | Some s =>
      match check_cookies ev be s (set_headers h r) with
      | None => None
      | Some None => Some (set_headers h r, None)
      | Some (Some c) =>
          match email_of c with
          | Some e => Some (set_headers (if sso_user_header s then h_set user_header e h else h) r, Some c)
          | None => Some (set_headers h r, None)
          end
      end
  end.

(** ** Authorization *)

(** backend-sso.go:331-339: the access list *)
Definition acl_ok (acl : option (list str)) (user : str) : bool :=
  match acl with
  | None => true
  | Some l => let '(_, domain, _) := cut "@" user in mem user l || mem (lit "@" ++ domain) l
  end.

(** backend-sso.go:275-280: GetIssuedAt of the claims. *)
Definition issued_at (c : claims) : option Z :=
  match assoc (lit "iat") c with Some (VNum n) => Some n | _ => None end.

(** backend-sso.go:286: does the user have to log in (again)?  Without an iat claim
    the time is the zero time, which is longer ago than any duration. *)
Definition needs_login (ev : env) (s : sso) (host : str) (c : option claims) : bool :=
  match c with
  | None => true
  | Some c =>
      negb (sso_force s =? 0) &&
      (negb (claim_is c (lit "hhash") (ev_hash ev host)) ||
       match issued_at c with Some t => sso_force s <? ev_now ev - t | None => true end)
  end.

(** backend-sso.go:270-345 enforceSSOPolicy: an answer, or the request to go on with *)
Definition enforce (ev : env) (be : backend) (r : request) (c : option claims) : result + request :=
  match be_sso be with
  | None => inr r
  | Some s =>
      if negb (pathMatches (sso_paths s) (rq_path r)) then inr r
      else if needs_login ev s (rq_host r) c then
        inl (if str_eqb (rq_method r) (lit "GET") then Login else AuthRequired)
      else
        let user := match c with Some c => match assoc (lit "email") c with Some (VStr e) => e | _ => [] end | None => [] end in
        if acl_ok (sso_acl s) user then inr (set_headers (filter_auth_cookie (rq_headers r)) r)
        else inl Denied
  end.

(** ** Local endpoints *)

(** backend-http.go:422-427 *)
Definition handler_matches (host path : str) (h : local_handler) : bool :=
  (str_eqb (lh_host h) [] || str_eqb (lh_host h) host) &&
  (str_eqb (lh_path h) path || (lh_prefix h && has_prefix path (lh_path h ++ [slash]))).

(** proxy.go:836-849: the order in which local handlers are sorted.  String
    comparison is by bytes. *)
Fixpoint str_ltb (a b : str) : bool :=
  match a, b with
  | [], _ :: _ => true
  | _, [] => false
  | x :: a', y :: b' =>
      let n := N_of_ascii x in let m := N_of_ascii y in
      if (n <? m)%N then true else if (m <? n)%N then false else str_ltb a' b'
  end.
(** proxy.go:836-849: the sort order of local handlers. *)
Definition handler_less (a b : local_handler) : bool :=
  if str_eqb (lh_host a) (lh_host b) then (List.length (lh_path b) <? List.length (lh_path a))%nat
  else let la := List.length (lh_host a) in let lb := List.length (lh_host b) in
       if negb (Nat.eqb la lb) then (lb <? la)%nat else str_ltb (lh_host a) (lh_host b).

(** backend-http.go:419-456 handleLocalEndpointsAndAuthorize *)
Definition local_and_authorize (ev : env) (be : backend) (r : request) (c : option claims) : result + request :=
  let host := host_from_req (rq_host r) in
  let path := pathClean (rq_path r) in
  match find (handler_matches host path) (be_handlers be) with
  | Some h =>
      match (if lh_bypass h then inr r else enforce ev be r c) with
      | inl res => inl res
      | inr _ => inl (if str_eqb path (rq_path r) then Local h else Redirect path)
      end
  | None =>
      match enforce ev be r c with
      | inl res => inl res
      | inr r' =>
          if existsb (fun h => (str_eqb (lh_host h) [] || str_eqb (lh_host h) host) && str_eqb (lh_path h) (path ++ [slash])) (be_handlers be)
          then inl (Redirect (path ++ [slash]))
          else inr r'
      end
  end.

(** ** Path overrides *)

(** backend-http.go:262-287, the loop over overrides and their paths *)
Inductive choice := CRedirect (path : str) | COverride (i : nat) (po : override) (prefix : str) | CDefault.
(** backend-http.go:264-286: the loop over the paths of one override. *)
Fixpoint try_paths (path : str) (i : nat) (po : override) (prefixes : list str) : choice :=
  match prefixes with
  | [] => CDefault
  | p :: rest =>
      if str_eqb (path ++ [slash]) p then CRedirect (path ++ [slash])
      else if has_prefix path p then COverride i po p
      else try_paths path i po rest
  end.
(** backend-http.go:263-287: the loop over the overrides. *)
Fixpoint choose (path : str) (i : nat) (pos : list override) : choice :=
  match pos with
  | [] => CDefault
  | po :: rest =>
      match try_paths path i po (po_paths po) with
      | CDefault => choose path (S i) rest
      | ch => ch
      end
  end.

(** ** Forwarding *)

(** backend-http.go:54: a header name. *)
Definition via : str := lit "via".
(** backend-http.go:56: a header name. *)
Definition xff : str := lit "x-forwarded-for".
(** xfcc.go:36: a header name. *)
Definition xfcc : str := lit "x-forwarded-client-cert".

(** backend-http.go:301-317: the hops so far; commaRE is [, *] *)
Fixpoint drop_spaces (s : str) : str := match s with c :: r => if Ascii.eqb c " " then drop_spaces r else s | [] => [] end.
(** backend-http.go:303-306: the hops in the Via header. *)
Definition hops (h : str) : list str :=
  match h with
  | [] => []
  | _ => match split_on comma h with p :: rest => p :: map drop_spaces rest | [] => [] end
  end.
(** backend-http.go:317: strings.Join(hops, ", "). *)
Fixpoint join_hops (l : list str) : str :=
  match l with
  | [] => []
  | [x] => x
  | x :: r => x ++ lit ", " ++ join_hops r
  end.
(** backend-http.go:308: the name of a hop. *)
Definition hop_name (hop : str) : str := let '(_, n, _) := cut " " hop in n.

(** backend-http.go:322-332: configured headers *)
Definition apply_header (ev : env) (c : option claims) (hh : headers * str) (kv : str * str) : headers * str :=
  let '(h, host) := hh in
  let v := ev_expand ev c (snd kv) in
  if str_eqb v [] then (h_del (fst kv) h, host)
  else (h_set (fst kv) v h, if same_name (fst kv) (lit "host") then v else host).

(** backend-http.go:458-464 reverseProxyDirector *)
Definition director (be : backend) (cn : conn) (h : headers) : headers :=
  let h := h_del xfcc (h_del xff h) in
  match cn_cert cn, be_xfcc be with
  | Some v, _ :: _ => h_set xfcc v h
  | _, _ => h
  end.

(** net/http/httputil ReverseProxy.ServeHTTP: removeHopByHopHeaders *)
Definition connection_options (h : headers) : list str :=
  filter (fun s => negb (str_eqb s [])) (map trim (List.concat (map (split_on comma) (h_values (lit "connection") h)))).
(** net/http/httputil hopHeaders *)
Definition hop_headers : list str :=
  [lit "connection"; lit "proxy-connection"; lit "keep-alive"; lit "proxy-authenticate"; lit "proxy-authorization";
   lit "te"; lit "trailer"; lit "transfer-encoding"; lit "upgrade"].
(** net/http/httputil removeHopByHopHeaders *)
Definition remove_hop_by_hop (h : headers) : headers :=
  fold_left (fun h n => h_del n h) (connection_options h ++ hop_headers) h.

(** httputil.upgradeType, and the Te header *)
Definition contains_token (values : list str) (tok : str) : bool :=
  existsb (fun s => same_name (trim s) tok) (List.concat (map (split_on comma) values)).
(** net/http/httputil upgradeType *)
Definition upgrade_type (h : headers) : str :=
  if contains_token (h_values (lit "connection") h) (lit "upgrade") then h_get (lit "upgrade") h else [].

(** net/http/httputil ReverseProxy.ServeHTTP: the headers of the outgoing request.
    Simplified: without the check that the upgrade type is printable, and without
    the default User-Agent. *)
Definition outgoing (be : backend) (cn : conn) (h : headers) : headers :=
  let te := contains_token (h_values (lit "te") h) (lit "trailers") in
  let h := director be cn h in
  let up := upgrade_type h in
  let h := remove_hop_by_hop h in
  let h := if te then h_set (lit "te") (lit "trailers") h else h in
  let h := if str_eqb up [] then h else h_set (lit "upgrade") up (h_set (lit "connection") (lit "Upgrade") h) in
  let prior := h_values xff h in
  h_set xff (match prior with [] => cn_peer cn | _ => join_hops (prior ++ [cn_peer cn]) end) h.

(** backend-http.go:210-354: the part of the reverse proxy after authorization.
    Not modelled: the rate limit, the request body, the raw (escaped) path. *)
Definition forward (ev : env) (be : backend) (cn : conn) (r : request) (c : option claims) : result :=
  let host := if str_eqb (rq_host r) [] then cn_name cn else rq_host r in
  if negb (mem (url_hostname host) (be_names be)) then Misdirected else
  let h := h_set (lit "host") host (rq_headers r) in
  let path := pathClean (rq_path r) in
  let go (ov : option nat) (sanitize : bool) (extra : list (str * str)) : result :=
    match be_addrs be with
    | [] => Static (serve_static (ev_fs ev) (be_root be) [] (rq_method r) (rq_path r))
    | _ =>
        let hs := hops (h_get via h) in
        if existsb (fun hop => str_eqb (hop_name hop) (cn_local cn)) hs then LoopDetected else
        let h := h_set via (join_hops (hs ++ [rq_proto r ++ lit " " ++ cn_local cn])) h in
        let '(h, ohost) := fold_left (apply_header ev c) extra (h, rq_host r) in
        Forward {| fw_override := ov; fw_host := ohost; fw_path := if sanitize then path else rq_path r; fw_headers := outgoing be cn h |}
    end in
  let sanitize := match be_sanitize be with None => true | Some b => b end in
  match choose path 0 (be_overrides be) with
  | CRedirect p => Redirect p
  | COverride i po prefix =>
      match po_addrs po with
      | [] => Static (serve_static (ev_fs ev) (po_root po) prefix (rq_method r) (rq_path r))
      | _ => go (Some i) (match po_sanitize po with Some b => b | None => sanitize end)
                (match po_headers po with Some l => l | None => be_headers be end)
      end
  | CDefault => go None sanitize (be_headers be)
  end.

(** backend-http.go:194-355 reverseProxy *)
Definition reverse_proxy (ev : env) (be : backend) (cn : conn) (r : request) : result :=
  match authenticate ev be r with
  | None => SetIDToken
  | Some (r1, c) =>
      match local_and_authorize ev be r1 c with
      | inl res => res
      | inr r2 => forward ev be cn r2 c
      end
  end.

(** backend-http.go:78-93 localHandler *)
Definition local_only (ev : env) (be : backend) (r : request) : result :=
  match authenticate ev be r with
  | None => SetIDToken
  | Some (r1, c) =>
      match local_and_authorize ev be r1 c with
      | inl res => res
      | inr r2 => Static (serve_static (ev_fs ev) (be_root be) [] (rq_method r2) (rq_path r2))
      end
  end.
