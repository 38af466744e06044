(** The built-in OpenID server as its clients find it: the discovery document, where the
    endpoints are, and what the token endpoint reads (proxy/internal/oidc/server.go,
    proxy/proxy.go). *)
From Verif Require Import Base PathModel TokenModel HttpModel LoginModel.
Open Scope list_scope.

(** config.go:713-723 LocalOIDCServer, with the server names of its backend. *)
Record provider := { p_names : list str; p_prefix : str; p_clients : list client }.

(** ** Endpoints *)

(** Artefact: the handlers, for [lh_id]. *)
Definition h_config : nat := 10.
(** Artefact *)
Definition h_authorization : nat := 11.
(** Artefact *)
Definition h_token : nat := 12.
(** Artefact *)
Definition h_userinfo : nat := 13.
(** Artefact *)
Definition h_jwks : nat := 14.

(** oidc/server.go:53: wellKnownOpenIDConfigurationPath *)
Definition config_path : str := lit "/.well-known/openid-configuration".
(** oidc/server.go:54: authorizationPath *)
Definition authorization_path : str := lit "/authorization".
(** oidc/server.go:55: tokenPath *)
Definition token_path : str := lit "/token".
(** oidc/server.go:56: userInfoPath *)
Definition userinfo_path : str := lit "/userinfo".
(** oidc/server.go:57: jwksPath *)
Definition jwks_path : str := lit "/jwks".

(** proxy/proxy.go:534-563: one of the handlers of the server. *)
Definition fixed (id : nat) (path : str) (bypass : bool) : local_handler :=
  {| lh_id := id; lh_host := []; lh_path := path; lh_prefix := false; lh_bypass := bypass |}.
(** proxy/proxy.go:534-563: the handlers of the server.  There is none when the backend has
    no name (508). *)
Definition oidc_handlers (p : provider) : list local_handler :=
  match p_names p with
  | [] => []
  | _ => [fixed h_config (p_prefix p ++ config_path) true;
          fixed h_authorization (p_prefix p ++ authorization_path) false;
          fixed h_token (p_prefix p ++ token_path) true;
          fixed h_userinfo (p_prefix p ++ userinfo_path) true;
          fixed h_jwks (p_prefix p ++ jwks_path) true]
  end.

(** proxy/proxy.go:511: Issuer *)
Definition issuer (p : provider) : str := lit "https://" ++ hd [] (p_names p) ++ p_prefix p.

(** proxy/proxy.go:509-525 and oidc/server.go:88-100: the options of the server. *)
Definition options (p : provider) (parses : str -> bool) : config :=
  {| cf_issuer := issuer p; cf_clients := p_clients p; cf_parses := parses |}.

(** ** The document *)

(** oidc/server.go:60-71 openIDConfiguration *)
Record document := {
  dc_issuer : str; dc_authorization : str; dc_token : str; dc_userinfo : str; dc_jwks : str;
  dc_response_types : list str; dc_subject_types : list str; dc_algorithms : list str;
  dc_scopes : list str; dc_claims : list str
}.

(** oidc/server.go:162-202 ServeConfig: the document for a request with this Host. *)
Definition discovery (p : provider) (req_host : str) : document :=
  let host := match split_host_port req_host with Some h => h | None => req_host end in
  let at_ (path : str) := lit "https://" ++ host ++ p_prefix p ++ path in
  {| dc_issuer := issuer p;
     dc_authorization := at_ authorization_path;
     dc_token := at_ token_path;
     dc_userinfo := at_ userinfo_path;
     dc_jwks := at_ jwks_path;
     dc_response_types := [lit "code"];
     dc_subject_types := [lit "public"];
     dc_algorithms := [lit "RS256"; lit "ES256"];
     dc_scopes := [lit "openid"; lit "email"; lit "profile"];
     dc_claims := map lit ["aud"; "email"; "exp"; "family_name"; "middle_name"; "given_name"; "iat"; "iss";
                           "locale"; "name"; "picture"; "sub"]%string |}.

(** ** Conditional requests *)

(** Artefact: the answer to a conditional request. *)
Inductive reply := NotModified | Content (body : str).
(** oidc/server.go:210-222 ServeConfig, pki/http.go:529-539 etag, tokenmanager.go:495-506,
    passkeys/manager.go:195-207, backend-sso.go:148-159: [hash] is the hexadecimal SHA-256
    sum, [held] the header If-None-Match. *)
Definition conditional (hash : str -> str) (body held : str) : reply :=
  let etag := lit """" ++ hash body ++ lit """" in
  if str_eqb held etag then NotModified else Content body.

(** ** The token endpoint *)

(** http.Request.FormValue of a parsed form: the first value, or nothing. *)
Definition form_get (form : list (str * str)) (k : str) : str := match assoc k form with Some v => v | None => [] end.
(** oidc/server.go:338-352 ServeToken: what it reads from a request; no header is looked
    at. *)
Definition read_token_request (method : str) (h : headers) (form : list (str * str)) : token_request :=
  {| tr_post := str_eqb method (lit "POST"); tr_grant := form_get form (lit "grant_type");
     tr_code := form_get form (lit "code"); tr_client := form_get form (lit "client_id");
     tr_secret := form_get form (lit "client_secret"); tr_redirect := form_get form (lit "redirect_uri") |}.

(** oidc/server.go:225-303 ServeAuthorization: what it reads from a request of a user with
    these claims. *)
Definition read_auth_request (user : option claims) (form : list (str * str)) : auth_request :=
  {| ar_user := user; ar_response_type := form_get form (lit "response_type");
     ar_client := form_get form (lit "client_id"); ar_redirect := form_get form (lit "redirect_uri");
     ar_nonce := form_get form (lit "nonce"); ar_scopes := split_on " " (form_get form (lit "scope"));
     ar_state := form_get form (lit "state") |}.

(** backend-http.go:419-456 and oidc/server.go:225: a request for the authorization
    endpoint, from the socket to the answer.  [None]: something else answers. *)
Definition at_authorization (ev : env) (be : backend) (cn : conn) (cfg : config) (code access : str)
    (rw : list (str * str)) (r : request) (form : list (str * str)) (sv : server) : result + (server * output) :=
  match reverse_proxy ev be cn r with
  | Local h =>
      if Nat.eqb (lh_id h) h_authorization then
        let user := match authenticate ev be r with Some (_, c) => c | None => None end in
        inr (authorize cfg (ev_keys ev) (ev_now ev) code access rw (read_auth_request user form) sv)
      else inl (Local h)
  | res => inl res
  end.
