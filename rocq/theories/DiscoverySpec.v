(** What a client of the OpenID server relies on. *)
From Verif Require Import Base PathModel TokenModel HttpModel LoginModel DiscoveryModel.

(** https://<host><path> *)
Definition https (host path : str) : str := lit "https://" ++ host ++ path.

(** The endpoints of the document, by the handler that should answer. *)
Definition advertised (d : document) (id : nat) (url : str) : Prop :=
  (id = h_authorization /\ url = dc_authorization d) \/ (id = h_token /\ url = dc_token d) \/
  (id = h_userinfo /\ url = dc_userinfo d) \/ (id = h_jwks /\ url = dc_jwks d).

(** OpenID Connect Discovery 1.0, section 4: where clients look for the document. *)
Definition well_known : str := lit "/.well-known/openid-configuration".

(** The paths below the prefix. *)
Definition endpoint_paths : list str := [well_known; authorization_path; token_path; userinfo_path; jwks_path].

(** The prefix does not need cleaning. *)
Definition clean_prefix (p : provider) : Prop :=
  forall e, In e endpoint_paths -> pathClean (p_prefix p ++ e) = p_prefix p ++ e.

(** The backend has the endpoints of the server, and no other endpoint answers there. *)
Definition serves (be : backend) (p : provider) : Prop :=
  p_names p = be_names be /\ p_names p <> [] /\
  (forall h, In h (oidc_handlers p) -> In h (be_handlers be)) /\
  (forall h h' host, In h (oidc_handlers p) -> In h' (be_handlers be) ->
     handler_matches host (lh_path h) h' = true -> h' = h).

(** RFC 8414 and OpenID Connect Discovery 1.0: without a list of authentication methods of
    the token endpoint, clients use HTTP Basic, that is the header Authorization and no
    secret in the form. *)
Definition authenticates_by_default (h : headers) (form : list (str * str)) (basic : str) : Prop :=
  h_get (lit "authorization") h = lit "Basic " ++ basic /\ assoc (lit "client_secret") form = None.

(** The name of the algorithm of a key. *)
Definition algorithm (t : ktype) : str := match t with RSA => lit "RS256" | EC => lit "ES256" | ED => lit "EdDSA" end.

(** A rewrite rule does not produce this claim. *)
Definition rules_keep (rw : list (str * str)) (k : str) : Prop := forall v, ~ In (k, v) rw.
