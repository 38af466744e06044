(** What it means that a browser shows the proxy a session, with tokens as texts. *)
From Verif Require Import Base PathModel TokenModel HttpModel BrowserModel BrowserSpec JwtModel.
From Verif Require HttpSpec.
Open Scope Z_scope.

(** The proxy set the session cookie [token] at host [h0] at the time [t0]; the browser asks
    host [h1] for [path] at the time [now].  The Domain of the cookie reaches both hosts, the
    cookie is not too large and not too old, and no other session cookie came afterwards. *)
Record shows (br : browser) (before after : list event) (domain h0 h1 token : str) (t0 now : Z) (path : str) (more : headers) : Prop := {
  sh_before : received_ok before; sh_after : received_ok after; sh_from : all_from domain before; sh_last : none_named auth_cookie after;
  sh_reach : reach br domain h0 h1; sh_fits : BrowserSpec.fits br auth_cookie token; sh_path : rooted path; sh_time : now < t0 + 24 * 3600;
  sh_cookies : h_values (lit "cookie") more = []; sh_bearer : h_values (lit "authorization") more = []
}.

(** The request of the browser. *)
Definition visit (br : browser) (before after : list event) (domain h0 h1 token : str) (t0 now : Z) (path : str) (more : headers) : request :=
  browse br (jar_after br (before ++ login_at h0 domain token t0 :: after)) h1 path now more.

(** The proxy reads tokens as texts: RFC 7515, with the names and keys of its key ring. *)
Definition reads_texts (name : nat -> str) (verify : nat -> ktype -> str -> str -> bool) (num : str -> Z) (ev : env) : Prop :=
  ev_decode ev = jwt_of name verify num (ev_keys ev).

(** Claims that are all texts. *)
Definition text_claims_of (l : list (str * str)) : claims := map (fun kv => (fst kv, VStr (snd kv))) l.

(** A session that is made at the time [made] works: whatever the keys and the provider, there
    is a token, and for the 20 hours that it lasts a browser that shows it at the host of the
    session gets in, and the backend is told the e-mail address. *)
Definition session_works (name : nat -> str) (sign : nat -> ktype -> str -> str) (verify : nat -> ktype -> str -> str -> bool) (num : str -> Z)
    (user email sid host : str) (made : Z) (extra : claims) : Prop :=
  forall hhash cm, cm_issuer cm <> [] ->
  exists c, session_claims hhash cm user email sid host made extra = Some c /\
  forall keys t token br before after domain h0 now path more ev be s cn,
    create_text name sign keys made t c = Some token ->
    reads_texts name verify num ev -> NoDup (map (fun k => name (kid k)) (ev_keys ev)) -> (forall k, In k keys -> In k (ev_keys ev)) -> ev_now ev < made + 20 * 3600 ->
    shows br before after domain h0 host token made now path more ->
    ev_hash ev = hhash -> be_sso be = Some s -> sso_cm s = cm -> (sso_force s = 0 \/ ev_now ev - made <= sso_force s) ->
    let r := visit br before after domain h0 host token made now path more in
    reverse_proxy ev be cn r <> Login /\ reverse_proxy ev be cn r <> AuthRequired /\
    (forall f, reverse_proxy ev be cn r = Forward f -> HttpSpec.rules_leave be user_header -> HttpSpec.rules_leave be (lit "connection") ->
      ~ HttpSpec.connection_names (rq_headers r) user_header -> h_values user_header (fw_headers f) = if sso_user_header s then [email] else []).
