(** The OpenID client (proxy/internal/oidc/client.go) with the messages that it sends to the
    provider: the address to which browsers are sent, the request for tokens, and the request
    for information about the user.  LoginModel has the same client without its messages. *)
From Verif Require Import Base XfccModel SamlModel.
From Verif Require JwksModel LoginModel.
Open Scope nat_scope.

(** proxy/internal/oidc/client.go:46-73 Config.  Simplified: the addresses of the endpoints
    are those after New (lines 108-147) has read the discovery document. *)
Record config := {
  o_auth : str; o_token : str; o_info : str; o_scopes : list str;
  o_redirect : str; o_client : str; o_secret : str; o_domain : str
}.

(** proxy/internal/idp/idp.go:26-29 LoginOptions *)
Record options := { lo_hint : str; lo_select : bool }.
(** proxy/internal/idp/idp.go:39-51 Option: WithLoginHint and WithSelectAccount. *)
Inductive option_fn := WithLoginHint (v : str) | WithSelectAccount (v : bool).
(** proxy/internal/idp/idp.go:41-51: what the functions do. *)
Definition apply_option (lo : options) (o : option_fn) : options :=
  match o with
  | WithLoginHint v => {| lo_hint := v; lo_select := lo_select lo |}
  | WithSelectAccount v => {| lo_hint := lo_hint lo; lo_select := v |}
  end.
(** proxy/internal/idp/idp.go:53-59 ApplyOptions *)
Definition apply_options (opts : list option_fn) : options := fold_left apply_option opts {| lo_hint := []; lo_select := false |}.

(** proxy/internal/oidc/client.go:100-106 oauthState *)
Record oauth_state := { os_created : Z; os_url : str; os_host : str; os_verifier : str; os_seen : bool }.
(** A callback that waits for an answer of the provider (client.go:228-301): for the tokens, or
    for information about the user.  The nonce is the state parameter. *)
Inductive phase := ForTokens | ForInfo.
(** proxy/internal/oidc/client.go:89-98 ProviderClient; [oc_waiting] are the goroutines of
    HandleCallback that talk to the provider. *)
Record client := { oc_states : list (str * oauth_state); oc_waiting : list (nat * (phase * str)) }.
(** proxy/internal/oidc/client.go:108-114 *)
Definition fresh_client : client := {| oc_states := []; oc_waiting := [] |}.

(** proxy/internal/oidc/client.go:246-250: the answer of the token endpoint. *)
Record tokens := { t_access : str; t_id : str; t_type : str }.
(** proxy/internal/oidc/client.go:255-268: what is said about the user.  [None] for the issuer:
    the field is not there.  Simplified: the fields that are not used are left out. *)
Record user_claims := {
  u_sub : str; u_iss : option str; u_email : str; u_verified : option bool; u_nonce : str;
  u_name : str; u_given : str; u_middle : str; u_family : str; u_picture : str; u_avatar : str; u_domain : str
}.

(** Libraries: crypto/sha256; what url.Parse accepts; jwt.Parser.ParseUnverified. *)
Record lib := { l_sha256 : str -> str; l_url : str -> bool; l_jwt : str -> option user_claims }.

(** What the client does. *)
Inductive answer :=
| Nothing                                              (* there is no such callback *)
| Status (code : N)                                    (* http.Error *)
| Away (cookie location : str)                         (* nonce cookie and status 302 *)
| PostTo (endpoint body : str)                         (* request for tokens *)
| GetFrom (endpoint authorization : str)               (* request for information about the user *)
| Session (user email sid host : str) (claims : list (str * str)) (location : str).  (* cookie and status 302 *)

(** proxy/internal/oidc/client.go:177-180 *)
Definition scopes_of (cfg : config) : list str :=
  match o_scopes cfg with [] => [lit "openid"; lit "email"] | l => l end.
(** proxy/internal/oidc/client.go:168-169: the hash of the verifier, for the provider. *)
Definition challenge (l : lib) (verifier : str) : str := JwksModel.b64u (l_sha256 l verifier).
(** proxy/internal/oidc/client.go:181-198: the address to which the browser is sent. *)
Definition auth_url (l : lib) (cfg : config) (lo : options) (nonce verifier : str) : str :=
  o_auth cfg ++ lit "?" ++
  lit "response_type=code" ++
  lit "&client_id=" ++ query_escape (o_client cfg) ++
  lit "&scope=" ++ query_escape (join " " (scopes_of cfg)) ++
  lit "&redirect_uri=" ++ query_escape (o_redirect cfg) ++
  lit "&state=" ++ nonce ++
  lit "&nonce=" ++ nonce ++
  lit "&code_challenge=" ++ challenge l verifier ++
  lit "&code_challenge_method=S256" ++
  (if str_eqb (o_domain cfg) [] then [] else lit "&hd=" ++ query_escape (o_domain cfg)) ++
  (if str_eqb (lo_hint lo) [] then [] else lit "&login_hint=" ++ query_escape (lo_hint lo)) ++
  (if lo_select lo then lit "&prompt=select_account" else []).

(** proxy/internal/oidc/client.go:149-202 RequestLogin.  [raw] and [secret] are the random
    bytes, [dir] is the directory of the path of the request. *)
Definition request_login (l : lib) (cfg : config) (opts : list option_fn) (dir url raw secret : str) (now : Z) (st : client) : client * answer :=
  if negb (l_url l url) then (st, Status 500)
  else
    let nonce := hex raw in
    let verifier := JwksModel.b64u secret in
    ({| oc_states := assoc_set nonce {| os_created := now; os_url := url; os_host := url_host url; os_verifier := verifier; os_seen := false |} (oc_states st);
        oc_waiting := oc_waiting st |},
     Away nonce (location dir (auth_url l cfg (apply_options opts) nonce verifier))).

(** Library net/http, Request.Form.Get: the first value of a parameter. *)
Definition form_get (k : str) (form : list (str * str)) : str := match assoc k form with Some v => v | None => [] end.
(** proxy/internal/oidc/client.go:228-234 and 236: the body of the request for tokens. *)
Definition token_body (cfg : config) (code verifier : str) : str :=
  encode (fold_left add
    [(lit "code", code); (lit "client_id", o_client cfg); (lit "client_secret", o_secret cfg); (lit "redirect_uri", o_redirect cfg);
     (lit "grant_type", lit "authorization_code"); (lit "code_verifier", verifier)] []).
(** proxy/internal/oidc/client.go:217-219: state.Seen = true *)
Definition mark (s : oauth_state) : oauth_state :=
  {| os_created := os_created s; os_url := os_url s; os_host := os_host s; os_verifier := os_verifier s; os_seen := true |}.
(** proxy/internal/oidc/client.go:204-241, up to the request for tokens.  [cookie] is the value
    of the nonce cookie, empty if there is none. *)
Definition callback (cfg : config) (id : nat) (form : list (str * str)) (cookie : str) (now : Z) (st : client) : client * answer :=
  let states := filter (fun kv => negb (5 * LoginModel.minute <? now - os_created (snd kv))%Z) (oc_states st) in
  let nonce := form_get (lit "state") form in
  match assoc nonce states with
  | None => ({| oc_states := states; oc_waiting := oc_waiting st |}, Status 400)
  | Some s =>
      let states := assoc_set nonce (mark s) states in
      if os_seen s || negb (str_eqb nonce cookie) then ({| oc_states := states; oc_waiting := oc_waiting st |}, Status 400)
      else ({| oc_states := states; oc_waiting := (id, (ForTokens, nonce)) :: oc_waiting st |},
            PostTo (o_token cfg) (token_body cfg (form_get (lit "code") form) (os_verifier s)))
  end.

(** Artefact: the callback with this number, if it waits for this answer. *)
Definition waits (id : nat) (ph : phase) (st : client) : option str :=
  match find (fun w => Nat.eqb (fst w) id) (oc_waiting st) with
  | Some (_, (p, nonce)) => match p, ph with ForTokens, ForTokens | ForInfo, ForInfo => Some nonce | _, _ => None end
  | None => None
  end.
(** Artefact: a callback that has been answered waits no longer. *)
Definition done (id : nat) (st : client) : client :=
  {| oc_states := oc_states st; oc_waiting := filter (fun w => negb (Nat.eqb (fst w) id)) (oc_waiting st) |}.

(** proxy/internal/oidc/client.go:332-354: claims for the session. *)
Definition extra_claims (c : user_claims) : list (str * str) :=
  let opt k v := if str_eqb v [] then [] else [(k, v)] in
  [(lit "source", match u_iss c with Some i => i | None => [] end)] ++
  opt (lit "hd") (u_domain c) ++ opt (lit "name") (u_name c) ++ opt (lit "given_name") (u_given c) ++ opt (lit "middle_name") (u_middle c) ++
  opt (lit "family_name") (u_family c) ++
  (if str_eqb (u_picture c) [] then opt (lit "picture") (u_avatar c) else [(lit "picture", u_picture c)]).

(** Library net/url: the path of a URL. *)
Definition url_path (u : str) : str :=
  let '(u, _, _) := cut "#" u in
  let '(u, _, _) := cut "?" u in
  let rest := if has_scheme u then let '(_, r, _) := cut ":" u in r else u in
  if has_prefix rest (lit "//") then
    let '(_, p, found) := cut "/" (skipn 2 rest) in if found then "/"%char :: p else []
  else rest.
(** Library path, Split: up to the last slash; and net/http Redirect, which takes the root if
    the path is empty. *)
Fixpoint path_dir (p : str) : str :=
  match p with
  | [] => []
  | c :: r => if Ascii.eqb c "/" || has_char "/" r then c :: path_dir r else []
  end.
(** Library net/http, Redirect: the directory for relative addresses. *)
Definition url_dir (u : str) : str := match url_path u with [] => lit "/" | p => path_dir p end.

(** Library strings, ToLower, for ASCII; no other character becomes a letter of "bearer". *)
Definition to_lower (s : str) : str := map lower_char s.
(** proxy/internal/oidc/client.go:303-358, when the user is known, with
    proxy/internal/cookiemanager/cookiemanager.go:64-67, which refuses users without an ID.
    The variable req is the request for tokens at that point (line 236), so relative addresses
    are relative to the token endpoint.  Simplified: SetAuthTokenCookie does not fail in
    another way. *)
Definition finish (cfg : config) (id : nat) (state : str) (c : user_claims) (st : client) : client * answer :=
  let nonce := if str_eqb (u_nonce c) [] then state else u_nonce c in
  let st' := done id {| oc_states := assoc_del nonce (oc_states st); oc_waiting := oc_waiting st |} in
  match assoc nonce (oc_states st) with
  | None => (st', Status 403)
  | Some s =>
      if str_eqb (u_email c) [] then (st', Status 500)
      else if match u_verified c with Some false => true | _ => false end then (st', Status 403)
      else if negb (str_eqb (o_domain cfg) []) &&
              (str_eqb (u_domain c) [] || (negb (str_eqb (o_domain cfg) (lit "*")) && negb (str_eqb (u_domain c) (o_domain cfg)))) then (st', Status 403)
      else if str_eqb (u_sub c) [] || str_eqb (u_email c) [] then (st', Status 500)
      else (st', Session (u_sub c) (u_email c) nonce (os_host s) (extra_claims c) (location (url_dir (o_token cfg)) (os_url s)))
  end.
(** proxy/internal/oidc/client.go:240-302, when the token endpoint has answered.  [None]: the
    request failed, or the answer is not JSON.  Nothing looks at the status of the answer. *)
Definition token_answer (l : lib) (cfg : config) (id : nat) (a : option tokens) (st : client) : client * answer :=
  match waits id ForTokens st with
  | None => (st, Nothing)
  | Some state =>
      match a with
      | None => (done id st, Status 500)
      | Some t =>
          if negb (str_eqb (t_id t) []) then
            match l_jwt l (t_id t) with None => (done id st, Status 500) | Some c => finish cfg id state c st end
          else if negb (str_eqb (o_info cfg) []) && (str_eqb (t_type t) [] || str_eqb (to_lower (t_type t)) (lit "bearer")) then
            ({| oc_states := oc_states st; oc_waiting := (id, (ForInfo, state)) :: oc_waiting (done id st) |},
             GetFrom (o_info cfg) (lit "Bearer " ++ t_access t))
          else (done id st, Status 500)
      end
  end.
(** proxy/internal/oidc/client.go:294-298: the issuer is the endpoint if the answer does not say
    something else. *)
Definition from_endpoint (cfg : config) (c : user_claims) : user_claims :=
  {| u_sub := u_sub c; u_iss := Some (match u_iss c with Some i => i | None => o_info cfg end); u_email := u_email c; u_verified := u_verified c;
     u_nonce := u_nonce c; u_name := u_name c; u_given := u_given c; u_middle := u_middle c; u_family := u_family c;
     u_picture := u_picture c; u_avatar := u_avatar c; u_domain := u_domain c |}.
(** proxy/internal/oidc/client.go:288-298, when the endpoint has answered; [None] as above. *)
Definition info_answer (cfg : config) (id : nat) (a : option user_claims) (st : client) : client * answer :=
  match waits id ForInfo st with
  | None => (st, Nothing)
  | Some state => match a with None => (done id st, Status 500) | Some c => finish cfg id state (from_endpoint cfg c) st end
  end.

(** Artefact: what happens to the client.  A callback is in three parts, since other requests
    are handled while it waits for the provider. *)
Inductive event :=
| ERequest (opts : list option_fn) (dir url raw secret : str) (now : Z)
| ECallback (id : nat) (form : list (str * str)) (cookie : str) (now : Z)
| ETokens (id : nat) (a : option tokens)
| EInfo (id : nat) (a : option user_claims).
(** Artefact: one event. *)
Definition step (l : lib) (cfg : config) (st : client) (e : event) : client * answer :=
  match e with
  | ERequest opts dir url raw secret now => request_login l cfg opts dir url raw secret now st
  | ECallback id form cookie now => callback cfg id form cookie now st
  | ETokens id a => token_answer l cfg id a st
  | EInfo id a => info_answer cfg id a st
  end.
(** Artefact: a history. *)
Fixpoint run (l : lib) (cfg : config) (st : client) (es : list event) : client :=
  match es with [] => st | e :: r => run l cfg (fst (step l cfg st e)) r end.
