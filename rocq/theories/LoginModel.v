(** Logins: the built-in OpenID server (internal/oidc/server.go), the OpenID client
    (internal/oidc/client.go) and SAML (internal/saml/saml.go).

    Every server keeps a map under a mutex.  An operation here is one critical
    section together with the computations of the request around it, which touch
    nothing shared; a history is any sequence of operations, so requests may
    interleave in every way. *)
From Verif Require Import Base TokenModel.
Open Scope Z_scope.

(** Artefact: time.Minute in seconds. *)
Definition minute : Z := 60.

(** ** The OpenID server *)

(** server.go:140-144 *)
Record client := { cl_id : str; cl_secret : str; cl_uris : list str }.
(** server.go:88-100 ServerOptions; [cf_parses]: what url.Parse accepts *)
Record config := { cf_issuer : str; cf_clients : list client; cf_parses : str -> bool }.

(** server.go:73-79 *)
Record code_data := { cd_created : Z; cd_client : str; cd_token : jwt; cd_scope : str; cd_access : str }.
(** server.go:81-85 accessData *)
Record access_data := { ad_created : Z; ad_client : str; ad_claims : claims }.
(** server.go:129-138 ProviderServer: the two maps of the server. *)
Record server := { sv_codes : list (str * code_data); sv_access : list (str * access_data) }.
(** server.go:118-127 NewServer: no code, no token. *)
Definition empty_server : server := {| sv_codes := []; sv_access := [] |}.

(** server.go:146-160 vacuum *)
Definition vacuum (now : Z) (sv : server) : server :=
  {| sv_codes := filter (fun kv => negb (cd_created (snd kv) + 2 * minute <? now)) (sv_codes sv);
     sv_access := filter (fun kv => negb (ad_created (snd kv) + 2 * minute <? now)) (sv_access sv) |}.

(** What the endpoints read from requests. *)
Record auth_request := {
  ar_user : option claims;       (* of the logged-in user *)
  ar_response_type : str; ar_client : str; ar_redirect : str; ar_nonce : str; ar_scopes : list str; ar_state : str
}.
(** Artefact: what ServeToken reads from a request (server.go:338-372). *)
Record token_request := { tr_post : bool; tr_grant : str; tr_code : str; tr_client : str; tr_secret : str; tr_redirect : str }.

(** Artefact: the answers. *)
Inductive output :=
| Nothing
| Refused
| SendTo (uri state code scope : str)                (* 302 to the client *)
| Tokens (id_token : jwt) (access scope : str)
| Info (c : claims).

(** server.go:288-303: the scope that was granted. *)
Definition scope_of (scopes : list str) : str :=
  lit "openid" ++ (if mem (lit "email") scopes then lit " email" else []) ++ (if mem (lit "profile") scopes then lit " profile" else []).

(** server.go:225-336 ServeAuthorization.  [code] and [access] are the random strings,
    [rw] the results of the rewrite rules. *)
Definition authorize (cfg : config) (keys : list key) (now : Z) (code access : str) (rw : list (str * str)) (ar : auth_request) (sv : server) : server * output :=
  match ar_user ar with
  | None => (sv, Refused)
  | Some user =>
      if negb (str_eqb (ar_response_type ar) (lit "code")) then (sv, Refused)
      else if negb (existsb (fun c => str_eqb (cl_id c) (ar_client ar) && mem (ar_redirect ar) (cl_uris c)) (cf_clients cfg)) then (sv, Refused)
      else if negb (cf_parses cfg (ar_redirect ar)) then (sv, Refused)
      else
        let cl := apply_rewrites rw (oidc_claims (cf_issuer cfg) (ar_client ar) user now (ar_nonce ar) (ar_scopes ar)) in
        match create_token keys now RSA cl with
        | None => (sv, Refused)
        | Some t =>
            let sc := scope_of (ar_scopes ar) in
            ({| sv_codes := assoc_set code {| cd_created := now; cd_client := ar_client ar; cd_token := t; cd_scope := sc; cd_access := access |} (sv_codes sv);
                sv_access := assoc_set access {| ad_created := now; ad_client := ar_client ar; ad_claims := cl |} (sv_access sv) |},
             SendTo (ar_redirect ar) (ar_state ar) code sc)
        end
  end.

(** server.go:338-400 ServeToken *)
Definition exchange (cfg : config) (tr : token_request) (sv : server) : server * output :=
  if negb (tr_post tr) then (sv, Refused)
  else if negb (str_eqb (tr_grant tr) (lit "authorization_code")) then (sv, Refused)
  else if negb (existsb (fun c => str_eqb (cl_id c) (tr_client tr) && str_eqb (cl_secret c) (tr_secret tr) && mem (tr_redirect tr) (cl_uris c)) (cf_clients cfg)) then (sv, Refused)
  else
    let sv' := {| sv_codes := assoc_del (tr_code tr) (sv_codes sv); sv_access := sv_access sv |} in
    match assoc (tr_code tr) (sv_codes sv) with
    | None => (sv', Refused)
    | Some d => if negb (str_eqb (cd_client d) (tr_client tr)) then (sv', Refused)
                else (sv', Tokens (cd_token d) (cd_access d) (cd_scope d))
    end.

(** server.go:402-450 ServeUserInfo, with the access token from the header *)
Definition hidden_claims : list str := [lit "iss"; lit "aud"; lit "iat"; lit "exp"; lit "nbf"; lit "scope"; lit "sid"; lit "nonce"].
(** server.go:402-450 ServeUserInfo. *)
Definition user_info (access : str) (sv : server) : server * output :=
  let sv' := {| sv_codes := sv_codes sv; sv_access := assoc_del access (sv_access sv) |} in
  match assoc access (sv_access sv) with
  | None => (sv', Refused)
  | Some d => (sv', Info (filter (fun kv => negb (mem (fst kv) hidden_claims)) (ad_claims d)))
  end.

(** Every endpoint first calls vacuum with a reading of the clock. *)
Inductive op :=
| Vacuum (now : Z)
| Authorize (keys : list key) (now : Z) (code access : str) (rw : list (str * str)) (ar : auth_request)
| Exchange (tr : token_request)
| UserInfo (access : str).

(** Artefact: one operation. *)
Definition step (cfg : config) (sv : server) (o : op) : server * output :=
  match o with
  | Vacuum now => (vacuum now sv, Nothing)
  | Authorize keys now code access rw ar => authorize cfg keys now code access rw ar sv
  | Exchange tr => exchange cfg tr sv
  | UserInfo a => user_info a sv
  end.
(** Artefact: a history with the answers. *)
Fixpoint run (cfg : config) (sv : server) (ops : list op) : server * list (op * output) :=
  match ops with
  | [] => (sv, [])
  | o :: r => let '(sv1, out) := step cfg sv o in let '(sv2, tr) := run cfg sv1 r in (sv2, (o, out) :: tr)
  end.

(** ** The OpenID client *)

(** client.go:100-106 oauthState *)
Record login_state := { ls_created : Z; ls_url : str; ls_host : str; ls_seen : bool }.

(** What the provider says about the user (client.go:254-267) *)
Record provider_claims := { pc_sub : str; pc_email : str; pc_verified : option bool; pc_nonce : str; pc_domain : str }.

(** A session that is created in the browser, and where the browser is sent. *)
Record session := { se_user : str; se_email : str; se_sid : str; se_host : str; se_url : str }.

(** [waiting]: callbacks that passed the first critical section and are talking to the
    provider, with the browser and the state parameter. *)
Record client_st := { cs_states : list (str * login_state); cs_waiting : list (nat * (nat * str)) }.
(** client.go:108-147 New: no pending login. *)
Definition empty_client : client_st := {| cs_states := []; cs_waiting := [] |}.

(** Artefact: the critical sections of the client. *)
Inductive client_op :=
| Login (browser : nat) (nonce : str) (now : Z) (url host : str)                (* client.go:149-202 RequestLogin *)
| Begin (id browser : nat) (state cookie : str) (now : Z)     (* client.go:208-226: state parameter and nonce cookie *)
| Finish (id : nat) (c : provider_claims).                    (* client.go:303-358 *)

(** Artefact: the answers. *)
Inductive client_out := CNothing | CRefused | CSession (browser : nat) (s : session).

(** client.go:319-330, [domain] is Config.HostedDomain *)
Definition user_ok (domain : str) (c : provider_claims) : bool :=
  negb (str_eqb (pc_email c) []) &&
  match pc_verified c with Some false => false | _ => true end &&
  (str_eqb domain [] || (negb (str_eqb (pc_domain c) []) && (str_eqb domain (lit "*") || str_eqb (pc_domain c) domain))).

(** client.go:218: state.Seen = true. *)
Definition seen (s : login_state) : login_state := {| ls_created := ls_created s; ls_url := ls_url s; ls_host := ls_host s; ls_seen := true |}.

(** client.go:149-358, one critical section. *)
Definition client_step (domain : str) (st : client_st) (o : client_op) : client_st * client_out :=
  match o with
  | Login _ nonce now url host =>
      ({| cs_states := assoc_set nonce {| ls_created := now; ls_url := url; ls_host := host; ls_seen := false |} (cs_states st);
          cs_waiting := cs_waiting st |}, CNothing)
  | Begin id b state cookie now =>
      let states := filter (fun kv => negb (5 * minute <? now - ls_created (snd kv))) (cs_states st) in
      match assoc state states with
      | None => ({| cs_states := states; cs_waiting := cs_waiting st |}, CRefused)
      | Some s =>
          let states := assoc_set state (seen s) states in
          if ls_seen s || negb (str_eqb state cookie) then ({| cs_states := states; cs_waiting := cs_waiting st |}, CRefused)
          else ({| cs_states := states; cs_waiting := (id, (b, state)) :: cs_waiting st |}, CNothing)
      end
  | Finish id c =>
      match find (fun w => Nat.eqb (fst w) id) (cs_waiting st) with
      | None => (st, CNothing)
      | Some (_, (b, state)) =>
          let nonce := if str_eqb (pc_nonce c) [] then state else pc_nonce c in
          let st' := {| cs_states := assoc_del nonce (cs_states st); cs_waiting := filter (fun w => negb (Nat.eqb (fst w) id)) (cs_waiting st) |} in
          match assoc nonce (cs_states st) with
          | None => (st', CRefused)
          | Some s =>
              if user_ok domain c then
                (st', CSession b {| se_user := pc_sub c; se_email := pc_email c; se_sid := nonce; se_host := ls_host s; se_url := ls_url s |})
              else (st', CRefused)
          end
      end
  end.
(** Artefact: a history with the answers. *)
Fixpoint client_run (domain : str) (st : client_st) (ops : list client_op) : client_st * list (client_op * client_out) :=
  match ops with
  | [] => (st, [])
  | o :: r => let '(st1, out) := client_step domain st o in let '(st2, tr) := client_run domain st1 r in (st2, (o, out) :: tr)
  end.

(** ** SAML *)

(** The parts of a SAML assertion that are read (saml.go:186-240).  The pending logins
    (saml.go:78-82) use [login_state] with [ls_seen] always false. *)
Record assertion := {
  as_in_response_to : str; as_recipient : str; as_audience : str;
  as_not_before : option Z; as_not_after : option Z;   (* [None]: missing or malformed *)
  as_subject : str
}.
(** saml.go:61-66 Config: the addresses of the service provider. *)
Record saml_config := { sc_acs : str; sc_self : str (* "https://" + host of the ACS URL + "/" *) }.

(** Artefact: the two requests. *)
Inductive saml_op :=
| SLogin (browser : nat) (id : str) (now : Z) (url host : str)     (* saml.go:108-149 RequestLogin *)
| SResponse (browser : nat) (a : option assertion) (now later : Z). (* saml.go:151-261 HandleCallback; [None]: no valid
                                                                        signature; two readings of the clock *)

(** saml.go:204-235 *)
Definition assertion_ok (cfg : saml_config) (now : Z) (a : assertion) : bool :=
  str_eqb (as_recipient a) (sc_acs cfg) && str_eqb (as_audience a) (sc_self cfg) &&
  match as_not_before a with Some t => negb (now <? t) | None => false end &&
  match as_not_after a with Some t => negb (t <? now) | None => false end &&
  negb (str_eqb (as_subject a) []).

(** saml.go:108-261, one critical section. *)
Definition saml_step (cfg : saml_config) (st : list (str * login_state)) (o : saml_op) : list (str * login_state) * client_out :=
  match o with
  | SLogin _ id now url host => (assoc_set id {| ls_created := now; ls_url := url; ls_host := host; ls_seen := false |} st, CNothing)
  | SResponse b None _ _ => (st, CRefused)
  | SResponse b (Some a) now later =>
      let states := filter (fun kv => negb (5 * minute <? now - ls_created (snd kv))) st in
      let id := as_in_response_to a in
      match assoc id states with
      | None => (states, CRefused)
      | Some s =>
          (assoc_del id states,
           if assertion_ok cfg later a then
             CSession b {| se_user := as_subject a; se_email := as_subject a; se_sid := id; se_host := ls_host s; se_url := ls_url s |}
           else CRefused)
      end
  end.
(** Artefact: a history with the answers. *)
Fixpoint saml_run (cfg : saml_config) (st : list (str * login_state)) (ops : list saml_op) : list (str * login_state) * list (saml_op * client_out) :=
  match ops with
  | [] => (st, [])
  | o :: r => let '(st1, out) := saml_step cfg st o in let '(st2, tr) := saml_run cfg st1 r in (st2, (o, out) :: tr)
  end.
