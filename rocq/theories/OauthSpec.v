(** What OpenID logins are checked against: how a provider reads the address to which a browser
    was sent and the request for tokens (RFC 6749, RFC 7636, OpenID Connect Core), which users
    are accepted, and which events leave a login alone. *)
From Verif Require Import Base OauthModel.
From Verif Require SamlModel SamlSpec XfccModel JwksModel LoginModel TokenModel.
Import SamlSpec(params, values_of, query_of, page_of).
Open Scope nat_scope.

(** *** The provider *)

(** Parameters must not occur twice (RFC 6749, section 3.1). *)
Definition one (k : str) (l : list (str * str)) : option str := match values_of k l with [v] => Some v | _ => None end.
(** A parameter that may be missing. *)
Definition at_most_one (k : str) (l : list (str * str)) : option (option str) :=
  match values_of k l with [] => Some None | [v] => Some (Some v) | _ => None end.

(** A request for a code, with a challenge (RFC 7636). *)
Record auth_request := {
  q_client : str; q_redirect : str; q_scopes : list str; q_state : str; q_nonce : str; q_challenge : str;
  q_domain : option str; q_hint : option str; q_prompt : option str
}.
Definition read_auth (url : str) : option auth_request :=
  let l := params (query_of url) in
  match one (lit "response_type") l, one (lit "code_challenge_method") l, one (lit "client_id") l, one (lit "redirect_uri") l, one (lit "scope") l with
  | Some ty, Some m, Some cl, Some re, Some sc =>
      match one (lit "state") l, one (lit "nonce") l, one (lit "code_challenge") l, at_most_one (lit "hd") l, at_most_one (lit "login_hint") l, at_most_one (lit "prompt") l with
      | Some s, Some n, Some ch, Some hd, Some hint, Some pr =>
          if str_eqb ty (lit "code") && str_eqb m (lit "S256") then
            Some {| q_client := cl; q_redirect := re; q_scopes := split_on " " sc; q_state := s; q_nonce := n; q_challenge := ch;
                    q_domain := hd; q_hint := hint; q_prompt := pr |}
          else None
      | _, _, _, _, _, _ => None
      end
  | _, _, _, _, _ => None
  end.
(** A request for tokens that the provider accepts for a code that it gave for a request: the
    client is the one that asked for the code, it knows its secret, and it has the verifier that
    belongs to the challenge. *)
Definition accepts (sha256 : str -> str) (secret : str) (q : auth_request) (code body : str) : Prop :=
  let l := params body in
  one (lit "grant_type") l = Some (lit "authorization_code") /\ one (lit "code") l = Some code /\
  one (lit "client_id") l = Some (q_client q) /\ one (lit "client_secret") l = Some secret /\
  one (lit "redirect_uri") l = Some (q_redirect q) /\
  exists v, one (lit "code_verifier") l = Some v /\ JwksModel.b64u (sha256 v) = q_challenge q.

(** *** Configurations *)

(** The address of the authorization endpoint has a scheme, only ASCII characters, and neither a
    query nor a fragment.  Scopes are not empty and have no blanks (RFC 6749, section 3.3). *)
Definition plain_url (u : str) : Prop :=
  SamlModel.has_scheme u = true /\ Forall (fun c => (N_of_ascii c < 128)%N) u.
Definition proper (cfg : config) : Prop :=
  plain_url (o_auth cfg) /\ ~ In "?"%char (o_auth cfg) /\ ~ In "#"%char (o_auth cfg) /\
  Forall (fun s => ~ In " "%char s) (o_scopes cfg).
(** What is asked for. *)
Definition wanted_scopes (cfg : config) : list str :=
  if Nat.eqb (List.length (o_scopes cfg)) 0 then [lit "openid"; lit "email"] else o_scopes cfg.
Definition unless_empty (s : str) : option str := if str_eqb s [] then None else Some s.
(** Of several options of a kind, the last one counts. *)
Fixpoint hint_of (opts : list option_fn) : option str :=
  match opts with
  | [] => None
  | o :: r => match hint_of r with Some h => Some h | None => match o with WithLoginHint v => Some v | _ => None end end
  end.
Fixpoint select_of (opts : list option_fn) : option bool :=
  match opts with
  | [] => None
  | o :: r => match select_of r with Some h => Some h | None => match o with WithSelectAccount v => Some v | _ => None end end
  end.

(** *** Users *)

(** The user has an ID and an address, the address is not said to be unverified, and the user
    belongs to the domain if there is one. *)
Definition acceptable (cfg : config) (c : user_claims) : Prop :=
  u_sub c <> [] /\ u_email c <> [] /\ u_verified c <> Some false /\
  (o_domain cfg <> [] -> u_domain c <> [] /\ (o_domain cfg = lit "*" \/ u_domain c = o_domain cfg)).
(** What a session says about its user. *)
Definition claim_of (c : user_claims) (k : str) : option str :=
  if str_eqb k (lit "source") then Some (match u_iss c with Some i => i | None => [] end)
  else if str_eqb k (lit "hd") then unless_empty (u_domain c)
  else if str_eqb k (lit "name") then unless_empty (u_name c)
  else if str_eqb k (lit "given_name") then unless_empty (u_given c)
  else if str_eqb k (lit "middle_name") then unless_empty (u_middle c)
  else if str_eqb k (lit "family_name") then unless_empty (u_family c)
  else if str_eqb k (lit "picture") then match unless_empty (u_picture c) with Some p => Some p | None => unless_empty (u_avatar c) end
  else None.

(** *** Histories *)

(** The events that leave a login and its callback alone: no other login gets the same nonce, no
    other callback brings its state, the provider does not give its nonce to another callback,
    and no callback comes after the deadline. *)
Definition leaves (l : lib) (raw : str) (id : nat) (deadline : Z) (e : event) : Prop :=
  match e with
  | ERequest _ _ _ raw' _ _ => raw' <> raw
  | ECallback id' form _ now => id' <> id /\ form_get (lit "state") form <> XfccModel.hex raw /\ (now <= deadline)%Z
  | ETokens id' a => id' <> id /\ forall t c, a = Some t -> l_jwt l (t_id t) = Some c -> u_nonce c <> XfccModel.hex raw
  | EInfo id' a => id' <> id /\ forall c, a = Some c -> u_nonce c <> XfccModel.hex raw
  end.

(** *** The built-in OpenID server as provider (LoginModel) *)

(** What its endpoints read from the address and from the body. *)
Definition ask (user : TokenModel.claims) (url : str) : LoginModel.auth_request :=
  let l := params (query_of url) in
  {| LoginModel.ar_user := Some user; LoginModel.ar_response_type := form_get (lit "response_type") l; LoginModel.ar_client := form_get (lit "client_id") l;
     LoginModel.ar_redirect := form_get (lit "redirect_uri") l; LoginModel.ar_nonce := form_get (lit "nonce") l;
     LoginModel.ar_scopes := split_on " " (form_get (lit "scope") l); LoginModel.ar_state := form_get (lit "state") l |}.
Definition redeem (body : str) : LoginModel.token_request :=
  let l := params body in
  {| LoginModel.tr_post := true; LoginModel.tr_grant := form_get (lit "grant_type") l; LoginModel.tr_code := form_get (lit "code") l;
     LoginModel.tr_client := form_get (lit "client_id") l; LoginModel.tr_secret := form_get (lit "client_secret") l; LoginModel.tr_redirect := form_get (lit "redirect_uri") l |}.
(** What an ID token says. *)
Definition said (c : TokenModel.claims) : user_claims :=
  let text k := match assoc k c with Some (TokenModel.VStr s) => s | _ => [] end in
  {| u_sub := text (lit "sub"); u_iss := match assoc (lit "iss") c with Some (TokenModel.VStr s) => Some s | _ => None end; u_email := text (lit "email");
     u_verified := match assoc (lit "email_verified") c with Some (TokenModel.VBool b) => Some b | _ => None end; u_nonce := text (lit "nonce");
     u_name := text (lit "name"); u_given := text (lit "given_name"); u_middle := text (lit "middle_name"); u_family := text (lit "family_name");
     u_picture := text (lit "picture"); u_avatar := text (lit "avatar_url"); u_domain := text (lit "hd") |}.
