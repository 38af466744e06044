(** Signed tokens: keys, creation, validation, and the different kinds of tokens
    (proxy/internal/tokenmanager, proxy/internal/cookiemanager). *)
From Verif Require Import Base.
Open Scope Z_scope.

(** Times are in seconds. *)
Definition hour : Z := 3600.
(** Artefact: 24 hours. *)
Definition day : Z := 24 * hour.

(** ** Keys *)

(** tokenmanager.go:193-218 createNewTokenKeys: the three types of keys. *)
Inductive ktype := EC | RSA | ED.
(** Artefact: equality. *)
Definition ktype_eqb (a b : ktype) : bool :=
  match a, b with EC, EC | RSA, RSA | ED, ED => true | _, _ => false end.

(** tokenmanager.go:69-75 tokenKey.  The 16 byte random ID is a number here; the
    caller of [batch] chooses a fresh one. *)
Record key := { kid : nat; ktyp : ktype; created : Z }.

(** tokenmanager.go:193-218 createNewTokenKeys.  With a TPM there is no Ed25519
    key.  Simplified: the keys of one batch get the same creation time. *)
Definition batch (tpm : bool) (id : nat) (now : Z) : list key :=
  {| kid := id; ktyp := EC; created := now |} ::
  {| kid := S id; ktyp := RSA; created := now |} ::
  (if tpm then [] else [{| kid := S (S id); ktyp := ED; created := now |}]).

(** tokenmanager.go:130-191 rotateKeys, run at start and then every hour.
    Simplified: storage does not fail and every stored key can be decoded, so the
    keys in memory are the stored ones. *)
Definition rotate (tpm : bool) (id : nat) (now : Z) (keys0 : list key) : list key :=
  let keys := match keys0 with [] => batch tpm id now | _ => keys0 end in
  let keys :=
    match rev keys with
    | newest :: _ => if created newest + 24 * hour <? now then keys ++ batch tpm id now else keys
    | [] => keys
    end in
  match keys with
  | k :: rest => if created k + 7 * 24 * hour <? now then rest else keys
  | [] => []
  end.

(** tokenmanager.go:346-368: the signing key for an algorithm: the last key of
    the type that is more than two hours old, or else the first of the type. *)
Fixpoint pick (now : Z) (t : ktype) (keys : list key) (tk : option key) : option key :=
  match keys with
  | [] => tk
  | k :: rest =>
      if negb (ktype_eqb (ktyp k) t) then pick now t rest tk
      else pick now t rest
             (match tk with
              | None => Some k
              | Some _ => if created k + 2 * hour <? now then Some k else tk
              end)
  end.

(** tokenmanager.go:334-340: the default algorithm. *)
Definition default_type (tpm : bool) : ktype := if tpm then EC else ED.

(** ** Tokens *)

(** A claim value. *)
Inductive cval := VStr (s : str) | VNum (n : Z) | VList (l : list str) | VBool (b : bool).
(** jwt.MapClaims *)
Definition claims := list (str * cval).

(** A decoded token: its header names a key, and its signature was made with
    [signer] (None: by nobody's key, i.e. it verifies under no key).  This is the
    usual symbolic view of signatures. *)
Record jwt := { t_kid : nat; t_claims : claims; t_signer : option (nat * ktype) }.

(** tokenmanager.go:331-372 CreateToken.  [None]: there is no key of the type
    (nil dereference in the code). *)
Definition create_token (keys : list key) (now : Z) (t : ktype) (c : claims) : option jwt :=
  match pick now t keys None with
  | Some k => Some {| t_kid := kid k; t_claims := c; t_signer := Some (kid k, ktyp k) |}
  | None => None
  end.

(** tokenmanager.go:417-426 getKey *)
Fixpoint get_key (keys : list key) (id : nat) : option key :=
  match keys with
  | [] => None
  | k :: rest => if Nat.eqb (kid k) id then Some k else get_key rest id
  end.

(** jwt v5 registered claims checks.  exp and nbf are optional numbers; 0 counts
    as absent. *)
Definition exp_ok (c : claims) (now : Z) : bool :=
  match assoc (lit "exp") c with
  | None => true
  | Some (VNum n) => (n =? 0) || (now <? n)
  | Some _ => false
  end.
(** jwt v5 verifyNotBefore *)
Definition nbf_ok (c : claims) (now : Z) : bool :=
  match assoc (lit "nbf") c with
  | None => true
  | Some (VNum n) => (n =? 0) || (n <=? now)
  | Some _ => false
  end.
(** jwt v5 verifyIssuer, required *)
Definition iss_ok (c : claims) (iss : str) : bool :=
  match assoc (lit "iss") c with
  | Some (VStr s) => negb (str_eqb s []) && str_eqb s iss
  | _ => false
  end.
(** jwt v5 verifyAudience, required *)
Definition aud_ok (c : claims) (aud : str) : bool :=
  match assoc (lit "aud") c with
  | Some (VStr s) => negb (str_eqb s []) && str_eqb s aud
  | Some (VList l) => mem aud l
  | _ => false
  end.

(** tokenmanager.go:429-432 ValidateToken without and with WithIssuer and
    WithAudience: the claims of a valid token. *)
Definition validate (keys : list key) (now : Z) (t : jwt) : option claims :=
  match get_key keys (t_kid t), t_signer t with
  | Some k, Some (s, ty) =>
      if Nat.eqb s (kid k) && ktype_eqb ty (ktyp k) && exp_ok (t_claims t) now && nbf_ok (t_claims t) now
      then Some (t_claims t) else None
  | _, _ => None
  end.
(** tokenmanager.go:429-432 with WithIssuer and WithAudience *)
Definition validate_for (keys : list key) (now : Z) (iss aud : str) (t : jwt) : option claims :=
  match validate keys now t with
  | Some c => if iss_ok c iss && aud_ok c aud then Some c else None
  | None => None
  end.

(** ** Kinds of tokens *)

(** Artefact: a comparison of a claim with a string. *)
Definition claim_is (c : claims) (k v : str) : bool :=
  match assoc k c with Some (VStr s) => str_eqb s v | _ => false end.

(** cookiemanager.go:48-54 CookieManager, one per identity provider.  The issuer
    is "https://" + callback host + "/" (proxy.go:310-312). *)
Record cookie_mgr := { cm_provider : str; cm_issuer : str }.

Section Hash.
(** hex(sha256(host)) *)
Variable hhash : str -> str.

(** cookiemanager.go:64-106 SetAuthTokenCookie: the claims of a session token. *)
Definition session_base (cm : cookie_mgr) (user email sid host : str) (now : Z) : claims :=
  [(lit "iat", VNum now); (lit "exp", VNum (now + 20 * hour)); (lit "iss", VStr (cm_issuer cm));
   (lit "aud", VStr (cm_issuer cm)); (lit "sub", VStr user); (lit "email", VStr email);
   (lit "proxyauth", VStr (cm_issuer cm)); (lit "provider", VStr (cm_provider cm));
   (lit "hhash", VStr (hhash host)); (lit "sid", VStr sid)].
(** cookiemanager.go:64-106 *)
Definition session_claims (cm : cookie_mgr) (user email sid host : str) (now : Z) (extra : claims) : option claims :=
  if str_eqb user [] || str_eqb email [] then None else
  let base := session_base cm user email sid host now in
  Some (base ++ filter (fun kv => match assoc (fst kv) base with Some _ => false | None => true end) extra).
End Hash.

(** cookiemanager.go:108-143 SetIDTokenCookie: the claims of an identity token,
    derived from those of a session.  [aud]: audienceForToken(req). *)
Definition idtoken_skip : list str := [lit "scope"; lit "proxyauth"; lit "source"; lit "hhash"].
(** cookiemanager.go:108-143 *)
Definition idtoken_claims (aud : cval) (now : Z) (session : claims) : claims :=
  assoc_set (lit "aud") aud (assoc_set (lit "iat") (VNum now)
    (filter (fun kv => negb (mem (fst kv) idtoken_skip)) session)).

(** cookiemanager.go:258-264 audienceFromReq, and 266-279 audienceForToken.  The
    request host is without port; [uni] is its Unicode form when different. *)
Definition audience (host : str) : str := lit "https://" ++ host ++ lit "/".
(** cookiemanager.go:266-279 audienceForToken *)
Definition audience_for (host : str) (uni : option str) : cval :=
  match uni with None => VStr (audience host) | Some u => VList [audience host; audience u] end.

(** urltoken.go:65-81 URLToken: [email] is the only extra claim any caller gives. *)
Definition url_claims (url sid : str) (email : option str) : claims :=
  (lit "sid", VStr sid) :: (lit "url", VStr url) ::
  match email with Some e => [(lit "email", VStr e)] | None => [] end.

(** oidc/server.go:275-303: the claims of a token issued by the built-in OpenID
    server, before rewrite rules.  Simplified: a missing e-mail claim is left out
    where the code stores a null. *)
Definition profile_claims : list str :=
  [lit "name"; lit "family_name"; lit "given_name"; lit "middle_name"; lit "nickname"; lit "preferred_username";
   lit "profile"; lit "picture"; lit "website"; lit "gender"; lit "birthdate"; lit "zoneinfo"; lit "locale"].
(** oidc/server.go:275-303 *)
Definition oidc_claims (issuer client : str) (user : claims) (now : Z) (nonce : str) (scopes : list str) : claims :=
  let sub := match assoc (lit "sub") user with Some (VStr s) => s | _ => [] end in
  let e := mem (lit "email") scopes in let p := mem (lit "profile") scopes in
  [(lit "iat", VNum now); (lit "exp", VNum (now + 300)); (lit "iss", VStr issuer); (lit "aud", VStr client);
   (lit "sub", VStr sub);
   (lit "scope", VStr (lit "openid" ++ (if e then lit " email" else []) ++ (if p then lit " profile" else [])))] ++
  (if str_eqb nonce [] then [] else [(lit "nonce", VStr nonce)]) ++
  (if e then match assoc (lit "email") user with Some v => [(lit "email", v); (lit "email_verified", VBool true)]
             | None => [(lit "email_verified", VBool true)] end else []) ++
  (if p then List.concat (map (fun k => match assoc k user with Some v => [(k, v)] | None => [] end) profile_claims) else []).

(** oidc/server.go:453-485 applyRewriteRules.  [rw]: the output claim and the value
    of the rules whose regular expressions matched, in order (the matching itself
    is not modelled). *)
Definition apply_rewrites (rw : list (str * str)) (c : claims) : claims :=
  fold_left (fun c '(k, v) => assoc_set k (VStr v) c) rw c.

(** ** Acceptance *)

(** cookiemanager.go:193-209 ValidateAuthTokenCookie *)
Definition accept_session (keys : list key) (now : Z) (cm : cookie_mgr) (t : jwt) : option claims :=
  match validate_for keys now (cm_issuer cm) (cm_issuer cm) t with
  | Some c =>
      if claim_is c (lit "proxyauth") (cm_issuer cm) && claim_is c (lit "provider") (cm_provider cm) then
        match assoc (lit "sub") c with
        | Some (VStr s) => if str_eqb s [] then None else Some c
        | _ => None
        end
      else None
  | None => None
  end.

(** cookiemanager.go:233-246 ValidateAuthorizationHeader, for the token after
    "Bearer " *)
Definition accept_bearer (keys : list key) (now : Z) (cm : cookie_mgr) (host : str) (t : jwt) : option claims :=
  match validate_for keys now (cm_issuer cm) (audience host) t with
  | Some c => match assoc (lit "proxyauth") c with None => Some c | Some _ => None end
  | None => None
  end.

(** c2[k] != c[k] *)
Definition cval_eqb (a b : cval) : bool :=
  match a, b with
  | VStr x, VStr y => str_eqb x y
  | VNum x, VNum y => x =? y
  | VBool x, VBool y => Bool.eqb x y
  | _, _ => false
  end.
(** cookiemanager.go:226: comparison of two claims. *)
Definition claim_same (k : str) (a b : claims) : bool :=
  match assoc k a, assoc k b with
  | Some x, Some y => cval_eqb x y
  | None, None => true
  | _, _ => false
  end.

(** cookiemanager.go:211-231 ValidateIDTokenCookie *)
Definition accept_idcookie (keys : list key) (now : Z) (cm : cookie_mgr) (host : str) (session : claims) (t : jwt) : bool :=
  match validate_for keys now (cm_issuer cm) (audience host) t with
  | Some c => claim_same (lit "sub") c session && claim_same (lit "sid") c session
  | None => false
  end.

(** urltoken.go:85-105 ValidateURLToken: the URL.  [sid] is the value of the
    session id cookie of the request, or a fresh one. *)
Definition accept_url (keys : list key) (now : Z) (sid : str) (t : jwt) : option str :=
  match validate keys now t with
  | Some c =>
      if claim_is c (lit "sid") sid then
        match assoc (lit "url") c with Some (VStr u) => Some u | _ => None end
      else None
  | None => None
  end.
