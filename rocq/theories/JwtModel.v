(** Tokens as text (proxy/internal/tokenmanager/tokenmanager.go CreateToken, getKey and
    ValidateToken; golang-jwt v5.2.1, go.mod:11). *)
From Verif Require Import Base TokenModel ScriptModel.
From Verif Require JwksModel OcspGetModel ProxyHdrModel ConsoleModel OauthModel.
Open Scope list_scope.
Open Scope Z_scope.

(** golang-jwt v5 SigningMethod.Alg of the three methods, tokenmanager.go:430 *)
Definition alg_name (t : ktype) : str := match t with EC => lit "ES256" | RSA => lit "RS256" | ED => lit "EdDSA" end.
(** golang-jwt v5 GetSigningMethod, with tokenmanager.go:430 WithValidMethods: every other
    name is refused. *)
Definition method (alg : str) : option ktype := find (fun t => str_eqb alg (alg_name t)) [EC; RSA; ED].

(** ** Writing *)

(** strconv AppendInt (standard library) *)
Definition zdec (n : Z) : str := if n <? 0 then "-"%char :: ProxyHdrModel.dec (Z.to_N (- n)) else ProxyHdrModel.dec (Z.to_N n).
(** encoding/json Marshal (standard library) of a claim.  A number that came out of another
    token is a float64; below 10^21 it is written in the same way. *)
Definition json_of (v : cval) : json :=
  match v with VStr s => JStr s | VNum n => JNum (zdec n) | VList l => JArr (map JStr l) | VBool b => JBool b end.
(** encoding/json Marshal (standard library) of a map: the members in order of their names. *)
Definition claims_json (c : claims) : json :=
  JObj (map (fun k => (k, match assoc k c with Some v => json_of v | None => JNull end))
            (ConsoleModel.sort_strs (nodup (list_eq_dec Ascii.ascii_dec) (map fst c)))).
(** golang-jwt v5 NewWithClaims, tokenmanager.go:369-370: the header is a map with three members. *)
Definition header_json (t : ktype) (id : str) : json :=
  JObj [(lit "alg", JStr (alg_name t)); (lit "kid", JStr id); (lit "typ", JStr (lit "JWT"))].
(** golang-jwt v5 EncodeSegment of the JSON of a value *)
Definition segment (v : json) : str := JwksModel.b64u (print go_escape v).
(** golang-jwt v5 Token.SigningString *)
Definition signing_text (t : ktype) (id : str) (c : claims) : str := segment (header_json t id) ++ "."%char :: segment (claims_json c).

Section Text.
(** tokenmanager.go:234, 256, 278, 300, 322: the ID of a key as text. *)
Variable name : nat -> str.
(** tokenmanager.go:378-415, golang-jwt v5 SigningMethod.Sign: the signature that a key makes
    with a method over a text. *)
Variable sign : nat -> ktype -> str -> str.
(** golang-jwt v5 SigningMethod.Verify: whether it is one.  Checking the types of keys is in
    [validate_text]. *)
Variable verify : nat -> ktype -> str -> str -> bool.
(** encoding/json: the float64 for the text of a number, as a whole number of seconds. *)
Variable num : str -> Z.

(** tokenmanager.go:331-372 CreateToken, golang-jwt v5 Token.SignedString *)
Definition create_text (keys : list key) (now : Z) (t : ktype) (c : claims) : option str :=
  match pick now t keys None with
  | Some k => let s := signing_text t (name (kid k)) c in Some (s ++ "."%char :: JwksModel.b64u (sign (kid k) t s))
  | None => None
  end.

(** ** Reading *)

(** encoding/json Unmarshal into interface{} (standard library).  An empty list stands for
    every value that is neither a string, a number, a boolean nor a list of strings: the
    checks of TokenModel treat it as they treat those. *)
Definition cval_of (v : json) : cval :=
  match v with
  | JStr s => VStr s
  | JNum s => VNum (num s)
  | JBool b => VBool b
  | JArr l => match all_of (fun x => match x with JStr s => Some s | _ => None end) l with Some l => VList l | None => VList [] end
  | _ => VList []
  end.
(** golang-jwt v5 Parser.ParseUnverified: DecodeSegment and json.Unmarshal into a map.  The
    last of several members with one name counts; null leaves the map empty. *)
Definition read_map (s : str) : option (list (str * json)) :=
  match OcspGetModel.raw_url_decode s with
  | Some b => match parse_json b with Some (JObj l) => Some (rev l) | Some JNull => Some [] | _ => None end
  | None => None
  end.
(** Artefact: the claims of a map. *)
Definition claims_of_map (l : list (str * json)) : claims := map (fun kv => (fst kv, cval_of (snd kv))) l.
(** tokenmanager.go:417-426 getKey *)
Definition find_key (keys : list key) (id : str) : option key := find (fun k => str_eqb (name (kid k)) id) keys.

(** tokenmanager.go:429-432 ValidateToken, golang-jwt v5 Parser.ParseWithClaims, without the
    checks of issuer and audience. *)
Definition validate_text (keys : list key) (now : Z) (text : str) : option claims :=
  match split_on "." text with
  | [a; b; d] =>
      match read_map a, read_map b, OcspGetModel.raw_url_decode d with
      | Some h, Some l, Some sig =>
          match assoc (lit "alg") h, assoc (lit "kid") h with
          | Some (JStr alg), Some (JStr id) =>
              match method alg, find_key keys id with
              | Some t, Some k =>
                  if ktype_eqb t (ktyp k) && verify (kid k) t (a ++ "."%char :: b) sig then
                    let c := claims_of_map l in
                    if exp_ok c now && nbf_ok c now then Some c else None
                  else None
              | _, _ => None
              end
          | _, _ => None
          end
      | _, _, _ => None
      end
  | _ => None
  end.

(** Artefact: the token of TokenModel that a text stands for, for a proxy with these keys. *)
Definition jwt_of (keys : list key) (text : str) : option jwt :=
  match split_on "." text with
  | [a; b; d] =>
      match read_map a, read_map b, OcspGetModel.raw_url_decode d with
      | Some h, Some l, Some sig =>
          match assoc (lit "alg") h, assoc (lit "kid") h with
          | Some (JStr alg), Some (JStr id) =>
              match method alg, find_key keys id with
              | Some t, Some k =>
                  Some {| t_kid := kid k; t_claims := claims_of_map l;
                          t_signer := if verify (kid k) t (a ++ "."%char :: b) sig then Some (kid k, t) else None |}
              | _, _ => None
              end
          | _, _ => None
          end
      | _, _, _ => None
      end
  | _ => None
  end.
End Text.

(** ** The identity token of a provider *)

(** golang-jwt v5 GetSigningMethod: the names that the library knows. *)
Definition known_methods : list str :=
  [lit "HS256"; lit "HS384"; lit "HS512"; lit "RS256"; lit "RS384"; lit "RS512"; lit "ES256"; lit "ES384"; lit "ES512";
   lit "PS256"; lit "PS384"; lit "PS512"; lit "EdDSA"; lit "none"].
(** Artefact: null, which sets no field (encoding/json). *)
Definition is_null (v : json) : bool := match v with JNull => true | _ => false end.
(** encoding/json Unmarshal into a struct (standard library): the last value for a field. *)
Definition field (f : str) (l : list (str * json)) : option json :=
  option_map snd (find (fun kv => names f (fst kv) && negb (is_null (snd kv))) (rev l)).
(** oidc/client.go:258-271: the fields that are strings; sub, iss and jti are in
    jwt.RegisteredClaims. *)
Definition text_fields : list str :=
  [lit "email"; lit "nonce"; lit "name"; lit "given_name"; lit "middle_name"; lit "family_name"; lit "picture"; lit "avatar_url"; lit "login"; lit "hd";
   lit "iss"; lit "sub"; lit "jti"].
(** encoding/json, golang-jwt v5 NumericDate and ClaimStrings UnmarshalJSON: whether a member
    fits into the field of its name. *)
Definition fits (k : str) (v : json) : bool :=
  if existsb (fun f => names f k) text_fields then match v with JStr _ | JNull => true | _ => false end
  else if names (lit "email_verified") k then match v with JBool _ | JNull => true | _ => false end
  else if existsb (fun f => names f k) [lit "exp"; lit "nbf"; lit "iat"] then match v with JNum _ | JNull => true | JStr s => number s && forallb num_char s | _ => false end
  else if names (lit "aud") k then match v with JStr _ | JNull => true | JArr l => forallb (fun x => match x with JStr _ => true | _ => false end) l | _ => false end
  else true.
(** oidc/client.go:257-279, golang-jwt v5 Parser.ParseUnverified: what the ID token of a
    provider says about the user. *)
Definition read_user (text : str) : option OauthModel.user_claims :=
  match split_on "." text with
  | [a; b; _] =>
      match read_map a, read_map b with
      | Some h, Some m =>
          let l := rev m in
          let str_field f := match field f l with Some (JStr s) => s | _ => [] end in
          if forallb (fun kv => fits (fst kv) (snd kv)) l && match assoc (lit "alg") h with Some (JStr alg) => mem alg known_methods | _ => false end then
            Some {| OauthModel.u_sub := str_field (lit "sub");
                    OauthModel.u_iss := match field (lit "iss") l with Some (JStr s) => Some s | _ => None end;
                    OauthModel.u_email := str_field (lit "email");
                    OauthModel.u_verified := match field (lit "email_verified") l with Some (JBool b) => Some b | _ => None end;
                    OauthModel.u_nonce := str_field (lit "nonce");
                    OauthModel.u_name := str_field (lit "name"); OauthModel.u_given := str_field (lit "given_name");
                    OauthModel.u_middle := str_field (lit "middle_name"); OauthModel.u_family := str_field (lit "family_name");
                    OauthModel.u_picture := str_field (lit "picture"); OauthModel.u_avatar := str_field (lit "avatar_url");
                    OauthModel.u_domain := str_field (lit "hd") |}
          else None
      | _, _ => None
      end
  | _ => None
  end.
