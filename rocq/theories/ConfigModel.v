(** The configuration file: Config.Check and ReadConfig (proxy/config.go) in
    full, and the loop that reads the file again (main.go).

    A YAML list may contain null, which makes a nil pointer in a list of pointers:
    such lists are lists of options here.  A use of a nil pointer is [Panic].
    Fields that Check neither reads nor writes are left out, except for the
    WebSocket endpoints, which Reconfigure uses. *)
From Verif Require Import Base HttpModel SettingsModel.
Local Open Scope Z_scope.

(** config.go:483-524 ConfigOIDC *)
Record oidc := {
  oi_name : str; oi_discovery : str; oi_auth : str; oi_token : str; oi_redirect : str;
  oi_id : str; oi_secret : str; oi_domain : str
}.
(** config.go:526-538 ConfigSAML *)
Record saml := { sa_name : str; sa_sso : str; sa_entity : str; sa_certs : str; sa_acs : str; sa_domain : str }.
(** config.go:540-560 ConfigPasskey *)
Record passkey := { pk_name : str; pk_other : str; pk_endpoint : str; pk_domain : str }.
(** config.go:562-587 ConfigPKI *)
Record pki := { pi_name : str; pi_endpoint : str }.
(** config.go:589-602 ConfigSSHCertificateAuthority *)
Record sshca := { sh_name : str; sh_endpoint : str }.
(** config.go:183-191 BWLimit *)
Record bwlimit := { bw_name : str }.
(** config.go:216-220 WebSocketConfig *)
Record websock := { ws_endpoint : str; ws_address : str }.
(** config.go:727-739 LocalOIDCClient *)
Record oclient := { oc_id : str; oc_secret : str; oc_redirect : list str }.
(** config.go:749-755 LocalOIDCRewriteRule *)
Record orule := { or_in : str; or_out : str; or_regex : str }.
(** config.go:604-640 BackendSSO *)
Record bsso := { bs_provider : str; bs_server : option (list (option oclient) * list (option orule)) }.
(** config.go:464-481 ClientAuth *)
Record cauth := { au_roots : list str; au_header : list str }.
(** config.go:642-703 PathOverride *)
Record over := {
  ov_paths : list str; ov_mode : str; ov_roots : list str; ov_sni : str; ov_timeout : Z; ov_version : str
}.
(** config.go:223-443 Backend *)
Record bend := {
  bd_names : list str; bd_auth : option cauth; bd_allow : option (list str); bd_deny : option (list str);
  bd_sso : option bsso; bd_alpn : option (list str); bd_proto : option str; bd_mode : str;
  bd_root : str; bd_limit : str; bd_addrs : list str; bd_rate : Z; bd_sni : str; bd_roots : list str;
  bd_timeout : Z; bd_over : list (option over); bd_version : str;
  bd_sclose : option bool; bd_cclose : option bool
}.
(** config.go:95-181 Config *)
Record config := {
  cf_cache : str; cf_tls : str; cf_max : Z; cf_quic : option bool; cf_accept : list str; cf_default : str;
  cf_oidc : list (option oidc); cf_saml : list (option saml); cf_passkey : list (option passkey);
  cf_pki : list (option pki); cf_ssh : list (option sshca); cf_bw : list (option bwlimit);
  cf_ws : list (option websock); cf_backends : list (option bend)
}.

(** The rest of the world: url.Parse (host with port, path), idnaToASCII
    (util.go:140-145), net.ParseCIDR, regexp.Compile, loadCerts
    (proxy.go:1502-1516), os.UserCacheDir with the path that is made of it,
    openFileLimit (unix.go, otheros.go), whether QUIC is compiled in, os.MkdirAll. *)
Record env := {
  e_url : str -> option (str * str);
  e_ascii : str -> str;
  e_cidr : str -> bool;
  e_regex : str -> bool;
  e_certs : str -> bool;
  e_cache : option str;
  e_files : option Z;
  e_quic : bool;
  e_mkdir : str -> bool
}.

(** Artefact: return an error unless the condition holds. *)
Definition need (b : bool) : outcome unit := if b then Ok tt else Err.
(** Artefact: use of a pointer. *)
Definition deref {A} (o : option A) : outcome A := match o with Some a => Ok a | None => Panic end.
(** Artefact: a loop that replaces each element and stops at the first error. *)
Fixpoint each {A B} (f : A -> outcome B) (l : list A) : outcome (list B) :=
  match l with
  | [] => Ok []
  | x :: l' => do y <- f x; do r <- each f l'; Ok (y :: r)
  end.
(** Artefact: a loop that also carries a state. *)
Fixpoint each_st {S A B} (f : S -> A -> outcome (S * B)) (s : S) (l : list A) : outcome (S * list B) :=
  match l with
  | [] => Ok (s, [])
  | x :: l' => do p <- f s x; do q <- each_st f (fst p) l'; Ok (fst q, snd p :: snd q)
  end.
(** Artefact: the string is not empty. *)
Definition set (s : str) : bool := negb (str_eqb s []).

(** proxy.go:1526-1540 hostAndPath: the host in ASCII. *)
Definition host_of (e : env) (u : str) : option str :=
  match e_url e u with
  | None => None
  | Some (hp, _) => Some (e_ascii e (host_from_req hp))
  end.

(** Artefact: url.Parse accepts it. *)
Definition url_ok (e : env) (u : str) : bool := match e_url e u with Some _ => true | None => false end.

(** config.go:854-863, 882-891, 907-916: the test of a domain against the host of
    a URL; the result is the domain in ASCII. *)
Definition check_domain (e : env) (d u : str) : outcome str :=
  if set d then
    match host_of e u with
    | None => Err
    | Some h => if has_suffix h (e_ascii e d) then Ok (e_ascii e d) else Err
    end
  else Ok d.

(** config.go:818-864: one OIDC provider; [seen] is identityProviders. *)
Definition check_oidc (e : env) (seen : list str) (o : option oidc) : outcome (list str * option oidc) :=
  do p <- deref o;
  do _ <- need (negb (mem (oi_name p) seen));
  do _ <- need ((set (oi_auth p) && set (oi_token p)) || set (oi_discovery p));
  do _ <- need (negb (set (oi_discovery p)) || url_ok e (oi_discovery p));
  do _ <- need (negb (set (oi_auth p)) || url_ok e (oi_auth p));
  do _ <- need (negb (set (oi_token p)) || url_ok e (oi_token p));
  do _ <- need (set (oi_redirect p));
  do _ <- need (url_ok e (oi_redirect p));
  do _ <- need (set (oi_id p));
  do _ <- need (set (oi_secret p));
  do d <- check_domain e (oi_domain p) (oi_redirect p);
  Ok (oi_name p :: seen,
      Some {| oi_name := oi_name p; oi_discovery := oi_discovery p; oi_auth := oi_auth p; oi_token := oi_token p;
              oi_redirect := oi_redirect p; oi_id := oi_id p; oi_secret := oi_secret p; oi_domain := d |}).

(** config.go:865-892: one SAML provider. *)
Definition check_saml (e : env) (seen : list str) (o : option saml) : outcome (list str * option saml) :=
  do p <- deref o;
  do _ <- need (negb (mem (sa_name p) seen));
  do _ <- need (set (sa_sso p));
  do _ <- need (set (sa_entity p));
  do _ <- need (set (sa_certs p));
  do _ <- need (set (sa_acs p));
  do d <- check_domain e (sa_domain p) (sa_acs p);
  Ok (sa_name p :: seen,
      Some {| sa_name := sa_name p; sa_sso := sa_sso p; sa_entity := sa_entity p; sa_certs := sa_certs p;
              sa_acs := sa_acs p; sa_domain := d |}).

(** config.go:893-917: one passkey provider; its own name is entered first. *)
Definition check_passkey (e : env) (seen : list str) (o : option passkey) : outcome (list str * option passkey) :=
  do p <- deref o;
  do _ <- need (negb (mem (pk_name p) seen));
  do _ <- need (set (pk_endpoint p));
  do _ <- need (set (pk_other p));
  do _ <- need (mem (pk_other p) (pk_name p :: seen));
  do d <- check_domain e (pk_domain p) (pk_endpoint p);
  Ok (pk_name p :: seen,
      Some {| pk_name := pk_name p; pk_other := pk_other p; pk_endpoint := pk_endpoint p; pk_domain := d |}).

(** config.go:68-77: the names of the modes. *)
Definition valid_modes : list str :=
  [lit "TCP"; lit "TLS"; lit "TLSPASSTHROUGH"; lit "QUIC"; lit "HTTP"; lit "HTTPS"; lit "LOCAL"; lit "CONSOLE"].
(** Artefact: HTTP or HTTPS. *)
Definition http_mode (m : str) : bool := mem m [lit "HTTP"; lit "HTTPS"].
(** config.go:922-925 *)
Definition mode_of (m : str) : str :=
  let u := to_upper m in
  if str_eqb u [] || str_eqb u (lit "PLAINTEXT") then lit "TCP" else u.

(** config.go:932-938: the default protocols. *)
Definition alpn_of (quic : bool) (mode : str) : list str :=
  if quic && mem mode [lit "HTTP"; lit "HTTPS"; lit "QUIC"; lit "LOCAL"; lit "CONSOLE"]
  then [lit "h3"; lit "h2"; lit "http/1.1"] else [lit "h2"; lit "http/1.1"].

(** Artefact: a pointer that gets a value if it is nil. *)
Definition or_else {A} (o : option A) (a : A) : option A := match o with Some _ => o | None => Some a end.

(** config.go:919-951: the first loop over the backends. *)
Definition check_be1 (e : env) (quic : bool) (o : option bend) : outcome (option bend) :=
  do b <- deref o;
  let m := mode_of (bd_mode b) in
  do _ <- need (mem m valid_modes);
  do _ <- need (negb (str_eqb m (lit "TLSPASSTHROUGH") && match bd_auth b with Some _ => true | None => false end));
  do _ <- need (match bd_proto b with Some _ => http_mode m | None => true end);
  Ok (Some {|
    bd_names := bd_names b; bd_auth := bd_auth b; bd_allow := bd_allow b; bd_deny := bd_deny b;
    bd_sso := bd_sso b; bd_alpn := or_else (bd_alpn b) (alpn_of quic m); bd_proto := bd_proto b; bd_mode := m;
    bd_root := bd_root b; bd_limit := bd_limit b; bd_addrs := bd_addrs b; bd_rate := bd_rate b; bd_sni := bd_sni b;
    bd_roots := bd_roots b; bd_timeout := bd_timeout b; bd_over := bd_over b; bd_version := bd_version b;
    bd_sclose := if str_eqb m (lit "QUIC") then or_else (bd_sclose b) false else bd_sclose b;
    bd_cclose := if str_eqb m (lit "QUIC") then or_else (bd_cclose b) false else bd_cclose b |}).

(** The maps of the second loop: serverNames (each name with the mode of the first
    backend that lists it) and beKeys. *)
Definition names_st := (list (str * str) * list (str * str))%type.
(** Artefact: membership of a pair in a list. *)
Definition pair_mem (k : str * str) (l : list (str * str)) : bool :=
  existsb (fun x => str_eqb (fst k) (fst x) && str_eqb (snd k) (snd x)) l.

(** config.go:964-970: the loop over the protocols of a name. *)
Definition check_proto (sn : str) (keys : list (str * str)) (pr : str) : outcome (list (str * str) * unit) :=
  do _ <- need (negb (pair_mem (sn, pr) keys)); Ok ((sn, pr) :: keys, tt).

(** config.go:956-971: one server name. *)
Definition check_name (e : env) (mode : str) (alpn : list str) (s : names_st) (sn : str) : outcome (names_st * str) :=
  let sn := e_ascii e sn in
  do names <- match assoc sn (fst s) with
              | None => Ok ((sn, mode) :: fst s)
              | Some _ => match alpn with [] => Err | _ :: _ => Ok (fst s) end
              end;
  do k <- each_st (check_proto sn) (snd s) alpn;
  Ok ((names, fst k), sn).

(** Artefact: the protocols of a backend, not nil after the first loop. *)
Definition protos (b : bend) : list str := match bd_alpn b with Some l => l | None => [] end.

(** config.go:955-972: the second loop over the backends. *)
Definition check_be2 (e : env) (s : names_st) (o : option bend) : outcome (names_st * option bend) :=
  do b <- deref o;
  do r <- each_st (check_name e (bd_mode b) (protos b)) s (bd_names b);
  Ok (fst r, Some {|
    bd_names := snd r; bd_auth := bd_auth b; bd_allow := bd_allow b; bd_deny := bd_deny b;
    bd_sso := bd_sso b; bd_alpn := bd_alpn b; bd_proto := bd_proto b; bd_mode := bd_mode b;
    bd_root := bd_root b; bd_limit := bd_limit b; bd_addrs := bd_addrs b; bd_rate := bd_rate b; bd_sni := bd_sni b;
    bd_roots := bd_roots b; bd_timeout := bd_timeout b; bd_over := bd_over b; bd_version := bd_version b;
    bd_sclose := bd_sclose b; bd_cclose := bd_cclose b |}).

(** config.go:975-994: one certificate authority. *)
Definition check_pki (e : env) (names : list (str * str)) (seen : list str) (o : option pki)
    : outcome (list str * option pki) :=
  do p <- deref o;
  do _ <- need (set (pi_name p));
  do _ <- need (negb (mem (pi_name p) seen));
  do _ <- if set (pi_endpoint p) then
            match host_of e (pi_endpoint p) with
            | None => Err
            | Some h => match assoc h names with
                        | None => Err
                        | Some m => need (mem (to_upper m) [lit "LOCAL"; lit "CONSOLE"])
                        end
            end
          else Ok tt;
  Ok (pi_name p :: seen, o).

(** config.go:997-1014: one SSH authority. *)
Definition check_ssh (e : env) (names : list (str * str)) (seen : list str) (o : option sshca)
    : outcome (list str * option sshca) :=
  do p <- deref o;
  do _ <- need (set (sh_name p));
  do _ <- need (negb (mem (sh_name p) seen));
  do _ <- if set (sh_endpoint p) then
            match host_of e (sh_endpoint p) with
            | None => Err
            | Some h => need (match assoc h names with Some _ => true | None => false end)
            end
          else Ok tt;
  Ok (sh_name p :: seen, o).

(** config.go:1017-1022: one bandwidth group. *)
Definition check_bw (seen : list str) (o : option bwlimit) : outcome (list str * option bwlimit) :=
  do p <- deref o;
  do _ <- need (negb (mem (bw_name p) seen));
  Ok (bw_name p :: seen, o).

(** config.go:1062-1072: one client of the OpenID server. *)
Definition check_client (o : option oclient) : outcome (option oclient) :=
  do c <- deref o;
  do _ <- need (set (oc_id c));
  do _ <- need (set (oc_secret c));
  do _ <- need (negb (Nat.eqb (List.length (oc_redirect c)) 0));
  Ok o.

(** config.go:1073-1086: one rewrite rule. *)
Definition check_rule (e : env) (o : option orule) : outcome (option orule) :=
  do r <- deref o;
  do _ <- need (set (or_in r));
  do _ <- need (set (or_out r));
  do _ <- need (set (or_regex r));
  do _ <- need (e_regex e (or_regex r));
  Ok o.

(** config.go:1057-1088: the SSO section. *)
Definition check_sso (e : env) (idps : list str) (s : bsso) : outcome unit :=
  do _ <- need (mem (bs_provider s) idps);
  match bs_server s with
  | None => Ok tt
  | Some (cs, rs) => do _ <- each check_client cs; do _ <- each (check_rule e) rs; Ok tt
  end.

(** config.go:1042-1049, 1090-1097, 1154-1161: the roots, which are names of
    authorities or certificates. *)
Definition roots_ok (e : env) (pkis : list str) (l : list str) : bool :=
  forallb (fun n => mem n pkis || e_certs e n) l.

(** config.go:78-85 *)
Definition xfcc_fields : list str :=
  [lit "cert"; lit "chain"; lit "hash"; lit "subject"; lit "uri"; lit "dns"].

(** config.go:1137-1171: one path override. *)
Definition check_over (e : env) (pkis : list str) (mode : str) (o : option over) : outcome (option over) :=
  do p <- deref o;
  do _ <- need (negb (Nat.eqb (List.length (ov_paths p)) 0));
  do _ <- need (forallb (fun n => has_prefix n (lit "/") && has_suffix n (lit "/")) (ov_paths p));
  let m := to_upper (if set (ov_mode p) then ov_mode p else mode) in
  do _ <- need (http_mode m);
  do _ <- need (roots_ok e pkis (ov_roots p));
  do _ <- need (match validate_version (ov_version p) with Some _ => true | None => false end);
  Ok (Some {| ov_paths := ov_paths p; ov_mode := m; ov_roots := ov_roots p; ov_sni := e_ascii e (ov_sni p);
              ov_timeout := if ov_timeout p =? 0 then 30 else ov_timeout p; ov_version := ov_version p |}).

(** config.go:1024-1172: the third loop over the backends.  Timeouts are in
    seconds. *)
Definition check_be3 (e : env) (idps pkis groups : list str) (o : option bend) : outcome (option bend) :=
  do b <- deref o;
  do _ <- need (negb (Nat.eqb (List.length (bd_names b)) 0));
  do _ <- need (negb (Nat.eqb (List.length (bd_addrs b)) 0) ||
                mem (bd_mode b) [lit "CONSOLE"; lit "HTTP"; lit "HTTPS"; lit "LOCAL"]);
  do _ <- need (Nat.eqb (List.length (bd_addrs b)) 0 || negb (mem (bd_mode b) [lit "CONSOLE"; lit "LOCAL"]));
  do _ <- need (negb (set (bd_root b)) || Nat.eqb (List.length (bd_addrs b)) 0);
  do _ <- need (negb (set (bd_limit b)) || mem (bd_limit b) groups);
  do _ <- match bd_auth b with
          | None => Ok tt
          | Some a =>
              do _ <- need (roots_ok e pkis (au_roots a));
              need (forallb (fun f => mem (to_lower f) xfcc_fields) (au_header a))
          end;
  do _ <- match bd_sso b with None => Ok tt | Some s => check_sso e idps s end;
  do _ <- need (roots_ok e pkis (bd_roots b));
  do _ <- need (match bd_allow b with None => true | Some l => forallb (e_cidr e) l end);
  do _ <- need (match bd_deny b with None => true | Some l => forallb (e_cidr e) l end);
  do _ <- need (match validate_version (bd_version b) with Some _ => true | None => false end);
  do _ <- need (Nat.eqb (List.length (bd_over b)) 0 || http_mode (bd_mode b));
  do ovs <- each (check_over e pkis (bd_mode b)) (bd_over b);
  Ok (Some {|
    bd_names := bd_names b; bd_auth := bd_auth b; bd_allow := bd_allow b; bd_deny := bd_deny b;
    bd_sso := bd_sso b; bd_alpn := bd_alpn b; bd_proto := bd_proto b; bd_mode := bd_mode b;
    bd_root := bd_root b; bd_limit := bd_limit b; bd_addrs := bd_addrs b;
    bd_rate := if bd_rate b =? 0 then 5 else bd_rate b; bd_sni := e_ascii e (bd_sni b);
    bd_roots := bd_roots b; bd_timeout := if bd_timeout b =? 0 then 30 else bd_timeout b; bd_over := ovs;
    bd_version := bd_version b; bd_sclose := bd_sclose b; bd_cclose := bd_cclose b |}).

(** config.go:792-798: Go's division rounds towards zero. *)
Definition default_max (n : Z) : Z := Z.quot n 2 - 100.

(** config.go:780-1174 Check; the result is the configuration with its defaults. *)
Definition check (e : env) (c : config) : outcome config :=
  do cache <- (if set (cf_cache c) then Ok (cf_cache c) else match e_cache e with Some d => Ok d | None => Err end);
  let tls := if set (cf_tls c) then cf_tls c else lit ":10443" in
  do mx <- (if cf_max c =? 0 then match e_files e with Some n => Ok (default_max n) | None => Err end else Ok (cf_max c));
  let quic := match cf_quic c with Some q => q | None => e_quic e end in
  do _ <- need (negb quic || e_quic e);
  do _ <- need (forallb (e_cidr e) (cf_accept c));
  do oi <- each_st (check_oidc e) [] (cf_oidc c);
  do sa <- each_st (check_saml e) (fst oi) (cf_saml c);
  do pk <- each_st (check_passkey e) (fst sa) (cf_passkey c);
  do b1 <- each (check_be1 e quic) (cf_backends c);
  do b2 <- each_st (check_be2 e) ([], []) b1;
  do pi <- each_st (check_pki e (fst (fst b2))) [] (cf_pki c);
  do sh <- each_st (check_ssh e (fst (fst b2))) [] (cf_ssh c);
  do bw <- each_st check_bw [] (cf_bw c);
  do b3 <- each (check_be3 e (fst pk) (fst pi) (fst bw)) (snd b2);
  do _ <- need (e_mkdir e cache);
  Ok {| cf_cache := cache; cf_tls := tls; cf_max := mx; cf_quic := Some quic; cf_accept := cf_accept c;
        cf_default := e_ascii e (cf_default c);
        cf_oidc := snd oi; cf_saml := snd sa; cf_passkey := snd pk; cf_pki := cf_pki c; cf_ssh := cf_ssh c;
        cf_bw := cf_bw c; cf_ws := cf_ws c; cf_backends := b3 |}.
