(** What a valid configuration is, said without the order of the tests. *)
From Verif Require Import Base HttpModel SettingsModel ConfigModel.
Local Open Scope Z_scope.

(** The entries of a list that are not null. *)
Definition present {A} (l : list (option A)) : list A :=
  flat_map (fun o => match o with Some a => [a] | None => [] end) l.
(** No entry is null. *)
Definition no_null {A} (l : list (option A)) : Prop := ~ In None l.

(** No list of the configuration that Check looks at has a null entry.  The
    WebSocket endpoints are not among them. *)
Record no_nulls (c : config) : Prop := {
  nn_oidc : no_null (cf_oidc c);
  nn_saml : no_null (cf_saml c);
  nn_passkey : no_null (cf_passkey c);
  nn_pki : no_null (cf_pki c);
  nn_ssh : no_null (cf_ssh c);
  nn_bw : no_null (cf_bw c);
  nn_backends : no_null (cf_backends c);
  nn_over : forall b, In b (present (cf_backends c)) -> no_null (bd_over b);
  nn_server : forall b s cs rs, In b (present (cf_backends c)) -> bd_sso b = Some s -> bs_server s = Some (cs, rs) ->
              no_null cs /\ no_null rs
}.

(** *** Providers *)

Definition parses (e : env) (u : str) : Prop := e_url e u <> None.

(** The domain is empty, or the host of the URL ends with it. *)
Definition in_domain (e : env) (d u : str) : Prop :=
  d <> [] -> exists h pre, host_of e u = Some h /\ h = pre ++ e_ascii e d.

Record oidc_ok (e : env) (p : oidc) : Prop := {
  oo_source : oi_discovery p <> [] \/ (oi_auth p <> [] /\ oi_token p <> []);
  oo_discovery : oi_discovery p <> [] -> parses e (oi_discovery p);
  oo_auth : oi_auth p <> [] -> parses e (oi_auth p);
  oo_token : oi_token p <> [] -> parses e (oi_token p);
  oo_redirect : oi_redirect p <> [] /\ parses e (oi_redirect p);
  oo_id : oi_id p <> [];
  oo_secret : oi_secret p <> [];
  oo_domain : in_domain e (oi_domain p) (oi_redirect p)
}.
Record saml_ok (e : env) (p : saml) : Prop := {
  so_sso : sa_sso p <> [];
  so_entity : sa_entity p <> [];
  so_certs : sa_certs p <> [];
  so_acs : sa_acs p <> [];
  so_domain : in_domain e (sa_domain p) (sa_acs p)
}.
Record passkey_ok (e : env) (p : passkey) : Prop := {
  po_endpoint : pk_endpoint p <> [];
  po_other : pk_other p <> [];
  po_domain : in_domain e (pk_domain p) (pk_endpoint p)
}.
(** The names of all identity providers. *)
Definition other_names (c : config) : list str :=
  map oi_name (present (cf_oidc c)) ++ map sa_name (present (cf_saml c)).
Definition idp_names (c : config) : list str :=
  other_names c ++ map pk_name (present (cf_passkey c)).
(** A passkey provider refers to an OIDC or SAML provider, or to a passkey provider
    that is not further down the list. *)
Definition passkeys_in_order (c : config) : Prop :=
  forall l1 p l2, present (cf_passkey c) = l1 ++ p :: l2 ->
  In (pk_other p) (other_names c) \/ In (pk_other p) (map pk_name (l1 ++ [p])).

(** *** Backends *)

(** Whether QUIC is on. *)
Definition quic_on (e : env) (c : config) : bool :=
  match cf_quic c with Some q => q | None => e_quic e end.
(** The mode in force. *)
Definition the_mode (b : bend) : str := mode_of (bd_mode b).
(** The protocols in force. *)
Definition the_alpn (quic : bool) (b : bend) : list str :=
  match bd_alpn b with Some l => l | None => alpn_of quic (the_mode b) end.
(** The server names in force. *)
Definition the_names (e : env) (b : bend) : list str := map (e_ascii e) (bd_names b).

(** Every name or file of a list of root certificates is an authority of the
    configuration or can be read. *)
Definition roots_known (e : env) (c : config) (l : list str) : Prop :=
  forall n, In n l -> In n (map pi_name (present (cf_pki c))) \/ e_certs e n = true.

Record client_ok (c : oclient) : Prop := {
  co_id : oc_id c <> []; co_secret : oc_secret c <> []; co_redirect : oc_redirect c <> []
}.
Record rule_ok (e : env) (r : orule) : Prop := {
  ro_in : or_in r <> []; ro_out : or_out r <> []; ro_regex : or_regex r <> [] /\ e_regex e (or_regex r) = true
}.
Record over_ok (e : env) (c : config) (b : bend) (o : over) : Prop := {
  vo_paths : ov_paths o <> [];
  vo_slash : forall p, In p (ov_paths o) -> (exists r, p = lit "/" ++ r) /\ (exists r, p = r ++ lit "/");
  vo_mode : In (to_upper (match ov_mode o with [] => the_mode b | m => m end)) [lit "HTTP"; lit "HTTPS"];
  vo_roots : roots_known e c (ov_roots o);
  vo_version : validate_version (ov_version o) <> None
}.
Record backend_ok (e : env) (c : config) (b : bend) : Prop := {
  bo_mode : In (the_mode b) valid_modes;
  bo_passthrough : the_mode b = lit "TLSPASSTHROUGH" -> bd_auth b = None;
  bo_proto : bd_proto b <> None -> In (the_mode b) [lit "HTTP"; lit "HTTPS"];
  bo_names : bd_names b <> [];
  bo_addrs : bd_addrs b = [] -> In (the_mode b) [lit "CONSOLE"; lit "HTTP"; lit "HTTPS"; lit "LOCAL"];
  bo_no_addrs : In (the_mode b) [lit "CONSOLE"; lit "LOCAL"] -> bd_addrs b = [];
  bo_root : bd_root b <> [] -> bd_addrs b = [];
  bo_limit : bd_limit b <> [] -> In (bd_limit b) (map bw_name (present (cf_bw c)));
  bo_auth : forall a, bd_auth b = Some a ->
            roots_known e c (au_roots a) /\ (forall f, In f (au_header a) -> In (to_lower f) xfcc_fields);
  bo_provider : forall s, bd_sso b = Some s -> In (bs_provider s) (idp_names c);
  bo_server : forall s cs rs, bd_sso b = Some s -> bs_server s = Some (cs, rs) ->
              (forall x, In x (present cs) -> client_ok x) /\ (forall x, In x (present rs) -> rule_ok e x);
  bo_roots : roots_known e c (bd_roots b);
  bo_allow : forall l n, bd_allow b = Some l -> In n l -> e_cidr e n = true;
  bo_deny : forall l n, bd_deny b = Some l -> In n l -> e_cidr e n = true;
  bo_version : validate_version (bd_version b) <> None;
  bo_over_mode : bd_over b <> [] -> In (the_mode b) [lit "HTTP"; lit "HTTPS"];
  bo_over : forall o, In o (present (bd_over b)) -> over_ok e c b o
}.

(** The pairs of a server name and a protocol, over all backends in order. *)
Definition pairs (e : env) (c : config) : list (str * str) :=
  flat_map (fun b => list_prod (the_names e b) (the_alpn (quic_on e c) b)) (present (cf_backends c)).
(** The server names with their protocols, over all backends in order. *)
Definition listed (e : env) (c : config) : list (str * list str) :=
  flat_map (fun b => map (fun n => (n, the_alpn (quic_on e c) b)) (the_names e b)) (present (cf_backends c)).
(** The first backend that lists a name. *)
Definition first_with (e : env) (c : config) (h : str) (b : bend) : Prop :=
  exists l1 l2, present (cf_backends c) = l1 ++ b :: l2 /\ In h (the_names e b) /\
  forall b', In b' l1 -> ~ In h (the_names e b').

Record valid (e : env) (c : config) : Prop := {
  v_cache : cf_cache c = [] -> e_cache e <> None;
  v_mkdir : e_mkdir e (match cf_cache c with [] => match e_cache e with Some d => d | None => [] end | d => d end) = true;
  v_max : cf_max c = 0 -> e_files e <> None;
  v_quic : quic_on e c = true -> e_quic e = true;
  v_accept : forall n, In n (cf_accept c) -> e_cidr e n = true;
  v_idps : NoDup (idp_names c);
  v_oidc : forall p, In p (present (cf_oidc c)) -> oidc_ok e p;
  v_saml : forall p, In p (present (cf_saml c)) -> saml_ok e p;
  v_passkey : forall p, In p (present (cf_passkey c)) -> passkey_ok e p;
  v_order : passkeys_in_order c;
  v_backends : forall b, In b (present (cf_backends c)) -> backend_ok e c b;
  v_pairs : NoDup (pairs e c);
  v_bare : forall l1 n l2, listed e c = l1 ++ (n, []) :: l2 -> ~ In n (map fst l1);
  v_pki : NoDup (map pi_name (present (cf_pki c))) /\ ~ In [] (map pi_name (present (cf_pki c)));
  v_pki_host : forall p, In p (present (cf_pki c)) -> pi_endpoint p <> [] ->
    exists h b, host_of e (pi_endpoint p) = Some h /\ first_with e c h b /\
                In (to_upper (the_mode b)) [lit "LOCAL"; lit "CONSOLE"];
  v_ssh : NoDup (map sh_name (present (cf_ssh c))) /\ ~ In [] (map sh_name (present (cf_ssh c)));
  v_ssh_host : forall p, In p (present (cf_ssh c)) -> sh_endpoint p <> [] ->
    exists h b, host_of e (sh_endpoint p) = Some h /\ In b (present (cf_backends c)) /\ In h (the_names e b);
  v_bw : NoDup (map bw_name (present (cf_bw c)))
}.

(** *** What Check fills in *)

Definition full_domain (e : env) (d : str) : str := match d with [] => [] | _ => e_ascii e d end.
Definition full_oidc (e : env) (p : oidc) : oidc :=
  {| oi_name := oi_name p; oi_discovery := oi_discovery p; oi_auth := oi_auth p; oi_token := oi_token p;
     oi_redirect := oi_redirect p; oi_id := oi_id p; oi_secret := oi_secret p;
     oi_domain := full_domain e (oi_domain p) |}.
Definition full_saml (e : env) (p : saml) : saml :=
  {| sa_name := sa_name p; sa_sso := sa_sso p; sa_entity := sa_entity p; sa_certs := sa_certs p;
     sa_acs := sa_acs p; sa_domain := full_domain e (sa_domain p) |}.
Definition full_passkey (e : env) (p : passkey) : passkey :=
  {| pk_name := pk_name p; pk_other := pk_other p; pk_endpoint := pk_endpoint p;
     pk_domain := full_domain e (pk_domain p) |}.
Definition full_over (e : env) (b : bend) (o : over) : over :=
  {| ov_paths := ov_paths o; ov_mode := to_upper (match ov_mode o with [] => the_mode b | m => m end);
     ov_roots := ov_roots o; ov_sni := e_ascii e (ov_sni o);
     ov_timeout := if ov_timeout o =? 0 then 30 else ov_timeout o; ov_version := ov_version o |}.
Definition full_bend (e : env) (quic : bool) (b : bend) : bend :=
  {| bd_names := the_names e b; bd_auth := bd_auth b; bd_allow := bd_allow b; bd_deny := bd_deny b;
     bd_sso := bd_sso b; bd_alpn := Some (the_alpn quic b); bd_proto := bd_proto b; bd_mode := the_mode b;
     bd_root := bd_root b; bd_limit := bd_limit b; bd_addrs := bd_addrs b;
     bd_rate := if bd_rate b =? 0 then 5 else bd_rate b; bd_sni := e_ascii e (bd_sni b);
     bd_roots := bd_roots b; bd_timeout := if bd_timeout b =? 0 then 30 else bd_timeout b;
     bd_over := map (option_map (full_over e b)) (bd_over b); bd_version := bd_version b;
     bd_sclose := if str_eqb (the_mode b) (lit "QUIC") then or_else (bd_sclose b) false else bd_sclose b;
     bd_cclose := if str_eqb (the_mode b) (lit "QUIC") then or_else (bd_cclose b) false else bd_cclose b |}.
Definition full (e : env) (c : config) : config :=
  {| cf_cache := match cf_cache c with [] => match e_cache e with Some d => d | None => [] end | d => d end;
     cf_tls := match cf_tls c with [] => lit ":10443" | a => a end;
     cf_max := if cf_max c =? 0 then match e_files e with Some n => Z.quot n 2 - 100 | None => 0 end else cf_max c;
     cf_quic := Some (quic_on e c); cf_accept := cf_accept c; cf_default := e_ascii e (cf_default c);
     cf_oidc := map (option_map (full_oidc e)) (cf_oidc c); cf_saml := map (option_map (full_saml e)) (cf_saml c);
     cf_passkey := map (option_map (full_passkey e)) (cf_passkey c);
     cf_pki := cf_pki c; cf_ssh := cf_ssh c; cf_bw := cf_bw c; cf_ws := cf_ws c;
     cf_backends := map (option_map (full_bend e (quic_on e c))) (cf_backends c) |}.
