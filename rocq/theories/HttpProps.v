(** Properties C17-C20, C22-C26, C33, C55: HTTP requests. *)
From Verif Require Import Base PathModel PathSpec PathProofs TokenModel TokenSpec TokenProofs HttpModel HttpSpec HttpProofs HttpProofs2.
From Coq Require Import Permutation.
Open Scope Z_scope.

(** ** A concrete proxy for the examples *)
Definition x_key : key := {| kid := 1; ktyp := ED; created := 0 |}.
Definition x_cm : cookie_mgr := {| cm_provider := lit "idp"; cm_issuer := lit "https://login.example.com/" |}.
Definition x_hash (h : str) : str := lit "hash:" ++ h.
Definition x_session (email : str) : jwt :=
  {| t_kid := 1; t_claims := match session_claims x_hash x_cm (lit "u1") email (lit "s1") (lit "www.example.com:8443") 1000 [] with Some c => c | None => [] end;
     t_signer := Some (kid x_key, ED) |}.
Definition x_decode (s : str) : option jwt :=
  if str_eqb s (lit "alice") then Some (x_session (lit "alice@example.com"))
  else if str_eqb s (lit "mallory") then Some (x_session (lit "mallory@example.org"))
  else if str_eqb s (lit "forged") then Some {| t_kid := 1; t_claims := t_claims (x_session (lit "alice@example.com")); t_signer := None |}
  else None.
Definition x_env : env :=
  {| ev_keys := [x_key]; ev_now := 2000; ev_decode := x_decode; ev_hash := x_hash;
     ev_expand := fun _ s => s; ev_fs := {| stat := fun _ => None; fopen := fun _ => None |} |}.
Definition x_sso : sso :=
  {| sso_cm := x_cm; sso_paths := [lit "/private/"]; sso_acl := Some [lit "bob@example.org"; lit "@example.com"];
     sso_force := 0; sso_user_header := true; sso_gen_id := false |}.
Definition x_handler (id : nat) (host path : string) (prefix bypass : bool) : local_handler :=
  {| lh_id := id; lh_host := lit host; lh_path := lit path; lh_prefix := prefix; lh_bypass := bypass |}.
Definition x_handlers : list local_handler :=
  [x_handler 1 "www.example.com" "/.well-known/oauth" false true; x_handler 2 "" "/.sso/admin" true false; x_handler 3 "" "/.sso" true true].
Definition x_overrides : list override :=
  [{| po_paths := [lit "/api/v1/"; lit "/api/"]; po_addrs := [lit "10.0.0.2:80"]; po_root := []; po_sanitize := None; po_headers := None |};
   {| po_paths := [lit "/api/v2/"; lit "/files/"]; po_addrs := []; po_root := lit "/srv"; po_sanitize := None; po_headers := None |}].
Definition x_be : backend :=
  {| be_names := [lit "www.example.com"]; be_sso := Some x_sso; be_handlers := x_handlers; be_overrides := x_overrides;
     be_addrs := [lit "10.0.0.1:80"]; be_root := []; be_sanitize := None; be_headers := [(lit "X-Extra", lit "1")]; be_xfcc := [lit "hash"] |}.
Definition x_conn : conn :=
  {| cn_name := lit "www.example.com"; cn_local := lit "192.0.2.1:443"; cn_peer := lit "198.51.100.7"; cn_cert := Some (lit "Hash=abcd") |}.
Definition x_req (path : string) (h : headers) : request :=
  {| rq_method := lit "GET"; rq_proto := lit "HTTP/1.1"; rq_host := lit "www.example.com:8443"; rq_path := lit path; rq_headers := h |}.
Definition x_cookie (v : string) : headers := [(lit "Cookie", lit v)].

Lemma x_rules : forall n, same_name (lit "x-extra") n = false -> rules_leave x_be n.
Proof.
  intros n Hn. split.
  - intros kv [<-|[]]. exact Hn.
  - intros po l kv [<-|[<-|[]]] H; discriminate H.
Qed.

(** ** C17 *)

(** The request carries a token that the proxy itself signed: either a session cookie
    made for the backend's own provider and for the user [e], or, as bearer token,
    an identity token made for the host of the request under the provider's issuer. *)
Definition carries_proof (ev : env) (s : sso) (r : request) (e : str) : Prop :=
  exists text t, ev_decode ev text = Some t /\
  ((get_cookie auth_cookie (rq_headers r) = Some text /\
    exists user sid host iat extra, issued_as (ev_hash ev) (KSession (sso_cm s) user e sid host iat extra) t) \/
   (bearer_token (rq_headers r) = Some text /\
    ((exists aud iat cm' user sid host iat0 extra, issued_as (ev_hash ev) (KIdentity aud iat cm' user e sid host iat0 extra) t /\
        cm_issuer cm' = cm_issuer (sso_cm s) /\
        (aud = VStr (audience (host_from_req (rq_host r))) \/ exists l, aud = VList l /\ In (audience (host_from_req (rq_host r))) l)) \/
     (exists user iat nonce scopes rw, issued_as (ev_hash ev) (KOpenID (cm_issuer (sso_cm s)) (audience (host_from_req (rq_host r))) user iat nonce scopes rw) t)))).

(** Whatever the request looks like, if its path (as sent or as cleaned) is below a
    protected one, it is forwarded, answered from files, or handled by an endpoint
    that does not bypass SSO only with such a token, for a user that the access list
    accepts.  Tokens cannot be forged (C27). *)
Theorem C17_sso_cannot_be_bypassed : forall ev be cn s r,
  (forall text t, ev_decode ev text = Some t -> unforged (ev_hash ev) (ev_keys ev) t) ->
  be_sso be = Some s -> protected (sso_paths s) (rq_path r) ->
  reaches (reverse_proxy ev be cn r) \/ reaches (local_only ev be r) ->
  exists e, e <> [] /\ allowed (sso_acl s) e /\ carries_proof ev s r e.
Proof.
  intros ev be cn s r Hu Hs Hp Hr. destruct (sso_no_bypass ev be cn s r Hs Hp Hr) as (cl & e & Hi & Ha & _).
  exists e. split; [apply Hi|]. split; [exact Ha|]. destruct (identified_token _ _ _ _ _ Hi Hu) as (text & t & _ & Hd & _ & H).
  exists text, t. auto.
Qed.
Print Assumptions C17_sso_cannot_be_bypassed.

(** Without any token on such a path, the answer is the login page, or 403 for a
    method other than GET, unless an endpoint that bypasses SSO answers. *)
Theorem C17_anonymous_is_sent_to_login : forall ev be cn s r,
  be_sso be = Some s -> protected (sso_paths s) (rq_path r) ->
  get_cookie auth_cookie (rq_headers r) = None -> bearer_token (rq_headers r) = None ->
  (forall h, In h (be_handlers be) -> lh_bypass h = false) ->
  reverse_proxy ev be cn r = (if str_eqb (rq_method r) (lit "GET") then Login else AuthRequired) /\
  local_only ev be r = (if str_eqb (rq_method r) (lit "GET") then Login else AuthRequired).
Proof.
  intros ev be cn s r Hs Hp Hc Hb Hh.
  assert (A : authenticate ev be r = Some (set_headers (h_del user_header (rq_headers r)) r, None)).
  { unfold authenticate. rewrite Hs. unfold check_cookies. rewrite check_bearer_del, check_session_del.
    unfold check_bearer, check_session. rewrite Hb, Hc. reflexivity. }
  assert (E : enforce ev be (set_headers (h_del user_header (rq_headers r)) r) None = inl (if str_eqb (rq_method r) (lit "GET") then Login else AuthRequired)).
  { unfold enforce. rewrite Hs. apply pathMatches_spec in Hp. cbn [rq_path set_headers]. rewrite Hp. reflexivity. }
  assert (L : local_and_authorize ev be (set_headers (h_del user_header (rq_headers r)) r) None = inl (if str_eqb (rq_method r) (lit "GET") then Login else AuthRequired)).
  { unfold local_and_authorize. cbv zeta. destruct (find _ (be_handlers be)) as [h|] eqn:Ef; [|rewrite E; reflexivity].
    apply find_some in Ef. rewrite (Hh h) by apply Ef. rewrite E. reflexivity. }
  unfold reverse_proxy, local_only. rewrite A, L. auto.
Qed.
Print Assumptions C17_anonymous_is_sent_to_login.

Example C17_example :
  let run p h := reverse_proxy x_env x_be x_conn (x_req p h) in
  reaches (run "/private/x" (x_cookie "TLSPROXYAUTH=alice"))%string /\
  run "/private/x"%string [] = Login /\
  run "/a/../private/x"%string [] = Login /\
  run "/private/x"%string (x_cookie "TLSPROXYAUTH=forged") = Login /\
  run "/private/x"%string (x_cookie "TLSPROXYAUTH=mallory") = Denied /\
  reaches (run "/public" [])%string.
Proof. vm_compute. repeat split; reflexivity. Qed.

(** ** C18 *)

(** A user with a valid session, on a path that asks for it, gets "permission denied"
    exactly when the access list does not accept the address. *)
Theorem C18_access_list : forall ev be s r cl e,
  be_sso be = Some s -> protected (sso_paths s) (rq_path r) -> sso_force s = 0 ->
  assoc (lit "email") cl = Some (VStr e) ->
  (enforce ev be r (Some cl) = inl Denied <-> ~ allowed (sso_acl s) e) /\
  ((exists r', enforce ev be r (Some cl) = inr r') <-> allowed (sso_acl s) e).
Proof.
  intros ev be s r cl e Hs Hp Hf He. unfold enforce. rewrite Hs. apply pathMatches_spec in Hp. rewrite Hp. cbn [negb needs_login]. rewrite Hf, He. cbn [Z.eqb negb andb].
  assert (A := acl_ok_spec (sso_acl s) e). destruct (acl_ok (sso_acl s) e); split; split; intro H; try discriminate; try reflexivity.
  - exfalso. apply H. apply A. reflexivity.
  - apply A. reflexivity.
  - eauto.
  - intro X. apply A in X. discriminate X.
  - destruct H; discriminate.
  - apply A in H. discriminate.
Qed.
Print Assumptions C18_access_list.

(** The meaning of an access list, spelled out. *)
Theorem C18_nil_accepts_all : forall e, allowed None e.
Proof. intro e. exact I. Qed.
Theorem C18_empty_accepts_none : forall e, ~ allowed (Some []) e.
Proof. intros e [H|(d & _ & [])]. destruct H. Qed.
Theorem C18_domain_entry : forall l name d, ~ In "@"%char name -> In ("@"%char :: d) l -> allowed (Some l) (name ++ "@"%char :: d).
Proof. intros l name d H1 H2. right. exists d. split; [|exact H2]. left. exists name. auto. Qed.
(** An entry for one domain accepts nobody else: not sub-domains, not domains that
    end in the same letters, not addresses with two @ signs. *)
Theorem C18_domain_entry_exact : forall d e, allowed (Some ["@"%char :: d]) e ->
  e = "@"%char :: d \/ exists name, ~ In "@"%char name /\ (e = name ++ "@"%char :: d \/ (e = name /\ d = [])).
Proof.
  intros d e [[H|[]]|(d' & Hd & [H|[]])]; [left; congruence|]. injection H as <-. right.
  destruct Hd as [(a & -> & Ha)|[Ha ->]]; eauto.
Qed.
Print Assumptions C18_domain_entry_exact.

Example C18_example :
  allowed (sso_acl x_sso) (lit "alice@example.com") /\ allowed (sso_acl x_sso) (lit "bob@example.org") /\
  ~ allowed (sso_acl x_sso) (lit "mallory@example.org") /\ ~ allowed (sso_acl x_sso) (lit "eve@evil.org@example.com") /\
  ~ allowed (sso_acl x_sso) (lit "eve@sub.example.com").
Proof. repeat split; rewrite <- ?acl_ok_spec; vm_compute; try reflexivity; discriminate. Qed.

(** ** C33 *)

(** With forced re-authentication, access to a protected path needs a session whose
    host is the host of this request (up to collisions of the hash) and which is not
    older than the configured time. *)
Theorem C33_forced_reauth_per_host : forall ev be cn s r,
  (forall text t, ev_decode ev text = Some t -> unforged (ev_hash ev) (ev_keys ev) t) ->
  be_sso be = Some s -> protected (sso_paths s) (rq_path r) -> sso_force s <> 0 ->
  reaches (reverse_proxy ev be cn r) \/ reaches (local_only ev be r) ->
  exists text t e, ev_decode ev text = Some t /\ carries r text /\
    (assoc (lit "hhash") (t_claims t) = Some (VStr (ev_hash ev (rq_host r))) /\
     exists iat, assoc (lit "iat") (t_claims t) = Some (VNum iat) /\ ev_now ev - iat <= sso_force s) /\
    assoc (lit "email") (t_claims t) = Some (VStr e).
Proof.
  intros ev be cn s r Hu Hs Hp Hf Hr. destruct (sso_no_bypass ev be cn s r Hs Hp Hr) as (cl & e & Hi & _ & [H|H]); [contradiction|].
  destruct (identified_token _ _ _ _ _ Hi Hu) as (text & t & Hc & Hd & -> & _). exists text, t, e. repeat split; auto; apply H || apply Hi.
Qed.
Print Assumptions C33_forced_reauth_per_host.

(** For the session cookie itself: it was made at a login for a host with the same
    hash, at the time from which the age is counted. *)
Theorem C33_session_cookie : forall ev be cn s r,
  (forall text t, ev_decode ev text = Some t -> unforged (ev_hash ev) (ev_keys ev) t) ->
  be_sso be = Some s -> protected (sso_paths s) (rq_path r) -> sso_force s <> 0 -> bearer_token (rq_headers r) = None ->
  reaches (reverse_proxy ev be cn r) \/ reaches (local_only ev be r) ->
  exists text t user e sid host iat extra,
    get_cookie auth_cookie (rq_headers r) = Some text /\ ev_decode ev text = Some t /\
    issued_as (ev_hash ev) (KSession (sso_cm s) user e sid host iat extra) t /\
    ev_hash ev host = ev_hash ev (rq_host r) /\ ev_now ev - iat <= sso_force s.
Proof.
  intros ev be cn s r Hu Hs Hp Hf Hb Hr. destruct (sso_no_bypass ev be cn s r Hs Hp Hr) as (cl & e & Hi & _ & [H|H]); [contradiction|].
  destruct (identified_token _ _ _ _ _ Hi Hu) as (text & t & Hc & Hd & -> & [(Hck & user & sid & host & iat & extra & Hk)|[X _]]); [|congruence].
  exists text, t, user, e, sid, host, iat, extra. split; [exact Hck|]. split; [exact Hd|]. split; [exact Hk|].
  destruct H as [H1 (iat' & H2 & H3)]. unfold issued_as in Hk. cbn [claims_of] in Hk.
  destruct (session_reserved _ _ _ _ _ _ _ _ _ Hk) as (R1 & _ & _ & _ & _ & _ & _ & _ & R2 & _).
  split; [congruence|]. assert (iat' = iat) by congruence. lia.
Qed.
Print Assumptions C33_session_cookie.

(** Identity tokens made by the proxy say nothing about when and for which host the
    user logged in, and are never enough. *)
Theorem C33_identity_tokens_do_not_count : forall hash aud iat cm user e sid host iat0 extra t,
  issued_as hash (KIdentity aud iat cm user e sid host iat0 extra) t -> assoc (lit "hhash") (t_claims t) = None.
Proof.
  intros hash aud iat cm user e sid host iat0 extra t H. unfold issued_as in H. cbn [claims_of] in H.
  destruct (session_claims _ _ _ _ _ _ _ _) as [c|]; [|discriminate H]. injection H as <-. rewrite idtoken_assoc. reflexivity.
Qed.
Print Assumptions C33_identity_tokens_do_not_count.

Definition x_be_force (limit : Z) : backend :=
  {| be_names := [lit "www.example.com"]; be_overrides := []; be_handlers := []; be_addrs := [lit "10.0.0.1:80"]; be_root := [];
     be_sanitize := None; be_headers := []; be_xfcc := [];
     be_sso := Some {| sso_cm := x_cm; sso_paths := []; sso_acl := None; sso_force := limit; sso_user_header := true; sso_gen_id := false |} |}.
Example C33_example :
  let run l r := reverse_proxy x_env (x_be_force l) x_conn r in
  reaches (run 1000 (x_req "/" (x_cookie "TLSPROXYAUTH=alice"))) /\
  run 999 (x_req "/" (x_cookie "TLSPROXYAUTH=alice")) = Login /\
  run 1000 {| rq_method := lit "GET"; rq_proto := lit "HTTP/1.1"; rq_host := lit "www.example.com"; rq_path := lit "/";
              rq_headers := x_cookie "TLSPROXYAUTH=alice" |} = Login.
Proof. vm_compute. repeat split; reflexivity. Qed.

(** ** C19 *)

(** The user-id header that the backend sees is absent, or it is the e-mail address of
    the session that the request was authenticated with. *)
Theorem C19_user_header : forall ev be cn r f,
  reverse_proxy ev be cn r = Forward f -> rules_leave be user_header -> rules_leave be (lit "connection") ->
  h_values user_header (fw_headers f) = [] \/
  exists s cl e, be_sso be = Some s /\ sso_user_header s = true /\ identified ev s r cl e /\ h_values user_header (fw_headers f) = [e].
Proof.
  intros ev be cn r f H R1 R2. destruct (forwarded_values _ _ _ _ _ user_header H R2 R1) as (r1 & c & r2 & Ha & He & E); try reflexivity.
  rewrite E. destruct (_ || _); [auto|]. change (same_name xfcc user_header) with false. change (same_name via user_header) with false. cbv iota.
  rewrite (enforce_headers _ _ _ _ _ _ He) by reflexivity. apply authenticate_spec in Ha. destruct Ha as (_ & _ & _ & _ & _ & Ha).
  destruct (be_sso be) as [s|] eqn:Es; [|left; apply Ha]. destruct c as [cl|]; [|auto]. destruct Ha as (e & Hi & Hv).
  destruct (sso_user_header s) eqn:Eu; [|auto]. right. exists s, cl, e. auto.
Qed.
Print Assumptions C19_user_header.

(** The address in X-Forwarded-For is the address of the peer, and nothing else. *)
Theorem C19_forwarded_for : forall ev be cn r f,
  reverse_proxy ev be cn r = Forward f -> h_values xff (fw_headers f) = [cn_peer cn].
Proof.
  intros ev be cn r f H. apply reverse_forward in H. destruct H as (r1 & c & r2 & _ & _ & Hf).
  apply forward_spec in Hf. cbv zeta in Hf. destruct Hf as (_ & _ & extra & h1 & _ & _ & _ & -> & _). apply outgoing_xff.
Qed.
Print Assumptions C19_forwarded_for.

(** The client certificate header is absent or made from the certificate presented. *)
Theorem C19_client_certificate : forall ev be cn r f,
  reverse_proxy ev be cn r = Forward f ->
  h_values xfcc (fw_headers f) = [] \/
  exists v, cn_cert cn = Some v /\ be_xfcc be <> [] /\ h_values xfcc (fw_headers f) = [v].
Proof.
  intros ev be cn r f H. apply reverse_forward in H. destruct H as (r1 & c & r2 & _ & _ & Hf).
  apply forward_spec in Hf. cbv zeta in Hf. destruct Hf as (_ & _ & extra & h1 & _ & _ & _ & -> & _).
  rewrite outgoing_values by reflexivity. destruct (_ || _); [auto|].
  rewrite director_values, same_name_refl. destruct (cn_cert cn) as [v|]; [|auto]. destruct (be_xfcc be); [auto|].
  right. exists v. repeat split; congruence.
Qed.
Print Assumptions C19_client_certificate.

Definition x_forged : headers :=
  [(lit "x-TLSPROXY-user-ID", lit "root@example.com"); (lit "X-Forwarded-For", lit "10.0.0.1"); (lit "x-forwarded-client-cert", lit "Hash=00");
   (lit "X-Forwarded-For", lit "10.0.0.2"); (lit "Cookie", lit "TLSPROXYAUTH=alice")].
Example C19_example :
  match reverse_proxy x_env x_be x_conn (x_req "/private/" x_forged) with
  | Forward f => (h_values user_header (fw_headers f), h_values xff (fw_headers f), h_values xfcc (fw_headers f))
  | _ => ([], [], [])
  end = ([lit "alice@example.com"], [lit "198.51.100.7"], [lit "Hash=abcd"]) /\
  rules_leave x_be user_header /\ rules_leave x_be (lit "connection").
Proof. split; [vm_compute; reflexivity|]. split; apply x_rules; reflexivity. Qed.

(** ** C20 *)

(** Unless the request names the header in a Connection header, it is there. *)
Theorem C20_certificate_header_present_partial : forall ev be cn r f v,
  reverse_proxy ev be cn r = Forward f -> rules_leave be (lit "connection") ->
  cn_cert cn = Some v -> be_xfcc be <> [] -> ~ connection_names (rq_headers r) xfcc ->
  h_values xfcc (fw_headers f) = [v].
Proof.
  intros ev be cn r f v H R Hc Hx Hn. apply reverse_forward in H. destruct H as (r1 & c & r2 & Ha & He & Hf).
  apply forward_spec in Hf. cbv zeta in Hf. destruct Hf as (_ & _ & extra & h1 & Hr & _ & Eh1 & -> & _).
  rewrite outgoing_values by reflexivity. 
  replace (conn_names (fst (fold_left (apply_header ev c) extra (h1, rq_host r2))) xfcc) with false.
  - change (is_hop xfcc) with false. cbn [orb]. rewrite director_values, same_name_refl, Hc.
    destruct (be_xfcc be); [congruence|reflexivity].
  - symmetry. destruct (conn_names _ _) eqn:E; [|reflexivity]. apply conn_names_spec in E. exfalso. apply Hn.
    destruct E as (o & Ho & Hs). exists o. split; [|exact Hs].
    rewrite (connection_options_ext _ (rq_headers r)) in Ho; [exact Ho|].
    rewrite apply_headers_values by exact (rules_leave_for be _ _ _ R Hr). rewrite Eh1, !h_values_set.
    change (same_name via (lit "connection")) with false. change (same_name (lit "host") (lit "connection")) with false. cbv iota.
    apply (pre_forward _ _ _ _ _ _ _ Ha He); reflexivity.
Qed.
Print Assumptions C20_certificate_header_present_partial.

(** A client that sends "Connection: X-Forwarded-Client-Cert" suppresses the header:
    the Director of the reverse proxy adds it before the hop-by-hop headers are
    removed. *)
Theorem C20_client_can_suppress_it_refuted :
  ~ (forall ev be cn r f v, reverse_proxy ev be cn r = Forward f -> cn_cert cn = Some v -> be_xfcc be <> [] ->
      h_values xfcc (fw_headers f) = [v]).
Proof.
  intro H. destruct (reverse_proxy x_env x_be x_conn (x_req "/" [(lit "Connection", lit "keep-alive, X-Forwarded-Client-Cert")])) eqn:E;
    try (vm_compute in E; discriminate E).
  specialize (H _ _ _ _ _ (lit "Hash=abcd") E eq_refl). vm_compute in E. injection E as <-. 
  assert (A : be_xfcc x_be <> []) by discriminate. apply H in A. vm_compute in A. discriminate A.
Qed.
Print Assumptions C20_client_can_suppress_it_refuted.

Example C20_example :
  match reverse_proxy x_env x_be x_conn (x_req "/" [(lit "Connection", lit "keep-alive")]) with
  | Forward f => h_values xfcc (fw_headers f)
  | _ => []
  end = [lit "Hash=abcd"] /\ ~ connection_names [(lit "Connection", lit "keep-alive")] xfcc.
Proof.
  split; [vm_compute; reflexivity|]. rewrite <- conn_names_spec. vm_compute. discriminate.
Qed.

(** ** C22 *)

Theorem C22_only_own_hosts : forall ev be cn r,
  match reverse_proxy ev be cn r with Forward _ | Static _ | LoopDetected => True | _ => False end ->
  exists s, In s (be_names be) /\ names_host (if str_eqb (rq_host r) [] then cn_name cn else rq_host r) s.
Proof.
  intros ev be cn r H. unfold reverse_proxy in H. destruct (authenticate ev be r) as [[r1 c]|] eqn:Ea; [|destruct H].
  destruct (local_and_authorize ev be r1 c) as [res|r2] eqn:El.
  - apply local_inl_kind in El. destruct res; try destruct H; try destruct El.
  - apply local_inr in El. destruct El as [El _]. apply authenticate_spec in Ea. apply enforce_pass in El.
    assert (Eh : rq_host r2 = rq_host r) by intuition congruence.
    unfold forward in H. cbv zeta in H. rewrite Eh in H.
    destruct (mem (url_hostname (if str_eqb (rq_host r) [] then cn_name cn else rq_host r)) (be_names be)) eqn:Em; [|destruct H].
    apply mem_spec in Em. eauto using url_hostname_spec.
Qed.
Print Assumptions C22_only_own_hosts.

(** A request that gets past authorization and local endpoints and names none of the
    served hosts gets 421; one that names a served host, with or without port, does
    not. *)
Theorem C22_misdirected : forall ev be cn r c,
  (forall s, In s (be_names be) -> plain_name s) ->
  (forward ev be cn r c = Misdirected <->
   ~ exists s, In s (be_names be) /\ names_host (if str_eqb (rq_host r) [] then cn_name cn else rq_host r) s).
Proof.
  intros ev be cn r c Hp. unfold forward. cbv zeta. set (host := if str_eqb (rq_host r) [] then cn_name cn else rq_host r).
  destruct (mem (url_hostname host) (be_names be)) eqn:Em; cbn [negb].
  - apply mem_spec in Em. split; intro H.
    + exfalso. destruct (choose _ _ _) as [|i po p|]; try discriminate H.
      * destruct (po_addrs po); [discriminate H|]. destruct (be_addrs be); [discriminate H|]. destruct (existsb _ _); [discriminate H|].
        destruct (fold_left _ _ _); discriminate H.
      * destruct (be_addrs be); [discriminate H|]. destruct (existsb _ _); [discriminate H|].
        destruct (fold_left _ _ _); discriminate H.
    + exfalso. apply H. eauto using url_hostname_spec.
  - apply mem_false in Em. split; [|reflexivity]. intros _ (s & Hs & Hn). apply Em. rewrite (url_hostname_complete host s) by auto. exact Hs.
Qed.
Print Assumptions C22_misdirected.

Example C22_example :
  let rq h := {| rq_method := lit "GET"; rq_proto := lit "HTTP/1.1"; rq_host := lit h; rq_path := lit "/"; rq_headers := [] |} in
  let run h := reverse_proxy x_env x_be x_conn (rq h) in
  run "other.example.com"%string = Misdirected /\ run "www.example.com.evil.org"%string = Misdirected /\
  run "www.example.com@evil.org"%string = Misdirected /\ reaches (run "www.example.com:443")%string /\ reaches (run "")%string /\
  (forall s, In s (be_names x_be) -> plain_name s).
Proof.
  cbv zeta. do 5 (split; [vm_compute; first [reflexivity|exact I]|]).
  intros s [<-|[]]. vm_compute. repeat split; try discriminate; intro H; repeat (destruct H as [H|H]; [discriminate H|]); exact H.
Qed.

(** ** C23 *)

(** Other proxies append to the Via line that they received, or add further lines; the
    request then comes back on a connection to the same address, for whichever
    backend.  It is not forwarded again. *)
Theorem C23_loops_are_cut_partial : forall ev be cn r f ev' be' cn' r' f',
  via_ok r cn -> rules_leave be via -> rules_leave be (lit "connection") ->
  reverse_proxy ev be cn r = Forward f -> ~ connection_names (rq_headers r) via ->
  via_kept (h_get via (fw_headers f)) (h_get via (rq_headers r')) -> cn_local cn' = cn_local cn ->
  reverse_proxy ev' be' cn' r' <> Forward f'.
Proof. exact via_cut. Qed.
Print Assumptions C23_loops_are_cut_partial.

(** A client that names Via in a Connection header gets the record of the first pass
    erased: the request passes the proxy a second time. *)
Definition again (r : request) (f : forwarded) : request :=
  {| rq_method := rq_method r; rq_proto := rq_proto r; rq_host := fw_host f; rq_path := fw_path f; rq_headers := fw_headers f |}.
Theorem C23_via_can_be_dropped_refuted :
  ~ (forall ev be cn r f f', via_ok r cn -> rules_leave be via -> rules_leave be (lit "connection") ->
      reverse_proxy ev be cn r = Forward f -> reverse_proxy ev be cn (again r f) <> Forward f').
Proof.
  intro H. set (r := x_req "/" [(lit "Connection", lit "via")]).
  destruct (reverse_proxy x_env x_be x_conn r) as [| | | | | | | | |f] eqn:E; try (vm_compute in E; discriminate E).
  destruct (reverse_proxy x_env x_be x_conn (again r f)) as [| | | | | | | | |f'] eqn:E'; try (vm_compute in E; injection E as <-; vm_compute in E'; discriminate E').
  apply (H x_env x_be x_conn r f f'); auto using x_rules.
  - vm_compute. repeat split; try discriminate; intro X; repeat (destruct X as [X|X]; [discriminate X|]); exact X.
Qed.
Print Assumptions C23_via_can_be_dropped_refuted.

(** But it passes only once more: what the proxy forwards never asks to drop Via, so
    the loop is cut at the latest when the request arrives for the third time. *)
Theorem C23_no_endless_loop : forall ev be cn r1 f1 ev2 be2 cn2 r2 f2 ev3 be3 cn3 r3 f3,
  via_ok r2 cn2 -> rules_leave be2 via -> rules_leave be2 (lit "connection") ->
  reverse_proxy ev be cn r1 = Forward f1 -> h_values (lit "connection") (rq_headers r2) = h_values (lit "connection") (fw_headers f1) ->
  reverse_proxy ev2 be2 cn2 r2 = Forward f2 ->
  via_kept (h_get via (fw_headers f2)) (h_get via (rq_headers r3)) -> cn_local cn3 = cn_local cn2 ->
  reverse_proxy ev3 be3 cn3 r3 <> Forward f3.
Proof.
  intros ev be cn r1 f1 ev2 be2 cn2 r2 f2 ev3 be3 cn3 r3 f3 V R1 R2 H1 Hc H2 Hk El.
  eapply via_cut; eauto. apply connection_names_upgrade. rewrite Hc. eapply forwarded_connection. exact H1.
Qed.
Print Assumptions C23_no_endless_loop.

Example C23_example :
  let r := x_req "/" [(lit "Via", lit "1.1 alpha,  1.1 beta")] in
  match reverse_proxy x_env x_be x_conn r with
  | Forward f => h_values via (fw_headers f) = [lit "1.1 alpha, 1.1 beta, HTTP/1.1 192.0.2.1:443"] /\ reverse_proxy x_env x_be x_conn (again r f) = LoopDetected
  | _ => False
  end /\ via_ok r x_conn.
Proof.
  vm_compute. repeat split; try discriminate; intro X; repeat (destruct X as [X|X]; [discriminate X|]); exact X.
Qed.

(** ** C24 *)

(** An endpoint matches a request for its host (or any host, if it has none) and its
    path, or, for prefix endpoints, any path below it. *)
Theorem C24_matches : forall host path h, handler_matches host path h = true <->
  (lh_host h = [] \/ lh_host h = host) /\ (path = lh_path h \/ (lh_prefix h = true /\ exists t, path = lh_path h ++ slash :: t)).
Proof.
  intros host path h. split; [intro H; split; [eapply matches_host|eapply matches_path]; exact H|].
  intros [H1 H2]. unfold handler_matches. apply andb_true_intro. split.
  - apply orb_true_iff. rewrite !str_eqb_spec. exact H1.
  - apply orb_true_iff. destruct H2 as [->|(-> & t & ->)]; [left; apply str_eqb_refl|]. right. apply has_prefix_spec. exists t. rewrite <- app_assoc. reflexivity.
Qed.
Print Assumptions C24_matches.

(** The endpoint that answers matches the request, and every other matching endpoint
    is less specific: it is not bound to a host and this one is, or it is bound to the
    same host and its path is not longer. *)
Theorem C24_most_specific : forall ev be cn r h, sorted (be_handlers be) ->
  reverse_proxy ev be cn r = Local h \/ local_only ev be r = Local h ->
  let matches := handler_matches (host_from_req (rq_host r)) (rq_path r) in
  In h (be_handlers be) /\ matches h = true /\
  forall h', In h' (be_handlers be) -> matches h' = true -> more_specific h h'.
Proof.
  intros ev be cn r h Hs H. cbv zeta.
  assert (A : exists r1 c, authenticate ev be r = Some (r1, c) /\ local_and_authorize ev be r1 c = inl (Local h)).
  { unfold reverse_proxy, local_only in H. destruct (authenticate ev be r) as [[r1 c]|]; [|destruct H; discriminate].
    exists r1, c. split; [reflexivity|]. destruct (local_and_authorize ev be r1 c) as [res|r2]; [destruct H; congruence|].
    destruct H as [H|H]; [|discriminate]. exfalso. unfold forward in H. cbv zeta in H.
    destruct (negb _); [discriminate H|]. destruct (choose _ _ _) as [|i po p|]; try discriminate H.
    - destruct (po_addrs po); [discriminate H|]. destruct (be_addrs be); [discriminate H|]. destruct (existsb _ _); [discriminate H|].
      destruct (fold_left _ _ _); discriminate H.
    - destruct (be_addrs be); [discriminate H|]. destruct (existsb _ _); [discriminate H|].
      destruct (fold_left _ _ _); discriminate H. }
  destruct A as (r1 & c & Ha & Hl). apply authenticate_spec in Ha. destruct Ha as (Ep & Eh & _).
  unfold local_and_authorize in Hl. cbv zeta in Hl. rewrite Ep, Eh in Hl.
  destruct (find _ _) as [h0|] eqn:Ef.
  - destruct (if lh_bypass h0 then _ else _) as [res|r2] eqn:Eb; [destruct (lh_bypass h0); [discriminate Eb|]|].
    + exfalso. injection Hl as ->. unfold enforce in Eb. destruct (be_sso be); [|discriminate]. destruct (negb _); [discriminate|].
      destruct (needs_login _ _ _ _); [destruct (str_eqb _ _); discriminate|]. destruct (acl_ok _ _); discriminate.
    + destruct (str_eqb (pathClean (rq_path r)) (rq_path r)) eqn:Ec; [|discriminate]. injection Hl as ->. apply str_eqb_spec in Ec. rewrite Ec in Ef.
      apply selected_specific; assumption.
  - destruct (enforce ev be r1 c) as [res|r2] eqn:Ee; [|destruct (existsb _ _); discriminate].
    exfalso. injection Hl as ->. unfold enforce in Ee. destruct (be_sso be); [|discriminate]. destruct (negb _); [discriminate|].
    destruct (needs_login _ _ _ _); [destruct (str_eqb _ _); discriminate|]. destruct (acl_ok _ _); discriminate.
Qed.
Print Assumptions C24_most_specific.

(** When an endpoint matches the cleaned path, the request goes no further: it is
    answered by an endpoint, redirected to the cleaned path, or stopped by SSO.  An
    endpoint that bypasses SSO answers itself if the path is already clean. *)
Theorem C24_matching_requests_stay : forall ev be cn r h,
  find (handler_matches (host_from_req (rq_host r)) (pathClean (rq_path r))) (be_handlers be) = Some h ->
  let res := reverse_proxy ev be cn r in
  local_only ev be r = res /\
  match res with
  | Local h' => h' = h /\ pathClean (rq_path r) = rq_path r
  | Redirect p => p = pathClean (rq_path r) /\ p <> rq_path r
  | SetIDToken => True
  | Login | AuthRequired | Denied => lh_bypass h = false
  | _ => False
  end.
Proof.
  intros ev be cn r h Hf. cbv zeta. unfold reverse_proxy, local_only. destruct (authenticate ev be r) as [[r1 c]|] eqn:Ea; [|auto].
  apply authenticate_spec in Ea. destruct Ea as (Ep & Eh & _). unfold local_and_authorize. cbv zeta. rewrite Ep, Eh, Hf.
  destruct (if lh_bypass h then inr r1 else enforce ev be r1 c) as [res|r2] eqn:Ee.
  - split; [reflexivity|]. destruct (lh_bypass h); [discriminate|]. unfold enforce in Ee. destruct (be_sso be); [|discriminate]. destruct (negb _); [discriminate|].
    destruct (needs_login _ _ _ _); [destruct (str_eqb _ _); injection Ee as <-; reflexivity|]. destruct (acl_ok _ _); [discriminate|]. injection Ee as <-. reflexivity.
  - split; [reflexivity|]. destruct (str_eqb (pathClean (rq_path r)) (rq_path r)) eqn:Ec.
    + apply str_eqb_spec in Ec. auto.
    + apply str_eqb_neq in Ec. auto.
Qed.
Print Assumptions C24_matching_requests_stay.

(** The order in which endpoints are configured does not matter: however the list is
    sorted, the same endpoint is found, as long as no two have the same host and
    path. *)
Theorem C24_order_irrelevant : forall host path l1 l2, sorted l1 -> sorted l2 -> Permutation l1 l2 ->
  NoDup (map (fun h => (lh_host h, lh_path h)) l1) ->
  find (handler_matches host path) l1 = find (handler_matches host path) l2.
Proof. exact selection_order_independent. Qed.
Print Assumptions C24_order_irrelevant.

(** Every list of endpoints can be brought into that order. *)
Theorem C24_sorting_exists : forall l, exists l', Permutation l l' /\ sorted l'.
Proof. exact sorting_exists. Qed.
Print Assumptions C24_sorting_exists.

Example C24_example :
  sorted x_handlers /\ NoDup (map (fun h => (lh_host h, lh_path h)) x_handlers) /\
  let run p := match reverse_proxy x_env x_be x_conn (x_req p []) with Local h => Some (lh_id h) | _ => None end in
  run "/.sso/admin/x"%string = Some 2%nat /\ run "/.sso/adminx"%string = Some 3%nat /\ run "/.well-known/oauth"%string = Some 1%nat /\
  run "/.well-known/oauth/x"%string = None.
Proof.
  vm_compute. repeat split; try reflexivity; repeat constructor; try (intro H; repeat (destruct H as [H|H]; [discriminate H|]); exact H).
Qed.

(** ** C25 *)

(** Config.Check: override paths end with a slash, so a prefix ends at an element. *)
Definition overrides_ok (be : backend) : Prop :=
  forall po p, In po (be_overrides be) -> In p (po_paths po) -> exists q, p = q ++ [slash].

(** The override that a forwarded request uses is the first one that has a path of
    which the cleaned request path is a continuation.  Without one, the backend's own
    addresses are used. *)
Theorem C25_first_matching_override : forall ev be cn r f, reverse_proxy ev be cn r = Forward f -> overrides_ok be ->
  let path := pathClean (rq_path r) in
  match fw_override f with
  | Some i =>
      exists before po after q t, be_overrides be = before ++ po :: after /\ i = List.length before /\
        In (q ++ [slash]) (po_paths po) /\ path = q ++ slash :: t /\ po_addrs po <> [] /\
        forall po' p' t', In po' before -> In p' (po_paths po') -> path <> p' ++ t'
  | None => forall po' p' t', In po' (be_overrides be) -> In p' (po_paths po') -> path <> p' ++ t'
  end.
Proof.
  intros ev be cn r f H Hok. cbv zeta. apply reverse_forward in H. destruct H as (r1 & c & r2 & Ha & He & Hf).
  apply authenticate_spec in Ha. apply enforce_pass in He. assert (Ep : rq_path r2 = rq_path r) by intuition congruence.
  apply forward_spec in Hf. cbv zeta in Hf. destruct Hf as (_ & _ & extra & h1 & _ & _ & _ & _ & _ & _ & Hc). rewrite Ep in Hc.
  destruct (fw_override f) as [i|].
  - destruct Hc as (po & p & Hc & Had). assert (S := choose_spec (pathClean (rq_path r)) 0 (be_overrides be)). rewrite Hc in S.
    destruct S as (pos1 & pos2 & E1 & E2 & E3 & E4 & (t & E5) & _).
    destruct (Hok po p) as [q Hq]; [rewrite E1; apply in_or_app; right; left; reflexivity|exact E4|]. subst p.
    exists pos1, po, pos2, q, t. split; [exact E1|]. split; [exact E2|]. split; [exact E4|]. split; [rewrite E5, <- app_assoc; reflexivity|]. split; [exact Had|].
    intros po' p' t' H1 H2. rewrite Forall_forall in E3. apply (E3 po' H1 p' H2).
  - assert (S := choose_spec (pathClean (rq_path r)) 0 (be_overrides be)). rewrite Hc in S.
    intros po' p' t' H1 H2. rewrite Forall_forall in S. apply (S po' H1 p' H2).
Qed.
Print Assumptions C25_first_matching_override.

(** Where a request goes that is not forwarded: an override without addresses serves
    its own files; a path that only lacks the final slash of an override is
    redirected. *)
Theorem C25_override_files : forall ev be cn r c before po after p,
  be_overrides be = before ++ po :: after -> In p (po_paths po) -> po_addrs po = [] ->
  Forall (no_match (pathClean (rq_path r))) before ->
  (forall p', In p' (po_paths po) -> pathClean (rq_path r) ++ [slash] <> p') ->
  (exists t, pathClean (rq_path r) = p ++ t) ->
  forward ev be cn r c <> Misdirected ->
  exists p', In p' (po_paths po) /\ forward ev be cn r c = Static (serve_static (ev_fs ev) (po_root po) p' (rq_method r) (rq_path r)).
Proof.
  intros ev be cn r c before po after p Eo Hp Ha Hb Hn [t Ht] Hm. 
  assert (C : exists p', In p' (po_paths po) /\ choose (pathClean (rq_path r)) 0 (be_overrides be) = COverride (0 + List.length before) po p').
  { rewrite Eo. clear Eo. generalize 0%nat. induction before as [|b before IH]; intro i.
    - cbn [app choose List.length]. rewrite Nat.add_0_r. clear - Hp Hn Ht. generalize dependent (pathClean (rq_path r)). intros path Hn' Ht'.
      assert (T : exists p', In p' (po_paths po) /\ try_paths path i po (po_paths po) = COverride i po p').
      { induction (po_paths po) as [|x l IH]; [destruct Hp|]. cbn [try_paths].
        destruct (str_eqb (path ++ [slash]) x) eqn:E1; [apply str_eqb_spec in E1; exfalso; exact (Hn' x (or_introl eq_refl) E1)|].
        destruct (has_prefix path x) eqn:E2; [exists x; split; [left|]; reflexivity|].
        destruct Hp as [->|Hp].
        - assert (X : has_prefix path p = true) by (apply has_prefix_spec; eauto). congruence.
        - destruct IH as (p' & I1 & I2); auto. { intros p' Hp'. apply Hn'. right. exact Hp'. } exists p'. split; [right|]; assumption. }
      destruct T as (p' & T1 & T2). exists p'. split; [exact T1|]. rewrite T2. reflexivity.
    - cbn [app choose List.length]. inversion Hb; subst.
      assert (T := try_paths_spec (pathClean (rq_path r)) i b (po_paths b)).
      destruct (try_paths (pathClean (rq_path r)) i b (po_paths b)) eqn:Et.
      + exfalso. destruct T as (-> & ps1 & ps2 & T & _). refine (proj1 (H1 _ _) eq_refl). rewrite T. apply in_or_app. right. left. reflexivity.
      + exfalso. destruct T as (_ & _ & ps1 & ps2 & T & (t0 & T4) & _). refine (proj2 (H1 prefix _) t0 T4). rewrite T. apply in_or_app. right. left. reflexivity.
      + rewrite Nat.add_succ_r, <- Nat.add_succ_l. apply IH; assumption. }
  destruct C as (p' & C1 & C2). exists p'. split; [exact C1|]. unfold forward in *. cbv zeta in *. 
  destruct (negb _); [congruence|]. rewrite C2, Ha. reflexivity.
Qed.
Print Assumptions C25_override_files.

(** A request is redirected only to its cleaned path, if a local endpoint is there,
    or to its cleaned path with a slash, if that is the path of a local endpoint or
    of an override. *)
Theorem C25_redirects : forall ev be cn r t, reverse_proxy ev be cn r = Redirect t ->
  let path := pathClean (rq_path r) in
  (t = path /\ path <> rq_path r /\ exists h, In h (be_handlers be) /\ handler_matches (host_from_req (rq_host r)) path h = true) \/
  (t = path ++ [slash] /\
   ((exists h, In h (be_handlers be) /\ lh_path h = t) \/ (exists po, In po (be_overrides be) /\ In t (po_paths po)))).
Proof.
  intros ev be cn r t H. cbv zeta. unfold reverse_proxy in H. destruct (authenticate ev be r) as [[r1 c]|] eqn:Ea; [|discriminate].
  apply authenticate_spec in Ea. destruct Ea as (Ep & Eh & _). rewrite <- Ep, <- Eh.
  assert (NE : forall r res, enforce ev be r c = inl res -> res <> Redirect t).
  { intros r0 res. unfold enforce. destruct (be_sso be) as [s|]; [|discriminate]. destruct (negb _); [discriminate|].
    destruct (needs_login _ _ _ _); [intros [= <-]; destruct (str_eqb _ _); discriminate|].
    destruct (acl_ok _ _); [discriminate|]. intros [= <-]. discriminate. }
  unfold local_and_authorize in H. cbv zeta in H.
  destruct (find _ (be_handlers be)) as [h|] eqn:Ef.
  - destruct (if lh_bypass h then inr r1 else enforce ev be r1 c) as [res|r2] eqn:Ee.
    + destruct (lh_bypass h); [discriminate|]. exfalso. apply (NE _ _ Ee H).
    + destruct (str_eqb (pathClean (rq_path r1)) (rq_path r1)) eqn:E; [discriminate|]. injection H as <-. left.
      split; [reflexivity|]. split; [apply str_eqb_neq; exact E|]. exists h. apply find_some in Ef. exact Ef.
  - destruct (enforce ev be r1 c) as [res|r2] eqn:Ee; [exfalso; apply (NE _ _ Ee H)|]. apply enforce_pass in Ee. destruct Ee as (Ep2 & _).
    destruct (existsb _ (be_handlers be)) eqn:Ex.
    + injection H as <-. right. split; [reflexivity|]. left. apply existsb_exists in Ex. destruct Ex as (h & Hh & X).
      apply andb_true_iff in X. destruct X as [_ X]. apply str_eqb_spec in X. eauto.
    + right. unfold forward in H. cbv zeta in H. destruct (negb _); [discriminate|]. rewrite Ep2 in H.
      assert (G : forall ov (sn : bool) extra h0 hs,
        (match be_addrs be with [] => Static (serve_static (ev_fs ev) (be_root be) [] (rq_method r2) (rq_path r1)) | _ :: _ =>
          if existsb (fun hop => str_eqb (hop_name hop) (cn_local cn)) hs then LoopDetected
          else let '(h, ohost) := fold_left (apply_header ev c) extra (h0, rq_host r2) in
            Forward {| fw_override := ov; fw_host := ohost; fw_path := if sn then pathClean (rq_path r1) else rq_path r1; fw_headers := outgoing be cn h |} end) <> Redirect t).
      { intros ov sn extra h0 hs. destruct (be_addrs be); [discriminate|]. destruct (existsb _ hs); [discriminate|]. destruct (fold_left _ extra _). discriminate. }
      assert (S := choose_spec (pathClean (rq_path r1)) 0 (be_overrides be)).
      destruct (choose (pathClean (rq_path r1)) 0 (be_overrides be)) as [q|i po p|].
      * injection H as <-. destruct S as (-> & pos1 & po & pos2 & E & _ & I1). split; [reflexivity|]. right. exists po.
        rewrite E. split; [apply in_or_app; right; left; reflexivity|exact I1].
      * destruct (po_addrs po); [discriminate|]. exfalso. eapply G. exact H.
      * exfalso. eapply G. exact H.
Qed.
Print Assumptions C25_redirects.

(** An override with addresses is ignored when the backend itself has none: the
    request is answered from the backend's own files. *)
Definition x_be_static : backend :=
  {| be_names := [lit "www.example.com"]; be_sso := None; be_handlers := []; be_overrides := x_overrides;
     be_addrs := []; be_root := lit "/var/www"; be_sanitize := None; be_headers := []; be_xfcc := [] |}.
Theorem C25_override_without_default_addresses_refuted :
  ~ (forall ev be cn r before po after p t, reverse_proxy ev be cn r <> Misdirected -> overrides_ok be ->
      be_overrides be = before ++ po :: after -> Forall (no_match (pathClean (rq_path r))) before ->
      In p (po_paths po) -> pathClean (rq_path r) = p ++ t -> po_addrs po <> [] -> be_sso be = None -> be_handlers be = [] ->
      exists f, reverse_proxy ev be cn r = Forward f \/ reverse_proxy ev be cn r = LoopDetected).
Proof.
  intro H. destruct x_overrides as [|po rest] eqn:Eo; [discriminate Eo|].
  destruct (H x_env x_be_static x_conn (x_req "/api/v1/x" []) [] po rest (lit "/api/v1/") (lit "x")) as [f [E|E]]; try reflexivity.
  - vm_compute. discriminate.
  - intros po' p' [<-|[<-|[]]] [<-|[<-|[]]];
      [exists (lit "/api/v1")|exists (lit "/api")|exists (lit "/api/v2")|exists (lit "/files")]; reflexivity.
  - exact Eo.
  - constructor.
  - injection Eo as <- _. left. reflexivity.
  - injection Eo as <- _. discriminate.
  - vm_compute in E. discriminate E.
  - vm_compute in E. discriminate E.
Qed.
Print Assumptions C25_override_without_default_addresses_refuted.

Example C25_example :
  let run p := match reverse_proxy x_env x_be x_conn (x_req p []) with Forward f => Some (fw_override f, fw_path f) | _ => None end in
  run "/api/v1/x"%string = Some (Some 0%nat, lit "/api/v1/x") /\ run "/api/v2/x"%string = Some (Some 0%nat, lit "/api/v2/x") /\ 
  run "/apix/"%string = Some (None, lit "/apix/") /\ run "/x/..//api/./y"%string = Some (Some 0%nat, lit "/api/y") /\ run "/files/y"%string = None /\ 
  reverse_proxy x_env x_be x_conn (x_req "/api" []) = Redirect (lit "/api/").
Proof. vm_compute. repeat split; reflexivity. Qed.

(** ** C26 *)

(** On protected paths, the cookies that the backend receives are those that the
    client sent, in order and with their values, without the proxy's own. *)
Theorem C26_cookies_partial : forall ev be cn s r f,
  reverse_proxy ev be cn r = Forward f -> rules_leave be (lit "cookie") -> rules_leave be (lit "connection") ->
  be_sso be = Some s -> protected (sso_paths s) (rq_path r) -> ~ connection_names (rq_headers r) (lit "cookie") ->
  pairs (cookies (fw_headers f)) =
    filter (fun nv => negb (str_eqb (fst nv) auth_cookie || str_eqb (fst nv) sid_cookie)) (pairs (cookies (rq_headers r))).
Proof.
  intros ev be cn s r f H R1 R2 Hs Hp Hn. destruct (forwarded_values _ _ _ _ _ (lit "cookie") H R2 R1) as (r1 & c & r2 & Ha & He & E); try reflexivity.
  replace (conn_names (rq_headers r) (lit "cookie")) with false in E.
  2:{ symmetry. destruct (conn_names _ _) eqn:X; [|reflexivity]. apply conn_names_spec in X. contradiction. }
  change (is_hop (lit "cookie")) with false in E. change (same_name xfcc (lit "cookie")) with false in E. change (same_name via (lit "cookie")) with false in E.
  cbn [orb] in E. rewrite (cookies_ext _ _ E).
  apply authenticate_spec in Ha. destruct Ha as (Ep & _ & _ & _ & Hv & _). apply enforce_pass in He. rewrite Hs, Ep in He.
  destruct He as (_ & _ & _ & _ & [[X _]|(_ & He & _)]); [contradiction|]. rewrite He. destruct (filter_auth_cookie_spec (rq_headers r1)) as [F _]. rewrite F.
  rewrite (cookies_ext (rq_headers r1) (rq_headers r)) by (apply Hv; reflexivity).
  unfold pairs. induction (cookies (rq_headers r)) as [|a l IH]; [reflexivity|]. cbn [filter map]. unfold keep_cookie at 1.
  cbn [fst]. destruct (_ || _); cbn [negb]; [exact IH|]. cbn [map]. rewrite IH. reflexivity.
Qed.
Print Assumptions C26_cookies_partial.

(** In particular, the session cookie is not among them. *)
Theorem C26_session_cookie_withheld_partial : forall ev be cn s r f,
  reverse_proxy ev be cn r = Forward f -> rules_leave be (lit "cookie") -> rules_leave be (lit "connection") ->
  be_sso be = Some s -> protected (sso_paths s) (rq_path r) -> get_cookie auth_cookie (fw_headers f) = None.
Proof.
  intros ev be cn s r f H R1 R2 Hs Hp. destruct (conn_names (rq_headers r) (lit "cookie")) eqn:Ec.
  - destruct (forwarded_values _ _ _ _ _ (lit "cookie") H R2 R1) as (r1 & c & r2 & Ha & He & E); try reflexivity.
    rewrite Ec in E. cbn [orb] in E. unfold get_cookie, cookies. rewrite E. reflexivity.
  - assert (Hn : ~ connection_names (rq_headers r) (lit "cookie")) by (rewrite <- conn_names_spec; congruence).
    assert (P := C26_cookies_partial ev be cn s r f H R1 R2 Hs Hp Hn). unfold get_cookie.
    destruct (filter (fun c => str_eqb (ck_name c) auth_cookie) (cookies (fw_headers f))) as [|c l] eqn:F; [reflexivity|]. exfalso.
    assert (Hin : In c (cookies (fw_headers f)) /\ str_eqb (ck_name c) auth_cookie = true) by (apply (filter_In (fun c => str_eqb (ck_name c) auth_cookie)); rewrite F; left; reflexivity).
    destruct Hin as [Hin Hnm]. apply (in_map (fun c => (ck_name c, ck_value c))) in Hin. fold (pairs (cookies (fw_headers f))) in Hin. rewrite P in Hin.
    apply filter_In in Hin. destruct Hin as [_ Hin]. cbn [fst] in Hin. rewrite Hnm in Hin. discriminate Hin.
Qed.
Print Assumptions C26_session_cookie_withheld_partial.

(** Outside the protected paths, and on backends without SSO, the session cookie is
    sent on with the others. *)
Theorem C26_session_cookie_disclosed_refuted :
  ~ (forall ev be cn r f, reverse_proxy ev be cn r = Forward f -> rules_leave be (lit "cookie") -> rules_leave be (lit "connection") ->
      get_cookie auth_cookie (fw_headers f) = None).
Proof.
  intro H. destruct (reverse_proxy x_env x_be x_conn (x_req "/public" (x_cookie "TLSPROXYAUTH=alice"))) as [| | | | | | | | |f] eqn:E; try (vm_compute in E; discriminate E).
  specialize (H _ _ _ _ _ E (x_rules (lit "cookie") eq_refl) (x_rules (lit "connection") eq_refl)). vm_compute in E. injection E as <-. vm_compute in H. discriminate H.
Qed.
Print Assumptions C26_session_cookie_disclosed_refuted.

Example C26_example :
  match reverse_proxy x_env x_be x_conn (x_req "/private/x" [(lit "cookie", lit "a=1; TLSPROXYAUTH=alice; b=""x y"""); (lit "Cookie", lit "TLSPROXYSID=s; c=")]) with
  | Forward f => h_values (lit "cookie") (fw_headers f)
  | _ => []
  end = [lit "a=1; b=""x y""; c="].
Proof. vm_compute. reflexivity. Qed.

(** ** C55 *)

(** A header that is neither a hop-by-hop header nor one that the proxy itself sets,
    is not named in a Connection header and not in the backend's header rules, is
    forwarded as it was sent: the same values in the same order. *)
Definition proxy_header (n : str) : Prop :=
  exists m, In m [via; lit "host"; xff; xfcc; user_header; lit "cookie"] /\ same_name m n = true.
(** RFC 9110, section 7.6.1, and the older ones of RFC 2616, section 13.5.1. *)
Definition standard_hops : list str :=
  [lit "connection"; lit "proxy-connection"; lit "keep-alive"; lit "proxy-authenticate"; lit "proxy-authorization";
   lit "te"; lit "trailer"; lit "transfer-encoding"; lit "upgrade"].
Definition hop_by_hop (n : str) : Prop := exists m, In m standard_hops /\ same_name m n = true.
Ltac inlist := solve [unfold hop_headers; repeat (first [left; reflexivity | right])].
Theorem C55_other_headers_unchanged : forall ev be cn r f n,
  reverse_proxy ev be cn r = Forward f -> rules_leave be n -> rules_leave be (lit "connection") ->
  ~ proxy_header n -> ~ hop_by_hop n -> ~ connection_names (rq_headers r) n ->
  h_values n (fw_headers f) = h_values n (rq_headers r).
Proof.
  intros ev be cn r f n H R1 R2 Hp Hh Hn.
  assert (P : forall m, In m [via; lit "host"; xff; xfcc; user_header; lit "cookie"] -> same_name m n = false).
  { intros m Hm. destruct (same_name m n) eqn:E; [|reflexivity]. exfalso. apply Hp. exists m. auto. }
  assert (P' : forall m, In m hop_headers -> same_name m n = false).
  { intros m Hm. destruct (same_name m n) eqn:E; [|reflexivity]. exfalso. apply Hh. exists m. auto. }
  destruct (forwarded_values _ _ _ _ _ n H R2 R1) as (r1 & c & r2 & Ha & He & E); try (apply P'; inlist); try (apply P; inlist).
  replace (conn_names (rq_headers r) n) with false in E.
  2:{ symmetry. destruct (conn_names _ _) eqn:X; [|reflexivity]. apply conn_names_spec in X. contradiction. }
  replace (is_hop n) with false in E.
  2:{ symmetry. destruct (is_hop n) eqn:X; [|reflexivity]. exfalso. apply Hh. apply existsb_exists in X. exact X. }
  cbn [orb] in E. rewrite (P xfcc) in E by inlist. rewrite (P via) in E by inlist. rewrite E.
  apply (pre_forward _ _ _ _ _ _ _ Ha He); apply P; inlist.
Qed.
Print Assumptions C55_other_headers_unchanged.

(** The headers that are for the connection to the proxy only are not forwarded; Connection,
    TE and Upgrade are, if at all, those that the proxy itself sets. *)
Theorem C55_hop_headers_removed : forall ev be cn r f n,
  reverse_proxy ev be cn r = Forward f -> hop_by_hop n ->
  (same_name (lit "connection") n = true /\ incl (h_values n (fw_headers f)) [lit "Upgrade"]) \/
  (same_name (lit "te") n = true /\ incl (h_values n (fw_headers f)) [lit "trailers"]) \/
  (same_name (lit "upgrade") n = true /\ (List.length (h_values n (fw_headers f)) <= 1)%nat) \/
  h_values n (fw_headers f) = [].
Proof.
  intros ev be cn r f n H (m & Hm & Hs). apply reverse_forward in H. destruct H as (r1 & c & r2 & Ha & He & Hf).
  apply forward_spec in Hf. cbv zeta in Hf. destruct Hf as (_ & _ & extra & h1 & _ & _ & _ & Ef & _). rewrite Ef.
  set (h := fst _) in *. clearbody h. clear Ef.
  assert (X : is_hop n = true) by (apply existsb_exists; exists m; split; [exact Hm|exact Hs]).
  assert (Y : forall k, In k standard_hops -> same_name k xff = false).
  { intros k Hk. unfold standard_hops in Hk. repeat (destruct Hk as [<-|Hk]; [reflexivity|]). destruct Hk. }
  assert (Z : same_name xff n = false).
  { destruct (same_name xff n) eqn:E; [|reflexivity]. rewrite same_name_sym, (same_name_trans _ _ xff Hs), (Y m Hm) in E. discriminate E. }
  assert (B : h_values n (remove_hop_by_hop (director be cn h)) = []) by (rewrite strip_values, X, orb_true_r; reflexivity).
  unfold outgoing. cbv zeta. rewrite h_values_set, Z.
  set (h2 := if contains_token _ _ then _ else _).
  assert (T : h_values n h2 = if contains_token (h_values (lit "te") h) (lit "trailers") then if same_name (lit "te") n then [lit "trailers"] else [] else []).
  { unfold h2. destruct (contains_token _ _); [rewrite h_values_set, B; reflexivity|exact B]. }
  assert (T' : (same_name (lit "te") n = true /\ incl (h_values n h2) [lit "trailers"]) \/ h_values n h2 = []).
  { rewrite T. destruct (contains_token _ _); [|auto]. destruct (same_name (lit "te") n); [|auto]. left. split; [reflexivity|apply incl_refl]. }
  destruct (str_eqb (upgrade_type _) []); [tauto|]. rewrite h_values_set. destruct (same_name (lit "upgrade") n) eqn:U.
  { right. right. left. split; [reflexivity|]. cbn. auto. }
  rewrite h_values_set. destruct (same_name (lit "connection") n) eqn:C; [left; split; [reflexivity|apply incl_refl]|]. tauto.
Qed.
Print Assumptions C55_hop_headers_removed.

(** White space as RFC 9110 and Go's net/textproto have it. *)
Definition white (c : ascii) : Prop := c = " "%char \/ c = ascii_of_nat 9 \/ c = ascii_of_nat 10 \/ c = ascii_of_nat 13.
Lemma trim_left_white w s : Forall white w -> trim_left (w ++ s) = trim_left s.
Proof.
  induction 1 as [|c w H _ IH]; [reflexivity|]. cbn [app trim_left].
  replace (is_space c) with true; [exact IH|]. destruct H as [->|[->|[->| ->]]]; reflexivity.
Qed.
Lemma trim_white w1 w2 s : Forall white w1 -> Forall white w2 -> match s with c :: _ => is_space c = false | [] => False end ->
  match rev s with c :: _ => is_space c = false | [] => False end -> trim (w1 ++ s ++ w2) = s.
Proof.
  intros W1 W2 A B. unfold trim. rewrite trim_left_white by exact W1. destruct s as [|c s]; [destruct A|].
  rewrite (trim_left_id ((c :: s) ++ w2)) by exact A. rewrite rev_app_distr.
  rewrite trim_left_white by (apply Forall_rev; exact W2). rewrite trim_left_id; [apply rev_involutive|].
  destruct (rev (c :: s)); [destruct B|exact B].
Qed.
(** A client that announces that it takes trailers is announced so to the backend, whatever
    white space is around the word. *)
Theorem C55_trailers : forall ev be cn r f v w1 w2,
  reverse_proxy ev be cn r = Forward f -> rules_leave be (lit "te") ->
  In v (h_values (lit "te") (rq_headers r)) ->
  In (w1 ++ lit "trailers" ++ w2) (split_on comma v) -> Forall white w1 -> Forall white w2 ->
  h_values (lit "te") (fw_headers f) = [lit "trailers"].
Proof.
  intros ev be cn r f v w1 w2 H Rt I T W1 W2. apply reverse_forward in H. destruct H as (r1 & c & r2 & Ha & He & Hf).
  apply forward_spec in Hf. cbv zeta in Hf. destruct Hf as (_ & _ & extra & h1 & Hr & _ & Eh1 & -> & _).
  assert (X1 := rules_leave_for be _ _ _ Rt Hr). unfold outgoing. cbv zeta.
  set (h := fst _). assert (E : h_values (lit "te") h = h_values (lit "te") (rq_headers r)).
  { unfold h. rewrite apply_headers_values by exact X1. rewrite Eh1, !h_values_set.
    change (same_name via (lit "te")) with false. change (same_name (lit "host") (lit "te")) with false. cbv iota. apply (pre_forward _ _ _ _ _ _ _ Ha He); reflexivity. }
  rewrite E. replace (contains_token _ _) with true.
  - rewrite h_values_set. change (same_name xff (lit "te")) with false. cbv iota. destruct (str_eqb (upgrade_type _) []); rewrite !h_values_set; reflexivity.
  - symmetry. unfold contains_token. apply existsb_exists. exists (w1 ++ lit "trailers" ++ w2).
    split; [|rewrite trim_white by (assumption || reflexivity); reflexivity].
    apply in_concat. exists (split_on comma v). split; [apply in_map; exact I|exact T].
Qed.
Print Assumptions C55_trailers.
Example C55_hop_example :
  match reverse_proxy x_env x_be x_conn (x_req "/public" [(lit "keep-alive", lit "5"); (lit "te", lit "gzip, trailers"); (lit "connection", lit "x-y"); (lit "x-y", lit "1"); (lit "x-z", lit "2")]) with
  | Forward f => map (fun n => h_values n (fw_headers f)) [lit "keep-alive"; lit "te"; lit "connection"; lit "x-y"; lit "x-z"]
  | _ => []
  end = [[]; [lit "trailers"]; []; []; [lit "2"]].
Proof. vm_compute. reflexivity. Qed.

(** SanitizePath as configured: of the override in use if it sets it, else of the
    backend; on by default. *)
Definition sanitizes (be : backend) (ov : option nat) : bool :=
  let own := match be_sanitize be with Some b => b | None => true end in
  match ov with
  | None => own
  | Some i => match nth_error (be_overrides be) i with
              | Some po => match po_sanitize po with Some b => b | None => own end
              | None => own
              end
  end.

Lemma forward_path ev be cn r c f : forward ev be cn r c = Forward f ->
  fw_path f = if sanitizes be (fw_override f) then pathClean (rq_path r) else rq_path r.
Proof.
  unfold forward. cbv zeta. destruct (negb _); [discriminate|]. rewrite h_get_set. change (same_name (lit "host") via) with false. cbv iota.
  set (hs := hops _). set (h1 := h_set via _ _).
  assert (G : forall ov (sanitize : bool) extra,
    (match be_addrs be with [] => Static (serve_static (ev_fs ev) (be_root be) [] (rq_method r) (rq_path r)) | _ :: _ =>
      if existsb (fun hop => str_eqb (hop_name hop) (cn_local cn)) hs then LoopDetected
      else let '(h, ohost) := fold_left (apply_header ev c) extra (h1, rq_host r) in
        Forward {| fw_override := ov; fw_host := ohost; fw_path := if sanitize then pathClean (rq_path r) else rq_path r; fw_headers := outgoing be cn h |} end) = Forward f ->
    fw_override f = ov /\ fw_path f = if sanitize then pathClean (rq_path r) else rq_path r).
  { intros ov sanitize extra. destruct (be_addrs be); [discriminate|]. destruct (existsb _ hs); [discriminate|].
    destruct (fold_left _ extra _). intro H. injection H as <-. cbn. auto. }
  destruct (choose (pathClean (rq_path r)) 0 (be_overrides be)) as [q|i po p|] eqn:Ec; [discriminate| |].
  - destruct (po_addrs po) as [|a l]; [discriminate|]. intro H. apply G in H. destruct H as [-> ->].
    assert (S := choose_spec (pathClean (rq_path r)) 0 (be_overrides be)). rewrite Ec in S. destruct S as (pos1 & pos2 & S1 & -> & _).
    unfold sanitizes. rewrite S1. cbn [Nat.add]. rewrite nth_error_app2 by lia. rewrite Nat.sub_diag. cbn [nth_error].
    destruct (po_sanitize po); [reflexivity|]. destruct (be_sanitize be); reflexivity.
  - intro H. apply G in H. destruct H as [-> ->]. unfold sanitizes. destruct (be_sanitize be); reflexivity.
Qed.

(** The path that is forwarded is the cleaned path, or, where the administrator
    switched that off, the path as sent. *)
Theorem C55_path : forall ev be cn r f, reverse_proxy ev be cn r = Forward f ->
  fw_path f = if sanitizes be (fw_override f) then pathClean (rq_path r) else rq_path r.
Proof.
  intros ev be cn r f H. apply reverse_forward in H. destruct H as (r1 & c & r2 & Ha & He & Hf).
  apply authenticate_spec in Ha. apply enforce_pass in He. assert (Ep : rq_path r2 = rq_path r) by intuition congruence.
  rewrite <- Ep. apply (forward_path _ _ _ _ _ _ Hf).
Qed.
Print Assumptions C55_path.

Example C55_example :
  match reverse_proxy x_env x_be x_conn (x_req "/x" [(lit "Accept", lit "a"); (lit "X-Y", lit "1"); (lit "accept", lit "b")]) with
  | Forward f => h_values (lit "ACCEPT") (fw_headers f)
  | _ => []
  end = [lit "a"; lit "b"] /\ ~ proxy_header (lit "accept") /\ ~ hop_by_hop (lit "accept").
Proof.
  split; [vm_compute; reflexivity|]. split; intros (m & Hm & H); repeat (destruct Hm as [<-|Hm]; [vm_compute in H; discriminate H|]); exact Hm.
Qed.
