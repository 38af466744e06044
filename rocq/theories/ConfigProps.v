(** C75: which configurations Config.Check accepts, and what it makes of them. *)
From Verif Require Import Base HttpModel SettingsModel ConfigModel ConfigSpec ConfigProofs ConfigProofs2 ConfigProofs3 ConfigProofs4.
From Coq Require Import Lia.
Local Open Scope Z_scope.

(** A configuration without null entries is accepted exactly when it is valid, and
    the result is the same configuration with the defaults filled in. *)
Theorem C75_accepted_exactly e c c' :
  check e c = Ok c' <-> no_nulls c /\ valid e c /\ c' = full e c.
Proof. apply check_ok. Qed.

(** Anything else without null entries is an error, never a crash. *)
Theorem C75_otherwise_an_error e c : no_nulls c -> ~ valid e c -> check e c = Err.
Proof.
  intros N V. pose proof (check_safe e c N) as S. destruct (check e c) as [c'| | |] eqn:E; try contradiction; [|reflexivity].
  apply check_ok in E as (_ & K & _). contradiction.
Qed.

(** Reconfigure checks the configuration that ReadConfig has checked already: the
    second check accepts it and changes nothing. *)
Theorem C75_checked_twice e c c' :
  (forall s, e_ascii e (e_ascii e s) = e_ascii e s) ->
  check e c = Ok c' -> check e c' = Ok c'.
Proof. apply check_again. Qed.

(** In an accepted configuration no two backends, and no two entries of one backend,
    claim the same server name with the same protocol. *)
Theorem C75_no_two_claims e c c' l1 b1 l2 b2 l3 n p :
  check e c = Ok c' ->
  present (cf_backends c') = l1 ++ b1 :: l2 ++ b2 :: l3 ->
  In n (bd_names b1) -> In n (bd_names b2) -> In p (protos b1) -> In p (protos b2) -> False.
Proof.
  intros H E N1 N2 P1 P2. apply check_ok in H as (_ & V & ->). pose proof (v_pairs _ _ V) as D. unfold pairs in D.
  rewrite backends_full in E. apply map_eq_app in E as (a & r & Ea & <- & Er).
  destruct r as [|x r]; [discriminate|]. cbn [map] in Er. injection Er as <- Er.
  apply map_eq_app in Er as (a2 & r2 & -> & <- & Er2). destruct r2 as [|y r2]; [discriminate|].
  cbn [map] in Er2. injection Er2 as <- <-. rewrite Ea, flat_map_app in D. cbn [flat_map] in D.
  apply nodup_app_iff in D as (_ & D & _). apply nodup_app_iff in D as (_ & _ & D).
  apply (D (n, p)).
  - rewrite flat_map_app. apply in_or_app. right. cbn [flat_map]. apply in_or_app. left. apply in_prod; assumption.
  - apply in_prod; assumption.
Qed.

(** *** Accepted configurations that cannot work *)

(** The domain of an identity provider is meant to be the host of its URL or a
    parent of it: cookies for another domain are dropped by the browser. *)
Definition parent_or_same (h d : str) : Prop := h = d \/ exists pre, h = pre ++ lit "." ++ d.

(** The limit on open connections lets at least one in. *)
Definition lets_one_in (c : config) : Prop := 0 < cf_max c.
(** The rate limit of every backend lets one connection in. *)
Definition rate_lets_one_in (c : config) : Prop := forall b, In b (present (cf_backends c)) -> 0 < bd_rate b.

(** Accepted limits are the ones of the file, with a default where the file has none.
    The default is positive if the process may open at least 202 files. *)
Theorem C75_limits_partial e c c' n :
  check e c = Ok c' -> e_files e = Some n -> 202 <= n -> 0 <= cf_max c ->
  (forall b, In b (present (cf_backends c)) -> 0 <= bd_rate b) ->
  lets_one_in c' /\ rate_lets_one_in c'.
Proof.
  intros H F L M R. apply check_ok in H as (_ & _ & ->). split.
  - unfold lets_one_in. cbn [full cf_max]. rewrite F. destruct (cf_max c =? 0) eqn:E.
    + assert (101 <= Z.quot n 2); [|lia]. apply Z.quot_le_lower_bound; lia.
    + apply Z.eqb_neq in E. lia.
  - intros b Hb. rewrite backends_full in Hb. apply in_map_iff in Hb as (b' & <- & Hb). specialize (R b' Hb).
    cbn [full_bend bd_rate]. destruct (bd_rate b' =? 0) eqn:E; [lia|]. apply Z.eqb_neq in E. lia.
Qed.

(** *** Examples *)

Definition strip (p s : str) : option str := if has_prefix s p then Some (skipn (List.length p) s) else None.
(** A small url.Parse: [https://host/path], everything else is an error. *)
Definition ex_url (u : str) : option (str * str) :=
  match strip (lit "https://") u with
  | None => None
  | Some r => let '(h, p, found) := cut "/"%char r in
              Some (h, if found then "/"%char :: p else [])
  end.
Definition ex_env (files : Z) : env := {|
  e_url := ex_url; e_ascii := to_lower; e_cidr := fun s => has_char "/"%char s; e_regex := fun _ => true;
  e_certs := fun s => has_prefix s (lit "-----BEGIN CERTIFICATE"); e_cache := Some (lit "/cache");
  e_files := Some files; e_quic := true; e_mkdir := fun _ => true |}.

Definition ex_google : oidc := {|
  oi_name := lit "google"; oi_discovery := lit "https://idp.example/d"; oi_auth := []; oi_token := [];
  oi_redirect := lit "https://login.example.com/oidc"; oi_id := lit "id"; oi_secret := lit "s"; oi_domain := lit "Example.com" |}.
Definition ex_saml : saml := {|
  sa_name := lit "corp"; sa_sso := lit "https://idp/"; sa_entity := lit "x"; sa_certs := lit "PEM";
  sa_acs := lit "https://login.example.com/saml"; sa_domain := [] |}.
Definition ex_passkey (other : str) : passkey := {|
  pk_name := lit "keys"; pk_other := other; pk_endpoint := lit "https://login.example.com/pk"; pk_domain := [] |}.
Definition ex_backend (names : list str) (mode : str) (addrs : list str) : bend := {|
  bd_names := names; bd_auth := None; bd_allow := None; bd_deny := None; bd_sso := None; bd_alpn := None;
  bd_proto := None; bd_mode := mode; bd_root := []; bd_limit := []; bd_addrs := addrs; bd_rate := 0; bd_sni := [];
  bd_roots := []; bd_timeout := 0; bd_over := []; bd_version := []; bd_sclose := None; bd_cclose := None |}.
Definition ex_login : bend := ex_backend [lit "login.example.com"] (lit "local") [].
Definition ex_over : over := {|
  ov_paths := [lit "/api/"]; ov_mode := []; ov_roots := [lit "ca"]; ov_sni := lit "API.internal"; ov_timeout := 0;
  ov_version := lit "v2" |}.
Definition ex_web : bend := {|
  bd_names := [lit "WWW.example.com"; lit "example.com"];
  bd_auth := Some {| au_roots := [lit "ca"]; au_header := [lit "Hash"] |};
  bd_allow := Some [lit "10.0.0.0/8"]; bd_deny := Some [];
  bd_sso := Some {| bs_provider := lit "keys";
                    bs_server := Some ([Some {| oc_id := lit "app"; oc_secret := lit "s"; oc_redirect := [lit "https://app/cb"] |}], []) |};
  bd_alpn := None; bd_proto := Some (lit "h2"); bd_mode := lit "https"; bd_root := []; bd_limit := lit "slow";
  bd_addrs := [lit "10.0.0.1:443"]; bd_rate := 0; bd_sni := []; bd_roots := [lit "-----BEGIN CERTIFICATE"];
  bd_timeout := 0; bd_over := [Some ex_over]; bd_version := []; bd_sclose := None; bd_cclose := None |}.
Definition ex_config : config := {|
  cf_cache := []; cf_tls := []; cf_max := 0; cf_quic := None; cf_accept := [lit "192.168.0.0/16"]; cf_default := lit "Example.com";
  cf_oidc := [Some ex_google]; cf_saml := [Some ex_saml]; cf_passkey := [Some (ex_passkey (lit "google"))];
  cf_pki := [Some {| pi_name := lit "ca"; pi_endpoint := lit "https://login.example.com/ca" |}];
  cf_ssh := [Some {| sh_name := lit "ssh"; sh_endpoint := lit "https://example.com/ssh" |}];
  cf_bw := [Some {| bw_name := lit "slow" |}];
  cf_ws := []; cf_backends := [Some ex_login; Some ex_web] |}.
Definition with_backends (l : list (option bend)) (c : config) : config := {|
  cf_cache := cf_cache c; cf_tls := cf_tls c; cf_max := cf_max c; cf_quic := cf_quic c; cf_accept := cf_accept c;
  cf_default := cf_default c; cf_oidc := cf_oidc c; cf_saml := cf_saml c; cf_passkey := cf_passkey c; cf_pki := cf_pki c;
  cf_ssh := cf_ssh c; cf_bw := cf_bw c; cf_ws := cf_ws c; cf_backends := l |}.
Definition with_oidc (l : list (option oidc)) (c : config) : config := {|
  cf_cache := cf_cache c; cf_tls := cf_tls c; cf_max := cf_max c; cf_quic := cf_quic c; cf_accept := cf_accept c;
  cf_default := cf_default c; cf_oidc := l; cf_saml := cf_saml c; cf_passkey := cf_passkey c; cf_pki := cf_pki c;
  cf_ssh := cf_ssh c; cf_bw := cf_bw c; cf_ws := cf_ws c; cf_backends := cf_backends c |}.
Definition with_passkey (l : list (option passkey)) (c : config) : config := {|
  cf_cache := cf_cache c; cf_tls := cf_tls c; cf_max := cf_max c; cf_quic := cf_quic c; cf_accept := cf_accept c;
  cf_default := cf_default c; cf_oidc := cf_oidc c; cf_saml := cf_saml c; cf_passkey := l; cf_pki := cf_pki c;
  cf_ssh := cf_ssh c; cf_bw := cf_bw c; cf_ws := cf_ws c; cf_backends := cf_backends c |}.

(** A configuration with all kinds of sections is accepted; some of its defaults. *)
Example C75_example_accepted :
  no_nulls ex_config /\ valid (ex_env 1024) ex_config /\
  check (ex_env 1024) ex_config = Ok (full (ex_env 1024) ex_config) /\
  cf_max (full (ex_env 1024) ex_config) = 412 /\
  map bd_alpn (present (cf_backends (full (ex_env 1024) ex_config))) =
    [Some [lit "h3"; lit "h2"; lit "http/1.1"]; Some [lit "h3"; lit "h2"; lit "http/1.1"]].
Proof.
  assert (H : check (ex_env 1024) ex_config = Ok (full (ex_env 1024) ex_config)) by (vm_compute; reflexivity).
  pose proof H as K. apply check_ok in K as (N & V & _).
  split; [exact N|]. split; [exact V|]. split; [exact H|]. split; vm_compute; reflexivity.
Qed.

(** The same server name twice, in other letters: an error. *)
Example C75_example_rejected :
  check (ex_env 1024) (with_backends [Some ex_login; Some ex_web; Some (ex_backend [lit "EXAMPLE.com"] (lit "tcp") [lit "a:1"])] ex_config) = Err.
Proof. vm_compute. reflexivity. Qed.

(** An unknown mode, a passthrough backend with client certificates, no address. *)
Example C75_example_rejected2 :
  check (ex_env 1024) (with_backends [Some ex_login; Some ex_web; Some (ex_backend [lit "a"] (lit "udp") [lit "a:1"])] ex_config) = Err /\
  check (ex_env 1024) (with_backends [Some ex_login; Some ex_web; Some (ex_backend [lit "a"] (lit "tls") [])] ex_config) = Err /\
  check (ex_env 1024) (with_backends [Some ex_login; Some ex_web; Some (ex_backend [] (lit "tls") [lit "a:1"])] ex_config) = Err.
Proof. vm_compute. auto. Qed.

(** *** What an accepted configuration does not guarantee *)

(** FINDING: the domain is only tested to be a suffix of the host, so a host that is
    outside of the domain is accepted (config.go:860, 888, 913). *)
Theorem C75_domain_refuted :
  exists e c c' p h,
    (forall s, e_ascii e (e_ascii e s) = e_ascii e s) /\
    check e c = Ok c' /\ In p (present (cf_oidc c')) /\ host_of e (oi_redirect p) = Some h /\
    oi_domain p <> [] /\ ~ parent_or_same h (oi_domain p).
Proof.
  pose (p := {| oi_name := lit "google"; oi_discovery := lit "https://idp.example/d"; oi_auth := []; oi_token := [];
     oi_redirect := lit "https://notexample.com/oidc"; oi_id := lit "id"; oi_secret := lit "s"; oi_domain := lit "example.com" |}).
  exists (ex_env 1024), (with_oidc [Some p] ex_config), (full (ex_env 1024) (with_oidc [Some p] ex_config)), p, (lit "notexample.com").
  split; [|split; [vm_compute; reflexivity|split; [left; vm_compute; reflexivity|split; [vm_compute; reflexivity|split; [discriminate|]]]]].
  - intros s. cbn [e_ascii ex_env]. unfold to_lower. rewrite map_map. apply map_ext.
    intros c. destruct c as [[] [] [] [] [] [] [] []]; reflexivity.
  - assert (S : forall h d, parent_or_same h d -> str_eqb h d || has_suffix h (lit "." ++ d) = true).
    { intros h d [->|[pre ->]]; [rewrite str_eqb_refl; reflexivity|].
      apply orb_true_iff. right. apply has_suffix_spec. eauto. }
    intros K. apply S in K. vm_compute in K. discriminate.
Qed.

(** FINDING: without a limit in the file, the limit on open connections is half of
    what the process may open, minus 100.  With a limit of 200 files, or with no limit
    at all (which is -1 here, unix.go), it is zero or negative and every connection is
    refused (C10); a negative forwardRateLimit is accepted as well and refuses every
    connection to its backend. *)
Theorem C75_limits_refuted :
  (exists c', check (ex_env 200) ex_config = Ok c' /\ ~ lets_one_in c') /\
  (exists c', check (ex_env (-1)) ex_config = Ok c' /\ ~ lets_one_in c') /\
  (exists c c', check (ex_env 1024) c = Ok c' /\ ~ rate_lets_one_in c').
Proof.
  split; [|split].
  - exists (full (ex_env 200) ex_config). split; [vm_compute; reflexivity|]. unfold lets_one_in. vm_compute. discriminate.
  - exists (full (ex_env (-1)) ex_config). split; [vm_compute; reflexivity|]. unfold lets_one_in. vm_compute. discriminate.
  - pose (b := {| bd_names := [lit "a"]; bd_auth := None; bd_allow := None; bd_deny := None; bd_sso := None; bd_alpn := None;
      bd_proto := None; bd_mode := lit "tcp"; bd_root := []; bd_limit := []; bd_addrs := [lit "b:1"]; bd_rate := -1; bd_sni := [];
      bd_roots := []; bd_timeout := 0; bd_over := []; bd_version := []; bd_sclose := None; bd_cclose := None |}).
    exists (with_backends [Some ex_login; Some ex_web; Some b] ex_config). eexists. split; [vm_compute; reflexivity|].
    intros K. specialize (K _ (or_intror (or_intror (or_introl eq_refl)))). vm_compute in K. discriminate.
Qed.

(** FINDING: a passkey provider may name itself as the provider that identifies the
    user (config.go:897-904: its own name has been entered before the test); such a
    configuration is accepted by Check and never gets past Reconfigure (C76). *)
Theorem C75_own_provider_refuted :
  exists c c' p, check (ex_env 1024) c = Ok c' /\ In p (present (cf_passkey c')) /\ pk_other p = pk_name p.
Proof.
  exists (with_passkey [Some (ex_passkey (lit "keys"))] ex_config). eexists. eexists.
  split; [vm_compute; reflexivity|]. split; [left; reflexivity|]. vm_compute. reflexivity.
Qed.

Print Assumptions C75_accepted_exactly.
Print Assumptions C75_otherwise_an_error.
Print Assumptions C75_checked_twice.
Print Assumptions C75_no_two_claims.
Print Assumptions C75_limits_partial.
Print Assumptions C75_domain_refuted.
Print Assumptions C75_limits_refuted.
Print Assumptions C75_own_provider_refuted.
