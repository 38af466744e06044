(** C77: whom the proxy trusts. *)
From Verif Require Import Base TrustModel TrustSpec TrustProofs.
From Verif Require RouteModel RouteSpec RouteProofs ConfigModel ConfigProps.
Open Scope list_scope.

(** The revocation information at hand does not speak against certificate [k]: if it
    was issued with the key of an authority in one of the backend's lists, that
    authority has not revoked it; else its OCSP responder, if any, is asked. *)
Definition not_condemned (w : world) (b : bconf) (verified : bool) (k : RouteModel.cert) : Prop :=
  (forall n ca, In n (all_lists b) -> assoc n (w_pkis w) = Some (Some ca) -> x_ski ca = RouteModel.cAKI k ->
     w_revoked w n (RouteModel.cSerial k) = false) /\
  ((forall n ca, In n (all_lists b) -> assoc n (w_pkis w) = Some (Some ca) -> x_ski ca <> RouteModel.cAKI k) ->
   RouteModel.cOCSP k <> [] -> w_ocsp w verified k = true).

(** Different authorities have different keys. *)
Definition own_keys (w : world) : Prop :=
  forall n n' ca ca', assoc n (w_pkis w) = Some (Some ca) -> assoc n' (w_pkis w) = Some (Some ca') -> x_ski ca = x_ski ca' -> n = n'.

Lemma revocation_spec w b ps verified k : own_keys w -> make_pools w b = Ok ps ->
  revocation_ok w (po_map ps) verified k = true <-> not_condemned w b verified k.
Proof.
  intros O H. apply make_pools_spec in H. destruct H as (_ & _ & _ & F & G). unfold revocation_ok, not_condemned.
  destruct (assoc (RouteModel.cAKI k) (po_map ps)) as [n|] eqn:E.
  - apply F in E. destruct E as (Hn & ca & Ha & Hk). rewrite negb_true_iff. split.
    + intro R. split; [|intros X; exfalso; apply (X n ca Hn Ha Hk)].
      intros n' ca' Hn' Ha' Hk'. assert (n' = n) by (apply (O _ _ _ _ Ha' Ha); congruence). subst. exact R.
    + intros [X _]. apply (X n ca Hn Ha Hk).
  - assert (N : forall n ca, In n (all_lists b) -> assoc n (w_pkis w) = Some (Some ca) -> x_ski ca <> RouteModel.cAKI k).
    { intros n ca Hn Ha Hk. apply (G n ca Hn Ha). rewrite Hk. exact E. }
    split.
    + intro R. split; [intros n ca Hn Ha Hk; exfalso; apply (N n ca Hn Ha Hk)|]. intros _ Ho. destruct (RouteModel.cOCSP k); [congruence|exact R].
    + intros [_ X]. destruct (RouteModel.cOCSP k) eqn:Eo; [reflexivity|]. apply X; [exact N|discriminate].
Qed.

(** The configuration is put in force only if every element of every list stands for
    at least one certificate. *)
Theorem C77_every_root_is_read : forall w b,
  (exists ps, make_pools w b = Ok ps) <-> forall n, In n (all_lists b) -> exists c, stands_for w n c.
Proof.
  intros w b. split.
  - intros (ps & H). apply make_pools_spec in H. apply (proj1 H).
  - intro H. unfold make_pools. unfold all_lists in H.
    assert (X1 : exists x, match bc_client b with None => Ok (None, []) | Some l => add_roots w l None [] end = Ok x).
    { destruct (bc_client b) as [l|]; [|eauto]. apply add_roots_total. intros n Hn. apply H. apply in_or_app. left. exact Hn. }
    destruct X1 as ([cp m1] & ->). cbn [bind fst snd].
    destruct (add_roots_total w (pr_roots (bc_own b)) None m1) as ([op m2] & ->).
    { intros n Hn. apply H. apply in_or_app. right. apply in_or_app. left. exact Hn. }
    cbn [bind fst snd].
    assert (X3 : forall l m, (forall n, In n (flat_map pr_roots l) -> exists c, stands_for w n c) -> exists x, add_over w l m = Ok x).
    { induction l as [|p l IH]; intros m G; cbn [add_over]; [eauto|].
      destruct (add_roots_total w (pr_roots p) None m) as (x & ->).
      { intros n Hn. apply G. cbn [flat_map]. apply in_or_app. left. exact Hn. }
      cbn [bind]. destruct (IH (snd x)) as (y & ->); [|cbn [bind]; eauto]. intros n Hn. apply G. cbn [flat_map]. apply in_or_app. right. exact Hn. }
    destruct (X3 (bc_over b) m2) as ([vp m3] & ->).
    { intros n Hn. apply H. apply in_or_app. right. apply in_or_app. right. exact Hn. }
    cbn [bind]. eauto.
Qed.
Print Assumptions C77_every_root_is_read.

(** A client gets past a backend's certificate verification exactly with a
    certificate that leads to a certificate that the administrator listed for this
    backend, and that is not known to be revoked. *)
Theorem C77_clients_partial : forall w b ps roots sent, own_keys w ->
  make_pools w b = Ok ps -> bc_client b = Some roots -> roots <> [] ->
  client_ok w ps sent = true <->
  exists c inter pool, sent = c :: inter /\ (forall r, In r pool <-> listed w roots r) /\ trusted w pool inter c /\
    not_condemned w b true (x_cert c).
Proof.
  intros w b ps roots sent O H Hr Hne. assert (R := fun k => revocation_spec w b ps true k O H).
  apply make_pools_spec in H. destruct H as (_ & T & _). specialize (T roots Hr).
  unfold client_ok. destruct sent as [|c inter].
  - split; [discriminate|]. intros (c & inter & pool & X & _). discriminate.
  - rewrite andb_true_iff, verify_spec, T, R. unfold trusted_by. destruct roots as [|n l]; [congruence|]. split.
    + intros [(pool & A & B) C]. exists c, inter, pool. auto.
    + intros (c' & inter' & pool & [= <- <-] & A & B & C). split; [exists pool; auto|exact C].
Qed.
Print Assumptions C77_clients_partial.

(** The same at the level of connections: one that reaches a backend with client
    authentication and with roots has shown a certificate that leads to a listed
    one. *)
Theorem C77_connections_partial : forall quic idna rs p e n r hello i b roots acl k proto w inter ski,
  RouteModel.check_config quic idna rs = Some (RouteModel.backs p) ->
  (forall l c, RouteModel.verifies e l c = true <->
     exists pool m, add_roots w l None [] = Ok (pool, m) /\ verify w pool {| x_cert := c; x_ski := ski |} inter = true) ->
  RouteSpec.reaches (RouteModel.handle_connection p e n r hello) i ->
  RouteSpec.session (RouteModel.handle_connection p e n r hello) = Some (proto, k) ->
  nth_error (RouteModel.backs p) i = Some b ->
  RouteModel.bClientAuth b = Some {| RouteModel.caRoots := roots; RouteModel.caACL := acl |} -> roots <> [] ->
  exists c pool, k = Some c /\ (forall x, In x pool <-> listed w roots x) /\ trusted w pool inter {| x_cert := c; x_ski := ski |}.
Proof.
  intros quic idna rs p e n r hello i b roots acl k proto w inter ski Hc Hv Hr Hs Hb Ha Hne.
  destruct (RouteProofs.reaches_cert_ok _ _ _ _ _ _ _ _ _ Hc Hr) as (b' & Hb' & X). rewrite Hs in X. rewrite Hb in Hb'. injection Hb' as <-.
  unfold RouteSpec.cert_rules in X. rewrite Ha in X. cbn [RouteModel.caRoots RouteModel.caACL] in X. destruct X as (c & -> & _ & V & _).
  apply Hv in V. destruct V as (pool & m & E & V). apply verify_spec in V.
  apply (pool_of_list _ _ _ _ _ E) in V. unfold trusted_by in V. destruct roots as [|a l]; [congruence|]. destruct V as (pl & T & L).
  exists c, pl. auto.
Qed.
Print Assumptions C77_connections_partial.

(** The connection to a server is encrypted exactly if the settings in use (of the
    path override, else of the backend) say so, and then is used only if the server's
    certificate leads to a listed one, is for the configured name and is not known to
    be revoked; without a list the roots of the operating system count; the first
    two tests can be switched off. *)
Theorem C77_servers : forall w b ps ov quic addr sent, own_keys w -> make_pools w b = Ok ps ->
  let p := in_use b ov in
  let name := match pr_name p, quic with [], true => addr | n, _ => n end in
  (connect w b ps ov quic addr sent = Plain <-> quic = false /\ pr_tls p = false) /\
  (connect w b ps ov quic addr sent = Secure <->
     (quic = true \/ pr_tls p = true) /\
     exists c inter, sent = c :: inter /\ not_condemned w b (negb (pr_insecure p)) (x_cert c) /\
       (pr_insecure p = false -> name <> [] /\ w_named w name c = true /\ trusted_by w (pr_roots p) inter c)).
Proof.
  intros w b ps ov quic addr sent O H. cbv zeta. assert (R := fun v k => revocation_spec w b ps v k O H).
  apply make_pools_spec in H. destruct H as (_ & _ & T & _). destruct (T ov) as [T1 T2]. clear T.
  unfold connect. destruct (settings b ps ov) as [p pool]. cbn [fst snd] in T1, T2. subst p. set (p := in_use b ov) in *.
  set (name := match pr_name p, quic with [], true => addr | n, _ => n end).
  replace (match pr_name p with [] => if quic then addr else [] | n => n end) with name by (subst name; destruct (pr_name p), quic; reflexivity).
  destruct (quic || pr_tls p) eqn:Eq; cbn [negb].
  2:{ apply orb_false_iff in Eq. destruct Eq as [E1 E2]. split; [tauto|]. split; [discriminate|]. intros [[X|X] _]; congruence. }
  apply orb_true_iff in Eq.
  split; [|].
  { split; [|intros [E1 E2]; destruct Eq; congruence].
    destruct (negb (pr_insecure p) && str_eqb name []); [discriminate|]. destruct sent; [discriminate|].
    destruct (negb (pr_insecure p) && negb _); [discriminate|]. destruct (revocation_ok _ _ _ _); discriminate. }
  destruct (pr_insecure p) eqn:Ei; cbn [negb andb].
  - destruct sent as [|c inter]; [split; [discriminate|intros (_ & c & inter & X & _); discriminate]|].
    destruct (revocation_ok w (po_map ps) false (x_cert c)) eqn:Er.
    + split; [|reflexivity]. intros _. split; [exact Eq|]. exists c, inter. split; [reflexivity|]. split; [apply R; exact Er|discriminate].
    + split; [discriminate|]. intros (_ & c' & inter' & [= <- <-] & X & _). apply R in X. congruence.
  - destruct (str_eqb name []) eqn:En.
    + apply str_eqb_spec in En. split; [discriminate|]. intros (_ & c & inter & _ & _ & X). destruct (X eq_refl). contradiction.
    + apply str_eqb_neq in En. destruct sent as [|c inter]; [split; [discriminate|intros (_ & c & inter & X & _); discriminate]|].
      destruct (verify w pool c inter) eqn:Ev; cbn [andb negb].
      * apply verify_spec in Ev. apply T2 in Ev. destruct (w_named w name c) eqn:Ew; cbn [negb].
        -- destruct (revocation_ok w (po_map ps) true (x_cert c)) eqn:Er.
           ++ split; [|reflexivity]. intros _. split; [exact Eq|]. exists c, inter. split; [reflexivity|]. split; [apply R; exact Er|auto].
           ++ split; [discriminate|]. intros (_ & c' & inter' & [= <- <-] & X & _). apply R in X. congruence.
        -- split; [discriminate|]. intros (_ & c' & inter' & [= <- <-] & _ & X). destruct (X eq_refl) as (_ & Y & _). congruence.
      * split; [discriminate|]. intros (_ & c' & inter' & [= <- <-] & _ & X). destruct (X eq_refl) as (_ & _ & Y).
        apply T2, verify_spec in Y. congruence.
Qed.
Print Assumptions C77_servers.

(** ** Examples *)

Definition k0 (s : string) (aki : string) (n : N) : RouteModel.cert :=
  {| RouteModel.cSubject := lit s; RouteModel.cDNS := []; RouteModel.cEmails := []; RouteModel.cURIs := [];
     RouteModel.cAKI := lit aki; RouteModel.cSerial := n; RouteModel.cOCSP := [] |}.
Definition x0 (s aki ski : string) (n : N) : x509 := {| x_cert := k0 s aki n; x_ski := lit ski |}.
(** "house" is in the PKI section, "bought" in a file, "public" in the system. *)
Definition w0 : world :=
  {| w_pkis := [(lit "house", Some (x0 "house" "" "h" 1))];
     w_read := fun f => if str_eqb f (lit "/etc/bought.pem") then Some (lit "BOUGHT") else None;
     w_pem := fun t => if str_eqb t (lit "BOUGHT") then [None; Some (x0 "bought" "" "b" 2)] else [];
     w_signs := fun c p => str_eqb (RouteModel.cAKI (x_cert c)) (x_ski p);
     w_system := [x0 "public" "" "p" 3];
     w_named := fun n c => str_eqb n (RouteModel.cSubject (x_cert c));
     w_revoked := fun _ n => (n =? 8)%N;
     w_ocsp := fun _ _ => true |}.
Definition b0 : bconf :=
  {| bc_client := Some [lit "house"; lit "/etc/bought.pem"];
     bc_own := {| pr_tls := true; pr_name := lit "inner"; pr_insecure := false; pr_roots := [lit "house"] |};
     bc_over := [{| pr_tls := true; pr_name := lit "outer"; pr_insecure := false; pr_roots := [] |}] |}.

Example C77_example :
  own_keys w0 /\
  match make_pools w0 b0 with
  | Ok ps =>
      client_ok w0 ps [x0 "bob" "h" "x" 7] = true /\ client_ok w0 ps [x0 "bob" "h" "x" 8] = false /\
      client_ok w0 ps [x0 "eve" "i" "x" 7; x0 "inter" "b" "i" 5] = true /\
      client_ok w0 ps [x0 "eve" "p" "x" 7] = false /\
      connect w0 b0 ps None false [] [x0 "inner" "h" "x" 7] = Secure /\
      connect w0 b0 ps None false [] [x0 "inner" "p" "x" 7] = Refused /\
      connect w0 b0 ps (Some O) false [] [x0 "outer" "p" "x" 7] = Secure /\
      connect w0 b0 ps (Some O) false [] [x0 "inner" "p" "x" 7] = Refused
  | _ => False
  end.
Proof.
  split; [|vm_compute; repeat split].
  intros n n' ca ca'. cbn [w_pkis w0 assoc]. destruct (str_eqb n (lit "house")) eqn:E; [|discriminate].
  destruct (str_eqb n' (lit "house")) eqn:E'; [|discriminate]. apply str_eqb_spec in E, E'. congruence.
Qed.

(** FINDING.  Config.Check accepts client authentication without any roots
    (config.go:1040-1056), and then Reconfigure leaves the pool nil
    (proxy.go:569-572): crypto/tls verifies clients against the roots of the
    operating system, so that a certificate from any public authority is accepted
    although the administrator listed none. *)
Theorem C77_no_roots_refuted :
  (exists e c c' b, ConfigModel.check e c = Ok c' /\ In (Some b) (ConfigModel.cf_backends c') /\
     ConfigModel.bd_auth b = Some {| ConfigModel.au_roots := []; ConfigModel.au_header := [] |}) /\
  ~ (forall w b ps roots sent, make_pools w b = Ok ps -> bc_client b = Some roots -> client_ok w ps sent = true ->
     exists c inter pool, sent = c :: inter /\ (forall r, In r pool -> listed w roots r) /\ trusted w pool inter c).
Proof.
  split.
  { set (b := {| ConfigModel.bd_names := [lit "vault.example.com"]; ConfigModel.bd_auth := Some {| ConfigModel.au_roots := []; ConfigModel.au_header := [] |};
      ConfigModel.bd_allow := None; ConfigModel.bd_deny := None; ConfigModel.bd_sso := None; ConfigModel.bd_alpn := None;
      ConfigModel.bd_proto := None; ConfigModel.bd_mode := lit "tcp"; ConfigModel.bd_root := []; ConfigModel.bd_limit := [];
      ConfigModel.bd_addrs := [lit "10.0.0.1:443"]; ConfigModel.bd_rate := 0%Z; ConfigModel.bd_sni := []; ConfigModel.bd_roots := [];
      ConfigModel.bd_timeout := 0%Z; ConfigModel.bd_over := []; ConfigModel.bd_version := []; ConfigModel.bd_sclose := None; ConfigModel.bd_cclose := None |}).
    set (c := ConfigProps.with_backends [Some ConfigProps.ex_login; Some b; Some ConfigProps.ex_web] ConfigProps.ex_config).
    exists (ConfigProps.ex_env 4096%Z), c.
    destruct (ConfigModel.check (ConfigProps.ex_env 4096%Z) c) as [c'| | |] eqn:E; try (vm_compute in E; discriminate E).
    exists c'. vm_compute in E. injection E as <-. eexists. split; [reflexivity|]. cbn [ConfigModel.cf_backends]. split; [right; left; reflexivity|reflexivity]. }
  intro H.
  specialize (H w0 {| bc_client := Some []; bc_own := bc_own b0; bc_over := [] |} _ [] [x0 "eve" "p" "x" 7] eq_refl eq_refl eq_refl).
  destruct H as (c & inter & pool & E & P & T). injection E as <- <-.
  assert (Hp : pool = []) by (destruct pool as [|r pool]; [reflexivity|]; destruct (P r (or_introl eq_refl)) as (n & [] & _)).
  subst. destruct T as [[]|T]. inversion T as [c r Hin _|c i Hin _ _]; destruct Hin.
Qed.
Print Assumptions C77_no_roots_refuted.
