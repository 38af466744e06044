(** C04-C08: which backend gets a connection, and under which conditions. *)
From Verif Require Import Base ConnModel HelloModel IPModel IPSpec IPProofs RouteModel RouteSpec RouteProofs.

(** C04.  In an accepted configuration, a connection whose protocol names are
    non-empty (as RFC 7301 demands) goes to backend [i] exactly when it belongs
    to it by the rule "first protocol of the client's list that some backend
    claims for this name, otherwise first backend in the file with this name",
    and [i] is not shutting down.
    Missing for the full property: empty protocol names, see below. *)
Theorem C04_routing_partial : forall quic idna rs p sn protos i b,
  check_config quic idna rs = Some (backs p) -> no_empty_proto (backs p) -> ~ In [] protos ->
  get_backend p sn protos = Some (i, b) <->
  belongs (backs p) sn protos i /\ nth_error (backs p) i = Some b /\ shut p i = false.
Proof. exact routing_iff. Qed.
Print Assumptions C04_routing_partial.

(** C04.  The rule designates at most one backend. *)
Theorem C04_routing_unambiguous : forall quic idna rs bes sn protos i j,
  check_config quic idna rs = Some bes ->
  belongs bes sn protos i -> belongs bes sn protos j -> i = j.
Proof. exact belongs_unique. Qed.
Print Assumptions C04_routing_unambiguous.

(** C04.  A configuration in which two backends claim the same name and
    protocol is rejected. *)
Theorem C04_claims_are_unique : forall quic idna rs bes sn pr i j,
  check_config quic idna rs = Some bes -> claims bes i sn pr -> claims bes j sn pr -> i = j.
Proof. exact claims_distinct. Qed.
Print Assumptions C04_claims_are_unique.

(** Example configuration: three backends, two of which share a name. *)
Definition rb names mode alpn ca deny allow :=
  {| rNames := names; rMode := mode; rALPN := alpn; rClientAuth := ca;
     rDeny := deny; rAllow := allow; rAddrs := [!"10.0.0.1:80"]; rPki := [(!"aki", !"ca1")] |}.
Definition net10 := parse_cidr [10;0;0;0]%N 8.
Definition ex_ca := {| caRoots := [!"ca1"]; caACL := Some [!"EMAIL:bob@example.com"] |}.
Definition ex_rs : list rawBackend :=
  [ rb [!"www"; !"web"] !"https" None None (Some [parse_cidr [10;9;0;0]%N 16]) (Some [net10]);
    rb [!"www"] !"tcp" (Some [!"imap"]) (Some ex_ca) None None;
    rb [!"raw"] !"tlspassthrough" None None None None ].
Definition ex_bes : list backend :=
  match check_config true (fun s => s) ex_rs with Some l => l | None => [] end.
Definition ex_p : proxy := {| backs := ex_bes; shut := fun _ => false; defName := !"web"; maxOpen := 10 |}.

Example C04_example :
  check_config true (fun s => s) ex_rs = Some (backs ex_p) /\
  no_empty_proto (backs ex_p) /\
  option_map fst (get_backend ex_p !"www" [!"imap"; !"h2"]) = Some 1 /\
  option_map fst (get_backend ex_p !"www" [!"xmpp"; !"h2"; !"imap"]) = Some 0 /\
  option_map fst (get_backend ex_p !"www" [!"xmpp"]) = Some 0.
Proof.
  split; [vm_compute; reflexivity|]. split.
  - intros b Hb. vm_compute in Hb. destruct Hb as [<-|[<-|[<-|[]]]]; vm_compute; intuition discriminate.
  - vm_compute. repeat split.
Qed.

(** C04 without the restriction to non-empty protocol names is false: an
    accepted configuration may claim the protocol "" for a backend, and that
    claim also captures connections that offer no claimed protocol and should
    go to the first backend in the file.  (key {name, ""} doubles as the
    default entry, proxy.go:439-448 and 1418-1420.) *)
Theorem C04_routing_refuted :
  exists rs bes p sn protos i b,
    check_config true (fun s => s) rs = Some bes /\ backs p = bes /\
    ~ In [] protos /\
    get_backend p sn protos = Some (i, b) /\ ~ belongs bes sn protos i.
Proof.
  pose (rs := [rb [!"www"] !"https" None None None None; rb [!"www"] !"tcp" (Some [[]]) None None None]).
  pose (bes := match check_config true (fun s => s) rs with Some l => l | None => [] end).
  exists rs, bes, {| backs := bes; shut := fun _ => false; defName := []; maxOpen := 10 |},
    (!"www"), [!"xmpp"].
  eexists. eexists. split; [vm_compute; reflexivity|]. split; [reflexivity|].
  split; [vm_compute; intuition discriminate|].
  split; [vm_compute; reflexivity|].
  intros [(pre & q & post & E & (b & Hb & _ & Hq) & _)|(_ & _ & H)].
  - vm_compute in Hb. injection Hb as <-. destruct Hq as [<-|[]].
    destruct pre as [|? [|? ?]]; discriminate.
  - apply (H 0); [vm_compute; constructor|]. eexists. split; [vm_compute; reflexivity|]. left. reflexivity.
Qed.
Print Assumptions C04_routing_refuted.

(** C05.  Whatever the client sends: a backend gets the connection only if it
    lists the requested server name (the default one without SNI) and is not
    shutting down. *)
Theorem C05_only_listed_names : forall p e n r hello i,
  reaches (handle_connection p e n r hello) i ->
  exists h, hello = Ok h /\ lists (backs p) i (requested_name p h) /\ shut p i = false.
Proof. exact reaches_listed. Qed.
Print Assumptions C05_only_listed_names.

(** C05.  A name nobody serves is answered with the unrecognized_name alert, or
    refused before that because too many connections are open. *)
Theorem C05_unknown_names_refused : forall p e n r h,
  (forall i, lists (backs p) i (requested_name p h) -> shut p i = true) ->
  handle_connection p e n r (Ok h) = ActTooMany \/ handle_connection p e n r (Ok h) = ActUnrecognized.
Proof. exact unlisted_refused. Qed.
Print Assumptions C05_unknown_names_refused.

Definition ex_cert : cert :=
  {| cSubject := !"CN=bob"; cDNS := []; cEmails := [!"x@y"; !"bob@example.com"]; cURIs := [];
     cAKI := !"aki"; cSerial := 7; cOCSP := [] |}.
Definition ex_env name : env :=
  {| hsOK := true; hsName := name; hsCert := Some ex_cert;
     verifies := fun roots c => mem !"ca1" roots; isRevoked := fun _ n => (n =? 8)%N;
     ocspOK := fun _ => true; waitOK := true |}.
Definition addr10 := AddrIP [10;1;2;3]%N.

Example C05_example :
  handle_connection ex_p (ex_env !"www") 3 addr10 (Ok (mkHello !"www" [!"h2"])) =
    ActHTTP 0 !"h2" None /\
  handle_connection ex_p (ex_env []) 3 addr10 (Ok (mkHello [] [])) = ActHTTP 0 [] None /\
  handle_connection ex_p (ex_env !"raw") 3 addr10 (Ok (mkHello !"raw" [!"h2"])) = ActPassthrough 2 /\
  handle_connection ex_p (ex_env !"zzz") 3 addr10 (Ok (mkHello !"zzz" [!"h2"])) = ActUnrecognized.
Proof. vm_compute. repeat split. Qed.

(** C06.  The decision for an address: denied ranges win, then the allow list
    (when there is one) must contain the address. *)
Theorem C06_ip_decision : forall deny allow a,
  is_bytes a ->
  (forall l, deny = Some l -> Forall cidr_ok l) -> (forall l, allow = Some l -> Forall cidr_ok l) ->
  check_ip (option_map (map (fun c => parse_cidr (fst c) (snd c))) deny)
           (option_map (map (fun c => parse_cidr (fst c) (snd c))) allow) (AddrIP a) = true <->
  (forall l c, deny = Some l -> In c l -> ~ in_range (fst c) (snd c) a) /\
  (forall l, allow = Some l -> exists c, In c l /\ in_range (fst c) (snd c) a).
Proof. exact check_ip_spec. Qed.
Print Assumptions C06_ip_decision.

(** C06.  No connection in any mode reaches a backend without passing it. *)
Theorem C06_ip_enforced : forall p e n r hello i,
  reaches (handle_connection p e n r hello) i ->
  exists b, nth_error (backs p) i = Some b /\ check_ip (bDeny b) (bAllow b) r = true.
Proof. exact reaches_ip_ok. Qed.
Print Assumptions C06_ip_enforced.

(** C06.  A connection whose remote address is not an IP address is refused,
    whatever the lists are. *)
Theorem C06_no_ip_refused : forall deny allow, check_ip deny allow AddrOther = false.
Proof. reflexivity. Qed.
Print Assumptions C06_no_ip_refused.

(** C05 and C06 for QUIC: the backend that gets the connection lists the name of
    the TLS session, is not shutting down and allows the address, under the
    configuration that is in force when the connection is handled. *)
Theorem C06_quic_ip_enforced : forall p p' e n r cps i proto c,
  handle_quic p p' e n r cps = QServe i proto c ->
  exists b, nth_error (backs p') i = Some b /\ check_ip (bDeny b) (bAllow b) r = true /\
    lists (backs p') i (hsName e) /\ shut p' i = false /\ n < maxOpen p'.
Proof.
  intros p p' e n r cps i proto c H. unfold handle_quic in H.
  destruct (quic_config _ _ _); [|discriminate].
  destruct (tls_handshake _ _ _ _ _) as [[pr k]|]; [|discriminate].
  destruct (get_backend p' _ _) as [[j b']|] eqn:G; [|discriminate].
  destruct (Nat.leb_spec (maxOpen p') n); [discriminate|].
  destruct (check_ip _ _ _) eqn:K; cbn [negb] in H; [|discriminate].
  destruct (waitOK e); [|discriminate]. assert (i = j) by congruence. subst j.
  exists b'. apply get_backend_inv in G as (L & S & N). apply lookup_lists in L. auto.
Qed.
Print Assumptions C06_quic_ip_enforced.

(** C68.  The mode of the backend decides what is done with a connection that
    reaches it: CONSOLE, LOCAL, HTTP and HTTPS connections are given to the
    backend's HTTP server, TLSPASSTHROUGH connections are passed on as they are,
    and all others are decrypted and bridged to one of the addresses. *)
Theorem C68_mode_decides : forall p e n r hello i b,
  reaches (handle_connection p e n r hello) i -> nth_error (backs p) i = Some b ->
  match bMode b with
  | ModeConsole | ModeLocal | ModeHTTP | ModeHTTPS =>
      exists proto c, handle_connection p e n r hello = ActHTTP i proto c
  | ModeTLSPassthrough => handle_connection p e n r hello = ActPassthrough i
  | _ => exists proto c, handle_connection p e n r hello = ActDial i proto c
  end.
Proof.
  intros p e n r hello i b H Hb. unfold handle_connection in *.
  destruct (_ <=? _); [destruct H|]. destruct hello as [h| | |]; try (destruct H; fail).
  destruct (get_backend _ _ _) as [[j b']|] eqn:G; [|destruct H].
  apply get_backend_inv in G as (_ & _ & N).
  destruct (mode_eqb (bMode b') ModeTLSPassthrough) eqn:M.
  - destruct (check_ip _ _ _); [|destruct H]. destruct (waitOK e); [|destruct H].
    cbn in H. subst j. assert (b' = b) by congruence. subst b'.
    destruct (bMode b); try discriminate. reflexivity.
  - destruct (_ && _); [destruct H|]. destruct (negb _); [destruct H|].
    destruct (authorize_tls _ _ _ _ _) as [[proto c]| | |]; try (destruct H; fail).
    destruct (waitOK e); [|destruct H].
    assert (E : j = i) by (destruct (bMode b'); exact H). subst j.
    assert (b' = b) by congruence. subst b'. clear H.
    destruct (bMode b); try discriminate; eauto.
Qed.
Print Assumptions C68_mode_decides.

(** C68.  A hello that offers only the ACME challenge protocol for a name is
    answered by the certificate manager: unless the backend of that name is a
    passthrough backend, no backend gets the connection. *)
Theorem C68_acme_never_reaches_backend : forall p e n r h i b,
  alpnProtos h = [!"acme-tls/1"] -> serverName h <> [] ->
  reaches (handle_connection p e n r (Ok h)) i -> nth_error (backs p) i = Some b ->
  bMode b = ModeTLSPassthrough.
Proof.
  intros p e n r h i b A S H Hb. unfold handle_connection in H. rewrite A in H.
  destruct (_ <=? _); [destruct H|].
  destruct (get_backend _ _ _) as [[j b']|] eqn:G; [|destruct H].
  apply get_backend_inv in G as (_ & _ & N).
  destruct (mode_eqb (bMode b') ModeTLSPassthrough) eqn:M.
  - destruct (check_ip _ _ _); [|destruct H]. destruct (waitOK e); [|destruct H].
    cbn in H. subst j. assert (b' = b) by congruence. subst b'.
    destruct (bMode b); try discriminate. reflexivity.
  - replace (str_eqb (serverName h) []) with false in H
      by (symmetry; apply not_true_iff_false; rewrite str_eqb_spec; exact S).
    cbn in H. destruct H.
Qed.
Print Assumptions C68_acme_never_reaches_backend.

(** Without a server name such a hello is an ordinary connection. *)
Theorem C68_acme_needs_name : forall p e n r h,
  serverName h = [] -> handle_connection p e n r (Ok h) <> ActACME.
Proof.
  intros p e n r h S H. unfold handle_connection in H. rewrite S in H.
  destruct (_ <=? _); [discriminate|].
  destruct (get_backend _ _ _) as [[j b']|]; [|discriminate].
  destruct (mode_eqb _ _).
  - destruct (check_ip _ _ _); [destruct (waitOK e)|]; discriminate.
  - replace (str_eqb [] []) with true in H by reflexivity. cbn [negb] in H. rewrite andb_false_r in H.
    destruct (negb _); [discriminate|]. destruct (authorize_tls _ _ _ _ _) as [[proto c]| | |]; try discriminate.
    destruct (waitOK e); [|discriminate]. destruct (bMode b'); discriminate.
Qed.
Print Assumptions C68_acme_needs_name.

Example C68_example :
  handle_connection ex_p (ex_env !"www") 3 addr10 (Ok (mkHello !"www" [!"h2"])) = ActHTTP 0 !"h2" None /\
  handle_connection ex_p (ex_env !"raw") 3 addr10 (Ok (mkHello !"raw" [!"h2"])) = ActPassthrough 2 /\
  handle_connection ex_p (ex_env !"www") 3 addr10 (Ok (mkHello !"www" [!"imap"])) = ActDial 1 !"imap" (Some ex_cert) /\
  handle_connection ex_p (ex_env !"raw") 3 addr10 (Ok (mkHello !"raw" [!"acme-tls/1"])) = ActPassthrough 2 /\
  handle_connection ex_p (ex_env !"www") 3 addr10 (Ok (mkHello !"www" [!"acme-tls/1"])) = ActACME.
Proof. vm_compute. repeat split. Qed.

Example C06_example :
  cidr_ok ([10;9;0;0]%N, 16) /\ cidr_ok ([10;0;0;0]%N, 8) /\
  handle_connection ex_p (ex_env !"www") 3 (AddrIP [10;9;2;3]%N) (Ok (mkHello !"www" [!"h2"])) =
    ActUnrecognized /\
  handle_connection ex_p (ex_env !"www") 3 (AddrIP [11;1;2;3]%N) (Ok (mkHello !"www" [!"h2"])) =
    ActUnrecognized /\
  handle_connection ex_p (ex_env !"www") 3 addr10 (Ok (mkHello !"www" [!"h2"])) =
    ActHTTP 0 !"h2" None.
Proof.
  split; [|split].
  1,2: split; [repeat constructor; lia|left; reflexivity].
  vm_compute. repeat split.
Qed.

(** C07.  Exactly the certificates that the ACL names are accepted. *)
Theorem C07_acl_meaning : forall roots acl c,
  authorize (Some {| caRoots := roots; caACL := acl |}) (Some c) = Ok tt <->
  match acl with None => True | Some l => acl_accepts l c end.
Proof. intros roots acl c. apply (authorize_spec (Some {| caRoots := roots; caACL := acl |}) c). Qed.
Print Assumptions C07_acl_meaning.

Theorem C07_empty_acl_accepts_none : forall c, ~ acl_accepts [] c.
Proof. exact acl_empty. Qed.
Print Assumptions C07_empty_acl_accepts_none.

(** C07.  A connection that reaches a backend with client authentication has
    presented a certificate that chains to the backend's roots and satisfies its
    ACL.  (A passthrough backend, which sees no session here, has no client
    authentication.) *)
Theorem C07_acl_enforced : forall quic idna rs p e n r hello i,
  check_config quic idna rs = Some (backs p) ->
  reaches (handle_connection p e n r hello) i ->
  exists b, nth_error (backs p) i = Some b /\
    match session (handle_connection p e n r hello) with
    | Some (_, c) => cert_rules e b c
    | None => bClientAuth b = None
    end.
Proof. exact reaches_cert_ok. Qed.
Print Assumptions C07_acl_enforced.

Definition env_with name c : env :=
  {| hsOK := true; hsName := name; hsCert := c;
     verifies := fun roots c => mem !"ca1" roots; isRevoked := fun _ n => (n =? 8)%N;
     ocspOK := fun _ => true; waitOK := true |}.
Definition other_cert : cert :=
  {| cSubject := !"EMAIL:bob@example.com0"; cDNS := [!"bob@example.com"]; cEmails := [!"bob@example.co"];
     cURIs := []; cAKI := !"aki"; cSerial := 9; cOCSP := [] |}.

Example C07_example :
  handle_connection ex_p (ex_env !"www") 3 addr10 (Ok (mkHello !"www" [!"imap"])) =
    ActDial 1 !"imap" (Some ex_cert) /\
  handle_connection ex_p (env_with !"www" (Some other_cert)) 3 addr10 (Ok (mkHello !"www" [!"imap"])) =
    ActHandshakeFailed /\
  handle_connection ex_p (env_with !"www" None) 3 addr10 (Ok (mkHello !"www" [!"imap"])) =
    ActHandshakeFailed.
Proof. vm_compute. repeat split. Qed.

(** C08.  The name used to select the backend is the one of the TLS session
    (which may be empty when the default name was used), the certificate rules
    of the very backend that gets the connection hold, and the negotiated
    protocol, if any, is one that this backend claims and the client offered. *)
Theorem C08_session_matches_backend : forall p e n r hello i proto c,
  reaches (handle_connection p e n r hello) i ->
  session (handle_connection p e n r hello) = Some (proto, c) ->
  exists h b, hello = Ok h /\ nth_error (backs p) i = Some b /\
    lists (backs p) i (requested_name p h) /\
    (hsName e = requested_name p h \/ hsName e = [] /\ requested_name p h = defName p) /\
    cert_rules e b c /\
    (proto = [] \/ In proto (bALPN b) /\ In proto (alpnProtos h)).
Proof. exact session_name. Qed.
Print Assumptions C08_session_matches_backend.

(** C08.  The revocation information of that backend is consulted too, except
    in the corner named by the last hypothesis: the backend is not the default
    of its name and was selected by the protocol h3, which is never negotiated
    over TCP.  Missing for the full property: that corner, see
    [C08_revocation_refuted]. *)
Theorem C08_revocation_partial : forall quic idna rs p e n r h i b proto c,
  check_config quic idna rs = Some (backs p) -> no_empty_proto (backs p) -> ~ In [] (alpnProtos h) ->
  (forall j, ~ lists (backs p) j []) ->
  reaches (handle_connection p e n r (Ok h)) i ->
  session (handle_connection p e n r (Ok h)) = Some (proto, c) ->
  nth_error (backs p) i = Some b ->
  ((forall j, j < i -> ~ lists (backs p) j (requested_name p h)) \/
   ~ (In !"h3" (alpnProtos h) /\ In !"h3" (bALPN b))) ->
  revocation_rules e b c.
Proof. exact session_revoked. Qed.
Print Assumptions C08_revocation_partial.

(** In the example the hypotheses hold and the rules are not vacuous: the
    certificate with serial 8 is refused. *)
Definition revoked_cert : cert :=
  {| cSubject := !"CN=bob"; cDNS := []; cEmails := [!"bob@example.com"]; cURIs := [];
     cAKI := !"aki"; cSerial := 8; cOCSP := [] |}.
Example C08_example :
  handle_connection ex_p (ex_env !"www") 3 addr10 (Ok (mkHello !"www" [!"imap"])) =
    ActDial 1 !"imap" (Some ex_cert) /\
  (forall j, ~ lists (backs ex_p) j []) /\
  ~ In !"h3" [!"imap"] /\
  handle_connection ex_p (env_with !"www" (Some revoked_cert)) 3 addr10 (Ok (mkHello !"www" [!"imap"])) =
    ActHandshakeFailed /\
  handle_connection ex_p (ex_env !"other") 3 addr10 (Ok (mkHello !"www" [!"h2"])) = ActHandshakeFailed.
Proof.
  split; [vm_compute; reflexivity|]. split.
  - intros [|[|[|j]]] (b & Hb & Hn); vm_compute in Hb; try (injection Hb as <-);
      try (vm_compute in Hn; intuition discriminate).
    destruct j; discriminate.
  - vm_compute. intuition discriminate.
Qed.

(** C08 in full is false: in an accepted configuration, over TCP, a client that
    offers only h3 reaches the backend that claims h3 with a certificate that
    this backend's CA has revoked, because the handshake consulted the rules of
    the default backend of the same name (proxy.go:591-607: the lookup uses the
    negotiated protocol, which is empty). *)
Theorem C08_revocation_refuted :
  exists rs p e r h i b proto c,
    check_config true (fun s => s) rs = Some (backs p) /\ no_empty_proto (backs p) /\
    reaches (handle_connection p e 0 r (Ok h)) i /\
    session (handle_connection p e 0 r (Ok h)) = Some (proto, Some c) /\
    nth_error (backs p) i = Some b /\ ~ revocation_rules e b (Some c).
Proof.
  pose (rs := [rb [!"www"] !"https" (Some [!"h2"]) None None None;
               rb [!"www"] !"https" (Some [!"h3"]) (Some ex_ca) None None]).
  pose (bes := match check_config true (fun s => s) rs with Some l => l | None => [] end).
  exists rs, {| backs := bes; shut := fun _ => false; defName := []; maxOpen := 10 |},
    (env_with !"www" (Some revoked_cert)), addr10, (mkHello !"www" [!"h3"]).
  do 4 eexists. split; [vm_compute; reflexivity|]. split.
  { intros b Hb. vm_compute in Hb. destruct Hb as [<-|[<-|[]]]; vm_compute; intuition discriminate. }
  split; [vm_compute; reflexivity|].
  split; [vm_compute; reflexivity|].
  split; [vm_compute; reflexivity|].
  vm_compute. discriminate.
Qed.
Print Assumptions C08_revocation_refuted.

(** C08 for QUIC, with the configuration unchanged during the handshake and h3
    not claimed by backends of mode TLS or TCP (which do not negotiate it): the
    backend that gets the connection claims the negotiated protocol for the
    session's server name, and its address, certificate and revocation rules
    hold.  Missing: configurations in which such a backend claims h3, and
    reconfiguration during the handshake (see C09). *)
Theorem C08_quic_partial : forall p e n r cps i proto c,
  check_unique (backs p) [] [] = true -> no_empty_proto (backs p) -> ~ In [] cps ->
  (forall b, In b (backs p) -> In !"h3" (bALPN b) -> bMode b <> ModeTLS /\ bMode b <> ModeTCP) ->
  handle_quic p p e n r cps = QServe i proto c ->
  exists b, nth_error (backs p) i = Some b /\ claims (backs p) i (hsName e) proto /\ In proto cps /\
    shut p i = false /\ n < maxOpen p /\ bMode b <> ModeTLSPassthrough /\
    check_ip (bDeny b) (bAllow b) r = true /\ cert_rules e b c /\ revocation_rules e b c.
Proof. exact handle_quic_serves. Qed.
Print Assumptions C08_quic_partial.

Example C08_quic_example :
  check_unique (backs ex_p) [] [] = true /\
  handle_quic ex_p ex_p (ex_env !"www") 3 addr10 [!"h3"] = QServe 0 !"h3" None /\
  handle_quic ex_p ex_p (ex_env !"www") 3 addr10 [!"imap"] = QServe 1 !"imap" (Some ex_cert) /\
  handle_quic ex_p ex_p (env_with !"www" (Some revoked_cert)) 3 addr10 [!"imap"] = QRefusedHandshake.
Proof. vm_compute. repeat split. Qed.
