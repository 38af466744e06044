(** C09: what a configuration change does to open connections. *)
From Verif Require Import Base ConnModel HelloModel IPModel RouteModel RouteSpec RouteProofs RouteProps ReauthModel ReauthSpec ReauthProofs.

(** C09.  If every open connection is fully set up and its server name is still
    served, the check ends normally and closes exactly the connections which
    the new configuration forbids.  Missing for the full property: connections
    outside [checkable], for which it is false, see the theorems below. *)
Theorem C09_closes_exactly_the_forbidden_partial : forall quic idna rs p cs,
  check_config quic idna rs = Some (backs p) -> no_empty_proto (backs p) ->
  (forall c, In c cs -> checkable p c) ->
  exists closed, reauthorize p cs = (closed, Ok tt) /\
    forall c, In c closed <-> In c cs /\ forbidden p c.
Proof. exact reauthorize_spec. Qed.
Print Assumptions C09_closes_exactly_the_forbidden_partial.

(** C09.  Connections whose hello was not read yet are never touched. *)
Theorem C09_new_connections_untouched : forall p cs c,
  In c (fst (reauthorize p cs)) -> In c cs /\ aName c <> None.
Proof. exact reauthorize_skips. Qed.
Print Assumptions C09_new_connections_untouched.

Definition ac id name proto c old remote : aconn :=
  {| aId := id; aName := name; aProto := proto; aCert := c; aOld := old; aRemote := remote |}.
Definition ex_conns : list aconn :=
  [ ac 0 (Some !"www") !"h2" None (Some ModeHTTPS) addr10;
    ac 1 (Some !"www") !"h2" None (Some ModeHTTP) addr10;
    ac 2 (Some !"web") !"h2" None (Some ModeHTTPS) (AddrIP [10;9;0;1]%N);
    ac 3 (Some !"www") !"imap" (Some ex_cert) (Some ModeTCP) addr10;
    ac 4 (Some !"www") !"imap" (Some other_cert) (Some ModeTCP) addr10;
    ac 5 None [] None None addr10 ].

Example C09_example :
  map aId (fst (reauthorize ex_p ex_conns)) = [1; 2; 4] /\
  snd (reauthorize ex_p ex_conns) = Ok tt /\
  forall c, In c ex_conns -> checkable ex_p c.
Proof.
  split; [vm_compute; reflexivity|]. split; [vm_compute; reflexivity|].
  intros c Hc sn Hn.
  assert (H : forall i b, belongs (backs ex_p) sn (protos c) i /\ nth_error (backs ex_p) i = Some b /\ shut ex_p i = false ->
             aOld c <> None -> (i = 1 -> aCert c <> None) ->
             aOld c <> None /\
             exists i b, belongs (backs ex_p) sn (protos c) i /\ nth_error (backs ex_p) i = Some b /\
               shut ex_p i = false /\
               forall ca acl, bClientAuth b = Some ca -> caACL ca = Some acl -> aCert c <> None).
  { intros i b (H1 & H2 & H3) H5 H6. repeat split; try assumption. exists i, b.
    repeat split; try assumption. intros ca acl Hca _. apply H6.
    destruct i as [|[|[|i]]]; vm_compute in H2; try (injection H2 as <-); try discriminate Hca; try reflexivity.
    destruct i; discriminate. }
  assert (Hr : forall i b, ~ In [] (protos c) -> get_backend ex_p sn (protos c) = Some (i, b) ->
            belongs (backs ex_p) sn (protos c) i /\ nth_error (backs ex_p) i = Some b /\ shut ex_p i = false).
  { intros i b Hnp Hg. apply (routing_iff true (fun s => s) ex_rs ex_p sn (protos c) i b).
    - apply C04_example. - apply C04_example. - exact Hnp. - exact Hg. }
  unfold ex_conns in Hc. cbn [In] in Hc.
  destruct Hc as [<-|[<-|[<-|[<-|[<-|[<-|[]]]]]]]; cbn in Hn; try discriminate; injection Hn as <-;
    (eapply H; [apply Hr; [intros [E|[]]; discriminate E|vm_compute; reflexivity]| |];
     cbn; try discriminate; intros; discriminate).
Qed.

(** C09, "the proxy keeps running", is false: if the new configuration does not
    serve the name of an open connection any more, the check dereferences a nil
    backend (proxy.go:872-875) in a goroutine without recover. *)
Theorem C09_removed_name_crashes_refuted :
  exists rs p c,
    check_config true (fun s => s) rs = Some (backs p) /\
    aOld c = Some ModeHTTPS /\ aName c = Some !"old" /\ aProto c = !"h2" /\
    snd (reauthorize p [c]) = Panic.
Proof.
  exists ex_rs, ex_p, (ac 0 (Some !"old") !"h2" None (Some ModeHTTPS) addr10).
  vm_compute. repeat split.
Qed.
Print Assumptions C09_removed_name_crashes_refuted.

(** In fact that is what happens to every connection with such a name. *)
Theorem C09_removed_name_always_crashes : forall p c sn,
  aName c = Some sn -> (forall i, ~ lists (backs p) i sn) -> reauth_one p c = Panic.
Proof.
  intros p c sn Hn Hl. unfold reauth_one. rewrite Hn.
  destruct (get_backend p sn [aProto c]) as [[i b]|] eqn:E; [|reflexivity].
  apply get_backend_inv in E as (E & _ & _). apply lookup_lists in E. exfalso. exact (Hl i E).
Qed.
Print Assumptions C09_removed_name_always_crashes.

(** Likewise when an ACL is added to a backend that has an open connection
    without certificate: the nil certificate is dereferenced (backend.go:222). *)
Theorem C09_added_acl_crashes_refuted :
  exists rs p c,
    check_config true (fun s => s) rs = Some (backs p) /\
    aOld c = Some ModeTCP /\ aName c = Some !"www" /\ aProto c = !"imap" /\
    snd (reauthorize p [c]) = Panic.
Proof.
  exists ex_rs, ex_p, (ac 0 (Some !"www") !"imap" None (Some ModeTCP) addr10).
  vm_compute. repeat split.
Qed.
Print Assumptions C09_added_acl_crashes_refuted.

(** Likewise for a connection that is between reading its hello and being given
    to a backend (proxy.go:1164-1173), even if nothing changed. *)
Theorem C09_starting_connection_crashes_refuted :
  exists rs p c,
    check_config true (fun s => s) rs = Some (backs p) /\
    aName c = Some !"www" /\ aOld c = None /\
    snd (reauthorize p [c]) = Panic.
Proof.
  exists ex_rs, ex_p, (ac 0 (Some !"www") [] None None addr10). vm_compute. repeat split.
Qed.
Print Assumptions C09_starting_connection_crashes_refuted.

(** C09, "no forbidden connection survives", is false when client
    authentication without ACL is added: a connection without certificate
    stays open, although the backend now requires one (proxy.go:890-893,
    backend.go:218-221). *)
Theorem C09_added_client_auth_ignored_refuted :
  exists rs p c b ca,
    check_config true (fun s => s) rs = Some (backs p) /\
    belongs (backs p) !"www" [!"h2"] 0 /\ nth_error (backs p) 0 = Some b /\
    bClientAuth b = Some ca /\
    aName c = Some !"www" /\ aProto c = !"h2" /\ aOld c = Some (bMode b) /\ aCert c = None /\
    reauthorize p [c] = ([], Ok tt).
Proof.
  pose (rs := [rb [!"www"] !"https" None (Some {| caRoots := [!"ca1"]; caACL := None |}) None None]).
  pose (bes := match check_config true (fun s => s) rs with Some l => l | None => [] end).
  exists rs, {| backs := bes; shut := fun _ => false; defName := []; maxOpen := 10 |},
    (ac 0 (Some !"www") !"h2" None (Some ModeHTTPS) addr10).
  do 2 eexists. split; [vm_compute; reflexivity|].
  split; [left; exists [], (!"h2"), []; split; [reflexivity|split]|].
  { eexists. split; [vm_compute; reflexivity|]. vm_compute. auto. }
  { intros q j []. }
  split; [vm_compute; reflexivity|]. split; [vm_compute; reflexivity|].
  vm_compute. repeat split.
Qed.
Print Assumptions C09_added_client_auth_ignored_refuted.

(** C09, "the others stay open", is false for passthrough connections: no
    protocol was negotiated for them, so they are checked against the default
    backend of their name.  Here nothing changed, the connection was routed to
    the passthrough backend by its protocol, and it is closed because the
    default backend has another mode. *)
Theorem C09_passthrough_closed_refuted :
  exists rs p e h i c,
    check_config true (fun s => s) rs = Some (backs p) /\
    handle_connection p e 0 addr10 (Ok h) = ActPassthrough i /\
    aName c = Some (serverName h) /\ aOld c = Some ModeTLSPassthrough /\ aRemote c = addr10 /\
    aProto c = [] /\
    reauthorize p [c] = ([c], Ok tt).
Proof.
  pose (rs := [rb [!"www"] !"https" (Some [!"h2"]) None None None;
               rb [!"www"] !"tlspassthrough" (Some [!"xmpp"]) None None None]).
  pose (bes := match check_config true (fun s => s) rs with Some l => l | None => [] end).
  exists rs, {| backs := bes; shut := fun _ => false; defName := []; maxOpen := 10 |}, (ex_env []),
    (mkHello !"www" [!"xmpp"]), 1, (ac 0 (Some !"www") [] None (Some ModeTLSPassthrough) addr10).
  vm_compute. repeat split.
Qed.
Print Assumptions C09_passthrough_closed_refuted.

(** C09 for QUIC: a connection whose handshake finished under the old
    configuration and which is entered in the list of open connections after
    the check is served under the new configuration although its new backend
    requires a client certificate and none was presented (quic.go:117-190
    looks the backend up again but never checks the certificate). *)
Theorem C09_quic_race_refuted :
  exists rs rs' p p' e i proto b' ca,
    check_config true (fun s => s) rs = Some (backs p) /\
    check_config true (fun s => s) rs' = Some (backs p') /\
    handle_quic p p' e 0 addr10 [!"h3"] = QServe i proto None /\
    nth_error (backs p') i = Some b' /\ bClientAuth b' = Some ca /\
    ~ cert_rules e b' None.
Proof.
  pose (rs := [rb [!"www"] !"https" None None None None]).
  pose (rs' := [rb [!"www"] !"https" None (Some ex_ca) None None]).
  pose (bes := match check_config true (fun s => s) rs with Some l => l | None => [] end).
  pose (bes' := match check_config true (fun s => s) rs' with Some l => l | None => [] end).
  exists rs, rs', {| backs := bes; shut := fun _ => false; defName := []; maxOpen := 10 |},
    {| backs := bes'; shut := fun _ => false; defName := []; maxOpen := 10 |}, (env_with !"www" None).
  do 4 eexists. split; [vm_compute; reflexivity|]. split; [vm_compute; reflexivity|].
  split; [vm_compute; reflexivity|]. split; [vm_compute; reflexivity|].
  split; [vm_compute; reflexivity|].
  intros (k & H & _). discriminate.
Qed.
Print Assumptions C09_quic_race_refuted.
