(** Property C108: everything that a backend gets has passed all of its checks. *)
From Coq Require Import Lia.
From Verif Require Import Base IPModel IPSpec ConnModel HelloModel HelloSpec HelloProps RouteModel RouteSpec RouteProofs RouteProps
  ProxyHdrModel ProxyHdrSpec ProxyHdrProps AcceptModel AcceptProps WholeModel WholeSpec WholeProofs.
From Verif Require HttpModel HttpSpec HttpProps.
Local Open Scope nat_scope.

(** Whatever arrives on a TCP connection, and whatever comes of it: the bytes (after the
    PROXY header of a peer that may send one) start with a client hello, the backend lists the
    name that it asks for, is not shutting down and accepts the address of the client, there
    were not too many connections, the certificate satisfies the rules of this backend, its mode
    allows the effect, and a request on the connection was checked too. *)
Theorem C108_tcp : forall quic idna rs w from p xs e n peer bytes got1 got2 reqs f,
  check_config quic idna rs = Some (backs p) ->
  In f (tcp_effects w from p xs e n peer bytes got1 got2 reqs) ->
  exists b src data name protos,
    nth_error (backs p) (backend_of f) = Some b /\ shut p (backend_of f) = false /\ n < maxOpen p /\
    receive (w_read w) from peer bytes = (src, Some data) /\
    starts_with_hello data name protos /\
    let asked := match name with [] => defName p | _ => name end in
    In asked (bNames b) /\
    (no_empty_proto (backs p) -> ~ In [] protos -> belongs (backs p) asked protos (backend_of f)) /\
    check_ip (bDeny b) (bAllow b) (addr_of src) = true /\
    cert_rules e b (certificate f) /\
    mode_allows b f /\
    request_checked w b xs asked src reqs f.
Proof.
  intros quic idna rs w from p xs e n peer bytes got1 got2 reqs f CC H.
  destruct (tcp_inv _ _ _ _ _ _ _ _ _ _ _ _ H) as (src & data & h & R & P & RA & F).
  pose proof (reaches_open _ _ _ _ _ _ RA) as L.
  destruct (C06_ip_enforced _ _ _ _ _ _ RA) as (b & B & IP).
  destruct (C05_only_listed_names _ _ _ _ _ _ RA) as (h' & E & (b' & B' & LN) & S). injection E as <-.
  assert (b' = b) by congruence. subst b'.
  destruct (reaches_backend _ _ _ _ _ _ RA) as (b' & G).
  destruct (C07_acl_enforced quic idna rs _ _ _ _ _ _ CC RA) as (b'' & B'' & CR).
  assert (b'' = b) by congruence. subst b''.
  pose proof (C68_mode_decides _ _ _ _ _ _ _ RA B) as M.
  assert (AN : match serverName h with [] => defName p | _ => serverName h end = requested_name p h) by apply annotated.
  exists b, src, data, (serverName h), (alpnProtos h). cbv zeta. rewrite AN.
  split; [exact B|]. split; [exact S|]. split; [exact L|]. split; [exact R|].
  split; [apply hello_of_data with got1 got2; exact P|]. split; [exact LN|].
  split. { intros NE NI. apply (C04_routing_partial quic idna rs p _ _ _ b' CC NE NI) in G. apply G. }
  split; [exact IP|].
  destruct f as [i c ev r res|i proto c|i]; cbn [backend_of certificate mode_allows request_checked] in *.
  - destruct F as (proto & A & I). rewrite A in CR, M. cbn in CR. split; [exact CR|]. split.
    + destruct (bMode b); auto; try discriminate M; destruct M as (? & ? & M); discriminate M.
    + apply answered in I as (b1 & x & ev' & r' & B1 & X & I & [= <- <- ->]).
      assert (b1 = b) by congruence. subst b1. split; [exact I|]. exists x. split; [exact X|].
      apply handler_checked.
  - rewrite F in CR, M. cbn in CR. split; [exact CR|]. split; [|exact Logic.I].
    destruct (bMode b); auto; try discriminate M; destruct M as (? & ? & M); discriminate M.
  - rewrite F in CR, M. cbn in CR. split; [unfold cert_rules; rewrite CR; exact Logic.I|]. split; [|exact Logic.I].
    destruct (bMode b); auto; try discriminate M; destruct M as (? & ? & M); discriminate M.
Qed.
Print Assumptions C108_tcp.

(** For a peer that is not listed in acceptProxyHeaderFrom, the client is the peer and the
    hello is the first that it sends. *)
Theorem C108_direct : forall quic idna rs w l p xs e n peer bytes got1 got2 reqs f,
  check_config quic idna rs = Some (backs p) ->
  Forall cidr_ok l -> is_bytes (addr_ip peer) -> ~ speaks_for_others l peer ->
  In f (tcp_effects w (networks l) p xs e n peer bytes got1 got2 reqs) ->
  exists b name protos, nth_error (backs p) (backend_of f) = Some b /\
    starts_with_hello bytes name protos /\
    In (match name with [] => defName p | _ => name end) (bNames b) /\
    check_ip (bDeny b) (bAllow b) (addr_of peer) = true /\ cert_rules e b (certificate f) /\
    request_checked w b xs (match name with [] => defName p | _ => name end) peer reqs f.
Proof.
  intros quic idna rs w l p xs e n peer bytes got1 got2 reqs f CC Hl Hb NS H.
  destruct (C73_others_speak_for_themselves (w_read w) l p e n peer bytes got1 got2 Hl Hb NS) as [E _].
  destruct (C108_tcp _ _ _ _ _ _ _ _ _ _ _ _ _ _ _ CC H)
    as (b & src & data & name & protos & B & _ & _ & R & SH & LN & _ & IP & CR & _ & RC).
  rewrite E in R. injection R as <- <-. exists b, name, protos. repeat (split; [assumption|]). assumption.
Qed.
Print Assumptions C108_direct.

(** All that comes of a connection, one backend has done.  If it is an HTTP server, it answers
    the requests one by one, in the order in which they come. *)
Theorem C108_one_backend : forall w from p xs e n peer bytes got1 got2 reqs f,
  In f (tcp_effects w from p xs e n peer bytes got1 got2 reqs) ->
  (forall g, In g (tcp_effects w from p xs e n peer bytes got1 got2 reqs) -> backend_of g = backend_of f) /\
  match f with
  | Answer _ _ _ _ _ =>
      exists answers, tcp_effects w from p xs e n peer bytes got1 got2 reqs =
        map (fun a => Answer (backend_of f) (certificate f) (fst (fst a)) (snd (fst a)) (snd a)) (combine reqs answers) /\
        List.length answers = List.length reqs
  | g => tcp_effects w from p xs e n peer bytes got1 got2 reqs = [g]
  end.
Proof.
  intros w from p xs e n peer bytes got1 got2 reqs f. unfold tcp_effects.
  destruct (receive _ _ _ _) as [src data]. set (hello := match data with Some d => _ | None => Err end).
  destruct (handle_connection _ _ _ _ _) as [| | | | |i proto c|i proto c|i|]; intros H; try (destruct H; fail).
  - split.
    + intros g G. apply answered in H as (? & ? & ? & ? & _ & _ & _ & ->).
      apply answered in G as (? & ? & ? & ? & _ & _ & _ & ->). reflexivity.
    + pose proof H as H0. apply answered in H0 as (b & x & ev & r & B & X & _ & ->).
      exists (map (fun er => handler b x (fst er) (http_conn w (annotated_name p hello) src c) (snd er)) reqs).
      split; [|apply map_length]. unfold http_serve. rewrite B, X. cbn [backend_of certificate].
      clear. induction reqs as [|er reqs IH]; [reflexivity|]. cbn [map combine fst snd]. rewrite IH. destruct er; reflexivity.
  - destruct H as [<-|[]]. split; [|reflexivity]. intros g [<-|[]]. reflexivity.
  - destruct H as [<-|[]]. split; [|reflexivity]. intros g [<-|[]]. reflexivity.
Qed.
Print Assumptions C108_one_backend.

(** QUIC connections: the same, with the name and the protocol of the TLS session, under the
    configuration in force when the connection is handled. *)
Theorem C108_quic : forall w p p' xs e n peer cps reqs f,
  In f (quic_effects w p p' xs e n peer cps reqs) ->
  exists b, nth_error (backs p') (backend_of f) = Some b /\ shut p' (backend_of f) = false /\ n < maxOpen p' /\
    In (hsName e) (bNames b) /\ check_ip (bDeny b) (bAllow b) (addr_of peer) = true /\
    quic_mode_allows b f /\
    request_checked w b xs (hsName e) peer reqs f.
Proof.
  intros w p p' xs e n peer cps reqs f. unfold quic_effects.
  destruct (handle_quic p p' e n (addr_of peer) cps) as [| | | | |i proto c] eqn:Q; try (intros []; fail).
  destruct (C06_quic_ip_enforced _ _ _ _ _ _ _ _ _ Q) as (b & B & IP & (b1 & B1 & LN) & S & L).
  assert (b1 = b) by congruence. subst b1. rewrite B. intros H.
  assert (K : (In f (http_serve w p' xs i (hsName e) peer c reqs) /\ (bMode b = ModeConsole \/ bMode b = ModeLocal \/ bMode b = ModeHTTP \/ bMode b = ModeHTTPS)) \/
    (f = Bridge i proto c /\ ~ (bMode b = ModeConsole \/ bMode b = ModeLocal \/ bMode b = ModeHTTP \/ bMode b = ModeHTTPS))).
  { destruct (bMode b); try (left; tauto); right; (destruct H as [<-|[]]); (split; [reflexivity|]); intros [X|[X|[X|X]]]; discriminate X. }
  clear H. exists b. destruct K as [[H M]|[-> M]].
  - apply answered in H as (b2 & x & ev & r & B2 & X & I & ->). assert (b2 = b) by congruence. subst b2.
    cbn [backend_of request_checked]. split; [exact B|]. split; [exact S|]. split; [exact L|]. split; [exact LN|]. split; [exact IP|].
    split; [exact M|]. split; [exact I|]. exists x. split; [exact X|]. apply handler_checked.
  - cbn [backend_of request_checked quic_mode_allows]. auto 9.
Qed.
Print Assumptions C108_quic.

(** And while the configuration does not change, the certificate satisfies the rules of the
    backend and was not revoked.  Missing: a new configuration between the handshake and the
    moment when the connection is handled, and the corners that C08 names. *)
Theorem C108_quic_certificate_partial : forall w p xs e n peer cps reqs f,
  check_unique (backs p) [] [] = true -> no_empty_proto (backs p) -> ~ In [] cps ->
  (forall b, In b (backs p) -> In !"h3" (bALPN b) -> bMode b <> ModeTLS /\ bMode b <> ModeTCP) ->
  In f (quic_effects w p p xs e n peer cps reqs) ->
  exists b proto, nth_error (backs p) (backend_of f) = Some b /\
    claims (backs p) (backend_of f) (hsName e) proto /\ In proto cps /\
    cert_rules e b (certificate f) /\ revocation_rules e b (certificate f).
Proof.
  intros w p xs e n peer cps reqs f U NE NI H3. unfold quic_effects.
  destruct (handle_quic p p e n (addr_of peer) cps) as [| | | | |i proto c] eqn:Q; try (intros []; fail).
  destruct (C08_quic_partial _ _ _ _ _ _ _ _ U NE NI H3 Q) as (b & B & CL & IN & _ & _ & _ & _ & CR & RR).
  rewrite B. intros H.
  assert (K : In f (http_serve w p xs i (hsName e) peer c reqs) \/ f = Bridge i proto c).
  { destruct (bMode b); auto; destruct H as [<-|[]]; auto. }
  clear H. exists b, proto. destruct K as [H| ->].
  - apply answered in H as (b1 & x & ev & r & B1 & X & I & ->). cbn. auto.
  - cbn. auto.
Qed.
Print Assumptions C108_quic_certificate_partial.

(** The other direction: an honest client gets through.  It says a well-formed hello for a name
    of a plain backend, from an address that the backend accepts, and then sends requests for
    names of the backend: each is forwarded. *)
Theorem C108_honest : forall quic idna rs w from p xs e n peer bytes got1 got2 reqs h rest src i b x,
  check_config quic idna rs = Some (backs p) -> no_empty_proto (backs p) -> ~ In [] (hello_protos h) ->
  wf_hello h = true -> 5 <= got1 -> List.length (enc_handshake h) <= got2 ->
  receive (w_read w) from peer bytes = (src, Some (enc_record h ++ rest)) ->
  let asked := match hello_name h with [] => defName p | _ => hello_name h end in
  belongs (backs p) asked (hello_protos h) i ->
  nth_error (backs p) i = Some b -> nth_error xs i = Some x -> plain b x -> bClientAuth b = None ->
  shut p i = false -> n < maxOpen p -> check_ip (bDeny b) (bAllow b) (addr_of src) = true ->
  hello_protos h <> [!"acme-tls/1"] ->
  (hello_protos h = [] \/ bALPN b = [] \/ exists q, In q (hello_protos h) /\ In q (bALPN b) /\ q <> !"h3") ->
  hsOK e = true -> waitOK e = true -> (hsName e = asked \/ hsName e = [] /\ asked = defName p) ->
  forall ev r, In (ev, r) reqs ->
  (exists s, In s (bNames b) /\ HttpSpec.plain_name s /\
     HttpSpec.names_host (if str_eqb (HttpModel.rq_host r) [] then asked else HttpModel.rq_host r) s) ->
  HttpModel.h_values HttpModel.via (HttpModel.rq_headers r) = [] ->
  exists fw, In (Answer i None ev r (HttpModel.Forward fw)) (tcp_effects w from p xs e n peer bytes got1 got2 reqs).
Proof.
  intros quic idna rs w from p xs e n peer bytes got1 got2 reqs h rest src i b x CC NE NI W G1 G2 R asked BL B X PL CA S L IP
    NA AL HS WO HN ev r Hr HH V.
  destruct (C02_hello_roundtrip h rest got1 got2 W G1 G2) as (c' & PK & _).
  set (h0 := mkHello (hello_name h) (hello_protos h)) in *.
  assert (AN : asked = requested_name p h0) by (subst asked; rewrite <- annotated; reflexivity).
  rewrite AN in *. clear asked AN.
  destruct (http_gets_it p e n (addr_of src) h0 i b) as (proto & A); auto.
  { apply (C04_routing_partial quic idna rs); auto. }
  { apply PL. }
  destruct (plain_forwards ev b x (http_conn w (requested_name p h0) src None) r PL HH V) as (fw & F).
  exists fw. unfold tcp_effects. rewrite R, PK. cbn [snd]. rewrite A, annotated.
  unfold http_serve. rewrite B, X. rewrite <- F.
  apply in_map_iff. exists (ev, r). split; [reflexivity|exact Hr].
Qed.
Print Assumptions C108_honest.

(** ** Examples *)

Definition ex_hello (name : str) (protos : list str) : hello :=
  {| h_record_version := (ascii_of_N 3, ascii_of_N 1); h_version_random := repeat (ascii_of_N 7) 34; h_session_id := [];
     h_ciphers := [ascii_of_N 19; ascii_of_N 1]; h_compression := [ascii_of_N 0];
     h_exts := [ExtOther 43 []; ExtServerName name; ExtALPN protos] |}.
Definition ex_rs2 : list rawBackend :=
  [ rb [!"www.example.com"] !"https" None None (Some [parse_cidr [10;9;0;0]%N 16]) (Some [net10]);
    rb [!"mail.example.com"] !"tcp" (Some [!"imap"]) (Some ex_ca) None None;
    rb [!"plain.example.com"] !"http" None None None None;
    rb [!"raw.example.com"] !"tlspassthrough" None None None None ].
Definition ex_p2 : proxy :=
  {| backs := match check_config true (fun s => s) ex_rs2 with Some l => l | None => [] end;
     shut := fun _ => false; defName := !"plain.example.com"; maxOpen := 10 |}.
Definition no_extras : extras :=
  {| x_sso := None; x_handlers := []; x_overrides := []; x_root := []; x_sanitize := None; x_headers := []; x_xfcc := [] |}.
Definition ex_xs : list extras :=
  [ {| x_sso := Some HttpProps.x_sso; x_handlers := HttpProps.x_handlers; x_overrides := HttpProps.x_overrides; x_root := [];
       x_sanitize := None; x_headers := []; x_xfcc := [] |}; no_extras; no_extras; no_extras ].
Definition ex_w : world :=
  {| w_read := pp_reader ex_p6; w_ip_text := fun a => match a with TCPAddr [10;1;2;3]%N _ => !"10.1.2.3" | TCPAddr [192;0;2;1]%N _ => !"192.0.2.1" | _ => !"?" end;
     w_cert_text := fun k => !"Subject=" ++ cSubject k; w_local := !"192.0.2.99:443" |}.
Definition ex_run name protos peer reqs :=
  tcp_effects ex_w (networks ex_list) ex_p2 ex_xs (ex_env name) 3 peer (enc_record (ex_hello name protos) ++ !"more") 5 500 reqs.
Definition get host path h : HttpModel.env * HttpModel.request :=
  (HttpProps.x_env, {| HttpModel.rq_method := !"GET"; HttpModel.rq_proto := !"HTTP/1.1"; HttpModel.rq_host := host;
     HttpModel.rq_path := path; HttpModel.rq_headers := h |}).
Definition kinds (l : list effect) : list (nat * nat) :=
  map (fun f => match f with
    | Answer i _ _ _ (HttpModel.Forward _) => (i, 1) | Answer i _ _ _ HttpModel.Login => (i, 2)
    | Answer i _ _ _ HttpModel.Misdirected => (i, 3) | Answer i _ _ _ HttpModel.Denied => (i, 4)
    | Answer i _ _ _ _ => (i, 0) | Bridge i _ _ => (i, 10) | Raw i => (i, 11) end) l.

(** One connection with five requests: public, protected without and with a session, protected
    with the session of a user who is not on the list, and for a name of another backend; then a
    connection from a denied address; then the other modes. *)
Example C108_example :
  check_config true (fun s => s) ex_rs2 = Some (backs ex_p2) /\
  kinds (ex_run !"www.example.com" [!"h2"] (TCPAddr [10;1;2;3]%N 5000)
    [get !"www.example.com" !"/" []; get !"www.example.com" !"/private/a" [];
     get !"www.example.com:8443" !"/private/a" (HttpProps.x_cookie "TLSPROXYAUTH=alice");
     get !"www.example.com:8443" !"/private/a" (HttpProps.x_cookie "TLSPROXYAUTH=mallory");
     get !"plain.example.com" !"/" []]) = [(0, 1); (0, 2); (0, 1); (0, 4); (0, 3)] /\
  ex_run !"www.example.com" [!"h2"] (TCPAddr [10;9;2;3]%N 5000) [get !"www.example.com" !"/" []] = [] /\
  ex_run !"mail.example.com" [!"imap"] (TCPAddr [11;9;2;3]%N 5000) [] = [Bridge 1 !"imap" (Some ex_cert)] /\
  ex_run !"raw.example.com" [!"imap"] (TCPAddr [11;9;2;3]%N 5000) [] = [Raw 3] /\
  ex_run !"other.example.com" [!"imap"] (TCPAddr [11;9;2;3]%N 5000) [] = [] /\
  tcp_effects ex_w (networks ex_list) ex_p2 ex_xs (ex_env !"www.example.com") 3 (TCPAddr [10;1;2;3]%N 5000) !"GET / HTTP/1.1" 5 500
    [get !"www.example.com" !"/" []] = [].
Proof. vm_compute. repeat split. Qed.

(** Behind a proxy that is listed, the client is the one that the header names. *)
Example C108_behind_a_proxy_example :
  match write_proxy_header ex_s6 2 ex_client with
  | Some hdr =>
      match tcp_effects ex_w (networks ex_list) ex_p2 ex_xs (ex_env !"plain.example.com") 3 (TCPAddr [10;1;2;3]%N 5000)
        (hdr ++ enc_record (ex_hello !"plain.example.com" [])) 5 500 [get !"plain.example.com" !"/" []] with
      | [Answer 2 None _ _ (HttpModel.Forward f)] => HttpModel.h_values HttpModel.xff (HttpModel.fw_headers f)
      | _ => []
      end
  | None => []
  end = [!"192.0.2.1"].
Proof. vm_compute. reflexivity. Qed.

Example C108_quic_example :
  kinds (quic_effects ex_w ex_p2 ex_p2 ex_xs (ex_env !"www.example.com") 3 (UDPAddr [10;1;2;3]%N 5000) [!"h3"]
    [get !"www.example.com" !"/" []; get !"www.example.com" !"/private/a" []]) = [(0, 1); (0, 2)] /\
  quic_effects ex_w ex_p2 ex_p2 ex_xs (ex_env !"mail.example.com") 3 (UDPAddr [10;1;2;3]%N 5000) [!"imap"] [] = [Bridge 1 !"imap" (Some ex_cert)] /\
  quic_effects ex_w ex_p2 ex_p2 ex_xs (ex_env !"raw.example.com") 3 (UDPAddr [10;1;2;3]%N 5000) [!"h3"] [] = [] /\
  check_unique (backs ex_p2) [] [] = true /\ ~ In [] [!"h3"] /\
  (forall b, In b (backs ex_p2) -> In !"h3" (bALPN b) -> bMode b <> ModeTLS /\ bMode b <> ModeTCP).
Proof.
  split; [vm_compute; reflexivity|]. split; [vm_compute; reflexivity|]. split; [vm_compute; reflexivity|].
  split; [vm_compute; reflexivity|]. split; [intros [X|[]]; discriminate X|].
  intros b Hb. vm_compute in Hb. destruct Hb as [<-|[<-|[<-|[<-|[]]]]]; vm_compute; intros H; intuition discriminate.
Qed.

(** The hypotheses of [C108_honest] can be met. *)
Example C108_honest_example :
  wf_hello (ex_hello !"plain.example.com" [!"h2"]) = true /\
  no_empty_proto (backs ex_p2) /\
  belongs (backs ex_p2) !"plain.example.com" [!"h2"] 2 /\
  (exists b, nth_error (backs ex_p2) 2 = Some b /\ plain b no_extras /\ bClientAuth b = None /\
     In !"h2" (bALPN b) /\ check_ip (bDeny b) (bAllow b) (AddrIP [11;9;2;3]%N) = true) /\
  kinds (ex_run !"plain.example.com" [!"h2"] (TCPAddr [11;9;2;3]%N 5000) [get !"plain.example.com:443" !"/x" []]) = [(2, 1)].
Proof.
  assert (NE : no_empty_proto (backs ex_p2)).
  { intros b Hb. vm_compute in Hb. destruct Hb as [<-|[<-|[<-|[<-|[]]]]]; vm_compute; intuition discriminate. }
  split; [vm_compute; reflexivity|]. split; [exact NE|]. split.
  { refine (proj1 (proj1 (C04_routing_partial true (fun s => s) ex_rs2 ex_p2 _ _ 2 _ _ NE _) _)).
    - vm_compute. reflexivity.
    - intros [X|[]]; discriminate X.
    - vm_compute. reflexivity. }
  split; [|vm_compute; reflexivity].
  eexists. split; [vm_compute; reflexivity|]. split.
  { split; [left; reflexivity|]. split; [discriminate|]. repeat split. }
  split; [reflexivity|]. split; [vm_compute; auto|reflexivity].
Qed.

(** Without the restriction to one configuration, C108_quic_certificate_partial is false: the
    certificate is asked for by the configuration of the handshake.  If a new one, which wants a
    certificate for the name, is loaded before the connection is handled, its backend is given
    a connection without one. *)
Theorem C108_quic_certificate_refuted :
  exists p p' b w xs e n peer cps reqs f,
    In f (quic_effects w p p' xs e n peer cps reqs) /\
    nth_error (backs p') (backend_of f) = Some b /\ bClientAuth b <> None /\ certificate f = None /\
    ~ cert_rules e b (certificate f) /\
    quic_effects w p' p' xs e n peer cps reqs = [].
Proof.
  set (conf := fun ca => {| backs := match check_config true (fun s => s)
      [rb [!"mail.example.com"] !"tcp" (Some [!"imap"]) ca None None] with Some l => l | None => [] end;
      shut := fun _ => false; defName := []; maxOpen := 10 |}).
  exists (conf None), (conf (Some ex_ca)). eexists. exists ex_w, [no_extras], (env_with !"mail.example.com" None), 3,
    (UDPAddr [10;1;2;3]%N 5000), [!"imap"], [], (Bridge 0 !"imap" None).
  split; [vm_compute; auto|]. split; [vm_compute; reflexivity|]. split; [discriminate|]. split; [reflexivity|].
  split; [|vm_compute; reflexivity]. intros (k & K & _). discriminate K.
Qed.
Print Assumptions C108_quic_certificate_refuted.
