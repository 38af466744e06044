(** C107: what a client hears that the proxy turns away. *)
From Verif Require Import Base HelloModel IPModel RouteModel RouteSpec RouteProofs RouteProps
  AnswerModel AnswerSpec AnswerProofs.

(** C107.  Before a TLS library or a backend takes over, the proxy writes nothing,
    or exactly one well-formed fatal alert, and then it closes the connection. *)
Theorem C107_records : forall p w d n r hello bytes nx,
  first_answer p w d n r hello = (bytes, nx) ->
  bytes = [] \/
  nx = Closed /\ exists a, In a [close_notify; internal_error; unrecognized_name] /\ one_fatal_alert bytes a.
Proof. exact answers. Qed.
Print Assumptions C107_records.

(** C107.  The alert close_notify means that there are too many connections. *)
Theorem C107_too_many : forall p w d n r hello,
  one_fatal_alert (fst (first_answer p w d n r hello)) close_notify <-> maxOpen p <= n.
Proof. exact too_many. Qed.
Print Assumptions C107_too_many.

(** C107.  The alert unrecognized_name means that the backend the connection
    belongs to does not exist, shuts down, or turns the address away (unless the
    client only asks for the certificate of an ACME challenge). *)
Theorem C107_unrecognized : forall quic idna rs p w d n r h,
  check_config quic idna rs = Some (backs p) -> no_empty_proto (backs p) -> ~ In [] (alpnProtos h) ->
  one_fatal_alert (fst (first_answer p w d n r (Ok h))) unrecognized_name <->
  n < maxOpen p /\
  forall i b, belongs (backs p) (requested_name p h) (alpnProtos h) i -> nth_error (backs p) i = Some b ->
    shut p i = true \/
    (check_ip (bDeny b) (bAllow b) r = false /\ (bMode b = ModeTLSPassthrough \/ ~ acme_only h)).
Proof. exact unrecognized. Qed.
Print Assumptions C107_unrecognized.

(** C107.  The alert internal_error means that the connection belongs to a
    passthrough backend that is up and lets the address in, but that waiting for
    the rate limit or dialling failed. *)
Theorem C107_internal : forall quic idna rs p w d n r h,
  check_config quic idna rs = Some (backs p) -> no_empty_proto (backs p) -> ~ In [] (alpnProtos h) ->
  one_fatal_alert (fst (first_answer p w d n r (Ok h))) internal_error <->
  n < maxOpen p /\
  exists i b, belongs (backs p) (requested_name p h) (alpnProtos h) i /\ nth_error (backs p) i = Some b /\
    shut p i = false /\ check_ip (bDeny b) (bAllow b) r = true /\ bMode b = ModeTLSPassthrough /\
    (w = false \/ d = false).
Proof. exact internal. Qed.
Print Assumptions C107_internal.

(** C107.  A connection is closed without a word exactly if its first message
    cannot be read. *)
Theorem C107_silent : forall p w d n r hello,
  first_answer p w d n r hello = ([], Closed) <-> n < maxOpen p /\ forall h, hello <> Ok h.
Proof. exact silent. Qed.
Print Assumptions C107_silent.

(** C107.  A client that was sent an alert has not reached a backend; one that
    reached a backend has been sent nothing by the proxy itself. *)
Theorem C107_refused : forall p e n r hello i,
  reaches (handle_connection p e n r hello) i ->
  first_answer p (waitOK e) true n r hello = ([], TlsWith i) \/
  first_answer p (waitOK e) true n r hello = ([], Bridged i).
Proof. exact reach_answer. Qed.
Print Assumptions C107_refused.

(** C107.  A client that is turned away because of its address cannot tell which
    names the proxy serves: whatever the configuration (and whichever backends
    shut down), if all backends with the name are closed to the client then it
    hears the same.  Missing: a client that offers only the protocol of ACME
    challenges, and QUIC; see below. *)
Theorem C107_hidden_partial : forall p p' w w' d d' n n' r h,
  (maxOpen p <= n <-> maxOpen p' <= n') ->
  closed_to p r (requested_name p h) -> closed_to p' r (requested_name p' h) -> ~ acme_only h ->
  first_answer p w d n r (Ok h) = first_answer p' w' d' n' r (Ok h).
Proof. exact hidden. Qed.
Print Assumptions C107_hidden_partial.

(** C107.  Over QUIC too such a client is not served. *)
Theorem C107_quic_closed : forall p p' e n r cps i,
  closed_to p' r (hsName e) -> quic_heard (handle_quic p p' e n r cps) <> Served i.
Proof. exact quic_closed. Qed.
Print Assumptions C107_quic_closed.

(** An address that the backend "web" of [ex_p] turns away, and the proxy without that backend. *)
Definition addr_out := AddrIP [192;168;1;1]%N.
Definition ex_without : proxy := {| backs := tl ex_bes; shut := fun _ => false; defName := []; maxOpen := 10 |}.

Lemma out_closed : closed_to ex_p addr_out !"web" /\ closed_to ex_without addr_out !"web".
Proof.
  split; intros [|[|[|i]]] b H Hin; vm_compute in H;
    try discriminate H; try (destruct i; discriminate H); injection H as <-;
    vm_compute in Hin; repeat destruct Hin as [Hin|Hin]; try discriminate; try contradiction;
    right; vm_compute; reflexivity.
Qed.

(** C107.  Without these restrictions it is false.  By offering only the protocol
    of ACME challenges, a client that may not use any backend of the name learns
    whether the proxy serves the name. *)
Theorem C107_hidden_refuted : exists p p' w d n r h,
  maxOpen p = maxOpen p' /\ serverName h <> [] /\
  closed_to p r (serverName h) /\ closed_to p' r (serverName h) /\
  first_answer p w d n r (Ok h) = ([], AcmeTls) /\
  one_fatal_alert (fst (first_answer p' w d n r (Ok h))) unrecognized_name.
Proof.
  exists ex_p, ex_without, true, true, 3, addr_out, (mkHello !"web" [!"acme-tls/1"]).
  destruct out_closed as [H1 H2].
  split; [reflexivity|]. split; [discriminate|]. split; [exact H1|]. split; [exact H2|].
  split; [vm_compute; reflexivity|].
  replace (first_answer ex_without true true 3 addr_out (Ok (mkHello !"web" [!"acme-tls/1"])))
    with (send_unrecognized_name, Closed) by (vm_compute; reflexivity).
  apply unrecognized_is. reflexivity.
Qed.
Print Assumptions C107_hidden_refuted.

(** C107.  Over QUIC a client that may not use any backend of the name completes
    the handshake, so it also sees the certificate, and is then told "access
    denied"; for a name that is not served the handshake fails. *)
Theorem C107_hidden_quic_refuted : exists p p' e n r cps,
  closed_to p r (hsName e) /\ closed_to p' r (hsName e) /\
  quic_heard (handle_quic p p e n r cps) = HandshakeThen 4098 !"access denied" /\
  quic_heard (handle_quic p' p' e n r cps) = NoHandshake.
Proof.
  exists ex_p, ex_without, (ex_env !"web"), 3, addr_out, [!"h3"].
  destruct out_closed as [H1 H2]. split; [exact H1|]. split; [exact H2|].
  split; vm_compute; reflexivity.
Qed.
Print Assumptions C107_hidden_quic_refuted.

(** C107.  Only a client that is denied access hears a code other than 0. *)
Theorem C107_quic_codes : forall p p' e n r cps code msg,
  quic_heard (handle_quic p p' e n r cps) = HandshakeThen code msg ->
  (code = 4098%N /\ msg = !"access denied" /\ handle_quic p p' e n r cps = QDenied) \/
  (code = 0%N /\ msg = !"done" /\ handle_quic p p' e n r cps <> QDenied).
Proof.
  intros p p' e n r cps code msg H. destruct (handle_quic p p' e n r cps); cbn in H; try discriminate H; injection H as <- <-;
    first [left; auto; fail|right; split; [reflexivity|split; [reflexivity|discriminate]]].
Qed.
Print Assumptions C107_quic_codes.

(** C107.  A QUIC client whose backends all shut down during its handshake is not
    told that its name is not recognised (code 0x1001): it hears code 0. *)
Theorem C107_quic_name_refuted : exists p p' e n r cps,
  n < maxOpen p' /\ (forall i, lists (backs p') i (hsName e) -> shut p' i = true) /\
  quic_heard (handle_quic p p' e n r cps) = HandshakeThen 0 !"done".
Proof.
  exists ex_p, {| backs := ex_bes; shut := fun _ => true; defName := []; maxOpen := 10 |},
    (ex_env !"www"), 3, addr10, [!"h3"].
  split; [cbn; lia|]. split; [reflexivity|]. vm_compute. reflexivity.
Qed.
Print Assumptions C107_quic_name_refuted.

(** All the answers occur. *)
Example C107_example :
  map ascii_of_N [21; 3; 3; 0; 2; 2; 112]%N = fst (first_answer ex_p true true 3 addr10 (Ok (mkHello !"zzz" [!"h2"]))) /\
  first_answer ex_p true true 3 addr_out (Ok (mkHello !"web" [!"h2"])) = (send_unrecognized_name, Closed) /\
  first_answer ex_p true true 10 addr10 (Ok (mkHello !"web" [!"h2"])) = (send_close_notify, Closed) /\
  first_answer ex_p true false 3 addr10 (Ok (mkHello !"raw" [!"h2"])) = (send_internal_error, Closed) /\
  first_answer ex_p true true 3 addr10 (Ok (mkHello !"raw" [!"acme-tls/1"])) = ([], Bridged 2) /\
  first_answer ex_p true true 3 addr10 (Ok (mkHello !"www" [!"imap"])) = ([], TlsWith 1) /\
  first_answer ex_p true true 3 addr10 (Ok (mkHello [] [!"acme-tls/1"])) = ([], TlsWith 0) /\
  first_answer ex_p true true 3 addr10 Err = ([], Closed).
Proof. vm_compute. repeat split. Qed.
(** The hypotheses of C107_unrecognized, C107_internal and C107_hidden_partial are met. *)
Example C107_example_hypotheses :
  check_config true (fun s => s) ex_rs = Some (backs ex_p) /\
  closed_to ex_p addr_out (requested_name ex_p (mkHello [] [!"h2"])) /\ ~ acme_only (mkHello [] [!"h2"]).
Proof.
  split; [vm_compute; reflexivity|]. split; [exact (proj1 out_closed)|]. intros [X _]. discriminate.
Qed.
