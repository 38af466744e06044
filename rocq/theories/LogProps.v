(** C95: the log. *)
From Coq Require Import Lia.
From Verif Require Import Base PathModel PathSpec PathProofs XfccModel OcspGetModel HttpModel LogModel LogSpec LogProofs.

(** When every entry is one line, the lines of the log are the entries, in order. *)
Theorem C95_lines_are_entries : forall l,
  Forall (fun x => one_line (fst x) /\ one_line (snd x)) l ->
  lines_of (log_file l) = map (fun x => fst x ++ snd x) l ++ [[]].
Proof. exact file_lines. Qed.
Print Assumptions C95_lines_are_entries.

(** The entries about connections are one line. *)
Theorem C95_connections_partial : forall verb d rest,
  ordinary d -> one_line verb -> one_line rest -> one_line (conn_entry verb d rest).
Proof.
  intros verb d rest O V R. unfold conn_entry. rewrite !ol_app. pose proof (desc_ol d O).
  assert (one_line (lit " ")) by ol_lit. tauto.
Qed.
Print Assumptions C95_connections_partial.

(** The entry of a request is one line, whatever the target, the query and the user
    agent, exactly if it does not show the decoded path or that has no newline. *)
Theorem C95_requests_partial : forall wide d origin method sent t ua callback page status res,
  printable wide -> ordinary d -> one_line origin -> one_line method -> one_line status ->
  parse_target sent = Some t ->
  (Forall one_line (request_log wide d origin method sent t ua callback page status res) <->
   (decoded callback res = true -> one_line (t_path t))).
Proof.
  intros wide d origin method sent t ua callback page status res W O Og M St P.
  pose proof (url_ol sent t origin P Og) as U. destruct (target_ol sent t P) as [Sn _].
  destruct res as [|p|h| | | | |r| |f]; cbn [request_log decoded];
    try (split; [intros _ X; discriminate|intros _; apply Forall_nil]);
    try (rewrite single, req_entry_ol; [|assumption|assumption|assumption|first [ol_lit|apply moved_status_ol]];
         split; [intros _ X; discriminate|intros _; assumption]).
  - rewrite single, req_entry_ol; [|assumption|assumption|assumption|apply moved_status_ol]. tauto.
  - rewrite single. destruct (callback h); rewrite endpoint_entry_ol; try assumption; try ol_lit; try apply ol_nil.
    + tauto.
    + split; [intros _ X; discriminate|intros _; assumption].
  - rewrite single, req_entry_ol; [|assumption|assumption|assumption|destruct page; ol_lit].
    split; [intros _ X; discriminate|intros _; assumption].
  - destruct r as [| | |p|f]; cbn [request_log decoded]; rewrite single, req_entry_ol; try assumption; try ol_lit; try apply moved_status_ol;
      try tauto. split; [intros _ X; discriminate|intros _; assumption].
  - rewrite single, prx_entry_ol by assumption. split; [intros _ X; discriminate|intros _; assumption].
Qed.
Print Assumptions C95_requests_partial.

(** Any client of a backend with files can write any line into the log. *)
Theorem C95_files_refuted : forall wide ev be d stamp ua host proto L,
  be_sso be = None -> be_handlers be = [] -> be_root be <> [] -> one_line L ->
  exists sent t,
    parse_target sent = Some t /\
    let r := {| rq_method := lit "POST"; rq_proto := proto; rq_host := host; rq_path := t_path t; rq_headers := [] |} in
    let log := request_log wide d [] (lit "POST") sent t ua (fun _ => false) false [] (local_only ev be r) in
    In L (lines_of (log_file (map (pair stamp) log))).
Proof.
  intros wide ev be d stamp ua host proto L S0 H0 R0 HL.
  exists (escape_path (slash :: nl :: L ++ [nl])). eexists. split; [apply parse_escaped|].
  cbv zeta. cbn [t_path]. unfold local_only. rewrite nobody. unfold local_and_authorize. rewrite H0. cbn [find existsb].
  unfold enforce. rewrite S0. cbn [rq_method rq_path]. unfold serve_static.
  destruct (be_root be) as [|c root]; [destruct (R0 eq_refl)|].
  change (negb (str_eqb (lit "POST") (lit "GET") || str_eqb (lit "POST") (lit "HEAD"))) with true. cbv iota.
  cbn [request_log map t_path]. unfold log_file. cbn [map List.concat fst snd]. rewrite app_nil_r.
  unfold req_entry.
  set (a := lit "REQ " ++ conn_desc d ++ arrow ++ lit "POST" ++ lit " " ++ [slash]).
  set (b := arrow ++ lit "status:" ++ lit "405" ++ lit " (" ++ quoted wide (user_agent ua) ++ lit ")").
  replace (lit "REQ " ++ conn_desc d ++ arrow ++ lit "POST" ++ lit " " ++ (slash :: nl :: L ++ [nl]) ++ b)
    with (a ++ nl :: L ++ nl :: b).
  - apply line_of_output. exact HL.
  - unfold a. rewrite <- !app_assoc. cbn [app]. rewrite <- !app_assoc. reflexivity.
Qed.
Print Assumptions C95_files_refuted.

(** Anybody can write any line into the log of a backend with an endpoint that needs no
    login; every backend with single sign-on has some, /.sso/login for one. *)
Theorem C95_endpoints_refuted : forall wide ev be cn d stamp ua host proto h q L,
  find (handler_matches (host_from_req host) (slash :: q)) (be_handlers be) = Some h ->
  lh_bypass h = true -> pathClean (slash :: q) = slash :: q -> one_line L ->
  exists sent t,
    parse_target sent = Some t /\
    let r := {| rq_method := lit "GET"; rq_proto := proto; rq_host := host; rq_path := t_path t; rq_headers := [] |} in
    let log := request_log wide d [] (lit "GET") sent t ua (fun _ => false) false [] (reverse_proxy ev be cn r) in
    In L (lines_of (log_file (map (pair stamp) log))).
Proof.
  intros wide ev be cn d stamp ua host proto h q L F By Cl HL.
  destruct (lead_back (nl :: L ++ [nl]) q) as [n Hn]. rewrite Cl in Hn.
  set (p := (slash :: nl :: L ++ [nl]) ++ ups n ++ slash :: q) in *.
  assert (Pp : p = slash :: nl :: (L ++ [nl]) ++ ups n ++ slash :: q) by reflexivity.
  exists (escape_path p). eexists. split; [rewrite Pp; apply parse_escaped|].
  cbv zeta. cbn [t_path]. rewrite <- Pp. unfold reverse_proxy. rewrite nobody. unfold local_and_authorize.
  cbn [rq_host rq_path]. rewrite Hn, F, By.
  replace (str_eqb (slash :: q) p) with false.
  2:{ symmetry. apply str_eqb_neq. intros E. assert (Q : one_line L) by exact HL.
      rewrite E in Hn. assert (Ls : List.length (slash :: q) = List.length p) by (rewrite E; reflexivity).
      unfold p in Ls. rewrite !app_length in Ls. cbn [List.length] in Ls. rewrite app_length in Ls. cbn [List.length] in Ls. lia. }
  cbn [request_log map t_path]. unfold log_file. cbn [map List.concat fst snd]. rewrite app_nil_r. rewrite Pp.
  unfold req_entry.
  set (a := lit "REQ " ++ conn_desc d ++ arrow ++ lit "GET" ++ lit " " ++ [slash]).
  set (b := arrow ++ lit "status:" ++ moved_status (lit "GET") ++ lit " (" ++ quoted wide (user_agent ua) ++ lit ")").
  replace (lit "REQ " ++ conn_desc d ++ arrow ++ lit "GET" ++ lit " " ++ (slash :: nl :: (L ++ [nl]) ++ ups n ++ slash :: q) ++ b)
    with (a ++ nl :: L ++ nl :: (ups n ++ slash :: q) ++ b).
  - apply line_of_output. exact HL.
  - unfold a. repeat (progress (rewrite <- ?app_assoc; cbn [app])). reflexivity.
Qed.
Print Assumptions C95_endpoints_refuted.

(** Each request has exactly one entry, which shows the connection, the method and the
    target in one of three forms: as sent, as the client meant it, or in full.  Missing:
    three kinds of answers. *)
Theorem C95_every_request_partial : forall wide d origin method sent t ua callback page status res,
  unrecorded res = false ->
  exists verb shown rest,
    request_log wide d origin method sent t ua callback page status res =
      [verb ++ conn_desc d ++ arrow ++ method ++ lit " " ++ shown ++ rest] /\
    (verb = lit "REQ " \/ verb = lit "PRX ") /\
    (shown = sent \/ shown = t_path t \/ shown = url_string origin t) /\
    ((exists f, res = Forward f) <-> verb = lit "PRX ").
Proof.
  assert (X : forall (r : result) (P : Prop), (forall f, r <> Forward f) -> ((exists f, r = Forward f) <-> lit "REQ " = lit "PRX ")).
  { intros r _ N. split; [intros [f E]; destruct (N f E)|intros E; vm_compute in E; discriminate]. }
  intros wide d origin method sent t ua callback page status res U.
  destruct res as [|p|h| | | | |r| |f]; try discriminate U; cbn [request_log].
  all: try (unfold req_entry; do 3 eexists; split; [reflexivity|];
            split; [now left|]; split; [tauto|]; apply (X _ True); intros; discriminate).
  - destruct (callback h); unfold endpoint_entry; do 3 eexists; (split; [reflexivity|];
            split; [now left|]; split; [tauto|]; apply (X _ True); intros; discriminate).
  - destruct r; unfold req_entry; do 3 eexists; (split; [reflexivity|];
            split; [now left|]; split; [tauto|]; apply (X _ True); intros; discriminate).
  - unfold prx_entry. do 3 eexists. split; [reflexivity|]. split; [now right|]. split; [tauto|].
    split; [reflexivity|]. intros _. now exists f.
Qed.
Print Assumptions C95_every_request_partial.

(** The entry ends with the status of the answer and the user agent, in quotes. *)
Theorem C95_shows_the_status : forall wide d origin method sent t ua callback page status res,
  (forall code, answer_status method page res = Some code ->
   exists a sso, request_log wide d origin method sent t ua callback page status res =
     [a ++ lit "status:" ++ code ++ sso ++ lit " (" ++ quoted wide (user_agent ua) ++ lit ")"] /\
     (sso = [] \/ sso = lit " (SSO)")) /\
  (forall f, res = Forward f ->
   exists a, request_log wide d origin method sent t ua callback page status res =
     [a ++ lit "status:" ++ status ++ lit " (" ++ quoted wide (user_agent ua) ++ lit ")"]).
Proof.
  intros wide d origin method sent t ua callback page status res. split.
  - assert (E : forall u code sso, req_entry wide d method u (code ++ sso) ua =
      (lit "REQ " ++ conn_desc d ++ arrow ++ method ++ lit " " ++ u ++ arrow)
      ++ lit "status:" ++ code ++ sso ++ lit " (" ++ quoted wide (user_agent ua) ++ lit ")").
    { intros. unfold req_entry. repeat rewrite <- app_assoc. reflexivity. }
    assert (D : forall u code, exists a sso, [req_entry wide d method u code ua] =
      [a ++ lit "status:" ++ code ++ sso ++ lit " (" ++ quoted wide (user_agent ua) ++ lit ")"] /\ (sso = [] \/ sso = lit " (SSO)")).
    { intros u code. eexists _, []. split; [|now left]. rewrite <- (E u code []). rewrite app_nil_r. reflexivity. }
    assert (D2 : forall u code, exists a sso, [req_entry wide d method u (code ++ lit " (SSO)") ua] =
      [a ++ lit "status:" ++ code ++ sso ++ lit " (" ++ quoted wide (user_agent ua) ++ lit ")"] /\ (sso = [] \/ sso = lit " (SSO)")).
    { intros u code. eexists _, (lit " (SSO)"). split; [|now right]. rewrite <- (E u code (lit " (SSO)")). reflexivity. }
    assert (Mv : forall code, (if mem method [lit "GET"; lit "HEAD"] then Some (lit "301") else Some (lit "303")) = Some code ->
      moved_status method = code).
    { intros code. unfold moved_status, mem. cbn [existsb]. rewrite orb_false_r.
      destruct (str_eqb method (lit "GET") || str_eqb method (lit "HEAD")); intros X; injection X as <-; reflexivity. }
    intros code A. destruct res as [|p|h| | | | |r| |f]; cbn [answer_status request_log] in *; try discriminate A.
    + apply Mv in A. rewrite A. exact (D _ _).
    + injection A as <-. change (lit "403 (SSO)") with (lit "403" ++ lit " (SSO)"). exact (D2 _ _).
    + destruct page; injection A as <-.
      * change (lit "403 (SSO)") with (lit "403" ++ lit " (SSO)"). exact (D2 _ _).
      * change (lit "302 (SSO)") with (lit "302" ++ lit " (SSO)"). exact (D2 _ _).
    + injection A as <-. change (lit "403 (SSO)") with (lit "403" ++ lit " (SSO)"). exact (D2 _ _).
    + destruct r; try (injection A as <-; exact (D _ _)). apply Mv in A. rewrite A. exact (D _ _).
  - intros f ->. cbn [request_log]. unfold prx_entry. generalize (url_string origin t). intros u.
    exists (lit "PRX " ++ conn_desc d ++ arrow ++ method ++ lit " " ++ u ++ arrow).
    repeat rewrite <- app_assoc. reflexivity.
Qed.
Print Assumptions C95_shows_the_status.

(** A request for a name that is not one of the backend leaves no trace. *)
Theorem C95_every_request_refuted : forall wide ev be cn d origin method sent t ua callback page status proto host,
  be_sso be = None -> be_handlers be = [] -> host <> [] -> ~ In (url_hostname host) (be_names be) ->
  let r := {| rq_method := method; rq_proto := proto; rq_host := host; rq_path := t_path t; rq_headers := [] |} in
  request_log wide d origin method sent t ua callback page status (reverse_proxy ev be cn r) = [].
Proof.
  intros wide ev be cn d origin method sent t ua callback page status proto host S0 H0 Hh N r.
  unfold r, reverse_proxy. rewrite nobody. unfold local_and_authorize. rewrite H0. cbn [find existsb].
  unfold enforce. rewrite S0. unfold forward. cbn [rq_host].
  replace (str_eqb host []) with false by (symmetry; apply str_eqb_neq; exact Hh).
  replace (mem (url_hostname host) (be_names be)) with false.
  - reflexivity.
  - symmetry. destruct (mem (url_hostname host) (be_names be)) eqn:E; [|reflexivity].
    apply mem_spec in E. destruct (N E).
Qed.
Print Assumptions C95_every_request_refuted.

(** Where the URL is shown, it is what was sent, if that is well encoded; otherwise it is
    the same path in another encoding. *)
Theorem C95_url_is_true : forall origin sent t, parse_target sent = Some t ->
  ((forall c, In c (t_raw t) -> In c url_characters) -> url_string origin t = origin ++ sent) /\
  percent_decode (escaped_path t) = Some (t_path t).
Proof.
  intros origin sent t H. destruct (url_true origin sent t H) as [A B]. split; [|exact B]. intros V. apply A.
  apply forallb_forall. intros c I. specialize (V c I). clear -V. cbn in V. repeat (destruct V as [<-|V]; [reflexivity|]). destruct V.
Qed.
Print Assumptions C95_url_is_true.

(** There are no control characters in it. *)
Theorem C95_url_has_no_control_characters : forall sent t c, parse_target sent = Some t ->
  In c (url_string [] t) -> ~ control c.
Proof. exact url_no_control. Qed.
Print Assumptions C95_url_has_no_control_characters.

(** Quoted like this: control characters by these names, two characters with a backslash
    before them, all others as they are. *)
Theorem C95_quoted : forall c, (N_of_ascii c < 128)%N ->
  (forall i, nth_error control_names i = Some (quote_char c) -> N_of_ascii c = N.of_nat i \/ (i = 32%nat /\ N_of_ascii c = 127%N)) /\
  (control c -> In (quote_char c) control_names) /\
  (~ control c -> quote_char c = if has_char c (lit """\") then [backslash; c] else [c]).
Proof.
  intros c H. split; [|split].
  - intros i I. destruct c as [[] [] [] [] [] [] [] []]; vm_compute in H; try discriminate H;
    do 33 (destruct i as [|i]; [first [discriminate I | left; reflexivity | right; split; reflexivity]|]); destruct i; discriminate I.
  - intros K. destruct c as [[] [] [] [] [] [] [] []]; vm_compute in H; try discriminate H; try (exfalso; revert K; vm_compute; intuition discriminate);
    vm_compute; tauto.
  - intros K. destruct c as [[] [] [] [] [] [] [] []]; vm_compute in H; try discriminate H; try reflexivity; exfalso; apply K; first [right; reflexivity | left; vm_compute; discriminate].
Qed.
Print Assumptions C95_quoted.

(** The status and the user agent that an entry shows are those of the request. *)
Theorem C95_status_is_true : forall wide d1 m1 u1 st1 ua1 d2 m2 u2 st2 ua2,
  three st1 -> three st2 -> in_ascii ua1 -> in_ascii ua2 ->
  req_entry wide d1 m1 u1 st1 ua1 = req_entry wide d2 m2 u2 st2 ua2 ->
  st1 = st2 /\ user_agent ua1 = user_agent ua2.
Proof. exact entry_end. Qed.
Print Assumptions C95_status_is_true.

(** A user agent of up to 200 bytes is shown as it is, a longer one is cut and marked. *)
Theorem C95_user_agent : forall ua,
  (List.length ua <= 200 -> user_agent ua = ua)%nat /\
  (200 < List.length ua -> exists kept rest,
     ua = kept ++ rest /\ user_agent ua = kept ++ lit "..." /\ List.length (user_agent ua) = 200)%nat.
Proof.
  intros ua. unfold user_agent. destruct (200 <? List.length ua)%nat eqn:E.
  - apply Nat.ltb_lt in E. split; [lia|]. intros _. exists (firstn 197 ua), (skipn 197 ua).
    split; [symmetry; apply firstn_skipn|]. split; [reflexivity|]. rewrite app_length, firstn_length.
    change (List.length (lit "...")) with 3%nat. lia.
  - apply Nat.ltb_ge in E. split; [reflexivity|lia].
Qed.
Print Assumptions C95_user_agent.

(** So are the identities, when they have none of the characters around them. *)
Theorem C95_identities_partial : forall d1 d2 rest1 rest2,
  Forall distinct_name (identities d1) -> Forall distinct_name (identities d2) ->
  conn_desc d1 ++ rest1 = conn_desc d2 ++ rest2 -> identities d1 = identities d2.
Proof.
  intros d1 d2 x y N1 N2 H. unfold conn_desc in H. rewrite <- !app_assoc in H. apply (who_inj _ _ _ _ N1 N2 H).
Qed.
Print Assumptions C95_identities_partial.

(** But a certificate can make its holder look like a user who has logged in. *)
Theorem C95_identities_refuted : forall d user, exists c c',
  conn_desc (known_as d (Some c) (Some user)) = conn_desc (known_as d (Some c') None).
Proof.
  intros d user.
  exists {| n_subject := []; n_dns := [lit "host"]; n_emails := []; n_uris := [] |},
         {| n_subject := []; n_dns := [lit "host|" ++ user]; n_emails := []; n_uris := [] |}.
  reflexivity.
Qed.
Print Assumptions C95_identities_refuted.

(** And the names in a certificate, which are in ASCII, can write any line of ASCII. *)
Theorem C95_certificates_refuted : forall d stamp verb rest L, one_line L -> in_ascii L -> exists c,
  Forall in_ascii (n_dns c) /\ In L (lines_of (log_file [(stamp, conn_entry verb (known_as d (Some c) None) rest)])).
Proof.
  intros d stamp verb rest L HL HA.
  exists {| n_subject := []; n_dns := [nl :: L ++ [nl]]; n_emails := []; n_uris := [] |}. split.
  { repeat constructor. apply Forall_app. split; [exact HA|repeat constructor]. }
  unfold log_file. cbn [map List.concat fst snd]. rewrite app_nil_r. unfold conn_entry, conn_desc, who, identities.
  cbn [known_as d_cert d_user]. unfold cert_summary. cbn [n_subject n_dns n_emails n_uris map app].
  set (w := where_ _). clearbody w.
  match goal with |- context [output stamp (verb ++ lit " " ++ ?y ++ rest)] => set (x := y) end.
  assert (Ex : exists b, x = lit "[DNS:" ++ nl :: L ++ nl :: b).
  { exists (lit "] " ++ w). unfold x. cbn. repeat (progress (rewrite <- ?app_assoc; cbn [app])). reflexivity. }
  destruct Ex as [b ->].
  replace (verb ++ lit " " ++ (lit "[DNS:" ++ nl :: L ++ nl :: b) ++ rest)
    with ((verb ++ lit " " ++ lit "[DNS:") ++ nl :: L ++ nl :: (b ++ rest)).
  - apply line_of_output. exact HL.
  - rewrite <- !app_assoc. cbn [app]. rewrite <- !app_assoc. reflexivity.
Qed.
Print Assumptions C95_certificates_refuted.

(** A request that meets the hypotheses, its entry, and one with a forged line. *)
Definition x_desc : desc :=
  {| d_cert := Some {| n_subject := [[Known (lit "CN") (lit "bob, the builder")]]; n_dns := []; n_emails := [lit "bob@example.com"]; n_uris := [] |};
     d_user := Some (lit "alice@example.com"); d_remote := lit "tcp:192.0.2.1:5000"; d_via := None;
     d_name := lit "www.example.com"; d_mode := lit "HTTPS"; d_proto := lit "h2"; d_upgrade := []; d_internal := None |}.
Example C95_example :
  ordinary x_desc /\ Forall distinct_name (identities x_desc) /\ printable (fun _ => lit "?") /\
  (exists t, parse_target (lit "/a%0Ab?c=d") = Some t /\
   let log := request_log (fun _ => lit "?") x_desc [] (lit "GET") (lit "/a%0Ab?c=d") t (lit "curl ""8""")
                (fun _ => false) false [] in
   log (Static NotFound) =
   [lit "REQ [SUBJECT:CN=bob\, the builder;EMAIL:bob@example.com|alice@example.com] tcp:192.0.2.1:5000 ➔ www.example.com|HTTPS:h2 ➔ GET /a%0Ab?c=d ➔ status:404 (""curl \""8\"""")"] /\
   map (fun e => List.length (lines_of (output (lit "2026/11/16 12:00:00 ") e))) (log (Redirect (lit "/"))) = [3%nat]).
Proof.
  split. { split; [|split; [|repeat (split; [first [ol_lit|intros; discriminate]|]); intros; discriminate]].
           - intros c E. injection E as <-. split; [|split; [|split]]; repeat constructor; ol_lit.
           - intros u E. injection E as <-. ol_lit. }
  split. { repeat constructor; try discriminate; apply has_char_false; vm_compute; reflexivity. }
  split. { intros s. ol_lit. }
  eexists. split; [vm_compute; reflexivity|]. split; vm_compute; reflexivity.
Qed.
