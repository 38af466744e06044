(** C100: keys that are made in the browser end up with their certificate in a file that only
    the password opens. *)
From Verif Require Import Base XfccModel OcspGetModel AuthorityModel KeygenModel KeygenSpec KeygenProofs.
From Verif Require PkiModel PkiWebModel.
Open Scope nat_scope.

(** What is typed into the form is what the code in the worker reads, whatever the
    characters. *)
Theorem C100_form_round_trip : forall fields, parse_query (form_body fields) = Some fields.
Proof. exact parse_form. Qed.
Print Assumptions C100_form_round_trip.
Example C100_form_case :
  form_body [(lit "password", lit "a+b&c=d; %é"); (lit "label", [])] = lit "password=a%2Bb%26c%3Dd%3B+%25%C3%A9&label=" /\
  parse_query (lit "password=a%2Bb%26c%3Dd%3B+%25%C3%A9&label=") = Some [(lit "password", lit "a+b&c=d; %é"); (lit "label", [])] /\
  parse_query (lit "password=a;b") = None /\ parse_query (lit "password=%2") = None.
Proof. vm_compute. repeat split; reflexivity. Qed.

(** The page does not submit short passwords, or ones that were typed differently. *)
Theorem C100_passwords_checked : forall pw1 pw2 format keytype label dns f,
  page_form pw1 pw2 format keytype label dns = Some f -> 6 <= List.length pw1 /\ pw1 = pw2 /\ value f (lit "password") = pw1.
Proof.
  intros pw1 pw2 format keytype label dns f H. unfold page_form in H. destruct (List.length pw1 <? 6) eqn:L; [discriminate|]. apply Nat.ltb_ge in L.
  destruct (str_eqb pw1 pw2) eqn:E; [|discriminate]. apply str_eqb_spec in E. subst pw2. injection H as <-. auto.
Qed.
Print Assumptions C100_passwords_checked.

(** The names in the field are those between commas and white space. *)
Theorem C100_names : forall dns, listed dns (names_of dns).
Proof. exact names_listed. Qed.
Print Assumptions C100_names.
Example C100_names_case : names_of (lit " a.example.com,b.example.com ,, c.d ") = [lit "a.example.com"; lit "b.example.com"; lit "c.d"].
Proof. reflexivity. Qed.

Lemma hex_serial : forall b, XfccModel.hex b = PkiWebModel.without_colons (PkiModel.bytes_to_hex b).
Proof.
  assert (D : forall n, (n < 16)%N -> Ascii.eqb (PkiModel.hex_digit n) ":" = false /\ XfccModel.hex_digit false n = PkiModel.hex_digit n).
  { intros n L. assert (X : In n [0;1;2;3;4;5;6;7;8;9;10;11;12;13;14;15]%N) by (cbn; lia). cbn [In] in X. repeat destruct X as [<-|X]; try (split; reflexivity). destruct X. }
  assert (H2 : forall c, (N_of_ascii c / 16 < 16)%N /\ (N_of_ascii c mod 16 < 16)%N).
  { intros c. assert (N_of_ascii c < 256)%N by apply N_ascii_bounded. split; [apply N.div_lt_upper_bound; lia|apply N.mod_lt; lia]. }
  assert (W : forall c, PkiWebModel.without_colons (PkiModel.hex2 c) = PkiModel.hex2 c /\
     PkiModel.hex2 c = [XfccModel.hex_digit false (N_of_ascii c / 16); XfccModel.hex_digit false (N_of_ascii c mod 16)]).
  { intros c. destruct (H2 c) as [A B]. destruct (D _ A) as [A1 A2]. destruct (D _ B) as [B1 B2]. unfold PkiModel.hex2, PkiWebModel.without_colons. cbn [filter].
    rewrite A1, B1. cbn [negb]. rewrite A2, B2. auto. }
  intros b. unfold PkiModel.bytes_to_hex, XfccModel.hex. induction b as [|c b IH]; [reflexivity|].
  cbn [map List.concat]. rewrite IH. destruct (W c) as [W1 W2]. destruct b as [|d b].
  - cbn [map join]. rewrite W1, W2. reflexivity.
  - cbn [map]. rewrite (join_cons ":" (PkiModel.hex2 c)) by discriminate. unfold PkiWebModel.without_colons. rewrite filter_app. cbn [filter].
    change (Ascii.eqb ":" ":") with true. cbn [negb]. fold (PkiWebModel.without_colons (PkiModel.hex2 c)). rewrite W1, W2. reflexivity.
Qed.

(** What a user of the page gets, for every password, label and list of names: a request for
    a certificate with that key, label and names, and, when the certificate comes, a file
    with the key and the certificate that the password opens.  Nothing is kept. *)
Theorem C100_page : forall pw format keytype a label dns fields r pub rp c,
  page_form pw pw format keytype label dns = Some fields ->
  In format page_formats -> In (keytype, a) page_types -> ia5 dns = true ->
  rp_ok rp = true -> rp_cert rp = Some c ->
  exists names d,
    listed dns names /\ file_for format {| k_alg := a; k_pub := pub |} rp c pw d /\
    run start [Post r; Body r (form_body fields) pub; Reply r rp] =
      Some ({| w_count := 1; w_keys := []; w_reqs := [] |},
        [Quiet;
         Sent (Some {| PkiModel.cs_pub := pub; PkiModel.cs_cn := label; PkiModel.cs_emails := [];
                       PkiModel.cs_dns := names; PkiModel.cs_ips := []; PkiModel.cs_uris := [] |});
         Got (Some d)]).
Proof.
  intros pw format keytype a label dns fields r pub rp c P F T N Ok C. exists (names_of dns).
  destruct (C100_passwords_checked _ _ _ _ _ _ _ P) as [L _]. assert (P' := P). unfold page_form in P'.
  destruct (_ || _); [discriminate|]. injection P' as Pf.
  assert (V : value fields (lit "password") = pw /\ value fields (lit "format") = format /\ value fields (lit "keytype") = keytype /\
    value fields (lit "label") = label /\ value fields (lit "dnsname") = dns) by (subst fields; repeat split; reflexivity).
  destruct V as [V1 [V2 [V3 [V4 V5]]]].
  assert (Np : str_eqb pw [] = false) by (destruct pw; [cbn in L; lia|reflexivity]).
  assert (Nf : str_eqb format [] = false) by (destruct F as [<-|[<-|[]]]; reflexivity).
  assert (Nt : str_eqb keytype [] = false /\ generate_key keytype = Some a).
  { unfold page_types in T. cbn [In] in T. repeat destruct T as [T|T]; try (injection T as <- <-; split; reflexivity). destruct T. }
  destruct Nt as [Nt G]. cbn [run step start w_reqs w_keys w_count get put del filter].
  rewrite Nat.eqb_refl. unfold make_csr. rewrite parse_form. cbv zeta. rewrite V1, V2, V3, V4, V5, Np, Nf, Nt, G, (names_ia5 dns N).
  cbn [run step w_reqs w_keys w_count get put del filter fst negb]. rewrite !Nat.eqb_refl. cbn [negb]. rewrite Ok. unfold make_response. rewrite C. cbv zeta.
  cbn [get put del filter Nat.eqb kd_format kd_password kd_key fst negb].
  destruct F as [<-|[<-|[]]]; cbn [str_eqb]; eexists; (split; [apply names_listed|]).
  - change (str_eqb (lit "gpg") (lit "gpg")) with true. cbn match. split; [|reflexivity]. split; [reflexivity|]. left.
    cbn [dl_content dl_type dl_name]. rewrite hex_serial. repeat split; reflexivity.
  - change (str_eqb (lit "p12") (lit "gpg")) with false. change (str_eqb (lit "p12") (lit "p12")) with true. cbn match. split; [|reflexivity]. split; [reflexivity|]. right.
    cbn [dl_content dl_type dl_name]. rewrite hex_serial. repeat split; reflexivity.
Qed.
Print Assumptions C100_page.

(** A form that does not name a type or a format gets a key of P-256 in a GPG file. *)
Theorem C100_defaults : forall body f r pub rp c,
  parse_query body = Some f -> value f (lit "password") <> [] -> value f (lit "format") = [] -> value f (lit "keytype") = [] -> ia5 (value f (lit "dnsname")) = true ->
  rp_ok rp = true -> rp_cert rp = Some c ->
  exists sent d, file_for (lit "gpg") {| k_alg := EC 256; k_pub := pub |} rp c (value f (lit "password")) d /\
    run start [Post r; Body r body pub; Reply r rp] = Some ({| w_count := 1; w_keys := []; w_reqs := [] |}, [Quiet; Sent (Some sent); Got (Some d)]).
Proof.
  intros body f r pub rp c P Np F K N Ok C.
  apply str_eqb_neq in Np. cbn [run step start w_reqs w_keys w_count get put del filter].
  rewrite Nat.eqb_refl. unfold make_csr. rewrite P. cbv zeta. rewrite F, K, Np. change (str_eqb [] []) with true. cbv iota. change (generate_key (lit "ecdsa-p256")) with (Some (EC 256)). cbv iota. rewrite (names_ia5 _ N).
  cbn [run step w_reqs w_keys w_count get put del filter fst negb]. rewrite !Nat.eqb_refl. cbn [negb]. rewrite Ok. unfold make_response. rewrite C. cbv zeta.
  cbn [get put del filter Nat.eqb kd_format kd_password kd_key fst negb]. change (str_eqb (lit "gpg") (lit "gpg")) with true. cbn match.
  eexists. eexists. split; [|reflexivity]. split; [reflexivity|]. left. cbn [dl_content dl_type dl_name]. rewrite hex_serial. repeat split; reflexivity.
Qed.
Print Assumptions C100_defaults.
Example C100_defaults_case : exists f, parse_query (lit "password=secret") = Some f /\ value f (lit "format") = [] /\ value f (lit "keytype") = [].
Proof. eexists. split; [vm_compute; reflexivity|]. split; reflexivity. Qed.

(** The certificate that this authority issues for that request is the one for the key, and
    for the user. *)
Theorem C100_certificate_for_the_key : forall pub label names email sn now,
  let sent := {| PkiModel.cs_pub := pub; PkiModel.cs_cn := label; PkiModel.cs_emails := [];
                 PkiModel.cs_dns := names; PkiModel.cs_ips := []; PkiModel.cs_uris := [] |} in
  exists cr, PkiModel.request_cert {| PkiModel.w_claims := Some (Some email); PkiModel.w_method := lit "POST"; PkiModel.w_csrf := lit "1";
      PkiModel.w_content_type := lit "application/x-pem-file"; PkiModel.w_admin := []; PkiModel.w_sn := []; PkiModel.w_csr := Some sent |} = Some cr /\
    let c := PkiModel.issued_cert cr sn now in
    PkiModel.xc_pub c = pub /\ PkiModel.xc_emails c = [email] /\ PkiModel.xc_dns c = names /\
    PkiModel.xc_cn c = (if str_eqb label [] then email else email ++ lit "::" ++ label).
Proof. intros pub label names email sn now. eexists. split; [reflexivity|]. cbn. repeat split. destruct label; reflexivity. Qed.
Print Assumptions C100_certificate_for_the_key.

(** However many forms are submitted at the same time, each gets what it would get alone. *)
Theorem C100_isolated : forall h1 r body pub h2 w out rp wa c d,
  run start (h1 ++ Body r body pub :: h2) = Some (w, out) -> Forall (of_others r) h2 ->
  run start [Post r; Body r body pub; Reply r rp] = Some (wa, [Quiet; Sent c; Got d]) ->
  (exists w1 w2 o, run start h1 = Some (w1, o) /\ step w1 (Body r body pub) = Some (w2, Sent c)) /\
  exists w', step w (Reply r rp) = Some (w', Got d).
Proof.
  intros h1 r body pub h2 w out rp wa c d H O A. destruct (alone_run r body pub rp) as [w0 A0]. rewrite A0 in A. injection A as _ <- <-.
  apply (isolated h1 r body pub h2 w out rp H O).
Qed.
Print Assumptions C100_isolated.

(** Two forms at once: the answers come in the other order. *)
Definition some_cert (pub : str) (sn : N) : PkiModel.xcert :=
  PkiModel.issued_cert {| PkiModel.cs_pub := pub; PkiModel.cs_cn := []; PkiModel.cs_emails := []; PkiModel.cs_dns := []; PkiModel.cs_ips := []; PkiModel.cs_uris := [] |} sn 0.
Definition granted (pub : str) (sn : N) : reply := {| rp_ok := true; rp_text := []; rp_cert := Some (some_cert pub sn) |}.
Definition refused : reply := {| rp_ok := false; rp_text := []; rp_cert := None |}.
Example C100_two_at_once : exists w o1 o2 o3 o4 d2 d1,
  run start [Post 1; Post 2; Body 2 (lit "password=second&format=p12") (lit "K2"); Body 1 (lit "password=first1") (lit "K1"); Reply 2 (granted (lit "K2") 300); Reply 1 (granted (lit "K1") 10)]
    = Some (w, [o1; o2; o3; o4; Got (Some d2); Got (Some d1)]) /\
  dl_password d2 = lit "second" /\ dl_content d2 = P12 {| k_alg := EC 256; k_pub := lit "K2" |} (some_cert (lit "K2") 300) /\ dl_name d2 = lit "012c.p12" /\
  dl_password d1 = lit "first1" /\ dl_content d1 = Gpg {| k_alg := EC 256; k_pub := lit "K1" |} [] /\ dl_name d1 = lit "0a.pem.gpg" /\ w_keys w = [].
Proof. eexists. eexists. eexists. eexists. eexists. eexists. eexists. vm_compute. repeat split; reflexivity. Qed.

(** *** The password *)
Section Passwords.
Definition alike (a b : nat * data) : Prop := fst a = fst b /\ kd_key (snd a) = kd_key (snd b) /\ kd_format (snd a) = kd_format (snd b).
Lemma alike_get : forall ks ks', Forall2 alike ks ks' -> forall n,
  match get n ks, get n ks' with Some d, Some d' => kd_key d = kd_key d' /\ kd_format d = kd_format d' | None, None => True | _, _ => False end.
Proof.
  intros ks ks' H n. induction H as [|[i d] [j d'] ks ks' [A [B C]] H IH]; cbn [get]; [exact I|]. cbn [fst snd] in *. subst j. destruct (n =? i); auto.
Qed.
Lemma alike_del : forall ks ks' n, Forall2 alike ks ks' -> Forall2 alike (del n ks) (del n ks').
Proof.
  intros ks ks' n H. induction H as [|a b ks ks' A H IH]; cbn [del filter]; [constructor|]. destruct A as [A B]. rewrite <- A. destruct (negb (n =? fst a)); [|exact IH].
  constructor; [split; [exact A|exact B]|exact IH].
Qed.
Lemma alike_csr : forall ks ks' n b b' pub, Forall2 alike ks ks' -> b = b' \/ differ_in_password b b' ->
  Forall2 alike (fst (make_csr ks n b pub)) (fst (make_csr ks' n b' pub)) /\ snd (make_csr ks n b pub) = snd (make_csr ks' n b' pub).
Proof.
  intros ks ks' n b b' pub H D.
  assert (X : exists o o', parse_query b = o /\ parse_query b' = o' /\ match o, o' with
     | Some f, Some f' => str_eqb (value f (lit "password")) [] = str_eqb (value f' (lit "password")) [] /\ forall k, k <> lit "password" -> value f k = value f' k
     | None, None => True | _, _ => False end).
  { destruct D as [<-|[f [f' [A [B [C [C' E]]]]]]].
    - exists (parse_query b), (parse_query b). destruct (parse_query b); auto.
    - exists (Some f), (Some f'). repeat split; auto. destruct (value f (lit "password")); [congruence|]. destruct (value f' (lit "password")); [congruence|]. reflexivity. }
  destruct X as [o [o' [E [E' X]]]]. unfold make_csr. rewrite E, E'. destruct o as [f|], o' as [f'|]; try (destruct X; fail); [|auto].
  destruct X as [X1 X2]. cbv zeta. rewrite X1. rewrite !(X2 (lit "keytype")), !(X2 (lit "format")), !(X2 (lit "dnsname")), !(X2 (lit "label")) by discriminate.
  destruct (str_eqb (value f' (lit "password")) []); [auto|]. destruct (generate_key _); [|auto]. destruct (forallb ia5 _); cbn [fst snd]; (split; [|reflexivity]);
    (constructor; [repeat split; reflexivity|apply alike_del; exact H]).
Qed.
Lemma alike_response : forall ks ks' n rp, Forall2 alike ks ks' -> Forall2 alike (fst (make_response ks n rp)) (fst (make_response ks' n rp)).
Proof.
  intros ks ks' n rp H. unfold make_response. destruct (rp_cert rp); [|exact H]. cbv zeta. pose proof (alike_get ks ks' H n) as G.
  destruct (get n ks) as [d|], (get n ks') as [d'|]; try (destruct G; fail); [|exact H]. destruct G as [_ G]. rewrite G.
  destruct (str_eqb (kd_format d') (lit "gpg")); [|destruct (str_eqb _ _)]; cbn [fst]; apply alike_del; exact H.
Qed.
Lemma alike_run : forall h h' ks ks' n rq w out, same_but_passwords h h' -> Forall2 alike ks ks' ->
  run {| w_count := n; w_keys := ks; w_reqs := rq |} h = Some (w, out) ->
  exists w' out', run {| w_count := n; w_keys := ks'; w_reqs := rq |} h' = Some (w', out') /\ sent out' = sent out.
Proof.
  intros h h' ks ks' n rq w out H. revert ks ks' n rq w out. induction H as [|e e' h h' E H IH]; intros ks ks' n rq w out K R.
  - injection R as <- <-. eexists. exists []. split; reflexivity.
  - assert (S : forall w1 x, step {| w_count := n; w_keys := ks; w_reqs := rq |} e = Some (w1, x) ->
      exists w1' x', step {| w_count := n; w_keys := ks'; w_reqs := rq |} e' = Some (w1', x') /\ sent [x'] = sent [x] /\
        w_count w1' = w_count w1 /\ w_reqs w1' = w_reqs w1 /\ Forall2 alike (w_keys w1) (w_keys w1')).
    { intros w1 x S.
      assert (Eb : forall r b pub, e = Body r b pub -> exists b', e' = Body r b' pub /\ (b = b' \/ differ_in_password b b')).
      { intros r b pub ->. destruct E as [<-|[r' [b0 [b' [p [E1 [E2 E3]]]]]]]; [exists b; auto|]. injection E1 as <- <- <-. exists b'. auto. }
      assert (Ee : match e with Body _ _ _ => True | _ => e = e' end).
      { destruct E as [<-|[r' [b0 [b' [p [-> _]]]]]]; [destruct e; auto|exact I]. }
      destruct e as [r|r b pub|r rp|]; cbn [step w_reqs w_keys w_count] in S.
      - subst e'. cbn [step w_reqs w_keys w_count]. destruct (get r rq); [discriminate|]. injection S as <- <-. eexists. eexists. split; [reflexivity|]. auto.
      - destruct (Eb r b pub eq_refl) as [b' [-> B]]. cbn [step w_reqs w_keys w_count]. destruct (get r rq) as [[m|m]|]; try discriminate.
        destruct (alike_csr ks ks' m b b' pub K B) as [A1 A2]. destruct (make_csr ks m b pub) as [k1 c1]. destruct (make_csr ks' m b' pub) as [k2 c2]. cbn [fst snd] in *. subst c2.
        injection S as <- <-. eexists. eexists. split; [reflexivity|]. auto.
      - subst e'. cbn [step w_reqs w_keys w_count]. destruct (get r rq) as [[m|m]|]; try discriminate. destruct (rp_ok rp).
        + pose proof (alike_response ks ks' m rp K) as A. destruct (make_response ks m rp) as [k1 d1]. destruct (make_response ks' m rp) as [k2 d2]. cbn [fst] in A.
          injection S as <- <-. eexists. eexists. split; [reflexivity|]. auto.
        + injection S as <- <-. eexists. eexists. split; [reflexivity|]. auto.
      - subst e'. injection S as <- <-. eexists. eexists. split; [reflexivity|]. repeat split; try reflexivity. constructor. }
    cbn [run] in R. destruct (step _ e) as [[w1 x]|]; [|discriminate]. destruct (S w1 x eq_refl) as [w1' [x' [S1 [S2 [S3 [S4 S5]]]]]].
    destruct (run w1 h) as [[w2 o]|] eqn:F; [|discriminate]. injection R as <- <-. destruct w1 as [n1 k1 q1], w1' as [n2 k2 q2]. cbn [w_count w_keys w_reqs] in *. subst n2 q2.
    destruct (IH k1 k2 n1 q1 w2 o S5 F) as [w3 [o3 [R3 S6]]]. cbn [run]. rewrite S1, R3. eexists. eexists. split; [reflexivity|].
    unfold sent in *. cbn [map List.concat] in *. rewrite !app_nil_r in S2. rewrite S2, S6. reflexivity.
Qed.
End Passwords.

(** Nothing that is sent to the server depends on the passwords. *)
Theorem C100_password_stays : forall h h' w out,
  same_but_passwords h h' -> run start h = Some (w, out) ->
  exists w' out', run start h' = Some (w', out') /\ sent out' = sent out.
Proof. intros h h' w out S R. apply (alike_run h h' [] [] 0 [] w out S); [constructor|exact R]. Qed.
Print Assumptions C100_password_stays.
Example C100_password_case : differ_in_password (lit "password=secret&label=x") (lit "label=x&password=another") /\
  exists w c, run start [Post 1; Body 1 (lit "password=secret&label=x") (lit "K")] = Some (w, [Quiet; Sent (Some c)]) /\ PkiModel.cs_cn c = lit "x".
Proof.
  split.
  - exists [(lit "password", lit "secret"); (lit "label", lit "x")], [(lit "label", lit "x"); (lit "password", lit "another")].
    split; [reflexivity|]. split; [reflexivity|]. split; [discriminate|]. split; [discriminate|].
    intros k N. unfold value. cbn [assoc]. destruct (str_eqb k (lit "password")) eqn:E; [apply str_eqb_spec in E; destruct (N E)|]. destruct (str_eqb k (lit "label")); reflexivity.
  - eexists. eexists. split; [vm_compute; reflexivity|reflexivity].
Qed.

(** *** What is kept *)

(** As long as the server grants every request, the worker keeps the keys of the requests in
    progress only.  Missing: C100_refused_key_kept_refuted. *)
Theorem C100_keys_forgotten_partial : forall h w out n d,
  run start h = Some (w, out) -> all_granted h -> get n (w_keys w) = Some d -> exists r, get r (w_reqs w) = Some (Waiting n).
Proof.
  intros h. induction h as [|e h IH] using rev_ind; intros w out n d R A G; [injection R as <- <-; discriminate|].
  destruct (run_app h [e] start w out R) as [w1 [o1 [o2 [R1 [R2 _]]]]]. assert (I := inv_run h start w1 o1 inv_start R1).
  assert (A1 : all_granted h) by (intros r rp X; apply (A r rp); apply in_or_app; left; exact X).
  specialize (IH w1 o1). cbn [run] in R2. destruct (step w1 e) as [[w2 x]|] eqn:S; [|discriminate]. injection R2 as <- <-.
  destruct e as [r|r body pub|r rp|]; cbn [step] in S.
  - destruct (get r (w_reqs w1)) eqn:Q; [discriminate|]. injection S as <- <-. cbn [w_keys w_reqs] in *. destruct (IH n d R1 A1 G) as [r' E]. exists r'. rewrite get_put.
    destruct (Nat.eqb_spec r r'); [congruence|exact E].
  - destruct (get r (w_reqs w1)) as [[m|m]|] eqn:Q; try discriminate. destruct (make_csr (w_keys w1) m body pub) as [ks c] eqn:M. injection S as <- <-. cbn [w_keys w_reqs] in *.
    destruct (make_csr_keys (w_keys w1) m body pub) as [_ [o [K _]]]. rewrite M in K. cbn [fst] in K. rewrite K in G.
    destruct (Nat.eqb_spec m n); [subst m; exists r; rewrite get_put, Nat.eqb_refl; reflexivity|].
    destruct (IH n d R1 A1 G) as [r' E]. exists r'. rewrite get_put. destruct (Nat.eqb_spec r r'); [congruence|exact E].
  - destruct (get r (w_reqs w1)) as [[m|m]|] eqn:Q; try discriminate. destruct (A r rp) as [Ok C]; [apply in_or_app; right; left; reflexivity|]. rewrite Ok in S.
    destruct (make_response (w_keys w1) m rp) as [ks x'] eqn:M. injection S as <- <-. cbn [w_keys w_reqs] in *.
    assert (N : n <> m). { intros ->. pose proof (make_response_gone (w_keys w1) m rp C) as X. rewrite M in X. cbn [fst] in X. congruence. }
    pose proof (make_response_keys (w_keys w1) m rp n N) as X. rewrite M in X. cbn [fst] in X. rewrite X in G.
    destruct (IH n d R1 A1 G) as [r' E]. exists r'. rewrite get_del. destruct (Nat.eqb_spec r r'); [congruence|exact E].
  - injection S as <- <-. discriminate G.
Qed.
Print Assumptions C100_keys_forgotten_partial.

(** When the server refuses, the key and the password stay in the worker. *)
Theorem C100_refused_key_kept_refuted : exists h w out n d,
  run start h = Some (w, out) /\ w_reqs w = [] /\ get n (w_keys w) = Some d /\ kd_password d = lit "secret".
Proof.
  exists [Post 1; Body 1 (lit "password=secret&dnsname=www.example.com") (lit "K"); Reply 1 refused].
  eexists. eexists. exists 1. eexists. split; [vm_compute; reflexivity|]. repeat split; reflexivity.
Qed.
Print Assumptions C100_refused_key_kept_refuted.

(** The format is looked at only after the certificate was issued: with one that is not on
    the page there is a certificate, and the key is lost. *)
Theorem C100_format_checked_late_refuted : exists h w out c,
  run start h = Some (w, [Quiet; Sent (Some c); out]) /\ out = Got None /\ w_keys w = [] /\
  exists r rp, In (Reply r rp) h /\ rp_ok rp = true /\ rp_cert rp = Some (some_cert (PkiModel.cs_pub c) 5).
Proof.
  exists [Post 1; Body 1 (lit "password=secret&format=P12") (lit "K"); Reply 1 (granted (lit "K") 5)].
  eexists. eexists. eexists. split; [vm_compute; reflexivity|]. split; [reflexivity|]. split; [reflexivity|].
  exists 1, (granted (lit "K") 5). split; [right; right; left; reflexivity|]. split; reflexivity.
Qed.
Print Assumptions C100_format_checked_late_refuted.

(** The worker does not look at whose key is in the certificate that comes back. *)
Theorem C100_other_certificate_refuted : exists h w o1 o2 d k c,
  run start h = Some (w, [o1; o2; Got (Some d)]) /\ dl_content d = P12 k c /\ PkiModel.xc_pub c <> k_pub k.
Proof.
  exists [Post 1; Body 1 (lit "password=secret&format=p12") (lit "K"); Reply 1 (granted (lit "other") 5)].
  eexists. eexists. eexists. eexists. eexists. eexists. split; [vm_compute; reflexivity|]. split; [reflexivity|discriminate].
Qed.
Print Assumptions C100_other_certificate_refuted.
