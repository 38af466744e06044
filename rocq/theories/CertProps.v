(** Which certificate clients see, and when Let's Encrypt is asked for one. *)
From Coq Require Import Lia.
From Verif Require Import Base CertModel CertSpec CertProofs.
Local Open Scope nat_scope.

(** ** C85 *)

(** A well-formed pattern is matched exactly as documented. *)
Theorem C85_pattern_matching : forall p ts name, reads p ts -> ~ In "/"%char name ->
  (path_match p name = Ok true <-> matches ts name) /\ (path_match p name = Ok false <-> ~ matches ts name).
Proof.
  intros p ts name R N. destruct (path_match_ok p ts name R N) as (b & E & H). rewrite E.
  destruct b; split; split; intros; try discriminate; try reflexivity.
  - apply H. reflexivity.
  - exfalso. apply H0. apply H. reflexivity.
  - exfalso. apply H in H0. discriminate.
  - intros M. apply H in M. discriminate.
Qed.

(** A text that is not a pattern is an error, whatever the name. *)
Theorem C85_malformed_pattern : forall p name, (forall ts, ~ reads p ts) -> path_match p name = Err.
Proof. exact path_match_err. Qed.

Lemma name_fits_spec name v : ~ In "/"%char name ->
  (name_fits name v = true <-> v = name \/ exists ts, reads v ts /\ matches ts name).
Proof.
  intros N. unfold name_fits. destruct (str_eqb v name) eqn:E.
  { apply str_eqb_spec in E. cbn. tauto. }
  apply str_eqb_neq in E. cbn [orb]. destruct (reads_dec v) as [(ts & R)|R].
  - destruct (path_match_ok v ts name R N) as (b & -> & H). rewrite H. split; [eauto|].
    intros [?|(ts' & R' & M)]; [congruence|]. rewrite (reads_inj _ _ _ R R'). exact M.
  - rewrite (path_match_err v name R). split; [discriminate|]. intros [?|(ts & R' & _)]; [congruence|]. exfalso. exact (R _ R').
Qed.

Lemma is_for_spec name c : ~ In "/"%char name -> (existsb (name_fits name) (tc_names c) = true <-> is_for c name).
Proof.
  intros N. rewrite existsb_exists. unfold is_for. split; intros (v & I1 & H); exists v; (split; [exact I1|]);
    apply name_fits_spec in H || apply name_fits_spec; assumption.
Qed.

Lemma config_first e certs name c : ~ In "/"%char name -> first_for certs name c ->
  cert_from_config e certs name = match ce_load e (tc_file c) (tc_key c) with Some ch => Ok (Some ch) | None => Err end.
Proof.
  intros N (before & after & -> & F & B). induction before as [|c' before IH]; cbn [app cert_from_config].
  - apply is_for_spec in F; [|exact N]. rewrite F. reflexivity.
  - destruct (existsb (name_fits name) (tc_names c')) eqn:E.
    + exfalso. apply (B c'); [left; reflexivity|]. apply is_for_spec; assumption.
    + apply IH. intros x Hx. apply B. right; exact Hx.
Qed.

Lemma config_none e certs name : ~ In "/"%char name -> (forall c, In c certs -> ~ is_for c name) ->
  cert_from_config e certs name = Ok None.
Proof.
  intros N. induction certs as [|c certs IH]; intros H; cbn [cert_from_config]; [reflexivity|].
  destruct (existsb (name_fits name) (tc_names c)) eqn:E.
  - exfalso. apply (H c); [left; reflexivity|]. apply is_for_spec; assumption.
  - apply IH. intros x Hx. apply H. right; exact Hx.
Qed.

Lemma first_or_none certs name : ~ In "/"%char name ->
  (exists c, first_for certs name c) \/ (forall c, In c certs -> ~ is_for c name).
Proof.
  intros N. induction certs as [|c certs IH]; [right; intros c []|].
  destruct (existsb (name_fits name) (tc_names c)) eqn:E.
  - left. exists c, [], certs. split; [reflexivity|]. split; [apply is_for_spec; assumption|intros ? []].
  - assert (Nc : ~ is_for c name) by (intros H; apply is_for_spec in H; [congruence|exact N]).
    destruct IH as [(x & before & after & -> & F & B)|H].
    + left. exists x, (c :: before), after. split; [reflexivity|]. split; [exact F|]. intros y [<-|Hy]; auto.
    + right. intros y [<-|Hy]; auto.
Qed.

Lemma wanted cfg sni name : wanted_name cfg sni name ->
  (if str_eqb sni [] then cc_default_name cfg else sni) = name.
Proof.
  intros [[H ->]|[-> ->]]; [|reflexivity]. apply str_eqb_neq in H. rewrite H. reflexivity.
Qed.

(** A client that asks for a name that is listed in the configuration sees the
    certificate of the first entry for that name.  If it cannot be loaded, the
    handshake fails; Let's Encrypt is not asked either way. *)
Theorem C85_listed_certificate : forall e issue cfg m sni name c,
  wanted_name cfg sni name -> ~ In "/"%char name -> first_for (cc_certs cfg) name c ->
  get_certificate e issue cfg m sni =
    (m, match ce_load e (tc_file c) (tc_key c) with Some ch => Ok ch | None => Err end, false).
Proof.
  intros e issue cfg m sni name c W N F. unfold get_certificate. rewrite (wanted _ _ _ W).
  rewrite (config_first e _ name c N F). destruct (ce_load _ _ _); reflexivity.
Qed.

(** For any other name, the certificate is the one of the manager for exactly
    that name; the only thing that may be added to it is a staple, which is then
    what the OCSP cache has for this certificate and its issuer, and good. *)
Theorem C85_other_certificate : forall e issue cfg m m' sni name ch asked,
  wanted_name cfg sni name -> ~ In "/"%char name -> (forall c, In c (cc_certs cfg) -> ~ is_for c name) ->
  get_certificate e issue cfg m sni = (m', Ok ch, asked) ->
  (cm_autocert m = true -> cc_accept_tos cfg = true) /\
  exists ch0, (assoc name (cm_cache m) = Some ch0 \/ (assoc name (cm_cache m) = None /\ issue name = Some ch0)) /\
    ch_certs ch = ch_certs ch0 /\
    (ch_staple ch = ch_staple ch0 \/
     exists leaf issuer rest raw, ch_certs ch = leaf :: issuer :: rest /\ ce_ocsp e leaf issuer = Some (OGood, raw) /\
       ch_staple ch = Some raw).
Proof.
  intros e issue cfg m m' sni name ch asked W N H. unfold get_certificate. rewrite (wanted _ _ _ W), (config_none e _ name N H).
  destruct (negb (cc_accept_tos cfg) && cm_autocert m) eqn:T; [discriminate|].
  assert (A : cm_autocert m = true -> cc_accept_tos cfg = true).
  { intros A. rewrite A in T. destruct (cc_accept_tos cfg); [reflexivity|discriminate]. }
  assert (St : forall c0, with_staple e c0 = Ok ch -> ch_certs ch = ch_certs c0 /\
    (ch_staple ch = ch_staple c0 \/
     exists leaf issuer rest raw, ch_certs ch = leaf :: issuer :: rest /\ ce_ocsp e leaf issuer = Some (OGood, raw) /\
       ch_staple ch = Some raw)).
  { intros c0. unfold with_staple. destruct (ch_certs c0) as [|leaf [|issuer rest]] eqn:Ec;
      [intros [= <-]; auto|intros [= <-]; auto|].
    destruct (ce_parses e leaf && ce_parses e issuer); [|discriminate]. destruct (ce_ocsp e leaf issuer) as [[[] raw]|] eqn:O;
      intros [= <-]; auto. cbn. split; [reflexivity|]. right. exists leaf, issuer, rest, raw. auto. }
  unfold manager_get. destruct (assoc name (cm_cache m)) as [c0|] eqn:C.
  - intros E0. assert (E : with_staple e c0 = Ok ch) by congruence. split; [exact A|]. exists c0. destruct (St _ E). auto.
  - destruct (_ || _); [|discriminate]. destruct (issue name) as [c0|]; [|discriminate].
    intros E0. assert (E : with_staple e c0 = Ok ch) by congruence. split; [exact A|]. exists c0. destruct (St _ E). auto.
Qed.

(** And there is one, if the manager has one or can get one. *)
Theorem C85_other_certificate_available : forall e issue cfg m sni name ch0,
  wanted_name cfg sni name -> ~ In "/"%char name -> (forall c, In c (cc_certs cfg) -> ~ is_for c name) ->
  cc_accept_tos cfg = true ->
  (assoc name (cm_cache m) = Some ch0 \/
   (assoc name (cm_cache m) = None /\ (cm_account m = true \/ cm_prompt m = true) /\ issue name = Some ch0)) ->
  (forall x, In x (ch_certs ch0) -> ce_parses e x = true) ->
  exists m' ch asked, get_certificate e issue cfg m sni = (m', Ok ch, asked) /\ ch_certs ch = ch_certs ch0.
Proof.
  intros e issue cfg m sni name ch0 W N H T A P. unfold get_certificate. rewrite (wanted _ _ _ W), (config_none e _ name N H), T.
  cbn [negb andb].
  assert (St : exists ch, with_staple e ch0 = Ok ch /\ ch_certs ch = ch_certs ch0).
  { unfold with_staple. destruct (ch_certs ch0) as [|leaf [|issuer rest]] eqn:Ec; [eauto|eauto|].
    rewrite !P by (cbn; auto). cbn [andb]. destruct (ce_ocsp e leaf issuer) as [[[] raw]|]; eauto. }
  destruct St as (ch & Es & Ec). unfold manager_get. destruct A as [->|(-> & A & ->)].
  - rewrite Es. eauto 6.
  - replace (negb (cm_autocert m) || cm_account m || cm_prompt m) with true
      by (destruct A as [-> | ->]; destruct (cm_autocert m), (cm_account m); reflexivity).
    rewrite Es. eauto 6.
Qed.

(** *** What a user might expect, and what is not so *)

Definition no_world : cert_env := {| ce_load := fun f _ => Some {| ch_certs := [f]; ch_staple := None |};
  ce_parses := fun _ => true; ce_ocsp := fun _ _ => None |}.
Definition entry (v : str) : tls_cert := {| tc_names := [v]; tc_key := lit "k.pem"; tc_file := lit "c.pem" |}.
Definition ex_cfg (v : str) : cert_cfg := {| cc_certs := [entry v]; cc_accept_tos := true; cc_default_name := lit "www.example.com" |}.
Definition ex_issue (n : str) : option chain := Some {| ch_certs := [lit "LE for " ++ n; lit "issuer"]; ch_staple := None |}.
Definition ex_manager : manager := {| cm_autocert := true; cm_prompt := true; cm_account := true; cm_cache := [] |}.

(** An entry for a wildcard certificate is used for names that the certificate
    does not cover, for which Let's Encrypt would have been able to provide. *)
Theorem C85_wildcard_refuted : exists cfg name,
  cc_certs cfg = [entry (lit "*.example.com")] /\ cc_accept_tos cfg = true /\
  ~ wildcard_covers (lit "example.com") name /\
  get_certificate no_world ex_issue cfg ex_manager name =
    (ex_manager, Ok {| ch_certs := [lit "c.pem"]; ch_staple := None |}, false).
Proof.
  exists (ex_cfg (lit "*.example.com")), (lit "a.b.example.com"). split; [reflexivity|]. split; [reflexivity|]. split.
  - intros (label & Ne & Nd & E). destruct label as [|x1 [|x2 label]]; [congruence|discriminate|].
    injection E as <- <- E. apply Nd. right. left. reflexivity.
  - vm_compute. reflexivity.
Qed.

(** Server names of backends are normalised when the configuration is read
    (config.go:957); those of tlsCertificates are not.  The same name written in
    the same way in both places: clients get a certificate of Let's Encrypt. *)
Theorem C85_name_in_capitals_refuted : exists cfg v name,
  cc_certs cfg = [entry v] /\ name = to_lower v /\
  snd (get_certificate no_world ex_issue cfg ex_manager name) = true.
Proof.
  exists (ex_cfg (lit "WWW.example.com")), (lit "WWW.example.com"), (lit "www.example.com").
  split; [reflexivity|]. split; [reflexivity|]. vm_compute. reflexivity.
Qed.

(** A backend that asks for a client certificate never gets a listed one. *)
Theorem C85_client_certificate_refuted : exists cfg name c,
  first_for (cc_certs cfg) name c /\ ce_load no_world (tc_file c) (tc_key c) <> None /\
  (let '(_, r, asked) := get_client_cert ex_issue ex_manager name in
   asked = true /\ forall ch, r = Ok ch -> ce_load no_world (tc_file c) (tc_key c) <> Some ch).
Proof.
  exists (ex_cfg (lit "www.example.com")), (lit "www.example.com"), (entry (lit "www.example.com")).
  split; [|split; [discriminate|]].
  - exists [], []. split; [reflexivity|]. split; [|intros ? []]. exists (lit "www.example.com"). split; [left; reflexivity|]. left; reflexivity.
  - cbn. split; [reflexivity|]. intros ch [= <-]. discriminate.
Qed.

(** *** Examples *)

Example ex_reads : reads (lit "*.ex[a-c\-]mple.c?m") [TStar; TChar "."; TChar "e"; TChar "x";
    TClass false [("a", "c")%char; ("-", "-")%char]; TChar "m"; TChar "p"; TChar "l"; TChar "e"; TChar "."; TChar "c"; TAny; TChar "m"].
Proof. apply parse_reads. vm_compute. reflexivity. Qed.
Example ex_match : map (path_match (lit "*.ex[a-c\-]mple.c?m"))
    [lit "www.example.com"; lit "a.b.ex-mple.cxm"; lit ".exbmple.c.m"; lit "example.com"; lit "www.exdmple.com"; lit "www.example.com.x"] =
  [Ok true; Ok true; Ok true; Ok false; Ok false; Ok false].
Proof. vm_compute. reflexivity. Qed.
Example ex_two_stars : path_match (lit "a*b*c") (lit "aXbbbYbcc") = Ok true /\ path_match (lit "a*b*c") (lit "aXbYbcd") = Ok false.
Proof. vm_compute. auto. Qed.
Example ex_bad : forall ts, ~ reads (lit "*.[a-]example.com") ts.
Proof. intros ts R. apply parse_reads in R. vm_compute in R. discriminate. Qed.
Example ex_bad_match : path_match (lit "*.[a-]example.com") (lit "x") = Err /\ path_match (lit "www\") (lit "abc") = Err /\
  path_match (lit "a*[]b") (lit "") = Err.
Proof. vm_compute. auto. Qed.
Example ex_first : first_for [entry (lit "a.example.com"); entry (lit "*.example.com"); entry (lit "b*")] (lit "b.example.com") (entry (lit "*.example.com")).
Proof.
  exists [entry (lit "a.example.com")], [entry (lit "b*")]. split; [reflexivity|].
  assert (N : ~ In "/"%char (lit "b.example.com")) by (cbn; intuition discriminate). split.
  - apply is_for_spec; [exact N|]. vm_compute. reflexivity.
  - intros c [<-|[]] F. apply is_for_spec in F; [|exact N]. vm_compute in F. discriminate.
Qed.
Example ex_stapled :
  get_certificate {| ce_load := fun _ _ => None; ce_parses := fun _ => true; ce_ocsp := fun _ _ => Some (OGood, lit "resp") |}
    ex_issue (ex_cfg (lit "*.example.org")) ex_manager [] =
  ({| cm_autocert := true; cm_prompt := true; cm_account := true;
      cm_cache := [(lit "www.example.com", {| ch_certs := [lit "LE for www.example.com"; lit "issuer"]; ch_staple := None |})] |},
   Ok {| ch_certs := [lit "LE for www.example.com"; lit "issuer"]; ch_staple := Some (lit "resp") |}, true).
Proof. vm_compute. reflexivity. Qed.

(** *** Histories *)

Definition keeps (m m' : manager) : Prop := forall n ch, assoc n (cm_cache m) = Some ch -> assoc n (cm_cache m') = Some ch.
Lemma keeps_trans a b c : keeps a b -> keeps b c -> keeps a c.
Proof. unfold keeps. auto. Qed.
Lemma manager_get_keeps issue m name : keeps m (fst (fst (manager_get issue m name))).
Proof.
  intros n ch H. unfold manager_get. destruct (assoc name (cm_cache m)) eqn:E; [exact H|].
  destruct (_ || _); [|exact H]. destruct (issue name) as [c|]; [|exact H]. cbn [fst cm_cache].
  rewrite assoc_set_neq by (intros ->; congruence). exact H.
Qed.
Lemma get_certificate_keeps e issue cfg m sni : keeps m (fst (fst (get_certificate e issue cfg m sni))).
Proof.
  unfold get_certificate. destruct (cert_from_config _ _ _) as [[?|]| | |]; try (intros n ch H; exact H).
  destruct (_ && _); [intros n ch H; exact H|].
  assert (K := manager_get_keeps issue m (if str_eqb sni [] then cc_default_name cfg else sni)).
  destruct (manager_get _ _ _) as [[m1 [c|]] a]; exact K.
Qed.

(** One event: the manager before and after it, and what the manager says. *)
Lemma run_split cfg m ops before ev after : cert_run cfg m ops = before ++ ev :: after ->
  exists m0 m1 cfg1 ops1, keeps m m0 /\ keeps m0 m1 /\ cert_run cfg1 m1 ops1 = after /\
    match ev_op ev with
    | Reload _ => False
    | Handshake e issue sni => get_certificate e issue (ev_cfg ev) m0 sni = (m1, ev_result ev, ev_asked ev)
    | ClientCert issue name => get_client_cert issue m0 name = (m1, ev_result ev, ev_asked ev)
    end.
Proof.
  revert cfg m before. induction ops as [|o ops IH]; intros cfg m before H; cbn [cert_run] in H; [destruct before; discriminate|].
  destruct o as [cfg'|e issue sni|issue name].
  - exact (IH _ _ _ H).
  - assert (K := get_certificate_keeps e issue cfg m sni).
    destruct (get_certificate e issue cfg m sni) as [[m' r] asked] eqn:E. cbn [fst] in K.
    destruct before as [|x before]; injection H as H1 H2.
    + subst ev. exists m, m', cfg, ops. split; [intros n ch X; exact X|]. split; [exact K|]. split; [exact H2|]. exact E.
    + destruct (IH _ _ _ H2) as (m0 & m1 & cfg1 & ops1 & A & B). exists m0, m1, cfg1, ops1. split; [exact (keeps_trans _ _ _ K A)|exact B].
  - unfold get_client_cert in H. assert (K := manager_get_keeps issue m name).
    destruct (manager_get issue m name) as [[m' r] asked] eqn:E. cbn [fst] in K.
    destruct before as [|x before]; injection H as H1 H2.
    + subst ev. exists m, m', cfg, ops. split; [intros n ch X; exact X|]. split; [exact K|]. split; [exact H2|].
      cbn. unfold get_client_cert. rewrite E. reflexivity.
    + destruct (IH _ _ _ H2) as (m0 & m1 & cfg1 & ops1 & A & B). exists m0, m1, cfg1, ops1. split; [exact (keeps_trans _ _ _ K A)|exact B].
Qed.

Lemma with_staple_certs e ch ch' : with_staple e ch = Ok ch' -> ch_certs ch' = ch_certs ch.
Proof.
  unfold with_staple. destruct (ch_certs ch) as [|leaf [|issuer rest]] eqn:E; try (intros [= <-]; exact E).
  destruct (_ && _); [|discriminate]. destruct (ce_ocsp e leaf issuer) as [[[] raw]|]; intros [= <-]; cbn; auto.
Qed.

(** What a managed event shows. *)
Lemma managed_event m0 m1 ev name ch : managed ev name -> ev_result ev = Ok ch ->
  match ev_op ev with
  | Reload _ => False
  | Handshake e issue sni => get_certificate e issue (ev_cfg ev) m0 sni = (m1, ev_result ev, ev_asked ev)
  | ClientCert issue name => get_client_cert issue m0 name = (m1, ev_result ev, ev_asked ev)
  end ->
  exists ch0, ch_certs ch = ch_certs ch0 /\ assoc name (cm_cache m1) = Some ch0 /\
    (assoc name (cm_cache m0) = Some ch0 /\ ev_asked ev = false \/
     assoc name (cm_cache m0) = None /\ authority ev name = Some ch0 /\ ev_asked ev = true).
Proof.
  intros Hm Hr.
  assert (G : forall issue m2 r a, manager_get issue m0 name = (m2, Some r, a) -> assoc name (cm_cache m2) = Some r /\
     (assoc name (cm_cache m0) = Some r /\ a = false \/ assoc name (cm_cache m0) = None /\ issue name = Some r /\ a = true)).
  { intros issue m2 r a. unfold manager_get. destruct (assoc name (cm_cache m0)) as [c|] eqn:E.
    - intros [= <- <- <-]. auto.
    - destruct (_ || _); [|discriminate]. destruct (issue name) as [c|]; [|discriminate]. intros [= <- <- <-]. cbn [cm_cache].
      rewrite assoc_set_eq. auto. }
  rewrite Hr. unfold managed, authority in *. destruct (ev_op ev) as [|e issue sni|issue n]; [intros []| |].
  - destruct Hm as (W & N & H). unfold get_certificate. rewrite (wanted _ _ _ W), (config_none e _ name N H).
    destruct (_ && _); [discriminate|]. destruct (manager_get issue m0 name) as [[m2 [r|]] a] eqn:E; [|discriminate].
    intros E2. assert (E3 : with_staple e r = Ok ch /\ m2 = m1 /\ a = ev_asked ev) by (repeat split; congruence).
    destruct E3 as (E3 & -> & ->). apply with_staple_certs in E3. destruct (G _ _ _ _ E) as [G1 G2]. exists r. auto.
  - subst n. unfold get_client_cert. destruct (manager_get issue m0 name) as [[m2 [r|]] a] eqn:E; [|discriminate].
    intros [= <- <- <-]. destruct (G _ _ _ _ E) as [G1 G2]. exists r. auto.
Qed.
Lemma managed_cached m0 m1 ev name ch0 : managed ev name -> assoc name (cm_cache m0) = Some ch0 ->
  match ev_op ev with
  | Reload _ => False
  | Handshake e issue sni => get_certificate e issue (ev_cfg ev) m0 sni = (m1, ev_result ev, ev_asked ev)
  | ClientCert issue name => get_client_cert issue m0 name = (m1, ev_result ev, ev_asked ev)
  end -> ev_asked ev = false.
Proof.
  intros Hm Hc. unfold managed in Hm. destruct (ev_op ev) as [|e issue sni|issue n]; [intros []| |].
  - destruct Hm as (W & N & H). unfold get_certificate. rewrite (wanted _ _ _ W), (config_none e _ name N H).
    destruct (_ && _); [congruence|]. unfold manager_get. rewrite Hc. congruence.
  - subst n. unfold get_client_cert, manager_get. rewrite Hc. congruence.
Qed.

(** Once a certificate for a name was shown, the authority is not asked for this name
    again, whatever happens in between, and the certificate stays the same. *)
Theorem C85_asked_once : forall cfg m ops before ev1 between ev2 after name ch1,
  cert_run cfg m ops = before ++ ev1 :: between ++ ev2 :: after ->
  managed ev1 name -> managed ev2 name -> ev_result ev1 = Ok ch1 ->
  ev_asked ev2 = false /\ forall ch2, ev_result ev2 = Ok ch2 -> ch_certs ch2 = ch_certs ch1.
Proof.
  intros cfg m ops before ev1 between ev2 after name ch1 R M1 M2 R1.
  destruct (run_split _ _ _ _ _ _ R) as (m0 & m1 & cfg1 & ops1 & _ & _ & R' & E1).
  destruct (managed_event _ _ _ _ _ M1 R1 E1) as (c & C1 & C2 & _).
  destruct (run_split _ _ _ _ _ _ R') as (m2 & m3 & cfg2 & ops2 & K & _ & _ & E2).
  assert (C3 := K _ _ C2). split; [exact (managed_cached _ _ _ _ _ M2 C3 E2)|].
  intros ch2 R2. destruct (managed_event _ _ _ _ _ M2 R2 E2) as (c' & D1 & _ & [[D2 _]|[D2 _]]); [|congruence].
  rewrite C3 in D2. injection D2 as ->. congruence.
Qed.
Print Assumptions C85_asked_once.

(** If the authority hands out only certificates for the name that it is asked for, and
    the stored ones are of that kind, then clients and backends see only certificates for
    the name. *)
Theorem C85_for_this_name : forall (good : str -> list str -> Prop) cfg m ops,
  (forall n ch, assoc n (cm_cache m) = Some ch -> good n (ch_certs ch)) ->
  (forall ev n ch, In ev (cert_run cfg m ops) -> authority ev n = Some ch -> good n (ch_certs ch)) ->
  forall ev name ch, In ev (cert_run cfg m ops) -> managed ev name -> ev_result ev = Ok ch -> good name (ch_certs ch).
Proof.
  intros good cfg m ops. revert cfg m. induction ops as [|o ops IH]; intros cfg m Hc Ha ev name ch Hin; [destruct Hin|].
  assert (G : forall issue n0, (forall n c, issue n = Some c -> good n (ch_certs c)) ->
    forall n c, assoc n (cm_cache (fst (fst (manager_get issue m n0)))) = Some c -> good n (ch_certs c)).
  { intros issue n0 Hi n c. unfold manager_get. destruct (assoc n0 (cm_cache m)); [apply Hc|]. destruct (_ || _); [|apply Hc].
    destruct (issue n0) as [c0|] eqn:E; [|apply Hc]. cbn [fst cm_cache]. destruct (str_eq_dec n0 n) as [->|Hn].
    - rewrite assoc_set_eq. intros [= <-]. apply Hi. exact E.
    - rewrite assoc_set_neq by exact Hn. apply Hc. }
  destruct o as [cfg'|e issue sni|issue n0].
  - exact (IH _ _ Hc Ha _ _ _ Hin).
  - cbn [cert_run] in *. destruct (get_certificate e issue cfg m sni) as [[m' r] asked] eqn:E.
    assert (Hi : forall n c, issue n = Some c -> good n (ch_certs c)).
    { intros n c X. apply (Ha _ n c (or_introl eq_refl)). exact X. }
    destruct Hin as [<-|Hin].
    + intros M R. destruct (managed_event m m' _ name ch M R E) as (c & C1 & _ & [[C2 _]|[_ [C2 _]]]); rewrite C1; [exact (Hc _ _ C2)|exact (Hi _ _ C2)].
    + refine (IH cfg m' _ _ ev name ch Hin); [|intros ev' n c X; apply Ha; right; exact X].
      unfold get_certificate in E. destruct (cert_from_config _ _ _) as [[?|]| | |]; try (injection E as <- _ _; exact Hc).
      destruct (_ && _); [injection E as <- _ _; exact Hc|].
      specialize (G issue (if str_eqb sni [] then cc_default_name cfg else sni) Hi).
      destruct (manager_get _ _ _) as [[m1 [c|]] a]; injection E as <- _ _; exact G.
  - cbn [cert_run] in *. destruct (get_client_cert issue m n0) as [[m' r] asked] eqn:E.
    assert (Hi : forall n c, issue n = Some c -> good n (ch_certs c)).
    { intros n c X. apply (Ha _ n c (or_introl eq_refl)). exact X. }
    destruct Hin as [<-|Hin].
    + intros M R. destruct (managed_event m m' _ name ch M R E) as (c & C1 & _ & [[C2 _]|[_ [C2 _]]]); rewrite C1; [exact (Hc _ _ C2)|exact (Hi _ _ C2)].
    + refine (IH cfg m' _ _ ev name ch Hin); [|intros ev' n c X; apply Ha; right; exact X].
      unfold get_client_cert in E. specialize (G issue n0 Hi). destruct (manager_get issue m n0) as [[m1 r1] a]. injection E as <- _ _. exact G.
Qed.
Print Assumptions C85_for_this_name.

Example ex_asked_once : map ev_asked (cert_run (ex_cfg (lit "a.example.com")) ex_manager
    [Handshake no_world ex_issue (lit "b.example.com"); ClientCert ex_issue (lit "b.example.com");
     Reload (ex_cfg (lit "c.example.com")); Handshake no_world ex_issue (lit "b.example.com")]) = [true; false; false].
Proof. vm_compute. reflexivity. Qed.

(** ** C86 *)

Lemma run_inv cfg m ops ev : In ev (cert_run cfg m ops) -> exists m0, cm_autocert m0 = cm_autocert m /\ cm_prompt m0 = cm_prompt m /\
  match ev_op ev with
  | Reload _ => False
  | Handshake e issue sni => snd (fst (get_certificate e issue (ev_cfg ev) m0 sni)) = ev_result ev /\
      snd (get_certificate e issue (ev_cfg ev) m0 sni) = ev_asked ev
  | ClientCert issue name => snd (fst (get_client_cert issue m0 name)) = ev_result ev /\ snd (get_client_cert issue m0 name) = ev_asked ev
  end.
Proof.
  assert (G : forall issue m name, cm_autocert (fst (fst (manager_get issue m name))) = cm_autocert m /\
    cm_prompt (fst (fst (manager_get issue m name))) = cm_prompt m).
  { intros issue m1 name. unfold manager_get. destruct (assoc _ _); [auto|]. destruct (_ || _); [|auto]. destruct (issue name); auto. }
  revert cfg m. induction ops as [|o ops IH]; intros cfg m; cbn [cert_run]; [intros []|].
  destruct o as [cfg'|e issue sni|issue name].
  - apply IH.
  - destruct (get_certificate e issue cfg m sni) as [[m' r] asked] eqn:E.
    assert (M : cm_autocert m' = cm_autocert m /\ cm_prompt m' = cm_prompt m).
    { unfold get_certificate in E. destruct (cert_from_config _ _ _) as [[?|]| | |]; try (injection E as <- _ _; auto).
      destruct (_ && _); [injection E as <- _ _; auto|].
      specialize (G issue m (if str_eqb sni [] then cc_default_name cfg else sni)).
      destruct (manager_get _ _ _) as [[m1 [c|]] a]; injection E as <- _ _; exact G. }
    intros [<-|H].
    + exists m. cbn. rewrite E. auto.
    + destruct (IH _ _ H) as (m0 & A & B & C). exists m0. destruct M. rewrite A, B. auto.
  - unfold get_client_cert. specialize (G issue m name). destruct (manager_get issue m name) as [[m' r] asked] eqn:E.
    intros [<-|H].
    + exists m. cbn. unfold get_client_cert. rewrite E. auto.
    + destruct (IH _ _ H) as (m0 & A & B & C). exists m0. destruct G as [G1 G2]. cbn in G1, G2. rewrite A, B. auto.
Qed.

(** Whatever configurations were in force before, a handshake makes the proxy
    ask for a certificate only if the terms are accepted in the one in force now,
    and only for names that are not listed. *)
Theorem C86_asked_only_if_accepted_partial : forall cfg0 account cache m ops ev e issue sni name,
  new_manager cfg0 account cache = Some m -> In ev (cert_run cfg0 m ops) ->
  ev_op ev = Handshake e issue sni -> wanted_name (ev_cfg ev) sni name -> ~ In "/"%char name -> ev_asked ev = true ->
  cc_accept_tos (ev_cfg ev) = true /\ forall c, In c (cc_certs (ev_cfg ev)) -> ~ is_for c name.
Proof.
  intros cfg0 account cache m ops ev e issue sni name M I1 O W N A.
  assert (Am : cm_autocert m = true) by (unfold new_manager in M; destruct (cc_accept_tos cfg0); [injection M as <-; reflexivity|discriminate]).
  destruct (run_inv _ _ _ _ I1) as (m0 & A0 & _ & E). rewrite O in E. destruct E as [_ E]. rewrite A in E. clear A.
  unfold get_certificate in E. rewrite (wanted _ _ _ W) in E.
  destruct (first_or_none (cc_certs (ev_cfg ev)) name N) as [(c & F)|H].
  - rewrite (config_first e _ name c N F) in E. destruct (ce_load _ _ _); discriminate.
  - rewrite (config_none e _ name N H) in E. split; [|exact H].
    rewrite A0, Am in E. destruct (cc_accept_tos (ev_cfg ev)); [reflexivity|discriminate].
Qed.

(** If they are accepted, certificates can be obtained, in any history. *)
Theorem C86_available_if_accepted : forall cfg0 account cache m ops ev e issue sni name ch,
  new_manager cfg0 account cache = Some m -> In ev (cert_run cfg0 m ops) ->
  ev_op ev = Handshake e issue sni -> wanted_name (ev_cfg ev) sni name -> ~ In "/"%char name ->
  cc_accept_tos (ev_cfg ev) = true -> (forall c, In c (cc_certs (ev_cfg ev)) -> ~ is_for c name) ->
  issue name = Some ch -> (forall x, ce_parses e x = true) ->
  exists ch', ev_result ev = Ok ch'.
Proof.
  intros cfg0 account cache m ops ev e issue sni name ch M I1 O W N T H Is P.
  assert (Pm : cm_prompt m = true).
  { unfold new_manager in M. destruct (cc_accept_tos cfg0) eqn:E0; [injection M as <-; reflexivity|discriminate]. }
  destruct (run_inv _ _ _ _ I1) as (m0 & _ & P0 & E). rewrite O in E. destruct E as [E _].
  destruct (assoc name (cm_cache m0)) as [c0|] eqn:C.
  - destruct (C85_other_certificate_available e issue (ev_cfg ev) m0 sni name c0 W N H T (or_introl C) (fun x _ => P x))
      as (m' & ch' & asked & G & _). rewrite G in E. exists ch'. symmetry. exact E.
  - assert (A : assoc name (cm_cache m0) = Some ch \/
      (assoc name (cm_cache m0) = None /\ (cm_account m0 = true \/ cm_prompt m0 = true) /\ issue name = Some ch))
      by (right; split; [exact C|split; [right; congruence|exact Is]]).
    destruct (C85_other_certificate_available e issue (ev_cfg ev) m0 sni name ch W N H T A (fun x _ => P x))
      as (m' & ch' & asked & G & _). rewrite G in E. exists ch'. symmetry. exact E.
Qed.

(** What is missing: the certificates shown to backends are requested without
    looking at the setting, after it is switched off too. *)
Theorem C86_client_certificates_refuted : exists cfg0 cfg1 m ev,
  new_manager cfg0 false [] = Some m /\ cc_accept_tos cfg1 = false /\
  cert_run cfg0 m [Reload cfg1; ClientCert ex_issue (lit "www.example.com")] = [ev] /\
  ev_cfg ev = cfg1 /\ ev_asked ev = true.
Proof.
  exists (ex_cfg []), {| cc_certs := []; cc_accept_tos := false; cc_default_name := [] |}. eexists _, _.
  split; [reflexivity|]. split; [reflexivity|]. split; [reflexivity|]. split; reflexivity.
Qed.

Example ex_run : exists m, new_manager (ex_cfg (lit "a.example.com")) false [] = Some m /\
  map (fun ev => (ev_result ev, ev_asked ev))
    (cert_run (ex_cfg (lit "a.example.com")) m
       [Handshake no_world ex_issue (lit "a.example.com"); Handshake no_world ex_issue (lit "b.example.com");
        Handshake no_world ex_issue (lit "b.example.com");
        Reload {| cc_certs := []; cc_accept_tos := false; cc_default_name := [] |};
        Handshake no_world ex_issue (lit "c.example.com")]) =
  [(Ok {| ch_certs := [lit "c.pem"]; ch_staple := None |}, false);
   (Ok {| ch_certs := [lit "LE for b.example.com"; lit "issuer"]; ch_staple := None |}, true);
   (Ok {| ch_certs := [lit "LE for b.example.com"; lit "issuer"]; ch_staple := None |}, false);
   (Err, false)].
Proof. eexists. split; [reflexivity|]. vm_compute. reflexivity. Qed.

Print Assumptions C85_pattern_matching.
Print Assumptions C85_malformed_pattern.
Print Assumptions C85_listed_certificate.
Print Assumptions C85_other_certificate.
Print Assumptions C85_other_certificate_available.
Print Assumptions C85_wildcard_refuted.
Print Assumptions C85_name_in_capitals_refuted.
Print Assumptions C85_client_certificate_refuted.
Print Assumptions C86_asked_only_if_accepted_partial.
Print Assumptions C86_available_if_accepted.
Print Assumptions C86_client_certificates_refuted.
