(** Property C99: renewing the identity token brings the browser back to the page. *)
From Verif Require Import Base PathModel PathSpec PathProofs TokenModel HttpModel HttpSpec HttpProofs HttpProps RefreshModel RefreshSpec RefreshProofs.
Open Scope Z_scope.

(** Answered like this are only requests that hold a session of the provider with an e-mail
    address, to one of the server names of a backend with GenerateIDTokens, without a bearer
    token that is accepted, and without a current identity token for that session. *)
Theorem C99_only_then : forall parsed ev be r u st loc, refresh parsed ev be r u = Some (st, loc) ->
  exists s c e, be_sso be = Some s /\ sso_gen_id s = true /\ In (host_from_req (rq_host r)) (be_names be) /\
    check_session ev (sso_cm s) r = Some c /\ email_of c = Some e /\ check_bearer ev (sso_cm s) r = None /\
    check_id_cookie ev (sso_cm s) (set_headers (h_del user_header (rq_headers r)) r) c = false /\
    forall cn, reverse_proxy ev be cn r = SetIDToken.
Proof.
  intros parsed ev be r u st loc H. unfold refresh in H. destruct (authenticate ev be r) as [?|] eqn:A; [discriminate|].
  assert (RP : forall cn, reverse_proxy ev be cn r = SetIDToken) by (intro cn; unfold reverse_proxy; rewrite A; reflexivity).
  unfold authenticate in A. destruct (be_sso be) as [s|]; [|discriminate]. cbv zeta in A. destruct (check_cookies _ _ _ _) as [[c|]|] eqn:C; [destruct (email_of c); discriminate|discriminate|].
  unfold check_cookies in C. rewrite check_bearer_del, check_session_del in C. destruct (check_bearer _ _ _) eqn:B; [discriminate|]. destruct (check_session _ _ _) as [c|] eqn:Sc; [|discriminate].
  destruct (email_of c) as [e|] eqn:E; [|discriminate]. destruct (sso_gen_id s) eqn:G; [|discriminate]. cbn [negb] in C.
  destruct (mem _ _) eqn:M; [|discriminate]. cbn [negb] in C. destruct (check_id_cookie _ _ _ _) eqn:I; [discriminate|].
  exists s, c, e. apply mem_spec in M. split; [reflexivity|]. split; [exact G|]. split; [exact M|]. split; [exact Sc|]. split; [exact E|]. split; [exact B|]. split; [exact I|exact RP].
Qed.
Print Assumptions C99_only_then.

(** C99, first part, for paths that do not start with two slashes: the browser stays on the
    host that it asked. *)
Theorem C99_same_host_partial : forall parsed ev be r u target st loc,
  parse_target target = Some u -> rq_path r = u_path u -> has_prefix (rq_path r) (lit "//") = false ->
  refresh parsed ev be r u = Some (st, loc) -> next_host (rq_host r) loc = rq_host r.
Proof.
  intros parsed ev be r u target st loc P E N H. unfold refresh in H. destruct (authenticate ev be r) as [?|]; [discriminate|]. injection H as _ <-.
  apply parse_rooted in P as [_ P]. apply same_host; [exact P|]. rewrite <- E. exact N.
Qed.
Print Assumptions C99_same_host_partial.

(** C99, second part, for paths without empty, "." and ".." elements: and it asks for the same
    page, with the same query, whatever was escaped in the path and however.  A browser that
    asks with GET or HEAD asks with that again. *)
Theorem C99_same_page_partial : forall parsed ev be r u target st loc,
  parse_target target = Some u -> rq_path r = u_path u -> tidy (rq_path r) -> ascii_only target ->
  refresh parsed ev be r u = Some (st, loc) ->
  page loc = page target /\ page loc = Some (rq_path r, u_query u) /\ next_host (rq_host r) loc = rq_host r /\
  (rq_method r = lit "GET" \/ rq_method r = lit "HEAD" -> next_method st (rq_method r) = rq_method r).
Proof.
  intros parsed ev be r u target st loc P E T A H.
  assert (Pg : page target = Some (u_path u, u_query u) /\ ascii_only (u_query u)).
  { revert P. unfold parse_target, page. destruct (negb _ || _); [discriminate|]. destruct (cut question target) as [[p q] f] eqn:C.
    rewrite unescape_decode. destruct (percent_decode p) as [d|]; [|discriminate]. intro P. injection P as <-. split; [reflexivity|]. cbn [u_query].
    intros c I. apply A. clear -C I. revert p q f C I. induction target as [|x t IH]; intros p q f C I; cbn [cut] in C.
    - injection C as <- <- <-. destruct I.
    - destruct (Ascii.eqb x question); [injection C as <- <- <-; right; exact I|]. destruct (cut question t) as [[a b] g] eqn:D. injection C as <- <- <-. right. eapply IH; [reflexivity|exact I]. }
  destruct Pg as [Pg Aq]. pose proof (parse_rooted _ _ P) as [P1 P2]. rewrite E in T. 
  assert (N : has_prefix (u_path u) (lit "//") = false).
  { destruct (has_prefix (u_path u) (lit "//")) eqn:X; [|reflexivity]. apply has_prefix_spec in X as (z & X). exfalso.
    destruct (crp_cases (u_path u)) as (es & tail & F & Nt & S). unfold tidy in T. rewrite T, X in S.
    change (lit "//" ++ z) with (slash :: slash :: z) in S. injection S as S. destruct es as [|e es].
    - destruct tail; [apply Nt; reflexivity|discriminate].
    - apply Forall_cons_iff in F as [(N0 & _ & _ & Ns) _]. destruct e as [|c e]; [contradiction|]. apply Ns. left.
      destruct es; [cbn [join app] in S|rewrite join_cons in S by discriminate; cbn [app] in S]; injection S as S _; auto. }
  unfold refresh in H. destruct (authenticate ev be r) as [?|]; [discriminate|]. injection H as <- <-.
  rewrite (same_page parsed u P2 P1 T Aq), E, Pg. split; [reflexivity|]. split; [reflexivity|]. split; [apply same_host; assumption|].
  intros [-> | ->]; reflexivity.
Qed.
Print Assumptions C99_same_page_partial.

(** Of the characters of URLs nothing is rewritten: the Location is the target, byte by byte, with
    the bytes above 127 of the query escaped. *)
Lemma url_char_valid c : url_char c = true -> valid_char c = true /\ ascii_form [c] = [c].
Proof. destruct c as [[] [] [] [] [] [] [] []]; vm_compute; intro H; try discriminate H; split; reflexivity. Qed.
Lemma hex_form s : hex_escape s = ascii_form s.
Proof.
  unfold hex_escape, ascii_form. rewrite flat_map_concat_map. f_equal. apply map_ext. intro c. destruct c as [[] [] [] [] [] [] [] []]; vm_compute; reflexivity.
Qed.
Theorem C99_unchanged : forall parsed ev be r u target st loc,
  parse_target target = Some u -> rq_path r = u_path u -> tidy (rq_path r) ->
  (forall p q found, cut question target = (p, q, found) -> forallb url_char p = true) ->
  refresh parsed ev be r u = Some (st, loc) -> loc = ascii_form target.
Proof.
  intros parsed ev be r u target st loc P E T V H. pose proof (parse_rooted _ _ P) as [P1 P2]. rewrite E in T.
  unfold refresh in H. destruct (authenticate ev be r) as [?|]; [discriminate|]. injection H as _ <-.
  assert (U : url_string u = target).
  { revert P. unfold parse_target. destruct (negb _ || _); [discriminate|]. destruct (cut question target) as [[p q] f] eqn:C. specialize (V _ _ _ eq_refl).
    destruct (OcspGetModel.unescape p) as [d|] eqn:D; [|discriminate]. intro X. injection X as <-. unfold url_string, escaped_path. cbn [u_path u_raw u_query u_force].
    assert (Pt : (if negb (str_eqb (if str_eqb p (escape_path d) then [] else p) []) && forallb valid_char (if str_eqb p (escape_path d) then [] else p) &&
        match OcspGetModel.unescape (if str_eqb p (escape_path d) then [] else p) with Some d0 => str_eqb d0 d | None => false end
      then if str_eqb p (escape_path d) then [] else p else escape_path d) = p).
    { destruct (str_eqb p (escape_path d)) eqn:Eq; [cbn [str_eqb negb andb]; apply str_eqb_spec in Eq; congruence|]. rewrite D, str_eqb_refl.
      replace (forallb valid_char p) with true; [|symmetry; apply forallb_forall; intros c I; rewrite forallb_forall in V; apply url_char_valid, V, I].
      destruct (str_eqb p []) eqn:E0; [|reflexivity]. apply str_eqb_spec in E0. subst p. injection D as <-. discriminate Eq. }
    rewrite Pt. clear -C. revert p q f C. induction target as [|x t IH]; intros p q f C; cbn [cut] in C.
    - injection C as <- <- <-. reflexivity.
    - destruct (Ascii.eqb x question) eqn:X.
      + injection C as <- <- <-. apply Ascii.eqb_eq in X. subst x. destruct t; reflexivity.
      + destruct (cut question t) as [[a b] g] eqn:D. injection C as <- <- <-. cbn [app]. f_equal. apply (IH _ _ _ eq_refl). }
  assert (C : cleaned (escaped_path u) = escaped_path u).
  { destruct (raw_tidy _ _ P2 (escaped_decodes u) T) as (es & tail & F & N & X). rewrite X. apply cleaned_tidy; assumption. }
  rewrite <- hex_form, <- U.
  assert (R : hex_escape (url_string u) = escaped_path u ++ hex_escape (if u_force u || negb (str_eqb (u_query u) []) then question :: u_query u else [])).
  { unfold url_string at 1. rewrite hex_escape_app, (hex_escape_ascii (escaped_path u)) by apply escaped_ascii. reflexivity. }
  rewrite R. destruct (location_form parsed u) as [L|[_ L]]; rewrite L, C; [destruct (_ && _); reflexivity|].
  rewrite hex_escape_ascii by apply escaped_ascii. reflexivity.
Qed.
Print Assumptions C99_unchanged.

(** C99 is false for paths with two slashes: whoever makes a signed-in user follow a link to
    this proxy chooses the host that their browser goes to, without the user being asked: any
    name of these characters. *)
Definition name_char (c : ascii) : bool :=
  let n := N_of_ascii c in ((48 <=? n) && (n <=? 57) || (65 <=? n) && (n <=? 90) || (97 <=? n) && (n <=? 122) || (n =? 45) || (n =? 46))%N.
Definition x_gen : sso := {| sso_cm := x_cm; sso_paths := [lit "/private/"]; sso_acl := None; sso_force := 0; sso_user_header := true; sso_gen_id := true |}.
Definition x_be_gen : backend :=
  {| be_names := [lit "www.example.com"]; be_sso := Some x_gen; be_handlers := []; be_overrides := [];
     be_addrs := [lit "10.0.0.1:80"]; be_root := []; be_sanitize := None; be_headers := []; be_xfcc := [] |}.
Definition x_request (method path : str) : request :=
  {| rq_method := method; rq_proto := lit "HTTP/1.1"; rq_host := lit "www.example.com"; rq_path := path; rq_headers := x_cookie "TLSPROXYAUTH=alice" |}.
Lemma name_char_facts c : name_char c = true -> ctl c = false /\ c <> question /\ c <> slash /\ any_slash c = false /\ Ascii.eqb c question = false /\ Ascii.eqb c "#" = false /\
  Ascii.eqb c "%" = false /\ escape_char c = [c] /\ (N_of_ascii c < 128)%N /\ has_char c (lit "/?#") = false /\ Ascii.eqb c "@" = false.
Proof. destruct c as [[] [] [] [] [] [] [] []]; vm_compute; intro H; try discriminate H; repeat split; discriminate. Qed.
Theorem C99_other_host_refuted : forall h, h <> [] -> forallb name_char h = true ->
  exists u loc, parse_target (lit "//" ++ h ++ lit "/") = Some u /\
    (forall m, refresh true x_env x_be_gen (x_request m (u_path u)) u = Some (302%N, loc)) /\ next_host (lit "www.example.com") loc = h.
Proof.
  intros h N F. rewrite forallb_forall in F.
  set (t := lit "//" ++ h ++ lit "/"). assert (D : percent_decode t = Some t).
  { unfold t. change (lit "//") with [slash; slash]. cbn [app percent_decode]. change (Ascii.eqb slash "%") with false. cbv iota.
    replace (percent_decode (h ++ lit "/")) with (Some (h ++ lit "/")); [reflexivity|]. clear N t. induction h as [|c h IH]; [reflexivity|].
    cbn [app percent_decode]. destruct (name_char_facts c) as (_ & _ & _ & _ & _ & _ & -> & _); [apply F; left; reflexivity|].
    rewrite <- IH by (intros x I; apply F; right; exact I). reflexivity. }
  assert (E : escape_path t = t).
  { unfold t, escape_path. change (lit "//") with [slash; slash]. cbn [app map List.concat]. change (escape_char slash) with [slash]. cbn [app]. do 2 f_equal. clear N t D. induction h as [|c h IH]; [reflexivity|].
    cbn [app map List.concat]. destruct (name_char_facts c) as (_ & _ & _ & _ & _ & _ & _ & -> & _); [apply F; left; reflexivity|].
    cbn [app]. f_equal. apply IH. intros x I. apply F. right. exact I. }
  assert (Q : ~ In question t).
  { unfold t. rewrite !in_app_iff. intros [I|[I|I]]; [cbn in I; destruct I as [I|[I|[]]]; discriminate| |cbn in I; destruct I as [I|[]]; discriminate].
    apply F, name_char_facts in I. tauto. }
  assert (P : parse_target t = Some {| u_path := t; u_raw := []; u_query := []; u_force := false |}).
  { unfold parse_target. replace (has_prefix t [slash]) with true by reflexivity. replace (existsb ctl t) with false.
    - cbn [negb orb]. rewrite (cut_none _ _ Q), unescape_decode, D, E, str_eqb_refl. reflexivity.
    - symmetry. unfold t. rewrite !existsb_app. replace (existsb ctl h) with false; [reflexivity|]. symmetry. apply not_true_iff_false. intro X. apply existsb_exists in X as (c & I & X).
      apply F, name_char_facts in I as (I & _). congruence. }
  exists {| u_path := t; u_raw := []; u_query := []; u_force := false |}, t. split; [exact P|].
  assert (U : url_string {| u_path := t; u_raw := []; u_query := []; u_force := false |} = t).
  { unfold url_string, escaped_path. cbn [u_path u_raw u_query u_force str_eqb negb andb orb]. rewrite E, app_nil_r. reflexivity. }
  assert (Un : until (lit "/?#") (h ++ lit "/") = h).
  { clear -F. induction h as [|c h IH]; [reflexivity|]. cbn [app until]. destruct (name_char_facts c) as (_ & _ & _ & _ & _ & _ & _ & _ & _ & -> & _); [apply F; left; reflexivity|].
    rewrite IH; [reflexivity|]. intros x I. apply F. right. exact I. }
  assert (At : after_at h = h).
  { clear -F. destruct h as [|c h]; [reflexivity|]. cbn [after_at]. replace (has_char "@" h) with false.
    - destruct (name_char_facts c) as (_ & _ & _ & _ & _ & _ & _ & _ & _ & _ & ->); [apply F; left; reflexivity|]. reflexivity.
    - symmetry. apply has_char_false. intro I. assert (X := F _ (or_intror I)). discriminate X. }
  split.
  - intro m. unfold refresh. replace (authenticate x_env x_be_gen _) with (@None (request * option claims)) by reflexivity.
    rewrite U. unfold redirect_location. replace (host_of_ref t) with h.
    + rewrite (proj2 (str_eqb_neq h []) N). cbn [andb]. do 2 f_equal. apply hex_escape_ascii. intros c I. unfold t in I. rewrite !in_app_iff in I.
      destruct I as [I|[I|I]]; [cbn in I; destruct I as [<-|[<-|[]]]; reflexivity| |cbn in I; destruct I as [<-|[]]; reflexivity]. apply F, name_char_facts in I. tauto.
    + unfold t. change (lit "//") with [slash; slash]. cbn [app host_of_ref]. change (Ascii.eqb slash slash) with true. cbn [andb].
      destruct h as [|c h']; [contradiction|]. replace (has_prefix ((c :: h') ++ lit "/") [slash]) with false.
      * cbn [negb]. rewrite Un, At. reflexivity.
      * symmetry. apply not_true_iff_false. intro X. apply has_prefix_slash in X as (z & X). cbn [app] in X. injection X as X _.
        destruct (name_char_facts c (F c (or_introl eq_refl))) as (_ & _ & Y & _). contradiction.
  - unfold t. change (lit "//") with [slash; slash]. cbn [app next_host]. change (any_slash slash) with true. cbn [andb].
    destruct h as [|c h']; [contradiction|]. replace (skip_slashes ((c :: h') ++ lit "/")) with ((c :: h') ++ lit "/").
    + clear N t D E Q P U Un At. generalize dependent (c :: h'). intros l F. induction l as [|x l IH]; [reflexivity|]. cbn [app name_part].
      destruct (name_char_facts x) as (_ & _ & _ & -> & -> & -> & _); [apply F; left; reflexivity|]. cbn [orb]. rewrite IH; [reflexivity|]. intros y I. apply F. right. exact I.
    + cbn [app skip_slashes]. destruct (name_char_facts c) as (_ & _ & _ & -> & _); [apply F; left; reflexivity|]. reflexivity.
Qed.
Print Assumptions C99_other_host_refuted.

(** And a form that is posted at that moment is lost: the browser asks for the page with GET. *)
Theorem C99_post_refuted : forall parsed ev be r u st loc, refresh parsed ev be r u = Some (st, loc) -> rq_method r = lit "POST" ->
  next_method st (rq_method r) = lit "GET".
Proof.
  intros parsed ev be r u st loc H M. unfold refresh in H. destruct (authenticate ev be r) as [?|]; [discriminate|]. injection H as <- _. rewrite M. reflexivity.
Qed.
Print Assumptions C99_post_refuted.

(** Paths with empty elements name another page afterwards. *)
Theorem C99_untidy_refuted : ~ (forall parsed ev be r u target st loc,
  parse_target target = Some u -> rq_path r = u_path u -> has_prefix (rq_path r) (lit "//") = false -> ascii_only target ->
  refresh parsed ev be r u = Some (st, loc) -> page loc = page target).
Proof.
  intro H. pose (u := {| u_path := lit "/a//b"; u_raw := []; u_query := lit "q=1"; u_force := false |}).
  specialize (H true x_env x_be_gen (x_request (lit "GET") (lit "/a//b")) u (lit "/a//b?q=1") 302%N (lit "/a/b?q=1") eq_refl eq_refl eq_refl).
  assert (A : ascii_only (lit "/a//b?q=1")) by (intros c I; cbn in I; repeat (destruct I as [<-|I]; [reflexivity|]); destruct I).
  specialize (H A eq_refl). vm_compute in H. discriminate H.
Qed.
Print Assumptions C99_untidy_refuted.

(** Examples: escapes of all sorts survive, and so do a second question mark and an empty
    query. *)
Example C99_examples :
  let go t := match parse_target t with Some u => refresh true x_env x_be_gen (x_request (lit "GET") (u_path u)) u | None => None end in
  go (lit "/private/a%2Fb%20c/?x=%41?y") = Some (302%N, lit "/private/a%2Fb%20c/?x=%41?y") /\
  go (lit "/a%22b/caf%C3%A9?") = Some (302%N, lit "/a%22b/caf%C3%A9?") /\
  go (lit "/a""b") = Some (302%N, lit "/a%22b") /\
  go (lit "/\evil.example.org/") = Some (302%N, lit "/%5Cevil.example.org/") /\
  go (lit "//evil.example.org/x") = Some (302%N, lit "//evil.example.org/x") /\
  next_host (lit "www.example.com") (lit "//evil.example.org/x") = lit "evil.example.org" /\
  go (lit "///evil.example.org") = Some (302%N, lit "/evil.example.org") /\
  go (lit "/a[1]%2Fb?n=" ++ ["233"%char]) = Some (302%N, lit "/a[1]%2Fb?n=%e9") /\
  tidy (lit "/private/a/b c/") /\
  reverse_proxy x_env x_be_gen x_conn (x_request (lit "GET") (lit "//evil.example.org/x")) = SetIDToken.
Proof. vm_compute. repeat split; reflexivity. Qed.
