(** Theorems C96: the OpenID server as its clients find it. *)
From Verif Require Import Base PathModel PathSpec PathProofs TokenModel HttpModel HttpSpec HttpProofs HttpProofs2 HttpProps
  LoginModel LoginSpec LoginProofs LoginProps DiscoveryModel DiscoverySpec DiscoveryProofs.
From Verif Require TokenProofs.
Open Scope list_scope.

(** ** The endpoints *)

(** Every URL in the document is on the host of the request, and a request for its path is
    answered by the endpoint the document says: unless the browser first gets its identity
    token, or, at the authorization endpoint only, the user has to log in or is denied.
    The document itself is at the well-known path. *)
Theorem C96_endpoints_answer_partial : forall ev be cn p req_host id url,
  serves be p -> clean_prefix p -> 
  (advertised (discovery p req_host) id url \/
   id = h_config /\ url = https (host_from_req req_host) (p_prefix p ++ well_known)) ->
  exists path, url = https (host_from_req req_host) path /\
    forall r, rq_path r = path ->
    match reverse_proxy ev be cn r with
    | Local h => lh_id h = id
    | SetIDToken => be_sso be <> None
    | HttpModel.Login | AuthRequired | Denied => id = h_authorization
    | _ => False
    end.
Proof.
  intros ev be cn p req_host id url Sv Cl Ad.
  assert (X : exists e b, In e endpoint_paths /\ In (fixed id (p_prefix p ++ e) b) (oidc_handlers p) /\
              url = https (host_from_req req_host) (p_prefix p ++ e) /\ (b = false -> id = h_authorization)).
  { pose proof Sv as (_ & Ne & _ & _). unfold oidc_handlers. destruct (p_names p) as [|n ns]; [now destruct Ne|].
    destruct Ad as [[[-> ->]|[[-> ->]|[[-> ->]|[-> ->]]]]|[-> ->]].
    - exists authorization_path, false. cbn. unfold https. split; [tauto|]. split; [tauto|]. split; [reflexivity|reflexivity].
    - exists token_path, true. cbn. unfold https. split; [tauto|]. split; [tauto|]. split; [reflexivity|discriminate].
    - exists userinfo_path, true. cbn. unfold https. split; [tauto|]. split; [tauto|]. split; [reflexivity|discriminate].
    - exists jwks_path, true. cbn. unfold https. split; [tauto|]. split; [tauto|]. split; [reflexivity|discriminate].
    - exists well_known, true. cbn. unfold https. split; [tauto|]. split; [tauto|]. split; [reflexivity|discriminate]. }
  destruct X as (e & b & Ie & Ih & -> & Hb). exists (p_prefix p ++ e). split; [reflexivity|]. intros r Er.
  pose proof (Cl e Ie) as C. pose proof (found be p _ (host_from_req (rq_host r)) Sv Ih) as F. cbn [lh_path fixed] in F.
  rewrite <- C, <- Er in F. rewrite <- Er in C.
  pose proof (C24_matching_requests_stay ev be cn r _ F) as [_ M]. cbv zeta in M.
  destruct (reverse_proxy ev be cn r) eqn:R; try exact M; try (apply Hb; exact M).
  - intros Hs. unfold reverse_proxy in R. unfold authenticate in R. rewrite Hs in R.
    destruct (local_and_authorize _ _ _ _) as [res|r2] eqn:L; [|unfold forward in R; cbv zeta in R;
      repeat match type of R with context [if ?x then _ else _] => destruct x | context [match ?x with _ => _ end] => destruct x end; discriminate].
    apply local_inl_kind in L. subst res. destruct L.
  - destruct M as [E N]. congruence.
  - destruct M as [-> _]. reflexivity.
Qed.
Print Assumptions C96_endpoints_answer_partial.

(** What the document says, field by field. *)
Theorem C96_document : forall p req_host,
  let d := discovery p req_host in
  let at_ path := https (host_from_req req_host) (p_prefix p ++ lit path) in
  (dc_authorization d = at_ "/authorization" /\ dc_token d = at_ "/token" /\ dc_userinfo d = at_ "/userinfo" /\ dc_jwks d = at_ "/jwks")%string /\
  dc_response_types d = [lit "code"] /\ dc_subject_types d = [lit "public"] /\
  (forall s, In s (dc_scopes d) <-> In s [lit "openid"; lit "email"; lit "profile"]) /\
  (forall s, In s (dc_algorithms d) <-> In s [lit "RS256"; lit "ES256"]).
Proof. intros p req_host. cbn zeta. repeat split; auto. Qed.
Print Assumptions C96_document.

(** ** The issuer *)

(** The document is where its issuer says it is, when it is fetched under the first name of
    the backend, and then all endpoints are below the issuer. *)
Theorem C96_issuer_partial : forall p req_host n ns, p_names p = n :: ns -> host_from_req req_host = n ->
  let d := discovery p req_host in
  dc_issuer d ++ well_known = https n (p_prefix p ++ well_known) /\
  forall id url, advertised d id url -> exists path, url = dc_issuer d ++ path.
Proof.
  intros p req_host n ns En Eh. cbn zeta. unfold discovery, issuer, https. rewrite En. unfold host_from_req in Eh.
  cbn [dc_issuer hd]. rewrite Eh. split; [rewrite <- !app_assoc; reflexivity|].
  intros id url [[_ ->]|[[_ ->]|[[_ ->]|[_ ->]]]]; cbn [dc_authorization dc_token dc_userinfo dc_jwks];
    eexists; rewrite <- !app_assoc; reflexivity.
Qed.
Print Assumptions C96_issuer_partial.

(** Under any other name of the backend it is not: a client that configured this name finds
    a document of another issuer, which it has to refuse (OpenID Connect Discovery 4.3). *)
Theorem C96_issuer_refuted : forall p n ns other, p_names p = n :: ns -> other <> n ->
  dc_issuer (discovery p other) ++ well_known <> https other (p_prefix p ++ well_known).
Proof.
  intros p n ns other En Ne E. unfold discovery, issuer, https in E. rewrite En in E. cbn [dc_issuer hd] in E.
  rewrite <- !app_assoc in E. apply app_inv_head in E. apply app_inv_tail in E. congruence.
Qed.
Print Assumptions C96_issuer_refuted.

(** Every identity token handed out in any history names the issuer of the document and the
    client, and is signed with an algorithm of the document. *)
Theorem C96_tokens_match_the_document : forall p parses before tr t a s req_host,
  (forall keys now code access rw ar, In (Authorize keys now code access rw ar) before ->
     rules_keep rw (lit "iss") /\ rules_keep rw (lit "aud")) ->
  answer (options p parses) before (Exchange tr) = Tokens t a s ->
  let d := discovery p req_host in
  assoc (lit "iss") (t_claims t) = Some (VStr (dc_issuer d)) /\
  assoc (lit "aud") (t_claims t) = Some (VStr (tr_client tr)) /\
  exists k ty, t_signer t = Some (k, ty) /\ t_kid t = k /\ In (algorithm ty) (dc_algorithms d).
Proof.
  intros p parses before tr t a s req_host K H. cbn zeta.
  destruct (C34_code_only_for_its_client _ _ _ _ _ _ H) as (_ & pre & between & keys & now & rw & ar & user & -> & _ & Ec & _ & C & _).
  destruct (K keys now (tr_code tr) a rw ar) as [K1 K2]; [apply in_or_app; right; now left|].
  unfold create_token in C. destruct (pick now RSA keys None) as [k|] eqn:P; [|discriminate]. injection C as <-. cbn [t_claims t_signer t_kid].
  split; [|split].
  - rewrite rewrites_keep by exact K1. reflexivity.
  - rewrite rewrites_keep by exact K2. rewrite <- Ec. reflexivity.
  - exists (kid k), (ktyp k). split; [reflexivity|]. split; [reflexivity|].
    rewrite (pick_type now RSA keys None k P) by discriminate. cbn. tauto.
Qed.
Print Assumptions C96_tokens_match_the_document.

(** When the policy covers the authorization endpoint, only a user whom its access list
    admits gets a code.  The browser is sent to an address of the client with the state of
    the request, and the identity token behind the code is for this user, this client and
    this nonce.  It has the e-mail address if the client asked for it. *)
Theorem C96_codes_for_admitted_users : forall ev be cn p s parses code access rw r form sv sv' uri st c sc,
  be_sso be = Some s -> protected (sso_paths s) (rq_path r) ->
  (forall h, In h (be_handlers be) -> lh_id h = h_authorization -> In h (oidc_handlers p)) ->
  at_authorization ev be cn (options p parses) code access rw r form sv = inr (sv', SendTo uri st c sc) ->
  exists cl e, identified ev s r cl e /\ allowed (sso_acl s) e /\
  form_get form (lit "redirect_uri") = uri /\ form_get form (lit "state") = st /\ c = code /\
  registered (options p parses) (form_get form (lit "client_id")) uri /\
  exists d, assoc c (sv_codes sv') = Some d /\ cd_client d = form_get form (lit "client_id") /\
    (forall sub, rules_keep rw (lit "sub") -> assoc (lit "sub") cl = Some (VStr sub) -> assoc (lit "sub") (t_claims (cd_token d)) = Some (VStr sub)) /\
    (forall n, rules_keep rw (lit "nonce") -> form_get form (lit "nonce") = n -> n <> [] -> assoc (lit "nonce") (t_claims (cd_token d)) = Some (VStr n)) /\
    (rules_keep rw (lit "email") ->
     (In (lit "email") (split_on " " (form_get form (lit "scope"))) -> assoc (lit "email") (t_claims (cd_token d)) = Some (VStr e)) /\
     (~ In (lit "email") (split_on " " (form_get form (lit "scope"))) -> assoc (lit "email") (t_claims (cd_token d)) = None)).
Proof.
  intros ev be cn p s parses code access rw r form sv sv' uri st c sc Hs Hp Hid H. unfold at_authorization in H.
  destruct (reverse_proxy ev be cn r) as [| |h| | | | | | |] eqn:R; try discriminate.
  destruct (Nat.eqb (lh_id h) h_authorization) eqn:Ei; [|discriminate]. apply Nat.eqb_eq in Ei. cbv zeta in H.
  unfold reverse_proxy in R. destruct (authenticate ev be r) as [[r1 user]|] eqn:A; [|discriminate].
  destruct (local_and_authorize ev be r1 user) as [res|r2] eqn:L.
  2:{ unfold forward in R; cbv zeta in R. repeat match type of R with context [if ?x then _ else _] => destruct x | context [match ?x with _ => _ end] => destruct x end; discriminate. }
  subst res.
  assert (E : exists r2, enforce ev be r1 user = inr r2).
  { apply (local_inl _ _ _ _ _ L). cbn. destruct (local_found _ _ _ _ _ L) as [Ih _]. specialize (Hid h Ih Ei).
    unfold oidc_handlers in Hid. destruct (p_names p); [destruct Hid|]. cbn [In] in Hid.
    destruct Hid as [<-|[<-|[<-|[<-|[<-|[]]]]]]; first [reflexivity|discriminate Ei]. }
  destruct E as [r2 E]. apply authenticate_spec in A. destruct A as (P1 & P2 & _ & _ & _ & A). rewrite Hs in A.
  apply enforce_pass in E. destruct E as (_ & _ & _ & _ & E). rewrite Hs, P1, P2 in E.
  destruct E as [[E _]|(_ & _ & cl & -> & _ & Hal)]; [contradiction|].
  destruct A as (e & Hi & _). exists cl, e. split; [exact Hi|]. split; [destruct Hi as (_ & Hem & _); rewrite Hem in Hal; exact Hal|].
  assert (H' : authorize (options p parses) (ev_keys ev) (ev_now ev) code access rw (read_auth_request (Some cl) form) sv = (sv', SendTo uri st c sc)) by congruence.
  assert (H2 : snd (authorize (options p parses) (ev_keys ev) (ev_now ev) code access rw (read_auth_request (Some cl) form) sv) = SendTo uri st c sc) by now rewrite H'.
  apply authorize_inv in H2. cbn [read_auth_request ar_redirect ar_state ar_client] in H2. destruct H2 as (-> & -> & -> & Rg).
  split; [reflexivity|]. split; [reflexivity|]. split; [reflexivity|]. split; [exact Rg|].
  destruct (authorize_spec (options p parses) (ev_keys ev) (ev_now ev) code access rw (read_auth_request (Some cl) form) sv) as [[_ X]|(u & t & Eu & Ct & X)].
  { rewrite H' in X. discriminate X. }
  rewrite H' in X. injection X as -> _. cbn [sv_codes]. eexists. split; [apply assoc_set_eq|]. split; [reflexivity|]. cbn [cd_token].
  cbn [read_auth_request ar_user] in Eu. injection Eu as <-.
  unfold create_token in Ct. destruct (pick _ _ _ _); [|discriminate]. injection Ct as <-. cbn [t_claims]. unfold id_claims. split; [|split].
  - intros sub K Es. rewrite rewrites_keep by exact K. unfold oidc_claims. rewrite Es. reflexivity.
  - intros n K En Nn. rewrite rewrites_keep by exact K. unfold oidc_claims. cbn [read_auth_request ar_nonce]. rewrite En.
    rewrite (proj2 (str_eqb_neq _ _) Nn). reflexivity.
  - intros K. rewrite rewrites_keep by exact K. destruct Hi as (_ & Hem & _). unfold email_of in Hem.
    unfold oidc_claims. cbn [read_auth_request ar_nonce ar_scopes]. rewrite !TokenProofs.assoc_app.
    match goal with |- context [assoc ?k (?a :: ?b)] => replace (assoc k (a :: b)) with (@None cval) by reflexivity end.
    replace (assoc (lit "email") (if str_eqb (form_get form (lit "nonce")) [] then [] else [(lit "nonce", VStr (form_get form (lit "nonce")))])) with (@None cval)
      by (destruct (str_eqb _ _); reflexivity).
    split; intros I.
    + rewrite (proj2 (mem_spec _ _) I). destruct (assoc (lit "email") cl) as [v|] eqn:Ev; [|discriminate].
      destruct v; try discriminate. injection Hem as <-. reflexivity.
    + apply mem_false in I. rewrite I. cbn [assoc]. destruct (mem (lit "profile") _); [|reflexivity].
      apply profile_assoc. reflexivity.
Qed.
Print Assumptions C96_codes_for_admitted_users.

(** The tokens say which of the scopes that were asked for were given, and have no claims
    about the user of a scope that was not asked for. *)
Theorem C96_scopes : forall issuer client user now nonce scopes,
  let cl := oidc_claims issuer client user now nonce scopes in
  (exists s, assoc (lit "scope") cl = Some (VStr s) /\
     split_on " " s = lit "openid" :: filter (fun x => mem x scopes) [lit "email"; lit "profile"]) /\
  forall k v, In (k, v) cl ->
    In k [lit "iat"; lit "exp"; lit "iss"; lit "aud"; lit "sub"; lit "scope"; lit "nonce"] \/
    (In (lit "email") scopes /\ (k = lit "email" /\ assoc k user = Some v \/ k = lit "email_verified" /\ v = VBool true)) \/
    (In (lit "profile") scopes /\ assoc k user = Some v /\
     In k [lit "name"; lit "family_name"; lit "given_name"; lit "middle_name"; lit "nickname"; lit "preferred_username";
           lit "profile"; lit "picture"; lit "website"; lit "gender"; lit "birthdate"; lit "zoneinfo"; lit "locale"]).
Proof.
  intros issuer client user now nonce scopes. cbv zeta. split.
  - eexists. split; [reflexivity|]. cbn [filter]. destruct (mem (lit "email") scopes), (mem (lit "profile") scopes); reflexivity.
  - intros k v I. unfold oidc_claims in I. rewrite !in_app_iff in I. destruct I as [I|[I|[I|I]]].
    + left. cbn in I. cbn [In]. repeat destruct I as [I|I]; try (injection I as <- _; auto 10). destruct I.
    + left. destruct (str_eqb nonce []); [destruct I|]. destruct I as [I|[]]. injection I as <- _. cbn. auto 12.
    + right. left. destruct (mem (lit "email") scopes) eqn:M; [|destruct I]. apply mem_spec in M. split; [exact M|].
      destruct (assoc (lit "email") user) eqn:A.
      * destruct I as [I|[I|[]]]; injection I as <- <-; auto.
      * destruct I as [I|[]]. injection I as <- <-. auto.
    + right. right. destruct (mem (lit "profile") scopes) eqn:M; [|destruct I]. apply mem_spec in M. split; [exact M|].
      apply in_concat in I as (l & L & I). apply in_map_iff in L as (x & <- & L). destruct (assoc x user) eqn:A; [|destruct I].
      destruct I as [I|[]]. injection I as <- <-. split; [exact A|exact L].
Qed.
Print Assumptions C96_scopes.
Example ex_scopes :
  map fst (oidc_claims (lit "i") (lit "c") [(lit "sub", VStr (lit "u")); (lit "email", VStr (lit "e")); (lit "name", VStr (lit "n"))] 5%Z [] [lit "openid"; lit "profile"]) =
  map lit ["iat"; "exp"; "iss"; "aud"; "sub"; "scope"; "name"]%string.
Proof. vm_compute. reflexivity. Qed.

(** ** Where it goes wrong *)

(** The port of the request is dropped: a server that its clients reach at another port
    than 443 tells them to go to port 443. *)
Theorem C96_port_refuted : forall p host port id url,
  ~ In colon host -> ~ In "["%char host -> ~ In "]"%char host ->
  ~ In colon port -> ~ In "["%char port -> ~ In "]"%char port ->
  advertised (discovery p (host ++ colon :: port)) id url ->
  exists path, url = https host path /\ In path (map (fun e => p_prefix p ++ e) endpoint_paths).
Proof.
  intros p host port id url H1 H2 H3 P1 P2 P3 A.
  assert (S : split_host_port (host ++ colon :: port) = Some host) by (apply split_plain; assumption).
  unfold advertised, discovery in A. rewrite S in A. cbn [dc_authorization dc_token dc_userinfo dc_jwks] in A. unfold https.
  destruct A as [[_ ->]|[[_ ->]|[[_ ->]|[_ ->]]]]; eexists; (split; [reflexivity|]); cbn; tauto.
Qed.
Print Assumptions C96_port_refuted.

(** The document names the host that the request names, whatever the backend's names are:
    the document is not checked against them. *)
Theorem C96_host_is_not_checked_refuted : forall ev be cn p r,
  serves be p -> clean_prefix p -> be_sso be = None \/ get_cookie auth_cookie (rq_headers r) = None ->
  rq_path r = p_prefix p ++ well_known -> bearer_token (rq_headers r) = None ->
  reverse_proxy ev be cn r = Local (fixed h_config (p_prefix p ++ config_path) true) /\
  dc_token (discovery p (rq_host r)) = https (host_from_req (rq_host r)) (p_prefix p ++ token_path).
Proof.
  intros ev be cn p r Sv Cl Hc Er Hb. split; [|reflexivity].
  assert (Ih : In (fixed h_config (p_prefix p ++ config_path) true) (oidc_handlers p)).
  { destruct Sv as (_ & Ne & _). unfold oidc_handlers. destruct (p_names p); [now destruct Ne|]. now left. }
  pose proof (found be p _ (host_from_req (rq_host r)) Sv Ih) as F. cbn [lh_path fixed] in F.
  assert (C : pathClean (rq_path r) = p_prefix p ++ config_path) by (rewrite Er; apply Cl; now left).
  assert (A : exists r1 c, authenticate ev be r = Some (r1, c) /\ rq_path r1 = rq_path r /\ rq_host r1 = rq_host r).
  { unfold authenticate. destruct (be_sso be) as [s|]; [|eexists; eexists; split; [reflexivity|]; split; reflexivity].
    destruct Hc as [Hc|Hc]; [discriminate|].
    unfold check_cookies. rewrite check_bearer_del, check_session_del. unfold check_bearer, check_session. rewrite Hb, Hc.
    eexists; eexists; split; [reflexivity|]; split; reflexivity. }
  destruct A as (r1 & c & A & E1 & E2). unfold reverse_proxy. rewrite A. unfold local_and_authorize. cbv zeta. rewrite E1, E2, C, F.
  cbn [lh_bypass fixed]. rewrite Er, str_eqb_refl. reflexivity.
Qed.
Print Assumptions C96_host_is_not_checked_refuted.

(** With a path prefix that ends with a slash, which the configuration allows, no request
    is ever answered by any of the endpoints. *)
Theorem C96_slash_refuted : forall ev be cn p q r h, p_prefix p = q ++ [slash] ->
  reverse_proxy ev be cn r = Local h -> ~ In h (oidc_handlers p).
Proof.
  intros ev be cn p q r h Ep R Ih. unfold reverse_proxy in R. destruct (authenticate ev be r) as [[r1 c]|]; [|discriminate].
  destruct (local_and_authorize ev be r1 c) as [res|r2] eqn:L.
  2:{ unfold forward in R; cbv zeta in R. repeat match type of R with context [if ?x then _ else _] => destruct x | context [match ?x with _ => _ end] => destruct x end; discriminate. }
  subst res. apply local_found in L as [_ M].
  assert (P : exists e, lh_path h = p_prefix p ++ slash :: e /\ lh_prefix h = false).
  { unfold oidc_handlers in Ih. destruct (p_names p); [destruct Ih|]. cbn [In] in Ih.
    destruct Ih as [<-|[<-|[<-|[<-|[<-|[]]]]]]; cbn [lh_path lh_prefix fixed]; eexists; (split; [reflexivity|reflexivity]). }
  destruct P as (e & P & Q). unfold handler_matches in M. apply andb_true_iff in M as [_ M]. rewrite Q in M. cbn [andb] in M.
  rewrite orb_false_r in M. apply str_eqb_spec in M. rewrite P, Ep, <- app_assoc in M. cbn [app] in M.
  exact (clean_no_double _ _ _ (eq_sym M)).
Qed.
Print Assumptions C96_slash_refuted.

(** When the policy's paths do not cover the authorization endpoint, a user who is not on
    the access list gets a code like anybody else, and one who is not logged in is refused
    and not asked to log in. *)
Theorem C96_outside_paths_refuted : forall ev be cn p s cfg code access rw r form sv r1 user,
  serves be p -> clean_prefix p -> be_sso be = Some s -> rq_path r = p_prefix p ++ authorization_path ->
  pathMatches (sso_paths s) (rq_path r) = false ->
  authenticate ev be r = Some (r1, user) ->
  at_authorization ev be cn cfg code access rw r form sv =
    inr (authorize cfg (ev_keys ev) (ev_now ev) code access rw (read_auth_request user form) sv) /\
  (user = None -> snd (authorize cfg (ev_keys ev) (ev_now ev) code access rw (read_auth_request user form) sv) = Refused).
Proof.
  intros ev be cn p s cfg code access rw r form sv r1 user Sv Cl Hs Er Hp A. split; [|intros ->; reflexivity].
  assert (Ih : In (fixed h_authorization (p_prefix p ++ authorization_path) false) (oidc_handlers p)).
  { destruct Sv as (_ & Ne & _). unfold oidc_handlers. destruct (p_names p); [now destruct Ne|]. cbn. tauto. }
  pose proof (found be p _ (host_from_req (rq_host r)) Sv Ih) as F. cbn [lh_path fixed] in F.
  assert (C : pathClean (rq_path r) = p_prefix p ++ authorization_path) by (rewrite Er; apply Cl; cbn; tauto).
  pose proof (authenticate_spec _ _ _ _ _ A) as (E1 & E2 & _).
  unfold at_authorization, reverse_proxy. rewrite A. unfold local_and_authorize. cbv zeta. rewrite E1, E2, C, F.
  cbn [lh_bypass fixed]. unfold enforce. rewrite Hs, E1, Hp. cbn [negb]. rewrite Er, str_eqb_refl. reflexivity.
Qed.
Print Assumptions C96_outside_paths_refuted.

(** The document does not say how clients authenticate at the token endpoint, which means
    HTTP Basic; a client that does so is refused, whatever it sends. *)
Theorem C96_basic_refuted : forall p parses method h form basic sv,
  authenticates_by_default h form basic -> (forall c, In c (p_clients p) -> cl_secret c <> []) ->
  exchange (options p parses) (read_token_request method h form) sv = (sv, Refused).
Proof.
  intros p parses method h form basic sv [_ Hs] Hc. unfold exchange. destruct (negb (tr_post _)); [reflexivity|].
  destruct (negb (str_eqb _ _)); [reflexivity|]. cbn [read_token_request tr_secret tr_client tr_redirect options cf_clients].
  destruct (existsb _ _) eqn:E; [|reflexivity]. exfalso. apply existsb_exists in E as (c & Ic & E).
  apply andb_true_iff in E as [E _]. apply andb_true_iff in E as [_ E]. apply str_eqb_spec in E.
  unfold form_get in E. rewrite Hs in E. exact (Hc c Ic E).
Qed.
Print Assumptions C96_basic_refuted.

(** A client that puts them in the form is served: the code it was sent is exchanged. *)
Theorem C96_form_is_read : forall p parses form h sv c d,
  In c (p_clients p) -> assoc (lit "client_id") form = Some (cl_id c) -> assoc (lit "client_secret") form = Some (cl_secret c) ->
  assoc (lit "grant_type") form = Some (lit "authorization_code") ->
  (exists uri, assoc (lit "redirect_uri") form = Some uri /\ In uri (cl_uris c)) ->
  (exists code, assoc (lit "code") form = Some code /\ assoc code (sv_codes sv) = Some d) -> cd_client d = cl_id c ->
  snd (exchange (options p parses) (read_token_request (lit "POST") h form) sv) = Tokens (cd_token d) (cd_access d) (cd_scope d).
Proof.
  intros p parses form h sv c d Ic F1 F2 F3 (uri & F4 & Iu) (code & F5 & Ad) Ec.
  unfold exchange. cbn [read_token_request tr_post tr_grant tr_code tr_client tr_secret tr_redirect options cf_clients].
  unfold form_get. rewrite F1, F2, F3, F4, F5. 
  assert (E : existsb (fun c0 => str_eqb (cl_id c0) (cl_id c) && str_eqb (cl_secret c0) (cl_secret c) && mem uri (cl_uris c0)) (p_clients p) = true).
  { apply existsb_exists. exists c. split; [exact Ic|]. rewrite !str_eqb_refl. apply mem_spec. exact Iu. }
  rewrite E, Ad, Ec, !str_eqb_refl. reflexivity.
Qed.
Print Assumptions C96_form_is_read.

(** ** Conditional requests *)

(** A client that holds a copy is told to keep it only when the copy is of content with the
    same sum as the current one, and then always; any other client gets the content. *)
Theorem C96_not_modified : forall hash old body held,
  (conditional hash body held = NotModified <-> held = lit """" ++ hash body ++ lit """") /\
  (conditional hash body held <> NotModified -> conditional hash body held = Content body) /\
  ((forall x y, hash x = hash y -> x = y) -> held = lit """" ++ hash old ++ lit """" ->
   conditional hash body held = NotModified -> old = body).
Proof.
  intros hash old body held. unfold conditional. cbv zeta. destruct (str_eqb held (lit """" ++ hash body ++ lit """")) eqn:E.
  - apply str_eqb_spec in E. split; [tauto|]. split; [intros []; reflexivity|]. intros Inj -> _.
    apply app_inv_head in E. apply app_inv_tail in E. auto.
  - split; [|split; [reflexivity|discriminate]]. split; [discriminate|]. intros ->. rewrite str_eqb_refl in E. discriminate.
Qed.
Print Assumptions C96_not_modified.

(** ** A concrete case *)
Definition y_provider : provider := {| p_names := [lit "www.example.com"; lit "example.com"]; p_prefix := lit "/oidc"; p_clients := [ex_client; ex_client2] |}.
Definition y_listed (acl : string) (paths : list str) : backend :=
  {| be_names := p_names y_provider; be_sso := Some {| sso_cm := x_cm; sso_paths := paths; sso_acl := Some [lit acl];
       sso_force := 0; sso_user_header := true; sso_gen_id := false |};
     be_handlers := oidc_handlers y_provider ++ x_handlers; be_overrides := [];
     be_addrs := []; be_root := []; be_sanitize := None; be_headers := []; be_xfcc := [] |}.

Definition y_be : list str -> backend := y_listed "bob@example.org".

Lemma y_serves : forall paths, serves (y_be paths) y_provider.
Proof.
  intros paths. split; [reflexivity|]. split; [discriminate|]. split.
  - intros h H. apply in_or_app. left. exact H.
  - intros h h' host H H' M. unfold handler_matches in M. apply andb_true_iff in M as [_ M]. cbn [In oidc_handlers y_provider p_names] in H.
    cbn [be_handlers y_be y_listed oidc_handlers y_provider p_names app In x_handlers] in H'.
    repeat (destruct H as [<-|H]; [repeat (destruct H' as [<-|H']; [first [reflexivity|exfalso; vm_compute in M; discriminate M]|]); destruct H'|]). destruct H.
Qed.

Lemma y_clean : clean_prefix y_provider.
Proof. intros e H. cbn in H. repeat (destruct H as [<-|H]; [vm_compute; reflexivity|]). destruct H. Qed.

Example C96_example :
  let d := discovery y_provider (lit "www.example.com:8443") in
  dc_issuer d = lit "https://www.example.com/oidc" /\
  dc_token d = lit "https://www.example.com/oidc/token" /\
  reverse_proxy x_env (y_be [lit "/"]) x_conn (x_req "/oidc/token" []) = Local (fixed h_token (lit "/oidc/token") true) /\
  reverse_proxy x_env (y_be [lit "/"]) x_conn (x_req "/oidc/authorization" []) = HttpModel.Login /\
  reverse_proxy x_env (y_be [lit "/app/"]) x_conn (x_req "/oidc/authorization" []) = Local (fixed h_authorization (lit "/oidc/authorization") false) /\
  pathMatches [lit "/app/"] (lit "/oidc/authorization") = false.
Proof. vm_compute. repeat split. Qed.

Definition y_env : env :=
  {| ev_keys := [x_key; {| kid := 2; ktyp := RSA; created := 0 |}]; ev_now := 2000; ev_decode := x_decode; ev_hash := x_hash;
     ev_expand := fun _ s => s; ev_fs := {| stat := fun _ => None; fopen := fun _ => None |} |}.

(** An unlisted user: alice is denied where the policy covers the path, and gets a code
    where it does not. *)
Example C96_outside_example :
  let form := [(lit "response_type", lit "code"); (lit "client_id", lit "app"); (lit "redirect_uri", lit "https://app/cb")] in
  let go paths := at_authorization y_env (y_be paths) x_conn (options y_provider (fun _ => true)) (lit "c") (lit "a") []
                    (x_req "/oidc/authorization" (x_cookie "TLSPROXYAUTH=alice")) form empty_server in
  exists e, match authenticate y_env (y_be []) (x_req "/oidc/authorization" (x_cookie "TLSPROXYAUTH=alice")) with
            | Some (_, Some c) => email_of c = Some e /\ acl_ok (Some [lit "bob@example.org"]) e = false | _ => False end /\
  match go [lit "/"], go [lit "/app/"] with
  | inl Denied, inr (_, SendTo uri _ c _) => uri = lit "https://app/cb" /\ c = lit "c"
  | _, _ => False
  end.
Proof. eexists. vm_compute. repeat split. Qed.

(** When alice is on the list. *)
Example C96_admitted_example :
  let form := [(lit "response_type", lit "code"); (lit "client_id", lit "app"); (lit "redirect_uri", lit "https://app/cb")] in
  (forall h, In h (be_handlers (y_be [lit "/"])) -> lh_id h = h_authorization -> In h (oidc_handlers y_provider)) /\
  match at_authorization y_env (y_listed "alice@example.com" [lit "/"]) x_conn (options y_provider (fun _ => true)) (lit "c") (lit "a") []
          (x_req "/oidc/authorization" (x_cookie "TLSPROXYAUTH=alice")) form empty_server with
  | inr (_, SendTo uri _ c _) => uri = lit "https://app/cb" /\ c = lit "c"
  | _ => False
  end.
Proof.
  split; [|vm_compute; split; reflexivity].
  intros h H E. cbn [be_handlers y_be y_listed] in H. apply in_app_iff in H as [H|H]; [exact H|].
  cbn in H. repeat (destruct H as [<-|H]; [discriminate E|]). destruct H.
Qed.
