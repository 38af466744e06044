(** C88, C89, C90: logging in, logging out and following links with a browser. *)
From Verif Require Import Base PathModel PathSpec PathProofs TokenModel TokenSpec TokenProofs HttpModel HttpSpec HttpProofs HttpProofs2
  BrowserModel BrowserSpec BrowserProofs BrowserProofs2 BrowserProofs3.
From Verif Require ConfigModel.
Open Scope Z_scope.

(** * C88 *)

(** The session cookie set at the callback host is the one that the proxy reads at
    every host that the Domain of the provider reaches, whatever other cookies the
    browser has, as long as all session cookies have that Domain. *)
Theorem C88_recognised : forall hhash br before after domain h0 h1 token t0 path now more ev cm user email sid host iat extra t,
  received_ok before -> received_ok after -> all_from domain before -> none_named auth_cookie after ->
  reach br domain h0 h1 -> fits br auth_cookie token -> plain_value token ->
  rooted path -> now < t0 + 24 * 3600 -> h_values (lit "cookie") more = [] ->
  ev_decode ev token = Some t -> issued_as hhash (KSession cm user email sid host iat extra) t -> cm_issuer cm <> [] ->
  validate (ev_keys ev) (ev_now ev) t = Some (t_claims t) ->
  check_session ev cm (browse br (jar_after br (before ++ login_at h0 domain token t0 :: after)) h1 path now more) = Some (t_claims t).
Proof.
  intros. unfold check_session. rewrite login_cookie with (h1 := h1) by assumption.
  rewrite H9. apply accept_session_issued with (1 := H10); assumption.
Qed.
Print Assumptions C88_recognised.

Lemma no_bearer ev cm r : h_values (lit "authorization") (rq_headers r) = [] -> check_bearer ev cm r = None.
Proof. intro H. unfold check_bearer, bearer_token, h_get. rewrite H. reflexivity. Qed.
Lemma forward_no_login ev be cn r c : forward ev be cn r c <> Login /\ forward ev be cn r c <> AuthRequired /\ forward ev be cn r c <> SetIDToken.
Proof.
  unfold forward. destruct (negb _); [repeat split; discriminate|]. cbv zeta.
  destruct (choose (pathClean (rq_path r)) 0 (be_overrides be)) as [p|i po p|].
  - repeat split; discriminate.
  - destruct (po_addrs po); [repeat split; discriminate|]. destruct (be_addrs be); [repeat split; discriminate|].
    destruct (existsb _ _); [repeat split; discriminate|]. destruct (fold_left _ _ _). repeat split; discriminate.
  - destruct (be_addrs be); [repeat split; discriminate|].
    destruct (existsb _ _); [repeat split; discriminate|]. destruct (fold_left _ _ _). repeat split; discriminate.
Qed.
Lemma enforce_known ev be s r c res : be_sso be = Some s -> needs_login ev s (rq_host r) (Some c) = false ->
  enforce ev be r (Some c) = inl res -> res = Denied.
Proof.
  intros S N. unfold enforce. rewrite S, N. destruct (negb (pathMatches (sso_paths s) (rq_path r))); [discriminate|].
  cbv zeta. destruct (acl_ok _ _); [discriminate|]. intro H. injection H as <-. reflexivity.
Qed.
Lemma known_user_no_login ev be s cn r c : be_sso be = Some s -> needs_login ev s (rq_host r) (Some c) = false ->
  let res := match local_and_authorize ev be r (Some c) with inl res => res | inr r2 => forward ev be cn r2 (Some c) end in
  res <> Login /\ res <> AuthRequired /\ res <> SetIDToken.
Proof.
  intros S N. cbv zeta. unfold local_and_authorize. cbv zeta.
  assert (E := fun res => enforce_known ev be s r c res S N).
  destruct (find _ (be_handlers be)) as [h|].
  - destruct (lh_bypass h).
    + destruct (str_eqb (pathClean (rq_path r)) (rq_path r)); repeat split; discriminate.
    + destruct (enforce ev be r (Some c)) as [res|r']; [rewrite (E res eq_refl); repeat split; discriminate|].
      destruct (str_eqb (pathClean (rq_path r)) (rq_path r)); repeat split; discriminate.
  - destruct (enforce ev be r (Some c)) as [res|r']; [rewrite (E res eq_refl); repeat split; discriminate|].
    destruct (existsb _ (be_handlers be)); [repeat split; discriminate|]. apply forward_no_login.
Qed.

Lemma get_cookie_del n h : get_cookie n (h_del user_header h) = get_cookie n h.
Proof. unfold get_cookie. rewrite cookies_del by reflexivity. reflexivity. Qed.
Lemma browse_auth_header br j h path now more :
  h_values (lit "authorization") more = [] -> h_values (lit "authorization") (rq_headers (browse br j h path now more)) = [].
Proof.
  intro H. cbn [browse rq_headers]. unfold h_values in *. rewrite filter_app, map_app, H, app_nil_r.
  unfold cookie_header. destruct (sent br j h path now); reflexivity.
Qed.
Lemma h_values_del n h : same_name user_header n = false -> h_values n h = [] -> h_values n (h_del user_header h) = [].
Proof.
  intros D H. unfold h_values, h_del in *. induction h as [|[k v] h IH]; [reflexivity|]. cbn [filter fst] in *.
  destruct (same_name k n) eqn:E; [discriminate|]. destruct (negb (same_name k user_header)); cbn [filter fst]; [rewrite E|]; exact (IH H).
Qed.

(** Some host needs no new login: no reauthentication is configured, or the user
    logged in for this host within the configured time. *)
Definition recent (s : sso) (host h1 : str) (iat now : Z) : Prop := sso_force s = 0 \/ (host = h1 /\ now - iat <= sso_force s).

Lemma recent_known hhash ev s h1 cm user email sid host iat extra t :
  issued_as hhash (KSession cm user email sid host iat extra) t -> ev_hash ev = hhash -> recent s host h1 iat (ev_now ev) ->
  needs_login ev s h1 (Some (t_claims t)) = false /\ email_of (t_claims t) = Some email /\ email <> [].
Proof.
  intros K Hh Rc. unfold issued_as in K. cbn [claims_of] in K.
  destruct (session_nonempty _ _ _ _ _ _ _ _ _ K) as [_ Ne].
  destruct (session_reserved _ _ _ _ _ _ _ _ _ K) as (Ei & _ & _ & _ & _ & Ee & _ & _ & Eh & _). split; [|split].
  - unfold needs_login. destruct Rc as [->|[-> L]]; [reflexivity|]. unfold claim_is, issued_at. rewrite Eh, Ei, Hh, str_eqb_refl. cbn [negb orb].
    replace (sso_force s <? ev_now ev - iat) with false by (symmetry; apply Z.ltb_ge; exact L). apply andb_false_r.
  - unfold email_of. rewrite Ee. replace (str_eqb email []) with false by (symmetry; apply str_eqb_neq; exact Ne). reflexivity.
  - exact Ne.
Qed.

(** So the user is not asked to log in again. *)
Theorem C88_no_login_page : forall hhash br before after domain h0 h1 token t0 path now more ev cm user email sid host iat extra t be s cn,
  received_ok before -> received_ok after -> all_from domain before -> none_named auth_cookie after ->
  reach br domain h0 h1 -> fits br auth_cookie token -> plain_value token ->
  rooted path -> now < t0 + 24 * 3600 -> h_values (lit "cookie") more = [] -> h_values (lit "authorization") more = [] ->
  ev_decode ev token = Some t -> issued_as hhash (KSession cm user email sid host iat extra) t -> cm_issuer cm <> [] ->
  validate (ev_keys ev) (ev_now ev) t = Some (t_claims t) -> ev_hash ev = hhash ->
  be_sso be = Some s -> sso_cm s = cm -> recent s host h1 iat (ev_now ev) ->
  let res := reverse_proxy ev be cn (browse br (jar_after br (before ++ login_at h0 domain token t0 :: after)) h1 path now more) in
  res <> Login /\ res <> AuthRequired.
Proof.
  intros hhash br before after domain h0 h1 token t0 path now more ev cm user email sid host iat extra t be s cn
    R1 R2 A N Re F V Hp Hn M M2 Dc K I V2 Hh S Sc Rc. cbv zeta.
  set (r := browse _ _ _ _ _ _). 
  assert (Cs : check_session ev cm r = Some (t_claims t)) by (apply (C88_recognised hhash) with (user := user) (email := email) (sid := sid) (host := host) (iat := iat) (extra := extra); assumption).
  destruct (recent_known hhash ev s h1 cm user email sid host iat extra t K Hh Rc) as (Nl & Em & Ne).
  unfold reverse_proxy, authenticate. rewrite S. cbv zeta. unfold check_cookies. rewrite Sc.
  rewrite no_bearer by (apply h_values_del; [reflexivity|]; apply browse_auth_header; exact M2).
  assert (Cs2 : check_session ev cm (set_headers (h_del user_header (rq_headers r)) r) = Some (t_claims t)).
  { rewrite <- Cs. unfold check_session. cbn [set_headers rq_headers]. rewrite get_cookie_del. reflexivity. }
  rewrite Cs2, Em.
  assert (G : forall h, let res := match local_and_authorize ev be (set_headers h r) (Some (t_claims t)) with
     inl res => res | inr r2 => forward ev be cn r2 (Some (t_claims t)) end in res <> Login /\ res <> AuthRequired /\ res <> SetIDToken).
  { intro h. apply known_user_no_login with (s := s); [exact S|]. exact Nl. }
  destruct (negb (sso_gen_id s)); [rewrite Em; destruct (G (if sso_user_header s then h_set user_header email (h_del user_header (rq_headers r)) else h_del user_header (rq_headers r))) as (G1 & G2 & _); auto|].
  destruct (negb (mem _ (be_names be))); [rewrite Em; destruct (G (if sso_user_header s then h_set user_header email (h_del user_header (rq_headers r)) else h_del user_header (rq_headers r))) as (G1 & G2 & _); auto|].
  destruct (check_id_cookie _ _ _ _); [rewrite Em; destruct (G (if sso_user_header s then h_set user_header email (h_del user_header (rq_headers r)) else h_del user_header (rq_headers r))) as (G1 & G2 & _); auto|].
  split; discriminate.
Qed.
Print Assumptions C88_no_login_page.

Lemma id_accepted ev cm h1 uni iat1 t ti hhash user email sid host iat extra :
  issued_as hhash (KSession cm user email sid host iat extra) t -> cm_issuer cm <> [] ->
  t_claims ti = idtoken_claims (audience_for h1 uni) iat1 (t_claims t) ->
  validate (ev_keys ev) (ev_now ev) ti = Some (t_claims ti) ->
  accept_idcookie (ev_keys ev) (ev_now ev) cm h1 (t_claims t) ti = true.
Proof.
  intros K I E V. unfold issued_as in K. cbn [claims_of] in K.
  destruct (session_reserved _ _ _ _ _ _ _ _ _ K) as (_ & _ & Ei & _ & Es & _ & _ & _ & _ & Esid).
  unfold accept_idcookie, validate_for. rewrite V. unfold iss_ok, aud_ok, claim_same. rewrite E.
  rewrite !idtoken_assoc. cbn [str_eqb].
  change (str_eqb (lit "iss") (lit "aud")) with false. change (str_eqb (lit "iss") (lit "iat")) with false.
  change (mem (lit "iss") idtoken_skip) with false. change (str_eqb (lit "aud") (lit "aud")) with true.
  change (str_eqb (lit "sub") (lit "aud")) with false. change (str_eqb (lit "sub") (lit "iat")) with false. change (mem (lit "sub") idtoken_skip) with false.
  change (str_eqb (lit "sid") (lit "aud")) with false. change (str_eqb (lit "sid") (lit "iat")) with false. change (mem (lit "sid") idtoken_skip) with false.
  cbv iota. rewrite Ei, Es, Esid. replace (str_eqb (cm_issuer cm) []) with false by (symmetry; apply str_eqb_neq; exact I).
  rewrite str_eqb_refl. cbn [negb andb].
  assert (A : match audience_for h1 uni with VStr s => negb (str_eqb s []) && str_eqb s (audience h1) | VList l => mem (audience h1) l | _ => false end = true).
  { unfold audience_for. destruct uni as [u|].
    - apply mem_spec. left. reflexivity.
    - rewrite str_eqb_refl. reflexivity. }
  rewrite A. rewrite (idtoken_inherits _ _ _ (lit "sub") eq_refl), (idtoken_inherits _ _ _ (lit "sid") eq_refl), Es, Esid. cbn [cval_eqb]. rewrite !str_eqb_refl. reflexivity.
Qed.

(** Where the proxy gives identity tokens, it sets that cookie once; then the user is
    neither asked to log in nor redirected again. *)
Theorem C88_no_redirect_loop : forall hhash br before mid after domain h0 h1 token t0 path now more ev cm user email sid host iat extra t
    be s cn idtok t1 uni iat1 ti,
  received_ok before -> received_ok mid -> received_ok after ->
  all_from domain before -> none_named auth_cookie mid -> none_named auth_cookie after ->
  all_local id_cookie before -> all_local id_cookie mid -> none_named id_cookie after ->
  reach br domain h0 h1 -> host_from_req h1 = h1 ->
  fits br auth_cookie token -> plain_value token -> fits br id_cookie idtok -> plain_value idtok ->
  rooted path -> now < t0 + 24 * 3600 -> now < t1 + 24 * 3600 ->
  h_values (lit "cookie") more = [] -> h_values (lit "authorization") more = [] ->
  ev_decode ev token = Some t -> issued_as hhash (KSession cm user email sid host iat extra) t -> cm_issuer cm <> [] ->
  validate (ev_keys ev) (ev_now ev) t = Some (t_claims t) -> ev_hash ev = hhash ->
  ev_decode ev idtok = Some ti -> t_claims ti = idtoken_claims (audience_for h1 uni) iat1 (t_claims t) ->
  validate (ev_keys ev) (ev_now ev) ti = Some (t_claims ti) ->
  be_sso be = Some s -> sso_cm s = cm -> recent s host h1 iat (ev_now ev) ->
  let res := reverse_proxy ev be cn
    (browse br (jar_after br (before ++ login_at h0 domain token t0 :: mid ++ id_at h1 idtok t1 :: after)) h1 path now more) in
  res <> Login /\ res <> AuthRequired /\ res <> SetIDToken.
Proof.
  intros hhash br before mid after domain h0 h1 token t0 path now more ev cm user email sid host iat extra t be s cn idtok t1 uni iat1 ti
    R1 R2 R3 A N N' L1 L2 L3 Re Hh1 F V F2 V2 Hp Hn Hn1 M M2 Dc K I Va Hh Dc2 Ec Va2 S Sc Rc. cbv zeta.
  set (r := browse _ _ _ _ _ _).
  assert (Wid : words (id_attrs idtok t1)).
  { assert (W := login_words domain h1 idtok t1 V2). unfold words in *. cbn [login_at ev_set auth_attrs id_attrs at_name at_value] in *.
    destruct W as (_ & _ & _ & _ & W1 & W2). repeat split; try discriminate; try reflexivity; try assumption; intro H; vm_compute in H; intuition discriminate. }
  assert (R23 : received_ok (mid ++ id_at h1 idtok t1 :: after)) by (apply Forall_app; split; [exact R2|constructor; [exact Wid|exact R3]]).
  assert (N23 : none_named auth_cookie (mid ++ id_at h1 idtok t1 :: after)).
  { intros e He. apply in_app_iff in He. destruct He as [He|[<-|He]]; [exact (N e He)|discriminate|exact (N' e He)]. }
  assert (Cs : check_session ev cm r = Some (t_claims t)) by (apply (C88_recognised hhash) with (user := user) (email := email) (sid := sid) (host := host) (iat := iat) (extra := extra); assumption).
  assert (Ci : get_cookie id_cookie (rq_headers r) = Some idtok).
  { unfold r. rewrite app_comm_cons, app_assoc.
    apply (local_cookie br (before ++ login_at h0 domain token t0 :: mid) after h1 (id_attrs idtok t1) t1 (t1 + day)); try assumption; try reflexivity.
    - apply Forall_app. split; [exact R1|]. constructor; [apply login_words; exact V|exact R2].
    - unfold day, hour. lia.
    - intros e He. apply in_app_iff in He. destruct He as [He|[<-|He]]; [exact (L1 e He)| |exact (L2 e He)]. discriminate.
    - intros e He Ne. exfalso. exact (L3 e He Ne). }
  destruct (recent_known hhash ev s h1 cm user email sid host iat extra t K Hh Rc) as (Nl & Em & Ne).
  unfold reverse_proxy, authenticate. rewrite S. cbv zeta. unfold check_cookies. rewrite Sc.
  rewrite no_bearer by (apply h_values_del; [reflexivity|]; apply browse_auth_header; exact M2).
  assert (Cs2 : check_session ev cm (set_headers (h_del user_header (rq_headers r)) r) = Some (t_claims t)).
  { rewrite <- Cs. unfold check_session. cbn [set_headers rq_headers]. rewrite get_cookie_del. reflexivity. }
  rewrite Cs2, Em.
  assert (Ci2 : check_id_cookie ev cm (set_headers (h_del user_header (rq_headers r)) r) (t_claims t) = true).
  { unfold check_id_cookie. cbn [set_headers rq_headers rq_host]. rewrite get_cookie_del, Ci, Dc2. cbn [r browse rq_host]. rewrite Hh1.
    apply (id_accepted ev cm h1 uni iat1 t ti hhash user email sid host iat extra); assumption. }
  rewrite Ci2.
  assert (G : forall h, let res := match local_and_authorize ev be (set_headers h r) (Some (t_claims t)) with
     inl res => res | inr r2 => forward ev be cn r2 (Some (t_claims t)) end in res <> Login /\ res <> AuthRequired /\ res <> SetIDToken).
  { intro h. apply known_user_no_login with (s := s); [exact S|]. exact Nl. }
  destruct (negb (sso_gen_id s)); [rewrite Em; apply G|]. destruct (negb (mem _ (be_names be))); rewrite Em; apply G.
Qed.
Print Assumptions C88_no_redirect_loop.

(** The nonce that was set where the user was sent to log in comes back to the callback
    of the provider, however long that takes. *)
Theorem C88_nonce_comes_back : forall br before after domain h1 h0 nonce t0 path now more,
  received_ok before -> received_ok after -> all_named nonce_cookie domain before -> none_named nonce_cookie after ->
  reach br domain h1 h0 -> fits br nonce_cookie nonce -> plain_value nonce -> rooted path -> h_values (lit "cookie") more = [] ->
  read_nonce (browse br (jar_after br (before ++ ask_at h1 domain nonce t0 :: after)) h0 path now more) = nonce.
Proof.
  intros br before after domain h1 h0 nonce t0 path now more R1 R2 A N Re F V Hp M. unfold read_nonce.
  change nonce_cookie with (at_name (nonce_attrs domain nonce)). unfold ask_at.
  rewrite (site_cookie br before after (nonce_attrs domain nonce) h1 h0 t0); try assumption; try reflexivity.
  assert (W := login_words domain h1 nonce t0 V). unfold words in *. cbn [login_at ev_set auth_attrs nonce_attrs at_name at_value] in *.
  destruct W as (_ & _ & _ & _ & W1 & W2). repeat split; try discriminate; try reflexivity; try assumption; intro H; vm_compute in H; intuition discriminate.
Qed.
Print Assumptions C88_nonce_comes_back.

(** Once answered, it is not sent again. *)
Theorem C88_nonce_used_once : forall br before domain h0 h1 t0 path now more,
  received_ok before -> all_named nonce_cookie domain before -> reach br domain h0 h1 -> (size nonce_cookie <= br_max br)%N ->
  h_values (lit "cookie") more = [] ->
  read_nonce (browse br (jar_after br (before ++ [answered_at h0 domain t0])) h1 path now more) = [].
Proof.
  intros br before domain h0 h1 t0 path now more R A Re F M. unfold read_nonce.
  replace (get_cookie nonce_cookie _) with (@None str); [reflexivity|]. symmetry. cbn [browse rq_headers]. apply get_none; [|exact M|].
  - apply sent_ok. apply Forall_app. split; [exact R|]. constructor; [|constructor]. unfold words. cbn [answered_at nonce_gone ev_set at_name at_value].
    repeat split; try discriminate; try reflexivity; intro H; vm_compute in H; intuition discriminate.
  - intros x Hx Nx. apply sent_In in Hx. destruct Hx as [Hx Gx]. rewrite jar_after_app in Hx. cbn [run fold_left answered_at ev_host ev_time ev_set] in Hx.
    assert (W : wanted br h0 (nonce_gone domain) = Some (site_stored (nonce_gone domain) h0)).
    { apply (wanted_site br (nonce_gone domain) h0 h1 Re). unfold fits. cbn [nonce_gone at_name at_value]. unfold size at 2. cbn [List.length N.of_nat]. lia. }
    destruct (receive_gone _ _ _ _ _ _ _ W eq_refl Hx) as [Hj S].
    destruct (jar_origin _ _ _ Hj) as (e & He & We).
    assert (Ne : at_name (ev_set e) = nonce_cookie) by (destruct (wanted_fields _ _ _ _ We) as [E _]; congruence).
    destruct (A e He Ne) as [D P].
    assert (Pl := wanted_same_site br (nonce_gone domain) h0 h1 e x path now Re eq_refl Ne D P We Gx).
    apply same_place_place in Pl. congruence.
Qed.
Print Assumptions C88_nonce_used_once.

(** In general the proxy reads the session cookie with the longest path, and of those
    with paths of the same length the oldest, that goes with the request.  The cookies
    of the browser are listed in the order of their creation. *)
Theorem C88_which_cookie : forall br evs host path now more n c older younger,
  received_ok evs -> h_values (lit "cookie") more = [] ->
  jar_after br evs = older ++ c :: younger -> goes br host path now c = true ->
  st_name c = n -> is_token n = true -> plain_value (st_value c) ->
  (forall x, In x older -> st_name x = n -> goes br host path now x = true -> (List.length (st_path x) < List.length (st_path c))%nat) ->
  (forall x, In x younger -> st_name x = n -> goes br host path now x = true -> (List.length (st_path x) <= List.length (st_path c))%nat) ->
  get_cookie n (rq_headers (browse br (jar_after br evs) host path now more)) = Some (st_value c).
Proof. intros br evs host path now more n c older younger. exact (first_cookie br evs host path now more n c older younger). Qed.
Print Assumptions C88_which_cookie.

(** Not every login is recognised: all providers use the same cookie name.  While a
    session of another provider with another Domain is alive, no number of logins
    with this one is recognised where both reach. *)
Theorem C88_other_provider_refuted : forall hhash br domain domain' h0 h0' h1 token t0 logins path now more
    ev cm cm' user email sid host iat extra t,
  reach br domain h0 h1 -> reach br domain' h0' h1 -> domain <> [] -> bare domain' <> bare domain ->
  (domain' = [] -> h0' <> bare domain) ->
  fits br auth_cookie token -> plain_value token -> Forall (fun l => plain_value (fst l)) logins ->
  rooted path -> now < t0 + 24 * 3600 -> h_values (lit "cookie") more = [] ->
  ev_decode ev token = Some t -> issued_as hhash (KSession cm user email sid host iat extra) t ->
  cm_provider cm' <> cm_provider cm ->
  check_session ev cm' (browse br (jar_after br
     (login_at h0 domain token t0 :: map (fun l => login_at h0' domain' (fst l) (snd l)) logins)) h1 path now more) = None.
Proof.
  intros hhash br domain domain' h0 h0' h1 token t0 logins path now more ev cm cm' user email sid host iat extra t
    R R' D0 D D' F V L Hp Hn M Dc K Nc.
  unfold check_session. rewrite older_cookie with (h1 := h1); try assumption.
  2:{ unfold our_domain. destruct domain' as [|y d']; destruct domain as [|x d]; try congruence. exact (D' eq_refl). }
  rewrite Dc. unfold accept_session. destruct (validate_for _ _ _ _ t) as [c|] eqn:E; [|reflexivity].
  unfold validate_for in E. destruct (validate (ev_keys ev) (ev_now ev) t) as [c0|] eqn:E0; [|discriminate].
  destruct (validate_claims _ _ _ _ E0) as (-> & _). destruct (iss_ok _ _ && aud_ok _ _); [|discriminate]. injection E as <-.
  unfold issued_as in K. cbn [claims_of] in K. destruct (session_reserved _ _ _ _ _ _ _ _ _ K) as (_ & _ & _ & _ & _ & _ & _ & Ep & _).
  unfold claim_is at 2. rewrite Ep. replace (str_eqb (cm_provider cm) (cm_provider cm')) with false by (symmetry; apply str_eqb_neq; congruence).
  rewrite andb_false_r. reflexivity.
Qed.
Print Assumptions C88_other_provider_refuted.

(** Nor is it with every Domain that a valid configuration may have: the check is that
    the host of the callback ends with it, a browser wants whole labels. *)
Theorem C88_domain_refuted : exists e o o' h,
  ConfigModel.check_oidc e [] (Some o) = Ok ([ConfigModel.oi_name o], Some o') /\
  ConfigModel.host_of e (ConfigModel.oi_redirect o') = Some h /\
  forall br ev cm logins h1 path now more, h_values (lit "cookie") more = [] ->
    check_session ev cm (browse br (jar_after br
      (map (fun l => login_at h (ConfigModel.oi_domain o') (fst l) (snd l)) logins)) h1 path now more) = None.
Proof.
  exists {| ConfigModel.e_url := fun u => if has_prefix u (lit "https://www.example.com/") then Some (lit "www.example.com", lit "/cb") else Some (lit "idp", lit "/");
            ConfigModel.e_ascii := fun s => s; ConfigModel.e_cidr := fun _ => true; ConfigModel.e_regex := fun _ => true;
            ConfigModel.e_certs := fun _ => true; ConfigModel.e_cache := None; ConfigModel.e_files := None; ConfigModel.e_quic := true;
            ConfigModel.e_mkdir := fun _ => true |}.
  set (o := {| ConfigModel.oi_name := lit "idp"; ConfigModel.oi_discovery := lit "https://idp/"; ConfigModel.oi_auth := []; ConfigModel.oi_token := [];
               ConfigModel.oi_redirect := lit "https://www.example.com/cb"; ConfigModel.oi_id := lit "id"; ConfigModel.oi_secret := lit "x";
               ConfigModel.oi_domain := lit "xample.com" |}).
  exists o, o, (lit "www.example.com"). split; [vm_compute; reflexivity|]. split; [vm_compute; reflexivity|].
  intros br ev cm logins h1 path now more M.
  assert (J : forall l j, fold_left (fun j e => receive br (ev_host e) (ev_time e) (ev_set e) j)
      (map (fun l => login_at (lit "www.example.com") (lit "xample.com") (fst l) (snd l)) l) j = j).
  { induction l as [|[tk t] l IH]; intro j; [reflexivity|]. cbn [map fold_left]. rewrite IH. clear.
    cbn [login_at ev_host ev_time ev_set fst snd]. unfold receive.
    replace (wanted br (lit "www.example.com") (auth_attrs (lit "xample.com") tk t)) with (@None stored); [reflexivity|].
    unfold wanted. cbn [auth_attrs at_domain at_name at_value]. destruct (_ <? _)%N; [reflexivity|].
    change (to_lower (written_domain (lit "xample.com"))) with (lit "xample.com").
    change (str_eqb (lit "xample.com") (lit "www.example.com")) with false. rewrite andb_false_r.
    change (str_eqb (lit "xample.com") []) with false.
    change (domain_match br (lit "www.example.com") (lit "xample.com")) with false. rewrite orb_true_r. reflexivity. }
  cbn [o ConfigModel.oi_domain]. unfold jar_after. rewrite J. unfold check_session. cbn [browse rq_headers sent filter arrange cookie_header app].
  unfold get_cookie, cookies. rewrite M. reflexivity.
Qed.
Print Assumptions C88_domain_refuted.

(** * C89 *)

(** The host and the Domain of the provider with which the user logs out. *)
Definition logout_host (br : browser) (domain h : str) : Prop :=
  domain = [] \/ (domain_name (bare domain) /\ br_public br (bare domain) = false /\ br_ip br h = false /\ under h (bare domain)).

(** After a logout at [h] the browser sends no session to any host that the session
    reached, nor an identity token to [h]: it is not known to any provider there. *)
Theorem C89_logged_out : forall br evs domain h h1 t path now more ev be,
  received_ok evs -> all_from domain evs -> reach br domain h h1 -> (size id_cookie <= br_max br)%N ->
  h_values (lit "cookie") more = [] -> h_values (lit "authorization") more = [] ->
  let r := browse br (jar_after br (evs ++ logout_at h domain t)) h1 path now more in
  get_cookie auth_cookie (rq_headers r) = None /\ exists r', authenticate ev be r = Some (r', None).
Proof.
  intros br evs domain h h1 t path now more ev be R A Re F M M2. cbv zeta.
  set (r := browse _ _ _ _ _ _).
  assert (Lh : domain = [] \/ (domain_name (bare domain) /\ br_public br (bare domain) = false /\ br_ip br h = false /\ under h (bare domain)))
    by (destruct domain; [left; reflexivity|right; cbn [reach] in Re; tauto]).
  assert (G : get_cookie auth_cookie (rq_headers r) = None).
  { unfold r. cbn [browse rq_headers]. apply get_none; [|exact M|].
    - apply sent_ok. apply Forall_app. split; [exact R|apply logout_words].
    - intros x Hx Nx. apply sent_In in Hx. destruct Hx as [Hx Gx].
      destruct (logout_jar _ _ _ _ _ _ Lh F Hx) as (Hj & P1 & _). apply P1.
      destruct (jar_origin _ _ _ Hj) as (e & He & W).
      assert (Ne : at_name (ev_set e) = auth_cookie) by (destruct (wanted_fields _ _ _ _ W) as [E _]; congruence).
      destruct (A e He Ne) as [D P]. exact (wanted_same br domain h h1 e x path now Re Ne D P W Gx). }
  split; [exact G|]. unfold authenticate. cbv zeta. destruct (be_sso be) as [s|]; [|eexists; reflexivity].
  unfold check_cookies. rewrite no_bearer by (apply h_values_del; [reflexivity|]; apply browse_auth_header; exact M2).
  unfold check_session. cbn [set_headers rq_headers]. rewrite get_cookie_del, G. eexists; reflexivity.
Qed.
Print Assumptions C89_logged_out.

Theorem C89_no_identity_token : forall br evs domain h t path now more,
  received_ok evs -> all_local id_cookie evs -> logout_host br domain h -> (size id_cookie <= br_max br)%N ->
  h_values (lit "cookie") more = [] ->
  get_cookie id_cookie (rq_headers (browse br (jar_after br (evs ++ logout_at h domain t)) h path now more)) = None.
Proof.
  intros br evs domain h t path now more R A Lh F M. cbn [browse rq_headers]. apply get_none; [|exact M|].
  - apply sent_ok. apply Forall_app. split; [exact R|apply logout_words].
  - intros x Hx Nx. apply sent_In in Hx. destruct Hx as [Hx Gx].
    destruct (logout_jar _ _ _ _ _ _ Lh F Hx) as (Hj & _ & P2). apply P2.
    destruct (jar_origin _ _ _ Hj) as (e & He & W).
    assert (Ne : at_name (ev_set e) = id_cookie) by (destruct (wanted_fields _ _ _ _ W) as [E _]; congruence).
    destruct (A e He Ne) as [D P].
    assert (Fe : fits br (at_name (ev_set e)) (at_value (ev_set e))).
    { unfold wanted in W. cbv zeta in W. unfold fits.
      destruct (br_max br <? size (at_name (ev_set e)) + size (at_value (ev_set e)))%N eqn:L; [discriminate|]. apply N.ltb_ge in L. exact L. }
    rewrite (proj1 (wanted_shape br (ev_host e) (ev_set e) Fe)) in W by exact D.
    match type of W with Some ?z = _ => assert (Ez : x = z) by congruence end. subst x.
    unfold goes in Gx. cbn [st_host_only st_domain] in Gx. rewrite !andb_true_iff in Gx. destruct Gx as [[Gx _] _]. apply str_eqb_spec in Gx.
    unfold place. cbn [st_name st_domain st_host_only st_path]. rewrite Ne, P, Gx. reflexivity.
Qed.
Print Assumptions C89_no_identity_token.

(** A logout touches nothing else. *)
Theorem C89_other_cookies_stay : forall br evs domain h t x,
  In x (jar_after br evs) -> st_name x <> auth_cookie -> st_name x <> id_cookie ->
  In x (jar_after br (evs ++ logout_at h domain t)).
Proof.
  intros br evs domain h t x Hx N1 N2. rewrite jar_after_app. apply run_keeps; [exact Hx|].
  intros e He. unfold logout_at, clear_attrs in He. cbn [map In] in He. destruct He as [<-|[<-|[]]]; cbn [ev_set at_name]; congruence.
Qed.
Print Assumptions C89_other_cookies_stay.

(** Not every identity token is gone: that of another host stays, goes with requests to
    that host, to its backend too, and is accepted until the session would have ended. *)
Theorem C89_identity_token_elsewhere_refuted : forall br before mid domain h h2 idtok t1 t path now more,
  received_ok before -> received_ok mid -> all_local id_cookie before -> none_named id_cookie mid ->
  h2 <> h -> fits br id_cookie idtok -> plain_value idtok -> rooted path -> now < t1 + 24 * 3600 -> h_values (lit "cookie") more = [] ->
  get_cookie id_cookie (rq_headers (browse br (jar_after br (before ++ id_at h2 idtok t1 :: mid ++ logout_at h domain t)) h2 path now more))
    = Some idtok.
Proof.
  intros br before mid domain h h2 idtok t1 t path now more R1 R2 L N D F V Hp Hn M.
  apply (local_cookie br before (mid ++ logout_at h domain t) h2 (id_attrs idtok t1) t1 (t1 + day)); try assumption; try reflexivity.
  - apply Forall_app. split; [exact R2|apply logout_words].
  - assert (W := login_words domain h2 idtok t1 V). unfold words in *. cbn [login_at ev_set auth_attrs id_attrs at_name at_value] in *.
    destruct W as (_ & _ & _ & _ & W1 & W2). repeat split; try discriminate; try reflexivity; try assumption; intro H; vm_compute in H; intuition discriminate.
  - unfold day, hour. lia.
  - intros e He Ne. apply in_app_iff in He. destruct He as [He|He]; [exfalso; exact (N e He Ne)|].
    unfold logout_at, clear_attrs in He. cbn [map In] in He. destruct He as [<-|[<-|[]]]; [discriminate|].
    cbn [ev_set at_domain at_path ev_host]. auto.
Qed.
Print Assumptions C89_identity_token_elsewhere_refuted.

(** * C90 *)

(** The links on the pages of the proxy work in the browser that got the page, while
    no other page replaced its session identifier. *)
Theorem C90_links_work : forall br before after h path0 t0 more0 fresh path now more fresh' keys key_now url email t,
  let r0 := browse br (jar_after br before) h path0 t0 more0 in
  let sid := session_id fresh r0 in
  let r := browse br (jar_after br (before ++ page_at h sid t0 :: after)) h path now more in
  received_ok before -> received_ok after -> all_local sid_cookie before -> none_named sid_cookie after ->
  plain_value sid -> fits br sid_cookie sid -> rooted path -> now < t0 + 30 * 24 * 3600 -> h_values (lit "cookie") more = [] ->
  t_claims t = url_claims url sid email -> validate keys key_now t = Some (t_claims t) ->
  accept_url keys key_now (session_id fresh' r) t = Some url.
Proof.
  intros br before after h path0 t0 more0 fresh path now more fresh' keys key_now url email t r0 sid r R1 R2 L N V F Hp Hn M E Va.
  assert (W : words (sid_attrs sid t0)).
  { assert (W := login_words [] h sid t0 V). unfold words in *. cbn [login_at ev_set auth_attrs sid_attrs at_name at_value] in *.
    destruct W as (_ & _ & _ & _ & W1 & W2). repeat split; try discriminate; try reflexivity; try assumption; intro H; vm_compute in H; intuition discriminate. }
  assert (G : session_id fresh' r = sid).
  { unfold session_id at 1. unfold r, page_at.
    change sid_cookie with (at_name (sid_attrs sid t0)).
    rewrite (local_cookie br before after h (sid_attrs sid t0) t0 (t0 + 30 * day)); try assumption; try reflexivity.
    - unfold day, hour. lia.
    - intros e He Ne. exfalso. exact (N e He Ne). }
  rewrite G. unfold accept_url. rewrite Va, E.
  assert (C : claim_is (url_claims url sid email) (lit "sid") sid = true) by (unfold claim_is; cbn [url_claims assoc]; change (str_eqb (lit "sid") (lit "sid")) with true; cbv iota; apply str_eqb_refl).
  rewrite C. reflexivity.
Qed.
Print Assumptions C90_links_work.

(** Two pages loaded at once by a browser without an identifier get different ones; the
    links on the first one no longer work. *)
Theorem C90_two_pages_refuted : forall br h a b t0 path0 path now more more' fresh keys key_now url email t,
  let r0 := browse br (jar_after br []) h path0 t0 more in
  let r := browse br (jar_after br [page_at h a t0; page_at h b t0]) h path now more' in
  a <> b -> plain_value a -> plain_value b -> fits br sid_cookie b -> rooted path -> now < t0 + 30 * 24 * 3600 ->
  h_values (lit "cookie") more = [] -> h_values (lit "cookie") more' = [] -> t_claims t = url_claims url a email ->
  session_id a r0 = a /\ session_id b r0 = b /\ accept_url keys key_now (session_id fresh r) t = None.
Proof.
  intros br h a b t0 path0 path now more more' fresh keys key_now url email t r0 r D Va Vb F Hp Hn M M' E.
  assert (G0 : get_cookie sid_cookie (rq_headers r0) = None) by (unfold get_cookie, cookies; cbn [r0 browse rq_headers jar_after fold_left sent filter arrange cookie_header app]; rewrite M; reflexivity).
  split; [unfold session_id; rewrite G0; reflexivity|]. split; [unfold session_id; rewrite G0; reflexivity|].
  assert (W : forall s, plain_value s -> words (sid_attrs s t0)).
  { intros s V. assert (W := login_words [] h s t0 V). unfold words in *. cbn [login_at ev_set auth_attrs sid_attrs at_name at_value] in *.
    destruct W as (_ & _ & _ & _ & W1 & W2). repeat split; try discriminate; try reflexivity; try assumption; intro H; vm_compute in H; intuition discriminate. }
  assert (G : session_id fresh r = b).
  { unfold session_id, r. change [page_at h a t0; page_at h b t0] with ([page_at h a t0] ++ page_at h b t0 :: []).
    change sid_cookie with (at_name (sid_attrs b t0)).
    unfold page_at at 2. rewrite (local_cookie br [page_at h a t0] [] h (sid_attrs b t0) t0 (t0 + 30 * day)); try assumption; try reflexivity.
    - constructor; [apply W; exact Va|constructor].
    - constructor.
    - apply W. exact Vb.
    - unfold day, hour. lia.
    - intros e [<-|[]] _. split; reflexivity.
    - intros e []. }
  rewrite G. unfold accept_url. destruct (validate keys key_now t) as [c|] eqn:Va'; [|reflexivity].
  destruct (validate_claims _ _ _ _ Va') as (-> & _). rewrite E.
  assert (C : claim_is (url_claims url a email) (lit "sid") b = false).
  { unfold claim_is. cbn [url_claims assoc]. change (str_eqb (lit "sid") (lit "sid")) with true. cbv iota. apply str_eqb_neq. exact D. }
  rewrite C. reflexivity.
Qed.
Print Assumptions C90_two_pages_refuted.

(** * Examples *)
Definition b_br : browser := {| br_public := fun d => mem d [lit "com"; lit "org"]; br_ip := fun _ => false; br_max := 4096 |}.
Definition b_keys : list key := keys_after false [1000].
Definition b_hash (s : str) : str := rev s.
Definition b_cm : cookie_mgr := {| cm_provider := lit "google"; cm_issuer := lit "https://login.example.com/" |}.
Definition b_cm2 : cookie_mgr := {| cm_provider := lit "partner"; cm_issuer := lit "https://www.example.com/" |}.
Definition b_session (cm : cookie_mgr) : claims :=
  match session_claims b_hash cm (lit "alice") (lit "alice@example.com") (lit "sid1") (lit "www.example.com") 2000 [] with Some c => c | None => [] end.
Definition b_tok (c : claims) : option jwt := create_token b_keys 2000 ED c.
Definition b_id (h : str) : claims := idtoken_claims (audience_for h None) 2001 (b_session b_cm).
Definition b_env : env := {| ev_keys := b_keys; ev_now := 3000;
  ev_decode := fun s => if str_eqb s (lit "S1") then b_tok (b_session b_cm) else if str_eqb s (lit "S2") then b_tok (b_session b_cm2)
    else if str_eqb s (lit "I1") then b_tok (b_id (lit "www.example.com")) else if str_eqb s (lit "I2") then b_tok (b_id (lit "app.example.com")) else None;
  ev_hash := b_hash; ev_expand := fun _ s => s; ev_fs := {| stat := fun _ => None; fopen := fun _ => None |} |}.
Definition b_sso (cm : cookie_mgr) (gen : bool) : sso :=
  {| sso_cm := cm; sso_paths := [lit "/private"]; sso_acl := None; sso_force := 0; sso_user_header := true; sso_gen_id := gen |}.
Definition b_be (cm : cookie_mgr) (gen : bool) (name : string) : backend :=
  {| be_names := [lit name]; be_sso := Some (b_sso cm gen); be_handlers := []; be_overrides := []; be_addrs := [lit "192.168.1.1:80"];
     be_root := []; be_sanitize := None; be_headers := []; be_xfcc := [] |}.
Definition b_conn (name : string) : conn := {| cn_name := lit name; cn_local := lit "10.0.0.1:443"; cn_peer := lit "192.0.2.7"; cn_cert := None |}.
Definition b_visit (evs : list event) (cm : cookie_mgr) (name path : string) : result :=
  reverse_proxy b_env (b_be cm true name) (b_conn name) (browse b_br (jar_after b_br evs) (lit name) (lit path) 3000 []).
Definition b_other (name value host path : string) : event :=
  {| ev_host := lit host; ev_time := 1000; ev_set := {| at_name := lit name; at_value := lit value; at_domain := []; at_path := lit path; at_expires := None; at_gone := false |} |}.
Definition b_login : event := login_at (lit "login.example.com") (lit "example.com") (lit "S1") 2000.
Definition b_partner : event := login_at (lit "www.example.com") (lit "www.example.com") (lit "S2") 2000.

Lemma b_domain : domain_name (lit "example.com").
Proof.
  split; [|split; [vm_compute; discriminate|exists "e"%char; split; [left; reflexivity|vm_compute; split; discriminate]]].
  change (split_on "."%char (lit "example.com")) with [lit "example"; lit "com"].
  repeat (constructor; [split; [discriminate|]; split; [vm_compute; discriminate|]; split;
    [intros c Hc; cbn in Hc; repeat (destruct Hc as [<-|Hc]; [left; vm_compute; split; discriminate|]); destruct Hc|];
    split; [discriminate|]; intros r E; apply (f_equal (@rev ascii)) in E; rewrite rev_app_distr in E; discriminate E|]). constructor.
Qed.
Lemma b_reach : reach b_br (lit "example.com") (lit "login.example.com") (lit "www.example.com").
Proof.
  unfold reach. cbn [lit list_ascii_of_string]. split; [exact b_domain|]. repeat split; right; [exists (lit "login")|exists (lit "www")]; reflexivity.
Qed.
Definition forwards (r : result) : bool := match r with Forward _ => true | _ => false end.

(** Login, then one redirect for the identity token, then the page. *)
Example C88_example :
  reach b_br (lit "example.com") (lit "login.example.com") (lit "www.example.com") /\
  b_visit [] b_cm "www.example.com" "/private/x" = Login /\
  b_visit [b_other "theme" "dark" "www.example.com" "/private"; b_login] b_cm "www.example.com" "/private/x" = SetIDToken /\
  forwards (b_visit [b_other "theme" "dark" "www.example.com" "/private"; b_login; id_at (lit "www.example.com") (lit "I1") 2001]
    b_cm "www.example.com" "/private/x") = true /\
  check_session b_env b_cm (browse b_br (jar_after b_br [b_login]) (lit "app.example.com") (lit "/") 3000 []) = Some (b_session b_cm) /\
  check_session b_env b_cm (browse b_br (jar_after b_br [login_at (lit "login.example.com") (lit ".example.com") (lit "S1") 2000])
    (lit "app.example.com") (lit "/") 3000 []) = Some (b_session b_cm) /\
  check_session b_env b_cm (browse b_br (jar_after b_br [b_login]) (lit "www.example.org") (lit "/") 3000 []) = None /\
  check_session b_env b_cm (browse b_br (jar_after b_br [b_login]) (lit "notexample.com") (lit "/") 3000 []) = None.
Proof. split; [exact b_reach|]. vm_compute. repeat split; reflexivity. Qed.
Example C88_two_providers_example :
  reach b_br (lit "www.example.com") (lit "www.example.com") (lit "www.example.com") /\
  check_session b_env b_cm2 (browse b_br (jar_after b_br [b_partner]) (lit "www.example.com") (lit "/") 3000 []) = Some (b_session b_cm2) /\
  b_visit [b_login; b_partner; b_partner; b_partner] b_cm2 "www.example.com" "/private/x" = Login.
Proof.
  split; [|vm_compute; split; reflexivity]. unfold reach. cbn [lit list_ascii_of_string]. split; [|repeat split; left; reflexivity].
  split; [|split; [vm_compute; discriminate|exists "w"%char; split; [left; reflexivity|vm_compute; split; discriminate]]].
  change (split_on "."%char (lit "www.example.com")) with [lit "www"; lit "example"; lit "com"].
  repeat (constructor; [split; [discriminate|]; split; [vm_compute; discriminate|]; split;
    [intros c Hc; cbn in Hc; repeat (destruct Hc as [<-|Hc]; [left; vm_compute; split; discriminate|]); destruct Hc|];
    split; [discriminate|]; intros r E; apply (f_equal (@rev ascii)) in E; rewrite rev_app_distr in E; discriminate E|]). constructor.
Qed.
(** After a logout at www, the login page; at app, the backend still gets the identity
    token on a public path, and the proxy accepts it in an Authorization header. *)
Example C89_example :
  let evs := [b_login; id_at (lit "www.example.com") (lit "I1") 2001; id_at (lit "app.example.com") (lit "I2") 2001]
             ++ logout_at (lit "www.example.com") (lit "example.com") 2500 in
  b_visit evs b_cm "www.example.com" "/private/x" = Login /\
  b_visit evs b_cm "app.example.com" "/private/x" = Login /\
  match b_visit evs b_cm "app.example.com" "/public" with
  | Forward f => get_cookie id_cookie (fw_headers f) = Some (lit "I2")
  | _ => False
  end /\
  match ev_decode b_env (lit "I2") with
  | Some t => accept_bearer b_keys 3000 b_cm (lit "app.example.com") t = Some (b_id (lit "app.example.com"))
  | None => False
  end.
Proof. vm_compute. repeat split; reflexivity. Qed.
Example C90_example :
  let t := b_tok (url_claims (lit "https://www.example.com/x") (lit "0af3") None) in
  let jar := jar_after b_br [b_login; page_at (lit "www.example.com") (lit "0af3") 2000] in
  option_map (accept_url b_keys 3000 (session_id (lit "77") (browse b_br jar (lit "www.example.com") (lit "/.sso/login") 3000 []))) t
    = Some (Some (lit "https://www.example.com/x")) /\
  option_map (accept_url b_keys 3000 (session_id (lit "77") (browse b_br jar (lit "app.example.com") (lit "/.sso/login") 3000 []))) t = Some None.
Proof. vm_compute. split; reflexivity. Qed.
