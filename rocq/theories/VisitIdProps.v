(** Theorem C116, continued: identity tokens for backends, as texts. *)
From Coq Require Import Lia.
From Verif Require Import Base PathModel TokenModel TokenProofs HttpModel HttpSpec BrowserModel BrowserSpec BrowserProofs2 BrowserProofs3 BrowserProps
  JwtModel JwtSpec JwtProofs JwtProofs2 JwtProps VisitSpec VisitProps.
Open Scope list_scope.
Open Scope Z_scope.

(** Where the proxy gives identity tokens to backends, it makes one from the session that it
    has read, sets it as a cookie and sends the browser to the same address again.  The browser
    then shows both cookies, and the user is neither asked to log in nor sent there once more:
    the token that the proxy wrote is one that it accepts. *)
Theorem C116_no_redirect_loop : forall hhash name sign verify num keys t cm user email sid host made extra c token br before mid after domain h0 h1 now path more ev be s cn
    keys1 made1 uni c1 idtok,
  signs sign verify -> reads_numbers num ->
  session_claims hhash cm user email sid host made extra = Some c -> exact c -> cm_issuer cm <> [] ->
  create_text name sign keys made t c = Some token ->
  reads_texts name verify num ev -> distinct name (ev_keys ev) -> (forall k, In k keys -> In k (ev_keys ev)) -> in_time c (ev_now ev) ->
  shows br before (mid ++ id_at h1 idtok made1 :: after) domain h0 h1 token made now path more ->
  ev_hash ev = hhash -> be_sso be = Some s -> sso_cm s = cm -> recent s host h1 made (ev_now ev) ->
  same_claims c1 c -> 0 <= made1 <= 2 ^ 53 ->
  create_text name sign keys1 made1 EC (idtoken_claims (audience_for h1 uni) made1 c1) = Some idtok -> (forall k, In k keys1 -> In k (ev_keys ev)) ->
  all_local id_cookie before -> all_local id_cookie mid -> none_named id_cookie after -> host_from_req h1 = h1 ->
  BrowserSpec.fits br id_cookie idtok -> now < made1 + 24 * 3600 ->
  let res := reverse_proxy ev be cn (visit br before (mid ++ id_at h1 idtok made1 :: after) domain h0 h1 token made now path more) in
  res <> Login /\ res <> AuthRequired /\ res <> SetIDToken.
Proof.
  intros hhash name sign verify num keys t cm user email sid host made extra c token br before mid after domain h0 h1 now path more ev be s cn keys1 made1 uni c1 idtok
    SG RN SE EX IS CT RT N IN IT SH HH S Sc Rc SC1 MB CT1 IN1 L1 L2 L3 Hh1 FI NI. cbv zeta.
  destruct (C116_recognised hhash name sign verify num keys t cm user email sid host made extra c token br before _ domain h0 h1 now path more ev
    SG RN SE EX IS CT RT N IN IT SH) as (c' & Cs & SC).
  set (r := visit _ _ _ _ _ _ _ _ _ _ _) in *.
  destruct (session_nonempty _ _ _ _ _ _ _ _ _ SE) as [_ Ne].
  destruct (session_reserved _ _ _ _ _ _ _ _ _ SE) as (Ei & _ & Eis & _ & Es & Ee & _ & _ & Eh & Esid).
  set (ci := idtoken_claims (audience_for h1 uni) made1 c1) in *.
  assert (AI : forall k, assoc k ci = if str_eqb k (lit "aud") then Some (audience_for h1 uni) else if str_eqb k (lit "iat") then Some (VNum made1) else if mem k idtoken_skip then None else assoc k c).
  { intro k. unfold ci. rewrite idtoken_assoc, (SC1 k). reflexivity. }
  assert (EXI : exact ci).
  { intros k n A. rewrite AI in A. destruct (str_eqb k (lit "aud")); [destruct uni; discriminate|]. destruct (str_eqb k (lit "iat")); [injection A as <-; lia|].
    destruct (mem k idtoken_skip); [discriminate|]. exact (EX k n A). }
  assert (ITI : in_time ci (ev_now ev)).
  { destruct IT as [I1 I2]. split; intros v A; rewrite AI in A; [apply I1|apply I2]; exact A. }
  destruct (C115_created name sign verify num keys1 made1 EC ci idtok SG RN EXI CT1) as (TTI & tok & TK & W).
  unfold create_token in TK. destruct (pick made1 EC keys1 None) as [k|] eqn:P; [|discriminate]. injection TK as <-. apply pick_in in P. destruct P as [P|[P1 P2]]; [discriminate|].
  destruct (W (ev_keys ev) N) as (_ & W2); [exists k; auto|]. destruct (W2 _ ITI) as (ci' & V & SCI).
  destruct (validated _ _ _ _ _ _ _ N V) as (j & J & VJ).
  destruct (C115_created name sign verify num keys made t c token SG RN EX CT) as (TT & _).
  destruct SH as [R1 R23 A N23 Re F Hp Hn M M2].
  assert (Ci : get_cookie id_cookie (rq_headers r) = Some idtok).
  { apply Forall_app in R23. destruct R23 as [R2 R3]. inversion R3 as [|? ? W0 R4]; subst. unfold r, visit. rewrite app_comm_cons, app_assoc.
    apply (local_cookie br (before ++ login_at h0 domain token made :: mid) after h1 (id_attrs idtok made1) made1 (made1 + day)); try assumption; try reflexivity.
    - apply Forall_app. split; [exact R1|]. constructor; [apply login_words; apply texts_plain; exact TT|exact R2].
    - apply texts_plain. exact TTI.
    - unfold day, hour. lia.
    - intros e He. apply in_app_iff in He. destruct He as [He|[<-|He]]; [exact (L1 e He)|discriminate|exact (L2 e He)].
    - intros e He Ne0. exfalso. exact (L3 e He Ne0). }
  assert (Em : email_of c' = Some email) by (unfold email_of; rewrite (SC (lit "email")), Ee, (proj2 (str_eqb_neq _ _) Ne); reflexivity).
  assert (Nl : needs_login ev s h1 (Some c') = false).
  { unfold needs_login. destruct Rc as [->|[-> L]]; [reflexivity|]. unfold claim_is, issued_at. rewrite (SC (lit "hhash")), (SC (lit "iat")), Eh, Ei, HH, str_eqb_refl. cbn [negb orb].
    replace (sso_force s <? ev_now ev - made) with false by (symmetry; apply Z.ltb_ge; exact L). apply andb_false_r. }
  assert (Cs2 : check_session ev (sso_cm s) (set_headers (h_del user_header (rq_headers r)) r) = Some c').
  { rewrite Sc, <- Cs. unfold check_session. cbn [set_headers rq_headers]. rewrite get_cookie_del. reflexivity. }
  assert (Ci2 : check_id_cookie ev (sso_cm s) (set_headers (h_del user_header (rq_headers r)) r) c' = true).
  { unfold check_id_cookie. cbn [set_headers rq_headers rq_host]. rewrite get_cookie_del, Ci, RT, J. change (rq_host r) with h1. rewrite Hh1, Sc.
    assert (AU : match audience_for h1 uni with VStr s => negb (str_eqb s []) && str_eqb s (audience h1) | VList l => mem (audience h1) l | _ => false end = true).
    { unfold audience_for. destruct uni as [u|]; [apply mem_spec; left; reflexivity|rewrite str_eqb_refl; reflexivity]. }
    assert (VF : validate_for (ev_keys ev) (ev_now ev) (cm_issuer cm) (audience h1) j = Some ci').
    { unfold validate_for. rewrite VJ. unfold iss_ok, aud_ok. rewrite (SCI (lit "iss")), (SCI (lit "aud")), (AI (lit "iss")), (AI (lit "aud")).
      change (str_eqb (lit "iss") (lit "aud")) with false. change (str_eqb (lit "iss") (lit "iat")) with false. change (mem (lit "iss") idtoken_skip) with false.
      change (str_eqb (lit "aud") (lit "aud")) with true. cbv iota. rewrite Eis, (proj2 (str_eqb_neq _ _) IS), str_eqb_refl, AU. reflexivity. }
    unfold accept_idcookie. rewrite VF. unfold claim_same.
    rewrite (SCI (lit "sub")), (SCI (lit "sid")), (AI (lit "sub")), (AI (lit "sid")), (SC (lit "sub")), (SC (lit "sid")).
    change (str_eqb (lit "sub") (lit "aud")) with false. change (str_eqb (lit "sub") (lit "iat")) with false. change (mem (lit "sub") idtoken_skip) with false.
    change (str_eqb (lit "sid") (lit "aud")) with false. change (str_eqb (lit "sid") (lit "iat")) with false. change (mem (lit "sid") idtoken_skip) with false.
    cbv iota. rewrite Es, Esid. cbn [cval_eqb]. rewrite !str_eqb_refl. reflexivity. }
  unfold reverse_proxy, authenticate. rewrite S. cbv zeta. unfold check_cookies.
  rewrite no_bearer by (cbn [set_headers rq_headers]; apply h_values_del; [reflexivity|]; apply browse_auth_header; exact M2).
  rewrite Cs2, Em, Ci2.
  assert (G : forall h, let res := match local_and_authorize ev be (set_headers h r) (Some c') with
     inl res => res | inr r2 => forward ev be cn r2 (Some c') end in res <> Login /\ res <> AuthRequired /\ res <> SetIDToken).
  { intro h. apply known_user_no_login with (s := s); [exact S|]. exact Nl. }
  destruct (negb (sso_gen_id s)); [rewrite Em; apply G|]. destruct (negb (mem _ (be_names be))); rewrite Em; apply G.
Qed.
Print Assumptions C116_no_redirect_loop.

(** The login of VisitProps at a backend that gets identity tokens: first the redirect, then
    the page, with the token. *)
Definition x16_id : str :=
  match check_session x16_env b_cm x16_request with
  | Some c1 => match create_text x15_name x15_sign b_keys 2500 EC (idtoken_claims (audience_for (lit "www.example.com") None) 2500 c1) with Some s => s | None => [] end
  | None => []
  end.
Example C116_nontrivial_id :
  let r := visit b_br x16_before ([] ++ id_at (lit "www.example.com") x16_id 2500 :: []) (lit "example.com") (lit "login.example.com") (lit "www.example.com") x16_token 2000 3000 (lit "/private/x") [] in
  reverse_proxy x16_env (b_be b_cm true "www.example.com") (b_conn "www.example.com") x16_request = SetIDToken /\
  match reverse_proxy x16_env (b_be b_cm true "www.example.com") (b_conn "www.example.com") r with
  | Forward f => h_values user_header (fw_headers f) = [lit "bob@x"] /\ get_cookie id_cookie (fw_headers f) = Some x16_id /\ get_cookie auth_cookie (fw_headers f) = None
  | _ => False end.
Proof. vm_compute. repeat split. Qed.
