(** Theorems C116: a login works from end to end, byte by byte. *)
From Coq Require Import Lia.
From Verif Require Import Base PathModel TokenModel TokenProofs HttpModel HttpSpec HttpProofs HttpProofs2 BrowserModel BrowserSpec BrowserProofs2 BrowserProps
  JwtModel JwtSpec JwtProofs JwtProofs2 JwtProps VisitSpec.
From Verif Require ScriptSpec ScriptModel ScriptProps SignModel SignSpec CborModel CborSpec CborProps JwksModel
  PasskeyModel PasskeySpec PasskeyHttpModel PasskeyHttpSpec PasskeyHttpProps HttpProps.
Open Scope list_scope.
Open Scope Z_scope.

Lemma texts_plain : forall s, ScriptSpec.token_text s -> plain_value s.
Proof.
  intros s [_ H] c I. rewrite forallb_forall in H. specialize (H c I). unfold ScriptSpec.token_char in H. unfold token_char. cbv zeta in *.
  apply orb_true_iff in H. destruct H as [H|H]; [rewrite H; reflexivity|].
  apply orb_true_iff. right. apply has_char_spec in H. apply has_char_spec. cbn in H. destruct H as [<-|[<-|[<-|[]]]]; vm_compute; tauto.
Qed.

(** The session token that the proxy wrote comes back from the browser as it was, and the
    proxy reads the claims from it with which it made it. *)
Theorem C116_recognised : forall hhash name sign verify num keys t cm user email sid host made extra c token br before after domain h0 h1 now path more ev,
  signs sign verify -> reads_numbers num ->
  session_claims hhash cm user email sid host made extra = Some c -> exact c -> cm_issuer cm <> [] ->
  create_text name sign keys made t c = Some token ->
  reads_texts name verify num ev -> distinct name (ev_keys ev) -> (forall k, In k keys -> In k (ev_keys ev)) -> in_time c (ev_now ev) ->
  shows br before after domain h0 h1 token made now path more ->
  exists c', check_session ev cm (visit br before after domain h0 h1 token made now path more) = Some c' /\ same_claims c' c.
Proof.
  intros hhash name sign verify num keys t cm user email sid host made extra c token br before after domain h0 h1 now path more ev SG RN SE EX IS CT RT N IN IT [].
  destruct (C115_session hhash name sign verify num keys made t cm user email sid host extra c token SG RN SE EX IS CT) as (k & K & _ & W).
  destruct (W (ev_keys ev) (ev_now ev) N (IN _ K) IT) as (j & c' & J & A & S).
  destruct (C115_created name sign verify num keys made t c token SG RN EX CT) as (TT & _).
  exists c'. split; [|exact S]. unfold check_session, visit.
  rewrite login_cookie with (h1 := h1) by (try assumption; apply texts_plain; assumption).
  rewrite RT, J. exact A.
Qed.
Print Assumptions C116_recognised.

(** So the user is not asked to log in again, and backends are told who the user is. *)
Theorem C116_visit : forall hhash name sign verify num keys t cm user email sid host made extra c token br before after domain h0 h1 now path more ev be s cn,
  signs sign verify -> reads_numbers num ->
  session_claims hhash cm user email sid host made extra = Some c -> exact c -> cm_issuer cm <> [] ->
  create_text name sign keys made t c = Some token ->
  reads_texts name verify num ev -> distinct name (ev_keys ev) -> (forall k, In k keys -> In k (ev_keys ev)) -> in_time c (ev_now ev) ->
  shows br before after domain h0 h1 token made now path more ->
  ev_hash ev = hhash -> be_sso be = Some s -> sso_cm s = cm -> recent s host h1 made (ev_now ev) ->
  let r := visit br before after domain h0 h1 token made now path more in
  reverse_proxy ev be cn r <> Login /\ reverse_proxy ev be cn r <> AuthRequired /\
  (forall f, reverse_proxy ev be cn r = Forward f -> rules_leave be user_header -> rules_leave be (lit "connection") ->
    ~ connection_names (rq_headers r) user_header -> h_values user_header (fw_headers f) = if sso_user_header s then [email] else []).
Proof.
  intros hhash name sign verify num keys t cm user email sid host made extra c token br before after domain h0 h1 now path more ev be s cn
    SG RN SE EX IS CT RT N IN IT SH HH S Sc Rc r.
  destruct (C116_recognised hhash name sign verify num keys t cm user email sid host made extra c token br before after domain h0 h1 now path more ev
    SG RN SE EX IS CT RT N IN IT SH) as (c' & Cs & SC). fold r in Cs. destruct SH as [_ _ _ _ _ _ _ _ _ M2].
  destruct (session_nonempty _ _ _ _ _ _ _ _ _ SE) as [_ Ne].
  destruct (session_reserved _ _ _ _ _ _ _ _ _ SE) as (Ei & _ & _ & _ & _ & Ee & _ & _ & Eh & _).
  rewrite <- (SC (lit "iat")) in Ei. rewrite <- (SC (lit "email")) in Ee. rewrite <- (SC (lit "hhash")) in Eh.
  assert (Nl : needs_login ev s h1 (Some c') = false).
  { unfold needs_login. destruct Rc as [->|[-> L]]; [reflexivity|]. unfold claim_is, issued_at. rewrite Eh, Ei, HH, str_eqb_refl. cbn [negb orb].
    replace (sso_force s <? ev_now ev - made) with false by (symmetry; apply Z.ltb_ge; exact L). apply andb_false_r. }
  assert (Em : email_of c' = Some email) by (unfold email_of; rewrite Ee, (proj2 (str_eqb_neq _ _) Ne); reflexivity).
  assert (Nb : h_values (lit "authorization") (rq_headers r) = []) by (apply browse_auth_header; exact M2).
  assert (Cs2 : check_session ev (sso_cm s) (set_headers (h_del user_header (rq_headers r)) r) = Some c').
  { rewrite Sc, <- Cs. unfold check_session. cbn [set_headers rq_headers]. rewrite get_cookie_del. reflexivity. }
  assert (Au : authenticate ev be r = None \/
               authenticate ev be r = Some (set_headers (if sso_user_header s then h_set user_header email (h_del user_header (rq_headers r)) else h_del user_header (rq_headers r)) r, Some c')).
  { unfold authenticate. rewrite S. cbv zeta. unfold check_cookies.
    rewrite no_bearer by (cbn [set_headers rq_headers]; apply h_values_del; [reflexivity|exact Nb]). rewrite Cs2, Em.
    destruct (negb (sso_gen_id s)); [rewrite Em; auto|]. destruct (negb (mem _ (be_names be))); [rewrite Em; auto|].
    destruct (check_id_cookie _ _ _ _); [rewrite Em; auto|]. auto. }
  assert (G : reverse_proxy ev be cn r <> Login /\ reverse_proxy ev be cn r <> AuthRequired).
  { unfold reverse_proxy. destruct Au as [-> | ->]; [split; discriminate|].
    match goal with |- context [local_and_authorize ev be ?x _] => destruct (known_user_no_login ev be s cn x c' S Nl) as (G1 & G2 & _) end. auto. }
  split; [apply G|]. split; [apply G|]. intros f H R1 R2 NC.
  destruct (forwarded_values _ _ _ _ _ user_header H R2 R1) as (r1 & c1 & r2 & Ha & He & E); try reflexivity.
  rewrite E. replace (conn_names (rq_headers r) user_header) with false by (symmetry; apply not_true_iff_false; rewrite conn_names_spec; exact NC).
  change (is_hop user_header) with false. change (same_name xfcc user_header) with false. change (same_name via user_header) with false. cbv iota. cbn [orb].
  rewrite (enforce_headers _ _ _ _ _ _ He) by reflexivity. destruct Au as [Au|Au]; rewrite Au in Ha; [discriminate|]. injection Ha as <- <-.
  apply authenticate_spec in Au. destruct Au as (_ & _ & _ & _ & _ & Au). rewrite S in Au. destruct Au as (e & (_ & Ie & _) & Hv).
  rewrite Ee in Ie. injection Ie as <-. exact Hv.
Qed.
Print Assumptions C116_visit.

(** Signing in with a passkey, from the bytes of the authenticator to the next page: the user
    has a key for ES256 or RS256, and opened the login page with a token that the proxy made;
    the authenticator signs what the standard says.  Then the user is logged in (or has to
    confirm their identity because it is too old), and with the session token that the proxy
    writes, the host of the address that they came for lets them in as who they are. *)
Theorem C116_passkey : forall lib e name sign verify num keys made t link base url token before earlier ch t0 between m h k origin more adata ext sig handle login,
  CborProps.reads_authenticators lib e -> signs sign verify -> reads_numbers num -> distinct name (PasskeyHttpModel.h_tokens e) ->
  (forall k, In k keys -> In k (PasskeyHttpModel.h_tokens e)) ->
  create_text name sign keys made t (url_claims url (PasskeyHttpModel.q_sid base) link) = Some token ->
  PasskeyHttpModel.htrace e before = earlier ++ PasskeyModel.AssOptions ch t0 :: between ->
  Forall (PasskeyHttpSpec.leaves_alone (PasskeyHttpModel.h_env e) ch t0) between -> PasskeyHttpModel.q_now base <= t0 + 300 ->
  PasskeyHttpSpec.distinct_handles e before -> assoc [] (PasskeyHttpModel.hs_nonces (PasskeyHttpModel.hrun e before)) = None ->
  In k (PasskeyHttpSpec.hkeys e before m) -> NoDup (map PasskeyModel.k_id (PasskeyHttpSpec.hkeys e before m)) ->
  assoc m (PasskeyModel.p_subjects (PasskeyHttpModel.hs_keys (PasskeyHttpModel.hrun e before))) = Some (JwksModel.b64u h) ->
  (h <> [] /\ handle = h \/ handle = [] /\ login = m /\ m <> []) -> ScriptSpec.others more ->
  CborSpec.auth_data_text adata (PasskeyModel.k_rp k) None ext ->
  let cdata := ScriptSpec.browser_data (lit "webauthn.get") ch origin more in
  let hash := SignModel.sl_sha lib (adata ++ SignModel.sl_sha lib cdata) in
  ((exists x y, CborSpec.es256_key (PasskeyModel.k_pub k) x y /\ SignModel.sl_on_curve lib (PasskeySpec.big_endian x) (PasskeySpec.big_endian y) = true /\
      SignModel.sl_ecdsa lib (PasskeySpec.big_endian x) (PasskeySpec.big_endian y) hash sig = true) \/
   (exists n ex, CborSpec.rs256_key (PasskeyModel.k_pub k) n ex /\ SignModel.sl_rsa lib (PasskeySpec.big_endian n) ex hash sig = true)) ->
  let answer := PasskeyHttpSpec.hanswer e before (PasskeyHttpModel.HCallback
      (ScriptModel.read_message (jwt_of name verify num (PasskeyHttpModel.h_tokens e)) base
        (ScriptModel.send_get token (JwksModel.b64u (PasskeyModel.k_id k)) cdata adata sig handle login))) in
  exists u, PasskeyModel.u_email u = Some m /\
  ((answer = PasskeyHttpModel.ARefresh /\ PasskeyHttpSpec.too_old (PasskeyHttpModel.h_env e) u (PasskeyHttpModel.q_now base)) \/
   (answer = PasskeyHttpModel.ASession u k (PasskeyHttpModel.h_url_host e url) url /\
    forall hhash keys2 t2 cm extra c session br evs evs' domain h0 now path headers ev be s cn,
      let at_ := PasskeyHttpModel.q_now base in let host := PasskeyHttpModel.h_url_host e url in
      session_claims hhash cm (PasskeyModel.u_sub u) m (PasskeyModel.u_sid u) host at_ extra = Some c -> exact c -> cm_issuer cm <> [] ->
      create_text name sign keys2 at_ t2 c = Some session ->
      reads_texts name verify num ev -> distinct name (ev_keys ev) -> (forall k, In k keys2 -> In k (ev_keys ev)) -> in_time c (ev_now ev) ->
      shows br evs evs' domain h0 host session at_ now path headers ->
      ev_hash ev = hhash -> be_sso be = Some s -> sso_cm s = cm -> (sso_force s = 0 \/ ev_now ev - at_ <= sso_force s) ->
      let r := visit br evs evs' domain h0 host session at_ now path headers in
      reverse_proxy ev be cn r <> Login /\ reverse_proxy ev be cn r <> AuthRequired /\
      (forall f, reverse_proxy ev be cn r = Forward f -> rules_leave be user_header -> rules_leave be (lit "connection") ->
        ~ connection_names (rq_headers r) user_header -> h_values user_header (fw_headers f) = if sso_user_header s then [m] else []))).
Proof.
  intros lib e name sign verify num keys made t link base url token before earlier ch t0 between m h k origin more adata ext sig handle login RA SG RN N IN CT
    HT FB HN HD HZ IK NK ES HH OM AD cdata hash SV answer.
  destruct (C115_address name sign verify num keys made t url _ link token SG RN CT) as (kt & K1 & _ & W).
  destruct (W (PasskeyHttpModel.h_tokens e) (PasskeyHttpModel.q_now base) N (IN _ K1)) as (j & J & AU).
  assert (EX : exact (url_claims url (PasskeyHttpModel.q_sid base) link)).
  { intros k0 n A. apply assoc_In in A. unfold url_claims in A. cbn [In] in A. destruct A as [A|[A|A]]; [discriminate|discriminate|].
    destruct link as [x|]; [destruct A as [A|[]]; discriminate|destruct A]. }
  destruct (C115_created name sign verify num keys made t _ token SG RN EX CT) as (TT & _).
  destruct (CborProps.C114_sign_in lib e (jwt_of name verify num (PasskeyHttpModel.h_tokens e)) base j url token before earlier ch t0 between m h k origin more adata ext sig handle login
    RA HT FB HN HD HZ TT J AU IK NK ES HH OM AD SV) as (u & Ue & An).
  exists u. split; [exact Ue|]. destruct An as [An|An]; [right|left; exact An]. split; [exact An|].
  intros hhash keys2 t2 cm extra c session br evs evs' domain h0 now path headers ev be s cn at_ host SE EX2 IS CT2 RT N2 IN2 IT SH EH BS SC RE.
  eapply C116_visit; try eassumption. destruct RE as [RE|RE]; [left; exact RE|right; split; [reflexivity|exact RE]].
Qed.
Print Assumptions C116_passkey.

(** The other direction: if signatures cannot be forged then backends are told the name of a
    user only when the request carries a text with the claims of a token that the proxy made
    for this user and this provider, and which has not expired.  [made]: the tokens that the
    proxy made. *)
Theorem C116_only_made : forall name verify num (made : list (nat * ktype * claims)) ev be cn r f e,
  reads_texts name verify num ev -> distinct name (ev_keys ev) -> reads_numbers num -> Forall (fun m => exact (snd m)) made ->
  (forall k input sig, In k (ev_keys ev) -> verify (kid k) (ktyp k) input sig = true -> exists c, In (kid k, ktyp k, c) made /\ input = signing_text (ktyp k) (name (kid k)) c) ->
  reverse_proxy ev be cn r = Forward f -> rules_leave be user_header -> rules_leave be (lit "connection") -> In e (h_values user_header (fw_headers f)) ->
  exists s token k c, be_sso be = Some s /\ carries r token /\ In k (ev_keys ev) /\ In (kid k, ktyp k, c) made /\ in_time c (ev_now ev) /\
    assoc (lit "email") c = Some (VStr e) /\ assoc (lit "iss") c = Some (VStr (cm_issuer (sso_cm s))) /\
    (get_cookie auth_cookie (rq_headers r) = Some token /\ assoc (lit "proxyauth") c = Some (VStr (cm_issuer (sso_cm s))) \/
     bearer_token (rq_headers r) = Some token /\ assoc (lit "proxyauth") c = None).
Proof.
  intros name verify num made ev be cn r f e RT N RN EX UF H R1 R2 I.
  destruct (HttpProps.C19_user_header ev be cn r f H R1 R2) as [E|(s & cl & e' & S & _ & (Id & Ee & _) & E)]; rewrite E in I; [destruct I|].
  destruct I as [->|[]].
  assert (G : forall token j c', ev_decode ev token = Some j -> validate (ev_keys ev) (ev_now ev) j = Some c' ->
    exists k c, In k (ev_keys ev) /\ In (kid k, ktyp k, c) made /\ same_claims c' c /\ in_time c (ev_now ev)).
  { intros token j c' D V. apply (C115_only_issued name verify num (ev_keys ev) (ev_now ev) token c' made N RN EX UF).
    rewrite C115_refines by exact N. rewrite RT in D. rewrite D. exact V. }
  assert (F : forall aud j c', validate_for (ev_keys ev) (ev_now ev) (cm_issuer (sso_cm s)) aud j = Some c' ->
    validate (ev_keys ev) (ev_now ev) j = Some c' /\ assoc (lit "iss") c' = Some (VStr (cm_issuer (sso_cm s)))).
  { intros aud j c' V. unfold validate_for in V. destruct (validate _ _ j) as [c2|]; [|discriminate]. destruct (iss_ok c2 _) eqn:IO; [|discriminate].
    destruct (aud_ok c2 aud); [|discriminate]. injection V as <-. split; [reflexivity|]. unfold iss_ok in IO.
    destruct (assoc (lit "iss") c2) as [[x|x|x|x]|]; try discriminate. apply andb_true_iff in IO. destruct IO as [_ IO]. apply str_eqb_spec in IO. subst x. reflexivity. }
  destruct Id as [Id|Id].
  - unfold check_bearer in Id. destruct (bearer_token (rq_headers r)) as [token|] eqn:B; [|discriminate].
    destruct (ev_decode ev token) as [j|] eqn:D; [|discriminate]. unfold accept_bearer in Id.
    destruct (validate_for _ _ _ _ j) as [c2|] eqn:V; [|discriminate]. destruct (assoc (lit "proxyauth") c2) eqn:P; [discriminate|]. injection Id as <-.
    destruct (F _ _ _ V) as [V1 V2]. destruct (G _ _ _ D V1) as (k & c & K & M & SC & IT). exists s, token, k, c. rewrite <- (SC (lit "email")), <- (SC (lit "iss")), <- (SC (lit "proxyauth")).
    unfold carries. rewrite B. auto 12.
  - unfold check_session in Id. destruct (get_cookie auth_cookie (rq_headers r)) as [token|] eqn:B; [|discriminate].
    destruct (ev_decode ev token) as [j|] eqn:D; [|discriminate]. unfold accept_session in Id.
    destruct (validate_for _ _ _ _ j) as [c2|] eqn:V; [|discriminate].
    destruct (claim_is c2 (lit "proxyauth") _) eqn:P; [|discriminate]. destruct (claim_is c2 (lit "provider") _); [|discriminate]. cbn [andb] in Id.
    destruct (assoc (lit "sub") c2) as [[x|x|x|x]|]; try discriminate. destruct (str_eqb x []); [discriminate|]. injection Id as <-.
    destruct (F _ _ _ V) as [V1 V2]. destruct (G _ _ _ D V1) as (k & c & K & M & SC & IT). exists s, token, k, c. rewrite <- (SC (lit "email")), <- (SC (lit "iss")), <- (SC (lit "proxyauth")).
    assert (P' : assoc (lit "proxyauth") c2 = Some (VStr (cm_issuer (sso_cm s)))).
    { unfold claim_is in P. destruct (assoc (lit "proxyauth") c2) as [[x'|x'|x'|x']|]; try discriminate. apply str_eqb_spec in P. subst x'. reflexivity. }
    unfold carries. rewrite B. auto 12.
Qed.
Print Assumptions C116_only_made.

(** ** Cases in which the hypotheses hold *)

Definition x16_claims : claims :=
  match session_claims b_hash b_cm (lit "1") (lit "bob@x") (lit "sid1") (lit "www.example.com") 2000 [(lit "groups", VList [lit "a"; lit "b"])] with Some c => c | None => [] end.
Definition x16_token : str := match create_text x15_name x15_sign b_keys 2000 ED x16_claims with Some s => s | None => [] end.
Definition x16_env : env :=
  {| ev_keys := b_keys; ev_now := 3000; ev_decode := jwt_of x15_name x15_verify x15_num b_keys; ev_hash := b_hash; ev_expand := fun _ s => s;
     ev_fs := {| stat := fun _ => None; fopen := fun _ => None |} |}.
Definition x16_before : list event := [b_other "theme" "dark" "www.example.com" "/private"].
Definition x16_request : request := visit b_br x16_before [] (lit "example.com") (lit "login.example.com") (lit "www.example.com") x16_token 2000 3000 (lit "/private/x") [].

Example C116_nontrivial_shows : shows b_br x16_before [] (lit "example.com") (lit "login.example.com") (lit "www.example.com") x16_token 2000 3000 (lit "/private/x") [].
Proof.
  constructor; try (vm_compute; congruence); try exact b_reach; try (intros ? []; fail); try constructor; try reflexivity.
  - repeat split; try discriminate; try reflexivity; intro I; cbn in I; repeat (destruct I as [I|I]; [discriminate|]); destruct I.
  - constructor.
  - destruct H as [<-|[]]; discriminate.
  - destruct H as [<-|[]]; discriminate.
  - eexists; reflexivity.
Qed.
Example C116_nontrivial :
  session_claims b_hash b_cm (lit "1") (lit "bob@x") (lit "sid1") (lit "www.example.com") 2000 [(lit "groups", VList [lit "a"; lit "b"])] = Some x16_claims /\
  create_text x15_name x15_sign b_keys 2000 ED x16_claims = Some x16_token /\ reads_texts x15_name x15_verify x15_num x16_env /\
  distinct x15_name b_keys /\ exact x16_claims /\ in_time x16_claims 3000 /\
  option_map (assoc (lit "groups")) (check_session x16_env b_cm x16_request) = Some (Some (VList [lit "a"; lit "b"])) /\
  reverse_proxy x16_env (b_be b_cm true "www.example.com") (b_conn "www.example.com") x16_request = SetIDToken /\
  match reverse_proxy x16_env (b_be b_cm false "www.example.com") (b_conn "www.example.com") x16_request with
  | Forward f => h_values user_header (fw_headers f) = [lit "bob@x"] | _ => False end /\
  reverse_proxy x16_env (b_be b_cm false "www.example.com") (b_conn "www.example.com")
    (visit b_br x16_before [] (lit "example.com") (lit "login.example.com") (lit "www.example.com") (x16_token ++ lit "A") 2000 3000 (lit "/private/x") []) = Login.
Proof.
  split; [reflexivity|]. split; [vm_compute; reflexivity|]. split; [reflexivity|]. split.
  { unfold distinct. vm_compute. repeat constructor; cbn; intros H; repeat destruct H as [H|H]; try discriminate H; destruct H. }
  split. { intros k n H. apply assoc_In in H. cbn [x16_claims] in H. vm_compute in H. repeat (destruct H as [H|H]; [try discriminate H; injection H as <- <-; lia|]). destruct H. }
  split; [apply time_spec; reflexivity|]. split; [vm_compute; reflexivity|]. split; [vm_compute; reflexivity|]. split; vm_compute; reflexivity.
Qed.
(** A login with the bytes of an authenticator and a token as the proxy makes it. *)
Example C116_nontrivial_passkey :
  CborProps.reads_authenticators CborProps.x14_lib CborProps.x14 /\
  CborSpec.auth_data_text (PasskeyHttpProps.xh_hash (lit "sso") ++ ["005"%char] ++ ["000"; "000"; "000"; "002"]%char) (PasskeyHttpProps.xh_hash (lit "sso")) None [] /\
  PasskeyHttpSpec.hanswer CborProps.x14 CborProps.x14_asked (PasskeyHttpModel.HCallback
    (ScriptModel.read_message (jwt_of x15_name x15_verify x15_num PasskeyHttpProps.xh_tokens) (PasskeyHttpProps.xh_with (PasskeyHttpProps.xh_req 140 [] []) (lit "2") 120)
      (ScriptModel.send_get x15_token (JwksModel.b64u (lit "k1")) (ScriptProps.x13_get (lit "c3"))
        (PasskeyHttpProps.xh_hash (lit "sso") ++ ["005"%char] ++ ["000"; "000"; "000"; "002"]%char) (lit "signed") [] (lit "bob@x")))) =
  PasskeyHttpModel.ASession PasskeyHttpProps.xh_bob {| PasskeyModel.k_id := lit "k1"; PasskeyModel.k_pub := CborProps.x14_key; PasskeyModel.k_rp := PasskeyHttpProps.xh_hash (lit "sso") |} (lit "sso") (lit "https://sso/keys").
Proof.
  split; [repeat split|]. split; [|vm_compute; reflexivity].
  exists "005"%char, ["000"; "000"; "000"; "002"]%char. repeat split.
Qed.
