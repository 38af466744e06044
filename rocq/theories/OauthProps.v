(** C112: an OpenID login sends the provider requests that it can read, and an honest login
    succeeds. *)
From Verif Require Import Base XfccModel SamlModel SamlSpec SamlProofs OauthModel OauthSpec OauthProofs.
From Verif Require SamlProofs2 XfccProofs JwksModel JwksProofs LoginModel TokenModel.
Open Scope nat_scope.
Local Notation "! s" := (lit s%string) (at level 9, s at level 0).

(** *** Examples *)
Definition ex_lib : OauthModel.lib :=
  {| l_sha256 := fun s => firstn 3 s; l_url := fun _ => true;
     l_jwt := fun t => if str_eqb t !"good" then
       Some {| u_sub := !"7"; u_iss := Some !"https://idp.example.com"; u_email := !"bob@example.com"; u_verified := Some true; u_nonce := [];
               u_name := !"Bob"; u_given := []; u_middle := []; u_family := []; u_picture := []; u_avatar := !"https://x/a.png"; u_domain := !"example.com" |} else None |}.
Definition ex_cfg : OauthModel.config :=
  {| o_auth := !"https://idp.example.com/auth"; o_token := !"https://idp.example.com/oauth/token"; o_info := []; o_scopes := [];
     o_redirect := !"https://login.example.com/cb?x=1"; o_client := !"id & co"; o_secret := !"s=1"; o_domain := !"example.com" |}.
Definition ex_opts : list option_fn := [WithLoginHint !"al@example.com"; WithLoginHint !"bob@example.com"; WithSelectAccount true].
Definition ex_start : client * OauthModel.answer :=
  OauthModel.step ex_lib ex_cfg fresh_client (ERequest ex_opts !"/" !"https://www.example.com/page" !"AB" !"secret" 1000).
Definition ex_url : str :=
  !"https://idp.example.com/auth?response_type=code&client_id=id+%26+co&scope=openid+email&redirect_uri=https%3A%2F%2Flogin.example.com%2Fcb%3Fx%3D1&state=4142&nonce=4142&code_challenge=YzJW&code_challenge_method=S256&hd=example.com&login_hint=bob%40example.com&prompt=select_account".
Lemma ex_proper : OauthSpec.proper ex_cfg.
Proof. split; [split; [reflexivity|repeat constructor]|]. split; [intros I; cbn in I; intuition discriminate|]. split; [intros I; cbn in I; intuition discriminate|]. constructor. Qed.

(** *** The request for a code *)

(** The browser is sent to the authorization endpoint with exactly these parameters, each of them
    once, whatever characters the values have: the configured ones, the login hint and the
    choice of accounts of the last options, the same random value as state and nonce, which the
    browser also gets as a cookie, and the hash of the verifier. *)
Theorem C112_request : forall l cfg st opts dir url raw secret now st' cookie loc, OauthSpec.proper cfg ->
  OauthModel.step l cfg st (ERequest opts dir url raw secret now) = (st', Away cookie loc) ->
  cookie = hex raw /\ page_of loc = o_auth cfg /\
  params (query_of loc) =
    [(!"response_type", !"code"); (!"client_id", o_client cfg); (!"scope", join " " (wanted_scopes cfg)); (!"redirect_uri", o_redirect cfg);
     (!"state", cookie); (!"nonce", cookie); (!"code_challenge", JwksModel.b64u (l_sha256 l (JwksModel.b64u secret))); (!"code_challenge_method", !"S256")] ++
    match unless_empty (o_domain cfg) with Some d => [(!"hd", d)] | None => [] end ++
    match hint_of opts with Some (c :: r) => [(!"login_hint", c :: r)] | _ => [] end ++
    match select_of opts with Some true => [(!"prompt", !"select_account")] | _ => [] end.
Proof.
  intros l cfg st opts dir url raw secret now st' cookie loc (P1 & P2 & P3 & _) H. cbn [OauthModel.step] in H. unfold OauthModel.request_login in H.
  destruct (negb (l_url l url)); [discriminate H|]. injection H as _ <- <-. split; [reflexivity|].
  rewrite location_url by now apply plain_auth. destruct (auth_parts l cfg (apply_options opts) raw secret P2 P3) as [A B]. split; [exact A|]. rewrite B.
  unfold auth_params, challenge. destruct (apply_options_from opts {| lo_hint := []; lo_select := false |}) as [H1 H2]. fold (apply_options opts) in H1, H2. rewrite H1, H2.
  assert (S : scopes_of cfg = wanted_scopes cfg) by (unfold scopes_of, wanted_scopes; destruct (o_scopes cfg); reflexivity). rewrite S.
  f_equal. f_equal; [unfold unless_empty; destruct (str_eqb (o_domain cfg) []); reflexivity|]. f_equal.
  - destruct (hint_of opts) as [[|c r]|]; reflexivity.
  - destruct (select_of opts) as [[]|]; reflexivity.
Qed.
Print Assumptions C112_request.
Example ex_request : exists st', ex_start = (st', Away !"4142" ex_url) /\ option_map q_hint (read_auth ex_url) = Some (Some !"bob@example.com").
Proof. eexists. split; vm_compute; reflexivity. Qed.

(** The verifier is one of RFC 7636: 43 characters that need no escapes, and different random
    bytes give different ones. *)
Theorem C112_verifier : forall secret, List.length secret = 32 ->
  List.length (JwksModel.b64u secret) = 43 /\ Forall (fun c => unreserved c = true) (JwksModel.b64u secret) /\
  forall other, JwksModel.b64u other = JwksModel.b64u secret -> other = secret.
Proof.
  intros secret L. rewrite b64u_length, L. split; [reflexivity|].
  split; [|intros o E; pose proof (JwksProofs.unb64u_b64u o) as U; rewrite E, JwksProofs.unb64u_b64u in U; congruence]. apply Forall_forall. intros c I. pose proof (b64u_unreserved secret) as B.
  rewrite forallb_forall in B. auto.
Qed.
Print Assumptions C112_verifier.

Lemma no_type : forall u, values_of !"response_type" (params (query_of u)) = [] -> read_auth u = None.
Proof. intros u H. unfold read_auth. cbv zeta. unfold one at 1. rewrite H. reflexivity. Qed.
(** Finding: an authorization endpoint that has a query is taken by the constructor, but its
    query is not continued: a second question mark follows.  The provider reads no response_type,
    and the value of its own parameter is another one. *)
Theorem C112_endpoint_query_refuted : forall l cfg st opts dir url raw secret now st' cookie loc page k v, plain_url (page ++ !"?" ++ k ++ !"=" ++ v) ->
  Forall (fun s => forall c, In c s -> has_char c !"?#&=%+" = false) [page; k; v] -> k <> !"response_type" ->
  o_auth cfg = page ++ !"?" ++ k ++ !"=" ++ v ->
  OauthModel.step l cfg st (ERequest opts dir url raw secret now) = (st', Away cookie loc) ->
  values_of !"response_type" (params (query_of loc)) = [] /\ read_auth loc = None /\ hd_error (params (query_of loc)) = Some (k, v ++ !"?response_type=code").
Proof.
  intros l cfg st opts dir url raw secret now st' cookie loc page k v PU F NK EA H. cbn [OauthModel.step] in H. unfold OauthModel.request_login in H.
  destruct (negb (l_url l url)); [discriminate H|]. injection H as _ _ <-. rewrite location_url by (apply plain_auth; rewrite EA; exact PU).
  rewrite auth_url_join, EA. set (nonce := hex raw). set (vf := JwksModel.b64u secret).
  inversion F as [|? ? Fp F2]; subst. inversion F2 as [|? ? Fk F3]; subst. inversion F3 as [|? ? Fv _]; subst. clear F F2 F3.
  assert (NO : forall (s : str) c, (forall c, In c s -> has_char c !"?#&=%+" = false) -> In c !"?#&=%+" -> ~ In c s).
  { intros s c A B I. specialize (A c I). destruct B as [<-|[<-|[<-|[<-|[<-|[<-|[]]]]]]]; discriminate A. }
  assert (UN : forall s : str, (forall c, In c s -> has_char c !"?#&=%+" = false) -> forall r, KeygenModel.query_unescape (s ++ r) = option_map (fun t => s ++ t) (KeygenModel.query_unescape r)).
  { intros s A r. induction s as [|c s IH]; cbn [app]; [destruct (KeygenModel.query_unescape r); reflexivity|].
    assert (N1 : Ascii.eqb c "%" = false). { destruct (Ascii.eqb c "%") eqn:E; [|reflexivity]. apply Ascii.eqb_eq in E. subst. specialize (A "%"%char (or_introl eq_refl)). discriminate A. }
    assert (N2 : Ascii.eqb c "+" = false). { destruct (Ascii.eqb c "+") eqn:E; [|reflexivity]. apply Ascii.eqb_eq in E. subst. specialize (A "+"%char (or_introl eq_refl)). discriminate A. }
    cbn [KeygenModel.query_unescape]. rewrite ?N1, ?N2, IH by (intros x I; apply A; now right). destruct (KeygenModel.query_unescape r); reflexivity. }
  unfold auth_params.
  match goal with |- context [texts ?ps] => replace ps with ((!"response_type", !"code") :: skipn 1 ps) by reflexivity; set (rest := skipn 1 ps) end.
  assert (RN : rest <> []) by discriminate.
  assert (RV : values_of !"response_type" rest = []).
  { unfold rest. cbn [skipn app]. unfold values_of. cbn [filter fst]. 
    destruct (str_eqb (o_domain cfg) []); destruct (str_eqb (lo_hint (apply_options opts)) []); destruct (lo_select (apply_options opts)); reflexivity. }
  clearbody rest.
  assert (Q : query_of ((page ++ !"?" ++ k ++ !"=" ++ v) ++ !"?" ++ join "&" (texts ((!"response_type", !"code") :: rest))) =
    (k ++ !"=" ++ v ++ !"?response_type=code") ++ "&"%char :: join "&" (texts rest)).
  { unfold query_of. rewrite cut_no.
    - rewrite <- !app_assoc. cbn [lit list_ascii_of_string app]. rewrite cut_at by (apply NO; [exact Fp|cbn; tauto]).
      unfold texts. cbn [map]. rewrite join_cons_app by (intros E; apply map_eq_nil in E; contradiction). cbn [fst snd].
      change (pair_text !"response_type" !"code") with (lit "response_type=code"). reflexivity.
    - rewrite !in_app_iff. intros [[I|[I|[I|[I|I]]]]|[I|I]].
      + revert I. apply NO; [exact Fp|cbn; tauto].
      + cbn in I. intuition discriminate.
      + revert I. apply NO; [exact Fk|cbn; tauto].
      + cbn in I. intuition discriminate.
      + revert I. apply NO; [exact Fv|cbn; tauto].
      + cbn in I. intuition discriminate.
      + apply texts_plain in I as (I & _). congruence. }
  assert (PP : params ((k ++ !"=" ++ v ++ !"?response_type=code") ++ "&"%char :: join "&" (texts rest)) = (k, v ++ !"?response_type=code") :: rest).
  { rewrite <- (params_texts rest RN) at 2. unfold params. set (f := fun p : str => _).
    replace ((k ++ !"=" ++ v ++ !"?response_type=code") ++ "&"%char :: join "&" (texts rest)) with (join "&" ((k ++ !"=" ++ v ++ !"?response_type=code") :: texts rest)) by (apply join_cons_app; intros E; apply map_eq_nil in E; contradiction).
    assert (AMP : Forall (fun p : str => ~ In "&"%char p) (texts rest)).
    { apply Forall_forall. intros p P I. apply in_map_iff in P as [[k0 v0] [<- _]]. apply pair_text_plain in I as [I _]. apply I. cbn. tauto. }
    rewrite !split_join.
    - cbn [flat_map]. replace (f (k ++ !"=" ++ v ++ !"?response_type=code")) with [(k, v ++ !"?response_type=code")]; [reflexivity|].
      unfold f. change (k ++ !"=" ++ v ++ !"?response_type=code") with (k ++ "="%char :: (v ++ !"?response_type=code")). rewrite cut_at by (apply NO; [exact Fk|cbn; tauto]).
      pose proof (UN k Fk []) as UK. cbn [KeygenModel.query_unescape option_map] in UK. rewrite app_nil_r in UK. rewrite UK, (UN v Fv).
      change (KeygenModel.query_unescape !"?response_type=code") with (Some !"?response_type=code"). cbn [option_map].
      assert (E : str_eqb (k ++ "="%char :: v ++ !"?response_type=code") [] = false) by (apply str_eqb_neq; destruct k; discriminate). rewrite E. reflexivity.
    - intros E. apply map_eq_nil in E. contradiction.
    - exact AMP.
    - discriminate.
    - constructor; [|exact AMP]. rewrite !in_app_iff. intros [I|[I|[I|I]]].
      + revert I. apply NO; [exact Fk|cbn; tauto].
      + cbn in I. intuition discriminate.
      + revert I. apply NO; [exact Fv|cbn; tauto].
      + cbn in I. intuition discriminate. }
  assert (V : values_of !"response_type" (params ((k ++ !"=" ++ v ++ !"?response_type=code") ++ "&"%char :: join "&" (texts rest))) = []).
  { rewrite PP. unfold values_of. cbn [filter fst]. apply str_eqb_neq in NK. rewrite NK. exact RV. }
  split; [rewrite Q; exact V|]. split; [|rewrite Q, PP; reflexivity]. apply no_type. rewrite Q. exact V.
Qed.
Print Assumptions C112_endpoint_query_refuted.
Example ex_tenant : exists st' cookie loc,
  OauthModel.step ex_lib {| o_auth := !"https://idp.example.com/auth?tenant=7"; o_token := []; o_info := []; o_scopes := []; o_redirect := []; o_client := []; o_secret := []; o_domain := [] |}
    fresh_client (ERequest [] !"/" !"https://www.example.com/" !"AB" !"secret" 1000) = (st', Away cookie loc) /\
  hd_error (params (query_of loc)) = Some (!"tenant", !"7?response_type=code").
Proof. do 3 eexists. split; [reflexivity|]. vm_compute. reflexivity. Qed.

(** *** The request for tokens *)

(** A callback that is let through asks the token endpoint, with exactly these parameters: the
    code that it brought, the configured values, and the verifier of the login whose state it
    brought, which began at most five minutes ago. *)
Theorem C112_token_request : forall l cfg es id form cookie now st' endpoint body,
  OauthModel.step l cfg (OauthModel.run l cfg fresh_client es) (ECallback id form cookie now) = (st', PostTo endpoint body) ->
  endpoint = o_token cfg /\ cookie = form_get !"state" form /\
  exists opts dir url raw secret t, In (ERequest opts dir url raw secret t) es /\ cookie = hex raw /\ (now <= t + 300)%Z /\
    forall k, values_of k (params body) = values_of k
      [(!"grant_type", !"authorization_code"); (!"code", form_get !"code" form); (!"redirect_uri", o_redirect cfg);
       (!"client_id", o_client cfg); (!"client_secret", o_secret cfg); (!"code_verifier", JwksModel.b64u secret)].
Proof.
  intros l cfg es id form cookie now st' endpoint body H. pose proof (begun_fresh l cfg es) as BG. set (st := OauthModel.run l cfg fresh_client es) in *.
  cbn [OauthModel.step] in H. unfold callback in H.
  set (P := fun kv : str * oauth_state => negb (5 * LoginModel.minute <? now - os_created (snd kv))%Z) in *.
  destruct (assoc (form_get !"state" form) (filter P (oc_states st))) as [s|] eqn:A; [|discriminate H].
  destruct (os_seen s || negb (str_eqb (form_get !"state" form) cookie)) eqn:B; [discriminate H|]. apply orb_false_iff in B as [B1 B2].
  apply negb_false_iff, str_eqb_spec in B2. injection H as _ <- <-. rewrite B2 in A. split; [reflexivity|]. split; [congruence|].
  apply assoc_In, filter_In in A as [I1 I2]. unfold P in I2. cbn [snd] in I2. apply negb_true_iff, Z.ltb_ge in I2.
  destruct (BG _ _ I1) as (opts & dir & raw & secret & R & E1 & _ & E2). exists opts, dir, (os_url s), raw, secret, (os_created s).
  split; [exact R|]. split; [exact E1|]. split; [unfold LoginModel.minute in I2; lia|]. intros k. rewrite token_body_values, E2. unfold token_params.
  unfold values_of. cbn [filter fst].
  destruct (str_eqb !"code" k) eqn:K1; destruct (str_eqb !"client_id" k) eqn:K2; destruct (str_eqb !"client_secret" k) eqn:K3;
    destruct (str_eqb !"redirect_uri" k) eqn:K4; destruct (str_eqb !"grant_type" k) eqn:K5; destruct (str_eqb !"code_verifier" k) eqn:K6; try reflexivity;
    match goal with X : str_eqb _ k = true, Y : str_eqb _ k = true |- _ => apply str_eqb_spec in X; subst k; vm_compute in Y; discriminate Y end.
Qed.
Print Assumptions C112_token_request.
Definition ex_callback : client * OauthModel.answer :=
  OauthModel.step ex_lib ex_cfg (fst ex_start) (ECallback 5 [(!"state", !"4142"); (!"code", !"c&1")] !"4142" 1200).
Example ex_token_request : snd ex_callback =
  PostTo !"https://idp.example.com/oauth/token"
    !"client_id=id+%26+co&client_secret=s%3D1&code=c%261&code_verifier=c2VjcmV0&grant_type=authorization_code&redirect_uri=https%3A%2F%2Flogin.example.com%2Fcb%3Fx%3D1".
Proof. vm_compute. reflexivity. Qed.

(** *** An honest login *)

Lemma honest_begin : forall l cfg before opts dir url raw secret t st1 cookie loc between id form now,
  OauthSpec.proper cfg ->
  Forall (OauthSpec.leaves l raw id (t + 300)) (before ++ between) -> (now <= t + 300)%Z ->
  OauthModel.step l cfg (OauthModel.run l cfg fresh_client before) (ERequest opts dir url raw secret t) = (st1, Away cookie loc) ->
  exists q, read_auth loc = Some q /\ q_client q = o_client cfg /\ q_redirect q = o_redirect cfg /\ q_scopes q = wanted_scopes cfg /\ cookie = q_state q /\ q_nonce q = q_state q /\
   (form_get !"state" form = q_state q ->
    let r := OauthModel.step l cfg (OauthModel.run l cfg st1 between) (ECallback id form cookie now) in
    (exists body, snd r = PostTo (o_token cfg) body /\ accepts (l_sha256 l) (o_secret cfg) q (form_get !"code" form) body) /\
    waits id ForTokens (fst r) = Some cookie /\ apart (hex raw) id (fst r) /\ cookie = hex raw /\
    exists s, assoc (hex raw) (oc_states (fst r)) = Some s /\ os_created s = t /\ os_url s = url /\ os_host s = url_host url).
Proof.
  intros l cfg before opts dir url raw secret t st1 cookie loc between id form now PR F NOW H.
  destruct (C112_request _ _ _ _ _ _ _ _ _ _ _ _ PR H) as (EC & _ & PS). apply Forall_app in F as [F1 F2].
  assert (SC : split_on " " (join " " (wanted_scopes cfg)) = wanted_scopes cfg).
  { apply split_join; unfold wanted_scopes; destruct (o_scopes cfg) as [|x y] eqn:E; cbn [List.length Nat.eqb]; try discriminate.
    - repeat constructor; intros I; cbn in I; intuition discriminate.
    - destruct PR as (_ & _ & _ & PR). rewrite E in PR. exact PR. }
  set (q := {| q_client := o_client cfg; q_redirect := o_redirect cfg; q_scopes := wanted_scopes cfg; q_state := cookie; q_nonce := cookie;
    q_challenge := JwksModel.b64u (l_sha256 l (JwksModel.b64u secret)); q_domain := unless_empty (o_domain cfg);
    q_hint := match hint_of opts with Some (c :: r) => Some (c :: r) | _ => None end;
    q_prompt := match select_of opts with Some true => Some !"select_account" | _ => None end |}).
  exists q. split; [|split; [reflexivity|split; [reflexivity|split; [reflexivity|split; [reflexivity|split; [reflexivity|]]]]]].
  { unfold read_auth. rewrite PS. unfold one, at_most_one, unless_empty.
    assert (SC' := SC). unfold q, unless_empty. clear -SC'. 
    destruct (str_eqb (o_domain cfg) []); destruct (hint_of opts) as [[|c r]|]; destruct (select_of opts) as [[]|]; cbn [app]; 
      unfold values_of; cbn -[join split_on wanted_scopes JwksModel.b64u]; rewrite SC'; reflexivity. }
  intros FS r. change (q_state q) with cookie in FS.
  pose proof (leaves_run l cfg raw id (t + 300)%Z before fresh_client F1 (fun i p n' I _ => match I with end)) as (_ & _ & A0).
  cbn [OauthModel.step] in H. unfold OauthModel.request_login in H. destruct (negb (l_url l url)); [discriminate H|]. injection H as <- _ _.
  set (st0 := OauthModel.run l cfg fresh_client before) in *.
  set (s := {| os_created := t; os_url := url; os_host := url_host url; os_verifier := JwksModel.b64u secret; os_seen := false |}) in *.
  set (st1 := {| oc_states := assoc_set (hex raw) s (oc_states st0); oc_waiting := oc_waiting st0 |}) in *.
  destruct (leaves_run l cfg raw id (t + 300)%Z between st1 F2 A0) as (K1 & _ & K3).
  specialize (K1 s). cbn [os_created s] in K1. specialize (K1 ltac:(unfold LoginModel.minute; lia) (assoc_set_eq _ _ _)).
  set (st2 := OauthModel.run l cfg st1 between) in *. subst r. cbn [OauthModel.step]. unfold callback. rewrite FS, EC.
  set (P := fun kv : str * oauth_state => negb (5 * LoginModel.minute <? now - os_created (snd kv))%Z).
  assert (A : assoc (hex raw) (filter P (oc_states st2)) = Some s).
  { apply SamlProofs2.assoc_filter; [exact K1|]. intros k'. unfold P. cbn [snd os_created s]. apply negb_true_iff, Z.ltb_ge. unfold LoginModel.minute. lia. }
  rewrite A. cbn [os_seen s orb]. rewrite str_eqb_refl. cbn [negb fst snd]. split; [|split; [|split; [|split]]].
  - eexists. split; [reflexivity|]. unfold accepts. rewrite !token_one. unfold q. cbn [q_client q_redirect q_challenge os_verifier s].
    do 5 (split; [reflexivity|]). exists (JwksModel.b64u secret). split; reflexivity.
  - unfold waits. cbn [oc_waiting find fst]. rewrite Nat.eqb_refl. reflexivity.
  - intros i p n' [E|I] NE; [injection E as <- <- <-; contradiction|]. exact (K3 i p n' I NE).
  - reflexivity.
  - exists (mark s). cbn [oc_states]. rewrite assoc_set_eq. auto.
Qed.

(** The browser brings the provider a request that it can read.  It comes back within five minutes,
    with the code and the state; then the token endpoint gets a request that it accepts for this
    code.  If its answer has an ID token about an acceptable user, with the nonce of the request
    or without one, that user has a session, and the browser is sent to the page that it wanted.
    Other logins may happen at any time in between. *)
Theorem C112_honest : forall l cfg before opts dir url raw secret t st1 cookie loc between id form now after tk c,
  OauthSpec.proper cfg -> plain_url url ->
  Forall (OauthSpec.leaves l raw id (t + 300)) (before ++ between ++ after) -> (now <= t + 300)%Z ->
  OauthModel.step l cfg (OauthModel.run l cfg fresh_client before) (ERequest opts dir url raw secret t) = (st1, Away cookie loc) ->
  exists q, read_auth loc = Some q /\ q_client q = o_client cfg /\ q_redirect q = o_redirect cfg /\ q_scopes q = wanted_scopes cfg /\
   (form_get !"state" form = q_state q ->
    let r := OauthModel.step l cfg (OauthModel.run l cfg st1 between) (ECallback id form cookie now) in
    (exists body, snd r = PostTo (o_token cfg) body /\ accepts (l_sha256 l) (o_secret cfg) q (form_get !"code" form) body) /\
    (t_id tk <> [] -> l_jwt l (t_id tk) = Some c -> u_nonce c = q_nonce q \/ u_nonce c = [] -> acceptable cfg c ->
     exists claims, snd (OauthModel.step l cfg (OauthModel.run l cfg (fst r) after) (ETokens id (Some tk))) =
       Session (u_sub c) (u_email c) cookie (url_host url) claims url /\ forall k, assoc k claims = claim_of c k)).
Proof.
  intros l cfg before opts dir url raw secret t st1 cookie loc between id form now after tk c PR PU F NOW H.
  rewrite app_assoc in F. apply Forall_app in F as [F F3].
  destruct (honest_begin l cfg before opts dir url raw secret t st1 cookie loc between id form now PR F NOW H) as (q & R & E1 & E2 & E3 & E4 & E5 & K).
  exists q. do 4 (split; [assumption|]). intros FS r. specialize (K FS). cbv zeta in K. destruct K as (KB & KW & KA & KC & s & S1 & S2 & S3 & S4).
  split; [exact KB|]. intros T J NC AC. fold r in KW, KA, S1. destruct (leaves_run l cfg raw id (t + 300)%Z after (fst r) F3 KA) as (L1 & L2 & _).
  specialize (L1 s). rewrite S2 in L1. specialize (L1 ltac:(unfold LoginModel.minute; lia) S1). set (st3 := OauthModel.run l cfg (fst r) after) in *.
  assert (W : waits id ForTokens st3 = Some cookie). { unfold waits in *. rewrite L2. exact KW. }
  exists (extra_claims c). split; [|intros k; apply extra_spec]. cbn [OauthModel.step]. unfold token_answer. rewrite W.
  apply empty_false in T. rewrite T. cbn [negb]. rewrite J.
  assert (N : (if str_eqb (u_nonce c) [] then cookie else u_nonce c) = cookie).
  { destruct NC as [NC|NC]; rewrite NC; [rewrite E5, <- E4; destruct (str_eqb cookie []); reflexivity|reflexivity]. }
  rewrite (finish_ok cfg id cookie c st3 s); [|rewrite N, KC; exact L1|exact AC]. cbn [snd]. rewrite N, S3, S4, location_url by exact PU. reflexivity.
Qed.
Print Assumptions C112_honest.
Example ex_honest : snd (OauthModel.step ex_lib ex_cfg (fst ex_callback) (ETokens 5 (Some {| t_access := []; t_id := !"good"; t_type := [] |}))) =
  Session !"7" !"bob@example.com" !"4142" !"www.example.com"
    [(!"source", !"https://idp.example.com"); (!"hd", !"example.com"); (!"name", !"Bob"); (!"picture", !"https://x/a.png")] !"https://www.example.com/page".
Proof. vm_compute. reflexivity. Qed.

(** Without an ID token, the user info endpoint is asked with the access token, and what it says
    counts; the issuer is this endpoint if it does not name another one. *)
Theorem C112_honest_info : forall l cfg before opts dir url raw secret t st1 cookie loc between id form now after tk later c q,
  OauthSpec.proper cfg -> plain_url url ->
  Forall (OauthSpec.leaves l raw id (t + 300)) (before ++ between ++ after ++ later) -> (now <= t + 300)%Z ->
  OauthModel.step l cfg (OauthModel.run l cfg fresh_client before) (ERequest opts dir url raw secret t) = (st1, Away cookie loc) ->
  read_auth loc = Some q -> form_get !"state" form = q_state q ->
  t_id tk = [] -> o_info cfg <> [] -> t_type tk = [] \/ map lower_char (t_type tk) = !"bearer" ->
  u_nonce c = q_nonce q \/ u_nonce c = [] -> acceptable cfg c ->
  let r := OauthModel.step l cfg (OauthModel.run l cfg st1 between) (ECallback id form cookie now) in
  let r2 := OauthModel.step l cfg (OauthModel.run l cfg (fst r) after) (ETokens id (Some tk)) in
  snd r2 = GetFrom (o_info cfg) (!"Bearer " ++ t_access tk) /\
  exists claims, snd (OauthModel.step l cfg (OauthModel.run l cfg (fst r2) later) (EInfo id (Some c))) =
       Session (u_sub c) (u_email c) cookie (url_host url) claims url /\
    forall k, assoc k claims = if str_eqb k !"source" then Some (match u_iss c with Some i => i | None => o_info cfg end) else claim_of c k.
Proof.
  intros l cfg before opts dir url raw secret t st1 cookie loc between id form now after tk later c q PR PU F NOW H RA FS T IE TT NC AC r r2.
  rewrite app_assoc in F. apply Forall_app in F as [F F3]. apply Forall_app in F3 as [F3 F4].
  destruct (honest_begin l cfg before opts dir url raw secret t st1 cookie loc between id form now PR F NOW H) as (q' & R & E1 & E2 & E3 & E4 & E5 & K).
  assert (q' = q) by congruence. subst q'. specialize (K FS). cbv zeta in K. destruct K as (KB & KW & KA & KC & s & S1 & S2 & S3 & S4).
  fold r in KW, KA, S1. destruct (leaves_run l cfg raw id (t + 300)%Z after (fst r) F3 KA) as (L1 & L2 & L3).
  specialize (L1 s). rewrite S2 in L1. specialize (L1 ltac:(unfold LoginModel.minute; lia) S1). set (st3 := OauthModel.run l cfg (fst r) after) in *.
  assert (W : waits id ForTokens st3 = Some cookie). { unfold waits in *. rewrite L2. exact KW. }
  assert (ST : r2 = ({| oc_states := oc_states st3; oc_waiting := (id, (ForInfo, cookie)) :: oc_waiting (done id st3) |}, GetFrom (o_info cfg) (!"Bearer " ++ t_access tk))).
  { subst r2. cbn [OauthModel.step]. unfold token_answer. rewrite W, T. cbn [str_eqb negb]. apply empty_false in IE. rewrite IE. cbn [negb andb].
    assert (B : str_eqb (t_type tk) [] || str_eqb (to_lower (t_type tk)) !"bearer" = true) by (destruct TT as [->|TT]; [reflexivity|unfold to_lower; rewrite TT; apply orb_true_r]).
    rewrite B. reflexivity. }
  rewrite ST. cbn [fst snd]. split; [reflexivity|]. set (st4 := {| oc_states := _; oc_waiting := _ |}).
  assert (A4 : apart (hex raw) id st4). { intros i p n' [E|I] NE; [injection E as <- <- <-; contradiction|]. exact (done_apart _ _ id _ L3 i p n' I NE). }
  destruct (leaves_run l cfg raw id (t + 300)%Z later st4 F4 A4) as (M1 & M2 & _).
  specialize (M1 s). rewrite S2 in M1. specialize (M1 ltac:(unfold LoginModel.minute; lia) L1). set (st5 := OauthModel.run l cfg st4 later) in *.
  assert (W5 : waits id ForInfo st5 = Some cookie). { unfold waits. rewrite M2. cbn [st4 oc_waiting find fst]. rewrite Nat.eqb_refl. reflexivity. }
  exists (extra_claims (from_endpoint cfg c)). split.
  - cbn [OauthModel.step]. unfold info_answer. rewrite W5.
    assert (N : (if str_eqb (u_nonce c) [] then cookie else u_nonce c) = cookie).
    { destruct NC as [NC|NC]; rewrite NC; [rewrite E5, <- E4; destruct (str_eqb cookie []); reflexivity|reflexivity]. }
    rewrite (finish_ok cfg id cookie (from_endpoint cfg c) st5 s); [|cbn [from_endpoint u_nonce]; rewrite N, KC; exact M1|exact AC]. cbn [snd from_endpoint u_nonce u_sub u_email]. rewrite N, S3, S4, location_url by exact PU. reflexivity.
  - intros k. rewrite extra_spec. unfold claim_of. cbn [from_endpoint u_iss u_domain u_name u_given u_middle u_family u_picture u_avatar].
    destruct (str_eqb k !"source"); reflexivity.
Qed.
Print Assumptions C112_honest_info.

(** *** Only such logins *)

(** A session is for a user that the provider named in its answer to this callback and who is
    acceptable; it says what the provider said; and the page is the one of a login that began
    with the nonce, which is then used up. *)
Theorem C112_session : forall l cfg es e st' user email sid host claims loc,
  OauthModel.step l cfg (OauthModel.run l cfg fresh_client es) e = (st', Session user email sid host claims loc) ->
  assoc sid (oc_states st') = None /\
  exists c, acceptable cfg c /\ user = u_sub c /\ email = u_email c /\ (u_nonce c <> [] -> sid = u_nonce c) /\ (forall k, assoc k claims = claim_of c k) /\
  ((exists id t, e = ETokens id (Some t) /\ t_id t <> [] /\ l_jwt l (t_id t) = Some c) \/
   (exists id c', e = EInfo id (Some c') /\ c = from_endpoint cfg c')) /\
  exists opts dir url raw secret t, In (ERequest opts dir url raw secret t) es /\ sid = hex raw /\ host = url_host url /\ (plain_url url -> loc = url).
Proof.
  intros l cfg es e st' user email sid host claims loc H. pose proof (begun_fresh l cfg es) as BG. set (st := OauthModel.run l cfg fresh_client es) in *.
  assert (G : exists id state c, finish cfg id state c st = (st', Session user email sid host claims loc) /\
    ((exists id t, e = ETokens id (Some t) /\ t_id t <> [] /\ l_jwt l (t_id t) = Some c) \/ (exists id c', e = EInfo id (Some c') /\ c = from_endpoint cfg c'))).
  { destruct e as [opts dir url raw secret now|id form cookie now|id a|id a]; cbn [OauthModel.step] in H.
    - unfold OauthModel.request_login in H. destruct (negb (l_url l url)); discriminate H.
    - unfold callback in H. destruct (assoc _ _) as [s|]; [|discriminate H]. destruct (_ || _) in H; discriminate H.
    - unfold token_answer in H. destruct (waits id ForTokens st) as [state|]; [|discriminate H]. destruct a as [t|]; [|discriminate H].
      destruct (negb (str_eqb (t_id t) [])) eqn:T; [|destruct (_ && _) in H; discriminate H]. destruct (l_jwt l (t_id t)) as [c|] eqn:J; [|discriminate H].
      exists id, state, c. split; [exact H|]. left. exists id, t. apply negb_true_iff, empty_false in T. auto.
    - unfold info_answer in H. destruct (waits id ForInfo st) as [state|]; [|discriminate H]. destruct a as [c|]; [|discriminate H].
      exists id, state, (from_endpoint cfg c). split; [exact H|]. right. eauto. }
  destruct G as (id & state & c & FN & W). apply finish_session in FN as (A & -> & -> & E & -> & N & s & S1 & -> & ->). split; [exact N|].
  exists c. split; [exact A|]. split; [reflexivity|]. split; [reflexivity|].
  split; [intros U; apply empty_false in U; rewrite U in E; exact E|]. split; [intros k; apply extra_spec|]. split; [exact W|].
  apply assoc_In in S1. destruct (BG _ _ S1) as (opts & dir & raw & secret & R & E1 & E2 & _). exists opts, dir, (os_url s), raw, secret, (os_created s).
  split; [exact R|]. split; [exact E1|]. split; [exact E2|]. intros PU. now apply location_url.
Qed.
Print Assumptions C112_session.

(** *** What goes wrong *)

(** Finding: users without a "sub" never get a session, whatever their address is.  Providers that
    are not OpenID providers do not have it: GitHub, whose configuration is given as an example in
    examples/sso/README.md:105-118 and whose avatar_url is read, answers with "id" and "login". *)
Theorem C112_no_subject_refuted : forall l cfg st e st' user email sid host claims loc,
  (forall id t c, e = ETokens id (Some t) -> l_jwt l (t_id t) = Some c -> u_sub c = []) -> (forall id c, e = EInfo id (Some c) -> u_sub c = []) ->
  OauthModel.step l cfg st e <> (st', Session user email sid host claims loc).
Proof.
  intros l cfg st e st' user email sid host claims loc N1 N2 H.
  destruct e as [opts dir url raw secret now|id form cookie now|id a|id a]; cbn [OauthModel.step] in H.
  - unfold OauthModel.request_login in H. destruct (negb (l_url l url)); discriminate H.
  - unfold callback in H. destruct (assoc _ _) as [s|]; [|discriminate H]. destruct (_ || _) in H; discriminate H.
  - unfold token_answer in H. destruct (waits id ForTokens st) as [state|]; [|discriminate H]. destruct a as [t|]; [|discriminate H].
    destruct (negb (str_eqb (t_id t) [])) eqn:T; [|destruct (_ && _) in H; discriminate H]. destruct (l_jwt l (t_id t)) as [c|] eqn:J; [|discriminate H].
    apply finish_session in H as ((A & _) & _). apply A. eapply N1; [reflexivity|exact J].
  - unfold info_answer in H. destruct (waits id ForInfo st) as [state|]; [|discriminate H]. destruct a as [c|]; [|discriminate H].
    apply finish_session in H as ((A & _) & _). apply A. apply (N2 id c eq_refl).
Qed.
Print Assumptions C112_no_subject_refuted.
Definition github : OauthModel.config :=
  {| o_auth := !"https://github.com/login/oauth/authorize"; o_token := !"https://github.com/login/oauth/access_token"; o_info := !"https://api.github.com/user";
     o_scopes := [!"user"]; o_redirect := !"https://login.example.com/oauth2/github"; o_client := !"id"; o_secret := !"secret"; o_domain := [] |}.
Definition octocat : user_claims :=
  {| u_sub := []; u_iss := None; u_email := !"octocat@github.com"; u_verified := None; u_nonce := []; u_name := !"Octo Cat"; u_given := []; u_middle := []; u_family := [];
     u_picture := []; u_avatar := !"https://github.com/images/octocat.gif"; u_domain := [] |}.
Example ex_github : exists st1 loc st2 body st3,
  OauthModel.step ex_lib github fresh_client (ERequest [] !"/" !"https://www.example.com/" !"AB" !"secret" 1000) = (st1, Away !"4142" loc) /\ read_auth loc <> None /\
  OauthModel.step ex_lib github st1 (ECallback 5 [(!"code", !"c"); (!"state", !"4142")] !"4142" 1010) = (st2, PostTo (o_token github) body) /\
  OauthModel.step ex_lib github st2 (ETokens 5 (Some {| t_access := !"gho_1"; t_id := []; t_type := !"bearer" |})) = (st3, GetFrom (o_info github) !"Bearer gho_1") /\
  snd (OauthModel.step ex_lib github st3 (EInfo 5 (Some octocat))) = Status 500.
Proof.
  do 5 eexists. split; [reflexivity|]. split; [intros H; vm_compute in H; discriminate H|]. split; [reflexivity|]. split; reflexivity.
Qed.

(** Finding: a user who refuses, or whom the provider refuses, comes back with an error and without
    a code (RFC 6749, section 4.1.2.1).  The error is not looked at: the token endpoint is asked for
    tokens for the empty code. *)
Theorem C112_denied_refuted : forall l cfg before opts dir url raw secret t st1 cookie loc id form now,
  OauthSpec.proper cfg -> Forall (OauthSpec.leaves l raw id (t + 300)) before -> (now <= t + 300)%Z ->
  OauthModel.step l cfg (OauthModel.run l cfg fresh_client before) (ERequest opts dir url raw secret t) = (st1, Away cookie loc) ->
  form = [(!"error", !"access_denied"); (!"state", cookie)] ->
  exists body, snd (OauthModel.step l cfg st1 (ECallback id form cookie now)) = PostTo (o_token cfg) body /\ one !"code" (params body) = Some [].
Proof.
  intros l cfg before opts dir url raw secret t st1 cookie loc id form now PR F NOW H ->.
  destruct (honest_begin l cfg before opts dir url raw secret t st1 cookie loc [] id [(!"error", !"access_denied"); (!"state", cookie)] now PR) as (q & R & E1 & E2 & E3 & E4 & E5 & K);
    [rewrite app_nil_r; exact F|exact NOW|exact H|]. specialize (K E4). cbv zeta in K. destruct K as ((body & B & AC) & _). exists body. split; [exact B|].
  destruct AC as (_ & AC & _). exact AC.
Qed.
Print Assumptions C112_denied_refuted.

(** Finding: the status of the token endpoint's answer is not looked at either.  When it refuses a
    code and there is a user info endpoint, that endpoint is asked with an empty access token. *)
Theorem C112_token_error_refuted : forall l cfg st id state, o_info cfg <> [] -> waits id ForTokens st = Some state ->
  snd (OauthModel.step l cfg st (ETokens id (Some {| t_access := []; t_id := []; t_type := [] |}))) = GetFrom (o_info cfg) !"Bearer ".
Proof.
  intros l cfg st id state IE W. cbn [OauthModel.step]. unfold token_answer. rewrite W. cbn [t_id t_type t_access str_eqb negb orb]. apply empty_false in IE. rewrite IE. reflexivity.
Qed.
Print Assumptions C112_token_error_refuted.

(** Pending logins are forgotten after five minutes, but only when a callback comes. *)
Theorem C112_pending_partial : forall l cfg st id form cookie now n s,
  In (n, s) (oc_states (fst (OauthModel.step l cfg st (ECallback id form cookie now)))) -> (now <= os_created s + 300)%Z.
Proof.
  intros l cfg st id form cookie now n s I. cbn [OauthModel.step] in I. unfold callback in I.
  set (P := fun kv : str * oauth_state => negb (5 * LoginModel.minute <? now - os_created (snd kv))%Z) in *.
  assert (Q : forall x, In x (filter P (oc_states st)) -> (now <= os_created (snd x) + 300)%Z).
  { intros x J. apply filter_In in J as [_ J]. unfold P in J. apply negb_true_iff, Z.ltb_ge in J. unfold LoginModel.minute in J. lia. }
  destruct (assoc (form_get !"state" form) (filter P (oc_states st))) as [s0|] eqn:A.
  - assert (J : In (n, s) (assoc_set (form_get !"state" form) (mark s0) (filter P (oc_states st)))) by (destruct (_ || _) in I; exact I).
    destruct J as [E|J]; [|apply del_in in J; exact (Q _ J)]. injection E as _ <-. apply assoc_In in A. exact (Q _ A).
  - exact (Q _ I).
Qed.
Print Assumptions C112_pending_partial.
(** Finding: anybody can begin logins, and without callbacks all of them are kept, whatever the
    clock says. *)
Theorem C112_pending_refuted : forall l cfg raws dir url secret now, NoDup raws -> (forall u, l_url l u = true) ->
  List.length (oc_states (OauthModel.run l cfg fresh_client (map (fun r => ERequest [] dir url r secret (now r)) raws))) = List.length raws.
Proof.
  intros l cfg raws dir url secret now ND U.
  assert (G : forall raws st, NoDup raws -> (forall r, In r raws -> ~ In (hex r) (map fst (oc_states st))) ->
    List.length (oc_states (OauthModel.run l cfg st (map (fun r => ERequest [] dir url r secret (now r)) raws))) = List.length raws + List.length (oc_states st)).
  { clear raws ND. induction raws as [|r raws IH]; intros st ND NI; [reflexivity|]. inversion ND; subst. cbn [map OauthModel.run OauthModel.step].
    unfold OauthModel.request_login at 1. rewrite U. cbn [negb fst].
    assert (D : assoc_del (hex r) (oc_states st) = oc_states st).
    { specialize (NI r (or_introl eq_refl)). clear -NI. unfold assoc_del. induction (oc_states st) as [|[k v] m IH]; [reflexivity|]. cbn [filter fst map] in *.
      assert (E : str_eqb (hex r) k = false) by (apply str_eqb_neq; intros E; apply NI; left; now symmetry). rewrite E. cbn [negb]. f_equal. apply IH. intros J. apply NI. now right. }
    rewrite IH; [|assumption|].
    - cbn [oc_states]. unfold assoc_set. rewrite D. cbn [List.length]. lia.
    - intros r' I. cbn [oc_states]. unfold assoc_set. rewrite D. cbn [map fst]. intros [E|J]; [apply XfccProofs.hex_injective in E; subst; contradiction|].
      revert J. apply NI. now right. }
  rewrite (G raws fresh_client ND); [cbn; lia|]. intros r _ [].
Qed.
Print Assumptions C112_pending_refuted.

(** *** The built-in provider *)

(** The client and the server of this program fit together.  If the client is registered at the
    server and does not ask for a domain, a user who is logged in there, with an ID and an address,
    gets a code for the address to which the browser was sent, the code is exchanged for an ID token,
    and the client makes a session for that user. *)
Lemma form_one : forall k l v, one k l = Some v -> form_get k l = v.
Proof.
  intros k l v H. unfold one, values_of in H. unfold form_get. induction l as [|[k' v'] l IH]; [discriminate H|]. cbn [filter fst assoc] in *. rewrite str_eqb_sym.
  destruct (str_eqb k' k); [|exact (IH H)]. cbn [map snd] in H. destruct (map snd (filter _ l)); [congruence|discriminate H].
Qed.
Lemma request_asks : forall user loc q, read_auth loc = Some q ->
  ask user loc = {| LoginModel.ar_user := Some user; LoginModel.ar_response_type := !"code"; LoginModel.ar_client := q_client q; LoginModel.ar_redirect := q_redirect q;
                    LoginModel.ar_nonce := q_nonce q; LoginModel.ar_scopes := q_scopes q; LoginModel.ar_state := q_state q |}.
Proof.
  intros user loc q H. unfold read_auth in H. set (l := params (query_of loc)) in *. cbv zeta in H. unfold ask. fold l. cbv zeta.
  destruct (one !"response_type" l) as [ty|] eqn:E1; [|discriminate H]. destruct (one !"code_challenge_method" l) as [m|]; [|discriminate H].
  destruct (one !"client_id" l) as [cl|] eqn:E2; [|discriminate H]. destruct (one !"redirect_uri" l) as [re|] eqn:E3; [|discriminate H].
  destruct (one !"scope" l) as [sc|] eqn:E4; [|discriminate H]. destruct (one !"state" l) as [s|] eqn:E5; [|discriminate H].
  destruct (one !"nonce" l) as [n|] eqn:E6; [|discriminate H]. destruct (one !"code_challenge" l) as [ch|]; [|discriminate H].
  destruct (at_most_one !"hd" l); [|discriminate H]. destruct (at_most_one !"login_hint" l); [|discriminate H]. destruct (at_most_one !"prompt" l); [|discriminate H].
  destruct (str_eqb ty !"code" && str_eqb m !"S256") eqn:B; [|discriminate H]. apply andb_true_iff in B as [B _]. apply str_eqb_spec in B. injection H as <-.
  cbn [q_client q_redirect q_nonce q_scopes q_state]. rewrite (form_one _ _ _ E1), (form_one _ _ _ E2), (form_one _ _ _ E3), (form_one _ _ _ E4), (form_one _ _ _ E5), (form_one _ _ _ E6), B. reflexivity.
Qed.
Theorem C112_builtin : forall l cfg before opts dir url raw secret t st1 cookie loc between id form now after scfg keys ts code access user sub email sv enc uris,
  OauthSpec.proper cfg -> plain_url url -> o_domain cfg = [] -> In !"email" (wanted_scopes cfg) -> raw <> [] ->
  Forall (OauthSpec.leaves l raw id (t + 300)) (before ++ between ++ after) -> (now <= t + 300)%Z ->
  In {| LoginModel.cl_id := o_client cfg; LoginModel.cl_secret := o_secret cfg; LoginModel.cl_uris := uris |} (LoginModel.cf_clients scfg) -> In (o_redirect cfg) uris ->
  LoginModel.cf_parses scfg (o_redirect cfg) = true -> TokenModel.pick ts TokenModel.RSA keys None <> None ->
  assoc !"sub" user = Some (TokenModel.VStr sub) -> assoc !"email" user = Some (TokenModel.VStr email) -> sub <> [] -> email <> [] ->
  (forall j, TokenModel.t_claims j = TokenModel.oidc_claims (LoginModel.cf_issuer scfg) (o_client cfg) user ts cookie (wanted_scopes cfg) ->
     enc j <> [] /\ l_jwt l (enc j) = Some (said (TokenModel.t_claims j))) ->
  OauthModel.step l cfg (OauthModel.run l cfg fresh_client before) (ERequest opts dir url raw secret t) = (st1, Away cookie loc) ->
  exists sv1 sc, LoginModel.authorize scfg keys ts code access [] (ask user loc) sv = (sv1, LoginModel.SendTo (o_redirect cfg) cookie code sc) /\
  (form_get !"state" form = cookie -> form_get !"code" form = code ->
   let r := OauthModel.step l cfg (OauthModel.run l cfg st1 between) (ECallback id form cookie now) in
   exists body, snd r = PostTo (o_token cfg) body /\
   forall sv2, assoc code (LoginModel.sv_codes sv2) = assoc code (LoginModel.sv_codes sv1) ->
   exists j, snd (LoginModel.exchange scfg (redeem body) sv2) = LoginModel.Tokens j access sc /\
   exists claims, snd (OauthModel.step l cfg (OauthModel.run l cfg (fst r) after) (ETokens id (Some {| t_access := access; t_id := enc j; t_type := !"Bearer" |}))) =
     Session sub email cookie (url_host url) claims url /\ assoc !"source" claims = Some (LoginModel.cf_issuer scfg)).
Proof.
  intros l cfg before opts dir url raw secret t st1 cookie loc between id form now after scfg keys ts code access user sub email sv enc uris PR PU DO ES RN F NOW CL UR PA PK US UE SN EN EJ H.
  apply mem_spec in UR. pose proof (app_assoc before between after) as AA. pose proof F as F0. rewrite AA in F0. apply Forall_app in F0 as [F0 _].
  destruct (honest_begin l cfg before opts dir url raw secret t st1 cookie loc between id form now PR F0 NOW H) as (q & R & E1 & E2 & E3 & E4 & E5 & _).
  destruct (C112_request _ _ _ _ _ _ _ _ _ _ _ _ PR H) as (EC & _).
  rewrite (request_asks user loc q R), E1, E2, E3, E5, <- E4. unfold LoginModel.authorize.
  cbn [LoginModel.ar_user LoginModel.ar_response_type LoginModel.ar_client LoginModel.ar_redirect LoginModel.ar_nonce LoginModel.ar_scopes LoginModel.ar_state].
  change (str_eqb !"code" !"code") with true. cbn [negb].
  assert (C1 : existsb (fun c => str_eqb (LoginModel.cl_id c) (o_client cfg) && mem (o_redirect cfg) (LoginModel.cl_uris c)) (LoginModel.cf_clients scfg) = true).
  { apply existsb_exists. eexists. split; [exact CL|]. cbn [LoginModel.cl_id LoginModel.cl_secret LoginModel.cl_uris]. rewrite !str_eqb_refl, UR. reflexivity. }
  rewrite C1, PA. cbn [negb TokenModel.apply_rewrites fold_left]. unfold TokenModel.create_token.
  destruct (TokenModel.pick ts TokenModel.RSA keys None) as [k|]; [|contradiction]. 
  set (cl := TokenModel.oidc_claims (LoginModel.cf_issuer scfg) (o_client cfg) user ts cookie (wanted_scopes cfg)).
  set (j := {| TokenModel.t_kid := TokenModel.kid k; TokenModel.t_claims := cl; TokenModel.t_signer := Some (TokenModel.kid k, TokenModel.ktyp k) |}).
  do 2 eexists. split; [reflexivity|]. intros FS FC. set (r := OauthModel.step l cfg (OauthModel.run l cfg st1 between) (ECallback id form cookie now)).
  assert (ME : mem !"email" (wanted_scopes cfg) = true) by (apply mem_spec; exact ES).
  assert (CN : cookie <> []) by (rewrite EC; destruct raw; [contradiction|discriminate]). pose proof (proj2 (str_eqb_neq _ _) CN) as CN'.
  assert (SA : u_sub (said cl) = sub /\ u_email (said cl) = email /\ u_verified (said cl) = Some true /\ u_nonce (said cl) = cookie /\ u_iss (said cl) = Some (LoginModel.cf_issuer scfg)).
  { unfold said, cl, TokenModel.oidc_claims. rewrite US, UE, ME, CN'. cbn [u_sub u_email u_verified u_nonce u_iss app]. repeat split; reflexivity. }
  destruct SA as (A1 & A2 & A3 & A4 & A5).
  destruct (C112_honest l cfg before opts dir url raw secret t st1 cookie loc between id form now after {| t_access := access; t_id := enc j; t_type := !"Bearer" |} (said cl) PR PU F NOW H) as (q' & R' & _ & _ & _ & K).
  assert (q' = q) by congruence. subst q'. specialize (K ltac:(congruence)). cbv zeta in K. fold r in K. destruct K as ((body & B1 & B2) & K).
  exists body. split; [exact B1|]. intros sv2 S2. exists j. split.
  - destruct B2 as (G1 & G2 & G3 & G4 & G5 & _). unfold LoginModel.exchange, redeem.
    cbn [LoginModel.tr_post LoginModel.tr_grant LoginModel.tr_code LoginModel.tr_client LoginModel.tr_secret LoginModel.tr_redirect negb].
    rewrite (form_one _ _ _ G1), (form_one _ _ _ G2), (form_one _ _ _ G3), (form_one _ _ _ G4), (form_one _ _ _ G5), str_eqb_refl, E1, E2, FC. cbn [negb].
    assert (C2 : existsb (fun c => str_eqb (LoginModel.cl_id c) (o_client cfg) && str_eqb (LoginModel.cl_secret c) (o_secret cfg) && mem (o_redirect cfg) (LoginModel.cl_uris c)) (LoginModel.cf_clients scfg) = true).
    { apply existsb_exists. eexists. split; [exact CL|]. cbn [LoginModel.cl_id LoginModel.cl_secret LoginModel.cl_uris]. rewrite !str_eqb_refl, UR. reflexivity. }
    rewrite C2. cbn [negb]. rewrite S2. cbn [LoginModel.sv_codes]. rewrite assoc_set_eq. cbn [LoginModel.cd_client LoginModel.cd_token LoginModel.cd_access LoginModel.cd_scope].
    rewrite str_eqb_refl. reflexivity.
  - destruct (EJ j eq_refl) as [J1 J2]. destruct (K J1 J2) as (claims & K1 & K2).
    + left. congruence.
    + unfold acceptable. rewrite A1, A2, A3, DO. repeat split; try assumption; [discriminate|contradiction..].
    + exists claims. rewrite A1, A2 in K1. split; [exact K1|]. rewrite K2. unfold claim_of. rewrite str_eqb_refl, A5. reflexivity.
Qed.
Print Assumptions C112_builtin.
(** Finding: the server does not say to which domain users belong, so a client that asks for a
    domain, even for any domain, refuses all of its users. *)
Theorem C112_builtin_domain_refuted : forall l cfg st id state j issuer client user ts nonce scopes, o_domain cfg <> [] ->
  waits id ForTokens st = Some state -> t_id j <> [] -> l_jwt l (t_id j) = Some (said (TokenModel.oidc_claims issuer client user ts nonce scopes)) ->
  exists code, snd (OauthModel.step l cfg st (ETokens id (Some j))) = Status code.
Proof.
  intros l cfg st id state j issuer client user ts nonce scopes DO W TI J. cbn [OauthModel.step]. unfold token_answer. rewrite W. apply empty_false in TI, DO. rewrite TI, J. cbn [negb].
  set (c := said _). assert (D : u_domain c = []).
  { unfold c, said. cbn [u_domain]. assert (N : assoc !"hd" (TokenModel.oidc_claims issuer client user ts nonce scopes) = None).
    { apply assoc_None. unfold TokenModel.oidc_claims. rewrite !map_app, !in_app_iff. intros [I|[I|[I|I]]].
      - cbn in I. intuition discriminate.
      - destruct (str_eqb nonce []); cbn in I; intuition discriminate.
      - destruct (mem !"email" scopes); [|exact I]. destruct (assoc !"email" user); cbn in I; intuition discriminate.
      - destruct (mem !"profile" scopes); [|exact I]. apply in_map_iff in I as [[k v] [E I]]. cbn [fst] in E. subst k. apply in_concat in I as [x [X I]].
        apply in_map_iff in X as [k [<- X]]. destruct (assoc k user); [|destruct I]. destruct I as [E|[]]. injection E as E _. subst k.
        cbn in X. intuition discriminate. }
    rewrite N. reflexivity. }
  unfold finish. destruct (assoc _ _); [|eexists; reflexivity]. destruct (str_eqb (u_email c) []); [eexists; reflexivity|].
  destruct (match u_verified c with Some false => true | _ => false end); [eexists; reflexivity|]. rewrite DO, D. cbn [str_eqb negb andb orb]. eexists. reflexivity.
Qed.
Print Assumptions C112_builtin_domain_refuted.
