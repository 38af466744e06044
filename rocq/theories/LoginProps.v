(** Theorems C34-C38 and C56: logins. *)
From Verif Require Import Base TokenModel LoginModel LoginSpec LoginProofs LoginProofs2.
Open Scope Z_scope.

(** ** C34 *)
Theorem C34_code_at_most_once : forall cfg ops code,
  (exchanges code (outputs cfg ops) <= draws code ops)%nat /\
  (NoDup (codes_drawn ops) -> exchanges code (outputs cfg ops) <= 1)%nat.
Proof.
  intros cfg ops code. pose proof (exchanges_bound cfg ops code). split; [lia|].
  intros N. pose proof (NoDup_count code _ N). rewrite <- draws_count in *. lia.
Qed.
Print Assumptions C34_code_at_most_once.

(** Tokens are given only for a code that was sent out for this client, to a request
    with this client's secret; they are the ones made for the user who was logged in
    then; and no request later than two minutes after that swept the store meanwhile. *)
Theorem C34_code_only_for_its_client : forall cfg before tr t a s,
  answer cfg before (Exchange tr) = Tokens t a s ->
  registered_secret cfg (tr_client tr) (tr_secret tr) (tr_redirect tr) /\
  exists pre between keys now rw ar user,
    before = pre ++ Authorize keys now (tr_code tr) a rw ar :: between /\
    answer cfg pre (Authorize keys now (tr_code tr) a rw ar) = SendTo (ar_redirect ar) (ar_state ar) (tr_code tr) s /\
    ar_client ar = tr_client tr /\ ar_user ar = Some user /\
    create_token keys now RSA (apply_rewrites rw (oidc_claims (cf_issuer cfg) (ar_client ar) user now (ar_nonce ar) (ar_scopes ar))) = Some t /\
    (forall v, In (Vacuum v) between -> v <= now + 2 * minute).
Proof. exact exchange_origin. Qed.
Print Assumptions C34_code_only_for_its_client.

(** A token request reads the clock, [v], when it arrives, and exchanges the code after
    anything else happened [inside]: the code was issued at most two minutes before [v]. *)
Theorem C34_code_within_two_minutes : forall cfg tr t a s before v inside t0,
  clock_from t0 (before ++ Vacuum v :: inside) ->
  answer cfg (before ++ Vacuum v :: inside) (Exchange tr) = Tokens t a s ->
  exists pre between keys now rw ar,
    before ++ Vacuum v :: inside = pre ++ Authorize keys now (tr_code tr) a rw ar :: between /\
    ar_client ar = tr_client tr /\ v <= now + 2 * minute.
Proof. exact exchange_in_time. Qed.
Print Assumptions C34_code_within_two_minutes.

Theorem C34_access_token_at_most_once : forall cfg ops access,
  (infos access (outputs cfg ops) <= access_draws access ops)%nat /\
  (NoDup (accesses_drawn ops) -> infos access (outputs cfg ops) <= 1)%nat.
Proof.
  intros cfg ops access. pose proof (infos_bound cfg ops access). split; [lia|].
  intros N. pose proof (NoDup_count access _ N). rewrite <- access_draws_count in *. lia.
Qed.
Print Assumptions C34_access_token_at_most_once.

Theorem C34_user_info_of_the_user : forall cfg before access c,
  answer cfg before (UserInfo access) = Info c ->
  exists pre between keys now code rw ar user,
    before = pre ++ Authorize keys now code access rw ar :: between /\ ar_user ar = Some user /\
    (exists sc, answer cfg pre (Authorize keys now code access rw ar) = SendTo (ar_redirect ar) (ar_state ar) code sc) /\
    (forall v, In (Vacuum v) between -> v <= now + 2 * minute) /\
    c = filter (fun kv => negb (mem (fst kv) about_the_token))
          (apply_rewrites rw (oidc_claims (cf_issuer cfg) (ar_client ar) user now (ar_nonce ar) (ar_scopes ar))).
Proof.
  intros cfg before access c H. destruct (info_origin cfg before access c H) as (pre & between & keys & now & code & rw & ar & user & E & U & S & V & ->).
  exists pre, between, keys, now, code, rw, ar, user. repeat (split; [assumption|]). apply filter_ext. intros [k v]. cbn [fst]. f_equal.
  unfold hidden_claims, about_the_token. cbn [mem].
  destruct (str_eqb k (lit "iss")), (str_eqb k (lit "aud")), (str_eqb k (lit "iat")), (str_eqb k (lit "exp")), (str_eqb k (lit "nbf")),
    (str_eqb k (lit "scope")), (str_eqb k (lit "sid")), (str_eqb k (lit "nonce")); reflexivity.
Qed.
Print Assumptions C34_user_info_of_the_user.

(** A concrete server with two clients. *)
Definition ex_client : client := {| cl_id := lit "app"; cl_secret := lit "s3cret"; cl_uris := [lit "https://app/cb"; lit "https://app/other"] |}.
Definition ex_client2 : client := {| cl_id := lit "app2"; cl_secret := lit "other"; cl_uris := [lit "https://app2/cb"] |}.
Definition ex_cfg : config := {| cf_issuer := lit "https://idp"; cf_clients := [ex_client; ex_client2]; cf_parses := fun _ => true |}.
Definition ex_keys : list key := [{| kid := 1%nat; ktyp := RSA; created := 0 |}].
Definition ex_user : claims := [(lit "sub", VStr (lit "u1")); (lit "email", VStr (lit "bob@example.com"))].
Definition ex_ar : auth_request :=
  {| ar_user := Some ex_user; ar_response_type := lit "code"; ar_client := lit "app"; ar_redirect := lit "https://app/cb";
     ar_nonce := lit "n"; ar_scopes := [lit "openid"; lit "email"]; ar_state := lit "st" |}.
Definition ex_tr : token_request :=
  {| tr_post := true; tr_grant := lit "authorization_code"; tr_code := lit "c1"; tr_client := lit "app"; tr_secret := lit "s3cret"; tr_redirect := lit "https://app/cb" |}.
Definition ex_auth (t : Z) : op := Authorize ex_keys t (lit "c1") (lit "a1") [] ex_ar.

Definition is_tokens (o : output) : bool := match o with Tokens _ _ _ => true | _ => false end.
Definition is_info (o : output) : bool := match o with Info _ => true | _ => false end.
Example C34_witness :
  map (fun e => is_tokens (snd e)) (outputs ex_cfg [Vacuum 1000; ex_auth 1000; Vacuum 1120; Exchange ex_tr; Vacuum 1120; Exchange ex_tr])
    = [false; false; false; true; false; false] /\
  map (fun e => is_tokens (snd e)) (outputs ex_cfg [Vacuum 1000; ex_auth 1000; Vacuum 1121; Exchange ex_tr]) = [false; false; false; false] /\
  map (fun e => is_info (snd e)) (outputs ex_cfg [Vacuum 1000; ex_auth 1000; Exchange ex_tr; UserInfo (lit "a1"); UserInfo (lit "a1")])
    = [false; false; false; true; false].
Proof. vm_compute. repeat split; reflexivity. Qed.
Example C34_clock_witness : clock_from 0 ([Vacuum 1000; ex_auth 1000] ++ Vacuum 1120 :: []).
Proof. cbn. lia. Qed.

(** ** C35 *)

Definition ex_tr_other : token_request :=
  {| tr_post := true; tr_grant := lit "authorization_code"; tr_code := lit "c1"; tr_client := lit "app"; tr_secret := lit "s3cret"; tr_redirect := lit "https://app/other" |}.

(** A code that was sent to one redirect address is exchanged by a token request that
    names another. *)
Theorem C35_same_redirect_refuted :
  ~ (forall cfg before tr t a s pre between keys now a' rw ar,
       NoDup (codes_drawn before) ->
       before = pre ++ Authorize keys now (tr_code tr) a' rw ar :: between ->
       answer cfg before (Exchange tr) = Tokens t a s ->
       tr_redirect tr = ar_redirect ar).
Proof.
  intros H.
  assert (X : exists t a s, answer ex_cfg [ex_auth 1000] (Exchange ex_tr_other) = Tokens t a s) by (vm_compute; eauto).
  destruct X as (t & a & s & X).
  assert (N : NoDup [lit "c1"]) by (constructor; [intros []|constructor]).
  pose proof (H ex_cfg [ex_auth 1000] ex_tr_other t a s [] [] ex_keys 1000 (lit "a1") [] ex_ar N eq_refl X) as E. vm_compute in E. discriminate E.
Qed.
Print Assumptions C35_same_redirect_refuted.

(** What holds: both addresses are registered for that client. *)
Theorem C35_registered_redirect_partial : forall cfg before tr t a s,
  answer cfg before (Exchange tr) = Tokens t a s ->
  registered cfg (tr_client tr) (tr_redirect tr) /\
  exists pre between keys now rw ar,
    before = pre ++ Authorize keys now (tr_code tr) a rw ar :: between /\
    ar_client ar = tr_client tr /\ registered cfg (tr_client tr) (ar_redirect ar).
Proof.
  intros cfg before tr t a s H. apply exchange_origin in H as ((c & I & E1 & E2 & E3) & pre & between & keys & now & rw & ar & user & E & An & Cl & _).
  split; [exists c; auto|]. exists pre, between, keys, now, rw, ar. repeat split; auto.
  unfold answer in An. cbn [step] in An. apply authorize_inv in An as (_ & _ & _ & R). rewrite Cl in R. exact R.
Qed.
Print Assumptions C35_registered_redirect_partial.

(** A client with a single address cannot be confused. *)
Theorem C35_single_address : forall cfg before tr t a s,
  (forall c c', In c (cf_clients cfg) -> In c' (cf_clients cfg) -> cl_id c = cl_id c' -> c = c') ->
  (forall c, In c (cf_clients cfg) -> cl_id c = tr_client tr -> exists u, cl_uris c = [u]) ->
  answer cfg before (Exchange tr) = Tokens t a s ->
  exists pre between keys now rw ar,
    before = pre ++ Authorize keys now (tr_code tr) a rw ar :: between /\ tr_redirect tr = ar_redirect ar.
Proof.
  intros cfg before tr t a s U S H. apply C35_registered_redirect_partial in H as ((c & I & E1 & E2) & pre & between & keys & now & rw & ar & E & Cl & (c' & I' & E1' & E2')).
  exists pre, between, keys, now, rw, ar. split; [exact E|].
  assert (c = c') by (apply U; congruence). subst c'. destruct (S c I E1) as (u & Eu). rewrite Eu in E2, E2'.
  destruct E2 as [<-|[]], E2' as [<-|[]]. reflexivity.
Qed.
Print Assumptions C35_single_address.
Example C35_single_witness :
  is_tokens (answer ex_cfg [Authorize ex_keys 5 (lit "c1") (lit "a1") [] {| ar_user := Some ex_user; ar_response_type := lit "code"; ar_client := lit "app2"; ar_redirect := lit "https://app2/cb"; ar_nonce := []; ar_scopes := []; ar_state := [] |}]
    (Exchange {| tr_post := true; tr_grant := lit "authorization_code"; tr_code := lit "c1"; tr_client := lit "app2"; tr_secret := lit "other"; tr_redirect := lit "https://app2/cb" |})) = true.
Proof. vm_compute. reflexivity. Qed.

(** ** C56 *)
Theorem C56_codes_only_to_registered_addresses : forall cfg before keys now code access rw ar uri st c sc,
  answer cfg before (Authorize keys now code access rw ar) = SendTo uri st c sc ->
  (exists user, ar_user ar = Some user) /\ uri = ar_redirect ar /\ c = code /\ st = ar_state ar /\
  registered cfg (ar_client ar) uri.
Proof.
  intros cfg before keys now code access rw ar uri st c sc H. split.
  - unfold answer in H. cbn [step] in H. unfold authorize in H. destruct (ar_user ar) as [u|]; [eauto|discriminate].
  - unfold answer in H. cbn [step] in H. apply authorize_inv in H as (-> & -> & -> & R). auto.
Qed.
Print Assumptions C56_codes_only_to_registered_addresses.

(** The scope that the client is told it was granted: always openid, and of the others
    those that it asked for and that the server knows. *)
Theorem C56_granted_scope : forall cfg before keys now code access rw ar uri st c sc,
  answer cfg before (Authorize keys now code access rw ar) = SendTo uri st c sc ->
  forall w, In w (split_on " " sc) <->
    w = lit "openid" \/ (w = lit "email" \/ w = lit "profile") /\ In w (ar_scopes ar).
Proof.
  intros cfg before keys now code access rw ar uri st c sc H w. unfold answer in H. cbn [step] in H.
  destruct (authorize_spec cfg keys now code access rw ar (fst (run cfg empty_server before))) as [[_ X]|(u & t & _ & _ & X)].
  - rewrite X in H. discriminate H.
  - rewrite X in H. cbn [snd] in H. injection H as _ _ _ <-. unfold scope_of.
    destruct (mem (lit "email") (ar_scopes ar)) eqn:E1, (mem (lit "profile") (ar_scopes ar)) eqn:E2.
    all: first [apply mem_spec in E1|apply mem_false in E1]; first [apply mem_spec in E2|apply mem_false in E2].
    all: match goal with |- In ?x ?l <-> _ => let v := eval vm_compute in l in change l with v end.
    all: change ["o"; "p"; "e"; "n"; "i"; "d"]%char with (lit "openid"); try change ["e"; "m"; "a"; "i"; "l"]%char with (lit "email");
         try change ["p"; "r"; "o"; "f"; "i"; "l"; "e"]%char with (lit "profile"); cbn [In].
    all: split; [intros K; repeat destruct K as [<-|K]; try tauto|intros [->|[[->| ->] K]]; tauto].
Qed.
Print Assumptions C56_granted_scope.
Example C56_witness : answer ex_cfg [] (ex_auth 7) = SendTo (lit "https://app/cb") (lit "st") (lit "c1") (lit "openid email").
Proof. vm_compute. reflexivity. Qed.
Example C56_witness_refused :
  answer ex_cfg [] (Authorize ex_keys 7 (lit "c1") (lit "a1") []
    {| ar_user := Some ex_user; ar_response_type := lit "code"; ar_client := lit "app"; ar_redirect := lit "https://app2/cb"; ar_nonce := []; ar_scopes := []; ar_state := [] |}) = Refused.
Proof. vm_compute. reflexivity. Qed.

(** ** C36 *)
Theorem C36_same_browser_partial : forall d ops id c b s,
  NoDup (nonces ops) -> jars_ok ops -> client_answer d ops (Finish id c) = CSession b s ->
  exists before between after n t0 t1 url host,
    ops = before ++ Login b n t0 url host :: between ++ Begin id b n n t1 :: after /\
    t1 - t0 <= 5 * minute /\
    (forall id' b' cookie t, ~ In (Begin id' b' n cookie t) between) /\
    (pc_nonce c = [] \/ pc_nonce c = n -> se_url s = url /\ se_host s = host /\ se_sid s = n).
Proof. exact session_origin. Qed.
Print Assumptions C36_same_browser_partial.

Theorem C36_one_session_per_login : forall d ops n,
  NoDup (nonces ops) -> (sessions n (map snd (client_outputs d ops)) <= 1)%nat.
Proof. exact session_once. Qed.
Print Assumptions C36_one_session_per_login.

Theorem C36_user_checked : forall d ops id c b s,
  client_answer d ops (Finish id c) = CSession b s ->
  se_user s = pc_sub c /\ se_email s = pc_email c /\ pc_email c <> [] /\ pc_verified c <> Some false /\
  (d = [] \/ (d = lit "*" /\ pc_domain c <> []) \/ pc_domain c = d).
Proof. exact session_user. Qed.
Print Assumptions C36_user_checked.

(** Concrete histories. *)
Definition ex_logins : list client_op :=
  [Login 1 (lit "n1") 100 (lit "https://a/") (lit "a"); Login 2 (lit "n2") 110 (lit "https://b/") (lit "b"); Begin 7 1 (lit "n1") (lit "n1") 400].
Lemma jars_ok_ex_logins : jars_ok ex_logins.
Proof.
  intros pre id b state cookie now post E. unfold ex_logins in E.
  destruct pre as [|p1 [|p2 [|p3 [|p4 pre]]]]; try discriminate E.
  - injection E as <- <- <- <- <- <- <- <-. exists 100, (lit "https://a/"), (lit "a"). left. reflexivity.
Qed.
Lemma nonces_ex_logins : NoDup (nonces ex_logins).
Proof. vm_compute. constructor; [intros [H|[]]; discriminate H|]. constructor; [intros []|constructor]. Qed.
Definition ex_claims (nonce : str) : provider_claims :=
  {| pc_sub := lit "u1"; pc_email := lit "bob@example.com"; pc_verified := Some true; pc_nonce := nonce; pc_domain := [] |}.
Example C36_witness :
  client_answer [] ex_logins (Finish 7 (ex_claims (lit "n1"))) =
  CSession 1 {| se_user := lit "u1"; se_email := lit "bob@example.com"; se_sid := lit "n1"; se_host := lit "a"; se_url := lit "https://a/" |}.
Proof. vm_compute. reflexivity. Qed.

(** The identity token that completes the login of browser 1 may be one that the
    provider issued for the login request of browser 2: the session in browser 1 is then
    for the host and page that browser 2 asked for. *)
Theorem C36_token_for_that_login_refuted :
  ~ (forall d ops id c b s before between after n t0 t1 url host,
       NoDup (nonces ops) -> jars_ok ops ->
       ops = before ++ Login b n t0 url host :: between ++ Begin id b n n t1 :: after ->
       client_answer d ops (Finish id c) = CSession b s ->
       pc_nonce c = [] \/ pc_nonce c = n).
Proof.
  intros H.
  specialize (H [] ex_logins 7%nat (ex_claims (lit "n2")) 1%nat
    {| se_user := lit "u1"; se_email := lit "bob@example.com"; se_sid := lit "n2"; se_host := lit "b"; se_url := lit "https://b/" |}
    [] [Login 2 (lit "n2") 110 (lit "https://b/") (lit "b")] [] (lit "n1") 100 400 (lit "https://a/") (lit "a")
    nonces_ex_logins jars_ok_ex_logins eq_refl).
  vm_compute in H. destruct (H eq_refl) as [E|E]; discriminate E.
Qed.
Print Assumptions C36_token_for_that_login_refuted.

(** ** C37 *)
Theorem C37_saml_response_checked : forall cfg ops b r now later b' s,
  saml_answer cfg ops (SResponse b r now later) = CSession b' s ->
  exists a before after b0 t0 t1 t2,
    r = Some a /\ ops = before ++ SLogin b0 (as_in_response_to a) t0 (se_url s) (se_host s) :: after /\ now - t0 <= 5 * minute /\
    as_recipient a = sc_acs cfg /\ as_audience a = sc_self cfg /\
    as_not_before a = Some t1 /\ t1 <= later /\ as_not_after a = Some t2 /\ later <= t2 /\
    b' = b /\ se_sid s = as_in_response_to a /\ se_user s = as_subject a /\ se_email s = as_subject a /\ as_subject a <> [].
Proof. exact saml_session_origin. Qed.
Print Assumptions C37_saml_response_checked.

Theorem C37_saml_once : forall cfg ops n,
  NoDup (saml_ids ops) -> (sessions n (map snd (saml_outputs cfg ops)) <= 1)%nat.
Proof. exact saml_once. Qed.
Print Assumptions C37_saml_once.

Definition ex_saml : saml_config := {| sc_acs := lit "https://sso.example.com/saml"; sc_self := lit "https://sso.example.com/" |}.
Definition ex_assertion : assertion :=
  {| as_in_response_to := lit "r1"; as_recipient := lit "https://sso.example.com/saml"; as_audience := lit "https://sso.example.com/";
     as_not_before := Some 90; as_not_after := Some 400; as_subject := lit "bob@example.com" |}.
Definition ex_session : session :=
  {| se_user := lit "bob@example.com"; se_email := lit "bob@example.com"; se_sid := lit "r1"; se_host := lit "a"; se_url := lit "https://a/" |}.
Example C37_witness :
  map snd (saml_outputs ex_saml [SLogin 1 (lit "r1") 100 (lit "https://a/") (lit "a"); SResponse 1 (Some ex_assertion) 200 200; SResponse 1 (Some ex_assertion) 201 201])
  = [CNothing; CSession 1 ex_session; CRefused].
Proof. vm_compute. reflexivity. Qed.

(** The end of the validity period is exclusive (SAML core 2.5.1), but a response is
    accepted at that instant. *)
Theorem C37_end_exclusive_refuted :
  ~ (forall cfg ops b a now later b' s t, as_not_after a = Some t ->
       saml_answer cfg ops (SResponse b (Some a) now later) = CSession b' s -> later < t).
Proof.
  intros H. specialize (H ex_saml [SLogin 1 (lit "r1") 100 (lit "https://a/") (lit "a")] 1%nat ex_assertion 400 400 1%nat ex_session 400 eq_refl).
  vm_compute in H. specialize (H eq_refl). discriminate H.
Qed.
Print Assumptions C37_end_exclusive_refuted.

(** ** C38 *)

(** Browser 2 posts the response to the login that browser 1 started, and is logged in
    with it. *)
Theorem C38_saml_same_browser_refuted :
  ~ (forall cfg ops b a now later b' s b0 id t0 url host,
       NoDup (saml_ids ops) -> In (SLogin b0 id t0 url host) ops -> as_in_response_to a = id ->
       saml_answer cfg ops (SResponse b (Some a) now later) = CSession b' s -> b0 = b').
Proof.
  intros H. specialize (H ex_saml [SLogin 1 (lit "r1") 100 (lit "https://a/") (lit "a")] 2%nat ex_assertion 200 200 2%nat ex_session 1%nat (lit "r1") 100 (lit "https://a/") (lit "a")).
  assert (N : NoDup (saml_ids [SLogin 1 (lit "r1") 100 (lit "https://a/") (lit "a")])) by (vm_compute; constructor; [intros []|constructor]).
  specialize (H N (or_introl eq_refl) eq_refl). vm_compute in H. discriminate (H eq_refl).
Qed.
Print Assumptions C38_saml_same_browser_refuted.

(** What holds: the session goes to the browser that posted the response and leads to
    the page of the login request it answers, once. *)
Theorem C38_saml_session_of_the_request_partial : forall cfg ops b a now later b' s b0 t0 url host,
  NoDup (saml_ids ops) -> In (SLogin b0 (as_in_response_to a) t0 url host) ops ->
  saml_answer cfg ops (SResponse b (Some a) now later) = CSession b' s ->
  b' = b /\ se_url s = url /\ se_host s = host /\ now - t0 <= 5 * minute.
Proof.
  intros cfg ops b a now later b' s b0 t0 url host N I H.
  apply saml_session_origin in H as (a' & before & after & b1 & t1 & ta & tb & [= <-] & E & T & _ & _ & _ & _ & _ & _ & -> & _).
  split; [reflexivity|].
  assert (I1 : In (SLogin b1 (as_in_response_to a) t1 (se_url s) (se_host s)) ops) by (rewrite E; apply in_app_iff; right; left; reflexivity).
  assert (U : t0 = t1 /\ url = se_url s /\ host = se_host s).
  { clear E T. induction ops as [|o ops IH]; [destruct I|].
    change (saml_ids (o :: ops)) with ((match o with SLogin _ n _ _ _ => [n] | _ => [] end) ++ saml_ids ops) in N.
    assert (M : forall b' n t' u h, In (SLogin b' n t' u h) ops -> In n (saml_ids ops)).
    { intros b' n t' u h J. apply in_flat_map. eexists. split; [exact J|left; reflexivity]. }
    destruct I as [->|I], I1 as [E1|I1].
    - injection E1 as -> -> -> ->. auto.
    - cbn [app] in N. inversion N; subst. apply M in I1. contradiction.
    - subst o. cbn [app] in N. inversion N; subst. apply M in I. contradiction.
    - apply IH; auto. destruct o; cbn [app] in N; auto. inversion N; auto. }
  destruct U as (-> & -> & ->). auto.
Qed.
Print Assumptions C38_saml_session_of_the_request_partial.
