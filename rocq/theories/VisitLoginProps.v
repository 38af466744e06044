(** Theorems C116, continued: the sessions of OpenID and SAML logins. *)
From Coq Require Import Lia.
From Verif Require Import Base PathModel TokenModel TokenProofs HttpModel HttpSpec BrowserModel BrowserSpec BrowserProofs2 BrowserProps
  JwtModel JwtSpec JwtProofs JwtProofs2 JwtProps VisitSpec VisitProps.
From Verif Require OauthModel OauthProps SamlModel SamlSpec SamlProps LoginModel XfccModel.
Open Scope list_scope.
Open Scope Z_scope.

Lemma assoc_texts : forall l k, assoc k (text_claims_of l) = option_map VStr (assoc k l).
Proof.
  induction l as [|[k' v] l IH]; intro k; [reflexivity|]. cbn [text_claims_of map fst snd assoc]. destruct (str_eqb k k'); [reflexivity|apply IH].
Qed.

(** Sessions whose further claims are texts work, if none of them is called nbf. *)
Theorem C116_texts : forall name sign verify num user email sid host made extra,
  signs sign verify -> reads_numbers num -> user <> [] -> email <> [] -> 0 <= made <= 2 ^ 52 -> assoc (lit "nbf") extra = None ->
  session_works name sign verify num user email sid host made (text_claims_of extra).
Proof.
  intros name sign verify num user email sid host made extra SG RN NU NE MB NN hhash cm IS.
  assert (SE : exists c, session_claims hhash cm user email sid host made (text_claims_of extra) = Some c).
  { unfold session_claims. rewrite (proj2 (str_eqb_neq _ _) NU), (proj2 (str_eqb_neq _ _) NE). eexists. reflexivity. }
  destruct SE as (c & SE). exists c. split; [exact SE|].
  assert (AS := fun k => session_assoc hhash cm user email sid host made (text_claims_of extra) c k SE).
  assert (EX : exact c).
  { intros k n A. rewrite AS in A. destruct (assoc k (session_base hhash cm user email sid host made)) as [v|] eqn:B.
    - injection A as ->. apply assoc_In in B. unfold session_base in B. cbn [In] in B.
      repeat (destruct B as [B|B]; [try discriminate B; injection B as <- <-; unfold hour; lia|]). destruct B.
    - rewrite assoc_texts in A. destruct (assoc k extra); discriminate. }
  intros keys t token br before after domain h0 now path more ev be s cn CT RT N IN NW SH EH BS SC RE.
  assert (IT : in_time c (ev_now ev)).
  { split; intros v A; rewrite AS in A.
    - change (assoc (lit "exp") (session_base hhash cm user email sid host made)) with (Some (VNum (made + 20 * hour))) in A. injection A as <-. exists (made + 20 * hour). split; [reflexivity|]. right. unfold hour. lia.
    - change (assoc (lit "nbf") (session_base hhash cm user email sid host made)) with (@None cval) in A. rewrite assoc_texts, NN in A. discriminate. }
  eapply C116_visit; try eassumption. destruct RE as [RE|RE]; [left; exact RE|right; split; [reflexivity|exact RE]].
Qed.
Print Assumptions C116_texts.

(** So every session that an OpenID login makes works, whatever the provider says about the
    user. *)
Theorem C116_openid : forall name sign verify num l cfg st e st' user email sid host claims loc made,
  signs sign verify -> reads_numbers num -> 0 <= made <= 2 ^ 52 ->
  OauthModel.step l cfg st e = (st', OauthModel.Session user email sid host claims loc) ->
  session_works name sign verify num user email sid host made (text_claims_of claims).
Proof.
  intros name sign verify num l cfg st e st' user email sid host claims loc made SG RN MB H.
  assert (F : forall id state c st0 st1, OauthModel.finish cfg id state c st0 = (st1, OauthModel.Session user email sid host claims loc) ->
    user <> [] /\ email <> [] /\ claims = OauthModel.extra_claims c).
  { intros id state c st0 st1 F. unfold OauthModel.finish in F. destruct (assoc _ (OauthModel.oc_states st0)) as [s|]; [|discriminate].
    destruct (str_eqb (OauthModel.u_email c) []) eqn:E1; [discriminate|]. destruct (match OauthModel.u_verified c with Some false => true | _ => false end); [discriminate|].
    destruct (negb (str_eqb (OauthModel.o_domain cfg) []) && _); [discriminate|]. rewrite orb_false_r in F. destruct (str_eqb (OauthModel.u_sub c) []) eqn:E2; [discriminate|].
    apply (f_equal snd) in F. cbn [snd] in F. injection F as <- <- _ _ <- _. apply str_eqb_neq in E1, E2. auto. }
  assert (G : user <> [] /\ email <> [] /\ exists c, claims = OauthModel.extra_claims c).
  { destruct e as [opts dir url raw secret now|id form cookie now|id a|id a]; cbn [OauthModel.step] in H.
    - exfalso. unfold OauthModel.request_login in H. repeat (match type of H with context [match ?x with _ => _ end] => destruct x end; try discriminate H).
    - exfalso. unfold OauthModel.callback in H. repeat (match type of H with context [match ?x with _ => _ end] => destruct x end; try discriminate H).
    - unfold OauthModel.token_answer in H. destruct (OauthModel.waits _ _ _) as [state|]; [|discriminate]. destruct a as [t|]; [|discriminate].
      destruct (negb (str_eqb (OauthModel.t_id t) [])).
      + destruct (OauthModel.l_jwt l (OauthModel.t_id t)) as [c|]; [|discriminate]. apply F in H. destruct H as (A & B & C). eauto.
      + repeat (match type of H with context [match ?x with _ => _ end] => destruct x end; try discriminate H).
    - unfold OauthModel.info_answer in H. destruct (OauthModel.waits _ _ _) as [state|]; [|discriminate]. destruct a as [c|]; [|discriminate].
      apply F in H. destruct H as (A & B & C). eauto. }
  destruct G as (A & B & c & ->). apply C116_texts; try assumption. unfold OauthModel.extra_claims. cbv zeta.
  repeat match goal with |- context [str_eqb ?x []] => destruct (str_eqb x []) end; reflexivity.
Qed.
Print Assumptions C116_openid.

(** Every session that a SAML login makes works, unless the provider says something called
    nbf about the user. *)
Theorem C116_saml_partial : forall name sign verify num l cfg st o st' s claims made,
  signs sign verify -> reads_numbers num -> 0 <= made <= 2 ^ 52 ->
  SamlModel.step l cfg st o = (st', SamlModel.Session s claims) -> assoc (lit "nbf") claims = None ->
  session_works name sign verify num (LoginModel.se_user s) (LoginModel.se_email s) (LoginModel.se_sid s) (LoginModel.se_host s) made (text_claims_of claims).
Proof.
  intros name sign verify num l cfg st o st' s claims made SG RN MB H NN. destruct o as [dir url id instant now|method field now later]; cbn [SamlModel.step] in H.
  - exfalso. unfold SamlModel.request_login in H. repeat (match type of H with context [if ?x then _ else _] => destruct x end; try discriminate H).
  - unfold SamlModel.handle_callback in H. destruct (negb (str_eqb method (lit "POST"))); [discriminate|]. destruct (SamlModel.signed l field) as [|v]; [discriminate|].
    cbv zeta in H. destruct (assoc _ _) as [p|] in H; [|discriminate]. destruct (LoginModel.assertion_ok _ later _) eqn:OK; [|discriminate].
    apply (f_equal snd) in H. cbn [snd] in H. injection H as <- <-. cbn [LoginModel.se_user LoginModel.se_email LoginModel.se_sid LoginModel.se_host].
    unfold LoginModel.assertion_ok in OK. apply andb_true_iff in OK. destruct OK as [_ OK]. apply negb_true_iff, str_eqb_neq in OK.
    apply C116_texts; assumption.
Qed.
Print Assumptions C116_saml_partial.

(** If the provider gives the user an attribute called nbf then the proxy does not accept the
    session that it has just made: the claim nbf of a token has to be a number, and attributes
    become claims with the names that they have.  The user is sent to the provider again and
    again. *)
Theorem C116_saml_refuted : forall hhash name sign verify num l cfg st o st' s claims x cm made c keys t token ev h,
  signs sign verify -> reads_numbers num -> distinct name (ev_keys ev) -> reads_texts name verify num ev ->
  SamlModel.step l cfg st o = (st', SamlModel.Session s claims) -> assoc (lit "nbf") claims = Some x -> 0 <= made <= 2 ^ 52 ->
  session_claims hhash cm (LoginModel.se_user s) (LoginModel.se_email s) (LoginModel.se_sid s) (LoginModel.se_host s) made (text_claims_of claims) = Some c ->
  create_text name sign keys made t c = Some token -> (forall k, In k keys -> In k (ev_keys ev)) ->
  get_cookie auth_cookie (rq_headers h) = Some token -> check_session ev cm h = None.
Proof.
  intros hhash name sign verify num l cfg st o st' s claims x cm made c keys t token ev h SG RN N RT _ NB MB SE CT IN GC.
  unfold check_session. rewrite GC. destruct (ev_decode ev token) as [j|] eqn:D; [|reflexivity].
  assert (AS := fun k => session_assoc hhash cm _ _ _ _ made (text_claims_of claims) c k SE).
  assert (EX : exact c).
  { intros k n A. rewrite AS in A. destruct (assoc k (session_base _ _ _ _ _ _ _)) as [v|] eqn:B.
    - injection A as ->. apply assoc_In in B. unfold session_base in B. cbn [In] in B.
      repeat (destruct B as [B|B]; [try discriminate B; injection B as <- <-; unfold hour; lia|]). destruct B.
    - rewrite assoc_texts in A. destruct (assoc k claims); discriminate. }
  destruct (C115_created name sign verify num keys made t c token SG RN EX CT) as (_ & tok & TK & W).
  unfold create_token in TK. destruct (pick made t keys None) as [k|] eqn:P; [|discriminate]. injection TK as <-. apply pick_in in P. destruct P as [P|[P1 P2]]; [discriminate|].
  destruct (W (ev_keys ev) N) as ((j' & J & _ & _ & SC) & _); [exists k; auto|]. rewrite RT in D. rewrite D in J. injection J as <-.
  assert (Z0 : nbf_ok (t_claims j) (ev_now ev) = false).
  { unfold nbf_ok. rewrite (SC (lit "nbf")), AS. change (assoc (lit "nbf") (session_base _ _ _ _ _ _ _)) with (@None cval). rewrite assoc_texts, NB. reflexivity. }
  unfold accept_session, validate_for, validate. destruct (get_key (ev_keys ev) (t_kid j)) as [k'|]; [|reflexivity]. destruct (t_signer j) as [[i ty]|]; [|reflexivity].
  rewrite Z0, andb_false_r. reflexivity.
Qed.
Print Assumptions C116_saml_refuted.

(** ** Cases in which the hypotheses hold *)

(** An honest provider which says that the user is in a group, or something called nbf. *)
Definition x16_saml (attrs : list (str * str)) : SamlModel.answer :=
  let cfg := SamlProps.ex_cfg in
  let l := SamlProps.ex_lib (SamlSpec.honest_answer (SamlSpec.authn_request (XfccModel.hex SamlProps.ex_id) (lit "2024-12-01T00:00:00Z") (SamlModel.c_sso cfg) (SamlModel.c_acs cfg) (SamlModel.c_entity cfg))
    (lit "https://idp.example.com/") (lit "alice@example.com") (lit "1000") (lit "2000") attrs) in
  snd (SamlModel.step l cfg (SamlModel.run l cfg [] [SamlModel.Login (lit "/") (lit "https://www.example.com/page") SamlProps.ex_id (lit "2024-12-01T00:00:00Z") 1000])
    (SamlModel.Post (lit "POST") [] 1300 1301)).
(** What the user sees who then asks for the page. *)
Definition x16_then (a : SamlModel.answer) : option result :=
  match a with
  | SamlModel.Session s claims =>
      match session_claims b_hash b_cm (LoginModel.se_user s) (LoginModel.se_email s) (LoginModel.se_sid s) (LoginModel.se_host s) 1301 (text_claims_of claims) with
      | Some c => match create_text x15_name x15_sign b_keys 1301 ED c with
                  | Some token => Some (reverse_proxy x16_env (b_be b_cm false "www.example.com") (b_conn "www.example.com")
                      (visit b_br [] [] (lit "example.com") (lit "login.example.com") (lit "www.example.com") token 1301 3000 (lit "/private/x") []))
                  | None => None
                  end
      | None => None
      end
  | _ => None
  end.
Example C116_nontrivial_saml :
  match x16_then (x16_saml [(lit "group", lit "staff")]) with Some (Forward f) => h_values user_header (fw_headers f) = [lit "alice@example.com"] | _ => False end /\
  x16_then (x16_saml [(lit "nbf", lit "1")]) = Some Login.
Proof. vm_compute. split; reflexivity. Qed.
(** An OpenID login that makes a session. *)
Example C116_nontrivial_openid : exists st' claims loc,
  OauthModel.step OauthProps.ex_lib OauthProps.ex_cfg (fst OauthProps.ex_callback)
    (OauthModel.ETokens 5 (Some {| OauthModel.t_access := []; OauthModel.t_id := lit "good"; OauthModel.t_type := [] |})) =
  (st', OauthModel.Session (lit "7") (lit "bob@example.com") (lit "4142") (lit "www.example.com") claims loc).
Proof. eexists _, _, _. rewrite (surjective_pairing (OauthModel.step _ _ _ _)), OauthProps.ex_honest. reflexivity. Qed.
