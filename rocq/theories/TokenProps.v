(** Properties C27 to C32: tokens and signing keys. *)
From Verif Require Import Base TokenModel TokenSpec TokenProofs KeysProofs.
Open Scope Z_scope.

(** ** C27 *)

(** Only a session token of the same provider and the same issuer, that has not
    expired, is accepted as a session, whatever other tokens exist and whatever
    claims the identity provider supplied. *)
Theorem C27_session_only_from_session_of_provider : forall hhash keys now cm t c,
  unforged hhash keys t -> accept_session keys now cm t = Some c ->
  exists user email sid host iat extra,
    issued_as hhash (KSession cm user email sid host iat extra) t /\ c = t_claims t /\ (0 <= iat -> now < iat + 20 * hour).
Proof. exact accept_session_genuine. Qed.
Print Assumptions C27_session_only_from_session_of_provider.

(** A token issued for something else, or for another provider, is not accepted as
    a session. *)
Theorem C27_other_tokens_are_no_sessions : forall hhash keys now cm k t,
  issued_as hhash k t -> rules_ok k ->
  match k with KSession cm' _ _ _ _ _ _ => cm' <> cm | _ => True end ->
  accept_session keys now cm t = None.
Proof.
  intros hhash keys now cm k t Hk Hr Ho. destruct (accept_session keys now cm t) eqn:E; [|reflexivity]. exfalso.
  destruct (accept_session_kind hhash _ _ _ _ _ _ Hk Hr E) as (u & e & s & h & i & x & -> & _). congruence.
Qed.
Print Assumptions C27_other_tokens_are_no_sessions.

(** Valid at that time; a time of 0 counts as no time. *)
Definition in_its_time (now : Z) (c : claims) : Prop :=
  (forall n, assoc (lit "exp") c = Some (VNum n) -> n <> 0 -> now < n) /\
  (forall n, assoc (lit "nbf") c = Some (VNum n) -> n <> 0 -> n <= now).

Lemma validate_in_time keys now t c : validate keys now t = Some c ->
  in_its_time now (t_claims t) /\ exists k, In k keys /\ t_signer t = Some (kid k, ktyp k).
Proof.
  intros V. apply validate_claims in V. destruct V as (-> & Ex & Nb & k & Ik & _ & Sk).
  split; [|eauto]. unfold exp_ok in Ex. unfold nbf_ok in Nb. split; intros n E Hn.
  - rewrite E in Ex. apply orb_prop in Ex. destruct Ex as [Ex|Ex]; [apply Z.eqb_eq in Ex|apply Z.ltb_lt in Ex]; lia.
  - rewrite E in Nb. apply orb_prop in Nb. destruct Nb as [Nb|Nb]; [apply Z.eqb_eq in Nb|apply Z.leb_le in Nb]; lia.
Qed.

(** Whatever a token is presented for, it is refused before the time at which it
    becomes valid and from the time on at which it expires, and unless one of the
    present keys has signed it. *)
Theorem C27_only_in_its_time : forall keys now cm host sid t,
  accept_session keys now cm t <> None \/ accept_bearer keys now cm host t <> None \/ accept_url keys now sid t <> None ->
  in_its_time now (t_claims t) /\ exists k, In k keys /\ t_signer t = Some (kid k, ktyp k).
Proof.
  intros keys now cm host sid t H.
  assert (V : exists c, validate keys now t = Some c).
  { unfold accept_session, accept_bearer, accept_url, validate_for in H.
    destruct (validate keys now t) as [c|]; [eauto|]. destruct H as [H|[H|H]]; congruence. }
  destruct V as [c V]. exact (validate_in_time _ _ _ _ V).
Qed.
Print Assumptions C27_only_in_its_time.

(** Session tokens and URL tokens are never accepted as bearer tokens; identity
    tokens only for a host that is their audience and at the same issuer; tokens of
    the OpenID server only when it has the same issuer and the client is the host. *)
Theorem C27_bearer_only_from_identity_tokens : forall hhash keys now cm host t c,
  unforged hhash keys t -> accept_bearer keys now cm host t = Some c ->
  exists k, issued_as hhash k t /\ c = t_claims t /\
  ((exists aud iat cm' user email sid host0 iat0 extra,
      k = KIdentity aud iat cm' user email sid host0 iat0 extra /\ cm_issuer cm' = cm_issuer cm /\
      (aud = VStr (audience host) \/ exists l, aud = VList l /\ In (audience host) l)) \/
   (exists user iat nonce scopes rw, k = KOpenID (cm_issuer cm) (audience host) user iat nonce scopes rw)).
Proof. exact accept_bearer_genuine. Qed.
Print Assumptions C27_bearer_only_from_identity_tokens.

Theorem C27_session_and_url_tokens_are_no_bearer_tokens : forall hhash keys now cm host k t,
  issued_as hhash k t ->
  match k with KSession _ _ _ _ _ _ _ | KUrl _ _ _ => True | _ => False end ->
  accept_bearer keys now cm host t = None.
Proof.
  intros hhash keys now cm host k t Hk Ho. destruct (accept_bearer keys now cm host t) eqn:E; [|reflexivity]. exfalso.
  destruct k; try destruct Ho;
  destruct (accept_bearer_kind hhash _ _ _ _ _ _ _ Hk I E) as (_ & [(a & i & c' & u & e & s & h & i0 & x & K & _)|(u & i & n & s & r & K)]); discriminate.
Qed.
Print Assumptions C27_session_and_url_tokens_are_no_bearer_tokens.

(** What is accepted as a URL token: the URL tokens of the same session id, and the
    session and identity tokens of the same session id for which the identity
    provider supplied a claim named url.  Tokens of the OpenID server never. *)
Theorem C27_url_tokens_partial : forall hhash keys now sid t u,
  unforged hhash keys t -> accept_url keys now sid t = Some u ->
  exists k, issued_as hhash k t /\
  ((exists email, k = KUrl u sid email) \/
  (exists cm user email host iat extra, k = KSession cm user email sid host iat extra /\ assoc (lit "url") extra = Some (VStr u)) \/
  (exists aud iat cm user email host iat0 extra, k = KIdentity aud iat cm user email sid host iat0 extra /\ assoc (lit "url") extra = Some (VStr u))).
Proof. exact accept_url_genuine. Qed.
Print Assumptions C27_url_tokens_partial.

(** Missing from the full claim, because false: when the identity provider supplies
    a claim named url (a SAML attribute can have any name), the session token is
    accepted as a URL token. *)
Definition ex_hash (s : str) : str := rev s.
Definition ex_cm : cookie_mgr := {| cm_provider := lit "saml"; cm_issuer := lit "https://login.example.com/" |}.
Definition ex_cm2 : cookie_mgr := {| cm_provider := lit "other"; cm_issuer := lit "https://login.example.com/" |}.
Definition ex_keys : list key := keys_after false [1000].
Definition ex_session (extra : claims) : option jwt :=
  match session_claims ex_hash ex_cm (lit "alice") (lit "alice@example.com") (lit "sid1") (lit "www.example.com") 2000 extra with
  | Some c => create_token ex_keys 2000 ED c
  | None => None
  end.
Theorem C27_session_token_as_url_token_refuted :
  ~ (forall hhash keys now sid k t u, issued_as hhash k t -> accept_url keys now sid t = Some u -> exists email, k = KUrl u sid email).
Proof.
  intro H.
  destruct (ex_session [(lit "url", VStr (lit "https://evil.example.org/"))]) as [t|] eqn:E; [|vm_compute in E; discriminate].
  destruct (H ex_hash ex_keys 2001 (lit "sid1")
    (KSession ex_cm (lit "alice") (lit "alice@example.com") (lit "sid1") (lit "www.example.com") 2000 [(lit "url", VStr (lit "https://evil.example.org/"))])
    t (lit "https://evil.example.org/")) as [email A].
  - vm_compute in E. injection E as <-. vm_compute. reflexivity.
  - vm_compute in E. injection E as <-. vm_compute. reflexivity.
  - discriminate A.
Qed.
Print Assumptions C27_session_token_as_url_token_refuted.

(** Also false: an identity token of one provider is accepted as a bearer token by a
    backend that requires another provider with the same callback host. *)
Theorem C27_bearer_of_other_provider_refuted :
  ~ (forall hhash keys now cm host aud iat cm' user email sid host0 iat0 extra t c,
       issued_as hhash (KIdentity aud iat cm' user email sid host0 iat0 extra) t ->
       accept_bearer keys now cm host t = Some c -> cm_provider cm' = cm_provider cm).
Proof.
  intro H.
  destruct (match ex_session [] with Some s => create_token ex_keys 2000 EC (idtoken_claims (audience_for (lit "www.example.com") None) 2000 (t_claims s)) | None => None end)
    as [t|] eqn:E; [|vm_compute in E; discriminate].
  assert (A := H ex_hash ex_keys 2001 ex_cm2 (lit "www.example.com") (audience_for (lit "www.example.com") None) 2000 ex_cm
    (lit "alice") (lit "alice@example.com") (lit "sid1") (lit "www.example.com") 2000 [] t (t_claims t)).
  vm_compute in E. injection E as <-.
  assert (B : lit "saml" = lit "other") by (apply A; vm_compute; reflexivity). vm_compute in B. discriminate B.
Qed.
Print Assumptions C27_bearer_of_other_provider_refuted.

(** A genuine session is accepted by its own provider until it expires, and refused
    by another; the identity token made from it works as a bearer token. *)
Example C27_examples :
  option_map (fun t => (match accept_session ex_keys 73999 ex_cm t with Some _ => true | None => false end,
                        match accept_session ex_keys 74000 ex_cm t with Some _ => true | None => false end,
                        match accept_session ex_keys 2001 ex_cm2 t with Some _ => true | None => false end,
                        match accept_bearer ex_keys 2001 ex_cm (lit "www.example.com") t with Some _ => true | None => false end))
    (ex_session [(lit "name", VStr (lit "Alice"))]) = Some (true, false, false, false).
Proof. vm_compute. reflexivity. Qed.

(** ** C28 *)

(** Whatever extra claims come with a login, the claims that the proxy relies on
    have the values chosen by the proxy. *)
Theorem C28_reserved_claims_fixed : forall hhash cm user email sid host now extra c,
  session_claims hhash cm user email sid host now extra = Some c ->
  assoc (lit "iat") c = Some (VNum now) /\ assoc (lit "exp") c = Some (VNum (now + 20 * hour)) /\
  assoc (lit "iss") c = Some (VStr (cm_issuer cm)) /\ assoc (lit "aud") c = Some (VStr (cm_issuer cm)) /\
  assoc (lit "sub") c = Some (VStr user) /\ assoc (lit "email") c = Some (VStr email) /\
  assoc (lit "proxyauth") c = Some (VStr (cm_issuer cm)) /\ assoc (lit "provider") c = Some (VStr (cm_provider cm)) /\
  assoc (lit "hhash") c = Some (VStr (hhash host)) /\ assoc (lit "sid") c = Some (VStr sid).
Proof. exact session_reserved. Qed.
Print Assumptions C28_reserved_claims_fixed.

(** And nothing is lost: all other claims are the extra ones. *)
Theorem C28_other_claims_kept : forall hhash cm user email sid host now extra c k,
  session_claims hhash cm user email sid host now extra = Some c ->
  ~ In k [lit "iat"; lit "exp"; lit "iss"; lit "aud"; lit "sub"; lit "email"; lit "proxyauth"; lit "provider"; lit "hhash"; lit "sid"] ->
  assoc k c = assoc k extra.
Proof. exact session_extra. Qed.
Print Assumptions C28_other_claims_kept.

(** No session is created without a user and an e-mail address. *)
Theorem C28_session_has_user : forall hhash cm user email sid host now extra c,
  session_claims hhash cm user email sid host now extra = Some c -> user <> [] /\ email <> [].
Proof. exact session_nonempty. Qed.
Print Assumptions C28_session_has_user.

Example C28_example :
  option_map (fun c => (assoc (lit "email") c, assoc (lit "exp") c, assoc (lit "groups") c))
    (session_claims ex_hash ex_cm (lit "alice") (lit "alice@example.com") (lit "sid1") (lit "www.example.com") 2000
       [(lit "email", VStr (lit "root@example.com")); (lit "groups", VList [lit "g"]); (lit "exp", VNum 999999999999)])
  = Some (Some (VStr (lit "alice@example.com")), Some (VNum 74000), Some (VList [lit "g"])).
Proof. vm_compute. reflexivity. Qed.

(** ** C29 *)

(** An identity token has the expiry, user, e-mail, session id, issuer and provider
    of the session from which it comes, and not its session marker. *)
Theorem C29_identity_token_inherits : forall aud now session,
  let c := idtoken_claims aud now session in
  assoc (lit "exp") c = assoc (lit "exp") session /\ assoc (lit "sub") c = assoc (lit "sub") session /\
  assoc (lit "email") c = assoc (lit "email") session /\ assoc (lit "sid") c = assoc (lit "sid") session /\
  assoc (lit "iss") c = assoc (lit "iss") session /\ assoc (lit "provider") c = assoc (lit "provider") session /\
  assoc (lit "aud") c = Some aud /\ assoc (lit "iat") c = Some (VNum now) /\ assoc (lit "proxyauth") c = None.
Proof.
  intros aud now session c. unfold c. repeat split; rewrite ?idtoken_assoc; try reflexivity; apply idtoken_inherits; reflexivity.
Qed.
Print Assumptions C29_identity_token_inherits.

(** Everything else that the session says is in it too, except what is only for the proxy. *)
Theorem C29_identity_token_drops : forall aud now session k,
  let c := idtoken_claims aud now session in
  (In k [lit "scope"; lit "proxyauth"; lit "source"; lit "hhash"] -> assoc k c = None) /\
  (~ In k [lit "scope"; lit "proxyauth"; lit "source"; lit "hhash"; lit "aud"; lit "iat"] -> assoc k c = assoc k session).
Proof.
  intros aud now session k c. unfold c. split.
  - intros H. rewrite idtoken_assoc. repeat (destruct H as [<-|H]; [reflexivity|]). destruct H.
  - intros N. apply idtoken_inherits. apply not_true_iff_false. intro M. apply mem_spec in M. apply N. cbn in M |- *. tauto.
Qed.
Print Assumptions C29_identity_token_drops.

(** So, however late it was derived, no identity token is accepted after the end of
    its session. *)
Theorem C29_not_accepted_after_session : forall hhash keys now cm host aud iat cm' user email sid host0 iat0 extra t c,
  issued_as hhash (KIdentity aud iat cm' user email sid host0 iat0 extra) t -> 0 <= iat0 ->
  accept_bearer keys now cm host t = Some c ->
  now < iat0 + 20 * hour /\ assoc (lit "sub") c = Some (VStr user) /\ assoc (lit "email") c = Some (VStr email).
Proof.
  intros hhash keys now cm host aud iat cm' user email sid host0 iat0 extra t c Hk H0 H.
  unfold accept_bearer, validate_for in H. destruct (validate keys now t) as [c0|] eqn:Ev; [|discriminate].
  destruct (_ && _); [|discriminate]. destruct (assoc _ c0); [discriminate|]. injection H as ->.
  apply validate_claims in Ev. destruct Ev as (-> & Ex & _). unfold issued_as in Hk. cbn [claims_of] in Hk.
  destruct (session_claims _ _ _ _ _ _ _ _) as [s|] eqn:Es; [|discriminate]. cbn [option_map] in Hk. injection Hk as Hk.
  destruct (session_reserved _ _ _ _ _ _ _ _ _ Es) as (_ & R2 & _ & _ & R5 & R6 & _).
  unfold exp_ok in Ex. rewrite <- Hk in Ex |- *.
  rewrite idtoken_inherits in Ex by reflexivity. rewrite !idtoken_inherits by reflexivity. rewrite R2 in Ex.
  split; [|auto]. apply orb_prop in Ex. unfold hour in *. destruct Ex as [Ex|Ex]; [apply Z.eqb_eq in Ex|apply Z.ltb_lt in Ex]; lia.
Qed.
Print Assumptions C29_not_accepted_after_session.

(** An identity token in a cookie counts only beside the session it belongs to: the
    one of the same user with the same session id. *)
Theorem C29_cookie_of_its_session : forall keys now cm host session t user sid,
  accept_idcookie keys now cm host session t = true ->
  assoc (lit "sub") session = Some (VStr user) -> assoc (lit "sid") session = Some (VStr sid) ->
  assoc (lit "sub") (t_claims t) = Some (VStr user) /\ assoc (lit "sid") (t_claims t) = Some (VStr sid) /\
  in_its_time now (t_claims t) /\ exists k, In k keys /\ t_signer t = Some (kid k, ktyp k).
Proof.
  intros keys now cm host session t user sid H Eu Es. unfold accept_idcookie, validate_for in H.
  destruct (validate keys now t) as [c|] eqn:V; [|discriminate].
  destruct (_ && _) in H; [|discriminate]. apply andb_prop in H as [H1 H2].
  pose proof V as V'. apply validate_claims in V'. destruct V' as (-> & _).
  unfold claim_same in H1, H2. rewrite Eu in H1. rewrite Es in H2.
  destruct (assoc (lit "sub") (t_claims t)) as [[x|x|x|]|]; try discriminate.
  destruct (assoc (lit "sid") (t_claims t)) as [[y|y|y|]|]; try discriminate.
  cbn [cval_eqb] in H1, H2. apply str_eqb_spec in H1, H2. subst x y.
  split; [reflexivity|]. split; [reflexivity|].
  exact (validate_in_time _ _ _ _ V).
Qed.
Print Assumptions C29_cookie_of_its_session.

Example C29_example :
  match ex_session [] with
  | Some s => match create_token ex_keys 70000 EC (idtoken_claims (audience_for (lit "www.example.com") None) 70000 (t_claims s)) with
      | Some t => (match accept_bearer ex_keys 73999 ex_cm (lit "www.example.com") t with Some _ => true | None => false end,
                   match accept_bearer ex_keys 74000 ex_cm (lit "www.example.com") t with Some _ => true | None => false end,
                   accept_idcookie ex_keys 73999 ex_cm (lit "www.example.com") (t_claims s) t)
      | None => (false, false, false) end
  | None => (false, false, false) end = (true, false, true).
Proof. vm_compute. reflexivity. Qed.

(** ** C30 *)

(** The URL obtained from a token of any origin is one that the proxy signed for the
    session id of the request; the only other possibility is a session or identity
    token for which the identity provider supplied a url claim, again for the
    session id of the request.  The full claim, which excludes those, is refuted by
    C27_session_token_as_url_token_refuted. *)
Theorem C30_url_bound_to_browser_partial : forall hhash keys now sid t u,
  unforged hhash keys t -> accept_url keys now sid t = Some u ->
  exists k, issued_as hhash k t /\
  ((exists email, k = KUrl u sid email) \/
  (exists cm user email host iat extra, k = KSession cm user email sid host iat extra /\ assoc (lit "url") extra = Some (VStr u)) \/
  (exists aud iat cm user email host iat0 extra, k = KIdentity aud iat cm user email sid host iat0 extra /\ assoc (lit "url") extra = Some (VStr u))).
Proof. exact accept_url_genuine. Qed.
Print Assumptions C30_url_bound_to_browser_partial.

(** With identity providers that supply no url claim the claim holds in full. *)
Theorem C30_url_bound_to_browser : forall hhash keys now sid t u,
  ((exists k, In k keys /\ t_signer t = Some (kid k, ktyp k)) ->
    exists k, issued_as hhash k t /\ rules_ok k /\
      match k with
      | KSession _ _ _ _ _ _ extra | KIdentity _ _ _ _ _ _ _ _ extra => assoc (lit "url") extra = None
      | _ => True end) ->
  accept_url keys now sid t = Some u -> exists email, issued_as hhash (KUrl u sid email) t.
Proof.
  intros hhash keys now sid t u Hu H.
  assert (S : exists k, In k keys /\ t_signer t = Some (kid k, ktyp k)).
  { unfold accept_url in H. destruct (validate keys now t) as [c0|] eqn:E; [|discriminate].
    apply validate_claims in E. destruct E as (_ & _ & _ & k & A & _ & B). eauto. }
  destruct (Hu S) as (k & Hk & Hr & Hx).
  destruct (accept_url_kind hhash _ _ _ _ _ _ Hk Hr H) as [[email ->]|[(cm & us & em & h & i & x & -> & E)|(a & i & cm & us & em & h & i0 & x & -> & E)]];
    [eauto| |]; rewrite Hx in E; discriminate.
Qed.
Print Assumptions C30_url_bound_to_browser.

(** A URL token is refused in a browser with another session id, and accepted with
    the right one as long as the key that signed it is known. *)
Theorem C30_other_browser_refused : forall hhash keys now sid sid' url email t,
  issued_as hhash (KUrl url sid email) t -> sid' <> sid -> accept_url keys now sid' t = None.
Proof.
  intros hhash keys now sid sid' url email t Hk Hn. destruct (accept_url keys now sid' t) eqn:E; [|reflexivity]. exfalso.
  destruct (accept_url_kind hhash _ _ _ _ _ _ Hk I E) as [[e K]|[(cm & us & em & h & i & x & K & _)|(a & i & cm & us & em & h & i0 & x & K & _)]];
    try discriminate. injection K as _ K _. congruence.
Qed.
Print Assumptions C30_other_browser_refused.

Theorem C30_own_browser_accepted : forall hhash keys now url sid email t,
  issued_as hhash (KUrl url sid email) t ->
  (exists k, In k keys /\ get_key keys (t_kid t) = Some k /\ t_signer t = Some (kid k, ktyp k)) ->
  accept_url keys now sid t = Some url.
Proof. exact accept_url_issued. Qed.
Print Assumptions C30_own_browser_accepted.

Definition ex_url : option jwt := create_token ex_keys 2000 ED (url_claims (lit "https://www.example.com/x") (lit "sid1") None).
Example C30_example :
  option_map (fun t => (accept_url ex_keys 2001 (lit "sid1") t, accept_url ex_keys 2001 (lit "sid2") t)) ex_url
  = Some (Some (lit "https://www.example.com/x"), None).
Proof. vm_compute. reflexivity. Qed.

(** ** C31 *)

(** Signing keys are rotated at each start and hourly.  When rotations are never
    more than five days apart up to the moment of signing (so the proxy is never
    down for longer), a token signed at [sign] is verified at every time before it
    expires, within 20 hours, whatever rotations and restarts happen since. *)
Theorem C31_tokens_stay_verifiable_partial : forall tpm t0 ts sign ts2 now t c tok,
  supported tpm t ->
  paced (5 * day) t0 (ts ++ [sign]) ->
  Forall (fun x => x <= now) ts2 -> now < sign + 20 * hour ->
  create_token (keys_after tpm (t0 :: ts)) sign t c = Some tok ->
  exp_ok c now = true -> nbf_ok c now = true ->
  validate (keys_after tpm ((t0 :: ts) ++ ts2)) now tok = Some c.
Proof. exact token_lives. Qed.
Print Assumptions C31_tokens_stay_verifiable_partial.

(** Without the bound on downtimes the claim is false: after more than seven days,
    the old keys still sign for two hours but are already being deleted.  The token
    below is issued right after the start and refused two hours later, although it
    is valid for 20 hours. *)
Definition ex_down : list Z := [0; 8 * day].
Definition ex_hourly : list Z := [8 * day + hour; 8 * day + 2 * hour].
Theorem C31_long_downtime_refuted :
  ~ (forall tpm t0 ts sign ts2 now t c tok, supported tpm t -> paced (8 * day) t0 (ts ++ [sign]) ->
      paced hour sign ts2 -> Forall (fun x => x <= now) ts2 -> now < sign + 20 * hour ->
      create_token (keys_after tpm (t0 :: ts)) sign t c = Some tok ->
      exp_ok c now = true -> nbf_ok c now = true ->
      validate (keys_after tpm ((t0 :: ts) ++ ts2)) now tok = Some c).
Proof.
  intro H.
  destruct (create_token (keys_after false ex_down) (8 * day) ED [(lit "exp", VNum (8 * day + 20 * hour))]) as [tok|] eqn:E; [|vm_compute in E; discriminate].
  specialize (H false 0 [8 * day] (8 * day) ex_hourly (8 * day + 3 * hour) ED [(lit "exp", VNum (8 * day + 20 * hour))] tok).
  assert (A : validate (keys_after false ((0 :: [8 * day]) ++ ex_hourly)) (8 * day + 3 * hour) tok = Some [(lit "exp", VNum (8 * day + 20 * hour))]).
  { apply H; try exact E; try reflexivity; try (unfold ex_hourly; cbn; unfold day, hour; lia).
    - intros A. discriminate A.
    - repeat constructor; unfold day, hour; lia. }
  vm_compute in E. injection E as <-. vm_compute in A. discriminate A.
Qed.
Print Assumptions C31_long_downtime_refuted.

(** A key is never dropped before it is seven days old. *)
Theorem C31_keys_kept_seven_days : forall tpm ts ts2 k,
  In k (keys_after tpm ts) -> Forall (fun t => t <= created k + 7 * day) ts2 -> In k (keys_after tpm (ts ++ ts2)).
Proof. exact keys_keep. Qed.
Print Assumptions C31_keys_kept_seven_days.

Example C31_example :
  let ts := [hour; 2 * hour; 26 * hour; 5 * day; 9 * day] in
  match create_token (keys_after true (0 :: ts)) (9 * day + 5) EC [(lit "exp", VNum (9 * day + 5 + 20 * hour))] with
  | Some tok => validate (keys_after true ((0 :: ts) ++ [9 * day + hour; 9 * day + 2 * hour; 9 * day + 19 * hour])) (9 * day + 19 * hour) tok
  | None => None end = Some [(lit "exp", VNum (9 * day + 5 + 20 * hour))] /\ paced (5 * day) 0 (ts ++ [9 * day + 5]).
Proof. split; [vm_compute; reflexivity|]. cbn. unfold day, hour. lia. Qed.

(** ** C32 *)

(** After any history of rotations, at any times, there is a key of every supported
    type: signing never fails. *)
Theorem C32_always_a_key : forall tpm ts now t c, ts <> [] -> supported tpm t ->
  exists k tok, In k (keys_after tpm ts) /\ ktyp k = t /\
    create_token (keys_after tpm ts) now t c = Some tok /\ t_signer tok = Some (kid k, t).
Proof.
  intros tpm ts now t c Hts Ht. destruct (complete_has tpm _ t (history_complete tpm ts Hts) Ht) as (k0 & A & B).
  destruct (pick_exists now t _ k0 A B) as [k Hk]. destruct (pick_In _ _ _ _ _ Hk) as [E|[Hin Hty]]; [discriminate|].
  exists k, {| t_kid := kid k; t_claims := c; t_signer := Some (kid k, ktyp k) |}. unfold create_token. rewrite Hk.
  repeat split; auto. cbn. rewrite Hty. reflexivity.
Qed.
Print Assumptions C32_always_a_key.

(** In particular for the types that the proxy asks for: the default one for sessions and
    URL tokens, ES256 for identity tokens, RS256 for OpenID tokens; with and without a TPM. *)
Theorem C32_own_tokens : forall tpm ts now c, ts <> [] ->
  Forall (fun t => create_token (keys_after tpm ts) now t c <> None) [default_type tpm; EC; RSA].
Proof.
  intros tpm ts now c Hts. repeat constructor; intro E;
  match type of E with create_token _ _ ?t _ = None => destruct (C32_always_a_key tpm ts now t c Hts) as (k & tok & _ & _ & X & _) end;
  try congruence; destruct tpm; cbn; tauto || discriminate || reflexivity.
Qed.
Print Assumptions C32_own_tokens.

(** A key not yet two hours old signs only when no older key of the type is stored. *)
Theorem C32_new_keys_wait : forall tpm ts now t c tok, 
  create_token (keys_after tpm ts) now t c = Some tok ->
  exists l1 k l2, keys_after tpm ts = l1 ++ k :: l2 /\ t_signer tok = Some (kid k, t) /\ ktyp k = t /\
    (created k + 2 * hour < now \/ forall k', In k' l1 -> ktyp k' <> t).
Proof.
  intros tpm ts now t c tok H. unfold create_token in H. destruct (pick now t _ None) as [k|] eqn:E; [|discriminate]. injection H as <-.
  destruct (pick_In _ _ _ _ _ E) as [A|[A B]]; [discriminate|]. cbn [t_signer]. rewrite B.
  destruct (pick_fresh_only _ _ _ _ _ E) as [C|[C|(_ & l1 & l2 & C & D)]]; [discriminate| |].
  - apply in_split in A. destruct A as (l1 & l2 & A). exists l1, k, l2. auto.
  - exists l1, k, l2. auto.
Qed.
Print Assumptions C32_new_keys_wait.

(** While rotations are at most eight hours apart (they are hourly), at most eight
    keys of each type are stored. *)
Theorem C32_bounded : forall tpm g t0 ts, 0 <= g <= 8 * hour -> paced g t0 ts ->
  (List.length (keys_after tpm (t0 :: ts)) <= 8 * (if tpm then 2 else 3))%nat.
Proof. exact bounded_length. Qed.
Print Assumptions C32_bounded.

(** If the proxy runs only briefly, once in 25 hours, the number of stored keys grows
    without bound: each start adds two or three and removes at most one. *)
Theorem C32_unbounded_with_daily_restarts : forall tpm n,
  exists t0 ts, paced (25 * hour) t0 ts /\ (n <= List.length (keys_after tpm (t0 :: ts)))%nat.
Proof.
  intros tpm n. assert (P := restarts_paced n). destruct (restarts_grow tpm n) as [A _].
  destruct (restarts (S n)) as [|t0 ts]; [destruct P|]. eauto.
Qed.
Print Assumptions C32_unbounded_with_daily_restarts.

Example C32_example :
  List.length (keys_after false (map (fun i => Z.of_nat i * hour) (seq 0 400))) = 18%nat.
Proof. vm_compute. reflexivity. Qed.
