From Verif Require Import Base TokenModel TokenSpec.
Open Scope Z_scope.

(** * Kinds of tokens *)

Lemma assoc_app {A : Type} k (l1 l2 : list (str * A)) :
  assoc k (l1 ++ l2) = match assoc k l1 with Some v => Some v | None => assoc k l2 end.
Proof. induction l1 as [|[k' v] l IH]; cbn; [reflexivity|]. destruct (str_eqb k k'); auto. Qed.

Lemma assoc_filter {A : Type} (f : str -> bool) k (l : list (str * A)) :
  assoc k (filter (fun kv => f (fst kv)) l) = if f k then assoc k l else None.
Proof.
  induction l as [|[k' v] l IH]; cbn; [destruct (f k); reflexivity|].
  destruct (f k') eqn:F; cbn; destruct (str_eqb k k') eqn:E; auto.
  - apply str_eqb_spec in E. subst. rewrite F. reflexivity.
  - rewrite IH. apply str_eqb_spec in E. subst. rewrite F. reflexivity.
Qed.

Section Hash.
Variable hhash : str -> str.

Lemma session_assoc cm user email sid host now extra c k :
  session_claims hhash cm user email sid host now extra = Some c ->
  assoc k c = match assoc k (session_base hhash cm user email sid host now) with
              | Some v => Some v
              | None => assoc k extra
              end.
Proof.
  unfold session_claims. destruct (_ || _); [discriminate|]. cbv zeta. set (base := session_base _ _ _ _ _ _ _). intro H.
  match type of H with Some ?x = _ => assert (E : c = x) by congruence end. clear H. subst c. rewrite assoc_app.
  destruct (assoc k base) eqn:E; [reflexivity|].
  rewrite (assoc_filter (fun k => match assoc k base with Some _ => false | None => true end)).
  rewrite E. reflexivity.
Qed.

Lemma session_nonempty cm user email sid host now extra c :
  session_claims hhash cm user email sid host now extra = Some c -> user <> [] /\ email <> [].
Proof.
  unfold session_claims. destruct (_ || _) eqn:E; [discriminate|]. apply orb_false_elim in E.
  destruct E as [E1 E2]. apply str_eqb_neq in E1, E2. auto.
Qed.

Lemma idtoken_assoc aud now c k :
  assoc k (idtoken_claims aud now c) =
  if str_eqb k (lit "aud") then Some aud
  else if str_eqb k (lit "iat") then Some (VNum now)
  else if mem k idtoken_skip then None else assoc k c.
Proof.
  unfold idtoken_claims. destruct (str_eqb k (lit "aud")) eqn:E.
  - apply str_eqb_spec in E. subst k. apply assoc_set_eq.
  - apply str_eqb_neq in E. rewrite assoc_set_neq by congruence.
    destruct (str_eqb k (lit "iat")) eqn:E2.
    + apply str_eqb_spec in E2. subst k. apply assoc_set_eq.
    + apply str_eqb_neq in E2. rewrite assoc_set_neq by congruence.
      rewrite (assoc_filter (fun k => negb (mem k idtoken_skip))). destruct (mem k idtoken_skip); reflexivity.
Qed.

Lemma validate_claims keys now t c : validate keys now t = Some c ->
  c = t_claims t /\ exp_ok c now = true /\ nbf_ok c now = true /\
  exists k, In k keys /\ kid k = t_kid t /\ t_signer t = Some (kid k, ktyp k).
Proof.
  unfold validate. destruct (get_key keys (t_kid t)) as [k|] eqn:Ek; [|discriminate].
  destruct (t_signer t) as [[s ty]|]; [|discriminate].
  destruct (_ && _ && _ && _) eqn:E; [|discriminate]. intro H. injection H as <-.
  apply andb_prop in E. destruct E as [E E4]. apply andb_prop in E. destruct E as [E E3].
  apply andb_prop in E. destruct E as [E1 E2]. apply Nat.eqb_eq in E1. subst s.
  repeat split; auto. exists k. assert (ty = ktyp k) by (destruct ty, (ktyp k); auto; discriminate). subst ty.
  clear E2 E3 E4. induction keys as [|k' keys IH]; cbn in Ek; [discriminate|].
  destruct (Nat.eqb (kid k') (t_kid t)) eqn:E'.
  - injection Ek as ->. apply Nat.eqb_eq in E'. repeat split; auto. left. reflexivity.
  - destruct (IH Ek) as (A & B & C). repeat split; auto. right. exact A.
Qed.

Lemma validate_for_claims keys now iss aud t c : validate_for keys now iss aud t = Some c ->
  validate keys now t = Some c /\ assoc (lit "iss") c = Some (VStr iss) /\
  (assoc (lit "aud") c = Some (VStr aud) \/ exists l, assoc (lit "aud") c = Some (VList l) /\ In aud l).
Proof.
  unfold validate_for. destruct (validate keys now t) as [c0|]; [|discriminate].
  destruct (_ && _) eqn:E; [|discriminate]. intro H. injection H as ->.
  apply andb_prop in E. destruct E as [E1 E2]. split; [reflexivity|]. split.
  - unfold iss_ok in E1. destruct (assoc (lit "iss") c) as [[s| | |]|]; try discriminate.
    apply andb_prop in E1. destruct E1 as [_ E1]. apply str_eqb_spec in E1. subst. reflexivity.
  - unfold aud_ok in E2. destruct (assoc (lit "aud") c) as [[s|n|l|b]|]; try discriminate.
    + apply andb_prop in E2. destruct E2 as [_ E2]. apply str_eqb_spec in E2. subst. auto.
    + right. exists l. split; [reflexivity|]. apply mem_spec. exact E2.
Qed.

Lemma claim_is_spec c k v : claim_is c k v = true <-> assoc k c = Some (VStr v).
Proof.
  unfold claim_is. destruct (assoc k c) as [[s| | |]|]; split; intro H; try discriminate.
  - apply str_eqb_spec in H. subst. reflexivity.
  - injection H as ->. apply str_eqb_refl.
Qed.

(** Claims that a token of the OpenID server never has. *)
Lemma oidc_assoc_none issuer client user now nonce scopes k :
  ~ In k ([lit "iat"; lit "exp"; lit "iss"; lit "aud"; lit "sub"; lit "scope"; lit "nonce"; lit "email"; lit "email_verified"] ++ profile_claims) ->
  assoc k (oidc_claims issuer client user now nonce scopes) = None.
Proof.
  intro H. apply assoc_None. intro Hin. apply H. unfold oidc_claims in Hin. cbv zeta in Hin.
  rewrite !map_app in Hin. rewrite !in_app_iff in Hin.
  destruct Hin as [Hin|[Hin|[Hin|Hin]]].
  - cbn [map fst In] in Hin. apply in_or_app. left. cbn [In]. tauto.
  - destruct (str_eqb nonce []); [destruct Hin|]. cbn [map fst In] in Hin. apply in_or_app. left. cbn [In]. tauto.
  - destruct (mem _ scopes); [|destruct Hin]. destruct (assoc _ user); cbn [map fst In] in Hin; apply in_or_app; left; cbn [In]; tauto.
  - destruct (mem _ scopes); [|destruct Hin]. apply in_or_app. right.
    apply in_map_iff in Hin. destruct Hin as ([k' v] & <- & Hin). apply in_concat in Hin.
    destruct Hin as (l & Hl & Hin). apply in_map_iff in Hl. destruct Hl as (p & <- & Hp).
    destruct (assoc p user); [|destruct Hin]. destruct Hin as [E|[]]. injection E as <- _. exact Hp.
Qed.
Lemma oidc_assoc_iss issuer client user now nonce scopes :
  assoc (lit "iss") (oidc_claims issuer client user now nonce scopes) = Some (VStr issuer) /\
  assoc (lit "aud") (oidc_claims issuer client user now nonce scopes) = Some (VStr client) /\
  assoc (lit "exp") (oidc_claims issuer client user now nonce scopes) = Some (VNum (now + 300)).
Proof. repeat split. Qed.

Ltac notin := cbn [In app profile_claims]; intros; repeat match goal with H : _ \/ _ |- _ => destruct H | H : _ = _ |- _ => vm_compute in H; discriminate H end; try assumption.


(** * Reserved and inherited claims *)
Lemma session_reserved cm user email sid host now extra c :
  session_claims hhash cm user email sid host now extra = Some c ->
  assoc (lit "iat") c = Some (VNum now) /\ assoc (lit "exp") c = Some (VNum (now + 20 * hour)) /\
  assoc (lit "iss") c = Some (VStr (cm_issuer cm)) /\ assoc (lit "aud") c = Some (VStr (cm_issuer cm)) /\
  assoc (lit "sub") c = Some (VStr user) /\ assoc (lit "email") c = Some (VStr email) /\
  assoc (lit "proxyauth") c = Some (VStr (cm_issuer cm)) /\ assoc (lit "provider") c = Some (VStr (cm_provider cm)) /\
  assoc (lit "hhash") c = Some (VStr (hhash host)) /\ assoc (lit "sid") c = Some (VStr sid).
Proof.
  intro H. assert (S := fun x => session_assoc _ _ _ _ _ _ _ _ x H).
  repeat split; rewrite S; reflexivity.
Qed.

Lemma apply_rewrites_assoc rw c k : ~ In k (map fst rw) -> assoc k (apply_rewrites rw c) = assoc k c.
Proof.
  unfold apply_rewrites. revert c. induction rw as [|[k' v] rw IH]; intros c H; [reflexivity|]. cbn [fold_left]. cbn in H.
  rewrite IH by tauto. apply assoc_set_neq. intro E. apply H. left. congruence.
Qed.

Lemma assoc_openid_none k issuer client user iat nonce scopes rw :
  mem k ([lit "iat"; lit "exp"; lit "iss"; lit "aud"; lit "sub"; lit "scope"; lit "nonce"; lit "email"; lit "email_verified"] ++ profile_claims) = false ->
  ~ In k (map fst rw) ->
  assoc k (apply_rewrites rw (oidc_claims issuer client user iat nonce scopes)) = None.
Proof. intros H Hrw. rewrite apply_rewrites_assoc by exact Hrw. apply oidc_assoc_none. intro Hin. apply mem_spec in Hin. congruence. Qed.

(** Session acceptance. *)
Lemma accept_session_kind keys now cm k t c :
  issued_as hhash k t -> rules_ok k -> accept_session keys now cm t = Some c ->
  exists user email sid host iat extra, 
    k = KSession cm user email sid host iat extra /\ c = t_claims t /\ (0 <= iat -> now < iat + 20 * hour).
Proof.
  intros Hk Hrw H. unfold accept_session in H.
  destruct (validate_for keys now (cm_issuer cm) (cm_issuer cm) t) as [c0|] eqn:Ev; [|discriminate].
  destruct (_ && _) eqn:E; [|discriminate]. apply andb_prop in E. destruct E as [E1 E2].
  apply claim_is_spec in E1, E2.
  assert (c0 = c) by (destruct (assoc (lit "sub") c0) as [[s| | |]|]; try discriminate; destruct (str_eqb s []); try discriminate; congruence).
  subst c0. clear H. apply validate_for_claims in Ev. destruct Ev as (Ev & Ei & Ea).
  apply validate_claims in Ev. destruct Ev as (-> & Ex & En & _).
  unfold issued_as in Hk. destruct k as [cm' user email sid host iat extra|aud iat cm' user email sid host iat0 extra|url sid email|issuer client user iat nonce scopes rw]; cbn [claims_of] in Hk.
  - assert (S := fun x => session_assoc _ _ _ _ _ _ _ _ x Hk).
    rewrite S in E1, E2. cbn in E1, E2. injection E1 as E1. injection E2 as E2.
    destruct cm as [p i], cm' as [p' i']. cbn in E1, E2. subst. exists user, email, sid, host, iat, extra. repeat split.
    intro H0. unfold exp_ok in Ex. rewrite S in Ex. cbn -[Z.add Z.mul] in Ex. unfold hour in *.
    apply orb_prop in Ex. destruct Ex as [Ex|Ex]; [apply Z.eqb_eq in Ex|apply Z.ltb_lt in Ex]; lia.
  - destruct (session_claims hhash cm' user email sid host iat0 extra) as [c|]; [|discriminate].
    cbn [option_map] in Hk. injection Hk as Hk. rewrite <- Hk, idtoken_assoc in E1. discriminate E1.
  - injection Hk as Hk. rewrite <- Hk in E1. destruct email; discriminate E1.
  - injection Hk as Hk. rewrite <- Hk, assoc_openid_none in E1; [discriminate E1|reflexivity|].
    cbn [rules_ok] in Hrw. intro Hin. apply (Hrw _ Hin). cbn; tauto.
Qed.

Lemma accept_session_issued keys now cm user email sid host iat extra t :
  issued_as hhash (KSession cm user email sid host iat extra) t -> cm_issuer cm <> [] ->
  validate keys now t = Some (t_claims t) -> accept_session keys now cm t = Some (t_claims t).
Proof.
  intros Hk Hi Hv. unfold issued_as in Hk. cbn [claims_of] in Hk.
  assert (N := session_nonempty _ _ _ _ _ _ _ _ Hk). destruct N as [N _].
  destruct (session_reserved _ _ _ _ _ _ _ _ Hk) as (_ & _ & R1 & R2 & R3 & _ & R4 & R5 & _).
  unfold accept_session, validate_for. rewrite Hv. unfold iss_ok, aud_ok, claim_is. rewrite R1, R2.
  replace (str_eqb (cm_issuer cm) []) with false by (symmetry; apply str_eqb_neq; exact Hi). rewrite str_eqb_refl. cbn [negb andb]. rewrite R3, R4, R5.

  replace (str_eqb user []) with false by (symmetry; apply str_eqb_neq; exact N).
  rewrite !str_eqb_refl. reflexivity.
Qed.

(** Bearer acceptance. *)
Lemma accept_bearer_kind keys now cm host k t c :
  issued_as hhash k t -> rules_ok k -> accept_bearer keys now cm host t = Some c ->
  c = t_claims t /\
  ((exists aud iat cm' user email sid host0 iat0 extra,
      k = KIdentity aud iat cm' user email sid host0 iat0 extra /\ cm_issuer cm' = cm_issuer cm /\
      (aud = VStr (audience host) \/ exists l, aud = VList l /\ In (audience host) l)) \/
   (exists user iat nonce scopes rw, k = KOpenID (cm_issuer cm) (audience host) user iat nonce scopes rw)).
Proof.
  intros Hk Hrw H. unfold accept_bearer in H.
  destruct (validate_for keys now (cm_issuer cm) (audience host) t) as [c0|] eqn:Ev; [|discriminate].
  destruct (assoc (lit "proxyauth") c0) eqn:Ep; [discriminate|]. injection H as ->.
  apply validate_for_claims in Ev. destruct Ev as (Ev & Ei & Ea).
  apply validate_claims in Ev. destruct Ev as (-> & Ex & En & _). split; [reflexivity|].
  unfold issued_as in Hk. destruct k as [cm' user email sid host0 iat extra|aud iat cm' user email sid host0 iat0 extra|url sid email|issuer client user iat nonce scopes rw]; cbn [claims_of] in Hk.
  - assert (S := fun x => session_assoc _ _ _ _ _ _ _ _ x Hk). rewrite S in Ep. discriminate Ep.
  - left. destruct (session_claims hhash cm' user email sid host0 iat0 extra) as [c|] eqn:Es; [|discriminate].
    assert (S := fun x => session_assoc _ _ _ _ _ _ _ _ x Es).
    cbn [option_map] in Hk. injection Hk as Hk. rewrite <- Hk, idtoken_assoc in Ei, Ea.
    change (assoc (lit "iss") c = Some (VStr (cm_issuer cm))) in Ei. rewrite S in Ei. cbn in Ei. injection Ei as Ei.
    exists aud, iat, cm', user, email, sid, host0, iat0, extra. repeat split; auto.
    cbn -[audience] in Ea. destruct Ea as [Ea|(l & Ea & Hl)]; injection Ea as ->; eauto.
  - injection Hk as Hk. rewrite <- Hk in Ei. destruct email; discriminate Ei.
  - right. injection Hk as Hk. rewrite <- Hk in Ei, Ea. destruct (oidc_assoc_iss issuer client user iat nonce scopes) as (A & B & _).
    cbn [rules_ok] in Hrw.
    rewrite apply_rewrites_assoc, A in Ei by (intro Hin; apply (Hrw _ Hin); cbn; tauto).
    rewrite apply_rewrites_assoc, B in Ea by (intro Hin; apply (Hrw _ Hin); cbn; tauto). injection Ei as ->. destruct Ea as [Ea|(l & Ea & _)]; [|discriminate]. injection Ea as ->. eauto 10.
Qed.

(** URL acceptance. *)
Lemma accept_url_kind keys now sid k t u :
  issued_as hhash k t -> rules_ok k -> accept_url keys now sid t = Some u ->
  (exists email, k = KUrl u sid email) \/
  (exists cm user email host iat extra, k = KSession cm user email sid host iat extra /\ assoc (lit "url") extra = Some (VStr u)) \/
  (exists aud iat cm user email host iat0 extra, k = KIdentity aud iat cm user email sid host iat0 extra /\ assoc (lit "url") extra = Some (VStr u)).
Proof.
  intros Hk Hrw H. unfold accept_url in H. destruct (validate keys now t) as [c|] eqn:Ev; [|discriminate].
  apply validate_claims in Ev. destruct Ev as (-> & Ex & En & _).
  destruct (claim_is _ _ _) eqn:Es; [|discriminate]. apply claim_is_spec in Es.
  destruct (assoc (lit "url") (t_claims t)) as [[u'| | |]|] eqn:Eu; try discriminate. injection H as ->.
  unfold issued_as in Hk. destruct k as [cm' user email sid' host0 iat extra|aud iat cm' user email sid' host0 iat0 extra|url sid' email|issuer client user iat nonce scopes rw]; cbn [claims_of] in Hk.
  - right. left. assert (S := fun x => session_assoc _ _ _ _ _ _ _ _ x Hk). rewrite S in Es, Eu. cbn in Es, Eu.
    injection Es as ->. eauto 10.
  - right. right. destruct (session_claims hhash cm' user email sid' host0 iat0 extra) as [c|] eqn:E; [|discriminate].
    assert (S := fun x => session_assoc _ _ _ _ _ _ _ _ x E).
    cbn [option_map] in Hk. injection Hk as Hk. rewrite <- Hk, idtoken_assoc in Es, Eu.
    change (assoc (lit "sid") c = Some (VStr sid)) in Es. change (assoc (lit "url") c = Some (VStr u)) in Eu.
    rewrite S in Es, Eu. cbn in Es, Eu. injection Es as ->. exists aud, iat, cm', user, email, host0, iat0, extra. auto.
  - left. injection Hk as Hk. rewrite <- Hk in Es, Eu. destruct email; cbn in Es, Eu; injection Es as ->; injection Eu as ->; eauto.
  - injection Hk as Hk. rewrite <- Hk, assoc_openid_none in Eu; [discriminate Eu|reflexivity|].
    cbn [rules_ok] in Hrw. intro Hin. apply (Hrw _ Hin). cbn; tauto.
Qed.

Lemma accept_url_issued keys now url sid email t :
  issued_as hhash (KUrl url sid email) t -> (exists k, In k keys /\ get_key keys (t_kid t) = Some k /\ t_signer t = Some (kid k, ktyp k)) ->
  accept_url keys now sid t = Some url.
Proof.
  intros Hk (k & _ & Hg & Hs). unfold issued_as in Hk. cbn [claims_of] in Hk. injection Hk as Hk.
  unfold accept_url, validate. rewrite Hg, Hs, Nat.eqb_refl.
  replace (ktype_eqb (ktyp k) (ktyp k)) with true by (destruct (ktyp k); reflexivity).
  rewrite <- Hk. assert (E : claim_is (url_claims url sid email) (lit "sid") sid = true) by (apply claim_is_spec; reflexivity).
  cbn [andb]. replace (exp_ok _ _) with true by (destruct email; reflexivity). replace (nbf_ok _ _) with true by (destruct email; reflexivity).
  cbn [andb]. rewrite E. reflexivity.
Qed.

Lemma session_extra cm user email sid host now extra c k :
  session_claims hhash cm user email sid host now extra = Some c ->
  ~ In k [lit "iat"; lit "exp"; lit "iss"; lit "aud"; lit "sub"; lit "email"; lit "proxyauth"; lit "provider"; lit "hhash"; lit "sid"] ->
  assoc k c = assoc k extra.
Proof.
  intros H Hk. rewrite (session_assoc _ _ _ _ _ _ _ _ k H).
  destruct (assoc k (session_base _ _ _ _ _ _ _)) eqn:E; [|reflexivity].
  exfalso. apply assoc_In in E. apply (in_map fst) in E. apply Hk. exact E.
Qed.

Lemma idtoken_inherits aud now c k :
  mem k ([lit "aud"; lit "iat"] ++ idtoken_skip) = false -> assoc k (idtoken_claims aud now c) = assoc k c.
Proof.
  intro H. rewrite idtoken_assoc. cbn [app mem existsb] in H |- *.
  apply orb_false_elim in H. destruct H as [H1 H]. apply orb_false_elim in H. destruct H as [H2 H].
  cbv [mem existsb] in *. 
  rewrite H1, H2. rewrite H. reflexivity.
Qed.

(** * Tokens from anywhere *)
Lemma accept_session_genuine keys now cm t c : unforged hhash keys t -> accept_session keys now cm t = Some c ->
  exists user email sid host iat extra,
    issued_as hhash (KSession cm user email sid host iat extra) t /\ c = t_claims t /\ (0 <= iat -> now < iat + 20 * hour).
Proof.
  intros Hu H. assert (S : exists k, In k keys /\ t_signer t = Some (kid k, ktyp k)).
  { unfold accept_session, validate_for in H. destruct (validate keys now t) as [c0|] eqn:E; [|discriminate].
    apply validate_claims in E. destruct E as (_ & _ & _ & k & A & _ & B). eauto. }
  destruct (Hu S) as (k & Hk & Hr). destruct (accept_session_kind _ _ _ _ _ _ Hk Hr H) as (user & email & sid & host & iat & extra & -> & A & B).
  exists user, email, sid, host, iat, extra. auto.
Qed.

Lemma accept_bearer_genuine keys now cm host t c : unforged hhash keys t -> accept_bearer keys now cm host t = Some c ->
  exists k, issued_as hhash k t /\ c = t_claims t /\
  ((exists aud iat cm' user email sid host0 iat0 extra,
      k = KIdentity aud iat cm' user email sid host0 iat0 extra /\ cm_issuer cm' = cm_issuer cm /\
      (aud = VStr (audience host) \/ exists l, aud = VList l /\ In (audience host) l)) \/
   (exists user iat nonce scopes rw, k = KOpenID (cm_issuer cm) (audience host) user iat nonce scopes rw)).
Proof.
  intros Hu H. assert (S : exists k, In k keys /\ t_signer t = Some (kid k, ktyp k)).
  { unfold accept_bearer, validate_for in H. destruct (validate keys now t) as [c0|] eqn:E; [|discriminate].
    apply validate_claims in E. destruct E as (_ & _ & _ & k & A & _ & B). eauto. }
  destruct (Hu S) as (k & Hk & Hr). exists k. split; [exact Hk|]. exact (accept_bearer_kind _ _ _ _ _ _ _ Hk Hr H).
Qed.

Lemma accept_url_genuine keys now sid t u : unforged hhash keys t -> accept_url keys now sid t = Some u ->
  exists k, issued_as hhash k t /\
  ((exists email, k = KUrl u sid email) \/
  (exists cm user email host iat extra, k = KSession cm user email sid host iat extra /\ assoc (lit "url") extra = Some (VStr u)) \/
  (exists aud iat cm user email host iat0 extra, k = KIdentity aud iat cm user email sid host iat0 extra /\ assoc (lit "url") extra = Some (VStr u))).
Proof.
  intros Hu H. assert (S : exists k, In k keys /\ t_signer t = Some (kid k, ktyp k)).
  { unfold accept_url in H. destruct (validate keys now t) as [c0|] eqn:E; [|discriminate].
    apply validate_claims in E. destruct E as (_ & _ & _ & k & A & _ & B). eauto. }
  destruct (Hu S) as (k & Hk & Hr). exists k. split; [exact Hk|]. exact (accept_url_kind _ _ _ _ _ _ Hk Hr H).
Qed.
End Hash.
