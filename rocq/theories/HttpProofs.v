From Verif Require Import Base PathModel PathSpec PathProofs TokenModel TokenSpec TokenProofs HttpModel HttpSpec.
Open Scope Z_scope.

(** * Headers *)
Lemma same_name_refl n : same_name n n = true.
Proof. apply str_eqb_refl. Qed.
Lemma same_name_sym a b : same_name a b = same_name b a.
Proof. apply str_eqb_sym. Qed.
Lemma same_name_trans a b c : same_name a b = true -> same_name b c = same_name a c.
Proof. unfold same_name. intro H. apply str_eqb_spec in H. rewrite H. reflexivity. Qed.

Lemma h_values_del n m h : h_values n (h_del m h) = if same_name m n then [] else h_values n h.
Proof.
  unfold h_values, h_del. induction h as [|[k v] h IH]; cbn [filter fst map]; [destruct (same_name m n); reflexivity|].
  destruct (same_name k m) eqn:E; cbn [negb].
  - rewrite IH. destruct (same_name m n) eqn:E2; [reflexivity|]. 
    rewrite (same_name_trans k m n E) in E2. rewrite E2. reflexivity.
  - cbn [filter fst]. destruct (same_name k n) eqn:E3; cbn [map]; rewrite IH; destruct (same_name m n) eqn:E2; try reflexivity.
    exfalso. assert (same_name k m = true); [|congruence]. rewrite same_name_sym in E3. rewrite same_name_sym in E2.
    rewrite (same_name_trans n k m E3). exact E2.
Qed.
Lemma h_values_app n h1 h2 : h_values n (h1 ++ h2) = h_values n h1 ++ h_values n h2.
Proof. unfold h_values. induction h1 as [|[k v] h IH]; [reflexivity|]. cbn [app filter fst]. destruct (same_name k n); cbn [map app]; rewrite IH; reflexivity. Qed.
Lemma h_values_set n m v h : h_values n (h_set m v h) = if same_name m n then [v] else h_values n h.
Proof.
  unfold h_set. rewrite h_values_app, h_values_del. unfold h_values at 2. cbn [filter fst]. destruct (same_name m n); cbn [map app]; [reflexivity|apply app_nil_r].
Qed.
Lemma h_values_fold_del n ns h :
  h_values n (fold_left (fun h m => h_del m h) ns h) = if existsb (fun m => same_name m n) ns then [] else h_values n h.
Proof.
  revert h. induction ns as [|m ns IH]; intro h; [reflexivity|]. cbn [fold_left existsb]. rewrite IH, h_values_del.
  destruct (same_name m n), (existsb _ ns); reflexivity.
Qed.
Lemma h_get_del n m h : same_name m n = false -> h_get n (h_del m h) = h_get n h.
Proof. intro H. unfold h_get. rewrite h_values_del, H. reflexivity. Qed.
Lemma h_get_set n m v h : h_get n (h_set m v h) = if same_name m n then v else h_get n h.
Proof. unfold h_get. rewrite h_values_set. destruct (same_name m n); reflexivity. Qed.

(** * Paths and access lists *)
Lemma pathMatches_spec paths path : pathMatches paths path = true <-> protected paths path.
Proof.
  unfold pathMatches, protected. destruct paths as [|p0 ps]; [split; auto|]. cbv zeta. rewrite existsb_exists, pathClean_spec. split.
  - intros (p & Hin & H). right. exists p. split; [exact Hin|]. apply orb_prop in H. rewrite !has_prefix_spec in H. exact H.
  - intros [H|(p & Hin & H)]; [discriminate|]. exists p. split; [exact Hin|]. apply orb_true_iff. rewrite !has_prefix_spec. exact H.
Qed.

Lemma domain_cut user : domain_of user (snd (fst (cut "@" user))).
Proof.
  destruct (cut_spec "@" user) as [(a & b & H1 & H2 & ->)|(H1 & ->)]; cbn.
  - left. exists a. auto.
  - right. auto.
Qed.
Lemma domain_unique user d1 d2 : domain_of user d1 -> domain_of user d2 -> d1 = d2.
Proof.
  intros [(a & -> & Ha)|[Ha ->]] [(b & E & Hb)|[Hb ->]]; auto.
  - revert b E Hb. induction a as [|x a IH]; intros [|y b] E Hb; cbn [app] in E.
    + congruence.
    + exfalso. apply Hb. left. congruence.
    + exfalso. apply Ha. left. congruence.
    + apply (IH (fun H => Ha (or_intror H)) b); [congruence|]. intro H. apply Hb. right. exact H.
  - exfalso. apply Hb. apply in_or_app. right. left. reflexivity.
  - exfalso. subst. apply Ha. apply in_or_app. right. left. reflexivity.
Qed.

Lemma acl_ok_spec acl user : acl_ok acl user = true <-> allowed acl user.
Proof.
  unfold acl_ok, allowed. destruct acl as [l|]; [|tauto]. assert (D := domain_cut user). destruct (cut "@" user) as [[a d] b]. cbn in D.
  rewrite orb_true_iff, !mem_spec. change (lit "@" ++ d) with ("@"%char :: d). split.
  - intros [H|H]; [auto|]. right. eauto.
  - intros [H|(d' & Hd & H)]; [auto|]. right. rewrite (domain_unique _ _ _ D Hd). exact H.
Qed.

(** * Authentication *)
Lemma bearer_headers h h' : h_get (lit "authorization") h = h_get (lit "authorization") h' -> bearer_token h = bearer_token h'.
Proof. unfold bearer_token. intros ->. reflexivity. Qed.

Lemma check_bearer_del ev cm r : check_bearer ev cm (set_headers (h_del user_header (rq_headers r)) r) = check_bearer ev cm r.
Proof.
  unfold check_bearer. cbn [rq_headers set_headers rq_host]. rewrite (bearer_headers _ (rq_headers r)); [reflexivity|].
  apply h_get_del. reflexivity.
Qed.
Lemma cookies_ext h h' : h_values (lit "cookie") h = h_values (lit "cookie") h' -> cookies h = cookies h'.
Proof. unfold cookies. intros ->. reflexivity. Qed.
Lemma cookies_del n h : same_name n (lit "cookie") = false -> cookies (h_del n h) = cookies h.
Proof. intro H. apply cookies_ext. rewrite h_values_del, H. reflexivity. Qed.
Lemma cookies_set n v h : same_name n (lit "cookie") = false -> cookies (h_set n v h) = cookies h.
Proof. intro H. apply cookies_ext. rewrite h_values_set, H. reflexivity. Qed.
Lemma check_session_del ev cm r : check_session ev cm (set_headers (h_del user_header (rq_headers r)) r) = check_session ev cm r.
Proof. unfold check_session, get_cookie. cbn [rq_headers set_headers]. rewrite cookies_del; reflexivity. Qed.


Lemma email_of_spec c e : email_of c = Some e <-> assoc (lit "email") c = Some (VStr e) /\ e <> [].
Proof.
  unfold email_of. destruct (assoc (lit "email") c) as [[x| | |]|]; split; intro H; try discriminate; try (destruct H; discriminate).
  - destruct (str_eqb x []) eqn:E; [discriminate|]. injection H as ->. apply str_eqb_neq in E. auto.
  - destruct H as [H1 H2]. injection H1 as ->. apply str_eqb_neq in H2. rewrite H2. reflexivity.
Qed.

Lemma authenticate_spec ev be r r1 c : authenticate ev be r = Some (r1, c) ->
  rq_path r1 = rq_path r /\ rq_host r1 = rq_host r /\ rq_method r1 = rq_method r /\ rq_proto r1 = rq_proto r /\
  (forall n, same_name user_header n = false -> h_values n (rq_headers r1) = h_values n (rq_headers r)) /\
  match be_sso be with
  | None => c = None /\ h_values user_header (rq_headers r1) = []
  | Some s =>
      match c with
      | None => h_values user_header (rq_headers r1) = []
      | Some cl => exists e, identified ev s r cl e /\
                   h_values user_header (rq_headers r1) = if sso_user_header s then [e] else []
      end
  end.
Proof.
  unfold authenticate. cbv zeta. destruct (be_sso be) as [s|].
  - destruct (check_cookies ev be s _) as [[cl|]|] eqn:E; [| |discriminate].
    + destruct (email_of cl) as [e|] eqn:Ee; intro H; injection H as <- <-.
      * apply email_of_spec in Ee. repeat split; auto.
        { intros n Hn. cbn [set_headers rq_headers]. destruct (sso_user_header s); rewrite ?h_values_set, h_values_del, Hn; reflexivity. }
        exists e. split.
        { split; [|exact Ee]. unfold check_cookies in E. rewrite check_bearer_del, check_session_del in E.
          destruct (check_bearer ev (sso_cm s) r) as [cb|]; [injection E as ->; auto|].
          destruct (check_session ev (sso_cm s) r) as [cs|]; [|discriminate].
          destruct (email_of cs); [|discriminate].
          destruct (negb (sso_gen_id s)); [injection E as ->; auto|]. destruct (negb _); [injection E as ->; auto|].
          destruct (check_id_cookie _ _ _ _); [injection E as ->; auto|discriminate]. }
        cbn [set_headers rq_headers]. destruct (sso_user_header s); rewrite ?h_values_set, ?h_values_del, same_name_refl; reflexivity.
      * repeat split; auto; cbn [set_headers rq_headers].
        { intros n Hn. rewrite h_values_del, Hn. reflexivity. } rewrite h_values_del, same_name_refl. reflexivity.
    + intro H; injection H as <- <-. repeat split; auto; cbn [set_headers rq_headers].
      { intros n Hn. rewrite h_values_del, Hn. reflexivity. } rewrite h_values_del, same_name_refl. reflexivity.
  - intro H; injection H as <- <-. repeat split; auto; cbn [set_headers rq_headers].
    { intros n Hn. rewrite h_values_del, Hn. reflexivity. } rewrite h_values_del, same_name_refl. reflexivity.
Qed.

(** * Authorization *)
Lemma enforce_pass ev be r c r' : enforce ev be r c = inr r' ->
  rq_path r' = rq_path r /\ rq_host r' = rq_host r /\ rq_method r' = rq_method r /\ rq_proto r' = rq_proto r /\
  match be_sso be with
  | None => r' = r
  | Some s =>
      (~ protected (sso_paths s) (rq_path r) /\ r' = r) \/
      (protected (sso_paths s) (rq_path r) /\ rq_headers r' = filter_auth_cookie (rq_headers r) /\
       exists cl, c = Some cl /\ needs_login ev s (rq_host r) c = false /\
         allowed (sso_acl s) (match assoc (lit "email") cl with Some (VStr e) => e | _ => [] end))
  end.
Proof.
  unfold enforce. destruct (be_sso be) as [s|].
  - destruct (pathMatches (sso_paths s) (rq_path r)) eqn:Ep; cbn [negb].
    + destruct (needs_login ev s (rq_host r) c) eqn:En; [discriminate|]. cbv zeta.
      destruct (acl_ok _ _) eqn:Ea; [|discriminate]. intro H. injection H as <-. repeat split; auto.
      right. apply pathMatches_spec in Ep. repeat split; auto. destruct c as [cl|]; [|discriminate En].
      exists cl. split; [reflexivity|]. split; [reflexivity|]. apply acl_ok_spec. exact Ea.
    + intro H. injection H as <-. repeat split; auto. left. split; [|reflexivity]. rewrite <- pathMatches_spec. congruence.
  - intro H. injection H as <-. repeat split; auto.
Qed.

Lemma needs_login_false ev s host cl : needs_login ev s host (Some cl) = false ->
  sso_force s = 0 \/ (assoc (lit "hhash") cl = Some (VStr (ev_hash ev host)) /\ 
                      exists t, assoc (lit "iat") cl = Some (VNum t) /\ ev_now ev - t <= sso_force s).
Proof.
  unfold needs_login. intro H. apply andb_false_iff in H. destruct H as [H|H].
  - left. apply negb_false_iff in H. apply Z.eqb_eq in H. exact H.
  - right. apply orb_false_iff in H. destruct H as [H1 H2]. apply negb_false_iff in H1. apply claim_is_spec in H1. split; [exact H1|].
    unfold issued_at in H2. destruct (assoc (lit "iat") cl) as [[|n| |]|]; try discriminate. exists n. split; [reflexivity|].
    apply Z.ltb_ge in H2. exact H2.
Qed.

Lemma local_inr ev be r c r' : local_and_authorize ev be r c = inr r' -> enforce ev be r c = inr r' /\ 
  find (handler_matches (host_from_req (rq_host r)) (pathClean (rq_path r))) (be_handlers be) = None.
Proof.
  unfold local_and_authorize. cbv zeta. destruct (find _ (be_handlers be)) as [h|].
  - destruct (if lh_bypass h then inr r else enforce ev be r c); discriminate.
  - destruct (enforce ev be r c) as [res|r1]; [discriminate|]. destruct (existsb _ _); [discriminate|]. auto.
Qed.

Lemma local_inl ev be r c res : local_and_authorize ev be r c = inl res -> reaches res ->
  exists r', enforce ev be r c = inr r'.
Proof.
  unfold local_and_authorize. cbv zeta. destruct (find _ (be_handlers be)) as [h|] eqn:Ef.
  - destruct (lh_bypass h) eqn:Eb.
    + destruct (str_eqb _ (rq_path r)); intro H; injection H as <-; cbn; [congruence|intros []].
    + destruct (enforce ev be r c) as [res'|r'] eqn:E; [|eauto].
      intro H. injection H as ->. unfold enforce in E. destruct (be_sso be) as [s|]; [|discriminate].
      destruct (negb _); [discriminate|]. destruct (needs_login _ _ _ _).
      * injection E as <-. destruct (str_eqb _ _); intros [].
      * cbv zeta in E. destruct (acl_ok _ _); [discriminate|]. injection E as <-. intros [].
  - destruct (enforce ev be r c) as [res'|r'] eqn:E; [|eauto].
    intro H. injection H as ->. unfold enforce in E. destruct (be_sso be) as [s|]; [|discriminate].
    destruct (negb _); [discriminate|]. destruct (needs_login _ _ _ _).
    + injection E as <-. destruct (str_eqb _ _); intros [].
    + cbv zeta in E. destruct (acl_ok _ _); [discriminate|]. injection E as <-. intros [].
Qed.

(** What local_and_authorize can answer. *)
Lemma local_inl_kind ev be r c res : local_and_authorize ev be r c = inl res ->
  match res with Forward _ | Static _ | Misdirected | LoopDetected | SetIDToken => False | _ => True end.
Proof.
  assert (K : forall res, enforce ev be r c = inl res -> match res with Forward _ | Static _ | Misdirected | LoopDetected | SetIDToken => False | _ => True end).
  { intros res' E. unfold enforce in E. destruct (be_sso be) as [s|]; [|discriminate].
    destruct (negb _); [discriminate|]. destruct (needs_login _ _ _ _).
    + injection E as <-. destruct (str_eqb _ _); exact I.
    + cbv zeta in E. destruct (acl_ok _ _); [discriminate|]. injection E as <-. exact I. }
  unfold local_and_authorize. cbv zeta. destruct (find _ (be_handlers be)) as [h|] eqn:Ef.
  - destruct (lh_bypass h) eqn:Eb.
    + destruct (str_eqb _ (rq_path r)); intro H; injection H as <-; exact I.
    + destruct (enforce ev be r c) as [res'|r'] eqn:E.
      * intro H. injection H as ->. apply K. reflexivity.
      * destruct (str_eqb _ (rq_path r)); intro H; injection H as <-; exact I.
  - destruct (enforce ev be r c) as [res'|r'] eqn:E.
    + intro H. injection H as ->. apply K. reflexivity.
    + destruct (existsb _ _); intro H; [injection H as <-; exact I|discriminate].
Qed.

(** * Single sign-on *)
Lemma sso_core ev be s r r1 c r2 : be_sso be = Some s -> protected (sso_paths s) (rq_path r) ->
  authenticate ev be r = Some (r1, c) -> enforce ev be r1 c = inr r2 ->
  exists cl e, identified ev s r cl e /\ allowed (sso_acl s) e /\
    (sso_force s = 0 \/ (assoc (lit "hhash") cl = Some (VStr (ev_hash ev (rq_host r))) /\
                         exists t, assoc (lit "iat") cl = Some (VNum t) /\ ev_now ev - t <= sso_force s)).
Proof.
  intros Hs Hp Ha He. apply authenticate_spec in Ha. destruct Ha as (P1 & P2 & _ & _ & _ & Ha). rewrite Hs in Ha.
  apply enforce_pass in He. destruct He as (_ & _ & _ & _ & He). rewrite Hs in He.
  rewrite P1, P2 in He. destruct He as [[He _]|(_ & _ & cl & -> & Hn & Hal)]; [contradiction|].
  destruct Ha as (e & Hid & _). exists cl, e. split; [exact Hid|]. destruct Hid as (_ & Hem & _). rewrite Hem in Hal. split; [exact Hal|].
  apply needs_login_false. exact Hn.
Qed.

Lemma sso_no_bypass ev be cn s r : be_sso be = Some s -> protected (sso_paths s) (rq_path r) ->
  reaches (reverse_proxy ev be cn r) \/ reaches (local_only ev be r) ->
  exists cl e, identified ev s r cl e /\ allowed (sso_acl s) e /\
    (sso_force s = 0 \/ (assoc (lit "hhash") cl = Some (VStr (ev_hash ev (rq_host r))) /\
                         exists t, assoc (lit "iat") cl = Some (VNum t) /\ ev_now ev - t <= sso_force s)).
Proof.
  intros Hs Hp H. unfold reverse_proxy, local_only in H.
  destruct (authenticate ev be r) as [[r1 c]|] eqn:Ea; [|destruct H as [[]|[]]].
  assert (E : exists r2, enforce ev be r1 c = inr r2).
  { destruct (local_and_authorize ev be r1 c) as [res|r2] eqn:El.
    - apply local_inl with res; [exact El|]. tauto.
    - apply local_inr in El. destruct El. eauto. }
  destruct E as [r2 E]. exact (sso_core _ _ _ _ _ _ _ Hs Hp Ea E).
Qed.


Lemma identified_token ev s r cl e : identified ev s r cl e ->
  (forall str t, ev_decode ev str = Some t -> unforged (ev_hash ev) (ev_keys ev) t) ->
  exists text t, carries r text /\ ev_decode ev text = Some t /\ cl = t_claims t /\
  ((get_cookie auth_cookie (rq_headers r) = Some text /\
    exists user sid host iat extra, issued_as (ev_hash ev) (KSession (sso_cm s) user e sid host iat extra) t) \/
   (bearer_token (rq_headers r) = Some text /\
    ((exists aud iat cm' user sid host iat0 extra, issued_as (ev_hash ev) (KIdentity aud iat cm' user e sid host iat0 extra) t /\
        cm_issuer cm' = cm_issuer (sso_cm s) /\
        (aud = VStr (audience (host_from_req (rq_host r))) \/ exists l, aud = VList l /\ In (audience (host_from_req (rq_host r))) l)) \/
     (exists user iat nonce scopes rw, issued_as (ev_hash ev) (KOpenID (cm_issuer (sso_cm s)) (audience (host_from_req (rq_host r))) user iat nonce scopes rw) t)))).
Proof.
  intros (Hc & Hem & Hne) Hu. destruct Hc as [Hc|Hc].
  - unfold check_bearer in Hc. destruct (bearer_token (rq_headers r)) as [text|] eqn:Eb; [|discriminate].
    destruct (ev_decode ev text) as [t|] eqn:Ed; [|discriminate]. exists text, t.
    destruct (accept_bearer_genuine _ _ _ _ _ _ _ (Hu _ _ Ed) Hc) as (k & Hk & -> & Hkk).
    split; [right; exact Eb|]. split; [exact Ed|]. split; [reflexivity|]. right. split; [reflexivity|].
    destruct Hkk as [(aud & iat & cm' & user & email & sid & host0 & iat0 & extra & -> & A & B)|(user & iat & nonce & scopes & rw & ->)].
    + left. assert (email = e).
      { unfold issued_as in Hk. cbn [claims_of] in Hk. destruct (session_claims _ _ _ _ _ _ _ _) as [c0|] eqn:Es; [|discriminate].
        cbn [option_map] in Hk. injection Hk as Hk. rewrite <- Hk, idtoken_inherits in Hem by reflexivity.
        destruct (session_reserved _ _ _ _ _ _ _ _ _ Es) as (_ & _ & _ & _ & _ & R & _). congruence. }
      subst email. exists aud, iat, cm', user, sid, host0, iat0, extra. auto.
    + right. eauto 10.
  - unfold check_session in Hc. destruct (get_cookie auth_cookie (rq_headers r)) as [text|] eqn:Eb; [|discriminate].
    destruct (ev_decode ev text) as [t|] eqn:Ed; [|discriminate]. exists text, t.
    destruct (accept_session_genuine _ _ _ _ _ _ (Hu _ _ Ed) Hc) as (user & email & sid & host & iat & extra & Hk & -> & _).
    split; [left; exact Eb|]. split; [exact Ed|]. split; [reflexivity|]. left. split; [reflexivity|].
    assert (email = e).
    { unfold issued_as in Hk. cbn [claims_of] in Hk. destruct (session_reserved _ _ _ _ _ _ _ _ _ Hk) as (_ & _ & _ & _ & _ & R & _). congruence. }
    subst email. eauto 10.
Qed.

(** * Forwarded headers *)
Lemma connection_options_ext h h' : h_values (lit "connection") h = h_values (lit "connection") h' -> connection_options h = connection_options h'.
Proof. unfold connection_options. intros ->. reflexivity. Qed.

Lemma director_values be cn h n : h_values n (director be cn h) =
  if same_name xfcc n then match cn_cert cn, be_xfcc be with Some v, _ :: _ => [v] | _, _ => [] end
  else if same_name xff n then [] else h_values n h.
Proof.
  unfold director. cbv zeta. destruct (cn_cert cn) as [v|]; [destruct (be_xfcc be)|]; rewrite ?h_values_set, !h_values_del;
  destruct (same_name xfcc n) eqn:E; try reflexivity; destruct (same_name xff n); reflexivity.
Qed.

Lemma director_connection be cn h : connection_options (director be cn h) = connection_options h.
Proof. apply connection_options_ext. rewrite director_values. reflexivity. Qed.

Definition conn_names (h : headers) (n : str) : bool := existsb (fun m => same_name m n) (connection_options h).
Lemma conn_names_spec h n : conn_names h n = true <-> connection_names h n.
Proof. unfold conn_names, connection_names. rewrite existsb_exists. reflexivity. Qed.

Definition is_hop (n : str) : bool := existsb (fun m => same_name m n) hop_headers.

Lemma strip_values be cn h n : h_values n (remove_hop_by_hop (director be cn h)) =
  if conn_names h n || is_hop n then [] else h_values n (director be cn h).
Proof.
  unfold remove_hop_by_hop. rewrite h_values_fold_del, existsb_app, director_connection. reflexivity.
Qed.

Lemma outgoing_values be cn h n :
  same_name (lit "te") n = false -> same_name (lit "upgrade") n = false -> same_name (lit "connection") n = false -> same_name xff n = false ->
  h_values n (outgoing be cn h) = if conn_names h n || is_hop n then [] else h_values n (director be cn h).
Proof.
  intros H1 H2 H3 H4. unfold outgoing. cbv zeta. rewrite h_values_set, H4, <- strip_values.
  destruct (str_eqb (upgrade_type _) []); rewrite ?h_values_set, ?H2, ?H3; destruct (contains_token _ _); rewrite ?h_values_set, ?H1; reflexivity.
Qed.

Lemma outgoing_xff be cn h : h_values xff (outgoing be cn h) = [cn_peer cn].
Proof.
  unfold outgoing. cbv zeta. rewrite h_values_set, same_name_refl.
  match goal with |- context [match ?p with [] => cn_peer cn | _ => _ end] => assert (E : p = []) end; [|rewrite E; reflexivity].
  destruct (str_eqb (upgrade_type _) []); rewrite ?h_values_set; cbn [same_name];
  destruct (contains_token _ _); rewrite ?h_values_set;
  change (same_name (lit "upgrade") xff) with false; change (same_name (lit "connection") xff) with false; change (same_name (lit "te") xff) with false;
  cbv iota; rewrite strip_values, director_values, same_name_refl; change (same_name xfcc xff) with false; destruct (_ || _); reflexivity.
Qed.

(** Applying configured headers. *)
Lemma apply_headers_values ev c extra h host n :
  (forall kv, In kv extra -> same_name (fst kv) n = false) ->
  h_values n (fst (fold_left (apply_header ev c) extra (h, host))) = h_values n h.
Proof.
  revert h host. induction extra as [|[k v] extra IH]; intros h host H; [reflexivity|]. cbn [fold_left].
  assert (Hk := H (k, v) (or_introl eq_refl)). cbn [fst] in Hk.
  unfold apply_header at 2. cbn [fst snd]. destruct (str_eqb _ []); rewrite IH; try (intros kv Hkv; apply H; right; exact Hkv).
  - rewrite h_values_del, Hk. reflexivity.
  - rewrite h_values_set, Hk. reflexivity.
Qed.

(** The rules in force. *)
Definition rules_for (be : backend) (ov : option nat) (extra : list (str * str)) : Prop :=
  match ov with
  | None => extra = be_headers be
  | Some i => exists po, nth_error (be_overrides be) i = Some po /\ extra = match po_headers po with Some l => l | None => be_headers be end
  end.

Lemma rules_leave_for be ov extra n : rules_leave be n -> rules_for be ov extra -> forall kv, In kv extra -> same_name (fst kv) n = false.
Proof.
  intros [H1 H2] Hr kv Hin. destruct ov as [i|]; cbn in Hr; [|subst; auto].
  destruct Hr as (po & Hpo & ->). apply nth_error_In in Hpo. destruct (po_headers po) as [l|] eqn:E; [eapply H2; eauto|auto].
Qed.

(** * Path overrides *)
Lemma try_paths_spec path i po ps :
  match try_paths path i po ps with
  | CDefault => forall p, In p ps -> path ++ [slash] <> p /\ (forall t, path <> p ++ t)
  | CRedirect q => q = path ++ [slash] /\ exists ps1 ps2, ps = ps1 ++ q :: ps2 /\ forall p, In p ps1 -> path ++ [slash] <> p /\ (forall t, path <> p ++ t)
  | COverride j po' p => j = i /\ po' = po /\ exists ps1 ps2, ps = ps1 ++ p :: ps2 /\ (exists t, path = p ++ t) /\ path ++ [slash] <> p /\
       forall p', In p' ps1 -> path ++ [slash] <> p' /\ (forall t, path <> p' ++ t)
  end.
Proof.
  induction ps as [|p ps IH]; cbn [try_paths]; [intros p []|].
  destruct (str_eqb (path ++ [slash]) p) eqn:E1.
  - apply str_eqb_spec in E1. split; [reflexivity|]. exists [], ps. split; [subst; reflexivity|]. intros p' [].
  - apply str_eqb_neq in E1. destruct (has_prefix path p) eqn:E2.
    + apply has_prefix_spec in E2. split; [reflexivity|]. split; [reflexivity|]. exists [], ps. repeat split; auto; destruct H.
    + assert (E3 : forall t, path <> p ++ t) by (intros t E; rewrite (proj2 (has_prefix_spec path p)) in E2 by eauto; discriminate).
      destruct (try_paths path i po ps) as [q|j po' p'|].
      * destruct IH as (A & ps1 & ps2 & B & C). split; [exact A|]. exists (p :: ps1), ps2. split; [rewrite B; reflexivity|]. intros x [<-|Hx]; auto.
      * destruct IH as (A & A' & ps1 & ps2 & B & C & D & E). split; [exact A|]. split; [exact A'|]. exists (p :: ps1), ps2. split; [rewrite B; reflexivity|]. split; [exact C|]. split; [exact D|]. intros x [<-|Hx]; auto.
      * intros x [<-|Hx]; auto.
Qed.


Lemma choose_spec path i pos :
  match choose path i pos with
  | CDefault => Forall (no_match path) pos
  | CRedirect q => q = path ++ [slash] /\ exists pos1 po pos2, pos = pos1 ++ po :: pos2 /\ Forall (no_match path) pos1 /\ In q (po_paths po)
  | COverride j po p => exists pos1 pos2, pos = pos1 ++ po :: pos2 /\ j = (i + List.length pos1)%nat /\ Forall (no_match path) pos1 /\
      In p (po_paths po) /\ (exists t, path = p ++ t) /\ path ++ [slash] <> p
  end.
Proof.
  revert i. induction pos as [|po pos IH]; intro i; cbn [choose]; [constructor|].
  assert (T := try_paths_spec path i po (po_paths po)). destruct (try_paths path i po (po_paths po)) as [q|j po' p|].
  - destruct T as (-> & ps1 & ps2 & B & C). split; [reflexivity|]. exists [], po, pos. split; [reflexivity|]. split; [constructor|]. rewrite B. apply in_or_app. right. left. reflexivity.
  - destruct T as (-> & -> & ps1 & ps2 & B & C & D & E). exists [], pos. split; [reflexivity|]. split; [cbn; lia|]. split; [constructor|].
    split; [rewrite B; apply in_or_app; right; left; reflexivity|]. split; [exact C|]. exact D.
  - specialize (IH (S i)). destruct (choose path (S i) pos) as [q|j po' p|].
    + destruct IH as (-> & pos1 & po' & pos2 & B & C & D). split; [reflexivity|]. exists (po :: pos1), po', pos2. split; [rewrite B; reflexivity|]. split; [constructor; auto|exact D].
    + destruct IH as (pos1 & pos2 & B & -> & C & D). exists (po :: pos1), pos2. split; [rewrite B; reflexivity|]. split; [cbn; lia|]. split; [constructor; auto|exact D].
    + constructor; auto.
Qed.

(** What a forwarded request looks like. *)
Lemma forward_spec ev be cn r c f : forward ev be cn r c = Forward f ->
  let host := if str_eqb (rq_host r) [] then cn_name cn else rq_host r in
  In (url_hostname host) (be_names be) /\ be_addrs be <> [] /\
  exists extra h1, rules_for be (fw_override f) extra /\
    let hs := hops (h_get via (rq_headers r)) in
    (forall hop, In hop hs -> hop_name hop <> cn_local cn) /\
    h1 = h_set via (join_hops (hs ++ [rq_proto r ++ lit " " ++ cn_local cn])) (h_set (lit "host") host (rq_headers r)) /\
    fw_headers f = outgoing be cn (fst (fold_left (apply_header ev c) extra (h1, rq_host r))) /\
    fw_host f = snd (fold_left (apply_header ev c) extra (h1, rq_host r)) /\
    (fw_path f = pathClean (rq_path r) \/ fw_path f = rq_path r) /\
    match fw_override f with
    | None => choose (pathClean (rq_path r)) 0 (be_overrides be) = CDefault
    | Some i => exists po p, choose (pathClean (rq_path r)) 0 (be_overrides be) = COverride i po p /\ po_addrs po <> []
    end.
Proof.
  cbv zeta. unfold forward. cbv zeta. set (host := if str_eqb (rq_host r) [] then cn_name cn else rq_host r).
  destruct (mem (url_hostname host) (be_names be)) eqn:Em; cbn [negb]; [|discriminate]. apply mem_spec in Em.
  rewrite h_get_set. change (same_name (lit "host") via) with false. cbv iota.
  set (hs := hops (h_get via (rq_headers r))).
  set (h1 := h_set via _ _).
  assert (G : forall ov (sanitize : bool) extra,
    (match be_addrs be with [] => Static (serve_static (ev_fs ev) (be_root be) [] (rq_method r) (rq_path r)) | _ :: _ =>
      if existsb (fun hop => str_eqb (hop_name hop) (cn_local cn)) hs then LoopDetected
      else let '(h, ohost) := fold_left (apply_header ev c) extra (h1, rq_host r) in
        Forward {| fw_override := ov; fw_host := ohost; fw_path := if sanitize then pathClean (rq_path r) else rq_path r; fw_headers := outgoing be cn h |} end) = Forward f ->
    be_addrs be <> [] /\ (forall hop, In hop hs -> hop_name hop <> cn_local cn) /\ fw_override f = ov /\
    fw_headers f = outgoing be cn (fst (fold_left (apply_header ev c) extra (h1, rq_host r))) /\
    fw_host f = snd (fold_left (apply_header ev c) extra (h1, rq_host r)) /\
    (fw_path f = pathClean (rq_path r) \/ fw_path f = rq_path r)).
  { intros ov sanitize extra. destruct (be_addrs be) as [|a l]; [discriminate|]. destruct (existsb _ hs) eqn:Ex; [discriminate|].
    destruct (fold_left _ extra _) as [h ohost]. intro H. injection H as <-. cbn. repeat split; try discriminate.
    - intros hop Hin E. apply (f_equal negb) in Ex. 
      assert (existsb (fun hop => str_eqb (hop_name hop) (cn_local cn)) hs = true); [|rewrite H in Ex; discriminate].
      apply existsb_exists. exists hop. split; [exact Hin|]. apply str_eqb_spec. exact E.
    - destruct sanitize; auto. }
  destruct (choose (pathClean (rq_path r)) 0 (be_overrides be)) as [q|i po p|] eqn:Ec; [discriminate| |].
  - destruct (po_addrs po) as [|a l] eqn:Ea; [discriminate|]. intro H. apply G in H. destruct H as (A & B & C & D & E & F).
    split; [exact Em|]. split; [exact A|]. eexists _, h1. rewrite C. split; [|split; [exact B|split; [reflexivity|split; [exact D|split; [exact E|split; [exact F|]]]]]].
    + assert (S := choose_spec (pathClean (rq_path r)) 0 (be_overrides be)). rewrite Ec in S. destruct S as (pos1 & pos2 & S1 & -> & _).
      exists po. split; [|reflexivity]. rewrite S1. cbn [Nat.add]. rewrite nth_error_app2 by lia. rewrite Nat.sub_diag. reflexivity.
    + exists po, p. split; [reflexivity|]. rewrite Ea. discriminate.
  - intro H. apply G in H. destruct H as (A & B & C & D & E & F).
    split; [exact Em|]. split; [exact A|]. eexists _, h1. rewrite C. split; [reflexivity|]. repeat split; auto.
Qed.
