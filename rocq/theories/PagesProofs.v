From Verif Require Import Base PathModel PathSpec TokenModel HttpModel RefreshModel RefreshSpec BrowserModel PagesModel PagesSpec.
From Verif Require HttpProofs PathProofs RefreshProofs TokenProofs KeysProofs KeygenModel KeygenProofs ConsoleModel ConsoleProofs SamlProofs OcspGetModel.
Require Import Lia.
Open Scope nat_scope.

(** *** The host *)
Definition host_byte (c : ascii) : str := if host_keep c then [c] else
    let n := N_of_ascii c in ["%"%char; hex_digit (n / 16); hex_digit (n mod 16)].
Lemma host_cons c s : host_escape (c :: s) = host_byte c ++ host_escape s.
Proof. reflexivity. Qed.
Lemma host_byte_decode c s : percent_decode (host_byte c ++ s) = option_map (cons c) (percent_decode s).
Proof.
  destruct c as [[] [] [] [] [] [] [] []];
  lazymatch goal with |- percent_decode (host_byte ?c ++ s) = _ => let v := eval vm_compute in (host_byte c) in change (host_byte c) with v end;
  cbn [app percent_decode]; try (destruct (percent_decode s); reflexivity).
Qed.
Lemma host_decode s : percent_decode (host_escape s) = Some s.
Proof. induction s as [|c s IH]; [reflexivity|]. rewrite host_cons, host_byte_decode, IH. reflexivity. Qed.
Lemma host_chars s c : In c (host_escape s) -> any_slash c = false /\ c <> question /\ c <> "#"%char /\ has_char c (lit "/?") = false.
Proof.
  intro I. unfold host_escape in I. apply in_concat in I as (l & Il & J). apply in_map_iff in Il as (x & <- & _).
  change (In c (host_byte x)) in J.
  assert (A : forallb (fun c => negb (any_slash c) && negb (Ascii.eqb c question) && negb (Ascii.eqb c "#") && negb (has_char c (lit "/?"))) (host_byte x) = true)
    by (clear; destruct x as [[] [] [] [] [] [] [] []]; reflexivity).
  rewrite forallb_forall in A. specialize (A c J). rewrite !andb_true_iff, !negb_true_iff in A. destruct A as (((A & B) & C) & D).
  apply Ascii.eqb_neq in B, C. auto.
Qed.

Lemma name_part_app h r : (forall c, In c h -> any_slash c = false /\ c <> question /\ c <> "#"%char) -> has_prefix r [slash] = true -> name_part (h ++ r) = h.
Proof.
  intros H P. induction h as [|c h IH]; cbn [app].
  - destruct r as [|x r]; [discriminate|]. apply PathProofs.has_prefix_slash in P as (q & E). injection E as -> ->. reflexivity.
  - cbn [name_part]. destruct (H c (or_introl eq_refl)) as (A & B & C). apply Ascii.eqb_neq in B, C. rewrite A, B, C. cbn [orb]. f_equal. apply IH. intros x I. apply H. right. exact I.
Qed.
Lemma until_app h r : (forall c, In c h -> has_char c (lit "/?") = false) -> has_prefix r [slash] = true -> until (lit "/?") (h ++ r) = h.
Proof.
  intros H P. induction h as [|c h IH]; cbn [app].
  - apply PathProofs.has_prefix_slash in P as (q & ->). reflexivity.
  - cbn [until]. rewrite (H c (or_introl eq_refl)). f_equal. apply IH. intros x I. apply H. right. exact I.
Qed.
Lemma skipn_app_len {A} (a b : list A) : skipn (List.length a) (a ++ b) = b.
Proof. rewrite skipn_app, skipn_all, Nat.sub_diag. reflexivity. Qed.

(** *** The target *)
Lemma parse_query t u : parse_target t = Some u -> (forall c, In c (u_query u) -> In c t) /\ existsb ctl t = false.
Proof.
  unfold parse_target. destruct (has_prefix t [slash]); [|discriminate]. cbn [negb orb]. destruct (existsb ctl t); [discriminate|].
  destruct (cut question t) as [[p q] f] eqn:C. destruct (OcspGetModel.unescape p); [|discriminate]. intro H. injection H as <-. cbn [u_query]. split; [|reflexivity].
  apply SamlProofs.cut_before in C. tauto.
Qed.
Lemma valid_not_ctl c : valid_char c = true -> ctl c = false.
Proof. destruct c as [[] [] [] [] [] [] [] []]; vm_compute; intro H; try reflexivity; discriminate H. Qed.

Lemma parse_again t u : parse_target t = Some u -> exists u', parse_target (url_string u) = Some u' /\ url_string u' = url_string u /\ u_path u' = u_path u /\ u_query u' = u_query u.
Proof.
  intro P. pose proof (parse_query _ _ P) as [Q K]. pose proof (RefreshProofs.parse_rooted _ _ P) as [_ P2].
  set (e := escaped_path u). set (b := u_force u || negb (str_eqb (u_query u) [])).
  assert (N : ~ In question e) by (intro I; apply RefreshProofs.escaped_valid in I; apply RefreshProofs.valid_question in I; tauto).
  assert (C : cut question (url_string u) = (e, u_query u, b)).
  { unfold url_string. fold e. fold b. destruct b eqn:B.
    - apply SamlProofs.cut_at. exact N.
    - rewrite app_nil_r. unfold b in B. apply orb_false_iff in B as [_ B]. apply negb_false_iff in B. apply str_eqb_spec in B. rewrite B. apply SamlProofs.cut_no. exact N. }
  assert (X : existsb ctl (url_string u) = false).
  { apply not_true_iff_false. intro H. apply existsb_exists in H as (c & I & H). unfold url_string in I. apply in_app_or in I as [I|I].
    - apply RefreshProofs.escaped_valid in I. apply valid_not_ctl in I. congruence.
    - destruct (u_force u || _); [|destruct I]. destruct I as [<-|I]; [discriminate H|]. apply Q in I. assert (Y : existsb ctl t = true) by (apply existsb_exists; eauto). congruence. }
  assert (Pf : has_prefix (url_string u) [slash] = true).
  { unfold url_string. apply PathProofs.has_prefix_slash in P2 as (q & ->). reflexivity. }
  eexists. split.
  - unfold parse_target. rewrite Pf, X, C. cbn [negb orb]. unfold e. rewrite RefreshProofs.escaped_decodes. reflexivity.
  - cbn [u_path u_query]. split; [|auto]. unfold url_string. cbn [u_force u_query]. f_equal.
    + unfold escaped_path at 1. cbn [u_raw u_path]. destruct (str_eqb (escaped_path u) (escape_path (u_path u))) eqn:S.
      * cbn [str_eqb negb andb]. apply str_eqb_spec in S. symmetry. exact S.
      * fold e. assert (Ne : str_eqb e [] = false). { apply not_true_iff_false. intro H. apply str_eqb_spec in H. unfold e in H. rewrite H in P2. discriminate. }
        assert (V : forallb valid_char e = true) by (apply forallb_forall; intros c I; eapply RefreshProofs.escaped_valid; exact I).
        rewrite Ne, V. unfold e at 1. rewrite RefreshProofs.escaped_decodes, str_eqb_refl. reflexivity.
    + replace (b && str_eqb (u_query u) [] || negb (str_eqb (u_query u) [])) with (u_force u || negb (str_eqb (u_query u) [])); [reflexivity|].
      unfold b. destruct (u_force u), (str_eqb (u_query u) []); reflexivity.
Qed.

Lemma full_main t r u h : request_for t r u -> cut "#" (host_escape h ++ url_string u) = (host_escape h ++ url_string u, [], false).
Proof.
  intros (P & _ & F). apply SamlProofs.cut_no. intro I. apply in_app_or in I as [I|I]; [apply host_chars in I; tauto|].
  unfold url_string in I. apply in_app_or in I as [I|I].
  - apply RefreshProofs.escaped_valid in I. apply RefreshProofs.valid_question in I. tauto.
  - destruct (u_force u || _); [|destruct I]. destruct I as [I|I]; [discriminate|]. apply parse_query in P as [Q _]. apply Q in I. apply has_char_false in F. contradiction.
Qed.
Lemma url_rooted t u : parse_target t = Some u -> has_prefix (url_string u) [slash] = true.
Proof. intro P. apply RefreshProofs.parse_rooted in P as [_ P]. unfold url_string. apply PathProofs.has_prefix_slash in P as (q & ->). reflexivity. Qed.
Lemma page_url t u : parse_target t = Some u -> RefreshSpec.page (url_string u) = Some (u_path u, u_query u).
Proof.
  intro P. destruct (parse_again _ _ P) as (u' & A & _ & B & C). unfold parse_target in A. destruct (negb _ || _); [discriminate|]. unfold RefreshSpec.page.
  destruct (cut question (url_string u)) as [[p q] f]. rewrite RefreshProofs.unescape_decode in A. destruct (percent_decode p); [|discriminate]. injection A as <-. cbn [u_path u_query] in B, C. subst. reflexivity.
Qed.

Lemma leads_full ascii t r u h : request_for t r u -> leads_to ascii (full_url h u) = Some (ascii h, u_path u, u_query u).
Proof.
  intro R. unfold leads_to, full_url. replace (has_prefix _ _) with true by (symmetry; apply has_prefix_spec; eauto).
  change (skipn 8 (lit "https://" ++ ?x)) with x. rewrite (full_main _ _ _ _ R).
  assert (Pf := url_rooted _ _ (proj1 R)).
  rewrite name_part_app; [|intros c I; apply host_chars in I; tauto|exact Pf]. rewrite host_decode, skipn_app_len, (page_url _ _ (proj1 R)). reflexivity.
Qed.
Lemma reparse_full t r u h : request_for t r u -> reparse (full_url h u) = Some (full_url h u).
Proof.
  intro R. unfold reparse, full_url. replace (has_prefix _ _) with true by (symmetry; apply has_prefix_spec; eauto).
  change (skipn 8 (lit "https://" ++ ?x)) with x. rewrite (full_main _ _ _ _ R).
  assert (Pf := url_rooted _ _ (proj1 R)).
  rewrite until_app; [|intros c I; apply host_chars in I; tauto|exact Pf]. rewrite skipn_app_len.
  destruct (parse_again _ _ (proj1 R)) as (u' & -> & -> & _). cbn [str_eqb]. rewrite app_nil_r. reflexivity.
Qed.

(** *** The token in a query *)
Lemma safe_form s : forallb url_safe s = true -> KeygenModel.form_text s = s.
Proof.
  induction s as [|c s IH]; [reflexivity|]. cbn [forallb]. intro H. apply andb_true_iff in H as [A B].
  change (KeygenModel.form_text (c :: s)) with (KeygenModel.form_byte c ++ KeygenModel.form_text s). rewrite IH by exact B.
  replace (KeygenModel.form_byte c) with [c]; [reflexivity|]. revert A. clear. destruct c as [[] [] [] [] [] [] [] []]; vm_compute; intro H; try reflexivity; discriminate H.
Qed.
Lemma safe_facts c : url_safe c = true -> c <> "%"%char /\ c <> ";"%char /\ c <> "="%char /\ c <> "&"%char /\ c <> question /\ c <> "#"%char /\ ctl c = false /\ (N_of_ascii c < 128)%N.
Proof. destruct c as [[] [] [] [] [] [] [] []]; vm_compute; intro H; try discriminate H; repeat split; try discriminate. Qed.
Lemma safe_not c s : url_safe c = false -> forallb url_safe s = true -> ~ In c s.
Proof. intros A B I. rewrite forallb_forall in B. rewrite (B _ I) in A. discriminate. Qed.

Lemma split_no c s : ~ In c s -> split_on c s = [s].
Proof.
  induction s as [|x s IH]; intro N; [reflexivity|]. cbn [split_on]. destruct (Ascii.eqb x c) eqn:E; [apply Ascii.eqb_eq in E; subst; exfalso; apply N; now left|].
  rewrite IH by (intro I; apply N; now right). reflexivity.
Qed.

Lemma query_value k tok : forallb url_safe k = true -> k <> [] -> tok <> [] -> forallb url_safe tok = true ->
  KeygenModel.parse_pair (k ++ "="%char :: tok) = Some [(k, tok)] /\ split_on "&" (k ++ "="%char :: tok) = [k ++ "="%char :: tok].
Proof.
  intros K N T S. split.
  - unfold KeygenModel.parse_pair. replace (has_char ";" (k ++ "="%char :: tok)) with false.
    + replace (str_eqb (k ++ "="%char :: tok) []) with false by (destruct k; reflexivity). rewrite SamlProofs.cut_at by (apply safe_not; [reflexivity|exact K]).
      rewrite <- (safe_form k K) at 1. rewrite KeygenProofs.unescape_text. rewrite <- (safe_form tok S) at 1. rewrite KeygenProofs.unescape_text. reflexivity.
    + symmetry. apply has_char_false. intro I. apply in_app_or in I as [I|[I|I]]; [|discriminate|]; revert I; apply safe_not; auto; reflexivity.
  - apply split_no. intro I. apply in_app_or in I as [I|[I|I]]; [|discriminate|]; revert I; apply safe_not; auto; reflexivity.
Qed.

(** A request for an endpoint with the token. *)
Lemma endpoint_request p k tok : forallb valid_char p = true -> OcspGetModel.unescape p = Some p -> escape_path p = p -> has_prefix p [slash] = true ->
  forallb url_safe k = true -> k <> [] -> tok <> [] -> forallb url_safe tok = true ->
  exists u, parse_target (p ++ question :: k ++ "="%char :: tok) = Some u /\ u_path u = p /\ form_of [] u = [(k, tok)] /\
            has_char "#" (p ++ question :: k ++ "="%char :: tok) = false.
Proof.
  intros V U E Pf K N T S. set (t := p ++ question :: k ++ "="%char :: tok).
  assert (X : existsb ctl t = false).
  { apply not_true_iff_false. intro H. apply existsb_exists in H as (c & I & H). unfold t in I. apply in_app_or in I as [I|[I|I]].
    - rewrite forallb_forall in V. apply V in I. apply valid_not_ctl in I. congruence.
    - subst c. discriminate.
    - apply in_app_or in I as [I|[I|I]]; [| subst c; discriminate|].
      + rewrite forallb_forall in K. apply K in I. apply safe_facts in I. destruct I as (_ & _ & _ & _ & _ & _ & I & _). congruence.
      + rewrite forallb_forall in S. apply S in I. apply safe_facts in I. destruct I as (_ & _ & _ & _ & _ & _ & I & _). congruence. }
  assert (Pt : has_prefix t [slash] = true). { apply PathProofs.has_prefix_slash in Pf as (q & ->). reflexivity. }
  assert (Np : ~ In question p). { intro I. rewrite forallb_forall in V. apply V in I. discriminate. }
  eexists. split.
  - unfold parse_target. rewrite Pt, X. cbn [negb orb]. unfold t. rewrite SamlProofs.cut_at by exact Np. rewrite U. reflexivity.
  - cbn [u_path]. split; [reflexivity|]. split.
    + unfold form_of. cbn [u_query app]. destruct (query_value k tok K N T S) as [Q1 Q2]. rewrite Q2. cbn [flat_map]. rewrite Q1. reflexivity.
    + apply has_char_false. intro I. unfold t in I. apply in_app_or in I as [I|[I|I]]; [|discriminate|].
      * rewrite forallb_forall in V. apply V in I. discriminate.
      * apply in_app_or in I as [I|[I|I]]; [|discriminate|]; revert I; apply safe_not; auto; reflexivity.
Qed.
Lemma login_request tok : tok <> [] -> forallb url_safe tok = true ->
  exists u, parse_target (login_target tok) = Some u /\ u_path u = lit "/.sso/login" /\ form_of [] u = [(lit "redirect", tok)] /\ has_char "#" (login_target tok) = false.
Proof. intros T S. apply (endpoint_request (lit "/.sso/login") (lit "redirect") tok); try reflexivity; try discriminate; assumption. Qed.
Lemma switch_request tok : tok <> [] -> forallb url_safe tok = true ->
  exists u, parse_target (switch_target tok) = Some u /\ u_path u = lit "/.sso/logout" /\ form_of [] u = [(lit "u", tok)] /\ has_char "#" (switch_target tok) = false.
Proof. intros T S. apply (endpoint_request (lit "/.sso/logout") (lit "u") tok); try reflexivity; try discriminate; assumption. Qed.

(** http.Redirect changes nothing. *)
Lemma login_location tok : forallb url_safe tok = true -> redirect_location true (login_target tok) = login_target tok.
Proof.
  intro S. unfold redirect_location. change (host_of_ref (login_target tok)) with (@nil ascii). cbn [str_eqb andb].
  change (login_target tok) with (lit "/.sso/login" ++ question :: (lit "redirect=" ++ tok)). rewrite SamlProofs.cut_at by (vm_compute; intuition discriminate).
  change (path_clean (lit "/.sso/login")) with (lit "/.sso/login"). change (has_suffix (lit "/.sso/login") [slash]) with false. cbn [andb].
  apply RefreshProofs.hex_escape_ascii. intros c I. apply in_app_or in I as [I|[I|I]].
  - assert (A : forallb (fun c => (N_of_ascii c <? 128)%N) (lit "/.sso/login") = true) by reflexivity. rewrite forallb_forall in A. apply N.ltb_lt. exact (A c I).
  - subst c. reflexivity.
  - apply in_app_or in I as [I|I].
    + assert (A : forallb (fun c => (N_of_ascii c <? 128)%N) (lit "redirect=") = true) by reflexivity. rewrite forallb_forall in A. apply N.ltb_lt. exact (A c I).
    + rewrite forallb_forall in S. apply S in I. apply safe_facts in I. tauto.
Qed.

(** *** The token is accepted *)
Lemma page_token_claims st ev fresh r u e t : page_token st ev fresh r u e t ->
  t_claims t = url_claims (full_url (rq_host r) u) (session_id fresh r) e /\ exists k, In k (ev_keys ev) /\ t_kid t = kid k /\ t_signer t = Some (kid k, ktyp k).
Proof.
  unfold page_token, create_token. destruct (pick _ _ _ _) as [k|] eqn:P; [|discriminate]. intro H. injection H as <-. cbn. split; [reflexivity|].
  destruct (KeysProofs.pick_In _ _ _ _ _ P) as [X|[X _]]; [discriminate|]. exists k. auto.
Qed.
Lemma token_accepted st ev ev' fresh fresh' t0 r r' u e t :
  page_token st ev fresh r u e t -> token_text st ev' t -> still_has ev ev' -> request_for t0 r u -> session_id fresh' r' = session_id fresh r ->
  token_url ev' fresh' r' (si_encode st t) = Some (full_url (rq_host r) u, t_claims t).
Proof.
  intros T (_ & _ & D) K R S. destruct (page_token_claims _ _ _ _ _ _ _ T) as (C & k & I & A & B). apply K in I.
  unfold token_url. rewrite D. unfold accept_url, validate. rewrite A, I, B, Nat.eqb_refl.
  replace (ktype_eqb (ktyp k) (ktyp k)) with true by (destruct (ktyp k); reflexivity).
  assert (X : exp_ok (t_claims t) (ev_now ev') = true) by (rewrite C; destruct e; reflexivity).
  assert (Y : nbf_ok (t_claims t) (ev_now ev') = true) by (rewrite C; destruct e; reflexivity).
  rewrite X, Y. cbn [andb]. rewrite S.
  assert (Z : claim_is (t_claims t) (lit "sid") (session_id fresh r) = true).
  { rewrite C. unfold claim_is. change (assoc (lit "sid") (url_claims ?a ?b ?c)) with (Some (VStr b)). cbv iota. apply str_eqb_refl. }
  rewrite Z. assert (W : assoc (lit "url") (t_claims t) = Some (VStr (full_url (rq_host r) u))) by (rewrite C; reflexivity). rewrite W.
  rewrite (reparse_full _ _ _ _ R). reflexivity.
Qed.

(** *** Rows *)
Lemma status_rows_spec st c : forall ks rows, status_rows st c ks = Some rows -> Forall2 (fun k row => status_row st c k = Some row) ks rows.
Proof.
  induction ks as [|k ks IH]; cbn [status_rows]; intros rows H; [injection H as <-; constructor|].
  destruct (status_row st c k) eqn:A; [|discriminate]. destruct (status_rows st c ks); [|discriminate]. injection H as <-. constructor; auto.
Qed.
Lemma status_rows_crash st c : forall ks, status_rows st c ks = None -> exists k, In k ks /\ status_row st c k = None.
Proof.
  induction ks as [|k ks IH]; cbn [status_rows]; intro H; [discriminate|].
  destruct (status_row st c k) eqn:A; [|exists k; split; [now left|exact A]]. destruct (status_rows st c ks); [discriminate|].
  destruct (IH eq_refl) as (x & I & E). exists x. split; [now right|exact E].
Qed.

(** *** Requests *)
Lemma authenticate_same ev be r r1 c : authenticate ev be r = Some (r1, c) ->
  rq_host r1 = rq_host r /\ rq_path r1 = rq_path r /\ (forall fresh, session_id fresh r1 = session_id fresh r).
Proof.
  assert (D : forall fresh h, cookies h = cookies (rq_headers r) -> session_id fresh (set_headers h r) = session_id fresh r).
  { intros fresh h E. unfold session_id, get_cookie. cbn [set_headers rq_headers]. rewrite E. reflexivity. }
  assert (A : cookies (h_del user_header (rq_headers r)) = cookies (rq_headers r)) by (apply HttpProofs.cookies_del; reflexivity).
  unfold authenticate. destruct (be_sso be) as [s|]; [|intro H; injection H as <- <-; auto].
  destruct (check_cookies _ _ _ _) as [[c0|]|]; [|intro H; injection H as <- <-; auto|discriminate].
  destruct (email_of c0) as [e|]; [|intro H; injection H as <- <-; auto].
  intro H. injection H as <- <-. split; [reflexivity|]. split; [reflexivity|]. intro fresh. apply D. destruct (sso_user_header s); [|exact A].
  rewrite HttpProofs.cookies_set by reflexivity. exact A.
Qed.
Lemma authenticated ev be cn r : reverse_proxy ev be cn r <> SetIDToken -> exists r1, authenticate ev be r = Some (r1, known_user ev be r).
Proof. unfold reverse_proxy, known_user. destruct (authenticate ev be r) as [[r1 c]|]; [eauto|congruence]. Qed.
Lemma token_same st ev be fresh r r1 c u e : authenticate ev be r = Some (r1, c) -> url_token st ev fresh r1 u e = url_token st ev fresh r u e.
Proof. intro A. destruct (authenticate_same _ _ _ _ _ A) as (H & _ & S). unfold url_token. rewrite H, S. reflexivity. Qed.
Lemma token_url_same ev be ev' fresh r r1 c tok : authenticate ev be r = Some (r1, c) -> token_url ev' fresh r1 tok = token_url ev' fresh r tok.
Proof. intro A. destruct (authenticate_same _ _ _ _ _ A) as (_ & _ & S). unfold token_url. rewrite S. reflexivity. Qed.
Lemma url_token_page st ev fresh r u e t : page_token st ev fresh r u e t -> url_token st ev fresh r u e = Some (si_encode st t, display_url st (rq_host r) u).
Proof. unfold page_token, url_token. intros ->. reflexivity. Qed.

(** Following the login button. *)
Lemma follow_login st ev ev' be' cn' fresh fresh' r r' u u' t0 e t :
  page_token st ev fresh r u e t -> token_text st ev' t -> still_has ev ev' -> request_for t0 r u -> session_id fresh' r' = session_id fresh r ->
  request_for (login_target (si_encode st t)) r' u' -> served_at ev' be' cn' r' (lit "/.sso/login") ->
  respond st ev' be' cn' fresh' r' [] u' = ([], AskLogin (full_url (rq_host r) u) (match e with Some e => e | None => [] end) false).
Proof.
  intros T X K R S (P' & _ & _) (h & L & Lp). destruct X as (X1 & X2 & X3). destruct (authenticated ev' be' cn' r' ltac:(congruence)) as (r1 & A).
  unfold respond. rewrite A, L, Lp. change (str_eqb (lit "/.sso/login") (lit "/.sso/")) with false. rewrite str_eqb_refl. cbv iota. f_equal.
  destruct (login_request _ X1 X2) as (u2 & P2 & _ & F & _). rewrite P2 in P'. injection P' as <-.
  unfold serve_login. rewrite F. unfold KeygenModel.value. cbn [assoc]. rewrite str_eqb_refl. rewrite (proj2 (str_eqb_neq _ []) X1).
  rewrite (token_url_same _ _ _ _ _ _ _ _ A), (token_accepted _ _ _ _ _ _ _ _ _ _ _ T (conj X1 (conj X2 X3)) K R S).
  destruct (page_token_claims _ _ _ _ _ _ _ T) as (C & _). rewrite C. destruct e; reflexivity.
Qed.
(** Following the button for another account. *)
Lemma follow_switch st ev ev' be' cn' fresh fresh' r r' u u' t0 e t :
  page_token st ev fresh r u e t -> token_text st ev' t -> still_has ev ev' -> request_for t0 r u -> session_id fresh' r' = session_id fresh r ->
  request_for (switch_target (si_encode st t)) r' u' -> served_at ev' be' cn' r' (lit "/.sso/logout") ->
  respond st ev' be' cn' fresh' r' [] u' = (clear_attrs (si_domain st), AskLogin (full_url (rq_host r) u) [] true).
Proof.
  intros T X K R S (P' & _ & _) (h & L & Lp). destruct X as (X1 & X2 & X3). destruct (authenticated ev' be' cn' r' ltac:(congruence)) as (r1 & A).
  unfold respond. rewrite A, L, Lp. change (str_eqb (lit "/.sso/logout") (lit "/.sso/")) with false. change (str_eqb (lit "/.sso/logout") (lit "/.sso/login")) with false. rewrite str_eqb_refl. cbv iota.
  unfold serve_logout. f_equal.
  destruct (switch_request _ X1 X2) as (u2 & P2 & _ & F & _). rewrite P2 in P'. injection P' as <-.
  rewrite F. unfold KeygenModel.value. cbn [assoc]. rewrite str_eqb_refl. rewrite (proj2 (str_eqb_neq _ []) X1).
  rewrite (token_url_same _ _ _ _ _ _ _ _ A), (token_accepted _ _ _ _ _ _ _ _ _ _ _ T (conj X1 (conj X2 X3)) K R S). reflexivity.
Qed.

(** *** Claims with dates *)
Definition dated (c : claims) : Prop := forall k, k = lit "iat" \/ k = lit "exp" -> In k (map fst c) -> numeric_date k c <> None.
Lemma dated_rows st c : dated c -> status_rows st c (ConsoleModel.sort_strs (map fst c)) <> None.
Proof.
  intros D H. destruct (status_rows_crash _ _ _ H) as (k & I & E). assert (J : In k (map fst c)) by (eapply Permutation.Permutation_in; [symmetry; apply ConsoleProofs.sort_perm|exact I]).
  unfold status_row in E. destruct (str_eqb k (lit "iat") || str_eqb k (lit "exp")) eqn:B.
  - apply orb_true_iff in B. assert (K : k = lit "iat" \/ k = lit "exp") by (destruct B as [B|B]; apply str_eqb_spec in B; auto).
    specialize (D k K J). destruct (numeric_date k c); [discriminate|congruence].
  - destruct (assoc k c); discriminate.
Qed.
Lemma shorten_length s : List.length (shorten s) <= 100.
Proof.
  unfold shorten. destruct (100 <? List.length s) eqn:E; [|apply Nat.ltb_ge in E; exact E].
  rewrite app_length. change (List.length (lit "...")) with 3. assert (L := firstn_le_length 97 s). lia.
Qed.
Lemma shorten_prefix s x : has_prefix s x = true -> List.length x <= 97 -> has_prefix (shorten s) x = true.
Proof.
  intros P L. unfold shorten. destruct (_ <? _); [|exact P]. apply has_prefix_spec in P as (y & ->). apply has_prefix_spec.
  exists (firstn (97 - List.length x) y ++ lit "..."). rewrite firstn_app, firstn_all2 by exact L. rewrite <- app_assoc. reflexivity.
Qed.
