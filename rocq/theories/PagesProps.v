(** C105: the pages of single sign-on lead to where the user wanted to go, and show the truth. *)
From Verif Require Import Base PathModel PathSpec TokenModel TokenSpec HttpModel RefreshModel RefreshSpec BrowserModel PagesModel PagesSpec PagesProofs.
From Verif Require ConsoleModel ConsoleSpec ConsoleProofs LoginProofs HttpProofs TokenProofs.
Require Import Lia Permutation.
Open Scope nat_scope.

(** C105, first part.  A user who has to log in gets a page with a button, or is sent on at
    once.  The button works in the same browser for as long as the proxy has its keys, and the
    login that it starts is for the page that was asked for: host with port, path and query.
    The provider gets the e-mail address of the user that was known before as a hint. *)
Theorem C105_login : forall st ev ev' be be' cn cn' fresh fresh' target r r' body u t,
  request_for target r u -> reverse_proxy ev be cn r = Login ->
  page_token st ev fresh r u (address_of (known_user ev be r)) t -> token_text st ev' t -> still_has ev ev' ->
  exists goal u', offers (snd (respond st ev be cn fresh r body u)) goal /\ parse_target goal = Some u' /\ has_char "#" goal = false /\
    (request_for goal r' u' -> session_id fresh' r' = session_id fresh r -> served_at ev' be' cn' r' (lit "/.sso/login") ->
     exists url, respond st ev' be' cn' fresh' r' [] u' = ([], AskLogin url (match address_of (known_user ev be r) with Some e => e | None => [] end) false) /\
       leads_to (fun h => h) url = Some (rq_host r, rq_path r, u_query u)).
Proof.
  intros st ev ev' be be' cn cn' fresh fresh' target r r' body u t R L T X K.
  destruct (authenticated ev be cn r ltac:(congruence)) as (r1 & A). destruct X as (X1 & X2 & X3).
  destruct (login_request _ X1 X2) as (u' & P & _ & _ & H). exists (login_target (si_encode st t)), u'. split; [|split; [exact P|split; [exact H|]]].
  - unfold respond. rewrite A, L. cbn [snd]. unfold login_answer.
    change (match known_user ev be r with Some c => email_text c | None => None end) with (address_of (known_user ev be r)).
    rewrite (token_same _ _ _ _ _ _ _ _ _ A), (url_token_page _ _ _ _ _ _ _ T).
    destruct (si_passkeys st || _).
    + left. rewrite login_location by exact X2. reflexivity.
    + right. eexists _, _. split; [reflexivity|]. cbn [pg_buttons]. left. reflexivity.
  - intros R' S Sv. exists (full_url (rq_host r) u). split.
    + exact (follow_login _ _ _ _ _ _ _ _ _ _ _ _ _ _ T (conj X1 (conj X2 X3)) K R S R' Sv).
    + rewrite (leads_full _ _ _ _ _ R). destruct R as (_ & -> & _). reflexivity.
Qed.
Print Assumptions C105_login.

(** When the page is shown and when not: with passkeys, or when the client says so, the user is
    sent on. *)
Theorem C105_confirmation : forall st ev be cn fresh r body u,
  reverse_proxy ev be cn r = Login -> snd (respond st ev be cn fresh r body u) <> Crashed ->
  (exists p, snd (respond st ev be cn fresh r body u) = Shown p /\ pg_status p = 403%N) <->
  si_passkeys st = false /\ h_get (lit "x-skip-login-confirmation") (rq_headers r) = [].
Proof.
  intros st ev be cn fresh r body u L N. destruct (authenticated ev be cn r ltac:(congruence)) as (r1 & A). revert N.
  assert (Hd : h_get (lit "x-skip-login-confirmation") (rq_headers r1) = h_get (lit "x-skip-login-confirmation") (rq_headers r)).
  { revert A. unfold authenticate, h_get. destruct (be_sso be) as [s|].
    - destruct (check_cookies _ _ _ _) as [[c0|]|]; [destruct (email_of c0); [destruct (sso_user_header s)|]| |discriminate]; intro A; injection A as <- _;
      cbn [set_headers rq_headers]; rewrite ?HttpProofs.h_values_set, ?HttpProofs.h_values_del; reflexivity.
    - intro A. injection A as <- _. cbn [set_headers rq_headers]. rewrite HttpProofs.h_values_del. reflexivity. }
  unfold respond. rewrite A, L. cbn [snd]. unfold login_answer. destruct (url_token _ _ _ _ _ _) as [[tok shown]|]; [|congruence]. intros _. rewrite Hd.
  destruct (si_passkeys st); cbn [orb]; [split; [intros (p & E & _); discriminate|intros [E _]; discriminate]|].
  destruct (str_eqb _ []) eqn:E; cbn [negb].
  - apply str_eqb_spec in E. split; [auto|]. intros _. eexists. split; reflexivity.
  - apply str_eqb_neq in E. split; [intros (p & E' & _); discriminate|intros [_ E']; contradiction].
Qed.
Print Assumptions C105_confirmation.

(** The page to log in has one button, which names the provider if it is a well known one. *)
Theorem C105_label : forall st ev be cn fresh r body u p,
  reverse_proxy ev be cn r = Login -> snd (respond st ev be cn fresh r body u) = Shown p ->
  exists label target, pg_buttons p = [(label, target)] /\ (forall name, List.In (si_idp st, name) providers -> label = lit "Continue with " ++ name) /\ ((forall name, ~ List.In (si_idp st, name) providers) -> label = lit "Login").
Proof.
  intros st ev be cn fresh r body u p L E. destruct (authenticated ev be cn r ltac:(congruence)) as (r1 & A). revert E.
  unfold respond. rewrite A, L. cbn [snd]. unfold login_answer. destruct (url_token _ _ _ _ _ _) as [[tok shown]|]; [|discriminate].
  destruct (si_passkeys st || _); [discriminate|]. intro E. injection E as <-. cbn [pg_buttons].
  exists (login_label (si_idp st)), (login_target tok). split; [reflexivity|]. unfold login_label, providers. generalize (si_idp st). clear. intro i.
  destruct (str_eqb i (lit "google")) eqn:E1; [apply str_eqb_spec in E1|apply str_eqb_neq in E1; destruct (str_eqb i (lit "facebook")) eqn:E2; [apply str_eqb_spec in E2|apply str_eqb_neq in E2; destruct (str_eqb i (lit "github")) eqn:E3; [apply str_eqb_spec in E3|apply str_eqb_neq in E3]]]; subst.
  1-3: split; [intros n H; cbn [List.In] in H; intuition (try discriminate; match goal with H : (_, _) = (_, _) |- _ => injection H; clear H; intros; subst end; try discriminate; reflexivity)|].
  1: intro H; exfalso; apply (H (lit "Google")); cbn; auto.
  1: intro H; exfalso; apply (H (lit "Facebook")); cbn; auto.
  1: intro H; exfalso; apply (H (lit "GitHub")); cbn; auto.
  split; [|reflexivity]. intros n H. cbn [List.In] in H. exfalso. intuition congruence.
Qed.
Print Assumptions C105_label.

(** C105, second part.  A user who is known but not permitted sees their address, and can
    choose another account or log out; choosing another account logs out in the browser and
    starts a login for the page that was asked for. *)
Theorem C105_denied : forall st ev ev' be be' cn cn' fresh fresh' target r r' body u t,
  request_for target r u -> reverse_proxy ev be cn r = Denied ->
  page_token st ev fresh r u None t -> token_text st ev' t -> still_has ev ev' ->
  let a := snd (respond st ev be cn fresh r body u) in
  (exists p, a = Shown p /\ pg_status p = 403%N /\ Some (pg_user p) = match address_of (known_user ev be r) with Some e => Some e | None => Some [] end) /\
  button a (lit "Logout") (lit "/.sso/logout") /\
  exists goal u', button a (lit "Switch Account") goal /\ parse_target goal = Some u' /\ has_char "#" goal = false /\
    (request_for goal r' u' -> session_id fresh' r' = session_id fresh r -> served_at ev' be' cn' r' (lit "/.sso/logout") ->
     exists url, respond st ev' be' cn' fresh' r' [] u' = (clear_attrs (si_domain st), AskLogin url [] true) /\
       leads_to (fun h => h) url = Some (rq_host r, rq_path r, u_query u)).
Proof.
  intros st ev ev' be be' cn cn' fresh fresh' target r r' body u t R L T X K a.
  destruct (authenticated ev be cn r ltac:(congruence)) as (r1 & A). destruct X as (X1 & X2 & X3).
  assert (E : a = Shown {| pg_status := 403; pg_user := match address_of (known_user ev be r) with Some e => e | None => [] end;
      pg_link := Some (display_url st (rq_host r) u, shorten (display_url st (rq_host r) u)); pg_rows := [];
      pg_buttons := [(lit "Switch Account", switch_target (si_encode st t)); (lit "Logout", logout_target)] |}).
  { unfold a, respond. rewrite A, L. cbn [snd]. unfold denied_answer. rewrite (token_same _ _ _ _ _ _ _ _ _ A), (url_token_page _ _ _ _ _ _ _ T).
    do 2 f_equal. destruct (known_user ev be r) as [c|]; reflexivity. }
  split; [|split].
  - eexists. split; [exact E|]. cbn [pg_status pg_user]. split; [reflexivity|]. destruct (address_of _); reflexivity.
  - eexists. split; [exact E|]. right. left. reflexivity.
  - destruct (switch_request _ X1 X2) as (u' & P & _ & _ & H). exists (switch_target (si_encode st t)), u'. split; [|split; [exact P|split; [exact H|]]].
    + eexists. split; [exact E|]. left. reflexivity.
    + intros R' S Sv. exists (full_url (rq_host r) u). split.
      * exact (follow_switch _ _ _ _ _ _ _ _ _ _ _ _ _ _ T (conj X1 (conj X2 X3)) K R S R' Sv).
      * rewrite (leads_full _ _ _ _ _ R). destruct R as (_ & -> & _). reflexivity.
Qed.
Print Assumptions C105_denied.

(** C105, third part.  The logout endpoint logs out in the browser whatever it is given; with
    no token it says so. *)
Theorem C105_logout : forall st ev be cn fresh r body u,
  served_at ev be cn r (lit "/.sso/logout") ->
  fst (respond st ev be cn fresh r body u) = clear_attrs (si_domain st) /\
  (u_query u = [] -> body = [] -> exists p, snd (respond st ev be cn fresh r body u) = Shown p /\ pg_status p = 200%N).
Proof.
  intros st ev be cn fresh r body u (h & L & Lp). destruct (authenticated ev be cn r ltac:(congruence)) as (r1 & A).
  unfold respond. rewrite A, L, Lp. change (str_eqb (lit "/.sso/logout") (lit "/.sso/")) with false. change (str_eqb (lit "/.sso/logout") (lit "/.sso/login")) with false. rewrite str_eqb_refl. cbv iota.
  split; [reflexivity|]. intros Q ->. unfold serve_logout, form_of. rewrite Q. eexists. split; reflexivity.
Qed.
Print Assumptions C105_logout.

(** C105, fourth part.  The status page lists each claim of the user once, in order, dates as
    dates and all others as they are, and offers what makes sense: to log in when nobody is
    logged in, and otherwise to choose another account, to log out, and with passkeys to manage
    them. *)
Theorem C105_status : forall st ev be cn fresh r body u p,
  served_at ev be cn r (lit "/.sso/") -> snd (respond st ev be cn fresh r body u) = Shown p ->
  let c := match known_user ev be r with Some c => c | None => [] end in
  NoDup (map fst c) ->
  pg_status p = 200%N /\ Permutation (map fst (pg_rows p)) (map fst c) /\ ConsoleSpec.increasing (map fst (pg_rows p)) /\
  (forall k v, List.In (k, v) (pg_rows p) -> exists x, assoc k c = Some x /\
     v = match x with VNum n => if str_eqb k (lit "iat") || str_eqb k (lit "exp") then si_date st n else si_print st x | _ => si_print st x end) /\
  (map fst (pg_buttons p) = if known_user ev be r then
       (if si_passkeys st then [lit "Passkeys"] else []) ++ [lit "Switch Account"; lit "Logout"] else [lit "Login"]).
Proof.
  intros st ev be cn fresh r body u p (h & L & Lp) E c D. destruct (authenticated ev be cn r ltac:(congruence)) as (r1 & A). revert E.
  unfold respond. rewrite A, L, Lp. rewrite str_eqb_refl. cbv iota. cbn [snd]. unfold status_answer. fold c.
  destruct (status_rows st c _) as [rows|] eqn:Rw; [|discriminate]. destruct (url_token _ _ _ _ _ _) as [[tok shown]|]; [|discriminate].
  intro E. injection E as <-. cbn [pg_status pg_rows pg_buttons]. apply status_rows_spec in Rw.
  assert (M : map fst rows = ConsoleModel.sort_strs (map fst c)).
  { clear -Rw. induction Rw as [|k row ks rows H _ IH]; [reflexivity|]. cbn [map]. rewrite IH. f_equal. revert H. unfold status_row.
    destruct (_ || _); [destruct (numeric_date k c); [|discriminate]|destruct (assoc k c)]; intro H; injection H as <-; reflexivity. }
  split; [reflexivity|]. split; [rewrite M; symmetry; apply ConsoleProofs.sort_perm|]. split; [rewrite M; apply ConsoleProofs.sort_increasing; exact D|]. split.
  - intros k v I. assert (Hk : exists k', List.In k' (ConsoleModel.sort_strs (map fst c)) /\ status_row st c k' = Some (k, v)).
    { clear -Rw I. induction Rw as [|k0 row ks rows H _ IH]; [destruct I|]. destruct I as [->|I]; [exists k0; split; [now left|exact H]|].
      destruct (IH I) as (k' & J & F). exists k'. split; [now right|exact F]. }
    destruct Hk as (k' & J & F). assert (J' : List.In k' (map fst c)) by (eapply Permutation_in; [symmetry; apply ConsoleProofs.sort_perm|exact J]).
    assert (As : exists x, assoc k' c = Some x).
    { clear -J'. induction c as [|[a b] c IH]; [destruct J'|]. cbn [assoc]. destruct (str_eqb k' a) eqn:E; [eauto|]. apply IH. destruct J' as [<-|J']; [cbn [fst] in E; rewrite str_eqb_refl in E; discriminate|exact J']. }
    destruct As as (x & As). unfold status_row in F. destruct (str_eqb k' (lit "iat") || str_eqb k' (lit "exp")) eqn:B.
    + unfold numeric_date in F. rewrite As in F. destruct x as [|n| |]; try discriminate. destruct (n =? 0)%Z; [discriminate|]. injection F as <- <-. exists (VNum n). rewrite As, B. auto.
    + rewrite As in F. injection F as <- <-. exists x. rewrite As, B. destruct x; auto.
  - assert (Q : match known_user ev be r with Some c => c <> [] | None => True end).
    { unfold known_user. rewrite A. destruct (known_user ev be r) as [c0|] eqn:Ku; [|exact Logic.I]. intros ->. revert A. unfold authenticate.
      destruct (be_sso be); [|discriminate]. destruct (check_cookies _ _ _ _) as [[c1|]|]; [|discriminate|discriminate]. destruct (email_of c1) eqn:Em; [|discriminate].
      intro H. injection H as _ ->. discriminate Em. }
    destruct (known_user ev be r) as [c0|]; subst c.
    + destruct rows as [|row rows]; [exfalso; assert (Pm := ConsoleProofs.sort_perm (map fst c0)); rewrite <- M in Pm; cbn in Pm; destruct c0; [contradiction|]; symmetry in Pm; apply Permutation_nil in Pm; discriminate|].
      destruct (si_passkeys st); reflexivity.
    + destruct rows; [reflexivity|discriminate M].
Qed.
Print Assumptions C105_status.

(** The buttons of the status page start a login that ends on the status page. *)
Theorem C105_status_buttons : forall st ev ev' be be' cn cn' fresh fresh' target r r' body u p label t,
  request_for target r u -> served_at ev be cn r (lit "/.sso/") -> snd (respond st ev be cn fresh r body u) = Shown p ->
  page_token st ev fresh r u None t -> token_text st ev' t -> still_has ev ev' ->
  label = lit "Login" \/ label = lit "Switch Account" -> List.In label (map fst (pg_buttons p)) ->
  exists goal u', button (Shown p) label goal /\ parse_target goal = Some u' /\ has_char "#" goal = false /\
    (request_for goal r' u' -> session_id fresh' r' = session_id fresh r -> served_at ev' be' cn' r' (lit "/.sso/logout") ->
     exists url, respond st ev' be' cn' fresh' r' [] u' = (clear_attrs (si_domain st), AskLogin url [] true) /\
       leads_to (fun h => h) url = Some (rq_host r, rq_path r, u_query u)).
Proof.
  intros st ev ev' be be' cn cn' fresh fresh' target r r' body u p label t R (h & L & Lp) E T X K Lb I.
  destruct (authenticated ev be cn r ltac:(congruence)) as (r1 & A). destruct X as (X1 & X2 & X3). revert E.
  unfold respond. rewrite A, L, Lp. rewrite str_eqb_refl. cbv iota. cbn [snd]. unfold status_answer.
  destruct (status_rows _ _ _) as [rows|]; [|discriminate]. rewrite (token_same _ _ _ _ _ _ _ _ _ A), (url_token_page _ _ _ _ _ _ _ T). intro E. injection E as <-.
  destruct (switch_request _ X1 X2) as (u' & P & _ & _ & H). exists (switch_target (si_encode st t)), u'. split; [|split; [exact P|split; [exact H|]]].
  - eexists. split; [reflexivity|]. cbn [pg_buttons] in *. destruct rows.
    + cbn [map fst] in I. destruct I as [<-|[]]. left. reflexivity.
    + rewrite map_app in I. apply in_or_app. apply in_app_or in I. destruct I as [I|I].
      * destruct (si_passkeys st); [|destruct I]. cbn [map fst] in I. destruct I as [<-|[]]. destruct Lb; discriminate.
      * cbn [map fst] in I. destruct I as [<-|[<-|[]]]; [|destruct Lb; discriminate]. right. left. reflexivity.
  - intros R' S Sv. exists (full_url (rq_host r) u). split.
    + exact (follow_switch _ _ _ _ _ _ _ _ _ _ _ _ _ _ T (conj X1 (conj X2 X3)) K R S R' Sv).
    + rewrite (leads_full _ _ _ _ _ R). destruct R as (_ & -> & _). reflexivity.
Qed.
Print Assumptions C105_status_buttons.

(** The dates of a token that the proxy issues: it was issued after 1970, and no rule of the
    OpenID server rewrites them. *)
Definition dates_ok (k : kind) : Prop :=
  match k with
  | KSession _ _ _ _ _ iat _ => (0 < iat)%Z
  | KIdentity _ iat _ _ _ _ _ iat0 _ => (0 < iat)%Z /\ (0 < iat0)%Z
  | KUrl _ _ _ => True
  | KOpenID _ _ _ iat _ _ rw => (0 < iat)%Z /\ forall x, List.In x (map fst rw) -> x <> lit "iat" /\ x <> lit "exp"
  end.

(** The status page can be shown for the claims of every token that the proxy issues, with
    such dates. *)
Theorem C105_status_works_partial : forall hhash k c st ev fresh r u t,
  claims_of hhash k = Some c -> dates_ok k -> page_token st ev fresh r u None t ->
  exists p, status_answer st ev fresh r u (Some c) = Shown p.
Proof.
  intros hhash k c st ev fresh r u t C D T. unfold status_answer.
  assert (Dt : dated c).
  { assert (G : forall n e, assoc (lit "iat") c = Some (VNum n) -> assoc (lit "exp") c = Some (VNum e) -> (n <> 0)%Z -> (e <> 0)%Z -> dated c).
    { intros n e A B N M x [->| ->] _; unfold numeric_date; [rewrite A|rewrite B]; [rewrite (proj2 (Z.eqb_neq n 0) N)|rewrite (proj2 (Z.eqb_neq e 0) M)]; discriminate. }
    destruct k as [cm user email sid host iat extra|aud iat cm user email sid host iat0 extra|url sid email|issuer client user iat nonce scopes rw]; cbn [claims_of dates_ok] in *.
    - unfold session_claims in C. destruct (_ || _); [discriminate|]. injection C as <-. apply (G iat (iat + 20 * hour)%Z); [reflexivity|reflexivity|lia|unfold hour; lia].
    - unfold session_claims in C. destruct (_ || _); [discriminate|]. cbn [option_map] in C. injection C as <-.
      apply (G iat (iat0 + 20 * hour)%Z); [reflexivity|reflexivity|lia|unfold hour; lia].
    - injection C as <-. intros x X I. exfalso. unfold url_claims in I. destruct email; cbn [map fst In] in I; destruct X as [->| ->]; vm_compute in I; intuition discriminate.
    - injection C as <-. destruct D as [D Rw]. apply (G iat (iat + 300)%Z); [| |lia|lia].
      + assert (P : forall l, (forall x, List.In x (map fst rw) -> x <> lit "iat" /\ x <> lit "exp") -> assoc (lit "iat") (apply_rewrites rw l) = assoc (lit "iat") l).
        { clear. unfold apply_rewrites. induction rw as [|[a b] rw IH]; intros l H; [reflexivity|]. cbn [fold_left]. rewrite IH by (intros x I; apply H; right; exact I).
          apply assoc_set_neq. destruct (H a (or_introl eq_refl)). congruence. }
        rewrite P by exact Rw. reflexivity.
      + assert (P : forall l, (forall x, List.In x (map fst rw) -> x <> lit "iat" /\ x <> lit "exp") -> assoc (lit "exp") (apply_rewrites rw l) = assoc (lit "exp") l).
        { clear. unfold apply_rewrites. induction rw as [|[a b] rw IH]; intros l H; [reflexivity|]. cbn [fold_left]. rewrite IH by (intros x I; apply H; right; exact I).
          apply assoc_set_neq. destruct (H a (or_introl eq_refl)). congruence. }
        rewrite P by exact Rw. reflexivity. }
  apply (dated_rows st) in Dt. destruct (status_rows _ _ _); [|contradiction]. rewrite (url_token_page _ _ _ _ _ _ _ T). eexists. reflexivity.
Qed.
Print Assumptions C105_status_works_partial.

(** C105, fifth part: the link.  It leads to the page that was asked for if the host has no
    port.  [ascii] takes the international form of a name back. *)
Theorem C105_link_partial : forall st ev be cn fresh target r body u p l s ascii,
  request_for target r u -> reverse_proxy ev be cn r = Login \/ reverse_proxy ev be cn r = Denied ->
  snd (respond st ev be cn fresh r body u) = Shown p -> pg_link p = Some (l, s) ->
  url_hostname (rq_host r) = rq_host r -> ascii (rq_host r) = rq_host r -> (forall h, si_unicode st (rq_host r) = Some h -> ascii h = rq_host r) ->
  leads_to ascii l = Some (rq_host r, rq_path r, u_query u).
Proof.
  intros st ev be cn fresh target r body u p l s ascii R L E Lk Hn A0 Hu.
  assert (N : reverse_proxy ev be cn r <> SetIDToken) by (destruct L; congruence). destruct (authenticated ev be cn r N) as (r1 & A).
  assert (D : l = display_url st (rq_host r) u).
  { revert E. unfold respond. rewrite A. assert (Hst : rq_host r1 = rq_host r) by (eapply authenticate_same; exact A). destruct L as [L|L]; rewrite L; cbn [snd].
    - unfold login_answer, url_token. rewrite Hst. destruct (create_token _ _ _ _); [|discriminate]. destruct (si_passkeys st || _); [discriminate|]. intro E. injection E as <-. cbn [pg_link] in Lk. congruence.
    - unfold denied_answer, url_token. rewrite Hst. destruct (create_token _ _ _ _); [|discriminate]. intro E. injection E as <-. cbn [pg_link] in Lk. congruence. }
  subst l. unfold display_url. rewrite Hn. rewrite (leads_full _ _ _ _ _ R). destruct R as (_ & -> & _).
  destruct (si_unicode st (rq_host r)) as [h|] eqn:U; [rewrite (Hu h eq_refl)|rewrite A0]; reflexivity.
Qed.
Print Assumptions C105_link_partial.

(** The text of the link: the address of the link, or its first 97 bytes and dots. *)
Theorem C105_shown : forall st ev be cn fresh r body u p l s,
  snd (respond st ev be cn fresh r body u) = Shown p -> pg_link p = Some (l, s) ->
  List.length s <= 100 /\ (List.length l <= 100 -> s = l) /\ (100 < List.length l -> s = firstn 97 l ++ lit "...") /\
  forall x, has_prefix l x = true -> List.length x <= 97 -> has_prefix s x = true.
Proof.
  intros st ev be cn fresh r body u p l s E Lk.
  assert (S : s = shorten l).
  { revert E. unfold respond. destruct (authenticate ev be r) as [[r1 c]|]; [|discriminate]. destruct (reverse_proxy ev be cn r); cbn [snd]; try discriminate.
    - destruct (str_eqb _ _); cbn [snd].
      + unfold status_answer. destruct (status_rows _ _ _); [|discriminate]. destruct (url_token _ _ _ _ _ _) as [[? ?]|]; [|discriminate]. intro E. injection E as <-. discriminate Lk.
      + destruct (str_eqb _ _); cbn [snd].
        * unfold serve_login. destruct (str_eqb _ _); [discriminate|]. destruct (token_url _ _ _ _) as [[? ?]|]; discriminate.
        * destruct (str_eqb _ _); cbn [snd]; [|discriminate]. unfold serve_logout. cbn [snd]. destruct (str_eqb _ _); [intro E; injection E as <-; discriminate Lk|].
          destruct (token_url _ _ _ _) as [[? ?]|]; discriminate.
    - unfold login_answer. destruct (url_token _ _ _ _ _ _) as [[? ?]|]; [|discriminate]. destruct (si_passkeys st || _); [discriminate|]. intro E. injection E as <-. cbn [pg_link] in Lk. congruence.
    - unfold denied_answer. destruct (url_token _ _ _ _ _ _) as [[? ?]|]; [|discriminate]. intro E. injection E as <-. cbn [pg_link] in Lk. congruence. }
  subst s. split; [apply shorten_length|]. split; [|split].
  - intro H. unfold shorten. apply Nat.ltb_ge in H. rewrite H. reflexivity.
  - intro H. unfold shorten. apply Nat.ltb_lt in H. rewrite H. reflexivity.
  - intros x P Lx. apply shorten_prefix; assumption.
Qed.
Print Assumptions C105_shown.

(** C105, sixth part.  The endpoints send nobody to an address that they were merely given: a
    login starts only with a token that the proxy made, for the session of this browser, and for
    the address in it; the hint is the e-mail address in it. *)
Theorem C105_only_tokens : forall hhash st ev be cn fresh r body u cookies url hint choose,
  (forall s t, ev_decode ev s = Some t -> unforged hhash (ev_keys ev) t) ->
  respond st ev be cn fresh r body u = (cookies, AskLogin url hint choose) ->
  exists s t link k, ev_decode ev s = Some t /\ issued_as hhash k t /\
    ((exists email, k = KUrl link (session_id fresh r) email) \/
     (exists cm user email host iat extra, k = KSession cm user email (session_id fresh r) host iat extra /\ assoc (lit "url") extra = Some (VStr link)) \/
     (exists aud iat cm user email host iat0 extra, k = KIdentity aud iat cm user email (session_id fresh r) host iat0 extra /\ assoc (lit "url") extra = Some (VStr link))) /\
    (forall target r0 u0 h, request_for target r0 u0 -> link = full_url h u0 -> url = link) /\
    ((served_at ev be cn r (lit "/.sso/login") /\ cookies = [] /\ choose = false /\ Some hint = match address_of (Some (t_claims t)) with Some e => Some e | None => Some [] end) \/
     (served_at ev be cn r (lit "/.sso/logout") /\ cookies = clear_attrs (si_domain st) /\ choose = true /\ hint = [])).
Proof.
  intros hhash st ev be cn fresh r body u cookies url hint choose UF. unfold respond. destruct (authenticate ev be r) as [[r1 c]|] eqn:A; [|discriminate].
  assert (TK : forall tok link0 c0, token_url ev fresh r1 tok = Some (link0, c0) ->
    exists t link k, ev_decode ev tok = Some t /\ issued_as hhash k t /\ c0 = t_claims t /\ reparse link = Some link0 /\
    ((exists email, k = KUrl link (session_id fresh r) email) \/
     (exists cm user email host iat extra, k = KSession cm user email (session_id fresh r) host iat extra /\ assoc (lit "url") extra = Some (VStr link)) \/
     (exists aud iat cm user email host iat0 extra, k = KIdentity aud iat cm user email (session_id fresh r) host iat0 extra /\ assoc (lit "url") extra = Some (VStr link)))).
  { intros tok link0 c0. unfold token_url. destruct (ev_decode ev tok) as [t|] eqn:D; [|discriminate].
    destruct (accept_url _ _ _ t) as [link|] eqn:Ac; [|discriminate]. destruct (reparse link) as [s|] eqn:Rp; [|discriminate]. intro E. injection E as <- <-.
    assert (Sid : session_id fresh r1 = session_id fresh r) by (eapply authenticate_same; exact A). rewrite Sid in Ac.
    destruct (TokenProofs.accept_url_genuine hhash _ _ _ _ _ (UF _ _ D) Ac) as (k & K1 & K2). exists t, link, k. auto. }
  assert (RP : forall link, reparse link = Some url -> forall target r0 u0 h, request_for target r0 u0 -> link = full_url h u0 -> url = link).
  { intros link Rp target r0 u0 h R ->. rewrite (reparse_full _ _ _ _ R) in Rp. congruence. }
  destruct (reverse_proxy ev be cn r) as [|?|h| | | | |?| |?] eqn:L; try discriminate.
  - destruct (str_eqb (lh_path h) (lit "/.sso/")).
    { unfold status_answer. destruct (status_rows _ _ _); [|discriminate]. destruct (url_token _ _ _ _ _ _) as [[? ?]|]; discriminate. }
    destruct (str_eqb (lh_path h) (lit "/.sso/login")) eqn:P1; [|destruct (str_eqb (lh_path h) (lit "/.sso/logout")) eqn:P2; [|discriminate]].
    + apply str_eqb_spec in P1. unfold serve_login. destruct (str_eqb _ []); [discriminate|]. destruct (token_url _ _ _ _) as [[s c0]|] eqn:T; [|discriminate].
      intro E. injection E as <- <- <- <-. destruct (TK _ _ _ T) as (t & link & k & D & K1 & -> & Rp & K2).
      exists (KeygenModel.value (form_of body u) (lit "redirect")), t, link, k. split; [exact D|]. split; [exact K1|]. split; [exact K2|]. split; [exact (RP _ Rp)|].
      left. split; [exists h; auto|]. split; [reflexivity|]. split; [reflexivity|]. unfold address_of, email_text. destruct (assoc (lit "email") (t_claims t)) as [[]|]; reflexivity.
    + apply str_eqb_spec in P2. unfold serve_logout. destruct (str_eqb _ []); [discriminate|]. destruct (token_url _ _ _ _) as [[s c0]|] eqn:T; [|discriminate].
      intro E. injection E as <- <- <- <-. destruct (TK _ _ _ T) as (t & link & k & D & K1 & -> & Rp & K2).
      exists (KeygenModel.value (form_of body u) (lit "u")), t, link, k. split; [exact D|]. split; [exact K1|]. split; [exact K2|]. split; [exact (RP _ Rp)|].
      right. split; [exists h; auto|]. auto.
  - unfold login_answer. destruct (url_token _ _ _ _ _ _) as [[? ?]|]; [destruct (si_passkeys st || _); discriminate|discriminate].
  - unfold denied_answer. destruct (url_token _ _ _ _ _ _) as [[? ?]|]; discriminate.
Qed.
Print Assumptions C105_only_tokens.

(** ** Examples and what is false *)
Definition y_key : key := {| kid := 1; ktyp := ED; created := 1000 |}.
Definition y_cm : cookie_mgr := {| cm_provider := lit "oidc"; cm_issuer := lit "https://login.example.com/" |}.
Definition y_session : jwt :=
  {| t_kid := 1; t_signer := Some (1, ED);
     t_claims := match session_claims (fun s => rev s) y_cm (lit "alice") (lit "alice@example.com") (lit "sid9") (lit "www.example.com") 2000 [(lit "name", VStr (lit "Alice"))] with Some c => c | None => [] end |}.
Definition y_url_token (host : str) (u : url) (e : option str) : jwt :=
  {| t_kid := 1; t_claims := url_claims (full_url host u) (lit "S1") e; t_signer := Some (1, ED) |}.
Definition y_env (t : jwt) : env :=
  {| ev_keys := [y_key]; ev_now := 3000; ev_decode := fun s => if str_eqb s (lit "alice") then Some y_session else if str_eqb s (lit "eyJ.e30.x-_") then Some t else None;
     ev_hash := fun s => rev s; ev_expand := fun _ s => s; ev_fs := {| stat := fun _ => None; fopen := fun _ => None |} |}.
Definition y_sso (acl : option (list str)) : sso :=
  {| sso_cm := y_cm; sso_paths := []; sso_acl := acl; sso_force := 0; sso_user_header := true; sso_gen_id := false |}.
Definition y_handlers : list local_handler :=
  [{| lh_id := 2; lh_host := []; lh_path := lit "/.sso/logout"; lh_prefix := false; lh_bypass := true |};
   {| lh_id := 1; lh_host := []; lh_path := lit "/.sso/login"; lh_prefix := false; lh_bypass := true |};
   {| lh_id := 0; lh_host := []; lh_path := lit "/.sso/"; lh_prefix := false; lh_bypass := true |}].
Definition y_be (acl : option (list str)) : backend :=
  {| be_names := [lit "www.example.com"]; be_sso := Some (y_sso acl); be_handlers := y_handlers; be_overrides := [];
     be_addrs := [lit "10.0.0.1:80"]; be_root := []; be_sanitize := None; be_headers := []; be_xfcc := [] |}.
Definition y_cn : conn := {| cn_name := lit "www.example.com"; cn_local := lit "10.0.0.9:443"; cn_peer := lit "192.0.2.1"; cn_cert := None |}.
Definition y_request (host path : str) (cookie : str) : request :=
  {| rq_method := lit "GET"; rq_proto := lit "HTTP/1.1"; rq_host := host; rq_path := path; rq_headers := [(lit "Cookie", cookie)] |}.
Definition y_site : site :=
  {| si_passkeys := false; si_idp := lit "google"; si_unicode := Some; si_encode := fun _ => lit "eyJ.e30.x-_"; si_tpm := false;
     si_print := fun v => match v with VStr s => s | _ => [] end; si_date := fun _ => lit "today"; si_domain := lit "example.com" |}.
Definition y_url : url := {| u_path := lit "/a/b c"; u_raw := []; u_query := lit "x=1&y=%2F"; u_force := false |}.
Definition y_target : str := lit "/a/b%20c?x=1&y=%2F".

(** Links of pages with a port in the address lead to another port: here the page that shows
    https://www.example.com:8443/ links to https://www.example.com/. *)
Theorem C105_link_refuted : ~ (forall st ev be cn fresh target r body u p l s ascii,
  request_for target r u -> reverse_proxy ev be cn r = Login ->
  snd (respond st ev be cn fresh r body u) = Shown p -> pg_link p = Some (l, s) -> ascii (rq_host r) = rq_host r ->
  (forall h, si_unicode st (url_hostname (rq_host r)) = Some h -> ascii h = url_hostname (rq_host r)) ->
  leads_to ascii l = Some (rq_host r, rq_path r, u_query u)).
Proof.
  intro H. set (r := y_request (lit "www.example.com:8443") (lit "/a/b c") (lit "TLSPROXYSID=S1")).
  assert (E : exists p s, snd (respond y_site (y_env y_session) (y_be None) y_cn (lit "S1") r [] y_url) = Shown p /\ pg_link p = Some (lit "https://www.example.com/a/b%20c?x=1&y=%2F", s)).
  { eexists _, _. split; [vm_compute; reflexivity|reflexivity]. }
  destruct E as (p & s & E & Lk). assert (L : reverse_proxy (y_env y_session) (y_be None) y_cn r = Login) by (vm_compute; reflexivity).
  assert (D : forall h : str, si_unicode y_site (url_hostname (rq_host r)) = Some h -> h = url_hostname (rq_host r)) by (intros h X; cbn [si_unicode y_site] in X; congruence).
  assert (R : request_for y_target r y_url) by (repeat split).
  specialize (H _ _ _ _ _ _ _ _ _ _ _ _ (fun h => h) R L E Lk eq_refl D). vm_compute in H. discriminate H.
Qed.
Print Assumptions C105_link_refuted.

(** International names are looked up for display and then written with escapes: the page never
    shows them. *)
Theorem C105_name_refuted : forall st host u h, si_unicode st (url_hostname host) = Some h -> (exists c, List.In c h /\ (127 < N_of_ascii c)%N) ->
  has_prefix (display_url st host u) (lit "https://" ++ h) = false /\
  exists x y z, h = x ++ y :: z /\ (127 < N_of_ascii y)%N /\ has_prefix (display_url st host u) (lit "https://" ++ host_escape x ++ ["%"%char]) = true.
Proof.
  intros st host u h U (c & I & Hc). unfold display_url. rewrite U.
  assert (Hi : forall y, (127 < N_of_ascii y)%N -> exists a b, host_byte y = ["%"%char; a; b]).
  { intros y. destruct y as [[] [] [] [] [] [] [] []]; vm_compute; intro X; try discriminate X; eauto. }
  apply in_split in I as (x & z & ->). split.
  - apply not_true_iff_false. intro P. apply has_prefix_spec in P as (w & E). unfold full_url in E. rewrite <- app_assoc in E. apply app_inv_head in E.
    assert (F : List.In c (host_escape (x ++ c :: z)) \/ (List.length (host_escape (x ++ c :: z)) <= List.length x)).
    { clear -E. revert E. generalize (host_escape (x ++ c :: z)) as e. intros e E. revert x E. induction e as [|e0 e IH]; intros x E; [right; cbn; lia|].
      destruct x as [|x0 x]; cbn [app] in E; injection E as E0 E; [left; subst; now left|]. destruct (IH x E) as [F|F]; [left; now right|right; cbn; lia]. }
    destruct F as [F|F].
    + unfold host_escape in F. apply in_concat in F as (l & Il & J). apply in_map_iff in Il as (b & <- & _). change (List.In c (host_byte b)) in J.
      assert (G : forallb (fun c => (N_of_ascii c <? 128)%N) (host_byte b) = true) by (clear; destruct b as [[] [] [] [] [] [] [] []]; reflexivity).
      rewrite forallb_forall in G. apply G in J. apply N.ltb_lt in J. lia.
    + assert (G : forall s, List.length s <= List.length (host_escape s)).
      { clear. induction s as [|b s IH]; [reflexivity|]. rewrite host_cons, app_length. assert (Q : 1 <= List.length (host_byte b)) by (clear; destruct b as [[] [] [] [] [] [] [] []]; vm_compute; lia). cbn [List.length]. lia. }
      specialize (G (x ++ c :: z)). rewrite app_length in G. cbn [List.length] in G. lia.
  - exists x, c, z. split; [reflexivity|]. split; [exact Hc|]. apply has_prefix_spec. destruct (Hi c Hc) as (a & b & B).
    assert (Ap : host_escape (x ++ c :: z) = host_escape x ++ host_byte c ++ host_escape z) by (unfold host_escape; rewrite map_app, concat_app; reflexivity).
    unfold full_url. rewrite Ap, B. exists ([a; b] ++ host_escape z ++ url_string u). rewrite <- !app_assoc. reflexivity.
Qed.
Print Assumptions C105_name_refuted.

(** Long names of hosts are cut: different hosts look the same. *)
Definition long_part : str := lit "login.example.com.aaaaaaaaaaaaaaaaaaaaaaaaaaaaaaaaaaaaaaaaaaaaaaaa.aaaaaaaaaaaaaaaaaaaaaaaaaaaaaaaaaaaaaaaaaaaaaa.".
Theorem C105_shown_host_refuted : ~ (forall st h h' u, si_unicode st = Some -> shorten (display_url st h u) = shorten (display_url st h' u) -> h = h').
Proof.
  intro H. specialize (H y_site (long_part ++ lit "example.com") (long_part ++ lit "example.org") y_url eq_refl ltac:(vm_compute; reflexivity)). vm_compute in H. discriminate H.
Qed.
Print Assumptions C105_shown_host_refuted.

(** A rule of the OpenID server that sets iat makes tokens that are accepted and for which the
    status page crashes. *)
Definition y_openid : kind :=
  KOpenID (cm_issuer y_cm) (audience (lit "www.example.com")) [(lit "sub", VStr (lit "alice")); (lit "email", VStr (lit "alice@example.com"))] 2900 [] [lit "email"] [(lit "iat", lit "now")].
Definition y_bearer : jwt := {| t_kid := 1; t_claims := match claims_of (fun s => rev s) y_openid with Some c => c | None => [] end; t_signer := Some (1, ED) |}.
Theorem C105_status_works_refuted : exists t r, issued_as (fun s => rev s) y_openid t /\ rules_ok y_openid /\
  known_user (y_env t) (y_be None) r = Some (t_claims t) /\
  served_at (y_env t) (y_be None) y_cn r (lit "/.sso/") /\
  forall fresh u, snd (respond y_site (y_env t) (y_be None) y_cn fresh r [] u) = Crashed.
Proof.
  exists y_bearer, {| rq_method := lit "GET"; rq_proto := lit "HTTP/1.1"; rq_host := lit "www.example.com"; rq_path := lit "/.sso/"; rq_headers := [(lit "Authorization", lit "Bearer eyJ.e30.x-_")] |}.
  split; [reflexivity|]. split; [intros x [<-|[]]; vm_compute; intuition discriminate|]. split; [vm_compute; reflexivity|]. split.
  - eexists. split; [vm_compute; reflexivity|reflexivity].
  - intros fresh u. vm_compute. reflexivity.
Qed.
Print Assumptions C105_status_works_refuted.

(** The hypotheses are met: a user who is not logged in asks for a page with a port, a space and
    a query; the button leads to a login for exactly that page. *)
Definition y_first : request := y_request (lit "www.example.com:8443") (lit "/a/b c") (lit "TLSPROXYSID=S1").
Definition y_tok : jwt := y_url_token (lit "www.example.com:8443") y_url None.
Example C105_login_case :
  request_for y_target y_first y_url /\ reverse_proxy (y_env y_tok) (y_be None) y_cn y_first = Login /\
  page_token y_site (y_env y_tok) (lit "S1") y_first y_url (address_of (known_user (y_env y_tok) (y_be None) y_first)) y_tok /\
  token_text y_site (y_env y_tok) y_tok /\ still_has (y_env y_tok) (y_env y_tok) /\
  let second := y_request (lit "www.example.com:8443") (lit "/.sso/login") (lit "TLSPROXYSID=S1") in
  session_id (lit "S2") second = session_id (lit "S1") y_first /\ served_at (y_env y_tok) (y_be None) y_cn second (lit "/.sso/login") /\
  exists u', request_for (login_target (lit "eyJ.e30.x-_")) second u' /\
    respond y_site (y_env y_tok) (y_be None) y_cn (lit "S2") second [] u' = ([], AskLogin (lit "https://www.example.com:8443/a/b%20c?x=1&y=%2F") [] false).
Proof.
  split; [repeat split|]. split; [vm_compute; reflexivity|]. split; [vm_compute; reflexivity|]. split; [repeat split; discriminate|].
  split; [intros k [<-|[]]; reflexivity|]. cbv zeta. split; [reflexivity|]. split; [eexists; split; [vm_compute; reflexivity|reflexivity]|].
  eexists. split; [split; [vm_compute; reflexivity|split; reflexivity]|]. vm_compute. reflexivity.
Qed.
(** A user who is known and not permitted, and the status page of a known user. *)
Definition y_known (path : str) : request := y_request (lit "www.example.com") path (lit "TLSPROXYSID=S1; TLSPROXYAUTH=alice").
Definition y_tok2 (u : url) : jwt := y_url_token (lit "www.example.com") u None.
Example C105_denied_case :
  let ev := y_env (y_tok2 y_url) in let be := y_be (Some [lit "bob@example.com"]) in let r := y_known (lit "/a/b c") in
  request_for y_target r y_url /\ reverse_proxy ev be y_cn r = Denied /\ page_token y_site ev (lit "S1") r y_url None (y_tok2 y_url) /\
  token_text y_site ev (y_tok2 y_url) /\
  address_of (known_user ev be r) = Some (lit "alice@example.com") /\
  exists p, snd (respond y_site ev be y_cn (lit "S1") r [] y_url) = Shown p /\ pg_user p = lit "alice@example.com" /\
    pg_link p = Some (lit "https://www.example.com/a/b%20c?x=1&y=%2F", lit "https://www.example.com/a/b%20c?x=1&y=%2F").
Proof.
  cbv zeta. split; [repeat split|]. split; [vm_compute; reflexivity|]. split; [vm_compute; reflexivity|]. split; [repeat split; discriminate|].
  split; [vm_compute; reflexivity|]. eexists. split; [vm_compute; reflexivity|]. split; reflexivity.
Qed.
Example C105_status_case :
  let u := {| u_path := lit "/.sso/"; u_raw := []; u_query := []; u_force := false |} in
  let ev := y_env (y_tok2 u) in let r := y_known (lit "/.sso/") in
  request_for (lit "/.sso/") r u /\ served_at ev (y_be None) y_cn r (lit "/.sso/") /\
  NoDup (map fst (match known_user ev (y_be None) r with Some c => c | None => [] end)) /\
  exists p, snd (respond y_site ev (y_be None) y_cn (lit "S1") r [] u) = Shown p /\
    map fst (pg_rows p) = [lit "aud"; lit "email"; lit "exp"; lit "hhash"; lit "iat"; lit "iss"; lit "name"; lit "provider"; lit "proxyauth"; lit "sid"; lit "sub"] /\
    List.In (lit "iat", lit "today") (pg_rows p) /\ List.In (lit "email", lit "alice@example.com") (pg_rows p) /\
    pg_buttons p = [(lit "Switch Account", lit "/.sso/logout?u=eyJ.e30.x-_"); (lit "Logout", lit "/.sso/logout")].
Proof.
  cbv zeta. split; [repeat split|]. split; [eexists; split; [vm_compute; reflexivity|reflexivity]|]. split.
  - vm_compute. repeat (constructor; [intro H; cbn [List.In] in H; intuition discriminate|]). constructor.
  - eexists. split; [vm_compute; reflexivity|]. split; [reflexivity|]. split; [vm_compute; tauto|]. split; [vm_compute; tauto|reflexivity].
Qed.
