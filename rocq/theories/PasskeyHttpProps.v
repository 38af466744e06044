(** Theorems C82 and C83: the HTTP side of passkeys. *)
From Verif Require Import Base PasskeyModel PasskeySpec LoginProofs LoginProofs2 PasskeyProofs PasskeyProofs2 PasskeyProofs3
  PasskeyHttpModel PasskeyHttpSpec PasskeyHttpProofs PasskeyHttpProofs2.
From Verif Require HttpModel HttpSpec HttpProofs TokenModel.
Open Scope list_scope.
Open Scope Z_scope.

(** ** C82: keys are changed only by their user *)

(** The keys of a user change only in a request that a script of the proxy's own pages
    made: to the management page, at the endpoint's host, by the user signed in there
    with a passkey in the last ten minutes; or during a login that this browser started,
    by a user whom the other provider has identified and the access list admits, and who
    has no key yet. *)
Theorem C82_keys_change : forall e ops o m,
  distinct_handles e (ops ++ [o]) -> hkeys e (ops ++ [o]) m <> hkeys e ops m ->
  (exists q key, o = HManage q /\ own_script q /\ at_endpoint e (q_host q) /\ signed_in e q m key) \/
  (exists q c url, o = HCallback q /\ own_script q /\ login_of_this_browser e q url /\ q_other q = Some c /\ u_email c = Some m /\
     HttpSpec.allowed (e_acl (h_env e)) m /\ hkeys e ops m = [] /\ exists k, hkeys e (ops ++ [o]) m = [k]).
Proof.
  intros e ops o m N. rewrite hkeys_step by exact N. destruct (snd (hplan e (hs_nonces (hrun e ops)) o)) as [a|b l k] eqn:Ep; [congruence|].
  intro D. destruct o as [n now url hint host|q|q]; cbn [hplan] in Ep; [discriminate| |].
  - right. apply callback_inv in Ep. destruct Ep as (S & _ & url & L & C). destruct l as [v|c uid ch t|c host cdata att allow|ch t|a token t|c sk id]; cbn [keys_change] in D; try congruence.
    + destruct (panswer (h_env e) (htrace e ops ++ b) (AddKey c host cdata att allow)) as [| | |c' k'|] eqn:Ea; try congruence. pose proof Ea as Ea'.
      destruct (opt_eqb str_eqb (u_email c) (Some m)) eqn:Em; [|congruence]. apply opt_eqb_str in Em.
      cbn in C. destruct C as (_ & -> & -> & Eo & _ & Es & -> & _). exists q, c, url. unfold email_of in Es. rewrite Em in Es.
      apply panswer_added in Ea. destruct Ea as (_ & [Ea|Ea]); [discriminate|]. specialize (Ea _ Em).
      assert (K : hkeys e ops m = []).
      { unfold hkeys. rewrite hrun_keys. unfold distinct_handles in N. rewrite pafter_app in Ea. exact Ea. }
      repeat split; auto; try apply S. { apply HttpProofs.acl_ok_spec. exact Es. }
      exists k'. rewrite K. cbn [keys_change]. rewrite Em. cbn [opt_eqb]. rewrite str_eqb_refl. reflexivity.
    + destruct C.
  - left. apply manage_inv in Ep. destruct Ep as (S & H & s & key & t & E1 & E2 & E3 & E4 & E5 & C). exists q, key. repeat split; try apply S; auto. { apply ep_host_spec. exact H. }
    exists s, t. repeat split; auto. destruct l as [v|c uid ch t'|c host cdata att allow|ch t'|a token t'|c sk id]; cbn [keys_change] in D; try congruence.
    + destruct (panswer _ _ _) as [| | |c' k'|]; try congruence. destruct (opt_eqb str_eqb (u_email c) (Some m)) eqn:Em; [|congruence]. apply opt_eqb_str in Em.
      cbn in C. destruct C as (_ & _ & _ & -> & _). unfold email_of. rewrite Em. reflexivity.
    + cbn in C. destruct C as (_ & -> & _). destruct (panswer _ _ _); try congruence.
      destruct (str_eqb _ m) eqn:Em; [|congruence]. apply str_eqb_spec in Em. exact Em.
Qed.
Print Assumptions C82_keys_change.

(** Nobody deletes the key that they are signed in with. *)
Theorem C82_current_key_kept : forall e ops q m key k,
  distinct_handles e (ops ++ [HManage q]) -> signed_in e q m key -> In k (hkeys e ops m) -> e_hash (h_env e) (k_id k) = key ->
  In k (hkeys e (ops ++ [HManage q]) m).
Proof.
  intros e ops q m key k N (s & t & E1 & Em & E2 & E3 & E4 & E5) Hin Ek. rewrite hkeys_step by exact N.
  destruct (snd (hplan e (hs_nonces (hrun e ops)) (HManage q))) as [a|b l k'] eqn:Ep; [exact Hin|]. cbn [hplan] in Ep.
  apply manage_inv in Ep. destruct Ep as (_ & _ & s' & key' & t' & E1' & E2' & _ & _ & _ & C). assert (s' = s) by congruence. subst s'. assert (key' = key) by congruence. subst key'.
  destruct l as [v|c uid ch t0|c host cdata att allow|ch t0|a token t0|c sk id]; cbn [keys_change]; try exact Hin.
  - destruct (panswer _ _ _); try exact Hin. destruct (opt_eqb _ _ _); [|exact Hin]. apply in_app_iff. left. exact Hin.
  - cbn in C. destruct C as (_ & -> & -> & _ & -> & _). unfold panswer. cbn [pstep]. destruct (str_eqb key (e_hash (h_env e) id)) eqn:Eh; [exact Hin|]. cbn [snd].
    destruct (str_eqb _ m); [|exact Hin]. apply filter_In. split; [exact Hin|]. apply negb_true_iff. apply str_eqb_neq. intros <-. rewrite Ek, str_eqb_refl in Eh. discriminate.
Qed.
Print Assumptions C82_current_key_kept.

(** A login is started with a nonce that the proxy drew for it: once, within five
    minutes, for the URL that was asked for then, and for the browser that presents it. *)
Theorem C82_login_started_here : forall e ops o url sid hint,
  hanswer e ops o = AToken url sid hint ->
  exists q before o' between host t,
    o = HCallback q /\ sid = q_sid q /\ ops = before ++ o' :: between /\ draws e o' (q_nonce q) t url hint /\
    hanswer e before o' = AToLogin host (q_nonce q) /\ q_now q <= t + 300 /\
    (forall q', In (HCallback q') between -> q_nonce q' <> q_nonce q).
Proof.
  intros e ops o url sid hint H. destruct o as [n now u h host|q|q]; [discriminate| |].
  - rewrite hanswer_plan in H. cbn [hplan] in H. destruct (snd (handle_callback e q (hs_nonces (hrun e ops)))) as [a|b l k] eqn:Ep.
    + subst a. apply callback_done in Ep. destruct Ep as [[]|(d & Ed & Ea)]. injection Ea as -> -> ->.
      destruct (take_nonce (q_now q) (q_nonce q) (hs_nonces (hrun e ops))) as [x ns1] eqn:Et. cbn [fst] in Ed. subst x.
      apply take_nonce_some in Et. destruct Et as [Hin Hle]. apply nonce_origin in Hin. destruct Hin as (before & o' & between & host & E & D & A & U).
      exists q, before, o', between, host, (nd_created d). auto 10.
    + exfalso. apply callback_inv in Ep. destruct Ep as (_ & _ & url' & _ & C).
      destruct l; cbn in C; try contradiction; repeat match goal with X : _ /\ _ |- _ => destruct X end; subst k; try discriminate H;
        destruct (panswer _ _ _); discriminate H.
  - pose proof (manage_answer e q ops) as P. rewrite H in P. destruct P.
Qed.
Print Assumptions C82_login_started_here.

(** A session is given only at the end of such a login, to a request of the proxy's own
    pages, for the host of the URL that the login is for.  The user proved to have one of
    the keys of the e-mail address in it, or has just registered the first one. *)
Theorem C82_session : forall e ops o c k host url,
  distinct_handles e ops -> hanswer e ops o = ASession c k host url ->
  exists q m, o = HCallback q /\ own_script q /\ login_of_this_browser e q url /\ host = h_url_host e url /\ u_email c = Some m /\
    ((exists a, q_assert q = Some a /\ In k (hkeys e ops m) /\ a_id a = Some (k_id k) /\
        e_verify (h_env e) (k_pub k) (a_adata a) (a_cdata a) (a_sig a) = true) \/
     (q_other q = Some c /\ HttpSpec.allowed (e_acl (h_env e)) m /\ hkeys e ops m = [])).
Proof.
  intros e ops o c k host url N H. destruct o as [n now u h host'|q|q]; [discriminate| |].
  2: { pose proof (manage_answer e q ops) as P. rewrite H in P. destruct P. }
  rewrite hanswer_plan in H. cbn [hplan] in H. destruct (snd (handle_callback e q (hs_nonces (hrun e ops)))) as [a|b l f] eqn:Ep.
  { subst a. apply callback_done in Ep. destruct Ep as [[]|(d & _ & Ea)]. discriminate. }
  apply callback_inv in Ep. destruct Ep as (S & _ & url' & L & C). exists q.
  assert (V : forall v m, keys_of (pafter (h_env e) (htrace e ops ++ [Vacuum v])) m = hkeys e ops m).
  { intros v m. unfold hkeys. rewrite hrun_keys, pafter_app. reflexivity. }
  destruct l as [v|c0 uid ch t|c0 host0 cdata att allow|ch t|a token t|c0 sk id]; cbn in C; try contradiction.
  - destruct C as (_ & _ & ->). discriminate.
  - destruct C as (_ & _ & _ & _ & _ & _ & ->). destruct (panswer _ _ _); discriminate.
  - destruct C as (_ & -> & -> & Eo & _ & Es & -> & ->).
    destruct (panswer (h_env e) (htrace e ops ++ [Vacuum (q_now q)]) (AddKey c0 (q_host q) cdata att false)) as [| | |c' k'|c' k'] eqn:Ea; try discriminate.
    + cbn [set_auth_token] in H. injection H as -> -> <- ->. pose proof Ea as Ea'. apply panswer_added in Ea. destruct Ea as (-> & [Ea|Ea]); [discriminate|].
      assert (exists m, u_email c0 = Some m) as (m & Em).
      { revert Ea'. unfold panswer. cbn [pstep]. destruct (negb false && _); [discriminate|]. unfold process_attestation. destruct (u_email c0); [eauto|discriminate]. }
      exists m. specialize (Ea _ Em). rewrite V in Ea. unfold email_of in Es. rewrite Em in Es. repeat split; auto; try apply S.
      right. repeat split; auto. apply HttpProofs.acl_ok_spec. exact Es.
    + exfalso. revert Ea. unfold panswer. cbn [pstep]. destruct (negb false && _); [discriminate|].
      destruct (attestation_spec (h_env e) c0 (q_host q) cdata att false (pafter (h_env e) (htrace e ops ++ [Vacuum (q_now q)]))) as [[E _]|(k1 & E & _)]; congruence.
  - destruct C as (_ & _ & _ & _ & ->). discriminate.
  - destruct C as (_ & Ea & -> & -> & -> & ->).
    destruct (panswer (h_env e) (htrace e ops ++ [Vacuum (q_now q)]) (Check a (q_other q) (q_now q))) as [| | |c' k'|c' k'] eqn:Eb; try discriminate.
    + exfalso. revert Eb. unfold panswer. cbn [pstep].
      destruct (check_spec (h_env e) a (q_other q) (q_now q) (pafter (h_env e) (htrace e ops ++ [Vacuum (q_now q)]))) as [[E _]|(c1 & k1 & _ & [E|[E|[E _]]])];
        intro X; rewrite X in E; discriminate.
    + cbn [set_auth_token] in H. injection H as -> -> <- ->.
      assert (N' : NoDup (uids (htrace e ops ++ [Vacuum (q_now q)]))) by (rewrite uids_app; cbn; rewrite app_nil_r; exact N).
      apply login_spec in Eb; [|exact N']. destruct Eb as (m & Em & Hin & Hid & Hv & _). rewrite V in Hin. exists m. repeat split; auto; try apply S.
      left. exists a. auto.
Qed.
Print Assumptions C82_session.

(** A concrete site: the endpoint is https://sso/. *)
Definition xh_hash (s : str) : str := firstn 32 (s ++ repeat "0"%char 32).
Definition xh_decode (s : str) : option client_data :=
  if has_prefix s (lit "create:") then Some {| cd_type := lit "webauthn.create"; cd_challenge := skipn 7 s; cd_origin := lit "https://sso" |}
  else if has_prefix s (lit "get:") then Some {| cd_type := lit "webauthn.get"; cd_challenge := skipn 4 s; cd_origin := lit "https://sso" |}
  else None.
Definition xh_env : env :=
  {| e_client_data := xh_decode; e_attestation := fun s => Some s; e_cbor := fun s => Some (s, []);
     e_verify := fun pub _ _ sig => str_eqb pub sig; e_hash := xh_hash; e_hostname := HttpModel.host_from_req; e_acl := Some [lit "@x"]; e_refresh := 0 |}.
Definition xh_tokens : list TokenModel.key := [{| TokenModel.kid := 1; TokenModel.ktyp := TokenModel.EC; TokenModel.created := 50 |}].
Definition xh : henv :=
  {| h_env := xh_env; h_endpoint := lit "sso"; h_tokens := xh_tokens;
     h_url_host := fun u => if str_eqb u (lit "https://sso/keys") then lit "sso" else lit "www" |}.
Definition xh_bob : pclaims := {| u_email := Some (lit "bob@x"); u_sub := lit "1"; u_sid := lit "s1"; u_iat := Some 90; u_rest := 0 |}.
Definition xh_att (id pub : str) : str :=
  layout (xh_hash (lit "sso")) (ascii_of_nat 69) [zero; zero; zero; zero] (Some (repeat zero 16, [zero; ascii_of_nat (List.length id)], id, pub)) [].
Definition xh_adata : str := layout (xh_hash (lit "sso")) (ascii_of_nat 5) [zero; zero; zero; one] None [].
Definition xh_token : option TokenModel.jwt := TokenModel.create_token xh_tokens 100 TokenModel.EC (TokenModel.url_claims (lit "https://sso/keys") (lit "browser") None).
(** A request of the page, with all the values the browser would send. *)
Definition xh_req (now : Z) (get : str) (ch : str) : preq :=
  {| q_now := now; q_method := lit "POST"; q_csrf := lit "1"; q_host := lit "sso"; q_sid := lit "browser"; q_get := get; q_nonce := [];
     q_redirect := xh_token; q_email := []; q_attest := None; q_assert := None; q_id := None; q_other := Some xh_bob; q_session := None;
     q_url := lit "https://sso/keys"; q_uid := lit "h" ++ ch; q_challenge := ch; q_fresh := [] |}.
Definition xh_key (name : str) : ukey := {| k_id := lit "k" ++ name; k_pub := lit "p" ++ name; k_rp := xh_hash (lit "sso") |}.
(** The answer to a registration, and a session that was made with a key. *)
Definition xh_add (q : preq) (ch name : str) : preq :=
  {| q_now := q_now q; q_method := q_method q; q_csrf := q_csrf q; q_host := q_host q; q_sid := q_sid q; q_get := q_get q; q_nonce := q_nonce q;
     q_redirect := q_redirect q; q_email := q_email q; q_attest := Some (lit "create:" ++ ch, xh_att (lit "k" ++ name) (lit "p" ++ name)); q_assert := None;
     q_id := Some (lit "k" ++ name); q_other := q_other q; q_session := q_session q; q_url := q_url q; q_uid := q_uid q; q_challenge := q_challenge q; q_fresh := q_fresh q |}.
Definition xh_with (q : preq) (name : str) (iat : Z) : preq :=
  {| q_now := q_now q; q_method := q_method q; q_csrf := q_csrf q; q_host := q_host q; q_sid := q_sid q; q_get := q_get q; q_nonce := q_nonce q;
     q_redirect := q_redirect q; q_email := q_email q; q_attest := q_attest q; q_assert := q_assert q;
     q_id := q_id q; q_other := q_other q;
     q_session := Some {| ms_claims := {| u_email := Some (lit "bob@x"); u_sub := lit "1"; u_sid := lit "s1"; u_iat := Some iat; u_rest := 0 |};
                          ms_hhash := Some (xh_hash (lit "sso")); ms_key := Some (xh_hash (lit "k" ++ name)) |};
     q_url := q_url q; q_uid := q_uid q; q_challenge := q_challenge q; q_fresh := q_fresh q |}.
Definition xh_check (q : preq) (ch name : str) : preq :=
  {| q_now := q_now q; q_method := q_method q; q_csrf := q_csrf q; q_host := q_host q; q_sid := q_sid q; q_get := q_get q; q_nonce := q_nonce q;
     q_redirect := q_redirect q; q_email := q_email q; q_attest := None;
     q_assert := Some {| a_id := Some (lit "k" ++ name); a_cdata := lit "get:" ++ ch; a_adata := xh_adata; a_sig := lit "p" ++ name; a_handle := lit "hc1"; a_login := [] |};
     q_id := None; q_other := q_other q; q_session := q_session q; q_url := q_url q; q_uid := q_uid q; q_challenge := q_challenge q; q_fresh := q_fresh q |}.
Definition xh_nonce (q : preq) (n : str) : preq :=
  {| q_now := q_now q; q_method := lit "GET"; q_csrf := []; q_host := q_host q; q_sid := q_sid q; q_get := []; q_nonce := n;
     q_redirect := None; q_email := []; q_attest := None; q_assert := None; q_id := None; q_other := None; q_session := None;
     q_url := []; q_uid := []; q_challenge := []; q_fresh := [] |}.
(** Bob registers a key, then signed in with it another one. *)
Definition xh_history : list hop :=
  [HLogin (lit "n1") 100 (lit "https://sso/keys") [] (lit "sso");
   HCallback (xh_nonce (xh_req 101 [] []) (lit "n1"));
   HCallback (xh_req 110 (lit "AttestationOptions") (lit "c1"));
   HCallback (xh_add (xh_req 120 (lit "AddKey") []) (lit "c1") (lit "1"));
   HManage (xh_with (xh_req 130 (lit "AttestationOptions") (lit "c2")) (lit "1") 120);
   HManage (xh_with (xh_add (xh_req 140 (lit "AddKey") []) (lit "c2") (lit "2")) (lit "1") 120)].

Example C82_nontrivial :
  hkeys xh xh_history (lit "bob@x") = [xh_key (lit "1"); xh_key (lit "2")] /\
  hkeys xh (firstn 3 xh_history) (lit "bob@x") = [] /\
  hanswer xh (firstn 1 xh_history) (nth 1 xh_history (HManage (xh_req 0 [] []))) = AToken (lit "https://sso/keys") (lit "browser") [] /\
  hanswer xh (firstn 2 xh_history) (nth 1 xh_history (HManage (xh_req 0 [] []))) = ABad /\
  hanswer xh (firstn 3 xh_history) (nth 3 xh_history (HManage (xh_req 0 [] []))) = ASession xh_bob (xh_key (lit "1")) (lit "sso") (lit "https://sso/keys") /\
  hanswer xh (xh_history ++ [HCallback (xh_req 150 (lit "AssertionOptions") (lit "c3"))]) (HCallback (xh_check (xh_req 160 (lit "Check") []) (lit "c3") (lit "2"))) =
    ASession xh_bob (xh_key (lit "2")) (lit "sso") (lit "https://sso/keys") /\
  hanswer xh xh_history (HManage (xh_with (xh_add (xh_req 150 (lit "DeleteKey") []) [] (lit "1")) (lit "1") 120)) = ABad /\
  hanswer xh xh_history (HManage (xh_with (xh_add (xh_req 150 (lit "DeleteKey") []) [] (lit "1")) (lit "2") 120)) = AOk /\
  hanswer xh xh_history (HManage (xh_with (xh_add (xh_req 900 (lit "DeleteKey") []) [] (lit "1")) (lit "2") 120)) = AToLogin (lit "sso") [].
Proof. vm_compute. repeat split. Qed.
Example C82_handles : distinct_handles xh xh_history.
Proof. unfold distinct_handles. vm_compute. repeat constructor; intros H; repeat destruct H as [H|H]; try discriminate H; destruct H. Qed.

(** A session outlives the key it was made with: after the key was deleted, the session
    can still register new keys, for ten minutes. *)
Definition xh_stolen : list hop :=
  xh_history ++
  [HManage (xh_with (xh_add (xh_req 150 (lit "DeleteKey") []) [] (lit "1")) (lit "2") 145);
   HManage (xh_with (xh_req 160 (lit "AttestationOptions") (lit "c4")) (lit "1") 120)].
Theorem C82_session_of_deleted_key_refuted :
  ~ (forall e ops q m before q' between c k0 host url,
       distinct_handles e (ops ++ [HManage q]) ->
       ops = before ++ HCallback q' :: between -> hanswer e before (HCallback q') = ASession c k0 host url ->
       signed_in e q m (e_hash (h_env e) (k_id k0)) ->
       hkeys e (ops ++ [HManage q]) m <> hkeys e ops m ->
       exists k, In k (hkeys e ops m) /\ e_hash (h_env e) (k_id k) = e_hash (h_env e) (k_id k0)).
Proof.
  intro H. specialize (H xh xh_stolen (xh_with (xh_add (xh_req 170 (lit "AddKey") []) (lit "c4") (lit "4")) (lit "1") 120) (lit "bob@x")
    (firstn 3 xh_stolen) (xh_add (xh_req 120 (lit "AddKey") []) (lit "c1") (lit "1")) (skipn 4 xh_stolen) xh_bob (xh_key (lit "1")) (lit "sso") (lit "https://sso/keys")).
  destruct H as (k & Hk & E).
  - unfold distinct_handles. vm_compute. repeat constructor; intros H; repeat destruct H as [H|H]; try discriminate H; destruct H.
  - reflexivity.
  - vm_compute. reflexivity.
  - eexists. exists 120. vm_compute. repeat split; try reflexivity; discriminate.
  - vm_compute. discriminate.
  - vm_compute in Hk. destruct Hk as [<-|[]]. vm_compute in E. discriminate.
Qed.
Print Assumptions C82_session_of_deleted_key_refuted.

(** ** C83: honest users can register and log in *)

(** A browser and authenticator that answer a registration as asked, for the host that
    the request is for, get the key registered: up to five minutes after the challenge was
    given, whatever else happens in between, for a user who is signed in ([allow]) or who
    is admitted and has no keys yet. *)
Theorem C83_registration : forall e before c m uid ch t between host cdata att allow k,
  NoDup (uids before) -> u_email c = Some m -> Forall (leaves_alone e ch t) between ->
  honest_registration e (e_hostname e host) (lit "https://" ++ host) ch k cdata att ->
  (allow = true \/ (HttpSpec.allowed (e_acl e) m /\ keys_of (pafter e (before ++ AttOptions c uid ch t :: between)) m = [])) ->
  panswer e (before ++ AttOptions c uid ch t :: between) (AddKey c host cdata att allow) = PAdded c k.
Proof.
  intros e before c m uid ch t between host cdata att allow k N Em F H A. apply (honest_added e before c m uid ch t between); auto.
  destruct A as [A|[A B]]; [left; exact A|right; split; [|exact B]]. apply HttpProofs.acl_ok_spec. exact A.
Qed.
Print Assumptions C83_registration.

(** And the answer to a login gives a session of the user the key belongs to, unless the
    identity is too old and is to be confirmed with the other provider. *)
Theorem C83_login : forall e before ch t between m h k a token now,
  let ops := before ++ AssOptions ch t :: between in
  NoDup (uids ops) -> Forall (leaves_alone e ch t) between ->
  In k (keys_of (pafter e ops) m) -> NoDup (map k_id (keys_of (pafter e ops) m)) ->
  assoc m (p_subjects (pafter e ops)) = Some h ->
  honest_assertion e ch k m h a ->
  exists c, u_email c = Some m /\ (panswer e ops (Check a token now) = PLogin c k \/ (panswer e ops (Check a token now) = PRefresh /\ too_old e c now)).
Proof. exact honest_login. Qed.
Print Assumptions C83_login.

Example C83_nontrivial :
  let between := [Vacuum 120; AssOptions (lit "c9") 130; Vacuum 400] in
  Forall (leaves_alone xh_env (lit "c1") 110) between /\
  honest_registration xh_env (e_hostname xh_env (lit "sso")) (lit "https://sso") (lit "c1") (xh_key (lit "1")) (lit "create:c1") (xh_att (lit "k1") (lit "p1")) /\
  panswer xh_env (Vacuum 110 :: AttOptions xh_bob (lit "h") (lit "c1") 110 :: between) (AddKey xh_bob (lit "sso") (lit "create:c1") (xh_att (lit "k1") (lit "p1")) false)
    = PAdded xh_bob (xh_key (lit "1")) /\
  panswer xh_env (Vacuum 110 :: AttOptions xh_bob (lit "h") (lit "c1") 110 :: between ++ [Vacuum 411]) (AddKey xh_bob (lit "sso") (lit "create:c1") (xh_att (lit "k1") (lit "p1")) false)
    = PRefused.
Proof.
  cbv zeta. split; [repeat constructor; cbn; try lia; discriminate|]. split.
  { split; [reflexivity|]. split; [reflexivity|]. exists (xh_att (lit "k1") (lit "p1")). eexists. eexists. repeat split; vm_compute; reflexivity. }
  split; vm_compute; reflexivity.
Qed.

Example C83_login_nontrivial :
  let before := [Vacuum 110; AttOptions xh_bob (lit "hc1") (lit "c1") 110; Vacuum 120; AddKey xh_bob (lit "sso") (lit "create:c1") (xh_att (lit "k1") (lit "p1")) false] in
  let ops := before ++ AssOptions (lit "c3") 140 :: [Vacuum 150] in
  let a := {| a_id := Some (lit "k1"); a_cdata := lit "get:c3"; a_adata := xh_adata; a_sig := lit "p1"; a_handle := lit "hc1"; a_login := [] |} in
  In (xh_key (lit "1")) (keys_of (pafter xh_env ops) (lit "bob@x")) /\ assoc (lit "bob@x") (p_subjects (pafter xh_env ops)) = Some (lit "hc1") /\
  honest_assertion xh_env (lit "c3") (xh_key (lit "1")) (lit "bob@x") (lit "hc1") a /\
  panswer xh_env ops (Check a None 150) = PLogin xh_bob (xh_key (lit "1")).
Proof.
  cbv zeta. split; [vm_compute; auto|]. split; [vm_compute; reflexivity|]. split; [|vm_compute; reflexivity].
  split; [eexists; reflexivity|]. split; [eexists; repeat split; vm_compute; reflexivity|]. split; [reflexivity|].
  split; [left; split; [discriminate|reflexivity]|reflexivity].
Qed.

(** The relying party that the browser is told to register the key for is the one that
    the key is checked for, if the endpoint's URL has no port. *)
Theorem C83_at_the_endpoint_partial : forall e before c m uid ch t between cdata att k,
  (forall h, e_hostname (h_env e) h = HttpModel.host_from_req h) -> HttpModel.split_host_port (h_endpoint e) = None ->
  NoDup (uids before) -> u_email c = Some m -> Forall (leaves_alone (h_env e) ch t) between ->
  honest_registration (h_env e) (rp_id e) (lit "https://" ++ endpoint_name e) ch k cdata att ->
  panswer (h_env e) (before ++ AttOptions c uid ch t :: between) (AddKey c (endpoint_name e) cdata att true) = PAdded c k.
Proof.
  intros e before c m uid ch t between cdata att k He Hp N Em F H. apply (honest_added (h_env e) before c m uid ch t between); auto.
  rewrite He. unfold endpoint_name in *. rewrite Hp in *. unfold HttpModel.host_from_req. rewrite Hp. exact H.
Qed.
Print Assumptions C83_at_the_endpoint_partial.

(** Missing, because false: with a port in the endpoint's URL the browser is told a
    relying party that includes the port, and the key is checked for the name without. *)
Theorem C83_endpoint_with_a_port_refuted :
  ~ (forall e before c m uid ch t between host cdata att k,
       (forall h, e_hostname (h_env e) h = HttpModel.host_from_req h) -> at_endpoint e host ->
       NoDup (uids before) -> u_email c = Some m -> Forall (leaves_alone (h_env e) ch t) between ->
       honest_registration (h_env e) (rp_id e) (lit "https://" ++ host) ch k cdata att ->
       panswer (h_env e) (before ++ AttOptions c uid ch t :: between) (AddKey c host cdata att true) = PAdded c k).
Proof.
  set (env8 := {| e_client_data := fun _ => Some {| cd_type := lit "webauthn.create"; cd_challenge := lit "c1"; cd_origin := lit "https://sso:8443" |};
                  e_attestation := fun s => Some s; e_cbor := fun s => Some (s, []); e_verify := fun _ _ _ _ => true; e_hash := xh_hash;
                  e_hostname := HttpModel.host_from_req; e_acl := None; e_refresh := 0 |}).
  set (e8 := {| h_env := env8; h_endpoint := lit "sso:8443"; h_tokens := []; h_url_host := fun u => u |}).
  set (att := layout (xh_hash (lit "sso:8443")) (ascii_of_nat 69) [zero; zero; zero; zero] (Some (repeat zero 16, [zero; ascii_of_nat 2], lit "k1", lit "p1")) []).
  intro H. specialize (H e8 [] xh_bob (lit "bob@x") (lit "h") (lit "c1") 100 [] (lit "sso:8443") [] att
    {| k_id := lit "k1"; k_pub := lit "p1"; k_rp := xh_hash (lit "sso:8443") |}).
  assert (X : panswer (h_env e8) ([] ++ AttOptions xh_bob (lit "h") (lit "c1") 100 :: []) (AddKey xh_bob (lit "sso:8443") [] att true) = PRefused) by (vm_compute; reflexivity).
  rewrite X in H. discriminate H; try reflexivity.
  - right. exists (lit "8443"). reflexivity.
  - constructor.
  - constructor.
  - split; [reflexivity|]. split; [reflexivity|]. exists att. eexists. eexists. repeat split; vm_compute; reflexivity.
Qed.
Print Assumptions C83_endpoint_with_a_port_refuted.
