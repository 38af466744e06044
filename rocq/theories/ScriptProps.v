(** Theorems C113: the scripts of the passkey pages and the server understand each other. *)
From Coq Require Import Lia.
From Verif Require Import Base XfccModel PasskeyModel PasskeySpec PasskeyProofs SignModel PasskeyHttpModel PasskeyHttpSpec PasskeyHttpProofs PasskeyHttpProofs2
  ScriptModel ScriptSpec ScriptProofs ScriptProofs2 ScriptProofs3 ScriptProofs4 PasskeyHttpProps.
From Verif Require PasskeyProofs2 OcspGetModel JwksModel KeygenModel ProxyHdrModel TokenModel HttpModel HttpSpec HttpProofs SignProps.
Open Scope list_scope.
Open Scope Z_scope.

(** ** What one side writes the other side reads *)

(** Every value that is written as JSON, by either side, is read back as it was, also with
    white space after it. *)
Theorem C113_json : forall esc v tail, writer esc -> valid v = true -> Forall (fun c => white c = true) tail ->
  parse_json (print esc v ++ tail) = Some v.
Proof. exact parse_print. Qed.
Print Assumptions C113_json.

(** The reader takes exactly the texts that RFC 8259 allows, with the value that they have
    there. *)
Theorem C113_json_grammar : forall s v, parse_json s = Some v <-> json_text s v.
Proof. exact parse_spec. Qed.
Print Assumptions C113_json_grammar.
Example C113_json_grammar_nontrivial :
  parse_json (lit " [ -1.5E+3 , ""\ud83d\ude00\n"" , {""a"" : null} ] ") =
    Some (JArr [JNum (lit "-1.5E+3"); JStr ["240"; "159"; "152"; "128"; "010"]%char; JObj [(lit "a", JNull)]]) /\
  parse_json (lit "[01]") = None /\ parse_json (lit "[1,]") = None /\ parse_json (lit "{'a':1}") = None /\ parse_json (lit "1 2") = None.
Proof. vm_compute. repeat split. Qed.

(** Every answer of an authenticator to a login arrives as it was given, together with the
    name that was typed, whatever characters are in it, and in the login that the token is
    for: the page cannot be made to send another mode, another token or a nonce. *)
Theorem C113_login_message : forall jwt base token id cdata adata sig handle login,
  token_text token ->
  let q := read_message jwt base (send_get token (JwksModel.b64u id) cdata adata sig handle login) in
  own_script q /\ q_get q = lit "Check" /\ q_nonce q = [] /\ q_redirect q = jwt token /\ q_email q = [] /\
  q_assert q = Some {| a_id := Some id; a_cdata := cdata; a_adata := adata; a_sig := sig; a_handle := JwksModel.b64u handle; a_login := login |}.
Proof.
  intros jwt base token id cdata adata sig handle login T q.
  destruct (login_form token (JwksModel.b64u id) cdata adata sig handle login T) as (text & F & R).
  unfold q, read_message. cbv zeta. rewrite F. cbn [q_get q_nonce q_redirect q_email q_assert].
  change (KeygenModel.value [(lit "args", text); (lit "get", lit "Check"); (lit "redirect", token)] (lit "args")) with text. rewrite R.
  split; [split; reflexivity|]. split; [reflexivity|]. split; [reflexivity|]. split.
  - change (KeygenModel.value _ (lit "redirect")) with token. destruct T as [T _]. destruct token; [congruence|reflexivity].
  - split; [reflexivity|]. cbn [option_map]. unfold assertion_of. cbn -[OcspGetModel.raw_url_decode JwksModel.b64u]. rewrite b64u_raw. reflexivity.
Qed.
Print Assumptions C113_login_message.

(** The same for a registration, from the page of a login (which has a token) and from the
    page that manages keys (which has none), with all the names of transports. *)
Theorem C113_registration_message : forall jwt base token cdata att transports,
  (forall t, token = Some t -> token_text t) ->
  let q := read_message jwt base (send_create token cdata att transports) in
  own_script q /\ q_get q = lit "AddKey" /\ q_nonce q = [] /\ q_redirect q = match token with Some t => jwt t | None => None end /\
  q_attest q = Some (cdata, att) /\
  exists text, KeygenModel.value (form_of (send_create token cdata att transports)) (lit "args") = text /\
    read_create text = Some {| ca_cdata := cdata; ca_att := att; ca_transports := transports |}.
Proof.
  intros jwt base token cdata att transports T q.
  destruct (create_form token cdata att transports T) as (text & F & R).
  assert (A : KeygenModel.value (form_of (send_create token cdata att transports)) (lit "args") = text) by (rewrite F; reflexivity).
  unfold q, read_message. cbv zeta. cbn [q_get q_nonce q_redirect q_attest]. rewrite A, R. rewrite F.
  split; [split; reflexivity|]. split; [reflexivity|]. split; [destruct token; reflexivity|]. split.
  - destruct token as [t|]; [|reflexivity]. specialize (T t eq_refl). destruct T as [T _].
    change (KeygenModel.value _ (lit "redirect")) with t. destruct t; [congruence|reflexivity].
  - split; [reflexivity|]. exists text. split; [reflexivity|exact R].
Qed.
Print Assumptions C113_registration_message.

(** The questions for options, and the other buttons. *)
Theorem C113_questions : forall jwt base token, token_text token ->
  (forall login, typed_login (ask_get token login) = login /\
     let q := read_message jwt base (ask_get token login) in
     own_script q /\ q_get q = lit "AssertionOptions" /\ q_nonce q = [] /\ q_redirect q = jwt token) /\
  (let q := read_message jwt base (ask_create (Some token)) in own_script q /\ q_get q = lit "AttestationOptions" /\ q_nonce q = [] /\ q_redirect q = jwt token) /\
  (let q := read_message jwt base (ask_create None) in own_script q /\ q_get q = lit "AttestationOptions" /\ q_nonce q = [] /\ q_redirect q = None) /\
  (let q := read_message jwt base (send_switch token) in own_script q /\ q_get q = lit "Switch" /\ q_nonce q = [] /\ q_redirect q = jwt token) /\
  (forall id, let q := read_message jwt base (send_delete (hex id)) in own_script q /\ q_get q = lit "DeleteKey" /\ q_nonce q = [] /\ q_id q = Some id).
Proof.
  intros jwt base token T. pose proof T as [T0 _].
  assert (J : match token with [] => None | a :: l => jwt (a :: l) end = jwt token) by (destruct token; [congruence|reflexivity]).
  split; [|split; [|split; [|split]]].
  - intro login.
    assert (B : pairs (m_body (ask_get token login)) = match login with [] => [] | _ => [(lit "loginId", login)] end).
    { unfold ask_get. cbn [m_body]. destruct login as [|c login]; [reflexivity|].
      change (lit "loginId=" ++ component (c :: login)) with (lit "loginId" ++ "="%char :: component (c :: login)).
      apply pairs_component. split; [discriminate|reflexivity]. }
    assert (Q : pairs (m_query (ask_get token login)) = [(lit "get", lit "AssertionOptions"); (lit "redirect", token)]) by exact (query_token (lit "AssertionOptions") token eq_refl T).
    split.
    + unfold typed_login. rewrite B. destruct login; reflexivity.
    + unfold read_message, form_of. cbv zeta. rewrite B, Q. cbn [q_get q_nonce q_redirect].
      split; [split; reflexivity|]. destruct login as [|c l]; (split; [reflexivity|split; [reflexivity|exact J]]).
  - assert (F : form_of (ask_create (Some token)) = [(lit "get", lit "AttestationOptions"); (lit "redirect", token)]).
    { unfold form_of, ask_create. cbn [m_body m_query]. change (lit "get=AttestationOptions") with (lit "get=" ++ lit "AttestationOptions").
      rewrite token_query; [reflexivity|reflexivity|]. intros t E. injection E as <-. exact T. }
    unfold read_message. cbv zeta. rewrite F. split; [split; reflexivity|]. split; [reflexivity|]. split; [reflexivity|exact J].
  - cbv zeta. split; [split; reflexivity|]. split; [reflexivity|]. split; reflexivity.
  - assert (F : form_of (send_switch token) = [(lit "get", lit "Switch"); (lit "redirect", token)]) by exact (query_token (lit "Switch") token eq_refl T).
    unfold read_message. cbv zeta. rewrite F. split; [split; reflexivity|]. split; [reflexivity|]. split; [reflexivity|exact J].
  - intro id. unfold read_message. cbv zeta. rewrite delete_form. split; [split; reflexivity|]. split; [reflexivity|]. split; [reflexivity|].
    cbn [q_id]. change (KeygenModel.value _ (lit "id")) with (hex id). apply unhex_hex.
Qed.
Print Assumptions C113_questions.

(** The options of a registration as the browser gets them: the challenge, the handle and
    the keys that the user has already, all as the server has them; the relying party; user
    verification is required. *)
Theorem C113_registration_options : forall transports ch rp uid email keys,
  let o := create_options transports ch rp uid email keys in
  script_create (answer_text o) = Some (ch, map (fun k => (k_id k, credential transports k)) keys, uid, o) /\
  asked_verification o = Some (JStr (lit "required")) /\ (rp <> [] -> asked_party o = Some (JStr rp)) /\
  asked_names o = Some (Some (JStr email), Some (JStr email)) /\
  (forall b, print go_escape (bytes_json b) = marshal_bytes (Some b)).
Proof.
  intros transports ch rp uid email keys o. split; [apply script_create_ok|]. split; [|split; [|split]].
  - unfold o, asked_verification, create_options, member. destruct keys; reflexivity.
  - intro R. unfold o, asked_party, create_options, member. destruct rp as [|c rp]; [congruence|]. destruct keys; reflexivity.
  - unfold o, asked_names, create_options, member. destruct keys; reflexivity.
  - intro b. rewrite (proj1 (proj2 SignProps.C84_bytes b)). unfold SignSpec.json_array, bytes_json. cbn [print]. rewrite map_map. reflexivity.
Qed.
Print Assumptions C113_registration_options.

(** A key in the options is a public key, with the identifier that the server has for it,
    and the ways to reach it that were given when it was registered. *)
Theorem C113_credentials : forall transports k,
  let v := credential transports k in
  member (lit "type") v = Some (JStr (lit "public-key")) /\ member (lit "id") v = Some (bytes_json (k_id k)) /\
  member (lit "transports") v = match transports k with [] => None | l => Some (JArr (map JStr l)) end.
Proof. intros transports k v. unfold v, credential, member. destruct (transports k); repeat split. Qed.
Print Assumptions C113_credentials.

(** The signatures that the server can check are those of the algorithms it asks for. *)
Theorem C113_algorithms : forall transports ch rp uid email keys,
  asked_algorithms (create_options transports ch rp uid email keys) = Some [lit "-7"; lit "-257"] /\
  forall lib key adata cdata sig, verify_signature lib key adata cdata sig = true ->
    exists l, sl_decode lib key = Some l /\ (int_field 3 l = Some (-7) \/ int_field 3 l = Some (-257)).
Proof.
  intros transports ch rp uid email keys. split; [unfold asked_algorithms, create_options, member; destruct keys; reflexivity|].
  intros lib key adata cdata sig H. unfold verify_signature in H. destruct (sl_decode lib key) as [l|]; [|discriminate]. exists l. split; [reflexivity|].
  destruct (int_field 1 l) as [[|[p|p|]|p]|]; try discriminate; try (destruct p; discriminate).
  - destruct p; try discriminate. destruct (int_field 3 l) as [a|]; [|discriminate]. destruct (bytes_field (-1) l); [|discriminate].
    destruct (int_field (-2) l); [|discriminate]. destruct (a =? -257) eqn:E; [|discriminate]. apply Z.eqb_eq in E. subst a. right. reflexivity.
  - destruct p; try discriminate. destruct (int_field 3 l) as [a|]; [|discriminate]. destruct (int_field (-1) l); [|discriminate].
    destruct (bytes_field (-2) l); [|discriminate]. destruct (bytes_field (-3) l); [|discriminate].
    destruct (a =? -7) eqn:E; [|discriminate]. apply Z.eqb_eq in E. subst a. left. reflexivity.
Qed.
Print Assumptions C113_algorithms.

(** The options of a login: all the keys of the user who is named, and no others; for a
    name that is not known a key that nobody has; without a name any key.  User
    verification is required. *)
Theorem C113_login_options : forall transports ch st m,
  let o := get_options transports ch (allowed_keys st m) in
  script_get (answer_text o) = Some (ch, map (fun k => (k_id k, credential transports k)) (allowed_keys st m), o) /\
  asked_verification o = Some (JStr (lit "required")) /\
  (assoc m (p_subjects st) <> None -> allowed_keys st m = keys_of st m) /\
  (assoc m (p_subjects st) = None -> m <> [] -> map k_id (allowed_keys st m) = [["255"%char]]) /\
  (assoc [] (p_subjects st) = None -> allowed_keys st [] = []).
Proof.
  intros transports ch st m o. split; [apply script_get_ok|]. split; [reflexivity|].
  split; [|split].
  - intro H. unfold allowed_keys, keys_of. destruct (assoc m (p_subjects st)); [reflexivity|congruence].
  - intros H N. unfold allowed_keys. rewrite H. destruct m; [congruence|reflexivity].
  - intro H. unfold allowed_keys. rewrite H. reflexivity.
Qed.
Print Assumptions C113_login_options.

(** What the browser lets the authenticator sign is read by the server, with any members
    that browsers may add. *)
Theorem C113_client_data : forall type ch origin more, others more ->
  parse_client_data (browser_data type ch origin more) = Some {| cd_type := type; cd_challenge := ch; cd_origin := origin |}.
Proof. exact client_data_print. Qed.
Print Assumptions C113_client_data.

(** ** What follows for users *)

(** Logging in: the browser asked for options (the challenge [ch]), the authenticator signed
    with a key of the user [m], for the relying party of that key, and the script sends
    this within five minutes.  Then the user is logged in and goes where they wanted to
    go, or has to confirm their identity because it is too old. *)
Theorem C113_sign_in : forall e jwt base j url token before earlier ch t between m h k origin more adata ad sig handle login,
  e_client_data (h_env e) = parse_client_data ->
  htrace e before = earlier ++ AssOptions ch t :: between -> Forall (leaves_alone (h_env e) ch t) between -> q_now base <= t + 300 ->
  distinct_handles e before -> assoc [] (hs_nonces (hrun e before)) = None ->
  token_text token -> jwt token = Some j -> TokenModel.accept_url (h_tokens e) (q_now base) (q_sid base) j = Some url ->
  In k (hkeys e before m) -> NoDup (map k_id (hkeys e before m)) -> assoc m (p_subjects (hs_keys (hrun e before))) = Some (JwksModel.b64u h) ->
  (h <> [] /\ handle = h \/ handle = [] /\ login = m /\ m <> []) -> others more ->
  parse_auth_data (e_cbor (h_env e)) adata = Ok ad -> ad_rp ad = k_rp k -> ad_up ad = true -> ad_uv ad = true ->
  let cdata := browser_data (lit "webauthn.get") ch origin more in
  e_verify (h_env e) (k_pub k) adata cdata sig = true ->
  let answer := hanswer e before (HCallback (read_message jwt base (send_get token (JwksModel.b64u (k_id k)) cdata adata sig handle login))) in
  exists c, u_email c = Some m /\ (answer = ASession c k (h_url_host e url) url \/ (answer = ARefresh /\ too_old (h_env e) c (q_now base))).
Proof.
  intros e jwt base j url token before earlier ch t between m h k origin more adata ad sig handle login Ec Ht Fb Hn Hd Hz Tt Ej Ea Ik Nk Es Hh Om Ep Rp Up Uv cdata Vf answer.
  destruct (C113_login_message jwt base token (k_id k) cdata adata sig handle login Tt) as (Hs & Hg & Hno & Hr & _ & Has).
  fold cdata in Hs, Hg, Hno, Hr, Has. revert Hs Hg Hno Hr Has. unfold answer. fold cdata.
  set (q := read_message jwt base (send_get token (JwksModel.b64u (k_id k)) cdata adata sig handle login)).
  intros Hs Hg Hno Hr Has.
  assert (Qn : q_now q = q_now base) by reflexivity. assert (Qs : q_sid q = q_sid base) by reflexivity.
  set (a := {| a_id := Some (k_id k); a_cdata := cdata; a_adata := adata; a_sig := sig; a_handle := JwksModel.b64u handle; a_login := login |}) in *.
  assert (P : snd (hplan e (hs_nonces (hrun e before)) (HCallback q)) = Run [Vacuum (q_now base)] (Check a (q_other q) (q_now base)) (set_auth_token e url)).
  { cbn [hplan]. rewrite (callback_plan e q _ j url Hz Hno); [|rewrite Hg; reflexivity|rewrite Hr; exact Ej|rewrite Qn, Qs; exact Ea].
    replace (match q_other q with Some _ => None | None => no_other q (redirect_email j) end) with (@None PasskeyHttpModel.answer)
      by (destruct (q_other q); [reflexivity|]; unfold no_other; rewrite Hg; reflexivity).
    unfold callback_mode. rewrite Hg. change (mem (lit "Check") _) with false.
    change (str_eqb (lit "Check") (lit "AssertionOptions")) with false. change (str_eqb (lit "Check") (lit "AttestationOptions")) with false.
    change (str_eqb (lit "Check") (lit "Check")) with true. cbv iota. apply post_spec in Hs. rewrite Hs, Has. cbn [negb]. rewrite Qn. reflexivity. }
  rewrite hanswer_plan, P. rewrite Ht. rewrite <- app_assoc. cbn [app].
  destruct (C83_login (h_env e) earlier ch t (between ++ [Vacuum (q_now base)]) m (JwksModel.b64u h) k a (q_other q) (q_now base)) as (c & Em & [L|[L Old]]).
  - unfold distinct_handles in Hd. rewrite Ht in Hd.
    assert (U : forall x y, uids (x ++ y) = uids x ++ uids y) by (intros; apply flat_map_app).
    replace (uids (earlier ++ AssOptions ch t :: between ++ [Vacuum (q_now base)])) with (uids (earlier ++ AssOptions ch t :: between)); [exact Hd|].
    change (AssOptions ch t :: between ++ [Vacuum (q_now base)]) with ((AssOptions ch t :: between) ++ [Vacuum (q_now base)]).
    rewrite app_assoc, (U _ [Vacuum (q_now base)]). cbn. rewrite app_nil_r. reflexivity.
  - apply Forall_app. split; [exact Fb|]. constructor; [exact Hn|constructor].
  - change (AssOptions ch t :: between ++ [Vacuum (q_now base)]) with ((AssOptions ch t :: between) ++ [Vacuum (q_now base)]).
    rewrite app_assoc, keys_vacuum, <- Ht, <- hrun_keys. exact Ik.
  - change (AssOptions ch t :: between ++ [Vacuum (q_now base)]) with ((AssOptions ch t :: between) ++ [Vacuum (q_now base)]).
    rewrite app_assoc, keys_vacuum, <- Ht, <- hrun_keys. exact Nk.
  - change (AssOptions ch t :: between ++ [Vacuum (q_now base)]) with ((AssOptions ch t :: between) ++ [Vacuum (q_now base)]).
    rewrite app_assoc, subjects_vacuum, <- Ht, <- hrun_keys. exact Es.
  - split; [|split; [|split; [|split]]].
    + exists origin. rewrite Ec. apply client_data_print. exact Om.
    + exists ad. auto.
    + reflexivity.
    + destruct Hh as [[Hh -> ]|(-> & -> & Hm)]; [left; split; [|reflexivity]|right; auto].
      intro X. pose proof (b64u_raw h) as Y. rewrite X in Y. cbn in Y. injection Y as <-. congruence.
    + exact Vf.
  - exists c. split; [exact Em|]. left. rewrite L. reflexivity.
  - exists c. split; [exact Em|]. right. rewrite L. split; [reflexivity|exact Old].
Qed.
Print Assumptions C113_sign_in.

(** Registering the first key: the user is known to the other provider and admitted, asked
    for options, and the authenticator made a key for the endpoint's host.  Then the key
    is theirs and they are logged in. *)
Theorem C113_first_key : forall e jwt base j url token before earlier c m uid ch t between k more raw ad aaguid att transports,
  e_client_data (h_env e) = parse_client_data ->
  htrace e before = earlier ++ AttOptions c uid ch t :: between -> Forall (leaves_alone (h_env e) ch t) between -> q_now base <= t + 300 ->
  distinct_handles e before -> assoc [] (hs_nonces (hrun e before)) = None ->
  token_text token -> jwt token = Some j -> TokenModel.accept_url (h_tokens e) (q_now base) (q_sid base) j = Some url ->
  q_other base = Some c -> u_email c = Some m -> HttpSpec.allowed (e_acl (h_env e)) m -> hkeys e before m = [] ->
  others more -> e_attestation (h_env e) att = Some raw -> parse_auth_data (e_cbor (h_env e)) raw = Ok ad ->
  ad_rp ad = e_hash (h_env e) (e_hostname (h_env e) (q_host base)) -> ad_up ad = true -> ad_uv ad = true -> ad_creds ad = Some (aaguid, k_id k, k_pub k) -> k_rp k = ad_rp ad ->
  let cdata := browser_data (lit "webauthn.create") ch (lit "https://" ++ q_host base) more in
  hanswer e before (HCallback (read_message jwt base (send_create (Some token) cdata att transports))) = ASession c k (h_url_host e url) url.
Proof.
  intros e jwt base j url token before earlier c m uid ch t between k more raw ad aaguid att transports Ec Ht Fb Hn Hd Hz Tt Ej Ea Eo Em Al Nk Om Ar Ep Rp Up Uv Cr Kr cdata.
  destruct (C113_registration_message jwt base (Some token) cdata att transports) as (Hs & Hg & Hno & Hr & Hat & _).
  { intros x E. injection E as <-. exact Tt. }
  revert Hs Hg Hno Hr Hat. set (q := read_message jwt base (send_create (Some token) cdata att transports)). intros Hs Hg Hno Hr Hat.
  assert (Qn : q_now q = q_now base) by reflexivity. assert (Qs : q_sid q = q_sid base) by reflexivity.
  assert (Qo : q_other q = Some c) by exact Eo. assert (Qh : q_host q = q_host base) by reflexivity.
  assert (P : snd (hplan e (hs_nonces (hrun e before)) (HCallback q)) = Run [Vacuum (q_now base)] (AddKey c (q_host base) cdata att false) (set_auth_token e url)).
  { cbn [hplan]. rewrite (callback_plan e q _ j url Hz Hno); [|rewrite Hg; reflexivity|rewrite Hr; exact Ej|rewrite Qn, Qs; exact Ea].
    rewrite Qo. unfold callback_mode. rewrite Hg, Qo. change (mem (lit "AddKey") _) with false.
    change (str_eqb (lit "AddKey") (lit "AssertionOptions")) with false. change (str_eqb (lit "AddKey") (lit "AttestationOptions")) with false.
    change (str_eqb (lit "AddKey") (lit "Check")) with false. change (str_eqb (lit "AddKey") (lit "AddKey")) with true. cbv iota.
    apply post_spec in Hs. rewrite Hs. cbn [negb]. rewrite Em. replace (subject_allowed (e_acl (h_env e)) m) with true by (symmetry; apply HttpProofs.acl_ok_spec; exact Al).
    cbn [negb]. rewrite Hat, Qn, Qh. reflexivity. }
  rewrite hanswer_plan, P. rewrite Ht. rewrite <- app_assoc. cbn [app].
  rewrite (C83_registration (h_env e) earlier c m uid ch t (between ++ [Vacuum (q_now base)]) (q_host base) cdata att false k); [reflexivity| | | | |].
  - unfold distinct_handles in Hd. rewrite Ht in Hd. unfold uids in *. rewrite flat_map_app in Hd. apply PasskeyProofs2.NoDup_app_l in Hd. exact Hd.
  - exact Em.
  - apply Forall_app. split; [exact Fb|]. constructor; [exact Hn|constructor].
  - split; [rewrite Ec; apply client_data_print; exact Om|]. split; [congruence|]. exists raw, ad, aaguid. repeat split; auto.
  - right. split; [exact Al|].
    change (AttOptions c uid ch t :: between ++ [Vacuum (q_now base)]) with ((AttOptions c uid ch t :: between) ++ [Vacuum (q_now base)]).
    rewrite app_assoc, keys_vacuum, <- Ht, <- hrun_keys. exact Nk.
Qed.
Print Assumptions C113_first_key.

(** The page of a user lists their keys, in order, one line each.  Only the line of the key
    of this session has no button, and each button removes the key of its line, and no
    other key. *)
Theorem C113_buttons : forall e jwt base before m key,
  ep_host (h_endpoint e) (q_host base) = q_host base -> signed_in e base m key ->
  let rows := key_rows (e_hash (h_env e)) key (hkeys e before m) in
  List.length rows = List.length (hkeys e before m) /\
  forall i k, nth_error (hkeys e before m) i = Some k ->
    nth_error rows i = Some (firstn 8 (hex (k_id k)), if str_eqb (e_hash (h_env e) (k_id k)) key then None else Some (hex (k_id k))) /\
    (e_hash (h_env e) (k_id k) <> key ->
       let o := HManage (read_message jwt base (send_delete (hex (k_id k)))) in
       hanswer e before o = AOk /\
       hkeys e (before ++ [o]) m = filter (fun k' => negb (str_eqb (k_id k') (k_id k))) (hkeys e before m)).
Proof.
  intros e jwt base before m key Hh (s & t & Es & Em & Ek & Eh & Et & Ag) rows. split; [apply map_length|].
  intros i k Hi. split; [unfold rows, key_rows; rewrite nth_error_map, Hi; reflexivity|].
  intros Hk o. set (q := read_message jwt base (send_delete (hex (k_id k)))).
  assert (F : form_of (send_delete (hex (k_id k))) = [(lit "id", hex (k_id k)); (lit "get", lit "DeleteKey")]) by apply delete_form.
  assert (Qg : q_get q = lit "DeleteKey") by (unfold q, read_message; cbv zeta; rewrite F; reflexivity).
  assert (Qi : q_id q = Some (k_id k)) by (unfold q, read_message; cbv zeta; rewrite F; cbn [q_id]; change (KeygenModel.value _ (lit "id")) with (hex (k_id k)); apply unhex_hex).
  assert (P : snd (hplan e (hs_nonces (hrun e before)) (HManage q)) = Run [] (DeleteKey (ms_claims s) key (k_id k)) (fun o => match o with PRefused => ABad | _ => AOk end)).
  { cbn [hplan]. unfold manage_keys. change (q_host q) with (q_host base). rewrite Hh, str_eqb_refl. cbn [negb].
    replace (fresh_session e q) with (Some s).
    - rewrite Ek. unfold manage_mode. rewrite Qg. change (str_eqb (lit "DeleteKey") (lit "AttestationOptions")) with false.
      change (str_eqb (lit "DeleteKey") (lit "AddKey")) with false. change (str_eqb (lit "DeleteKey") (lit "DeleteKey")) with true. cbv iota.
      change (post q) with true. cbn [negb]. rewrite Qi. reflexivity.
    - unfold fresh_session. change (q_session q) with (q_session base). rewrite Es, Eh. change (q_host q) with (q_host base). cbn [opt_eqb]. rewrite str_eqb_refl. cbn [negb].
      rewrite Et. change (q_now q) with (q_now base). replace (600 <? q_now base - t) with false by (symmetry; apply Z.ltb_ge; lia). reflexivity. }
  assert (Nk : str_eqb key (e_hash (h_env e) (k_id k)) = false) by (apply str_eqb_neq; congruence).
  unfold o. fold q. split.
  - rewrite hanswer_plan, P, app_nil_r. unfold panswer. cbn [pstep]. rewrite Nk. reflexivity.
  - unfold hkeys. rewrite hrun_snoc, hstep_keys, P. cbn [plan_ops app prun pstep]. rewrite Nk. cbn [fst].
    unfold email_of in Em. rewrite Em. unfold delete_key, keys_of.
    destruct (assoc m (p_subjects (hs_keys (hrun e before)))) as [h|] eqn:E1; cbn [p_subjects]; [|rewrite E1; reflexivity].
    destruct (assoc h (p_handles (hs_keys (hrun e before)))) as [u|] eqn:E2; cbn [p_subjects p_handles]; rewrite E1; [|rewrite E2; reflexivity].
    rewrite assoc_set_eq. reflexivity.
Qed.
Print Assumptions C113_buttons.

(** ** A site in which all this happens *)

Definition x13 : henv :=
  {| h_env := {| e_client_data := parse_client_data; e_attestation := fun s => Some s; e_cbor := fun s => Some (s, []);
                 e_verify := fun pub _ _ sig => str_eqb pub sig; e_hash := xh_hash; e_hostname := HttpModel.host_from_req; e_acl := Some [lit "@x"]; e_refresh := 0 |};
     h_endpoint := lit "sso"; h_tokens := xh_tokens; h_url_host := h_url_host xh |}.
Definition x13_jwt (t : str) : option TokenModel.jwt := if str_eqb t (lit "eyJ.a_b-c") then xh_token else None.
Definition x13_read (now : Z) (ch : str) (m : message) : preq := read_message x13_jwt (xh_with (xh_req now [] ch) (lit "2") 120) m.
Definition x13_create (ch : str) : str := browser_data (lit "webauthn.create") ch (lit "https://sso") [(lit "crossOrigin", JBool false)].
Definition x13_get (ch : str) : str := browser_data (lit "webauthn.get") ch (lit "https://sso") [(lit "crossOrigin", JBool false); (lit "n", JNum (lit "-1.5e3"))].
Definition x13_before : list hop :=
  [HCallback (x13_read 110 (lit "c1") (ask_create (Some (lit "eyJ.a_b-c"))))].
Definition x13_registered : list hop :=
  x13_before ++ [HCallback (x13_read 120 [] (send_create (Some (lit "eyJ.a_b-c")) (x13_create (lit "c1")) (xh_att (lit "k1") (lit "p1")) [lit "usb"; lit "in""ternal"]))].
Definition x13_asked : list hop := x13_registered ++ [HCallback (x13_read 130 (lit "c3") (ask_get (lit "eyJ.a_b-c") (lit "bob@x")))].

Example C113_nontrivial :
  token_text (lit "eyJ.a_b-c") /\ others [(lit "crossOrigin", JBool false); (lit "n", JNum (lit "-1.5e3"))] /\
  htrace x13 x13_before = [Vacuum 110] ++ AttOptions xh_bob (lit "hc1") (lit "c1") 110 :: [] /\ hkeys x13 x13_before (lit "bob@x") = [] /\
  hanswer x13 x13_before (HCallback (x13_read 120 [] (send_create (Some (lit "eyJ.a_b-c")) (x13_create (lit "c1")) (xh_att (lit "k1") (lit "p1")) [lit "usb"]))) =
    ASession xh_bob (xh_key (lit "1")) (lit "sso") (lit "https://sso/keys") /\
  hkeys x13 x13_registered (lit "bob@x") = [xh_key (lit "1")] /\
  hanswer x13 x13_asked (HCallback (x13_read 140 [] (send_get (lit "eyJ.a_b-c") (JwksModel.b64u (lit "k1")) (x13_get (lit "c3")) xh_adata (lit "p1") [] (lit "bob@x")))) =
    ASession xh_bob (xh_key (lit "1")) (lit "sso") (lit "https://sso/keys") /\
  hanswer x13 x13_registered (HManage (x13_read 150 [] (send_delete (hex (lit "k1"))))) = AOk /\
  hkeys x13 (x13_registered ++ [HManage (x13_read 150 [] (send_delete (hex (lit "k1"))))]) (lit "bob@x") = [].
Proof.
  split; [split; [discriminate|reflexivity]|]. split.
  { repeat constructor; vm_compute; intros H; repeat destruct H as [H|H]; try discriminate H; destruct H. }
  vm_compute. repeat split.
Qed.
Example C113_nontrivial_text :
  m_body (send_get (lit "t") (lit "AQ") (lit "{}") [] [] [] (lit "a ""b"" & c")) =
  lit "args=%7B%22id%22%3A%22AQ%22%2C%22clientDataJSON%22%3A%5B123%2C125%5D%2C%22authenticatorData%22%3A%5B%5D%2C%22signature%22%3A%5B%5D%2C%22userHandle%22%3A%5B%5D%2C%22loginId%22%3A%22a%20%5C%22b%5C%22%20%26%20c%22%7D".
Proof. vm_compute. reflexivity. Qed.

(** ** What is false *)

(** Whoever asks for the options of a login with a name gets to know whether the name is
    registered here, and the identifiers of the keys of that user: the key that nobody has
    is always the same one. *)
Theorem C113_names_hidden_refuted :
  ~ (forall e ops m m' transports ch, distinct_handles e ops -> m <> [] -> m' <> [] ->
       let st := hs_keys (hrun e ops) in
       List.length (allowed_keys st m) = List.length (allowed_keys st m') ->
       get_options transports ch (allowed_keys st m) = get_options transports ch (allowed_keys st m')).
Proof.
  intro H. specialize (H x13 x13_registered (lit "bob@x") (lit "eve@x") (fun _ => []) []).
  assert (D : distinct_handles x13 x13_registered) by (unfold distinct_handles; vm_compute; repeat constructor; intros []).
  specialize (H D ltac:(discriminate) ltac:(discriminate) eq_refl). vm_compute in H. discriminate H.
Qed.
Print Assumptions C113_names_hidden_refuted.

(** Any registered user can be told from a name that is not known, unless their only key
    has the identifier that is used for names that are not known. *)
Theorem C113_names_told : forall e ops m m' transports ch, let st := hs_keys (hrun e ops) in
  assoc m (p_subjects st) <> None -> map k_id (hkeys e ops m) <> [["255"%char]] -> assoc m' (p_subjects st) = None -> m' <> [] ->
  get_options transports ch (allowed_keys st m) <> get_options transports ch (allowed_keys st m').
Proof.
  intros e ops m m' transports ch st R N U M E.
  assert (S1 := script_get_ok transports ch (allowed_keys st m)). rewrite E in S1. rewrite script_get_ok in S1. injection S1 as S1.
  destruct (C113_login_options transports ch st m) as (_ & _ & A & _). destruct (C113_login_options transports ch st m') as (_ & _ & _ & B & _).
  specialize (A R). specialize (B U M). apply N. unfold hkeys. fold st. rewrite <- A, <- B.
  assert (G : forall l, map fst (map (fun k => (k_id k, credential transports k)) l) = map k_id l) by (intro l; rewrite map_map; reflexivity).
  rewrite <- !G. congruence.
Qed.
Print Assumptions C113_names_told.
