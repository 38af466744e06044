(** C104: A SAML login sends the identity provider a request that it can read, and the
    session says what the provider has signed. *)
From Verif Require Import Base XfccModel SamlModel SamlSpec SamlProofs SamlProofs2.
From Verif Require LoginModel RefreshModel HttpModel KeygenModel AuthoritySpec AuthorityProofs XfccProofs.
Open Scope nat_scope.

(** An example of a compression (RFC 1951): one stored block for each byte, and an empty
    last block. *)
Definition store (s : str) : str :=
  flat_map (fun c => ["000"; "001"; "000"; "254"; "255"; c]%char) s ++ ["001"; "000"; "000"; "255"; "255"]%char.
Fixpoint unstore (s : str) : option str :=
  match s with
  | [h; _; _; _; _] => if Ascii.eqb h "001" then Some [] else None
  | _ :: _ :: _ :: _ :: _ :: c :: r => option_map (cons c) (unstore r)
  | _ => None
  end.
Lemma unstore_store : forall s, unstore (store s) = Some s.
Proof.
  induction s as [|c s IH]; [reflexivity|]. unfold store in *. cbn [flat_map app].
  destruct (flat_map _ s ++ _) as [|x t] eqn:E; [destruct s; discriminate E|]. change (option_map (cons c) (unstore (x :: t)) = Some (c :: s)). rewrite IH. reflexivity.
Qed.
(** Example libraries: signatures are those of one element. *)
Definition ex_answer (cfg : config) (id : str) : node :=
  honest_answer (authn_request id (lit "2024-12-01T00:00:00Z") (c_sso cfg) (c_acs cfg) (c_entity cfg)) (lit "https://idp.example.com/")
    (lit "alice@example.com") (lit "1000") (lit "2000") [(lit "group", lit "staff")].
Definition ex_lib (a : node) : lib :=
  {| l_deflate := store; l_url := fun _ => true; l_base64 := AuthoritySpec.unbase64;
     l_xml := fun _ => Some (Some (Elem (lit "Response") [] [a])); l_valid := fun n => Some n;
     l_time := fun s => if str_eqb s (lit "1000") then Some 1000%Z else if str_eqb s (lit "2000") then Some 2000%Z else None |}.
Definition ex_cfg : config :=
  {| c_sso := lit "https://idp.example.com/sso?idpid=C1&x=%26"; c_entity := lit "https://login.example.com/";
     c_acs := lit "https://login.example.com:8443/saml?a=1&b=<2>" |}.
Definition ex_id : str := ["160"; "001"; "002"; "003"; "004"; "005"; "006"; "007"; "008"; "009"; "010"; "011"]%char.
Lemma plain_service : forall port path,
  (port = [] \/ exists d, port = ":"%char :: d /\ forall c, List.In c d -> has_char c (lit "0123456789") = true) ->
  (path = [] \/ exists p, path = "/"%char :: p) ->
  service_of (lit "https://login.example.com" ++ port ++ path) (lit "https://login.example.com/").
Proof.
  intros port path P Q. exists (lit "login.example.com"), port, path. split; [reflexivity|]. split; [reflexivity|].
  split; [discriminate|]. split; [|split; assumption]. intros c I. repeat (destruct I as [<-|I]; [reflexivity|]). destruct I.
Qed.
Example ex_service : service_of (c_acs ex_cfg) (c_entity ex_cfg).
Proof.
  apply (plain_service (lit ":8443") (lit "/saml?a=1&b=<2>")); [|right; eexists; reflexivity].
  right. eexists. split; [reflexivity|]. intros c I. repeat (destruct I as [<-|I]; [reflexivity|]). destruct I.
Qed.
Example ex_proper : proper ex_cfg.
Proof.
  split; [reflexivity|]. split; [|split; [|split; [|discriminate]]].
  - apply Forall_forall. intros c I. vm_compute in I. repeat (destruct I as [<-|I]; [split; reflexivity || discriminate|]). destruct I.
  - apply carried_lit. reflexivity.
  - apply carried_lit. reflexivity.
Qed.

(** The provider reads the request: who asks, where the answer goes, and the identifier
    under which the login is pending.  The browser is sent to the configured page. *)
Theorem C104_request_arrives : forall inflate l cfg st dir url id instant now st' loc,
  (forall s, inflate (l_deflate l s) = Some s) -> proper cfg -> carried instant ->
  step l cfg st (Login dir url id instant now) = (st', Sent loc) ->
  provider_reads inflate loc = Some (authn_request (hex id) instant (c_sso cfg) (c_acs cfg) (c_entity cfg)) /\
  page_of loc = page_of (c_sso cfg) /\
  assoc (hex id) st' = Some {| LoginModel.ls_created := now; LoginModel.ls_url := url; LoginModel.ls_host := url_host url; LoginModel.ls_seen := false |}.
Proof.
  intros inflate l cfg st dir url id instant now st' loc INV (P1 & P2 & P3 & P4 & P5) CI H. cbn [step] in H. unfold request_login in H.
  destruct (negb (l_url l url)); [discriminate H|]. injection H as <- <-. rewrite location_request by assumption.
  split; [|split; [apply request_url_query|apply assoc_set_eq]].
  unfold provider_reads. rewrite request_params, str_eqb_refl, AuthorityProofs.unbase64_base64, INV.
  apply request_read; try assumption; [apply carried_hex|now apply carried_ascii].
Qed.
Print Assumptions C104_request_arrives.

(** Whatever bytes are put into the request, they cannot be taken for anything but text, and
    a reader gets them back; but for control characters, which XML does not have. *)
Theorem C104_any_text : forall s in_attribute,
  resolve in_attribute None (xml_escape s) = Some (flat_map replaced s) /\
  ~ In "<"%char (xml_escape s) /\ ~ In quote (xml_escape s).
Proof.
  intros s b. split; [|split; intros I; apply escape_no in I; discriminate I].
  induction s as [|c s IH]; [reflexivity|]. unfold xml_escape in *. cbn [map List.concat flat_map].
  assert (R : forall r, resolve b None (xml_byte c ++ r) = option_map (app (replaced c)) (resolve b None r)).
  { intros r. destruct c as [[] [] [] [] [] [] [] []]; cbn; destruct (resolve b None r); reflexivity. }
  rewrite R, IH. reflexivity.
Qed.
Print Assumptions C104_any_text.
Example ex_any_text : flat_map replaced (lit "a<&" ++ ["001"; "010"]%char) = lit "a<&" ++ ["239"; "191"; "189"; "010"]%char.
Proof. reflexivity. Qed.
Example C104_request_example : exists st' loc,
  step (ex_lib (Comment [])) ex_cfg [] (Login (lit "/") (lit "https://www.example.com/page") ex_id (lit "2024-12-01T00:00:00Z") 1000) = (st', Sent loc) /\
  url_host (lit "https://www.example.com/page") = lit "www.example.com".
Proof. eexists. eexists. split; reflexivity. Qed.

(** A login is always answered with the redirect, unless the address of the page that was
    asked for cannot be read; nothing is kept then. *)
Theorem C104_answered : forall l cfg st dir url id instant now,
  (l_url l url = true -> exists st' loc, step l cfg st (Login dir url id instant now) = (st', Sent loc)) /\
  (l_url l url = false -> step l cfg st (Login dir url id instant now) = (st, Status 500)).
Proof.
  intros l cfg st dir url id instant now. cbn [step]. unfold request_login. split; intros ->; cbn [negb]; [|reflexivity]. eexists. eexists. reflexivity.
Qed.
Print Assumptions C104_answered.

(** The parameters that the configured address has are sent along. *)
Theorem C104_parameters : forall l cfg st dir url id instant now st' loc k, proper cfg -> well_formed (query_of (c_sso cfg)) ->
  k <> lit "SAMLRequest" -> step l cfg st (Login dir url id instant now) = (st', Sent loc) ->
  values_of k (params (query_of loc)) = values_of k (params (query_of (c_sso cfg))).
Proof.
  intros l cfg st dir url id instant now st' loc k (P1 & P2 & _) W N H. cbn [step] in H. unfold request_login in H.
  destruct (negb (l_url l url)); [discriminate H|]. injection H as <- <-. rewrite location_request by assumption.
  rewrite request_params. apply str_eqb_neq in N. rewrite N, vals_query, well_formed_pieces by exact W. reflexivity.
Qed.
Print Assumptions C104_parameters.
Example C104_parameters_example : well_formed (query_of (c_sso ex_cfg)) /\
  values_of (lit "idpid") (params (query_of (c_sso ex_cfg))) = [lit "C1"] /\ values_of (lit "x") (params (query_of (c_sso ex_cfg))) = [lit "&"].
Proof.
  split; [|split; reflexivity]. unfold well_formed. change (split_on "&" (query_of (c_sso ex_cfg))) with [lit "idpid=C1"; lit "x=%26"].
  repeat constructor; try (vm_compute; intuition discriminate); vm_compute; discriminate.
Qed.
(** Not so for every address: a piece with a semicolon is dropped without a word. *)
Theorem C104_parameters_refuted : exists l cfg st dir url id instant now st' loc, proper cfg /\
  step l cfg st (Login dir url id instant now) = (st', Sent loc) /\
  params (query_of (c_sso cfg)) = [(lit "tenant", lit "a;b")] /\ values_of (lit "tenant") (params (query_of loc)) = [].
Proof.
  exists (ex_lib (Comment [])), {| c_sso := lit "https://idp.example.com/sso?tenant=a;b"; c_entity := lit "e"; c_acs := lit "https://login.example.com/saml" |},
    [], (lit "/"), (lit "https://www.example.com/"), ex_id, (lit "2024-12-01T00:00:00Z"), 0%Z. eexists. eexists.
  split; [|split; [vm_compute; reflexivity|split; vm_compute; reflexivity]].
  split; [reflexivity|]. split; [|split; [apply carried_lit; reflexivity|split; [apply carried_lit; reflexivity|discriminate]]].
  apply Forall_forall. intros c I. vm_compute in I. repeat (destruct I as [<-|I]; [split; reflexivity || discriminate|]). destruct I.
Qed.
Print Assumptions C104_parameters_refuted.

(** An address without a scheme is accepted, and the browser then asks the proxy itself for it. *)
Theorem C104_page_refuted : exists l cfg st dir url id instant now st' loc, l_url l (c_sso cfg) = true /\
  c_sso cfg = lit "idp.example.com/sso" /\
  step l cfg st (Login dir url id instant now) = (st', Sent loc) /\ page_of loc = lit "/idp.example.com/sso".
Proof.
  exists (ex_lib (Comment [])), {| c_sso := lit "idp.example.com/sso"; c_entity := lit "e"; c_acs := lit "https://login.example.com/saml" |},
    [], (lit "/"), (lit "https://www.example.com/"), ex_id, (lit "2024-12-01T00:00:00Z"), 0%Z. eexists. eexists.
  split; [reflexivity|]. split; [reflexivity|]. split; vm_compute; reflexivity.
Qed.
Print Assumptions C104_page_refuted.

(** Identifiers of requests must be XML names.  They are when the first random byte is at
    least 160, which makes the first of the 24 digits a letter. *)
Theorem C104_id_partial : forall c r, xml_id (hex (c :: r)) = (160 <=? N_of_ascii c)%N.
Proof.
  intros c r. unfold hex. cbn [map List.concat]. cbn [app xml_id].
  assert (R : forallb name_char (XfccModel.hex_digit false (N_of_ascii c mod 16) :: hex r) = true).
  { apply forallb_forall. intros x [<-|I]; [|now apply hex_plain in I as [I _]].
    pose proof (hex_chars c) as P. cbn [forallb] in P. apply andb_true_iff in P as [_ P]. apply andb_true_iff in P as [P _]. now apply andb_true_iff in P as [P _]. }
  unfold hex in R. rewrite R, andb_true_r. clear R. destruct c as [[] [] [] [] [] [] [] []]; reflexivity.
Qed.
Print Assumptions C104_id_partial.
(** Otherwise the identifier begins with a digit. *)
Theorem C104_id_refuted : exists id, List.length id = 12 /\ xml_id (hex id) = false.
Proof. exists (List.repeat zero 12). split; reflexivity. Qed.
Print Assumptions C104_id_refuted.

(** An honest provider answers the request that it has read.  If the entity that is
    configured is https://, the host of the callback and a slash, then the answer makes a
    session of the user for the page that was asked for, whatever happens in between. *)
Theorem C104_honest_partial : forall inflate l cfg st dir url id instant t mid field now later loc req issuer user nb na t1 t2 attrs,
  (forall s, inflate (l_deflate l s) = Some s) -> proper cfg -> carried instant -> service_of (c_acs cfg) (c_entity cfg) ->
  l_url l url = true -> snd (step l cfg st (Login dir url id instant t)) = Sent loc -> provider_reads inflate loc = Some req ->
  Forall (leaves l id (t + 300)%Z) mid -> (now <= t + 300)%Z ->
  signed l field = inr (honest_answer req issuer user nb na attrs) -> user <> [] ->
  l_time l nb = Some t1 -> l_time l na = Some t2 -> (t1 <= later <= t2)%Z ->
  exists s claims, snd (step l cfg (run l cfg st (Login dir url id instant t :: mid)) (Post (lit "POST") field now later)) = Session s claims /\
    LoginModel.se_user s = user /\ LoginModel.se_email s = user /\ LoginModel.se_url s = url /\ LoginModel.se_host s = url_host url /\
    forall k, assoc k claims = match last_value k attrs with
                               | Some v => Some v
                               | None => if str_eqb k (lit "source") then Some issuer else None
                               end.
Proof.
  intros inflate l cfg st dir url id instant t mid field now later loc req issuer user nb na t1 t2 attrs
    INV PR CI EN U S RD LV NOW SG NE T1 T2 IN. apply self_service in EN. symmetry in EN.
  destruct (step l cfg st (Login dir url id instant t)) as [st1 a] eqn:E. cbn [snd] in S. subst a.
  destruct (C104_request_arrives inflate l cfg st dir url id instant t st1 loc INV PR CI E) as (R & _ & A). rewrite R in RD. injection RD as <-.
  cbn [run]. rewrite E. cbn [fst]. pose proof (leaves_run l cfg id (t + 300)%Z _ mid st1 LV A eq_refl) as A2.
  set (st2 := run l cfg st1 mid) in *. cbn [step]. unfold handle_callback. change (negb (str_eqb (lit "POST") (lit "POST"))) with false. cbv iota.
  rewrite SG. set (v := honest_answer _ issuer user nb na attrs).
  assert (V : assertion_of l v = {| LoginModel.as_in_response_to := hex id; LoginModel.as_recipient := c_acs cfg; LoginModel.as_audience := c_entity cfg;
     LoginModel.as_not_before := Some t1; LoginModel.as_not_after := Some t2; LoginModel.as_subject := user |}).
  { unfold assertion_of.
    change (attr_at v confirmation (lit "InResponseTo")) with (hex id). change (attr_at v confirmation (lit "Recipient")) with (c_acs cfg).
    change (text_at v [lit "Conditions"; lit "AudienceRestriction"; lit "Audience"]) with ((c_entity cfg ++ []) ++ []).
    change (attr_at v [lit "Conditions"] (lit "NotBefore")) with nb. change (attr_at v [lit "Conditions"] (lit "NotOnOrAfter")) with na.
    change (text_at v [lit "Subject"; lit "NameID"]) with (user ++ []). rewrite T1, T2, !app_nil_r. reflexivity. }
  rewrite V. cbn [LoginModel.as_in_response_to LoginModel.as_subject].
  rewrite (assoc_filter _ _ _ _ A2).
  2:{ intros k'. cbn [snd LoginModel.ls_created]. apply negb_true_iff, Z.ltb_ge. unfold LoginModel.minute. lia. }
  assert (OK : LoginModel.assertion_ok (addresses cfg) later {| LoginModel.as_in_response_to := hex id; LoginModel.as_recipient := c_acs cfg; LoginModel.as_audience := c_entity cfg;
     LoginModel.as_not_before := Some t1; LoginModel.as_not_after := Some t2; LoginModel.as_subject := user |} = true).
  { unfold LoginModel.assertion_ok. cbn. rewrite EN, !str_eqb_refl. apply str_eqb_neq in NE. rewrite NE.
    destruct (later <? t1)%Z eqn:B1; [apply Z.ltb_lt in B1; lia|]. destruct (t2 <? later)%Z eqn:B2; [apply Z.ltb_lt in B2; lia|]. reflexivity. }
  rewrite OK. cbn [snd]. eexists. eexists. split; [reflexivity|].
  cbn [LoginModel.se_user LoginModel.se_email LoginModel.se_url LoginModel.se_host LoginModel.ls_url LoginModel.ls_host]. do 4 (split; [reflexivity|]).
  intros k. rewrite claims_spec. unfold v. rewrite answer_attributes. destruct (last_value k attrs); [reflexivity|].
  destruct (str_eqb k (lit "source")); [|reflexivity]. change (text_at _ [lit "Issuer"]) with (issuer ++ []). rewrite app_nil_r. reflexivity.
Qed.
Print Assumptions C104_honest_partial.
Example C104_honest_example :
  let l := ex_lib (ex_answer ex_cfg (hex ex_id)) in
  service_of (c_acs ex_cfg) (c_entity ex_cfg) /\ signed l [] = inr (ex_answer ex_cfg (hex ex_id)) /\
  Forall (leaves l ex_id 1300%Z) [Login (lit "/") (lit "https://x/") (List.repeat zero 12) [] 1100; Post (lit "GET") (lit "?") 1200 1200] /\
  snd (step l ex_cfg (run l ex_cfg [] [Login (lit "/") (lit "https://www.example.com/page") ex_id (lit "2024-12-01T00:00:00Z") 1000]) (Post (lit "POST") [] 1300 1301)) =
    Session {| LoginModel.se_user := lit "alice@example.com"; LoginModel.se_email := lit "alice@example.com"; LoginModel.se_sid := hex ex_id;
               LoginModel.se_host := lit "www.example.com"; LoginModel.se_url := lit "https://www.example.com/page" |}
      [(lit "group", lit "staff"); (lit "source", lit "https://idp.example.com/")].
Proof.
  cbv zeta. split; [exact ex_service|]. split; [reflexivity|]. split; [|vm_compute; reflexivity].
  constructor; [discriminate|]. constructor; [|constructor]. split; [lia|]. intros v H. vm_compute in H. discriminate H.
Qed.
(** With any other entity the answer is refused: the audience that is expected is not the
    issuer of the request. *)
Theorem C104_honest_refuted : forall inflate l cfg service st dir url id instant t field now later loc req issuer user nb na attrs,
  (forall s, inflate (l_deflate l s) = Some s) -> proper cfg -> carried instant -> service_of (c_acs cfg) service -> c_entity cfg <> service ->
  snd (step l cfg st (Login dir url id instant t)) = Sent loc -> provider_reads inflate loc = Some req ->
  signed l field = inr (honest_answer req issuer user nb na attrs) ->
  snd (step l cfg (run l cfg st [Login dir url id instant t]) (Post (lit "POST") field now later)) = Status 403.
Proof.
  intros inflate l cfg service st dir url id instant t field now later loc req issuer user nb na attrs INV PR CI SV EN S RD SG.
  apply self_service in SV. subst service.
  destruct (step l cfg st (Login dir url id instant t)) as [st1 a] eqn:E. cbn [snd] in S. subst a.
  destruct (C104_request_arrives inflate l cfg st dir url id instant t st1 loc INV PR CI E) as (R & _ & _). rewrite R in RD. injection RD as <-.
  cbn [run]. rewrite E. cbn [fst]. cbn [step]. unfold handle_callback. change (negb (str_eqb (lit "POST") (lit "POST"))) with false. cbv iota.
  rewrite SG. set (v := honest_answer _ issuer user nb na attrs).
  assert (A : LoginModel.as_audience (assertion_of l v) = c_entity cfg).
  { cbn [assertion_of LoginModel.as_audience]. change (text_at v [lit "Conditions"; lit "AudienceRestriction"; lit "Audience"]) with ((c_entity cfg ++ []) ++ []). now rewrite !app_nil_r. }
  destruct (assoc _ _) as [s|]; [|reflexivity]. cbn [snd]. unfold LoginModel.assertion_ok. rewrite A. cbn [addresses LoginModel.sc_self].
  apply str_eqb_neq in EN. rewrite EN, andb_false_r. reflexivity.
Qed.
Print Assumptions C104_honest_refuted.
Example C104_honest_refuted_example :
  let cfg := {| c_sso := c_sso ex_cfg; c_entity := lit "https://login.example.com"; c_acs := lit "https://login.example.com/saml" |} in
  proper cfg /\ service_of (c_acs cfg) (lit "https://login.example.com/") /\ c_entity cfg <> lit "https://login.example.com/".
Proof.
  cbv zeta. split; [|split; [exact (plain_service [] (lit "/saml") (or_introl eq_refl) (or_intror (ex_intro _ _ eq_refl)))|discriminate]]. destruct ex_proper as (A & B & _).
  split; [exact A|]. split; [exact B|]. split; [apply carried_lit; reflexivity|]. split; [apply carried_lit; reflexivity|discriminate].
Qed.

(** A session comes from an assertion in the posted document that the provider has signed,
    and from what the signature covers: its subject, for this service, now, in answer to a
    login that is pending. *)
Theorem C104_signed : forall l cfg st method field now later st' s claims,
  step l cfg st (Post method field now later) = (st', Session s claims) ->
  method = lit "POST" /\
  exists b root a v p, l_base64 l field = Some b /\ l_xml l b = Some (Some root) /\ In a (find_all [lit "Assertion"] root) /\ l_valid l a = Some v /\
    text_at v [lit "Subject"; lit "NameID"] = LoginModel.se_user s /\ LoginModel.se_user s <> [] /\ LoginModel.se_email s = LoginModel.se_user s /\
    attr_at v confirmation (lit "Recipient") = c_acs cfg /\
    (forall service, service_of (c_acs cfg) service -> text_at v [lit "Conditions"; lit "AudienceRestriction"; lit "Audience"] = service) /\
    attr_at v confirmation (lit "InResponseTo") = LoginModel.se_sid s /\
    In (LoginModel.se_sid s, p) st /\ (now <= LoginModel.ls_created p + 300)%Z /\ LoginModel.se_url s = LoginModel.ls_url p /\ LoginModel.se_host s = LoginModel.ls_host p /\
    assoc (LoginModel.se_sid s) st' = None /\
    (exists t1 t2, l_time l (attr_at v [lit "Conditions"] (lit "NotBefore")) = Some t1 /\
       l_time l (attr_at v [lit "Conditions"] (lit "NotOnOrAfter")) = Some t2 /\ (t1 <= later <= t2)%Z) /\
    claims = claims_of v.
Proof.
  intros l cfg st method field now later st' s claims H. cbn [step] in H. unfold handle_callback in H.
  destruct (str_eqb method (lit "POST")) eqn:M; [|discriminate H]. apply str_eqb_spec in M. split; [exact M|]. cbn [negb] in H.
  destruct (signed l field) as [code|v] eqn:S; [discriminate H|].
  destruct (assoc _ _) as [p|] eqn:A in H; [|discriminate H].
  destruct (LoginModel.assertion_ok (addresses cfg) later (assertion_of l v)) eqn:O; [|discriminate H]. injection H as <- <- <-.
  unfold signed in S. destruct (l_base64 l field) as [b|]; [|discriminate S]. destruct (l_xml l b) as [[root|]|] eqn:X; try discriminate S.
  destruct (find_elem [lit "Assertion"] root) as [a|] eqn:F; [|discriminate S]. destruct (l_valid l a) as [v'|] eqn:V; [|discriminate S]. injection S as ->.
  exists b, root, a, v, p. cbn [LoginModel.se_user LoginModel.se_email LoginModel.se_sid LoginModel.se_url LoginModel.se_host].
  unfold LoginModel.assertion_ok in O. apply andb_true_iff in O as [O O5]. apply andb_true_iff in O as [O O4]. apply andb_true_iff in O as [O O3].
  apply andb_true_iff in O as [O1 O2]. apply str_eqb_spec in O1. apply str_eqb_spec in O2. apply negb_true_iff, str_eqb_neq in O5.
  cbn [assertion_of addresses LoginModel.as_recipient LoginModel.as_audience LoginModel.as_subject LoginModel.as_not_before LoginModel.as_not_after LoginModel.sc_acs LoginModel.sc_self LoginModel.as_in_response_to] in *.
  apply assoc_In in A. apply filter_In in A as [A P]. cbn [snd] in P. apply negb_true_iff, Z.ltb_ge in P.
  split; [reflexivity|]. split; [exact X|]. split.
  { unfold find_elem in F. destruct (find_all [lit "Assertion"] root); [discriminate F|]. injection F as ->. now left. }
  split; [exact V|]. split; [reflexivity|]. split; [exact O5|]. split; [reflexivity|]. split; [exact O1|]. split; [intros service SV; apply self_service in SV; congruence|]. split; [reflexivity|].
  split; [exact A|]. split; [unfold LoginModel.minute in P; lia|]. split; [reflexivity|]. split; [reflexivity|]. split; [apply assoc_del_eq|]. split; [|reflexivity].
  destruct (l_time l (attr_at v [lit "Conditions"] (lit "NotBefore"))) as [t1|]; [|discriminate O3]. destruct (l_time l (attr_at v [lit "Conditions"] (lit "NotOnOrAfter"))) as [t2|]; [|discriminate O4].
  exists t1, t2. split; [reflexivity|]. split; [reflexivity|]. apply negb_true_iff, Z.ltb_ge in O3. apply negb_true_iff, Z.ltb_ge in O4. lia.
Qed.
Print Assumptions C104_signed.

(** Comments in the name of the user do not cut it: the user is all the text of the element. *)
Theorem C104_whole_name : forall l cfg st method field now later st' s claims v tag attrs kids,
  step l cfg st (Post method field now later) = (st', Session s claims) -> signed l field = inr v ->
  find_elem [lit "Subject"; lit "NameID"] v = Some (Elem tag attrs kids) ->
  Forall (fun k => match k with Elem _ _ _ => False | _ => True end) kids ->
  LoginModel.se_user s = flat_map (fun k => match k with Chars t => t | _ => [] end) kids.
Proof.
  intros l cfg st method field now later st' s claims v tag attrs kids H S F K.
  destruct (C104_signed _ _ _ _ _ _ _ _ _ _ H) as (_ & b & root & a & v' & p & B & X & I & V & U & _).
  cbn [step] in H. unfold handle_callback in H. destruct (negb (str_eqb method (lit "POST"))); [discriminate H|]. rewrite S in H.
  destruct (assoc _ _) as [q|] in H; [|discriminate H].
  destruct (LoginModel.assertion_ok (addresses cfg) later (assertion_of l v)); [|discriminate H]. injection H as _ <- _.
  cbn [LoginModel.se_user assertion_of LoginModel.as_subject]. change (text_at v [lit "Subject"; lit "NameID"] = flat_map (fun k => match k with Chars t => t | _ => [] end) kids). unfold text_at. rewrite F. cbn [text].
  clear -K. induction K as [|k kids Hk K IH]; [reflexivity|]. destruct k as [? ? ?|t|t]; [contradiction| |]; cbn [leading flat_map]; rewrite IH; reflexivity.
Qed.
Print Assumptions C104_whole_name.
Example C104_whole_name_example :
  let v := Elem (lit "Assertion") [] [Elem (lit "Subject") [] [Elem (lit "NameID") [] [Chars (lit "alice@example.com"); Comment (lit "x"); Chars (lit ".evil.com")]]] in
  text_at v [lit "Subject"; lit "NameID"] = lit "alice@example.com.evil.com".
Proof. reflexivity. Qed.

(** The logins are those of C37 and C38: the answers are the same for the same signed
    element. *)
Theorem C104_same_logins : forall l cfg st b field now later,
  let a := match signed l field with inr v => Some (assertion_of l v) | inl _ => None end in
  fst (step l cfg st (Post (lit "POST") field now later)) = fst (LoginModel.saml_step (addresses cfg) st (LoginModel.SResponse b a now later)) /\
  match snd (step l cfg st (Post (lit "POST") field now later)) with
  | Session s _ => snd (LoginModel.saml_step (addresses cfg) st (LoginModel.SResponse b a now later)) = LoginModel.CSession b s
  | _ => snd (LoginModel.saml_step (addresses cfg) st (LoginModel.SResponse b a now later)) = LoginModel.CRefused
  end.
Proof.
  intros l cfg st b field now later a. subst a. cbn [step]. unfold handle_callback. change (negb (str_eqb (lit "POST") (lit "POST"))) with false. cbv iota.
  destruct (signed l field) as [code|v]; [split; reflexivity|]. cbn [LoginModel.saml_step].
  destruct (assoc _ _) as [p|]; [|split; reflexivity]. split; [reflexivity|]. cbn [snd].
  destruct (LoginModel.assertion_ok (addresses cfg) later (assertion_of l v)); reflexivity.
Qed.
Print Assumptions C104_same_logins.

(** The claims: the text of the first value of the last attribute with that name; the
    issuer, under the name source. *)
Theorem C104_claims : forall l cfg st method field now later st' s claims v k,
  step l cfg st (Post method field now later) = (st', Session s claims) -> signed l field = inr v ->
  assoc k claims = match last_value k (attributes v) with
                   | Some x => Some x
                   | None => if str_eqb k (lit "source") then Some (text_at v [lit "Issuer"]) else None
                   end.
Proof.
  intros l cfg st method field now later st' s claims v k H S. cbn [step] in H. unfold handle_callback in H.
  destruct (negb (str_eqb method (lit "POST"))); [discriminate H|]. rewrite S in H.
  destruct (assoc _ _) as [p|] in H; [|discriminate H].
  destruct (LoginModel.assertion_ok (addresses cfg) later (assertion_of l v)); [|discriminate H]. injection H as _ _ <-. apply claims_spec.
Qed.
Print Assumptions C104_claims.
(** So an attribute with this name takes the place of the issuer, *)
Theorem C104_source_refuted : exists v, text_at v [lit "Issuer"] = lit "https://idp.example.com/" /\
  assoc (lit "source") (claims_of v) = Some (lit "somewhere else").
Proof.
  exists (Elem (lit "Assertion") [] [Elem (lit "Issuer") [] [Chars (lit "https://idp.example.com/")];
    Elem (lit "AttributeStatement") [] [Elem (lit "Attribute") [(lit "Name", lit "source")] [Elem (lit "AttributeValue") [] [Chars (lit "somewhere else")]]]]).
  split; reflexivity.
Qed.
Print Assumptions C104_source_refuted.
(** and of several values only the first one is kept. *)
Theorem C104_all_values_refuted : exists v,
  map text (find_all [lit "AttributeStatement"; lit "Attribute"; lit "AttributeValue"] v) = [lit "staff"; lit "admins"] /\
  claims_of v = [(lit "group", lit "staff"); (lit "source", [])].
Proof.
  exists (Elem (lit "Assertion") [] [Elem (lit "AttributeStatement") []
    [Elem (lit "Attribute") [(lit "Name", lit "group")] [Elem (lit "AttributeValue") [] [Chars (lit "staff")]; Elem (lit "AttributeValue") [] [Chars (lit "admins")]]]]).
  split; reflexivity.
Qed.
Print Assumptions C104_all_values_refuted.

(** A signed response clears the logins that are older than five minutes, *)
Theorem C104_pending_partial : forall l cfg st field now later v, signed l field = inr v ->
  Forall (fun kv => (now <= LoginModel.ls_created (snd kv) + 300)%Z) (fst (step l cfg st (Post (lit "POST") field now later))).
Proof.
  intros l cfg st field now later v S. cbn [step]. unfold handle_callback. change (negb (str_eqb (lit "POST") (lit "POST"))) with false. cbv iota. rewrite S.
  assert (F : Forall (fun kv : str * LoginModel.login_state => (now <= LoginModel.ls_created (snd kv) + 300)%Z)
    (filter (fun kv => negb (5 * LoginModel.minute <? now - LoginModel.ls_created (snd kv))%Z) st)).
  { apply Forall_forall. intros kv I. apply filter_In in I as [_ I]. apply negb_true_iff, Z.ltb_ge in I. unfold LoginModel.minute in I. lia. }
  destruct (assoc _ _) as [p|]; [|exact F]. cbn [fst]. unfold assoc_del. apply Forall_forall. intros kv I. apply filter_In in I as [I _].
  rewrite Forall_forall in F. now apply F.
Qed.
Print Assumptions C104_pending_partial.
(** and nothing else does: each login of a client that has none is kept, for as long as no
    user logs in.  Identifiers are random, so any number of them are different. *)
Theorem C104_pending_refuted : forall l cfg ids dir url instant now more, l_url l url = true -> NoDup ids ->
  Forall (unsigned l) more -> Forall (fun o => match o with Login _ _ _ _ _ => False | _ => True end) more ->
  List.length (run l cfg [] (map (fun id => Login dir url id instant now) ids ++ more)) = List.length ids.
Proof.
  intros l cfg ids dir url instant now more U ND H1 H2.
  assert (R : forall more st, Forall (unsigned l) more -> Forall (fun o => match o with Login _ _ _ _ _ => False | _ => True end) more -> run l cfg st more = st).
  { clear. induction more as [|o more IH]; intros st H1 H2; [reflexivity|]. inversion H1; inversion H2; subst. destruct o as [? ? ? ? ?|m f x y]; [contradiction|].
    cbn [run step]. destruct H3 as [code C]. unfold handle_callback. rewrite C. destruct (negb (str_eqb m (lit "POST"))); cbn [fst]; apply IH; assumption. }
  assert (G : forall ids st, NoDup ids -> (forall k s, In (k, s) st -> forall i, In i ids -> k <> hex i) ->
    List.length (run l cfg st (map (fun id => Login dir url id instant now) ids ++ more)) = List.length st + List.length ids).
  { clear ids ND. induction ids as [|b ids IH]; intros st ND F; cbn [map app].
    - rewrite R by assumption. cbn. lia.
    - inversion ND; subst. cbn [run step]. unfold request_login. rewrite U. cbn [negb fst]. rewrite IH; [|assumption|].
      + unfold assoc_set, assoc_del. cbn [List.length].
        assert (E : filter (fun kv => negb (str_eqb (hex b) (fst kv))) st = st).
        { assert (K : forall kv, In kv st -> negb (str_eqb (hex b) (fst kv)) = true).
          { intros [k s] I. cbn [fst]. apply negb_true_iff, str_eqb_neq. intros E. exact (F k s I b (or_introl eq_refl) (eq_sym E)). }
          revert K. clear. intros K. induction st as [|kv st IH]; [reflexivity|]. cbn [filter]. rewrite (K kv) by now left. rewrite IH; [reflexivity|]. intros x I. apply K. now right. }
        rewrite E. lia.
      + intros k s [I|I] i Hi E.
        * injection I as <- _. apply XfccProofs.hex_injective in E. subst. contradiction.
        * apply filter_In in I as [I _]. exact (F k s I i (or_intror Hi) E). }
  rewrite (G ids []); [reflexivity|exact ND|]. intros k s [].
Qed.
Print Assumptions C104_pending_refuted.
Example C104_pending_example : NoDup [ex_id; List.repeat zero 12] /\
  Forall (unsigned {| l_deflate := store; l_url := fun _ => true; l_base64 := AuthoritySpec.unbase64; l_xml := fun _ => None; l_valid := fun n => Some n; l_time := fun _ => None |})
    [Post (lit "POST") (lit "AAAA") 5000 5000].
Proof.
  split; [|constructor; [exists 500%N; reflexivity|constructor]]. constructor; [vm_compute; intuition discriminate|]. constructor; [intros []|constructor].
Qed.

(** A response that does not log anyone in is refused: with 403, or with 500 if it cannot be
    parsed.  Only requests with the method POST are looked at. *)
Theorem C104_refused : forall l cfg st method field now later,
  (exists s claims, snd (step l cfg st (Post method field now later)) = Session s claims) \/
  snd (step l cfg st (Post method field now later)) = Status 403 \/
  snd (step l cfg st (Post method field now later)) = Status 500 /\
    (exists b, l_base64 l field = Some b /\ l_xml l b = None) /\ fst (step l cfg st (Post method field now later)) = st.
Proof.
  intros l cfg st method field now later. cbn [step]. unfold handle_callback.
  destruct (negb _); [auto|]. destruct (signed l field) as [code|v] eqn:S.
  - cbn [fst snd]. right. unfold signed in S. destruct (l_base64 l field) as [b|] eqn:B; [|injection S as <-; auto].
    destruct (l_xml l b) as [[root|]|] eqn:X.
    + destruct (find_elem _ root) as [a|]; [|injection S as <-; auto]. destruct (l_valid l a); [discriminate|]. injection S as <-; auto.
    + injection S as <-; auto.
    + injection S as <-. right. split; [reflexivity|]. split; [eauto|reflexivity].
  - cbv zeta. destruct (assoc _ _); cbn [snd]; [|auto]. destruct (LoginModel.assertion_ok _ _ _); eauto.
Qed.
Print Assumptions C104_refused.
Theorem C104_method : forall l cfg st method field now later, method <> lit "POST" ->
  step l cfg st (Post method field now later) = (st, Status 403).
Proof.
  intros l cfg st method field now later H. cbn [step]. unfold handle_callback.
  destruct (str_eqb method (lit "POST")) eqn:E; [|reflexivity]. apply str_eqb_spec in E. contradiction.
Qed.
Print Assumptions C104_method.
