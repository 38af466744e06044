(** The HTTP side of passkeys: internal/passkeys/manager.go RequestLogin,
    HandleCallback, ManageKeys, setAuthToken.

    Simplified: one request at a time.  The critical sections of a request are those
    of PasskeyModel; their interleavings are covered by the histories there. *)
From Verif Require Import Base PasskeyModel.
From Verif Require HttpModel TokenModel HeadersModel.
Open Scope list_scope.
Open Scope Z_scope.

(** manager.go:160-164 nonceData; of the options only the login hint is read. *)
Record nonce_data := { nd_created : Z; nd_url : str; nd_hint : str }.
(** manager.go:139-152 Manager *)
Record hstate := { hs_nonces : list (str * nonce_data); hs_keys : pstate }.
(** manager.go:121-137 NewManager: a new store. *)
Definition empty_hstate : hstate := {| hs_nonces := []; hs_keys := empty_pstate |}.

(** The claims of a session: those that are copied to users, the hash of the host it
    was made for, and the hash of the key that was used. *)
Record session := { ms_claims : pclaims; ms_hhash : option str; ms_key : option str }.

(** A request, with what the cookies and the form values decode to, the time, and the
    random values that its handling would draw. *)
Record preq := {
  q_now : Z; q_method : str; q_csrf : str; q_host : str;
  q_sid : str;                          (* the session id cookie, or a fresh one *)
  q_get : str; q_nonce : str; q_redirect : option TokenModel.jwt;
  q_email : str;
  q_attest : option (str * str);        (* args of AddKey *)
  q_assert : option assertion;          (* args of Check *)
  q_id : option str;                    (* the key to delete *)
  q_other : option pclaims;             (* the session with the other provider *)
  q_session : option session;           (* the session with this provider *)
  q_url : str;                          (* the URL of the request *)
  q_uid : str; q_challenge : str; q_fresh : str
}.

(** manager.go:104-119 Config; [h_endpoint]: the host of the endpoint's URL. *)
Record henv := { h_env : env; h_endpoint : str; h_tokens : list TokenModel.key; h_url_host : str -> str }.

(** Artefact: the answers. *)
Inductive answer :=
| AToLogin (host : str) (nonce : str)                    (* redirect to the passkey endpoint *)
| AToken (url sid hint : str)                            (* redirect with a signed token of these claims *)
| AElsewhere (host : str)                                (* redirect to another host *)
| AJS | ABad | AError | AForbidden
| AOther (hint : option str) (select : bool)             (* login with the other provider *)
| APage | AOptions | ARefresh | AOk
| ASwitch (url : str)
| ASession (c : pclaims) (k : ukey) (host url : str).    (* a session for this host; go to the URL *)

(** net.JoinHostPort *)
Definition join_host_port (h p : str) : str :=
  if has_char ":" h then lit "[" ++ h ++ lit "]:" ++ p else h ++ lit ":" ++ p.

(** manager.go:239-249, manager.go:518-528: the host of the endpoint with the port of the
    request. *)
Definition ep_host (ep req : str) : str :=
  let h := match HttpModel.split_host_port ep with Some h => h | None => ep end in
  match HeadersModel.port_of req with [] => h | p => join_host_port h p end.

(** manager.go:210-256 RequestLogin.  Simplified: the URLs parse. *)
Definition request_login (e : henv) (n : str) (now : Z) (url hint host : str) (ns : list (str * nonce_data)) : list (str * nonce_data) * answer :=
  (assoc_set n {| nd_created := now; nd_url := url; nd_hint := hint |} ns, AToLogin (ep_host (h_endpoint e) host) n).

(** manager.go:262-271: take a nonce, dropping old ones. *)
Definition take_nonce (now : Z) (n : str) (ns : list (str * nonce_data)) : option nonce_data * list (str * nonce_data) :=
  let ns := filter (fun kv => negb (nd_created (snd kv) + 300 <? now)) ns in
  (assoc n ns, assoc_del n ns).

(** Artefact: what remains to be done: nothing, or critical sections, of which the
    last one gives the answer. *)
Inductive plan := Done (a : answer) | Run (before : list pop) (last : pop) (k : pout -> answer).

(** manager.go:364-372 and the same checks elsewhere *)
Definition post (q : preq) : bool := str_eqb (q_method q) (lit "POST") && str_eqb (q_csrf q) (lit "1").

(** manager.go:746-776 setAuthToken: the session is for the host of the URL. *)
Definition set_auth_token (e : henv) (url : str) (o : pout) : answer :=
  match o with
  | PLogin c k | PAdded c k => ASession c k (h_url_host e url) url
  | PRefresh => ARefresh
  | _ => AError
  end.

(** manager.go:307-330: without a session of the other provider. *)
Definition no_other (q : preq) (redirect_email : str) : option answer :=
  if str_eqb (q_get q) (lit "RegisterNewID") then Some (AOther None true)
  else if str_eqb (q_get q) (lit "RefreshID") then Some (AOther (Some (match redirect_email with [] => q_email q | m => m end)) false)
  else if str_eqb (q_get q) (lit "AttestationOptions") || str_eqb (q_get q) (lit "AddKey") then Some AError
  else None.

(** manager.go:332-493: the modes.  A panic is modelled as an error: the two modes that
    use the other session were refused before if there is none. *)
Definition callback_mode (e : henv) (q : preq) (url : str) : plan :=
  if mem (q_get q) [lit "Login"; lit "RegisterNewID"; lit "RefreshID"] then Done APage
  else if str_eqb (q_get q) (lit "AssertionOptions") then
    if negb (post q) then Done ABad
    else Run [Vacuum (q_now q)] (AssOptions (q_challenge q) (q_now q)) (fun _ => AOptions)
  else if str_eqb (q_get q) (lit "AttestationOptions") then
    if negb (post q) then Done ABad
    else match q_other q with
         | None => Done AError
         | Some c => Run [Vacuum (q_now q)] (AttOptions c (q_uid q) (q_challenge q) (q_now q)) (fun o => match o with PRefused => AError | _ => AOptions end)
         end
  else if str_eqb (q_get q) (lit "Check") then
    if negb (post q) then Done ABad
    else match q_assert q with
         | None => Run [] (Vacuum (q_now q)) (fun _ => AError)
         | Some a => Run [Vacuum (q_now q)] (Check a (q_other q) (q_now q)) (set_auth_token e url)
         end
  else if str_eqb (q_get q) (lit "AddKey") then
    if negb (post q) then Done ABad
    else match q_other q with
         | None => Done AError
         | Some c =>
             if negb (subject_allowed (e_acl (h_env e)) (match u_email c with Some m => m | None => [] end)) then Done AForbidden
             else match q_attest q with
                  | None => Run [] (Vacuum (q_now q)) (fun _ => AError)
                  | Some (cdata, att) => Run [Vacuum (q_now q)] (AddKey c (q_host q) cdata att false) (set_auth_token e url)
                  end
         end
  else if str_eqb (q_get q) (lit "Switch") then
    if negb (post q) then Done ABad else Done (ASwitch url)
  else Done ABad.

(** urltoken.go:85-104 and manager.go:315: the e-mail address in the token *)
Definition redirect_email (t : TokenModel.jwt) : str :=
  match assoc (lit "email") (TokenModel.t_claims t) with Some (TokenModel.VStr m) => m | _ => [] end.

(** manager.go:258-494 HandleCallback *)
Definition handle_callback (e : henv) (q : preq) (ns : list (str * nonce_data)) : list (str * nonce_data) * plan :=
  match take_nonce (q_now q) (q_nonce q) ns with
  | (Some d, ns1) => (ns1, Done (AToken (nd_url d) (q_sid q) (nd_hint d)))
  | (None, ns1) =>
      (ns1,
       if str_eqb (q_get q) (lit "JS") then Done AJS
       else match q_redirect q with
            | None => Done ABad
            | Some t =>
                match TokenModel.accept_url (h_tokens e) (q_now q) (q_sid q) t with
                | None => Done ABad
                | Some url =>
                    match (match q_other q with None => no_other q (redirect_email t) | Some _ => None end) with
                    | Some a => Done a
                    | None => callback_mode e q url
                    end
                end
            end)
  end.

(** manager.go:540-549: the session is recent and was made for this host. *)
Definition fresh_session (e : henv) (q : preq) : option session :=
  match q_session q with
  | None => None
  | Some s =>
      if negb (opt_eqb str_eqb (ms_hhash s) (Some (e_hash (h_env e) (q_host q)))) then None
      else match u_iat (ms_claims s) with
           | None => None
           | Some t => if 600 <? q_now q - t then None else Some s
           end
  end.

(** manager.go:567-659: the modes of ManageKeys *)
Definition manage_mode (q : preq) (s : session) (key : str) : plan :=
  let c := ms_claims s in
  if str_eqb (q_get q) (lit "AttestationOptions") then
    if negb (post q) then Done ABad
    else Run [Vacuum (q_now q)] (AttOptions c (q_uid q) (q_challenge q) (q_now q)) (fun o => match o with PRefused => AError | _ => AOptions end)
  else if str_eqb (q_get q) (lit "AddKey") then
    if negb (post q) then Done ABad
    else match q_attest q with
         | None => Run [] (Vacuum (q_now q)) (fun _ => AError)
         | Some (cdata, att) =>
             Run [Vacuum (q_now q)] (AddKey c (q_host q) cdata att true) (fun o => match o with PAdded _ _ => AOk | _ => AError end)
         end
  else if str_eqb (q_get q) (lit "DeleteKey") then
    if negb (post q) then Done ABad
    else match q_id q with
         | None => Done ABad
         | Some id => Run [] (DeleteKey c key id) (fun o => match o with PRefused => ABad | _ => AOk end)
         end
  else if str_eqb (q_get q) (lit "JS") then Done AJS
  else if str_eqb (q_get q) [] then Done APage
  else Done ABad.

(** manager.go:512-660 ManageKeys *)
Definition manage_keys (e : henv) (q : preq) (ns : list (str * nonce_data)) : list (str * nonce_data) * plan :=
  if negb (str_eqb (ep_host (h_endpoint e) (q_host q)) (q_host q)) then (ns, Done (AElsewhere (ep_host (h_endpoint e) (q_host q))))
  else match fresh_session e q with
       | None =>
           let hint := match q_session q with Some s => match u_email (ms_claims s) with Some m => m | None => [] end | None => [] end in
           let '(ns1, a) := request_login e (q_fresh q) (q_now q) (q_url q) hint (q_host q) ns in (ns1, Done a)
       | Some s => match ms_key s with None => (ns, Done AError) | Some key => (ns, manage_mode q s key) end
       end.

(** Artefact: the requests: a backend asks for a login (manager.go:210-256), the login
    endpoint, the management endpoint. *)
Inductive hop := HLogin (n : str) (now : Z) (url hint host : str) | HCallback (q : preq) | HManage (q : preq).

(** Artefact: what a request is to do. *)
Definition hplan (e : henv) (ns : list (str * nonce_data)) (o : hop) : list (str * nonce_data) * plan :=
  match o with
  | HLogin n now url hint host => let '(ns1, a) := request_login e n now url hint host ns in (ns1, Done a)
  | HCallback q => handle_callback e q ns
  | HManage q => manage_keys e q ns
  end.
(** Artefact: the critical sections of a plan. *)
Definition plan_ops (p : plan) : list pop := match p with Done _ => [] | Run b l _ => b ++ [l] end.
(** Artefact: one request. *)
Definition hstep (e : henv) (st : hstate) (o : hop) : hstate * answer :=
  let '(ns, p) := hplan e (hs_nonces st) o in
  match p with
  | Done a => ({| hs_nonces := ns; hs_keys := hs_keys st |}, a)
  | Run b l k =>
      let st1 := fst (prun (h_env e) (hs_keys st) b) in
      let '(st2, out) := pstep (h_env e) st1 l in
      ({| hs_nonces := ns; hs_keys := st2 |}, k out)
  end.
(** Artefact: a history. *)
Definition hrun (e : henv) (ops : list hop) : hstate := fold_left (fun st o => fst (hstep e st o)) ops empty_hstate.
(** Artefact: the critical sections of a history. *)
Fixpoint htrace_from (e : henv) (st : hstate) (ops : list hop) : list pop :=
  match ops with
  | [] => []
  | o :: r => plan_ops (snd (hplan e (hs_nonces st) o)) ++ htrace_from e (fst (hstep e st o)) r
  end.
(** Artefact: from the start. *)
Definition htrace (e : henv) (ops : list hop) : list pop := htrace_from e empty_hstate ops.
