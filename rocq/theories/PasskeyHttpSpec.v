(** Specification for the HTTP side of passkeys. *)
From Verif Require Import Base PasskeyModel PasskeySpec PasskeyHttpModel.
From Verif Require HttpModel TokenModel.
Open Scope list_scope.
Open Scope Z_scope.

(** The answer to a request after a history. *)
Definition hanswer (e : henv) (before : list hop) (o : hop) : answer := snd (hstep e (hrun e before) o).
(** The keys of a user after a history. *)
Definition hkeys (e : henv) (ops : list hop) (m : str) : list ukey := keys_of (hs_keys (hrun e ops)) m.
(** No two random user handles are the same. *)
Definition distinct_handles (e : henv) (ops : list hop) : Prop := NoDup (uids (htrace e ops)).

(** A request that scripts of other sites cannot make: a POST with a header that is
    not allowed across origins. *)
Definition own_script (q : preq) : Prop := q_method q = lit "POST" /\ q_csrf q = lit "1".

(** The name in the URL of the endpoint. *)
Definition endpoint_name (e : henv) : str :=
  match HttpModel.split_host_port (h_endpoint e) with Some h => h | None => h_endpoint e end.
(** The request is for the endpoint's host, on whatever port. *)
Definition at_endpoint (e : henv) (host : str) : Prop :=
  host = endpoint_name e \/ exists p, host = join_host_port (endpoint_name e) p.

Definition email_of (c : pclaims) : str := match u_email c with Some m => m | None => [] end.

(** The user [m] signed in here, with a passkey, in the last ten minutes. *)
Definition signed_in (e : henv) (q : preq) (m key : str) : Prop :=
  exists s t, q_session q = Some s /\ email_of (ms_claims s) = m /\ ms_key s = Some key /\
    ms_hhash s = Some (e_hash (h_env e) (q_host q)) /\ u_iat (ms_claims s) = Some t /\ q_now q - t <= 600.

(** The request belongs to a login that this browser started, for this URL. *)
Definition login_of_this_browser (e : henv) (q : preq) (url : str) : Prop :=
  exists t, q_redirect q = Some t /\ TokenModel.accept_url (h_tokens e) (q_now q) (q_sid q) t = Some url.

(** The login that drew a nonce. *)
Definition draws (e : henv) (o : hop) (n : str) (t : Z) (url hint : str) : Prop :=
  (exists host, o = HLogin n t url hint host) \/
  (exists q, o = HManage q /\ q_fresh q = n /\ q_now q = t /\ q_url q = url /\
             hint = match q_session q with Some s => email_of (ms_claims s) | None => [] end).

(** ** A browser and an authenticator that do what they are asked *)

(** The answer to a registration: the new key [k] for the relying party [rp]. *)
Definition honest_registration (e : env) (rp origin ch : str) (k : ukey) (cdata att : str) : Prop :=
  e_client_data e cdata = Some {| cd_type := lit "webauthn.create"; cd_challenge := ch; cd_origin := origin |} /\
  k_rp k = e_hash e rp /\
  exists raw ad aaguid, e_attestation e att = Some raw /\ parse_auth_data (e_cbor e) raw = Ok ad /\
    ad_rp ad = e_hash e rp /\ ad_up ad = true /\ ad_uv ad = true /\ ad_creds ad = Some (aaguid, k_id k, k_pub k).
(** The answer to a login of [m]: a signature with the key [k], and the handle that [m]
    was given, or else the name that was typed. *)
Definition honest_assertion (e : env) (ch : str) (k : ukey) (m handle : str) (a : assertion) : Prop :=
  (exists origin, e_client_data e (a_cdata a) = Some {| cd_type := lit "webauthn.get"; cd_challenge := ch; cd_origin := origin |}) /\
  (exists ad, parse_auth_data (e_cbor e) (a_adata a) = Ok ad /\ ad_rp ad = k_rp k /\ ad_up ad = true /\ ad_uv ad = true) /\
  a_id a = Some (k_id k) /\ ((handle <> [] /\ a_handle a = handle) \/ (a_handle a = [] /\ a_login a = m /\ m <> [])) /\
  e_verify e (k_pub k) (a_adata a) (a_cdata a) (a_sig a) = true.
(** The claims are older than the configured interval. *)
Definition too_old (e : env) (c : pclaims) (now : Z) : Prop := 0 < e_refresh e /\ forall t, u_iat c = Some t -> e_refresh e < now - t.

(** The relying party that the options of a registration name (manager.go:795). *)
Definition rp_id (e : henv) : str := h_endpoint e.

(** The operation does not touch the challenge [ch], and happens at most five minutes
    after [t]. *)
Definition leaves_alone (e : env) (ch : str) (t : Z) (o : pop) : Prop :=
  match o with
  | Vacuum now => now <= t + 300
  | AttOptions _ _ ch' _ | AssOptions ch' _ => ch' <> ch
  | AddKey _ _ _ _ _ | Check _ _ _ => challenge_of e o <> Some ch
  | DeleteKey _ _ _ => True
  end.
