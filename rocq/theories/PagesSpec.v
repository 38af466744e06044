(** Where links lead, and who follows them. *)
From Verif Require Import Base PathModel PathSpec TokenModel HttpModel RefreshModel RefreshSpec BrowserModel PagesModel.

(** The host, the path and the query of the request that a browser makes for a link.  The name
    of a host ends with the next slash, ? or #; it may be escaped, and [ascii] is the form of
    international names that is used on the wire (URL standard, UTS 46). *)
Definition leads_to (ascii : str -> str) (link : str) : option (str * str * str) :=
  if has_prefix link (lit "https://") then
    let '(main, _, _) := cut "#" (skipn 8 link) in
    let h := name_part main in
    match percent_decode h, RefreshSpec.page (skipn (List.length h) main) with
    | Some h, Some (p, q) => Some (ascii h, p, q)
    | _, _ => None
    end
  else None.

(** A request as it is made for this target (RFC 9112); browsers do not send fragments. *)
Definition request_for (target : str) (r : request) (u : url) : Prop :=
  parse_target target = Some u /\ rq_path r = u_path u /\ has_char "#" target = false.

(** The text of a token: three pieces in base64, for URLs (RFC 7515). *)
Definition url_safe (c : ascii) : bool :=
  has_char c (lit "abcdefghijklmnopqrstuvwxyzABCDEFGHIJKLMNOPQRSTUVWXYZ0123456789-_.").
Definition token_text (st : site) (ev : env) (t : jwt) : Prop :=
  si_encode st t <> [] /\ forallb url_safe (si_encode st t) = true /\ ev_decode ev (si_encode st t) = Some t.
(** The proxy still has the keys that it had. *)
Definition still_has (ev ev' : env) : Prop := forall k, List.In k (ev_keys ev) -> get_key (ev_keys ev') (kid k) = Some k.
(** The token that a page contains. *)
Definition page_token (st : site) (ev : env) (fresh : str) (r : request) (u : url) (email : option str) (t : jwt) : Prop :=
  create_token (ev_keys ev) (ev_now ev) (default_type (si_tpm st)) (url_claims (full_url (rq_host r) u) (session_id fresh r) email) = Some t.

(** What the page or the redirect offers the user to do. *)
Definition offers (a : answer) (target : str) : Prop :=
  a = Goto target \/ exists p label, a = Shown p /\ List.In (label, target) (pg_buttons p).

(** The claims of the user that the proxy recognises in a request. *)
Definition known_user (ev : env) (be : backend) (r : request) : option claims :=
  match authenticate ev be r with Some (_, c) => c | None => None end.
(** Their e-mail address. *)
Definition address_of (c : option claims) : option str :=
  match c with Some c => match assoc (lit "email") c with Some (VStr e) => Some e | _ => None end | None => None end.
(** The endpoint that answers a request. *)
Definition served_at (ev : env) (be : backend) (cn : conn) (r : request) (path : str) : Prop :=
  exists h, reverse_proxy ev be cn r = Local h /\ lh_path h = path.
(** A button with this label leads to this target. *)
Definition button (a : answer) (label target : str) : Prop := exists p, a = Shown p /\ List.In (label, target) (pg_buttons p).

(** The providers that the page knows by name. *)
Definition providers : list (str * str) := [(lit "google", lit "Google"); (lit "facebook", lit "Facebook"); (lit "github", lit "GitHub")].
