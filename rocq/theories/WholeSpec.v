(** What is true of everything that gets through to a backend. *)
From Verif Require Import Base HelloModel HelloSpec IPModel RouteModel RouteSpec ProxyHdrModel WholeModel.
From Verif Require HttpModel HttpSpec HttpProps TokenSpec.

(** What was sent in the clear starts with a TLS record that holds a client hello, which asks
    for [name] and offers [protos]. *)
Definition starts_with_hello (data name : str) (protos : list str) : Prop :=
  exists ver buf rest exts,
    data = enc8 22 ++ ver ++ vec16 buf ++ rest /\ List.length ver = 2 /\ is_client_hello buf exts /\
    (name <> [] -> offers_name exts name) /\
    (forall n, n <> [] -> offers_name exts n -> name = n) /\
    (exists pss, alpn_lists exts pss /\ protos = List.concat pss).

(** The backend that had this effect. *)
Definition backend_of (f : effect) : nat :=
  match f with Answer i _ _ _ _ | Bridge i _ _ | Raw i => i end.

(** The certificate of the client, as the backend or its HTTP server knows it. *)
Definition certificate (f : effect) : option cert :=
  match f with Answer _ c _ _ _ | Bridge _ _ c => c | Raw _ => None end.

(** What the mode of a backend allows to happen. *)
Definition mode_allows (b : backend) (f : effect) : Prop :=
  match f with
  | Answer _ _ _ _ _ => bMode b = ModeConsole \/ bMode b = ModeLocal \/ bMode b = ModeHTTP \/ bMode b = ModeHTTPS
  | Bridge _ _ _ => bMode b = ModeTCP \/ bMode b = ModeTLS \/ bMode b = ModeQUIC
  | Raw _ => bMode b = ModeTLSPassthrough
  end.

(** Over QUIC: nothing is passed through, an HTTP server gets all that its backend is sent. *)
Definition quic_mode_allows (b : backend) (f : effect) : Prop :=
  let http := bMode b = ModeConsole \/ bMode b = ModeLocal \/ bMode b = ModeHTTP \/ bMode b = ModeHTTPS in
  match f with Answer _ _ _ _ _ => http | Bridge _ _ _ => ~ http | Raw _ => False end.

(** Nothing that single sign-on protects is reached without a token of the proxy for a user
    that the access list accepts. *)
Definition sso_respected (x : extras) (ev : HttpModel.env) (r : HttpModel.request) (res : HttpModel.result) : Prop :=
  forall s,
    (forall text t, HttpModel.ev_decode ev text = Some t ->
       TokenSpec.unforged (HttpModel.ev_hash ev) (HttpModel.ev_keys ev) t) ->
    x_sso x = Some s -> HttpSpec.protected (HttpModel.sso_paths s) (HttpModel.rq_path r) -> HttpSpec.reaches res ->
    exists user, user <> [] /\ HttpSpec.allowed (HttpModel.sso_acl s) user /\ HttpProps.carries_proof ev s r user.

(** A request that a reverse proxy forwards, or answers with a file, names a host of the
    backend. *)
Definition host_respected (b : backend) (name : str) (r : HttpModel.request) (res : HttpModel.result) : Prop :=
  match res with
  | HttpModel.Forward _ | HttpModel.Static _ =>
      bMode b = ModeHTTP \/ bMode b = ModeHTTPS ->
      exists s, In s (bNames b) /\
        HttpSpec.names_host (if str_eqb (HttpModel.rq_host r) [] then name else HttpModel.rq_host r) s
  | _ => True
  end.

(** The backend is told who the client is: its address, its certificate, and who logged in. *)
Definition tells_the_truth (w : world) (b : backend) (x : extras) (src : naddr) (c : option cert)
    (ev : HttpModel.env) (r : HttpModel.request) (res : HttpModel.result) : Prop :=
  match res with
  | HttpModel.Forward f =>
      HttpModel.h_values HttpModel.xff (HttpModel.fw_headers f) = [w_ip_text w src] /\
      (HttpModel.h_values HttpModel.xfcc (HttpModel.fw_headers f) = [] \/
       exists k, c = Some k /\ HttpModel.h_values HttpModel.xfcc (HttpModel.fw_headers f) = [w_cert_text w k]) /\
      (HttpSpec.rules_leave (http_view b x) HttpModel.user_header ->
       HttpSpec.rules_leave (http_view b x) (lit "connection") ->
       HttpModel.h_values HttpModel.user_header (HttpModel.fw_headers f) = [] \/
       exists s cl user, x_sso x = Some s /\ HttpSpec.identified ev s r cl user /\
         HttpModel.h_values HttpModel.user_header (HttpModel.fw_headers f) = [user])
  | _ => True
  end.

(** All that is promised about a request that was answered. *)
Definition request_checked (w : world) (b : backend) (xs : list extras) (name : str) (src : naddr)
    (reqs : list (HttpModel.env * HttpModel.request)) (f : effect) : Prop :=
  match f with
  | Answer i c ev r res =>
      In (ev, r) reqs /\
      exists x, nth_error xs i = Some x /\ sso_respected x ev r res /\ host_respected b name r res /\
        tells_the_truth w b x src c ev r res
  | _ => True
  end.

(** A backend that forwards every request for one of its names: it is a reverse proxy without
    single sign-on, endpoints of its own and path overrides. *)
Definition plain (b : backend) (x : extras) : Prop :=
  (bMode b = ModeHTTP \/ bMode b = ModeHTTPS) /\ bAddrs b <> [] /\
  x_sso x = None /\ x_handlers x = [] /\ x_overrides x = [].
