(** From the first byte of a connection to what a backend gets: the models of
    the single parts put together. *)
From Verif Require Import Base IPModel ConnModel HelloModel RouteModel ProxyHdrModel AcceptModel.
From Verif Require HttpModel.

(** config.go:223-443 Backend: the fields that HttpModel reads and RouteModel does not. *)
Record extras := {
  x_sso : option HttpModel.sso;
  x_handlers : list HttpModel.local_handler;
  x_overrides : list HttpModel.override;
  x_root : str;
  x_sanitize : option bool;
  x_headers : list (str * str);
  x_xfcc : list str
}.

(** config.go:223-443: one Backend as HttpModel sees it. *)
Definition http_view (b : backend) (x : extras) : HttpModel.backend :=
  {| HttpModel.be_names := bNames b; HttpModel.be_sso := x_sso x; HttpModel.be_handlers := x_handlers x;
     HttpModel.be_overrides := x_overrides x; HttpModel.be_addrs := bAddrs b; HttpModel.be_root := x_root x;
     HttpModel.be_sanitize := x_sanitize x; HttpModel.be_headers := x_headers x;
     HttpModel.be_xfcc := match bClientAuth b with Some _ => x_xfcc x | None => [] end |}.

(** What the libraries contribute, beside [RouteModel.env]: how the PROXY header is
    read, IP addresses as text (net.IP.String), and the header made from a
    certificate (XfccModel). *)
Record world := {
  w_read : str -> header_read;
  w_ip_text : naddr -> str;
  w_cert_text : cert -> str;
  w_local : str
}.

(** Artefact: what comes of a connection.  [Answer]: a request on it and the answer.
    [Bridge]: the decrypted bytes go to a connection to the backend.  [Raw]: the bytes
    go there as they are. *)
Inductive effect :=
| Answer (i : nat) (c : option cert) (ev : HttpModel.env) (r : HttpModel.request) (res : HttpModel.result)
| Bridge (i : nat) (proto : str) (c : option cert)
| Raw (i : nat).

(** proxy.go:705-733: the handler that the HTTP server of a backend is started with. *)
Definition handler (b : backend) (x : extras) (ev : HttpModel.env) (cn : HttpModel.conn) (r : HttpModel.request)
  : HttpModel.result :=
  match bMode b with
  | ModeConsole | ModeLocal => HttpModel.local_only ev (http_view b x) r
  | _ => HttpModel.reverse_proxy ev (http_view b x) cn r
  end.

(** util.go:82-106 and http.go:39-55: what a request knows of its connection. *)
Definition http_conn (w : world) (name : str) (remote : naddr) (c : option cert) : HttpModel.conn :=
  {| HttpModel.cn_name := name; HttpModel.cn_local := w_local w; HttpModel.cn_peer := w_ip_text w remote;
     HttpModel.cn_cert := match c with Some k => Some (w_cert_text w k) | None => None end |}.

(** http.go:39-55: the HTTP server of backend [i] gets a connection with these requests.  The
    environment of each is the one at its time (keys, clock, files). *)
Definition http_serve (w : world) (p : proxy) (xs : list extras) (i : nat) (name : str) (remote : naddr) (c : option cert)
    (reqs : list (HttpModel.env * HttpModel.request)) : list effect :=
  match nth_error (backs p) i, nth_error xs i with
  | Some b, Some x =>
      map (fun er => Answer i c (fst er) (snd er) (handler b x (fst er) (http_conn w name remote c) (snd er))) reqs
  | _, _ => []
  end.

(** proxy.go:1162-1174: the name that the connection is annotated with. *)
Definition annotated_name (p : proxy) (hello : outcome clientHello) : str :=
  match hello with
  | Ok h => match serverName h with [] => defName p | _ => serverName h end
  | _ => []
  end.

(** proxy.go:1120-1216: a TCP connection.  [bytes]: what the client sends in the clear.
    [reqs]: the requests that the HTTP server reads from the TLS session, if it gets the
    connection. *)
Definition tcp_effects (w : world) (from : list ipnet) (p : proxy) (xs : list extras) (e : env) (numOpen : nat)
    (peer : naddr) (bytes : str) (got1 got2 : nat) (reqs : list (HttpModel.env * HttpModel.request)) : list effect :=
  let '(src, data) := receive (w_read w) from peer bytes in
  let hello := match data with
               | Some d => snd (peek_client_hello (fresh_conn d) got1 got2)
               | None => Err
               end in
  match handle_connection p e numOpen (addr_of src) hello with
  | ActHTTP i _ c => http_serve w p xs i (annotated_name p hello) src c reqs
  | ActDial i proto c => [Bridge i proto c]
  | ActPassthrough i => [Raw i]
  | _ => []
  end.

(** quic.go:117-357: a QUIC connection.  Requests come over HTTP/3 or over single streams
    (quic.go:370-373); both go to the same handler (proxy.go:712-733).  There is no PROXY
    header. *)
Definition quic_effects (w : world) (p p' : proxy) (xs : list extras) (e : env) (numOpen : nat)
    (peer : naddr) (cps : list str) (reqs : list (HttpModel.env * HttpModel.request)) : list effect :=
  match handle_quic p p' e numOpen (addr_of peer) cps with
  | QServe i proto c =>
      match nth_error (backs p') i with
      | Some b =>
          match bMode b with
          | ModeConsole | ModeLocal | ModeHTTP | ModeHTTPS => http_serve w p' xs i (hsName e) peer c reqs
          | _ => [Bridge i proto c]
          end
      | None => []
      end
  | _ => []
  end.
