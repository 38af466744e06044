(** Connections from the proxy to its HTTP backends: which one a request is sent
    on (backend-http.go), what is sent on it first and with which settings it
    is opened (backend.go, quic.go). *)
From Verif Require Import Base IPModel ProxyHdrModel.

(** The modes of a backend that matter here. *)
Inductive fmode := FHTTP | FHTTPS | FTCP | FTLS | FQUIC.

(** config.go:223-443 Backend, config.go:643-703 PathOverride: the settings used to open a
    connection; they exist once for the backend and once per path override.
    [t_proto] is BackendProto (None: not set). *)
Record target := {
  t_addrs : list str;
  t_mode : fmode;
  t_server_name : str;      (* ForwardServerName *)
  t_insecure : bool;        (* InsecureSkipVerify *)
  t_roots : list str;       (* ForwardRootCAs *)
  t_version : N;            (* proxyProtocolVersion *)
  t_proto : option str
}.

(** config.go:223-443 Backend: its own settings, those of its path overrides. *)
Record pbackend := { pb_default : target; pb_overrides : list target }.

(** backend.go:84-105 and quic.go:498-516: the settings that dial uses; an
    override that does not exist counts as none. *)
Definition settings (b : pbackend) (ov : option nat) : target :=
  match ov with
  | Some i => match nth_error (pb_overrides b) i with Some t => t | None => pb_default b end
  | None => pb_default b
  end.

(** A connection to a backend: the address it was opened to, the first bytes
    sent on it, whether TLS (or QUIC) is used and with which settings, the
    protocol offered, and the name whose certificate is shown to the backend if
    it asks for one (proxy.go:641-659 getClientCert). *)
Record bconn := {
  bc_addr : str;
  bc_first : str;
  bc_secure : bool;
  bc_server_name : str;
  bc_insecure : bool;
  bc_roots : list str;
  bc_alpn : list str;
  bc_cert_name : str
}.

(** backend.go:83-191 dial, once an address is chosen (see [DialModel] for the
    choice).  None is an error.  Not modelled: time-outs and the network. *)
Definition dial (s6 : ip -> str) (b : pbackend) (c : client) (ov : option nat) (addr : str) (protos : list str)
  : option bconn :=
  let t := settings b ov in
  let mk first secure :=
    Some {| bc_addr := addr; bc_first := first; bc_secure := secure;
            bc_server_name := t_server_name t; bc_insecure := t_insecure t; bc_roots := t_roots t;
            bc_alpn := protos; bc_cert_name := cl_name c |} in
  if mem addr (t_addrs t) then
    match t_mode t with
    | FQUIC => mk [] true
    | m =>
        let secure := match m with FTLS | FHTTPS => true | _ => false end in
        if (0 <? t_version t)%N then
          match write_proxy_header s6 (t_version t) c with
          | Some h => mk h secure
          | None => None
          end
        else mk [] secure
    end
  else None.

(** quic.go:498-580 dialQUICBackend, once an address is chosen. *)
Definition dial_quic_backend (b : pbackend) (c : client) (ov : option nat) (addr : str) (proto : str)
  : option bconn :=
  let t := settings b ov in
  if mem addr (t_addrs t) then
    Some {| bc_addr := addr; bc_first := []; bc_secure := true;
            bc_server_name := t_server_name t; bc_insecure := t_insecure t; bc_roots := t_roots t;
            bc_alpn := [proto]; bc_cert_name := cl_name c |}
  else None.

(** A request that is about to be forwarded: whose it is, the override that
    applies to it, whether it asks for an upgrade over HTTP/1, and the protocol
    of the client's connection. *)
Record preq := { rq_client : client; rq_override : option nat; rq_upgrade : bool; rq_negotiated : str }.

(** The three transports of reverseProxyTransport. *)
Inductive transport3 := H1 | H2 | H3.

(** Artefact: equality of transports. *)
Definition transport3_eqb (a b : transport3) : bool :=
  match a, b with H1, H1 | H2, H2 | H3, H3 => true | _, _ => false end.

(** backend-http.go:499-519: the transport for a request.  [quic]: the proxy is
    built with QUIC support (http3Transport is not nil). *)
Definition choose_transport (quic : bool) (b : pbackend) (r : preq) : transport3 :=
  if rq_upgrade r then H1 else
  let own := match t_proto (pb_default b) with Some p => p | None => lit "http/1.1" end in
  let proto :=
    match rq_override r with
    | Some i => match nth_error (pb_overrides b) i with
                | Some t => match t_proto t with Some p => p | None => own end
                | None => own
                end
    | None => own
    end in
  let proto := if str_eqb proto [] then rq_negotiated r else proto in
  if str_eqb proto (lit "h3") && quic then H3
  else if str_eqb proto (lit "h2") then H2
  else H1.

(** backend-http.go:257, 283: the text of the override in the key. *)
Definition override_text (ov : option nat) : str :=
  match ov with Some i => dec (N.of_nat i) | None => [] end.

(** backend-http.go:258, 284: the version that the handler uses for the key. *)
Definition key_version (b : pbackend) (ov : option nat) : N := t_version (settings b ov).

(** backend-http.go:293-297 hostKey *)
Definition host_key (s6 : ip -> str) (b : pbackend) (r : preq) : str :=
  cl_name (rq_client r) ++ lit ";" ++ override_text (rq_override r) ++
  (if (0 <? key_version b (rq_override r))%N
   then lit ";" ++ match write_proxy_header s6 (key_version b (rq_override r)) (rq_client r) with
                   | Some h => h | None => [] end
   else []).

(** The connections that are open: for each transport (backend-http.go:472-497)
    and each value of req.URL.Host (298-299), as the pools of net/http,
    x/net/http2 and quic-go/http3 keep them. *)
Record entry := { en_transport : transport3; en_host : str; en_conn : bconn }.
(** Artefact: the state of the model. *)
Definition pool := list entry.

(** What can happen: a transport opens a connection because of a request, sends
    a request on a connection it has for that host, or drops a connection. *)
Inductive pop :=
| Open (r : preq) (addr : str)
| Send (r : preq) (n : nat)
| Drop (n : nat).

(** backend-http.go:472-519: the functions that the transports open connections
    with. *)
Definition open (s6 : ip -> str) (quic : bool) (b : pbackend) (r : preq) (addr : str) : option bconn :=
  match choose_transport quic b r with
  | H1 => dial s6 b (rq_client r) (rq_override r) addr []
  | H2 => dial s6 b (rq_client r) (rq_override r) addr [lit "h2"]
  | H3 => dial_quic_backend b (rq_client r) (rq_override r) addr (lit "h3")
  end.

(** Artefact: one operation; the result is the connection a request was sent
    on.  [hash] is sha256 and hex (backend-http.go:298-299).  A transport never
    uses a connection of another transport or another host. *)
Definition pool_step (s6 : ip -> str) (hash : str -> str) (quic : bool) (b : pbackend) (s : pool) (o : pop)
  : pool * option (preq * bconn) :=
  match o with
  | Open r addr =>
      match open s6 quic b r addr with
      | Some c => (s ++ [{| en_transport := choose_transport quic b r;
                            en_host := hash (host_key s6 b r); en_conn := c |}], None)
      | None => (s, None)
      end
  | Send r n =>
      match nth_error s n with
      | Some e =>
          if transport3_eqb (en_transport e) (choose_transport quic b r) &&
             str_eqb (en_host e) (hash (host_key s6 b r))
          then (s, Some (r, en_conn e))
          else (s, None)
      | None => (s, None)
      end
  | Drop n => (firstn n s ++ skipn (S n) s, None)
  end.

(** Artefact: a history; the requests and the connections they were sent on. *)
Fixpoint pool_run (s6 : ip -> str) (hash : str -> str) (quic : bool) (b : pbackend) (s : pool) (ops : list pop)
  : list (preq * bconn) :=
  match ops with
  | [] => []
  | o :: ops' =>
      let '(s', out) := pool_step s6 hash quic b s o in
      match out with Some x => x :: pool_run s6 hash quic b s' ops' | None => pool_run s6 hash quic b s' ops' end
  end.
