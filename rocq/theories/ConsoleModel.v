(** The console: events, the counters of the server names, and the configuration as it is
    shown (proxy/metrics.go), with the places that report events (proxy/proxy.go,
    proxy/quic.go, proxy/backend-sso.go).  Counts are natural numbers; the overflow of int64
    is not modelled, nor are the tables of the Go runtime (memory, locks, goroutines). *)
From Verif Require Import Base.
Open Scope list_scope.

(** ** Events *)

(** metrics.go:59-66 recordEvent: the map of counts. *)
Definition record_event (events : list (str * nat)) (msg : str) : list (str * nat) :=
  assoc_set msg (match assoc msg events with Some n => n + 1 | None => 1 end) events.
(** Artefact: the map after some events. *)
Definition record_all (events : list (str * nat)) (msgs : list str) : list (str * nat) :=
  fold_left record_event msgs events.

(** ** Where events come from *)

(** proxy.go:1188-1215: what matters of a backend's mode. *)
Inductive mode := Passthrough | HttpLike | TlsLike | OtherMode.
(** What matters of a backend: its mode, whether there is a clientAuth section, with an
    access list, whether it is shut down, and whether its HTTP server runs. *)
Record backend := { b_mode : mode; b_auth : bool; b_acl : bool; b_shutdown : bool; b_serving : bool }.
(** proxy.go:1408-1422: p.backends, by server name and protocol, and defaultServerName. *)
Record config := { k_backends : list ((str * str) * backend); k_default : str }.

(** Artefact: lookup in p.backends. *)
Fixpoint at_key (l : list ((str * str) * backend)) (n p : str) : option backend :=
  match l with
  | [] => None
  | ((n', p'), b) :: l' => if str_eqb n n' && str_eqb p p' then Some b else at_key l' n p
  end.
(** proxy.go:1413-1417 *)
Fixpoint first_key (l : list ((str * str) * backend)) (n : str) (ps : list str) : option backend :=
  match ps with
  | [] => None
  | p :: ps' => match at_key l n p with Some b => Some b | None => first_key l n ps' end
  end.
(** proxy.go:1408-1430 backend: an error or the backend. *)
Definition find_backend (k : config) (n : str) (ps : list str) : str + backend :=
  match (match first_key (k_backends k) n ps with Some b => Some b | None => at_key (k_backends k) n [] end) with
  | None => inl (lit "unexpected SNI")
  | Some b => if b_shutdown b then inl (lit "backend shutdown") else inr b
  end.

(** What the handshake finds out about the client's certificate: it is none, or one that a
    configured authority has signed, with its summary (certSummary), whether it is revoked,
    the error of the OCSP check, and what the access list says. *)
Inductive cert := NoCert | Cert (sum : str) (revoked : bool) (ocsp : option str) (allowed : bool).
(** How the verification of a connection ends. *)
Inductive verdict := Fine | Denied | Revoked | Failed.

(** proxy.go:587-623 VerifyConnection: what it reports, and its result.  [uni] is
    idnaToUnicode. *)
Definition verify_connection (uni : str -> str) (k : config) (name proto : str) (c : cert) : list str * verdict :=
  match find_backend k name [proto] with
  | inl _ => ([], Failed)
  | inr b =>
      if negb (b_auth b) then ([], Fine) else
      match c with
      | NoCert => ([lit "deny no cert to " ++ uni name], Failed)
      | Cert sum revoked ocsp allowed =>
          if revoked then ([lit "deny X509 [" ++ sum ++ lit "] to " ++ uni name ++ lit " (revoked)"], Revoked) else
          match ocsp with
          | Some e => ([lit "deny X509 [" ++ sum ++ lit "] to " ++ uni name ++ lit " (OCSP:" ++ e ++ lit ")"], Revoked)
          | None =>
              if negb allowed then ([lit "deny X509 [" ++ sum ++ lit "] to " ++ uni name], Denied)
              else (if str_eqb sum [] then [] else [lit "allow X509 [" ++ sum ++ lit "] to " ++ uni name], Fine)
          end
      end
  end.

(** What happens to a TCP connection that is not decided by the configuration: the limit
    of open connections is reached; the hello (the server name and the protocols), if it
    can be read; the outcome of the IP check; no OCSP staple; what TLS itself says (no
    certificate where one is needed, or another failure, before or after the
    certificate is looked at); the protocol and the certificate; the default name has changed in
    the meantime; the error of the rate limiter; what is reported of the dial and its result;
    a panic in the end. *)
Record tcp := {
  t_over : bool; t_hello : option (str * list str); t_ip : bool; t_staple : bool;
  t_no_cert : bool; t_early : bool; t_late : bool; t_proto : str; t_cert : cert; t_moved : bool;
  t_wait : option str; t_dial : list str; t_dial_ok : bool; t_panic : bool
}.

(** proxy.go:1069-1073: the certificate that is served has no staple. *)
Definition staple_event (uni : str -> str) (name : str) (bad : bool) : list str :=
  if bad then [lit "ocsp staple error for " ++ uni name] else [].

(** proxy.go:1243-1287 authorizeTLSConnection *)
Definition authorize_tls (uni : str -> str) (k : config) (sni name : str) (b : backend) (c : tcp) : list str * bool :=
  let staple := staple_event uni name (t_staple c) in
  if t_early c then (staple ++ [lit "tls handshake failed"], false) else
  if t_no_cert c then (staple ++ [lit "deny no cert to " ++ uni name], false) else
  let '(evs, v) := if b_auth b then verify_connection uni k sni (t_proto c) (t_cert c) else ([], Fine) in
  match v with
  | Denied => (staple ++ evs ++ [lit "access denied"], false)
  | Revoked => (staple ++ evs ++ [lit "cert is revoked"], false)
  | Failed => (staple ++ evs ++ [lit "tls handshake failed"], false)
  | Fine =>
      if t_late c then (staple ++ evs ++ [lit "tls handshake failed"], false) else
      if t_moved c && str_eqb sni [] then (staple ++ evs ++ [lit "mismatched server name"], false) else
      if b_auth b && b_acl b && negb (match t_cert c with Cert _ _ _ allowed => allowed | NoCert => false end)
      then (staple ++ evs ++ [lit "access denied"], false)
      else (staple ++ evs, true)
  end.

(** proxy.go:1220-1230: the error of checkIP, of which there is one *)
Definition check_ip_event (name : str) : str := name ++ lit " CheckIP access denied".

(** proxy.go:1325-1341, proxy.go:1367-1379: wait and dial *)
Definition wait_and_dial (c : tcp) : list str :=
  match t_wait c with
  | Some e => [e]
  | None => t_dial c ++ (if t_dial_ok c then [] else [lit "dial error"])
  end.
(** proxy.go:1296-1313: wait and hand over *)
Definition wait_and_hand_over (b : backend) (c : tcp) : list str :=
  match t_wait c with
  | Some e => [e]
  | None => if b_serving b then [] else [lit "conn chan nil"]
  end.

(** proxy.go:1120-1216 handleConnection *)
Definition tcp_events (uni : str -> str) (k : config) (c : tcp) : list str :=
  lit "tcp connection" ::
  (if t_over c then [lit "too many open connections"] else
   match t_hello c with
   | None => [lit "invalid ClientHello"]
   | Some (sni, protos) =>
       (if str_eqb sni [] then [lit "no SNI"] else []) ++
       let name := if str_eqb sni [] then k_default k else sni in
       match find_backend k name protos with
       | inl e => [e]
       | inr b =>
           match b_mode b with
           | Passthrough => if t_ip c then wait_and_dial c else [check_ip_event (uni name)]
           | m =>
               if (match protos with [p] => str_eqb p (lit "acme-tls/1") | _ => false end) && negb (str_eqb sni []) then
                 staple_event uni name (t_staple c) ++ (if t_early c then [lit "tls handshake failed"] else [])
               else match m with
               | OtherMode => []
               | _ =>
                   if negb (t_ip c) then [check_ip_event (uni name)] else
                   let '(evs, ok) := authorize_tls uni k sni name b c in
                   evs ++ (if ok then match m with HttpLike => wait_and_hand_over b c | _ => wait_and_dial c end else [])
               end
           end
       end
   end) ++
  (if t_panic c then [lit "panic"] else []).

(** What happens to a QUIC connection, in the same way; [q_rest] is what its streams
    report. *)
Record quic := {
  q_name : str; q_proto : str; q_staple : bool; q_early : bool; q_late : bool; q_cert : cert;
  q_over : bool; q_ip : bool; q_wait : option str; q_dial : list str; q_stream_errors : nat; q_dial_errors : nat; q_panic : bool
}.

(** proxy/quic.go:117-357, after a handshake that uses the configuration of the backend
    (proxy.go:587-623), and its streams, proxy/quic.go:359-470.  That the configuration changes between the
    handshake and the call is not modelled. *)
Definition quic_events (uni : str -> str) (k : config) (c : quic) : list str :=
  match find_backend k (q_name c) [q_proto c] with
  | inl _ => []
  | inr b =>
      staple_event uni (q_name c) (q_staple c) ++
      if q_early c then [] else
      let '(evs, v) := if b_auth b then verify_connection uni k (q_name c) (q_proto c) (q_cert c) else ([], Fine) in
      evs ++
      match v with
      | Fine =>
          if q_late c then [] else
          lit "quic connection" ::
          (if q_over c then [lit "too many open connections"] else
           if negb (q_ip c) then [check_ip_event (uni (q_name c))] else
           match q_wait c with
           | Some e => [e]
           | None => q_dial c ++ repeat (lit "openstream error") (q_stream_errors c) ++ repeat (lit "dial error") (q_dial_errors c)
           end) ++
          (if q_panic c then [lit "panic"] else [])
      | _ => []
      end
  end.

(** backend-sso.go:331-340: a request of a user who is logged in *)
Definition sso_event (uni : str -> str) (user host : str) (ok : bool) : str :=
  (if ok then lit "allow SSO " else lit "deny SSO ") ++ user ++ lit " to " ++ uni host.

(** What reports events.  [ReAuth] is one connection of reAuthorize (proxy.go:865-901):
    its name, what is found, the certificate. *)
Inductive happening :=
| Tcp (c : tcp)
| Quic (c : quic)
| Sso (user host : str) (ok : bool)
| Reload
| ReAuth (name proto : str) (ip allowed : bool)
| Http2Error (kind : str).

(** Artefact: the events of each; proxy.go:294-297 for a reload, backend-http.go:492-494 for
    the errors of the HTTP/2 library, proxy.go:865-901 reAuthorize. *)
Definition events_of (uni : str -> str) (k : config) (h : happening) : list str :=
  match h with
  | Tcp c => tcp_events uni k c
  | Quic c => quic_events uni k c
  | Sso user host ok => [sso_event uni user host ok]
  | Reload => [lit "config change"]
  | ReAuth name proto ip allowed =>
      match find_backend k name [proto] with
      | inl e => [e]
      | inr b => if negb ip then [check_ip_event name] else if b_auth b && negb allowed then [lit "access denied"] else []
      end
  | Http2Error kind => [lit "http2 client error: " ++ kind]
  end.
(** Artefact: the map of events after a history; the configuration may change. *)
Definition events_after (uni : str -> str) (history : list (config * happening)) : list (str * nat) :=
  record_all [] (flat_map (fun x => events_of uni (fst x) (snd x)) history).

(** ** The counters of a server name *)

(** A backendMetrics: connections, bytes sent and received. *)
Record row := { r_conns : nat; r_sent : nat; r_recv : nat }.
(** metrics.go:72-100 setCounters: where the goroutine of a connection is: not begun, between
    RUnlock and Lock, or done with the counters it was given. *)
Inductive place := Begin | Between | Attached (r : nat).
(** A connection: its name, where it is, and (an artefact) what it has sent and received
    since it was given counters. *)
Record conn := { c_name : str; c_place : place; c_sent : nat; c_recv : nat }.
(** Artefact: p.metrics, the objects it points to, and the connections. *)
Record state := { s_metrics : list (str * nat); s_rows : list row; s_conns : list conn }.
(** Artefact: nothing yet. *)
Definition start : state := {| s_metrics := []; s_rows := []; s_conns := [] |}.

(** Artefact: what the goroutines do: a connection for this name calls setCounters; its first
    and its second part; bytes are sent or received (netw.go:148-151: added to the counters
    that were set). *)
Inductive action := New (name : str) | First (i : nat) | Second (i : nat) | Sent (i n : nat) | Received (i n : nat).

(** Artefact: update of a list at an index. *)
Fixpoint upd {A} (f : A -> A) (i : nat) (l : list A) : list A :=
  match l, i with
  | [], _ => []
  | x :: l', O => f x :: l'
  | x :: l', S i' => x :: upd f i' l'
  end.
(** counter.Incr for the connections. *)
Definition one_more (r : row) : row := {| r_conns := r_conns r + 1; r_sent := r_sent r; r_recv := r_recv r |}.
(** counter.Incr for the bytes. *)
Definition more_sent (n : nat) (r : row) : row := {| r_conns := r_conns r; r_sent := r_sent r + n; r_recv := r_recv r |}.
(** counter.Incr for the bytes. *)
Definition more_recv (n : nat) (r : row) : row := {| r_conns := r_conns r; r_sent := r_sent r; r_recv := r_recv r + n |}.
(** Artefact: a connection goes on. *)
Definition move (p : place) (c : conn) : conn := {| c_name := c_name c; c_place := p; c_sent := c_sent c; c_recv := c_recv c |}.

(** metrics.go:72-100 and the counters of connections *)
Definition act (s : state) (a : action) : state :=
  match a with
  | New n => {| s_metrics := s_metrics s; s_rows := s_rows s;
                s_conns := s_conns s ++ [{| c_name := n; c_place := Begin; c_sent := 0; c_recv := 0 |}] |}
  | First i =>
      match nth_error (s_conns s) i with
      | Some c =>
          match c_place c with
          | Begin =>
              match assoc (c_name c) (s_metrics s) with
              | Some r => {| s_metrics := s_metrics s; s_rows := upd one_more r (s_rows s); s_conns := upd (move (Attached r)) i (s_conns s) |}
              | None => {| s_metrics := s_metrics s; s_rows := s_rows s; s_conns := upd (move Between) i (s_conns s) |}
              end
          | _ => s
          end
      | None => s
      end
  | Second i =>
      match nth_error (s_conns s) i with
      | Some c =>
          match c_place c with
          | Between =>
              match assoc (c_name c) (s_metrics s) with
              | Some r => {| s_metrics := s_metrics s; s_rows := upd one_more r (s_rows s); s_conns := upd (move (Attached r)) i (s_conns s) |}
              | None =>
                  let r := List.length (s_rows s) in
                  {| s_metrics := assoc_set (c_name c) r (s_metrics s);
                     s_rows := s_rows s ++ [one_more {| r_conns := 0; r_sent := 0; r_recv := 0 |}];
                     s_conns := upd (move (Attached r)) i (s_conns s) |}
              end
          | _ => s
          end
      | None => s
      end
  | Sent i n =>
      match nth_error (s_conns s) i with
      | Some c =>
          match c_place c with
          | Attached r =>
              {| s_metrics := s_metrics s; s_rows := upd (more_sent n) r (s_rows s);
                 s_conns := upd (fun c => {| c_name := c_name c; c_place := c_place c; c_sent := c_sent c + n; c_recv := c_recv c |}) i (s_conns s) |}
          | _ => s
          end
      | None => s
      end
  | Received i n =>
      match nth_error (s_conns s) i with
      | Some c =>
          match c_place c with
          | Attached r =>
              {| s_metrics := s_metrics s; s_rows := upd (more_recv n) r (s_rows s);
                 s_conns := upd (fun c => {| c_name := c_name c; c_place := c_place c; c_sent := c_sent c; c_recv := c_recv c + n |}) i (s_conns s) |}
          | _ => s
          end
      | None => s
      end
  end.
(** Artefact: a history. *)
Definition acts (l : list action) : state := fold_left act l start.

(** ** The page *)

(** Go compares strings byte by byte. *)
Fixpoint str_leb (a b : str) : bool :=
  match a, b with
  | [], _ => true
  | _ :: _, [] => false
  | x :: a', y :: b' =>
      if (N_of_ascii x <? N_of_ascii y)%N then true
      else if (N_of_ascii y <? N_of_ascii x)%N then false else str_leb a' b'
  end.
(** Artefact: one step of a sort. *)
Fixpoint insert_str (s : str) (l : list str) : list str :=
  match l with
  | [] => [s]
  | x :: l' => if str_leb s x then s :: l else x :: insert_str s l'
  end.
(** sort.Strings *)
Definition sort_strs (l : list str) : list str := fold_right insert_str [] l.

(** metrics.go:266-279: the rows of events *)
Definition event_rows (events : list (str * nat)) : list (str * nat) :=
  map (fun k => (k, match assoc k events with Some n => n | None => 0 end)) (sort_strs (map fst events)).

(** metrics.go:238-243: totals.  The order in which Go walks a map is that of the list. *)
Definition totals (uni : str -> str) (s : state) : list (str * row) :=
  fold_left (fun t kv => assoc_set (uni (fst kv)) (nth (snd kv) (s_rows s) {| r_conns := 0; r_sent := 0; r_recv := 0 |}) t) (s_metrics s) [].
(** metrics.go:245-264: the rows of server names *)
Definition name_rows (uni : str -> str) (s : state) : list (str * row) :=
  let t := totals uni s in
  map (fun k => (k, match assoc k t with Some r => r | None => {| r_conns := 0; r_sent := 0; r_recv := 0 |} end)) (sort_strs (map fst t)).

(** metrics.go:344-354: the direction of a QUIC stream *)
Definition direction (id : N) : str :=
  match N.land id 3 with
  | 0%N | 1%N => lit "<->"
  | 2%N => lit "-->"
  | _ => lit "<--"
  end.

(** ** The configuration *)

(** The objects that a configuration points to: a ConfigOIDC, a LocalOIDCClient, and a
    Backend with its headers and the clients of its OpenID server.  The other fields
    are opaque. *)
Record oidc := { o_rest : str; o_secret : str }.
(** A LocalOIDCClient. *)
Record client := { l_rest : str; l_secret : str }.
(** A Backend. *)
Record beobj := { e_rest : str; e_headers : list (str * str); e_clients : option (list nat) }.
(** Artefact: memory, one list for each type; a pointer is an index. *)
Record heap := { h_oidc : list oidc; h_client : list client; h_be : list beobj }.
(** config.go:96-181 Config *)
Record cfgobj := { g_rest : str; g_oidc : list nat; g_backends : list nat }.

(** A configuration as YAML has it: without pointers. *)
Record btree := { v_rest : str; v_headers : list (str * str); v_clients : option (list client) }.
(** A Config as YAML has it. *)
Record tree := { w_rest : str; w_oidc : list oidc; w_backends : list btree }.

(** Artefact: a dangling pointer, which does not occur. *)
Definition no_oidc : oidc := {| o_rest := []; o_secret := [] |}.
(** Artefact: a dangling pointer, which does not occur. *)
Definition no_client : client := {| l_rest := []; l_secret := [] |}.
(** Artefact: a dangling pointer, which does not occur. *)
Definition no_be : beobj := {| e_rest := []; e_headers := []; e_clients := None |}.

(** yaml.Marshal of a Backend. *)
Definition marshal_be (h : heap) (p : nat) : btree :=
  let b := nth p (h_be h) no_be in
  {| v_rest := e_rest b; v_headers := e_headers b; v_clients := option_map (map (fun p => nth p (h_client h) no_client)) (e_clients b) |}.
(** config.go:757-763 serialize *)
Definition marshal (h : heap) (c : cfgobj) : tree :=
  {| w_rest := g_rest c; w_oidc := map (fun p => nth p (h_oidc h) no_oidc) (g_oidc c); w_backends := map (marshal_be h) (g_backends c) |}.

(** yaml.Unmarshal of a Backend: new objects. *)
Definition unmarshal_be (h : heap) (t : btree) : heap * nat :=
  let n := List.length (h_client h) in
  ({| h_oidc := h_oidc h;
      h_client := h_client h ++ (match v_clients t with Some l => l | None => [] end);
      h_be := h_be h ++ [{| e_rest := v_rest t; e_headers := v_headers t; e_clients := option_map (fun l => seq n (List.length l)) (v_clients t) |}] |},
   List.length (h_be h)).
(** yaml.Unmarshal of the list of backends. *)
Fixpoint unmarshal_bes (h : heap) (l : list btree) : heap * list nat :=
  match l with
  | [] => (h, [])
  | t :: l' => let '(h1, p) := unmarshal_be h t in let '(h2, ps) := unmarshal_bes h1 l' in (h2, p :: ps)
  end.
(** yaml.Unmarshal of a Config. *)
Definition unmarshal (h : heap) (t : tree) : heap * cfgobj :=
  let n := List.length (h_oidc h) in
  let h1 := {| h_oidc := h_oidc h ++ w_oidc t; h_client := h_client h; h_be := h_be h |} in
  let '(h2, ps) := unmarshal_bes h1 (w_backends t) in
  (h2, {| g_rest := w_rest t; g_oidc := seq n (List.length (w_oidc t)); g_backends := ps |}).
(** config.go:771-776 clone *)
Definition clone (h : heap) (c : cfgobj) : heap * cfgobj := unmarshal h (marshal h c).

(** metrics.go:576, metrics.go:583 *)
Definition redacted : str := lit "**REDACTED**".
(** metrics.go:575-577 *)
Definition redact_oidc (h : heap) (p : nat) : heap :=
  {| h_oidc := upd (fun o => {| o_rest := o_rest o; o_secret := redacted |}) p (h_oidc h); h_client := h_client h; h_be := h_be h |}.
(** metrics.go:582-584 *)
Definition redact_client (h : heap) (p : nat) : heap :=
  {| h_oidc := h_oidc h; h_client := upd (fun o => {| l_rest := l_rest o; l_secret := redacted |}) p (h_client h); h_be := h_be h |}.
(** metrics.go:578-585 *)
Definition redact_be (h : heap) (p : nat) : heap :=
  match e_clients (nth p (h_be h) no_be) with
  | None => h
  | Some l => fold_left redact_client l h
  end.
(** metrics.go:574-591: memory afterwards, and what is written to the page.  [enc] is the
    YAML encoder. *)
Definition show_config (enc : tree -> str) (h : heap) (c : cfgobj) : heap * str :=
  let '(h1, c1) := clone h c in
  let h2 := fold_left redact_oidc (g_oidc c1) h1 in
  let h3 := fold_left redact_be (g_backends c1) h2 in
  (h3, enc (marshal h3 c1)).
