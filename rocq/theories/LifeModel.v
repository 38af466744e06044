(** The life of a proxy: what New, Start, Reconfigure, Shutdown and Stop open and close, in
    any order.  Each event below is one critical section of p.mu or of the mutex of a
    backend, or one close by a goroutine.

    Left out: what the waiting of Shutdown is for (ShutdownModel), what is between finding a
    backend and counting the connection (AccountModel), the reasons for which Reconfigure
    fails (ReconfModel) and the content of the configuration that does not say what to
    open.  "Open" is said of a socket that accepts; whether the UDP port is free again
    after Transport.Close is up to the QUIC library. *)
From Verif Require Import Base.

(** Artefact: the sockets, with their addresses. *)
Inductive kind := Web | Udp | Tls.
(** Artefact: a socket that the proxy has opened. *)
Record sock := { so_kind : kind; so_addr : nat; so_open : bool }.

(** config.go:192-440 Backend: is its mode CONSOLE, LOCAL, HTTP or HTTPS, and is h3 one of
    its ALPN protocols (proxy.go:705-734). *)
Record backend := { b_http : bool; b_h3 : bool }.
(** config.go:96-182 Config: HTTPAddr, TLSAddr, EnableQUIC and the backends.  [c_rest]: all
    that is not modelled, compared as a whole by config.go:765-769 equal. *)
Record config := { c_web : option nat; c_tls : nat; c_quic : bool; c_backends : list backend; c_rest : nat }.

(** config.go:436-438, 445-451: the state of a backend.  [s_srv]: httpServer is not nil;
    [s_chan]: httpConnChan is open, which means that the goroutines of the server or of the
    loop that empties the channel run (http.go:73-98); [s_h3]: http3Server is not nil;
    [s_h3_open]: it has not been closed; [s_shut], [s_flight]: state.shutdown, state.inFlight.
    Artefact: [s_kept]: it has been in a configuration in force. *)
Record server := {
  s_srv : bool; s_chan : bool; s_h3 : bool; s_h3_open : bool; s_shut : bool; s_flight : nat; s_kept : bool
}.

(** Artefact: a connection that has been counted for its backend (proxy.go:1182-1183,
    quic.go:164-165).  [n_cut]: its transport is closed. *)
Record conn := { n_be : nat; n_quic : bool; n_open : bool; n_cut : bool }.

(** proxy.go:930-947: a context that Start has made, the HTTP server on HTTPAddr that its
    goroutine ctxWait closes, and whether it has. *)
Record context := { x_done : bool; x_web : option nat; x_waited : bool }.

(** proxy.go:105-140 Proxy.  The backends, sockets, contexts and connections are numbered in
    the order in which they are made.  [p_cfg]: cfg with the numbers of cfg.Backends;
    [p_routes]: those in the map p.backends; [p_key]: the master key is in memory.
    Artefact: [stopping]: backends that calls of Stop have still to close; [hanging_up]:
    connections that they have still to close. *)
Record proxy := {
  servers : list server; socks : list sock; ctxs : list context; conns : list conn;
  p_cfg : option (config * list nat); p_routes : list nat;
  p_listener : option nat; p_quic : option nat; p_ctx : option nat; p_key : bool;
  stopping : list nat; hanging_up : list nat
}.

(** proxy.go:171-229 New, before Reconfigure. *)
Definition fresh : proxy :=
  {| servers := []; socks := []; ctxs := []; conns := []; p_cfg := None; p_routes := [];
     p_listener := None; p_quic := None; p_ctx := None; p_key := true; stopping := []; hanging_up := [] |}.

(** Artefact: change one element of a list. *)
Fixpoint change {A} (i : nat) (f : A -> A) (l : list A) : list A :=
  match l, i with
  | [], _ => []
  | x :: l', O => f x :: l'
  | x :: l', S i' => x :: change i' f l'
  end.

(** Artefact: setters. *)
Definition with_servers (p : proxy) (v : list server) : proxy :=
  {| servers := v; socks := socks p; ctxs := ctxs p; conns := conns p; p_cfg := p_cfg p; p_routes := p_routes p;
     p_listener := p_listener p; p_quic := p_quic p; p_ctx := p_ctx p; p_key := p_key p;
     stopping := stopping p; hanging_up := hanging_up p |}.
(** Artefact: setter. *)
Definition with_socks (p : proxy) (v : list sock) : proxy :=
  {| servers := servers p; socks := v; ctxs := ctxs p; conns := conns p; p_cfg := p_cfg p; p_routes := p_routes p;
     p_listener := p_listener p; p_quic := p_quic p; p_ctx := p_ctx p; p_key := p_key p;
     stopping := stopping p; hanging_up := hanging_up p |}.
(** Artefact: setter. *)
Definition with_ctxs (p : proxy) (v : list context) : proxy :=
  {| servers := servers p; socks := socks p; ctxs := v; conns := conns p; p_cfg := p_cfg p; p_routes := p_routes p;
     p_listener := p_listener p; p_quic := p_quic p; p_ctx := p_ctx p; p_key := p_key p;
     stopping := stopping p; hanging_up := hanging_up p |}.
(** Artefact: setter. *)
Definition with_conns (p : proxy) (v : list conn) : proxy :=
  {| servers := servers p; socks := socks p; ctxs := ctxs p; conns := v; p_cfg := p_cfg p; p_routes := p_routes p;
     p_listener := p_listener p; p_quic := p_quic p; p_ctx := p_ctx p; p_key := p_key p;
     stopping := stopping p; hanging_up := hanging_up p |}.
(** Artefact: setter of stopping and hanging_up. *)
Definition with_work (p : proxy) (v w : list nat) : proxy :=
  {| servers := servers p; socks := socks p; ctxs := ctxs p; conns := conns p; p_cfg := p_cfg p; p_routes := p_routes p;
     p_listener := p_listener p; p_quic := p_quic p; p_ctx := p_ctx p; p_key := p_key p;
     stopping := v; hanging_up := w |}.

(** Artefact: what a step does: it may not be possible, or end with a panic. *)
Inductive result := Went (p : proxy) | Panicked | Cannot.

(** ** Backends *)

(** close(be.httpConnChan); be.httpServer = nil (backend.go:49-50, 62-64, 74-75): a channel
    that is closed already is a panic. *)
Definition close_chan (s : server) : option server :=
  if s_chan s then
    Some {| s_srv := false; s_chan := false; s_h3 := s_h3 s; s_h3_open := s_h3_open s;
            s_shut := s_shut s; s_flight := s_flight s; s_kept := s_kept s |}
  else None.
(** backend.go:65-68, 76-79 *)
Definition close_h3 (s : server) : server :=
  if s_h3 s then
    {| s_srv := s_srv s; s_chan := s_chan s; s_h3 := false; s_h3_open := false;
       s_shut := s_shut s; s_flight := s_flight s; s_kept := s_kept s |}
  else s.
(** backend.go:55-81 close(nil) *)
Definition close_hard (s : server) : option server :=
  if s_srv s then option_map close_h3 (close_chan s) else Some s.
(** backend.go:72: state.shutdown = true *)
Definition set_shut (s : server) : server :=
  {| s_srv := s_srv s; s_chan := s_chan s; s_h3 := s_h3 s; s_h3_open := s_h3_open s;
     s_shut := true; s_flight := s_flight s; s_kept := s_kept s |}.
(** backend.go:55-81 close(ctx): httpServer.Shutdown makes the listener of the server close;
    the loop that empties the channel runs until the channel is closed. *)
Definition close_soft (s : server) : option server :=
  if s_srv s then
    match s_flight s with
    | O => option_map close_h3 (close_chan (set_shut s))
    | S _ => Some (set_shut s)
    end
  else Some s.
(** be.state.inFlight += delta (backend.go:47) *)
Definition set_flight (n : nat) (s : server) : server :=
  {| s_srv := s_srv s; s_chan := s_chan s; s_h3 := s_h3 s; s_h3_open := s_h3_open s;
     s_shut := s_shut s; s_flight := n; s_kept := s_kept s |}.
(** backend.go:44-53 incInFlight(-1): the HTTP/3 server is not closed here. *)
Definition leave (s : server) : option server :=
  let s' := set_flight (pred (s_flight s)) s in
  match s_flight s' with
  | O => if s_shut s' && s_srv s' then close_chan s' else Some s'
  | S _ => Some s'
  end.

(** Artefact: close one backend, with a panic if there is one. *)
Definition close_one (f : server -> option server) (l : list server) (b : nat) : option (list server) :=
  match nth_error l b with
  | None => Some l
  | Some s => match f s with Some s' => Some (change b (fun _ => s') l) | None => None end
  end.
(** proxy.go:850-854, 1003-1005: for _, be := range p.cfg.Backends *)
Fixpoint close_all (f : server -> option server) (l : list server) (bs : list nat) : option (list server) :=
  match bs with
  | [] => Some l
  | b :: bs' => match close_one f l b with Some l' => close_all f l' bs' | None => None end
  end.

(** ** Reconfigure *)

(** config.go:765-769 equal *)
Definition backend_eqb (a b : backend) : bool := Bool.eqb (b_http a) (b_http b) && Bool.eqb (b_h3 a) (b_h3 b).
(** Artefact: bytes.Equal of the serialized lists (config.go:765-769). *)
Fixpoint backends_eqb (a b : list backend) : bool :=
  match a, b with
  | [], [] => true
  | x :: a', y :: b' => backend_eqb x y && backends_eqb a' b'
  | _, _ => false
  end.
(** Artefact: comparison of addresses that may be missing. *)
Definition addr_eqb (a b : option nat) : bool :=
  match a, b with Some x, Some y => Nat.eqb x y | None, None => true | _, _ => false end.
(** config.go:765-769 equal *)
Definition config_eqb (a b : config) : bool :=
  addr_eqb (c_web a) (c_web b) && Nat.eqb (c_tls a) (c_tls b) && Bool.eqb (c_quic a) (c_quic b) &&
  backends_eqb (c_backends a) (c_backends b) && Nat.eqb (c_rest a) (c_rest b).

(** proxy.go:705-734, http.go:39-57, quic.go:595-606: the servers of a backend. *)
Definition new_server (kept quic : bool) (b : backend) : server :=
  {| s_srv := b_http b; s_chan := b_http b;
     s_h3 := b_http b && quic && b_h3 b; s_h3_open := b_http b && quic && b_h3 b;
     s_shut := false; s_flight := 0; s_kept := kept |}.

(** proxy.go:850-854: how the backends that were in force are closed; p.ctx is nil before
    Start. *)
Definition retire (p : proxy) : option (list server) :=
  match p_cfg p with
  | None => Some (servers p)
  | Some (_, bs) => close_all (match p_ctx p with Some _ => close_soft | None => close_hard end) (servers p) bs
  end.

(** proxy.go:281-863 Reconfigure.  [fail]: None if there is no error; Some n if there is one
    when the servers of n backends have been started (proxy.go:431-734, 812-815). *)
Definition reconfigure (p : proxy) (c : config) (fail : option nat) : result :=
  if match p_cfg p with Some (c0, _) => config_eqb c c0 | None => false end then Went p
  else match fail with
  | Some n => Went (with_servers p (servers p ++ map (new_server false (c_quic c)) (firstn n (c_backends c))))
  | None =>
      match retire p with
      | None => Panicked
      | Some old =>
          let new := seq (List.length (servers p)) (List.length (c_backends c)) in
          Went {| servers := old ++ map (new_server true (c_quic c)) (c_backends c); socks := socks p;
                  ctxs := ctxs p; conns := conns p; p_cfg := Some (c, new); p_routes := new;
                  p_listener := p_listener p; p_quic := p_quic p; p_ctx := p_ctx p; p_key := p_key p;
                  stopping := stopping p; hanging_up := hanging_up p |}
      end
  end.

(** ** Start *)

(** Artefact: what the system answers to Start: may the sockets be opened (if the address is
    not in use), and does qt.Listen succeed. *)
Record answers := { a_web : bool; a_udp : bool; a_quic : bool; a_tls : bool }.

(** Artefact: TCP or UDP. *)
Definition over_udp (k : kind) : bool := match k with Udp => true | _ => false end.
(** Artefact: the address is in use by a socket of the proxy itself. *)
Definition in_use (p : proxy) (k : kind) (a : nat) : bool :=
  existsb (fun s => so_open s && Nat.eqb (so_addr s) a && Bool.eqb (over_udp (so_kind s)) (over_udp k)) (socks p).
(** net.Listen (proxy.go:913, 926), net.ListenUDP (netw/quic.go:57-63) *)
Definition listen (p : proxy) (k : kind) (a : nat) (ok : bool) : option (nat * proxy) :=
  if ok && negb (in_use p k a)
  then Some (List.length (socks p), with_socks p (socks p ++ [{| so_kind := k; so_addr := a; so_open := true |}]))
  else None.

(** quic.go:59-99 startQUIC: the socket is not closed if qt.Listen fails (lines 89-92).  The
    file of the stateless reset key is taken to be there (lines 60-70). *)
Definition start_quic (p : proxy) (c : config) (a : answers) : proxy * bool :=
  match listen p Udp (c_tls c) (a_udp a) with
  | None => (p, false)
  | Some (i, p1) =>
      if a_quic a then
        ({| servers := servers p1; socks := socks p1; ctxs := ctxs p1; conns := conns p1; p_cfg := p_cfg p1;
            p_routes := p_routes p1; p_listener := p_listener p1; p_quic := Some i; p_ctx := p_ctx p1;
            p_key := p_key p1; stopping := stopping p1; hanging_up := hanging_up p1 |}, true)
      else (p1, false)
  end.

(** proxy.go:905-939 Start: the result, and is the error nil. *)
Definition start (p : proxy) (a : answers) : option (proxy * bool) :=
  match p_cfg p with
  | None => None
  | Some (c, _) =>
      match match c_web c with
            | None => Some (None, p)
            | Some w => match listen p Web w (a_web a) with Some (i, p1) => Some (Some i, p1) | None => None end
            end with
      | None => Some (p, false)
      | Some (web, p1) =>
          let '(p2, ok) := if c_quic c then start_quic p1 c a else (p1, true) in
          if ok then
            match listen p2 Tls (c_tls c) (a_tls a) with
            | None => Some (p2, false)
            | Some (i, p3) =>
                Some ({| servers := servers p3; socks := socks p3;
                         ctxs := ctxs p3 ++ [{| x_done := false; x_web := web; x_waited := false |}];
                         conns := conns p3; p_cfg := p_cfg p3; p_routes := p_routes p3; p_listener := Some i;
                         p_quic := p_quic p3; p_ctx := Some (List.length (ctxs p3)); p_key := p_key p3;
                         stopping := stopping p3; hanging_up := hanging_up p3 |}, true)
            end
          else Some (p2, false)
      end
  end.

(** ** Stop and Shutdown *)

(** Listener.Close, Transport.Close, Server.Close *)
Definition close_sock (i : option nat) (l : list sock) : list sock :=
  match i with
  | None => l
  | Some i => change i (fun s => {| so_kind := so_kind s; so_addr := so_addr s; so_open := false |}) l
  end.
(** proxy.go:972-974, 1000-1002: quicTransport.Close ends all of its connections; their
    goroutines are yet to notice. *)
Definition cut_quic (q : option nat) (l : list conn) : list conn :=
  match q with
  | None => l
  | Some _ => map (fun n => if n_quic n then {| n_be := n_be n; n_quic := true; n_open := n_open n; n_cut := true |} else n) l
  end.
(** p.cancel() *)
Definition cancel (x : option nat) (l : list context) : list context :=
  match x with
  | None => l
  | Some i => change i (fun x => {| x_done := true; x_web := x_web x; x_waited := x_waited x |}) l
  end.
(** Artefact: the numbers of the connections that are open: p.inConns.slice(). *)
Definition open_conns (l : list conn) : list nat :=
  filter (fun i => match nth_error l i with Some n => n_open n | None => false end) (seq 0 (List.length l)).

(** proxy.go:965-982 Stop, the part that holds the mutex.  p.listener is nil before Start: a
    nil pointer. *)
Definition stop (p : proxy) : result :=
  match p_listener p with
  | None => Panicked
  | Some i =>
      Went {| servers := servers p; socks := close_sock (p_quic p) (close_sock (Some i) (socks p));
              ctxs := cancel (p_ctx p) (ctxs p); conns := cut_quic (p_quic p) (conns p);
              p_cfg := match p_cfg p with
                       | Some (c, _) => Some ({| c_web := c_web c; c_tls := c_tls c; c_quic := c_quic c;
                                                 c_backends := []; c_rest := c_rest c |}, [])
                       | None => None
                       end;
              p_routes := p_routes p; p_listener := p_listener p; p_quic := p_quic p; p_ctx := p_ctx p;
              p_key := false;
              stopping := stopping p ++ match p_cfg p with Some (_, bs) => bs | None => [] end;
              hanging_up := hanging_up p ++ open_conns (conns p) |}
  end.

(** proxy.go:996-1006 Shutdown, the part that holds the mutex. *)
Definition shutdown (p : proxy) : result :=
  match p_listener p with
  | None => Panicked
  | Some i =>
      match close_all close_soft (servers p) (match p_cfg p with Some (_, bs) => bs | None => [] end) with
      | None => Panicked
      | Some l =>
          Went (with_conns (with_servers (with_socks p (close_sock (p_quic p) (close_sock (Some i) (socks p)))) l)
                           (cut_quic (p_quic p) (conns p)))
      end
  end.

(** Artefact: take out the first one that is equal. *)
Fixpoint remove1 (b : nat) (l : list nat) : list nat :=
  match l with [] => [] | x :: l' => if Nat.eqb x b then l' else x :: remove1 b l' end.
(** Artefact: is the number in the list. *)
Definition among (b : nat) (l : list nat) : bool := existsb (Nat.eqb b) l.

(** proxy.go:1141-1153, quic.go:130-147: a connection is closed, and its callback runs. *)
Definition hang_up (p : proxy) (i : nat) : result :=
  match nth_error (conns p) i with
  | Some n =>
      if n_open n then
        match close_one leave (servers p) (n_be n) with
        | None => Panicked
        | Some l => Went (with_conns (with_servers p l)
            (change i (fun n => {| n_be := n_be n; n_quic := n_quic n; n_open := false; n_cut := n_cut n |}) (conns p)))
        end
      else Went p
  | None => Cannot
  end.

(** proxy.go:1175-1183, 1408-1430: p.backend finds a backend that is not shut down, and the
    connection is counted.  Taken as one step: AccountModel has what is between. *)
Definition arrive (p : proxy) (b : nat) (quic : bool) : result :=
  match p_ctx p, nth_error (servers p) b with
  | Some _, Some s =>
      if among b (p_routes p) && negb (s_shut s) then
        Went (with_conns (with_servers p (change b (set_flight (S (s_flight s))) (servers p)))
                         (conns p ++ [{| n_be := b; n_quic := quic; n_open := true; n_cut := false |}]))
      else Cannot
  | _, _ => Cannot
  end.

(** Artefact: the events. *)
Inductive event :=
| EReconfigure (c : config) (fail : option nat)
| EStart (a : answers)
| EStop                       (* a call of Stop, or the end of Shutdown (proxy.go:1029) *)
| ECloseBackend (b : nat)     (* Stop: be.close(nil) (proxy.go:984-986) *)
| ECloseConn (i : nat)        (* Stop: conn.Close() (proxy.go:987-989) *)
| EShutdown                   (* a call of Shutdown *)
| ECancel (x : nat)           (* the context given to Start is cancelled *)
| ECtxWait (x : nat)          (* ctxWait wakes up: s.Close(), then Stop (proxy.go:941-947) *)
| EArrive (b : nat) (quic : bool)
| EEnd (i : nat).             (* a connection ends for any other reason *)

(** Artefact: one step. *)
Definition step (p : proxy) (e : event) : result :=
  match e with
  | EReconfigure c fail => reconfigure p c fail
  | EStart a => match start p a with Some (p', _) => Went p' | None => Cannot end
  | EStop => stop p
  | ECloseBackend b =>
      if among b (stopping p) then
        match close_one close_hard (servers p) b with
        | None => Panicked
        | Some l => Went (with_work (with_servers p l) (remove1 b (stopping p)) (hanging_up p))
        end
      else Cannot
  | ECloseConn i =>
      if among i (hanging_up p) then
        match hang_up p i with
        | Went p' => Went (with_work p' (stopping p') (remove1 i (hanging_up p')))
        | r => r
        end
      else Cannot
  | EShutdown => shutdown p
  | ECancel x => Went (with_ctxs p (cancel (Some x) (ctxs p)))
  | ECtxWait x =>
      match nth_error (ctxs p) x with
      | Some c =>
          if x_done c && negb (x_waited c) then
            stop (with_socks (with_ctxs p (change x (fun c => {| x_done := x_done c; x_web := x_web c; x_waited := true |}) (ctxs p)))
                             (close_sock (x_web c) (socks p)))
          else Cannot
      | None => Cannot
      end
  | EArrive b q => arrive p b q
  | EEnd i => hang_up p i
  end.

(** Artefact: all the steps. *)
Fixpoint run (p : proxy) (tr : list event) : result :=
  match tr with
  | [] => Went p
  | e :: tr' => match step p e with Went p' => run p' tr' | r => r end
  end.
