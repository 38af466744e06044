(** Stopping the proxy: Stop and Shutdown against the goroutines of the connections.
    Each event below is one atomic step of one goroutine.

    TCP connections only: QUIC connections end when their transport is closed
    (proxy.go:972-974, 1000-1002).  Reconfiguration is left out, and so is the second
    call of Stop by ctxWait (proxy.go:941-947), which closes once more what is open. *)
From Verif Require Import Base RouteModel.

(** Where the goroutine of a connection is (proxy.go:1120-1216 handleConnection). *)
Inductive place :=
| Accepted       (* listener.Accept has returned *)
| Added          (* inConns.add done *)
| Armed          (* the OnClose callback is installed *)
| Looked         (* p.backend has returned the backend *)
| Routed         (* the connection is annotated with it *)
| Gated          (* connLimit.Wait has let it pass *)
| Served         (* with the HTTP server of the backend, or bridged to the backend *)
| Returned.      (* the handler has returned *)

(** The onClose field of the connection and the progress of its callback
    (proxy.go:1141-1153, netw.go:232-242). *)
Inductive callback := Unset | Installed | Taken | Removed | Called.

(** Artefact: a connection.  [c_mode]: what p.backend has found; [c_known]: the connection
    is annotated with it; [c_shut]: the socket is closed. *)
Record conn := { c_place : place; c_mode : option mode; c_known : bool; c_callback : callback; c_shut : bool }.

(** Artefact: the goroutine that calls Shutdown, or Stop. *)
Inductive caller :=
| Idle                       (* not called yet *)
| Selecting                  (* Shutdown: proxy.go:1025-1028 *)
| Stopping                   (* at the start of Stop *)
| Cancelled                  (* Stop has cancelled p.ctx and closed the listener *)
| Closing (l : list nat)     (* Stop has these connections left to close *)
| Stopped.                   (* returned *)
(** Artefact: the goroutine that Shutdown starts (proxy.go:1008-1024). *)
Inductive waiter :=
| NoWaiter
| Checking                   (* before connLeft() *)
| Found                      (* connLeft() is true, connClosed.Wait() not yet entered *)
| Waiting                    (* in the list of the condition variable *)
| Done.                      (* close(done) *)

(** Artefact: all connections ever accepted, by number; inConns; the backends with an
    HTTP server are shut down (proxy.go:1003-1005); the listener is open; the context that was given to Shutdown is done. *)
Record state := {
  conns : list conn; tracked : list nat; down : bool; listening : bool; cancelled : bool; expired : bool;
  main : caller; wait : waiter
}.

(** proxy.go:905-939 Start: no connection yet. *)
Definition start : state :=
  {| conns := []; tracked := []; down := false; listening := true; cancelled := false; expired := false;
     main := Idle; wait := NoWaiter |}.

(** util.go:109-117 connMode: of an incoming connection only the backend is annotated. *)
Definition conn_mode (c : conn) : option mode := if c_known c then c_mode c else None.
(** proxy.go:1012: the connections that Shutdown waits for. *)
Definition awaited (m : option mode) : bool :=
  match m with
  | Some ModeTCP | Some ModeTLS | Some ModeTLSPassthrough => false
  | _ => true
  end.
(** proxy.go:1010-1017 connLeft *)
Definition conn_left (s : state) : bool :=
  existsb (fun i => match nth_error (conns s) i with Some c => awaited (conn_mode c) | None => false end) (tracked s).

(** Artefact: the steps. *)
Inductive event :=
| EAccept                     (* listener.Accept returns a connection (proxy.go:952-961) *)
| EAdd (i : nat)              (* p.inConns.add(conn) (proxy.go:1140) *)
| EArm (i : nat)              (* conn.OnClose(f) (proxy.go:1141) *)
| ELookup (i : nat) (m : mode)  (* p.backend() succeeds (proxy.go:1175) *)
| EAnnotate (i : nat)         (* SetAnnotation(backendKey, be) (proxy.go:1182) *)
| EGate (i : nat)             (* the handshake is done and connLimit.Wait(p.ctx) returns nil (proxy.go:1296, 1325, 1367) *)
| EServe (i : nat)            (* handed over or bridged (proxy.go:1316, 1349, 1389) *)
| EReturn (i : nat)           (* the handler gives up, or the bridge ends, and the connection is closed *)
| EClose (i : nat)            (* any other conn.Close() *)
| ERemove (i : nat)           (* p.inConns.remove(conn) (proxy.go:1142) *)
| EBroadcast (i : nat)        (* p.connClosed.Broadcast() (proxy.go:1152), and the socket is closed *)
| EShutdown                   (* Shutdown up to the start of the goroutine (proxy.go:997-1009) *)
| ECheck                      (* connLeft() (proxy.go:1020) *)
| EWait                       (* connClosed.Wait() enters the list (proxy.go:1021) *)
| EExpire                     (* the context of Shutdown is done *)
| EContinue                   (* the select of Shutdown (proxy.go:1025-1028) *)
| EStop                       (* Stop is called *)
| ECancel                     (* p.cancel(), p.listener.Close() (proxy.go:967-971) *)
| ESnapshot                   (* p.inConns.slice() (proxy.go:981) *)
| EStopNext                   (* conn.Close() in Stop (proxy.go:987-989) *)
| EStopEnd.                   (* Stop returns *)

(** Artefact: list update. *)
Fixpoint upd {A} (i : nat) (x : A) (l : list A) : list A :=
  match i, l with
  | _, [] => []
  | O, _ :: l' => x :: l'
  | S i', y :: l' => y :: upd i' x l'
  end.
(** Artefact: update of one connection. *)
Definition set_conn (s : state) (i : nat) (c : conn) : state :=
  {| conns := upd i c (conns s); tracked := tracked s; down := down s; listening := listening s;
     cancelled := cancelled s; expired := expired s; main := main s; wait := wait s |}.
(** Artefact: update of the list of open connections. *)
Definition set_tracked (s : state) (l : list nat) : state :=
  {| conns := conns s; tracked := l; down := down s; listening := listening s;
     cancelled := cancelled s; expired := expired s; main := main s; wait := wait s |}.
(** Artefact: update of the caller. *)
Definition set_main (s : state) (m : caller) : state :=
  {| conns := conns s; tracked := tracked s; down := down s; listening := listening s;
     cancelled := cancelled s; expired := expired s; main := m; wait := wait s |}.
(** Artefact: update of the waiting goroutine. *)
Definition set_wait (s : state) (w : waiter) : state :=
  {| conns := conns s; tracked := tracked s; down := down s; listening := listening s;
     cancelled := cancelled s; expired := expired s; main := main s; wait := w |}.
(** Artefact: the handler goes on. *)
Definition at_place (c : conn) (p : place) : conn :=
  {| c_place := p; c_mode := c_mode c; c_known := c_known c; c_callback := c_callback c; c_shut := c_shut c |}.
(** Artefact: progress of the callback. *)
Definition with_callback (c : conn) (x : callback) (shut : bool) : conn :=
  {| c_place := c_place c; c_mode := c_mode c; c_known := c_known c; c_callback := x; c_shut := shut |}.
(** netw.go:232-242 Close: the first call takes the callback and runs it before it closes
    the socket; the others close the socket. *)
Definition close_conn (c : conn) : conn :=
  match c_callback c with
  | Installed => with_callback c Taken (c_shut c)
  | x => with_callback c x true
  end.
(** sync.Cond.Broadcast *)
Definition wake (w : waiter) : waiter := match w with Waiting => Checking | w => w end.

(** proxy.go:704-734: the modes whose backends have an HTTP server.  The others are not
    shut down by close (backend.go:58-60). *)
Definition has_server (m : mode) : bool :=
  match m with ModeHTTP | ModeHTTPS | ModeLocal | ModeConsole => true | _ => false end.

(** Artefact: a step of the handler of connection [i] that is at [p]. *)
Definition handler (s : state) (i : nat) (p : place) (k : conn -> option state) : option state :=
  match nth_error (conns s) i with
  | Some c =>
      match c_place c, p with
      | Accepted, Accepted | Added, Added | Armed, Armed | Looked, Looked | Routed, Routed | Gated, Gated => k c
      | _, _ => None
      end
  | None => None
  end.

(** One atomic step; [None]: the step is not possible in this state. *)
Definition step (s : state) (e : event) : option state :=
  match e with
  | EAccept =>
      if listening s then
        Some {| conns := conns s ++ [{| c_place := Accepted; c_mode := None; c_known := false; c_callback := Unset; c_shut := false |}];
                tracked := tracked s; down := down s; listening := true; cancelled := cancelled s; expired := expired s;
                main := main s; wait := wait s |}
      else None
  | EAdd i => handler s i Accepted (fun c => Some (set_tracked (set_conn s i (at_place c Added)) (i :: tracked s)))
  | EArm i => handler s i Added (fun c => Some (set_conn s i (with_callback (at_place c Armed) Installed (c_shut c))))
  | ELookup i m =>
      handler s i Armed (fun c =>
        if down s && has_server m then None
        else Some (set_conn s i {| c_place := Looked; c_mode := Some m; c_known := false;
                                   c_callback := c_callback c; c_shut := c_shut c |}))
  | EAnnotate i =>
      handler s i Looked (fun c => Some (set_conn s i {| c_place := Routed; c_mode := c_mode c; c_known := true;
                                                         c_callback := c_callback c; c_shut := c_shut c |}))
  | EGate i =>
      handler s i Routed (fun c => if cancelled s then None else Some (set_conn s i (at_place c Gated)))
  | EServe i => handler s i Gated (fun c => Some (set_conn s i (at_place c Served)))
  | EReturn i =>
      match nth_error (conns s) i with
      | Some c => match c_place c with
                  | Accepted | Added | Returned => None
                  | _ => Some (set_conn s i (close_conn (at_place c Returned)))
                  end
      | None => None
      end
  | EClose i =>
      match nth_error (conns s) i with
      | Some c => match c_place c with
                  | Accepted | Added => None
                  | _ => Some (set_conn s i (close_conn c))
                  end
      | None => None
      end
  | ERemove i =>
      match nth_error (conns s) i with
      | Some c => match c_callback c with
                  | Taken => Some (set_tracked (set_conn s i (with_callback c Removed (c_shut c)))
                                     (filter (fun j => negb (j =? i)) (tracked s)))
                  | _ => None
                  end
      | None => None
      end
  | EBroadcast i =>
      match nth_error (conns s) i with
      | Some c => match c_callback c with
                  | Removed => Some (set_wait (set_conn s i (with_callback c Called true)) (wake (wait s)))
                  | _ => None
                  end
      | None => None
      end
  | EShutdown =>
      match main s with
      | Idle => Some {| conns := conns s; tracked := tracked s; down := true; listening := false; cancelled := cancelled s;
                        expired := expired s; main := Selecting; wait := Checking |}
      | _ => None
      end
  | ECheck =>
      match wait s with
      | Checking => Some (set_wait s (if conn_left s then Found else Done))
      | _ => None
      end
  | EWait => match wait s with Found => Some (set_wait s Waiting) | _ => None end
  | EExpire =>
      Some {| conns := conns s; tracked := tracked s; down := down s; listening := listening s; cancelled := cancelled s;
              expired := true; main := main s; wait := wait s |}
  | EContinue =>
      match main s with
      | Selecting =>
          if expired s then Some (set_main s Stopping)
          else match wait s with Done => Some (set_main s Stopping) | _ => None end
      | _ => None
      end
  | EStop => match main s with Idle => Some (set_main s Stopping) | _ => None end
  | ECancel =>
      match main s with
      | Stopping => Some {| conns := conns s; tracked := tracked s; down := down s; listening := false; cancelled := true;
                            expired := expired s; main := Cancelled; wait := wait s |}
      | _ => None
      end
  | ESnapshot => match main s with Cancelled => Some (set_main s (Closing (tracked s))) | _ => None end
  | EStopNext =>
      match main s with
      | Closing (i :: l) =>
          match nth_error (conns s) i with
          | Some c => Some (set_main (set_conn s i (close_conn c)) (Closing l))
          | None => None
          end
      | _ => None
      end
  | EStopEnd => match main s with Closing [] => Some (set_main s Stopped) | _ => None end
  end.

(** Artefact: a history of steps. *)
Fixpoint run (s : state) (tr : list event) : option state :=
  match tr with
  | [] => Some s
  | e :: tr => match step s e with Some s' => run s' tr | None => None end
  end.
