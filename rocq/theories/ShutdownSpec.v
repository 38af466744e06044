(** Words for the theorems about Stop and Shutdown. *)
From Verif Require Import Base RouteModel ShutdownModel.

(** The proxy can be in this state. *)
Definition reachable (s : state) : Prop := exists tr, run start tr = Some s.

(** The connection with this number is in the list of open connections. *)
Definition open (s : state) (i : nat) : Prop := In i (tracked s).

(** A backend was chosen for the connection, and it has this mode. *)
Definition backend_mode (s : state) (i : nat) (m : mode) : Prop :=
  exists c, nth_error (conns s) i = Some c /\ c_known c = true /\ c_mode c = Some m.

(** The modes in which requests are served, and those in which bytes are passed on. *)
Definition tunnel (m : mode) : Prop := m = ModeTCP \/ m = ModeTLS \/ m = ModeTLSPassthrough.

(** The connection is with the HTTP server of its backend, or bridged to it. *)
Definition served (s : state) (i : nat) : Prop :=
  exists c, nth_error (conns s) i = Some c /\ c_place c = Served.
(** A backend with this mode has been found for the connection. *)
Definition routed (s : state) (i : nat) (m : mode) : Prop :=
  exists c, nth_error (conns s) i = Some c /\ c_mode c = Some m.
(** Modes in which the proxy itself speaks HTTP. *)
Definition speaks_http (m : mode) : Prop := m = ModeHTTP \/ m = ModeHTTPS \/ m = ModeLocal \/ m = ModeConsole.
(** The connection is closed. *)
Definition closed (s : state) (i : nat) : Prop :=
  exists c, nth_error (conns s) i = Some c /\ c_shut c = true.

(** Each handler is done or leaves the connection to others, and no Close is half-way. *)
Definition settled (s : state) : Prop :=
  forall i c, nth_error (conns s) i = Some c ->
    (c_place c = Served \/ c_place c = Returned) /\ c_callback c <> Taken /\ c_callback c <> Removed.

(** All connections are closed. *)
Definition all_closed (s : state) : Prop := forall i, i < List.length (conns s) -> closed s i.

(** Shutdown has gone on to Stop. *)
Definition gone_on (s : state) : Prop := main s <> Idle /\ main s <> Selecting.

(** No connection reports its end between the moment when Shutdown sees that there are
    connections left and the moment when it begins to wait. *)
Fixpoint no_report_missed (s : state) (tr : list event) : Prop :=
  match tr with
  | [] => True
  | e :: tr =>
      match step s e with
      | None => True
      | Some s' => (forall i, e = EBroadcast i -> wait s <> Found) /\ no_report_missed s' tr
      end
  end.

(** Only the end of the grace period changes anything. *)
Definition stuck (s : state) : Prop := forall e s', step s e = Some s' -> e = EExpire \/ s' = s.

(** The steps of Shutdown and Stop themselves. *)
Definition own_step (e : event) : Prop :=
  match e with
  | ECheck | EContinue | ECancel | ESnapshot | EStopNext | EStopEnd => True
  | _ => False
  end.
(** Steps other than closing a connection and the end of the grace period. *)
Definition nothing_closes (e : event) : Prop :=
  match e with EClose _ | EReturn _ | EExpire => False | _ => True end.
