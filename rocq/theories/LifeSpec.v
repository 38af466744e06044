(** Words for what happens to a proxy over its life. *)
From Verif Require Import Base LifeModel.

(** The history is possible and ends in this state. *)
Definition reaches (tr : list event) (p : proxy) : Prop := run fresh tr = Went p.

(** A call of Start, or one that a history makes. *)
Definition starts (e : event) : bool := match e with EStart _ => true | _ => false end.
(** Start is called at most once. *)
Definition one_start (tr : list event) : Prop := List.length (filter starts tr) <= 1.
(** The last call of Start has returned without an error, and there was one. *)
Definition started (p : proxy) : Prop := p_ctx p <> None.
(** A call of Stop, by the user or by the goroutine that waits for the context, or one of
    Shutdown. *)
Definition stops (e : event) : bool := match e with EStop | ECtxWait _ => true | _ => false end.
(** The same with Shutdown. *)
Definition ends_it (e : event) : bool := match e with EStop | ECtxWait _ | EShutdown => true | _ => false end.

(** A socket of this kind accepts. *)
Definition accepts (p : proxy) (k : kind) : Prop := exists s, In s (socks p) /\ so_kind s = k /\ so_open s = true.

(** The backends in force. *)
Definition in_force (p : proxy) : list nat := match p_cfg p with Some (_, bs) => bs | None => [] end.

(** The HTTP server of a backend, or what is left of it, runs. *)
Definition runs (p : proxy) (b : nat) : Prop := exists s, nth_error (servers p) b = Some s /\ s_chan s = true.
(** The HTTP/3 server of a backend has not been closed. *)
Definition runs_h3 (p : proxy) (b : nat) : Prop := exists s, nth_error (servers p) b = Some s /\ s_h3_open s = true.
(** A backend was in force at some time. *)
Definition was_in_force (p : proxy) (b : nat) : Prop := exists s, nth_error (servers p) b = Some s /\ s_kept s = true.

(** A connection for a backend is open. *)
Definition connected (p : proxy) (i b : nat) : Prop :=
  exists n, nth_error (conns p) i = Some n /\ n_open n = true /\ n_be n = b.
(** Its bytes can still get through: the transport is there. *)
Definition alive (p : proxy) (i : nat) : Prop :=
  exists n, nth_error (conns p) i = Some n /\ n_open n = true /\ n_cut n = false.

(** All calls of Stop have returned, and every goroutine that waits for a context which is
    done has run. *)
Definition quiet (p : proxy) : Prop :=
  stopping p = [] /\ hanging_up p = [] /\
  forall x c, nth_error (ctxs p) x = Some c -> x_done c = true -> x_waited c = true.

(** A response of the backend tells clients to use HTTP/3 (backend-http.go:397-414): the
    fields that do not depend on the request. *)
Definition advertises (p : proxy) (b : nat) : Prop := exists s, nth_error (servers p) b = Some s /\ s_h3 s = true.

(** The number of connections that are open for a backend. *)
Definition open_for (b : nat) (l : list conn) : nat :=
  List.length (filter (fun n => n_open n && Nat.eqb (n_be n) b) l).

(** No configuration is loaded that has another setting for QUIC. *)
Definition same_quic (q : bool) (e : event) : Prop :=
  match e with EReconfigure c _ => c_quic c = q | _ => True end.
