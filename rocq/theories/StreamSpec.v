From Verif Require Import Base StreamModel.

Definition prefix (a b : list ascii) : Prop := exists c, b = a ++ c.

(** Events in which the proxy acts (or its attempt to dial ends), and not the client, the
    backend or a clock. *)
Definition by_proxy (e : event) : bool :=
  match e with
  | CSend _ | CFin | CAbort | CStop | CGone | BSend _ | BFin | BReset | CExpire | BExpire => false
  | _ => true
  end.
(** The proxy has nothing left to do until the client, the backend or a clock acts. *)
Definition at_rest (sc cc : bool) (s : state) : Prop :=
  forall e, by_proxy e = true -> step sc cc s e = None.

(** The history contains something that is not a normal exchange: the client aborts a direction
    or its connection is lost, the backend cannot be reached or disappears, a timeout passes or a
    half-close fails. *)
Definition fault (e : event) : bool :=
  match e with
  | CAbort | CStop | CGone | BReset | CExpire | BExpire | DialFail => true
  | UCloseWrite ok | DCloseWrite ok | DCloseRead ok => negb ok
  | _ => false
  end.
Definition normal (tr : list event) : Prop := forall e, In e tr -> fault e = false.

(** The client may still send on the stream, and has not been told to stop. *)
Definition may_send (t : stream) : Prop :=
  fin t = false /\ aborted t = false /\ gone t = false /\ refused t = false.
