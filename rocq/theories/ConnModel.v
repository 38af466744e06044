(** proxy/internal/netw/netw.go: the byte stream of an accepted connection. *)
From Verif Require Import Base.

(** netw.go:82-100, the fields of [Conn] that matter for the stream.
    [wire] is what the peer sent and the operating system has not yet handed
    out.  [received] is the value of the [bytesReceived] counter.  The wire is
    the whole future input: how much of it a system call returns is decided by
    the environment through the [got] arguments below. *)
Record conn := mkConn {
  peekBuf : str;
  wire : str;
  received : nat
}.

(** One system-level read of at most [want] bytes of which the environment
    delivers [got] (clipped to what was asked for and to what was sent). *)
Definition os_read (w : str) (want got : nat) : str * str :=
  let k := Nat.min got want in
  (firstn k w, skipn k w).

(** netw.go:183-199 Conn.Peek.  [io.ReadFull] asks for [want - have] bytes and
    returns [got] of them, fewer on end of file or on the 30 second deadline.
    Result: the bytes copied to the caller's buffer and whether the call
    succeeded ([n < want] is io.ErrUnexpectedEOF). *)
Definition peek (c : conn) (want got : nat) : conn * str * bool :=
  let have := List.length (peekBuf c) in
  let c' :=
    if have <? want then
      let '(bb, w') := os_read (wire c) (want - have) got in
      mkConn (peekBuf c ++ bb) w' (received c)
    else c in
  let out := firstn want (peekBuf c') in
  (c', out, negb (List.length out <? want)).

(** netw.go:201-218 Conn.Read.  [limiterErr] is the outcome of the ingress
    limiter's WaitN; on error the call returns 0 bytes.  When peeked bytes are
    pending they are served first, otherwise the underlying connection is
    read. *)
Definition read (c : conn) (limiterErr : bool) (want got : nat) : conn * str :=
  if limiterErr then (c, [])
  else
    match peekBuf c with
    | _ :: _ =>
        let out := firstn want (peekBuf c) in
        (mkConn (skipn (List.length out) (peekBuf c)) (wire c)
                (received c + List.length out), out)
    | [] =>
        let '(out, w') := os_read (wire c) want got in
        (mkConn [] w' (received c + List.length out), out)
    end.

(** Artefact: the two calls, with what the network delivers. *)
Inductive connOp :=
| OPeek (want got : nat)
| ORead (limiterErr : bool) (want got : nat).

(** What a caller observes: the bytes of each read, and of each peek. *)
Inductive connOut :=
| OutPeek (b : str) (ok : bool)
| OutRead (b : str).

(** netw.go:183-218, one call. *)
Definition conn_step (c : conn) (o : connOp) : conn * connOut :=
  match o with
  | OPeek want got => let '(c', b, ok) := peek c want got in (c', OutPeek b ok)
  | ORead le want got => let '(c', b) := read c le want got in (c', OutRead b)
  end.

(** Artefact: a sequence of calls (they are made by one goroutine at a time). *)
Fixpoint conn_run (c : conn) (ops : list connOp) : conn * list connOut :=
  match ops with
  | [] => (c, [])
  | o :: ops' =>
      let '(c1, x) := conn_step c o in
      let '(c2, xs) := conn_run c1 ops' in
      (c2, x :: xs)
  end.

(** netw.go:38-60: a freshly accepted connection. *)
Definition fresh_conn (stream : str) : conn := mkConn [] stream 0.
