(** Bandwidth limits: the limiter of one direction of a limit group and the calls of
    Read (or of Write) on all the connections that share it.  Time is in nanoseconds,
    tokens are in billionths of a byte, so that the arithmetic of the limiter is exact;
    the library computes with floating point numbers.  The limiter is
    golang.org/x/time/rate v0.8.0, a dependency that is not in /repo. *)
From Coq Require Import ZArith List Bool.
Import ListNotations.
Local Open Scope Z_scope.

(** Artefact: nanoseconds in a second, tokens in a byte. *)
Definition giga : Z := 1000000000.

(** golang.org/x/time/rate Limiter: limit, burst, tokens, last, lastEvent. *)
Record limiter := { rate : Z; burst : Z; tokens : Z; last : Z; lastEvent : Z }.

(** proxy/proxy.go:415: minBurst. *)
Definition minBurst : Z := 131072.

(** golang.org/x/time/rate NewLimiter, at time 0.  It leaves tokens and last at zero;
    since the zero time is long ago, the first call finds the bucket full. *)
Definition new_limiter (r b : Z) : limiter :=
  {| rate := r; burst := b; tokens := b * giga; last := 0; lastEvent := 0 |}.

(** golang.org/x/time/rate advance: the tokens there are at time [t]. *)
Definition advance (l : limiter) (t : Z) : Z :=
  Z.min (burst l * giga) (tokens l + rate l * (t - Z.min t (last l))).

(** golang.org/x/time/rate WaitN and reserveN: [None] is an error, [Some (l, act)] a
    call that waits until [act].  The check of the context is in [step].  With limit 0
    the library takes the tokens from the burst itself.  Simplified: negative rates
    are not modelled. *)
Definition reserve (l : limiter) (t n : Z) : option (limiter * Z) :=
  if burst l <? n then None
  else if rate l =? 0 then
    Some ({| rate := 0; burst := burst l - n; tokens := tokens l; last := last l;
             lastEvent := lastEvent l |}, t)
  else
    let left := advance l t - n * giga in
    let act := if left <? 0 then t + (- left) / rate l else t in
    Some ({| rate := rate l; burst := burst l; tokens := left; last := t;
             lastEvent := act |}, act).

(** golang.org/x/time/rate CancelAt: the caller of WaitN for [n] bytes, which was to
    wait until [act], gives up at time [t]. *)
Definition cancel (l : limiter) (t n act : Z) : limiter :=
  if (act <? t) || (n =? 0) then l
  else
    let restore := n * giga - rate l * (lastEvent l - act) in
    if restore <=? 0 then l
    else
      let tok := Z.min (burst l * giga) (advance l t + restore) in
      let prev := act - n * giga / rate l in
      let ev := if (act =? lastEvent l) && (t <=? prev) then prev else lastEvent l in
      {| rate := rate l; burst := burst l; tokens := tok; last := t; lastEvent := ev |}.

(** Artefact: a call that was let in by the limiter and has not returned: its
    connection, the size of its buffer, the end of its wait. *)
Record waiter := { wConn : nat; wSize : Z; wAct : Z }.

(** proxy/internal/netw/netw.go:83-100 Conn, proxy/internal/netw/quic.go:142-156 and
    508-516: the connections of the group: the calls in progress and the connections
    whose context is done. *)
Record state := { lim : limiter; waiting : list waiter; done : list nat }.

(** Artefact: what happens on a connection. *)
Inductive event :=
| Call (i : nat) (n : Z)      (* Read or Write with a buffer of n bytes *)
| Move (i : nat) (k : Z)      (* the call in progress moves k bytes and returns *)
| HalfClose (i : nat)         (* CloseWrite *)
| CloseConn (i : nat).        (* Close *)

(** Artefact: what is seen of it. *)
Inductive note :=
| Let (i : nat) (act : Z)     (* the call may go ahead at act *)
| Refused (i : nat)           (* the call fails with an error *)
| Moved (i : nat) (k : Z)     (* bytes went through *)
| GaveUp (i : nat)            (* the connection was closed during the wait *)
| Quiet.

(** Artefact: the call in progress on a connection. *)
Fixpoint find_waiter (i : nat) (w : list waiter) : option waiter :=
  match w with
  | [] => None
  | x :: w => if Nat.eqb (wConn x) i then Some x else find_waiter i w
  end.

(** Artefact: the calls in progress after that one returns. *)
Fixpoint drop_waiter (i : nat) (w : list waiter) : list waiter :=
  match w with
  | [] => []
  | x :: w => if Nat.eqb (wConn x) i then w else x :: drop_waiter i w
  end.

(** proxy/internal/netw/netw.go:232-240 Close, proxy/internal/netw/quic.go:590-594, 611-613:
    the context of connection [i] is done.  A call that is still waiting gives up; one
    that is past its wait fails in the connection itself. *)
Definition end_context (s : state) (t : Z) (i : nat) : state * note :=
  match find_waiter i (waiting s) with
  | None => ({| lim := lim s; waiting := waiting s; done := i :: done s |}, Quiet)
  | Some w =>
      let ws := drop_waiter i (waiting s) in
      if wAct w <=? t then ({| lim := lim s; waiting := ws; done := i :: done s |}, Quiet)
      else ({| lim := cancel (lim s) t (wSize w) (wAct w); waiting := ws;
               done := i :: done s |}, GaveUp i)
  end.

(** proxy/internal/netw/netw.go:201-230 Read and Write,
    proxy/internal/netw/quic.go:560-594: one event at time [t]; [None] when it cannot happen.  The limiter
    is asked for the size of the buffer before the bytes are read.  [quic i] says that
    the connection is a QUIC stream, whose Context (quic-go) is done as soon as its
    write side is closed.  Simplified: a connection has at most one call in progress
    in a direction. *)
Definition step (quic : nat -> bool) (s : state) (t : Z) (e : event) : option (state * note) :=
  match e with
  | Call i n =>
      match find_waiter i (waiting s) with
      | Some _ => None
      | None =>
          if n <? 0 then None
          else if burst (lim s) <? n then Some (s, Refused i)
          else if existsb (Nat.eqb i) (done s) then Some (s, Refused i)
          else match reserve (lim s) t n with
               | None => Some (s, Refused i)
               | Some (l, act) =>
                   Some ({| lim := l;
                            waiting := {| wConn := i; wSize := n; wAct := act |} :: waiting s;
                            done := done s |}, Let i act)
               end
      end
  | Move i k =>
      match find_waiter i (waiting s) with
      | None => None
      | Some w =>
          if (wAct w <=? t) && (0 <=? k) && (k <=? wSize w)
          then Some ({| lim := lim s; waiting := drop_waiter i (waiting s);
                        done := done s |}, Moved i k)
          else None
      end
  | HalfClose i => if quic i then Some (end_context s t i) else Some (s, Quiet)
  | CloseConn i => Some (end_context s t i)
  end.

(** Artefact: a history, every event with its time. *)
Fixpoint run (quic : nat -> bool) (s : state) (h : list (Z * event))
  : option (state * list (Z * note)) :=
  match h with
  | [] => Some (s, [])
  | (t, e) :: h =>
      match step quic s t e with
      | None => None
      | Some (s, x) =>
          match run quic s h with
          | None => None
          | Some (s, out) => Some (s, (t, x) :: out)
          end
      end
  end.

(** Artefact: a new limiter with nobody waiting. *)
Definition start_with (r b : Z) : state :=
  {| lim := new_limiter r b; waiting := []; done := [] |}.

(** proxy/proxy.go:424-427: the group before its first connection. *)
Definition fresh (r : Z) : state := start_with r (Z.max r minBurst).
