(** The limit on open connections (proxy/conntracker.go, proxy/proxy.go,
    proxy/quic.go). *)
From Verif Require Import Base.

(** An entry of connTracker.conns: the connection and whether its handler
    passes the test of the limit.  The key is the pair of address pointers of
    the connection, which no other open connection shares, so the map is a list
    of distinct connections. *)
Record entry := { eId : nat; admitted : bool }.
(** conntracker.go:40-43 connTracker. *)
Definition tracker := list entry.

(** Artefact: handleConnection reaches add (proxy.go:1140, quic.go:129), or a close callback
    runs. *)
Inductive ev := Arrive (id : nat) | Closed (id : nat).

(** conntracker.go:55-64 add returns the number of entries including the new
    one; proxy.go:1154-1159 and quic.go:169-174 refuse the connection when that
    number is at least MaxOpen.  conntracker.go:66-72 remove, called by the
    close callback. *)
Definition step (maxOpen : nat) (t : tracker) (e : ev) : tracker :=
  match e with
  | Arrive id =>
      let numOpen := S (List.length t) in
      {| eId := id; admitted := negb (maxOpen <=? numOpen) |} :: t
  | Closed id => filter (fun x => negb (eId x =? id)) t
  end.

(** Artefact: a history. *)
Definition run (maxOpen : nat) (evs : list ev) : tracker := fold_left (step maxOpen) evs [].

(** Connections being served. *)
Definition served (t : tracker) : nat := List.length (filter admitted t).
