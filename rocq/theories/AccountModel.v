(** Bookkeeping of connections: the list of open connections, the number of
    requests in flight per backend, and the hand-over channel of a backend's
    HTTP server.  Goroutines are interleaved at the granularity of the critical
    sections of the code: each event below is one atomic step of one goroutine.
    (proxy/conntracker.go, proxy/proxy.go, proxy/quic.go, proxy/backend.go,
    proxy/http.go, proxy/internal/netw) *)
From Verif Require Import Base.

(** handleConnection (TCP) and handleQUICConnection (QUIC) do the same steps in
    a different order: TCP annotates the connection with its backend and then
    counts it (proxy.go:1182-1183), QUIC counts it first (quic.go:165-166). *)
Inductive kind := KTCP | KQUIC.

(** Where the handler of the connection is. *)
Inductive hpc :=
| HAdded        (* inConns.add done *)
| HArmed        (* OnClose callback installed *)
| HLooked       (* p.backend() returned the backend *)
| HFirst        (* first of the two accounting steps done *)
| HReady        (* both done *)
| HServed       (* taken from the channel by the HTTP server *)
| HDrained      (* taken from the channel by the drain loop *)
| HSendPanic    (* send on closed channel *)
| HEnded.       (* gave up before being given to a backend *)

(** The onClose field of the connection and the progress of the callback. *)
Inductive cbpc :=
| CbUnset | CbSet
| CbTaken       (* a Close call took the callback out of the field *)
| CbRemoved     (* inConns.remove done *)
| CbPending     (* callback has read a non-nil backend annotation *)
| CbDone.

(** Artefact: the ghost state of one connection: its kind, the backend it is routed to,
    where its handler is, whether connBackend is annotated (util.go:102-107), and its close
    callback (netw.go:232-236). *)
Record conn := { ckind : kind; cbk : nat; cpc : hpc; cann : bool; ccb : cbpc }.

(** Backend.state and its HTTP server. [alive] is httpServer != nil. *)
Record bst := {
  inFlight : Z; shutdown : bool; alive : bool; chanClosed : bool; listenerClosed : bool;
  doubleClose : bool     (* a close of a closed channel happened (run-time panic) *)
}.

(** Artefact: all connections ever made, by number; connTracker.conns
    (conntracker.go:40-43); the backends. *)
Record state := { conns : list conn; tracked : list nat; bes : nat -> bst }.

(** config.go:445-451 backendState of a new backend; proxy.go:704-731 starts its server. *)
Definition fresh_be : bst :=
  {| inFlight := 0; shutdown := false; alive := true; chanClosed := false;
     listenerClosed := false; doubleClose := false |}.
(** Artefact: the state after Start (proxy.go:905-939), no connection yet. *)
Definition init : state := {| conns := []; tracked := []; bes := fun _ => fresh_be |}.

(** Artefact: list update. *)
Fixpoint upd {A} (i : nat) (x : A) (l : list A) : list A :=
  match i, l with
  | _, [] => []
  | O, _ :: l' => x :: l'
  | S i', y :: l' => y :: upd i' x l'
  end.

(** Artefact: update of one connection. *)
Definition set_conn (s : state) (i : nat) (c : conn) : state :=
  {| conns := upd i c (conns s); tracked := tracked s; bes := bes s |}.
(** Artefact: update of one backend. *)
Definition set_be (s : state) (b : nat) (x : bst) : state :=
  {| conns := conns s; tracked := tracked s;
     bes := fun b' => if b' =? b then x else bes s b' |}.

(** close(be.httpConnChan); be.httpServer = nil *)
Definition close_chan (x : bst) : bst :=
  {| inFlight := inFlight x; shutdown := shutdown x; alive := false; chanClosed := true;
     listenerClosed := listenerClosed x; doubleClose := doubleClose x || chanClosed x |}.

(** backend.go:44-53 incInFlight *)
Definition inc_in_flight (d : Z) (x : bst) : bst :=
  let x' := {| inFlight := inFlight x + d; shutdown := shutdown x; alive := alive x;
               chanClosed := chanClosed x; listenerClosed := listenerClosed x;
               doubleClose := doubleClose x |} in
  if (inFlight x' =? 0)%Z && shutdown x && alive x then close_chan x' else x'.

(** backend.go:55-81 close(ctx) with a context (graceful) and with nil (Stop). *)
Definition close_graceful (x : bst) : bst :=
  if alive x then
    let x' := {| inFlight := inFlight x; shutdown := true; alive := alive x;
                 chanClosed := chanClosed x; listenerClosed := listenerClosed x;
                 doubleClose := doubleClose x |} in
    if (inFlight x =? 0)%Z then close_chan x' else x'
  else x.
(** backend.go:55-81 close(nil). *)
Definition close_now (x : bst) : bst := if alive x then close_chan x else x.

(** Artefact: the atomic steps; each constructor cites its code. *)
Inductive event :=
| EAdd (k : kind) (b : nat)   (* a new connection: p.inConns.add (proxy.go:1140, quic.go:129) *)
| EArm (c : nat)              (* conn.OnClose(f) (proxy.go:1141, quic.go:130) *)
| ELookup (c : nat)           (* p.backend() succeeds (proxy.go:1175, quic.go:158) *)
| EGiveUp (c : nat)           (* the handler returns before that *)
| EFirst (c : nat)
| ESecond (c : nat)
| ESendServe (c : nat)        (* httpConnChan <- conn received by Accept (http.go:73-84) *)
| ESendDrain (c : nat)        (* ... received by the drain loop of Close (http.go:93-96) *)
| ESendPanic (c : nat)        (* ... on a closed channel *)
| EClose (c : nat)            (* conn.Close() by any goroutine: takes the callback (netw.go:232-236, quic.go:261-265) *)
| ECbRemove (c : nat)         (* p.inConns.remove(conn) *)
| ECbRead (c : nat)           (* be := connBackend(conn) *)
| ECbDec (c : nat)            (* be.incInFlight(-1) *)
| EGraceful (b : nat)         (* be.close(ctx) on reconfiguration or Shutdown *)
| EListener (b : nat)         (* httpServer.Shutdown closes the listener *)
| EStop (b : nat).            (* be.close(nil) on Stop *)

(** Artefact: record update. *)
Definition with_pc (c : conn) (h : hpc) : conn :=
  {| ckind := ckind c; cbk := cbk c; cpc := h; cann := cann c; ccb := ccb c |}.
(** SetAnnotation of the backend (proxy.go:1182, quic.go:166). *)
Definition with_ann (c : conn) (h : hpc) : conn :=
  {| ckind := ckind c; cbk := cbk c; cpc := h; cann := true; ccb := ccb c |}.
(** Artefact: record update. *)
Definition with_cb (c : conn) (x : cbpc) : conn :=
  {| ckind := ckind c; cbk := cbk c; cpc := cpc c; cann := cann c; ccb := x |}.

(** One atomic step; [None]: the step is not possible in this state. *)
Definition step (s : state) (e : event) : option state :=
  match e with
  | EAdd k b =>
      Some {| conns := conns s ++ [{| ckind := k; cbk := b; cpc := HAdded; cann := false; ccb := CbUnset |}];
              tracked := List.length (conns s) :: tracked s; bes := bes s |}
  | EArm i =>
      match nth_error (conns s) i with
      | Some c => match cpc c with
                  | HAdded => Some (set_conn s i (with_cb (with_pc c HArmed) CbSet))
                  | _ => None end
      | None => None end
  | ELookup i =>
      match nth_error (conns s) i with
      | Some c => match cpc c with
                  | HArmed => if shutdown (bes s (cbk c)) then None
                              else Some (set_conn s i (with_pc c HLooked))
                  | _ => None end
      | None => None end
  | EGiveUp i =>
      match nth_error (conns s) i with
      | Some c => match cpc c with
                  | HArmed => Some (set_conn s i (with_pc c HEnded))
                  | _ => None end
      | None => None end
  | EFirst i =>
      match nth_error (conns s) i with
      | Some c => match cpc c, ckind c with
                  | HLooked, KTCP => Some (set_conn s i (with_ann c HFirst))
                  | HLooked, KQUIC =>
                      Some (set_be (set_conn s i (with_pc c HFirst)) (cbk c)
                              (inc_in_flight 1 (bes s (cbk c))))
                  | _, _ => None end
      | None => None end
  | ESecond i =>
      match nth_error (conns s) i with
      | Some c => match cpc c, ckind c with
                  | HFirst, KTCP =>
                      Some (set_be (set_conn s i (with_pc c HReady)) (cbk c)
                              (inc_in_flight 1 (bes s (cbk c))))
                  | HFirst, KQUIC => Some (set_conn s i (with_ann c HReady))
                  | _, _ => None end
      | None => None end
  | ESendServe i =>
      match nth_error (conns s) i with
      | Some c => match cpc c with
                  | HReady => if chanClosed (bes s (cbk c)) then None
                              else Some (set_conn s i (with_pc c HServed))
                  | _ => None end
      | None => None end
  | ESendDrain i =>
      match nth_error (conns s) i with
      | Some c => match cpc c with
                  | HReady => if chanClosed (bes s (cbk c)) then None
                              else if listenerClosed (bes s (cbk c))
                              then Some (set_conn s i (with_pc c HDrained)) else None
                  | _ => None end
      | None => None end
  | ESendPanic i =>
      match nth_error (conns s) i with
      | Some c => match cpc c with
                  | HReady => if chanClosed (bes s (cbk c))
                              then Some (set_conn s i (with_pc c HSendPanic)) else None
                  | _ => None end
      | None => None end
  | EClose i =>
      match nth_error (conns s) i with
      | Some c => match ccb c with
                  | CbSet => Some (set_conn s i (with_cb c CbTaken))
                  | _ => Some s end
      | None => None end
  | ECbRemove i =>
      match nth_error (conns s) i with
      | Some c => match ccb c with
                  | CbTaken =>
                      let s' := set_conn s i (with_cb c CbRemoved) in
                      Some {| conns := conns s';
                              tracked := filter (fun j => negb (j =? i)) (tracked s');
                              bes := bes s' |}
                  | _ => None end
      | None => None end
  | ECbRead i =>
      match nth_error (conns s) i with
      | Some c => match ccb c with
                  | CbRemoved => Some (set_conn s i (with_cb c (if cann c then CbPending else CbDone)))
                  | _ => None end
      | None => None end
  | ECbDec i =>
      match nth_error (conns s) i with
      | Some c => match ccb c with
                  | CbPending => Some (set_be (set_conn s i (with_cb c CbDone)) (cbk c)
                                         (inc_in_flight (-1) (bes s (cbk c))))
                  | _ => None end
      | None => None end
  | EGraceful b => Some (set_be s b (close_graceful (bes s b)))
  | EListener b =>
      if shutdown (bes s b) || negb (alive (bes s b)) then
        Some (set_be s b {| inFlight := inFlight (bes s b); shutdown := shutdown (bes s b);
                            alive := alive (bes s b); chanClosed := chanClosed (bes s b);
                            listenerClosed := true; doubleClose := doubleClose (bes s b) |})
      else None
  | EStop b => Some (set_be s b (close_now (bes s b)))
  end.

(** Artefact: a history of steps. *)
Fixpoint run (s : state) (tr : list event) : option state :=
  match tr with
  | [] => Some s
  | e :: tr' => match step s e with Some s' => run s' tr' | None => None end
  end.
