(** The forward rate limit of a backend: how connections and HTTP requests ask for it
    before they are forwarded (proxy/proxy.go, proxy/quic.go, proxy/backend-http.go).
    Time is in nanoseconds. *)
From Coq Require Import ZArith List Bool Arith.
From Verif Require Import LimitModel.
Import ListNotations.
Local Open Scope Z_scope.

(** proxy/proxy.go:1189-1216, proxy/quic.go:210-217, 317-374: what becomes of a
    connection of a client. *)
Inductive kind :=
| Tunnel       (* TCP client, mode TCP, TLS or TLSPASSTHROUGH *)
| Https        (* TCP client, mode HTTP or HTTPS *)
| H3           (* QUIC client, mode HTTP or HTTPS, protocol h3 *)
| QuicTunnel   (* QUIC client, mode QUIC *)
| QuicStreams  (* QUIC client, mode TCP or TLS *)
| QuicHttp     (* QUIC client, mode HTTP or HTTPS, another protocol *)
| StreamHttp.  (* a stream of the previous kind, which is served as an HTTP connection *)

(** Artefact: a connection: whether it was let in, whether its requestFlagKey is set,
    and how many requests have read the flag when it was not set and have not set it. *)
Record conn := { cKind : kind; cIn : bool; cFlag : bool; cLook : nat }.

(** Artefact: who waits for the limiter. *)
Inductive job := JConn (c : nat) | JReq (c : nat).

(** Artefact: the backend: its limiter, its connections, all the jobs there were. *)
Record fw := { gate : state; conns : list conn; jobs : list job }.

(** Artefact: events. *)
Inductive fevent :=
| Arrive (k : kind)   (* a connection reaches connLimit.Wait *)
| Pass (j : nat)      (* Wait returns *)
| Leave (j : nat)     (* the context of the job ends *)
| Req (c : nat)       (* an HTTP request comes to the test of the flag *)
| Mark (c : nat)      (* a request that found the flag unset sets it *)
| Stream (c : nat).   (* a stream of a QUIC connection *)

(** Artefact: what is seen. *)
Inductive fnote :=
| Forwarded (k : kind)   (* a connection or a request goes to a server of the backend *)
| Waits (act : Z)        (* it may go at act *)
| Denied                 (* the limiter returned an error *)
| Abandoned              (* the context ended during the wait *)
| Nothing.

(** Artefact: change one connection. *)
Definition set_conn (s : fw) (g : state) (c : nat) (x : conn) : fw :=
  {| gate := g; conns := firstn c (conns s) ++ x :: skipn (S c) (conns s); jobs := jobs s |}.

(** Artefact: the limiter of the backend; the context of a job ends on its own. *)
Definition ask (s : fw) (t : Z) (e : event) : option (state * note) :=
  step (fun _ => false) (gate s) t e.

(** proxy/proxy.go:1325-1350 and 1367-1394, proxy/quic.go:217-218: these are forwarded
    when they are let in. *)
Definition forwards_at_once (k : kind) : bool :=
  match k with Tunnel | QuicTunnel => true | _ => false end.

(** proxy/backend-http.go:241-250: the kinds of connections whose requests have an
    annotatedConnection in their context.  Those of Https have the *tls.Conn that
    proxy/proxy.go:1316 sent and proxy/http.go:50-52 stored, which has no annotations. *)
Definition annotated (k : kind) : bool :=
  match k with H3 | StreamHttp => true | _ => false end.

(** One event at time [t].  proxy/proxy.go:1296, 1325, 1367 and proxy/quic.go:187 ask
    once for each connection, proxy/backend-http.go:243-250 for each request but the
    first of its connection, proxy/quic.go:317-399 does not ask for streams.  [None]:
    the event cannot happen. *)
Definition fstep (s : fw) (t : Z) (e : fevent) : option (fw * fnote) :=
  match e with
  | Arrive StreamHttp => None
  | Arrive k =>
      match ask s t (Call (List.length (jobs s)) 1) with
      | Some (g, Let _ act) =>
          Some ({| gate := g;
                   conns := conns s ++ [{| cKind := k; cIn := false; cFlag := false; cLook := 0 |}];
                   jobs := jobs s ++ [JConn (List.length (conns s))] |}, Waits act)
      | Some (g, _) => Some (s, Denied)
      | None => None
      end
  | Pass j =>
      match ask s t (Move j 1), nth_error (jobs s) j with
      | Some (g, _), Some (JConn c) =>
          match nth_error (conns s) c with
          | Some x =>
              Some (set_conn s g c {| cKind := cKind x; cIn := true; cFlag := cFlag x; cLook := cLook x |},
                    if forwards_at_once (cKind x) then Forwarded (cKind x) else Nothing)
          | None => None
          end
      | Some (g, _), Some (JReq c) =>
          match nth_error (conns s) c with
          | Some x => Some ({| gate := g; conns := conns s; jobs := jobs s |}, Forwarded (cKind x))
          | None => None
          end
      | _, _ => None
      end
  | Leave j =>
      match ask s t (CloseConn j), nth_error (jobs s) j with
      | Some (g, x), Some _ =>
          Some ({| gate := g; conns := conns s; jobs := jobs s |},
                match x with GaveUp _ => Abandoned | _ => Nothing end)
      | _, _ => None
      end
  | Req c =>
      match nth_error (conns s) c with
      | Some x =>
          if negb (cIn x) then None
          else match cKind x with
               | Https => Some (s, Forwarded Https)
               | k =>
                   if negb (annotated k) then None
                   else if negb (cFlag x) then
                     Some (set_conn s (gate s) c
                             {| cKind := k; cIn := true; cFlag := false; cLook := S (cLook x) |}, Nothing)
                   else match ask s t (Call (List.length (jobs s)) 1) with
                        | Some (g, Let _ act) =>
                            Some ({| gate := g; conns := conns s; jobs := jobs s ++ [JReq c] |}, Waits act)
                        | Some (g, _) => Some (s, Denied)
                        | None => None
                        end
               end
      | None => None
      end
  | Mark c =>
      match nth_error (conns s) c with
      | Some x =>
          match cLook x with
          | O => None
          | S n => Some (set_conn s (gate s) c {| cKind := cKind x; cIn := cIn x; cFlag := true; cLook := n |},
                         Forwarded (cKind x))
          end
      | None => None
      end
  | Stream c =>
      match nth_error (conns s) c with
      | Some x =>
          if negb (cIn x) then None
          else match cKind x with
               | QuicStreams => Some (s, Forwarded QuicStreams)
               | QuicHttp =>
                   Some ({| gate := gate s;
                            conns := conns s ++ [{| cKind := StreamHttp; cIn := true; cFlag := false; cLook := 0 |}];
                            jobs := jobs s |}, Nothing)
               | _ => None
               end
      | None => None
      end
  end.

(** Artefact: a history. *)
Fixpoint frun (s : fw) (h : list (Z * fevent)) : option (fw * list (Z * fnote)) :=
  match h with
  | [] => Some (s, [])
  | (t, e) :: h =>
      match fstep s t e with
      | None => None
      | Some (s, x) =>
          match frun s h with
          | None => None
          | Some (s, out) => Some (s, (t, x) :: out)
          end
      end
  end.

(** proxy/config.go:1124-1127: the limiter of a backend with forwardRateLimit [r];
    the default is 5. *)
Definition new_backend (r : Z) : fw :=
  let r := if r =? 0 then 5 else r in
  {| gate := start_with r r; conns := []; jobs := [] |}.
