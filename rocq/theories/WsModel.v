(** The WebSocket endpoints: a WebSocket connection bridged to a TCP
    connection (websocket.go). *)
From Verif Require Import Base.
Local Open Scope nat_scope.

(** Frames as gorilla/websocket reads them (RFC 6455, section 5): data frames
    of a binary or text message or of its continuation, with the mark of the
    last frame, and control frames. *)
Inductive opcode := OBin | OText | OCont.
(** gorilla/websocket: a frame. *)
Inductive frame :=
  | Data (o : opcode) (fin : bool) (p : str)
  | Ping
  | Pong
  | CloseF.

(** Why the handler returned: the client's side ended (a close frame, the end of
    the connection, a broken frame), the server's side ended, the server could
    not be written to, the client could not be written to, the server's
    connection reached its deadline, no pong came. *)
Inductive reason := FromClient | FromServer | ServerWrite | ClientWrite | Deadline | NoPong.

(** websocket.go:44-155: one run of the handler, after the connection to the
    server was made.  [q], [cgone]: the frames received and not read yet, and
    whether the client's connection has ended behind them.  [cur] is the message
    being read (None: none; Some true: a binary one), [rest] what remains of its
    current frame, [fin] whether that is the last frame.  [pending] are the bytes
    that io.Copy has read and not written yet.  [tosrv] and [tocli] are what was
    written; [sq] and [sgone] what came from the server.  [now] and [active] are
    in seconds.  [in_end], [out_end], [watch_end]: the goroutines have returned;
    [expired]: the deadline set on the server's connection; [done] the channel;
    [closed]: the handler has returned and both connections are closed. *)
Record ws := {
  q : list frame; cgone : bool;
  cur : option bool; rest : str; fin : bool; pending : str;
  tosrv : str; tocli : list str;
  sq : str; sgone : bool;
  now : nat; active : nat; pings : nat;
  in_end : bool; out_end : bool; watch_end : bool; expired : bool;
  done : option reason; closed : bool
}.

(** websocket.go:77-83: the state when the goroutines start. *)
Definition ws0 : ws := {|
  q := nil; cgone := false; cur := None; rest := nil; fin := true; pending := nil;
  tosrv := nil; tocli := nil; sq := nil; sgone := false; now := 0; active := 0; pings := 0;
  in_end := false; out_end := false; watch_end := false; expired := false; done := None; closed := false |}.

(** What can happen next: the client sends a frame or goes away, the server sends
    bytes or goes away, time passes; a goroutine makes a step ([InRead n]: reads
    up to [S n] bytes or one frame; [InWrite n]: writes up to [S n] bytes;
    [InFail]: the write fails; [OutRead n ok]: reads up to [S n] bytes and sends
    them, [ok] says whether the client could be written to; [Tick]: the ticker;
    [CtxDone]: the request's context ends); [Finish]: the handler returns. *)
Inductive wsop :=
  | ClientSends (f : frame) | ClientGone | ServerSends (b : str) | ServerGone | Elapse (d : nat)
  | InRead (n : nat) | InWrite (n : nat) | InFail | OutRead (n : nat) (ok : bool) | Tick | CtxDone | Finish.

(** websocket.go:95-98, 111-114, 134-137: a send that does not wait, on a channel
    with room for one value. *)
Definition send_done (d : option reason) (r : reason) : option reason :=
  match d with None => Some r | Some _ => d end.

(** websocket.go:110-116: the goroutine of the client's side returns. *)
Definition end_in (r : reason) (s : ws) : ws := {|
  q := q s; cgone := cgone s; cur := cur s; rest := rest s; fin := fin s; pending := nil;
  tosrv := tosrv s; tocli := tocli s; sq := sq s; sgone := sgone s; now := now s; active := active s;
  pings := pings s; in_end := true; out_end := out_end s; watch_end := watch_end s; expired := expired s;
  done := send_done (done s) r; closed := closed s |}.

(** websocket.go:133-139: the goroutine of the server's side returns. *)
Definition end_out (r : reason) (s : ws) : ws := {|
  q := q s; cgone := cgone s; cur := cur s; rest := rest s; fin := fin s; pending := pending s;
  tosrv := tosrv s; tocli := tocli s; sq := sq s; sgone := sgone s; now := now s; active := active s;
  pings := pings s; in_end := in_end s; out_end := true; watch_end := watch_end s; expired := expired s;
  done := send_done (done s) r; closed := closed s |}.

(** Artefact: the state after the client's side made progress: what is left to
    read, the message being read, the bytes to write, the time of the last pong. *)
Definition set_in (q' : list frame) (cur' : option bool) (rest' : str) (fin' : bool) (pending' : str)
    (active' : nat) (s : ws) : ws := {|
  q := q'; cgone := cgone s; cur := cur'; rest := rest'; fin := fin'; pending := pending';
  tosrv := tosrv s; tocli := tocli s; sq := sq s; sgone := sgone s; now := now s; active := active';
  pings := pings s; in_end := in_end s; out_end := out_end s; watch_end := watch_end s; expired := expired s;
  done := done s; closed := closed s |}.

(** websocket.go:117-128: NextReader, the test of the message's type, io.Copy's
    reads; gorilla/websocket's advanceFrame: a pong is given to the handler set on
    line 80, a ping is answered, a close frame or a data frame that has no place
    ends the reading.  The rest of a message that is not binary is skipped by
    NextReader. *)
Definition in_read (n : nat) (s : ws) : ws :=
  match pending s with
  | _ :: _ => s
  | nil =>
    match rest s with
    | _ :: _ =>
        match cur s with
        | Some true => set_in (q s) (cur s) (skipn (S n) (rest s)) (fin s) (firstn (S n) (rest s)) (active s) s
        | _ => set_in (q s) (cur s) nil (fin s) nil (active s) s
        end
    | nil =>
        let m := if fin s then None else cur s in
        match q s with
        | nil => if cgone s then end_in FromClient s else s
        | f :: q' =>
            match f with
            | Pong => set_in q' m nil (fin s) nil (now s) s
            | Ping => set_in q' m nil (fin s) nil (active s) s
            | CloseF => end_in FromClient s
            | Data o fi p =>
                match m, o with
                | None, OBin => set_in q' (Some true) p fi nil (active s) s
                | None, OText => set_in q' (Some false) p fi nil (active s) s
                | Some b, OCont => set_in q' (Some b) p fi nil (active s) s
                | _, _ => end_in FromClient s
                end
            end
        end
    end
  end.

(** websocket.go:125: io.Copy's writes to the server. *)
Definition in_write (n : nat) (s : ws) : ws := {|
  q := q s; cgone := cgone s; cur := cur s; rest := rest s; fin := fin s; pending := skipn (S n) (pending s);
  tosrv := tosrv s ++ firstn (S n) (pending s); tocli := tocli s; sq := sq s; sgone := sgone s;
  now := now s; active := active s; pings := pings s;
  in_end := in_end s; out_end := out_end s; watch_end := watch_end s; expired := expired s;
  done := done s; closed := closed s |}.

(** websocket.go:140: the size of the buffer. *)
Definition buf_size : nat := 32 * 32.

(** websocket.go:141-151: reads up to a buffer full and sends it as one message. *)
Definition out_read (n : nat) (ok : bool) (s : ws) : ws :=
  if expired s then end_out Deadline s else
  match sq s with
  | nil => if sgone s then end_out FromServer s else s
  | _ :: _ =>
      let k := Nat.min (S n) buf_size in
      let s' := {|
        q := q s; cgone := cgone s; cur := cur s; rest := rest s; fin := fin s; pending := pending s;
        tosrv := tosrv s; tocli := if ok then tocli s ++ firstn k (sq s) :: nil else tocli s;
        sq := skipn k (sq s); sgone := sgone s; now := now s; active := active s; pings := pings s;
        in_end := in_end s; out_end := out_end s; watch_end := watch_end s; expired := expired s;
        done := done s; closed := closed s |} in
      if ok then s' else end_out ClientWrite s'
  end.

(** websocket.go:90-103: the ticker's case and the end of the context. *)
Definition watch (ctx : bool) (s : ws) : ws :=
  let over := 30 <? now s - active s in {|
  q := q s; cgone := cgone s; cur := cur s; rest := rest s; fin := fin s; pending := pending s;
  tosrv := tosrv s; tocli := tocli s; sq := sq s; sgone := sgone s; now := now s; active := active s;
  pings := if ctx || over then pings s else S (pings s);
  in_end := in_end s; out_end := out_end s; watch_end := ctx || over; expired := ctx || expired s;
  done := if ctx then done s else if over then send_done (done s) NoPong else done s; closed := closed s |}.

(** websocket.go:51, 71-74, 154: the handler returns. *)
Definition finish (s : ws) : ws := {|
  q := q s; cgone := cgone s; cur := cur s; rest := rest s; fin := fin s; pending := pending s;
  tosrv := tosrv s; tocli := tocli s; sq := sq s; sgone := sgone s; now := now s; active := active s;
  pings := pings s; in_end := in_end s; out_end := out_end s; watch_end := watch_end s; expired := expired s;
  done := done s; closed := match done s with Some _ => true | None => false end |}.

(** Artefact: what the world outside does to the state. *)
Definition world (q' : list frame) (cg : bool) (sq' : str) (sg : bool) (d : nat) (s : ws) : ws := {|
  q := q'; cgone := cg; cur := cur s; rest := rest s; fin := fin s; pending := pending s;
  tosrv := tosrv s; tocli := tocli s; sq := sq'; sgone := sg; now := now s + d; active := active s;
  pings := pings s; in_end := in_end s; out_end := out_end s; watch_end := watch_end s; expired := expired s;
  done := done s; closed := closed s |}.

(** websocket.go:44-155: one step.  Once the connections are closed nothing is
    read or written. *)
Definition ws_step (s : ws) (o : wsop) : ws :=
  match o with
  | ClientSends f => if cgone s then s else world (q s ++ f :: nil) false (sq s) (sgone s) 0 s
  | ClientGone => world (q s) true (sq s) (sgone s) 0 s
  | ServerSends b => if sgone s then s else world (q s) (cgone s) (sq s ++ b) false 0 s
  | ServerGone => world (q s) (cgone s) (sq s) true 0 s
  | Elapse d => world (q s) (cgone s) (sq s) (sgone s) d s
  | InRead n => if in_end s || closed s then s else in_read n s
  | InWrite n =>
      if in_end s || closed s then s
      else match pending s with nil => s | _ :: _ => if expired s then end_in ServerWrite s else in_write n s end
  | InFail =>
      if in_end s || closed s then s
      else match pending s with nil => s | _ :: _ => end_in ServerWrite s end
  | OutRead n ok => if out_end s || closed s then s else out_read n ok s
  | Tick => if watch_end s || closed s then s else watch false s
  | CtxDone => if watch_end s || closed s then s else watch true s
  | Finish => finish s
  end.

(** Artefact: histories. *)
Definition ws_run (tr : list wsop) : ws := fold_left ws_step tr ws0.
