(** A QUIC stream that is forwarded to a backend in mode TCP or TLS (proxy/quic.go,
    proxy/backend.go, proxy/internal/netw/quic.go).

    Simplifications.  Bandwidth limits are left out (C93).  The streams of one QUIC connection
    do not share any state that is modelled here, except for what the console shows, which is
    modelled at the end.  quic-go: once the peer has aborted a stream, or the connection is
    gone, reads and writes on it fail; closing the sending side after that does nothing. *)
From Verif Require Import Base.

(** The stream, as seen by the proxy (proxy/internal/netw/quic.go:508-516). *)
Record stream := {
  uni : bool;               (* the client opened it as unidirectional: ReceiveOnlyStream *)
  sent : list ascii;        (* everything that the client has sent so far *)
  unread : list ascii;      (* the part that the proxy has not read yet *)
  fin : bool;               (* the client has ended its direction *)
  aborted : bool;           (* the client has aborted its direction (RESET_STREAM) *)
  stopped : bool;           (* the client does not want more data (STOP_SENDING) *)
  gone : bool;              (* the QUIC connection is gone *)
  got : list ascii;         (* what the client has been sent by the proxy *)
  ended : bool;             (* the client has been told that no more data will come (FIN) *)
  refused : bool;           (* the client has been told to stop sending (CancelRead) *)
  rdl : bool;               (* a read deadline is set *)
  rexp : bool;              (* ... and has passed *)
  wdown : bool;             (* the proxy has closed its sending side: writes fail *)
  readDone : bool;
  writeDone : bool;
  listed : bool             (* in QUICConn.streams *)
}.

(** The connection to the backend, as in BridgeModel (proxy/backend.go:271-322). *)
Record conn := {
  bsent : list ascii;       (* everything that the backend has sent so far *)
  bunread : list ascii;     (* the part that the proxy has not read yet *)
  bfin : bool;              (* the backend has ended its direction *)
  bbroken : bool;           (* the backend is gone (reset): reads and writes fail *)
  bgot : list ascii;        (* what the backend has been sent *)
  bended : bool;            (* it has been told that no more data will come (half-close) *)
  bclosed : bool;           (* the proxy has closed the connection *)
  bdl : bool;               (* a read deadline is set *)
  bexp : bool               (* ... and has passed *)
}.

(** proxy/backend.go:298-322 forward: where it is. *)
Inductive pc :=
| Copying (buf : list ascii)   (* inside io.Copy with this data read and not written *)
| CopyDone                     (* io.Copy returned nil, closeWhenDone is false *)
| WriteClosed                  (* closeWrite(out) succeeded *)
| Finished.                    (* forward returned *)

(** proxy/quic.go:359-409 handleQUICTCPStream: where it is. *)
Inductive phase := Dialing | Bridging | Returned.

(** Artefact: one stream, its backend connection, the two goroutines that copy, and the counters.
    [up] copies from the client to the backend, [down] from the backend to the client.
    [qrecv], [qsent]: the counters of the QUIC connection; [crecv], [csent]: the counters of the
    netw.Conn around the stream. *)
Record state := {
  ph : phase;
  cl : stream;
  be : conn;
  up : pc;
  down : pc;
  qrecv : nat;
  qsent : nat;
  crecv : option nat;
  csent : option nat
}.

(** proxy/internal/counter/counter.go:77-86 Incr, without the history: a nil counter counts nothing. *)
Definition incr (c : option nat) (n : nat) : option nat := option_map (fun v => v + n) c.
(** proxy/internal/counter/counter.go:68-75 Value. *)
Definition value (c : option nat) : nat := match c with Some v => v | None => 0 end.

(** proxy/internal/netw/quic.go:346-374 AcceptStream and AcceptUniStream: a new stream is listed. *)
Definition accept (u : bool) : stream :=
  {| uni := u; sent := []; unread := []; fin := false; aborted := false; stopped := false; gone := false;
     got := []; ended := false; refused := false; rdl := false; rexp := false; wdown := false;
     readDone := false; writeDone := false; listed := true |}.
(** proxy/backend.go:173 be.dial: a new connection. *)
Definition dialed : conn :=
  {| bsent := []; bunread := []; bfin := false; bbroken := false; bgot := []; bended := false;
     bclosed := false; bdl := false; bexp := false |}.

(** proxy/quic.go:343-353: the stream is wrapped and handled.
    proxy/internal/netw/quic.go:297-308 WrapConn: the counters of the wrapper are nil. *)
Definition init (u : bool) : state :=
  {| ph := Dialing; cl := accept u; be := dialed; up := Copying []; down := Copying [];
     qrecv := 0; qsent := 0; crecv := None; csent := None |}.

(** Artefact: record updates of the stream. *)
Definition upd (t : stream) (un : list ascii) (sn : list ascii) (f a st g : bool) : stream :=
  {| uni := uni t; sent := sn; unread := un; fin := f; aborted := a; stopped := st; gone := g;
     got := got t; ended := ended t; refused := refused t; rdl := rdl t; rexp := rexp t; wdown := wdown t;
     readDone := readDone t; writeDone := writeDone t; listed := listed t |}.
(** Artefact: the client sends data. *)
Definition c_send (d : list ascii) (t : stream) : stream :=
  upd t (unread t ++ d) (sent t ++ d) (fin t) (aborted t) (stopped t) (gone t).
(** Artefact: the client ends its direction. *)
Definition c_fin (t : stream) : stream := upd t (unread t) (sent t) true (aborted t) (stopped t) (gone t).
(** Artefact: the client aborts its direction. *)
Definition c_abort (t : stream) : stream := upd t (unread t) (sent t) (fin t) true (stopped t) (gone t).
(** Artefact: the client asks the proxy to stop sending. *)
Definition c_stop (t : stream) : stream := upd t (unread t) (sent t) (fin t) (aborted t) true (gone t).
(** Artefact: the QUIC connection ends. *)
Definition c_gone (t : stream) : stream := upd t (unread t) (sent t) (fin t) (aborted t) (stopped t) true.
(** Artefact: the proxy has read; [un] remains. *)
Definition c_read (un : list ascii) (t : stream) : stream :=
  upd t un (sent t) (fin t) (aborted t) (stopped t) (gone t).

(** proxy/internal/netw/quic.go:542-549 markReadDone and 186-192 removeStream. *)
Definition mark_read_done (t : stream) : stream :=
  {| uni := uni t; sent := sent t; unread := unread t; fin := fin t; aborted := aborted t;
     stopped := stopped t; gone := gone t; got := got t; ended := ended t; refused := refused t;
     rdl := rdl t; rexp := rexp t; wdown := wdown t; readDone := true; writeDone := writeDone t;
     listed := if writeDone t then false else listed t |}.
(** proxy/internal/netw/quic.go:551-558 markWriteDone. *)
Definition mark_write_done (t : stream) : stream :=
  {| uni := uni t; sent := sent t; unread := unread t; fin := fin t; aborted := aborted t;
     stopped := stopped t; gone := gone t; got := got t; ended := ended t; refused := refused t;
     rdl := rdl t; rexp := rexp t; wdown := wdown t; readDone := readDone t; writeDone := true;
     listed := if readDone t then false else listed t |}.

(** proxy/internal/netw/quic.go:590-594 QUICStream.Close; 485-487 for a unidirectional stream;
    quic-go: the client is told, unless it does not listen any more. *)
Definition close_stream (t : stream) : stream :=
  mark_write_done
    {| uni := uni t; sent := sent t; unread := unread t; fin := fin t; aborted := aborted t;
       stopped := stopped t; gone := gone t; got := got t;
       ended := ended t || negb (uni t || stopped t || gone t); refused := refused t;
       rdl := rdl t; rexp := rexp t; wdown := true; readDone := readDone t; writeDone := writeDone t;
       listed := listed t |}.

(** proxy/internal/netw/quic.go:606-609 CloseRead, 596-599 CancelRead; quic-go: the client is told,
    unless everything has been read, or it has aborted the stream, or is gone. *)
Definition close_read (t : stream) : stream :=
  mark_read_done
    {| uni := uni t; sent := sent t; unread := unread t; fin := fin t; aborted := aborted t;
       stopped := stopped t; gone := gone t; got := got t; ended := ended t;
       refused := refused t || negb (fin t && (List.length (unread t) =? 0) || aborted t || gone t);
       rdl := rdl t; rexp := rexp t; wdown := wdown t; readDone := readDone t; writeDone := writeDone t;
       listed := listed t |}.

(** proxy/internal/netw/quic.go:575-588 Write: data that has been sent to the client. *)
Definition c_write (d : list ascii) (t : stream) : stream :=
  {| uni := uni t; sent := sent t; unread := unread t; fin := fin t; aborted := aborted t;
     stopped := stopped t; gone := gone t; got := got t ++ d; ended := ended t; refused := refused t;
     rdl := rdl t; rexp := rexp t; wdown := wdown t; readDone := readDone t; writeDone := writeDone t;
     listed := listed t |}.

(** proxy/backend.go:320: a read deadline for the stream, and its passing. *)
Definition c_deadline (e : bool) (t : stream) : stream :=
  {| uni := uni t; sent := sent t; unread := unread t; fin := fin t; aborted := aborted t;
     stopped := stopped t; gone := gone t; got := got t; ended := ended t; refused := refused t;
     rdl := true; rexp := e; wdown := wdown t; readDone := readDone t; writeDone := writeDone t;
     listed := listed t |}.

(** Artefact: record updates of the backend's connection. *)
Definition b_in (c : conn) (sn un : list ascii) (f br : bool) : conn :=
  {| bsent := sn; bunread := un; bfin := f; bbroken := br; bgot := bgot c; bended := bended c;
     bclosed := bclosed c; bdl := bdl c; bexp := bexp c |}.
(** Artefact: record updates of the backend's connection. *)
Definition b_out (c : conn) (g : list ascii) (e cd dl ex : bool) : conn :=
  {| bsent := bsent c; bunread := bunread c; bfin := bfin c; bbroken := bbroken c; bgot := g; bended := e;
     bclosed := cd; bdl := dl; bexp := ex |}.
(** net.Conn.Write. *)
Definition b_write (d : list ascii) (c : conn) : conn :=
  b_out c (bgot c ++ d) (bended c) (bclosed c) (bdl c) (bexp c).
(** proxy/backend.go:324-335 closeWrite. *)
Definition b_end (c : conn) : conn := b_out c (bgot c) true (bclosed c) (bdl c) (bexp c).
(** net.Conn.Close. *)
Definition b_close (c : conn) : conn := b_out c (bgot c) (bended c) true (bdl c) (bexp c).
(** proxy/backend.go:320: a read deadline, and its passing. *)
Definition b_deadline (e : bool) (c : conn) : conn := b_out c (bgot c) (bended c) (bclosed c) true e.

(** Artefact: record update. *)
Definition mk (s : state) (p : phase) (t : stream) (c : conn) (u d : pc) : state :=
  {| ph := p; cl := t; be := c; up := u; down := d; qrecv := qrecv s; qsent := qsent s;
     crecv := crecv s; csent := csent s |}.

(** proxy/internal/netw/quic.go:570-571 and proxy/internal/netw/netw.go:215-216: [n] bytes were read. *)
Definition count_recv (n : nat) (s : state) : state :=
  {| ph := ph s; cl := cl s; be := be s; up := up s; down := down s; qrecv := qrecv s + n; qsent := qsent s;
     crecv := incr (crecv s) n; csent := csent s |}.
(** proxy/internal/netw/quic.go:585-586 and proxy/internal/netw/netw.go:227-228: [n] bytes were written. *)
Definition count_sent (n : nat) (s : state) : state :=
  {| ph := ph s; cl := cl s; be := be s; up := up s; down := down s; qrecv := qrecv s; qsent := qsent s + n;
     crecv := crecv s; csent := incr (csent s) n |}.

(** Artefact: what the client, the backend and the clock do, and the steps of the proxy. *)
Inductive event :=
| CSend (d : list ascii) | CFin | CAbort | CStop | CGone     (* the client *)
| BSend (d : list ascii) | BFin | BReset                     (* the backend *)
| CExpire | BExpire                                          (* the clock *)
| DialOk | DialFail
| URead (n : nat) | UEof | UReadErr | UWrite | UWriteErr (n : nat)
| UCloseWrite (ok : bool) | UCloseRead
| DRead (n : nat) | DEof | DReadErr | DWrite | DWriteErr (n : nat)
| DCloseWrite (ok : bool) | DCloseRead (ok : bool)
| Return.

(** Reading from the stream fails (quic-go; a read deadline for [rexp]). *)
Definition c_read_fails (t : stream) : bool := aborted t || gone t || rexp t.
(** Writing to the stream fails.  proxy/internal/netw/quic.go:481-483: always, if it is unidirectional. *)
Definition c_write_fails (t : stream) : bool := uni t || wdown t || stopped t || gone t.

(** proxy/quic.go:359-409 handleQUICTCPStream, proxy/backend.go:271-322 bridgeConns and forward.
    [sc], [cc]: ServerCloseEndsConnection and ClientCloseEndsConnection after the defaults
    (proxy/backend.go:272-279). *)
Definition step (sc cc : bool) (s : state) (e : event) : option state :=
  let t := cl s in
  let c := be s in
  let env t' c' := Some (mk s (ph s) t' c' (up s) (down s)) in
  match e with
  | CSend d => if fin t || aborted t || gone t then None else env (c_send d t) c
  | CFin => if aborted t || gone t then None else env (c_fin t) c
  | CAbort => if gone t then None else env (c_abort t) c
  | CStop => if gone t || uni t then None else env (c_stop t) c
  | CGone => env (c_gone t) c
  | BSend d =>
      match ph s with
      | Dialing => None
      | _ => if bfin c || bbroken c then None else env t (b_in c (bsent c ++ d) (bunread c ++ d) (bfin c) (bbroken c))
      end
  | BFin =>
      match ph s with
      | Dialing => None
      | _ => if bbroken c then None else env t (b_in c (bsent c) (bunread c) true (bbroken c))
      end
  | BReset =>
      match ph s with
      | Dialing => None
      | _ => env t (b_in c (bsent c) (bunread c) (bfin c) true)
      end
  | CExpire => if rdl t then env (c_deadline true t) c else None
  | BExpire => if bdl c then env t (b_deadline true c) else None
  | DialOk =>
      match ph s with Dialing => Some (mk s Bridging t c (up s) (down s)) | _ => None end
  | DialFail =>
      match ph s with Dialing => Some (mk s Returned (close_stream t) c (up s) (down s)) | _ => None end
  | URead n =>
      match ph s, up s with
      | Bridging, Copying [] =>
          if c_read_fails t || (n =? 0) || (List.length (unread t) <? n) then None
          else Some (count_recv n (mk s Bridging (c_read (skipn n (unread t)) t) c
                                     (Copying (firstn n (unread t))) (down s)))
      | _, _ => None
      end
  | UEof =>
      match ph s, up s, unread t with
      | Bridging, Copying [], [] =>
          if fin t && negb (c_read_fails t) then
            let t1 := mark_read_done t in
            Some (if cc then mk s Bridging (close_stream t1) (b_close c) Finished (down s)
                  else mk s Bridging t1 c CopyDone (down s))
          else None
      | _, _, _ => None
      end
  | UReadErr =>
      match ph s, up s with
      | Bridging, Copying [] =>
          if c_read_fails t
          then Some (mk s Bridging (close_stream (mark_read_done t)) (b_close c) Finished (down s))
          else None
      | _, _ => None
      end
  | UWrite =>
      match ph s, up s with
      | Bridging, Copying (a :: buf) =>
          if bclosed c then None
          else Some (mk s Bridging t (b_write (a :: buf) c) (Copying []) (down s))
      | _, _ => None
      end
  | UWriteErr n =>
      match ph s, up s with
      | Bridging, Copying (a :: buf) =>
          if bclosed c then Some (mk s Bridging (close_stream t) (b_close c) Finished (down s))
          else if bbroken c then
            Some (mk s Bridging (close_stream t) (b_close (b_write (firstn n (a :: buf)) c)) Finished (down s))
          else None
      | _, _ => None
      end
  | UCloseWrite ok =>
      match ph s, up s with
      | Bridging, CopyDone =>
          Some (if ok && negb (bclosed c) then mk s Bridging t (b_end c) WriteClosed (down s)
                else mk s Bridging (close_stream t) (b_close c) Finished (down s))
      | _, _ => None
      end
  | UCloseRead =>
      match ph s, up s with
      | Bridging, WriteClosed => Some (mk s Bridging (close_read t) (b_deadline (bexp c) c) Finished (down s))
      | _, _ => None
      end
  | DRead n =>
      match ph s, down s with
      | Bridging, Copying [] =>
          if bclosed c || (n =? 0) || (List.length (bunread c) <? n) then None
          else Some (mk s Bridging t (b_in c (bsent c) (skipn n (bunread c)) (bfin c) (bbroken c))
                        (up s) (Copying (firstn n (bunread c))))
      | _, _ => None
      end
  | DEof =>
      match ph s, down s, bunread c with
      | Bridging, Copying [], [] =>
          if bfin c && negb (bclosed c) then
            Some (if sc then mk s Bridging (close_stream t) (b_close c) (up s) Finished
                  else mk s Bridging t c (up s) CopyDone)
          else None
      | _, _, _ => None
      end
  | DReadErr =>
      match ph s, down s with
      | Bridging, Copying [] =>
          if bclosed c || bbroken c || bexp c
          then Some (mk s Bridging (close_stream t) (b_close c) (up s) Finished)
          else None
      | _, _ => None
      end
  | DWrite =>
      match ph s, down s with
      | Bridging, Copying (a :: buf) =>
          if c_write_fails t then None
          else Some (count_sent (List.length (a :: buf))
                       (mk s Bridging (c_write (a :: buf) t) c (up s) (Copying [])))
      | _, _ => None
      end
  | DWriteErr n =>
      match ph s, down s with
      | Bridging, Copying (a :: buf) =>
          if c_write_fails t then
            let d := if uni t || wdown t then [] else firstn n (a :: buf) in
            Some (count_sent (List.length d)
                    (mk s Bridging (close_stream (mark_write_done (c_write d t))) (b_close c) (up s) Finished))
          else None
      | _, _ => None
      end
  | DCloseWrite ok =>
      match ph s, down s with
      | Bridging, CopyDone =>
          Some (if ok then mk s Bridging (close_stream t) c (up s) WriteClosed
                else mk s Bridging (close_stream t) (b_close c) (up s) Finished)
      | _, _ => None
      end
  | DCloseRead ok =>
      match ph s, down s with
      | Bridging, WriteClosed =>
          Some (if ok then mk s Bridging (c_deadline (rexp t) t) c (up s) Finished
                else mk s Bridging (close_stream t) (b_close c) (up s) Finished)
      | _, _ => None
      end
  | Return =>
      match ph s, up s, down s with
      | Bridging, Finished, Finished => Some (mk s Returned (close_stream t) (b_close c) Finished Finished)
      | _, _, _ => None
      end
  end.

(** Artefact: a history. *)
Fixpoint run (sc cc : bool) (s : state) (tr : list event) : option state :=
  match tr with
  | [] => Some s
  | e :: tr' => match step sc cc s e with Some s' => run sc cc s' tr' | None => None end
  end.

(** proxy/backend.go:272-275: ServerCloseEndsConnection; [None] is not configured. *)
Definition server_close (o : option bool) : bool := match o with Some b => b | None => true end.
(** proxy/backend.go:276-279: ClientCloseEndsConnection. *)
Definition client_close (o : option bool) : bool := match o with Some b => b | None => false end.

(** proxy/quic.go:402-404: the numbers of bytes in the line of the log that ends a stream. *)
Definition end_line (s : state) : nat * nat := (value (crecv s), value (csent s)).

(** What the console shows of a QUIC connection with streams: the annotation internalConnKey of the
    connection (proxy/backend.go:181-183, set by every dial) and, for each stream, its bridgeAddr. *)
Record shown := { int_conn : option str; bridges : list (nat * str) }.
(** Artefact: a new connection. *)
Definition no_streams : shown := {| int_conn := None; bridges := [] |}.
(** proxy/quic.go:377-391: stream [id] is joined with a connection to [addr]. *)
Definition join_stream (v : shown) (x : nat * str) : shown :=
  {| int_conn := Some (snd x); bridges := bridges v ++ [x] |}.
(** proxy/metrics.go:325-339: the address that is shown for a stream. *)
Definition shown_dest (v : shown) (x : nat * str) : nat * str :=
  (fst x, match int_conn v with Some a => match a with [] => snd x | _ => a end | None => snd x end).
(** proxy/metrics.go:335-360: the rows of the streams. *)
Definition dest_rows (v : shown) : list (nat * str) := map (shown_dest v) (bridges v).
