(** A QUIC connection forwarded to a QUIC backend: how streams are accepted,
    joined and copied (proxy/quic.go, proxy/backend.go, proxy/internal/netw/quic.go).
    The goroutines of the proxy, the two peers and the network take turns in any
    order; each event below is one atomic step. *)
From Verif Require Import Base.

(** The two connections: qc from the client, beConn to the backend
    (quic.go:217-224). *)
Inductive side := CL | BE.
(** Artefact: the opposite connection. *)
Definition other (x : side) : side := match x with CL => BE | BE => CL end.
(** Artefact: decidable equality. *)
Definition side_eqb (a b : side) : bool := match a, b with CL, CL | BE, BE => true | _, _ => false end.
(** quic.Stream and quic.SendStream / quic.ReceiveStream. *)
Inductive skind := Uni | Bidi.
(** Artefact: decidable equality. *)
Definition kind_eqb (a b : skind) : bool := match a, b with Uni, Uni | Bidi, Bidi => true | _, _ => false end.

(** Artefact: one stream, as seen by the proxy. *)
Record stream := {
  byProxy : bool;      (* opened by the proxy, not by the peer *)
  skd : skind;
  accepted : bool;     (* an Accept call returned it *)
  sent : str;          (* everything the peer has sent on it so far *)
  unread : str;        (* the part not read yet *)
  fin : bool;          (* the peer finished sending *)
  reset : bool;        (* the peer aborted sending *)
  rcancel : bool;      (* the proxy asked the peer to stop sending (CancelRead) *)
  rdl : bool;          (* a read deadline is set *)
  rexp : bool;         (* ... and has passed *)
  got : str;           (* what the proxy has sent to the peer *)
  wfin : bool;         (* the proxy told the peer that this was all *)
  stopped : bool       (* the peer asked the proxy to stop sending *)
}.

(** netw/quic.go:461-463 SendOnlyStream.Read returns io.EOF: the proxy cannot read a
    unidirectional stream it opened. *)
Definition readable (t : stream) : bool := negb (byProxy t && kind_eqb (skd t) Uni).
(** netw/quic.go:481-483 ReceiveOnlyStream.Write returns an error: the proxy cannot write
    to a unidirectional stream the peer opened. *)
Definition writable (t : stream) : bool := byProxy t || kind_eqb (skd t) Bidi.

(** Artefact: a new stream. *)
Definition new_stream (p : bool) (k : skind) : stream :=
  {| byProxy := p; skd := k; accepted := false; sent := []; unread := []; fin := false; reset := false;
     rcancel := false; rdl := false; rexp := false; got := []; wfin := false; stopped := false |}.

(** Artefact: record updates. *)
Definition set_accepted (t : stream) : stream :=
  {| byProxy := byProxy t; skd := skd t; accepted := true; sent := sent t; unread := unread t; fin := fin t;
     reset := reset t; rcancel := rcancel t; rdl := rdl t; rexp := rexp t; got := got t; wfin := wfin t;
     stopped := stopped t |}.
(** Artefact: the peer sends data. *)
Definition recv (d : str) (t : stream) : stream :=
  {| byProxy := byProxy t; skd := skd t; accepted := accepted t; sent := sent t ++ d; unread := unread t ++ d;
     fin := fin t; reset := reset t; rcancel := rcancel t; rdl := rdl t; rexp := rexp t; got := got t;
     wfin := wfin t; stopped := stopped t |}.
(** Artefact: the peer finishes sending. *)
Definition set_fin (t : stream) : stream :=
  {| byProxy := byProxy t; skd := skd t; accepted := accepted t; sent := sent t; unread := unread t; fin := true;
     reset := reset t; rcancel := rcancel t; rdl := rdl t; rexp := rexp t; got := got t; wfin := wfin t;
     stopped := stopped t |}.
(** Artefact: the peer aborts sending. *)
Definition set_reset (t : stream) : stream :=
  {| byProxy := byProxy t; skd := skd t; accepted := accepted t; sent := sent t; unread := unread t; fin := fin t;
     reset := true; rcancel := rcancel t; rdl := rdl t; rexp := rexp t; got := got t; wfin := wfin t;
     stopped := stopped t |}.
(** Artefact: the peer asks the proxy to stop sending. *)
Definition set_stopped (t : stream) : stream :=
  {| byProxy := byProxy t; skd := skd t; accepted := accepted t; sent := sent t; unread := unread t; fin := fin t;
     reset := reset t; rcancel := rcancel t; rdl := rdl t; rexp := rexp t; got := got t; wfin := wfin t;
     stopped := true |}.
(** Artefact: a read deadline passes. *)
Definition set_rexp (t : stream) : stream :=
  {| byProxy := byProxy t; skd := skd t; accepted := accepted t; sent := sent t; unread := unread t; fin := fin t;
     reset := reset t; rcancel := rcancel t; rdl := rdl t; rexp := true; got := got t; wfin := wfin t;
     stopped := stopped t |}.
(** netw/quic.go:560-573 Read: the part that remains. *)
Definition set_unread (d : str) (t : stream) : stream :=
  {| byProxy := byProxy t; skd := skd t; accepted := accepted t; sent := sent t; unread := d; fin := fin t;
     reset := reset t; rcancel := rcancel t; rdl := rdl t; rexp := rexp t; got := got t; wfin := wfin t;
     stopped := stopped t |}.
(** netw/quic.go:575-588 Write. *)
Definition deliver (d : str) (t : stream) : stream :=
  {| byProxy := byProxy t; skd := skd t; accepted := accepted t; sent := sent t; unread := unread t; fin := fin t;
     reset := reset t; rcancel := rcancel t; rdl := rdl t; rexp := rexp t; got := got t ++ d; wfin := wfin t;
     stopped := stopped t |}.
(** netw/quic.go:590-594 Close closes the sending half, and only that.  For a stream that is
    only received, it does nothing (netw/quic.go:485-487). *)
Definition close_st (t : stream) : stream :=
  {| byProxy := byProxy t; skd := skd t; accepted := accepted t; sent := sent t; unread := unread t; fin := fin t;
     reset := reset t; rcancel := rcancel t; rdl := rdl t; rexp := rexp t; got := got t;
     wfin := wfin t || (writable t && negb (stopped t)); stopped := stopped t |}.
(** netw/quic.go:606-609 CloseRead and 596-599 CancelRead.  For a stream that is only sent,
    it does nothing (netw/quic.go:465-466). *)
Definition cancel_read (t : stream) : stream :=
  {| byProxy := byProxy t; skd := skd t; accepted := accepted t; sent := sent t; unread := unread t; fin := fin t;
     reset := reset t; rcancel := rcancel t || readable t; rdl := rdl t; rexp := rexp t; got := got t;
     wfin := wfin t; stopped := stopped t |}.
(** SetReadDeadline; for a stream that is only sent, it does nothing (netw/quic.go:468-470). *)
Definition set_rdl (t : stream) : stream :=
  {| byProxy := byProxy t; skd := skd t; accepted := accepted t; sent := sent t; unread := unread t; fin := fin t;
     reset := reset t; rcancel := rcancel t; rdl := rdl t || readable t; rexp := rexp t; got := got t;
     wfin := wfin t; stopped := stopped t |}.

(** backend.go:298-322 forward: where it is. *)
Inductive pc :=
| Copying (buf : str)      (* inside io.Copy with this data read and not written *)
| CopyDone                 (* io.Copy returned nil, closeWhenDone is false *)
| WriteClosed              (* closeWrite(out) succeeded *)
| Finished (err : bool).   (* forward returned *)

(** quic.go:411-464 handleQUICQUICStream: where it is. *)
Inductive hpc :=
| HOpening                            (* in OpenStreamSync or OpenUniStreamSync *)
| HFailed                             (* which failed; returned *)
| HBridge (dst : nat) (f b : pc).     (* in bridgeConns: the two calls of forward *)

(** Artefact: one call of handleQUICQUICStream: the accepted stream. *)
Record handler := { hx : side; hsrc : nat; hkd : skind; hp : hpc }.

(** The loops of handleQUICConnection: two accept loops per connection (quic.go:226-287)
    and, when both connections support them, one for datagrams (quic.go:287-316). *)
Inductive lkind := LAcc (k : skind) | LDgram.
(** Artefact: decidable equality. *)
Definition lkind_eqb (a b : lkind) : bool :=
  match a, b with LAcc k, LAcc l => kind_eqb k l | LDgram, LDgram => true | _, _ => false end.

(** Artefact: everything.  [gone x]: the connection is over; [Some true] when it was
    closed with an application error (quic.ApplicationError), [Some false] otherwise (idle
    timeout, transport error).  [loops]: the accept and datagram
    loops that still run (quic.go:226-316).  [ended]: handleQUICConnection returned and its deferred calls closed
    both connections (quic.go:127, 224, 317). *)
Record state := {
  gone : side -> option bool;
  strs : side -> nat -> option stream;
  snext : side -> nat;
  hs : nat -> option handler;
  hnext : nat;
  loops : side -> lkind -> bool;
  ended : bool
}.

(** quic.go:217-316: the backend has been dialled and the loops started.  [dg]: both
    connections support datagrams. *)
Definition init (dg : bool) : state :=
  {| gone := fun _ => None; strs := fun _ _ => None; snext := fun _ => 0; hs := fun _ => None; hnext := 0;
     loops := fun _ l => match l with LAcc _ => true | LDgram => dg end; ended := false |}.

(** Artefact: update of a stream. *)
Definition set_str (x : side) (i : nat) (t : stream) (s : state) : state :=
  {| gone := gone s;
     strs := fun y j => if side_eqb y x && (j =? i) then Some t else strs s y j;
     snext := snext s; hs := hs s; hnext := hnext s; loops := loops s; ended := ended s |}.
(** Artefact: a new stream. *)
Definition add_str (x : side) (t : stream) (s : state) : state :=
  {| gone := gone s;
     strs := fun y j => if side_eqb y x && (j =? snext s x) then Some t else strs s y j;
     snext := fun y => if side_eqb y x then S (snext s y) else snext s y;
     hs := hs s; hnext := hnext s; loops := loops s; ended := ended s |}.
(** Artefact: update of a handler. *)
Definition set_h (h : nat) (v : handler) (s : state) : state :=
  {| gone := gone s; strs := strs s; snext := snext s;
     hs := fun j => if j =? h then Some v else hs s j;
     hnext := hnext s; loops := loops s; ended := ended s |}.
(** go be.handleQUICQUICStream(...) *)
Definition add_h (v : handler) (s : state) : state :=
  {| gone := gone s; strs := strs s; snext := snext s;
     hs := fun j => if j =? hnext s then Some v else hs s j;
     hnext := S (hnext s); loops := loops s; ended := ended s |}.
(** Artefact: record update. *)
Definition set_hp (v : handler) (p : hpc) : handler :=
  {| hx := hx v; hsrc := hsrc v; hkd := hkd v; hp := p |}.
(** Artefact: the connection is over. *)
Definition set_gone (x : side) (app : bool) (s : state) : state :=
  {| gone := fun y => if side_eqb y x then Some (match gone s y with Some a => a | None => app end) else gone s y;
     strs := strs s; snext := snext s; hs := hs s; hnext := hnext s; loops := loops s; ended := ended s |}.
(** Artefact: a loop returns. *)
Definition stop_loop (x : side) (k : lkind) (s : state) : state :=
  {| gone := gone s; strs := strs s; snext := snext s; hs := hs s; hnext := hnext s;
     loops := fun y l => if side_eqb y x && lkind_eqb l k then false else loops s y l; ended := ended s |}.
(** quic.go:127, 224: the deferred beConn.Close() and qc.Close(). *)
Definition close_all (s : state) : state :=
  {| gone := fun y => Some (match gone s y with Some a => a | None => true end);
     strs := strs s; snext := snext s; hs := hs s; hnext := hnext s; loops := loops s; ended := true |}.

(** The two directions of bridgeConns(conn, intConn): Fwd is forward(server, client), from
    the accepted stream to the opened one (backend.go:289), Bwd is forward(client, server)
    (backend.go:286). *)
Inductive dir := Fwd | Bwd.

(** Artefact: what happens. *)
Inductive event :=
(* the peers and the network *)
| PeerOpen (x : side) (k : skind)
| PeerSend (x : side) (i : nat) (d : str)
| PeerFin (x : side) (i : nat)
| PeerReset (x : side) (i : nat)
| PeerStop (x : side) (i : nat)
| Expire (x : side) (i : nat)          (* a read deadline passes *)
| ConnGone (x : side) (app : bool)     (* closed by the peer, idle timeout, ... *)
(* the loops (quic.go:226-316) *)
| Accept (x : side) (i : nat)
| LoopEnd (x : side) (k : lkind)
(* the handlers (quic.go:411-464) *)
| Open (h : nat)
| OpenFail (h : nat)
| Read (h : nat) (d : dir) (n : nat)
| ReadEOF (h : nat) (d : dir)
| ReadErr (h : nat) (d : dir)
| Write (h : nat) (d : dir)
| WriteErr (h : nat) (d : dir) (n : nat)   (* only n bytes were written *)
| CloseWrite (h : nat) (d : dir)
| CloseRead (h : nat) (d : dir)
(* handleQUICConnection returns *)
| MainEnd.

(** Artefact: is the connection over? *)
Definition is_gone (s : state) (x : side) : bool := match gone s x with Some _ => true | None => false end.

(** Artefact: the streams of a direction of a bridging handler: the side and number of its
    input, the side and number of its output, and where it is. *)
Definition ends (v : handler) (d : dir) : option (side * nat * (side * nat) * pc) :=
  match hp v, d with
  | HBridge dst f b, Fwd => Some ((hx v, hsrc v), (other (hx v), dst), f)
  | HBridge dst f b, Bwd => Some ((other (hx v), dst), (hx v, hsrc v), b)
  | _, _ => None
  end.
(** Artefact: the direction has moved. *)
Definition set_pc (v : handler) (d : dir) (p : pc) : handler :=
  match hp v, d with
  | HBridge dst f b, Fwd => set_hp v (HBridge dst p b)
  | HBridge dst f b, Bwd => set_hp v (HBridge dst f p)
  | _, _ => v
  end.

(** Artefact: has the handler returned? *)
Definition h_done (v : handler) : bool :=
  match hp v with
  | HFailed | HBridge _ (Finished _) (Finished _) => true
  | _ => false
  end.
(** The handlers that handleQUICConnection waits for: all but those of unidirectional
    streams accepted from the backend (quic.go:236, compared with 248-252, 264-268, 280-284). *)
Definition h_counted (v : handler) : bool := negb (side_eqb (hx v) BE && kind_eqb (hkd v) Uni).
(** wg.Wait() returns (quic.go:317). *)
Definition all_done (s : state) : bool :=
  negb (loops s CL (LAcc Uni) || loops s CL (LAcc Bidi) || loops s CL LDgram ||
        loops s BE (LAcc Uni) || loops s BE (LAcc Bidi) || loops s BE LDgram) &&
  forallb (fun i => match hs s i with Some v => negb (h_counted v) || h_done v | None => true end)
    (seq 0 (hnext s)).

(** out.Close(); in.Close() *)
Definition close_two (i o : side * nat) (s : state) : state :=
  match strs s (fst o) (snd o) with
  | Some t =>
      let s1 := set_str (fst o) (snd o) (close_st t) s in
      match strs s1 (fst i) (snd i) with
      | Some u => set_str (fst i) (snd i) (close_st u) s1
      | None => s1
      end
  | None => s
  end.

(** One step; [None]: not possible in this state.  [cwd d]: the closeWhenDone argument of the
    direction: clientClose for Fwd, serverClose for Bwd (backend.go:272-279), both false
    unless configured (config.go:942-950).  Simplifications: a stream limit of a peer only
    delays Open, so it does not appear; data of a stream arrives in order. *)
Definition step (cwd : dir -> bool) (s : state) (e : event) : option state :=
  match e with
  | PeerOpen x k => if is_gone s x then None else Some (add_str x (new_stream false k) s)
  | PeerSend x i d =>
      match strs s x i with
      | Some t => if is_gone s x || negb (readable t) || fin t || reset t then None
                  else Some (set_str x i (recv d t) s)
      | None => None
      end
  | PeerFin x i =>
      match strs s x i with
      | Some t => if is_gone s x || negb (readable t) || fin t || reset t then None
                  else Some (set_str x i (set_fin t) s)
      | None => None
      end
  | PeerReset x i =>
      match strs s x i with
      | Some t => if is_gone s x || negb (readable t) then None else Some (set_str x i (set_reset t) s)
      | None => None
      end
  | PeerStop x i =>
      match strs s x i with
      | Some t => if is_gone s x || negb (writable t) then None else Some (set_str x i (set_stopped t) s)
      | None => None
      end
  | Expire x i =>
      match strs s x i with
      | Some t => if rdl t then Some (set_str x i (set_rexp t) s) else None
      | None => None
      end
  | ConnGone x app => Some (set_gone x app s)
  | Accept x i =>
      match strs s x i with
      | Some t =>
          if is_gone s x || byProxy t || accepted t || negb (loops s x (LAcc (skd t))) then None
          else Some (add_h {| hx := x; hsrc := i; hkd := skd t; hp := HOpening |}
                       (set_str x i (set_accepted t) s))
      | None => None
      end
  | LoopEnd x k =>
      if loops s x k && (is_gone s x || is_gone s CL) then Some (stop_loop x k s) else None
  | Open h =>
      match hs s h with
      | Some v =>
          match hp v with
          | HOpening =>
              if is_gone s (other (hx v)) then None
              else Some (set_h h (set_hp v (HBridge (snext s (other (hx v))) (Copying []) (Copying [])))
                           (add_str (other (hx v)) (new_stream true (hkd v)) s))
          | _ => None
          end
      | None => None
      end
  | OpenFail h =>
      match hs s h with
      | Some v =>
          match hp v with
          | HOpening =>
              if is_gone s (other (hx v)) || is_gone s CL then
                let s1 := set_h h (set_hp v HFailed) s in
                match gone s (other (hx v)), strs s (hx v) (hsrc v) with
                | Some true, Some t => Some (set_str (hx v) (hsrc v) (cancel_read t) s1)
                | _, _ => Some s1
                end
              else None
          | _ => None
          end
      | None => None
      end
  | Read h d n =>
      match hs s h with
      | Some v =>
          match ends v d with
          | Some (i, o, Copying []) =>
              match strs s (fst i) (snd i) with
              | Some t =>
                  if rcancel t || (n =? 0) || (List.length (unread t) <? n) then None
                  else Some (set_h h (set_pc v d (Copying (firstn n (unread t))))
                               (set_str (fst i) (snd i) (set_unread (skipn n (unread t)) t) s))
              | None => None
              end
          | _ => None
          end
      | None => None
      end
  | ReadEOF h d =>
      match hs s h with
      | Some v =>
          match ends v d with
          | Some (i, o, Copying []) =>
              match strs s (fst i) (snd i) with
              | Some t =>
                  if negb (readable t) ||
                     (match unread t with [] => fin t | _ => false end) && negb (rcancel t) && negb (is_gone s (fst i))
                  then Some (if cwd d then close_two i o (set_h h (set_pc v d (Finished false)) s)
                             else set_h h (set_pc v d CopyDone) s)
                  else None
              | None => None
              end
          | _ => None
          end
      | None => None
      end
  | ReadErr h d =>
      match hs s h with
      | Some v =>
          match ends v d with
          | Some (i, o, Copying []) =>
              match strs s (fst i) (snd i) with
              | Some t =>
                  if readable t && (is_gone s (fst i) || reset t || rcancel t || rexp t)
                  then Some (close_two i o (set_h h (set_pc v d (Finished true)) s))
                  else None
              | None => None
              end
          | _ => None
          end
      | None => None
      end
  | Write h d =>
      match hs s h with
      | Some v =>
          match ends v d with
          | Some (i, o, Copying (c :: buf)) =>
              match strs s (fst o) (snd o) with
              | Some t =>
                  if is_gone s (fst o) || negb (writable t) || wfin t || stopped t then None
                  else Some (set_h h (set_pc v d (Copying []))
                               (set_str (fst o) (snd o) (deliver (c :: buf) t) s))
              | None => None
              end
          | _ => None
          end
      | None => None
      end
  | WriteErr h d n =>
      match hs s h with
      | Some v =>
          match ends v d with
          | Some (i, o, Copying (c :: buf)) =>
              match strs s (fst o) (snd o) with
              | Some t =>
                  if is_gone s (fst o) || negb (writable t) || wfin t || stopped t then
                    let s1 := if wfin t || negb (writable t) then s
                              else set_str (fst o) (snd o) (deliver (firstn n (c :: buf)) t) s in
                    Some (close_two i o (set_h h (set_pc v d (Finished true)) s1))
                  else None
              | None => None
              end
          | _ => None
          end
      | None => None
      end
  | CloseWrite h d =>
      match hs s h with
      | Some v =>
          match ends v d with
          | Some (i, o, CopyDone) =>
              match strs s (fst o) (snd o) with
              | Some t =>
                  if writable t && stopped t && negb (wfin t) && negb (is_gone s (fst o))
                  then Some (close_two i o (set_h h (set_pc v d (Finished true)) s))
                  else Some (set_h h (set_pc v d WriteClosed) (set_str (fst o) (snd o) (close_st t) s))
              | None => None
              end
          | _ => None
          end
      | None => None
      end
  | CloseRead h d =>
      match hs s h with
      | Some v =>
          match ends v d with
          | Some (i, o, WriteClosed) =>
              match strs s (fst i) (snd i), strs s (fst o) (snd o) with
              | Some t, Some u =>
                  Some (set_h h (set_pc v d (Finished false))
                          (set_str (fst o) (snd o) (set_rdl u) (set_str (fst i) (snd i) (cancel_read t) s)))
              | _, _ => None
              end
          | _ => None
          end
      | None => None
      end
  | MainEnd => if negb (ended s) && all_done s then Some (close_all s) else None
  end.

(** Artefact: a history. *)
Fixpoint run (cwd : dir -> bool) (s : state) (tr : list event) : option state :=
  match tr with
  | [] => Some s
  | e :: tr' => match step cwd s e with Some s' => run cwd s' tr' | None => None end
  end.

(** backend.go:272-279 with config.go:942-950: both false unless configured. *)
Definition settings (serverClose clientClose : option bool) (d : dir) : bool :=
  match d with
  | Bwd => match serverClose with Some b => b | None => false end
  | Fwd => match clientClose with Some b => b | None => false end
  end.
