(** Copying data between a client and a backend server (proxy/backend.go). *)
From Verif Require Import Base.

(** The two connections of a bridge. *)
Inductive side := C | S.
(** Artefact: the opposite side. *)
Definition other (x : side) : side := match x with C => S | S => C end.

(** One connection, as seen by the proxy. *)
Record ep := {
  sent : list ascii;      (* everything its peer has sent so far *)
  unread : list ascii;    (* the part not read yet *)
  fin : bool;             (* the peer has finished sending *)
  broken : bool;          (* the peer is gone (reset): reads and writes fail *)
  got : list ascii;       (* what its peer has been sent by the proxy *)
  wclosed : bool;         (* the proxy has signalled end of file to the peer *)
  closed : bool;          (* the proxy has closed the connection *)
  deadline : bool;        (* a read deadline is set *)
  expired : bool          (* ... and has passed: reads fail *)
}.

(** backend.go:298-322 forward(out, in, ...), identified by its input side:
    where it is. *)
Inductive pc :=
| Copying (buf : list ascii)   (* inside io.Copy with this data read and not written *)
| CopyDone                     (* io.Copy returned nil, closeWhenDone is false *)
| WriteClosed                  (* closeWrite(out) succeeded *)
| Finished (err : bool).       (* forward returned; err: it did not reach the end normally *)

(** Artefact: the two connections and the two forward goroutines of bridgeConns
    (backend.go:271-296). *)
Record state := { eps : side -> ep; thr : side -> pc }.

(** Artefact: a new connection. *)
Definition fresh : ep :=
  {| sent := []; unread := []; fin := false; broken := false; got := []; wclosed := false;
     closed := false; deadline := false; expired := false |}.
(** backend.go:271-296 bridgeConns starts both directions. *)
Definition init : state := {| eps := fun _ => fresh; thr := fun _ => Copying [] |}.

(** Artefact: decidable equality. *)
Definition side_eqb (a b : side) : bool := match a, b with C, C | S, S => true | _, _ => false end.
(** Artefact: record update. *)
Definition set_ep (s : state) (x : side) (e : ep) : state :=
  {| eps := fun y => if side_eqb y x then e else eps s y; thr := thr s |}.
(** Artefact: record update. *)
Definition set_thr (s : state) (x : side) (p : pc) : state :=
  {| eps := eps s; thr := fun y => if side_eqb y x then p else thr s y |}.

(** net.Conn.Close. *)
Definition close_ep (e : ep) : ep :=
  {| sent := sent e; unread := unread e; fin := fin e; broken := broken e; got := got e;
     wclosed := wclosed e; closed := true; deadline := deadline e; expired := expired e |}.
(** out.Close(); in.Close() *)
Definition close_both (s : state) : state :=
  {| eps := fun y => close_ep (eps s y); thr := thr s |}.

(** Artefact: the peer sends data. *)
Definition recv (e : ep) (d : list ascii) : ep :=
  {| sent := sent e ++ d; unread := unread e ++ d; fin := fin e; broken := broken e; got := got e;
     wclosed := wclosed e; closed := closed e; deadline := deadline e; expired := expired e |}.
(** Artefact: the peer ends its direction. *)
Definition set_fin (e : ep) : ep :=
  {| sent := sent e; unread := unread e; fin := true; broken := broken e; got := got e;
     wclosed := wclosed e; closed := closed e; deadline := deadline e; expired := expired e |}.
(** Artefact: the peer is gone. *)
Definition set_broken (e : ep) : ep :=
  {| sent := sent e; unread := unread e; fin := fin e; broken := true; got := got e;
     wclosed := wclosed e; closed := closed e; deadline := deadline e; expired := expired e |}.
(** Artefact: a read deadline passes (backend.go:337-348). *)
Definition set_expired (e : ep) : ep :=
  {| sent := sent e; unread := unread e; fin := fin e; broken := broken e; got := got e;
     wclosed := wclosed e; closed := closed e; deadline := deadline e; expired := true |}.
(** net.Conn.Read, the part that remains. *)
Definition set_unread (e : ep) (d : list ascii) : ep :=
  {| sent := sent e; unread := d; fin := fin e; broken := broken e; got := got e;
     wclosed := wclosed e; closed := closed e; deadline := deadline e; expired := expired e |}.
(** net.Conn.Write. *)
Definition deliver (e : ep) (d : list ascii) : ep :=
  {| sent := sent e; unread := unread e; fin := fin e; broken := broken e; got := got e ++ d;
     wclosed := wclosed e; closed := closed e; deadline := deadline e; expired := expired e |}.
(** backend.go:324-335 closeWrite. *)
Definition set_wclosed (e : ep) : ep :=
  {| sent := sent e; unread := unread e; fin := fin e; broken := broken e; got := got e;
     wclosed := true; closed := closed e; deadline := deadline e; expired := expired e |}.
(** backend.go:314-320: SetReadDeadline with the half-close timeout. *)
Definition set_deadline (e : ep) : ep :=
  {| sent := sent e; unread := unread e; fin := fin e; broken := broken e; got := got e;
     wclosed := wclosed e; closed := closed e; deadline := true; expired := expired e |}.

(** Artefact: what peers and the network do, and the steps of forward (backend.go:298-322). *)
Inductive event :=
| PeerSend (x : side) (d : list ascii)
| PeerFin (x : side)
| PeerReset (x : side)
| Expire (x : side)
| Read (x : side) (n : nat)       (* io.Copy of the direction that reads from x *)
| ReadEOF (x : side)
| ReadErr (x : side)
| Write (x : side)
| WriteErr (x : side) (n : nat)   (* only n bytes were written *)
| CloseWrite (x : side) (ok : bool)
| CloseRead (x : side) (ok : bool).

(** [cwd x]: the closeWhenDone argument of the direction that reads from x:
    clientClose (default false) for C, serverClose (default true) for S
    (backend.go:272-279). *)
Definition step (cwd : side -> bool) (s : state) (e : event) : option state :=
  match e with
  | PeerSend x d =>
      if fin (eps s x) || broken (eps s x) then None else Some (set_ep s x (recv (eps s x) d))
  | PeerFin x => if broken (eps s x) then None else Some (set_ep s x (set_fin (eps s x)))
  | PeerReset x => Some (set_ep s x (set_broken (eps s x)))
  | Expire x => if deadline (eps s x) then Some (set_ep s x (set_expired (eps s x))) else None
  | Read x n =>
      match thr s x with
      | Copying [] =>
          let i := eps s x in
          if closed i || (n =? 0) || (List.length (unread i) <? n) then None
          else Some (set_thr (set_ep s x (set_unread i (skipn n (unread i)))) x
                       (Copying (firstn n (unread i))))
      | _ => None
      end
  | ReadEOF x =>
      match thr s x, unread (eps s x) with
      | Copying [], [] =>
          if fin (eps s x) && negb (closed (eps s x)) then
            Some (if cwd x then set_thr (close_both s) x (Finished false) else set_thr s x CopyDone)
          else None
      | _, _ => None
      end
  | ReadErr x =>
      match thr s x with
      | Copying [] =>
          if closed (eps s x) || broken (eps s x) || expired (eps s x)
          then Some (set_thr (close_both s) x (Finished true)) else None
      | _ => None
      end
  | Write x =>
      match thr s x with
      | Copying (c :: buf) =>
          if closed (eps s (other x)) then None
          else Some (set_thr (set_ep s (other x) (deliver (eps s (other x)) (c :: buf))) x (Copying []))
      | _ => None
      end
  | WriteErr x n =>
      match thr s x with
      | Copying (c :: buf) =>
          let o := eps s (other x) in
          if closed o then
            Some (set_thr (close_both s) x (Finished true))
          else if broken o then
            Some (set_thr (close_both (set_ep s (other x) (deliver o (firstn n (c :: buf))))) x (Finished true))
          else None
      | _ => None
      end
  | CloseWrite x ok =>
      match thr s x with
      | CopyDone =>
          let o := eps s (other x) in
          Some (if ok && negb (closed o) then set_thr (set_ep s (other x) (set_wclosed o)) x WriteClosed
                else set_thr (close_both s) x (Finished true))
      | _ => None
      end
  | CloseRead x ok =>
      match thr s x with
      | WriteClosed =>
          Some (if ok then set_thr (set_ep s (other x) (set_deadline (eps s (other x)))) x (Finished false)
                else set_thr (close_both s) x (Finished true))
      | _ => None
      end
  end.

(** Artefact: a history. *)
Fixpoint run (cwd : side -> bool) (s : state) (tr : list event) : option state :=
  match tr with
  | [] => Some s
  | e :: tr' => match step cwd s e with Some s' => run cwd s' tr' | None => None end
  end.

(** backend.go:272-279: the settings; [None] is not configured. *)
Definition settings (serverClose clientClose : option bool) (x : side) : bool :=
  match x with
  | S => match serverClose with Some b => b | None => true end
  | C => match clientClose with Some b => b | None => false end
  end.
