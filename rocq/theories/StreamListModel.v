(** The list of the streams of a QUIC connection (proxy/internal/netw/quic.go), used by many
    goroutines at once.

    Every call is a thread, and one step of a thread is what it does between two operations on
    locks: the two locks (the one of the connection and the one of a stream) are modelled, and
    so is that one is taken while the other is held.  Releasing a lock is one step with the
    last thing that is done under it. *)
From Verif Require Import Base.

(** Which halves a stream has: proxy/internal/netw/quic.go:346-434 (AcceptStream, OpenStream,
    OpenStreamSync: both; AcceptUniStream: ReceiveOnlyStream; OpenUniStream, OpenUniStreamSync:
    SendOnlyStream). *)
Inductive kind := TwoWay | ReceiveOnly | SendOnly.

(** proxy/internal/netw/quic.go:508-516 QUICStream: its lock (the thread that holds it) and the two marks. *)
Record stream := { s_kind : kind; s_lock : option nat; readDone : bool; writeDone : bool }.

(** Artefact: the calls.  [EndRead i] is what markReadDone stands for: Read that fails or
    meets the end, CancelRead and CloseRead (proxy/internal/netw/quic.go:566-569, 596-599, 606-609); [EndWrite i]:
    Write that fails, Close, CancelWrite and CloseWrite (575-584, 590-594, 601-604, 611-613). *)
Inductive call :=
| Open (k : kind)
| EndRead (i : nat)
| EndWrite (i : nat)
| Streams
| BridgeAddr (i : nat).

(** Artefact: where a call is. *)
Inductive pc :=
| Called
| Made (i : nat)         (* Open: quic-go has given us stream [i] *)
| Adding (i : nat)       (* Open: holds the lock of the connection *)
| Marking                (* holds the lock of the stream *)
| Removing               (* ... and wants the one of the connection *)
| Deleting               (* ... and holds both *)
| Leaving                (* ... and has nothing more to do *)
| Cloning                (* Streams: holds the lock of the connection *)
| Opened (i : nat)       (* returned stream [i] *)
| Listed (l : list nat)  (* returned this list *)
| Done.                  (* returned *)
(** Artefact: a thread. *)
Record thread := { t_call : call; t_pc : pc }.

(** Artefact: the connection: QUICConn.streams and its lock; the streams that exist and the
    calls, by number. *)
Record state := { c_list : list nat; c_lock : option nat; all : list stream; threads : list thread }.
(** Artefact: a new connection. *)
Definition init : state := {| c_list := []; c_lock := None; all := []; threads := [] |}.

(** Artefact: list update. *)
Fixpoint upd {A} (i : nat) (x : A) (l : list A) : list A :=
  match i, l with
  | _, [] => []
  | O, _ :: l' => x :: l'
  | S i', y :: l' => y :: upd i' x l'
  end.

(** Artefact: thread [t] moves on. *)
Definition at_pc (s : state) (t : nat) (th : thread) (p : pc) : list thread :=
  upd t {| t_call := t_call th; t_pc := p |} (threads s).
(** Artefact: the lock of a stream is taken or released. *)
Definition with_lock (x : stream) (o : option nat) : stream :=
  {| s_kind := s_kind x; s_lock := o; readDone := readDone x; writeDone := writeDone x |}.

(** proxy/internal/netw/quic.go:542-549 markReadDone and 551-558 markWriteDone: the marks, and whether the
    stream is to be removed. *)
Definition mark (r : bool) (x : stream) : stream * bool :=
  if r then ({| s_kind := s_kind x; s_lock := s_lock x; readDone := true; writeDone := writeDone x |}, writeDone x)
  else ({| s_kind := s_kind x; s_lock := s_lock x; readDone := readDone x; writeDone := true |}, readDone x).
(** proxy/internal/netw/quic.go:189-191 slices.DeleteFunc. *)
Definition delete (i : nat) (l : list nat) : list nat := filter (fun j => negb (i =? j)) l.

(** The steps of markReadDone ([r]) and markWriteDone, proxy/internal/netw/quic.go:542-558 and 186-192. *)
Definition mark_step (s : state) (t : nat) (th : thread) (r : bool) (i : nat) : option state :=
  match nth_error (all s) i with
  | None => None
  | Some x =>
      match t_pc th with
      | Called =>
          match s_lock x with
          | Some _ => None
          | None => Some {| c_list := c_list s; c_lock := c_lock s; all := upd i (with_lock x (Some t)) (all s); threads := at_pc s t th Marking |}
          end
      | Marking =>
          let '(x', last) := mark r x in
          Some {| c_list := c_list s; c_lock := c_lock s; all := upd i x' (all s); threads := at_pc s t th (if last then Removing else Leaving) |}
      | Removing =>
          match c_lock s with
          | Some _ => None
          | None => Some {| c_list := c_list s; c_lock := Some t; all := all s; threads := at_pc s t th Deleting |}
          end
      | Deleting => Some {| c_list := delete i (c_list s); c_lock := None; all := all s; threads := at_pc s t th Leaving |}
      | Leaving => Some {| c_list := c_list s; c_lock := c_lock s; all := upd i (with_lock x None) (all s); threads := at_pc s t th Done |}
      | _ => None
      end
  end.

(** One step of thread [t]; [None]: it has returned, or waits for a lock.
    proxy/internal/netw/quic.go:346-434 (the six calls that return a stream), 180-184 Streams,
    522-526 BridgeAddr and 528-532 SetBridgeAddr. *)
Definition step (s : state) (t : nat) : option state :=
  match nth_error (threads s) t with
  | None => None
  | Some th =>
      match t_call th with
      | Open k =>
          match t_pc th with
          | Called =>
              Some {| c_list := c_list s; c_lock := c_lock s;
                      all := all s ++ [{| s_kind := k; s_lock := None; readDone := false; writeDone := false |}];
                      threads := at_pc s t th (Made (List.length (all s))) |}
          | Made i =>
              match c_lock s with
              | Some _ => None
              | None => Some {| c_list := c_list s; c_lock := Some t; all := all s; threads := at_pc s t th (Adding i) |}
              end
          | Adding i => Some {| c_list := c_list s ++ [i]; c_lock := None; all := all s; threads := at_pc s t th (Opened i) |}
          | _ => None
          end
      | EndRead i => mark_step s t th true i
      | EndWrite i => mark_step s t th false i
      | Streams =>
          match t_pc th with
          | Called =>
              match c_lock s with
              | Some _ => None
              | None => Some {| c_list := c_list s; c_lock := Some t; all := all s; threads := at_pc s t th Cloning |}
              end
          | Cloning => Some {| c_list := c_list s; c_lock := None; all := all s; threads := at_pc s t th (Listed (c_list s)) |}
          | _ => None
          end
      | BridgeAddr i =>
          match nth_error (all s) i with
          | None => None
          | Some x =>
              match t_pc th with
              | Called =>
                  match s_lock x with
                  | Some _ => None
                  | None => Some {| c_list := c_list s; c_lock := c_lock s; all := upd i (with_lock x (Some t)) (all s); threads := at_pc s t th Leaving |}
                  end
              | Leaving => Some {| c_list := c_list s; c_lock := c_lock s; all := upd i (with_lock x None) (all s); threads := at_pc s t th Done |}
              | _ => None
              end
          end
      end
  end.

(** Artefact: stream [i] has been returned to someone. *)
Definition handed_out (s : state) (i : nat) : bool :=
  existsb (fun th => match t_pc th with Opened j => i =? j | _ => false end) (threads s).
(** Artefact: calls on a stream are made by those who have it. *)
Definition allowed (s : state) (c : call) : bool :=
  match c with
  | EndRead i | EndWrite i | BridgeAddr i => handed_out s i
  | _ => true
  end.
(** Artefact: a new call, or a step of one. *)
Inductive event := Call (c : call) | Step (t : nat).
(** Artefact: [None] when it cannot happen. *)
Definition next (s : state) (e : event) : option state :=
  match e with
  | Call c =>
      if allowed s c
      then Some {| c_list := c_list s; c_lock := c_lock s; all := all s; threads := threads s ++ [{| t_call := c; t_pc := Called |}] |}
      else None
  | Step t => step s t
  end.
(** Artefact: a history. *)
Fixpoint run (s : state) (h : list event) : option state :=
  match h with
  | [] => Some s
  | e :: h => match next s e with Some s => run s h | None => None end
  end.
