(** Choice of the backend address (proxy/backend.go). *)
From Verif Require Import Base.

(** backend.go:136-143, one critical section: take the current address and
    advance the index.  [n] is len(addresses) > 0. *)
Definition take (n next : nat) : nat * nat := (next, (next + 1) mod n).

(** backend.go:134-190: the loop of one dial running alone.  [ok k i] tells
    whether the k-th attempt of this dial, on address i, succeeds.  [max] is
    the remaining number of attempts, [tried] the addresses tried so far (for
    the specification).  The result is the address connected to, or [None] for
    an error, the new index, and the addresses tried in order. *)
Fixpoint dial_loop (n : nat) (ok : nat -> nat -> bool) (k max next : nat)
  : option nat * nat * list nat :=
  match max with
  | O => (None, next, [])
  | S max' =>
      let '(i, next') := take n next in
      if ok k i then (Some i, next', [i])
      else
        match max' with
        | O => (None, next', [i])
        | _ => let '(r, nx, l) := dial_loop n ok (S k) max' next' in (r, nx, i :: l)
        end
  end.

(** backend.go:83-191 dial; with no addresses it is an error (line 106). *)
Definition dial (n : nat) (ok : nat -> nat -> bool) (next : nat) : option nat * nat * list nat :=
  match n with O => (None, next, []) | _ => dial_loop n ok 0 n next end.

(** Successive dials, one after the other: the addresses connected to. *)
Fixpoint dials (n next : nat) (oks : list (nat -> nat -> bool)) : list (option nat) :=
  match oks with
  | [] => []
  | ok :: oks' => let '(r, next', _) := dial n ok next in r :: dials n next' oks'
  end.

(** Concurrent dials.  A thread that is dialling has [left] attempts to go and
    has tried [seen]; an event is one pass through the loop body of a thread. *)
Inductive thread := Idle | Dialling (left : nat) (seen : list nat) | Connected (i : nat) (seen : list nat) | Failed (seen : list nat).
(** backend.go:136-143: be.state.next, and the dials under way. *)
Record cstate := { cnext : nat; threads : nat -> thread }.
(** Artefact: no dial yet. *)
Definition cinit : cstate := {| cnext := 0; threads := fun _ => Idle |}.

(** Artefact: a dial starts; one pass through the loop. *)
Inductive cev := Begin (t : nat) | Try (t : nat) (ok : bool).

(** Artefact: update of one dial. *)
Definition set_thread (s : cstate) (t : nat) (x : thread) : cstate :=
  {| cnext := cnext s; threads := fun t' => if t' =? t then x else threads s t' |}.

(** backend.go:134-190, one pass through the loop by one of several dials. *)
Definition cstep (n : nat) (s : cstate) (e : cev) : option (cstate * option nat) :=
  match e with
  | Begin t =>
      match threads s t with
      | Dialling _ _ => None
      | _ => Some (set_thread s t (Dialling n []), None)
      end
  | Try t ok =>
      match threads s t with
      | Dialling (S m) seen =>
          let '(i, nx) := take n (cnext s) in
          let x := if ok then Connected i (seen ++ [i])
                   else match m with O => Failed (seen ++ [i]) | _ => Dialling m (seen ++ [i]) end in
          Some ({| cnext := nx; threads := threads (set_thread s t x) |}, Some i)
      | _ => None
      end
  end.

(** The addresses used by the attempts of a history, in order. *)
Fixpoint crun (n : nat) (s : cstate) (evs : list cev) : option (cstate * list nat) :=
  match evs with
  | [] => Some (s, [])
  | e :: evs' =>
      match cstep n s e with
      | None => None
      | Some (s', o) =>
          match crun n s' evs' with
          | None => None
          | Some (s'', l) => Some (s'', match o with Some i => i :: l | None => l end)
          end
      end
  end.
