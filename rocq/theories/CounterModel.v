(** The counter that keeps some history to calculate rates
    (proxy/internal/counter/counter.go).  Times are nanoseconds since Go's zero
    time, durations are nanoseconds; both are unbounded integers, and so are the
    counts (Go uses int64: wrap-around is not modelled). *)
From Verif Require Import Base.
Local Open Scope Z_scope.

(** counter.go:57-66 *)
Record counter := {
  c_size : nat;
  c_rez : Z;
  c_steps : Z;
  c_head : nat;
  c_time : Z;
  c_slots : list Z
}.

(** time.Time.Truncate: down to a multiple of the duration since the zero time. *)
Definition truncate (now rez : Z) : Z := now - now mod rez.

(** counter.go:44-55 New.  A panic (a period with more than 1000 slots, or a
    division by zero) is [None].  A negative size makes the call to make panic. *)
Definition new (maxPeriod rez now : Z) : option counter :=
  if rez =? 0 then None
  else
    let size := Z.quot maxPeriod rez + 1 in
    if 1000 <? size then None
    else if size <? 0 then None
    else Some {| c_size := Z.to_nat size; c_rez := rez; c_steps := 0; c_head := 0;
                 c_time := truncate now rez; c_slots := repeat 0 (Z.to_nat size) |}.

(** slots[i] *)
Definition slot (c : counter) (i : nat) : Z := nth i (c_slots c) 0.

(** slots[i] = v *)
Fixpoint set_slot (i : nat) (v : Z) (l : list Z) : list Z :=
  match l, i with
  | [], _ => []
  | _ :: l', O => v :: l'
  | x :: l', S i' => x :: set_slot i' v l'
  end.

(** counter.go:112-117: the loop that moves the head forward [n] times. *)
Fixpoint forward (n : nat) (v : Z) (c : counter) : counter :=
  match n with
  | O => c
  | S n' =>
      let head := ((c_head c + 1) mod c_size c)%nat in
      forward n' v
        {| c_size := c_size c; c_rez := c_rez c; c_steps := c_steps c; c_head := head;
           c_time := c_time c; c_slots := set_slot head v (c_slots c) |}
  end.

(** counter.go:103-118 advance; [clock] is what timeNow returns. *)
Definition advance (clock : Z) (c : counter) : counter :=
  let now := truncate clock (c_rez c) in
  if now <=? c_time c then c
  else
    let steps := Z.quot (now - c_time c) (c_rez c) in
    let n := Z.to_nat (Z.min steps (Z.of_nat (c_size c))) in
    forward n (slot c (c_head c))
      {| c_size := c_size c; c_rez := c_rez c; c_steps := c_steps c + steps;
         c_head := c_head c; c_time := now; c_slots := c_slots c |}.

(** counter.go:68-75 Value *)
Definition value (c : counter) : Z := slot c (c_head c).

(** counter.go:77-86 Incr: the new counter and the result. *)
Definition incr (delta clock : Z) (c : counter) : counter * Z :=
  let c := advance clock c in
  let c := {| c_size := c_size c; c_rez := c_rez c; c_steps := c_steps c; c_head := c_head c;
              c_time := c_time c;
              c_slots := set_slot (c_head c) (slot c (c_head c) + delta) (c_slots c) |} in
  (c, slot c (c_head c)).

(** counter.go:88-101 Rate: the new counter and the two operands of the final
    floating point division, the change and the duration in nanoseconds (the
    division itself is not modelled); [None] is the result 0 of line 96. *)
Definition rate (period clock : Z) (c : counter) : counter * option (Z * Z) :=
  let c := advance clock c in
  let steps := Z.min (Z.min (Z.quot period (c_rez c)) (c_steps c)) (Z.of_nat (c_size c)) in
  if steps =? 0 then (c, None)
  else
    let i := Z.to_nat (Z.rem (Z.of_nat (c_head c) + Z.of_nat (c_size c) - steps) (Z.of_nat (c_size c))) in
    (c, Some (slot c (c_head c) - slot c i, steps * c_rez c)).

(** The calls.  Each holds the mutex from start to end, so concurrent calls are
    some sequence of these. *)
Inductive op :=
| Value
| Incr (delta clock : Z)
| Rate (period clock : Z).

(** Artefact: what the calls return. *)
Inductive result :=
| RValue (v : Z)
| RRate (r : option (Z * Z)).

(** counter.go:68-101, one call. *)
Definition step (c : counter) (o : op) : counter * result :=
  match o with
  | Value => (c, RValue (value c))
  | Incr d t => let '(c', v) := incr d t c in (c', RValue v)
  | Rate p t => let '(c', r) := rate p t c in (c', RRate r)
  end.

(** Artefact: a history. *)
Fixpoint after (c : counter) (ops : list op) : counter :=
  match ops with
  | [] => c
  | o :: ops' => after (fst (step c o)) ops'
  end.
