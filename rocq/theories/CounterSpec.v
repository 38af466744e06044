(** What a traffic counter must report, from the history of calls alone.  Time is
    cut into slots of length [rez]; a clock that goes backwards stands still. *)
From Verif Require Import Base CounterModel.
Local Open Scope Z_scope.

Definition total (ops : list op) : Z :=
  fold_right (fun o s => match o with Incr d _ => d + s | _ => s end) 0 ops.

(** The slot of the latest time any of the calls saw, not before [s]. *)
Fixpoint slot_after (rez s : Z) (ops : list op) : Z :=
  match ops with
  | [] => s
  | Value :: ops' => slot_after rez s ops'
  | Incr _ t :: ops' | Rate _ t :: ops' => slot_after rez (Z.max s (t / rez)) ops'
  end.

(** The sum of the increments that were made in a slot after [from]; [s] is the
    slot when the history starts. *)
Fixpoint since (rez s from : Z) (ops : list op) : Z :=
  match ops with
  | [] => 0
  | Value :: ops' => since rez s from ops'
  | Rate _ t :: ops' => since rez (Z.max s (t / rez)) from ops'
  | Incr d t :: ops' =>
      let s' := Z.max s (t / rez) in
      (if from <? s' then d else 0) + since rez s' from ops'
  end.

(** The rate over [period]: the last [n] slots, the one in progress included, where
    [n] is the number of slots in the period, or those since the counter exists. *)
Definition rate_spec (rez start period : Z) (ops : list op) (clock : Z) : option (Z * Z) :=
  let cur := Z.max (slot_after rez (start / rez) ops) (clock / rez) in
  let n := Z.min (period / rez) (cur - start / rez) in
  if n =? 0 then None
  else Some (since rez (start / rez) (cur - n) ops, n * rez).
