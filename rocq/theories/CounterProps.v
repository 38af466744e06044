From Verif Require Import Base CounterModel CounterSpec CounterProofs.
Local Open Scope Z_scope.

(** C51: the value is the sum of all increments, whatever the history and the clock. *)
Theorem C51_value_is_the_total :
  forall maxPeriod rez start c ops,
    0 < rez -> 0 <= maxPeriod -> new maxPeriod rez start = Some c ->
    snd (step (after c ops) Value) = RValue (total ops) /\
    forall d t, snd (step (after c ops) (Incr d t)) = RValue (total ops + d).
Proof.
  intros. split.
  - cbn [step snd]. erewrite value_total; eauto.
  - intros. eapply incr_total; eauto.
Qed.
Print Assumptions C51_value_is_the_total.

(** C51: the rate over any period the counter was made for. *)
Theorem C51_rate_is_exact :
  forall maxPeriod rez start c ops period t,
    0 < rez -> 0 <= period <= maxPeriod -> new maxPeriod rez start = Some c ->
    snd (step (after c ops) (Rate period t)) = RRate (rate_spec rez start period ops t).
Proof. exact rate_exact. Qed.
Print Assumptions C51_rate_is_exact.

(** C51: a longer period is answered with a rate of zero over the whole history of
    the counter once it is old enough, whatever was counted: the slot the difference
    is taken with is the current one. *)
Theorem C51_rate_of_longer_period_refuted :
  exists maxPeriod rez start c ops period t,
    0 < rez /\ 0 <= maxPeriod < period /\ new maxPeriod rez start = Some c /\
    total ops = 1000 /\
    (exists d, rate_spec rez start period ops t = Some (1000, d)) /\
    exists d, snd (step (after c ops) (Rate period t)) = RRate (Some (0, d)).
Proof.
  exists 3, 1, 0, {| c_size := 4; c_rez := 1; c_steps := 0; c_head := 0; c_time := 0; c_slots := [0;0;0;0] |}.
  exists [Incr 1000 10], 5, 10. vm_compute.
  repeat split; try discriminate; eexists; reflexivity.
Qed.
Print Assumptions C51_rate_of_longer_period_refuted.

(** A history with a wrap-around, a pause longer than the ring and a clock that
    goes back. *)
Example counter_case :
  exists c, new 3 1 100 = Some c /\
    let ops := [Incr 5 100; Incr 7 101; Incr 1 102; Incr 2 101; Rate 3 103; Incr 9 104; Value] in
    snd (step (after c ops) Value) = RValue 24 /\
    snd (step (after c ops) (Rate 2 104)) = RRate (Some (9, 2)) /\
    snd (step (after c ops) (Rate 3 104)) = RRate (Some (12, 3)) /\
    snd (step (after c ops) (Rate 3 1000)) = RRate (Some (0, 3)) /\
    snd (step (after c ops) (Rate 1 100)) = RRate (Some (9, 1)) /\
    snd (step (after c []) (Rate 3 100)) = RRate None.
Proof. eexists. split; [reflexivity|]. vm_compute. repeat split. Qed.
