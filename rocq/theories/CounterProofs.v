From Verif Require Import Base CounterModel CounterSpec.
Local Open Scope Z_scope.

Lemma set_slot_len i v l : List.length (set_slot i v l) = List.length l.
Proof. revert i; induction l as [|x l IH]; intros [|i]; simpl; auto. Qed.

Lemma nth_set_same i v l : (i < List.length l)%nat -> nth i (set_slot i v l) 0 = v.
Proof.
  revert i; induction l as [|x l IH]; intros [|i] H; simpl in *; try lia; auto.
  apply IH; lia.
Qed.

Lemma nth_set_other i j v l : i <> j -> nth j (set_slot i v l) 0 = nth j l 0.
Proof.
  revert i j; induction l as [|x l IH]; intros [|i] [|j] H; simpl; auto; try congruence.
Qed.

(** The index of the slot [k] places behind the head. *)
Definition back (c : counter) (k : nat) : nat := ((c_head c + c_size c - k) mod c_size c)%nat.

Definition wf (c : counter) : Prop :=
  (0 < c_size c)%nat /\ (c_head c < c_size c)%nat /\ List.length (c_slots c) = c_size c /\ 0 < c_rez c.

Lemma back_zero c : wf c -> back c 0 = c_head c.
Proof.
  intros (A & B & _). unfold back.
  replace (c_head c + c_size c - 0)%nat with (c_head c + 1 * c_size c)%nat by lia.
  rewrite Nat.mod_add by lia. apply Nat.mod_small; lia.
Qed.

Lemma mod_cases a n : (0 < n)%nat -> (a < 2 * n)%nat ->
  ((a < n)%nat /\ (a mod n = a)%nat) \/ ((n <= a)%nat /\ (a mod n = a - n)%nat).
Proof.
  intros N H. destruct (Nat.lt_ge_cases a n) as [L|G].
  - left. split; auto. apply Nat.mod_small; auto.
  - right. split; auto. replace a with (a - n + 1 * n)%nat at 1 by lia.
    rewrite Nat.mod_add by lia. apply Nat.mod_small; lia.
Qed.

(** One move of the head. *)
Lemma forward1 v c : wf c ->
  let c' := forward 1 v c in
  wf c' /\ slot c' (back c' 0) = v /\
  (forall k, (S k < c_size c)%nat -> slot c' (back c' (S k)) = slot c (back c k)) /\
  c_size c' = c_size c /\ c_rez c' = c_rez c /\ c_time c' = c_time c /\ c_steps c' = c_steps c.
Proof.
  intros W. pose proof W as (A & B & C & D).
  assert (L : ((c_head c + 1) mod c_size c < c_size c)%nat) by (apply Nat.mod_upper_bound; lia).
  assert (W' : wf (forward 1 v c)).
  { unfold wf; cbn [forward c_size c_head c_slots c_rez]. rewrite set_slot_len. auto. }
  cbv zeta. split; [exact W'|]. split; [|split; [|cbn; auto]].
  - rewrite back_zero by exact W'. unfold slot; cbn [forward c_head c_slots].
    apply nth_set_same. lia.
  - intros k K. unfold slot, back; cbn [forward c_head c_slots c_size].
    assert (E : (((c_head c + 1) mod c_size c + c_size c - S k) mod c_size c =
                 (c_head c + c_size c - k) mod c_size c)%nat).
    { destruct (mod_cases (c_head c + 1) (c_size c)) as [[? ->] | [? ->]]; try lia.
      - f_equal. lia.
      - assert (c_head c + 1 = c_size c)%nat by lia.
        replace (c_head c + 1 - c_size c + c_size c - S k)%nat with (c_head c - k)%nat by lia.
        replace (c_head c + c_size c - k)%nat with (c_head c - k + 1 * c_size c)%nat by lia.
        rewrite Nat.mod_add by lia. reflexivity. }
    rewrite E. rewrite nth_set_other; auto.
    destruct (mod_cases (c_head c + 1) (c_size c)) as [[? ->] | [? ->]]; try lia;
      destruct (mod_cases (c_head c + c_size c - k) (c_size c)) as [[? ->] | [? ->]]; lia.
Qed.

Lemma forward_n n v c : wf c ->
  let c' := forward n v c in
  wf c' /\
  (forall k, (k < c_size c)%nat -> slot c' (back c' k) =
     if (k <? n)%nat then v else slot c (back c (k - n))) /\
  c_size c' = c_size c /\ c_rez c' = c_rez c /\ c_time c' = c_time c /\ c_steps c' = c_steps c.
Proof.
  revert c; induction n as [|n IH]; intros c W.
  { cbn. repeat split; auto; try apply W. intros k K. rewrite Nat.sub_0_r. reflexivity. }
  destruct (forward1 v c W) as (W1 & Z1 & S1 & E1 & E2 & E3 & E4).
  change (forward (S n) v c) with (forward n v (forward 1 v c)).
  set (c1 := forward 1 v c) in *.
  destruct (IH c1 W1) as (W2 & S2 & F1 & F2 & F3 & F4). cbv zeta in *.
  split; [exact W2|]. split.
  - intros k K. rewrite S2 by lia.
    destruct (Nat.ltb_spec k n), (Nat.ltb_spec k (S n)); try lia; auto.
    + assert (k = n) by lia; subst k. rewrite Nat.sub_diag. exact Z1.
    + replace (k - n)%nat with (S (k - S n)) by lia. apply S1. lia.
  - rewrite F1, F2, F3, F4. auto.
Qed.

(** The specification's sums. *)
Lemma slot_after_app rez s a b : slot_after rez s (a ++ b) = slot_after rez (slot_after rez s a) b.
Proof. revert s; induction a as [|[|d t|p t] a IH]; intros s; simpl; auto. Qed.

Lemma slot_after_ge rez s a : s <= slot_after rez s a.
Proof.
  revert s; induction a as [|[|d t|p t] a IH]; intros s; simpl; try lia; auto.
  - specialize (IH (Z.max s (t / rez))). lia.
  - specialize (IH (Z.max s (t / rez))). lia.
Qed.

Lemma since_app rez s f a b :
  since rez s f (a ++ b) = since rez s f a + since rez (slot_after rez s a) f b.
Proof.
  revert s; induction a as [|[|d t|p t] a IH]; intros s; simpl; auto.
  rewrite IH. lia.
Qed.

Lemma since_none rez s f a : slot_after rez s a <= f -> since rez s f a = 0.
Proof.
  revert s; induction a as [|[|d t|p t] a IH]; intros s H; simpl in *; auto.
  pose proof (slot_after_ge rez (Z.max s (t / rez)) a).
  destruct (Z.ltb_spec f (Z.max s (t / rez))); try lia. rewrite IH; lia.
Qed.

Lemma since_all rez s f a : f < s -> since rez s f a = total a.
Proof.
  revert s; induction a as [|[|d t|p t] a IH]; intros s H; simpl in *; auto;
    try (apply IH; lia).
  destruct (Z.ltb_spec f (Z.max s (t / rez))); try lia. rewrite IH; lia.
Qed.

Lemma since_before rez s f a : f < s -> forall g, g < s -> since rez s f a = since rez s g a.
Proof. intros F g G. rewrite !since_all; auto. Qed.

Lemma total_app a b : total (a ++ b) = total a + total b.
Proof. induction a as [|[|d t|p t] a IH]; simpl; auto; rewrite IH; lia. Qed.

Lemma truncate_div t rez : 0 < rez -> truncate t rez = (t / rez) * rez.
Proof. intros R. unfold truncate. pose proof (Z.div_mod t rez). lia. Qed.

(** The invariant: [k] places behind the head is what had been counted when the slot
    [k] before the current one ended. *)
Definition inv (rez s0 : Z) (size : nat) (ops : list op) (c : counter) : Prop :=
  wf c /\ c_rez c = rez /\ c_size c = size /\
  c_time c = slot_after rez s0 ops * rez /\
  c_steps c = slot_after rez s0 ops - s0 /\
  forall k, (k < size)%nat ->
    slot c (back c k) = total ops - since rez s0 (slot_after rez s0 ops - Z.of_nat k) ops.

(** advance, as a change of the invariant by a call that counts nothing. *)
Lemma inv_advance rez s0 size ops c p t :
  inv rez s0 size ops c -> inv rez s0 size (ops ++ [Rate p t]) (advance t c).
Proof.
  intros (W & R & Sz & T & St & H). pose proof W as (A & B & C & D).
  set (cur := slot_after rez s0 ops) in *.
  assert (E : slot_after rez s0 (ops ++ [Rate p t]) = Z.max cur (t / rez)).
  { rewrite slot_after_app. reflexivity. }
  assert (E2 : forall f, since rez s0 f (ops ++ [Rate p t]) = since rez s0 f ops).
  { intros f. rewrite since_app. simpl. lia. }
  assert (E3 : total (ops ++ [Rate p t]) = total ops).
  { rewrite total_app. simpl. lia. }
  unfold inv. rewrite E, E3. unfold advance. rewrite truncate_div, R, T by lia.
  subst rez.
  destruct (Z.leb_spec (t / c_rez c * c_rez c) (cur * c_rez c)) as [L|G].
  - assert (t / c_rez c <= cur) by nia. rewrite Z.max_l by lia.
    repeat split; auto. intros k K. rewrite E2. auto.
  - assert (N : cur < t / c_rez c) by nia. rewrite Z.max_r by lia.
    set (d := t / c_rez c) in *.
    assert (Q : Z.quot (d * c_rez c - cur * c_rez c) (c_rez c) = d - cur).
    { rewrite <- Z.mul_sub_distr_r. apply Z.quot_mul. lia. }
    rewrite Q.
    set (c1 := {| c_size := c_size c; c_rez := c_rez c; c_steps := c_steps c + (d - cur);
                  c_head := c_head c; c_time := d * c_rez c; c_slots := c_slots c |}).
    assert (W1 : wf c1) by (unfold wf, c1; cbn; auto).
    destruct (forward_n (Z.to_nat (Z.min (d - cur) (Z.of_nat (c_size c))))
                (slot c (c_head c)) c1 W1) as (W2 & S2 & F1 & F2 & F3 & F4).
    cbv zeta in *. split; [exact W2|]. rewrite F1, F2, F3, F4.
    split; [reflexivity|]. split; [exact Sz|]. split; [reflexivity|].
    split; [unfold c1; cbn [c_steps]; lia|].
    intros k K. rewrite S2 by (unfold c1; cbn; lia). rewrite E2.
    assert (V : slot c (c_head c) = total ops).
    { rewrite <- (back_zero c W), H by lia.
      rewrite since_none by (fold cur; lia). lia. }
    destruct (Nat.ltb_spec k (Z.to_nat (Z.min (d - cur) (Z.of_nat (c_size c))))) as [X|X].
    + rewrite V, since_none by (fold cur; lia). lia.
    + change (slot c1 (back c1 (k - Z.to_nat (Z.min (d - cur) (Z.of_nat (c_size c))))))
        with (slot c (back c (k - Z.to_nat (Z.min (d - cur) (Z.of_nat (c_size c)))))).
      rewrite H by lia. f_equal. f_equal. lia.
Qed.

Lemma inv_step rez s0 size ops c o :
  inv rez s0 size ops c -> inv rez s0 size (ops ++ [o]) (fst (step c o)).
Proof.
  intros I. destruct o as [|d t|p t]; cbn [step].
  - (* Value *)
    cbn [fst]. destruct I as (W & R & Sz & T & St & H).
    unfold inv. rewrite slot_after_app, total_app. cbn [slot_after total fold_right].
    rewrite Z.add_0_r. repeat split; auto; try apply W.
    intros k K. rewrite since_app. simpl. rewrite Z.add_0_r. auto.
  - (* Incr *)
    cbn [incr fst].
    pose proof (inv_advance rez s0 size ops c 0 t I) as (W & R & Sz & T & St & H).
    rewrite slot_after_app in *. cbn [slot_after] in *.
    set (cur := Z.max (slot_after rez s0 ops) (t / rez)) in *.
    set (c1 := advance t c) in *.
    pose proof W as (A & B & C & D).
    unfold inv, incr. fold c1. cbn [c_size c_rez c_time c_steps c_slots c_head fst].
    rewrite slot_after_app. cbn [slot_after]. fold cur.
    split; [unfold wf; cbn [c_size c_head c_slots c_rez]; rewrite set_slot_len; auto|].
    repeat split; auto.
    intros k K. specialize (H k K). rewrite total_app, since_app in *. cbn [total fold_right since] in *.
    fold cur in H |- *. unfold slot, back in *; cbn [c_slots c_head c_size] in *.
    destruct k as [|k].
    + fold (back c1 0) in *. rewrite (back_zero c1 W) in *.
      rewrite nth_set_same by lia. rewrite H.
      destruct (Z.ltb_spec (cur - Z.of_nat 0) cur); lia.
    + rewrite nth_set_other.
      * rewrite H. destruct (Z.ltb_spec (cur - Z.of_nat (S k)) cur); lia.
      * destruct (mod_cases (c_head c1 + c_size c1 - S k) (c_size c1)) as [[? ->] | [? ->]]; lia.
  - (* Rate *)
    unfold rate. cbn [step fst].
    pose proof (inv_advance rez s0 size ops c p t I) as I'.
    destruct (_ =? 0); exact I'.
Qed.

Lemma after_snoc c ops o : after c (ops ++ [o]) = fst (step (after c ops) o).
Proof. revert c; induction ops as [|x ops IH]; intros c; simpl; auto. Qed.

Lemma back_repeat n k m : nth k (repeat 0 n) m = if (k <? n)%nat then 0 else m.
Proof.
  revert k; induction n as [|n IH]; intros [|k]; simpl; auto.
  rewrite IH. reflexivity.
Qed.

Lemma inv_new maxPeriod rez start c :
  0 < rez -> 0 <= maxPeriod -> new maxPeriod rez start = Some c ->
  inv rez (start / rez) (c_size c) [] c /\ Z.of_nat (c_size c) = maxPeriod / rez + 1.
Proof.
  intros R M N. unfold new in N.
  destruct (Z.eqb_spec rez 0); try lia.
  rewrite Z.quot_div_nonneg in N by lia.
  pose proof (Z.div_pos maxPeriod rez M R).
  destruct (Z.ltb_spec 1000 (maxPeriod / rez + 1)); try discriminate.
  destruct (Z.ltb_spec (maxPeriod / rez + 1) 0); try lia.
  injection N as <-. cbn [c_size]. split; [|lia].
  unfold inv, wf; cbn [c_size c_head c_slots c_rez c_time c_steps].
  rewrite repeat_length, truncate_div by lia. cbn [slot_after].
  repeat split; auto; try lia.
  intros k K. unfold slot, back; cbn [c_slots c_head c_size].
  rewrite back_repeat. simpl. destruct (_ <? _)%nat; lia.
Qed.

Lemma inv_after maxPeriod rez start c ops :
  0 < rez -> 0 <= maxPeriod -> new maxPeriod rez start = Some c ->
  inv rez (start / rez) (c_size c) ops (after c ops).
Proof.
  intros R M N. destruct (inv_new maxPeriod rez start c R M N) as (I & _).
  induction ops as [|o ops IH] using rev_ind; auto.
  rewrite after_snoc. apply inv_step; auto.
Qed.

Lemma value_total maxPeriod rez start c ops :
  0 < rez -> 0 <= maxPeriod -> new maxPeriod rez start = Some c ->
  value (after c ops) = total ops.
Proof.
  intros R M N. pose proof (inv_after _ _ _ _ ops R M N) as (W & E & Sz & T & St & H).
  unfold value. rewrite <- (back_zero _ W), H by (destruct W; lia).
  rewrite since_none by lia. lia.
Qed.

Lemma incr_total maxPeriod rez start c ops d t :
  0 < rez -> 0 <= maxPeriod -> new maxPeriod rez start = Some c ->
  snd (step (after c ops) (Incr d t)) = RValue (total ops + d).
Proof.
  intros R M N. pose proof (value_total _ _ _ _ (ops ++ [Incr d t]) R M N) as V.
  rewrite after_snoc in V. cbn [step] in *.
  destruct (incr d t (after c ops)) as [c' v] eqn:E. cbn [fst snd] in *.
  rewrite total_app in V. cbn [total fold_right] in V.
  assert (v = value c').
  { unfold incr in E. injection E as <- <-. reflexivity. }
  subst v. rewrite V. f_equal. lia.
Qed.

Lemma rate_exact maxPeriod rez start c ops period t :
  0 < rez -> 0 <= period <= maxPeriod -> new maxPeriod rez start = Some c ->
  snd (step (after c ops) (Rate period t)) = RRate (rate_spec rez start period ops t).
Proof.
  intros R P N. assert (M : 0 <= maxPeriod) by lia.
  destruct (inv_new maxPeriod rez start c R M N) as (_ & Sz0).
  pose proof (inv_after _ _ _ _ ops R M N) as I0.
  pose proof (inv_advance _ _ _ _ _ period t I0) as (W & E & Sz & T & St & H).
  rewrite slot_after_app in *. cbn [slot_after] in *.
  cbn [step]. unfold rate, rate_spec.
  set (cur := Z.max (slot_after rez (start / rez) ops) (t / rez)) in *.
  set (c1 := advance t (after c ops)) in *.
  rewrite E, St, Sz, Sz0. rewrite Z.quot_div_nonneg by lia.
  pose proof (Z.div_pos period rez (proj1 P) R).
  assert (period / rez <= maxPeriod / rez) by (apply Z.div_le_mono; lia).
  assert (start / rez <= cur).
  { pose proof (slot_after_ge rez (start / rez) ops). unfold cur; lia. }
  rewrite (Z.min_l (Z.min (period / rez) (cur - start / rez))) by lia.
  set (n := Z.min (period / rez) (cur - start / rez)) in *.
  destruct (Z.eqb_spec n 0); cbn [snd]; auto.
  f_equal. f_equal. f_equal.
  pose proof W as (A & B & C & D).
  assert (X : Z.to_nat (Z.rem (Z.of_nat (c_head c1) + (maxPeriod / rez + 1) - n) (maxPeriod / rez + 1))
              = back c1 (Z.to_nat n)).
  { rewrite <- Sz0, <- Sz. rewrite Z.rem_mod_nonneg by lia. unfold back.
    rewrite <- (Z2Nat.id n) at 1 by lia.
    rewrite <- Nat2Z.inj_add, <- Nat2Z.inj_sub by lia.
    rewrite <- Nat2Z.inj_mod, Nat2Z.id. reflexivity. }
  rewrite X. rewrite H by lia. rewrite <- (back_zero c1 W), H by lia.
  rewrite !since_app. cbn [since]. rewrite Z2Nat.id by lia.
  assert (since rez (start / rez) (cur - Z.of_nat 0) ops = 0).
  { apply since_none. unfold cur; lia. }
  lia.
Qed.
