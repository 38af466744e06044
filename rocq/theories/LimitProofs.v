From Coq Require Import ZArith List Bool Lia.
From Verif Require Import LimitModel LimitSpec.
Import ListNotations.
Local Open Scope Z_scope.

Lemma sizes_nonneg : forall p w, Forall (fun x => 0 <= wSize x) w -> 0 <= sizes p w.
Proof.
  intros p w H. induction H as [|x w Hx H IH]; cbn [sizes]; [lia|]. destruct (p x); lia.
Qed.

Lemma sizes_le : forall p q w, Forall (fun x => 0 <= wSize x) w ->
  (forall x, In x w -> p x = true -> q x = true) -> sizes p w <= sizes q w.
Proof.
  intros p q w H. induction H as [|x w Hx H IH]; intros P; cbn [sizes]; [lia|].
  assert (IH' : sizes p w <= sizes q w) by (apply IH; intros y Hy; apply P; right; exact Hy).
  pose proof (P x (or_introl eq_refl)) as Px.
  destruct (p x); [rewrite (Px eq_refl)|destruct (q x)]; lia.
Qed.

Lemma sizes_split : forall p q w,
  sizes p w = sizes (fun x => p x && q x) w + sizes (fun x => p x && negb (q x)) w.
Proof.
  intros p q w. induction w as [|x w IH]; cbn [sizes]; [lia|].
  destruct (p x), (q x); cbn [andb negb]; lia.
Qed.

Lemma sizes_ext : forall p q w, (forall x, In x w -> p x = q x) -> sizes p w = sizes q w.
Proof.
  intros p q w. induction w as [|x w IH]; intros P; cbn [sizes]; [lia|].
  rewrite (P x (or_introl eq_refl)), IH; [lia|]. intros y Hy. apply P. right. exact Hy.
Qed.

Lemma find_in : forall i w x, find_waiter i w = Some x -> In x w /\ wConn x = i.
Proof.
  intros i w. induction w as [|y w IH]; intros x H; cbn [find_waiter] in H; [discriminate|].
  destruct (Nat.eqb (wConn y) i) eqn:E.
  - injection H as <-. split; [left; reflexivity|]. apply Nat.eqb_eq. exact E.
  - destruct (IH x H) as [A B]. split; [right; exact A|exact B].
Qed.

Lemma sizes_drop : forall p i w x, find_waiter i w = Some x ->
  sizes p (drop_waiter i w) = sizes p w - (if p x then wSize x else 0).
Proof.
  intros p i w. induction w as [|y w IH]; intros x H; cbn [find_waiter] in H; [discriminate|].
  cbn [drop_waiter sizes]. destruct (Nat.eqb (wConn y) i).
  - injection H as <-. lia.
  - cbn [sizes]. rewrite (IH x H). lia.
Qed.

Lemma drop_in : forall i w x, In x (drop_waiter i w) -> In x w.
Proof.
  intros i w. induction w as [|y w IH]; intros x H; cbn [drop_waiter] in H; [exact H|].
  destruct (Nat.eqb (wConn y) i); [right; exact H|].
  destruct H as [->|H]; [left; reflexivity|right; apply IH; exact H].
Qed.

Lemma sound_drop : forall i w,
  Forall (fun x => 0 <= wSize x) w -> Forall (fun x => 0 <= wSize x) (drop_waiter i w).
Proof.
  intros i w H. apply Forall_forall. intros x Hx. rewrite Forall_forall in H.
  apply H. apply drop_in in Hx. exact Hx.
Qed.

(** The limiter after a call was let in. *)
Lemma reserve_inv : forall l t n l' act, 0 < rate l -> reserve l t n = Some (l', act) ->
  n <= burst l /\ rate l' = rate l /\ burst l' = burst l /\
  tokens l' = advance l t - n * giga /\ last l' = t /\ t <= act /\
  - tokens l' <= rate l * (act - t) + rate l /\
  (tokens l' < 0 -> rate l * (act - t) <= - tokens l') /\
  (0 <= tokens l' -> act = t).
Proof.
  intros l t n l' act Hr H. unfold reserve in H.
  destruct (burst l <? n) eqn:E; [discriminate|]. apply Z.ltb_ge in E.
  destruct (rate l =? 0) eqn:E0; [apply Z.eqb_eq in E0; lia|].
  cbv zeta in H. injection H as <- <-. cbn [rate burst tokens last].
  set (lft := advance l t - n * giga). clearbody lft. clear E0.
  destruct (lft <? 0) eqn:E1; [apply Z.ltb_lt in E1|apply Z.ltb_ge in E1].
  - pose proof (Z.div_mod (- lft) (rate l)) as D.
    pose proof (Z.mod_pos_bound (- lft) (rate l) Hr) as M.
    pose proof (Z.div_pos (- lft) (rate l)) as P.
    set (q := (- lft) / rate l) in *. clearbody q.
    assert (0 <= q) by (apply P; lia).
    repeat split; try lia; nia.
  - repeat split; try lia.
Qed.

Lemma advance_later : forall l t, last l <= t ->
  advance l t = Z.min (burst l * giga) (tokens l + rate l * (t - last l)).
Proof. intros l t H. unfold advance. rewrite (Z.min_r t (last l)) by exact H. reflexivity. Qed.

Lemma advance_step : forall l t u, 0 < rate l -> last l <= t -> t <= u ->
  advance l u = Z.min (burst l * giga) (advance l t + rate l * (u - t)).
Proof.
  intros l t u Hr H1 H2. rewrite !advance_later by lia.
  assert (0 <= rate l * (u - t)) by nia.
  replace (rate l * (u - last l)) with (rate l * (t - last l) + rate l * (u - t)) by ring.
  lia.
Qed.

(** The state at time [now]. *)
Record inv (r B now : Z) (s : state) : Prop := {
  i_rate : rate (lim s) = r;
  i_burst : burst (lim s) = B;
  i_pos : 0 <= B;
  i_last : last (lim s) <= now;
  i_sound : Forall (fun x => 0 <= wSize x) (waiting s);
  i_low : forall t, now <= t -> - advance (lim s) t <= queued s t * giga + r;
  i_high : forall t, now <= t -> advance (lim s) t + queued s t * giga <= B * giga;
  i_mid : forall t u, now <= t -> t <= u ->
    sizes (fun w => (t <? wAct w) && (wAct w <=? u)) (waiting s) * giga <=
    B * giga + r * (u - t + 1) }.

Lemma inv_later : forall r B a b s, a <= b -> inv r B a s -> inv r B b s.
Proof.
  intros r B a b s H I. destruct I as [I1 I2 Ip I3 I4 I5 I6 I7]. constructor; try assumption; try lia.
  - intros t Ht. apply I5. lia.
  - intros t Ht. apply I6. lia.
  - intros t u Ht Hu. apply I7; lia.
Qed.

Lemma inv_start : forall r B, 0 < r -> 0 <= B -> inv r B 0 (start_with r B).
Proof.
  intros r B Hr HB. unfold start_with, new_limiter.
  constructor; unfold queued; cbn [lim rate burst last waiting sizes]; try reflexivity; try lia; try constructor.
  - intros t Ht. rewrite advance_later by (cbn [last]; lia). cbn [tokens burst rate last].
    assert (0 <= r * (t - 0)) by nia. unfold giga. lia.
  - intros t Ht. rewrite advance_later by (cbn [last]; lia). cbn [tokens burst rate last].
    unfold giga. lia.
  - intros t u Ht Hu. assert (0 <= r * (u - t + 1)) by nia. unfold giga. lia.
Qed.

Lemma inv_fresh : forall r, 0 < r -> inv r (burst_of r) 0 (fresh r).
Proof. intros r Hr. apply inv_start; [exact Hr|]. unfold burst_of. lia. Qed.

(** A call that returns. *)
Lemma inv_drop : forall r B now s i w d,
  inv r B now s -> find_waiter i (waiting s) = Some w -> wAct w <= now ->
  inv r B now {| lim := lim s; waiting := drop_waiter i (waiting s); done := d |}.
Proof.
  intros r B now s i w d I F A. destruct I as [I1 I2 Ip I3 I4 I5 I6 I7].
  assert (Q : forall t, now <= t ->
    queued {| lim := lim s; waiting := drop_waiter i (waiting s); done := d |} t = queued s t).
  { intros t Ht. unfold queued. cbn [waiting]. rewrite (sizes_drop _ _ _ w F).
    cbv beta. replace (t <? wAct w) with false by (symmetry; apply Z.ltb_ge; lia). lia. }
  constructor; cbn [lim waiting]; try assumption.
  - apply sound_drop. exact I4.
  - intros t Ht. rewrite Q by exact Ht. apply I5. exact Ht.
  - intros t Ht. rewrite Q by exact Ht. apply I6. exact Ht.
  - intros t u Ht Hu. rewrite (sizes_drop _ _ _ w F). cbv beta.
    replace (t <? wAct w) with false by (symmetry; apply Z.ltb_ge; lia). cbn [andb].
    specialize (I7 t u Ht Hu). lia.
Qed.

(** A call that is let in. *)
Lemma inv_call : forall r B now s i n l act, 0 < r -> 0 <= n ->
  inv r B now s -> reserve (lim s) now n = Some (l, act) ->
  inv r B now {| lim := l; waiting := {| wConn := i; wSize := n; wAct := act |} :: waiting s;
               done := done s |}.
Proof.
  intros r B now s i n l act Hr Hn I R. destruct I as [I1 I2 Ip I3 I4 I5 I6 I7].
  assert (Hr' : 0 < rate (lim s)) by lia.
  destruct (reserve_inv _ _ _ _ _ Hr' R) as [Nb [R1 [R2 [R3 [R4 [R5 [R6 [R7 R8]]]]]]]].
  rewrite I1 in R6, R7, R1. rewrite I2 in Nb, R2.
  assert (Up : forall t, now <= t ->
    advance (lim s) t = Z.min (B * giga) (advance (lim s) now + r * (t - now))).
  { intros t Ht. rewrite (advance_step (lim s) now t) by lia. rewrite I1, I2. reflexivity. }
  assert (New : forall t, now <= t ->
    advance l t = Z.min (B * giga) (advance (lim s) now - n * giga + r * (t - now))).
  { intros t Ht. rewrite advance_later by lia. rewrite R1, R2, R3, R4. reflexivity. }
  pose proof Ip as Bp.
  set (a := advance (lim s) now) in *.
  assert (G : giga = 1000000000) by reflexivity.
  constructor; cbn [lim waiting].
  - exact R1.
  - exact R2.
  - exact Bp.
  - lia.
  - constructor; [exact Hn|exact I4].
  - intros t Ht. unfold queued. cbn [waiting sizes wAct wSize]. fold (queued s t).
    specialize (I5 t Ht). rewrite (Up t Ht) in I5. rewrite (New t Ht).
    assert (0 <= queued s t) by (apply sizes_nonneg; exact I4).
    destruct (t <? act) eqn:E; [apply Z.ltb_lt in E|apply Z.ltb_ge in E].
    + clear - I5 Nb Bp Hn G H Hr. lia.
    + assert (K : - tokens l <= r * (t - now) + r) by nia.
      rewrite R3 in K. clear - K Bp H G Hr. lia.
  - intros t Ht. unfold queued. cbn [waiting sizes wAct wSize]. fold (queued s t).
    specialize (I6 t Ht). rewrite (Up t Ht) in I6. rewrite (New t Ht).
    destruct (t <? act) eqn:E; [apply Z.ltb_lt in E|apply Z.ltb_ge in E].
    + assert (Neg : tokens l < 0) by (destruct (Z_lt_le_dec (tokens l) 0) as [L|L]; [exact L|]; specialize (R8 L); lia).
      specialize (R7 Neg). assert (K : r * (t - now) < - tokens l) by nia.
      rewrite R3 in K. clear - K I6 Nb Bp G. lia.
    + clear - I6 Hn G. lia.
  - intros t u Ht Hu. cbn [sizes wAct wSize].
    specialize (I7 t u Ht Hu). specialize (I6 t Ht). rewrite (Up t Ht) in I6.
    destruct (t <? act) eqn:E; [apply Z.ltb_lt in E|cbn [andb]; lia].
    destruct (act <=? u) eqn:E2; [apply Z.leb_le in E2|cbn [andb]; lia]. cbn [andb].
    assert (L : sizes (fun w => (t <? wAct w) && (wAct w <=? u)) (waiting s) <= queued s t).
    { apply sizes_le; [exact I4|]. intros x _ Hx. apply andb_prop in Hx. apply Hx. }
    assert (Neg : tokens l < 0) by (destruct (Z_lt_le_dec (tokens l) 0) as [K|K]; [exact K|]; specialize (R8 K); lia).
    specialize (R7 Neg). assert (K : r * (t - now) < - tokens l) by nia.
    assert (K2 : - tokens l <= r * (t - now) + r * (u - t + 1)) by nia.
    rewrite R3 in K, K2. clear - K K2 I6 L Nb Bp G. lia.
Qed.

Definition quiet (x : note) : Prop := match x with GaveUp _ => False | _ => True end.

Lemma inv_done : forall r B now s d, inv r B now s ->
  inv r B now {| lim := lim s; waiting := waiting s; done := d |}.
Proof.
  intros r B now s d I. destruct I as [I1 I2 Ip I3 I4 I5 I6 I7]. constructor; assumption.
Qed.

Lemma inv_end : forall r B now s i s' x,
  inv r B now s -> end_context s now i = (s', x) -> quiet x -> inv r B now s'.
Proof.
  intros r B now s i s' x I H Q. unfold end_context in H.
  destruct (find_waiter i (waiting s)) as [w|] eqn:F.
  - destruct (wAct w <=? now) eqn:E.
    + injection H as <- <-. apply Z.leb_le in E. apply (inv_drop r B now s i w _ I F E).
    + injection H as <- <-. destruct Q.
  - injection H as <- <-. apply inv_done. exact I.
Qed.

Lemma inv_step : forall r B quic now t s e s' x, 0 < r -> now <= t ->
  inv r B now s -> step quic s t e = Some (s', x) -> quiet x -> inv r B t s'.
Proof.
  intros r B quic now t s e s' x Hr Ht I0 H Q.
  pose proof (inv_later r B now t s Ht I0) as I. clear I0.
  destruct e as [i n|i k|i|i]; cbn [step] in H.
  - destruct (find_waiter i (waiting s)); [discriminate|].
    destruct (n <? 0) eqn:En; [discriminate|]. apply Z.ltb_ge in En.
    destruct (burst (lim s) <? n) eqn:E1; [injection H as <- <-; exact I|].
    destruct (existsb (Nat.eqb i) (done s)) eqn:E2; [injection H as <- <-; exact I|].
    destruct (reserve (lim s) t n) as [[l act]|] eqn:R; injection H as <- <-; [|exact I].
    apply (inv_call r B t s i n l act Hr En I R).
  - destruct (find_waiter i (waiting s)) as [w|] eqn:F; [|discriminate].
    destruct (wAct w <=? t) eqn:E; cbn [andb] in H; [|discriminate].
    destruct ((0 <=? k) && (k <=? wSize w)); [|discriminate].
    injection H as <- <-. apply Z.leb_le in E. apply (inv_drop r B t s i w _ I F E).
  - destruct (quic i); [|injection H as <- <-; exact I].
    destruct (end_context s t i) as [s1 x1] eqn:E. injection H as -> ->.
    apply (inv_end r B t s i s' x I E Q).
  - destruct (end_context s t i) as [s1 x1] eqn:E. injection H as -> ->.
    apply (inv_end r B t s i s' x I E Q).
Qed.

Fixpoint last_time (t0 : Z) (h : list (Z * event)) : Z :=
  match h with [] => t0 | (t, _) :: h => last_time t h end.

Lemma last_time_until : forall h t0 T, t0 <= T -> until T h -> last_time t0 h <= T.
Proof.
  induction h as [|[t e] h IH]; intros t0 T H U; cbn [last_time]; [exact H|].
  inversion U as [|? ? U1 U2]; subst. apply IH; assumption.
Qed.

Lemma inv_run : forall r B quic h now s s' out, 0 < r -> inv r B now s -> in_order now h ->
  run quic s h = Some (s', out) -> patient out -> inv r B (last_time now h) s'.
Proof.
  intros r B quic h. induction h as [|[t e] h IH]; intros now s s' out Hr I O H P.
  - injection H as <- <-. exact I.
  - cbn [run] in H. destruct O as [O1 O2].
    destruct (step quic s t e) as [[s1 x]|] eqn:E; [|discriminate].
    destruct (run quic s1 h) as [[s2 out']|] eqn:E2; [|discriminate].
    injection H as <- <-. inversion P as [|? ? P1 P2]; subst. cbn [last_time].
    apply (IH t s1 s2 out' Hr); try assumption.
    apply (inv_step r B quic now t s e s1 x Hr O1 I E). exact P1.
Qed.

(** The account from time [S0] on: [m] bytes have moved since. *)
Record acct (r B S0 T pre m now : Z) (s : state) : Prop := {
  a_all : (m + sizes (fun _ => true) (waiting s)) * giga + advance (lim s) now <=
          pre * giga + B * giga + r * (now - S0);
  a_due : (m + sizes (fun w => wAct w <=? T) (waiting s)) * giga <=
          pre * giga + B * giga + r * (T - S0 + 1) }.

Lemma acct_start : forall r B S0 T s, 0 < r -> S0 <= T -> inv r B S0 s ->
  acct r B S0 T (prepaid s S0) 0 S0 s.
Proof.
  intros r B S0 T s Hr HT I. destruct I as [I1 I2 Ip I3 I4 I5 I6 I7]. constructor.
  - specialize (I6 S0 (Z.le_refl _)).
    rewrite (sizes_split (fun _ => true) (fun w => wAct w <=? S0) (waiting s)).
    unfold prepaid. cbn [andb].
    replace (sizes (fun x => negb (wAct x <=? S0)) (waiting s)) with (queued s S0).
    2:{ apply sizes_ext. intros x _. apply Z.ltb_antisym. }
    cbv beta. change (fun x : waiter => wAct x <=? S0) with (fun w : waiter => wAct w <=? S0).
    lia.
  - specialize (I7 S0 T (Z.le_refl _) HT).
    rewrite (sizes_split (fun w => wAct w <=? T) (fun w => wAct w <=? S0) (waiting s)).
    unfold prepaid.
    replace (sizes (fun x => (wAct x <=? T) && (wAct x <=? S0)) (waiting s))
      with (sizes (fun w => wAct w <=? S0) (waiting s)).
    2:{ apply sizes_ext. intros x _. destruct (wAct x <=? S0) eqn:E.
        - apply Z.leb_le in E. replace (wAct x <=? T) with true by (symmetry; apply Z.leb_le; lia). reflexivity.
        - rewrite andb_false_r. reflexivity. }
    replace (sizes (fun x => (wAct x <=? T) && negb (wAct x <=? S0)) (waiting s))
      with (sizes (fun w => (S0 <? wAct w) && (wAct w <=? T)) (waiting s)).
    2:{ apply sizes_ext. intros x _. rewrite Z.ltb_antisym. apply andb_comm. }
    lia.
Qed.

Definition bytes_of (x : note) : Z := match x with Moved _ k => k | _ => 0 end.

Lemma acct_later : forall r B S0 T pre m a b s, 0 < r -> a <= b -> inv r B a s ->
  acct r B S0 T pre m a s -> acct r B S0 T pre m b s.
Proof.
  intros r B S0 T pre m a b s Hr H I A. destruct A as [A1 A2]. destruct I as [I1 I2 Ip I3 I4 I5 I6 I7].
  constructor; [|exact A2].
  rewrite (advance_step (lim s) a b) by lia. rewrite I1, I2. nia.
Qed.

Lemma acct_drop : forall r B S0 T pre m now s i w d k,
  acct r B S0 T pre m now s -> find_waiter i (waiting s) = Some w -> wAct w <= T ->
  0 <= k <= wSize w ->
  acct r B S0 T pre (m + k) now {| lim := lim s; waiting := drop_waiter i (waiting s); done := d |}.
Proof.
  intros r B S0 T pre m now s i w d k A F Hw Hk. destruct A as [A1 A2].
  constructor; cbn [lim waiting]; rewrite (sizes_drop _ _ _ w F); cbv beta.
  - assert (giga = 1000000000) by reflexivity. nia.
  - replace (wAct w <=? T) with true by (symmetry; apply Z.leb_le; lia).
    assert (giga = 1000000000) by reflexivity. nia.
Qed.

Lemma acct_step : forall r B S0 T pre quic m now t s e s' x, 0 < r -> S0 <= now -> now <= t -> t <= T ->
  inv r B now s -> acct r B S0 T pre m now s -> step quic s t e = Some (s', x) -> quiet x ->
  acct r B S0 T pre (m + bytes_of x) t s'.
Proof.
  intros r B S0 T pre quic m now t s e s' x Hr HS Ht HT I0 A0 H Q.
  pose proof (acct_later r B S0 T pre m now t s Hr Ht I0 A0) as A.
  pose proof (inv_later r B now t s Ht I0) as I. clear I0 A0.
  assert (Same : forall d, acct r B S0 T pre (m + 0) t {| lim := lim s; waiting := waiting s; done := d |}).
  { intros d. rewrite Z.add_0_r. destruct A as [A1 A2]. constructor; assumption. }
  assert (Same' : acct r B S0 T pre (m + 0) t s) by (rewrite Z.add_0_r; exact A).
  assert (End : forall i s1 x1, end_context s t i = (s1, x1) -> quiet x1 ->
    acct r B S0 T pre (m + bytes_of x1) t s1).
  { intros i s1 x1 E Qx. unfold end_context in E.
    destruct (find_waiter i (waiting s)) as [w|] eqn:F.
    - destruct (wAct w <=? t) eqn:E1.
      + injection E as <- <-. apply Z.leb_le in E1. cbn [bytes_of].
        apply (acct_drop r B S0 T pre m t s i w); [exact A|exact F|lia|].
        destruct (find_in _ _ _ F) as [In1 _]. pose proof (i_sound _ _ _ _ I) as Snd.
        rewrite Forall_forall in Snd. specialize (Snd w In1). lia.
      + injection E as <- <-. destruct Qx.
    - injection E as <- <-. apply Same. }
  destruct e as [i n|i k|i|i]; cbn [step] in H.
  - destruct (find_waiter i (waiting s)); [discriminate|].
    destruct (n <? 0) eqn:En; [discriminate|]. apply Z.ltb_ge in En.
    destruct (burst (lim s) <? n) eqn:E1; [injection H as <- <-; exact Same'|].
    destruct (existsb (Nat.eqb i) (done s)) eqn:E2; [injection H as <- <-; exact Same'|].
    destruct (reserve (lim s) t n) as [[l act]|] eqn:R; injection H as <- <-; [|exact Same'].
    cbn [bytes_of]. rewrite Z.add_0_r.
    pose proof (i_rate _ _ _ _ I) as J1. pose proof (i_burst _ _ _ _ I) as J2.
    pose proof (i_sound _ _ _ _ I) as J4.
    assert (Hr' : 0 < rate (lim s)) by lia.
    destruct (reserve_inv _ _ _ _ _ Hr' R) as [Nb [R1 [R2 [R3 [R4 [R5 [R6 [R7 R8]]]]]]]].
    rewrite J1 in R6, R7, R1. rewrite J2 in Nb, R2.
    assert (G : giga = 1000000000) by reflexivity.
    destruct A as [A1 A2].
    assert (New : advance l t <= advance (lim s) t - n * giga).
    { rewrite advance_later by lia. rewrite R1, R3, R4. lia. }
    constructor; cbn [lim waiting sizes wAct wSize].
    + clear - A1 New G. lia.
    + destruct (act <=? T) eqn:E; [apply Z.leb_le in E|clear - A2; lia].
      assert (L : sizes (fun w => wAct w <=? T) (waiting s) <= sizes (fun _ => true) (waiting s)).
      { apply sizes_le; [exact J4|]. intros; reflexivity. }
      assert (K : - tokens l <= r * (T - t) + r) by nia.
      rewrite R3 in K. clear - K A1 L G. lia.
  - destruct (find_waiter i (waiting s)) as [w|] eqn:F; [|discriminate].
    destruct (wAct w <=? t) eqn:E; cbn [andb] in H; [|discriminate].
    destruct (0 <=? k) eqn:E3; cbn [andb] in H; [|discriminate].
    destruct (k <=? wSize w) eqn:E4; [|discriminate].
    injection H as <- <-. apply Z.leb_le in E, E3, E4. cbn [bytes_of].
    apply (acct_drop r B S0 T pre m t s i w); [exact A|exact F|lia|lia].
  - destruct (quic i); [|injection H as <- <-; exact Same'].
    destruct (end_context s t i) as [s1 x1] eqn:E. injection H as -> ->.
    apply (End i s' x E Q).
  - destruct (end_context s t i) as [s1 x1] eqn:E. injection H as -> ->.
    apply (End i s' x E Q).
Qed.

Lemma moved_cons : forall t x out, moved ((t, x) :: out) = bytes_of x + moved out.
Proof. intros t x out. destruct x; reflexivity. Qed.

Lemma acct_run : forall r B S0 T pre quic h m now s s' out, 0 < r -> S0 <= now ->
  inv r B now s -> acct r B S0 T pre m now s -> in_order now h -> until T h ->
  run quic s h = Some (s', out) -> patient out ->
  (m + moved out) * giga <= pre * giga + B * giga + r * (T - S0 + 1).
Proof.
  intros r B S0 T pre quic h. induction h as [|[t e] h IH]; intros m now s s' out Hr HS I A O U H P.
  - injection H as <- <-. cbn [moved]. destruct A as [_ A2].
    pose proof (sizes_nonneg (fun w => wAct w <=? T) _ (i_sound _ _ _ _ I)).
    assert (giga = 1000000000) by reflexivity. nia.
  - cbn [run] in H. destruct O as [O1 O2]. inversion U as [|? ? U1 U2]; subst. cbn [fst] in U1.
    destruct (step quic s t e) as [[s1 x]|] eqn:E; [|discriminate].
    destruct (run quic s1 h) as [[s2 out']|] eqn:E2; [|discriminate].
    injection H as <- <-. inversion P as [|? ? P1 P2]; subst.
    rewrite moved_cons, Z.add_assoc.
    apply (IH (m + bytes_of x) t s1 s2 out'); try assumption; try lia.
    + apply (inv_step r B quic now t s e s1 x Hr O1 I E P1).
    + apply (acct_step r B S0 T pre quic m now t s e s1 x Hr HS O1 U1 I A E P1).
Qed.

(** * Who is refused *)

Lemma cancel_same : forall l t n act,
  rate (cancel l t n act) = rate l /\ burst (cancel l t n act) = burst l.
Proof.
  intros l t n act. unfold cancel. destruct ((act <? t) || (n =? 0)); [split; reflexivity|].
  cbv zeta. destruct (n * giga - rate l * (lastEvent l - act) <=? 0); split; reflexivity.
Qed.

Lemma step_settings : forall quic s t e s' x, 0 < rate (lim s) -> step quic s t e = Some (s', x) ->
  rate (lim s') = rate (lim s) /\ burst (lim s') = burst (lim s).
Proof.
  intros quic s t e s' x Hr H.
  assert (End : forall i s1 x1, end_context s t i = (s1, x1) ->
    rate (lim s1) = rate (lim s) /\ burst (lim s1) = burst (lim s)).
  { intros i s1 x1 E. unfold end_context in E.
    destruct (find_waiter i (waiting s)) as [w|]; [destruct (wAct w <=? t)|];
      injection E as <- <-; cbn [lim]; try (split; reflexivity). apply cancel_same. }
  destruct e as [i n|i k|i|i]; cbn [step] in H.
  - destruct (find_waiter i (waiting s)); [discriminate|].
    destruct (n <? 0); [discriminate|].
    destruct (burst (lim s) <? n); [injection H as <- <-; split; reflexivity|].
    destruct (existsb (Nat.eqb i) (done s)); [injection H as <- <-; split; reflexivity|].
    destruct (reserve (lim s) t n) as [[l act]|] eqn:R; injection H as <- <-; [|split; reflexivity].
    destruct (reserve_inv _ _ _ _ _ Hr R) as [_ [R1 [R2 _]]]. split; assumption.
  - destruct (find_waiter i (waiting s)) as [w|]; [|discriminate].
    destruct ((wAct w <=? t) && (0 <=? k) && (k <=? wSize w)); [|discriminate].
    injection H as <- <-. split; reflexivity.
  - destruct (quic i); [|injection H as <- <-; split; reflexivity].
    destruct (end_context s t i) as [s1 x1] eqn:E. injection H as -> ->. apply (End i s' x E).
  - destruct (end_context s t i) as [s1 x1] eqn:E. injection H as -> ->. apply (End i s' x E).
Qed.

Lemma run_settings : forall quic h s s' out, 0 < rate (lim s) -> run quic s h = Some (s', out) ->
  rate (lim s') = rate (lim s) /\ burst (lim s') = burst (lim s).
Proof.
  intros quic h. induction h as [|[t e] h IH]; intros s s' out Hr H; cbn [run] in H.
  - injection H as <- <-. split; reflexivity.
  - destruct (step quic s t e) as [[s1 x]|] eqn:E; [|discriminate].
    destruct (run quic s1 h) as [[s2 out']|] eqn:E2; [|discriminate].
    injection H as <- <-. destruct (step_settings _ _ _ _ _ _ Hr E) as [A B].
    assert (Hr1 : 0 < rate (lim s1)) by lia.
    destruct (IH s1 s2 out' Hr1 E2) as [C D]. split; congruence.
Qed.

Lemma end_done : forall s t i s' x, end_context s t i = (s', x) -> done s' = i :: done s.
Proof.
  intros s t i s' x H. unfold end_context in H.
  destruct (find_waiter i (waiting s)) as [w|]; [destruct (wAct w <=? t)|];
    injection H as <- <-; reflexivity.
Qed.

Lemma step_done : forall quic s t e s' x j, step quic s t e = Some (s', x) ->
  (In j (done s') <-> In j (done s) \/ e = CloseConn j \/ (quic j = true /\ e = HalfClose j)).
Proof.
  intros quic s t e s' x j H.
  assert (Same : done s' = done s -> (forall k, e <> CloseConn k) -> (forall k, e = HalfClose k -> quic k = false) ->
    (In j (done s') <-> In j (done s) \/ e = CloseConn j \/ (quic j = true /\ e = HalfClose j))).
  { intros D N1 N2. rewrite D. split; [intros; left; assumption|].
    intros [A|[A|[A B]]]; [exact A|destruct (N1 j A)|rewrite (N2 j B) in A; discriminate]. }
  destruct e as [i n|i k|i|i]; cbn [step] in H.
  - apply Same; try discriminate.
    destruct (find_waiter i (waiting s)); [discriminate|].
    destruct (n <? 0); [discriminate|].
    destruct (burst (lim s) <? n); [injection H as <- <-; reflexivity|].
    destruct (existsb (Nat.eqb i) (done s)); [injection H as <- <-; reflexivity|].
    destruct (reserve (lim s) t n) as [[l act]|]; injection H as <- <-; reflexivity.
  - apply Same; try discriminate.
    destruct (find_waiter i (waiting s)) as [w|]; [|discriminate].
    destruct ((wAct w <=? t) && (0 <=? k) && (k <=? wSize w)); [|discriminate].
    injection H as <- <-. reflexivity.
  - destruct (quic i) eqn:Q.
    + destruct (end_context s t i) as [s1 x1] eqn:E. injection H as -> ->.
      rewrite (end_done _ _ _ _ _ E). cbn [In]. split.
      * intros [->|A]; [right; right; split; [exact Q|reflexivity]|left; exact A].
      * intros [A|[A|[_ A]]]; [right; exact A|discriminate|injection A as ->; left; reflexivity].
    + injection H as <- <-. apply Same; [reflexivity|discriminate|].
      intros k A. injection A as <-. exact Q.
  - destruct (end_context s t i) as [s1 x1] eqn:E. injection H as -> ->.
    rewrite (end_done _ _ _ _ _ E). cbn [In]. split.
    + intros [->|A]; [right; left; reflexivity|left; exact A].
    + intros [A|[A|[_ A]]]; [right; exact A|injection A as ->; left; reflexivity|discriminate].
Qed.

Lemma run_done : forall quic h s s' out j, run quic s h = Some (s', out) ->
  (In j (done s') <-> In j (done s) \/ ended quic j h).
Proof.
  intros quic h. induction h as [|[t e] h IH]; intros s s' out j H; cbn [run] in H.
  - injection H as <- <-. split; [intros; left; assumption|].
    intros [A|[t [[]|[_ []]]]]. exact A.
  - destruct (step quic s t e) as [[s1 x]|] eqn:E; [|discriminate].
    destruct (run quic s1 h) as [[s2 out']|] eqn:E2; [|discriminate].
    injection H as <- <-. rewrite (IH s1 s2 out' j E2), (step_done _ _ _ _ _ _ j E).
    unfold ended. split.
    + intros [[A|[A|[A B]]]|[u [A|[A B]]]].
      * left. exact A.
      * right. exists t. left. left. rewrite A. reflexivity.
      * right. exists t. right. split; [exact A|]. left. rewrite B. reflexivity.
      * right. exists u. left. right. exact A.
      * right. exists u. right. split; [exact A|right; exact B].
    + intros [A|[u [[A|A]|[A [B|B]]]]].
      * left. left. exact A.
      * left. right. left. injection A as _ ->. reflexivity.
      * right. exists u. left. exact A.
      * left. right. right. split; [exact A|]. injection B as _ ->. reflexivity.
      * right. exists u. right. split; [exact A|exact B].
Qed.

Lemma existsb_done : forall i l, existsb (Nat.eqb i) l = true <-> In i l.
Proof.
  intros i l. rewrite existsb_exists. split.
  - intros [x [A B]]. apply Nat.eqb_eq in B. subst. exact A.
  - intros A. exists i. split; [exact A|apply Nat.eqb_refl].
Qed.

(** * A limit of zero *)

Record zinv (m now : Z) (s : state) : Prop := {
  z_rate : rate (lim s) = 0;
  z_burst : 0 <= burst (lim s);
  z_sound : Forall (fun x => 0 <= wSize x /\ wAct x <= now) (waiting s);
  z_sum : m + sizes (fun _ => true) (waiting s) + burst (lim s) <= 131072 }.

Lemma zinv_sizes : forall m now s, zinv m now s -> 0 <= sizes (fun _ => true) (waiting s).
Proof.
  intros m now s Z. apply sizes_nonneg. eapply Forall_impl; [|exact (z_sound _ _ _ Z)].
  intros a [A _]. exact A.
Qed.

Lemma zinv_step : forall quic m now t s e s' x, now <= t -> zinv m now s ->
  step quic s t e = Some (s', x) -> zinv (m + bytes_of x) t s'.
Proof.
  intros quic m now t s e s' x Ht Z0 H.
  assert (Z : zinv m t s).
  { destruct Z0 as [Z1 Z2 Z3 Z4]. constructor; try assumption.
    eapply Forall_impl; [|exact Z3]. intros a [A B]. split; [exact A|lia]. }
  clear Z0. destruct Z as [Z1 Z2 Z3 Z4].
  assert (Drop : forall i w k d, find_waiter i (waiting s) = Some w -> 0 <= k <= wSize w ->
    zinv (m + k) t {| lim := lim s; waiting := drop_waiter i (waiting s); done := d |}).
  { intros i w k d F Hk. constructor; cbn [lim waiting]; try assumption.
    - apply Forall_forall. intros y Hy. rewrite Forall_forall in Z3. apply Z3.
      apply drop_in in Hy. exact Hy.
    - rewrite (sizes_drop _ _ _ w F). cbv beta iota. lia. }
  assert (Same : zinv (m + 0) t s) by (rewrite Z.add_0_r; constructor; assumption).
  assert (End : forall i s1 x1, end_context s t i = (s1, x1) -> zinv (m + bytes_of x1) t s1).
  { intros i s1 x1 E. unfold end_context in E.
    destruct (find_waiter i (waiting s)) as [w|] eqn:F.
    - destruct (find_in _ _ _ F) as [In1 _]. pose proof Z3 as Z3'. rewrite Forall_forall in Z3'.
      destruct (Z3' w In1) as [W1 W2].
      destruct (wAct w <=? t) eqn:E1; [|apply Z.leb_gt in E1; lia].
      injection E as <- <-. cbn [bytes_of]. apply (Drop i w 0 _ F). lia.
    - injection E as <- <-. cbn [bytes_of]. rewrite Z.add_0_r. constructor; assumption. }
  destruct e as [i n|i k|i|i]; cbn [step] in H.
  - destruct (find_waiter i (waiting s)); [discriminate|].
    destruct (n <? 0) eqn:En; [discriminate|]. apply Z.ltb_ge in En.
    destruct (burst (lim s) <? n) eqn:E1; [injection H as <- <-; exact Same|].
    destruct (existsb (Nat.eqb i) (done s)) eqn:E2; [injection H as <- <-; exact Same|].
    unfold reserve in H. rewrite E1, Z1 in H. cbn [Z.eqb] in H. injection H as <- <-.
    apply Z.ltb_ge in E1. cbn [bytes_of]. rewrite Z.add_0_r.
    constructor; cbn [lim rate burst waiting sizes wSize].
    + reflexivity.
    + lia.
    + constructor; [cbn [wSize wAct]; lia|exact Z3].
    + lia.
  - destruct (find_waiter i (waiting s)) as [w|] eqn:F; [|discriminate].
    destruct (wAct w <=? t) eqn:E; cbn [andb] in H; [|discriminate].
    destruct (0 <=? k) eqn:E3; cbn [andb] in H; [|discriminate].
    destruct (k <=? wSize w) eqn:E4; [|discriminate].
    injection H as <- <-. apply Z.leb_le in E3, E4. cbn [bytes_of]. apply (Drop i w k _ F). lia.
  - destruct (quic i); [|injection H as <- <-; exact Same].
    destruct (end_context s t i) as [s1 x1] eqn:E. injection H as -> ->. apply (End i s' x E).
  - destruct (end_context s t i) as [s1 x1] eqn:E. injection H as -> ->. apply (End i s' x E).
Qed.

Lemma zinv_run : forall quic h m now s s' out, in_order now h -> zinv m now s ->
  run quic s h = Some (s', out) -> exists now', zinv (m + moved out) now' s'.
Proof.
  intros quic h. induction h as [|[t e] h IH]; intros m now s s' out O Z H; cbn [run] in H.
  - injection H as <- <-. exists now. cbn [moved]. rewrite Z.add_0_r. exact Z.
  - destruct O as [O1 O2]. destruct (step quic s t e) as [[s1 x]|] eqn:E; [|discriminate].
    destruct (run quic s1 h) as [[s2 out']|] eqn:E2; [|discriminate].
    injection H as <- <-. rewrite moved_cons, Z.add_assoc.
    apply (IH (m + bytes_of x) t s1 s2 out' O2); [|exact E2].
    apply (zinv_step quic m now t s e s1 x O1 Z E).
Qed.

Lemma zinv_fresh : zinv 0 0 (fresh 0).
Proof.
  constructor; [reflexivity|vm_compute; discriminate|constructor|vm_compute; discriminate].
Qed.

(** * Connections that wait for their peers *)

Definition calls (a n : nat) : list (Z * event) := map (fun i => (0, Call i 1000)) (seq a n).
Definition moves (t : Z) (a n : nat) : list (Z * event) := map (fun i => (t, Move i 1000)) (seq a n).

Lemma find_none : forall i w, (forall x, In x w -> (wConn x < i)%nat) -> find_waiter i w = None.
Proof.
  intros i w. induction w as [|y w IH]; intros H; cbn [find_waiter]; [reflexivity|].
  destruct (Nat.eqb (wConn y) i) eqn:E.
  - apply Nat.eqb_eq in E. specialize (H y (or_introl eq_refl)). lia.
  - apply IH. intros x Hx. apply H. right. exact Hx.
Qed.

(** The calls in progress are those of connections a to a+n-1, the last one first. *)
Fixpoint stacked (T : Z) (n : nat) (w : list waiter) : Prop :=
  match n, w with
  | 0%nat, [] => True
  | S m, x :: w => wConn x = m /\ wSize x = 1000 /\ wAct x <= T /\ stacked T m w
  | _, _ => False
  end.

Lemma stacked_mono : forall T U n w, T <= U -> stacked T n w -> stacked U n w.
Proof.
  intros T U n. induction n as [|n IH]; intros [|x w] H St; cbn [stacked] in *; try assumption.
  destruct St as [A [B [C D]]]. repeat split; try assumption; try lia. apply IH; assumption.
Qed.

Lemma stacked_below : forall T n w, stacked T n w -> forall x, In x w -> (wConn x < n)%nat.
Proof.
  intros T n. induction n as [|n IH]; intros [|y w] St x Hx; cbn [stacked] in St; try destruct St; try destruct Hx.
  - subst. lia.
  - destruct H0 as [_ [_ D]]. specialize (IH w D x H1). lia.
Qed.

Lemma run_app : forall quic h1 h2 s s1 s2 o1 o2,
  run quic s h1 = Some (s1, o1) -> run quic s1 h2 = Some (s2, o2) ->
  run quic s (h1 ++ h2) = Some (s2, o1 ++ o2).
Proof.
  intros quic h1. induction h1 as [|[t e] h1 IH]; intros h2 s s1 s2 o1 o2 H1 H2; cbn [run app] in *.
  - injection H1 as <- <-. exact H2.
  - destruct (step quic s t e) as [[sx x]|]; [|discriminate].
    destruct (run quic sx h1) as [[sy ox]|] eqn:E; [|discriminate].
    injection H1 as <- <-. rewrite (IH h2 sx sy s2 ox o2 E H2). reflexivity.
Qed.

Lemma calls_run : forall r quic n, 0 < r -> exists s out T,
  run quic (fresh r) (calls 0 n) = Some (s, out) /\ patient out /\ moved out = 0 /\
  rate (lim s) = r /\ burst (lim s) = burst_of r /\ done s = [] /\ 0 <= T /\ stacked T n (waiting s).
Proof.
  intros r quic n Hr. induction n as [|n IH].
  - exists (fresh r), [], 0. repeat split; try reflexivity; try lia. constructor.
  - destruct IH as [s [out [T [H1 [H2 [H3 [H4 [H5 [H6 [H7 H8]]]]]]]]]].
    unfold calls. rewrite seq_S, map_app. fold (calls 0 n). cbn [map Nat.add].
    destruct (reserve (lim s) 0 1000) as [[l act]|] eqn:R.
    2:{ exfalso. unfold reserve in R. destruct (burst (lim s) <? 1000) eqn:E.
        - apply Z.ltb_lt in E. unfold burst_of in H5. lia.
        - destruct (rate (lim s) =? 0); discriminate. }
    assert (Hr' : 0 < rate (lim s)) by lia.
    destruct (reserve_inv _ _ _ _ _ Hr' R) as [_ [R1 [R2 _]]].
    assert (St : step quic s 0 (Call n 1000) =
      Some ({| lim := l; waiting := {| wConn := n; wSize := 1000; wAct := act |} :: waiting s;
               done := done s |}, Let n act)).
    { cbn [step]. rewrite (find_none n (waiting s) (stacked_below T n _ H8)).
      change (1000 <? 0) with false. cbv iota.
      replace (burst (lim s) <? 1000) with false by (symmetry; apply Z.ltb_ge; unfold burst_of in H5; lia).
      rewrite H6. cbn [existsb]. rewrite R. reflexivity. }
    eexists. exists (out ++ [(0, Let n act)]), (Z.max T act).
    split. { eapply run_app; [exact H1|]. cbn [run]. rewrite St. reflexivity. }
    split. { apply Forall_app. split; [exact H2|]. repeat constructor. }
    split. { clear - H3. revert H3. generalize 0 at 1 3. intros z H3. rewrite <- H3. clear z H3.
             induction out as [|[u y] out IH]; [reflexivity|]. cbn [app]. rewrite !moved_cons, IH. reflexivity. }
    cbn [lim waiting done]. split; [congruence|]. split; [congruence|]. split; [exact H6|].
    split; [lia|]. cbn [stacked wConn wSize wAct]. repeat split; try lia.
    apply (stacked_mono T); [lia|exact H8].
Qed.

Lemma stacked_find : forall T n w, stacked T (S n) w -> exists x, find_waiter n w = Some x /\
  wSize x = 1000 /\ wAct x <= T /\ stacked T n (drop_waiter n w).
Proof.
  intros T n [|x w] H; cbn [stacked] in H; [destruct H|]. destruct H as [A [B [C D]]].
  exists x. cbn [find_waiter drop_waiter]. rewrite A, Nat.eqb_refl. repeat split; assumption.
Qed.

Definition unwind (t : Z) (n : nat) : list (Z * event) :=
  map (fun i => (t, Move i 1000)) (rev (seq 0 n)).

Lemma unwind_run : forall quic T n s, stacked T n (waiting s) -> exists s' out,
  run quic s (unwind T n) = Some (s', out) /\ patient out /\ moved out = 1000 * Z.of_nat n.
Proof.
  intros quic T n. induction n as [|n IH]; intros s H.
  - exists s, []. split; [reflexivity|]. split; [constructor|reflexivity].
  - unfold unwind. rewrite seq_S, rev_app_distr. cbn [rev app map Nat.add].
    fold (unwind T n). destruct (stacked_find T n _ H) as [x [F [B [C D]]]].
    destruct (IH {| lim := lim s; waiting := drop_waiter n (waiting s); done := done s |} D)
      as [s' [out [R [P M]]]].
    exists s', ((T, Moved n 1000) :: out). split.
    + cbn [run step]. rewrite F, B.
      replace (wAct x <=? T) with true by (symmetry; apply Z.leb_le; exact C).
      change ((0 <=? 1000) && (1000 <=? 1000)) with true. cbn [andb].
      change (0 <=? 1000) with true. change (1000 <=? 1000) with true. cbn [andb].
      rewrite R. reflexivity.
    + split; [constructor; [exact I|exact P]|]. rewrite moved_cons. cbn [bytes_of]. lia.
Qed.

Lemma calls_times : forall a n, in_order 0 (calls a n) /\ forall T, 0 <= T -> until T (calls a n).
Proof.
  intros a n. revert a. induction n as [|n IH]; intros a; unfold calls; cbn [seq map in_order].
  - split; [exact I|]. intros. constructor.
  - destruct (IH (S a)) as [A B]. split; [split; [lia|exact A]|].
    intros T HT. constructor; [exact HT|]. apply (B T HT).
Qed.

Lemma unwind_times : forall T n, in_order T (unwind T n) /\ until T (unwind T n).
Proof.
  intros T n. unfold unwind. induction (rev (seq 0 n)) as [|x l [A B]]; cbn [map in_order].
  - split; [exact I|constructor].
  - split; [split; [lia|exact A]|]. constructor; [cbn; lia|exact B].
Qed.

(** A call of an acceptable size on an open connection. *)
Lemma call_let : forall r B t s quic i n, 0 < r -> inv r B t s -> 0 <= n <= B ->
  find_waiter i (waiting s) = None -> ~ In i (done s) ->
  exists s' act, step quic s t (Call i n) = Some (s', Let i act) /\
    t <= act /\ (act - t) * r <= (queued s t + n) * giga + r.
Proof.
  intros r B t s quic i n Hr J Hn F D. destruct J as [J1 J2 Jp J3 J4 J5 J6 J7].
  cbn [step]. rewrite F. replace (n <? 0) with false by (symmetry; apply Z.ltb_ge; lia).
  rewrite J2. replace (B <? n) with false by (symmetry; apply Z.ltb_ge; lia).
  destruct (existsb (Nat.eqb i) (done s)) eqn:E; [apply existsb_done in E; destruct (D E)|].
  destruct (reserve (lim s) t n) as [[l act]|] eqn:R.
  2:{ exfalso. unfold reserve in R. rewrite J2 in R.
      replace (B <? n) with false in R by (symmetry; apply Z.ltb_ge; lia).
      destruct (rate (lim s) =? 0); discriminate. }
  assert (Hr' : 0 < rate (lim s)) by lia.
  destruct (reserve_inv _ _ _ _ _ Hr' R) as [_ [_ [_ [R3 [_ [R5 [_ [R7 R8]]]]]]]].
  rewrite J1 in R7. specialize (J5 t (Z.le_refl _)).
  eexists. exists act. split; [reflexivity|]. split; [exact R5|].
  pose proof (sizes_nonneg (fun w => t <? wAct w) _ J4) as Qp. fold (queued s t) in Qp.
  assert (G : giga = 1000000000) by reflexivity.
  destruct (Z_lt_le_dec (tokens l) 0) as [L|L].
  - specialize (R7 L). rewrite R3 in R7. lia.
  - specialize (R8 L). subst act. nia.
Qed.

(** ** Giving up *)

(** The state at time [now] while nobody has given up. *)
Fixpoint apart (r now : Z) (w : list waiter) : Prop :=
  match w with
  | [] => True
  | x :: w => (forall y, In y w -> now < wAct y -> wAct y <= wAct x - wSize x * giga / r) /\ apart r now w
  end.
Record inv_p (r now : Z) (s : state) : Prop := {
  p_rate : rate (lim s) = r;
  p_last : last (lim s) <= now;
  p_sound : Forall (fun x => 0 <= wSize x) (waiting s);
  p_debt : forall w, In w (waiting s) -> now < wAct w -> r * (wAct w - last (lim s)) <= - tokens (lim s);
  p_event : forall w, In w (waiting s) -> wAct w <= lastEvent (lim s);
  p_apart : apart r now (waiting s) }.
(** And while nobody calls. *)
Record inv_g (r now : Z) (s : state) : Prop := {
  g_rate : rate (lim s) = r;
  g_last : last (lim s) <= now;
  g_sound : Forall (fun x => 0 <= wSize x) (waiting s);
  g_event : forall w, In w (waiting s) -> now < wAct w -> 0 < wSize w -> wAct w <= lastEvent (lim s);
  g_apart : apart r now (waiting s) }.

Lemma apart_later : forall r a b w, a <= b -> apart r a w -> apart r b w.
Proof. intros r a b w H. induction w as [|x w IH]; [auto|]. intros [A B]. split; [|auto]. intros y I L. apply A; [exact I|lia]. Qed.
Lemma apart_drop : forall r now i w, apart r now w -> apart r now (drop_waiter i w).
Proof.
  intros r now i w. induction w as [|x w IH]; [auto|]. intros [A B]. cbn [drop_waiter]. destruct (Nat.eqb (wConn x) i); [exact B|].
  split; [|auto]. intros y I. apply A. apply drop_in in I. exact I.
Qed.
Lemma p_later : forall r a b s, a <= b -> inv_p r a s -> inv_p r b s.
Proof.
  intros r a b s H [P1 P2 P3 P4 P5 P6]. constructor; auto; try lia; [|eapply apart_later; eauto].
  intros w I L. apply P4; [exact I|lia].
Qed.
Lemma p_drop : forall r now s i d, inv_p r now s -> inv_p r now {| lim := lim s; waiting := drop_waiter i (waiting s); done := d |}.
Proof.
  intros r now s i d [P1 P2 P3 P4 P5 P6]. constructor; cbn [lim waiting]; auto.
  - apply sound_drop. exact P3.
  - intros w I. apply P4. apply drop_in in I. exact I.
  - intros w I. apply P5. apply drop_in in I. exact I.
  - apply apart_drop. exact P6.
Qed.
Lemma p_call : forall r now s i n l act, 0 < r -> 0 <= n -> inv_p r now s -> reserve (lim s) now n = Some (l, act) ->
  inv_p r now {| lim := l; waiting := {| wConn := i; wSize := n; wAct := act |} :: waiting s; done := done s |}.
Proof.
  intros r now s i n l act Hr Hn [P1 P2 P3 P4 P5 P6] R.
  assert (Hr' : 0 < rate (lim s)) by lia. pose proof (reserve_inv _ _ _ _ _ Hr' R) as [_ [R1 [_ [R3 [R4 [R5 [R6 [R7 R8]]]]]]]].
  assert (Ev : lastEvent l = act).
  { unfold reserve in R. destruct (_ <? n); [discriminate|]. destruct (rate (lim s) =? 0) eqn:Z0; [apply Z.eqb_eq in Z0; lia|]. injection R as <- <-. reflexivity. }
  (* the debt now *)
  assert (D : forall w, In w (waiting s) -> now < wAct w -> r * (wAct w - now) <= - advance (lim s) now).
  { intros w I L. specialize (P4 w I L). rewrite advance_later by exact P2. rewrite P1. 
    assert (tokens (lim s) + r * (now - last (lim s)) <= - (r * (wAct w - now))) by nia. lia. }
  assert (X : forall w, In w (waiting s) -> now < wAct w -> wAct w + n * giga / r <= act /\ r * (wAct w - now) + n * giga <= - tokens l).
  { intros w I L. specialize (D w I L). assert (T : r * (wAct w - now) + n * giga <= - tokens l) by lia. split; [|exact T].
    assert (0 < giga) by reflexivity. assert (Tn : tokens l < 0) by nia.
    assert (A : act = now + (- tokens l) / r).
    { unfold reserve in R. destruct (_ <? n); [discriminate|]. destruct (rate (lim s) =? 0) eqn:Z0; [apply Z.eqb_eq in Z0; lia|]. injection R as <- <-.
      cbn [tokens] in Tn |- *. apply Z.ltb_lt in Tn. rewrite Tn, P1. reflexivity. }
    rewrite A. assert (M : (r * (wAct w - now) + n * giga) / r <= (- tokens l) / r) by (apply Z.div_le_mono; lia).
    rewrite Z.mul_comm, Z.div_add_l in M by lia. lia. }
  constructor; cbn [lim waiting].
  - lia.
  - lia.
  - constructor; [exact Hn|exact P3].
  - rewrite R4. intros w [<-|I] L; [cbn [wAct] in *|].
    + destruct (Z_lt_le_dec (tokens l) 0) as [T|T]; [rewrite <- P1; apply R7; exact T|]. specialize (R8 T). lia.
    + destruct (X w I L) as [_ Y]. assert (0 < giga) by reflexivity. nia.
  - rewrite Ev. intros w [<-|I]; [cbn [wAct]; lia|]. destruct (Z_lt_le_dec now (wAct w)) as [L|L]; [|lia].
    destruct (X w I L) as [Y _]. assert (0 <= n * giga / r) by (apply Z.div_pos; [unfold giga; lia|exact Hr]). lia.
  - cbn [apart]. split; [|exact P6]. cbn [wAct wSize]. intros y I L. destruct (X y I L) as [Y _]. lia.
Qed.
Lemma p_step : forall r quic now t s e s' x, 0 < r -> now <= t -> inv_p r now s -> step quic s t e = Some (s', x) -> quiet x -> inv_p r t s'.
Proof.
  intros r quic now t s e s' x Hr Ht I0 H Q. pose proof (p_later r now t s Ht I0) as I. clear I0.
  assert (En : forall i, end_context s t i = (s', x) -> inv_p r t s').
  { intros i E. unfold end_context in E. destruct (find_waiter i (waiting s)) as [w|].
    - destruct (wAct w <=? t); injection E as <- <-; [apply p_drop; exact I|destruct Q].
    - injection E as <- <-. destruct I as [P1 P2 P3 P4 P5 P6]. constructor; auto. }
  destruct e as [i n|i k|i|i]; cbn [step] in H.
  - destruct (find_waiter i (waiting s)); [discriminate|]. destruct (n <? 0) eqn:N; [discriminate|]. apply Z.ltb_ge in N.
    destruct (burst (lim s) <? n); [injection H as <- <-; exact I|]. destruct (existsb _ _); [injection H as <- <-; exact I|].
    destruct (reserve (lim s) t n) as [[l act]|] eqn:R; injection H as <- <-; [apply p_call; assumption|exact I].
  - destruct (find_waiter i (waiting s)) as [w|]; [|discriminate]. destruct (_ && _); [|discriminate]. injection H as <- <-. apply p_drop. exact I.
  - destruct (quic i); [|injection H as <- <-; exact I]. injection H as H. apply (En i). exact H.
  - injection H as H. apply (En i). exact H.
Qed.
Lemma p_run : forall r quic h now s s' out, 0 < r -> inv_p r now s -> in_order now h ->
  run quic s h = Some (s', out) -> patient out -> inv_p r (last_time now h) s'.
Proof.
  intros r quic h. induction h as [|[t e] h IH]; intros now s s' out Hr I O H P; cbn [run] in H.
  - injection H as <- <-. exact I.
  - destruct O as [O1 O2]. destruct (step quic s t e) as [[s1 x]|] eqn:E; [|discriminate]. destruct (run quic s1 h) as [[s2 out2]|] eqn:F; [|discriminate].
    injection H as <- <-. inversion P as [|? ? P1 P2]; subst. cbn [last_time]. apply (IH t s1 s2 out2 Hr); auto.
    apply (p_step r quic now t s e s1 x Hr O1 I E). exact P1.
Qed.
Lemma p_fresh : forall r, inv_p r 0 (fresh r).
Proof. intros r. constructor; cbn; try lia; try constructor; intros w []. Qed.
Lemma p_g : forall r now s, inv_p r now s -> inv_g r now s.
Proof. intros r now s [P1 P2 P3 P4 P5 P6]. constructor; auto. Qed.

(** One call gives up. *)
Lemma find_apart : forall r now i ws w y, apart r now ws -> find_waiter i ws = Some w -> In y (drop_waiter i ws) ->
  (now < wAct y -> wAct y <= wAct w - wSize w * giga / r) \/ (now < wAct w -> wAct w <= wAct y - wSize y * giga / r).
Proof.
  intros r now i ws w y. induction ws as [|x ws IH]; [discriminate|]. intros [A B] F I. cbn [find_waiter drop_waiter] in F, I.
  destruct (Nat.eqb (wConn x) i).
  - injection F as <-. left. apply A. exact I.
  - destruct I as [<-|I]; [right; apply A; apply find_in in F; tauto|]. apply IH; assumption.
Qed.
Lemma g_cancel : forall r now s i w d, 0 < r <= giga -> inv_g r now s -> find_waiter i (waiting s) = Some w -> now < wAct w ->
  let l := cancel (lim s) now (wSize w) (wAct w) in
  inv_g r now {| lim := l; waiting := drop_waiter i (waiting s); done := d |} /\
  burst l = burst (lim s) /\ forall t, now <= t -> advance l t <= advance (lim s) t + wSize w * giga.
Proof.
  intros r now s i w d Hr [G1 G2 G3 G4 G5] F L l. assert (Fi := proj1 (find_in _ _ _ F)).
  assert (Sw : 0 <= wSize w) by (rewrite Forall_forall in G3; apply G3; exact Fi).
  assert (Gg : 0 < giga) by reflexivity.
  assert (Base : inv_g r now {| lim := lim s; waiting := drop_waiter i (waiting s); done := d |}).
  { constructor; cbn [lim waiting]; auto; [apply sound_drop; exact G3| |apply apart_drop; exact G5]. intros y I. apply G4. apply drop_in in I. exact I. }
  subst l. unfold cancel. destruct ((wAct w <? now) || (wSize w =? 0)) eqn:E.
  { split; [exact Base|]. split; [reflexivity|]. intros t _. nia. }
  apply orb_false_iff in E as [_ E]. apply Z.eqb_neq in E. assert (Sp : 0 < wSize w) by lia.
  assert (Ew := G4 w Fi L Sp). rewrite G1. destruct (wSize w * giga - r * (lastEvent (lim s) - wAct w) <=? 0) eqn:Re.
  { split; [exact Base|]. split; [reflexivity|]. intros t _. nia. }
  apply Z.leb_gt in Re. cbv zeta. split; [|split; [reflexivity|]].
  - destruct Base as [B1 B2 B3 B4 B5]. constructor; cbn [lim waiting rate last lastEvent] in *; auto; [lia|].
    destruct ((wAct w =? lastEvent (lim s)) && (now <=? wAct w - wSize w * giga / r)) eqn:C; [|exact B4].
    apply andb_true_iff in C as [C1 C2]. apply Z.eqb_eq in C1. intros y I Ly Sy.
    destruct (find_apart r now i _ w y G5 F I) as [A|A]; [apply A; exact Ly|]. specialize (A L). specialize (B4 y I Ly Sy).
    assert (1 <= wSize y * giga / r) by (apply Z.div_le_lower_bound; nia). lia.
  - intros t Ht. rewrite (advance_later _ t) by (cbn [last]; exact Ht). cbn [burst tokens rate last].
    rewrite (advance_step (lim s) now t) by lia. rewrite G1. assert (0 <= r * (lastEvent (lim s) - wAct w)) by nia. lia.
Qed.
Lemma g_later : forall r a b s, a <= b -> inv_g r a s -> inv_g r b s.
Proof.
  intros r a b s H [G1 G2 G3 G4 G5]. constructor; auto; try lia; [|eapply apart_later; eauto].
  intros w I L. apply G4; [exact I|lia].
Qed.
Lemma g_drop : forall r now s i d, inv_g r now s -> inv_g r now {| lim := lim s; waiting := drop_waiter i (waiting s); done := d |}.
Proof.
  intros r now s i d [G1 G2 G3 G4 G5]. constructor; cbn [lim waiting]; auto.
  - apply sound_drop. exact G3.
  - intros w I. apply G4. apply drop_in in I. exact I.
  - apply apart_drop. exact G5.
Qed.
Lemma sizes_drop_le : forall p i w, Forall (fun x => 0 <= wSize x) w -> sizes p (drop_waiter i w) <= sizes p w.
Proof.
  intros p i w H. induction H as [|x w Hx H IH]; cbn [sizes drop_waiter]; [lia|].
  destruct (Nat.eqb (wConn x) i); cbn [sizes]; destruct (p x); lia.
Qed.
Lemma given_cons : forall s x out, Forall (fun w => 0 <= wSize w) (waiting s) -> given_up s out <= given_up s (x :: out).
Proof.
  intros s x out H. unfold given_up. apply sizes_le; [exact H|]. intros w _ E. cbn [existsb]. rewrite E. apply orb_true_r.
Qed.

Lemma g_step : forall r quic now t s e s' x, 0 < r <= giga -> now <= t -> inv_g r now s -> no_calls [(t, e)] ->
  step quic s t e = Some (s', x) ->
  inv_g r t s' /\ forall u out, t <= u ->
    advance (lim s') u + given_up s' out * giga <= advance (lim s) u + given_up s ((t, x) :: out) * giga.
Proof.
  intros r quic now t s e s' x Hr Ht I0 N H. pose proof (g_later r now t s Ht I0) as I. clear I0 Ht now.
  assert (Gs := g_sound _ _ _ I). assert (Gg : 0 < giga) by reflexivity.
  assert (Same : forall d, s' = {| lim := lim s; waiting := waiting s; done := d |} -> inv_g r t s' /\ forall u out, t <= u ->
    advance (lim s') u + given_up s' out * giga <= advance (lim s) u + given_up s ((t, x) :: out) * giga).
  { intros d ->. split; [destruct I; constructor; auto|]. intros u out _. cbn [lim]. pose proof (given_cons s (t, x) out Gs) as C.
    unfold given_up in *. cbn [waiting]. nia. }
  assert (Dropped : forall i d, s' = {| lim := lim s; waiting := drop_waiter i (waiting s); done := d |} -> inv_g r t s' /\ forall u out, t <= u ->
    advance (lim s') u + given_up s' out * giga <= advance (lim s) u + given_up s ((t, x) :: out) * giga).
  { intros i d ->. split; [apply g_drop; exact I|]. intros u out _. cbn [lim]. pose proof (given_cons s (t, x) out Gs) as C.
    unfold given_up in *. cbn [waiting].
    pose proof (sizes_drop_le (fun w => existsb (fun x => match snd x with GaveUp i => Nat.eqb i (wConn w) | _ => false end) out) i (waiting s) Gs). nia. }
  assert (En : forall i, end_context s t i = (s', x) -> inv_g r t s' /\ forall u out, t <= u ->
    advance (lim s') u + given_up s' out * giga <= advance (lim s) u + given_up s ((t, x) :: out) * giga).
  { intros i E. unfold end_context in E. destruct (find_waiter i (waiting s)) as [w|] eqn:F.
    - destruct (wAct w <=? t) eqn:L; injection E as <- <-; [eapply Dropped; reflexivity|]. apply Z.leb_gt in L.
      destruct (g_cancel r t s i w (i :: done s) Hr I F L) as [A [_ B]]. split; [exact A|]. intros u out Hu. cbn [lim]. specialize (B u Hu).
      unfold given_up. cbn [waiting].
      set (p := fun w => existsb (fun x => match snd x with GaveUp i => Nat.eqb i (wConn w) | _ => false end) out).
      set (q := fun w => existsb (fun x => match snd x with GaveUp i => Nat.eqb i (wConn w) | _ => false end) ((t, GaveUp i) :: out)).
      assert (Q : sizes p (drop_waiter i (waiting s)) <= sizes q (drop_waiter i (waiting s))).
      { apply sizes_le; [apply sound_drop; exact Gs|]. intros y _ Y. unfold q. cbn [existsb]. unfold p in Y. rewrite Y. apply orb_true_r. }
      assert (Qw : q w = true). { unfold q. cbn [existsb snd]. rewrite (proj2 (find_in _ _ _ F)), Nat.eqb_refl. reflexivity. }
      rewrite (sizes_drop q i _ w F), Qw in Q. nia.
    - injection E as <- <-. eapply Same. reflexivity. }
  assert (Eta : s = {| lim := lim s; waiting := waiting s; done := done s |}) by (destruct s; reflexivity).
  destruct e as [i n|i k|i|i]; cbn [step] in H.
  - inversion N as [|? ? N1 _]. destruct N1.
  - destruct (find_waiter i (waiting s)) as [w|]; [|discriminate]. destruct (_ && _); [|discriminate]. injection H as <- <-. eapply Dropped. reflexivity.
  - destruct (quic i); [injection H as H; apply (En i); exact H|]. injection H as <- <-. apply (Same (done s)). exact Eta.
  - injection H as H. apply (En i). exact H.
Qed.
Lemma g_run : forall r quic h now s s' out, 0 < r <= giga -> inv_g r now s -> in_order now h -> no_calls h ->
  run quic s h = Some (s', out) -> forall u, last_time now h <= u ->
  advance (lim s') u <= advance (lim s) u + given_up s out * giga.
Proof.
  intros r quic h. induction h as [|[t e] h IH]; intros now s s' out Hr I O N H u Hu; cbn [run] in H.
  - injection H as <- <-. assert (0 <= given_up s []) by (apply sizes_nonneg; apply (g_sound _ _ _ I)). assert (0 < giga) by reflexivity. nia.
  - destruct O as [O1 O2]. destruct (step quic s t e) as [[s1 x]|] eqn:E; [|discriminate]. destruct (run quic s1 h) as [[s2 out2]|] eqn:F; [|discriminate].
    injection H as <- <-. cbn [last_time] in Hu. inversion N as [|? ? N1 N2]; subst.
    destruct (g_step r quic now t s e s1 x Hr O1 I ltac:(constructor; [exact N1|constructor]) E) as [A B].
    assert (Tu : t <= u). { clear - O2 Hu. revert t O2 Hu. induction h as [|[a b] h IHh]; intros t O2 Hu; cbn [last_time] in Hu; [exact Hu|]. destruct O2 as [O O2]. specialize (IHh a O2 Hu). lia. }
    specialize (B u out2 Tu). specialize (IH t s1 s2 out2 Hr A O2 N2 F u Hu). lia.
Qed.

Lemma giving_up_run : forall r quic t1 t2 h1 h2 s1 s2 out1 out2, 0 < r <= giga ->
  history r quic t1 h1 s1 out1 -> patient out1 -> sequel quic s1 t1 t2 h2 s2 out2 -> no_calls h2 ->
  advance (lim s2) t2 <= advance (lim s1) t2 + given_up s1 out2 * giga.
Proof.
  intros r quic t1 t2 h1 h2 s1 s2 out1 out2 Hr [A0 [A1 [A2 A3]]] P [B0 [B1 [B2 B3]]] N.
  assert (L1 : last_time 0 h1 <= t1) by (apply last_time_until; auto).
  assert (L2 : last_time t1 h2 <= t2) by (apply last_time_until; auto).
  apply (g_run r quic h2 t1 s1 s2 out2 Hr); auto. apply p_g. apply (p_later r (last_time 0 h1)); [exact L1|].
  apply (p_run r quic h1 0 (fresh r) s1 out1); auto; [lia|apply p_fresh].
Qed.
