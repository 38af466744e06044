(** C93: bandwidth limits. *)
From Coq Require Import ZArith List Bool Lia.
From Verif Require Import LimitModel LimitSpec LimitProofs.
Import ListNotations.
Local Open Scope Z_scope.

(** Between any two moments, all the connections of a group together move no more than
    the burst and the limit allow, and one nanosecond of rounding, besides the buffers
    of the calls that were past the limiter when the interval began.  Missing: those
    buffers (C93_any_bound_refuted), and connections that are closed while a call
    waits for the limiter (C93_giving_up_refuted). *)
Theorem C93_limit_is_kept_partial : forall r quic t1 t2 h1 s1 out1 h2 s2 out2,
  0 < r ->
  history r quic t1 h1 s1 out1 -> sequel quic s1 t1 t2 h2 s2 out2 ->
  patient out1 -> patient out2 ->
  within r (t2 - t1 + 1) (moved out2 - prepaid s1 t1).
Proof.
  intros r quic t1 t2 h1 s1 out1 h2 s2 out2 Hr [A0 [A1 [A2 A3]]] [B0 [B1 [B2 B3]]] P1 P2.
  pose proof (inv_run r (burst_of r) quic h1 0 (fresh r) s1 out1 Hr (inv_fresh r Hr) A1 A3 P1) as J.
  apply (inv_later r (burst_of r) _ t1) in J; [|apply last_time_until; assumption].
  pose proof (acct_run r (burst_of r) t1 t2 (prepaid s1 t1) quic h2 0 t1 s1 s2 out2 Hr (Z.le_refl _) J
    (acct_start r (burst_of r) t1 t2 s1 Hr B0 J) B1 B2 B3 P2) as K.
  unfold within. unfold giga in K. lia.
Qed.
Print Assumptions C93_limit_is_kept_partial.

(** Since the group was set up: no more than the burst and the limit allow. *)
Theorem C93_total_is_kept_partial : forall r quic t h s out,
  0 < r -> history r quic t h s out -> patient out -> within r (t + 1) (moved out).
Proof.
  intros r quic t h s out Hr [A0 [A1 [A2 A3]]] P.
  assert (H0 : history r quic 0 [] (fresh r) []).
  { split; [lia|]. split; [exact I|]. split; [constructor|reflexivity]. }
  assert (K := C93_limit_is_kept_partial r quic 0 t [] (fresh r) [] h s out Hr H0
    (conj A0 (conj A1 (conj A2 A3))) (Forall_nil _) P).
  unfold prepaid in K. cbn in K. rewrite Z.sub_0_r in K. rewrite !Z.sub_0_r in K. exact K.
Qed.
Print Assumptions C93_total_is_kept_partial.

(** But at one moment any number of bytes can go through: connections whose clients are
    silent are past the limiter, one buffer each, and then the clients send. *)
Theorem C93_any_bound_refuted : forall r bound, 0 < r ->
  exists quic t h1 s1 out1 h2 s2 out2,
    history r quic t h1 s1 out1 /\ sequel quic s1 t t h2 s2 out2 /\
    patient out1 /\ patient out2 /\ bound < moved out2.
Proof.
  intros r bound Hr. set (n := Z.to_nat (Z.max 0 bound + 1)).
  destruct (calls_run r (fun _ => false) n Hr) as [s [out [T [H1 [H2 [H3 [H4 [H5 [H6 [H7 H8]]]]]]]]]].
  destruct (unwind_run (fun _ => false) T n s H8) as [s' [out' [R [P M]]]].
  destruct (calls_times 0 n) as [C1 C2]. destruct (unwind_times T n) as [U1 U2].
  exists (fun _ => false), T, (calls 0 n), s, out, (unwind T n), s', out'.
  split. { split; [exact H7|]. split; [exact C1|]. split; [apply C2; exact H7|exact H1]. }
  split. { split; [lia|]. split; [exact U1|]. split; [exact U2|exact R]. }
  split; [exact H2|]. split; [exact P|]. rewrite M. unfold n. lia.
Qed.
Print Assumptions C93_any_bound_refuted.

(** A call whose connection is closed while it waits gives tokens back, and the library
    can give back more than was taken: twice the burst goes through at once. *)
Theorem C93_giving_up_refuted :
  ~ (forall r quic t h s out, 0 < r -> history r quic t h s out -> within r (t + 1) (moved out)).
Proof.
  intros H.
  set (h := [(0, Call 0 131072); (0, Move 0 131072);
             (0, Call 1 131072); (0, Call 2 10); (1, CloseConn 1); (2, Call 3 1);
             (3, CloseConn 2); (4, Call 4 131000); (4, Move 4 131000)]).
  destruct (run (fun _ => false) (fresh 131072) h) as [[s out]|] eqn:E; [|vm_compute in E; discriminate].
  assert (K : within 131072 (4 + 1) (moved out)).
  { apply (H 131072 (fun _ => false) 4 h s out); [lia|]. split; [lia|].
    split; [cbn; lia|]. split; [repeat constructor; cbn; lia|exact E]. }
  vm_compute in E. injection E as <- <-. unfold within, burst_of in K. cbn in K. lia.
Qed.
Print Assumptions C93_giving_up_refuted.

(** What is true of giving up: after a history where nobody gave up, and as long as no
    new call begins, the calls that are given up make another call earlier by no more
    than the time their bytes take (and one nanosecond).  Limits are up to a gigabyte
    per second.  Missing: C93_giving_up_refuted. *)
Theorem C93_giving_up_partial : forall r quic t1 t2 h1 h2 s1 s2 out1 out2 i n s1' s2' act1 act2,
  0 < r <= 1000000000 ->
  history r quic t1 h1 s1 out1 -> patient out1 ->
  sequel quic s1 t1 t2 h2 s2 out2 -> no_calls h2 ->
  step quic s1 t2 (Call i n) = Some (s1', Let i act1) ->
  step quic s2 t2 (Call i n) = Some (s2', Let i act2) ->
  (act1 - act2) * r <= given_up s1 out2 * 1000000000 + r.
Proof.
  intros r quic t1 t2 h1 h2 s1 s2 out1 out2 i n s1' s2' act1 act2 Hr H1 P H2 N C1 C2.
  assert (K := giving_up_run r quic t1 t2 h1 h2 s1 s2 out1 out2 Hr H1 P H2 N).
  assert (R1 : rate (lim s1) = r). { destruct H1 as [_ [_ [_ H1]]]. apply (proj1 (run_settings quic h1 (fresh r) s1 out1 ltac:(cbn; lia) H1)). }
  assert (R2 : rate (lim s2) = r). { destruct H2 as [_ [_ [_ H2]]]. rewrite <- R1. apply (proj1 (run_settings quic h2 s1 s2 out2 ltac:(lia) H2)). }
  assert (C : forall s s' act, rate (lim s) = r -> step quic s t2 (Call i n) = Some (s', Let i act) ->
    exists l, reserve (lim s) t2 n = Some (l, act)).
  { clear. intros s s' act _ H. cbn [step] in H. destruct (find_waiter i (waiting s)); [discriminate|]. destruct (n <? 0); [discriminate|].
    destruct (burst (lim s) <? n); [discriminate|]. destruct (existsb _ _); [discriminate|].
    destruct (reserve (lim s) t2 n) as [[l a]|]; [|discriminate]. injection H as _ <-. exists l. reflexivity. }
  destruct (C s1 s1' act1 R1 C1) as [l1 D1]. destruct (C s2 s2' act2 R2 C2) as [l2 D2].
  assert (Q1 : 0 < rate (lim s1)) by lia. assert (Q2 : 0 < rate (lim s2)) by lia.
  destruct (reserve_inv _ _ _ _ _ Q1 D1) as [_ [_ [_ [T1 [_ [A1 [B1 [E1 F1]]]]]]]].
  destruct (reserve_inv _ _ _ _ _ Q2 D2) as [_ [_ [_ [T2 [_ [A2 [B2 [E2 F2]]]]]]]].
  rewrite R1 in *. rewrite R2 in *. unfold giga in *.
  assert (0 <= given_up s1 out2) by (apply sizes_nonneg; destruct H1 as [_ [O1 [_ H1]]]; apply (p_sound r (last_time 0 h1)); apply (p_run r quic h1 0 (fresh r) s1 out1); first [lia | apply p_fresh | assumption]).
  destruct (Z_lt_le_dec (tokens l1) 0) as [L|L]; [specialize (E1 L); nia|]. specialize (F1 L). nia.
Qed.
Print Assumptions C93_giving_up_partial.

(** Two calls are given up before a third, with the bucket empty. *)
Example C93_giving_up_case :
  exists s1 s2 s1' s2' out1 out2,
    history 131072 (fun _ => false) 0 [(0, Call 0 131072); (0, Move 0 131072); (0, Call 1 100000); (0, Call 2 10)] s1 out1 /\
    patient out1 /\
    sequel (fun _ => false) s1 0 1 [(1, CloseConn 1); (1, CloseConn 2)] s2 out2 /\
    no_calls [(1, CloseConn 1); (1, CloseConn 2)] /\
    given_up s1 out2 = 100010 /\
    step (fun _ => false) s1 1 (Call 3 1000) = Some (s1', Let 3 770645141) /\
    step (fun _ => false) s2 1 (Call 3 1000) = Some (s2', Let 3 7705688).
Proof.
  eexists. eexists. eexists. eexists. eexists. eexists.
  split; [split; [lia|]; split; [cbn; lia|]; split; [repeat constructor; cbn; lia|vm_compute; reflexivity]|].
  split; [repeat constructor|]. split; [split; [lia|]; split; [cbn; lia|]; split; [repeat constructor; cbn; lia|vm_compute; reflexivity]|].
  split; [repeat constructor|]. split; [reflexivity|]. split; vm_compute; reflexivity.
Qed.

(** Exactly these calls fail: those with a buffer above the burst and those on a closed
    connection. *)
Theorem C93_refused_iff : forall r quic t h s out i n,
  0 < r -> history r quic t h s out -> 0 <= n -> find_waiter i (waiting s) = None ->
  ((exists s', step quic s t (Call i n) = Some (s', Refused i)) <->
   burst_of r < n \/ ended quic i h).
Proof.
  intros r quic t h s out i n Hr [A0 [A1 [A2 A3]]] Hn F.
  assert (Hr0 : 0 < rate (lim (fresh r))) by exact Hr.
  destruct (run_settings quic h (fresh r) s out Hr0 A3) as [R B]. cbn [fresh start_with new_limiter lim rate burst] in R, B.
  change (Z.max r minBurst) with (burst_of r) in B.
  pose proof (run_done quic h (fresh r) s out i A3) as D. cbn [fresh start_with done In] in D.
  cbn [step]. rewrite F. replace (n <? 0) with false by (symmetry; apply Z.ltb_ge; exact Hn).
  rewrite B. destruct (burst_of r <? n) eqn:E.
  - apply Z.ltb_lt in E. split; [intros _; left; exact E|intros _; exists s; reflexivity].
  - apply Z.ltb_ge in E. destruct (existsb (Nat.eqb i) (done s)) eqn:E2.
    + apply existsb_done in E2. split; [|intros _; exists s; reflexivity].
      intros _. right. apply D in E2. destruct E2 as [[]|E2]. exact E2.
    + split.
      * intros [s' K]. unfold reserve in K. rewrite B in K.
        replace (burst_of r <? n) with false in K by (symmetry; apply Z.ltb_ge; exact E).
        destruct (rate (lim s) =? 0); discriminate.
      * intros [L|L]; [lia|]. assert (X : In i (done s)) by (apply D; right; exact L).
        apply existsb_done in X. congruence.
Qed.
Print Assumptions C93_refused_iff.

(** The other calls are only delayed, no longer than the limit needs for them and for
    the calls that wait already; then the bytes can move. *)
Theorem C93_only_delays : forall r quic t h s out i n,
  0 < r -> history r quic t h s out -> patient out ->
  0 <= n <= burst_of r -> find_waiter i (waiting s) = None -> ~ ended quic i h ->
  exists s' act,
    step quic s t (Call i n) = Some (s', Let i act) /\
    t <= act /\ (act - t) * r <= (queued s t + n) * 1000000000 + r /\
    forall u k, act <= u -> 0 <= k <= n ->
      exists s'', step quic s' u (Move i k) = Some (s'', Moved i k).
Proof.
  intros r quic t h s out i n Hr Hh P Hn F O.
  assert (Ref := C93_refused_iff r quic t h s out i n Hr Hh (proj1 Hn) F).
  destruct Hh as [A0 [A1 [A2 A3]]].
  pose proof (inv_run r (burst_of r) quic h 0 (fresh r) s out Hr (inv_fresh r Hr) A1 A3 P) as J.
  apply (inv_later r (burst_of r) _ t) in J; [|apply last_time_until; assumption].
  assert (NR : ~ exists s', step quic s t (Call i n) = Some (s', Refused i)).
  { intros K. apply Ref in K. destruct K as [K|K]; [lia|exact (O K)]. }
  destruct J as [J1 J2 Jp J3 J4 J5 J6 J7].
  destruct (step quic s t (Call i n)) as [[s' x]|] eqn:E.
  2:{ exfalso. cbn [step] in E. rewrite F in E.
      replace (n <? 0) with false in E by (symmetry; apply Z.ltb_ge; lia).
      destruct (burst (lim s) <? n); [discriminate|].
      destruct (existsb (Nat.eqb i) (done s)); [discriminate|].
      destruct (reserve (lim s) t n) as [[l a]|]; discriminate. }
  cbn [step] in E. rewrite F in E.
  replace (n <? 0) with false in E by (symmetry; apply Z.ltb_ge; lia).
  destruct (burst (lim s) <? n); [exfalso; apply NR; injection E as <- <-; exists s; reflexivity|].
  destruct (existsb (Nat.eqb i) (done s)); [exfalso; apply NR; injection E as <- <-; exists s; reflexivity|].
  destruct (reserve (lim s) t n) as [[l act]|] eqn:R;
    [|exfalso; apply NR; injection E as <- <-; exists s; reflexivity].
  injection E as <- <-.
  assert (Hr' : 0 < rate (lim s)) by lia.
  destruct (reserve_inv _ _ _ _ _ Hr' R) as [_ [_ [_ [R3 [_ [R5 [_ [R7 R8]]]]]]]].
  rewrite J1 in R7. specialize (J5 t (Z.le_refl _)).
  eexists. exists act. split; [reflexivity|]. split; [exact R5|]. split.
  - pose proof (sizes_nonneg (fun w => t <? wAct w) _ J4) as Qp. fold (queued s t) in Qp.
    destruct (Z_lt_le_dec (tokens l) 0) as [L|L].
    + specialize (R7 L). rewrite R3 in R7. unfold giga in *. lia.
    + specialize (R8 L). subst act. lia.
  - intros u k Hu Hk. cbn [step waiting find_waiter wConn]. rewrite Nat.eqb_refl. cbn [wAct wSize].
    replace (act <=? u) with true by (symmetry; apply Z.leb_le; exact Hu).
    replace (0 <=? k) with true by (symmetry; apply Z.leb_le; lia).
    replace (k <=? n) with true by (symmetry; apply Z.leb_le; lia).
    cbn [andb]. eexists. reflexivity.
Qed.
Print Assumptions C93_only_delays.

(** A QUIC stream with a limit cannot be read after its write side is closed, although
    it is still open for reading. *)
Theorem C93_quic_half_close_refuted :
  ~ (forall r quic t h s out i n, 0 < r -> history r quic t h s out -> 0 <= n <= burst_of r ->
       find_waiter i (waiting s) = None -> (forall u, ~ In (u, CloseConn i) h) ->
       exists s' act, step quic s t (Call i n) = Some (s', Let i act)).
Proof.
  intros H. set (h := [(0, Call 0 100); (1, Move 0 100); (2, HalfClose 0%nat)]).
  destruct (run (fun _ => true) (fresh 1000000) h) as [[s out]|] eqn:E; [|vm_compute in E; discriminate].
  assert (Hh : history 1000000 (fun _ => true) 2 h s out).
  { split; [lia|]. split; [cbn; lia|]. split; [repeat constructor; cbn; lia|exact E]. }
  vm_compute in E. injection E as <- <-.
  edestruct (H 1000000 (fun _ => true) 2 h _ _ 0%nat 100 ltac:(lia) Hh) as [s' [act K]].
  - unfold burst_of. lia.
  - reflexivity.
  - intros u [K|[K|[K|[]]]]; discriminate.
  - vm_compute in K. discriminate.
Qed.
Print Assumptions C93_quic_half_close_refuted.

(** The limiter is charged for the buffers, not for the bytes: a group that moved four
    bytes, with a limit of 1000 bytes per second, makes the next call wait for more
    than half a minute. *)
Theorem C93_small_reads_refuted :
  ~ (forall r quic t h s out i n s' act,
       0 < r -> history r quic t h s out -> patient out ->
       moved out + n <= burst_of r ->
       step quic s t (Call i n) = Some (s', Let i act) -> act <= t + 30 * 1000000000).
Proof.
  intros H. set (h := [(0, Call 0 32768); (1, Move 0 1); (1, Call 0 32768); (2, Move 0 1);
                       (2, Call 0 32768); (3, Move 0 1); (3, Call 0 32768); (4, Move 0 1)]).
  destruct (run (fun _ => false) (fresh 1000) h) as [[s out]|] eqn:E; [|vm_compute in E; discriminate].
  assert (Hh : history 1000 (fun _ => false) 4 h s out).
  { split; [lia|]. split; [cbn; lia|]. split; [repeat constructor; cbn; lia|exact E]. }
  destruct (step (fun _ => false) s 4 (Call 0 32768)) as [[s' x]|] eqn:St.
  2:{ vm_compute in E. injection E as <- <-. vm_compute in St. discriminate. }
  assert (X : x = Let 0 32768000000).
  { vm_compute in E. injection E as <- <-. vm_compute in St. injection St as _ <-. reflexivity. }
  subst x.
  assert (K : 32768000000 <= 4 + 30 * 1000000000).
  { apply (H 1000 (fun _ => false) 4 h s out 0%nat 32768 s' _ ltac:(lia) Hh); [| |exact St].
    - vm_compute in E. injection E as <- <-. repeat constructor.
    - vm_compute in E. injection E as <- <-. vm_compute. discriminate. }
  lia.
Qed.
Print Assumptions C93_small_reads_refuted.

(** With a limit of zero, which is also what a direction that is left out of the
    configuration gets, 128 KB go through in the whole life of the group. *)
Theorem C93_zero_limit : forall quic t h s out,
  history 0 quic t h s out -> moved out <= 131072.
Proof.
  intros quic t h s out [A0 [A1 [A2 A3]]].
  destruct (zinv_run quic h 0 0 (fresh 0) s out A1 zinv_fresh A3) as [now' Z].
  pose proof (zinv_sizes _ _ _ Z). destruct Z as [Z1 Z2 Z3 Z4]. lia.
Qed.
Print Assumptions C93_zero_limit.

(** A case that meets the hypotheses of the first two theorems and of C93_only_delays:
    three connections share 200000 bytes per second; the second has to wait, the third
    is past the limiter and waits for its client. *)
Example C93_example :
  let quic := fun _ => false in
  let h1 := [(0, Call 0 150000); (10, Call 2 1000); (20, Move 0 150000); (30, Call 1 100000)] in
  let h2 := [(255000000, Move 1 90000); (255000001, Move 2 1000); (255000001, CloseConn 0)] in
  exists s1 out1 s2 out2,
    history 200000 quic 40 h1 s1 out1 /\ sequel quic s1 40 255000001 h2 s2 out2 /\
    patient out1 /\ patient out2 /\
    prepaid s1 40 = 1000 /\ queued s1 40 = 100000 /\ moved out2 = 91000 /\
    find_waiter 0 (waiting s1) = None /\ ~ ended quic 0 h1 /\ ended quic 0 h2.
Proof.
  intros quic h1 h2.
  destruct (run quic (fresh 200000) h1) as [[s1 out1]|] eqn:E1; [|vm_compute in E1; discriminate].
  destruct (run quic s1 h2) as [[s2 out2]|] eqn:E2.
  2:{ vm_compute in E1. injection E1 as <- <-. vm_compute in E2. discriminate. }
  exists s1, out1, s2, out2.
  split. { split; [lia|]. split; [cbn; lia|]. split; [repeat constructor; cbn; lia|exact E1]. }
  split. { split; [lia|]. split; [cbn; lia|]. split; [repeat constructor; cbn; lia|exact E2]. }
  vm_compute in E1. injection E1 as <- <-. vm_compute in E2. injection E2 as <- <-.
  split; [repeat constructor|]. split; [repeat constructor|].
  split; [reflexivity|]. split; [reflexivity|]. split; [reflexivity|]. split; [reflexivity|].
  split.
  - intros [t [K|[K _]]]; [|discriminate]. cbn in K. intuition discriminate.
  - exists 255000001. left. cbn. tauto.
Qed.
