From Verif Require Import Base AccountModel AccountSpec.

Lemma upd_length {A} i (x : A) l : List.length (upd i x l) = List.length l.
Proof. revert i; induction l as [|y l IH]; intros [|i]; simpl; auto. Qed.

Lemma nth_upd_eq {A} i (x y : A) l : nth_error l i = Some y -> nth_error (upd i x l) i = Some x.
Proof. revert i; induction l as [|z l IH]; intros [|i] H; simpl in *; try discriminate; auto. Qed.

Lemma nth_upd_neq {A} i j (x : A) l : i <> j -> nth_error (upd i x l) j = nth_error l j.
Proof.
  revert i j; induction l as [|z l IH]; intros [|i] [|j] H; simpl; try reflexivity; try congruence.
  apply IH. congruence.
Qed.

Lemma in_upd {A} i (x y z : A) l : nth_error l i = Some y -> In z (upd i x l) -> z = x \/ In z l.
Proof.
  revert i; induction l as [|w l IH]; intros [|i] H Hi; simpl in *; try discriminate.
  - destruct Hi as [<-|Hi]; auto.
  - destruct Hi as [<-|Hi]; auto. destruct (IH i H Hi); auto.
Qed.

(** ** A case analysis principle for [step] on an existing connection *)

Ltac step_cases H :=
  unfold step in H;
  repeat match type of H with
         | match ?e with _ => _ end = Some _ => destruct e eqn:?; try discriminate H
         end;
  try (injection H as H; match type of H with _ = ?x => subst x end).

(** *** Callbacks run at most once *)

Definition cb_rank (x : cbpc) : nat :=
  match x with
  | CbUnset => 0 | CbSet => 1 | CbTaken => 2 | CbRemoved => 3 | CbPending => 4 | CbDone => 5
  end.

Definition rank (s : state) (i : nat) : nat :=
  match nth_error (conns s) i with Some c => cb_rank (ccb c) | None => 0 end.

(** A connection whose handler has not installed the callback has none. *)
Definition armed_inv (s : state) : Prop :=
  forall i c, nth_error (conns s) i = Some c -> cpc c = HAdded -> ccb c = CbUnset.

Lemma rank_set s i c j c0 : nth_error (conns s) i = Some c0 ->
  rank (set_conn s i c) j = if j =? i then cb_rank (ccb c) else rank s j.
Proof.
  intros H. unfold rank, set_conn. cbn [conns]. destruct (Nat.eqb_spec j i) as [->|Hn].
  - rewrite (nth_upd_eq _ _ _ _ H). reflexivity.
  - rewrite nth_upd_neq by congruence. reflexivity.
Qed.

Lemma rank_be s b x j : rank (set_be s b x) j = rank s j.
Proof. reflexivity. Qed.

Lemma nth_set s i c j c0 d : nth_error (conns s) i = Some c0 ->
  nth_error (conns (set_conn s i c)) j = Some d -> (j = i /\ d = c) \/ (j <> i /\ nth_error (conns s) j = Some d).
Proof.
  intros H. unfold set_conn. cbn [conns]. destruct (Nat.eq_dec j i) as [->|Hn].
  - rewrite (nth_upd_eq _ _ _ _ H). intros E. injection E as <-. auto.
  - rewrite nth_upd_neq by congruence. auto.
Qed.

Lemma step_armed s e s' : armed_inv s -> step s e = Some s' -> armed_inv s'.
Proof.
  intros Hi H. unfold armed_inv in *. intros j d.
  step_cases H; cbn [conns set_be];
    try (intros Hd Hpc; specialize (Hi j d Hd Hpc); exact Hi);
    try (intros Hd Hpc;
         match goal with
         | Hn : nth_error (conns ?s) ?c = Some ?k |- _ =>
             destruct (nth_set _ _ _ _ _ _ Hn Hd) as [[-> ->]|[_ Hd']]; [|exact (Hi j d Hd' Hpc)]
         end; cbn in Hpc |- *; try discriminate Hpc; try congruence).
  { intros Hd Hpc. destruct (Nat.lt_ge_cases j (List.length (conns s))) as [Hj|Hj].
    + rewrite nth_error_app1 in Hd by exact Hj. exact (Hi j d Hd Hpc).
    + rewrite nth_error_app2 in Hd by exact Hj. destruct (j - List.length (conns s)) as [|n]; cbn in Hd.
      * injection Hd as <-. reflexivity.
      * destruct n; discriminate. }
  all: match goal with Hn : nth_error (conns ?x) _ = Some _ |- _ => specialize (Hi _ _ Hn) end;
       try (rewrite Hpc in Hi; specialize (Hi eq_refl); congruence).
Qed.

Lemma run_armed tr : forall s s', armed_inv s -> run s tr = Some s' -> armed_inv s'.
Proof.
  induction tr as [|e tr IH]; cbn [run]; intros s s' Hi H; [injection H as <-; exact Hi|].
  destruct (step s e) as [s1|] eqn:E; [|discriminate].
  apply (IH s1 s'); [eapply step_armed; eauto|exact H].
Qed.

Lemma step_rank s e s' i : armed_inv s -> step s e = Some s' ->
  rank s i <= rank s' i /\
  (event_eqb_remove i e = true -> rank s i = 2 /\ rank s' i = 3) /\
  (event_eqb_dec i e = true -> rank s i = 4 /\ rank s' i = 5).
Proof.
  intros Ha H.
  step_cases H; cbn [event_eqb_remove event_eqb_dec];
    rewrite ?rank_be;
    try (match goal with
         | Hn : nth_error (conns s) ?c = Some ?k |- _ =>
             try (erewrite rank_set by exact Hn);
             pose proof (Ha _ _ Hn) as Ha';
             destruct (Nat.eqb_spec i c) as [->|Hne];
               [rewrite ?Nat.eqb_refl|
                repeat split; try lia; intros E; try discriminate E; apply Nat.eqb_eq in E; congruence];
             unfold rank; rewrite Hn; cbn [ccb cb_rank with_cb with_pc with_ann];
             repeat match goal with Hc : ccb _ = _ |- _ => rewrite Hc in * end;
             cbn [cb_rank]
         end);
    try (repeat split; try lia; intros E; discriminate E).

  - unfold rank. cbn [conns]. destruct (nth_error (conns s) i) as [x|] eqn:En.
    + rewrite nth_error_app1 by (apply nth_error_Some; congruence). rewrite En.
      split; [lia|split; intros E; discriminate].
    + split; [lia|split; intros E; discriminate].
  - rewrite (Ha' ltac:(assumption)). cbn. repeat split; try lia; intros E; discriminate.
  - change (rank {| conns := upd c (with_cb c0 CbRemoved) (conns s);
                    tracked := filter (fun j : nat => negb (j =? c)) (tracked s); bes := bes s |} i)
      with (rank (set_conn s c (with_cb c0 CbRemoved)) i).
    erewrite rank_set by eassumption. destruct (Nat.eqb_spec i c) as [->|Hn].
    + unfold rank. rewrite Heqo, Heqc1. cbn. repeat split; try lia; intros E; discriminate.
    + split; [lia|]. split; intros E; [|discriminate]. apply Nat.eqb_eq in E. congruence.
  - destruct (cann c0); cbn; repeat split; try lia; intros E; discriminate.
Qed.

Lemma run_callbacks tr : forall s s' i, armed_inv s -> run s tr = Some s' ->
  callbacks i tr + (if 3 <=? rank s i then 1 else 0) <= 1 /\
  decrements i tr + (if 5 <=? rank s i then 1 else 0) <= 1.
Proof.
  induction tr as [|e tr IH]; cbn [run]; intros s s' i Ha H.
  - unfold callbacks, decrements. cbn [filter List.length].
    destruct (3 <=? rank s i), (5 <=? rank s i); lia.
  - destruct (step s e) as [s1|] eqn:E; [|discriminate].
    destruct (IH s1 s' i (step_armed _ _ _ Ha E) H) as [I1 I2].
    destruct (step_rank s e s1 i Ha E) as (R & R1 & R2).
    unfold callbacks, decrements in *. cbn [filter].
    destruct (event_eqb_remove i e) eqn:Er, (event_eqb_dec i e) eqn:Ed; cbn [List.length];
      try destruct (R1 eq_refl) as [A1 A2]; try destruct (R2 eq_refl) as [B1 B2];
      destruct (Nat.leb_spec 3 (rank s i)), (Nat.leb_spec 3 (rank s1 i)),
        (Nat.leb_spec 5 (rank s i)), (Nat.leb_spec 5 (rank s1 i)); lia.
Qed.

Lemma armed_init : armed_inv init.
Proof. intros i c H. destruct i; discriminate. Qed.

Lemma callback_once tr s i : run init tr = Some s -> callbacks i tr <= 1 /\ decrements i tr <= 1.
Proof.
  intros H. destruct (run_callbacks tr init s i armed_init H) as [A B].
  unfold rank, init in A, B. cbn [conns] in A, B. destruct (nth_error [] i) eqn:E in A, B;
    [destruct i; discriminate|]. cbn in A, B. lia.
Qed.

(** *** The list of open connections *)

Definition tracked_inv (s : state) : Prop :=
  forall i, In i (tracked s) -> i < List.length (conns s) /\ rank s i < 3.

Lemma step_tracked s e s' : armed_inv s -> tracked_inv s -> step s e = Some s' -> tracked_inv s'.
Proof.
  intros Ha Ht H i Hi.
  assert (G : forall c k d, nth_error (conns s) c = Some k -> In i (tracked s) ->
                (cb_rank (ccb d) < 3 \/ 3 <= cb_rank (ccb k)) ->
                i < List.length (upd c d (conns s)) /\ rank (set_conn s c d) i < 3).
  { intros c k d Hn Hin Hd. destruct (Ht i Hin) as [T1 T2]. rewrite upd_length. split; [exact T1|].
    erewrite rank_set by exact Hn. destruct (Nat.eqb_spec i c) as [->|]; [|exact T2].
    unfold rank in T2. rewrite Hn in T2. lia. }
  step_cases H; cbn [tracked set_be set_conn conns] in *; rewrite ?rank_be;
    try (eapply G; [eassumption|exact Hi|
           cbn [ccb with_cb with_pc with_ann];
           repeat match goal with Hc : ccb _ = _ |- _ => rewrite Hc in * end; cbn [cb_rank]; try lia];
         match goal with Hn : nth_error (conns s) _ = Some ?k |- _ =>
           destruct (ccb k) eqn:Ek; cbn; try lia;
           destruct (Ht i Hi) as [T1 T2] end; fail);
    try exact (Ht i Hi).
  - rewrite app_length. cbn [List.length].
    unfold rank. cbn [conns]. destruct Hi as [<-|Hi].
    + rewrite nth_error_app2, Nat.sub_diag by lia. cbn. lia.
    + destruct (Ht i Hi) as [T1 T2]. split; [lia|]. rewrite nth_error_app1 by exact T1. exact T2.
  - apply filter_In in Hi as [Hi Hne]. apply negb_true_iff, Nat.eqb_neq in Hne.
    destruct (Ht i Hi) as [T1 T2]. rewrite upd_length. split; [exact T1|].
    unfold rank. cbn [conns]. rewrite nth_upd_neq by congruence. exact T2.
Qed.

Lemma run_tracked tr : forall s s', armed_inv s -> tracked_inv s -> run s tr = Some s' -> tracked_inv s'.
Proof.
  induction tr as [|e tr IH]; cbn [run]; intros s s' Ha Hi H; [injection H as <-; exact Hi|].
  destruct (step s e) as [s1|] eqn:E; [|discriminate].
  apply (IH s1 s'); [eapply step_armed; eauto|eapply step_tracked; eauto|exact H].
Qed.

Lemma all_closed_untracked tr s : run init tr = Some s -> all_closed s -> tracked s = [].
Proof.
  intros H Hc.
  assert (Ht : tracked_inv s).
  { apply (run_tracked tr init s); [exact armed_init|intros i []|exact H]. }
  destruct (tracked s) as [|i l] eqn:E; [reflexivity|exfalso].
  destruct (Ht i) as [T1 T2]; [rewrite E; left; reflexivity|].
  unfold rank in T2. destruct (nth_error (conns s) i) as [c|] eqn:En.
  - rewrite (Hc c (nth_error_In _ _ En)) in T2. cbn in T2. lia.
  - apply nth_error_None in En. lia.
Qed.

(** *** The channel is closed at most once *)

Definition chan_inv (x : bst) : Prop := (chanClosed x = true -> alive x = false) /\ doubleClose x = false.

Lemma inc_chan d x : chan_inv x -> chan_inv (inc_in_flight d x).
Proof.
  intros [H1 H2]. unfold inc_in_flight, chan_inv. cbv zeta. cbn [inFlight].
  destruct ((inFlight x + d =? 0)%Z && shutdown x && alive x) eqn:E; cbn; [|auto].
  apply andb_true_iff in E as [_ E]. split; [reflexivity|]. rewrite H2. cbn.
  destruct (chanClosed x) eqn:Ec; [rewrite (H1 eq_refl) in E; discriminate|reflexivity].
Qed.

Lemma graceful_chan x : chan_inv x -> chan_inv (close_graceful x).
Proof.
  intros [H1 H2]. unfold close_graceful, chan_inv. destruct (alive x) eqn:Ea; [|auto].
  destruct (inFlight x =? 0)%Z; cbn; [|rewrite ?Ea; auto].
  split; [reflexivity|]. rewrite H2. cbn.
  destruct (chanClosed x) eqn:Ec; [specialize (H1 eq_refl); discriminate|reflexivity].
Qed.

Lemma now_chan x : chan_inv x -> chan_inv (close_now x).
Proof.
  intros [H1 H2]. unfold close_now, chan_inv. destruct (alive x) eqn:Ea; [|auto]. cbn.
  split; [reflexivity|]. rewrite H2. cbn.
  destruct (chanClosed x) eqn:Ec; [specialize (H1 eq_refl); discriminate|reflexivity].
Qed.

Lemma step_chan s e s' : (forall b, chan_inv (bes s b)) -> step s e = Some s' ->
  forall b, chan_inv (bes s' b).
Proof.
  intros Hi H b. step_cases H; cbn [bes set_be set_conn];
    try (match goal with |- context [b =? ?x] => destruct (Nat.eqb_spec b x); subst end);
    try apply Hi; try apply inc_chan; try apply graceful_chan; try apply now_chan; try apply Hi.
Qed.

Lemma never_double_close tr s b : run init tr = Some s -> doubleClose (bes s b) = false.
Proof.
  intros H.
  assert (G : forall tr s s', (forall b, chan_inv (bes s b)) -> run s tr = Some s' -> forall b, chan_inv (bes s' b)).
  { clear. induction tr as [|e tr IH]; cbn [run]; intros s s' Hi H b; [injection H as <-; apply Hi|].
    destruct (step s e) as [s1|] eqn:E; [|discriminate].
    apply (IH s1 s'); [eapply step_chan; eauto|exact H]. }
  apply (G tr init s); [|exact H]. intros b'. split; [discriminate|reflexivity].
Qed.

(** *** Counting, in orderly histories *)

Definition val (b : nat) (c : conn) : nat :=
  if (cbk c =? b) && counted c && negb (uncounted c) then 1 else 0.

Lemma active_app b l c : active b (l ++ [c]) = active b l + val b c.
Proof.
  unfold active, val. rewrite filter_app, app_length. cbn [filter].
  destruct ((cbk c =? b) && counted c && negb (uncounted c)); reflexivity.
Qed.

Lemma active_cons b l c : active b (c :: l) = val b c + active b l.
Proof.
  unfold active, val. cbn [filter].
  destruct ((cbk c =? b) && counted c && negb (uncounted c)); reflexivity.
Qed.

Lemma active_upd b l : forall i c c', nth_error l i = Some c ->
  active b (upd i c' l) + val b c = active b l + val b c'.
Proof.
  induction l as [|x l IH]; intros [|i] c c' H; cbn [nth_error upd] in *; try discriminate.
  - injection H as ->. rewrite !active_cons. lia.
  - specialize (IH i c c' H). rewrite !active_cons. lia.
Qed.

(** What is true of each connection in an orderly history. *)
Definition conn_ok (c : conn) : bool :=
  match cpc c, ckind c with
  | HAdded, _ => match ccb c with CbUnset => negb (cann c) | _ => false end
  | HArmed, _ | HEnded, _ =>
      match ccb c with CbUnset | CbPending => false | _ => negb (cann c) end
  | HLooked, _ => match ccb c with CbSet => negb (cann c) | _ => false end
  | HFirst, KTCP => match ccb c with CbSet => cann c | _ => false end
  | HFirst, KQUIC => match ccb c with CbSet => negb (cann c) | _ => false end
  | _, _ => match ccb c with CbUnset => false | _ => cann c end
  end.

Definition count_inv (s : state) : Prop :=
  (forall c, In c (conns s) -> conn_ok c = true) /\
  forall b, inFlight (bes s b) = Z.of_nat (active b (conns s)).

Lemma inFlight_inc d x : inFlight (inc_in_flight d x) = (inFlight x + d)%Z.
Proof.
  unfold inc_in_flight. cbv zeta. cbn [inFlight].
  destruct ((inFlight x + d =? 0)%Z && shutdown x && alive x); reflexivity.
Qed.
Lemma inFlight_graceful x : inFlight (close_graceful x) = inFlight x.
Proof. unfold close_graceful. destruct (alive x); [|reflexivity]. destruct (inFlight x =? 0)%Z; reflexivity. Qed.
Lemma inFlight_now x : inFlight (close_now x) = inFlight x.
Proof. unfold close_now. destruct (alive x); reflexivity. Qed.

(** A conn update together with the matching change of the counter. *)
Lemma count_upd s i c c' d : count_inv s -> nth_error (conns s) i = Some c -> conn_ok c' = true ->
  cbk c' = cbk c -> Z.of_nat (val (cbk c) c') = (Z.of_nat (val (cbk c) c) + d)%Z ->
  count_inv (set_be (set_conn s i c') (cbk c) (inc_in_flight d (bes s (cbk c)))) /\
  (d = 0%Z -> count_inv (set_conn s i c')).
Proof.
  intros [Hok Hc] Hn Hok' Hb Hv.
  assert (Hok2 : forall x, In x (upd i c' (conns s)) -> conn_ok x = true).
  { intros x Hx. destruct (in_upd _ _ _ _ _ Hn Hx) as [->|Hx']; auto. }
  assert (Hother : forall b, b <> cbk c -> active b (upd i c' (conns s)) = active b (conns s)).
  { intros b Hne. pose proof (active_upd b _ _ _ c' Hn) as H.
    assert (V0 : forall x, cbk x = cbk c -> val b x = 0).
    { intros x Hx. unfold val. rewrite Hx. destruct (Nat.eqb_spec (cbk c) b); [congruence|reflexivity]. }
    rewrite (V0 c eq_refl), (V0 c' Hb) in H. lia. }
  pose proof (active_upd (cbk c) _ _ _ c' Hn) as Hself.
  split.
  - split; [exact Hok2|]. intros b. cbn [bes set_be set_conn conns].
    destruct (Nat.eqb_spec b (cbk c)) as [->|Hne].
    + rewrite inFlight_inc, Hc. lia.
    + rewrite (Hother b Hne). apply Hc.
  - intros ->. split; [exact Hok2|]. intros b. cbn [bes set_conn conns].
    destruct (Nat.eq_dec b (cbk c)) as [->|Hne].
    + rewrite Hc. lia.
    + rewrite (Hother b Hne). apply Hc.
Qed.

Lemma count0 s i c c' : count_inv s -> nth_error (conns s) i = Some c ->
  conn_ok c' = true /\ cbk c' = cbk c /\ val (cbk c) c' = val (cbk c) c -> count_inv (set_conn s i c').
Proof.
  intros H1 H2 (H3 & H4 & H5). eapply (count_upd s i c c' 0); eauto. rewrite H5. lia.
Qed.
Lemma countd s i c c' d b : count_inv s -> nth_error (conns s) i = Some c ->
  b = cbk c ->
  conn_ok c' = true /\ cbk c' = cbk c /\
  Z.of_nat (val (cbk c) c') = (Z.of_nat (val (cbk c) c) + d)%Z ->
  count_inv (set_be (set_conn s i c') b (inc_in_flight d (bes s b))).
Proof. intros H1 H2 -> (H3 & H4 & H5). eapply (count_upd s i c c' d); eauto. Qed.

Lemma step_count s e s' : count_inv s -> orderly_event s e -> step s e = Some s' -> count_inv s'.
Proof.
  intros Hi Ho H. pose proof Hi as [Hok Hc].
  assert (OK : forall i c, nth_error (conns s) i = Some c -> conn_ok c = true)
    by (intros i c Hn; apply Hok; eapply nth_error_In; exact Hn).
  step_cases H; cbn [orderly_event] in Ho;
    try (match goal with
         | Hn : nth_error (conns s) ?i = Some ?k |- _ =>
             pose proof (OK _ _ Hn) as Hk; unfold conn_ok in Hk;
             try (specialize (Ho _ Hn)); destruct k as [kk kb kp ka kc]; cbn in *; subst
         end);
    try exact Hi;
    try (split; [exact Hok|intros bb; cbn [bes set_be conns];
            destruct (Nat.eqb_spec bb b) as [->|]; [|apply Hc];
            rewrite ?inFlight_graceful, ?inFlight_now; cbn [inFlight]; apply Hc]; fail).
  { split.
    + intros c Hin. cbn [conns] in Hin. apply in_app_or in Hin as [Hin|[<-|[]]]; [auto|reflexivity].
    + intros b'. cbn [conns bes]. rewrite active_app, Hc. unfold val, counted. cbn.
      destruct (b =? b'); cbn; destruct k; cbn; lia. }
  all: try change (count_inv (set_conn s c _)).
  all: try (match goal with Hn : nth_error (conns ?x) ?i = Some ?k |- count_inv (set_conn ?x ?i ?k') =>
              apply (count0 x i k k' Hi Hn) end).
  all: try (match goal with Hn : nth_error (conns ?x) ?i = Some ?k
              |- count_inv (set_be (set_conn ?x ?i ?k') ?b (inc_in_flight ?d _)) =>
              apply (countd x i k k' d b Hi Hn eq_refl) end).
  all: try (match goal with Hn : nth_error (conns ?x) ?i = Some ?k
              |- count_inv {| conns := upd ?i ?k' _; tracked := _; bes := _ |} =>
              apply (count0 x i k k' Hi Hn) end).
  all: clear OK Hok Hc Hi; unfold val, conn_ok, counted, uncounted; cbn; rewrite ?Nat.eqb_refl; cbn;
    repeat match goal with
           | |- context [match ?x with _ => _ end] => is_var x; destruct x; cbn in *
           end; repeat split; try reflexivity; try discriminate; try assumption; try congruence.
  all: destruct ka; cbn in *; try reflexivity;
    repeat match type of Hk with
           | context [match ?x with _ => _ end] => is_var x; destruct x; cbn in *
           end; try discriminate.
Qed.

Lemma run_count tr : forall s s', count_inv s -> orderly s tr -> run s tr = Some s' -> count_inv s'.
Proof.
  induction tr as [|e tr IH]; cbn [run orderly]; intros s s' Hi Ho H; [injection H as <-; exact Hi|].
  destruct Ho as [Ho1 Ho2]. destruct (step s e) as [s1|] eqn:E; [|discriminate].
  apply (IH s1 s'); [eapply step_count; eauto|exact Ho2|exact H].
Qed.

Lemma count_init : count_inv init.
Proof. split; [intros c []|reflexivity]. Qed.

Lemma in_flight_exact tr s b : run init tr = Some s -> orderly init tr ->
  inFlight (bes s b) = Z.of_nat (active b (conns s)).
Proof. intros H Ho. apply (run_count tr init s count_init Ho H). Qed.

Lemma in_flight_zero tr s b : run init tr = Some s -> orderly init tr -> all_closed s ->
  inFlight (bes s b) = 0%Z.
Proof.
  intros H Ho Hc. destruct (run_count tr init s count_init Ho H) as [Hok Hb]. rewrite Hb.
  assert (G : forall l, (forall c, In c l -> ccb c = CbDone) -> (forall c, In c l -> conn_ok c = true) ->
             active b l = 0).
  { induction l as [|c l IH]; intros H1 H2; [reflexivity|]. rewrite active_cons.
    rewrite IH by (intros x Hx; first [apply H1; right; exact Hx|apply H2; right; exact Hx]).
    specialize (H1 c (or_introl eq_refl)). specialize (H2 c (or_introl eq_refl)).
    unfold val, counted, uncounted. unfold conn_ok in H2. rewrite H1 in *.
    destruct (cpc c), (ckind c), (cann c), (cbk c =? b); cbn in *; try discriminate; reflexivity. }
  rewrite G; auto.
Qed.

(** The graceful path closes the channel only when no connection is counted. *)
Lemma chan_closed_idle tr s e s' b :
  run init tr = Some s -> orderly init tr -> orderly_event s e -> step s e = Some s' ->
  e <> EStop b ->
  chanClosed (bes s b) = false -> chanClosed (bes s' b) = true ->
  active b (conns s') = 0.
Proof.
  intros H Ho Hoe Hs Hst H0 H1.
  pose proof (run_count tr init s count_init Ho H) as Hi.
  pose proof (step_count s e s' Hi Hoe Hs) as [_ Hc].
  assert (G : inFlight (bes s' b) = 0%Z); [|specialize (Hc b); lia].
  clear Hc Hi Hoe Ho H.
  step_cases Hs; cbn [bes set_be set_conn] in *; try congruence;
    (match type of H1 with context [b =? ?x] => destruct (Nat.eqb_spec b x); subst end); try congruence.
  all: try (unfold inc_in_flight in H1 |- *; cbv zeta in *; cbn [inFlight] in *;
       match goal with |- context [if ?x then _ else _] => destruct x eqn:E end; cbn in *; [|congruence];
       apply andb_true_iff in E as [E _]; apply andb_true_iff in E as [E _]; lia).
  - unfold close_graceful in H1 |- *. destruct (alive (bes s b0)); [|congruence].
    destruct (Z.eqb_spec (inFlight (bes s b0)) 0); cbn in *; [assumption|congruence].
  - cbn in H1. congruence.
Qed.

(** ** A backend that is shutting down gets no further connections *)

Definition late_inv (b i : nat) (s : state) : Prop :=
  shutdown (bes s b) = true /\
  (forall c, nth_error (conns s) i = Some c -> cbk c = b -> no_backend_yet c = true).

Lemma inc_shutdown d x : shutdown (inc_in_flight d x) = shutdown x.
Proof. unfold inc_in_flight. cbv zeta. destruct (_ && _ && _); reflexivity. Qed.
Lemma graceful_shutdown x : shutdown x = true -> shutdown (close_graceful x) = true.
Proof. unfold close_graceful. intro H. destruct (alive x); [|exact H]. destruct (_ =? _)%Z; reflexivity. Qed.
Lemma now_shutdown x : shutdown (close_now x) = shutdown x.
Proof. unfold close_now. destruct (alive x); reflexivity. Qed.

Lemma late_set b i s j c c' : nth_error (conns s) j = Some c -> cbk c' = cbk c ->
  (no_backend_yet c = true -> cbk c = b -> no_backend_yet c' = true) ->
  late_inv b i s -> late_inv b i (set_conn s j c').
Proof.
  intros H Hb Hk [L1 L2]. split; [exact L1|]. intros d Hd Hdb.
  destruct (nth_set _ _ _ _ _ _ H Hd) as [[-> ->] | [Hn Hd']]; [|eauto].
  rewrite Hb in Hdb. eauto.
Qed.

Lemma late_be b i s b' x : (shutdown (bes s b') = true -> shutdown x = true) ->
  late_inv b i s -> late_inv b i (set_be s b' x).
Proof.
  intros Hx [L1 L2]. split; [|exact L2]. cbn. destruct (Nat.eqb_spec b b') as [->|]; auto.
Qed.

Lemma step_late b i s e s' : late_inv b i s -> step s e = Some s' -> late_inv b i s'.
Proof.
  intros L H. assert (L1 := proj1 L). step_cases H; try exact L.
  all: repeat match goal with E : cpc ?c = _ |- _ => revert E end; intros.
  all: try (apply late_be; [cbn; rewrite ?inc_shutdown, ?now_shutdown; auto using graceful_shutdown|]); try exact L.
  all: try (eapply late_set; [eassumption|reflexivity| |exact L]; unfold no_backend_yet; cbn;
            repeat match goal with E : cpc ?c = _ |- _ => rewrite E; clear E end; intros; try congruence; auto; fail).
  - destruct L as [_ L2]. split; [exact L1|]. intros d. cbn [conns]. intros Hd Hb.
    destruct (Nat.lt_ge_cases i (List.length (conns s))) as [Hl|Hl].
    + rewrite nth_error_app1 in Hd by exact Hl. eauto.
    + rewrite nth_error_app2 in Hd by exact Hl. destruct (i - List.length (conns s)); cbn in Hd.
      * injection Hd as <-. reflexivity.
      * destruct n; discriminate.
Qed.

Lemma run_late b i tr : forall s s', late_inv b i s -> run s tr = Some s' -> late_inv b i s'.
Proof.
  induction tr as [|e tr IH]; cbn; intros s s' L H.
  - injection H as <-. exact L.
  - destruct (step s e) eqn:E; [|discriminate]. eauto using step_late.
Qed.

Lemma graceful_late b i s s1 tr s' : step s (EGraceful b) = Some s1 -> alive (bes s b) = true ->
  (forall c, nth_error (conns s) i = Some c -> no_backend_yet c = true) ->
  run s1 tr = Some s' ->
  forall c, nth_error (conns s') i = Some c -> cbk c = b -> no_backend_yet c = true.
Proof.
  intros H Ha Hn Hr. cbn in H. injection H as <-.
  refine (proj2 (run_late b i tr _ s' _ Hr)). split.
  - cbn. rewrite Nat.eqb_refl. unfold close_graceful. rewrite Ha. destruct (_ =? _)%Z; reflexivity.
  - intros c Hc _. apply Hn. exact Hc.
Qed.
