(** Proofs about Stop and Shutdown. *)
From Verif Require Import Base RouteModel ShutdownModel ShutdownSpec.

Lemma upd_length : forall A (x : A) l i, List.length (upd i x l) = List.length l.
Proof. induction l as [|y l IH]; intros [|i]; cbn; auto. Qed.

Lemma upd_same : forall A (x : A) l i, i < List.length l -> nth_error (upd i x l) i = Some x.
Proof.
  induction l as [|y l IH]; intros [|i] H; cbn in *; try lia; auto.
  apply IH; lia.
Qed.

Lemma upd_other : forall A (x : A) l i j, j <> i -> nth_error (upd i x l) j = nth_error l j.
Proof.
  induction l as [|y l IH]; intros [|i] [|j] H; cbn; auto; try congruence.
Qed.

Lemma upd_nth : forall A (x y : A) l i j, nth_error l i = Some y ->
  nth_error (upd i x l) j = if Nat.eqb j i then Some x else nth_error l j.
Proof.
  intros A x y l i j H. destruct (Nat.eqb_spec j i) as [->|N].
  - apply upd_same. apply nth_error_Some. congruence.
  - now apply upd_other.
Qed.

Lemma run_app : forall tr1 tr2 s, run s (tr1 ++ tr2) =
  match run s tr1 with Some s' => run s' tr2 | None => None end.
Proof.
  induction tr1 as [|e tr1 IH]; intros tr2 s; cbn; auto.
  destruct (step s e); auto.
Qed.

Lemma reachable_step : forall s e s', reachable s -> step s e = Some s' -> reachable s'.
Proof.
  intros s e s' (tr & R) E. exists (tr ++ [e]). rewrite run_app, R. cbn. now rewrite E.
Qed.

Lemma reachable_run : forall tr s s', reachable s -> run s tr = Some s' -> reachable s'.
Proof.
  intros tr s s' (tr0 & R) E. exists (tr0 ++ tr). now rewrite run_app, R.
Qed.

(** What a step does to a connection, seen apart from the rest. *)
Lemma handler_inv : forall s i p k s', handler s i p k = Some s' ->
  exists c, nth_error (conns s) i = Some c /\ c_place c = p /\ k c = Some s'.
Proof.
  intros s i p k s' H. unfold handler in H. destruct (nth_error (conns s) i) as [c|]; [|discriminate].
  exists c. destruct (c_place c) eqn:P; destruct p; try discriminate; auto.
Qed.

(** Cases of a step. *)
Ltac steps H :=
  cbn [step] in H;
  repeat match goal with
  | X : handler _ _ _ _ = Some _ |- _ =>
      let c := fresh "c" in let N := fresh "N" in let P := fresh "P" in
      apply handler_inv in X; destruct X as (c & N & P & X); cbn beta in X
  | X : match ?x with _ => _ end = Some _ |- _ => let Q := fresh "Q" in destruct x eqn:Q; try discriminate X
  | X : (if ?x then _ else _) = Some _ |- _ => let Q := fresh "Q" in destruct x eqn:Q; try discriminate X
  end.

(** The invariant. *)
Definition cinv (s : state) (i : nat) (c : conn) : Prop :=
  (c_place c = Accepted \/ c_place c = Added <-> c_callback c = Unset) /\
  (c_place c = Returned -> c_callback c <> Installed) /\
  (c_callback c = Called -> c_shut c = true) /\
  (In i (tracked s) <-> c_place c <> Accepted /\ (c_callback c = Unset \/ c_callback c = Installed \/ c_callback c = Taken)) /\
  (c_place c = Gated \/ c_place c = Served -> c_callback c = Installed ->
     match main s with Closing l => In i l | Stopped => False | _ => True end) /\
  (c_known c = true -> c_place c <> Accepted /\ c_place c <> Added /\ c_place c <> Armed /\ c_mode c <> None) /\
  (c_mode c = None -> c_place c = Accepted \/ c_place c = Added \/ c_place c = Armed \/ c_place c = Returned).

Definition inv (s : state) : Prop :=
  (forall i c, nth_error (conns s) i = Some c -> cinv s i c) /\
  (forall i, In i (tracked s) -> i < List.length (conns s)) /\
  (match main s with Cancelled | Closing _ | Stopped => cancelled s = true | _ => True end) /\
  (match main s with Closing l => forall i, In i l -> i < List.length (conns s) | _ => True end).

Lemma inv_start : inv start.
Proof.
  repeat split; cbn; intros; try tauto; try (destruct i; discriminate).
Qed.

Lemma in_filter : forall i j l, In j (filter (fun k => negb (Nat.eqb k i)) l) <-> In j l /\ j <> i.
Proof.
  intros i j l. rewrite filter_In. destruct (Nat.eqb_spec j i); cbn; intuition congruence.
Qed.

(** What does not change for the other connections. *)
Lemma cinv_frame : forall s s' i c,
  cinv s i c -> (In i (tracked s') <-> In i (tracked s)) ->
  (c_place c = Gated \/ c_place c = Served -> c_callback c = Installed ->
     match main s' with Closing l => In i l | Stopped => False | _ => True end) ->
  cinv s' i c.
Proof.
  intros s s' i c (A & B & C & D & E & F & G) T M. unfold cinv. rewrite T. tauto.
Qed.

(** A step that only changes connection [i]. *)
Lemma inv_one : forall s s' i c c',
  inv s -> nth_error (conns s) i = Some c -> conns s' = upd i c' (conns s) ->
  (forall j, j <> i -> (In j (tracked s') <-> In j (tracked s))) ->
  main s' = main s -> cancelled s' = cancelled s ->
  cinv s' i c' -> inv s'.
Proof.
  intros s s' i c c' (I1 & I2 & I3 & I4) N E T M K C'.
  assert (L : List.length (conns s') = List.length (conns s)) by (rewrite E; apply upd_length).
  assert (B : i < List.length (conns s)) by (apply nth_error_Some; congruence).
  split; [|split; [|split]].
  - intros j d J. rewrite E, (upd_nth _ _ _ _ _ j N) in J. destruct (Nat.eqb_spec j i) as [->|X].
    + injection J as <-. exact C'.
    + specialize (I1 _ _ J). apply (cinv_frame s); auto. rewrite M. apply I1.
  - intros j J. rewrite L. destruct (Nat.eq_dec j i) as [->|X]; [exact B|]. apply I2. now apply T.
  - rewrite M, K. exact I3.
  - rewrite M. destruct (main s); auto. intros j J. rewrite L. auto.
Qed.

(** A step that changes no connection. *)
Lemma inv_none : forall s s', inv s -> conns s' = conns s -> tracked s' = tracked s ->
  (forall i c, nth_error (conns s) i = Some c -> cinv s i c -> c_place c = Gated \/ c_place c = Served -> c_callback c = Installed ->
     match main s' with Closing l => In i l | Stopped => False | _ => True end) ->
  (match main s' with Cancelled | Closing _ | Stopped => cancelled s' = true | _ => True end) ->
  (match main s' with Closing l => forall i, In i l -> i < List.length (conns s) | _ => True end) ->
  inv s'.
Proof.
  intros s s' (I1 & I2 & I3 & I4) E T M K L. split; [|split; [|split]].
  - intros i c N. rewrite E in N. apply (cinv_frame s); auto; [now rewrite T|]. intros. eapply M; eauto.
  - intros i J. rewrite E. apply I2. now rewrite <- T.
  - exact K.
  - rewrite E. exact L.
Qed.

Ltac one s i c := eapply (inv_one s _ i c); [eassumption|eassumption|reflexivity| | reflexivity|reflexivity| ].

(** Solve the invariant of one connection: all the fields are known or enumerable. *)
Ltac cases c :=
  destruct c as [pl mo kn cb sh]; cbn [c_place c_mode c_known c_callback c_shut at_place with_callback close_conn conns tracked main set_conn set_tracked set_wait set_main] in *.

Lemma inv_step : forall s e s', inv s -> step s e = Some s' -> inv s'.
Proof.
  intros s e s' I H. pose proof I as (I1 & I2 & I3 & I4).
  destruct e as [|i|i|i m|i|i|i|i|i|i|i| | | | | | | | | |].
  - steps H. injection H as <-. split; [|split; [|split]]; cbn [conns tracked main cancelled].
    + intros j c N. destruct (Nat.eq_dec j (List.length (conns s))) as [->|X].
      * rewrite nth_error_app2, Nat.sub_diag in N by lia. injection N as <-.
        unfold cinv. cbn. assert (~ In (List.length (conns s)) (tracked s)) by (intros J; apply I2 in J; lia).
        intuition congruence.
      * assert (j < List.length (conns s)).
        { assert (B : j < List.length (conns s ++ [{| c_place := Accepted; c_mode := None; c_known := false; c_callback := Unset; c_shut := false |}]))
            by (apply nth_error_Some; congruence). rewrite app_length in B. cbn in B. lia. }
        rewrite nth_error_app1 in N by lia. apply (cinv_frame s); cbn; auto; [tauto|]. apply I1; auto.
    + intros j J. rewrite app_length. cbn. apply I2 in J. lia.
    + exact I3.
    + destruct (main s); auto. intros j J. rewrite app_length. apply I4 in J. lia.
  - steps H. injection H as <-. specialize (I1 _ _ N) as C. one s i c.
    + intros j X. cbn. intuition congruence.
    + cases c. subst pl. unfold cinv in *. cbn in *. intuition congruence.
  - steps H. injection H as <-. specialize (I1 _ _ N) as C. one s i c.
    + intros j X. cbn. tauto.
    + cases c. subst pl. unfold cinv in *. cbn in *. intuition congruence.
  - steps H. injection H as <-. specialize (I1 _ _ N) as C. one s i c.
    + intros j X. cbn. tauto.
    + cases c. subst pl. unfold cinv in *. cbn in *. intuition congruence.
  - steps H. injection H as <-. specialize (I1 _ _ N) as C. one s i c.
    + intros j X. cbn. tauto.
    + cases c. subst pl. unfold cinv in *. cbn in *. intuition congruence.
  - steps H. injection H as <-. specialize (I1 _ _ N) as C. one s i c.
    + intros j X. cbn. tauto.
    + cases c. subst pl. unfold cinv in *. cbn in *. destruct (main s); intuition congruence.
  - steps H. injection H as <-. specialize (I1 _ _ N) as C. one s i c.
    + intros j X. cbn. tauto.
    + cases c. subst pl. unfold cinv in *. cbn in *. intuition congruence.
  - cbn [step] in H. destruct (nth_error (conns s) i) as [c|] eqn:N; [|discriminate].
    specialize (I1 _ _ N) as C.
    assert (E : s' = set_conn s i (close_conn (at_place c Returned)) /\ c_place c <> Accepted /\ c_place c <> Added).
    { destruct (c_place c); try discriminate; split; try congruence; split; discriminate. }
    destruct E as (-> & A1 & A2). clear H. one s i c.
    + intros j X. cbn. tauto.
    + cases c. unfold cinv, close_conn in *. cbn in *. destruct cb; cbn; intuition congruence.
  - cbn [step] in H. destruct (nth_error (conns s) i) as [c|] eqn:N; [|discriminate].
    specialize (I1 _ _ N) as C.
    assert (E : s' = set_conn s i (close_conn c) /\ c_place c <> Accepted /\ c_place c <> Added).
    { destruct (c_place c); try discriminate; split; try congruence; split; discriminate. }
    destruct E as (-> & A1 & A2). clear H. one s i c.
    + intros j X. cbn. tauto.
    + cases c. unfold cinv, close_conn in *. cbn in *. destruct cb; cbn; intuition congruence.
  - cbn [step] in H. destruct (nth_error (conns s) i) as [c|] eqn:N; [|discriminate].
    specialize (I1 _ _ N) as C. destruct (c_callback c) eqn:Q; try discriminate. injection H as <-. one s i c.
    + intros j X. cbn. rewrite in_filter. tauto.
    + cases c. unfold cinv in *. cbn in *. rewrite in_filter. subst cb. intuition congruence.
  - cbn [step] in H. destruct (nth_error (conns s) i) as [c|] eqn:N; [|discriminate].
    specialize (I1 _ _ N) as C. destruct (c_callback c) eqn:Q; try discriminate. injection H as <-. one s i c.
    + intros j X. cbn. tauto.
    + cases c. unfold cinv in *. cbn in *. subst cb. intuition congruence.
  - steps H. injection H as <-. eapply inv_none; eauto; cbn; auto.
  - steps H; injection H as <-; (eapply inv_none; eauto; cbn; auto; intros i c N C; apply C).
  - steps H; injection H as <-; (eapply inv_none; eauto; cbn; auto; intros i c N C; apply C).
  - cbn in H. injection H as <-. eapply inv_none; eauto. cbn. intros i c N C; apply C.
  - steps H; injection H as <-; (eapply inv_none; eauto; cbn; auto).
  - steps H. injection H as <-. eapply inv_none; eauto; cbn; auto.
  - steps H. injection H as <-. eapply inv_none; eauto; cbn; auto.
  - steps H. injection H as <-. eapply inv_none; eauto; cbn; auto; try rewrite Q; auto.
    intros i c N C P Q'. apply C. split; [destruct P; congruence|]. tauto.
  - steps H. injection H as <-. rename Q1 into N. pose proof (I1 _ _ N) as C.
    set (s1 := set_conn s n (close_conn c)).
    assert (J : inv s1).
    { unfold s1. one s n c. - intros j X; cbn; tauto.
      - destruct (c_callback c) eqn:CB;
        [|cases c; unfold cinv in *; cbn in *; subst cb; rewrite Q in *; cbn in *; intuition congruence ..].
        cases c; unfold cinv in *; cbn in *; subst cb; rewrite Q in *; cbn in *; intuition congruence. }
    destruct J as (J1 & J2 & J3 & J4). unfold s1 in *. cbn in J1, J2, J3, J4. rewrite Q in *.
    split; [|split; [|split]]; cbn.
    + intros j d M. pose proof (J1 _ _ M) as D. apply (cinv_frame (set_conn s n (close_conn c))); cbn; auto; [tauto|].
      intros P CB. destruct D as (_ & _ & _ & _ & E & _). cbn in E. rewrite Q in E. specialize (E P CB).
      destruct E as [<-|E]; [|exact E]. exfalso. rewrite (upd_nth _ _ _ _ _ n N), Nat.eqb_refl in M. injection M as <-.
      unfold close_conn in CB. destruct (c_callback c); cbn in CB; congruence.
    + exact J2.
    + exact J3.
    + intros j K. apply J4. now right.
  - steps H. injection H as <-. eapply inv_none; eauto; cbn; auto.
    intros i c N C P Q'. destruct C as (_ & _ & _ & _ & E & _). rewrite Q in E. exact (E P Q').
Qed.

Lemma inv_reachable : forall s, reachable s -> inv s.
Proof.
  intros s (tr & R). revert R. generalize inv_start. generalize start. induction tr as [|e tr IH]; intros s0 I R; cbn in R.
  - now injection R as <-.
  - destruct (step s0 e) as [s1|] eqn:E; [|discriminate]. eapply IH; [|exact R]. eapply inv_step; eauto.
Qed.

Lemma stop_closes : forall s, reachable s -> main s = Stopped -> settled s -> all_closed s.
Proof.
  intros s R M S i L. destruct (nth_error (conns s) i) as [c|] eqn:N.
  2:{ apply nth_error_None in N. lia. }
  exists c. split; [exact N|].
  destruct (inv_reachable _ R) as (I1 & _). specialize (I1 _ _ N). destruct (S _ _ N) as (P & T1 & T2).
  destruct I1 as (A & B & C & D & E & F). rewrite M in E. apply C.
  destruct (c_callback c) eqn:CB; try congruence.
  - destruct P as [P|P]; destruct A as [_ A]; specialize (A eq_refl); destruct A; congruence.
  - exfalso. destruct P as [P|P]; [apply E; auto|now apply B].
Qed.

(** A connection that Shutdown has to wait for. *)
Definition keeps (i : nat) (m : mode) (s : state) : Prop :=
  backend_mode s i m /\
  (wait s = Done -> ~ In i (tracked s)) /\
  (main s <> Idle /\ (main s = Selecting \/ ~ In i (tracked s))).

Lemma place_not_accepted : forall s i m, inv s -> backend_mode s i m ->
  exists c, nth_error (conns s) i = Some c /\ c_place c <> Accepted /\ c_place c <> Added /\ c_place c <> Armed /\ c_known c = true /\ c_mode c = Some m.
Proof.
  intros s i m (I1 & _) (c & N & K & M). exists c. specialize (I1 _ _ N). unfold cinv in I1. intuition.
Qed.

(** The mode of a connection does not change once it is known. *)
Lemma mode_step : forall s e s' i m, inv s -> step s e = Some s' -> backend_mode s i m -> backend_mode s' i m.
Proof.
  intros s e s' i m I H B. destruct (place_not_accepted _ _ _ I B) as (d & N & P1 & P2 & P3 & K & M).
  assert (One : forall j c c' t dn ls cn ex mn wt, nth_error (conns s) j = Some c ->
     (j = i -> c = d -> c_known c' = true /\ c_mode c' = Some m) ->
     backend_mode {| conns := upd j c' (conns s); tracked := t; down := dn; listening := ls; cancelled := cn; expired := ex; main := mn; wait := wt |} i m).
  { intros j c c' t dn ls cn ex mn wt Nj Q. unfold backend_mode. cbn [conns]. destruct (Nat.eq_dec i j) as [<-|X].
    - assert (c = d) by congruence. destruct (Q eq_refl H0) as (Q1 & Q2).
      exists c'. rewrite (upd_nth _ _ _ _ _ i Nj), Nat.eqb_refl. auto.
    - exists d. rewrite upd_other by auto. auto. }
  assert (Same : forall t dn ls cn ex mn wt,
     backend_mode {| conns := conns s; tracked := t; down := dn; listening := ls; cancelled := cn; expired := ex; main := mn; wait := wt |} i m).
  { intros. exists d. auto. }
  destruct e as [|j|j|j m'|j|j|j|j|j|j|j| | | | | | | | | |];
    try (steps H; injection H as <-;
         first [ now apply Same
               | unfold set_conn, set_tracked, set_wait, set_main; cbn; eapply One; [eassumption|]; intros; subst; cbn; unfold close_conn; try (destruct (c_callback d)); cbn; auto; try congruence ]; fail).
  - steps H. injection H as <-. exists d. cbn [conns]. rewrite nth_error_app1; auto. apply nth_error_Some. congruence.
  - steps H; injection H as <-; unfold set_conn; (eapply One; [eassumption|]); intros; subst; unfold close_conn; cbn [at_place c_callback];
      destruct (c_callback d); cbn; auto.
Qed.

(** Connections are only put into the list when they are new. *)
Lemma tracked_step : forall s e s' i, inv s -> step s e = Some s' -> In i (tracked s') ->
  In i (tracked s) \/ (e = EAdd i /\ exists c, nth_error (conns s) i = Some c /\ c_place c = Accepted).
Proof.
  intros s e s' i I H J.
  destruct e as [|j|j|j m'|j|j|j|j|j|j|j| | | | | | | | | |];
    try (steps H; injection H as <-; cbn in J; auto; fail).
  - steps H. injection H as <-. cbn in J. destruct J as [->|J]; eauto.
  - steps H. injection H as <-. cbn in J. apply in_filter in J. tauto.
Qed.

Lemma not_tracked_step : forall s e s' i m, inv s -> step s e = Some s' -> backend_mode s i m ->
  ~ In i (tracked s) -> ~ In i (tracked s').
Proof.
  intros s e s' i m I H B N J. destruct (tracked_step _ _ _ _ I H J) as [K|(-> & c & Nc & P)]; [auto|].
  destruct (place_not_accepted _ _ _ I B) as (d & Nd & P1 & _). congruence.
Qed.

Lemma left_found : forall s i m, In i (tracked s) -> backend_mode s i m -> ~ tunnel m -> conn_left s = true.
Proof.
  intros s i m J (c & N & K & M) T. unfold conn_left. apply existsb_exists. exists i. split; [exact J|].
  rewrite N. unfold conn_mode. rewrite K, M. unfold tunnel in T. destruct m; cbn; auto; exfalso; apply T; auto.
Qed.

Lemma keeps_step : forall s e s' i m, inv s -> step s e = Some s' -> ~ tunnel m -> expired s' = false ->
  keeps i m s -> keeps i m s'.
Proof.
  intros s e s' i m I H T X (B & W & M1 & M2).
  assert (B' := mode_step _ _ _ _ _ I H B).
  assert (NT : ~ In i (tracked s) -> ~ In i (tracked s')) by (eapply not_tracked_step; eauto).
  split; [exact B'|].
  assert (Easy : (wait s' = Done -> wait s = Done) -> main s' = main s ->
     (wait s' = Done -> ~ In i (tracked s')) /\ main s' <> Idle /\ (main s' = Selecting \/ ~ In i (tracked s'))).
  { intros E1 E2. rewrite E2. split; [auto|]. split; [auto|]. destruct M2; auto. }
  destruct e as [|j|j|j m'|j|j|j|j|j|j|j| | | | | | | | | |];
    try (steps H; injection H as <-; apply Easy; cbn; auto; fail).
  - steps H. injection H as <-. apply Easy; cbn; auto. destruct (wait s); cbn; congruence.
  - steps H. congruence.
  - steps H; injection H as <-; cbn [set_wait wait tracked main] in *. split; [|split; [auto|destruct M2; auto]].
    intros E J. rewrite (left_found s i m J B T) in E. discriminate.
  - steps H; injection H as <-; apply Easy; cbn; auto; discriminate.
  - steps H; injection H as <-; cbn in *; (split; [auto|split; [discriminate|right; auto]]). congruence.
  - steps H; injection H as <-; cbn in *. split; [auto|split; [discriminate|]]. destruct M2; [congruence|auto].
  - steps H; injection H as <-; cbn in *. split; [auto|split; [discriminate|]]. destruct M2; [congruence|auto].
  - steps H; injection H as <-; cbn in *. split; [auto|split; [discriminate|]]. destruct M2; [congruence|auto].
  - steps H; injection H as <-; cbn in *. split; [auto|split; [discriminate|]]. destruct M2; [congruence|auto].
  - steps H; injection H as <-; cbn in *. split; [auto|split; [discriminate|]]. destruct M2; [congruence|auto].
Qed.

Lemma expired_step : forall s e s', step s e = Some s' -> expired s' = false -> expired s = false.
Proof.
  intros s e s' H X.
  destruct e as [|j|j|j m'|j|j|j|j|j|j|j| | | | | | | | | |]; steps H; injection H as <-; cbn in X; auto; try discriminate; congruence.
Qed.

Lemma expired_run : forall tr s s', run s tr = Some s' -> expired s' = false -> expired s = false.
Proof.
  induction tr as [|e tr IH]; intros s s' R X; cbn in R; [congruence|].
  destruct (step s e) eqn:E; [|discriminate]. eapply expired_step; eauto.
Qed.

Lemma keeps_run : forall tr s s' i m, inv s -> run s tr = Some s' -> ~ tunnel m -> expired s' = false ->
  keeps i m s -> keeps i m s'.
Proof.
  induction tr as [|e tr IH]; intros s s' i m I R T X K; cbn in R.
  - now injection R as <-.
  - destruct (step s e) as [s1|] eqn:E; [|discriminate]. assert (I1 : inv s1) by (eapply inv_step; eauto).
    eapply IH; eauto. eapply (keeps_step s e s1); eauto. eapply expired_run; eauto.
Qed.

Lemma no_cut : forall s1 s1' tr s2 i m, reachable s1 -> step s1 EShutdown = Some s1' -> run s1' tr = Some s2 ->
  expired s2 = false -> gone_on s2 -> backend_mode s1 i m -> ~ tunnel m -> ~ open s2 i.
Proof.
  intros s1 s1' tr s2 i m R E R2 X (G1 & G2) B T.
  assert (I := inv_reachable _ R). assert (I' := inv_step _ _ _ I E).
  assert (K : keeps i m s2).
  { eapply keeps_run; eauto. split; [exact (mode_step _ _ _ _ _ I E B)|]. clear I'. cbn in E. destruct (main s1); try discriminate.
    injection E as <-. cbn. split; [discriminate|]. split; [discriminate|auto]. }
  destruct K as (_ & _ & _ & [K|K]); [congruence|exact K].
Qed.

(** After Shutdown no backend is found any more. *)
Lemma mode_back : forall s e s' i m, inv s -> step s e = Some s' -> down s = true -> has_server m = true -> routed s' i m -> routed s i m.
Proof.
  intros s e s' i m I H D HS (c & N & M).
  assert (One : forall j d d', nth_error (conns s) j = Some d -> nth_error (upd j d' (conns s)) i = Some c ->
     (c_mode d' = c_mode d) -> routed s i m).
  { intros j d d' Nj Nc Q. rewrite (upd_nth _ _ _ _ _ i Nj) in Nc. destruct (Nat.eqb_spec i j) as [->|X].
    - injection Nc as <-. exists d. split; [exact Nj|congruence].
    - exists c; auto. }
  destruct e as [|j|j|j m'|j|j|j|j|j|j|j| | | | | | | | | |];
    try (steps H; injection H as <-; cbn in N; try (eapply One; [eassumption|exact N|]); unfold close_conn; cbn;
         try (match goal with |- context [match c_callback ?x with _ => _ end] => destruct (c_callback x) end); cbn; try reflexivity; try (exists c; now auto); fail).
  - steps H. injection H as <-. cbn in N. destruct (Nat.eq_dec i (List.length (conns s))) as [->|X].
    + rewrite nth_error_app2, Nat.sub_diag in N by lia. injection N as <-. cbn in M. congruence.
    + assert (B : i < List.length (conns s ++ [{| c_place := Accepted; c_mode := None; c_known := false; c_callback := Unset; c_shut := false |}]))
        by (apply nth_error_Some; congruence). rewrite app_length in B. cbn in B.
      rewrite nth_error_app1 in N by lia. exists c; auto.
  - cbn [step] in H. apply handler_inv in H. destruct H as (d & Nd & P & H). cbn beta in H. rewrite D in H. cbn [andb] in H.
    destruct (has_server m') eqn:HS'; [discriminate|]. injection H as <-. cbn in N.
    rewrite (upd_nth _ _ _ _ _ i Nd) in N. destruct (Nat.eqb_spec i j) as [->|X].
    + injection N as <-. cbn in M. congruence.
    + exists c; auto.
Qed.

Lemma down_step : forall s e s', step s e = Some s' -> down s = true -> down s' = true.
Proof.
  intros s e s' H D.
  destruct e as [|j|j|j m'|j|j|j|j|j|j|j| | | | | | | | | |]; steps H; injection H as <-; cbn; auto; congruence.
Qed.

Lemma no_new : forall s1 s1' tr s2 i m, reachable s1 -> step s1 EShutdown = Some s1' -> run s1' tr = Some s2 ->
  has_server m = true -> routed s2 i m -> routed s1 i m.
Proof.
  intros s1 s1' tr s2 i m R E R2 HS Q.
  assert (I := inv_reachable _ R). assert (I' := inv_step _ _ _ I E).
  assert (D : down s1' = true) by (cbn in E; destruct (main s1); try discriminate; injection E as <-; reflexivity).
  assert (Q' : routed s1' i m).
  { clear E R. revert s1' I' D R2. induction tr as [|e tr IH]; intros s J D R2; cbn in R2; [congruence|].
    destruct (step s e) as [s'|] eqn:E; [|discriminate]. eapply mode_back; eauto. eapply IH; eauto.
    - eapply inv_step; eauto. - eapply down_step; eauto. }
  cbn in E. destruct (main s1); try discriminate. injection E as <-. exact Q'.
Qed.

(** Shutdown does not sleep when nothing is left to wake it up. *)
Definition pending (s : state) : Prop :=
  tracked s <> [] \/ exists i c, nth_error (conns s) i = Some c /\ c_callback c = Removed.
Definition alert (s : state) : Prop := wait s = Waiting \/ wait s = Found -> pending s.

Lemma pending_step : forall s e s', inv s -> step s e = Some s' -> pending s -> (forall i, e <> EBroadcast i) -> pending s'.
Proof.
  intros s e s' I H P NB.
  assert (One : forall j d d' t dn ls cn ex mn wt, nth_error (conns s) j = Some d ->
     (c_callback d = Removed -> c_callback d' = Removed) -> (tracked s <> [] -> t <> []) ->
     pending {| conns := upd j d' (conns s); tracked := t; down := dn; listening := ls; cancelled := cn; expired := ex; main := mn; wait := wt |}).
  { intros j d d' t dn ls cn ex mn wt Nj Q T. destruct P as [P|(i & c & N & C)]; [left; cbn; auto|].
    right. cbn. destruct (Nat.eq_dec i j) as [->|X].
    - exists j, d'. rewrite (upd_nth _ _ _ _ _ j Nj), Nat.eqb_refl. assert (c = d) by congruence. subst. auto.
    - exists i, c. rewrite upd_other by auto. auto. }
  assert (Same : forall dn ls cn ex mn wt,
     pending {| conns := conns s; tracked := tracked s; down := dn; listening := ls; cancelled := cn; expired := ex; main := mn; wait := wt |})
    by (intros; exact P).
  destruct e as [|j|j|j m'|j|j|j|j|j|j|j| | | | | | | | | |];
    try (steps H; injection H as <-;
      first [ apply Same
            | unfold set_conn, set_tracked, set_wait, set_main; cbn; eapply One; [eassumption| |]; cbn; auto; try discriminate;
              unfold close_conn; cbn;
              try (match goal with |- context [match c_callback ?x with _ => _ end] => destruct (c_callback x) eqn:? end); cbn; auto; congruence ]; fail).
  - steps H. injection H as <-. destruct P as [P|(i & c & N & C)]; [left; exact P|].
    right. exists i, c. cbn. rewrite nth_error_app1; auto. apply nth_error_Some. congruence.
  - steps H. injection H as <-. pose proof (proj1 I _ _ N) as CI.
    eapply One; [eassumption| |]; cbn; auto. intros Z. destruct CI as (A & _). destruct A as [A _].
    rewrite A in Z by auto. discriminate.
  - cbn [step] in H. destruct (nth_error (conns s) j) as [c|] eqn:N; [|discriminate].
    destruct (c_callback c) eqn:C; try discriminate. injection H as <-.
    right. exists j. eexists. cbn. rewrite (upd_nth _ _ _ _ _ j N), Nat.eqb_refl. split; [reflexivity|reflexivity].
  - exfalso. eapply NB. reflexivity.
Qed.

Lemma alert_step : forall s e s', inv s -> step s e = Some s' -> (forall i, e = EBroadcast i -> wait s <> Found) ->
  alert s -> alert s'.
Proof.
  intros s e s' I H B A W.
  destruct e as [|j|j|j m'|j|j|j|j|j|j|j| | | | | | | | | |];
    try (assert (PP : pending s) by (apply A; steps H; injection H as <-; cbn in W; auto; fail);
         eapply pending_step; eauto; discriminate).
  - exfalso. specialize (B j eq_refl). steps H. injection H as <-. cbn in W. destruct (wait s); cbn in W; destruct W; congruence.
  - steps H. injection H as <-. cbn in W. destruct W; discriminate.
  - steps H; injection H as <-. cbn in W. left. cbn. unfold conn_left in W.
    destruct (tracked s); [cbn in W; destruct W; discriminate|discriminate].
  - steps H; injection H as <-; cbn in W; destruct W; congruence || (apply A; auto).
Qed.

Lemma not_asleep : forall s1 s1' tr s2, reachable s1 -> step s1 EShutdown = Some s1' -> run s1' tr = Some s2 ->
  no_report_missed s1' tr -> alert s2.
Proof.
  intros s1 s1' tr s2 R E R2 NR. assert (I := inv_step _ _ _ (inv_reachable _ R) E).
  assert (A : alert s1').
  { cbn in E. destruct (main s1); try discriminate. injection E as <-. intros W. cbn in W. destruct W; discriminate. }
  clear E R. revert s1' I A R2 NR. induction tr as [|e tr IH]; intros s I A R2 NR; cbn in R2; [injection R2 as <-; exact A|].
  cbn in NR. destruct (step s e) as [s'|] eqn:E; [|discriminate]. destruct NR as (B & NR).
  apply (IH s'); auto. - eapply inv_step; eauto. - eapply alert_step; eauto.
Qed.

(** Stop ends. *)
Lemma closing_ends : forall l s, inv s -> main s = Closing l -> exists tr s', Forall own_step tr /\ run s tr = Some s' /\ main s' = Stopped.
Proof.
  induction l as [|i l IH]; intros s I M.
  - exists [EStopEnd], (set_main s Stopped). repeat constructor. cbn. now rewrite M.
  - pose proof I as (_ & _ & _ & I4). rewrite M in I4. specialize (I4 i (or_introl eq_refl)).
    destruct (nth_error (conns s) i) as [c|] eqn:N; [|apply nth_error_None in N; lia].
    assert (E : step s EStopNext = Some (set_main (set_conn s i (close_conn c)) (Closing l))) by (cbn; now rewrite M, N).
    destruct (IH _ (inv_step _ _ _ I E) eq_refl) as (tr & s' & O & R & Q).
    exists (EStopNext :: tr), s'. split; [constructor; [exact Logic.I|exact O]|]. split; [|exact Q]. cbn [run]. now rewrite E.
Qed.

Lemma stop_ends : forall s, reachable s -> main s = Stopping -> exists tr s', Forall own_step tr /\ run s tr = Some s' /\ main s' = Stopped.
Proof.
  intros s R M. assert (I := inv_reachable _ R).
  destruct (step s ECancel) as [s1|] eqn:E1; [|cbn in E1; rewrite M in E1; discriminate].
  assert (M1 : main s1 = Cancelled) by (cbn in E1; rewrite M in E1; injection E1 as <-; reflexivity).
  assert (I1 := inv_step _ _ _ I E1).
  assert (E2 : step s1 ESnapshot = Some (set_main s1 (Closing (tracked s1)))) by (cbn; now rewrite M1).
  destruct (closing_ends _ _ (inv_step _ _ _ I1 E2) eq_refl) as (tr & s' & O & R' & Q).
  exists (ECancel :: ESnapshot :: tr), s'. split; [repeat constructor; exact O|]. split; [|exact Q].
  cbn [run]. rewrite E1. rewrite E2. exact R'.
Qed.

(** ** The listener *)
Definition shut_listener (s : state) : Prop :=
  match main s with Idle | Stopping => True | _ => listening s = false end.

Lemma step_deaf : forall s e s', step s e = Some s' -> listening s = false ->
  listening s' = false /\ List.length (conns s') = List.length (conns s).
Proof.
  intros s e s' H L. destruct e; cbn [step] in H; unfold handler in H; rewrite ?L in H; try discriminate H;
    repeat match type of H with
    | context [match ?x with _ => _ end] => destruct x eqn:?; try discriminate H
    end; injection H as <-; cbn; rewrite ?upd_length; auto.
Qed.

Lemma run_deaf : forall tr s s', run s tr = Some s' -> listening s = false ->
  List.length (conns s') = List.length (conns s).
Proof.
  induction tr as [|e tr IH]; cbn [run]; intros s s' H L. { injection H as <-. reflexivity. }
  destruct (step s e) as [s1|] eqn:E; [|discriminate H].
  destruct (step_deaf _ _ _ E L) as [L1 N]. rewrite (IH _ _ H L1), N. reflexivity.
Qed.

Lemma step_shut_listener : forall s e s', step s e = Some s' -> shut_listener s -> shut_listener s'.
Proof.
  intros s e s' H L. unfold shut_listener in *. destruct e; cbn [step] in H; unfold handler in H;
    repeat match type of H with
    | context [match ?x with _ => _ end] => destruct x eqn:?; try discriminate H
    end; injection H as <-; cbn; try exact I; try assumption; auto.
  all: try (destruct (main s); congruence).
Qed.

Lemma reach_shut_listener : forall tr s s', shut_listener s -> run s tr = Some s' -> shut_listener s'.
Proof.
  induction tr as [|e tr IH]; cbn [run]; intros s s' L H. { injection H as <-. exact L. }
  destruct (step s e) as [s1|] eqn:E; [|discriminate H]. exact (IH _ _ (step_shut_listener _ _ _ E L) H).
Qed.
