(** C91: stopping the proxy. *)
From Verif Require Import Base RouteModel ShutdownModel ShutdownSpec ShutdownProofs.

(** Shutdown goes on to Stop before the end of the grace period only when each connection
    that was given to an HTTP (or other non-tunnel) backend before it is closed. *)
Theorem C91_requests_are_not_cut : forall s1 s1' tr s2 i m,
  reachable s1 -> step s1 EShutdown = Some s1' -> run s1' tr = Some s2 ->
  expired s2 = false -> gone_on s2 ->
  backend_mode s1 i m -> ~ tunnel m ->
  ~ open s2 i.
Proof. exact no_cut. Qed.
Print Assumptions C91_requests_are_not_cut.

(** Once Shutdown is called, no connection gets to a backend of the proxy's own HTTP
    servers any more. *)
Theorem C91_no_new_requests_partial : forall s1 s1' tr s2 i m,
  reachable s1 -> step s1 EShutdown = Some s1' -> run s1' tr = Some s2 ->
  speaks_http m -> routed s2 i m -> routed s1 i m.
Proof.
  intros s1 s1' tr s2 i m R E R2 S Q. eapply no_new; eauto. destruct S as [->|[->|[->| ->]]]; reflexivity.
Qed.
Print Assumptions C91_no_new_requests_partial.

(** After Stop has returned and the handlers have come to their end, no connection is open,
    also of those that were accepted while Stop was running. *)
Theorem C91_stop_closes_all : forall s, reachable s -> main s = Stopped -> settled s -> all_closed s.
Proof. exact stop_closes. Qed.
Print Assumptions C91_stop_closes_all.

(** From the moment when Shutdown is called, or Stop has closed the listener, until the end
    no connection is accepted any more. *)
Theorem C91_nothing_is_accepted : forall s tr s',
  reachable s -> main s <> Idle -> main s <> Stopping -> run s tr = Some s' ->
  List.length (conns s') = List.length (conns s).
Proof.
  intros s tr s' (t0 & R0) A B R. apply (run_deaf _ _ _ R).
  assert (L := reach_shut_listener _ start s (ltac:(exact Logic.I) : shut_listener start) R0).
  unfold shut_listener in L. destruct (main s); auto; congruence.
Qed.
Print Assumptions C91_nothing_is_accepted.

(** Shutdown returns: when the grace period is over, and also before, when all connections
    are closed, by its own steps alone.  Missing: a connection that ends just after
    Shutdown has looked is not noticed. *)
Theorem C91_shutdown_ends_partial : forall s1 s1' tr s2,
  reachable s1 -> step s1 EShutdown = Some s1' -> run s1' tr = Some s2 -> main s2 = Selecting ->
  expired s2 = true \/ (no_report_missed s1' tr /\ tracked s2 = [] /\ settled s2) ->
  exists own s3, (forall e, In e own -> own_step e \/ e = EWait) /\ run s2 own = Some s3 /\ main s3 = Stopped.
Proof.
  intros s1 s1' tr s2 R E R2 M H.
  assert (Rs : reachable s2) by (eapply reachable_run; [eapply reachable_step; eauto|exact R2]).
  assert (Fin : forall pre s, (forall e, In e pre -> own_step e \/ e = EWait) -> run s2 pre = Some s -> main s = Stopping ->
    exists own s3, (forall e, In e own -> own_step e \/ e = EWait) /\ run s2 own = Some s3 /\ main s3 = Stopped).
  { intros pre s O P Ms. destruct (stop_ends s (reachable_run _ _ _ Rs P) Ms) as (t & s3 & O' & R3 & Q).
    exists (pre ++ t), s3. split; [|split; [now rewrite run_app, P|exact Q]].
    intros e J. apply in_app_or in J. destruct J as [J|J]; [auto|]. left. rewrite Forall_forall in O'. auto. }
  destruct H as [X|(NR & T & S)].
  - apply (Fin [EContinue] (set_main s2 Stopping)); [|cbn; now rewrite M, X|reflexivity].
    intros e [<-|[]]. left. exact Logic.I.
  - assert (A := not_asleep _ _ _ _ R E R2 NR).
    assert (NP : ~ pending s2).
    { intros [P|(i & c & N & C)]; [congruence|]. destruct (S _ _ N) as (_ & _ & Z). congruence. }
    assert (W : wait s2 = Checking \/ wait s2 = Done).
    { destruct (wait s2) eqn:W; auto; exfalso; try (apply NP, A; auto; fail).
      assert (K : main s2 = Selecting -> wait s2 <> NoWaiter).
      { clear - E R2. intros _.
        assert (Z : wait s1' <> NoWaiter) by (cbn in E; destruct (main s1); try discriminate; injection E as <-; discriminate).
        clear E. revert s1' Z R2. induction tr as [|e tr IH]; intros s Z R2; cbn in R2; [congruence|].
        destruct (step s e) as [s'|] eqn:E; [|discriminate]. apply (IH s'); auto.
        destruct e; steps E; injection E as <-; cbn; auto; try discriminate; try (destruct (wait s); cbn; congruence); destruct (conn_left s); discriminate. }
      now apply K. }
    destruct W as [W|W].
    + apply (Fin [ECheck; EContinue] (set_main (set_wait s2 Done) Stopping)); [| |reflexivity].
      * intros e [<-|[<-|[]]]; left; exact Logic.I.
      * cbn. unfold conn_left. rewrite W, T. cbn. rewrite M. destruct (expired s2); reflexivity.
    + apply (Fin [EContinue] (set_main s2 Stopping)); [| |reflexivity].
      * intros e [<-|[]]. left. exact Logic.I.
      * cbn. rewrite M, W. destruct (expired s2); reflexivity.
Qed.
Print Assumptions C91_shutdown_ends_partial.

(** A connection to an HTTP backend, from Accept to the HTTP server. *)
Definition arrives (i : nat) (m : mode) : list event :=
  [EAccept; EAdd i; EArm i; ELookup i m; EAnnotate i; EGate i; EServe i].

(** The state in which Shutdown sleeps although everything is closed. *)
Definition asleep : list event :=
  arrives 0 ModeHTTP ++ [EShutdown; ECheck; EClose 0; ERemove 0; EBroadcast 0; EWait; EReturn 0].

(** The last connection ends after Shutdown has looked at the list and before it waits.
    Its report is lost, and only the end of the grace period ends Shutdown. *)
Theorem C91_shutdown_waits_for_nothing_refuted :
  ~ (forall s, reachable s -> main s = Selecting -> expired s = false -> all_closed s -> tracked s = [] -> ~ stuck s).
Proof.
  intros H. destruct (run start asleep) as [s|] eqn:E; [|vm_compute in E; discriminate].
  assert (R : reachable s) by (exists asleep; exact E).
  vm_compute in E. injection E as E. subst s.
  refine (H _ R eq_refl eq_refl _ eq_refl _).
  - intros [|i] L; cbn in L; [|lia]. eexists. split; reflexivity.
  - intros e s'. destruct e as [|[|i]|[|i]|[|i] m|[|i]|[|i]|[|i]|[|i]|[|i]|[|i]|[|i]| | | | | | | | | |]; cbn;
      try discriminate; try (destruct i; discriminate); intros S; try injection S as <-; auto;
      unfold handler in S; cbn in S; destruct i; discriminate.
Qed.
Print Assumptions C91_shutdown_waits_for_nothing_refuted.

(** "waiting for all existing connections to close": tunnels are not waited for. *)
Theorem C91_tunnels_are_cut_refuted :
  ~ (forall s1 s1' tr s2 i m, reachable s1 -> step s1 EShutdown = Some s1' -> run s1' tr = Some s2 ->
     expired s2 = false -> gone_on s2 -> backend_mode s1 i m -> ~ open s2 i).
Proof.
  intros H. destruct (run start (arrives 0 ModeTCP)) as [s|] eqn:E; [|vm_compute in E; discriminate].
  assert (R : reachable s) by (exists (arrives 0 ModeTCP); exact E).
  vm_compute in E. injection E as E. subst s.
  refine (H _ _ [ECheck; EContinue] _ 0 ModeTCP R eq_refl eq_refl eq_refl _ _ _).
  - split; discriminate.
  - eexists. split; [reflexivity|]. split; reflexivity.
  - cbn. auto.
Qed.
Print Assumptions C91_tunnels_are_cut_refuted.

(** The other backends are not told: a connection that is being set up is given to them
    after Shutdown was called. *)
Theorem C91_no_new_connections_refuted :
  ~ (forall s1 s1' tr s2 i m, reachable s1 -> step s1 EShutdown = Some s1' -> run s1' tr = Some s2 ->
     served s2 i -> routed s2 i m -> routed s1 i m).
Proof.
  intros H. destruct (run start [EAccept]) as [s|] eqn:E; [|vm_compute in E; discriminate].
  assert (R : reachable s) by (eexists; exact E).
  vm_compute in E. injection E as E. subst s.
  refine (_ (H _ _ [EAdd 0; EArm 0; ELookup 0 ModeTCP; EAnnotate 0; EGate 0; EServe 0] _ 0 ModeTCP R eq_refl eq_refl _ _)).
  - intros (c & N & M). cbn in N. injection N as <-. discriminate.
  - eexists. split; reflexivity.
  - eexists. split; reflexivity.
Qed.
Print Assumptions C91_no_new_connections_refuted.

(** ... except by accident: a tunnel that is being set up when Shutdown looks is taken for
    something else, and then Shutdown waits until a connection is closed. *)
Theorem C91_waits_for_a_tunnel_refuted :
  exists s, reachable s /\ main s = Selecting /\ expired s = false /\ wait s = Waiting /\
    served s 0 /\ (forall i, open s i -> exists m, backend_mode s i m /\ tunnel m) /\
    forall tr s', Forall nothing_closes tr -> run s tr = Some s' -> main s' = Selecting.
Proof.
  destruct (run start ([EAccept; EAdd 0; EArm 0; ELookup 0 ModeTCP; EShutdown; ECheck; EWait; EAnnotate 0; EGate 0; EServe 0])) as [s|] eqn:E;
    [|vm_compute in E; discriminate].
  exists s. split; [eexists; exact E|]. vm_compute in E. injection E as E. subst s.
  split; [reflexivity|]. split; [reflexivity|]. split; [reflexivity|]. split; [eexists; split; reflexivity|].
  split.
  - cbn. intros i [<-|[]]. exists ModeTCP. split; [eexists; split; [reflexivity|split; reflexivity]|now left].
  - intros tr s' F R.
    match type of R with run ?s0 _ = _ => assert (Z : forall e s1, nothing_closes e -> step s0 e = Some s1 -> s1 = s0) end.
    { intros e s1 Ne. destruct e as [|[|i]|[|i]|[|i] m|[|i]|[|i]|[|i]|[|i]|[|i]|[|i]|[|i]| | | | | | | | | |]; cbn in Ne |- *;
        try contradiction; try discriminate; intros S; try injection S as <-; auto;
        try (unfold handler in S; cbn in S); destruct i; discriminate. }
    revert R. induction F as [|e tr Ne F IH]; intros R; cbn [run] in R.
    + now injection R as <-.
    + match type of R with match ?x with _ => _ end = _ => destruct x as [s1|] eqn:E1; [|discriminate R] end.
      apply Z in E1; [|exact Ne]. subst s1. now apply IH.
Qed.
Print Assumptions C91_waits_for_a_tunnel_refuted.

(** Two connections, one of them for HTTP; Shutdown waits for that one only, and Stop then
    closes the other, and one that was just accepted. *)
Definition b_orderly : list event :=
  arrives 0 ModeHTTPS ++ arrives 1 ModeTLS ++ [EAccept; EShutdown; ECheck; EWait; EClose 0; ERemove 0; EBroadcast 0].
Definition b_rest : list event :=
  [ECheck; EContinue; ECancel; EAdd 2; ESnapshot; EStopNext; EArm 2; EStopNext; EStopEnd; EReturn 2;
   ERemove 2; EBroadcast 2; ERemove 1; EBroadcast 1; EReturn 1; EReturn 0].
Example C91_example :
  (exists s, run start (arrives 0 ModeHTTPS ++ arrives 1 ModeTLS) = Some s /\
     backend_mode s 0 ModeHTTPS /\ ~ tunnel ModeHTTPS /\ served s 0 /\ open s 0 /\ open s 1) /\
  (exists s s', run start b_orderly = Some s /\ open s 1 /\ ~ open s 0 /\ main s = Selecting /\
     run s b_rest = Some s' /\ main s' = Stopped /\ settled s' /\ tracked s' = [] /\ expired s' = false).
Proof.
  split.
  - eexists. split; [vm_compute; reflexivity|]. split; [eexists; split; [reflexivity|split; reflexivity]|].
    split; [unfold tunnel; intuition discriminate|]. split; [eexists; split; reflexivity|]. cbn. auto.
  - eexists. eexists. split; [vm_compute; reflexivity|]. split; [cbn; auto|].
    split; [cbn; intros [Z|[]]; discriminate Z|]. split; [reflexivity|]. split; [vm_compute; reflexivity|].
    split; [reflexivity|]. split; [|split; reflexivity].
    intros [|[|[|i]]] c N; cbn in N; try (destruct i; discriminate); injection N as <-; cbn; (split; [auto|split; discriminate]).
Qed.

(** The hypotheses of the partial theorem are met. *)
Example C91_example_ends :
  exists s1 s1' s2, reachable s1 /\ step s1 EShutdown = Some s1' /\
    run s1' [ECheck; EWait; EReturn 0; ERemove 0; EBroadcast 0] = Some s2 /\ main s2 = Selecting /\
    no_report_missed s1' [ECheck; EWait; EReturn 0; ERemove 0; EBroadcast 0] /\ tracked s2 = [] /\ settled s2 /\ expired s2 = false.
Proof.
  eexists. eexists. eexists. split; [exists (arrives 0 ModeHTTP); vm_compute; reflexivity|].
  split; [reflexivity|]. split; [vm_compute; reflexivity|]. split; [reflexivity|].
  split; [|split; [reflexivity|split; [|reflexivity]]].
  - cbn. repeat split; try discriminate.
  - intros [|i] c N; cbn in N; [|destruct i; discriminate]. injection N as <-. cbn. split; [auto|split; discriminate].
Qed.
