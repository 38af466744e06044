(** Property C110: what the proxy opens it closes, over all of its life. *)
From Coq Require Import Lia.
From Verif Require Import Base LifeModel LifeSpec LifeProofs LifeProofs2.

(** Whatever is called, in whatever order, no channel is closed twice and nothing else panics,
    unless Stop or Shutdown is called for a proxy of which no Start has succeeded. *)
Theorem C110_only_panic : forall tr,
  run fresh tr = Panicked <->
  exists tr1 e tr2 p, tr = tr1 ++ e :: tr2 /\ reaches tr1 p /\ (e = EStop \/ e = EShutdown) /\ ~ started p.
Proof.
  intro tr. split.
  - intro R. destruct (panics tr fresh inv_fresh R) as (tr1 & e & tr2 & p & E & R1 & K & L).
    exists tr1, e, tr2, p. split; [exact E|]. split; [exact R1|]. split; [exact K|].
    intro ST. pose proof (inv_run _ _ _ inv_fresh R1) as V. apply (i_ctx _ V) in ST. congruence.
  - intros (tr1 & e & tr2 & p & -> & R & K & NS). rewrite run_app, R.
    assert (L : p_listener p = None).
    { destruct (p_listener p) eqn:L; [|reflexivity]. destruct NS. apply (i_ctx _ (inv_reaches _ _ R)). congruence. }
    destruct K as [-> | ->]; cbn; unfold stop, shutdown; rewrite L; reflexivity.
Qed.
Print Assumptions C110_only_panic.

(** While nobody ends the proxy, the backends in force have just the servers that the
    configuration says, for HTTP/1 and 2 and for HTTP/3, whatever was loaded before. *)
Theorem C110_in_force_runs : forall tr p c bs k x, reaches tr p -> existsb ends_it tr = false ->
  p_cfg p = Some (c, bs) -> nth_error (c_backends c) k = Some x ->
  exists b, nth_error bs k = Some b /\ (runs p b <-> b_http x = true) /\
            (advertises p b <-> b_http x = true /\ c_quic c = true /\ b_h3 x = true).
Proof.
  intros tr p c bs k x R N P E. pose proof (loaded_run _ _ _ inv_fresh loaded_fresh N R) as L.
  destruct (l_cfg _ L _ _ P _ _ E) as (b & s & B & S & H1 & H2 & _). exists b. split; [exact B|]. unfold runs, advertises. split.
  - split; [intros (s' & S' & K); congruence|]. intro K. exists s. split; [exact S|congruence].
  - split.
    + intros (s' & S' & K). assert (Q : b_http x && c_quic c && b_h3 x = true) by congruence.
      apply andb_true_iff in Q as [Q Q3]. apply andb_true_iff in Q as [Q1 Q2]. auto.
    + intros (Q1 & Q2 & Q3). exists s. split; [exact S|]. rewrite H2, Q1, Q2, Q3. reflexivity.
Qed.
Print Assumptions C110_in_force_runs.

(** A connection keeps the server of its backend as long as it is open: reloading and Shutdown
    do not take it away.  Only Stop does. *)
Theorem C110_in_flight : forall tr1 p1 tr2 p2 i b, reaches tr1 p1 -> run p1 tr2 = Went p2 ->
  existsb stops (tr1 ++ tr2) = false ->
  connected p1 i b -> runs p1 b -> connected p2 i b -> runs p2 b.
Proof.
  intros tr1 p1 tr2 p2 i b R1 R2 N C1 RU C2. rewrite existsb_app in N. apply orb_false_iff in N as [N1 N2].
  destruct (stopping_run _ fresh _ N1 eq_refl R1) as [S _].
  apply (keeps_server_run tr2 p1 p2 i b); auto; [eapply inv_reaches, R1|].
  destruct C1 as (n & E & _). eapply nth_lt, E.
Qed.
Print Assumptions C110_in_flight.

(** When a proxy was started once and stopped, and the calls of Stop have returned, it has no
    socket that accepts, and its master key is not in memory any more. *)
Theorem C110_sockets_closed : forall tr p, reaches tr p -> one_start tr -> started p -> existsb stops tr = true -> quiet p ->
  (forall k, ~ accepts p k) /\ p_key p = false.
Proof.
  intros tr p R O ST SP Q. split.
  - intros k (s & I & _ & E). rewrite (sockets_reaches _ _ R O ST SP Q s I) in E. discriminate E.
  - eapply key_gone; [exact R|]. auto.
Qed.
Print Assumptions C110_sockets_closed.

(** After that, no server of a backend that was ever in force runs, if no configuration is
    loaded after Stop and the connections are gone. *)
Theorem C110_servers_closed : forall tr p b, reaches tr p -> in_force p = [] -> stopping p = [] ->
  (forall i, ~ connected p i b) -> was_in_force p b -> ~ runs p b.
Proof.
  intros tr p b R F S NC (s & E & K) (s' & E' & H). assert (s' = s) by congruence. subst s'.
  pose proof (inv_reaches _ _ R) as V. destruct (i_open _ V _ _ E H K) as [I|[I|[_ I]]].
  - rewrite F in I. destruct I.
  - rewrite S in I. destruct I.
  - rewrite (i_flight _ V _ _ E) in I. unfold open_for in I.
    rewrite filter_none in I; [cbn in I; lia|]. intros n J. apply In_nth_error in J as [i J].
    destruct (n_open n) eqn:O; [|reflexivity]. cbn. apply Nat.eqb_neq. intro B. apply (NC i). exists n. auto.
Qed.
Print Assumptions C110_servers_closed.
(** The same for a backend of an earlier configuration, while the proxy runs: its server goes
    away with its last connection. *)
Theorem C110_retired : forall tr p b, reaches tr p -> existsb stops tr = false -> ~ In b (in_force p) ->
  (forall i, ~ connected p i b) -> was_in_force p b -> ~ runs p b.
Proof.
  intros tr p b R N F NC (s & E & K) (s' & E' & H). assert (s' = s) by congruence. subst s'.
  destruct (stopping_run _ fresh _ N eq_refl R) as [S _].
  pose proof (inv_reaches _ _ R) as V. destruct (i_open _ V _ _ E H K) as [I|[I|[_ I]]].
  - contradiction.
  - rewrite S in I. destruct I.
  - rewrite (i_flight _ V _ _ E) in I. unfold open_for in I.
    rewrite filter_none in I; [cbn in I; lia|]. intros n J. apply In_nth_error in J as [i J].
    destruct (n_open n) eqn:O; [|reflexivity]. cbn. apply Nat.eqb_neq. intro B. apply (NC i). exists n. auto.
Qed.
Print Assumptions C110_retired.

(** Calling Stop again is harmless. *)
Theorem C110_stop_again : forall tr p, reaches tr p -> one_start tr -> started p -> existsb stops tr = true -> quiet p ->
  in_force p = [] -> (forall i b, ~ connected p i b) ->
  exists l, step p EStop = Went (with_conns p l) /\ forall i b, ~ connected (with_conns p l) i b.
Proof.
  intros tr p R O ST SP Q F NC. pose proof (sockets_run _ _ _ _ _ inv_fresh sockets_fresh R) as (_ & _ & W).
  destruct (W O ST) as (x & l & A1 & A2 & A3 & A4 & _). cbn [step]. apply stop_again; auto.
  - eapply inv_reaches, R.
  - exists x. split; [exact A1|]. apply A4. exact SP.
  - apply (sockets_reaches _ _ R O ST SP Q).
  - eapply key_gone; [exact R|]. auto.
  - apply Q.
  - apply Q.
Qed.
Print Assumptions C110_stop_again.

(** Start: on success all that the configuration asks for is open; in any case no server of a
    backend is changed. *)
Theorem C110_start : forall tr p a p' ok c bs, reaches tr p -> p_cfg p = Some (c, bs) -> start p a = Some (p', ok) ->
  servers p' = servers p /\ p_cfg p' = p_cfg p /\
  (ok = true -> started p' /\ accepts p' Tls /\ (c_quic c = true -> accepts p' Udp) /\ (c_web c <> None -> accepts p' Web)) /\
  (ok = false -> p_ctx p' = p_ctx p).
Proof.
  intros tr p a p' ok c bs R C S. pose proof (start_frame _ _ _ _ S) as (A1 & _ & A3 & _ & _ & _ & _ & B0 & B1).
  split; [exact A1|]. split; [exact A3|]. split; [|intro E; apply B0, E]. intros ->.
  destruct (start_spec _ _ _ _ _ _ C S) as (lw & lq & lt & SO & _ & T). destruct (T eq_refl) as (Ew & Eq & Et & _).
  split; [destruct (B1 eq_refl) as (E & _); unfold started; rewrite E; discriminate|]. unfold accepts. rewrite SO. split; [|split].
  - exists {| so_kind := Tls; so_addr := c_tls c; so_open := true |}. rewrite Et, !in_app_iff. cbn. auto 8.
  - intro Q. rewrite Q in Eq. exists {| so_kind := Udp; so_addr := c_tls c; so_open := true |}. rewrite Eq, !in_app_iff. cbn. auto 8.
  - intro W. destruct (c_web c) as [w|]; [|congruence]. exists {| so_kind := Web; so_addr := w; so_open := true |}.
    rewrite Ew, !in_app_iff. cbn. auto 8.
Qed.
Print Assumptions C110_start.

(** Reloading opens and closes no socket. *)
Theorem C110_reload_sockets : forall p c fail p', step p (EReconfigure c fail) = Went p' -> socks p' = socks p.
Proof. intros p c fail p' R. apply reconfigure_frame in R. apply R. Qed.
Print Assumptions C110_reload_sockets.

(** If the setting for QUIC is never changed, a backend that tells clients to use HTTP/3 can be
    reached that way. *)
Theorem C110_alt_svc_partial : forall q tr p b, reaches tr p -> existsb ends_it tr = false -> Forall (same_quic q) tr ->
  started p -> In b (in_force p) -> advertises p b -> accepts p Udp.
Proof.
  intros q tr p b R N F ST I (s & E & A). pose proof (loaded_run _ _ _ inv_fresh loaded_fresh N R) as L.
  pose proof (quic_run q _ _ _ inv_fresh loaded_fresh (quic_fresh q) N F R) as W.
  unfold in_force in I. destruct (p_cfg p) as [[c bs]|] eqn:C; [|destruct I].
  apply In_nth_error in I as [k I]. pose proof (i_cfg _ (inv_reaches _ _ R) _ _ C) as LB.
  assert (X : exists x, nth_error (c_backends c) k = Some x).
  { destruct (nth_error (c_backends c) k) eqn:X; [eauto|]. apply nth_error_None in X. apply nth_lt in I. lia. }
  destruct X as [x X]. destruct (l_cfg _ L _ _ C _ _ X) as (b' & s' & B & S & _ & H2 & _).
  assert (b' = b) by congruence. subst b'. assert (s' = s) by congruence. subst s'. rewrite A in H2. symmetry in H2.
  apply andb_true_iff in H2 as [H2 _]. apply andb_true_iff in H2 as [_ Q]. rewrite (q_cfg _ _ W _ _ C) in Q.
  destruct (q_udp _ _ W ST Q) as (i & so & P1 & P2 & P3 & P4). exists so. split; [eapply nth_error_In, P2|auto].
Qed.
Print Assumptions C110_alt_svc_partial.

(** ** Examples and findings *)

Definition web_be : backend := {| b_http := true; b_h3 := true |}.
Definition raw_be : backend := {| b_http := false; b_h3 := false |}.
Definition cfg1 (quic : bool) (n : nat) : config :=
  {| c_web := Some 8; c_tls := 4; c_quic := quic; c_backends := [web_be; raw_be]; c_rest := n |}.
Definition yes : answers := {| a_web := true; a_udp := true; a_quic := true; a_tls := true |}.
Definition after (tr : list event) : proxy := match run fresh tr with Went p => p | _ => fresh end.

(** A life with a reload while a connection is in flight, and an orderly end. *)
Definition a_life : list event :=
  [EReconfigure (cfg1 true 1) None; EStart yes; EArrive 0 false; EReconfigure (cfg1 true 2) None; EArrive 2 true;
   EEnd 0; EShutdown; EStop; ECloseBackend 2; ECloseBackend 3; ECloseConn 1; ECtxWait 0].
Example ex_life :
  reaches a_life (after a_life) /\ one_start a_life /\ started (after a_life) /\ existsb stops a_life = true /\ quiet (after a_life) /\
  in_force (after a_life) = [] /\ was_in_force (after a_life) 0 /\ was_in_force (after a_life) 2 /\ (forall i b, ~ connected (after a_life) i b).
Proof.
  split; [vm_compute; reflexivity|]. split; [unfold one_start; cbn; lia|]. split; [unfold started; vm_compute; discriminate|].
  split; [reflexivity|]. split.
  { split; [reflexivity|]. split; [reflexivity|]. intros [|[|x]] c; vm_compute; [intros [= <-]; auto|discriminate|discriminate]. }
  split; [reflexivity|]. split; [eexists; split; vm_compute; reflexivity|]. split; [eexists; split; vm_compute; reflexivity|].
  intros i b (n & N & O & _). vm_compute in N. destruct i as [|[|[|i]]]; vm_compute in N; try discriminate N; injection N as <-; discriminate O.
Qed.
Example ex_in_flight :
  let tr1 := firstn 3 a_life in let tr2 := [EReconfigure (cfg1 true 2) None; EShutdown] in
  existsb stops (tr1 ++ tr2) = false /\ connected (after tr1) 0 0 /\ runs (after tr1) 0 /\
  connected (after (tr1 ++ tr2)) 0 0 /\ runs (after (tr1 ++ tr2)) 0 /\
  ~ runs (after (tr1 ++ tr2 ++ [EEnd 0])) 0 /\ ~ runs (after (tr1 ++ tr2 ++ [EEnd 0])) 2.
Proof.
  cbn zeta. split; [reflexivity|]. split; [eexists; vm_compute; auto|]. split; [eexists; vm_compute; auto|].
  split; [eexists; vm_compute; auto|]. split; [eexists; vm_compute; auto|].
  split; intros (s & E & H); vm_compute in E; injection E as <-; discriminate H.
Qed.
Example ex_alt_svc :
  let tr := firstn 4 a_life in
  reaches tr (after tr) /\ existsb ends_it tr = false /\ Forall (same_quic true) tr /\ In 2 (in_force (after tr)) /\ advertises (after tr) 2 /\ accepts (after tr) Udp.
Proof.
  cbn zeta. split; [vm_compute; reflexivity|]. split; [reflexivity|]. split; [repeat constructor|]. split; [vm_compute; auto|].
  split; [eexists; vm_compute; auto|]. exists {| so_kind := Udp; so_addr := 4; so_open := true |}. vm_compute. auto.
Qed.

(** FINDING: Stop and Shutdown panic if Start has not been called, or has failed. *)
Theorem C110_not_started_refuted :
  run fresh [EReconfigure (cfg1 true 1) None; EStop] = Panicked /\
  run fresh [EReconfigure (cfg1 true 1) None; EStart {| a_web := true; a_udp := true; a_quic := true; a_tls := false |}; EShutdown] = Panicked.
Proof. split; vm_compute; reflexivity. Qed.
Print Assumptions C110_not_started_refuted.

(** FINDING: a Start that fails leaves open what it has opened, which nothing closes, and so
    each further call of Start fails too. *)
Theorem C110_failed_start_refuted : exists p,
  reaches [EReconfigure (cfg1 true 1) None; EStart {| a_web := true; a_udp := true; a_quic := true; a_tls := false |}] p /\
  ~ started p /\ accepts p Web /\ accepts p Udp /\ forall a, start p a = Some (p, false).
Proof.
  eexists. split; [vm_compute; reflexivity|]. split; [intro H; apply H; reflexivity|].
  split; [exists {| so_kind := Web; so_addr := 8; so_open := true |}; vm_compute; auto|].
  split; [exists {| so_kind := Udp; so_addr := 4; so_open := true |}; vm_compute; auto|].
  intros [[|] u k t]; vm_compute; reflexivity.
Qed.
Print Assumptions C110_failed_start_refuted.

(** FINDING: a configuration that is loaded after Stop has servers that run on. *)
Theorem C110_reload_after_stop_refuted :
  let tr := a_life ++ [EReconfigure (cfg1 true 2) None] in
  quiet (after tr) /\ existsb stops tr = true /\ runs (after tr) 4 /\ was_in_force (after tr) 4.
Proof.
  cbn zeta. split.
  { split; [reflexivity|]. split; [reflexivity|]. intros [|[|x]] c; vm_compute; [intros [= <-]; auto|discriminate|discriminate]. }
  split; [reflexivity|]. split; eexists; split; vm_compute; reflexivity.
Qed.
Print Assumptions C110_reload_after_stop_refuted.

(** FINDING: a proxy that was stopped can be started again without an error; it finds its
    backends, but their servers are gone (what is sent to them panics, C12). *)
Theorem C110_restart_refuted : exists p p',
  reaches [EReconfigure (cfg1 true 1) None; EStart yes; EStop; ECloseBackend 0; ECloseBackend 1; ECtxWait 0] p /\ start p yes = Some (p', true) /\ started p' /\ accepts p' Tls /\
  (exists p2, step p' (EArrive 0 false) = Went p2) /\ was_in_force p' 0 /\ ~ runs p' 0 /\ p_key p' = false.
Proof.
  eexists _, _. split; [vm_compute; reflexivity|]. split; [vm_compute; reflexivity|]. split; [discriminate|].
  split; [exists {| so_kind := Tls; so_addr := 4; so_open := true |}; vm_compute; auto 12|].
  split; [eexists; vm_compute; reflexivity|]. split; [eexists; vm_compute; auto|].
  split; [|reflexivity]. intros (s & E & H). vm_compute in E. injection E as <-. discriminate H.
Qed.
Print Assumptions C110_restart_refuted.

(** FINDING: QUIC that is switched on by a reload is advertised in responses, but nothing
    listens; QUIC that is switched off is still accepted. *)
Theorem C110_alt_svc_refuted :
  (let tr := [EReconfigure (cfg1 false 1) None; EStart yes; EReconfigure (cfg1 true 2) None] in
   reaches tr (after tr) /\ In 2 (in_force (after tr)) /\ advertises (after tr) 2 /\ ~ accepts (after tr) Udp) /\
  (let tr := [EReconfigure (cfg1 true 1) None; EStart yes; EReconfigure (cfg1 false 2) None] in
   reaches tr (after tr) /\ (forall b, In b (in_force (after tr)) -> ~ runs_h3 (after tr) b) /\ accepts (after tr) Udp).
Proof.
  cbn zeta. split.
  - split; [vm_compute; reflexivity|]. split; [vm_compute; auto|]. split; [eexists; vm_compute; auto|].
    intros (s & I & K & _).
    assert (X : map so_kind (socks (after [EReconfigure (cfg1 false 1) None; EStart yes; EReconfigure (cfg1 true 2) None])) = [Web; Tls])
      by (vm_compute; reflexivity).
    apply (in_map so_kind) in I. rewrite X, K in I. destruct I as [I|[I|[]]]; discriminate I.
  - split; [vm_compute; reflexivity|]. split.
    + intros b I (s & E & H).
      assert (X : map s_h3_open (servers (after [EReconfigure (cfg1 true 1) None; EStart yes; EReconfigure (cfg1 false 2) None]))
                  = [false; false; false; false]) by (vm_compute; reflexivity).
      apply (map_nth_error s_h3_open) in E. rewrite X, H in E. do 4 (destruct b as [|b]; [discriminate E|]). destruct b; discriminate E.
    + exists {| so_kind := Udp; so_addr := 4; so_open := true |}. vm_compute. auto.
Qed.
Print Assumptions C110_alt_svc_refuted.

(** FINDING: Shutdown cuts requests over HTTP/3 at once; those over TCP it leaves alone. *)
Theorem C110_shutdown_h3_refuted : forall tr p p' i n, reaches tr p -> p_quic p <> None -> step p EShutdown = Went p' ->
  nth_error (conns p) i = Some n -> n_open n = true ->
  (n_quic n = true -> ~ alive p' i) /\ (n_quic n = false -> n_cut n = false -> alive p' i).
Proof.
  intros tr p p' i n R Q S E O. cbn [step] in S. unfold shutdown in S. destruct (p_listener p) as [l|]; [|discriminate S].
  destruct (close_all _ _ _) as [sv|]; [|discriminate S]. injection S as <-. unfold alive. cbn [with_conns conns].
  rewrite nth_cut, E. destruct (p_quic p) as [k|]; [|congruence]. cbn. split; intro H; rewrite H.
  - intros (m & [= <-] & _ & X). discriminate X.
  - intro X. exists n. auto.
Qed.
Print Assumptions C110_shutdown_h3_refuted.
Example ex_shutdown_h3 : let tr := firstn 5 a_life in
  reaches tr (after tr) /\ p_quic (after tr) <> None /\ (exists p', step (after tr) EShutdown = Went p') /\
  alive (after tr) 0 /\ alive (after tr) 1 /\ option_map n_quic (nth_error (conns (after tr)) 0) = Some false /\
  option_map n_quic (nth_error (conns (after tr)) 1) = Some true.
Proof.
  cbn zeta. split; [vm_compute; reflexivity|]. split; [vm_compute; discriminate|]. split; [eexists; vm_compute; reflexivity|].
  split; [eexists; vm_compute; auto|]. split; [eexists; vm_compute; auto|]. split; vm_compute; reflexivity.
Qed.

(** FINDING: the HTTP/3 server of a backend is not closed if the backend had a connection
    when it was taken out of force. *)
Theorem C110_h3_refuted :
  let tr := [EReconfigure (cfg1 true 1) None; EStart yes; EArrive 0 true; EReconfigure (cfg1 true 2) None; EEnd 0; EStop;
             ECloseBackend 2; ECloseBackend 3; ECtxWait 0] in
  reaches tr (after tr) /\ quiet (after tr) /\ (forall i b, ~ connected (after tr) i b) /\
  ~ runs (after tr) 0 /\ runs_h3 (after tr) 0 /\ ~ runs_h3 (after tr) 2.
Proof.
  cbn zeta. split; [vm_compute; reflexivity|]. split.
  { split; [reflexivity|]. split; [reflexivity|]. intros [|[|x]] c; vm_compute; [intros [= <-]; auto|discriminate|discriminate]. }
  split. { intros i b (n & N & O & _). vm_compute in N. destruct i as [|[|i]]; vm_compute in N; try discriminate N. injection N as <-. discriminate O. }
  split; [intros (s & E & H); vm_compute in E; injection E as <-; discriminate H|].
  split; [eexists; vm_compute; auto|]. intros (s & E & H). vm_compute in E. injection E as <-. discriminate H.
Qed.
Print Assumptions C110_h3_refuted.
(** Only then: an HTTP/3 server that is left belongs to a backend that still has its server or
    was shut down that way. *)
Theorem C110_h3_partial : forall tr p b s, reaches tr p -> nth_error (servers p) b = Some s -> s_h3_open s = true ->
  s_chan s = true \/ s_shut s = true.
Proof.
  intros tr p b s R E H. pose proof (i_sound _ (inv_reaches _ _ R)) as F. rewrite Forall_forall in F.
  destruct (F s) as (_ & _ & K); [eapply nth_error_In, E|]. auto.
Qed.
Print Assumptions C110_h3_partial.
