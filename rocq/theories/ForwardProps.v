(** C94: the forward rate limit. *)
From Coq Require Import ZArith List Bool Lia.
From Verif Require Import LimitModel LimitSpec LimitProofs ForwardModel ForwardSpec ForwardProofs.
Import ListNotations.
Local Open Scope Z_scope.

(** Connections that are forwarded as a whole keep to the limit in every interval, and
    one nanosecond of rounding, besides those that were let pass before it began.
    Missing: HTTP requests and streams (C94_requests_refuted, C94_streams_refuted), and
    clients that leave while they wait (the library gives back too much,
    C93_giving_up_refuted). *)
Theorem C94_connections_partial : forall r t1 t2 h1 s1 out1 h2 s2 out2,
  0 < r -> served r t1 h1 s1 out1 -> then_served s1 t1 t2 h2 s2 out2 ->
  all_wait out1 -> all_wait out2 ->
  at_rate r (t2 - t1 + 1) (forwarded connections out2 - ready s1 t1).
Proof.
  intros r t1 t2 h1 s1 out1 h2 s2 out2 Hr A [B0 [B1 [B2 B3]]] P1 P2.
  destruct (served_inv r t1 h1 s1 out1 Hr A P1) as [J Kd].
  destruct (gate_run h2 _ _ _ B3 Kd) as [gh [gout [G1 [G2 [G3 [G4 [G5 _]]]]]]].
  pose proof (acct_run r r t1 t2 (prepaid (gate s1) t1) nq gh 0 t1 (gate s1) (gate s2) gout Hr (Z.le_refl _) J
    (acct_start r r t1 t2 (gate s1) Hr B0 J) (G2 t1 B1) (G3 t2 B2) G1 (G4 P2)) as K.
  unfold at_rate, ready. unfold giga in K. lia.
Qed.
Print Assumptions C94_connections_partial.

(** Together with the requests of HTTP/3 they keep to the limit since the backend was
    set up.  Missing: requests of one connection that are looked at at the same time
    (C94_http3_refuted). *)
Theorem C94_http3_partial : forall r t h s out,
  0 < r -> served r t h s out -> all_wait out -> one_at_a_time (new_backend r) h ->
  at_rate r (t + 1) (forwarded connections_and_h3 out).
Proof.
  intros r t h s out Hr [A0 [A1 [A2 A3]]] P On.
  destruct (gate_run h _ _ _ A3 (proj1 (new_kinds r))) as [gh [gout [G1 [G2 [G3 [G4 [_ G6]]]]]]].
  rewrite new_gate in G1 by exact Hr.
  pose proof (inv_start r r Hr ltac:(lia)) as J.
  pose proof (acct_run r r 0 t _ nq gh 0 0 _ _ _ Hr (Z.le_refl _) J (acct_start r r 0 t _ Hr A0 J)
    (G2 0 A1) (G3 t A2) G1 (G4 P)) as K.
  specialize (G6 (proj2 (new_kinds r)) On). cbn [new_backend conns credit] in G6.
  pose proof (credit_nonneg (conns s)). unfold at_rate. unfold giga, prepaid in K. cbn in K. lia.
Qed.
Print Assumptions C94_http3_partial.

(** A connection is never turned away by the limit, waits no longer than the limit
    needs for those before it, and goes on when its time has come. *)
Theorem C94_only_delays : forall r t h s out k,
  0 < r -> served r t h s out -> all_wait out -> k <> StreamHttp ->
  exists s' act, fstep s t (Arrive k) = Some (s', Waits act) /\
    t <= act /\ (act - t) * r <= (in_queue s t + 1) * 1000000000 + r /\
    (k = Tunnel \/ k = QuicTunnel -> forall u, act <= u ->
     exists s'', fstep s' u (Pass (List.length (jobs s))) = Some (s'', Forwarded k)).
Proof.
  intros r t h s out k Hr A P K. destruct (served_inv r t h s out Hr A P) as [J Kd].
  destruct A as [A0 [A1 [A2 A3]]].
  assert (D : ids s) by (apply (ids_run h _ _ _ A3); split; constructor).
  destruct (ids_free s D) as [F N].
  destruct (call_let r r t (gate s) nq (List.length (jobs s)) 1 Hr J ltac:(lia) F N) as [g [act [St [L1 L2]]]].
  assert (Pt : forall w k0, find_waiter (List.length (jobs s)) (waiting g) = Some w -> wSize w = 1 -> wAct w = act ->
    k0 = Tunnel \/ k0 = QuicTunnel -> forall u, act <= u -> exists s'',
    fstep {| gate := g; conns := conns s ++ [{| cKind := k0; cIn := false; cFlag := false; cLook := 0 |}];
             jobs := jobs s ++ [JConn (List.length (conns s))] |} u (Pass (List.length (jobs s))) = Some (s'', Forwarded k0)).
  { intros w k0 Fw Sz At K0 u Hu. cbn [fstep]. unfold ask. cbn [gate step]. rewrite Fw, Sz, At.
    replace (act <=? u) with true by (symmetry; apply Z.leb_le; exact Hu). cbn [andb Z.leb Z.compare].
    cbn [jobs conns]. rewrite nth_error_app2, Nat.sub_diag by lia. cbn [nth_error].
    rewrite nth_error_app2, Nat.sub_diag by lia. cbn [nth_error cKind].
    destruct K0 as [-> | ->]; eexists; reflexivity. }
  assert (Fg : find_waiter (List.length (jobs s)) (waiting g) = Some {| wConn := List.length (jobs s); wSize := 1; wAct := act |}).
  { clear Pt. cbn [step] in St. rewrite F in St. change (1 <? 0) with false in St. cbv iota in St.
    destruct (burst (lim (gate s)) <? 1); [discriminate|].
    destruct (existsb (Nat.eqb (List.length (jobs s))) (done (gate s))); [discriminate|].
    destruct (reserve (lim (gate s)) t 1) as [[l a]|]; [|discriminate]. injection St as <- <-.
    cbn [waiting find_waiter wConn]. rewrite Nat.eqb_refl. reflexivity. }
  cbn [fstep]. unfold ask. fold nq. rewrite St. unfold in_queue. unfold giga in L2.
  destruct k; try (eexists; exists act; split; [reflexivity|]; split; [exact L1|]; split; [exact L2|];
    apply (Pt _ _ Fg eq_refl eq_refl)).
  destruct (K eq_refl).
Qed.
Print Assumptions C94_only_delays.

(** Without the setting the limit is five per second. *)
Theorem C94_default_limit : forall t h s out, served 0 t h s out <-> served 5 t h s out.
Proof. intros t h s out. reflexivity. Qed.
Print Assumptions C94_default_limit.

(** The requests of HTTP/1 and HTTP/2 connections are not limited at all: one
    connection forwards any number of them at one moment. *)
Theorem C94_requests_refuted : forall r bound, 0 < r ->
  exists h1 s1 out1 n s2 out2,
    served r 0 ([(0, Arrive Https)] ++ h1) s1 out1 /\
    List.length (conns s1) = 1%nat /\
    then_served s1 0 0 (repeat (0, Req 0) n) s2 out2 /\
    all_wait out1 /\ all_wait out2 /\ bound < forwarded anything out2.
Proof.
  intros r bound Hr. destruct (open_run r Https Hr ltac:(discriminate)) as [g [x [O X]]].
  set (n := Z.to_nat (Z.max 0 bound + 1)).
  exists [(0, Pass 0)], (opened g Https false 0), [(0, Waits 0); (0, x)], n,
    (opened g Https false 0), (repeat (0, Forwarded Https) n).
  destruct (repeat_times (Req 0) n) as [T1 T2].
  split. { split; [lia|]. split; [cbn; lia|]. split; [repeat constructor; cbn; lia|exact O]. }
  split; [reflexivity|].
  split. { split; [lia|]. split; [exact T1|]. split; [exact T2|]. apply again_run. reflexivity. }
  split. { constructor; [discriminate|]. constructor; [exact X|constructor]. }
  split; [apply again_wait|]. rewrite again_count. unfold n. lia.
Qed.
Print Assumptions C94_requests_refuted.

(** Nor are the streams of a QUIC connection to a backend in mode TCP or TLS, each of
    which opens a connection to the backend. *)
Theorem C94_streams_refuted : forall r bound, 0 < r ->
  exists h1 s1 out1 n s2 out2,
    served r 0 ([(0, Arrive QuicStreams)] ++ h1) s1 out1 /\
    List.length (conns s1) = 1%nat /\
    then_served s1 0 0 (repeat (0, Stream 0) n) s2 out2 /\
    all_wait out1 /\ all_wait out2 /\ bound < forwarded anything out2.
Proof.
  intros r bound Hr. destruct (open_run r QuicStreams Hr ltac:(discriminate)) as [g [x [O X]]].
  set (n := Z.to_nat (Z.max 0 bound + 1)).
  exists [(0, Pass 0)], (opened g QuicStreams false 0), [(0, Waits 0); (0, x)], n,
    (opened g QuicStreams false 0), (repeat (0, Forwarded QuicStreams) n).
  destruct (repeat_times (Stream 0) n) as [T1 T2].
  split. { split; [lia|]. split; [cbn; lia|]. split; [repeat constructor; cbn; lia|exact O]. }
  split; [reflexivity|].
  split. { split; [lia|]. split; [exact T1|]. split; [exact T2|]. apply again_run. reflexivity. }
  split. { constructor; [discriminate|]. constructor; [exact X|constructor]. }
  split; [apply again_wait|]. rewrite again_count. unfold n. lia.
Qed.
Print Assumptions C94_streams_refuted.

(** On one HTTP/3 connection, any number of requests that come together all take
    themselves for the first. *)
Theorem C94_http3_refuted : forall r bound, 0 < r ->
  exists h1 s1 out1 n s2 out2,
    served r 0 ([(0, Arrive H3)] ++ h1) s1 out1 /\
    List.length (conns s1) = 1%nat /\
    then_served s1 0 0 (repeat (0, Req 0) n ++ repeat (0, Mark 0) n) s2 out2 /\
    all_wait out1 /\ all_wait out2 /\ bound < forwarded anything out2.
Proof.
  intros r bound Hr. destruct (open_run r H3 Hr ltac:(discriminate)) as [g [x [O X]]].
  set (n := Z.to_nat (Z.max 0 bound + 1)).
  exists [(0, Pass 0)], (opened g H3 false 0), [(0, Waits 0); (0, x)], n. eexists.
  exists (repeat (0, Nothing) n ++ repeat (0, Forwarded H3) n).
  split. { split; [lia|]. split; [cbn; lia|]. split; [repeat constructor; cbn; lia|exact O]. }
  split; [reflexivity|].
  split. { split; [lia|]. rewrite !repeat_map, <- map_app.
           destruct (zero_times (repeat (Req 0) n ++ repeat (Mark 0) n)) as [T1 T2].
           split; [exact T1|]. split; [exact T2|]. rewrite map_app, <- !repeat_map.
           eapply frun_app; [apply look_run|]. rewrite Nat.add_0_r. apply mark_run. }
  split. { constructor; [discriminate|]. constructor; [exact X|constructor]. }
  split. { apply Forall_app. split; [|apply again_wait].
           clear. induction n as [|n IH]; constructor; [discriminate|exact IH]. }
  rewrite forwarded_app, again_count.
  assert (Z0 : forall m, forwarded anything (repeat (0, Nothing) m) = 0).
  { intros m. induction m as [|m IH]; [reflexivity|]. cbn [repeat]. rewrite forwarded_cons, IH. reflexivity. }
  rewrite Z0. unfold n. lia.
Qed.
Print Assumptions C94_http3_refuted.

(** Each stream of a QUIC connection to a backend in mode HTTP is served like a connection:
    its first request is forwarded without asking the limiter, so that a client that opens a
    stream for each request never waits; only the next ones of the stream do. *)
Theorem C94_http_streams_refuted : forall s t c x, nth_error (conns s) c = Some x -> cKind x = QuicHttp -> cIn x = true ->
  exists s1, let c1 := List.length (conns s) in
    frun s [(t, Stream c); (t, Req c1); (t, Mark c1)] = Some (s1, [(t, Nothing); (t, Nothing); (t, Forwarded StreamHttp)]) /\
    gate s1 = gate s /\ jobs s1 = jobs s /\ (forall s2 k, fstep s1 t (Req c1) <> Some (s2, Forwarded k)).
Proof.
  intros s t c x N K I. cbv zeta. set (c1 := List.length (conns s)).
  assert (L : forall y, nth_error (conns s ++ [y]) c1 = Some y) by (intros y; rewrite nth_error_app2 by apply Nat.le_refl; unfold c1; rewrite Nat.sub_diag; reflexivity).
  assert (F : forall y z, firstn c1 (conns s ++ [y]) ++ z :: skipn (S c1) (conns s ++ [y]) = conns s ++ [z]).
  { intros y z. unfold c1. rewrite firstn_app, Nat.sub_diag, firstn_all, app_nil_r. rewrite skipn_all2 by (rewrite app_length; cbn; lia). reflexivity. }
  eexists. split; [|split; [|split]].
  - cbn [frun fstep]. rewrite N, I, K. cbn [negb]. cbn [conns]. rewrite L. cbn [cIn cKind cFlag cLook negb annotated]. unfold set_conn. cbn [conns gate jobs].
    rewrite F, L. cbn [cLook cKind cIn]. rewrite F. reflexivity.
  - reflexivity.
  - reflexivity.
  - intros s2 k. cbn [fstep conns]. rewrite L. cbn [cIn cKind cFlag negb annotated]. destruct (ask _ _ _) as [[g []]|]; discriminate.
Qed.
Print Assumptions C94_http_streams_refuted.
Example C94_http_streams_example : exists s out x, served 5 0 [(0, Arrive QuicHttp); (0, Pass 0)] s out /\
  nth_error (conns s) 0 = Some x /\ cKind x = QuicHttp /\ cIn x = true.
Proof.
  eexists. eexists. eexists. split; [split; [lia|]; split; [cbn; lia|]; split; [repeat constructor; cbn; lia|]; vm_compute; reflexivity|].
  split; [reflexivity|]. split; reflexivity.
Qed.

(** A case that meets the hypotheses of the positive theorems, with the default limit:
    six tunnels and an HTTP/3 connection; the sixth tunnel waits 0.2 seconds and the
    connection 0.4 seconds; the second request of the connection waits again. *)
Example C94_example :
  let h1 := map (fun j => (0, j)) (repeat (Arrive Tunnel) 6 ++ [Arrive H3] ++ map Pass [0; 1; 2; 3; 4]%nat) in
  let h2 := [(200000000, Pass 5); (400000000, Pass 6); (400000001, Req 6); (400000001, Mark 6);
             (400000002, Req 6); (600000000, Pass 7)] in
  exists s1 out1 s2 out2,
    served 5 0 h1 s1 out1 /\ then_served s1 0 600000000 h2 s2 out2 /\
    all_wait out1 /\ all_wait out2 /\ one_at_a_time (new_backend 5) (h1 ++ h2) /\
    forwarded connections out1 = 5 /\ forwarded connections_and_h3 out2 = 3 /\
    in_queue s1 0 = 2 /\ new_backend 0 = new_backend 5.
Proof.
  intros h1 h2.
  destruct (frun (new_backend 5) h1) as [[s1 out1]|] eqn:E1; [|vm_compute in E1; discriminate].
  destruct (frun s1 h2) as [[s2 out2]|] eqn:E2.
  2:{ vm_compute in E1. injection E1 as <- <-. vm_compute in E2. discriminate. }
  exists s1, out1, s2, out2.
  split. { split; [lia|]. split; [cbn; lia|]. split; [repeat constructor; cbn; lia|exact E1]. }
  split. { split; [lia|]. split; [cbn; lia|]. split; [repeat constructor; cbn; lia|exact E2]. }
  vm_compute in E1. injection E1 as <- <-. vm_compute in E2. injection E2 as <- <-.
  split; [repeat constructor; discriminate|]. split; [repeat constructor; discriminate|].
  split. { vm_compute. repeat (split; [repeat constructor|]). exact I. }
  split; [reflexivity|]. split; [reflexivity|]. split; reflexivity.
Qed.
