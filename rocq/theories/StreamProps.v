(** C101: a QUIC stream that is forwarded to a backend in mode TCP or TLS. *)
From Verif Require Import Base StreamModel StreamSpec StreamProofs StreamProofs2 StreamProofs3.

(** [run sc cc (init u) tr = Some s]: s is reached, for a stream that the client opened (as
    unidirectional, if u), by the history tr of actions of the client, the backend and the clock,
    and of steps of the proxy, in any order.  [sc], [cc]: the values of serverCloseEndsConnection
    and clientCloseEndsConnection. *)

(** C101.  At any moment, what the backend has received is a prefix of what the client has sent, and
    the other way round. *)
Theorem C101_delivered_is_prefix : forall sc cc u tr s, run sc cc (init u) tr = Some s ->
  prefix (bgot (be s)) (sent (cl s)) /\ prefix (got (cl s)) (bsent (be s)).
Proof. intros sc cc u tr s H. destruct (reach_ok _ _ _ _ _ H) as (A & B & _). split; [exact (up_prefix s A)|exact (down_prefix s B)]. Qed.
Print Assumptions C101_delivered_is_prefix.

(** C101.  The backend is told that no more data will come (half-close) only after the client has
    ended the stream and everything that it sent has been delivered. *)
Theorem C101_backend_told : forall sc cc u tr s, run sc cc (init u) tr = Some s ->
  bended (be s) = true -> fin (cl s) = true /\ bgot (be s) = sent (cl s).
Proof. intros sc cc u tr s H. destruct (reach_ok _ _ _ _ _ H) as (A & _). exact (up_ended s A). Qed.
Print Assumptions C101_backend_told.

(** C101.  In a normal exchange, the client sees the end of the stream only after the backend has
    ended its direction and everything that it sent has been delivered, or, if it is configured
    so, after the client has ended its own and everything has been delivered. *)
Theorem C101_client_told_partial : forall sc cc u tr s, run sc cc (init u) tr = Some s -> normal tr ->
  ended (cl s) = true ->
  (bfin (be s) = true /\ got (cl s) = bsent (be s)) \/
  (cc = true /\ fin (cl s) = true /\ bgot (be s) = sent (cl s)).
Proof.
  intros sc cc u tr s H N E. destruct (reach_ok _ _ _ _ _ H) as (_ & _ & F). destruct (reach_calm _ _ _ _ _ H N) as (_ & _ & _ & _ & A & _).
  destruct F as (_ & _ & F3 & F4 & _). destruct (A (F4 E)) as [U|A']; [|exact A']. destruct (F3 U); congruence.
Qed.
Print Assumptions C101_client_told_partial.

(** C101.  What is missing: when the backend disappears in the middle of its answer, the client sees
    the regular end of the stream, as if the answer was complete.  (The connection is not lost, and
    the protocol has a way to say that a stream was aborted.) *)
Definition cut_answer : list event :=
  [DialOk; CSend (lit "get"); CFin; URead 3; UWrite; UEof; BSend (lit "half"); DRead 4; DWrite;
   BSend (lit " and the rest"); BReset; DReadErr].
Theorem C101_cut_answer_refuted : exists s, run (server_close None) (client_close None) (init false) cut_answer = Some s /\
  ended (cl s) = true /\ bfin (be s) = false /\ got (cl s) = lit "half" /\ bsent (be s) = lit "half and the rest".
Proof. eexists. split; [vm_compute; reflexivity|]. repeat split. Qed.
Print Assumptions C101_cut_answer_refuted.

(** C101.  So it does when the backend cannot be reached at all: the answer seems to be empty. *)
Theorem C101_no_backend_refuted : exists s, run (server_close None) (client_close None) (init false) [CSend (lit "get"); DialFail] = Some s /\
  ended (cl s) = true /\ got (cl s) = [] /\ bgot (be s) = [] /\ may_send (cl s).
Proof. eexists. split; [vm_compute; reflexivity|]. unfold may_send. repeat split. Qed.
Print Assumptions C101_no_backend_refuted.

(** C101.  The proxy holds nothing back: whenever it has nothing left to do until the client, the
    backend or a clock acts, and the stream is still being forwarded, then each side has been sent
    everything that the other has sent so far, and has been told if the other is done; or else the
    backend's connection is closed, and the proxy waits for the client, which may still send. *)
Theorem C101_nothing_held_back_partial : forall sc cc u tr s, run sc cc (init u) tr = Some s -> at_rest sc cc s ->
  ph s = Returned \/
  (bclosed (be s) = false /\ bgot (be s) = sent (cl s) /\ got (cl s) = bsent (be s) /\
   (fin (cl s) = true -> bended (be s) = true) /\
   (bfin (be s) = true -> ended (cl s) = true \/ uni (cl s) = true \/ stopped (cl s) = true \/ gone (cl s) = true)) \/
  (bclosed (be s) = true /\ unread (cl s) = [] /\ may_send (cl s) /\
   (ended (cl s) = true \/ uni (cl s) = true \/ stopped (cl s) = true)).
Proof.
  intros sc cc u tr s H R. pose proof (reach_ok _ _ _ _ _ H) as K. pose proof (rest_cases _ _ _ K R) as C.
  destruct K as (_ & _ & F). destruct F as (_ & _ & _ & _ & F5 & _ & _ & _ & _ & _ & _ & _ & F13).
  destruct C as [C|[(C1 & C2 & C3 & C4 & C5 & C6 & _)|(C1 & C2 & C3 & C4 & C5 & C6 & C7 & C8)]].
  - left. exact C.
  - right. left. repeat (split; [assumption|]). auto.
  - right. right. unfold c_read_fails in C8. bools. split; [exact C2|]. split; [exact C6|]. split.
    + unfold may_send. repeat (split; [assumption|]). destruct (refused (cl s)); [destruct (F13 eq_refl)|reflexivity].
    + destruct (F5 C3) as [X|[X|[X|X]]]; auto. congruence.
Qed.
Print Assumptions C101_nothing_held_back_partial.
Example C101_nothing_held_back_case : exists s,
  run (server_close (Some false)) (client_close None) (init false)
      [DialOk; BSend (lit "hi"); BFin; DRead 2; DWrite; DEof; DCloseWrite true; DCloseRead true] = Some s /\
  at_rest (server_close (Some false)) (client_close None) s /\ ph s = Bridging /\ bclosed (be s) = false /\ ended (cl s) = true.
Proof.
  eexists. split; [vm_compute; reflexivity|]. split; [|repeat split].
  intros e B. destruct e; try discriminate B; try reflexivity. cbn. destruct n; reflexivity.
Qed.

(** C101.  What is missing: with the default settings the backend's end ends everything, as it does for
    a connection (C14).  For a stream it does not: the backend has closed its connection, the
    client knows, but it is not told to stop sending; as long as it is silent, the stream stays
    open and listed, and no timeout is running. *)
Definition silent_client : list event := [DialOk; CSend (lit "get"); URead 3; UWrite; BSend (lit "ok"); BFin; DRead 2; DWrite; DEof].
Theorem C101_silent_client_refuted : exists s,
  run (server_close None) (client_close None) (init false) silent_client = Some s /\ normal silent_client /\
  at_rest (server_close None) (client_close None) s /\
  bclosed (be s) = true /\ ended (cl s) = true /\ ph s <> Returned /\ listed (cl s) = true /\ may_send (cl s) /\
  step (server_close None) (client_close None) s CExpire = None /\ step (server_close None) (client_close None) s BExpire = None.
Proof.
  eexists. split; [vm_compute; reflexivity|]. split.
  { intros e I. repeat (destruct I as [<-|I]; [reflexivity|]). destruct I. }
  split.
  { intros e B. destruct e; try discriminate B; try reflexivity. cbn. destruct n; reflexivity. }
  unfold may_send. repeat split. discriminate.
Qed.
Print Assumptions C101_silent_client_refuted.

(** C101.  The two settings: if clientCloseEndsConnection is on, the end of what the client sends ends the
    backend's connection, and if serverCloseEndsConnection is on, so does the end of what the backend
    sends. *)
Theorem C101_settings_on : forall sc cc u tr s, run sc cc (init u) tr = Some s -> at_rest sc cc s ->
  ~ In DialFail tr ->
  (cc = true /\ fin (cl s) = true) \/ (sc = true /\ bfin (be s) = true) -> bclosed (be s) = true.
Proof.
  intros sc cc u tr s H R N A. pose proof (reach_ok _ _ _ _ _ H) as K. pose proof (reach_set _ _ _ _ _ H) as [S1 S2].
  destruct (ph s) eqn:P.
  - destruct (rest_phase _ _ _ R P).
  - destruct A as [[A1 A2]|[A1 A2]].
    + destruct (rest_up _ _ _ K R P) as [U|(_ & _ & U & _)]; [|congruence]. specialize (S1 A1). now rewrite U in S1.
    + destruct (rest_down _ _ _ K R P) as [U|(_ & _ & U & _)]; [|congruence]. specialize (S2 A1). now rewrite U in S2.
  - destruct K as (_ & _ & F). destruct F as (_ & _ & _ & _ & _ & _ & _ & _ & _ & _ & _ & F12 & _).
    destruct (F12 P) as [(_ & _ & X)|(X & _)]; [exact X|]. destruct (no_fail_up _ _ _ _ _ H N P X).
Qed.
Print Assumptions C101_settings_on.
Example C101_settings_on_case : exists s,
  run (server_close None) (client_close (Some true)) (init false)
      [DialOk; CSend (lit "ab"); CFin; URead 2; UWrite; UEof; DReadErr; Return] = Some s /\
  at_rest (server_close None) (client_close (Some true)) s /\ fin (cl s) = true /\ bfin (be s) = false /\ bclosed (be s) = true.
Proof.
  eexists. split; [vm_compute; reflexivity|]. split; [|repeat split].
  intros e B. destruct e; try discriminate B; reflexivity.
Qed.

(** C101.  If both are off, and in a normal exchange on a stream that is not one-way, the backend's connection
    is closed only after both have ended their direction and have received everything. *)
Theorem C101_settings_off : forall tr s, run false false (init false) tr = Some s -> normal tr ->
  bclosed (be s) = true ->
  fin (cl s) = true /\ bfin (be s) = true /\ bgot (be s) = sent (cl s) /\ got (cl s) = bsent (be s).
Proof.
  intros tr s H N B. destruct (reach_half _ _ H N) as (H1 & H2 & H3 & H4). destruct (H4 (H1 B)) as [U D].
  destruct (H3 D) as [D1 D2]. destruct (reach_ok _ _ _ _ _ H) as (A & _). destruct (up_ended s A (H2 U)). auto.
Qed.
Print Assumptions C101_settings_off.
Example C101_settings_off_case : exists s, let tr :=
    [DialOk; CSend (lit "ab"); CFin; URead 2; UWrite; UEof; UCloseWrite true; UCloseRead;
     BSend (lit "ok"); BFin; DRead 2; DWrite; DEof; DCloseWrite true; DCloseRead true; Return] in
  run (server_close (Some false)) (client_close None) (init false) tr = Some s /\ normal tr /\ bclosed (be s) = true.
Proof.
  eexists. cbv zeta. split; [vm_compute; reflexivity|]. split; [|reflexivity].
  intros e I. repeat (destruct I as [<-|I]; [reflexivity|]). destruct I.
Qed.
(** C101.  serverCloseEndsConnection is on unless it is set, clientCloseEndsConnection is off. *)
Theorem C101_settings_default : forall b,
  server_close None = true /\ client_close None = false /\ server_close (Some b) = b /\ client_close (Some b) = b.
Proof. intros b. repeat split. Qed.
Print Assumptions C101_settings_default.

(** C101.  When one side has ended its direction and the other stays silent, the half-close timeout is running, and
    when it passes everything ends. *)
Theorem C101_half_close_timeout : forall sc cc u tr s, run sc cc (init u) tr = Some s -> at_rest sc cc s ->
  ph s = Bridging -> bclosed (be s) = false ->
  (fin (cl s) = true -> exists s', run sc cc s [BExpire; DReadErr; Return] = Some s' /\
     ph s' = Returned /\ bclosed (be s') = true /\ listed (cl s') = false) /\
  (bfin (be s) = true -> exists s', run sc cc s [CExpire; UReadErr; Return] = Some s' /\
     ph s' = Returned /\ bclosed (be s') = true /\ listed (cl s') = false).
Proof.
  intros sc cc u tr s H R P B. pose proof (reach_ok _ _ _ _ _ H) as K.
  pose proof (rest_cases _ _ _ K R) as C. pose proof (reach_waiting _ _ _ _ _ H) as W.
  pose proof (rest_up _ _ _ K R P) as U. pose proof (rest_down _ _ _ K R P) as D.
  destruct C as [C|[(C1 & C2 & C3 & C4 & C5 & C6 & C7 & C8)|(C1 & C2 & _)]]; [congruence| |congruence].
  assert (T : up s = Finished -> readDone (cl s) = true).
  { intros Uf. exact (reach_read _ _ _ _ _ H Uf B). }
  split; intros F.
  - destruct U as [U|(_ & _ & U & _)]; [|congruence]. destruct (C7 U) as [D1 B1].
    cbn [run step]. rewrite B1. cbn [ph cl be up down mk]. rewrite P, U, D1. cbn [b_deadline b_out bexp]. rewrite !orb_true_r.
    cbn [ph cl be up down mk run step]. eexists. split; [reflexivity|]. split; [reflexivity|]. split; [reflexivity|].
    cbn. rewrite (T U). destruct (readDone (cl s)); reflexivity.
  - destruct D as [D|(_ & _ & D & _)]; [|congruence]. pose proof (W D B) as W1.
    destruct U as [U|(U & U1 & U2 & U3)]; [exfalso; destruct (C7 U) as [X _]; congruence|].
    cbn [run step]. rewrite W1. cbn [ph cl be up down mk]. rewrite P, U, D. unfold c_read_fails. cbn [c_deadline aborted gone rexp]. rewrite !orb_true_r.
    cbn [ph cl be up down mk run step]. eexists. split; [reflexivity|]. split; reflexivity || (split; reflexivity).
Qed.
Print Assumptions C101_half_close_timeout.

(** C101.  When the QUIC connection is gone, so is the backend's, at the latest when the half-close
    timeout passes that is running after the client has ended the stream. *)
Theorem C101_connection_gone : forall sc cc u tr s, run sc cc (init u) tr = Some s -> at_rest sc cc s ->
  gone (cl s) = true -> ~ In DialFail tr ->
  (ph s = Returned /\ bclosed (be s) = true) \/
  (bended (be s) = true /\ exists s', run sc cc s [BExpire; DReadErr; Return] = Some s' /\ ph s' = Returned /\ bclosed (be s') = true).
Proof.
  intros sc cc u tr s H R G N. pose proof (reach_ok _ _ _ _ _ H) as K. pose proof (rest_cases _ _ _ K R) as C.
  pose proof (no_fail_up _ _ _ _ _ H N) as T.
  destruct K as (_ & _ & F). destruct F as (_ & _ & _ & _ & _ & _ & _ & _ & _ & _ & _ & F12 & _).
  destruct C as [C|[(C1 & C2 & C3 & C4 & C5 & C6 & C7 & C8)|(C1 & C2 & C3 & C4 & C5 & C6 & C7 & C8)]].
  - left. split; [exact C|]. destruct (F12 C) as [(_ & _ & X)|(X & _)]; [exact X|destruct (T C X)].
  - destruct (up s) eqn:U; try (unfold c_read_fails in C8; rewrite G, orb_true_r in C8; assert (X : true = false) by (apply C8; discriminate); discriminate X).
    right. destruct (C7 eq_refl) as [D B]. split.
    { destruct (reach_ok _ _ _ _ _ H) as (A & _). unfold up_ok in A. rewrite U in A. destruct A as (_ & _ & A). destruct (bended (be s)); [reflexivity|]. rewrite (A eq_refl) in C2. discriminate. }
    cbn [run step]. rewrite B. cbn [ph cl be up down mk]. rewrite C1, U, D. cbn [b_deadline b_out bexp]. rewrite !orb_true_r.
    cbn [ph cl be up down mk run step]. eexists. split; [reflexivity|]. split; reflexivity.
  - unfold c_read_fails in C8. rewrite G, orb_true_r in C8. discriminate.
Qed.
Print Assumptions C101_connection_gone.
Example C101_connection_gone_case : exists s,
  run (server_close None) (client_close None) (init false)
      [DialOk; CSend (lit "ab"); CFin; URead 2; UWrite; UEof; UCloseWrite true; UCloseRead; CGone] = Some s /\
  at_rest (server_close None) (client_close None) s /\ gone (cl s) = true /\ ph s = Bridging.
Proof.
  eexists. split; [vm_compute; reflexivity|]. split; [|repeat split].
  intros e B. destruct e; try discriminate B; try reflexivity. cbn. destruct n; reflexivity.
Qed.

(** C101.  It always gets there: without new actions of the client, the backend and the clock the proxy
    can make only so many steps, in whatever order. *)
Theorem C101_comes_to_rest : forall sc cc s tr s', run sc cc s tr = Some s' -> forallb by_proxy tr = true ->
  List.length tr <= 2 * List.length (unread (cl s)) + 2 * List.length (bunread (be s)) + 18.
Proof.
  intros sc cc s tr s' H B. pose proof (run_size _ _ _ _ _ H B) as L. unfold size in L.
  assert (P : forall p, pc_size p <= 4) by (intros [[|]| | |]; cbn; lia).
  pose proof (P (up s)). pose proof (P (down s)). destruct (ph s); lia.
Qed.
Print Assumptions C101_comes_to_rest.

(** C101.  A stream disappears from the console's list only when nothing more can happen on it: the proxy
    has ended its own direction, and the client's direction has been read to its end, has been
    aborted, lost or given up after the half-close timeout. *)
Theorem C101_listed : forall sc cc u tr s, run sc cc (init u) tr = Some s ->
  listed (cl s) = false ->
  (ended (cl s) = true \/ uni (cl s) = true \/ stopped (cl s) = true \/ gone (cl s) = true) /\
  ((fin (cl s) = true /\ unread (cl s) = []) \/ aborted (cl s) = true \/ gone (cl s) = true \/ rexp (cl s) = true).
Proof.
  intros sc cc u tr s H L. destruct (reach_ok _ _ _ _ _ H) as (_ & _ & F).
  destruct F as (F1 & F2 & _ & _ & F5 & F6 & _). rewrite F1 in L. apply negb_false_iff, andb_prop in L. destruct L as [L1 L2].
  split; [apply F5; congruence|exact (F6 L1)].
Qed.
Print Assumptions C101_listed.

(** C101.  And it disappears when it has been dealt with, unless the backend could not be reached or did not take
    what the client sent. *)
Theorem C101_unlisted_partial : forall sc cc u tr s, run sc cc (init u) tr = Some s ->
  (forall e, In e tr -> e <> DialFail /\ forall n, e <> UWriteErr n) ->
  ph s = Returned -> listed (cl s) = false.
Proof.
  intros sc cc u tr s H N P. destruct (reach_tidy _ _ _ _ _ H N) as [T1 T2]. destruct (T2 P) as [U D].
  destruct (reach_ok _ _ _ _ _ H) as (_ & _ & F). destruct F as (F1 & F2 & _ & _ & _ & _ & _ & _ & _ & F10 & _).
  rewrite D in F10. rewrite F1, (T1 U), F2, F10. reflexivity.
Qed.
Print Assumptions C101_unlisted_partial.
Example C101_unlisted_case : exists s,
  run (server_close None) (client_close None) (init false)
    [DialOk; CSend (lit "get"); CFin; URead 3; UWrite; UEof; UCloseWrite true; UCloseRead;
     BSend (lit "ok"); BFin; DRead 2; DWrite; DEof; Return] = Some s /\
  ph s = Returned /\ listed (cl s) = false /\ bgot (be s) = lit "get" /\ got (cl s) = lit "ok".
Proof. eexists. split; [vm_compute; reflexivity|]. repeat split. Qed.

(** C101.  What is missing: the backend has closed its connection and the client sends on.  The proxy
    forgets the stream without ending it: it stays in the list for as long as the QUIC connection
    lasts, the client is not told to stop, and what it sends is not read any more.  No fault has
    happened. *)
Definition sends_on : list event :=
  [DialOk; BSend (lit "bye"); BFin; DRead 3; DWrite; DEof; CSend (lit "more"); URead 4; UWriteErr 0; Return; CSend (lit " and more")].
Theorem C101_left_behind_refuted : exists s,
  run (server_close None) (client_close None) (init false) sends_on = Some s /\ normal sends_on /\
  ph s = Returned /\ listed (cl s) = true /\ may_send (cl s) /\ unread (cl s) = lit " and more" /\
  (forall e s', step (server_close None) (client_close None) s e = Some s' -> ph s' = Returned /\ listed (cl s') = true /\ refused (cl s') = false).
Proof.
  eexists. split; [vm_compute; reflexivity|]. split.
  { intros e I. repeat (destruct I as [<-|I]; [reflexivity|]). destruct I. }
  split; [reflexivity|]. split; [reflexivity|]. split; [repeat split|]. split; [reflexivity|].
  intros e s' H. destruct e; cbn in H; try discriminate H; injection H as <-; cbn; auto.
Qed.
Print Assumptions C101_left_behind_refuted.

(** C101.  The counters of the connection are exact: the bytes of the stream that the proxy has read and
    written. *)
Theorem C101_counted : forall sc cc u tr s, run sc cc (init u) tr = Some s ->
  qrecv s + List.length (unread (cl s)) = List.length (sent (cl s)) /\ qsent s = List.length (got (cl s)).
Proof. intros sc cc u tr s H. destruct (reach_counted _ _ _ _ _ H) as (A & B & _). auto. Qed.
Print Assumptions C101_counted.

(** C101.  What the log says about a stream is not: it is always that nothing was received or sent. *)
Theorem C101_log_refuted : forall sc cc u tr s, run sc cc (init u) tr = Some s -> end_line s = (0, 0).
Proof. intros sc cc u tr s H. destruct (reach_counted _ _ _ _ _ H) as (_ & _ & A & B). unfold end_line. now rewrite A, B. Qed.
Print Assumptions C101_log_refuted.

(** C101.  What does not hold for a unidirectional stream: the backend says a word, and the client's data
    are not delivered.  Nothing has failed, the client has ended the stream, and the backend has
    not. *)
Definition greeting : list event :=
  [DialOk; BSend (lit "220 hello"); CSend (lit "data"); CFin; DRead 9; DWriteErr 0; URead 4; UWriteErr 0; Return].
Theorem C101_one_way_refuted : exists s,
  run (server_close None) (client_close None) (init true) greeting = Some s /\ normal greeting /\
  ph s = Returned /\ fin (cl s) = true /\ bfin (be s) = false /\ sent (cl s) = lit "data" /\ bgot (be s) = [].
Proof.
  eexists. split; [vm_compute; reflexivity|]. split.
  { intros e I. repeat (destruct I as [<-|I]; [reflexivity|]). destruct I. }
  repeat split.
Qed.
Print Assumptions C101_one_way_refuted.

(** C101.  The console shows for each stream the backend that it is connected to, as long as they are all
    connected to the same one. *)
Theorem C101_destination_partial : forall (l : list (nat * str)) a, (forall x, In x l -> snd x = a) ->
  dest_rows (fold_left join_stream l no_streams) = l.
Proof.
  intros l a H.
  assert (G : forall l v, bridges (fold_left join_stream l v) = bridges v ++ l /\
    ((forall x, In x l -> snd x = a) -> int_conn v = None \/ int_conn v = Some a ->
     int_conn (fold_left join_stream l v) = None \/ int_conn (fold_left join_stream l v) = Some a)).
  { clear. induction l as [|x l IH]; intros v; cbn [fold_left].
    - rewrite app_nil_r. split; [reflexivity|auto].
    - destruct (IH (join_stream v x)) as [A B]. rewrite A. cbn [join_stream bridges]. rewrite <- app_assoc. split; [reflexivity|].
      intros H _. apply B; [intros y I; apply H; now right|]. right. cbn. f_equal. apply H. now left. }
  destruct (G l no_streams) as [A B]. unfold dest_rows. rewrite A. cbn [no_streams bridges app].
  specialize (B H (or_introl eq_refl)). transitivity (map (fun x : nat * str => x) l); [|apply map_id]. apply map_ext_in. intros [i b] I.
  specialize (H _ I). cbn in H. unfold shown_dest. cbn [fst snd]. destruct B as [B|B]; rewrite B; [reflexivity|].
  rewrite H. destruct a; reflexivity.
Qed.
Print Assumptions C101_destination_partial.
Example C101_destination_case : dest_rows (fold_left join_stream [(0, lit "tcp:10.0.0.1:25"); (4, lit "tcp:10.0.0.1:25")] no_streams)
  = [(0, lit "tcp:10.0.0.1:25"); (4, lit "tcp:10.0.0.1:25")].
Proof. reflexivity. Qed.

(** C101.  What is missing: when the backend has several addresses, all the streams are shown with the address of
    the one that was connected last. *)
Theorem C101_destination_refuted : forall i j a b, a <> b -> b <> [] ->
  dest_rows (fold_left join_stream [(i, a); (j, b)] no_streams) = [(i, b); (j, b)].
Proof. intros i j a [|c b] N M; [contradiction|]. reflexivity. Qed.
Print Assumptions C101_destination_refuted.
