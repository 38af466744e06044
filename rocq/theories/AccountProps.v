(** C10-C12: counting connections and handing them over. *)
From Verif Require Import Base AdmitModel AdmitProofs AccountModel AccountSpec AccountProofs.

(** C10.  After every history of arrivals and closings, fewer than [maxOpen]
    connections are being served. *)
Theorem C10_limit_never_exceeded : forall maxOpen evs, served (AdmitModel.run maxOpen evs) <= maxOpen - 1.
Proof. exact served_bound. Qed.
Print Assumptions C10_limit_never_exceeded.

(** C10.  A connection is refused only when maxOpen - 1 others are open, and
    admitted when fewer are. *)
Theorem C10_refused_only_when_full : forall maxOpen evs id x,
  hd_error (AdmitModel.run maxOpen (evs ++ [Arrive id])) = Some x -> admitted x = false ->
  maxOpen - 1 <= List.length (AdmitModel.run maxOpen evs).
Proof. exact refused_when_full. Qed.
Print Assumptions C10_refused_only_when_full.

Theorem C10_admitted_when_room : forall maxOpen evs id,
  S (List.length (AdmitModel.run maxOpen evs)) < maxOpen ->
  hd_error (AdmitModel.run maxOpen (evs ++ [Arrive id])) = Some {| eId := id; admitted := true |}.
Proof. exact admitted_when_room. Qed.
Print Assumptions C10_admitted_when_room.

(** C10.  What is counted are exactly the connections that have arrived and have
    not been closed since, refused ones included, each once. *)
Theorem C10_counts_open_connections : forall maxOpen evs,
  (forall id, In id (map eId (AdmitModel.run maxOpen evs)) <->
     exists a b, evs = a ++ Arrive id :: b /\ ~ In (Closed id) b) /\
  ((forall a b id, evs = a ++ Arrive id :: b -> ~ In (Arrive id) a) ->
     NoDup (map eId (AdmitModel.run maxOpen evs))).
Proof. intros m evs. split; [exact (tracked_open m evs) | exact (tracked_nodup m evs)]. Qed.
Print Assumptions C10_counts_open_connections.

(** C10, "refused only when the limit is reached", is off by one: with limit 2
    and one connection open, the second one is refused. *)
Theorem C10_full_capacity_refuted :
  exists maxOpen evs id,
    served (AdmitModel.run maxOpen evs) < maxOpen /\ List.length (AdmitModel.run maxOpen evs) < maxOpen /\
    hd_error (AdmitModel.run maxOpen (evs ++ [Arrive id])) = Some {| eId := id; admitted := false |}.
Proof. exists 2, [Arrive 0], 1. vm_compute. repeat split; lia. Qed.
Print Assumptions C10_full_capacity_refuted.

Example C10_example :
  map admitted (AdmitModel.run 4 [Arrive 0; Arrive 1; Arrive 2; Arrive 3; Closed 1; Closed 3; Arrive 5]) =
    [true; true; true].
Proof. vm_compute. reflexivity. Qed.

(** C11.  However many goroutines close a connection, in whatever order with
    everything else, its close callback runs at most once. *)
Theorem C11_callback_at_most_once : forall tr s c,
  run init tr = Some s -> callbacks c tr <= 1 /\ decrements c tr <= 1.
Proof. exact callback_once. Qed.
Print Assumptions C11_callback_at_most_once.

(** C11.  When all connections are closed the list of open ones is empty. *)
Theorem C11_open_list_empties : forall tr s,
  run init tr = Some s -> all_closed s -> tracked s = [].
Proof. exact all_closed_untracked. Qed.
Print Assumptions C11_open_list_empties.

(** C11.  In histories in which nobody closes a connection while its handler is
    between looking up the backend and accounting for it, the in-flight number
    of a backend is the number of connections it currently has; it is zero when
    all are closed.  Missing: the other histories, where it is false (below). *)
Theorem C11_in_flight_exact_partial : forall tr s b,
  run init tr = Some s -> orderly init tr ->
  inFlight (bes s b) = Z.of_nat (active b (conns s)) /\
  (all_closed s -> inFlight (bes s b) = 0%Z).
Proof.
  intros tr s b H Ho. split; [exact (in_flight_exact tr s b H Ho)|].
  intros Hc. exact (in_flight_zero tr s b H Ho Hc).
Qed.
Print Assumptions C11_in_flight_exact_partial.

(** Two connections of one backend, closed by several goroutines. *)
Definition ex_tr : list event :=
  [EAdd KTCP 0; EArm 0; ELookup 0; EFirst 0; EAdd KQUIC 0; EArm 1; ELookup 1; ESecond 0; EFirst 1;
   ESecond 1; ESendServe 0; EClose 0; EClose 1; EClose 0; ECbRemove 1; ECbRead 1; ECbRemove 0;
   ECbRead 0; ECbDec 0; EClose 0; EGraceful 0; ECbDec 1].
Example C11_example :
  (exists s, run init ex_tr = Some s /\ tracked s = [] /\ inFlight (bes s 0) = 0%Z /\ chanClosed (bes s 0) = true) /\
  orderly init ex_tr.
Proof.
  split; [eexists; vm_compute; repeat split|].
  repeat (split; [cbn; try exact I; intros c H; injection H as <-; reflexivity|]). exact I.
Qed.

(** C11 in full is false: a QUIC client that closes its connection while the
    handler is looking up the backend makes the callback run before the
    connection is counted (quic.go:165-166), and the backend's in-flight number
    never returns to zero. *)
Theorem C11_in_flight_leak_refuted :
  exists tr s, run init tr = Some s /\ all_closed s /\ tracked s = [] /\ inFlight (bes s 0) = 1%Z.
Proof.
  exists [EAdd KQUIC 0; EArm 0; ELookup 0; EClose 0; ECbRemove 0; ECbRead 0; EFirst 0; ESecond 0; EClose 0].
  eexists. split; [vm_compute; reflexivity|]. split; [|vm_compute; auto].
  intros c [<-|[]]. reflexivity.
Qed.
Print Assumptions C11_in_flight_leak_refuted.

(** C12.  The hand-over channel of a backend is never closed twice, whatever the
    interleaving of connections, reconfigurations and Stop. *)
Theorem C12_channel_closed_once : forall tr s b,
  run init tr = Some s -> doubleClose (bes s b) = false.
Proof. exact never_double_close. Qed.
Print Assumptions C12_channel_closed_once.
(** The mark would be there if it were closed twice, and would stay. *)
Theorem C12_second_close_noticed : forall x, chanClosed (close_chan x) = true /\
  (doubleClose (close_chan x) = true <-> doubleClose x = true \/ chanClosed x = true) /\
  (doubleClose x = true -> doubleClose (close_now x) = true /\ doubleClose (close_graceful x) = true /\ forall n, doubleClose (inc_in_flight n x) = true).
Proof.
  intro x. split; [reflexivity|]. split; [cbn; rewrite orb_true_iff; reflexivity|]. intro D.
  unfold close_now, close_graceful, inc_in_flight. cbv zeta. split; [|split; [|intro n]].
  - destruct (alive x); [cbn; rewrite D; reflexivity|exact D].
  - destruct (alive x); [|exact D]. destruct (_ =? _)%Z; cbn; rewrite D; reflexivity.
  - destruct (_ && _ && _); cbn; rewrite D; reflexivity.
Qed.
Print Assumptions C12_second_close_noticed.
Example C12_closed_twice :
  doubleClose (close_chan (close_chan fresh_be)) = true /\ doubleClose (close_chan fresh_be) = false /\
  doubleClose (inc_in_flight 1 (close_graceful (close_now (close_chan (close_chan fresh_be))))) = true.
Proof. repeat split. Qed.

(** C12.  In orderly histories, unless the whole proxy is stopped, the step that
    closes the channel leaves no counted connection of that backend.  Missing:
    disorderly histories, and connections that looked the backend up and are
    not yet counted, for which it is false (below). *)
Theorem C12_channel_closed_when_idle_partial : forall tr s e s' b,
  run init tr = Some s -> orderly init tr -> orderly_event s e -> step s e = Some s' ->
  e <> EStop b ->
  chanClosed (bes s b) = false -> chanClosed (bes s' b) = true ->
  active b (conns s') = 0.
Proof. exact chan_closed_idle. Qed.
Print Assumptions C12_channel_closed_when_idle_partial.

Example C12_example :
  exists s s', run init (firstn 21 ex_tr) = Some s /\ step s (ECbDec 1) = Some s' /\
    chanClosed (bes s 0) = false /\ chanClosed (bes s' 0) = true.
Proof. do 2 eexists. split; [vm_compute; reflexivity|]. split; [vm_compute; reflexivity|]. vm_compute. auto. Qed.

(** C12.  A backend that is replaced gets no further connections: one that had not
    been given to the backend when it was told to shut down never will be.  So a
    hand-over that fails can only be that of a connection that had looked up the
    backend before. *)
Theorem C12_none_after_shutdown : forall tr1 s1 b tr2 s2 i c,
  run init tr1 = Some s1 -> alive (bes s1 b) = true ->
  run s1 (EGraceful b :: tr2) = Some s2 ->
  (forall c1, nth_error (conns s1) i = Some c1 -> no_backend_yet c1 = true) ->
  nth_error (conns s2) i = Some c -> cbk c = b -> no_backend_yet c = true.
Proof.
  intros tr1 s1 b tr2 s2 i c _ Ha H Hn. cbn [run step] in H.
  exact (graceful_late b i s1 _ tr2 s2 eq_refl Ha Hn H c).
Qed.
Print Assumptions C12_none_after_shutdown.

(** C12 in full is false: a connection that looked up the backend just before it
    was replaced is counted after the channel was closed, and its hand-over
    panics (recovered; the client's connection is dropped). *)
Theorem C12_send_on_closed_refuted :
  exists tr s c, run init tr = Some s /\ nth_error (conns s) 0 = Some c /\ cpc c = HSendPanic.
Proof.
  exists [EAdd KTCP 0; EArm 0; ELookup 0; EGraceful 0; EFirst 0; ESecond 0; ESendPanic 0].
  do 2 eexists. vm_compute. repeat split.
Qed.
Print Assumptions C12_send_on_closed_refuted.

(** C12, "every connection handed over is either served or closed", is false: a
    connection that is still in its TLS handshake when its backend is replaced
    is later received by the loop that drains the channel of the closed
    listener (http.go:93-96) and dropped without being closed; it stays in the
    list of open connections and keeps the old backend alive. *)
Theorem C12_dropped_connection_refuted :
  exists tr s c, run init tr = Some s /\ orderly init tr /\
    nth_error (conns s) 0 = Some c /\ cpc c = HDrained /\ ccb c = CbSet /\
    tracked s = [0] /\ inFlight (bes s 0) = 1%Z /\ alive (bes s 0) = true.
Proof.
  exists [EAdd KTCP 0; EArm 0; ELookup 0; EFirst 0; ESecond 0; EGraceful 0; EListener 0; ESendDrain 0].
  do 2 eexists. split; [vm_compute; reflexivity|]. split.
  - repeat (split; [cbn; try exact I; intros c H; injection H as <-; reflexivity|]). exact I.
  - vm_compute. repeat split.
Qed.
Print Assumptions C12_dropped_connection_refuted.
