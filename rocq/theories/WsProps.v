(** WebSocket tunnels. *)
From Coq Require Import Lia.
From Verif Require Import Base WsModel WsSpec WsProofs.
Local Open Scope nat_scope.

(** ** C74 *)

(** At any time, whatever has happened, the server has received an initial part
    of the contents of the client's binary messages, in order and unchanged; the
    client has received an initial part of the server's bytes, in messages of 1 to
    1024 bytes. *)
Theorem C74_bytes_pass_unchanged : forall tr,
  (exists r, binary_contents None (client_frames tr) = tosrv (ws_run tr) ++ r) /\
  (exists r, server_bytes tr = List.concat (tocli (ws_run tr)) ++ r) /\
  (forall m, In m (tocli (ws_run tr)) -> 1 <= List.length m <= 1024).
Proof.
  intros tr. destruct (inv_run tr) as [c I]. split; [|split].
  - rewrite (i_frames _ _ _ I). destruct (in_end (ws_run tr)) eqn:E.
    + apply (i_ended _ _ _ I E).
    + rewrite (i_open _ _ _ I E). eauto.
  - destruct (i_server _ _ _ I) as (l & -> & _). eauto.
  - intros m Hm. pose proof (i_msgs _ _ _ I) as F. rewrite Forall_forall in F. apply F in Hm.
    replace 1024 with buf_size by reflexivity. exact Hm.
Qed.
Print Assumptions C74_bytes_pass_unchanged.

(** Nothing is left behind when an end finishes: if the tunnel ended because the
    client ended it, the server has received all that the client sent; if it ended
    because the server did, the client has received all that the server sent. *)
Theorem C74_nothing_left_behind : forall tr,
  (done (ws_run tr) = Some FromClient -> tosrv (ws_run tr) = binary_contents None (client_frames tr)) /\
  (done (ws_run tr) = Some FromServer -> List.concat (tocli (ws_run tr)) = server_bytes tr).
Proof.
  intros tr. destruct (inv_run tr) as [c I]. split; intros D.
  - destruct (i_client _ _ _ I D) as [_ H]. rewrite (i_frames _ _ _ I).
    specialize (H nil (fun _ => eq_refl)). rewrite app_nil_r in H. symmetry. exact H.
  - destruct (i_server _ _ _ I) as (l & L & _ & H). destruct (H D) as (_ & -> & Q & _).
    rewrite L, Q. cbn [app]. symmetry. apply app_nil_r.
Qed.
Print Assumptions C74_nothing_left_behind.

(** Nothing gets stuck: as long as the tunnel has not ended, the goroutine that
    reads from the client can by itself bring everything sent so far to the server,
    and the one that reads from the server can do the same for the client. *)
Theorem C74_nothing_gets_stuck : forall tr,
  done (ws_run tr) = None -> ~ In CtxDone tr ->
  (exists steps, Forall reads steps /\
     tosrv (ws_run (tr ++ steps)) = binary_contents None (client_frames tr)) /\
  (exists steps, Forall sends steps /\
     List.concat (tocli (ws_run (tr ++ steps))) = server_bytes tr).
Proof.
  intros tr D N. destruct (inv_run tr) as [c I]. pose proof (inv2_run tr) as [J1 J2 J3].
  assert (A1 : in_end (ws_run tr) = false) by (destruct (in_end (ws_run tr)); [exfalso; apply J1; auto|reflexivity]).
  assert (A2 : out_end (ws_run tr) = false) by (destruct (out_end (ws_run tr)); [exfalso; apply J2; auto|reflexivity]).
  assert (A3 : expired (ws_run tr) = false) by (destruct (expired (ws_run tr)); [exfalso; apply N; auto|reflexivity]).
  assert (A4 : closed (ws_run tr) = false).
  { pose proof (i_closed _ _ _ I) as C. destruct (closed (ws_run tr)); [exfalso; apply C; auto|reflexivity]. }
  split.
  - apply (to_server_progress _ tr (le_n _)); assumption.
  - apply (to_client_progress _ tr (le_n _)); assumption.
Qed.
Print Assumptions C74_nothing_gets_stuck.

(** Once the tunnel has ended and the handler has returned, nothing more passes. *)
Theorem C74_end_is_final : forall tr tr', closed (ws_run tr) = true ->
  tosrv (ws_run (tr ++ tr')) = tosrv (ws_run tr) /\ tocli (ws_run (tr ++ tr')) = tocli (ws_run tr) /\
  done (ws_run (tr ++ tr')) = done (ws_run tr) /\ closed (ws_run (tr ++ tr')) = true.
Proof.
  intros tr tr' C. rewrite run_app. destruct (inv_run tr) as [c I]. pose proof (i_closed _ _ _ I C) as D.
  assert (G : forall tr s, closed s = true -> done s <> None ->
    let s' := fold_left ws_step tr s in
    tosrv s' = tosrv s /\ tocli s' = tocli s /\ done s' = done s /\ closed s' = true).
  { clear. induction tr as [|o tr IH]; intros s C D; [auto|]. cbn [fold_left].
    assert (S : tosrv (ws_step s o) = tosrv s /\ tocli (ws_step s o) = tocli s /\ done (ws_step s o) = done s /\
                closed (ws_step s o) = true).
    { destruct o; cbn [ws_step]; rewrite ?C, ?Bool.orb_true_r; auto;
        try (destruct (cgone s)); try (destruct (sgone s)); cbn; auto.
      all: try (repeat split; auto; destruct (done s); [reflexivity|congruence]). }
    destruct S as (S1 & S2 & S3 & S4). cbn zeta in *.
    destruct (IH (ws_step s o) S4) as (T1 & T2 & T3 & T4); [congruence|].
    rewrite T1, T2, T3, S1, S2, S3. auto. }
  apply G; assumption.
Qed.
Print Assumptions C74_end_is_final.

(** A tunnel is given up for lack of pongs only when none has been read for more
    than thirty seconds. *)
Theorem C74_given_up_after_silence_partial : forall tr, done (ws_run tr) = Some NoPong ->
  exists tr1 tr2 tr3, tr = tr1 ++ tr2 ++ Tick :: tr3 /\ 30 < elapsed tr2 /\
    pongs_read (tr1 ++ tr2) = pongs_read tr1.
Proof. intros tr D. destruct (inv_run tr) as [c I]. apply (i_nopong _ _ _ I D). Qed.
Print Assumptions C74_given_up_after_silence_partial.

(** And it is given up then: the first tick of the ticker after thirty silent
    seconds ends it, if nothing else did. *)
Theorem C74_dead_clients_are_given_up : forall tr1 tr2,
  30 < elapsed tr2 -> pongs_read (tr1 ++ tr2) = pongs_read tr1 -> ~ In CtxDone (tr1 ++ tr2) ->
  done (ws_run (tr1 ++ tr2 ++ Tick :: nil)) <> None.
Proof.
  intros tr1 tr2 L P N. rewrite app_assoc, run_snoc. set (tr := tr1 ++ tr2) in *.
  destruct (inv_run tr) as [c I]. pose proof (i_closed _ _ _ I) as IC. pose proof (i_watch _ _ _ I) as IW.
  cbn [ws_step]. destruct (watch_end (ws_run tr)) eqn:W.
  { destruct (IW eq_refl) as [X|X]; [exact X|contradiction]. }
  destruct (closed (ws_run tr)) eqn:C; [exact (IC eq_refl)|]. cbn [orb watch done].
  destruct (pongs_run tr2 tr1) as [_ A]. specialize (A P). fold tr in A.
  pose proof (active_le tr1). rewrite (i_now _ _ _ I).
  assert (E : elapsed tr = elapsed tr1 + elapsed tr2) by apply elapsed_app.
  destruct (Nat.ltb_spec 30 (elapsed tr - active (ws_run tr))); [apply send_done_ne|lia].
Qed.
Print Assumptions C74_dead_clients_are_given_up.

Fixpoint answers_b (s : ws) (tr : list wsop) : bool :=
  match tr with
  | nil => true
  | o :: tr' =>
      ((pings (ws_step s o) =? pings s) || match tr' with ClientSends Pong :: _ => true | _ => false end) &&
      answers_b (ws_step s o) tr'
  end.

Lemma answers_b_ok tr : forall s, answers_b s tr = true -> answers_at_once s tr.
Proof.
  induction tr as [|o tr IH]; intros s H; [exact Logic.I|].
  cbn [answers_b] in H. cbn [answers_at_once]. apply andb_prop in H as [H1 H2]. split; [|auto].
  intros N. apply Nat.eqb_neq in N. rewrite N in H1. cbn [orb] in H1.
  destruct tr as [|[[]| | | | | | | | | | |] tr]; try discriminate. eauto.
Qed.

(** Finding: a client that answers every ping at once can be given up all the
    same.  Pongs are read by the goroutine that copies the client's messages to the
    server; while the server does not take any bytes, no pong is read. *)
Theorem C74_answering_clients_refuted :
  exists tr, answers_at_once ws0 tr /\ done (ws_run tr) = Some NoPong /\
    ~ In ClientGone tr /\ ~ In ServerGone tr /\ ~ In InFail tr.
Proof.
  exists (ClientSends (Data OBin true (lit "hello")) :: InRead 9 :: InRead 9 ::
          Elapse 10 :: Tick :: ClientSends Pong :: InRead 9 ::
          Elapse 10 :: Tick :: ClientSends Pong :: InRead 9 ::
          Elapse 10 :: Tick :: ClientSends Pong :: InRead 9 ::
          Elapse 10 :: Tick :: nil).
  split.
  - apply answers_b_ok. vm_compute. reflexivity.
  - split; [vm_compute; reflexivity|].
    repeat split; cbn; intuition discriminate.
Qed.
Print Assumptions C74_answering_clients_refuted.

(** *** Instances *)

Definition a_tunnel : list wsop :=
  ClientSends (Data OBin false (lit "he")) :: ServerSends (lit "welcome") :: ClientSends Ping ::
  ClientSends (Data OCont true (lit "llo")) :: ClientSends (Data OText true (lit "skipped")) ::
  InRead 0 :: InRead 0 :: InWrite 5 :: InRead 4 :: InWrite 5 :: OutRead 2 true :: InRead 0 :: InRead 0 ::
  Elapse 10 :: Tick :: InRead 9 :: InWrite 9 :: ClientSends Pong :: InRead 0 :: InRead 0 :: InRead 0 ::
  OutRead 100 true :: nil.

Example C74_ex_bytes : tosrv (ws_run a_tunnel) = lit "hello" /\
  tocli (ws_run a_tunnel) = lit "wel" :: lit "come" :: nil /\ done (ws_run a_tunnel) = None /\ active (ws_run a_tunnel) = 10.
Proof. vm_compute. auto. Qed.

Example C74_ex_client_ends :
  done (ws_run (a_tunnel ++ ClientSends CloseF :: InRead 0 :: Finish :: nil)) = Some FromClient /\
  closed (ws_run (a_tunnel ++ ClientSends CloseF :: InRead 0 :: Finish :: nil)) = true.
Proof. vm_compute. auto. Qed.

Example C74_ex_server_ends :
  done (ws_run (a_tunnel ++ ServerGone :: OutRead 0 true :: Finish :: nil)) = Some FromServer.
Proof. vm_compute. auto. Qed.

Example C74_ex_silence :
  done (ws_run (a_tunnel ++ (Elapse 31 :: nil) ++ Tick :: nil)) = Some NoPong.
Proof. vm_compute. auto. Qed.
