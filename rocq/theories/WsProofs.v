(** Invariants of the WebSocket tunnel. *)
From Coq Require Import Lia.
From Verif Require Import Base WsModel WsSpec.
Local Open Scope nat_scope.

Lemma run_snoc tr o : ws_run (tr ++ o :: nil) = ws_step (ws_run tr) o.
Proof. unfold ws_run. rewrite fold_left_app. reflexivity. Qed.

Definition gone_c (tr : list wsop) : bool :=
  existsb (fun o => match o with ClientGone => true | _ => false end) tr.
Definition gone_s (tr : list wsop) : bool :=
  existsb (fun o => match o with ServerGone => true | _ => false end) tr.

Lemma frames_snoc tr o : client_frames (tr ++ o :: nil) =
  client_frames tr ++
  (if gone_c tr then nil else match o with ClientSends f => f :: nil | _ => nil end).
Proof.
  induction tr as [|a tr IH]; [destruct o; reflexivity|].
  destruct a; cbn [app client_frames gone_c existsb orb]; try exact IH.
  - f_equal. exact IH.
  - reflexivity.
Qed.

Lemma bytes_snoc tr o : server_bytes (tr ++ o :: nil) =
  server_bytes tr ++
  (if gone_s tr then nil else match o with ServerSends b => b | _ => nil end).
Proof.
  induction tr as [|a tr IH]; [destruct o; cbn; rewrite ?app_nil_r; reflexivity|].
  destruct a; cbn [app server_bytes gone_s existsb orb]; try exact IH.
  - rewrite <- app_assoc. f_equal. exact IH.
  - reflexivity.
Qed.

Lemma elapsed_app a b : elapsed (a ++ b) = elapsed a + elapsed b.
Proof. induction a as [|o a IH]; [reflexivity|]. destruct o; cbn; lia. Qed.

Lemma pongs_app a b : pongs (a ++ b) = pongs a + pongs b.
Proof. induction a as [|f a IH]; [reflexivity|]. destruct f; cbn; lia. Qed.

(** What remains of the current frame, if it counts. *)
Definition curpart (s : ws) : str := match cur s with Some true => rest s | _ => nil end.
Definition between (s : ws) : option bool := if fin s then None else cur s.

Record inv (tr : list wsop) (s : ws) (c : list frame) : Prop := {
  i_frames : client_frames tr = c ++ q s;
  i_cgone : cgone s = gone_c tr;
  i_sgone : sgone s = gone_s tr;
  i_open : in_end s = false -> forall x,
    binary_contents None (c ++ x) = tosrv s ++ pending s ++ curpart s ++ binary_contents (between s) x;
  i_ended : in_end s = true -> forall y, exists r, binary_contents None (c ++ y) = tosrv s ++ r;
  i_client : done s = Some FromClient -> in_end s = true /\
    forall y, (cgone s = true -> y = nil) -> binary_contents None (c ++ q s ++ y) = tosrv s;
  i_server : exists l, server_bytes tr = List.concat (tocli s) ++ l ++ sq s /\
    (out_end s = false -> l = nil) /\
    (done s = Some FromServer -> out_end s = true /\ l = nil /\ sq s = nil /\ sgone s = true);
  i_msgs : Forall (fun m => 1 <= List.length m <= buf_size) (tocli s);
  i_now : now s = elapsed tr;
  i_active : exists tr1 tr2, tr = tr1 ++ tr2 /\ active s = elapsed tr1 /\
    pongs_read tr = pongs_read tr1;
  i_nopong : done s = Some NoPong -> exists tr1 tr2 tr3, tr = tr1 ++ tr2 ++ Tick :: tr3 /\
    30 < elapsed tr2 /\ pongs_read (tr1 ++ tr2) = pongs_read tr1;
  i_watch : watch_end s = true -> done s <> None \/ In CtxDone tr;
  i_closed : closed s = true -> done s <> None
}.

Lemma send_done_some d r x : send_done d r = Some x -> d = Some x \/ (d = None /\ r = x).
Proof. destruct d; cbn; intros [= <-]; auto. Qed.

Lemma send_done_ne d r : send_done d r <> None.
Proof. destruct d; discriminate. Qed.

Lemma pongs_read_inv tr c : client_frames tr = c ++ q (ws_run tr) -> pongs_read tr = pongs c.
Proof. unfold pongs_read. intros ->. rewrite pongs_app. lia. Qed.

(** Reading: the frames consumed by a step of the reader, and what follows. *)
Lemma in_read_spec n s : in_end s = false ->
  let s' := in_read n s in
  (* same on the other side *)
  cgone s' = cgone s /\ sgone s' = sgone s /\ tosrv s' = tosrv s /\ tocli s' = tocli s /\ sq s' = sq s /\
  now s' = now s /\ out_end s' = out_end s /\ watch_end s' = watch_end s /\ closed s' = closed s /\
  exists k, q s = k ++ q s' /\
  ((in_end s' = false /\ done s' = done s /\
    (forall x, curpart s ++ pending s ++ binary_contents (between s) (k ++ x) =
               pending s' ++ curpart s' ++ binary_contents (between s') x \/
               pending s <> nil /\ s' = s) /\
    ((active s' = active s /\ pongs k = 0) \/ (active s' = now s /\ pongs k = 1)))
   \/
   (in_end s' = true /\ k = nil /\ done s' = send_done (done s) FromClient /\ active s' = active s /\
    pending s = nil /\ curpart s = nil /\
    forall y, (cgone s = true -> y = nil) -> binary_contents (between s) (q s ++ y) = nil)).
Proof.
  intros E. cbn zeta. unfold in_read.
  destruct (pending s) as [|p0 ps] eqn:P.
  2:{ repeat (split; [reflexivity|]). exists nil. split; [reflexivity|]. left.
      split; [exact E|]. split; [reflexivity|]. split; [|left; split; reflexivity].
      intros x. right. split; [discriminate|reflexivity]. }
  destruct (rest s) as [|r0 rs] eqn:R.
  - destruct (q s) as [|f q'] eqn:Q.
    + destruct (cgone s) eqn:G.
      * repeat (split; [first [reflexivity | exact G]|]). exists nil. cbn. rewrite Q.
        split; [reflexivity|]. right. repeat (split; [reflexivity|]).
        split; [unfold curpart; rewrite R; destruct (cur s) as [[]|]; reflexivity|].
        intros y Hy. rewrite (Hy eq_refl). destruct (between s) as [[]|]; reflexivity.
      * repeat (split; [first [reflexivity | exact G]|]). exists nil. rewrite Q. split; [reflexivity|]. left.
        split; [exact E|]. split; [reflexivity|]. split; [|auto].
        intros x. left. rewrite P. cbn [app]. reflexivity.
    + assert (C0 : curpart s = nil) by (unfold curpart; rewrite R; destruct (cur s) as [[]|]; reflexivity).
      destruct f as [o fi p| | |].
      * change (if fin s then None else cur s) with (between s).
        destruct (between s) as [b|] eqn:M; destruct o;
        repeat match goal with |- _ /\ _ => split; [reflexivity|] end;
        first
        [ (* broken frame *)
          exists nil; cbn [end_in q app]; rewrite Q; split; [reflexivity|]; right;
          repeat (split; [reflexivity|]); split; [exact C0|]; intros y _; rewrite ?M; reflexivity
        | exists (Data OBin fi p :: nil); cbn [set_in q app]; split; [reflexivity|]; left;
          split; [exact E|]; split; [reflexivity|]; split; [|left; split; reflexivity];
          intros x; left; rewrite C0; unfold curpart, between; cbn; destruct fi; rewrite ?app_nil_r; reflexivity
        | exists (Data OText fi p :: nil); cbn [set_in q app]; split; [reflexivity|]; left;
          split; [exact E|]; split; [reflexivity|]; split; [|left; split; reflexivity];
          intros x; left; rewrite C0; unfold curpart, between; cbn; destruct fi; rewrite ?app_nil_r; reflexivity
        | exists (Data OCont fi p :: nil); cbn [set_in q app]; split; [reflexivity|]; left;
          split; [exact E|]; split; [reflexivity|]; split; [|left; split; reflexivity];
          intros x; left; rewrite C0, ?M; unfold curpart, between; cbn; destruct fi, b; rewrite ?app_nil_r; reflexivity ].
      * repeat match goal with |- _ /\ _ => split; [reflexivity|] end.
        exists (Ping :: nil). cbn [set_in q app]. split; [reflexivity|]. left.
        split; [exact E|]. split; [reflexivity|]. split; [|left; split; reflexivity].
        intros x. left. rewrite C0. unfold curpart, between, set_in. cbn.
        destruct (fin s); [reflexivity|]. destruct (cur s) as [[]|]; reflexivity.
      * repeat match goal with |- _ /\ _ => split; [reflexivity|] end.
        exists (Pong :: nil). cbn [set_in q app]. split; [reflexivity|]. left.
        split; [exact E|]. split; [reflexivity|]. split; [|right; split; reflexivity].
        intros x. left. rewrite C0. unfold curpart, between, set_in. cbn.
        destruct (fin s); [reflexivity|]. destruct (cur s) as [[]|]; reflexivity.
      * repeat match goal with |- _ /\ _ => split; [reflexivity|] end.
        exists nil. cbn [end_in q app]. rewrite Q. split; [reflexivity|]. right.
        repeat (split; [reflexivity|]). split; [exact C0|]. intros y _.
        destruct (between s) as [[]|]; reflexivity.
  - assert (L : forall a b : str, a ++ nil ++ b = a ++ b) by reflexivity.
    destruct (cur s) as [[]|] eqn:M;
      repeat match goal with |- _ /\ _ => split; [reflexivity|] end;
      exists nil; cbn [set_in q app]; (split; [reflexivity|]); left;
      (split; [exact E|]); (split; [reflexivity|]); (split; [|left; split; reflexivity]);
      intros x; left; unfold curpart, between, set_in; cbn [pending rest fin cur app]; rewrite M.
    + rewrite R. rewrite app_assoc, firstn_skipn. reflexivity.
    + reflexivity.
    + reflexivity.
Qed.

Lemma gone_c_snoc tr o : gone_c (tr ++ o :: nil) = (gone_c tr || match o with ClientGone => true | _ => false end)%bool.
Proof. unfold gone_c. rewrite existsb_app. cbn. rewrite Bool.orb_false_r. reflexivity. Qed.

Lemma gone_s_snoc tr o : gone_s (tr ++ o :: nil) = (gone_s tr || match o with ServerGone => true | _ => false end)%bool.
Proof. unfold gone_s. rewrite existsb_app. cbn. rewrite Bool.orb_false_r. reflexivity. Qed.

Lemma in_snoc tr (o x : wsop) : In x tr -> In x (tr ++ o :: nil).
Proof. intros. apply in_or_app. auto. Qed.

(** Steps of the world and of the other goroutines leave the reader alone. *)
Lemma active_keep tr c o : inv tr (ws_run tr) c ->
  active (ws_step (ws_run tr) o) = active (ws_run tr) ->
  client_frames (tr ++ o :: nil) = c ++ q (ws_step (ws_run tr) o) ->
  exists tr1 tr2, tr ++ o :: nil = tr1 ++ tr2 /\ active (ws_step (ws_run tr) o) = elapsed tr1 /\
    pongs_read (tr ++ o :: nil) = pongs_read tr1.
Proof.
  intros I A F. destruct (i_active _ _ _ I) as (tr1 & tr2 & E & A1 & P).
  exists tr1, (tr2 ++ o :: nil). split; [rewrite app_assoc, <- E; reflexivity|].
  split; [congruence|]. rewrite (pongs_read_inv _ c); [|rewrite run_snoc; exact F].
  rewrite <- P. rewrite (pongs_read_inv _ c); [reflexivity|apply I].
Qed.

Lemma nopong_keep tr s c o : inv tr s c -> done s = Some NoPong ->
  exists tr1 tr2 tr3, tr ++ o :: nil = tr1 ++ tr2 ++ Tick :: tr3 /\ 30 < elapsed tr2 /\
    pongs_read (tr1 ++ tr2) = pongs_read tr1.
Proof.
  intros I D. destruct (i_nopong _ _ _ I D) as (tr1 & tr2 & tr3 & E & L & P).
  exists tr1, tr2, (tr3 ++ o :: nil). split; [rewrite E, <- !app_assoc; reflexivity|auto].
Qed.

Lemma no_frames_snoc tr o : (forall f, o <> ClientSends f) -> client_frames (tr ++ o :: nil) = client_frames tr.
Proof.
  intros H. rewrite frames_snoc. destruct (gone_c tr); [apply app_nil_r|].
  destruct o; try apply app_nil_r. exfalso. exact (H _ eq_refl).
Qed.

Lemma no_bytes_snoc tr o : (forall b, o <> ServerSends b) -> server_bytes (tr ++ o :: nil) = server_bytes tr.
Proof.
  intros H. rewrite bytes_snoc. destruct (gone_s tr); [apply app_nil_r|].
  destruct o; try apply app_nil_r. exfalso. exact (H _ eq_refl).
Qed.

(** A step that changes nothing but possibly the time of a history. *)
Lemma inv_same tr c o : inv tr (ws_run tr) c -> ws_step (ws_run tr) o = ws_run tr ->
  (forall f, o <> ClientSends f) -> (forall b, o <> ServerSends b) -> o <> ClientGone -> o <> ServerGone ->
  (forall d, o <> Elapse d) ->
  inv (tr ++ o :: nil) (ws_step (ws_run tr) o) c.
Proof.
  intros I E N1 N2 N3 N4 N5.
  assert (F : client_frames (tr ++ o :: nil) = c ++ q (ws_step (ws_run tr) o)).
  { rewrite E, no_frames_snoc by exact N1. apply I. }
  pose proof (active_keep tr c o I ltac:(rewrite E; reflexivity) F) as AK.
  rewrite E in *. constructor; try apply I.
  - exact F.
  - rewrite gone_c_snoc, (i_cgone _ _ _ I). destruct o; try (symmetry; apply Bool.orb_false_r). congruence.
  - rewrite gone_s_snoc, (i_sgone _ _ _ I). destruct o; try (symmetry; apply Bool.orb_false_r). congruence.
  - rewrite no_bytes_snoc by exact N2. apply I.
  - rewrite elapsed_app, (i_now _ _ _ I). destruct o; try (cbn; lia). exfalso. exact (N5 _ eq_refl).
  - exact AK.
  - apply (nopong_keep _ _ _ o I).
  - intros W. destruct (i_watch _ _ _ I W); [auto|right; apply in_snoc; assumption].
Qed.

Lemma elapsed_snoc0 tr o : (forall d, o <> Elapse d) -> elapsed (tr ++ o :: nil) = elapsed tr.
Proof. intros N. rewrite elapsed_app. destruct o; try (cbn; lia). exfalso. exact (N _ eq_refl). Qed.

Lemma gone_c_snoc0 tr o : o <> ClientGone -> gone_c (tr ++ o :: nil) = gone_c tr.
Proof. intros N. rewrite gone_c_snoc. destruct o; try apply Bool.orb_false_r. congruence. Qed.

Lemma gone_s_snoc0 tr o : o <> ServerGone -> gone_s (tr ++ o :: nil) = gone_s tr.
Proof. intros N. rewrite gone_s_snoc. destruct o; try apply Bool.orb_false_r. congruence. Qed.

Ltac snoc_simpl :=
  rewrite ?no_frames_snoc, ?no_bytes_snoc, ?elapsed_snoc0, ?gone_c_snoc0, ?gone_s_snoc0 by discriminate.

Lemma inv_read tr c n : inv tr (ws_run tr) c ->
  exists c', inv (tr ++ InRead n :: nil) (ws_step (ws_run tr) (InRead n)) c'.
Proof.
  intros I. destruct (in_end (ws_run tr) || closed (ws_run tr))%bool eqn:B.
  { exists c. apply inv_same; try discriminate; [exact I|]. cbn [ws_step]. rewrite B. reflexivity. }
  apply Bool.orb_false_iff in B as [B1 B2].
  pose proof (in_read_spec n (ws_run tr) B1) as S. cbn zeta in S.
  assert (ES : ws_step (ws_run tr) (InRead n) = in_read n (ws_run tr)) by (cbn [ws_step]; rewrite B1, B2; reflexivity).
  destruct S as (S1 & S2 & S3 & S4 & S5 & S6 & S7 & S8 & S9 & k & K & H).
  set (s := ws_run tr) in *. set (s' := in_read n s) in *.
  exists (c ++ k).
  assert (F : client_frames (tr ++ InRead n :: nil) = (c ++ k) ++ q s').
  { snoc_simpl. rewrite (i_frames _ _ _ I). fold s. rewrite K, app_assoc. reflexivity. }
  pose proof (i_open _ _ _ I B1) as O.
  assert (PR : pongs_read (tr ++ InRead n :: nil) = pongs c + pongs k).
  { rewrite (pongs_read_inv _ (c ++ k)); [apply pongs_app|]. rewrite run_snoc. fold s. rewrite ES. exact F. }
  assert (PR0 : pongs_read tr = pongs c) by (apply pongs_read_inv; apply I).
  rewrite ES. constructor.
  - exact F.
  - snoc_simpl. rewrite S1. apply I.
  - snoc_simpl. rewrite S2. apply I.
  - intros N x. destruct H as [(_ & _ & H & _)|(H & _)]; [|congruence].
    rewrite <- app_assoc, O, S3.
    destruct (H x) as [Hx|[Hp Hs]].
    + destruct (pending s) eqn:Pe.
      * cbn [app] in *. rewrite Hx. reflexivity.
      * (* pending not empty: the step does nothing *)
        assert (E : s' = s) by (unfold s', in_read; rewrite Pe; reflexivity).
        rewrite E in *. assert (k = nil) by (apply (f_equal (@List.length _)) in K; rewrite app_length in K;
          destruct k; [reflexivity|cbn in K; lia]). subst k. cbn [app]. rewrite ?Pe. reflexivity.
    + rewrite Hs in *. assert (k = nil) by (apply (f_equal (@List.length _)) in K; rewrite app_length in K;
          destruct k; [reflexivity|cbn in K; lia]). subst k. cbn [app]. reflexivity.
  - intros N y. destruct H as [(H & _)|(_ & -> & _)]; [congruence|].
    rewrite app_nil_r, S3, O. eauto.
  - intros D. destruct H as [(_ & Hd & _)|(H1 & -> & Hd & _ & Hp & Hc & H)].
    + rewrite Hd in D. destruct (i_client _ _ _ I D) as [X _]. congruence.
    + split; [exact H1|]. intros y Hy. rewrite app_nil_r. cbn [app] in K.
      rewrite <- K, S3, O. rewrite Hp, Hc. cbn [app]. rewrite H by (rewrite <- S1; exact Hy). apply app_nil_r.
  - snoc_simpl. destruct (i_server _ _ _ I) as (l & L1 & L2 & L3). exists l.
    fold s in L1, L2, L3. rewrite S4, S5, S7, S2. split; [exact L1|]. split; [exact L2|].
    intros D. apply L3. destruct H as [(_ & Hd & _)|(_ & _ & Hd & _)]; rewrite Hd in D; [exact D|].
    apply send_done_some in D as [D|[_ D]]; [exact D|discriminate].
  - rewrite S4. apply I.
  - snoc_simpl. rewrite S6. apply I.
  - destruct H as [(_ & _ & _ & [[A P]|[A P]])|(_ & -> & _ & A & _)].
    + destruct (i_active _ _ _ I) as (tr1 & tr2 & E & A1 & P1). exists tr1, (tr2 ++ InRead n :: nil).
      split; [rewrite app_assoc, <- E; reflexivity|]. split; [congruence|]. lia.
    + exists (tr ++ InRead n :: nil), nil. split; [symmetry; apply app_nil_r|].
      snoc_simpl. split; [|reflexivity]. rewrite A. apply I.
    + destruct (i_active _ _ _ I) as (tr1 & tr2 & E & A1 & P1). exists tr1, (tr2 ++ InRead n :: nil).
      split; [rewrite app_assoc, <- E; reflexivity|]. split; [congruence|]. cbn in PR. lia.
  - intros D. apply (nopong_keep _ s c _ I).
    destruct H as [(_ & Hd & _)|(_ & _ & Hd & _)]; rewrite Hd in D; [exact D|].
    apply send_done_some in D as [D|[_ D]]; [exact D|discriminate].
  - rewrite S8. intros W. destruct (i_watch _ _ _ I W) as [W'|W']; [left|right; apply in_snoc; exact W'].
    destruct H as [(_ & Hd & _)|(_ & _ & Hd & _)]; rewrite Hd; [exact W'|apply send_done_ne].
  - rewrite S9. intros W. pose proof (i_closed _ _ _ I W) as W'.
    destruct H as [(_ & Hd & _)|(_ & _ & Hd & _)]; rewrite Hd; [exact W'|apply send_done_ne].
Qed.

Lemma inv_step tr c o : inv tr (ws_run tr) c ->
  exists c', inv (tr ++ o :: nil) (ws_step (ws_run tr) o) c'.
Proof.
  intros I. destruct o as [f| |b| |d|n|n| |n ok| | |].
  - (* ClientSends *)
    exists c.
    assert (F : client_frames (tr ++ ClientSends f :: nil) = c ++ q (ws_step (ws_run tr) (ClientSends f))).
    { rewrite frames_snoc, <- (i_cgone _ _ _ I), (i_frames _ _ _ I). cbn [ws_step].
      destruct (cgone (ws_run tr)); [apply app_nil_r|]. cbn [world q]. rewrite app_assoc. reflexivity. }
    pose proof (active_keep tr c (ClientSends f) I ltac:(cbn [ws_step]; destruct (cgone (ws_run tr)); reflexivity) F) as AK.
    constructor; try exact F; try exact AK.
    + snoc_simpl. rewrite <- (i_cgone _ _ _ I). cbn [ws_step]. destruct (cgone (ws_run tr)) eqn:G; [exact G|reflexivity].
    + snoc_simpl. cbn [ws_step]. destruct (cgone (ws_run tr)); apply I.
    + cbn [ws_step]. destruct (cgone (ws_run tr)); apply I.
    + cbn [ws_step]. destruct (cgone (ws_run tr)); apply I.
    + cbn [ws_step]. destruct (cgone (ws_run tr)) eqn:G; [apply I|].
      intros D. destruct (i_client _ _ _ I D) as [D1 D2]. split; [exact D1|]. intros y _.
      cbn [world q tosrv]. rewrite <- app_assoc. apply D2. congruence.
    + snoc_simpl. cbn [ws_step]. destruct (cgone (ws_run tr)); apply I.
    + cbn [ws_step]. destruct (cgone (ws_run tr)); apply I.
    + snoc_simpl. rewrite <- (i_now _ _ _ I). cbn [ws_step]. destruct (cgone (ws_run tr)); cbn; lia.
    + intros D. apply (nopong_keep _ _ _ _ I). cbn [ws_step] in D. destruct (cgone (ws_run tr)); exact D.
    + intros W. assert (W0 : watch_end (ws_run tr) = true) by (cbn [ws_step] in W; destruct (cgone (ws_run tr)); exact W).
      destruct (i_watch _ _ _ I W0) as [X|X]; [left|right; apply in_snoc; exact X].
      cbn [ws_step]; destruct (cgone (ws_run tr)); exact X.
    + cbn [ws_step]. destruct (cgone (ws_run tr)); apply I.
  - (* ClientGone *)
    exists c.
    assert (F : client_frames (tr ++ ClientGone :: nil) = c ++ q (ws_step (ws_run tr) ClientGone)).
    { snoc_simpl. apply I. }
    pose proof (active_keep tr c ClientGone I eq_refl F) as AK.
    constructor; try exact F; try exact AK; cbn [ws_step world cgone sgone in_end tosrv pending done now tocli closed watch_end];
      try apply I; snoc_simpl; try apply I.
    + rewrite gone_c_snoc, Bool.orb_true_r. reflexivity.
    + intros D. destruct (i_client _ _ _ I D) as [D1 D2]. split; [exact D1|]. intros y Hy.
      cbn [world q tosrv]. apply D2. auto.
    + rewrite <- (i_now _ _ _ I). cbn; lia.
    + intros D. apply (nopong_keep _ _ _ _ I). exact D.
    + intros W. destruct (i_watch _ _ _ I W) as [X|X]; [left; exact X|right; apply in_snoc; exact X].
  - (* ServerSends *)
    exists c.
    assert (F : client_frames (tr ++ ServerSends b :: nil) = c ++ q (ws_step (ws_run tr) (ServerSends b))).
    { snoc_simpl. cbn [ws_step]. destruct (sgone (ws_run tr)); apply I. }
    pose proof (active_keep tr c (ServerSends b) I ltac:(cbn [ws_step]; destruct (sgone (ws_run tr)); reflexivity) F) as AK.
    constructor; try exact F; try exact AK.
    + snoc_simpl. cbn [ws_step]. destruct (sgone (ws_run tr)); apply I.
    + snoc_simpl. rewrite <- (i_sgone _ _ _ I). cbn [ws_step]. destruct (sgone (ws_run tr)) eqn:G; [exact G|reflexivity].
    + cbn [ws_step]. destruct (sgone (ws_run tr)); apply I.
    + cbn [ws_step]. destruct (sgone (ws_run tr)); apply I.
    + cbn [ws_step]. destruct (sgone (ws_run tr)); apply I.
    + rewrite bytes_snoc, <- (i_sgone _ _ _ I). destruct (i_server _ _ _ I) as (l & L1 & L2 & L3). exists l.
      cbn [ws_step]. destruct (sgone (ws_run tr)) eqn:G.
      * rewrite app_nil_r, G. auto.
      * cbn [world tocli sq out_end done sgone]. split; [rewrite L1, <- !app_assoc; reflexivity|].
        split; [exact L2|]. intros D. destruct (L3 D) as (_ & _ & _ & X). discriminate.
    + cbn [ws_step]. destruct (sgone (ws_run tr)); apply I.
    + snoc_simpl. rewrite <- (i_now _ _ _ I). cbn [ws_step]. destruct (sgone (ws_run tr)); cbn; lia.
    + intros D. apply (nopong_keep _ _ _ _ I). cbn [ws_step] in D. destruct (sgone (ws_run tr)); exact D.
    + intros W. assert (W0 : watch_end (ws_run tr) = true) by (cbn [ws_step] in W; destruct (sgone (ws_run tr)); exact W).
      destruct (i_watch _ _ _ I W0) as [X|X]; [left|right; apply in_snoc; exact X].
      cbn [ws_step]; destruct (sgone (ws_run tr)); exact X.
    + cbn [ws_step]. destruct (sgone (ws_run tr)); apply I.
  - (* ServerGone *)
    exists c.
    assert (F : client_frames (tr ++ ServerGone :: nil) = c ++ q (ws_step (ws_run tr) ServerGone)).
    { snoc_simpl. apply I. }
    pose proof (active_keep tr c ServerGone I eq_refl F) as AK.
    constructor; try exact F; try exact AK; cbn [ws_step world cgone sgone in_end tosrv pending done now tocli closed watch_end out_end sq];
      try apply I; snoc_simpl; try apply I.
    + rewrite gone_s_snoc, Bool.orb_true_r. reflexivity.
    + destruct (i_server _ _ _ I) as (l & L1 & L2 & L3). exists l. split; [exact L1|]. split; [exact L2|].
      intros D. destruct (L3 D) as (X1 & X2 & X3 & _). auto.
    + rewrite <- (i_now _ _ _ I). cbn; lia.
    + intros D. apply (nopong_keep _ _ _ _ I). exact D.
    + intros W. destruct (i_watch _ _ _ I W) as [X|X]; [left; exact X|right; apply in_snoc; exact X].
  - (* Elapse *)
    exists c.
    assert (F : client_frames (tr ++ Elapse d :: nil) = c ++ q (ws_step (ws_run tr) (Elapse d))).
    { snoc_simpl. apply I. }
    pose proof (active_keep tr c (Elapse d) I eq_refl F) as AK.
    constructor; try exact F; try exact AK; cbn [ws_step world cgone sgone in_end tosrv pending done now tocli closed watch_end out_end sq];
      try apply I; snoc_simpl; try apply I.
    + rewrite elapsed_app, <- (i_now _ _ _ I). cbn; lia.
    + intros D. apply (nopong_keep _ _ _ _ I). exact D.
    + intros W. destruct (i_watch _ _ _ I W) as [X|X]; [left; exact X|right; apply in_snoc; exact X].
  - apply (inv_read tr c). exact I.
  - (* InWrite *)
    exists c. destruct (in_end (ws_run tr) || closed (ws_run tr))%bool eqn:B.
    { apply inv_same; try discriminate; [exact I|]. cbn [ws_step]. rewrite B. reflexivity. }
    destruct (pending (ws_run tr)) as [|p0 ps] eqn:P.
    { apply inv_same; try discriminate; [exact I|]. cbn [ws_step]. rewrite B, P. reflexivity. }
    apply Bool.orb_false_iff in B as [B1 B2].
    destruct (expired (ws_run tr)) eqn:X.
    + assert (ES : ws_step (ws_run tr) (InWrite n) = end_in ServerWrite (ws_run tr)).
      { cbn [ws_step]. rewrite B1, B2, P, X. reflexivity. }
      assert (F : client_frames (tr ++ InWrite n :: nil) = c ++ q (ws_step (ws_run tr) (InWrite n))).
      { rewrite ES. snoc_simpl. apply I. }
      pose proof (active_keep tr c (InWrite n) I ltac:(rewrite ES; reflexivity) F) as AK. rewrite ES in *.
      constructor; try exact F; try exact AK; cbn [end_in cgone sgone in_end tosrv pending done now tocli closed watch_end out_end sq];
        snoc_simpl; try apply I.
      * discriminate.
      * intros _ y. rewrite (i_open _ _ _ I B1). eauto.
      * intros D. apply send_done_some in D as [D|[_ D]]; [|discriminate].
        destruct (i_client _ _ _ I D) as [Y _]. congruence.
      * destruct (i_server _ _ _ I) as (l & L1 & L2 & L3). exists l. split; [exact L1|]. split; [exact L2|].
        intros D. apply send_done_some in D as [D|[_ D]]; [auto|discriminate].
      * intros D. apply send_done_some in D as [D|[_ D]]; [|discriminate]. apply (nopong_keep _ _ _ _ I). exact D.
      * intros _. left. apply send_done_ne.
      * intros _. apply send_done_ne.
    + assert (ES : ws_step (ws_run tr) (InWrite n) = in_write n (ws_run tr)).
      { cbn [ws_step]. rewrite B1, B2, P, X. reflexivity. }
      assert (F : client_frames (tr ++ InWrite n :: nil) = c ++ q (ws_step (ws_run tr) (InWrite n))).
      { rewrite ES. snoc_simpl. apply I. }
      pose proof (active_keep tr c (InWrite n) I ltac:(rewrite ES; reflexivity) F) as AK. rewrite ES in *.
      constructor; try exact F; try exact AK; cbn [in_write cgone sgone in_end tosrv done now tocli closed watch_end out_end sq];
        snoc_simpl; try apply I.
      * intros _ x. rewrite (i_open _ _ _ I B1). unfold in_write, curpart, between. cbn [pending cur rest fin].
        rewrite <- (firstn_skipn (S n) (pending (ws_run tr))) at 1. rewrite <- !app_assoc. reflexivity.
      * congruence.
      * intros D. destruct (i_client _ _ _ I D) as [Y _]. congruence.
      * intros D. apply (nopong_keep _ _ _ _ I). exact D.
      * intros W. destruct (i_watch _ _ _ I W) as [Y|Y]; [left; exact Y|right; apply in_snoc; exact Y].
  - (* InFail *)
    exists c. destruct (in_end (ws_run tr) || closed (ws_run tr))%bool eqn:B.
    { apply inv_same; try discriminate; [exact I|]. cbn [ws_step]. rewrite B. reflexivity. }
    destruct (pending (ws_run tr)) as [|p0 ps] eqn:P.
    { apply inv_same; try discriminate; [exact I|]. cbn [ws_step]. rewrite B, P. reflexivity. }
    apply Bool.orb_false_iff in B as [B1 B2].
    assert (ES : ws_step (ws_run tr) InFail = end_in ServerWrite (ws_run tr)).
    { cbn [ws_step]. rewrite B1, B2, P. reflexivity. }
    assert (F : client_frames (tr ++ InFail :: nil) = c ++ q (ws_step (ws_run tr) InFail)).
    { rewrite ES. snoc_simpl. apply I. }
    pose proof (active_keep tr c InFail I ltac:(rewrite ES; reflexivity) F) as AK. rewrite ES in *.
    constructor; try exact F; try exact AK; cbn [end_in cgone sgone in_end tosrv pending done now tocli closed watch_end out_end sq];
      snoc_simpl; try apply I.
    + discriminate.
    + intros _ y. rewrite (i_open _ _ _ I B1). eauto.
    + intros D. apply send_done_some in D as [D|[_ D]]; [|discriminate].
      destruct (i_client _ _ _ I D) as [Y _]. congruence.
    + destruct (i_server _ _ _ I) as (l & L1 & L2 & L3). exists l. split; [exact L1|]. split; [exact L2|].
      intros D. apply send_done_some in D as [D|[_ D]]; [auto|discriminate].
    + intros D. apply send_done_some in D as [D|[_ D]]; [|discriminate]. apply (nopong_keep _ _ _ _ I). exact D.
    + intros _. left. apply send_done_ne.
    + intros _. apply send_done_ne.
  - (* OutRead *)
    exists c. destruct (out_end (ws_run tr) || closed (ws_run tr))%bool eqn:B.
    { apply inv_same; try discriminate; [exact I|]. cbn [ws_step]. rewrite B. reflexivity. }
    assert (ES : ws_step (ws_run tr) (OutRead n ok) = out_read n ok (ws_run tr)).
    { cbn [ws_step]. rewrite B. reflexivity. }
    apply Bool.orb_false_iff in B as [B1 B2].
    assert (F0 : q (out_read n ok (ws_run tr)) = q (ws_run tr) /\ active (out_read n ok (ws_run tr)) = active (ws_run tr)).
    { unfold out_read. destruct (expired (ws_run tr)), (sq (ws_run tr)), (sgone (ws_run tr)), ok; auto. }
    assert (F : client_frames (tr ++ OutRead n ok :: nil) = c ++ q (ws_step (ws_run tr) (OutRead n ok))).
    { rewrite ES, (proj1 F0). snoc_simpl. apply I. }
    pose proof (active_keep tr c (OutRead n ok) I ltac:(rewrite ES; apply F0) F) as AK. clear F0.
    destruct (i_server _ _ _ I) as (l & L1 & L2 & L3). specialize (L2 B1). subst l. cbn [app] in L1.
    assert (END : forall r, r <> FromClient -> r <> NoPong ->
      (r = FromServer -> sq (ws_run tr) = nil /\ sgone (ws_run tr) = true) ->
      ws_step (ws_run tr) (OutRead n ok) = end_out r (ws_run tr) ->
      inv (tr ++ OutRead n ok :: nil) (end_out r (ws_run tr)) c).
    { intros r R1 R2 R3 E. rewrite E in *.
      constructor; try exact F; try exact AK; cbn [end_out cgone sgone in_end tosrv pending done now tocli closed watch_end out_end sq];
        snoc_simpl; try apply I.
      - intros D. apply send_done_some in D as [D|[_ D]]; [|congruence]. apply (i_client _ _ _ I D).
      - exists nil. cbn [app]. split; [exact L1|]. split; [reflexivity|].
        intros D. apply send_done_some in D as [D|[_ D]].
        + destruct (L3 D) as (Y & _). congruence.
        + destruct (R3 D). auto.
      - intros D. apply send_done_some in D as [D|[_ D]]; [|congruence]. apply (nopong_keep _ _ _ _ I). exact D.
      - intros _. left. apply send_done_ne.
      - intros _. apply send_done_ne. }
    unfold out_read in ES. destruct (expired (ws_run tr)) eqn:X.
    { rewrite ES. apply END; [discriminate|discriminate|discriminate|exact ES]. }
    destruct (sq (ws_run tr)) as [|b0 bs] eqn:Q.
    { destruct (sgone (ws_run tr)) eqn:G.
      - rewrite ES. apply END; [discriminate|discriminate|auto|exact ES].
      - apply inv_same; try discriminate; [exact I|exact ES]. }
    set (k := Nat.min (S n) buf_size) in *.
    assert (K : 1 <= k <= buf_size) by (unfold k, buf_size; lia).
    assert (KL : 1 <= List.length (firstn k (b0 :: bs)) <= buf_size).
    { rewrite firstn_length. cbn [List.length]. lia. }
    destruct ok.
    + rewrite ES in *. constructor; try exact F; try exact AK;
        cbn [cgone sgone in_end tosrv done now tocli closed watch_end out_end sq pending q];
        snoc_simpl; try apply I.
      * exists nil. cbn [app]. rewrite concat_app. cbn [List.concat]. rewrite app_nil_r, <- app_assoc, firstn_skipn.
        split; [exact L1|]. split; [reflexivity|]. intros D. destruct (L3 D) as (Y & _). congruence.
      * apply Forall_app. split; [apply I|]. constructor; [exact KL|constructor].
      * intros D. apply (nopong_keep _ _ _ _ I). exact D.
      * intros W. destruct (i_watch _ _ _ I W) as [Y|Y]; [left; exact Y|right; apply in_snoc; exact Y].
    + rewrite ES in *. constructor; try exact F; try exact AK;
        cbn [end_out cgone sgone in_end tosrv done now tocli closed watch_end out_end sq pending q];
        snoc_simpl; try apply I.
      * intros D. apply send_done_some in D as [D|[_ D]]; [|discriminate]. apply (i_client _ _ _ I D).
      * exists (firstn k (b0 :: bs)). rewrite firstn_skipn. split; [exact L1|]. split; [discriminate|].
        intros D. apply send_done_some in D as [D|[_ D]]; [|discriminate]. destruct (L3 D) as (Y & _). congruence.
      * intros D. apply send_done_some in D as [D|[_ D]]; [|discriminate]. apply (nopong_keep _ _ _ _ I). exact D.
      * intros _. left. apply send_done_ne.
      * intros _. apply send_done_ne.
  - (* Tick *)
    exists c. destruct (watch_end (ws_run tr) || closed (ws_run tr))%bool eqn:B.
    { apply inv_same; try discriminate; [exact I|]. cbn [ws_step]. rewrite B. reflexivity. }
    assert (ES : ws_step (ws_run tr) Tick = watch false (ws_run tr)) by (cbn [ws_step]; rewrite B; reflexivity).
    assert (F : client_frames (tr ++ Tick :: nil) = c ++ q (ws_step (ws_run tr) Tick)).
    { rewrite ES. snoc_simpl. apply I. }
    pose proof (active_keep tr c Tick I ltac:(rewrite ES; reflexivity) F) as AK.
    rewrite ES in *. apply Bool.orb_false_iff in B as [B1 B2].
    assert (DN : forall x, done (watch false (ws_run tr)) = Some x -> done (ws_run tr) = Some x \/
              (x = NoPong /\ 30 < now (ws_run tr) - active (ws_run tr))).
    { cbn [watch done]. destruct (Nat.ltb_spec 30 (now (ws_run tr) - active (ws_run tr))); [|auto].
      intros x D. apply send_done_some in D as [D|[_ D]]; auto. }
    constructor; try exact F; try exact AK; snoc_simpl; try apply I.
    + intros D. apply DN in D as [D|[D _]]; [|discriminate]. apply (i_client _ _ _ I D).
    + destruct (i_server _ _ _ I) as (l & L1 & L2 & L3). exists l. split; [exact L1|]. split; [exact L2|].
      intros D. apply DN in D as [D|[D _]]; [auto|discriminate].
    + intros D. apply DN in D as [D|[_ D]]; [apply (nopong_keep _ _ _ _ I D)|].
      destruct (i_active _ _ _ I) as (tr1 & tr2 & E & A & P). exists tr1, tr2, nil.
      split; [rewrite E, <- app_assoc; reflexivity|]. rewrite <- E. split; [|exact P].
      rewrite (i_now _ _ _ I), A, E, elapsed_app in D. lia.
    + cbn [watch watch_end orb done]. intros W. left. rewrite W. apply send_done_ne.
    + cbn [watch closed]. congruence.
  - (* CtxDone *)
    exists c. destruct (watch_end (ws_run tr) || closed (ws_run tr))%bool eqn:B.
    { apply inv_same; try discriminate; [exact I|]. cbn [ws_step]. rewrite B. reflexivity. }
    assert (ES : ws_step (ws_run tr) CtxDone = watch true (ws_run tr)) by (cbn [ws_step]; rewrite B; reflexivity).
    assert (F : client_frames (tr ++ CtxDone :: nil) = c ++ q (ws_step (ws_run tr) CtxDone)).
    { rewrite ES. snoc_simpl. apply I. }
    pose proof (active_keep tr c CtxDone I ltac:(rewrite ES; reflexivity) F) as AK.
    rewrite ES in *.
    constructor; try exact F; try exact AK; snoc_simpl; try apply I.
    + intros D. apply (nopong_keep _ _ _ _ I D).
    + intros _. right. apply in_or_app. right. left. reflexivity.
  - (* Finish *)
    exists c.
    assert (F : client_frames (tr ++ Finish :: nil) = c ++ q (ws_step (ws_run tr) Finish)).
    { snoc_simpl. apply I. }
    pose proof (active_keep tr c Finish I eq_refl F) as AK.
    constructor; try exact F; try exact AK; snoc_simpl; try apply I.
    + intros D. apply (nopong_keep _ _ _ _ I D).
    + intros W. destruct (i_watch _ _ _ I W) as [Y|Y]; [left; exact Y|right; apply in_snoc; exact Y].
    + cbn [ws_step finish closed done]. destruct (done (ws_run tr)); discriminate.
Qed.

Lemma inv_run tr : exists c, inv tr (ws_run tr) c.
Proof.
  induction tr as [|o tr [c I]] using rev_ind.
  - exists nil. constructor; try reflexivity; try discriminate.
    + exists nil. repeat split; discriminate.
    + constructor.
    + exists nil, nil. auto.
  - rewrite run_snoc. apply inv_step with (c := c). exact I.
Qed.

Record inv2 (tr : list wsop) (s : ws) : Prop := {
  j_in : in_end s = true -> done s <> None;
  j_out : out_end s = true -> done s <> None;
  j_exp : expired s = true -> In CtxDone tr
}.

Lemma in_read_done n s : (in_end (in_read n s) = in_end s /\ done (in_read n s) = done s \/ done (in_read n s) <> None) /\
  out_end (in_read n s) = out_end s /\ expired (in_read n s) = expired s /\ (done s <> None -> done (in_read n s) <> None).
Proof.
  unfold in_read. destruct (pending s); [|auto]. destruct (rest s).
  - destruct (q s) as [|[o fi p| | |] ?].
    + destruct (cgone s); cbn; repeat split; auto; first [apply send_done_ne | right; apply send_done_ne | intros _; apply send_done_ne].
    + destruct (fin s); [|destruct (cur s) as [[]|]]; destruct o; cbn; repeat split; auto;
        first [apply send_done_ne | right; apply send_done_ne | intros _; apply send_done_ne].
    + cbn; auto.
    + cbn; auto.
    + cbn; repeat split; first [apply send_done_ne | right; apply send_done_ne | intros _; apply send_done_ne].
  - destruct (cur s) as [[]|]; cbn; auto.
Qed.

Lemma inv2_step tr s o : inv2 tr s -> inv2 (tr ++ o :: nil) (ws_step s o).
Proof.
  intros [I1 I2 I3].
  assert (K : inv2 (tr ++ o :: nil) s) by (constructor; auto using in_snoc).
  destruct o as [f| |b| |d|n|n| |n ok| | |]; cbn [ws_step].
  - destruct (cgone s); [exact K|]. constructor; cbn; auto using in_snoc.
  - constructor; cbn; auto using in_snoc.
  - destruct (sgone s); [exact K|]. constructor; cbn; auto using in_snoc.
  - constructor; cbn; auto using in_snoc.
  - constructor; cbn; auto using in_snoc.
  - destruct (in_end s || closed s)%bool; [exact K|].
    destruct (in_read_done n s) as (A & B & C & D). constructor; rewrite ?B, ?C; auto using in_snoc.
    destruct A as [[-> ->]|A]; auto.
  - destruct (in_end s || closed s)%bool; [exact K|]. destruct (pending s); [exact K|].
    destruct (expired s) eqn:X; constructor; cbn; auto using in_snoc, send_done_ne. rewrite X. discriminate.
  - destruct (in_end s || closed s)%bool; [exact K|]. destruct (pending s); [exact K|].
    constructor; cbn; auto using in_snoc, send_done_ne.
  - destruct (out_end s || closed s)%bool; [exact K|]. unfold out_read.
    destruct (expired s) eqn:X; [constructor; cbn; auto using in_snoc, send_done_ne|].
    destruct (sq s); [destruct (sgone s); [|exact K]|destruct ok]; constructor; cbn; auto using in_snoc, send_done_ne;
      rewrite X; discriminate.
  - destruct (watch_end s || closed s)%bool; [exact K|].
    constructor; cbn [watch in_end out_end expired done orb]; auto using in_snoc;
      intros H; destruct (30 <? now s - active s); auto using send_done_ne.
  - destruct (watch_end s || closed s)%bool; [exact K|]. constructor; cbn; auto using in_snoc.
    intros _. apply in_or_app. right. left. reflexivity.
  - constructor; cbn; auto using in_snoc.
Qed.

Lemma inv2_run tr : inv2 tr (ws_run tr).
Proof.
  induction tr as [|o tr I] using rev_ind.
  - constructor; discriminate.
  - rewrite run_snoc. apply inv2_step. exact I.
Qed.

(** *** Progress *)

Fixpoint weight (fs : list frame) : nat :=
  match fs with
  | nil => 0
  | Data _ _ p :: fs => 1 + 3 * List.length p + weight fs
  | _ :: fs => 1 + weight fs
  end.

Definition measure (s : ws) : nat := 2 * List.length (pending s) + 3 * List.length (rest s) + weight (q s).

Lemma run_app a b : ws_run (a ++ b) = fold_left ws_step b (ws_run a).
Proof. unfold ws_run. apply fold_left_app. Qed.

Lemma reads_frames b : Forall reads b -> forall a, client_frames (a ++ b) = client_frames a.
Proof.
  induction b as [|o b IH]; intros H a; [rewrite app_nil_r; reflexivity|].
  inversion H; subst. replace (a ++ o :: b) with ((a ++ o :: nil) ++ b) by (rewrite <- app_assoc; reflexivity).
  rewrite IH by assumption. apply no_frames_snoc. destruct o; discriminate || contradiction.
Qed.

Lemma to_server_progress : forall m tr, measure (ws_run tr) <= m ->
  in_end (ws_run tr) = false -> closed (ws_run tr) = false -> expired (ws_run tr) = false ->
  exists steps, Forall reads steps /\
    tosrv (ws_run (tr ++ steps)) = binary_contents None (client_frames tr).
Proof.
  induction m as [m IH] using (well_founded_induction lt_wf). intros tr Hm E C X.
  assert (REC : forall o, reads o -> measure (ws_run (tr ++ o :: nil)) < measure (ws_run tr) ->
    in_end (ws_run (tr ++ o :: nil)) = false -> closed (ws_run (tr ++ o :: nil)) = false ->
    expired (ws_run (tr ++ o :: nil)) = false ->
    exists steps, Forall reads steps /\ tosrv (ws_run (tr ++ steps)) = binary_contents None (client_frames tr)).
  { intros o R L E' C' X'. destruct (IH (measure (ws_run (tr ++ o :: nil))) ltac:(lia) _ (le_n _) E' C' X') as (st & R' & H).
    exists (o :: st). split; [constructor; assumption|]. rewrite <- app_assoc in H. cbn [app] in H.
    rewrite H. f_equal. apply (reads_frames (o :: nil)). constructor; [exact R|constructor]. }
  destruct (inv_run tr) as [c I].
  destruct (pending (ws_run tr)) as [|p0 ps] eqn:P.
  - destruct (rest (ws_run tr)) as [|r0 rs] eqn:R.
    + assert (C0 : curpart (ws_run tr) = nil) by (unfold curpart; rewrite R; destruct (cur _) as [[]|]; reflexivity).
      assert (FIN : binary_contents (between (ws_run tr)) (q (ws_run tr)) = nil ->
        exists steps, Forall reads steps /\ tosrv (ws_run (tr ++ steps)) = binary_contents None (client_frames tr)).
      { intros H. exists nil. split; [constructor|]. rewrite app_nil_r, (i_frames _ _ _ I), (i_open _ _ _ I E), P, C0, H.
        cbn [app]. symmetry. apply app_nil_r. }
      destruct (q (ws_run tr)) as [|f q'] eqn:Q; [apply FIN; reflexivity|].
      assert (STEP : ws_run (tr ++ InRead 0 :: nil) = in_read 0 (ws_run tr)).
      { rewrite run_snoc. cbn [ws_step]. rewrite E, C. reflexivity. }
      assert (M0 : measure (ws_run tr) = weight (f :: q')) by (unfold measure; rewrite P, R, Q; cbn; lia).
      unfold in_read in STEP. rewrite P, R, Q in STEP.
      change (if fin (ws_run tr) then None else cur (ws_run tr)) with (between (ws_run tr)) in STEP.
      destruct f as [o fi p| | |].
      * destruct (between (ws_run tr)) as [b|] eqn:B; destruct o; try (apply FIN; reflexivity);
          (apply (REC (InRead 0) Logic.I); rewrite STEP; cbn [set_in in_end closed expired]; try assumption;
           rewrite M0; unfold measure; cbn [set_in pending rest q weight List.length]; lia).
      * apply (REC (InRead 0) Logic.I); rewrite STEP; cbn [set_in in_end closed expired]; try assumption.
        rewrite M0. unfold measure. cbn [set_in pending rest q weight List.length]. lia.
      * apply (REC (InRead 0) Logic.I); rewrite STEP; cbn [set_in in_end closed expired]; try assumption.
        rewrite M0. unfold measure. cbn [set_in pending rest q weight List.length]. lia.
      * apply FIN. destruct (between (ws_run tr)) as [[]|]; reflexivity.
    + assert (STEP : ws_run (tr ++ InRead 0 :: nil) = in_read 0 (ws_run tr)).
      { rewrite run_snoc. cbn [ws_step]. rewrite E, C. reflexivity. }
      unfold in_read in STEP. rewrite P, R in STEP.
      apply (REC (InRead 0) Logic.I); rewrite STEP;
        destruct (cur (ws_run tr)) as [[]|]; cbn [set_in in_end closed expired]; try assumption;
        unfold measure; rewrite P, R; cbn [set_in pending rest q firstn skipn List.length]; lia.
  - assert (STEP : ws_run (tr ++ InWrite 0 :: nil) = in_write 0 (ws_run tr)).
    { rewrite run_snoc. cbn [ws_step]. rewrite E, C, P, X. reflexivity. }
    apply (REC (InWrite 0) Logic.I); rewrite STEP; try assumption.
    unfold measure. cbn [in_write pending rest q]. rewrite P. cbn [skipn List.length]. lia.
Qed.

Lemma sends_bytes b : Forall sends b -> forall a, server_bytes (a ++ b) = server_bytes a.
Proof.
  induction b as [|o b IH]; intros H a; [rewrite app_nil_r; reflexivity|].
  inversion H; subst. replace (a ++ o :: b) with ((a ++ o :: nil) ++ b) by (rewrite <- app_assoc; reflexivity).
  rewrite IH by assumption. apply no_bytes_snoc. destruct o; discriminate || contradiction.
Qed.

Lemma to_client_progress : forall m tr, List.length (sq (ws_run tr)) <= m ->
  out_end (ws_run tr) = false -> closed (ws_run tr) = false -> expired (ws_run tr) = false ->
  exists steps, Forall sends steps /\ List.concat (tocli (ws_run (tr ++ steps))) = server_bytes tr.
Proof.
  induction m as [m IH] using (well_founded_induction lt_wf). intros tr Hm E C X.
  destruct (inv_run tr) as [c I]. destruct (i_server _ _ _ I) as (l & L1 & L2 & _). rewrite (L2 E) in L1. cbn [app] in L1.
  destruct (sq (ws_run tr)) as [|b0 bs] eqn:Q.
  - exists nil. split; [constructor|]. rewrite app_nil_r in *. congruence.
  - assert (STEP : ws_run (tr ++ OutRead 0 true :: nil) = out_read 0 true (ws_run tr)).
    { rewrite run_snoc. cbn [ws_step]. rewrite E, C. reflexivity. }
    unfold out_read in STEP. rewrite X, Q in STEP.
    assert (E1 : out_end (ws_run (tr ++ OutRead 0 true :: nil)) = false) by (rewrite STEP; exact E).
    assert (C1 : closed (ws_run (tr ++ OutRead 0 true :: nil)) = false) by (rewrite STEP; exact C).
    assert (X1 : expired (ws_run (tr ++ OutRead 0 true :: nil)) = false) by (rewrite STEP; reflexivity).
    assert (Q1 : List.length (sq (ws_run (tr ++ OutRead 0 true :: nil))) <= List.length bs) by (rewrite STEP; apply le_n).
    destruct (IH (List.length bs) ltac:(cbn [List.length] in Hm; lia) _ Q1 E1 C1 X1) as (st & R & H).
    exists (OutRead 0 true :: st). split; [constructor; [exact Logic.I|exact R]|].
    rewrite <- app_assoc in H. cbn [app] in H. rewrite H. apply (sends_bytes (OutRead 0 true :: nil)).
    constructor; [exact Logic.I|constructor].
Qed.

(** *** The watchdog *)

Lemma pongs_step tr o : pongs_read (tr ++ o :: nil) = pongs_read tr /\
    active (ws_run (tr ++ o :: nil)) = active (ws_run tr) \/
  pongs_read (tr ++ o :: nil) = S (pongs_read tr).
Proof.
  destruct (inv_run tr) as [c I].
  rewrite (pongs_read_inv tr c) by apply I.
  assert (KEEP : client_frames (tr ++ o :: nil) = c ++ q (ws_step (ws_run tr) o) ->
    active (ws_step (ws_run tr) o) = active (ws_run tr) ->
    pongs_read (tr ++ o :: nil) = pongs c /\ active (ws_run (tr ++ o :: nil)) = active (ws_run tr) \/
    pongs_read (tr ++ o :: nil) = S (pongs c)).
  { intros F A. left. rewrite run_snoc. split; [|exact A]. apply pongs_read_inv. rewrite run_snoc. exact F. }
  destruct o as [f| |b| |d|n|n| |n ok| | |].
  - apply KEEP; cbn [ws_step].
    + rewrite frames_snoc, <- (i_cgone _ _ _ I), (i_frames _ _ _ I).
      destruct (cgone (ws_run tr)); [apply app_nil_r|]. cbn [world q]. rewrite app_assoc. reflexivity.
    + destruct (cgone (ws_run tr)); reflexivity.
  - apply KEEP; [snoc_simpl; apply I|reflexivity].
  - apply KEEP; cbn [ws_step]; destruct (sgone (ws_run tr)); try reflexivity; snoc_simpl; apply I.
  - apply KEEP; [snoc_simpl; apply I|reflexivity].
  - apply KEEP; [snoc_simpl; apply I|reflexivity].
  - destruct (in_end (ws_run tr) || closed (ws_run tr))%bool eqn:B.
    { apply KEEP; cbn [ws_step]; rewrite B; [snoc_simpl; apply I|reflexivity]. }
    apply Bool.orb_false_iff in B as [B1 B2].
    destruct (in_read_spec n (ws_run tr) B1) as (_ & _ & _ & _ & _ & _ & _ & _ & _ & k & K & H).
    assert (ES : ws_step (ws_run tr) (InRead n) = in_read n (ws_run tr)) by (cbn [ws_step]; rewrite B1, B2; reflexivity).
    assert (PR : pongs_read (tr ++ InRead n :: nil) = pongs c + pongs k).
    { rewrite (pongs_read_inv _ (c ++ k)); [apply pongs_app|]. rewrite run_snoc, ES. snoc_simpl.
      rewrite (i_frames _ _ _ I), K, app_assoc. reflexivity. }
    rewrite run_snoc, ES. destruct H as [(_ & _ & _ & [[A P]|[A P]])|(_ & -> & _ & A & _)].
    + left. split; [lia|exact A].
    + right. lia.
    + left. cbn in PR. split; [lia|exact A].
  - apply KEEP; cbn [ws_step]; destruct (in_end _ || closed _)%bool, (pending (ws_run tr)), (expired (ws_run tr));
      try reflexivity; snoc_simpl; apply I.
  - apply KEEP; cbn [ws_step]; destruct (in_end _ || closed _)%bool, (pending (ws_run tr));
      try reflexivity; snoc_simpl; apply I.
  - apply KEEP; cbn [ws_step]; unfold out_read;
      destruct (out_end _ || closed _)%bool, (expired (ws_run tr)), (sq (ws_run tr)), (sgone (ws_run tr)), ok;
      try reflexivity; snoc_simpl; apply I.
  - apply KEEP; cbn [ws_step]; destruct (watch_end _ || closed _)%bool; try reflexivity; snoc_simpl; apply I.
  - apply KEEP; cbn [ws_step]; destruct (watch_end _ || closed _)%bool; try reflexivity; snoc_simpl; apply I.
  - apply KEEP; [snoc_simpl; apply I|reflexivity].
Qed.

Lemma pongs_run tr2 : forall tr1, pongs_read tr1 <= pongs_read (tr1 ++ tr2) /\
  (pongs_read (tr1 ++ tr2) = pongs_read tr1 -> active (ws_run (tr1 ++ tr2)) = active (ws_run tr1)).
Proof.
  induction tr2 as [|o tr2 IH]; intros tr1; [rewrite app_nil_r; auto|].
  replace (tr1 ++ o :: tr2) with ((tr1 ++ o :: nil) ++ tr2) by (rewrite <- app_assoc; reflexivity).
  destruct (IH (tr1 ++ o :: nil)) as [L A]. destruct (pongs_step tr1 o) as [[P E]|P].
  - split; [lia|]. intros Q. rewrite A by lia. exact E.
  - split; [lia|]. intros Q. lia.
Qed.

Lemma active_le tr : active (ws_run tr) <= elapsed tr.
Proof.
  destruct (inv_run tr) as [c I]. destruct (i_active _ _ _ I) as (tr1 & tr2 & E & A & _).
  rewrite A, E, elapsed_app. lia.
Qed.
