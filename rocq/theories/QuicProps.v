(** C69 and C70: a QUIC connection forwarded to a QUIC backend. *)
From Verif Require Import Base QuicModel QuicSpec QuicProofs QuicProofs2 QuicProofs3 QuicProofs4 QuicProofs5.

(** *** C69: streams *)

Lemma joined_proj s x i y j : shape_inv s -> joined s x i y j ->
  exists h v f b t u, hs s h = Some v /\ hx v = x /\ hsrc v = i /\ y = other x /\ hp v = HBridge j f b /\
    strs s x i = Some t /\ strs s y j = Some u /\ proj s h = Some (t, u, f, b) /\
    byProxy t = false /\ byProxy u = true /\ skd t = hkd v /\ skd u = hkd v.
Proof.
  intros I (h & v & f & b & E & X & Y & -> & P). exists h, v, f, b.
  destruct (src_ok s I _ _ E) as (t & T1 & T2 & _ & T4). destruct (dst_ok s I _ _ j E) as (u & U1 & U2 & U3); [now rewrite P|].
  exists t, u. unfold proj. rewrite E, P, T1, U1. rewrite X in *. rewrite Y in *. auto 20.
Qed.

(** C69.  In every history, a stream that is joined was opened by a peer, it is joined to
    a stream of the same kind that the proxy opened on the other connection. *)
Theorem C69_streams_paired : forall cwd dg tr s x i y j, run cwd (init dg) tr = Some s -> joined s x i y j ->
  y = other x /\
  exists t u, strs s x i = Some t /\ strs s y j = Some u /\ byProxy t = false /\ byProxy u = true /\ skd t = skd u.
Proof.
  intros cwd dg tr s x i y j H J. destruct (reach_all _ _ _ _ H) as (I & _ & _).
  destruct (joined_proj _ _ _ _ _ I J) as (h & v & f & b & t & u & _ & _ & _ & Y & _ & T & U & _ & T2 & U2 & T3 & U3).
  split; [exact Y|]. exists t, u. repeat split; congruence.
Qed.
Print Assumptions C69_streams_paired.

(** C69.  No stream is joined to two, in either role. *)
Theorem C69_one_to_one : forall cwd dg tr s x i y j x' i' y' j', run cwd (init dg) tr = Some s ->
  joined s x i y j -> joined s x' i' y' j' ->
  ((x, i) = (x', i') <-> (y, j) = (y', j')) /\ (x, i) <> (y', j').
Proof.
  intros cwd dg tr s x i y j x' i' y' j' H J J'. destruct (reach_all _ _ _ _ H) as (I & _ & _).
  destruct (joined_proj _ _ _ _ _ I J) as (h & v & f & b & t & u & E & X & Y & -> & P & T & U & _ & T2 & U2 & T3 & U3).
  destruct (joined_proj _ _ _ _ _ I J') as (h' & v' & f' & b' & t' & u' & E' & X' & Y' & -> & P' & T' & U' & _ & T2' & U2' & _).
  split; [split|].
  - intro Q. injection Q as -> ->. assert (h = h') by (apply (src_inj s I h v h' v'); congruence). subst h'.
    f_equal. congruence.
  - intro Q. injection Q as Q1 Q2. apply other_inj in Q1. subst x' j'.
    assert (h = h') by (apply (dst_inj s I h v h' v' j); try assumption; try congruence; now rewrite ?P, ?P').
    subst h'. congruence.
  - intro Q. injection Q as Q1 Q2. rewrite <- Q1, <- Q2 in U'. congruence.
Qed.
Print Assumptions C69_one_to_one.

(** C69.  The proxy opens no stream but to join it: a backend or a client never sees a
    stream that the other did not open. *)
Theorem C69_no_stray_stream : forall cwd dg tr s y j u, run cwd (init dg) tr = Some s ->
  strs s y j = Some u -> byProxy u = true -> exists i, joined s (other y) i y j.
Proof.
  intros cwd dg tr s y j u H U B. destruct (reach_all _ _ _ _ H) as (I & _ & _).
  destruct (own_ok s I _ _ _ U B) as (h & v & E & X & D). exists (hsrc v), h, v.
  destruct (hp v) as [| |j' f b] eqn:P; try discriminate. injection D as ->. exists f, b. subst y. rewrite other_other. auto.
Qed.
Print Assumptions C69_no_stray_stream.

(** C69.  Once joined, always joined, to the same stream. *)
Theorem C69_joined_for_good : forall cwd dg tr s tr' s' x i y j, run cwd (init dg) tr = Some s -> joined s x i y j ->
  run cwd s tr' = Some s' -> joined s' x i y j.
Proof.
  intros cwd dg tr s tr' s' x i y j H. assert (I := proj1 (reach_all _ _ _ _ H)). clear H. revert s I.
  induction tr' as [|e tr' IH]; intros s I J R; [injection R as <-; exact J|]. cbn in R.
  destruct (step cwd s e) as [s1|] eqn:E; [|discriminate]. apply (IH s1); [eapply step_shape; eauto| |exact R].
  destruct J as (h & v & f & b & V & X & Y & O & P).
  destruct (changes_shape e) eqn:C.
  - destruct e; try discriminate C; inv_step E.
    + exists h, v, f, b. auto.
    + exists h, v, f, b. split; [|auto]. cbn. destruct (Nat.eqb_spec h (hnext s)) as [->|]; [|exact V].
      apply (hlt s I) in V. lia.
    + exists h, v, f, b. split; [|auto]. cbn. destruct (Nat.eqb_spec h h0) as [->|]; [congruence|exact V].
  - destruct (step_same _ _ _ _ C E) as (_ & _ & _ & Hh). destruct (map_some _ _ _ _ (eq_sym (Hh h)) V) as (w & W & Q).
    unfold hshape in Q. injection Q as Q1 Q2 Q3 Q4. rewrite P in Q4. destruct (hp w) as [| |j' f' b'] eqn:Pw; try discriminate.
    injection Q4 as ->. exists h, w, f', b'. repeat split; congruence.
Qed.
Print Assumptions C69_joined_for_good.

(** C69.  In every history, what the proxy has sent on a stream is the beginning of what it
    received on the stream joined to it, and on a stream that is not joined it has sent
    nothing, not even the end. *)
Theorem C69_data_not_mixed : forall cwd dg tr s, run cwd (init dg) tr = Some s ->
  (forall x i y j t u, joined s x i y j -> strs s x i = Some t -> strs s y j = Some u ->
     prefix (got u) (sent t) /\ prefix (got t) (sent u)) /\
  (forall x i t, strs s x i = Some t -> byProxy t = false -> (forall y j, ~ joined s x i y j) ->
     got t = [] /\ wfin t = false).
Proof.
  intros cwd dg tr s H. destruct (reach_all _ _ _ _ H) as (I & J & D).
  assert (K : forall bd p t u, dir_ok bd p t u -> prefix (got u) (sent t)).
  { intros bd p t u (_ & _ & A). destruct p as [buf| | |err].
    - destruct A as (A & _). rewrite A. exists (buf ++ unread t). reflexivity.
    - destruct A as (A & _). rewrite A. exists []. now rewrite app_nil_r.
    - destruct A as (A & _). rewrite A. exists []. now rewrite app_nil_r.
    - exact (proj1 A). }
  split.
  - intros x i y j t u Jn T U. destruct (joined_proj _ _ _ _ _ I Jn) as (h & v & f & b & t' & u' & _ & _ & _ & _ & _ & T' & U' & Pj & _).
    rewrite T in T'. rewrite U in U'. injection T' as <-. injection U' as <-.
    destruct (D h t u f b Pj) as [D1 D2]. split; eapply K; eassumption.
  - intros x i t T B N. destruct (J x i t T B) as [(A1 & A2 & _) _]; [|auto].
    intros h v E X Y. destruct (hp v) as [| |j f b] eqn:P; try reflexivity. exfalso.
    apply (N (other x) j). exists h, v, f, b. auto.
Qed.
Print Assumptions C69_data_not_mixed.

(** C69.  With the default settings, while both connections are up and nobody has aborted
    either stream and no deadline passed, a peer is told that a stream ended only if the
    other peer ended it, and after it was sent everything. *)
Theorem C69_end_of_stream_partial : forall dg tr s x i y j t u, run (settings None None) (init dg) tr = Some s -> up s ->
  joined s x i y j -> strs s x i = Some t -> strs s y j = Some u -> untouched t -> untouched u ->
  (wfin u = true -> fin t = true /\ got u = sent t) /\
  (wfin t = true -> fin u = true /\ got t = sent u).
Proof.
  intros dg tr s x i y j t u H [G1 G2] Jn T U (T1 & T2 & T3) (U1 & U2 & U3).
  destruct (reach_all _ _ _ _ H) as (I & _ & D).
  destruct (joined_proj _ _ _ _ _ I Jn) as (h & v & f & b & t' & u' & _ & _ & _ & _ & _ & T' & U' & Pj & Bt & Bu & Kt & Ku).
  rewrite T in T'. rewrite U in U'. injection T' as <-. injection U' as <-.
  destruct (D h t u f b Pj) as [D1 D2].
  assert (Bd : bad (settings None None) s t u = false).
  { unfold bad, is_gone. rewrite G1, G2, T1, T2, T3, U1, U2, U3. reflexivity. }
  rewrite Bd in D1, D2.
  assert (K : forall p a c, dir_ok false p a c -> wfin c = true -> got c = sent a /\ over a /\ writable c = true).
  { intros p a c (W1 & W2 & A) W. destruct p as [buf| | |[|]].
    - destruct A as (_ & _ & _ & A). specialize (A W). discriminate.
    - destruct A as (_ & _ & A). specialize (A W). discriminate.
    - destruct A as (A1 & A2 & _). auto.
    - destruct A as (_ & _ & A). specialize (A eq_refl). discriminate.
    - destruct A as (_ & A & _). destruct (A eq_refl) as (A1 & A2 & _). auto. }
  split; intro W.
  - destruct (K _ _ _ D1 W) as (A1 & [A2|A2] & _); [auto|]. unfold readable in A2. rewrite Bt in A2. discriminate.
  - destruct (K _ _ _ D2 W) as (A1 & A2 & A3). unfold writable in A3. rewrite Bt in A3. cbn in A3.
    destruct A2 as [A2|A2]; [auto|]. unfold readable in A2. rewrite Ku, <- Kt in A2. destruct (skd t); [discriminate A3|].
    rewrite Bu in A2. discriminate.
Qed.
Print Assumptions C69_end_of_stream_partial.

(** C69.  With the default settings, while both connections are up: when the proxy has
    nothing left to do, every stream opened by a peer is joined, and unless somebody aborted
    one of the two streams or a deadline passed, everything that was received has been sent
    on, and every end too. *)
Theorem C69_nothing_held_back : forall dg tr s, run (settings None None) (init dg) tr = Some s -> up s ->
  at_rest (settings None None) s ->
  (forall x i t, strs s x i = Some t -> byProxy t = false -> exists j, joined s x i (other x) j) /\
  (forall x i y j t u, joined s x i y j -> strs s x i = Some t -> strs s y j = Some u -> untouched t -> untouched u ->
     got u = sent t /\ got t = sent u /\
     (fin t = true -> wfin u = true) /\ (skd t = Bidi -> fin u = true -> wfin t = true)).
Proof.
  intros dg tr s H Up R. destruct (reach_all _ _ _ _ H) as (I & _ & D). assert (L := reach_life _ _ _ _ H).
  split; [intros x i t T B; eapply rest_joined; eauto|].
  destruct Up as [G1 G2].
  intros x i y j t u Jn T U (T1 & T2 & T3) (U1 & U2 & U3).
  destruct (joined_proj _ _ _ _ _ I Jn) as (h & v & f & b & t' & u' & V & Vx & Vs & -> & P & T' & U' & Pj & Bt & Bu & Kt & Ku).
  rewrite T in T'. rewrite U in U'. injection T' as <-. injection U' as <-.
  destruct (D h t u f b Pj) as [D1 D2].
  assert (Bd : bad (settings None None) s t u = false).
  { unfold bad, is_gone. rewrite G1, G2, T1, T2, T3, U1, U2, U3. reflexivity. }
  rewrite Bd in D1, D2.
  assert (R1 := rest_pc _ s h v Fwd (hx v, hsrc v) (other (hx v), j) f t u R V). unfold ends in R1. rewrite P in R1.
  rewrite Vx, Vs in R1. specialize (R1 eq_refl T U).
  assert (R2 := rest_pc _ s h v Bwd (other (hx v), j) (hx v, hsrc v) b u t R V). unfold ends in R2. rewrite P in R2.
  rewrite Vx, Vs in R2. specialize (R2 eq_refl U T). cbn [fst snd] in R1, R2.
  assert (K : forall p a c iy, dir_ok false p a c ->
     match p with Finished _ => True
     | Copying [] => readable a = true /\ is_gone s iy = false /\ reset a = false /\ rcancel a = false /\ rexp a = false /\ unread a = [] /\ fin a = false
     | _ => False end -> got c = sent a /\ (fin a = true -> wfin c = writable c)).
  { intros p a c iy (W1 & W2 & A) Q. destruct p as [[|]| | |[|]]; try contradiction.
    - destruct Q as (Q1 & _ & _ & _ & _ & Q2 & Q3). destruct A as (A & _). rewrite Q2 in A. cbn in A. rewrite !app_nil_r in A.
      split; [congruence|]. congruence.
    - destruct A as (_ & _ & A). specialize (A eq_refl). discriminate.
    - destruct A as (_ & A & _). destruct (A eq_refl) as (A1 & A2 & [A3|A3]); [auto|discriminate]. }
  destruct (K _ _ _ _ D1 R1) as [A1 A2]. destruct (K _ _ _ _ D2 R2) as [B1 B2].
  split; [exact A1|]. split; [exact B1|]. split; intro F.
  - rewrite (A2 F). unfold writable. now rewrite Bu.
  - intro F2. rewrite (B2 F2). unfold writable. rewrite F. apply orb_true_r.
Qed.
Print Assumptions C69_nothing_held_back.

(** One request and its answer on a bidirectional stream, a second stream of the client at
    the same time, and a unidirectional stream of the backend. *)
Definition ex_streams : list event :=
  [PeerOpen CL Bidi; PeerSend CL 0 (lit "get"); PeerFin CL 0; Accept CL 0; PeerOpen CL Bidi; PeerSend CL 1 (lit "put");
   PeerOpen BE Uni; Accept CL 1; Open 1; Accept BE 0; Open 0; Open 2; PeerSend BE 0 (lit "push"); PeerFin BE 0;
   Read 0 Fwd 2; Read 1 Fwd 3; Write 0 Fwd; Write 1 Fwd; Read 0 Fwd 1; Write 0 Fwd; ReadEOF 0 Fwd; CloseWrite 0 Fwd; CloseRead 0 Fwd;
   PeerSend BE 2 (lit "answer"); PeerFin BE 2; Read 0 Bwd 6; Write 0 Bwd; ReadEOF 0 Bwd; CloseWrite 0 Bwd; CloseRead 0 Bwd;
   Read 2 Fwd 4; Write 2 Fwd; ReadEOF 2 Fwd; ReadEOF 2 Bwd; CloseWrite 2 Fwd; CloseWrite 2 Bwd; CloseRead 2 Fwd; CloseRead 2 Bwd].
Definition seen (s : state) (x : side) (i : nat) : option (str * bool) := option_map (fun t => (got t, wfin t)) (strs s x i).
Example C69_example :
  option_map (fun s => (seen s CL 0, seen s BE 2, seen s BE 1, seen s CL 2, resting (settings None None) s))
    (run (settings None None) (init true) ex_streams)
  = Some (Some (lit "answer", true), Some (lit "get", true), Some (lit "put", false), Some (lit "push", true), true).
Proof. vm_compute. reflexivity. Qed.
(** ... in which every hypothesis of the theorems above holds. *)
Example C69_example_meets : exists s t u, run (settings None None) (init true) ex_streams = Some s /\ up s /\
  at_rest (settings None None) s /\ joined s CL 0 BE 2 /\ strs s CL 0 = Some t /\ strs s BE 2 = Some u /\ untouched t /\ untouched u.
Proof.
  destruct (run (settings None None) (init true) ex_streams) as [s|] eqn:E; [|vm_compute in E; discriminate].
  assert (R : at_rest (settings None None) s).
  { apply resting_ok; [exact (proj1 (reach_all _ _ _ _ E))|]. revert E. vm_compute. intro E. injection E as <-. reflexivity. }
  revert E R. vm_compute run. intros E R. injection E as <-. do 3 eexists. split; [reflexivity|]. split; [split; reflexivity|].
  split; [exact R|]. split; [|repeat split].
  exists 0. do 3 eexists. repeat split.
Qed.

(** C69.  What does not hold: a stream that a peer aborted in the middle looks to the other
    like one that ended there. *)
Theorem C69_reset_looks_like_end_refuted : exists dg tr s t u,
  run (settings None None) (init dg) tr = Some s /\ up s /\ joined s CL 0 BE 0 /\
  strs s CL 0 = Some t /\ strs s BE 0 = Some u /\
  reset t = true /\ fin t = false /\ wfin u = true.
Proof.
  exists false, [PeerOpen CL Bidi; PeerSend CL 0 (lit "first half"); Accept CL 0; Open 0; Read 0 Fwd 10; Write 0 Fwd;
    PeerReset CL 0; ReadErr 0 Fwd].
  do 3 eexists. split; [vm_compute; reflexivity|]. split; [split; reflexivity|]. split; [|repeat split].
  exists 0. do 3 eexists. repeat split.
Qed.
Print Assumptions C69_reset_looks_like_end_refuted.

(** C69.  What does not hold: without anybody ending or aborting anything, a unidirectional
    stream is cut, and the cut looks like its end: the half-close timeout (one minute unless
    configured) starts as soon as such a stream is joined, since the reverse direction ends at once. *)
Theorem C69_unidirectional_timeout_refuted : exists dg tr s t u,
  run (settings None None) (init dg) tr = Some s /\ up s /\ joined s CL 0 BE 0 /\
  strs s CL 0 = Some t /\ strs s BE 0 = Some u /\
  reset t = false /\ stopped t = false /\ reset u = false /\ stopped u = false /\
  fin t = false /\ wfin u = true /\ unread t <> [].
Proof.
  exists false, [PeerOpen CL Uni; PeerSend CL 0 (lit "first half"); Accept CL 0; Open 0; ReadEOF 0 Bwd; CloseWrite 0 Bwd; CloseRead 0 Bwd;
    Read 0 Fwd 10; Write 0 Fwd; PeerSend CL 0 (lit "second half"); Expire CL 0; ReadErr 0 Fwd].
  do 3 eexists. split; [vm_compute; reflexivity|]. split; [split; reflexivity|].
  split; [exists 0; do 3 eexists; repeat split|]. repeat split. discriminate.
Qed.
Print Assumptions C69_unidirectional_timeout_refuted.

(** *** C70: the end of the connections *)

(** C70.  Without new actions of the peers, the network or a clock, the proxy can make only
    so many steps, in whatever order, and it can get to rest. *)
Theorem C70_comes_to_rest : forall cwd dg tr s, run cwd (init dg) tr = Some s ->
  (exists n, forall tr' s', forallb by_proxy tr' = true -> run cwd s tr' = Some s' -> List.length tr' <= n) /\
  (exists tr' s', forallb by_proxy tr' = true /\ run cwd s tr' = Some s' /\ at_rest cwd s').
Proof.
  intros cwd dg tr s H. assert (I := proj1 (reach_all _ _ _ _ H)). split.
  - exists (mu s). intros tr' s' B R. assert (A := run_mu _ _ _ _ I B R). lia.
  - apply (comes_to_rest cwd (S (mu s)) s); [lia|exact I].
Qed.
Print Assumptions C70_comes_to_rest.

(** C70.  When the client's connection is over and the backend's is too, or the backend has
    ended or aborted all its bidirectional streams, then once the proxy has come to rest it
    has let go of both connections. *)
Theorem C70_client_gone_partial : forall cwd dg tr s, run cwd (init dg) tr = Some s -> at_rest cwd s ->
  gone s CL <> None -> gone s BE <> None \/ backend_streams_over s ->
  ended s = true /\ gone s BE <> None.
Proof.
  intros cwd dg tr s H R G O. assert (I := proj1 (reach_all _ _ _ _ H)). assert (L := reach_life _ _ _ _ H).
  assert (K : forall x, gone s x <> None <-> is_gone s x = true) by (intro x; unfold is_gone; destruct (gone s x); split; congruence).
  assert (E : ended s = true).
  { eapply rest_ended; eauto; [now apply K|]. destruct O as [O|O]; [left; now apply K|right; exact O]. }
  split; [exact E|]. apply K. exact (proj2 (ended_gone s L E)).
Qed.
Print Assumptions C70_client_gone_partial.

(** C70.  The proxy does not give up a connection whose client is still there. *)
Theorem C70_not_before_the_client : forall cwd dg tr s, run cwd (init dg) tr = Some s -> ended s = true ->
  exists app, In (ConnGone CL app) tr.
Proof.
  intros cwd dg tr s H E. assert (L := reach_life _ _ _ _ H). eapply client_left; [exact H|]. exact (proj1 (ended_gone s L E)).
Qed.
Print Assumptions C70_not_before_the_client.

(** C70.  When the backend closed its connection, a client whose connection is up is told, for
    every stream it opened that was not joined, that nobody reads it. *)
Theorem C70_refused_streams_partial : forall cwd dg tr s i t, run cwd (init dg) tr = Some s -> at_rest cwd s ->
  gone s CL = None -> gone s BE = Some true -> strs s CL i = Some t -> byProxy t = false ->
  (forall j, ~ joined s CL i BE j) -> rcancel t = true.
Proof.
  intros cwd dg tr s i t H R G1 G2 T B N. assert (I := proj1 (reach_all _ _ _ _ H)). assert (L := reach_life _ _ _ _ H).
  assert (J := reach_refused _ _ _ _ H).
  assert (A : accepted t = true).
  { assert (R1 := R (Accept CL i) eq_refl). cbn [step] in R1. unfold is_gone in R1. rewrite T, G1, B in R1. cbn [orb] in R1.
    destruct (accepted t); [reflexivity|]. cbn in R1. destruct (loops s CL (LAcc (skd t))) eqn:Lp; [discriminate R1|].
    apply (loop_gone s L) in Lp. unfold is_gone in Lp. rewrite G1 in Lp. destruct Lp; discriminate. }
  destruct (acc_h s L _ _ _ T B A) as (h & v & V1 & V2 & V3). destruct (hp v) as [| |j f b] eqn:P.
  - exfalso. assert (R1 := R (OpenFail h) eq_refl). cbn [step] in R1. rewrite V1, P, V2, V3, T in R1. unfold is_gone in R1. cbn in R1.
    rewrite G2 in R1. discriminate.
  - destruct (J h v V1 P V2 G1 G2) as (t' & T' & Q). congruence.
  - exfalso. apply (N j). exists h, v, f, b. auto.
Qed.
Print Assumptions C70_refused_streams_partial.

(** A client that closes its connection after its answers came. *)
Definition ex_close : list event :=
  [PeerOpen CL Bidi; PeerSend CL 0 (lit "get"); PeerFin CL 0; Accept CL 0; Open 0; Read 0 Fwd 3; Write 0 Fwd; ReadEOF 0 Fwd;
   CloseWrite 0 Fwd; CloseRead 0 Fwd; PeerSend BE 0 (lit "answer"); PeerFin BE 0; ConnGone CL true; Read 0 Bwd 6; WriteErr 0 Bwd 0;
   LoopEnd CL (LAcc Uni); LoopEnd BE (LAcc Uni); LoopEnd CL (LAcc Bidi); LoopEnd BE (LAcc Bidi); MainEnd].
Example C70_example :
  option_map (fun s => (gone s CL, gone s BE, ended s, resting (settings None None) s)) (run (settings None None) (init false) ex_close)
  = Some (Some true, Some true, true, true).
Proof. vm_compute. reflexivity. Qed.
Example C70_example_over : exists s, run (settings None None) (init false) ex_close = Some s /\ at_rest (settings None None) s /\
  gone s CL <> None /\ backend_streams_over s.
Proof.
  destruct (run (settings None None) (init false) ex_close) as [s|] eqn:E; [|vm_compute in E; discriminate].
  assert (R : at_rest (settings None None) s).
  { apply resting_ok; [exact (proj1 (reach_all _ _ _ _ E))|]. revert E. vm_compute. intro E. injection E as <-. reflexivity. }
  exists s. split; [reflexivity|]. split; [exact R|]. revert E. vm_compute run. intro E. injection E as <-. split; [discriminate|].
  intros [|i] t; cbn; intro T; [|discriminate]. injection T as <-. cbn. auto.
Qed.

Ltac rest_by_computation E :=
  apply resting_ok; [exact (proj1 (reach_all _ _ _ _ E))|revert E; vm_compute; intro E; injection E as <-; reflexivity].

(** C70.  What does not hold: a client is gone, yet the proxy keeps the connection to the
    backend, since it waits for a stream on which the backend is silent. *)
Theorem C70_silent_backend_refuted : exists dg tr s, run (settings None None) (init dg) tr = Some s /\
  gone s CL <> None /\ at_rest (settings None None) s /\ ended s = false /\ gone s BE = None.
Proof.
  pose (tr := [PeerOpen CL Bidi; Accept CL 0; Open 0; ConnGone CL true; ReadErr 0 Fwd; LoopEnd CL (LAcc Uni); LoopEnd BE (LAcc Uni);
    LoopEnd CL (LAcc Bidi); LoopEnd BE (LAcc Bidi)]).
  exists false, tr. destruct (run (settings None None) (init false) tr) as [s|] eqn:E; [|vm_compute in E; discriminate].
  exists s. split; [reflexivity|]. assert (R : at_rest (settings None None) s) by rest_by_computation E.
  revert E. vm_compute run. intro E. injection E as <-. repeat split; auto. discriminate.
Qed.
Print Assumptions C70_silent_backend_refuted.

(** C70.  What does not hold: the backend closed its connection, yet the client's stays open. *)
Theorem C70_backend_loss_refuted : exists dg tr s, run (settings None None) (init dg) tr = Some s /\
  gone s BE = Some true /\ at_rest (settings None None) s /\ ended s = false /\ gone s CL = None.
Proof.
  pose (tr := [ConnGone BE true; LoopEnd BE (LAcc Uni); LoopEnd BE (LAcc Bidi)]).
  exists false, tr. destruct (run (settings None None) (init false) tr) as [s|] eqn:E; [|vm_compute in E; discriminate].
  exists s. split; [reflexivity|]. assert (R : at_rest (settings None None) s) by rest_by_computation E.
  revert E. vm_compute run. intro E. injection E as <-. repeat split; auto.
Qed.
Print Assumptions C70_backend_loss_refuted.

(** C70.  What does not hold: when the backend's connection was lost (not closed), a stream of
    the client that cannot be joined is neither refused nor ended: the client waits. *)
Theorem C70_lost_stream_refuted : exists dg tr s t, run (settings None None) (init dg) tr = Some s /\
  gone s BE <> None /\ gone s CL = None /\ at_rest (settings None None) s /\
  strs s CL 0 = Some t /\ (forall j, ~ joined s CL 0 BE j) /\ rcancel t = false /\ wfin t = false.
Proof.
  pose (tr := [ConnGone BE false; LoopEnd BE (LAcc Uni); LoopEnd BE (LAcc Bidi); PeerOpen CL Bidi; PeerSend CL 0 (lit "get");
    PeerFin CL 0; Accept CL 0; OpenFail 0]).
  exists false, tr. destruct (run (settings None None) (init false) tr) as [s|] eqn:E; [|vm_compute in E; discriminate].
  exists s. assert (R : at_rest (settings None None) s) by rest_by_computation E.
  revert E R. vm_compute run. intros E R. injection E as <-. eexists. split; [reflexivity|].
  split; [discriminate|]. split; [reflexivity|]. split; [exact R|]. split; [reflexivity|]. split; [|split; reflexivity].
  intros j (h & v & f & b & V & _ & _ & _ & P). destruct h; cbn in V; [|discriminate]. injection V as <-. discriminate P.
Qed.
Print Assumptions C70_lost_stream_refuted.
