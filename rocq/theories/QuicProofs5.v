From Verif Require Import Base QuicModel QuicSpec QuicProofs QuicProofs2 QuicProofs3 QuicProofs4.

(** ** Streams that could not be joined *)

Definition keeps (s s' : state) : Prop :=
  forall x i t, strs s x i = Some t -> rcancel t = true -> exists t', strs s' x i = Some t' /\ rcancel t' = true.
Lemma keeps_refl s : keeps s s. Proof. intros x i t; eauto. Qed.
Lemma keeps_trans a b c : keeps a b -> keeps b c -> keeps a c.
Proof. intros A B x i t E R. destruct (A x i t E R) as (t1 & E1 & R1). exact (B _ _ _ E1 R1). Qed.
Lemma keeps_str s x i t t' : strs s x i = Some t -> (rcancel t = true -> rcancel t' = true) -> keeps s (set_str x i t' s).
Proof.
  intros E K y j w W R. rewrite str_set. destruct (side_eqb_spec y x) as [->|]; cbn [andb]; [|eauto].
  destruct (Nat.eqb_spec j i) as [->|]; [|eauto]. replace w with t in R by congruence. eauto.
Qed.
Lemma keeps_close s i o : keeps s (close_two i o s).
Proof.
  unfold close_two. destruct (strs s (fst o) (snd o)) as [t|] eqn:E; [|apply keeps_refl]. cbv zeta.
  assert (A : keeps s (set_str (fst o) (snd o) (close_st t) s)) by (eapply keeps_str; eauto).
  destruct (strs (set_str (fst o) (snd o) (close_st t) s) (fst i) (snd i)) as [u|] eqn:E2; [|exact A].
  eapply keeps_trans; [exact A|]. eapply keeps_str; eauto.
Qed.
Lemma keeps_h s s' h v : keeps s s' -> keeps s (set_h h v s'). Proof. intros K x i t E R. exact (K x i t E R). Qed.

Lemma step_keeps cwd s e s' : shape_inv s -> step cwd s e = Some s' -> keeps s s'.
Proof.
  intros I H.
  assert (NW : forall x p k, keeps s (add_str x (new_stream p k) s)).
  { intros x p k y j t E R. cbn. destruct (side_eqb_spec y x) as [->|]; cbn [andb]; [|eauto].
    destruct (Nat.eqb_spec j (snext s x)) as [->|]; [|eauto]. apply (slt s I) in E. lia. }
  destruct e; inv_step H; subst;
    try (eapply keeps_str; [eassumption|cbn; auto]; fail);
    try exact (keeps_refl s).
  - apply NW.
  - apply keeps_h. apply NW.
  - eapply keeps_trans; [apply keeps_h, keeps_refl|]. eapply keeps_str; [eassumption|]. cbn. now intros ->.
  - destruct (cwd d); [|apply keeps_h, keeps_refl]. eapply keeps_trans; [|apply keeps_close]. apply keeps_h, keeps_refl.
  - eapply keeps_trans; [|apply keeps_close]. apply keeps_h, keeps_refl.
  - eapply keeps_trans; [|apply keeps_close]. apply keeps_h. destruct (wfin s0 || negb (writable s0)); [apply keeps_refl|].
    eapply keeps_str; eauto.
  - eapply keeps_trans; [|apply keeps_close]. apply keeps_h, keeps_refl.
  - apply keeps_h. eapply keeps_trans; [eapply (keeps_str s _ _ s0 (cancel_read s0)); [eassumption|cbn; now intros ->]|].
    intros y j t E R. rewrite str_set. destruct (side_eqb_spec y (fst p3)) as [->|]; cbn [andb]; [|eauto].
    destruct (Nat.eqb_spec j (snd p3)) as [->|]; [|eauto]. eexists. split; [reflexivity|].
    cbn. rewrite str_set in E. destruct (side_eqb_spec (fst p3) (fst p2)) as [E1|]; cbn [andb] in E; [|congruence].
    destruct (Nat.eqb_spec (snd p3) (snd p2)) as [E2|]; [|congruence].
    exfalso. unfold ends in Heqo0. destruct (hp h0); try discriminate.
    destruct d; injection Heqo0 as <- <- _; cbn in E1; destruct (hx h0); discriminate.
Qed.

Definition refused_inv (s : state) : Prop :=
  forall h v, hs s h = Some v -> hp v = HFailed -> hx v = CL -> gone s CL = None -> gone s BE = Some true ->
    exists t, strs s CL (hsrc v) = Some t /\ rcancel t = true.

Lemma step_gone cwd s e s' x : step cwd s e = Some s' -> (forall y a, e <> ConnGone y a) -> e <> MainEnd -> gone s' x = gone s x.
Proof.
  intros H N1 N2. destruct (work e) eqn:W.
  { destruct (work_shape _ _ _ _ W H) as [F _]. unfold frame in F. congruence. }
  destruct e; try discriminate W; try congruence; inv_step H; reflexivity.
Qed.

Lemma step_refused cwd s e s' : shape_inv s -> life_inv s -> refused_inv s -> step cwd s e = Some s' -> refused_inv s'.
Proof.
  intros I L J H g v G P X G1 G2.
  assert (K := step_keeps _ _ _ _ I H).
  assert (Old : hs s g = Some v -> gone s CL = None -> gone s BE = Some true ->
     exists t, strs s' CL (hsrc v) = Some t /\ rcancel t = true).
  { intros E A B. destruct (J g v E P X A B) as (t & T & R). exact (K _ _ _ T R). }
  destruct (work e) eqn:W.
  { destruct (work_shape _ _ _ _ W H) as (F & h & v0 & d & p & V1 & V2 & V3). unfold frame in F.
    apply Old; try congruence. rewrite V3 in G. destruct (g =? h); [|exact G]. injection G as <-.
    destruct (set_pc_x v0 d p) as (_ & _ & Q). rewrite P in Q. cbn in Q. congruence. }
  destruct e; try discriminate W;
    try (assert (A1 := step_gone _ _ _ _ CL H ltac:(congruence) ltac:(congruence));
         assert (A2 := step_gone _ _ _ _ BE H ltac:(congruence) ltac:(congruence))).
  - inv_step H. apply Old; [exact G|exact G1|exact G2].
  - inv_step H. apply Old; [exact G|exact G1|exact G2].
  - inv_step H. apply Old; [exact G|exact G1|exact G2].
  - inv_step H. apply Old; [exact G|exact G1|exact G2].
  - inv_step H. apply Old; [exact G|exact G1|exact G2].
  - inv_step H. apply Old; [exact G|exact G1|exact G2].
  - (* ConnGone *)
    inv_step H. cbn in G1, G2. destruct x; cbn in *; [discriminate|].
    destruct (failed_gone s L _ _ G P) as [N|N]; unfold is_gone in N; [|rewrite G1 in N; discriminate].
    rewrite X in N. cbn in N. apply Old; auto. destruct (gone s BE); [exact G2|discriminate N].
  - inv_step H. cbn in G. destruct (g =? hnext s); [injection G as <-; discriminate P|]. apply Old; assumption.
  - inv_step H. apply Old; [exact G|exact G1|exact G2].
  - inv_step H. cbn in G. destruct (g =? h); [injection G as <-; discriminate P|]. apply Old; assumption.
  - (* OpenFail *)
    cbn [step] in H. destruct (hs s h) as [w|] eqn:E; [|discriminate]. destruct (hp w) eqn:Pw; try discriminate.
    destruct (is_gone s (other (hx w)) || is_gone s CL) eqn:Gn; [|discriminate].
    destruct (src_ok s I _ _ E) as (t1 & T1 & T2 & _). rewrite T1 in H.
    assert (FG : hs s' = (fun j => if j =? h then Some (set_hp w HFailed) else hs s j))
      by (destruct (gone s (other (hx w))) as [[|]|]; injection H as <-; reflexivity).
    rewrite FG in G. destruct (g =? h); [|apply Old; congruence]. injection G as <-. cbn in X |- *.
    rewrite X in *. cbn [other] in *. rewrite A2 in G2. rewrite G2 in H. injection H as <-. exists (cancel_read t1).
    split; [apply str_eq|]. cbn. unfold readable. rewrite T2. cbn. apply orb_true_r.
  - inv_step H. cbn in G1. discriminate.
Qed.

Lemma run_refused cwd tr : forall s s', shape_inv s -> life_inv s -> refused_inv s -> run cwd s tr = Some s' -> refused_inv s'.
Proof.
  induction tr as [|e tr IH]; cbn; intros s s' I L J H; [injection H as <-; auto|].
  destruct (step cwd s e) as [s1|] eqn:E; [|discriminate].
  apply (IH s1); eauto using step_shape, step_life, step_refused.
Qed.
Lemma reach_refused cwd dg tr s : run cwd (init dg) tr = Some s -> refused_inv s.
Proof. apply run_refused; [apply init_shape|apply init_life|]. intros h v E. discriminate. Qed.

(** ** Only the client ends it *)

Lemma run_app cwd a : forall s b, run cwd s (a ++ b) = match run cwd s a with Some s1 => run cwd s1 b | None => None end.
Proof. induction a as [|e a IH]; intros s b; cbn; [reflexivity|]. destruct (step cwd s e); auto. Qed.

Lemma client_left cwd dg tr : forall s, run cwd (init dg) tr = Some s -> is_gone s CL = true -> exists app, In (ConnGone CL app) tr.
Proof.
  induction tr as [|e tr IH] using rev_ind; intros s H G.
  { injection H as <-. discriminate G. }
  rewrite run_app in H. destruct (run cwd (init dg) tr) as [s1|] eqn:R; [|discriminate]. cbn in H.
  destruct (step cwd s1 e) as [s2|] eqn:E; [|discriminate]. injection H as ->.
  destruct (is_gone s1 CL) eqn:G1.
  { destruct (IH s1 eq_refl G1) as (a & A). exists a. apply in_or_app. auto. }
  assert (L := reach_life _ _ _ _ R).
  assert (D : (exists a, e = ConnGone CL a) \/ gone s CL = gone s1 CL).
  { destruct e; try (right; eapply step_gone; [exact E|congruence|congruence]).
    - inv_step E. destruct x; [left; eauto|right; reflexivity].
    - exfalso. inv_step E. apply andb_prop in Heqb. destruct Heqb as [_ B]. unfold all_done in B.
      apply andb_prop in B. destruct B as [B _]. destruct (loops s1 CL (LAcc Uni)) eqn:Lp; [discriminate B|].
      apply (loop_gone s1 L) in Lp. destruct Lp; congruence. }
  destruct D as [(a & ->)|D]; [exists a; apply in_or_app; cbn; auto|]. unfold is_gone in *. rewrite D in G. congruence.
Qed.
