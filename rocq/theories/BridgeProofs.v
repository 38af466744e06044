From Verif Require Import Base BridgeModel BridgeSpec.

(** What holds for the direction that reads from [x]. *)
Definition dir_ok (s : state) (x : side) : Prop :=
  match thr s x with
  | Copying buf => sent (eps s x) = got (eps s (other x)) ++ buf ++ unread (eps s x) /\
                   wclosed (eps s (other x)) = false
  | CopyDone => fin (eps s x) = true /\ got (eps s (other x)) = sent (eps s x) /\
                wclosed (eps s (other x)) = false
  | WriteClosed => fin (eps s x) = true /\ got (eps s (other x)) = sent (eps s x) /\
                   wclosed (eps s (other x)) = true
  | Finished err =>
      prefix (got (eps s (other x))) (sent (eps s x)) /\
      (err = false -> fin (eps s x) = true /\ got (eps s (other x)) = sent (eps s x)) /\
      (wclosed (eps s (other x)) = true -> fin (eps s x) = true /\ got (eps s (other x)) = sent (eps s x)) /\
      (wclosed (eps s (other x)) = false -> closed (eps s (other x)) = true)
  end.

Lemma side_eqb_refl x : side_eqb x x = true. Proof. destruct x; reflexivity. Qed.

Ltac cases H :=
  unfold step in H; cbv zeta in H;
  repeat match type of H with
         | match ?e with _ => _ end = Some _ => destruct e eqn:?; try discriminate H
         end; injection H as <-.


Lemma prefix_refl a : prefix a a. Proof. exists []. now rewrite app_nil_r. Qed.
Lemma prefix_app a b c : prefix a b -> prefix a (b ++ c).
Proof. intros [d ->]. exists (d ++ c). now rewrite app_assoc. Qed.
Lemma prefix_firstn a b c n : prefix (a ++ firstn n b) (a ++ b ++ c).
Proof.
  exists (skipn n b ++ c). rewrite <- app_assoc, (app_assoc (firstn n b)), firstn_skipn. reflexivity.
Qed.

Ltac bools := repeat match goal with
  | H : _ || _ = false |- _ => apply orb_false_elim in H; destruct H
  | H : _ && _ = true |- _ => apply andb_prop in H; destruct H
  | H : negb _ = true |- _ => apply negb_true_iff in H
  end.

Ltac wrap := unfold dir_ok in *; cbn in *; intuition (try congruence; auto using prefix_app).

Lemma step_ok cwd s e s' : dir_ok s C -> dir_ok s S -> step cwd s e = Some s' ->
  dir_ok s' C /\ dir_ok s' S.
Proof.
  intros HC HS H.
  destruct e as [x d|x|x|x|x n|x|x|x|x n|x ok|x ok]; destruct x; cbn [step] in H; cbv zeta in H.
  all: repeat match type of H with
         | match ?e with _ => _ end = Some _ => destruct e eqn:?; try discriminate H
         end; injection H as H; match type of H with _ = ?z => subst z end; bools.
  all: unfold dir_ok in *; cbn in *.
  all: repeat match goal with E : thr ?s0 _ = _ |- _ => rewrite E in *; cbn in * end.

  all: repeat match goal with |- context [if ?b then _ else _] => destruct b eqn:?; cbn in * end; bools.
  all: repeat match goal with E : thr ?s0 _ = _ |- _ => rewrite E in *; cbn in * end.
  all: repeat match goal with |- context [match thr ?s0 ?x with _ => _ end] => destruct (thr s0 x) eqn:?; cbn in * end.
  all: try discriminate.
  all: intuition (try congruence; auto using prefix_app, prefix_refl).
  all: try (match goal with H : sent _ = _ |- _ => rewrite H end).
  all: try (match goal with H : unread _ = _ |- _ => rewrite H end).
  all: rewrite ?app_nil_r, ?app_nil_l, ?firstn_skipn, <- ?app_assoc; try reflexivity.
  all: try (match goal with H : got _ = _ |- _ => rewrite H end; apply prefix_refl).
  all: try (eexists; reflexivity).
  all: try apply prefix_firstn.
  all: try (apply prefix_refl).
  all: match goal with |- prefix (?g ++ firstn ?n (?a :: ?l)) (?g ++ ?a :: ?l ++ ?u) =>
         exact (prefix_firstn g (a :: l) u n) end.
Qed.

Lemma run_app cwd tr1 tr2 s : run cwd s (tr1 ++ tr2) =
  match run cwd s tr1 with Some s' => run cwd s' tr2 | None => None end.
Proof. revert s; induction tr1 as [|e tr IH]; intro s; cbn; [reflexivity|]. destruct (step cwd s e); auto. Qed.

Lemma run_ok cwd tr : forall s s', dir_ok s C -> dir_ok s S -> run cwd s tr = Some s' ->
  dir_ok s' C /\ dir_ok s' S.
Proof.
  induction tr as [|e tr IH]; cbn; intros s s' HC HS H.
  - injection H as <-. auto.
  - destruct (step cwd s e) as [s1|] eqn:E; [|discriminate].
    destruct (step_ok _ _ _ _ HC HS E). eauto.
Qed.

Lemma reach_ok cwd tr s x : run cwd init tr = Some s -> dir_ok s x.
Proof.
  intro H. destruct (run_ok cwd tr init s) as [HC HS]; try (cbn; auto; fail); auto.
  destruct x; assumption.
Qed.

(** The proxy closes both connections or none. *)
Definition closed_same (s : state) : Prop := closed (eps s C) = closed (eps s S).

(** A direction that ended early has closed the connections. *)
Definition err_closed (s : state) : Prop := forall x, thr s x = Finished true -> closed (eps s x) = true.

Definition aux_ok (s : state) : Prop := closed_same s /\ err_closed s.

Lemma step_aux cwd s e s' : aux_ok s -> step cwd s e = Some s' -> aux_ok s'.
Proof.
  intros [H1 H2] H. unfold closed_same in H1. assert (H2C := H2 C). assert (H2S := H2 S). clear H2.
  unfold aux_ok, closed_same, err_closed.
  destruct e as [x d|x|x|x|x n|x|x|x|x n|x ok|x ok]; destruct x; cbn [step] in H; cbv zeta in H.
  all: repeat match type of H with
         | match ?e with _ => _ end = Some _ => destruct e eqn:?; try discriminate H
         end; injection H as H; match type of H with _ = ?z => subst z end; bools.
  all: cbn in *.
  all: repeat match goal with |- context [if ?b then _ else _] =>
         lazymatch b with side_eqb _ _ => fail | _ => idtac end; destruct b eqn:?; cbn in * end; bools.
  all: split; [try congruence | intros [|]; cbn in *; intros; try congruence; auto].
Qed.

Lemma reach_aux cwd tr s : run cwd init tr = Some s -> aux_ok s.
Proof.
  assert (forall s0, aux_ok s0 -> run cwd s0 tr = Some s -> aux_ok s) as G.
  { induction tr as [|e tr IH]; cbn; intros s0 H0 H.
    - injection H as <-. auto.
    - destruct (step cwd s0 e) as [s1|] eqn:E; [|discriminate]. eauto using step_aux. }
  apply G. split; [reflexivity | discriminate].
Qed.

(** Deadlines are set only after a half-close. *)
Definition dl_ok (s : state) : Prop :=
  forall x, (deadline (eps s x) = true -> wclosed (eps s x) = true) /\
            (expired (eps s x) = true -> deadline (eps s x) = true) /\
            (thr s (other x) = WriteClosed -> wclosed (eps s x) = true).

Lemma step_dl cwd s e s' : dl_ok s -> step cwd s e = Some s' -> dl_ok s'.
Proof.
  intros D H. destruct (D C) as (D1 & D2 & D3). destruct (D S) as (D4 & D5 & D6). clear D. cbn in D3, D6.
  destruct e as [x d|x|x|x|x n|x|x|x|x n|x ok|x ok]; destruct x; cbn [step] in H; cbv zeta in H.
  all: repeat match type of H with
         | match ?e with _ => _ end = Some _ => destruct e eqn:?; try discriminate H
         end; injection H as H; match type of H with _ = ?z => subst z end; bools.
  all: intros [|]; cbn in *.
  all: repeat match goal with |- context [if ?b then _ else _] =>
         lazymatch b with side_eqb _ _ => fail | _ => idtac end; destruct b eqn:?; cbn in * end; bools.
  all: (split; [|split]); cbn in *; intros; try congruence; auto.
Qed.

Lemma reach_dl cwd tr s : run cwd init tr = Some s -> dl_ok s.
Proof.
  assert (forall s0, dl_ok s0 -> run cwd s0 tr = Some s -> dl_ok s) as G.
  { induction tr as [|e tr IH]; cbn; intros s0 H0 H.
    - injection H as <-. auto.
    - destruct (step cwd s0 e) as [s1|] eqn:E; [|discriminate]. eauto using step_dl. }
  apply G. intros x. cbn. split; [discriminate|]. split; discriminate.
Qed.

(** A direction that has ended left both connections closed, or a deadline on the one it wrote to. *)
Definition end_ok (s : state) : Prop :=
  forall x b, thr s x = Finished b ->
    (closed (eps s C) = true /\ closed (eps s S) = true) \/ deadline (eps s (other x)) = true.

Lemma step_end cwd s e s' : end_ok s -> step cwd s e = Some s' -> end_ok s'.
Proof.
  intros D H. pose proof (D C) as D1. pose proof (D S) as D2. clear D. cbn in D1, D2.
  destruct e as [x d|x|x|x|x n|x|x|x|x n|x ok|x ok]; destruct x; cbn [step] in H; cbv zeta in H.
  all: repeat match type of H with
         | match ?e with _ => _ end = Some _ => destruct e eqn:?; try discriminate H
         end; injection H as H; match type of H with _ = ?z => subst z end; bools.
  all: intros [|] b; cbn in *.
  all: repeat match goal with |- context [if ?b then _ else _] =>
         lazymatch b with side_eqb _ _ => fail | _ => idtac end; destruct b eqn:?; cbn in * end; bools.
  all: cbn in *; intros Hb; try congruence; auto.
  all: try (specialize (D1 _ Hb)); try (specialize (D2 _ Hb)); intuition congruence.
Qed.

Lemma reach_end cwd tr s : run cwd init tr = Some s -> end_ok s.
Proof.
  assert (forall s0, end_ok s0 -> run cwd s0 tr = Some s -> end_ok s) as G.
  { induction tr as [|e tr IH]; cbn; intros s0 H0 H.
    - injection H as <-. auto.
    - destruct (step cwd s0 e) as [s1|] eqn:E; [|discriminate]. eauto using step_end. }
  apply G. intros x b. cbn. discriminate.
Qed.

Lemma rest_finished cwd tr s x : run cwd init tr = Some s -> at_rest cwd s -> fin (eps s x) = true -> closed (eps s x) = false ->
  closed (eps s (other x)) = false -> exists b, thr s x = Finished b.
Proof.
  intros H R F Cx Co. destruct (thr s x) as [[|c buf]| | |b] eqn:T; [| | | |eauto]; exfalso.
  - destruct (unread (eps s x)) eqn:U.
    + specialize (R (ReadEOF x) eq_refl). cbn [step] in R. rewrite T, U, F, Cx in R. cbn in R. discriminate R.
    + specialize (R (Read x 1) eq_refl). cbn [step] in R. rewrite T, U, Cx in R. cbn in R. discriminate R.
  - specialize (R (Write x) eq_refl). cbn [step] in R. rewrite T, Co in R. discriminate R.
  - specialize (R (CloseWrite x true) eq_refl). cbn [step] in R. rewrite T in R. discriminate R.
  - specialize (R (CloseRead x true) eq_refl). cbn [step] in R. rewrite T in R. discriminate R.
Qed.

(** Without faults: why connections are closed. *)
Definition done (s : state) (x : side) : Prop :=
  fin (eps s x) = true /\ got (eps s (other x)) = sent (eps s x).
Definition calm (cwd : side -> bool) (s : state) : Prop :=
  (forall x, broken (eps s x) = false /\ expired (eps s x) = false) /\
  (forall x, closed (eps s x) = true -> exists d, cwd d = true /\ done s d /\ thr s d = Finished false).

Lemma step_thr_final cwd s e s' x b : step cwd s e = Some s' -> thr s x = Finished b -> thr s' x = Finished b.
Proof.
  intros H Hx.
  destruct e as [y d|y|y|y|y n|y|y|y|y n|y ok|y ok]; cbn [step] in H; cbv zeta in H.
  all: repeat match type of H with
         | match ?e with _ => _ end = Some _ => destruct e eqn:?; try discriminate H
         end; injection H as H; match type of H with _ = ?z => subst z end; bools.
  all: cbn in *; try assumption.
  all: repeat match goal with |- context [if ?b then _ else _] =>
         lazymatch b with side_eqb _ _ => fail | _ => idtac end; destruct b eqn:?; cbn in * end; try assumption.
  all: destruct x, y; cbn in *; congruence.
Qed.

Lemma step_calm cwd s e s' : dir_ok s C -> dir_ok s S -> aux_ok s -> calm cwd s -> fault e = false ->
  step cwd s e = Some s' -> calm cwd s'.
Proof.
  intros HC HS Haux [H1 H2] Hf H.
  assert (Hok := step_ok _ _ _ _ HC HS H). destruct Hok as [HC' HS'].
  assert (Hfin : forall d, thr s d = Finished false -> thr s' d = Finished false /\ done s' d).
  { intros d Hd. assert (G := step_thr_final _ _ _ _ _ _ H Hd). split; [exact G|].
    unfold dir_ok in HC', HS'. destruct d; rewrite G in *; unfold done; cbn in *; intuition. }
  split.
  - intro x. assert (H1x := H1 x). clear H2 Hfin HC' HS'.
    destruct e as [y d|y|y|y|y n|y|y|y|y n|y ok|y ok]; cbn in Hf; try discriminate Hf; cbn [step] in H; cbv zeta in H.
    all: repeat match type of H with
         | match ?e with _ => _ end = Some _ => destruct e eqn:?; try discriminate H
         end; injection H as H; match type of H with _ = ?z => subst z end; bools.
    all: cbn in *.
    all: repeat match goal with |- context [if ?b then _ else _] =>
         lazymatch b with side_eqb _ _ => fail | _ => idtac end; destruct b eqn:?; cbn in * end.
    all: destruct x, y; cbn in *; auto.
  - intros x Hx.
    destruct (closed (eps s C)) eqn:EC.
    { destruct (H2 C EC) as (d & Hd1 & _ & Hd3). exists d. destruct (Hfin d Hd3). auto. }
    assert (ES : closed (eps s S) = false) by (destruct Haux as [E _]; unfold closed_same in E; congruence).
    assert (B1 := H1 C). assert (B2 := H1 S). clear H1 H2 Hfin.
    destruct e as [y d|y|y|y|y n|y|y|y|y n|y ok|y ok]; cbn in Hf; try discriminate Hf; cbn [step] in H; cbv zeta in H.
    all: repeat match type of H with
         | match ?e with _ => _ end = Some _ => destruct e eqn:?; try discriminate H
         end; injection H as H; match type of H with _ = ?z => subst z end; bools.
    all: cbn in *.
    all: repeat match goal with H : negb _ = false |- _ => apply negb_false_iff in H end; subst.
    all: try (destruct x, y; cbn in *; try congruence;
              repeat match goal with H : closed _ = false |- _ => rewrite H in * end;
              repeat match goal with H : broken _ = false /\ _ |- _ => destruct H end;
              cbn in *; try congruence; fail).
    all: try (destruct x, y; cbn in *; rewrite ?EC, ?ES in *; intuition congruence).
    2: { exfalso. destruct B1 as [B1 B1'], B2 as [B2 B2'].
         destruct y; rewrite ?EC, ?ES, ?B1, ?B1', ?B2, ?B2' in *; discriminate. }
    destruct (cwd y) eqn:Ey; cbn in *; [|destruct x; congruence].
    exists y. split; [exact Ey|]. unfold dir_ok in HC, HS. unfold done; destruct y; cbn in *.
    + rewrite Heqp in HC. repeat split; try assumption.
      destruct HC as [HC _]. rewrite Heql0 in HC. rewrite HC, !app_nil_r. reflexivity.
    + rewrite Heqp in HS. repeat split; try assumption.
      destruct HS as [HS _]. rewrite Heql0 in HS. rewrite HS, !app_nil_r. reflexivity.
Qed.

Lemma reach_calm cwd tr s : run cwd init tr = Some s -> forallb (fun e => negb (fault e)) tr = true -> calm cwd s.
Proof.
  intros H Hf.
  assert (forall s0, dir_ok s0 C -> dir_ok s0 S -> aux_ok s0 -> calm cwd s0 -> run cwd s0 tr = Some s -> calm cwd s) as G.
  { clear H. induction tr as [|e tr IH]; cbn in Hf |- *; intros s0 A1 A2 A3 A4 H.
    - injection H as <-. auto.
    - apply andb_prop in Hf. destruct Hf as [Hf1 Hf2]. apply negb_true_iff in Hf1.
      destruct (step cwd s0 e) as [s1|] eqn:E; [|discriminate].
      destruct (step_ok _ _ _ _ A1 A2 E). eapply IH; eauto using step_aux, step_calm. }
  apply (G init); auto; try (cbn; auto; fail).
  - split; [reflexivity | discriminate].
  - split; cbn; [auto | discriminate].
Qed.

Lemma got_prefix s x : dir_ok s x -> prefix (got (eps s (other x))) (sent (eps s x)).
Proof.
  unfold dir_ok. destruct (thr s x).
  - intros [-> _]. exists (buf ++ unread (eps s x)). reflexivity.
  - intros (_ & -> & _). apply prefix_refl.
  - intros (_ & -> & _). apply prefix_refl.
  - tauto.
Qed.

Lemma wclosed_done s x : dir_ok s x -> wclosed (eps s (other x)) = true -> done s x.
Proof.
  unfold dir_ok, done. destruct (thr s x).
  - intros [_ ->]. discriminate.
  - intros (_ & _ & ->). discriminate.
  - tauto.
  - tauto.
Qed.

Lemma both_finished cwd tr s bC bS : run cwd init tr = Some s ->
  thr s C = Finished bC -> thr s S = Finished bS ->
  (closed (eps s C) = true /\ closed (eps s S) = true) \/ (done s C /\ done s S).
Proof.
  intros H HC HS. destruct (reach_aux _ _ _ H) as [A1 A2].
  assert (DC := reach_ok _ _ _ C H). assert (DS := reach_ok _ _ _ S H).
  unfold dir_ok in DC, DS. rewrite HC in DC. rewrite HS in DS.
  destruct bC; [left; unfold closed_same in A1; specialize (A2 C HC); split; congruence|].
  destruct bS; [left; unfold closed_same in A1; specialize (A2 S HS); split; congruence|].
  right. unfold done. tauto.
Qed.

Lemma rest_thr cwd s x : at_rest cwd s ->
  (exists b, thr s x = Finished b) \/
  (thr s x = Copying [] /\ unread (eps s x) = [] /\ fin (eps s x) = false /\
   closed (eps s x) = false /\ broken (eps s x) = false /\ expired (eps s x) = false).
Proof.
  intro R. destruct (thr s x) as [buf| | |b] eqn:E; [| | |eauto].
  - destruct buf as [|c buf].
    + right. split; [reflexivity|].
      assert (R1 := R (Read x 1) eq_refl). assert (R2 := R (ReadEOF x) eq_refl).
      assert (R3 := R (ReadErr x) eq_refl). cbn [step] in R1, R2, R3. cbv zeta in R1. rewrite E in R1, R2, R3.
      destruct (closed (eps s x)); [discriminate|]. destruct (broken (eps s x)); [discriminate|].
      destruct (expired (eps s x)); [discriminate|]. cbn [orb andb negb] in *.
      destruct (unread (eps s x)) as [|c l]; [|discriminate].
      destruct (fin (eps s x)); [discriminate|]. auto.
    + exfalso. assert (R1 := R (Write x) eq_refl). assert (R2 := R (WriteErr x 0) eq_refl).
      cbn [step] in R1, R2. rewrite E in R1, R2. destruct (closed (eps s (other x))); discriminate.
  - exfalso. assert (R1 := R (CloseWrite x true) eq_refl). cbn [step] in R1. rewrite E in R1. discriminate.
  - exfalso. assert (R1 := R (CloseRead x true) eq_refl). cbn [step] in R1. rewrite E in R1. discriminate.
Qed.

Lemma rest_delivered cwd tr s : run cwd init tr = Some s -> at_rest cwd s ->
  (closed (eps s C) = true /\ closed (eps s S) = true) \/
  (forall x, got (eps s (other x)) = sent (eps s x) /\
             (fin (eps s x) = true -> wclosed (eps s (other x)) = true) /\
             (broken (eps s x) = true -> fin (eps s x) = true)).
Proof.
  intros H R. destruct (reach_aux _ _ _ H) as [A1 A2]. unfold closed_same in A1.
  destruct (closed (eps s C)) eqn:EC; [left; split; congruence|].
  right. intro x. assert (D := reach_ok _ _ _ x H). assert (Hc : forall y, closed (eps s y) = false)
    by (intros [|]; congruence).
  destruct (rest_thr _ _ x R) as [[b E] | (E & U & F & _ & B & _)]; unfold dir_ok in D; rewrite E in D.
  - destruct D as (_ & D1 & D2 & D3). destruct (wclosed (eps s (other x))) eqn:W.
    + destruct (D2 eq_refl). auto.
    + specialize (D3 eq_refl). rewrite Hc in D3. discriminate.
  - destruct D as [D _]. rewrite U in D. cbn in D. rewrite app_nil_r in D. split; [congruence|].
    split; congruence.
Qed.

Definition work_left (s : state) (x : side) : nat :=
  match thr s x with
  | Copying buf => 3 + 2 * List.length (unread (eps s x)) + (match buf with [] => 0 | _ => 1 end)
  | CopyDone => 2
  | WriteClosed => 1
  | Finished _ => 0
  end.

Lemma step_work cwd s e s' : by_proxy e = true -> step cwd s e = Some s' ->
  work_left s' C + work_left s' S < work_left s C + work_left s S.
Proof.
  intros B H.
  destruct e as [x d|x|x|x|x n|x|x|x|x n|x ok|x ok]; try discriminate B; destruct x; cbn [step] in H; cbv zeta in H.
  all: repeat match type of H with
         | match ?e with _ => _ end = Some _ => destruct e eqn:?; try discriminate H
         end; injection H as H; match type of H with _ = ?z => subst z end; bools.
  all: repeat match goal with H : (_ =? 0) = false |- _ => apply Nat.eqb_neq in H end.
  all: repeat match goal with H : (_ <? _) = false |- _ => apply Nat.ltb_ge in H end.
  all: unfold work_left; cbn.
  all: repeat match goal with |- context [if ?b then _ else _] => destruct b eqn:?; cbn in * end; bools.
  all: repeat match goal with E : thr ?s0 _ = _ |- _ => rewrite E in *; cbn in * end.
  all: rewrite ?skipn_length; cbn.
  all: repeat match goal with |- context [match ?e with _ => _ end] => destruct e end; cbn; lia.
Qed.

Lemma run_work cwd tr : forall s s', forallb by_proxy tr = true -> run cwd s tr = Some s' ->
  List.length tr + (work_left s' C + work_left s' S) <= work_left s C + work_left s S.
Proof.
  induction tr as [|e tr IH]; cbn; intros s s' B H.
  - injection H as <-. lia.
  - apply andb_prop in B. destruct B as [B1 B2]. destruct (step cwd s e) as [s1|] eqn:E; [|discriminate].
    assert (G := IH _ _ B2 H). assert (G2 := step_work _ _ _ _ B1 E). lia.
Qed.

Lemma run_steps cwd s tr s' : forallb by_proxy tr = true -> run cwd s tr = Some s' ->
  List.length tr <= 2 * List.length (unread (eps s C)) + 2 * List.length (unread (eps s S)) + 8.
Proof.
  intros B H. assert (G := run_work _ _ _ _ B H).
  assert (W : forall x, work_left s x <= 2 * List.length (unread (eps s x)) + 4).
  { intro x. unfold work_left. destruct (thr s x) as [[|]| | |]; lia. }
  assert (W1 := W C). assert (W2 := W S). lia.
Qed.
