From Verif Require Import Base StreamModel StreamSpec StreamProofs StreamProofs2.

(** The two settings: what the end of a direction leads to. *)
Definition set_ok (sc cc : bool) (s : state) : Prop :=
  (cc = true -> match up s with CopyDone | WriteClosed => False | Finished => bclosed (be s) = true | _ => True end) /\
  (sc = true -> match down s with CopyDone | WriteClosed => False | Finished => bclosed (be s) = true | _ => True end).
Lemma step_set sc cc s e s' : set_ok sc cc s -> step sc cc s e = Some s' -> set_ok sc cc s'.
Proof.
  intros [A B] H. destruct e; inv_step H; unfold set_ok; fields.
  all: repeat match goal with E : up ?s0 = _ |- _ => rewrite E in *; fields | E : down ?s0 = _ |- _ => rewrite E in *; fields | E : ph ?s0 = _ |- _ => rewrite E in *; fields end.
  all: ifs; fields.
  all: split; intros Z; try specialize (A Z); try specialize (B Z); try discriminate Z; try exact I; try contradiction; try reflexivity; try assumption.
  all: repeat match goal with
    | |- context [match up ?s0 with _ => _ end] => destruct (up s0) eqn:?; fields
    | |- context [match down ?s0 with _ => _ end] => destruct (down s0) eqn:?; fields
    end; try exact I; try contradiction; try reflexivity; try assumption; try congruence.
Qed.
Lemma reach_set sc cc u tr s : run sc cc (init u) tr = Some s -> set_ok sc cc s.
Proof.
  assert (G : forall tr0 s s', set_ok sc cc s -> run sc cc s tr0 = Some s' -> set_ok sc cc s').
  { induction tr0 as [|e t IH]; cbn [run]; intros a b K H; [injection H as <-; exact K|].
    destruct (step sc cc a e) eqn:E; [|discriminate]. eapply IH; [|exact H]. exact (step_set _ _ _ _ _ K E). }
  apply G. split; intros _; exact I.
Qed.

(** With both settings off, a two-way stream and no fault, the two directions end independently. *)
Definition half (s : state) : Prop :=
  (bclosed (be s) = true -> ph s = Returned) /\ (up s = Finished -> bended (be s) = true) /\
  (down s = Finished -> bfin (be s) = true /\ got (cl s) = bsent (be s)) /\
  (ph s = Returned -> up s = Finished /\ down s = Finished).
Lemma step_half s e s' : ok s -> calm false false s -> uni (cl s) = false -> fault e = false -> half s ->
  step false false s e = Some s' -> half s'.
Proof.
  intros (K1 & K2 & K3) ((A1 & A1' & A1'') & A2 & A3 & A4 & A5 & A6) U Fe (H1 & H2 & H3 & H4) H.
  unfold up_ok in K1. unfold down_ok in K2.
  destruct e; try discriminate Fe; inv_step H; unfold half, c_read_fails, c_write_fails in *; fields.
  all: repeat match goal with E : up ?s0 = _ |- _ => rewrite E in *; fields | E : down ?s0 = _ |- _ => rewrite E in *; fields | E : ph ?s0 = _ |- _ => rewrite E in *; fields end.
  all: ifs; fields.
  all: repeat match goal with |- _ /\ _ => split end; intros; try discriminate; try assumption; try reflexivity; try congruence.
  all: try solve [intuition (try congruence)].
  all: try match goal with H : fault (UCloseWrite ?b) = false |- _ => destruct b; [|discriminate H] end; cbn [andb] in *; bools.
  all: try match goal with H : fault (DCloseWrite ?b) = false |- _ => destruct b; [|discriminate H] end; cbn [andb] in *; bools.
  all: try match goal with H : fault (DCloseRead ?b) = false |- _ => destruct b; [|discriminate H] end; cbn [andb] in *; bools.
  all: try discriminate; try congruence.
  all: try solve [intuition (try congruence)].
  all: try solve [exfalso; match goal with B : bclosed _ = true |- _ => discriminate (H1 B) end].
  all: repeat match goal with H : _ || _ = true |- _ => apply orb_prop in H; destruct H end; try congruence.
  all: try solve [exfalso; match goal with B : bclosed _ = true |- _ => discriminate (H1 B) end].
  all: exfalso; match goal with W : wdown _ = true |- _ => destruct (A5 W) as [X|[[_ X]|[X _]]]; try congruence end;
    rewrite K2 in X; exact (app_cons_neq _ _ _ X).
Qed.
Lemma reach_half tr s : run false false (init false) tr = Some s -> normal tr -> half s.
Proof.
  assert (G : forall tr0 s s', ok s -> calm false false s -> uni (cl s) = false -> half s -> normal tr0 -> run false false s tr0 = Some s' -> half s').
  { induction tr0 as [|e t IH]; cbn [run]; intros a b K A U W N H; [injection H as <-; exact W|].
    destruct (step false false a e) as [a1|] eqn:E; [|discriminate]. pose proof (N e (or_introl eq_refl)) as Fe.
    apply (IH a1); [|exact (step_calm _ _ _ _ _ K Fe A E)| |exact (step_half _ _ _ K A U Fe W E)|intros x I; apply N; now right|exact H].
    - apply (run_ok false false [e] a); [exact K|]. cbn [run]. now rewrite E.
    - now rewrite (step_uni _ _ _ _ _ E). }
  intros H N. apply (G tr (init false)); [| |reflexivity| |exact N|exact H].
  - split; [|split; [|exact (flags_init false)]]; cbn; [auto|reflexivity].
  - unfold calm; cbn; repeat split; intros; discriminate.
  - unfold half. cbn. repeat split; intros; discriminate.
Qed.

(** After the backend's end a deadline for the client runs. *)
Definition waiting (s : state) : Prop := down s = Finished -> bclosed (be s) = false -> rdl (cl s) = true.
Lemma step_waiting sc cc s e s' : waiting s -> step sc cc s e = Some s' -> waiting s'.
Proof.
  intros A H. destruct e; inv_step H; unfold waiting in *; fields.
  all: repeat match goal with E : up ?s0 = _ |- _ => rewrite E in *; fields | E : down ?s0 = _ |- _ => rewrite E in *; fields | E : ph ?s0 = _ |- _ => rewrite E in *; fields end.
  all: ifs; fields; intros; try discriminate; try congruence; auto.
Qed.
Lemma reach_waiting sc cc u tr s : run sc cc (init u) tr = Some s -> waiting s.
Proof.
  assert (G : forall tr0 s s', waiting s -> run sc cc s tr0 = Some s' -> waiting s').
  { induction tr0 as [|e t IH]; cbn [run]; intros a b K H; [injection H as <-; exact K|].
    destruct (step sc cc a e) eqn:E; [|discriminate]. eapply IH; [|exact H]. exact (step_waiting _ _ _ _ _ K E). }
  apply G. discriminate.
Qed.

(** The client's direction has been read to its end when its copying is over and nothing has failed. *)
Definition read_ok (s : state) : Prop :=
  match up s with
  | Copying _ => True
  | CopyDone | WriteClosed => readDone (cl s) = true
  | Finished => bclosed (be s) = false -> readDone (cl s) = true
  end.
Lemma step_read sc cc s e s' : read_ok s -> step sc cc s e = Some s' -> read_ok s'.
Proof.
  intros A H. destruct e; inv_step H; unfold read_ok in *; fields.
  all: repeat match goal with E : up ?s0 = _ |- _ => rewrite E in *; fields | E : down ?s0 = _ |- _ => rewrite E in *; fields | E : ph ?s0 = _ |- _ => rewrite E in *; fields end.
  all: ifs; fields; try exact I; try assumption; try reflexivity; try discriminate; try (intros; discriminate).
  all: destruct (up s); fields; try exact I; try assumption; try (intros; discriminate); try congruence.
Qed.
Lemma reach_read sc cc u tr s : run sc cc (init u) tr = Some s -> up s = Finished -> bclosed (be s) = false -> readDone (cl s) = true.
Proof.
  assert (G : forall tr0 s s', read_ok s -> run sc cc s tr0 = Some s' -> read_ok s').
  { induction tr0 as [|e t IH]; cbn [run]; intros a b K H; [injection H as <-; exact K|].
    destruct (step sc cc a e) eqn:E; [|discriminate]. eapply IH; [|exact H]. exact (step_read _ _ _ _ _ K E). }
  intros H U. specialize (G tr (init u) s I H). unfold read_ok in G. now rewrite U in G.
Qed.
