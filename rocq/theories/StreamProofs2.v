From Verif Require Import Base StreamModel StreamSpec StreamProofs.

Definition ok (s : state) : Prop := up_ok s /\ down_ok s /\ flags_ok s.
Lemma run_ok sc cc tr : forall s s', ok s -> run sc cc s tr = Some s' -> ok s'.
Proof.
  induction tr as [|e tr IH]; cbn; intros s s' K H.
  - injection H as <-. exact K.
  - destruct (step sc cc s e) as [s1|] eqn:E; [|discriminate]. apply (IH s1); [|exact H].
    destruct K as (K1 & K2 & K3). destruct (step_ok _ _ _ _ _ K1 K2 E). split; [assumption|]. split; [assumption|].
    exact (step_flags _ _ _ _ _ K3 E).
Qed.
Lemma reach_ok sc cc u tr s : run sc cc (init u) tr = Some s -> ok s.
Proof.
  apply run_ok. split; [|split; [|exact (flags_init u)]]; cbn; [auto|reflexivity].
Qed.
Lemma run_app sc cc tr1 tr2 s : run sc cc s (tr1 ++ tr2) =
  match run sc cc s tr1 with Some s' => run sc cc s' tr2 | None => None end.
Proof. revert s; induction tr1 as [|e tr IH]; intro s; cbn; [reflexivity|]. destruct (step sc cc s e); auto. Qed.

Lemma up_prefix s : up_ok s -> prefix (bgot (be s)) (sent (cl s)).
Proof.
  unfold up_ok. destruct (up s).
  - intros [-> _]. apply prefix_mid.
  - intros (_ & -> & _). apply prefix_refl.
  - intros (_ & -> & _). apply prefix_refl.
  - intros [P _]. exact P.
Qed.
Lemma down_prefix s : down_ok s -> prefix (got (cl s)) (bsent (be s)).
Proof.
  unfold down_ok. destruct (down s).
  - intros ->. apply prefix_mid.
  - intros (_ & ->). apply prefix_refl.
  - intros (_ & -> & _). apply prefix_refl.
  - intros [P _]. exact P.
Qed.
Lemma up_ended s : up_ok s -> bended (be s) = true -> fin (cl s) = true /\ bgot (be s) = sent (cl s).
Proof.
  unfold up_ok. intros U E. destruct (up s); rewrite E in U.
  - destruct U; discriminate.
  - destruct U as (_ & _ & U); discriminate.
  - destruct U as (? & ? & _); auto.
  - destruct U as (_ & U & _); auto.
Qed.

(** What a rest looks like. *)
Lemma rest_up sc cc s : ok s -> at_rest sc cc s -> ph s = Bridging ->
  up s = Finished \/ (up s = Copying [] /\ unread (cl s) = [] /\ fin (cl s) = false /\ c_read_fails (cl s) = false).
Proof.
  intros K R P. destruct (up s) as [[|a buf]| | |] eqn:U; [right|exfalso|exfalso|exfalso|left; reflexivity].
  - assert (N : c_read_fails (cl s) = false).
    { pose proof (R UReadErr eq_refl) as Q. cbn in Q. rewrite P, U in Q. destruct (c_read_fails (cl s)); [discriminate|reflexivity]. }
    destruct (unread (cl s)) as [|a l] eqn:UN.
    + pose proof (R UEof eq_refl) as Q. cbn in Q. rewrite P, U, UN, N in Q. destruct (fin (cl s)); [destruct cc; discriminate|auto].
    + pose proof (R (URead 1) eq_refl) as Q. cbn in Q. rewrite P, U, UN, N in Q. discriminate Q.
  - pose proof (R UWrite eq_refl) as Q. cbn in Q. rewrite P, U in Q. destruct (bclosed (be s)) eqn:B; [|discriminate].
    pose proof (R (UWriteErr 0) eq_refl) as Z. cbn in Z. rewrite P, U, B in Z. discriminate.
  - pose proof (R (UCloseWrite true) eq_refl) as Q. cbn in Q. rewrite P, U in Q. discriminate.
  - pose proof (R UCloseRead eq_refl) as Q. cbn in Q. rewrite P, U in Q. discriminate.
Qed.
Lemma rest_down sc cc s : ok s -> at_rest sc cc s -> ph s = Bridging ->
  down s = Finished \/ (down s = Copying [] /\ bunread (be s) = [] /\ bfin (be s) = false /\ bclosed (be s) = false /\ bbroken (be s) = false /\ bexp (be s) = false).
Proof.
  intros K R P. destruct (down s) as [[|a buf]| | |] eqn:U; [right|exfalso|exfalso|exfalso|left; reflexivity].
  - pose proof (R DReadErr eq_refl) as Q. cbn in Q. rewrite P, U in Q.
    destruct (bclosed (be s)) eqn:B; [discriminate|]. destruct (bbroken (be s)) eqn:B1; [discriminate|]. destruct (bexp (be s)) eqn:B2; [discriminate|].
    destruct (bunread (be s)) as [|a l] eqn:UN.
    + pose proof (R DEof eq_refl) as Z. cbn in Z. rewrite P, U, UN, B in Z. destruct (bfin (be s)); [destruct sc; discriminate|auto 10].
    + pose proof (R (DRead 1) eq_refl) as Z. cbn in Z. rewrite P, U, UN, B in Z. discriminate Z.
  - pose proof (R DWrite eq_refl) as Q. cbn in Q. rewrite P, U in Q. destruct (c_write_fails (cl s)) eqn:B; [|discriminate].
    pose proof (R (DWriteErr 0) eq_refl) as Z. cbn in Z. rewrite P, U, B in Z. discriminate.
  - pose proof (R (DCloseWrite true) eq_refl) as Q. cbn in Q. rewrite P, U in Q. discriminate.
  - pose proof (R (DCloseRead true) eq_refl) as Q. cbn in Q. rewrite P, U in Q. discriminate.
Qed.
Lemma rest_phase sc cc s : at_rest sc cc s -> ph s <> Dialing.
Proof. intros R P. pose proof (R DialOk eq_refl) as Q. cbn in Q. rewrite P in Q. discriminate. Qed.

(** At rest: the handler has returned, or nothing is held back, or the backend's connection is
    closed and the client has not ended its direction. *)
Lemma rest_cases sc cc s : ok s -> at_rest sc cc s ->
  ph s = Returned \/
  (ph s = Bridging /\ bclosed (be s) = false /\ bgot (be s) = sent (cl s) /\ got (cl s) = bsent (be s) /\
   (fin (cl s) = true -> bended (be s) = true) /\ (bfin (be s) = true -> wdown (cl s) = true) /\
   (up s = Finished -> down s = Copying [] /\ bdl (be s) = true) /\
   (up s <> Finished -> c_read_fails (cl s) = false)) \/
  (ph s = Bridging /\ bclosed (be s) = true /\ wdown (cl s) = true /\ up s = Copying [] /\ down s = Finished /\
   unread (cl s) = [] /\ fin (cl s) = false /\ c_read_fails (cl s) = false).
Proof.
  intros K R. pose proof (rest_phase _ _ _ R) as NP. destruct (ph s) eqn:P; [contradiction| |left; reflexivity]. right.
  pose proof (rest_up _ _ _ K R P) as U. pose proof (rest_down _ _ _ K R P) as D.
  destruct K as (K1 & K2 & K3). unfold up_ok in K1. unfold down_ok in K2.
  destruct K3 as (F1 & F2 & F3 & F4 & F5 & F6 & F7 & F8 & F9 & F10 & F11 & F12 & F13).
  destruct (bclosed (be s)) eqn:B.
  - right. destruct (F9 eq_refl) as [Q W]. destruct D as [D|D]; [|destruct D as (_ & _ & _ & D & _); congruence].
    destruct U as [U|(U & U1 & U2 & U3)]; [|auto 10].
    exfalso. pose proof (R Return eq_refl) as Z. cbn in Z. rewrite P, U, D in Z. discriminate.
  - left. split; [reflexivity|]. split; [reflexivity|].
    destruct U as [U|(U & U1 & U2 & U3)], D as [D|(D & D1 & D2 & D3 & D4 & D5)]; rewrite U in *; rewrite D in *.
    + exfalso. pose proof (R Return eq_refl) as Z. cbn in Z. rewrite P, U, D in Z. discriminate.
    + destruct K1 as (_ & Q1 & Q2). destruct (bended (be s)) eqn:E; [|discriminate (Q2 eq_refl)].
      destruct (Q1 eq_refl) as [Q3 Q4]. rewrite D1 in K2. cbn in K2. rewrite app_nil_r in K2.
      split; [exact Q4|]. split; [auto|]. split; [auto|]. split; [intros; congruence|]. split; [auto|]. intros []; reflexivity.
    + destruct K1 as (Q1 & Q2). rewrite U1 in Q1. cbn in Q1. rewrite app_nil_r in Q1. destruct K2 as [_ K2]. destruct (K2 eq_refl) as (G1 & G2 & G3).
      split; [auto|]. split; [auto|]. split; [intros; congruence|]. split; [auto|]. split; [intros; discriminate|auto].
    + destruct K1 as (Q1 & Q2). rewrite U1 in Q1. cbn in Q1. rewrite app_nil_r in Q1. rewrite D1 in K2. cbn in K2. rewrite app_nil_r in K2.
      split; [auto|]. split; [auto|]. split; [intros; congruence|]. split; [intros; congruence|]. split; [intros; discriminate|auto].
Qed.

(** The number of steps. *)
Definition pc_size (p : pc) : nat := match p with Copying [] => 3 | Copying _ => 4 | CopyDone => 2 | WriteClosed => 1 | Finished => 0 end.
Definition size (s : state) : nat :=
  match ph s with Dialing => 10 | Bridging => 9 | Returned => 0 end +
  2 * List.length (unread (cl s)) + 2 * List.length (bunread (be s)) + pc_size (up s) + pc_size (down s).
Lemma step_size sc cc s e s' : by_proxy e = true -> step sc cc s e = Some s' -> size s' < size s.
Proof.
  intros B H. destruct e; try discriminate B; inv_step H; unfold size; fields.
  all: repeat match goal with E : up ?s0 = _ |- _ => rewrite E in *; fields | E : down ?s0 = _ |- _ => rewrite E in *; fields | E : ph ?s0 = _ |- _ => rewrite E in *; fields end.
  all: ifs; fields; cbn [pc_size].
  all: repeat match goal with E : (_ <? _) = false |- _ => apply Nat.ltb_ge in E | E : (_ =? 0) = false |- _ => apply Nat.eqb_neq in E end.
  all: rewrite ?skipn_length.
  all: try match goal with |- context [firstn ?n ?l] => destruct (firstn n l) eqn:? end; cbn [pc_size].
  all: try lia.
  all: repeat match goal with E : unread _ = [] |- _ => rewrite E | E : bunread _ = [] |- _ => rewrite E end; cbn; try lia.
Qed.
Lemma run_size sc cc tr : forall s s', run sc cc s tr = Some s' -> forallb by_proxy tr = true -> List.length tr + size s' <= size s.
Proof.
  induction tr as [|e tr IH]; cbn; intros s s' H B.
  - injection H as <-. lia.
  - apply andb_prop in B. destruct B as [B1 B2]. destruct (step sc cc s e) as [s1|] eqn:E; [|discriminate].
    pose proof (step_size _ _ _ _ _ B1 E). specialize (IH _ _ H B2). lia.
Qed.

(** The counters. *)
Definition counted (s : state) : Prop :=
  qrecv s + List.length (unread (cl s)) = List.length (sent (cl s)) /\ qsent s = List.length (got (cl s)) /\
  crecv s = None /\ csent s = None.
Lemma step_counted sc cc s e s' : counted s -> step sc cc s e = Some s' -> counted s'.
Proof.
  intros (A & B & C1 & C2) H. destruct e; inv_step H; unfold counted; fields.
  all: ifs; fields; rewrite ?C1, ?C2.
  all: repeat match goal with E : (_ <? _) = false |- _ => apply Nat.ltb_ge in E | E : (_ =? 0) = false |- _ => apply Nat.eqb_neq in E end.
  all: rewrite ?app_length, ?skipn_length; cbn [incr option_map].
  all: repeat match goal with E : unread _ = [] |- _ => rewrite E in *; clear E end.
  all: split; [lia|]; split; [cbn [List.length]; lia|]; split; reflexivity.
Qed.
Lemma reach_counted sc cc u tr s : run sc cc (init u) tr = Some s -> counted s.
Proof.
  assert (G : forall tr0 s s', counted s -> run sc cc s tr0 = Some s' -> counted s').
  { induction tr0 as [|e t IH]; cbn [run]; intros a b K H; [injection H as <-; exact K|].
    destruct (step sc cc a e) eqn:E; [|discriminate]. eapply IH; [|exact H]. exact (step_counted _ _ _ _ _ K E). }
  apply G. unfold counted. cbn. auto.
Qed.

Lemma app_cons_neq (g x : list ascii) a : g = g ++ a :: x -> False.
Proof. intros E. apply (f_equal (@List.length _)) in E. rewrite app_length in E. cbn in E. lia. Qed.

(** A normal exchange. *)
Definition calm (sc cc : bool) (s : state) : Prop :=
  (aborted (cl s) = false /\ gone (cl s) = false /\ rexp (cl s) = false) /\ stopped (cl s) = false /\ bbroken (be s) = false /\ bexp (be s) = false /\
  (wdown (cl s) = true -> uni (cl s) = true \/
     (bfin (be s) = true /\ got (cl s) = bsent (be s)) \/
     (cc = true /\ fin (cl s) = true /\ bgot (be s) = sent (cl s))) /\
  (bclosed (be s) = true -> wdown (cl s) = true).
Lemma step_calm sc cc s e s' : ok s -> fault e = false -> calm sc cc s -> step sc cc s e = Some s' -> calm sc cc s'.
Proof.
  intros (K1 & K2 & K3) Fe ((A1 & A1' & A1'') & A2 & A3 & A4 & A5 & A6) H.
  unfold up_ok in K1. unfold down_ok in K2.
  destruct e; try discriminate Fe; inv_step H; unfold calm, c_read_fails, c_write_fails in *; fields.
  all: repeat match goal with E : up ?s0 = _ |- _ => rewrite E in *; fields | E : down ?s0 = _ |- _ => rewrite E in *; fields | E : ph ?s0 = _ |- _ => rewrite E in *; fields end.
  all: ifs; fields.
  all: repeat match goal with |- _ /\ _ => split end; try assumption; try reflexivity; try congruence; intros.
  all: try congruence.
  all: try solve [intuition (try congruence)].
  all: repeat match goal with H : _ || _ = true |- _ => apply orb_prop in H; destruct H end; try congruence.
  all: try solve [apply A5; first [assumption|apply A6; congruence]].
  all: try match goal with H : fault (UCloseWrite ?b) = false |- _ => destruct b; [|discriminate H] end; cbn [andb] in *; bools.
  all: try solve [apply A5; first [assumption|apply A6; congruence]].
  all: try solve [left; assumption].
  all: try solve [rewrite app_nil_r; apply A5; assumption].
  all: try match goal with H : fault (DCloseWrite ?b) = false |- _ => destruct b; discriminate end.
  all: try match goal with H : fault (DCloseRead ?b) = false |- _ => destruct b; discriminate end.
  all: try solve [right; right; split; [reflexivity|]; split; [assumption|]; destruct K1 as [K1 _]; rewrite K1, !app_nil_r; reflexivity].
  all: try solve [right; left; split; [assumption|]; rewrite K2, !app_nil_r; reflexivity].
  all: try match goal with W : wdown _ = true |- context [_ ++ _ :: _] => destruct (A5 W) as [?|[?|(_ & _ & E)]];
    [left; assumption|right; left; assumption|exfalso; destruct K1 as [K1 _]; rewrite K1 in E; exact (app_cons_neq _ _ _ E)] end.
  all: apply A5; destruct (bclosed (be s)) eqn:B; [exact (A6 eq_refl)|]; destruct K2 as [_ K2]; exact (proj2 (proj2 (K2 eq_refl))).
Qed.
Lemma reach_calm sc cc u tr s : run sc cc (init u) tr = Some s -> normal tr -> calm sc cc s.
Proof.
  assert (G : forall tr0 s s', ok s -> calm sc cc s -> normal tr0 -> run sc cc s tr0 = Some s' -> calm sc cc s').
  { induction tr0 as [|e t IH]; cbn [run]; intros a b K A N H; [injection H as <-; exact A|].
    destruct (step sc cc a e) as [a1|] eqn:E; [|discriminate].
    apply (IH a1); [|exact (step_calm _ _ _ _ _ K (N e (or_introl eq_refl)) A E)|intros x I; apply N; now right|exact H].
    apply (run_ok sc cc [e] a); [exact K|]. cbn [run]. now rewrite E. }
  intros H N. apply (G tr (init u)); [|unfold calm; cbn; repeat split; intros; discriminate|exact N|exact H].
  split; [|split; [|exact (flags_init u)]]; cbn; [auto|reflexivity].
Qed.

(** Without a failed dial or a failed write to the backend, a direction that has ended has been read. *)
Definition tidy (s : state) : Prop :=
  (up s = Finished -> readDone (cl s) = true) /\ (ph s = Returned -> up s = Finished /\ down s = Finished).
Lemma step_tidy sc cc s e s' : ok s -> tidy s -> (e <> DialFail /\ forall n, e <> UWriteErr n) -> step sc cc s e = Some s' -> tidy s'.
Proof.
  intros (_ & _ & K3) (T1 & T2) [N1 N2] H.
  destruct K3 as (F1 & F2 & F3 & F4 & F5 & F6 & F7 & F8 & F9 & F10 & F11 & F12 & F13).
  destruct e; try congruence; inv_step H; try (exfalso; eapply N2; reflexivity); unfold tidy; fields.
  all: repeat match goal with E : up ?s0 = _ |- _ => rewrite E in *; fields | E : down ?s0 = _ |- _ => rewrite E in *; fields | E : ph ?s0 = _ |- _ => rewrite E in *; fields end.
  all: ifs; fields.
  all: split; intros; try discriminate; auto; try tauto.
Qed.
Lemma reach_tidy sc cc u tr s : run sc cc (init u) tr = Some s ->
  (forall e, In e tr -> e <> DialFail /\ forall n, e <> UWriteErr n) -> tidy s.
Proof.
  assert (G : forall tr0 s s', ok s -> tidy s -> (forall e, In e tr0 -> e <> DialFail /\ forall n, e <> UWriteErr n) -> run sc cc s tr0 = Some s' -> tidy s').
  { induction tr0 as [|e t IH]; cbn [run]; intros a b K A N H; [injection H as <-; exact A|].
    destruct (step sc cc a e) as [a1|] eqn:E; [|discriminate].
    apply (IH a1); [|exact (step_tidy _ _ _ _ _ K A (N e (or_introl eq_refl)) E)|intros x I; apply N; now right|exact H].
    apply (run_ok sc cc [e] a); [exact K|]. cbn [run]. now rewrite E. }
  intros H N. apply (G tr (init u)); [|split; intros; discriminate|exact N|exact H].
  split; [|split; [|exact (flags_init u)]]; cbn; [auto|reflexivity].
Qed.

Lemma no_fail_up sc cc u tr s : run sc cc (init u) tr = Some s -> ~ In DialFail tr -> ph s = Returned -> up s <> Copying [].
Proof.
  assert (Q : forall tr0 s0 s, (ph s0 = Returned -> up s0 <> Copying []) -> run sc cc s0 tr0 = Some s -> ~ In DialFail tr0 -> ph s = Returned -> up s <> Copying []).
  { induction tr0 as [|e t IH]; cbn [run]; intros s0 s1 A H N; [injection H as <-; exact A|].
    destruct (step sc cc s0 e) as [s2|] eqn:E; [|discriminate]. apply (IH s2); [|exact H|intros I; apply N; now right].
    clear IH H. destruct e; try (exfalso; apply N; left; reflexivity); inv_step E; fields; ifs; fields; intros P; try discriminate; auto; try congruence. }
  apply Q. discriminate.
Qed.
