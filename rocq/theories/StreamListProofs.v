(** Lemmas about StreamListModel.v *)
From Coq Require Import Lia.
From Verif Require Import Base StreamListModel StreamListSpec.
Import ListNotations.

Lemma upd_length {A} i (x : A) l : List.length (upd i x l) = List.length l.
Proof. revert i; induction l as [|y l IH]; intros [|i]; cbn; congruence. Qed.
Lemma lookup_upd {A} i (x y : A) l j : nth_error l i = Some y -> nth_error (upd i x l) j = if j =? i then Some x else nth_error l j.
Proof.
  revert i j; induction l as [|z l IH]; intros [|i] [|j] H; cbn in *; try discriminate; try reflexivity. apply IH. exact H.
Qed.
Lemma lookup_snoc {A} (l : list A) x j : nth_error (l ++ [x]) j = if j =? List.length l then Some x else nth_error l j.
Proof.
  revert j; induction l as [|z l IH]; intros [|j]; cbn; try reflexivity; [destruct j; reflexivity|apply IH].
Qed.

Definition target (c : call) : option nat := match c with EndRead i | EndWrite i | BridgeAddr i => Some i | _ => None end.
Definition end_of (c : call) : option (bool * nat) := match c with EndRead i => Some (true, i) | EndWrite i => Some (false, i) | _ => None end.
Definition holds_c (th : thread) : bool := match t_pc th with Adding _ | Deleting | Cloning => true | _ => false end.
Definition holds_s (th : thread) : option nat := match t_pc th with Marking | Removing | Deleting | Leaving => target (t_call th) | _ => None end.
Definition owns (th : thread) : option nat := match t_pc th with Made i | Adding i | Opened i => Some i | _ => None end.
Definition past (th : thread) : bool := match t_pc th with Removing | Deleting | Leaving | Done => true | _ => false end.
Definition wf (th : thread) : bool :=
  match t_call th, t_pc th with
  | Open _, (Called | Made _ | Adding _ | Opened _) => true
  | (EndRead _ | EndWrite _), (Called | Marking | Removing | Deleting | Leaving | Done) => true
  | Streams, (Called | Cloning | Listed _) => true
  | BridgeAddr _, (Called | Leaving | Done) => true
  | _, _ => false
  end.
Definition marked (r : bool) (x : stream) : bool := if r then readDone x else writeDone x.
Definition opened (s : state) (i : nat) : Prop := exists t th, nth_error (threads s) t = Some th /\ t_pc th = Opened i.

(** One step, as a relation. *)
Inductive stepR (s : state) (t : nat) (th : thread) : state -> Prop :=
| SMake k : t_call th = Open k -> t_pc th = Called ->
    stepR s t th {| c_list := c_list s; c_lock := c_lock s; all := all s ++ [{| s_kind := k; s_lock := None; readDone := false; writeDone := false |}]; threads := at_pc s t th (Made (List.length (all s))) |}
| SAddLock k i : t_call th = Open k -> t_pc th = Made i -> c_lock s = None ->
    stepR s t th {| c_list := c_list s; c_lock := Some t; all := all s; threads := at_pc s t th (Adding i) |}
| SAdd k i : t_call th = Open k -> t_pc th = Adding i ->
    stepR s t th {| c_list := c_list s ++ [i]; c_lock := None; all := all s; threads := at_pc s t th (Opened i) |}
| SMarkLock r i x : end_of (t_call th) = Some (r, i) -> nth_error (all s) i = Some x -> t_pc th = Called -> s_lock x = None ->
    stepR s t th {| c_list := c_list s; c_lock := c_lock s; all := upd i (with_lock x (Some t)) (all s); threads := at_pc s t th Marking |}
| SMark r i x : end_of (t_call th) = Some (r, i) -> nth_error (all s) i = Some x -> t_pc th = Marking ->
    stepR s t th {| c_list := c_list s; c_lock := c_lock s; all := upd i (fst (mark r x)) (all s); threads := at_pc s t th (if marked (negb r) x then Removing else Leaving) |}
| SRemLock r i : end_of (t_call th) = Some (r, i) -> t_pc th = Removing -> c_lock s = None ->
    stepR s t th {| c_list := c_list s; c_lock := Some t; all := all s; threads := at_pc s t th Deleting |}
| SDelete r i : end_of (t_call th) = Some (r, i) -> t_pc th = Deleting ->
    stepR s t th {| c_list := delete i (c_list s); c_lock := None; all := all s; threads := at_pc s t th Leaving |}
| SLeave i x : target (t_call th) = Some i -> nth_error (all s) i = Some x -> t_pc th = Leaving ->
    stepR s t th {| c_list := c_list s; c_lock := c_lock s; all := upd i (with_lock x None) (all s); threads := at_pc s t th Done |}
| SListLock : t_call th = Streams -> t_pc th = Called -> c_lock s = None ->
    stepR s t th {| c_list := c_list s; c_lock := Some t; all := all s; threads := at_pc s t th Cloning |}
| SList : t_call th = Streams -> t_pc th = Cloning ->
    stepR s t th {| c_list := c_list s; c_lock := None; all := all s; threads := at_pc s t th (Listed (c_list s)) |}
| SAddrLock i x : t_call th = BridgeAddr i -> nth_error (all s) i = Some x -> t_pc th = Called -> s_lock x = None ->
    stepR s t th {| c_list := c_list s; c_lock := c_lock s; all := upd i (with_lock x (Some t)) (all s); threads := at_pc s t th Leaving |}.

Lemma mark_stepR s t th r i s' : end_of (t_call th) = Some (r, i) -> mark_step s t th r i = Some s' -> stepR s t th s'.
Proof.
  unfold mark_step. intros E H. destruct (nth_error (all s) i) as [x|] eqn:X; [|discriminate]. destruct (t_pc th) eqn:P; try discriminate.
  - destruct (s_lock x) eqn:L; [discriminate|]. injection H as <-. eapply SMarkLock; eassumption.
  - pose proof (SMark s t th r i x E X P) as S. unfold mark in *. destruct r; cbn in *; injection H as <-; exact S.
  - destruct (c_lock s) eqn:L; [discriminate|]. injection H as <-. eapply SRemLock; eassumption.
  - injection H as <-. eapply SDelete; eassumption.
  - injection H as <-. eapply SLeave; [|eassumption|eassumption]. destruct (t_call th); try discriminate E; injection E as _ ->; reflexivity.
Qed.
Lemma step_stepR s t s' : step s t = Some s' -> exists th, nth_error (threads s) t = Some th /\ stepR s t th s'.
Proof.
  unfold step. destruct (nth_error (threads s) t) as [th|] eqn:T; [|discriminate]. intro H. exists th. split; [reflexivity|].
  destruct (t_call th) eqn:C.
  - destruct (t_pc th) eqn:P; try discriminate.
    + injection H as <-. eapply SMake; eassumption.
    + destruct (c_lock s) eqn:L; [discriminate|]. injection H as <-. eapply SAddLock; eassumption.
    + injection H as <-. eapply SAdd; eassumption.
  - eapply mark_stepR; [rewrite C; reflexivity|exact H].
  - eapply mark_stepR; [rewrite C; reflexivity|exact H].
  - destruct (t_pc th) eqn:P; try discriminate.
    + destruct (c_lock s) eqn:L; [discriminate|]. injection H as <-. eapply SListLock; eassumption.
    + injection H as <-. eapply SList; eassumption.
  - destruct (nth_error (all s) i) as [x|] eqn:X; [|discriminate]. destruct (t_pc th) eqn:P; try discriminate.
    + destruct (s_lock x) eqn:L; [discriminate|]. injection H as <-. eapply SAddrLock; eassumption.
    + injection H as <-. eapply SLeave; try eassumption. rewrite C. reflexivity.
Qed.

(** *** The invariant *)
Record inv (s : state) : Prop := {
  v_wf : forall t th, nth_error (threads s) t = Some th -> wf th = true;
  v_c1 : forall t th, nth_error (threads s) t = Some th -> holds_c th = true -> c_lock s = Some t;
  v_c2 : forall t, c_lock s = Some t -> exists th, nth_error (threads s) t = Some th /\ holds_c th = true;
  v_s1 : forall t th i, nth_error (threads s) t = Some th -> holds_s th = Some i -> exists x, nth_error (all s) i = Some x /\ s_lock x = Some t;
  v_s2 : forall i x t, nth_error (all s) i = Some x -> s_lock x = Some t -> exists th, nth_error (threads s) t = Some th /\ holds_s th = Some i;
  v_tgt : forall t th i, nth_error (threads s) t = Some th -> target (t_call th) = Some i -> opened s i;
  v_own : forall t th i, nth_error (threads s) t = Some th -> owns th = Some i -> i < List.length (all s);
  v_one : forall t th t' th' i, nth_error (threads s) t = Some th -> nth_error (threads s) t' = Some th' -> owns th = Some i -> owns th' = Some i -> t = t';
  v_nd : NoDup (c_list s);
  v_in : forall i, In i (c_list s) -> opened s i;
  v_out : forall i x, opened s i -> nth_error (all s) i = Some x -> ~ In i (c_list s) -> readDone x = true /\ writeDone x = true;
  v_m1 : forall i x r, nth_error (all s) i = Some x -> marked r x = true -> exists t th, nth_error (threads s) t = Some th /\ end_of (t_call th) = Some (r, i) /\ past th = true;
  v_m2 : forall i x r t th, nth_error (all s) i = Some x -> nth_error (threads s) t = Some th -> end_of (t_call th) = Some (r, i) -> past th = true -> marked r x = true;
  v_both : forall t th r i x, nth_error (threads s) t = Some th -> end_of (t_call th) = Some (r, i) -> t_pc th = Removing \/ t_pc th = Deleting ->
    nth_error (all s) i = Some x -> readDone x = true /\ writeDone x = true;
  v_rem : forall i x, nth_error (all s) i = Some x -> readDone x = true -> writeDone x = true -> In i (c_list s) ->
    exists t th r, nth_error (threads s) t = Some th /\ end_of (t_call th) = Some (r, i) /\ (t_pc th = Removing \/ t_pc th = Deleting) /\
      forall t' th', t' <> t -> nth_error (threads s) t' = Some th' -> past th' = true -> end_of (t_call th') <> Some (r, i)
}.

Lemma inv_init : inv init.
Proof.
  constructor; cbn.
  all: try (intros [|t]; intros; discriminate).
  all: try (intros; match goal with H : nth_error [] ?n = Some _ |- _ => destruct n; discriminate H end).
  all: try (intros; contradiction); try discriminate.
  apply NoDup_nil.
Qed.

Ltac lk := repeat match goal with
  | Ht : nth_error ?l ?t = Some _, H : context [nth_error (upd ?t ?x ?l) ?j] |- _ => rewrite (lookup_upd t x _ l j Ht) in H
  | Ht : nth_error ?l ?t = Some _ |- context [nth_error (upd ?t ?x ?l) ?j] => rewrite (lookup_upd t x _ l j Ht)
  | H : context [nth_error (?l ++ [?x]) ?j] |- _ => rewrite (lookup_snoc l x j) in H
  | |- context [nth_error (?l ++ [?x]) ?j] => rewrite (lookup_snoc l x j)
  end.

(** Threads that open: nothing else changes what has been opened. *)
Lemma opened_step s t th s' i : nth_error (threads s) t = Some th -> wf th = true -> stepR s t th s' -> opened s i -> opened s' i.
Proof.
  intros T W S (t0 & th0 & T0 & P0). exists t0, th0. split; [|exact P0].
  assert (N : t0 <> t). { intros ->. rewrite T in T0. injection T0 as <-. destruct S; congruence. }
  apply Nat.eqb_neq in N. destruct S; cbn [threads]; unfold at_pc; rewrite (lookup_upd _ _ _ _ _ T), N; exact T0.
Qed.
Lemma opened_back s t th s' i : nth_error (threads s) t = Some th -> stepR s t th s' -> opened s' i -> opened s i \/ t_pc th = Adding i.
Proof.
  intros T S (t0 & th0 & T0 & P0). destruct (Nat.eq_dec t0 t) as [->|N].
  - destruct S; cbn [threads] in T0; unfold at_pc in T0; rewrite (lookup_upd _ _ _ _ _ T), Nat.eqb_refl in T0; injection T0 as <-; cbn [t_pc] in P0; try discriminate P0.
    + injection P0 as ->. right. assumption.
    + destruct (marked (negb r) x); discriminate P0.
  - left. exists t0, th0. split; [|exact P0]. apply Nat.eqb_neq in N.
    destruct S; cbn [threads] in T0; unfold at_pc in T0; rewrite (lookup_upd _ _ _ _ _ T), N in T0; exact T0.
Qed.

Ltac cases_t T0 :=
  match type of T0 with
  | (if ?a =? ?b then _ else _) = Some _ => let N := fresh "N" in destruct (Nat.eqb_spec a b) as [N|N]; [subst; injection T0 as <-|]
  end.
Lemma end_target c r i : end_of c = Some (r, i) -> target c = Some i.
Proof. destruct c; cbn; intro H; try discriminate; injection H as _ ->; reflexivity. Qed.
Lemma holds_s_owner s t th t' th' i : inv s -> nth_error (threads s) t = Some th -> nth_error (threads s) t' = Some th' -> holds_s th = Some i -> holds_s th' = Some i -> t = t'.
Proof.
  intros V T T' H H'. destruct (v_s1 s V _ _ _ T H) as (x & X & L). destruct (v_s1 s V _ _ _ T' H') as (x' & X' & L'). congruence.
Qed.
Lemma holds_c_owner s t th t' th' : inv s -> nth_error (threads s) t = Some th -> nth_error (threads s) t' = Some th' -> holds_c th = true -> holds_c th' = true -> t = t'.
Proof. intros V T T' H H'. pose proof (v_c1 s V _ _ T H). pose proof (v_c1 s V _ _ T' H'). congruence. Qed.

Section Step.
  Context (s : state) (t : nat) (th : thread) (s' : state) (V : inv s) (T : nth_error (threads s) t = Some th) (S : stepR s t th s').

  Lemma p_wf : forall t0 th0, nth_error (threads s') t0 = Some th0 -> wf th0 = true.
  Proof.
    intros t0 th0 T0. pose proof (v_wf s V _ _ T) as W.
    destruct S; cbn [threads] in T0; unfold at_pc in T0; lk; cases_t T0; try (eapply v_wf; eassumption); unfold wf in *; cbn [t_call t_pc];
      match goal with P : t_pc th = _ |- _ => rewrite P in W end; destruct (t_call th); cbn in *; try congruence; destruct (marked _ _); reflexivity.
  Qed.
  Lemma p_c1 : forall t0 th0, nth_error (threads s') t0 = Some th0 -> holds_c th0 = true -> c_lock s' = Some t0.
  Proof.
    intros t0 th0 T0 H. pose proof (v_c1 s V _ _ T) as C.
    destruct S; cbn [threads c_lock] in *; unfold at_pc in T0; lk; cases_t T0; try reflexivity; cbn [holds_c t_pc] in H; try discriminate H;
      try (destruct (marked _ _); discriminate H); try (eapply v_c1; eassumption);
      pose proof (v_c1 s V _ _ T0 H) as X; try congruence;
      exfalso; assert (holds_c th = true) by (unfold holds_c; match goal with P : t_pc th = _ |- _ => rewrite P end; reflexivity);
      apply N; eapply holds_c_owner; eassumption.
  Qed.
  Lemma p_c2 : forall t0, c_lock s' = Some t0 -> exists th0, nth_error (threads s') t0 = Some th0 /\ holds_c th0 = true.
  Proof.
    intros t0 H. assert (K : c_lock s = Some t0 -> t0 <> t -> exists th0, nth_error (threads s') t0 = Some th0 /\ holds_c th0 = true).
    { intros L N. destruct (v_c2 s V _ L) as (th0 & T0 & H0). exists th0. split; [|exact H0]. apply Nat.eqb_neq in N.
      destruct S; cbn [threads]; unfold at_pc; lk; rewrite N; exact T0. }
    assert (Q : holds_c th = false -> c_lock s = Some t0 -> t0 <> t).
    { intros F L ->. destruct (v_c2 s V _ L) as (th0 & T0 & H0). congruence. }
    unfold holds_c in Q.
    destruct S; cbn [c_lock] in H; try discriminate H; match goal with P : t_pc th = _ |- _ => rewrite P in Q end; try (apply K; auto; fail);
      injection H as <-; cbn [threads]; unfold at_pc; lk; rewrite Nat.eqb_refl; eexists; split; reflexivity.
  Qed.
  Lemma p_s1 : forall t0 th0 i0, nth_error (threads s') t0 = Some th0 -> holds_s th0 = Some i0 -> exists x, nth_error (all s') i0 = Some x /\ s_lock x = Some t0.
  Proof.
    intros t0 th0 i0 T0 H. assert (Lt : forall i x, nth_error (all s) i = Some x -> i <> List.length (all s)).
    { intros i x E ->. assert (nth_error (all s) (List.length (all s)) = None) by (apply nth_error_None; auto). congruence. }
    destruct S; cbn [threads all] in *; unfold at_pc in T0; lk; cases_t T0; cbn [holds_s t_pc t_call] in H; try discriminate H.
    all: try (destruct (v_s1 s V _ _ _ T0 H) as (x0 & X0 & L0)).
    - exists x0. lk. destruct (Nat.eqb_spec i0 (List.length (all s))) as [E|E]; [exfalso; eapply Lt; eassumption|auto].
    - eauto.
    - eauto.
    - rewrite (end_target _ _ _ H0) in H. injection H as <-. eexists. lk. rewrite Nat.eqb_refl. split; reflexivity.
    - exists x0. lk. destruct (Nat.eqb_spec i0 i) as [E|E]; [exfalso; congruence|auto].
    - assert (Hs : holds_s th = Some i0) by (unfold holds_s; rewrite H2; destruct (marked _ _); exact H).
      destruct (v_s1 s V _ _ _ T Hs) as (x0 & X0 & L0). unfold holds_s in Hs. rewrite H2, (end_target _ _ _ H0) in Hs. injection Hs as <-.
      eexists. lk. rewrite Nat.eqb_refl. split; [reflexivity|]. unfold mark. destruct r; cbn; congruence.
    - lk. destruct (Nat.eqb_spec i0 i) as [E|E]; [|eauto]. subst i0. exfalso. apply N.
      eapply (holds_s_owner s t0 th0 t th i V T0 T H). unfold holds_s. rewrite H2. exact (end_target _ _ _ H0).
    - eapply v_s1; [exact V|exact T|]. unfold holds_s. rewrite H1. exact H.
    - eauto.
    - eapply v_s1; [exact V|exact T|]. unfold holds_s. rewrite H1. exact H.
    - eauto.
    - lk. destruct (Nat.eqb_spec i0 i) as [E|E]; [|eauto]. subst i0. exfalso. apply N.
      eapply (holds_s_owner s t0 th0 t th i V T0 T H). unfold holds_s. rewrite H2. exact H0.
    - eauto.
    - eauto.
    - rewrite H0 in H. injection H as <-. eexists. lk. rewrite Nat.eqb_refl. split; reflexivity.
    - exists x0. lk. destruct (Nat.eqb_spec i0 i) as [E|E]; [exfalso; congruence|auto].
  Qed.
  Lemma p_s2 : forall i0 x0 t0, nth_error (all s') i0 = Some x0 -> s_lock x0 = Some t0 -> exists th0, nth_error (threads s') t0 = Some th0 /\ holds_s th0 = Some i0.
  Proof.
    intros i0 x0 t0 X0 L.
    assert (K : forall x, nth_error (all s) i0 = Some x -> s_lock x = Some t0 -> t0 <> t -> exists th0, nth_error (threads s') t0 = Some th0 /\ holds_s th0 = Some i0).
    { intros x X E N. destruct (v_s2 s V _ _ _ X E) as (th0 & T0 & H0). exists th0. split; [|exact H0]. apply Nat.eqb_neq in N.
      destruct S; cbn [threads]; unfold at_pc; lk; rewrite N; exact T0. }
    assert (Q : holds_s th <> Some i0 -> forall x, nth_error (all s) i0 = Some x -> s_lock x = Some t0 -> t0 <> t).
    { intros F x X E ->. destruct (v_s2 s V _ _ _ X E) as (th0 & T0 & H0). congruence. }
    assert (Me : forall p, threads s' = at_pc s t th p -> nth_error (threads s') t = Some {| t_call := t_call th; t_pc := p |}).
    { intros p ->. unfold at_pc. lk. rewrite Nat.eqb_refl. reflexivity. }
    assert (Hold : forall x, nth_error (all s) i0 = Some x -> s_lock x = Some t0 -> forall p, threads s' = at_pc s t th p ->
      (holds_s th = Some i0 -> holds_s {| t_call := t_call th; t_pc := p |} = Some i0) -> exists th0, nth_error (threads s') t0 = Some th0 /\ holds_s th0 = Some i0).
    { intros x X E p P I. destruct (Nat.eq_dec t0 t) as [->|N]; [|eapply K; eassumption]. exists {| t_call := t_call th; t_pc := p |}. split; [auto|].
      apply I. destruct (v_s2 s V _ _ _ X E) as (th0 & T0 & H0). congruence. }
    clear K. unfold holds_s in Q, Hold.
    destruct S as [k C P|k i C P Cl|k i C P|r i x E X P Sl|r i x E X P|r i E P Cl|r i E P|i x E X P|C P Cl|C P|i x C X P Sl]; cbn [all] in X0; rewrite P in Q, Hold; cbn [t_pc t_call] in Hold.
    - lk. destruct (i0 =? _); [injection X0 as <-; discriminate L|]. eapply Hold; [eassumption|eassumption|reflexivity|discriminate].
    - eapply Hold; [eassumption|eassumption|reflexivity|discriminate].
    - eapply Hold; [eassumption|eassumption|reflexivity|discriminate].
    - lk. destruct (Nat.eqb_spec i0 i) as [Ei|Ei].
      + injection X0 as <-. injection L as <-. subst i0. eexists. split; [apply Me; reflexivity|]. exact (end_target _ _ _ E).
      + eapply Hold; [eassumption|eassumption|reflexivity|discriminate].
    - lk. destruct (Nat.eqb_spec i0 i) as [Ei|Ei].
      + subst i0. eapply Hold; [exact X| |reflexivity|destruct (marked _ _); auto]. injection X0 as <-. unfold mark in L. destruct r; exact L.
      + eapply Hold; [eassumption|eassumption|reflexivity|destruct (marked _ _); auto].
    - eapply Hold; [eassumption|eassumption|reflexivity|auto].
    - eapply Hold; [eassumption|eassumption|reflexivity|auto].
    - lk. destruct (Nat.eqb_spec i0 i) as [Ei|Ei]; [injection X0 as <-; discriminate L|].
      eapply Hold; [eassumption|eassumption|reflexivity|]. rewrite E. congruence.
    - eapply Hold; [eassumption|eassumption|reflexivity|discriminate].
    - eapply Hold; [eassumption|eassumption|reflexivity|discriminate].
    - lk. destruct (Nat.eqb_spec i0 i) as [Ei|Ei].
      + injection X0 as <-. injection L as <-. subst i0. eexists. split; [apply Me; reflexivity|]. cbn. rewrite C. reflexivity.
      + eapply Hold; [eassumption|eassumption|reflexivity|discriminate].
  Qed.
  Lemma p_tgt : forall t0 th0 i0, nth_error (threads s') t0 = Some th0 -> target (t_call th0) = Some i0 -> opened s' i0.
  Proof.
    intros t0 th0 i0 T0 E. eapply opened_step; [exact T|eapply v_wf; eassumption|exact S|].
    destruct S; cbn [threads] in T0; unfold at_pc in T0; lk; cases_t T0; cbn [t_call] in E; eapply v_tgt; eassumption.
  Qed.
  Lemma all_len : List.length (all s) <= List.length (all s').
  Proof. destruct S; cbn [all]; rewrite ?upd_length, ?app_length; auto. apply Nat.le_add_r. Qed.
  Lemma p_own : forall t0 th0 i0, nth_error (threads s') t0 = Some th0 -> owns th0 = Some i0 -> i0 < List.length (all s').
  Proof.
    intros t0 th0 i0 T0 O. pose proof all_len as Al.
    destruct S; cbn [threads] in T0; unfold at_pc in T0; lk; cases_t T0; try (eapply Nat.lt_le_trans; [eapply v_own; eassumption|exact Al]);
      cbn [owns t_pc] in O; try discriminate O; try (destruct (marked _ _); discriminate O).
    - injection O as <-. cbn [all]. rewrite app_length. cbn. lia.
    - injection O as <-. eapply Nat.lt_le_trans; [|exact Al]. eapply v_own; [exact V|exact T|]. unfold owns. rewrite H0. reflexivity.
    - injection O as <-. eapply Nat.lt_le_trans; [|exact Al]. eapply v_own; [exact V|exact T|]. unfold owns. rewrite H0. reflexivity.
  Qed.
  Lemma p_one : forall t0 th0 t1 th1 i0, nth_error (threads s') t0 = Some th0 -> nth_error (threads s') t1 = Some th1 -> owns th0 = Some i0 -> owns th1 = Some i0 -> t0 = t1.
  Proof.
    assert (K : forall p, threads s' = at_pc s t th p -> (forall i, owns {| t_call := t_call th; t_pc := p |} = Some i -> owns th = Some i \/ i = List.length (all s)) ->
      forall t0 th0 t1 th1 i0, nth_error (threads s') t0 = Some th0 -> nth_error (threads s') t1 = Some th1 -> owns th0 = Some i0 -> owns th1 = Some i0 -> t0 = t1).
    { intros p P I t0 th0 t1 th1 i0 T0 T1 O0 O1. rewrite P in T0, T1. unfold at_pc in T0, T1. lk.
      assert (Fresh : forall t2 th2, nth_error (threads s) t2 = Some th2 -> owns th2 = Some i0 -> i0 <> List.length (all s)).
      { intros t2 th2 T2 O2 E. pose proof (v_own s V _ _ _ T2 O2). lia. }
      destruct (Nat.eqb_spec t0 t) as [E0|E0], (Nat.eqb_spec t1 t) as [E1|E1]; subst; auto.
      - injection T0 as <-. destruct (I _ O0) as [O|O]; [eapply v_one; eassumption|exfalso; eapply Fresh; eassumption].
      - injection T1 as <-. destruct (I _ O1) as [O|O]; [eapply v_one; eassumption|exfalso; eapply Fresh; eassumption].
      - eapply v_one; eassumption. }
    destruct S; (eapply K; [reflexivity|]); unfold owns; cbn [t_pc]; intros i1 E1; try discriminate E1; try (destruct (marked _ _); discriminate E1).
    - injection E1 as <-. right. reflexivity.
    - left. injection E1 as <-. rewrite H0. reflexivity.
    - left. injection E1 as <-. rewrite H0. reflexivity.
  Qed.
  Lemma p_in : forall i0, In i0 (c_list s') -> opened s' i0.
  Proof.
    intros i0 I. assert (K : In i0 (c_list s) -> opened s' i0).
    { intro I0. eapply opened_step; [exact T|eapply v_wf; eassumption|exact S|]. apply v_in; assumption. }
    destruct S; cbn [c_list] in I; auto.
    - apply in_app_iff in I as [I|[<-|[]]]; [auto|]. exists t. eexists. split; [cbn [threads]; unfold at_pc; lk; rewrite Nat.eqb_refl; reflexivity|reflexivity].
    - unfold delete in I. apply filter_In in I as [I _]. auto.
  Qed.
  Lemma p_nd : NoDup (c_list s').
  Proof.
    pose proof (v_nd s V) as N. destruct S as [k C P|k i C P Cl|k i C P|r i x E X P Sl|r i x E X P|r i E P Cl|r i E P|i x E X P|C P Cl|C P|i x C X P Sl]; cbn [c_list]; auto.
    - apply NoDup_rev in N. cut (NoDup (i :: rev (c_list s))). { intro H. apply NoDup_rev in H. cbn [rev] in H. rewrite rev_involutive in H. exact H. }
      constructor; [|exact N]. rewrite <- in_rev. intro I. apply (v_in s V) in I as (t1 & th1 & T1 & P1).
      assert (t = t1). { eapply (v_one s V t th t1 th1 i T T1); unfold owns; [rewrite P|rewrite P1]; reflexivity. } congruence.
    - apply NoDup_filter. exact N.
  Qed.

  (** How the marks of a stream change. *)
  Lemma marks_grow i0 x0 : nth_error (all s) i0 = Some x0 -> exists x1, nth_error (all s') i0 = Some x1 /\ forall r, marked r x0 = true -> marked r x1 = true.
  Proof.
    intro X0. assert (Lt : i0 <> List.length (all s)).
    { intros ->. assert (nth_error (all s) (List.length (all s)) = None) by (apply nth_error_None; auto). congruence. }
    destruct S; cbn [all]; lk; try (exists x0; split; [exact X0|auto]; fail).
    - destruct (Nat.eqb_spec i0 (List.length (all s))); [contradiction|]. eauto.
    - destruct (Nat.eqb_spec i0 i) as [->|N]; [|eauto]. eexists. split; [reflexivity|]. assert (x = x0) as -> by congruence. intros []; auto.
    - destruct (Nat.eqb_spec i0 i) as [->|N]; [|eauto]. eexists. split; [reflexivity|]. assert (x = x0) as -> by congruence. intros [] M; destruct r; cbn in *; auto.
    - destruct (Nat.eqb_spec i0 i) as [->|N]; [|eauto]. eexists. split; [reflexivity|]. assert (x = x0) as -> by congruence. intros []; auto.
    - destruct (Nat.eqb_spec i0 i) as [->|N]; [|eauto]. eexists. split; [reflexivity|]. assert (x = x0) as -> by congruence. intros []; auto.
  Qed.
  Lemma marks_back i0 x1 r : nth_error (all s') i0 = Some x1 -> marked r x1 = true ->
    (exists x0, nth_error (all s) i0 = Some x0 /\ marked r x0 = true) \/ (end_of (t_call th) = Some (r, i0) /\ t_pc th = Marking).
  Proof.
    intros X1 M. destruct S; cbn [all] in X1; lk; try (left; eauto; fail).
    - destruct (Nat.eqb_spec i0 (List.length (all s))); [injection X1 as <-; destruct r; discriminate M|left; eauto].
    - destruct (Nat.eqb_spec i0 i) as [->|N]; [|left; eauto]. injection X1 as <-. left. exists x. split; [assumption|]. destruct r; exact M.
    - destruct (Nat.eqb_spec i0 i) as [->|N]; [|left; eauto]. injection X1 as <-. destruct (Bool.eqb_spec r r0) as [->|D]; [right; auto|].
      left. exists x. split; [assumption|]. destruct r, r0; try contradiction; exact M.
    - destruct (Nat.eqb_spec i0 i) as [->|N]; [|left; eauto]. injection X1 as <-. left. exists x. split; [assumption|]. destruct r; exact M.
    - destruct (Nat.eqb_spec i0 i) as [->|N]; [|left; eauto]. injection X1 as <-. left. exists x. split; [assumption|]. destruct r; exact M.
  Qed.
  Lemma lookup_len i0 x1 : nth_error (all s') i0 = Some x1 -> (exists x0, nth_error (all s) i0 = Some x0) \/ i0 = List.length (all s).
  Proof.
    intro X1. destruct (Nat.eq_dec i0 (List.length (all s))) as [E|E]; [right; exact E|left]. destruct S; cbn [all] in X1; lk; eauto.
    - destruct (Nat.eqb_spec i0 (List.length (all s))); [contradiction|eauto].
    - destruct (Nat.eqb_spec i0 i) as [->|N]; eauto.
    - destruct (Nat.eqb_spec i0 i) as [->|N]; eauto.
    - destruct (Nat.eqb_spec i0 i) as [->|N]; eauto.
    - destruct (Nat.eqb_spec i0 i) as [->|N]; eauto.
  Qed.
  Lemma pc_of t0 th0 : nth_error (threads s') t0 = Some th0 -> (t0 <> t /\ nth_error (threads s) t0 = Some th0) \/ (t0 = t /\ t_call th0 = t_call th /\ threads s' = at_pc s t th (t_pc th0)).
  Proof.
    intro T0. destruct (Nat.eq_dec t0 t) as [->|N].
    - right. destruct S; cbn [threads] in *; unfold at_pc in T0; lk; rewrite Nat.eqb_refl in T0; injection T0 as <-; auto.
    - left. split; [exact N|]. apply Nat.eqb_neq in N. destruct S; cbn [threads] in *; unfold at_pc in T0; lk; rewrite N in T0; exact T0.
  Qed.
  Lemma opened_lookup i0 : opened s i0 -> exists x, nth_error (all s) i0 = Some x.
  Proof.
    intros (t0 & th0 & T0 & P0). destruct (nth_error (all s) i0) as [x|] eqn:X; [eauto|]. exfalso. apply nth_error_None in X.
    assert (O : owns th0 = Some i0) by (unfold owns; rewrite P0; reflexivity). pose proof (v_own s V _ _ _ T0 O). lia.
  Qed.
  Lemma p_both : forall t0 th0 r i0 x0, nth_error (threads s') t0 = Some th0 -> end_of (t_call th0) = Some (r, i0) -> t_pc th0 = Removing \/ t_pc th0 = Deleting ->
    nth_error (all s') i0 = Some x0 -> readDone x0 = true /\ writeDone x0 = true.
  Proof.
    intros t0 th0 r i0 x0 T0 E P X0.
    assert (K : forall x, nth_error (all s) i0 = Some x -> readDone x = true /\ writeDone x = true -> readDone x0 = true /\ writeDone x0 = true).
    { intros x X [Mr Mw]. destruct (marks_grow i0 x X) as (x1 & X1 & G). rewrite X1 in X0. injection X0 as <-. split; [exact (G true Mr)|exact (G false Mw)]. }
    destruct (pc_of _ _ T0) as [[N T1]|(-> & C & P1)].
    - assert (Op : opened s i0) by (eapply v_tgt; [exact V|exact T1|exact (end_target _ _ _ E)]). destruct (opened_lookup _ Op) as (x & X).
      apply (K x X). eapply v_both; eassumption.
    - rewrite C in E. assert (Op : opened s i0) by (eapply v_tgt; [exact V|exact T|exact (end_target _ _ _ E)]). destruct (opened_lookup _ Op) as (x & X).
      assert (D : threads s' = at_pc s t th Removing \/ threads s' = at_pc s t th Deleting) by (destruct P as [P|P]; rewrite P in P1; auto).
      assert (Eq : forall p q, at_pc s t th p = at_pc s t th q -> p = q).
      { intros p q Q. assert (Q1 : nth_error (at_pc s t th p) t = nth_error (at_pc s t th q) t) by congruence. unfold at_pc in Q1. rewrite !(lookup_upd _ _ _ _ _ T), Nat.eqb_refl in Q1. congruence. }
      destruct S as [k Ck Pk|k i Ck Pk Cl|k i Ck Pk|r1 i x1 E1 X1 Pk Sl|r1 i x1 E1 X1 Pk|r1 i E1 Pk Cl|r1 i E1 Pk|i x1 E1 X1 Pk|Ck Pk Cl|Ck Pk|i x1 Ck X1 Pk Sl]; cbn [threads] in D;
        try (exfalso; destruct D as [D|D]; apply Eq in D; discriminate D).
      + rewrite E in E1. injection E1 as <- <-. assert (x1 = x) as -> by congruence. cbn [all] in X0. lk. rewrite Nat.eqb_refl in X0. injection X0 as <-.
        destruct (marked (negb r) x) eqn:M; [|exfalso; destruct D as [D|D]; apply Eq in D; discriminate D]. destruct r; cbn in *; auto.
      + apply (K x X). eapply v_both; [exact V|exact T|exact E|left; exact Pk|exact X].
  Qed.
  Lemma p_out : forall i0 x0, opened s' i0 -> nth_error (all s') i0 = Some x0 -> ~ In i0 (c_list s') -> readDone x0 = true /\ writeDone x0 = true.
  Proof.
    intros i0 x0 O X0 N.
    assert (K : forall x, nth_error (all s) i0 = Some x -> readDone x = true /\ writeDone x = true -> readDone x0 = true /\ writeDone x0 = true).
    { intros x X [Mr Mw]. destruct (marks_grow i0 x X) as (x1 & X1 & G). rewrite X1 in X0. injection X0 as <-. split; [exact (G true Mr)|exact (G false Mw)]. }
    destruct (opened_back _ _ _ _ _ T S O) as [Op|P].
    - destruct (opened_lookup _ Op) as (x & X). apply (K x X).
      destruct (in_dec Nat.eq_dec i0 (c_list s)) as [I|I]; [|eapply v_out; eassumption].
      destruct S; cbn [c_list] in N; try contradiction.
      + exfalso. apply N, in_app_iff. left. exact I.
      + destruct (Nat.eq_dec i i0) as [->|D]; [eapply v_both; eauto|]. exfalso. apply N. unfold delete. apply filter_In. split; [exact I|].
        apply negb_true_iff, Nat.eqb_neq. exact D.
    - exfalso. destruct S; try congruence. cbn [c_list] in N. apply N, in_app_iff. right. left. congruence.
  Qed.
  Lemma past_step : past th = true -> forall th0, nth_error (threads s') t = Some th0 -> past th0 = true.
  Proof.
    intros P th0 T0. unfold past in *. destruct S as [k Ck Pk|k i Ck Pk Cl|k i Ck Pk|r1 i x1 E1 X1 Pk Sl|r1 i x1 E1 X1 Pk|r1 i E1 Pk Cl|r1 i E1 Pk|i x1 E1 X1 Pk|Ck Pk Cl|Ck Pk|i x1 Ck X1 Pk Sl];
      rewrite Pk in P; try discriminate P; cbn [threads] in T0; unfold at_pc in T0; lk; rewrite Nat.eqb_refl in T0; injection T0 as <-; reflexivity.
  Qed.
  Lemma me : exists th0, nth_error (threads s') t = Some th0 /\ t_call th0 = t_call th.
  Proof. destruct S; eexists; (split; [cbn [threads]; unfold at_pc; lk; rewrite Nat.eqb_refl; reflexivity|reflexivity]). Qed.
  Lemma other t0 : t0 <> t -> nth_error (threads s') t0 = nth_error (threads s) t0.
  Proof. intro N. apply Nat.eqb_neq in N. destruct S; cbn [threads]; unfold at_pc; lk; rewrite N; reflexivity. Qed.
  Lemma p_m1 : forall i0 x0 r, nth_error (all s') i0 = Some x0 -> marked r x0 = true -> exists t0 th0, nth_error (threads s') t0 = Some th0 /\ end_of (t_call th0) = Some (r, i0) /\ past th0 = true.
  Proof.
    intros i0 x0 r X0 M. destruct (marks_back _ _ _ X0 M) as [(x & X & Mx)|[E P]].
    - destruct (v_m1 s V _ _ _ X Mx) as (t0 & th0 & T0 & E0 & P0). destruct (Nat.eq_dec t0 t) as [->|N].
      + destruct me as (th1 & T1 & C1). assert (th0 = th) as -> by congruence. exists t, th1. split; [exact T1|]. split; [congruence|]. exact (past_step P0 _ T1).
      + exists t0, th0. rewrite (other _ N). auto.
    - destruct me as (th1 & T1 & C1). exists t, th1. split; [exact T1|]. split; [congruence|].
      destruct S; try congruence. cbn [threads] in T1. unfold at_pc in T1. lk. rewrite Nat.eqb_refl in T1. injection T1 as <-. unfold past. cbn. destruct (marked _ _); reflexivity.
  Qed.
  Lemma p_m2 : forall i0 x0 r t0 th0, nth_error (all s') i0 = Some x0 -> nth_error (threads s') t0 = Some th0 -> end_of (t_call th0) = Some (r, i0) -> past th0 = true -> marked r x0 = true.
  Proof.
    intros i0 x0 r t0 th0 X0 T0 E P.
    assert (K : forall x, nth_error (all s) i0 = Some x -> marked r x = true -> marked r x0 = true).
    { intros x X M. destruct (marks_grow i0 x X) as (x1 & X1 & G). rewrite X1 in X0. injection X0 as <-. auto. }
    destruct (pc_of _ _ T0) as [[N T1]|(-> & C & P1)].
    - assert (Op : opened s i0) by (eapply v_tgt; [exact V|exact T1|exact (end_target _ _ _ E)]). destruct (opened_lookup _ Op) as (x & X).
      apply (K x X). eapply v_m2; eassumption.
    - rewrite C in E. assert (Op : opened s i0) by (eapply v_tgt; [exact V|exact T|exact (end_target _ _ _ E)]). destruct (opened_lookup _ Op) as (x & X).
      destruct (past th) eqn:Pt; [apply (K x X); eapply v_m2; eassumption|].
      unfold past in Pt. destruct S as [k Ck Pk|k i Ck Pk Cl|k i Ck Pk|r1 i x1 E1 X1 Pk Sl|r1 i x1 E1 X1 Pk|r1 i E1 Pk Cl|r1 i E1 Pk|i x1 E1 X1 Pk|Ck Pk Cl|Ck Pk|i x1 Ck X1 Pk Sl]; rewrite Pk in Pt; try discriminate Pt;
        try (rewrite Ck in E; discriminate E).
      + cbn [threads] in T0. unfold at_pc in T0. lk. rewrite Nat.eqb_refl in T0. injection T0 as <-. discriminate P.
      + rewrite E in E1. injection E1 as <- <-. cbn [all] in X0. lk. rewrite Nat.eqb_refl in X0. injection X0 as <-. destruct r; reflexivity.
  Qed.
  Lemma became_past : past th = false -> forall th0, nth_error (threads s') t = Some th0 -> past th0 = true -> forall r i0, end_of (t_call th) = Some (r, i0) -> t_pc th = Marking.
  Proof.
    intros P th0 T0 P0 r i0 E. unfold past in P. destruct S as [k Ck Pk|k i Ck Pk Cl|k i Ck Pk|r1 i x1 E1 X1 Pk Sl|r1 i x1 E1 X1 Pk|r1 i E1 Pk Cl|r1 i E1 Pk|i x1 E1 X1 Pk|Ck Pk Cl|Ck Pk|i x1 Ck X1 Pk Sl]; rewrite Pk in P; try discriminate P;
      try (rewrite Ck in E; discriminate E); try exact Pk.
    cbn [threads] in T0. unfold at_pc in T0. lk. rewrite Nat.eqb_refl in T0. injection T0 as <-. discriminate P0.
  Qed.
  Lemma p_rem : forall i0 x0, nth_error (all s') i0 = Some x0 -> readDone x0 = true -> writeDone x0 = true -> In i0 (c_list s') ->
    exists t0 th0 r, nth_error (threads s') t0 = Some th0 /\ end_of (t_call th0) = Some (r, i0) /\ (t_pc th0 = Removing \/ t_pc th0 = Deleting) /\
      forall t' th', t' <> t0 -> nth_error (threads s') t' = Some th' -> past th' = true -> end_of (t_call th') <> Some (r, i0).
  Proof.
    intros i0 x0 X0 Mr Mw I.
    assert (Old : forall r i x, nth_error (all s) i = Some x -> marked r x = true -> opened s i).
    { intros r i x X M. destruct (v_m1 s V _ _ _ X M) as (t0 & th0 & T0 & E0 & _). eapply v_tgt; [exact V|exact T0|exact (end_target _ _ _ E0)]. }
    destruct (in_dec Nat.eq_dec i0 (c_list s)) as [J|J].
    2:{ exfalso. assert (P : t_pc th = Adding i0).
        { destruct S; cbn [c_list] in I; try contradiction.
          - apply in_app_iff in I as [I|[<-|[]]]; [contradiction|assumption].
          - unfold delete in I. apply filter_In in I as [I _]. contradiction. }
        destruct (marks_back _ _ true X0 Mr) as [(x & X & M)|[_ Q]]; [|congruence]. destruct (Old _ _ _ X M) as (t1 & th1 & T1 & P1).
        assert (t = t1) by (eapply (v_one s V t th t1 th1 i0 T T1); unfold owns; [rewrite P|rewrite P1]; reflexivity). congruence. }
    destruct (v_in s V _ J) as (to & tho & To & Po). destruct (opened_lookup i0 (ex_intro _ to (ex_intro _ tho (conj To Po)))) as (x & X).
    destruct (readDone x && writeDone x) eqn:B.
    - apply andb_true_iff in B as [Br Bw]. destruct (v_rem s V _ _ X Br Bw J) as (t1 & th1 & r & T1 & E1 & P1 & U1).
      assert (H1 : holds_s th1 = Some i0) by (unfold holds_s; destruct P1 as [-> | ->]; exact (end_target _ _ _ E1)).
      destruct (Nat.eq_dec t1 t) as [->|N].
      + assert (th1 = th) as -> by congruence. destruct P1 as [P1|P1].
        * destruct me as (th2 & T2 & C2). exists t, th2, r. split; [exact T2|]. split; [congruence|]. split.
          -- right. destruct S; try congruence. cbn [threads] in T2. unfold at_pc in T2. lk. rewrite Nat.eqb_refl in T2. injection T2 as <-. reflexivity.
          -- intros t' th' N' T'. rewrite (other _ N') in T'. apply (U1 _ _ N' T').
        * exfalso. destruct S as [k Ck Pk|k i Ck Pk Cl|k i Ck Pk|r1 i x1 E2 X1 Pk Sl|r1 i x1 E2 X1 Pk|r1 i E2 Pk Cl|r1 i E2 Pk|i x1 E2 X1 Pk|Ck Pk Cl|Ck Pk|i x1 Ck X1 Pk Sl]; try congruence.
          rewrite E1 in E2. injection E2 as <- <-. cbn [c_list] in I. unfold delete in I. apply filter_In in I as [_ I]. rewrite Nat.eqb_refl in I. discriminate I.
      + exists t1, th1, r. rewrite (other _ N). split; [exact T1|]. split; [exact E1|]. split; [exact P1|]. intros t' th' N' T' P' E'.
        destruct (Nat.eq_dec t' t) as [->|Nt].
        * destruct me as (th2 & T2 & C2). assert (th' = th2) as -> by congruence. rewrite C2 in E'. destruct (past th) eqn:Pt; [exact (U1 _ _ N' T Pt E')|].
          pose proof (became_past Pt _ T2 P' _ _ E') as Mk. apply N'. eapply (holds_s_owner s t th t1 th1 i0 V T T1); [|exact H1]. unfold holds_s. rewrite Mk. exact (end_target _ _ _ E').
        * rewrite (other _ Nt) in T'. exact (U1 _ _ N' T' P' E').
    - assert (Q : exists r, end_of (t_call th) = Some (r, i0) /\ t_pc th = Marking /\ marked r x = false /\ marked (negb r) x = true).
      { destruct (marks_back _ _ true X0 Mr) as [(x1 & X1 & M1)|[E1 P1]]; destruct (marks_back _ _ false X0 Mw) as [(x2 & X2 & M2)|[E2 P2]].
        - assert (x1 = x) as -> by congruence. assert (x2 = x) as -> by congruence. cbn in M1, M2. rewrite M1, M2 in B. discriminate B.
        - assert (x1 = x) as -> by congruence. exists false. cbn in *. rewrite M1 in B. auto.
        - assert (x2 = x) as -> by congruence. exists true. cbn in *. rewrite M2, andb_true_r in B. auto.
        - congruence. }
      destruct Q as (r & E & P & Mf & Mt). destruct me as (th2 & T2 & C2). exists t, th2, r. split; [exact T2|]. split; [congruence|]. split.
      + left. destruct S as [k Ck Pk|k i Ck Pk Cl|k i Ck Pk|r1 i x1 E2 X1 Pk Sl|r1 i x1 E2 X1 Pk|r1 i E2 Pk Cl|r1 i E2 Pk|i x1 E2 X1 Pk|Ck Pk Cl|Ck Pk|i x1 Ck X1 Pk Sl]; try congruence.
        rewrite E in E2. injection E2 as <- <-. assert (x1 = x) as -> by congruence. cbn [threads] in T2. unfold at_pc in T2. lk. rewrite Nat.eqb_refl in T2. injection T2 as <-. cbn. rewrite Mt. reflexivity.
      + intros t' th' N' T' P' E'. rewrite (other _ N') in T'. pose proof (v_m2 s V _ _ _ _ _ X T' E' P'). congruence.
  Qed.
  Lemma inv_stepR : inv s'.
  Proof.
    constructor; [exact p_wf|exact p_c1|exact p_c2|exact p_s1|exact p_s2|exact p_tgt|exact p_own|exact p_one|exact p_nd|exact p_in|exact p_out|exact p_m1|exact p_m2|exact p_both|exact p_rem].
  Qed.
End Step.

Lemma inv_step s t s' : inv s -> step s t = Some s' -> inv s'.
Proof. intros V H. apply step_stepR in H as (th & T & S). eapply inv_stepR; eassumption. Qed.
Lemma handed_out_opened s i : handed_out s i = true <-> opened s i.
Proof.
  unfold handed_out. rewrite existsb_exists. split.
  - intros (th & I & P). apply In_nth_error in I as (t & T). exists t, th. split; [exact T|]. destruct (t_pc th); try discriminate. apply Nat.eqb_eq in P. congruence.
  - intros (t & th & T & P). exists th. split; [eapply nth_error_In; exact T|]. rewrite P. apply Nat.eqb_refl.
Qed.
Lemma snoc_cases {A} (l : list A) x j y : nth_error (l ++ [x]) j = Some y -> nth_error l j = Some y \/ (j = List.length l /\ y = x).
Proof. rewrite lookup_snoc. destruct (Nat.eqb_spec j (List.length l)) as [->|N]; [|auto]. intro H. injection H as ->. auto. Qed.
Lemma snoc_old {A} (l : list A) x j y : nth_error l j = Some y -> nth_error (l ++ [x]) j = Some y.
Proof. intro H. rewrite nth_error_app1; [exact H|]. apply nth_error_Some. congruence. Qed.
Lemma inv_call s c s' : inv s -> next s (Call c) = Some s' -> inv s'.
Proof.
  intros V H. cbn [next] in H. destruct (allowed s c) eqn:A; [|discriminate]. injection H as <-.
  assert (Op : forall i l cl a, opened s i -> opened {| c_list := l; c_lock := cl; all := a; threads := threads s ++ [{| t_call := c; t_pc := Called |}] |} i).
  { intros i l cl a (t & th & T & P). exists t, th. split; [apply snoc_old; exact T|exact P]. }
  assert (Opb : forall i l cl a, opened {| c_list := l; c_lock := cl; all := a; threads := threads s ++ [{| t_call := c; t_pc := Called |}] |} i -> opened s i).
  { intros i l cl a (t & th & T & P). cbn [threads] in T. apply snoc_cases in T as [T|[_ ->]]; [exists t, th; auto|discriminate P]. }
  constructor; cbn [threads c_list c_lock all].
  - intros t th T. apply snoc_cases in T as [T|[_ ->]]; [eapply v_wf; eassumption|destruct c; reflexivity].
  - intros t th T Hc. apply snoc_cases in T as [T|[_ ->]]; [eapply v_c1; eassumption|discriminate Hc].
  - intros t L. destruct (v_c2 s V _ L) as (th & T & Hc). exists th. split; [apply snoc_old; exact T|exact Hc].
  - intros t th i T Hs. apply snoc_cases in T as [T|[_ ->]]; [eapply v_s1; eassumption|discriminate Hs].
  - intros i x t X L. destruct (v_s2 s V _ _ _ X L) as (th & T & Hs). exists th. split; [apply snoc_old; exact T|exact Hs].
  - intros t th i T E. apply Op. apply snoc_cases in T as [T|[_ ->]]; [eapply v_tgt; eassumption|]. apply handed_out_opened. cbn in E. destruct c; try discriminate E; injection E as <-; exact A.
  - intros t th i T O. apply snoc_cases in T as [T|[_ ->]]; [eapply v_own; eassumption|discriminate O].
  - intros t th t' th' i T T' O O'. apply snoc_cases in T as [T|[_ ->]]; [|discriminate O]. apply snoc_cases in T' as [T'|[_ ->]]; [|discriminate O']. eapply v_one; eassumption.
  - apply v_nd. exact V.
  - intros i I. apply Op. apply v_in; assumption.
  - intros i x O X N. eapply v_out; [exact V|eapply Opb; exact O|exact X|exact N].
  - intros i x r X M. destruct (v_m1 s V _ _ _ X M) as (t & th & T & E & P). exists t, th. split; [apply snoc_old; exact T|auto].
  - intros i x r t th X T E P. apply snoc_cases in T as [T|[_ ->]]; [eapply v_m2; eassumption|discriminate P].
  - intros t th r i x T E P X. apply snoc_cases in T as [T|[_ ->]]; [eapply v_both; eassumption|destruct P; discriminate].
  - intros i x X Mr Mw I. destruct (v_rem s V _ _ X Mr Mw I) as (t & th & r & T & E & P & U). exists t, th, r. split; [apply snoc_old; exact T|]. split; [exact E|]. split; [exact P|].
    intros t' th' N T' P'. apply snoc_cases in T' as [T'|[_ ->]]; [eapply U; eassumption|discriminate P'].
Qed.
Lemma inv_next s e s' : inv s -> next s e = Some s' -> inv s'.
Proof. intros V H. destruct e as [c|t]; [eapply inv_call; eassumption|eapply inv_step; eassumption]. Qed.
Lemma inv_run h : forall s s', inv s -> run s h = Some s' -> inv s'.
Proof.
  induction h as [|e h IH]; intros s s' V H; cbn [run] in H; [injection H as <-; exact V|]. destruct (next s e) as [s1|] eqn:N; [|discriminate].
  eapply IH; [eapply inv_next; eassumption|exact H].
Qed.
