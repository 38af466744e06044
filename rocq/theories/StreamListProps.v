(** Property C102: the list of the streams of a QUIC connection. *)
From Coq Require Import Lia.
From Verif Require Import Base StreamListModel StreamListSpec StreamListProofs.
Import ListNotations.

Lemma run_app h : forall h' s, run s (h ++ h') = match run s h with Some s1 => run s1 h' | None => None end.
Proof. induction h as [|e h IH]; intros h' s; cbn [run app]; [reflexivity|]. destruct (next s e); [apply IH|reflexivity]. Qed.
(** Calls stay, and returned ones do not change. *)
Lemma keep_next s e s' t th : inv s -> next s e = Some s' -> nth_error (threads s) t = Some th ->
  exists th', nth_error (threads s') t = Some th' /\ t_call th' = t_call th /\ (returned (t_pc th) -> th' = th).
Proof.
  intros V H T. destruct e as [c|t0]; cbn [next] in H.
  - destruct (allowed s c); [|discriminate]. injection H as <-. exists th. split; [apply snoc_old; exact T|auto].
  - apply step_stepR in H as (th0 & T0 & S). destruct (Nat.eq_dec t t0) as [->|N].
    + assert (th0 = th) as -> by congruence. destruct (me s t0 th s' T S) as (th1 & T1 & C1). exists th1. split; [exact T1|]. split; [exact C1|].
      intro R. exfalso. destruct R as [R|[[i R]|[l R]]]; destruct S; congruence.
    + exists th. rewrite (other s t0 th0 s' T0 S t N). auto.
Qed.
Lemma keep_run h : forall s s' t th, inv s -> run s h = Some s' -> nth_error (threads s) t = Some th ->
  exists th', nth_error (threads s') t = Some th' /\ t_call th' = t_call th /\ (returned (t_pc th) -> th' = th).
Proof.
  induction h as [|e h IH]; intros s s' t th V H T; cbn [run] in H; [injection H as <-; eauto|]. destruct (next s e) as [s1|] eqn:N; [|discriminate].
  destruct (keep_next _ _ _ _ _ V N T) as (th1 & T1 & C1 & R1). destruct (IH s1 s' t th1 (inv_next _ _ _ V N) H T1) as (th2 & T2 & C2 & R2).
  exists th2. split; [exact T2|]. split; [congruence|]. intro R. pose proof (R1 R) as E. subst th1. auto.
Qed.
Lemma open_returned_opened s i : open_returned s i <-> opened s i.
Proof.
  split.
  - intros (th & I & P). apply In_nth_error in I as (t & T). exists t, th. auto.
  - intros (t & th & T & P). exists th. split; [eapply nth_error_In; exact T|exact P].
Qed.
Lemma opened_run h s s' i : inv s -> run s h = Some s' -> opened s i -> opened s' i.
Proof.
  intros V H (t & th & T & P). destruct (keep_run _ _ _ _ _ V H T) as (th' & T' & _ & R). assert (th' = th) as -> by (apply R; right; left; eauto). exists t, th. auto.
Qed.
Lemma returned_run h s s' c : inv s -> run s h = Some s' -> has_returned s c -> has_returned s' c.
Proof.
  intros V H (th & I & C & R). apply In_nth_error in I as (t & T). destruct (keep_run _ _ _ _ _ V H T) as (th' & T' & C' & R'). exists th'. split; [eapply nth_error_In; exact T'|]. split; [congruence|].
  rewrite (R' R). exact R.
Qed.
Lemma called_run h s s' c : inv s -> run s h = Some s' -> was_called s c -> was_called s' c.
Proof.
  intros V H (th & I & C). apply In_nth_error in I as (t & T). destruct (keep_run _ _ _ _ _ V H T) as (th' & T' & C' & _). exists th'. split; [eapply nth_error_In; exact T'|congruence].
Qed.
Lemma ended_gone s i : inv s -> ended s i -> ~ In i (c_list s).
Proof.
  intros V [(a & Ia & Ca & Ra) (b & Ib & Cb & Rb)] I.
  apply In_nth_error in Ia as (ta & Ta). apply In_nth_error in Ib as (tb & Tb).
  assert (Da : t_pc a = Done). { pose proof (v_wf s V _ _ Ta) as W. unfold wf in W. rewrite Ca in W. destruct Ra as [R|[[j R]|[l R]]]; rewrite R in W; try discriminate W; exact R. }
  assert (Db : t_pc b = Done). { pose proof (v_wf s V _ _ Tb) as W. unfold wf in W. rewrite Cb in W. destruct Rb as [R|[[j R]|[l R]]]; rewrite R in W; try discriminate W; exact R. }
  assert (O : opened s i) by (eapply v_tgt; [exact V|exact Ta|rewrite Ca; reflexivity]). destruct (opened_lookup s V i O) as (x & X).
  assert (Mr : marked true x = true) by (eapply (v_m2 s V i x true ta a X Ta); [rewrite Ca; reflexivity|unfold past; rewrite Da; reflexivity]).
  assert (Mw : marked false x = true) by (eapply (v_m2 s V i x false tb b X Tb); [rewrite Cb; reflexivity|unfold past; rewrite Db; reflexivity]).
  destruct (v_rem s V i x X Mr Mw I) as (t & th & r & T & E & P & U). destruct r.
  - apply (U ta a); [intros ->; destruct P; congruence|exact Ta|unfold past; rewrite Da; reflexivity|rewrite Ca; reflexivity].
  - apply (U tb b); [intros ->; destruct P; congruence|exact Tb|unfold past; rewrite Db; reflexivity|rewrite Cb; reflexivity].
Qed.
Lemma out_ending s i : inv s -> opened s i -> ~ In i (c_list s) -> ending s i.
Proof.
  intros V O N. destruct (opened_lookup s V i O) as (x & X). destruct (v_out s V i x O X N) as [Mr Mw].
  destruct (v_m1 s V i x true X Mr) as (t & th & T & E & _). destruct (v_m1 s V i x false X Mw) as (t' & th' & T' & E' & _).
  split; [exists th|exists th']; (split; [eapply nth_error_In; eassumption|]).
  - destruct (t_call th); try discriminate E; injection E as ->; reflexivity.
  - destruct (t_call th'); try discriminate E'; injection E' as ->; reflexivity.
Qed.

(** The value that a call of Streams returns was the list at some moment of the call. *)
Lemma listed_when h : forall s s' t l, inv s -> run s h = Some s' -> (forall th, nth_error (threads s) t = Some th -> ~ exists l, t_pc th = Listed l) ->
  (exists th, nth_error (threads s') t = Some th /\ t_pc th = Listed l) ->
  exists h1 h2 s1, h = h1 ++ h2 /\ run s h1 = Some s1 /\ run s1 h2 = Some s' /\ c_list s1 = l.
Proof.
  induction h as [|e h IH]; intros s s' t l V H N (th & T & P); cbn [run] in H.
  - injection H as <-. exfalso. apply (N _ T). eauto.
  - destruct (next s e) as [s1|] eqn:E; [|discriminate]. pose proof (inv_next _ _ _ V E) as V1.
    destruct (nth_error (threads s1) t) as [th1|] eqn:T1; [destruct (t_pc th1) eqn:P1|].
    all: try (destruct (IH s1 s' t l V1 H) as (h1 & h2 & s2 & -> & R1 & R2 & C); [intros th0 T0 [l0 L0]; congruence|eauto|exists (e :: h1), h2, s2; cbn [run app]; rewrite E; auto]).
    (* it is listed now *)
    destruct (keep_run _ _ _ _ _ V1 H T1) as (th' & T' & _ & R). assert (th' = th1) as -> by (apply R; right; right; eauto).
    assert (l0 = l) as -> by congruence. exists [], (e :: h), s. cbn [run app]. rewrite E. split; [reflexivity|]. split; [reflexivity|]. split; [exact H|].
    destruct e as [c|t0]; cbn [next] in E.
    + destruct (allowed s c); [|discriminate]. injection E as <-. cbn [threads] in T1. apply snoc_cases in T1 as [T1|[_ ->]]; [exfalso; apply (N _ T1); eauto|discriminate P1].
    + apply step_stepR in E as (th0 & T0 & S). destruct (Nat.eq_dec t t0) as [->|Nt].
      * destruct S; cbn [threads] in T1; unfold at_pc in T1; rewrite (lookup_upd _ _ _ _ _ T0), Nat.eqb_refl in T1; injection T1 as <-; cbn [t_pc] in P1; try discriminate P1.
        -- destruct (marked _ _); discriminate P1.
        -- congruence.
      * rewrite (other s t0 th0 s1 T0 S t Nt) in T1. exfalso. apply (N _ T1). eauto.
Qed.

(** C102: while any number of goroutines open and end streams, Streams never names a stream
    twice; it names every stream that was open from before the call until after it, and none
    that was ended before the call or not returned to anyone yet when it was over. *)
Theorem C102_streams : forall h1 h2 s1 s2 t l, run init h1 = Some s1 -> run s1 h2 = Some s2 ->
  nth_error (threads s1) t = None -> nth_error (threads s2) t = Some {| t_call := Streams; t_pc := Listed l |} ->
  NoDup l /\ (forall i, open_returned s1 i -> ~ ending s2 i -> In i l) /\ (forall i, In i l -> open_returned s2 i /\ ~ ended s1 i).
Proof.
  intros h1 h2 s1 s2 t l R1 R2 N T. pose proof (inv_run _ _ _ inv_init R1) as V1.
  destruct (listed_when h2 s1 s2 t l V1 R2) as (a & b & s & -> & Ra & Rb & C); [intros th T1; congruence|eexists; split; [exact T|reflexivity]|].
  pose proof (inv_run _ _ _ V1 Ra) as V. subst l. split; [apply v_nd; exact V|]. split.
  - intros i O E. apply open_returned_opened in O. pose proof (opened_run _ _ _ _ V1 Ra O) as O'. destruct (in_dec Nat.eq_dec i (c_list s)) as [I|I]; [exact I|].
    exfalso. apply E. destruct (out_ending s i V O' I) as [X Y]. split; [exact (called_run b s s2 _ V Rb X)|exact (called_run b s s2 _ V Rb Y)].
  - intros i I. split; [apply open_returned_opened; eapply opened_run; [exact V|exact Rb|apply v_in; assumption]|].
    intros [X Y]. apply (ended_gone s i V); [split; [exact (returned_run a s1 s _ V1 Ra X)|exact (returned_run a s1 s _ V1 Ra Y)]|exact I].
Qed.
Print Assumptions C102_streams.

(** Once no call is in progress, the list is what it should be. *)
Theorem C102_quiet : forall h s, run init h = Some s -> quiet s -> NoDup (c_list s) /\ forall i, In i (c_list s) <-> open_returned s i /\ ~ ended s i.
Proof.
  intros h s R Q. pose proof (inv_run _ _ _ inv_init R) as V. split; [apply v_nd; exact V|]. intro i. split.
  - intro I. split; [apply open_returned_opened, v_in; assumption|]. intro E. exact (ended_gone s i V E I).
  - intros [O E]. apply open_returned_opened in O. destruct (in_dec Nat.eq_dec i (c_list s)) as [I|I]; [exact I|]. exfalso. apply E.
    destruct (out_ending s i V O I) as [(a & Ia & Ca) (b & Ib & Cb)]. split; [exists a|exists b]; auto.
Qed.
Print Assumptions C102_quiet.

(** Streams are listed in the order in which they were opened. *)
Lemma list_next s e s' : inv s -> next s e = Some s' -> exists f new, c_list s' = filter f (c_list s) ++ new /\ forall j, In j new -> ~ opened s j.
Proof.
  intros V H. assert (Same : c_list s' = c_list s -> exists f new, c_list s' = filter f (c_list s) ++ new /\ forall j, In j new -> ~ opened s j).
  { intros ->. exists (fun _ => true), []. split; [|intros j []]. rewrite app_nil_r. induction (c_list s) as [|a l IH]; cbn; congruence. }
  destruct e as [c|t]; cbn [next] in H.
  - destruct (allowed s c); [|discriminate]. injection H as <-. apply Same. reflexivity.
  - apply step_stepR in H as (th & T & S). destruct S as [k C P|k i C P Cl|k i C P|r i x E X P Sl|r i x E X P|r i E P Cl|r i E P|i x E X P|C P Cl|C P|i x C X P Sl]; try (apply Same; reflexivity).
    + exists (fun _ => true), [i]. cbn [c_list]. split; [f_equal; clear; induction (c_list s) as [|a l IH]; cbn; congruence|]. intros j [<-|[]] (t1 & th1 & T1 & P1).
      assert (t = t1) by (eapply (v_one s V t th t1 th1 i T T1); unfold owns; [rewrite P|rewrite P1]; reflexivity). congruence.
    + exists (fun j => negb (i =? j)), []. cbn [c_list]. split; [rewrite app_nil_r; reflexivity|intros j []].
Qed.
Lemma filter_filter {A} (f g : A -> bool) l : filter f (filter g l) = filter (fun x => g x && f x) l.
Proof. induction l as [|a l IH]; [reflexivity|]. cbn. destruct (g a); cbn; [destruct (f a); cbn|]; rewrite ?IH; reflexivity. Qed.
Lemma list_run h : forall s s', inv s -> run s h = Some s' -> exists f new, c_list s' = filter f (c_list s) ++ new /\ forall j, In j new -> ~ opened s j.
Proof.
  induction h as [|e h IH]; intros s s' V H; cbn [run] in H.
  - injection H as <-. exists (fun _ => true), []. split; [|intros j []]. rewrite app_nil_r. induction (c_list s) as [|a l IH]; cbn; congruence.
  - destruct (next s e) as [s1|] eqn:N; [|discriminate]. destruct (list_next _ _ _ V N) as (f & new & C & F). pose proof (inv_next _ _ _ V N) as V1.
    destruct (IH s1 s' V1 H) as (f' & new' & C' & F'). exists (fun x => f x && f' x), (filter f' new ++ new'). split.
    + rewrite C', C, filter_app, filter_filter, app_assoc. reflexivity.
    + intros j I O. apply in_app_iff in I as [I|I]; [apply filter_In in I as [I _]; exact (F j I O)|]. apply (F' j I). eapply (opened_run [e]); [exact V| |exact O]. cbn [run]. rewrite N. reflexivity.
Qed.
Theorem C102_in_order : forall h1 h2 s1 s2 t th i j, run init h1 = Some s1 -> run s1 h2 = Some s2 ->
  open_returned s1 i -> nth_error (threads s1) t = None -> nth_error (threads s2) t = Some th -> t_pc th = Opened j ->
  In i (c_list s2) -> In j (c_list s2) -> before i j (c_list s2).
Proof.
  intros h1 h2 s1 s2 t th i j R1 R2 Oi N T P Ii Ij. pose proof (inv_run _ _ _ inv_init R1) as V1. pose proof (inv_run _ _ _ V1 R2) as V2. apply open_returned_opened in Oi.
  destruct (list_run h2 s1 s2 V1 R2) as (f & new & C & F). rewrite C in Ii, Ij |- *.
  apply in_app_iff in Ii as [Ii|Ii]; [|exfalso; exact (F i Ii Oi)]. apply in_app_iff in Ij as [Ij|Ij].
  - exfalso. apply filter_In in Ij as [Ij _]. apply (v_in s1 V1) in Ij as (t' & th' & T' & P'). destruct (keep_run _ _ _ _ _ V1 R2 T') as (th2 & T2 & _ & K).
    assert (th2 = th') as -> by (apply K; right; left; eauto). assert (t = t') by (eapply (v_one s2 V2 t th t' th' j T T2); unfold owns; [rewrite P|rewrite P']; reflexivity). congruence.
  - apply in_split in Ii as (a & b & ->). apply in_split in Ij as (c & d & ->). exists a, (b ++ c), d. repeat (rewrite <- app_assoc || cbn [app]). reflexivity.
Qed.
Print Assumptions C102_in_order.

(** Nobody waits for ever: as long as a call has not returned, one of the calls can go on
    although one lock is taken while another one is held ... *)
Theorem C102_no_deadlock : forall h s, run init h = Some s -> ~ quiet s -> exists t s', next s (Step t) = Some s'.
Proof.
  intros h s R Q. pose proof (inv_run _ _ _ inv_init R) as V. cbn [next].
  assert (U : exists t th, nth_error (threads s) t = Some th /\ ~ returned (t_pc th)).
  { assert (D : forall l : list thread, (forall th, In th l -> returned (t_pc th)) \/ exists th, In th l /\ ~ returned (t_pc th)).
    { induction l as [|a l IH]; [left; intros th []|]. assert (Da : returned (t_pc a) \/ ~ returned (t_pc a)).
      { unfold returned. destruct (t_pc a); try (left; eauto; fail); right; intros [X|[[k X]|[k X]]]; discriminate X. }
      destruct Da as [Da|Da]; [|right; exists a; split; [left; reflexivity|exact Da]]. destruct IH as [IH|(th & I & N)]; [left; intros th [<-|I]; auto|right; exists th; split; [right; exact I|exact N]]. }
    destruct (D (threads s)) as [X|(th & I & N)]; [contradiction|]. apply In_nth_error in I as (t & T). eauto. }
  assert (Hc : forall t th, nth_error (threads s) t = Some th -> holds_c th = true -> exists t s', step s t = Some s').
  { intros t th T H. exists t. unfold step. rewrite T. pose proof (v_wf s V _ _ T) as W. unfold wf in W. unfold holds_c in H.
    destruct (t_call th) eqn:C, (t_pc th) eqn:P; try discriminate W; try discriminate H; try (eexists; reflexivity).
    - assert (Hs : holds_s th = Some i) by (unfold holds_s; rewrite P, C; reflexivity). destruct (v_s1 s V _ _ _ T Hs) as (x & X & _). unfold mark_step. rewrite X, P. eexists. reflexivity.
    - assert (Hs : holds_s th = Some i) by (unfold holds_s; rewrite P, C; reflexivity). destruct (v_s1 s V _ _ _ T Hs) as (x & X & _). unfold mark_step. rewrite X, P. eexists. reflexivity. }
  destruct (c_lock s) as [tc|] eqn:Lc; [destruct (v_c2 s V _ Lc) as (th & T & H); eapply Hc; eassumption|].
  assert (Hs : forall t th i, nth_error (threads s) t = Some th -> holds_s th = Some i -> exists t s', step s t = Some s').
  { intros t th i T H. destruct (v_s1 s V _ _ _ T H) as (x & X & L). pose proof (v_wf s V _ _ T) as W. unfold wf in W. exists t. unfold step. rewrite T. unfold holds_s in H.
    destruct (t_call th) eqn:C, (t_pc th) eqn:P; try discriminate W; try discriminate H; cbn [target] in H; injection H as ->; unfold mark_step; rewrite X, ?P, ?Lc; try (eexists; reflexivity). }
  destruct U as (t & th & T & N). pose proof (v_wf s V _ _ T) as W. unfold wf in W.
  assert (Free : forall i, target (t_call th) = Some i -> t_pc th = Called -> exists t s', step s t = Some s').
  { intros i E P. assert (O : opened s i) by (eapply v_tgt; eassumption). destruct (opened_lookup s V i O) as (x & X). destruct (s_lock x) as [t'|] eqn:L.
    - destruct (v_s2 s V _ _ _ X L) as (th' & T' & H'). eapply Hs; eassumption.
    - exists t. unfold step. rewrite T. destruct (t_call th) eqn:C; try discriminate E; injection E as ->; unfold mark_step; rewrite X, P, L; eexists; reflexivity. }
  destruct (t_call th) eqn:C, (t_pc th) eqn:P; try discriminate W; try (exfalso; apply N; unfold returned; eauto; fail);
    try (eapply Free; [reflexivity|reflexivity]); try (eapply (Hs t th); [exact T|unfold holds_s; rewrite P, C; reflexivity]);
    try (eapply (Hc t th); [exact T|unfold holds_c; rewrite P; reflexivity]);
    exists t; unfold step; rewrite T, C, P, ?Lc; eexists; reflexivity.
Qed.
Print Assumptions C102_no_deadlock.

(** ... and they all return after at most six steps each. *)
Definition left_of (p : pc) : nat :=
  match p with
  | Called => 6 | Made _ => 2 | Adding _ => 1 | Marking => 4 | Removing => 3 | Deleting => 2 | Leaving => 1 | Cloning => 1
  | Opened _ | Listed _ | Done => 0
  end.
Fixpoint work (l : list thread) : nat := match l with [] => 0 | th :: l => left_of (t_pc th) + work l end.
Lemma work_upd t th c p : forall l, nth_error l t = Some th -> left_of p < left_of (t_pc th) -> work (upd t {| t_call := c; t_pc := p |} l) < work l.
Proof.
  intro l. revert t. induction l as [|a l IH]; intros [|t] T L; cbn in T; try discriminate.
  - injection T as ->. cbn [upd work t_pc]. lia.
  - specialize (IH t T L). cbn [upd work]. lia.
Qed.
Lemma work_step s t s' : step s t = Some s' -> work (threads s') < work (threads s).
Proof.
  intro H. apply step_stepR in H as (th & T & S). destruct S; cbn [threads]; unfold at_pc; apply (work_upd _ th); try exact T;
    match goal with P : t_pc th = _ |- _ => rewrite P end; cbn; try lia. destruct (marked _ _); cbn; lia.
Qed.
Lemma work_bound l : work l <= 6 * List.length l.
Proof. induction l as [|a l IH]; [auto|]. cbn [work List.length]. assert (left_of (t_pc a) <= 6) by (destruct (t_pc a); cbn; lia). lia. Qed.
Theorem C102_all_return : forall h s ts s', run init h = Some s -> run s (map Step ts) = Some s' ->
  List.length ts <= 6 * List.length (threads s) /\ ((forall t, next s' (Step t) = None) -> quiet s').
Proof.
  intros h s ts s' R H. split.
  - assert (K : forall ts s, run s (map Step ts) = Some s' -> List.length ts + work (threads s') <= work (threads s)).
    { clear. induction ts as [|t ts IH]; intros s H; cbn in H; [injection H as <-; auto|]. destruct (step s t) as [s1|] eqn:E; [|discriminate]. apply IH in H. apply work_step in E. cbn. lia. }
    apply K in H. pose proof (work_bound (threads s)). lia.
  - intros N. assert (R2 : run init (h ++ map Step ts) = Some s') by (rewrite run_app, R; exact H).
    intros th I. assert (Da : returned (t_pc th) \/ ~ returned (t_pc th)).
    { unfold returned. destruct (t_pc th); try (left; eauto; fail); right; intros [X|[[k X]|[k X]]]; discriminate X. }
    destruct Da as [Da|Da]; [exact Da|]. exfalso. destruct (C102_no_deadlock _ _ R2) as (t & s2 & E); [intro Q; apply Da, Q, I|]. rewrite N in E. discriminate E.
Qed.
Print Assumptions C102_all_return.

(** C102 is false for HTTP/3.  The library that serves HTTP/3 gets the streams that the client
    opens for one direction as streams that can be read, and there is nothing else that it can
    do with them: their other half, which does not exist, is never ended, and they stay in
    the list as long as the connection. *)
Theorem C102_one_way_refuted : forall h s, run init h = Some s ->
  (forall i x, nth_error (all s) i = Some x -> s_kind x = ReceiveOnly -> ~ was_called s (EndWrite i)) ->
  forall i x, open_returned s i -> nth_error (all s) i = Some x -> s_kind x = ReceiveOnly -> In i (c_list s).
Proof.
  intros h s R N i x O X K. pose proof (inv_run _ _ _ inv_init R) as V. apply open_returned_opened in O.
  destruct (in_dec Nat.eq_dec i (c_list s)) as [I|I]; [exact I|]. exfalso. destruct (out_ending s i V O I) as [_ W]. exact (N _ _ X K W).
Qed.
Print Assumptions C102_one_way_refuted.
(** So a client makes the list as long as it likes, over a single connection on which at most one
    stream is open at a time. *)
Definition once (n : nat) : list event :=
  [Call (Open ReceiveOnly); Step (2 * n); Step (2 * n); Step (2 * n);
   Call (EndRead n); Step (2 * n + 1); Step (2 * n + 1); Step (2 * n + 1)].
Fixpoint often (n : nat) : list event := match n with O => [] | S n => often n ++ once n end.
Fixpoint them (n : nat) : list thread :=
  match n with O => [] | S n => them n ++ [{| t_call := Open ReceiveOnly; t_pc := Opened n |}; {| t_call := EndRead n; t_pc := Done |}] end.
Definition dead : stream := {| s_kind := ReceiveOnly; s_lock := None; readDone := true; writeDone := false |}.
Lemma them_length n : List.length (them n) = 2 * n.
Proof. induction n as [|n IH]; [reflexivity|]. cbn [them]. rewrite app_length, IH. cbn. lia. Qed.
Lemma upd_app {A} (l : list A) x y r : upd (List.length l) y (l ++ x :: r) = l ++ y :: r.
Proof. induction l as [|a l IH]; cbn; congruence. Qed.
Lemma nth_mid {A} (l : list A) x r : nth_error (l ++ x :: r) (List.length l) = Some x.
Proof. induction l as [|a l IH]; [reflexivity|exact IH]. Qed.
Lemma nth_rep n x r : nth_error (repeat dead n ++ x :: r) n = Some x.
Proof. rewrite <- (repeat_length dead n) at 2. apply nth_mid. Qed.
Lemma upd_rep n x y r : upd n y (repeat dead n ++ x :: r) = repeat dead n ++ y :: r.
Proof. rewrite <- (repeat_length dead n) at 1. apply upd_app. Qed.
Lemma nth_them n x r : nth_error (them n ++ x :: r) (2 * n) = Some x.
Proof. rewrite <- them_length. apply nth_mid. Qed.
Lemma upd_them n x y r : upd (2 * n) y (them n ++ x :: r) = them n ++ y :: r.
Proof. rewrite <- them_length. apply upd_app. Qed.
Lemma nth_them2 n a x r : nth_error (them n ++ a :: x :: r) (2 * n + 1) = Some x.
Proof. change (them n ++ a :: x :: r) with (them n ++ [a] ++ x :: r). rewrite app_assoc. replace (2 * n + 1) with (List.length (them n ++ [a])); [apply nth_mid|]. rewrite app_length, them_length. reflexivity. Qed.
Lemma upd_them2 n a x y r : upd (2 * n + 1) y (them n ++ a :: x :: r) = them n ++ a :: y :: r.
Proof. change (them n ++ a :: x :: r) with (them n ++ [a] ++ x :: r). rewrite app_assoc. replace (2 * n + 1) with (List.length (them n ++ [a])); [rewrite upd_app, <- app_assoc; reflexivity|]. rewrite app_length, them_length. reflexivity. Qed.
Ltac go := cbn [threads c_list c_lock all t_call t_pc s_lock s_kind readDone writeDone with_lock mark]; rewrite ?nth_rep, ?nth_them, ?nth_them2, ?upd_rep, ?upd_them, ?upd_them2, ?repeat_length.
Lemma often_run n : run init (often n) = Some {| c_list := seq 0 n; c_lock := None; all := repeat dead n; threads := them n |}.
Proof.
  induction n as [|n IH]; [reflexivity|]. cbn [often]. rewrite run_app, IH. clear IH. unfold once. cbn [run next allowed]. go.
  do 3 (unfold step at 1; go; go; unfold at_pc; go; go).
  replace (handed_out _ n) with true.
  2:{ symmetry. unfold handed_out. cbn [threads]. rewrite existsb_app. cbn. rewrite Nat.eqb_refl, orb_true_r. reflexivity. }
  rewrite <- app_assoc. cbn [app]. do 3 (unfold step at 1; go; go; unfold mark_step; go; go; unfold at_pc; go; go).
  f_equal. f_equal.
  - rewrite seq_S. reflexivity.
  - change (repeat dead (S n)) with (dead :: repeat dead n). rewrite repeat_cons. reflexivity.
Qed.
Theorem C102_list_grows_refuted : forall n, exists s, run init (often n) = Some s /\ quiet s /\
  (forall i, i < n -> open_returned s i /\ has_returned s (EndRead i)) /\
  (forall i x, nth_error (all s) i = Some x -> s_kind x = ReceiveOnly) /\ c_list s = seq 0 n.
Proof.
  intro n. eexists. split; [apply often_run|]. cbn [threads all c_list]. split; [|split; [|split; [|reflexivity]]].
  - unfold quiet. cbn [threads]. induction n as [|n IH]; intros th I; [destruct I|]. cbn [them] in I. apply in_app_iff in I as [I|[<-|[<-|[]]]]; [exact (IH th I)|right; left; exists n; reflexivity|left; reflexivity].
  - unfold open_returned, has_returned. cbn [threads]. intros i H. induction n as [|n IH]; [lia|]. cbn [them]. destruct (Nat.eq_dec i n) as [->|N].
    + split; [exists {| t_call := Open ReceiveOnly; t_pc := Opened n |}|exists {| t_call := EndRead n; t_pc := Done |}].
      * split; [apply in_app_iff; right; left; reflexivity|reflexivity].
      * split; [apply in_app_iff; right; right; left; reflexivity|]. split; [reflexivity|left; reflexivity].
    + assert (i < n) as Hl by lia. destruct (IH Hl) as [(a & Ia & Pa) (b & Ib & Cb & Rb)]. split; [exists a|exists b]; (split; [apply in_app_iff; left; assumption|auto]).
  - intros i x X. apply nth_error_In, repeat_spec in X. subst x. reflexivity.
Qed.
Print Assumptions C102_list_grows_refuted.

(** Examples: two goroutines end the two halves of a stream at the same time, while another one
    asks for the list and a third one opens a stream. *)
Example C102_example :
  let h := [Call (Open TwoWay); Step 0; Step 0; Step 0; Call (EndRead 0); Call (EndWrite 0); Call Streams; Call (Open TwoWay);
            Step 1; Step 3; Step 1; Step 4; Step 1; Step 3; Step 2; Step 4; Step 2; Step 4; Step 2; Step 2; Step 2; Call Streams; Step 5; Step 5] in
  exists s, run init h = Some s /\ c_list s = [1] /\ ended s 0 /\ quiet s /\
    nth_error (threads s) 3 = Some {| t_call := Streams; t_pc := Listed [0] |} /\
    nth_error (threads s) 5 = Some {| t_call := Streams; t_pc := Listed [1] |} /\
    (* the lock of the connection makes others wait *)
    run init [Call (Open TwoWay); Call Streams; Step 1; Step 0; Step 0] = None.
Proof.
  eexists. split; [vm_compute; reflexivity|]. split; [reflexivity|]. split; [|split; [|split; [reflexivity|split; [reflexivity|vm_compute; reflexivity]]]].
  - split; [exists {| t_call := EndRead 0; t_pc := Done |}|exists {| t_call := EndWrite 0; t_pc := Done |}]; (split; [|split; [reflexivity|left; reflexivity]]); cbn; auto.
  - intros th I. cbn in I. unfold returned. repeat (destruct I as [<-|I]; [cbn; eauto|]). destruct I.
Qed.
