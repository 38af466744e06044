From Verif Require Import Base QuicModel QuicSpec QuicProofs QuicProofs2.

(** ** Loops, failed handlers, the end *)

Definition frame (s : state) := (gone s, loops s, ended s, hnext s, snext s).
Lemma close_two_frame s i o : frame (close_two i o s) = frame s.
Proof. unfold close_two. destruct (strs s (fst o) (snd o)); [|reflexivity]. cbv zeta. destruct (strs _ (fst i) (snd i)); reflexivity. Qed.

Record life_inv (s : state) : Prop := {
  acc_h : forall x i t, strs s x i = Some t -> byProxy t = false -> accepted t = true ->
    exists h v, hs s h = Some v /\ hx v = x /\ hsrc v = i;
  loop_gone : forall x k, loops s x (LAcc k) = false -> is_gone s x = true \/ is_gone s CL = true;
  failed_gone : forall h v, hs s h = Some v -> hp v = HFailed -> is_gone s (other (hx v)) = true \/ is_gone s CL = true;
  ended_gone : ended s = true -> is_gone s CL = true /\ is_gone s BE = true
}.

Lemma init_life dg : life_inv (init dg).
Proof. split; cbn; try discriminate. Qed.

Definition work (e : event) : bool :=
  match e with
  | Read _ _ _ | ReadEOF _ _ | ReadErr _ _ | Write _ _ | WriteErr _ _ _ | CloseWrite _ _ | CloseRead _ _ => true
  | _ => false
  end.

Lemma work_shape cwd s e s' : work e = true -> step cwd s e = Some s' ->
  frame s' = frame s /\
  exists h v d p, hs s h = Some v /\ dst_of (hp v) <> None /\
    hs s' = (fun j => if j =? h then Some (set_pc v d p) else hs s j).
Proof.
  intros W H.
  assert (En : forall v d z, ends v d = Some z -> dst_of (hp v) <> None).
  { intros v d z. unfold ends. destruct (hp v); cbn; congruence. }
  destruct e; try discriminate W; inv_step H; subst; repeat rewrite close_two_frame, ?close_two_hs;
    (split; [rewrite ?close_two_frame; try reflexivity; repeat match goal with |- context [if ?b then _ else _] => destruct b end;
             rewrite ?close_two_frame; reflexivity|]).
  all: try match goal with |- context [if ?c then close_two _ _ _ else _] => destruct c end.
  all: do 4 eexists; split; [eassumption|split; [eapply En; eassumption|]].
  all: rewrite ?close_two_hs; try reflexivity.
  all: repeat match goal with |- context [set_h _ _ (if ?b then _ else _)] => destruct b end; try reflexivity.
Qed.

Lemma gone_mono cwd s e s' x : step cwd s e = Some s' -> is_gone s x = true -> is_gone s' x = true.
Proof.
  intros H G. destruct (work e) eqn:W.
  { destruct (work_shape _ _ _ _ W H) as [F _]. unfold frame in F. unfold is_gone in *. replace (gone s') with (gone s) by congruence. exact G. }
  destruct e; try discriminate W; inv_step H; try exact G; unfold is_gone in *; cbn.
  - destruct (side_eqb x x0); [reflexivity|exact G].
  - reflexivity.
Qed.

Lemma set_pc_x v d p : hx (set_pc v d p) = hx v /\ hsrc (set_pc v d p) = hsrc v /\ dst_of (hp (set_pc v d p)) = dst_of (hp v).
Proof. unfold set_pc. destruct v as [x i k [| |e f b]], d; auto. Qed.

Lemma step_life cwd s e s' : shape_inv s -> life_inv s -> step cwd s e = Some s' -> life_inv s'.
Proof.
  intros I L H.
  assert (GM := fun x => gone_mono _ _ _ _ x H).
  assert (GO : forall x y, is_gone s x = true \/ is_gone s y = true -> is_gone s' x = true \/ is_gone s' y = true)
    by (intros x y [A|A]; auto).
  assert (SA : changes_shape e = false -> forall x i t, strs s' x i = Some t -> byProxy t = false -> accepted t = true ->
    exists h v, hs s' h = Some v /\ hx v = x /\ hsrc v = i).
  { intros C x i t E B A. destruct (step_same _ _ _ _ C H) as (_ & _ & S & Hh).
    destruct (map_some _ _ _ _ (S x i) E) as (t0 & T0 & Q). unfold shape in Q. injection Q as Q1 Q2 Q3.
    destruct (acc_h s L x i t0 T0) as (h & v & V1 & V2 & V3); try congruence.
    destruct (map_some _ _ _ _ (eq_sym (Hh h)) V1) as (w & W1 & W2). unfold hshape in W2. exists h, w.
    repeat split; congruence. }
  destruct (work e) eqn:W.
  { destruct (work_shape _ _ _ _ W H) as (F & h & v & d & p & V1 & V2 & V3). unfold frame in F. split.
    - apply SA. destruct e; try discriminate W; reflexivity.
    - intros x k. replace (loops s') with (loops s) by congruence. intro N. apply GO. exact (loop_gone s L _ _ N).
    - intros g u. rewrite V3. destruct (set_pc_x v d p) as (P1 & P2 & P3). destruct (g =? h) eqn:E; intro G.
      + injection G as <-. intro N. rewrite N in P3. cbn in P3. congruence.
      + intro N. apply GO. exact (failed_gone s L _ _ G N).
    - replace (ended s') with (ended s) by congruence. intro N. destruct (ended_gone s L N). auto. }
  destruct e; try discriminate W.
  - (* PeerOpen *)
    inv_step H. split; try exact (loop_gone s L); try exact (failed_gone s L); try exact (ended_gone s L).
    intros y j t. cbn. destruct (side_eqb_spec y x) as [->|]; cbn; [|apply (acc_h s L)].
    destruct (Nat.eqb_spec j (snext s x)) as [->|]; [|apply (acc_h s L)]. intros E _ A. injection E as <-. discriminate A.
  - specialize (SA eq_refl). inv_step H. split; [exact SA| | |]; [exact (loop_gone s L)|exact (failed_gone s L)|exact (ended_gone s L)].
  - specialize (SA eq_refl). inv_step H. split; [exact SA| | |]; [exact (loop_gone s L)|exact (failed_gone s L)|exact (ended_gone s L)].
  - specialize (SA eq_refl). inv_step H. split; [exact SA| | |]; [exact (loop_gone s L)|exact (failed_gone s L)|exact (ended_gone s L)].
  - specialize (SA eq_refl). inv_step H. split; [exact SA| | |]; [exact (loop_gone s L)|exact (failed_gone s L)|exact (ended_gone s L)].
  - specialize (SA eq_refl). inv_step H. split; [exact SA| | |]; [exact (loop_gone s L)|exact (failed_gone s L)|exact (ended_gone s L)].
  - (* ConnGone *)
    specialize (SA eq_refl). inv_step H. split; [exact SA| | |].
    + intros y k N. apply GO. exact (loop_gone s L _ _ N).
    + intros g u G N. apply GO. exact (failed_gone s L _ _ G N).
    + intro N. destruct (ended_gone s L N). auto.
  - (* Accept *)
    inv_step H. split; [|exact (loop_gone s L)| |exact (ended_gone s L)].
    + intros y j t E B A. cbn [strs add_h] in E. rewrite str_set in E. cbn [hs add_h].
      destruct (side_eqb_spec y x) as [->|]; cbn in E.
      * destruct (Nat.eqb_spec j i) as [->|].
        { exists (hnext s). rewrite Nat.eqb_refl. eexists. split; [reflexivity|]. auto. }
        destruct (acc_h s L _ _ _ E B A) as (g & u & G1 & G2). exists g, u. cbn.
        destruct (Nat.eqb_spec g (hnext s)) as [->|]; [|auto]. apply (hlt s I) in G1. lia.
      * destruct (acc_h s L _ _ _ E B A) as (g & u & G1 & G2). exists g, u. cbn.
        destruct (Nat.eqb_spec g (hnext s)) as [->|]; [|auto]. apply (hlt s I) in G1. lia.
    + intros g u. cbn. destruct (g =? hnext s); [|exact (failed_gone s L g u)]. intros G N. injection G as <-. discriminate N.
  - (* LoopEnd *)
    specialize (SA eq_refl). inv_step H. split; [exact SA| |exact (failed_gone s L)|exact (ended_gone s L)].
    intros y l. cbn [loops stop_loop]. destruct (side_eqb_spec y x) as [->|]; cbn [andb]; [|exact (loop_gone s L y l)].
    destruct (lkind_eqb (LAcc l) k) eqn:Ek; [|exact (loop_gone s L x l)]. intros _.
    apply andb_prop in Heqb. destruct Heqb as [_ A]. apply orb_prop in A. exact A.
  - (* Open *)
    inv_step H. split; [|exact (loop_gone s L)| |exact (ended_gone s L)].
    + intros y j t E B A. cbn [strs set_h add_str] in E.
      assert (E' : strs s y j = Some t).
      { destruct (side_eqb y (other (hx h0)) && (j =? snext s (other (hx h0)))); [|exact E]. injection E as <-. discriminate B. }
      destruct (acc_h s L _ _ _ E' B A) as (g & u & G1 & G2 & G3). exists g. cbn.
      destruct (Nat.eqb_spec g h) as [->|]; [|eauto]. eexists. split; [reflexivity|]. cbn. split; congruence.
    + intros g u. cbn. destruct (g =? h); [|exact (failed_gone s L g u)]. intros G N. injection G as <-. discriminate N.
  - (* OpenFail *)
    specialize (SA eq_refl).
    cbn [step] in H. destruct (hs s h) as [v|] eqn:E; [|discriminate]. destruct (hp v) eqn:P; try discriminate.
    destruct (is_gone s (other (hx v)) || is_gone s CL) eqn:Gn; [|discriminate]. apply orb_prop in Gn.
    destruct (src_ok s I _ _ E) as (t1 & T1 & _). rewrite T1 in H.
    assert (FG : hs s' = (fun j => if j =? h then Some (set_hp v HFailed) else hs s j) /\ frame s' = frame s)
      by (destruct (gone s (other (hx v))) as [[|]|]; injection H as <-; auto).
    destruct FG as [FG F]. unfold frame in F. split; [exact SA| | |].
    + intros y l. replace (loops s') with (loops s) by congruence. intro N. apply GO. exact (loop_gone s L _ _ N).
    + intros g u. rewrite FG. destruct (g =? h); intro G; intro N; apply GO.
      * injection G as <-. exact Gn.
      * exact (failed_gone s L _ _ G N).
    + replace (ended s') with (ended s) by congruence. intro N. destruct (ended_gone s L N). auto.
  - (* MainEnd *)
    specialize (SA eq_refl). inv_step H. split; [exact SA| | |].
    + intros y l N. apply GO. exact (loop_gone s L _ _ N).
    + intros g u G N. apply GO. exact (failed_gone s L _ _ G N).
    + intros _. split; reflexivity.
Qed.

Lemma run_life cwd tr : forall s s', shape_inv s -> life_inv s -> run cwd s tr = Some s' -> life_inv s'.
Proof.
  induction tr as [|e tr IH]; cbn; intros s s' I J H; [injection H as <-; auto|].
  destruct (step cwd s e) as [s1|] eqn:E; [|discriminate].
  apply (IH s1); eauto using step_shape, step_life.
Qed.
Lemma reach_life cwd dg tr s : run cwd (init dg) tr = Some s -> life_inv s.
Proof. apply run_life; [apply init_shape|apply init_life]. Qed.

(** ** At rest *)

Lemma rest_pc cwd s h v d i o p t u : at_rest cwd s -> hs s h = Some v -> ends v d = Some (i, o, p) ->
  strs s (fst i) (snd i) = Some t -> strs s (fst o) (snd o) = Some u ->
  match p with
  | Finished _ => True
  | Copying [] => readable t = true /\ is_gone s (fst i) = false /\ reset t = false /\ rcancel t = false /\ rexp t = false /\
                  unread t = [] /\ fin t = false
  | _ => False
  end.
Proof.
  intros R E En T U. destruct p as [[|c buf]| | |]; try exact Logic.I.
  - assert (R1 := R (Read h d 1) eq_refl). assert (R2 := R (ReadEOF h d) eq_refl). assert (R3 := R (ReadErr h d) eq_refl).
    cbn [step] in R1, R2, R3. rewrite E, En, T in R1, R2, R3.
    destruct (readable t); [|discriminate R2]. cbn [andb negb orb] in R2, R3.
    destruct (is_gone s (fst i)); [discriminate R3|]. destruct (reset t); [discriminate R3|].
    destruct (rcancel t); [discriminate R3|]. destruct (rexp t); [discriminate R3|].
    destruct (unread t) as [|a l]; [|discriminate R1]. destruct (fin t); [discriminate R2|]. auto 10.
  - assert (R1 := R (Write h d) eq_refl). assert (R2 := R (WriteErr h d 0) eq_refl).
    cbn [step] in R1, R2. rewrite E, En, U in R1, R2.
    destruct (is_gone s (fst o) || negb (writable u) || wfin u || stopped u); discriminate.
  - assert (R1 := R (CloseWrite h d) eq_refl). cbn [step] in R1. rewrite E, En, U in R1.
    destruct (writable u && stopped u && negb (wfin u) && negb (is_gone s (fst o))); discriminate.
  - assert (R1 := R (CloseRead h d) eq_refl). cbn [step] in R1. rewrite E, En, T, U in R1. discriminate.
Qed.

Lemma rest_joined cwd s x i t : shape_inv s -> life_inv s -> at_rest cwd s -> up s ->
  strs s x i = Some t -> byProxy t = false -> exists j, joined s x i (other x) j.
Proof.
  intros I L R [U1 U2] T B.
  assert (G : forall y, is_gone s y = false) by (intros []; unfold is_gone; [rewrite U1|rewrite U2]; reflexivity).
  assert (A : accepted t = true).
  { assert (R1 := R (Accept x i) eq_refl). cbn [step] in R1. rewrite T, G, B in R1. cbn [orb] in R1.
    destruct (accepted t); [reflexivity|]. cbn in R1. destruct (loops s x (LAcc (skd t))) eqn:Lp; [discriminate R1|].
    apply (loop_gone s L) in Lp. rewrite !G in Lp. destruct Lp; discriminate. }
  destruct (acc_h s L _ _ _ T B A) as (h & v & V1 & V2 & V3).
  destruct (hp v) as [| |j f b] eqn:P.
  - assert (R1 := R (Open h) eq_refl). cbn [step] in R1. rewrite V1, P, G in R1. discriminate.
  - destruct (failed_gone s L _ _ V1 P) as [N|N]; rewrite G in N; discriminate.
  - exists j, h, v, f, b. auto.
Qed.

Lemma rest_ended cwd s : shape_inv s -> life_inv s -> at_rest cwd s ->
  is_gone s CL = true -> is_gone s BE = true \/ backend_streams_over s -> ended s = true.
Proof.
  intros I L R G O.
  assert (Lp : forall x k, loops s x k = false).
  { intros x k. assert (R1 := R (LoopEnd x k) eq_refl). cbn [step] in R1. rewrite G, orb_true_r in R1.
    destruct (loops s x k); [discriminate|reflexivity]. }
  assert (D : all_done s = true).
  { unfold all_done. rewrite !Lp. cbn [orb negb andb]. apply forallb_forall. intros h _.
    destruct (hs s h) as [v|] eqn:E; [|reflexivity].
    destruct (h_counted v) eqn:Cn; [|reflexivity]. cbn [negb orb]. unfold h_done.
    destruct (src_ok s I _ _ E) as (t & T1 & T2 & T3 & T4).
    destruct (hp v) as [| |j f b] eqn:P.
    - assert (R1 := R (OpenFail h) eq_refl). cbn [step] in R1. rewrite E, P, G, orb_true_r, T1 in R1.
      destruct (gone s (other (hx v))) as [[|]|]; discriminate.
    - reflexivity.
    - destruct (dst_ok s I _ _ j E) as (u & U1 & U2 & U3); [now rewrite P|].
      assert (F1 := rest_pc cwd s h v Fwd (hx v, hsrc v) (other (hx v), j) f t u R E). unfold ends in F1. rewrite P in F1.
      specialize (F1 eq_refl T1 U1).
      assert (F2 := rest_pc cwd s h v Bwd (other (hx v), j) (hx v, hsrc v) b u t R E). unfold ends in F2. rewrite P in F2.
      specialize (F2 eq_refl U1 T1). cbn [fst snd] in *.
      assert (K : forall x i w, strs s x i = Some w -> skd w = hkd v -> (x = BE -> readable w = true -> skd w = Bidi) ->
        readable w = true /\ is_gone s x = false /\ reset w = false /\ rcancel w = false /\ rexp w = false /\ unread w = [] /\ fin w = false -> False).
      { intros x i w W Kw Bd (A1 & A2 & A3 & A4 & A5 & A6 & A7). destruct x; [congruence|]. destruct O as [O|O]; [congruence|].
        destruct (O i w W (Bd eq_refl A1)); congruence. }
      destruct f as [[|]| | |]; try contradiction.
      { exfalso. apply (K _ _ _ T1 T4); [|exact F1]. intros X _. unfold h_counted in Cn. rewrite X in Cn. cbn in Cn.
        rewrite T4. destruct (hkd v); [discriminate Cn|reflexivity]. }
      destruct b as [[|]| | |]; try contradiction.
      { exfalso. apply (K _ _ _ U1 U3); [|exact F2]. intros _ Rd. unfold readable in Rd. rewrite U2 in Rd.
        destruct (skd u); [discriminate Rd|reflexivity]. }
      reflexivity. }
  assert (R1 := R MainEnd eq_refl). cbn [step] in R1. rewrite D, andb_true_r in R1. destruct (ended s); [reflexivity|discriminate].
Qed.
