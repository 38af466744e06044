From Verif Require Import Base QuicModel QuicSpec.

Lemma side_eqb_spec a b : reflect (a = b) (side_eqb a b).
Proof. destruct a, b; constructor; congruence. Qed.
Lemma other_inj a b : other a = other b -> a = b.
Proof. destruct a, b; cbn; congruence. Qed.
Lemma other_neq a : other a <> a. Proof. destruct a; discriminate. Qed.
Lemma other_other a : other (other a) = a. Proof. destruct a; reflexivity. Qed.

(** ** Who is joined to whom *)

Definition shape (t : stream) := (byProxy t, skd t, accepted t).
Definition dst_of (p : hpc) : option nat := match p with HBridge d _ _ => Some d | _ => None end.
Definition hshape (v : handler) := (hx v, hsrc v, hkd v, dst_of (hp v)).

Record shape_inv (s : state) : Prop := {
  hlt : forall h v, hs s h = Some v -> h < hnext s;
  slt : forall x i t, strs s x i = Some t -> i < snext s x;
  src_ok : forall h v, hs s h = Some v ->
    exists t, strs s (hx v) (hsrc v) = Some t /\ byProxy t = false /\ accepted t = true /\ skd t = hkd v;
  dst_ok : forall h v d, hs s h = Some v -> dst_of (hp v) = Some d ->
    exists u, strs s (other (hx v)) d = Some u /\ byProxy u = true /\ skd u = hkd v;
  src_inj : forall h v h' v', hs s h = Some v -> hs s h' = Some v' -> hx v = hx v' -> hsrc v = hsrc v' -> h = h';
  dst_inj : forall h v h' v' d, hs s h = Some v -> hs s h' = Some v' -> hx v = hx v' ->
    dst_of (hp v) = Some d -> dst_of (hp v') = Some d -> h = h';
  own_ok : forall y j u, strs s y j = Some u -> byProxy u = true ->
    exists h v, hs s h = Some v /\ other (hx v) = y /\ dst_of (hp v) = Some j
}.

Definition same (s s' : state) : Prop :=
  hnext s' = hnext s /\ (forall x, snext s' x = snext s x) /\
  (forall x i, option_map shape (strs s' x i) = option_map shape (strs s x i)) /\
  (forall h, option_map hshape (hs s' h) = option_map hshape (hs s h)).

Lemma map_some {A B} (f : A -> B) a b y : option_map f a = option_map f b -> a = Some y ->
  exists z, b = Some z /\ f z = f y.
Proof. intros H ->. destruct b as [z|]; cbn in H; [|discriminate]. injection H as H. eauto. Qed.

Lemma same_inv s s' : same s s' -> shape_inv s -> shape_inv s'.
Proof.
  intros (N & SN & S & H) I.
  assert (Hh : forall h v, hs s' h = Some v -> exists w, hs s h = Some w /\ hshape w = hshape v)
    by (intros h v E; exact (map_some _ _ _ _ (H h) E)).
  assert (Hs : forall x i t, strs s' x i = Some t -> exists w, strs s x i = Some w /\ shape w = shape t)
    by (intros x i t E; exact (map_some _ _ _ _ (S x i) E)).
  assert (Hs' : forall x i t, strs s x i = Some t -> exists w, strs s' x i = Some w /\ shape w = shape t)
    by (intros x i t E; exact (map_some _ _ _ _ (eq_sym (S x i)) E)).
  assert (Hh' : forall h v, hs s h = Some v -> exists w, hs s' h = Some w /\ hshape w = hshape v)
    by (intros h v E; exact (map_some _ _ _ _ (eq_sym (H h)) E)).
  unfold hshape, shape in *. split.
  - intros h v E. destruct (Hh _ _ E) as (w & E' & _). rewrite N. eapply hlt; eauto.
  - intros x i t E. destruct (Hs _ _ _ E) as (w & E' & _). rewrite SN. eapply slt; eauto.
  - intros h v E. destruct (Hh _ _ E) as (w & E' & Q). injection Q as Q1 Q2 Q3 Q4.
    destruct (src_ok s I _ _ E') as (t & T1 & T2 & T3 & T4). destruct (Hs' _ _ _ T1) as (t' & T1' & Q').
    injection Q' as P1 P2 P3. exists t'. rewrite <- Q1, <- Q2. repeat split; congruence.
  - intros h v d E D. destruct (Hh _ _ E) as (w & E' & Q). injection Q as Q1 Q2 Q3 Q4.
    destruct (dst_ok s I _ w d E') as (u & U1 & U2 & U3); [congruence|].
    destruct (Hs' _ _ _ U1) as (u' & U1' & Q'). injection Q' as P1 P2 P3. exists u'. rewrite <- Q1. repeat split; congruence.
  - intros h v h' v' E E' X Y. destruct (Hh _ _ E) as (w & W & Q). destruct (Hh _ _ E') as (w' & W' & Q').
    injection Q as Q1 Q2 Q3 Q4. injection Q' as Q1' Q2' Q3' Q4'. eapply (src_inj s I h w h' w'); congruence.
  - intros h v h' v' d E E' X Y Z. destruct (Hh _ _ E) as (w & W & Q). destruct (Hh _ _ E') as (w' & W' & Q').
    injection Q as Q1 Q2 Q3 Q4. injection Q' as Q1' Q2' Q3' Q4'. apply (dst_inj s I h w h' w' d); try eassumption; congruence.
  - intros y j u E B. destruct (Hs _ _ _ E) as (w & W & Q). injection Q as Q1 Q2 Q3.
    destruct (own_ok s I y j w W) as (h & v & A1 & A2 & A3); [congruence|].
    destruct (Hh' _ _ A1) as (v' & B1 & Q'). injection Q' as P1 P2 P3 P4. exists h, v'. repeat split; congruence.
Qed.

Lemma same_refl s : same s s. Proof. repeat split. Qed.
Lemma same_trans a b c : same a b -> same b c -> same a c.
Proof.
  intros (A1 & A2 & A3 & A4) (B1 & B2 & B3 & B4). split; [congruence|].
  split; [intro; rewrite B2; auto|]. split; intros; [rewrite B3|rewrite B4]; auto.
Qed.
Lemma same_set_str s s1 x i t t' : same s s1 -> strs s x i = Some t -> shape t' = shape t -> same s (set_str x i t' s1).
Proof.
  intros (A1 & A2 & A3 & A4) E H. split; [exact A1|]. split; [exact A2|]. split; [|exact A4].
  intros y j. cbn. destruct (side_eqb_spec y x) as [->|]; [|apply A3]. cbn.
  destruct (Nat.eqb_spec j i) as [->|]; [|apply A3]. rewrite E. cbn. now rewrite H.
Qed.
Lemma same_set_h s s1 h v v' : same s s1 -> hs s h = Some v -> hshape v' = hshape v -> same s (set_h h v' s1).
Proof.
  intros (A1 & A2 & A3 & A4) E H. split; [exact A1|]. split; [exact A2|]. split; [exact A3|].
  intros j. cbn. destruct (Nat.eqb_spec j h) as [->|]; [|apply A4]. rewrite E. cbn. now rewrite H.
Qed.
Lemma same_str s x i t t' : strs s x i = Some t -> shape t' = shape t -> same s (set_str x i t' s).
Proof.
  intros E H. split; [reflexivity|]. split; [reflexivity|]. split; [|reflexivity].
  intros y j. cbn. destruct (side_eqb_spec y x) as [->|]; [|reflexivity]. cbn.
  destruct (Nat.eqb_spec j i) as [->|]; [|reflexivity]. rewrite E. cbn. now rewrite H.
Qed.
Lemma same_h s h v v' : hs s h = Some v -> hshape v' = hshape v -> same s (set_h h v' s).
Proof.
  intros E H. split; [reflexivity|]. split; [reflexivity|]. split; [reflexivity|].
  intros j. cbn. destruct (Nat.eqb_spec j h) as [->|]; [|reflexivity]. rewrite E. cbn. now rewrite H.
Qed.
Lemma set_pc_shape v d p : hshape (set_pc v d p) = hshape v.
Proof. unfold set_pc, hshape. destruct v as [x i k [| |e f b]], d; reflexivity. Qed.

Lemma same_close_two s i o : same s (close_two i o s).
Proof.
  unfold close_two. destruct (strs s (fst o) (snd o)) as [t|] eqn:E; [|apply same_refl].
  cbv zeta. assert (A : same s (set_str (fst o) (snd o) (close_st t) s)) by (eapply same_str; eauto).
  destruct (strs (set_str (fst o) (snd o) (close_st t) s) (fst i) (snd i)) as [u|] eqn:E2; [|exact A].
  eapply same_trans; [exact A|]. eapply same_str; eauto.
Qed.

(** The steps that join, accept or open something. *)
Definition changes_shape (e : event) : bool :=
  match e with PeerOpen _ _ | Accept _ _ | Open _ => true | _ => false end.

Ltac inv_step H :=
  cbn [step] in H; cbv zeta in H;
  repeat match type of H with
         | match ?e with _ => _ end = Some _ => destruct e eqn:?; try discriminate H
         end;
  try (injection H as H; match type of H with _ = ?z => subst z end).

Lemma step_same cwd s e s' : changes_shape e = false -> step cwd s e = Some s' -> same s s'.
Proof.
  intros C H. destruct e; try discriminate C; clear C; inv_step H.
  all: repeat match goal with
       | |- same ?s ?s => apply same_refl
       | |- same _ (close_two _ _ _) => eapply same_trans; [|apply same_close_two]
       | |- same _ (if ?b then _ else _) => destruct b
       | |- same _ (set_gone _ _ _) => repeat split
       | |- same _ (stop_loop _ _ _) => repeat split
       | |- same _ (close_all _) => repeat split
       end.
  all: repeat first
    [ apply same_refl
    | eapply same_set_str; [|eassumption|reflexivity]
    | eapply same_set_h; [|eassumption|first [apply set_pc_shape |
        unfold hshape; cbn; match goal with E : hp _ = _ |- _ => rewrite E end; reflexivity]]
    | match goal with |- same _ (if ?b then _ else _) => destruct b end ].
Qed.

Lemma str_set x i t s y j :
  strs (set_str x i t s) y j = if side_eqb y x && (j =? i) then Some t else strs s y j.
Proof. reflexivity. Qed.

Lemma step_shape cwd s e s' : shape_inv s -> step cwd s e = Some s' -> shape_inv s'.
Proof.
  intros I H. destruct (changes_shape e) eqn:C; [|exact (same_inv _ _ (step_same _ _ _ _ C H) I)].
  destruct e; try discriminate C; clear C; inv_step H.
  - (* PeerOpen *)
    assert (F : strs s x (snext s x) = None).
    { destruct (strs s x (snext s x)) eqn:E; [|reflexivity]. apply (slt s I) in E. lia. }
    assert (K : forall y j t, strs s y j = Some t -> strs (add_str x (new_stream false k) s) y j = Some t).
    { intros y j t E. cbn. destruct (side_eqb_spec y x) as [->|]; [|exact E]. cbn.
      destruct (Nat.eqb_spec j (snext s x)) as [->|]; [congruence|exact E]. }
    assert (R : forall y j t, strs (add_str x (new_stream false k) s) y j = Some t ->
                strs s y j = Some t \/ (y = x /\ j = snext s x /\ t = new_stream false k)).
    { intros y j t. cbn. destruct (side_eqb_spec y x) as [->|]; cbn; [|auto].
      destruct (Nat.eqb_spec j (snext s x)) as [->|]; [|auto]. intro E. injection E as <-. auto. }
    split.
    + exact (hlt s I).
    + intros y j t E. cbn [snext add_str]. destruct (R _ _ _ E) as [E' | (-> & -> & _)].
      * apply (slt s I) in E'. destruct (side_eqb y x); lia.
      * destruct x; cbn; lia.
    + intros h v E. destruct (src_ok s I _ _ E) as (t & T & Q). exists t. auto.
    + intros h v d E D. destruct (dst_ok s I _ _ _ E D) as (t & T & Q). exists t. auto.
    + exact (src_inj s I).
    + exact (dst_inj s I).
    + intros y j u E B. destruct (R _ _ _ E) as [E' | (_ & _ & ->)]; [|discriminate B].
      exact (own_ok s I _ _ _ E' B).
  - (* Accept *)
    rename s0 into t. repeat (apply orb_false_elim in Heqb; destruct Heqb as [Heqb ?]).
    set (v0 := {| hx := x; hsrc := i; hkd := skd t; hp := HOpening |}).
    assert (K : forall y j u, strs s y j = Some u -> exists u', strs (add_h v0 (set_str x i (set_accepted t) s)) y j = Some u' /\
                byProxy u' = byProxy u /\ skd u' = skd u /\ (accepted u = true -> accepted u' = true)).
    { intros y j u E. cbn. destruct (side_eqb_spec y x) as [->|]; [|eauto]. cbn.
      destruct (Nat.eqb_spec j i) as [->|]; [|eauto]. replace u with t by congruence.
      eexists; split; [reflexivity|]. auto. }
    assert (R : forall y j u', strs (add_h v0 (set_str x i (set_accepted t) s)) y j = Some u' ->
                exists u, strs s y j = Some u /\ byProxy u' = byProxy u /\ skd u' = skd u).
    { intros y j u'. cbn. destruct (side_eqb_spec y x) as [->|]; [|eauto]. cbn.
      destruct (Nat.eqb_spec j i) as [->|]; [|eauto]. intro E. injection E as <-. exists t. auto. }
    assert (N : hs s (hnext s) = None).
    { destruct (hs s (hnext s)) eqn:E; [|reflexivity]. apply (hlt s I) in E. lia. }
    assert (RH : forall h v, hs (add_h v0 (set_str x i (set_accepted t) s)) h = Some v ->
                 (h = hnext s /\ v = v0) \/ (h < hnext s /\ hs s h = Some v)).
    { intros h v. cbn. destruct (Nat.eqb_spec h (hnext s)) as [->|].
      - intro E. injection E as <-. auto.
      - intro E. right. split; [exact (hlt s I _ _ E)|exact E]. }
    assert (NS : forall h v, hs s h = Some v -> hx v = x -> hsrc v = i -> False).
    { intros h v E E1 E2. destruct (src_ok s I _ _ E) as (t' & T1 & _ & T3 & _). subst x i. congruence. }
    split.
    + intros h v E. destruct (RH _ _ E) as [[-> _] | [L _]]; cbn; lia.
    + intros y j u E. destruct (R _ _ _ E) as (u0 & E0 & _). exact (slt s I _ _ _ E0).
    + intros h v E. destruct (RH _ _ E) as [[-> ->] | [_ E']].
      * cbn [hx hsrc v0 hkd]. exists (set_accepted t). cbn [strs add_h]. rewrite str_set.
        destruct (side_eqb_spec x x); [|congruence]. rewrite Nat.eqb_refl. cbn. auto.
      * destruct (src_ok s I _ _ E') as (u & U1 & U2 & U3 & U4). destruct (K _ _ _ U1) as (u' & K1 & K2 & K3 & K4).
        exists u'. repeat split; try congruence. auto.
    + intros h v d E D. destruct (RH _ _ E) as [[-> ->] | [_ E']]; [discriminate D|].
      destruct (dst_ok s I _ _ _ E' D) as (u & U1 & U2 & U3). destruct (K _ _ _ U1) as (u' & K1 & K2 & K3 & K4).
      exists u'. repeat split; congruence.
    + intros h v h' v' E E' X Y. destruct (RH _ _ E) as [[-> ->] | [_ F]], (RH _ _ E') as [[-> ->] | [_ F']].
      * reflexivity.
      * exfalso. cbn in X, Y. eapply NS; eauto.
      * exfalso. cbn in X, Y. eapply NS; eauto.
      * exact (src_inj s I _ _ _ _ F F' X Y).
    + intros h v h' v' d E E' X Y Z. destruct (RH _ _ E) as [[-> ->] | [_ F]]; [discriminate Y|].
      destruct (RH _ _ E') as [[-> ->] | [_ F']]; [discriminate Z|].
      exact (dst_inj s I _ _ _ _ _ F F' X Y Z).
    + intros y j u E B. destruct (R _ _ _ E) as (u0 & E0 & B0 & _). rewrite B0 in B.
      destruct (own_ok s I _ _ _ E0 B) as (h & v & A1 & A2 & A3). exists h, v.
      split; [|auto]. cbn. destruct (Nat.eqb_spec h (hnext s)) as [->|]; [congruence|exact A1].
  - (* Open *)
    rename h0 into v0. set (y0 := other (hx v0)) in *. set (n := snext s y0).
    set (v1 := set_hp v0 (HBridge n (Copying []) (Copying []))).
    set (s1 := set_h h v1 (add_str y0 (new_stream true (hkd v0)) s)).
    assert (F : strs s y0 n = None).
    { destruct (strs s y0 n) eqn:E; [|reflexivity]. apply (slt s I) in E. unfold n in E. lia. }
    assert (K : forall y j t, strs s y j = Some t -> strs s1 y j = Some t).
    { intros y j t E. cbn. fold n. destruct (side_eqb_spec y y0) as [->|]; [|exact E]. cbn.
      destruct (Nat.eqb_spec j n) as [->|]; [congruence|exact E]. }
    assert (NW : strs s1 y0 n = Some (new_stream true (hkd v0))).
    { cbn. fold n. destruct (side_eqb_spec y0 y0); [|congruence]. now rewrite Nat.eqb_refl. }
    assert (R : forall y j t, strs s1 y j = Some t ->
                strs s y j = Some t \/ (y = y0 /\ j = n /\ t = new_stream true (hkd v0))).
    { intros y j t. cbn. fold n. destruct (side_eqb_spec y y0) as [->|]; cbn; [|auto].
      destruct (Nat.eqb_spec j n) as [->|]; [|auto]. intro E. injection E as <-. auto. }
    assert (RH : forall g v, hs s1 g = Some v -> (g = h /\ v = v1) \/ (g <> h /\ hs s g = Some v)).
    { intros g v. cbn. destruct (Nat.eqb_spec g h) as [->|]; [|auto]. intro E. injection E as <-. auto. }
    assert (NH : hs s1 h = Some v1) by (cbn; now rewrite Nat.eqb_refl).
    assert (ND : forall g v, hs s g = Some v -> hx v = hx v0 -> dst_of (hp v) = Some n -> False).
    { intros g v E X D. destruct (dst_ok s I _ _ _ E D) as (u & U1 & _). rewrite X in U1. fold y0 in U1. congruence. }
    split.
    + intros g v E. cbn [hnext s1 set_h add_str]. destruct (RH _ _ E) as [[-> _] | [_ E']]; eapply hlt; eauto.
    + intros y j t E. cbn [snext s1 set_h add_str]. destruct (R _ _ _ E) as [E' | (-> & -> & _)].
      * apply (slt s I) in E'. destruct (side_eqb y y0); lia.
      * destruct (side_eqb_spec y0 y0); [|congruence]. unfold n. lia.
    + intros g v E. destruct (RH _ _ E) as [[-> ->] | [_ E']].
      * destruct (src_ok s I _ _ Heqo) as (t & T & Q). exists t. cbn [hx hsrc v1 set_hp hkd]. auto.
      * destruct (src_ok s I _ _ E') as (t & T & Q). exists t. auto.
    + intros g v d E D. destruct (RH _ _ E) as [[-> ->] | [_ E']].
      * cbn in D. injection D as <-. exists (new_stream true (hkd v0)). cbn [hx v1 set_hp hkd]. fold y0. auto.
      * destruct (dst_ok s I _ _ _ E' D) as (t & T & Q). exists t. auto.
    + intros g v g' v' E E' X Y. destruct (RH _ _ E) as [[-> ->] | [_ G]], (RH _ _ E') as [[-> ->] | [_ G']];
        [reflexivity | | | exact (src_inj s I _ _ _ _ G G' X Y)].
      * exact (src_inj s I _ _ _ _ Heqo G' X Y).
      * exact (src_inj s I _ _ _ _ G Heqo X Y).
    + intros g v g' v' d E E' X Y Z. destruct (RH _ _ E) as [[-> ->] | [_ G]], (RH _ _ E') as [[-> ->] | [_ G']];
        [reflexivity | | | exact (dst_inj s I _ _ _ _ _ G G' X Y Z)].
      * exfalso. cbn in Y. injection Y as <-. eapply ND; eauto.
      * exfalso. cbn in Z. injection Z as <-. eapply ND; eauto.
    + intros y j u E B. destruct (R _ _ _ E) as [E' | (-> & -> & _)].
      * destruct (own_ok s I _ _ _ E' B) as (g & v & A1 & A2 & A3). exists g, v. split; [|auto]. cbn.
        destruct (Nat.eqb_spec g h) as [->|]; [|exact A1]. exfalso.
        replace v with v0 in A3 by congruence. rewrite Heqh1 in A3. discriminate.
      * exists h, v1. split; [exact NH|]. split; [reflexivity|reflexivity].
Qed.

Lemma init_shape dg : shape_inv (init dg).
Proof. split; cbn; intros; discriminate. Qed.

Lemma run_shape cwd tr : forall s s', shape_inv s -> run cwd s tr = Some s' -> shape_inv s'.
Proof.
  induction tr as [|e tr IH]; cbn; intros s s' I H; [injection H as <-; exact I|].
  destruct (step cwd s e) eqn:E; [|discriminate]. eauto using step_shape.
Qed.

Lemma reach_shape cwd dg tr s : run cwd (init dg) tr = Some s -> shape_inv s.
Proof. apply run_shape, init_shape. Qed.
