From Verif Require Import Base QuicModel QuicSpec QuicProofs QuicProofs2 QuicProofs3.

(** ** The proxy comes to rest *)

Fixpoint sum (f : nat -> nat) (n : nat) : nat := match n with 0 => 0 | S k => f k + sum f k end.
Lemma sum_ext f g n : (forall j, j < n -> f j = g j) -> sum f n = sum g n.
Proof. induction n as [|n IH]; cbn; intro H; [reflexivity|]. rewrite (H n), IH; auto. Qed.
Lemma sum_upd f g n i : i < n -> (forall j, j <> i -> f j = g j) -> sum f n + g i = sum g n + f i.
Proof.
  intros L H. induction n as [|n IH]; [lia|]. cbn. destruct (Nat.eq_dec n i) as [->|N].
  - rewrite (sum_ext f g i); [lia|]. intros j Lj. apply H. lia.
  - rewrite (H n N). assert (i < n) by lia. specialize (IH H0). lia.
Qed.

Definition sw (o : option stream) : nat :=
  match o with
  | Some t => 2 * List.length (unread t) + (if byProxy t || accepted t then 0 else 11)
  | None => 0
  end.
Definition pw (p : pc) : nat :=
  match p with Copying [] => 4 | Copying _ => 5 | CopyDone => 3 | WriteClosed => 2 | Finished _ => 1 end.
Definition hw (o : option handler) : nat :=
  match o with
  | Some v => match hp v with HOpening => 10 | HFailed => 0 | HBridge _ f b => pw f + pw b + 1 end
  | None => 0
  end.
Definition bw (b : bool) : nat := if b then 1 else 0.
Definition SW (s : state) (x : side) : nat := sum (fun i => sw (strs s x i)) (snext s x).
Definition HW (s : state) : nat := sum (fun h => hw (hs s h)) (hnext s).
Definition LW (s : state) : nat :=
  bw (loops s CL (LAcc Uni)) + bw (loops s CL (LAcc Bidi)) + bw (loops s CL LDgram) +
  bw (loops s BE (LAcc Uni)) + bw (loops s BE (LAcc Bidi)) + bw (loops s BE LDgram).
Definition mu (s : state) : nat := SW s CL + SW s BE + HW s + LW s + bw (negb (ended s)).

Lemma SW_same s s' : (forall x, snext s' x = snext s x) -> (forall x i, sw (strs s' x i) = sw (strs s x i)) ->
  forall x, SW s' x = SW s x.
Proof. intros N E x. unfold SW. rewrite N. apply sum_ext. auto. Qed.
Lemma SW_set s x i t t' : shape_inv s -> strs s x i = Some t ->
  SW (set_str x i t' s) x + sw (Some t) = SW s x + sw (Some t').
Proof.
  intros I E. unfold SW. cbn [snext set_str].
  assert (L := slt s I _ _ _ E).
  assert (Q := sum_upd (fun j => sw (strs (set_str x i t' s) x j)) (fun j => sw (strs s x j)) (snext s x) i L).
  cbv beta in Q. rewrite str_eq, E in Q. apply Q. intros j N. rewrite str_set.
  destruct (side_eqb x x); cbn; [|reflexivity]. destruct (Nat.eqb_spec j i); [congruence|reflexivity].
Qed.
Lemma SW_set_other s x i t y : y <> x -> SW (set_str x i t s) y = SW s y.
Proof.
  intro N. unfold SW. cbn [snext set_str]. apply sum_ext. intros j _. rewrite str_set.
  destruct (side_eqb_spec y x); [congruence|reflexivity].
Qed.
Lemma HW_set s h v v' : shape_inv s -> hs s h = Some v -> HW (set_h h v' s) + hw (Some v) = HW s + hw (Some v').
Proof.
  intros I E. unfold HW. cbn [hnext set_h]. assert (L := hlt s I _ _ E).
  assert (Q := sum_upd (fun j => hw (hs (set_h h v' s) j)) (fun j => hw (hs s j)) (hnext s) h L).
  cbv beta in Q. rewrite h_eq, E in Q. apply Q. intros j N. cbn. destruct (Nat.eqb_spec j h); [congruence|reflexivity].
Qed.
Lemma sw_set s x i t t' : strs s x i = Some t -> sw (Some t') = sw (Some t) ->
  forall y j, sw (strs (set_str x i t' s) y j) = sw (strs s y j).
Proof.
  intros E Q y j. rewrite str_set. destruct (side_eqb_spec y x) as [->|]; cbn [andb]; [|reflexivity].
  destruct (Nat.eqb_spec j i) as [->|]; [|reflexivity]. now rewrite E.
Qed.
Lemma sw_close s i o x j : sw (strs (close_two i o s) x j) = sw (strs s x j).
Proof.
  unfold close_two. destruct (strs s (fst o) (snd o)) as [t|] eqn:E; [|reflexivity]. cbv zeta.
  destruct (strs (set_str (fst o) (snd o) (close_st t) s) (fst i) (snd i)) as [u|] eqn:E2.
  - etransitivity; [apply (sw_set _ _ _ u); [exact E2|reflexivity]|]. apply (sw_set _ _ _ t); [exact E|reflexivity].
  - apply (sw_set _ _ _ t); [exact E|reflexivity].
Qed.
Lemma hw_pc v d i o p p' : ends v d = Some (i, o, p) -> pw p' < pw p -> hw (Some (set_pc v d p')) < hw (Some v).
Proof.
  unfold ends, set_pc. destruct v as [x k kd [| |e f b]], d; cbn; try discriminate; intros E L;
    injection E as <- <- <-; lia.
Qed.
Lemma hw_pc_eq v d i o p p' : ends v d = Some (i, o, p) -> hw (Some (set_pc v d p')) + pw p = hw (Some v) + pw p'.
Proof.
  unfold ends, set_pc. destruct v as [x k kd [| |e f b]], d; cbn; try discriminate; intros E;
    injection E as <- <- <-; lia.
Qed.
Lemma mu_work s s' h v d i o p p' : shape_inv s -> hs s h = Some v -> ends v d = Some (i, o, p) -> pw p' < pw p ->
  frame s' = frame s -> hs s' = (fun j => if j =? h then Some (set_pc v d p') else hs s j) ->
  (forall x j, sw (strs s' x j) = sw (strs s x j)) -> mu s' < mu s.
Proof.
  intros I E En L F Hs Hw. unfold mu. unfold frame in F.
  assert (N : forall x, snext s' x = snext s x) by congruence.
  rewrite (SW_same s s' N Hw CL), (SW_same s s' N Hw BE).
  assert (LW s' = LW s) as -> by (unfold LW; replace (loops s') with (loops s) by congruence; reflexivity).
  replace (ended s') with (ended s) by congruence.
  assert (Q := HW_set s h v (set_pc v d p') I E). assert (HW s' = HW (set_h h (set_pc v d p') s)) as ->.
  { unfold HW. replace (hnext s') with (hnext s) by congruence. rewrite Hs. reflexivity. }
  assert (X := hw_pc _ _ _ _ _ p' En L). lia.
Qed.

Lemma step_mu cwd s e s' : shape_inv s -> by_proxy e = true -> step cwd s e = Some s' -> mu s' < mu s.
Proof.
  intros I B H. destruct e; try discriminate B.
  - (* Accept *)
    inv_step H. rename s0 into t. repeat (apply orb_false_elim in Heqb; destruct Heqb as [Heqb ?]).
    assert (Q := SW_set s x i t (set_accepted t) I Heqo).
    assert (Q2 : forall y, y <> x -> SW (set_str x i (set_accepted t) s) y = SW s y) by (intros; now apply SW_set_other).
    cbn [sw byProxy accepted unread set_accepted] in Q. rewrite H0, H1 in Q. cbn [orb] in Q.
    unfold mu. set (s1 := set_str x i (set_accepted t) s) in *.
    match goal with |- SW ?z _ + _ + _ + _ + _ < _ => set (s' := z) end.
    assert (HW s' = HW s + 10) as ->.
    { unfold HW. cbn. rewrite Nat.eqb_refl. cbn. rewrite (sum_ext _ (fun h => hw (hs s h))); [lia|].
      intros j Lj. destruct (Nat.eqb_spec j (hnext s)); [lia|reflexivity]. }
    assert (LW s' = LW s) as -> by reflexivity. change (ended s') with (ended s).
    change (SW s' CL) with (SW s1 CL). change (SW s' BE) with (SW s1 BE).
    destruct x; [rewrite (Q2 BE) by discriminate|rewrite (Q2 CL) by discriminate]; lia.
  - (* LoopEnd *)
    inv_step H. apply andb_prop in Heqb. destruct Heqb as [Heqb _]. unfold mu.
    change (SW (stop_loop x k s) CL) with (SW s CL). change (SW (stop_loop x k s) BE) with (SW s BE).
    change (HW (stop_loop x k s)) with (HW s). change (ended (stop_loop x k s)) with (ended s).
    enough (LW (stop_loop x k s) < LW s) by lia.
    unfold LW. destruct x, k as [[|]|]; cbn; rewrite Heqb; cbn; lia.
  - (* Open *)
    inv_step H. rename h0 into v. set (y := other (hx v)). unfold mu.
    match goal with |- SW ?z _ + _ + _ + _ + _ < _ => set (s' := z) end.
    assert (F : strs s y (snext s y) = None).
    { destruct (strs s y (snext s y)) eqn:E; [|reflexivity]. apply (slt s I) in E. lia. }
    assert (Sx : forall x, SW s' x = SW s x).
    { intro x. unfold SW. cbn. destruct (side_eqb_spec x y) as [->|].
      - cbn. unfold y at 1 2. rewrite Nat.eqb_refl. cbn. apply sum_ext. intros j Lj.
        fold y. destruct (Nat.eqb_spec j (snext s y)); [lia|]. reflexivity.
      - apply sum_ext. reflexivity. }
    rewrite !Sx. change (LW s') with (LW s). change (ended s') with (ended s).
    assert (Q := HW_set s h v (set_hp v (HBridge (snext s y) (Copying []) (Copying []))) I Heqo).
    change (HW s') with (HW (set_h h (set_hp v (HBridge (snext s y) (Copying []) (Copying []))) s)).
    cbn [hw hp set_hp pw] in Q. match goal with P : hp v = HOpening |- _ => rewrite P in Q end. lia.
  - (* OpenFail *)
    cbn [step] in H. destruct (hs s h) as [v|] eqn:E; [|discriminate]. destruct (hp v) eqn:P; try discriminate.
    destruct (is_gone s (other (hx v)) || is_gone s CL) eqn:Gn; [|discriminate].
    destruct (src_ok s I _ _ E) as (t1 & T1 & _). rewrite T1 in H.
    assert (FG : hs s' = (fun j => if j =? h then Some (set_hp v HFailed) else hs s j) /\ frame s' = frame s /\
                 forall x j, sw (strs s' x j) = sw (strs s x j)).
    { destruct (gone s (other (hx v))) as [[|]|]; injection H as <-; repeat split.
      apply (sw_set (set_h h (set_hp v HFailed) s) _ _ t1); [exact T1|reflexivity]. }
    destruct FG as (Hs & F & Hw). unfold frame in F. unfold mu.
    assert (N : forall x, snext s' x = snext s x) by congruence.
    rewrite (SW_same s s' N Hw CL), (SW_same s s' N Hw BE).
    assert (LW s' = LW s) as -> by (unfold LW; replace (loops s') with (loops s) by congruence; reflexivity).
    replace (ended s') with (ended s) by congruence.
    assert (Q := HW_set s h v (set_hp v HFailed) I E). assert (HW s' = HW (set_h h (set_hp v HFailed) s)) as ->.
    { unfold HW. replace (hnext s') with (hnext s) by congruence. rewrite Hs. reflexivity. }
    cbn [hw hp set_hp] in Q. rewrite P in Q. lia.
  - (* Read *)
    inv_step H. rename h0 into v, s0 into t. apply orb_false_elim in Heqb. destruct Heqb as [Hb L].
    apply orb_false_elim in Hb. destruct Hb as [_ Hn]. apply Nat.eqb_neq in Hn. apply Nat.ltb_ge in L.
    set (t' := set_unread (skipn n (unread t)) t) in *. destruct p2 as [x i]. cbn [fst snd] in *.
    assert (Q := SW_set s x i t t' I Heqo1).
    assert (Q2 : forall y, y <> x -> SW (set_str x i t' s) y = SW s y) by (intros; now apply SW_set_other).
    cbn [sw] in Q. change (byProxy t') with (byProxy t) in Q. change (accepted t') with (accepted t) in Q.
    assert (Lu : List.length (unread t') + n = List.length (unread t)).
    { unfold t'. cbn [unread set_unread]. rewrite skipn_length. lia. }
    unfold mu. set (s1 := set_str x i t' s) in *.
    match goal with |- SW ?z _ + _ + _ + _ + _ < _ => set (s' := z) end.
    assert (HW s' <= HW s + 1).
    { assert (X := HW_set s h v (set_pc v d (Copying (firstn n (unread t)))) I Heqo).
      change (HW s') with (HW (set_h h (set_pc v d (Copying (firstn n (unread t)))) s)).
      assert (hw (Some (set_pc v d (Copying (firstn n (unread t))))) <= hw (Some v) + 1).
      { assert (Y := hw_pc_eq _ _ _ _ _ (Copying (firstn n (unread t))) Heqo0). cbn [pw] in Y.
        destruct (firstn n (unread t)); lia. }
      lia. }
    change (LW s') with (LW s). change (ended s') with (ended s).
    change (SW s' CL) with (SW s1 CL). change (SW s' BE) with (SW s1 BE).
    destruct x; [rewrite (Q2 BE) by discriminate|rewrite (Q2 CL) by discriminate]; lia.
  - (* ReadEOF *)
    inv_step H. destruct (cwd d).
    + eapply (mu_work s _ h h0 d p2 p3 _ (Finished false)); try eassumption; [cbn; lia|now rewrite close_two_frame|now rewrite close_two_hs|].
      intros x j. now rewrite sw_close.
    + eapply (mu_work s _ h h0 d p2 p3 _ CopyDone); try eassumption; try reflexivity. cbn. lia.
  - inv_step H.
    eapply (mu_work s _ h h0 d p2 p3 _ (Finished true)); try eassumption; [cbn; lia|now rewrite close_two_frame|now rewrite close_two_hs|].
    intros x j. now rewrite sw_close.
  - inv_step H.
    eapply (mu_work s _ h h0 d p2 p3 _ (Copying [])); try eassumption; try reflexivity; [cbn; lia|].
    intros x j. cbn [strs set_h]. apply (sw_set _ _ _ s0); [assumption|reflexivity].
  - inv_step H.
    eapply (mu_work s _ h h0 d p2 p3 _ (Finished true)); try eassumption; [cbn; lia|rewrite close_two_frame|rewrite close_two_hs|].
    + destruct (wfin s0 || negb (writable s0)); reflexivity.
    + destruct (wfin s0 || negb (writable s0)); reflexivity.
    + intros x j. rewrite sw_close. cbn [strs set_h]. destruct (wfin s0 || negb (writable s0)); [reflexivity|].
      apply (sw_set _ _ _ s0); [assumption|reflexivity].
  - inv_step H.
    + eapply (mu_work s _ h h0 d p2 p3 _ (Finished true)); try eassumption; [cbn; lia|now rewrite close_two_frame|now rewrite close_two_hs|].
      intros x j. now rewrite sw_close.
    + eapply (mu_work s _ h h0 d p2 p3 _ WriteClosed); try eassumption; try reflexivity; [cbn; lia|].
      intros x j. cbn [strs set_h]. apply (sw_set _ _ _ s0); [assumption|reflexivity].
  - (* CloseRead *)
    inv_step H. rename s0 into t, s1 into u.
    eapply (mu_work s _ h h0 d p2 p3 _ (Finished false)); try eassumption; try reflexivity; [cbn; lia|].
    intros x j. cbn [strs set_h].
    assert (T2 : exists u2, strs (set_str (fst p2) (snd p2) (cancel_read t) s) (fst p3) (snd p3) = Some u2 /\ sw (Some u2) = sw (Some u)).
    { rewrite str_set. destruct (side_eqb_spec (fst p3) (fst p2)) as [E1|]; cbn [andb]; [|eauto].
      destruct (Nat.eqb_spec (snd p3) (snd p2)) as [E2|]; [|eauto].
      rewrite E1, E2 in *. replace u with t by congruence. eexists; split; reflexivity. }
    destruct T2 as (u2 & T2 & Tw).
    etransitivity; [apply (sw_set _ _ _ u2); [exact T2|cbn [sw] in *; rewrite Tw; reflexivity]|].
    apply (sw_set _ _ _ t); [assumption|reflexivity].
  - (* MainEnd *)
    inv_step H. apply andb_prop in Heqb. destruct Heqb as [A _]. unfold mu.
    change (SW (close_all s) CL) with (SW s CL). change (SW (close_all s) BE) with (SW s BE).
    change (HW (close_all s)) with (HW s). change (LW (close_all s)) with (LW s). rewrite A. cbn. lia.
Qed.

Lemma run_mu cwd tr : forall s s', shape_inv s -> forallb by_proxy tr = true -> run cwd s tr = Some s' -> List.length tr + mu s' <= mu s.
Proof.
  induction tr as [|e tr IH]; cbn [run forallb List.length]; intros s s' I B H; [injection H as <-; lia|].
  apply andb_prop in B. destruct B as [B1 B2]. destruct (step cwd s e) as [s1|] eqn:E; [|discriminate].
  assert (A1 := step_mu _ _ _ _ I B1 E). assert (A2 := IH s1 s' (step_shape _ _ _ _ I E) B2 H). lia.
Qed.

(** *** Whether it is at rest can be computed *)

Definition moves (s : state) : list event :=
  MainEnd ::
  flat_map (fun x => [LoopEnd x (LAcc Uni); LoopEnd x (LAcc Bidi); LoopEnd x LDgram] ++ map (Accept x) (seq 0 (snext s x))) [CL; BE] ++
  flat_map (fun h => [Open h; OpenFail h] ++
    flat_map (fun d => [Read h d 1; ReadEOF h d; ReadErr h d; Write h d; WriteErr h d 0; CloseWrite h d; CloseRead h d]) [Fwd; Bwd])
    (seq 0 (hnext s)).
Definition can (cwd : dir -> bool) (s : state) (e : event) : bool := match step cwd s e with Some _ => true | None => false end.
Definition resting (cwd : dir -> bool) (s : state) : bool := forallb (fun e => negb (can cwd s e)) (moves s).

Lemma moves_proxy s e : In e (moves s) -> by_proxy e = true.
Proof.
  intros [<-|H]; [reflexivity|]. apply in_app_or in H. destruct H as [H|H]; apply in_flat_map in H; destruct H as (z & Z & H).
  - apply in_app_or in H. destruct H as [H|H].
    + cbn in H. decompose [or] H; subst; try reflexivity; contradiction.
    + apply in_map_iff in H. destruct H as (i & <- & _). reflexivity.
  - apply in_app_or in H. destruct H as [H|H].
    + cbn in H. decompose [or] H; subst; try reflexivity; contradiction.
    + apply in_flat_map in H. destruct H as (d & _ & H). cbn in H. decompose [or] H; subst; try reflexivity; contradiction.
Qed.

Lemma resting_ok cwd s : shape_inv s -> resting cwd s = true -> at_rest cwd s.
Proof.
  intros I R. unfold resting in R. rewrite forallb_forall in R.
  assert (N : forall e, In e (moves s) -> step cwd s e = None).
  { intros e E. specialize (R e E). unfold can in R. destruct (step cwd s e); [discriminate|reflexivity]. }
  assert (NH : forall h e, h < hnext s -> In e ([Open h; OpenFail h] ++
      flat_map (fun d => [Read h d 1; ReadEOF h d; ReadErr h d; Write h d; WriteErr h d 0; CloseWrite h d; CloseRead h d]) [Fwd; Bwd]) ->
      step cwd s e = None).
  { intros h e L E. apply N. right. apply in_or_app. right. apply in_flat_map. exists h. split; [apply in_seq; lia|exact E]. }
  assert (NL : forall h e, (forall v, hs s h = Some v -> step cwd s e = None) -> (hs s h = None -> step cwd s e = None) -> step cwd s e = None).
  { intros h e A B. destruct (hs s h) eqn:E; eauto. }
  intros e B. destruct e; try discriminate B.
  - destruct (step cwd s (Accept x i)) eqn:E; [|reflexivity]. assert (E2 := E). cbn [step] in E2.
    destruct (strs s x i) eqn:T; [|discriminate]. apply (slt s I) in T. rewrite N in E; [discriminate|].
    right. apply in_or_app. left. apply in_flat_map. exists x. split; [destruct x; cbn; auto|].
    apply in_or_app. right. apply in_map. apply in_seq. lia.
  - apply N. right. apply in_or_app. left. apply in_flat_map. exists x. split; [destruct x; cbn; auto|].
    apply in_or_app. left. destruct k as [[|]|]; cbn; auto.
  - apply (NL h); [|cbn [step]; intros ->; reflexivity]. intros v E. apply (NH h); [exact (hlt s I _ _ E)|]. cbn; auto.
  - apply (NL h); [|cbn [step]; intros ->; reflexivity]. intros v E. apply (NH h); [exact (hlt s I _ _ E)|]. cbn; auto.
  - apply (NL h); [|cbn [step]; intros ->; reflexivity]. intros v E.
    assert (X : step cwd s (Read h d 1) = None) by (apply (NH h); [exact (hlt s I _ _ E)|destruct d; cbn; auto 20]).
    cbn [step] in X |- *. rewrite E in *. destruct (ends v d) as [[[i o] [[|]| | |]]|]; try reflexivity.
    destruct (strs s (fst i) (snd i)) as [t|]; [|reflexivity]. destruct (rcancel t); [reflexivity|].
    destruct (unread t) as [|a l]; [|discriminate X]. destruct n; reflexivity.
  - apply (NL h); [|cbn [step]; intros ->; reflexivity]. intros v E. apply (NH h); [exact (hlt s I _ _ E)|destruct d; cbn; auto 20].
  - apply (NL h); [|cbn [step]; intros ->; reflexivity]. intros v E. apply (NH h); [exact (hlt s I _ _ E)|destruct d; cbn; auto 20].
  - apply (NL h); [|cbn [step]; intros ->; reflexivity]. intros v E. apply (NH h); [exact (hlt s I _ _ E)|destruct d; cbn; auto 20].
  - apply (NL h); [|cbn [step]; intros ->; reflexivity]. intros v E.
    assert (X : step cwd s (WriteErr h d 0) = None) by (apply (NH h); [exact (hlt s I _ _ E)|destruct d; cbn; auto 20]).
    cbn [step] in X |- *. rewrite E in *. destruct (ends v d) as [[[i o] [[|]| | |]]|]; try reflexivity.
    destruct (strs s (fst o) (snd o)) as [t|]; [|reflexivity].
    destruct (is_gone s (fst o) || negb (writable t) || wfin t || stopped t); [discriminate X|reflexivity].
  - apply (NL h); [|cbn [step]; intros ->; reflexivity]. intros v E. apply (NH h); [exact (hlt s I _ _ E)|destruct d; cbn; auto 20].
  - apply (NL h); [|cbn [step]; intros ->; reflexivity]. intros v E. apply (NH h); [exact (hlt s I _ _ E)|destruct d; cbn; auto 20].
  - apply N. left. reflexivity.
Qed.

Lemma forallb_ex {A} (f : A -> bool) l : forallb f l = false -> exists x, In x l /\ f x = false.
Proof.
  induction l as [|a l IH]; cbn; [discriminate|]. destruct (f a) eqn:E; [|eauto].
  intro H. destruct (IH H) as (x & X & Y). eauto.
Qed.

Lemma comes_to_rest cwd : forall n s, mu s < n -> shape_inv s ->
  exists tr s', forallb by_proxy tr = true /\ run cwd s tr = Some s' /\ at_rest cwd s'.
Proof.
  induction n as [|n IH]; intros s L I; [lia|]. destruct (resting cwd s) eqn:R.
  - exists [], s. split; [reflexivity|]. split; [reflexivity|]. now apply resting_ok.
  - apply forallb_ex in R. destruct R as (e & E & C). apply negb_false_iff in C. unfold can in C.
    destruct (step cwd s e) as [s1|] eqn:H; [|discriminate]. assert (B := moves_proxy _ _ E).
    assert (M := step_mu _ _ _ _ I B H).
    destruct (IH s1) as (tr & s' & A1 & A2 & A3); [lia|eapply step_shape; eauto|].
    exists (e :: tr), s'. cbn [forallb run]. rewrite B, H. auto.
Qed.
