From Verif Require Import Base QuicModel QuicSpec QuicProofs.

(** ** What is copied *)

(** The two streams of handler g and its two directions. *)
Definition proj (s : state) (g : nat) : option (stream * stream * pc * pc) :=
  match hs s g with
  | Some v =>
      match hp v with
      | HBridge d f b =>
          match strs s (hx v) (hsrc v), strs s (other (hx v)) d with
          | Some t, Some u => Some (t, u, f, b)
          | _, _ => None
          end
      | _ => None
      end
  | None => None
  end.

(** Something else than data and normal ends happened to the pair. *)
Definition bad (cwd : dir -> bool) (s : state) (t u : stream) : bool :=
  cwd Fwd || cwd Bwd || is_gone s CL || is_gone s BE || reset t || reset u || stopped t || stopped u || rexp t || rexp u.

Definition over (t : stream) : Prop := fin t = true \/ readable t = false.

(** What holds of a direction from [t] to [u]. *)
Definition dir_ok (bd : bool) (p : pc) (t u : stream) : Prop :=
  (wfin u = true -> writable u = true) /\
  (readable t = false -> sent t = [] /\ unread t = []) /\
  match p with
  | Copying buf =>
      sent t = got u ++ buf ++ unread t /\ (readable t = false -> buf = []) /\
      rcancel t = false /\ (wfin u = true -> bd = true)
  | CopyDone => got u = sent t /\ over t /\ (wfin u = true -> bd = true)
  | WriteClosed => got u = sent t /\ over t /\ (wfin u = writable u \/ bd = true)
  | Finished err =>
      prefix (got u) (sent t) /\
      (err = false -> got u = sent t /\ over t /\ (wfin u = writable u \/ bd = true)) /\
      (err = true -> bd = true)
  end.

Definition pair_ok (t u : stream) : Prop := byProxy t = false /\ byProxy u = true /\ skd t = skd u.

Definition data_inv (cwd : dir -> bool) (s : state) : Prop :=
  forall g t u f b, proj s g = Some (t, u, f, b) ->
    dir_ok (bad cwd s t u) f t u /\ dir_ok (bad cwd s t u) b u t.

(** Streams that nothing has been copied from or to. *)
Definition idle (t : stream) : Prop := got t = [] /\ wfin t = false /\ unread t = sent t.
Definition idle_inv (s : state) : Prop :=
  forall x i t, strs s x i = Some t -> byProxy t = false ->
    (forall h v, hs s h = Some v -> hx v = x -> hsrc v = i -> dst_of (hp v) = None) ->
    idle t /\
    ((forall h v, hs s h = Some v -> hx v = x -> hsrc v = i -> hp v = HOpening) -> rcancel t = false).

Lemma proj_pair s g t u f b : shape_inv s -> proj s g = Some (t, u, f, b) -> pair_ok t u.
Proof.
  intros I. unfold proj. destruct (hs s g) as [v|] eqn:E; [|discriminate].
  destruct (hp v) as [| |d f0 b0] eqn:P; try discriminate.
  destruct (src_ok s I _ _ E) as (t0 & T1 & T2 & _ & T4).
  destruct (dst_ok s I _ _ d E) as (u0 & U1 & U2 & U3); [now rewrite P|].
  rewrite T1, U1. intro Q. injection Q as <- <- <- <-. repeat split; congruence.
Qed.

Lemma pair_read t u : pair_ok t u -> readable t = true /\ writable u = true /\ writable t = readable u.
Proof.
  intros (A & B & C). unfold readable, writable. rewrite A, B, C. destruct (skd u); auto.
Qed.

Lemma dir_mono b b' p t u : (b = true -> b' = true) -> dir_ok b p t u -> dir_ok b' p t u.
Proof. unfold dir_ok. intro M. destruct p; intuition auto. Qed.

(** Streams belong to one handler. *)
Definition owns (s : state) (h : nat) (x : side) (i : nat) : Prop :=
  exists v, hs s h = Some v /\
    ((hx v = x /\ hsrc v = i) \/ (other (hx v) = x /\ dst_of (hp v) = Some i)).

Lemma owns_unique s h g x i : shape_inv s -> owns s h x i -> owns s g x i -> h = g.
Proof.
  intros I (v & E & O) (w & F & P).
  destruct O as [[O1 O2] | [O1 O2]], P as [[P1 P2] | [P1 P2]].
  - eapply (src_inj s I); eauto; congruence.
  - exfalso. destruct (src_ok s I _ _ E) as (t & T1 & T2 & _). destruct (dst_ok s I _ _ _ F P2) as (u & U1 & U2 & _).
    congruence.
  - exfalso. destruct (src_ok s I _ _ F) as (t & T1 & T2 & _). destruct (dst_ok s I _ _ _ E O2) as (u & U1 & U2 & _).
    congruence.
  - eapply (dst_inj s I h v g w i); eauto. apply other_inj. congruence.
Qed.

Lemma own_excl s h x i : shape_inv s -> owns s h x i -> forall g, g <> h -> owns s g x i -> False.
Proof. intros I O g N G. apply N. symmetry. exact (owns_unique _ _ _ _ _ I O G). Qed.

Lemma proj_set_str s x i w g : (owns s g x i -> False) -> proj (set_str x i w s) g = proj s g.
Proof.
  intro N. unfold proj. cbn [hs set_str]. destruct (hs s g) as [v|] eqn:E; [|reflexivity].
  destruct (hp v) as [| |d f b] eqn:P; try reflexivity. rewrite !str_set.
  destruct (side_eqb_spec (hx v) x) as [X|X]; destruct (side_eqb_spec (other (hx v)) x) as [Y|Y]; cbn.
  - exfalso. apply (other_neq x). congruence.
  - destruct (Nat.eqb_spec (hsrc v) i); [|reflexivity]. exfalso. apply N. exists v. auto.
  - destruct (Nat.eqb_spec d i); [|reflexivity]. exfalso. apply N. exists v. split; [exact E|]. right. rewrite P.
    cbn. split; congruence.
  - reflexivity.
Qed.

Lemma proj_set_h s h v g : g <> h -> proj (set_h h v s) g = proj s g.
Proof. intro N. unfold proj. cbn. destruct (Nat.eqb_spec g h); [congruence|reflexivity]. Qed.

Lemma owns_set_str s x i w g y j : owns (set_str x i w s) g y j <-> owns s g y j.
Proof. reflexivity. Qed.
Lemma owns_set_h s h v g y j : g <> h -> owns (set_h h v s) g y j <-> owns s g y j.
Proof.
  intro N. unfold owns. cbn. destruct (Nat.eqb_spec g h); [congruence|]. reflexivity.
Qed.

Lemma proj_close_two s i o g : (owns s g (fst i) (snd i) -> False) -> (owns s g (fst o) (snd o) -> False) ->
  proj (close_two i o s) g = proj s g.
Proof.
  intros A B. unfold close_two. destruct (strs s (fst o) (snd o)); [|reflexivity]. cbv zeta.
  destruct (strs _ (fst i) (snd i)); rewrite ?proj_set_str; auto.
Qed.

Lemma owns_ends s h v d i o p : hs s h = Some v -> ends v d = Some (i, o, p) ->
  owns s h (fst i) (snd i) /\ owns s h (fst o) (snd o).
Proof.
  intros E. unfold ends, owns. destruct (hp v) as [| |k f b] eqn:P; try discriminate.
  destruct d; intro Q; injection Q as <- <- <-; cbn; split; exists v; rewrite ?P; cbn; auto.
Qed.

Lemma gone_set_str x i t s y : is_gone (set_str x i t s) y = is_gone s y. Proof. reflexivity. Qed.
Lemma gone_set_h h v s y : is_gone (set_h h v s) y = is_gone s y. Proof. reflexivity. Qed.
Lemma gone_close_two i o s y : is_gone (close_two i o s) y = is_gone s y.
Proof.
  unfold close_two. destruct (strs s (fst o) (snd o)); [|reflexivity]. cbv zeta.
  destruct (strs _ (fst i) (snd i)); reflexivity.
Qed.

Lemma bad_gone cwd s s' t u : (forall y, is_gone s' y = is_gone s y) -> bad cwd s' t u = bad cwd s t u.
Proof. intro G. unfold bad. now rewrite !G. Qed.

Lemma prefix_refl a : prefix a a. Proof. exists []. now rewrite app_nil_r. Qed.
Lemma prefix_app a b c : prefix a b -> prefix a (b ++ c).
Proof. intros [d ->]. exists (d ++ c). now rewrite app_assoc. Qed.
Lemma prefix_firstn a b c n : prefix (a ++ firstn n b) (a ++ b ++ c).
Proof. exists (skipn n b ++ c). rewrite <- app_assoc, (app_assoc (firstn n b)), firstn_skipn. reflexivity. Qed.

(** *** What the peers do to a stream *)

Inductive peer_op : stream -> stream -> Prop :=
| OpRecv t d : readable t = true -> fin t = false -> peer_op t (recv d t)
| OpFin t : peer_op t (set_fin t)
| OpReset t : peer_op t (set_reset t)
| OpStop t : peer_op t (set_stopped t)
| OpExpire t : peer_op t (set_rexp t).

Lemma peer_in bd p t t' u : peer_op t t' -> dir_ok bd p t u -> dir_ok bd p t' u.
Proof.
  intros O. destruct O as [t d R F | t | t | t | t]; unfold dir_ok, over.
  - intros (A & B & D). split; [exact A|]. split; [cbn; unfold readable in *; cbn; congruence|].
    change (readable (recv d t)) with (readable t). rewrite R in *.
    destruct p as [buf| | |err]; cbn in *.
    + destruct D as (D1 & D2 & D3 & D4). rewrite D1, <- !app_assoc. auto.
    + destruct D as (_ & [D|D] & _); congruence.
    + destruct D as (_ & [D|D] & _); congruence.
    + destruct D as (D1 & D2 & D3). split; [apply prefix_app, D1|]. split; [|exact D3].
      intro E. destruct (D2 E) as (_ & [D|D] & _); congruence.
  - change (readable (set_fin t)) with (readable t). cbn.
    intros (A & B & D). split; [exact A|]. split; [exact B|]. destruct p; cbn; intuition auto.
  - exact (fun h => h).
  - exact (fun h => h).
  - exact (fun h => h).
Qed.

Lemma peer_out bd p t u u' : peer_op u u' -> dir_ok bd p t u -> dir_ok bd p t u'.
Proof. intros O. destruct O; exact (fun h => h). Qed.

Lemma peer_bad1 cwd s t t' u : peer_op t t' -> bad cwd s t u = true -> bad cwd s t' u = true.
Proof.
  intros O. unfold bad. destruct O; cbn; auto; rewrite ?orb_true_r; intros; auto.
Qed.
Lemma peer_bad2 cwd s t u u' : peer_op u u' -> bad cwd s t u = true -> bad cwd s t u' = true.
Proof.
  intros O. unfold bad. destruct O; cbn; auto; rewrite ?orb_true_r; intros; auto.
Qed.

Lemma set_str_data cwd s x i t t' : strs s x i = Some t -> peer_op t t' -> data_inv cwd s ->
  data_inv cwd (set_str x i t' s).
Proof.
  intros E O D g a b f c P. unfold proj in P. cbn [hs set_str] in P.
  destruct (hs s g) as [v|] eqn:G; [|discriminate]. destruct (hp v) as [| |d f0 b0] eqn:Q; try discriminate.
  rewrite !str_set in P. rewrite (bad_gone cwd s) by reflexivity.
  destruct (strs s (hx v) (hsrc v)) as [a0|] eqn:A.
  2:{ destruct (side_eqb (hx v) x && (hsrc v =? i)) eqn:C; [|discriminate].
      apply andb_prop in C. destruct C as [C1 C2]. apply Nat.eqb_eq in C2. destruct (side_eqb_spec (hx v) x); [|discriminate].
      congruence. }
  destruct (strs s (other (hx v)) d) as [b1|] eqn:B.
  2:{ destruct (side_eqb (other (hx v)) x && (d =? i)) eqn:C.
      - apply andb_prop in C. destruct C as [C1 C2]. apply Nat.eqb_eq in C2.
        destruct (side_eqb_spec (other (hx v)) x); [|discriminate]. congruence.
      - destruct (side_eqb (hx v) x && (hsrc v =? i)); discriminate. }
  assert (D0 := D g a0 b1 f0 b0). unfold proj in D0. rewrite G, Q, A, B in D0. specialize (D0 eq_refl).
  destruct (side_eqb_spec (hx v) x) as [X|X]; destruct (side_eqb_spec (other (hx v)) x) as [Y|Y]; cbn in P.
  - exfalso. apply (other_neq x). congruence.
  - destruct (Nat.eqb_spec (hsrc v) i) as [Z|Z]; injection P as <- <- <- <-; [|exact D0].
    replace t with a0 in * by congruence. destruct D0 as [D1 D2]. split.
    + eapply dir_mono; [apply peer_bad1, O|]. eapply peer_in; eauto.
    + eapply dir_mono; [apply peer_bad1, O|]. eapply peer_out; eauto.
  - destruct (Nat.eqb_spec d i) as [Z|Z]; injection P as <- <- <- <-; [|exact D0].
    replace t with b1 in * by congruence. destruct D0 as [D1 D2]. split.
    + eapply dir_mono; [apply peer_bad2, O|]. eapply peer_out; eauto.
    + eapply dir_mono; [apply peer_bad2, O|]. eapply peer_in; eauto.
  - injection P as <- <- <- <-. exact D0.
Qed.

(** *** What a handler does to its streams *)

Definition rw (t u : stream) : Prop := readable t = writable u /\ readable u = writable t.

Lemma bad_sym cwd s t u : bad cwd s t u = bad cwd s u t.
Proof.
  unfold bad. destruct (cwd Fwd), (cwd Bwd), (is_gone s CL), (is_gone s BE), (reset t), (reset u), (stopped t),
    (stopped u), (rexp t), (rexp u); reflexivity.
Qed.

Lemma handler_step cwd s s' h v d i o p t u p' t' u' :
  data_inv cwd s -> shape_inv s -> hs s h = Some v -> ends v d = Some (i, o, p) ->
  strs s (fst i) (snd i) = Some t -> strs s (fst o) (snd o) = Some u ->
  (forall g, g <> h -> proj s' g = proj s g) -> (forall y, is_gone s' y = is_gone s y) ->
  hs s' h = Some (set_pc v d p') ->
  strs s' (fst i) (snd i) = Some t' -> strs s' (fst o) (snd o) = Some u' ->
  bad cwd s t' u' = bad cwd s t u ->
  (forall q, let bd := bad cwd s t u in rw t u -> dir_ok bd p t u -> dir_ok bd q u t ->
     dir_ok bd p' t' u' /\ dir_ok bd q u' t') ->
  data_inv cwd s'.
Proof.
  intros D I E En T U Hg Hgo Eh T' U' B L g a b f c P.
  rewrite (bad_gone _ _ _ _ _ Hgo).
  destruct (Nat.eq_dec g h) as [->|N].
  2:{ rewrite (Hg _ N) in P. exact (D _ _ _ _ _ P). }
  unfold ends in En. destruct (hp v) as [| |e f0 b0] eqn:Hp; try discriminate.
  assert (Pr : proj s h = match d with Fwd => Some (t, u, f0, b0) | Bwd => Some (u, t, f0, b0) end).
  { unfold proj. rewrite E, Hp. destruct d; injection En as <- <- <-; cbn in *; rewrite T, U; reflexivity. }
  assert (Pr' : proj s' h = match d with Fwd => Some (t', u', p', b0) | Bwd => Some (u', t', f0, p') end).
  { unfold proj. rewrite Eh. unfold set_pc. rewrite Hp.
    destruct d; injection En as <- <- <-; cbn in *; rewrite T', U'; reflexivity. }
  rewrite Pr' in P. destruct d; injection En as <- <- <-; injection P as <- <- <- <-.
  - destruct (pair_read _ _ (proj_pair _ _ _ _ _ _ I Pr)) as (R1 & R2 & R3).
    destruct (D _ _ _ _ _ Pr) as [D1 D2]. rewrite B. apply L; auto. split; congruence.
  - destruct (pair_read _ _ (proj_pair _ _ _ _ _ _ I Pr)) as (R1 & R2 & R3).
    destruct (D _ _ _ _ _ Pr) as [D1 D2]. rewrite bad_sym, B. rewrite bad_sym in D1, D2.
    apply and_comm. apply L; auto. split; congruence.
Qed.

Lemma close_fields t : sent (close_st t) = sent t /\ unread (close_st t) = unread t /\ fin (close_st t) = fin t /\
  got (close_st t) = got t /\ rcancel (close_st t) = rcancel t /\ readable (close_st t) = readable t /\
  writable (close_st t) = writable t.
Proof. repeat split. Qed.

Lemma l_close_in bd q t u : dir_ok bd q t u -> dir_ok bd q (close_st t) u.
Proof. exact (fun h => h). Qed.
Lemma l_close_out q t u : dir_ok true q t u -> dir_ok true q t (close_st u).
Proof.
  unfold dir_ok. change (writable (close_st u)) with (writable u). cbn [wfin close_st got].
  intros (A & B & C). split.
  { destruct (wfin u); cbn; [intros _; apply A; reflexivity|]. destruct (writable u); cbn; auto. }
  split; [exact B|]. destruct q as [buf| | |err]; intuition auto.
Qed.

Lemma l_fin_err p t u : (match p with Finished _ => False | _ => True end) -> dir_ok true p t u -> dir_ok true (Finished true) t u.
Proof.
  unfold dir_ok. intros N (A & B & C). split; [exact A|]. split; [exact B|].
  assert (P : prefix (got u) (sent t)).
  { destruct p as [buf| | |err]; try contradiction.
    - destruct C as [-> _]. exists (buf ++ unread t). reflexivity.
    - destruct C as [-> _]. apply prefix_refl.
    - destruct C as [-> _]. apply prefix_refl. }
  split; [exact P|]. split; [discriminate|reflexivity].
Qed.

Lemma l_deliver_err c buf n t u : dir_ok true (Copying (c :: buf)) t u ->
  dir_ok true (Finished true) t (deliver (firstn n (c :: buf)) u).
Proof.
  unfold dir_ok. intros (A & B & C & _). split; [exact A|]. split; [exact B|].
  split; [|split; [discriminate|reflexivity]]. cbn [got deliver]. rewrite C. apply prefix_firstn.
Qed.
Lemma l_deliver_in bd q t u x : dir_ok bd q u t -> dir_ok bd q (deliver x u) t.
Proof. exact (fun h => h). Qed.

(** The streams after out.Close(); in.Close(). *)
Lemma close_two_strs s i o t u : strs s (fst i) (snd i) = Some t -> strs s (fst o) (snd o) = Some u ->
  fst i <> fst o ->
  strs (close_two i o s) (fst i) (snd i) = Some (close_st t) /\
  strs (close_two i o s) (fst o) (snd o) = Some (close_st u).
Proof.
  intros T U N. unfold close_two. rewrite U. cbv zeta. rewrite (str_set (fst o) (snd o) (close_st u) s (fst i) (snd i)).
  destruct (side_eqb_spec (fst i) (fst o)) as [X|X]; [congruence|]. cbn [andb]. rewrite T.
  split; rewrite str_set.
  - destruct (side_eqb_spec (fst i) (fst i)); [|congruence]. rewrite Nat.eqb_refl. reflexivity.
  - destruct (side_eqb_spec (fst o) (fst i)) as [Y|Y]; [congruence|]. cbn [andb]. rewrite str_set.
    destruct (side_eqb_spec (fst o) (fst o)); [|congruence]. rewrite Nat.eqb_refl. reflexivity.
Qed.
Lemma close_two_hs s i o : hs (close_two i o s) = hs s.
Proof.
  unfold close_two. destruct (strs s (fst o) (snd o)); [|reflexivity]. cbv zeta. destruct (strs _ (fst i) (snd i)); reflexivity.
Qed.

Lemma ends_neq v d i o p : ends v d = Some (i, o, p) -> fst i <> fst o.
Proof.
  unfold ends. destruct (hp v), d; try discriminate; intro E; injection E as <- <- <-; cbn; destruct (hx v); discriminate.
Qed.

Lemma str_eq x i t s : strs (set_str x i t s) x i = Some t.
Proof. rewrite str_set. destruct (side_eqb_spec x x); [|congruence]. now rewrite Nat.eqb_refl. Qed.
Lemma str_neq x i t s y j : y <> x -> strs (set_str x i t s) y j = strs s y j.
Proof. intro N. rewrite str_set. destruct (side_eqb_spec y x); [congruence|reflexivity]. Qed.
Lemma h_eq h v s : hs (set_h h v s) h = Some v. Proof. cbn. now rewrite Nat.eqb_refl. Qed.

Lemma readable_bad t u : rw t u -> forall c buf bd, dir_ok bd (Copying (c :: buf)) t u -> writable u = true.
Proof.
  intros [A _] c buf bd (_ & _ & _ & H & _). rewrite <- A. destruct (readable t); [reflexivity|].
  specialize (H eq_refl). discriminate.
Qed.

Ltac bools := repeat match goal with
  | H : _ || _ = false |- _ => apply orb_false_elim in H; destruct H
  | H : _ && _ = true |- _ => apply andb_prop in H; destruct H
  | H : negb _ = true |- _ => apply negb_true_iff in H
  | H : negb _ = false |- _ => apply negb_false_iff in H
  end.

Lemma is_gone_bad cwd s y t u : is_gone s y = true -> bad cwd s t u = true.
Proof. intro G. unfold bad. destruct y; rewrite G, ?orb_true_r; reflexivity. Qed.

Lemma step_data cwd s e s' : shape_inv s -> idle_inv s -> data_inv cwd s -> step cwd s e = Some s' -> data_inv cwd s'.
Proof.
  intros I J D H. destruct e.
  - (* PeerOpen *)
    inv_step H. intros g a b f c P. apply (D g a b f c). rewrite <- P. unfold proj. cbn [hs add_str].
    destruct (hs s g) as [v|] eqn:G; [|reflexivity]. destruct (hp v) as [| |e f0 b0] eqn:Q; try reflexivity.
    destruct (src_ok s I _ _ G) as (t & T & _). destruct (dst_ok s I _ _ e G) as (u & U & _); [now rewrite Q|].
    assert (F : forall y j t, strs s y j = Some t -> strs (add_str x (new_stream false k) s) y j = Some t).
    { intros y j t0 E. cbn. destruct (side_eqb_spec y x) as [->|]; [|exact E]. cbn.
      destruct (Nat.eqb_spec j (snext s x)) as [->|]; [|exact E]. apply (slt s I) in E. lia. }
    rewrite T, U, (F _ _ _ T), (F _ _ _ U). reflexivity.
  - inv_step H. bools. eapply set_str_data; eauto. constructor; auto.
  - inv_step H. eapply set_str_data; eauto. constructor.
  - inv_step H. eapply set_str_data; eauto. constructor.
  - inv_step H. eapply set_str_data; eauto. constructor.
  - inv_step H. eapply set_str_data; eauto. constructor.
  - (* ConnGone *)
    inv_step H. intros g a b f c P. change (proj (set_gone x app s) g) with (proj s g) in P.
    destruct (D g a b f c P) as [D1 D2].
    assert (M : bad cwd s a b = true -> bad cwd (set_gone x app s) a b = true).
    { unfold bad, is_gone. cbn. destruct x; cbn; destruct (gone s CL), (gone s BE); cbn; rewrite ?orb_true_r; auto;
      destruct (cwd Fwd), (cwd Bwd); auto. }
    split; eapply dir_mono; eauto.
  - (* Accept *)
    inv_step H. rename s0 into t. intros g a b f c P. unfold proj in P. cbn [hs add_h] in P.
    destruct (Nat.eqb_spec g (hnext (set_str x i (set_accepted t) s))) as [->|N]; [discriminate P|].
    cbn [strs add_h] in P. fold (proj (set_str x i (set_accepted t) s) g) in P.
    change (data_inv cwd (set_str x i (set_accepted t) s)) with (data_inv cwd (set_str x i (set_accepted t) s)).
    assert (NO : owns s g x i -> False).
    { intros (v & E & [[E1 E2] | [E1 E2]]).
      - destruct (src_ok s I _ _ E) as (t' & T1 & _ & T3 & _). subst x i. bools. congruence.
      - destruct (dst_ok s I _ _ _ E E2) as (u & U1 & U2 & _). subst x. bools. congruence. }
    rewrite (bad_gone cwd s) by reflexivity. change (strs (set_str x i (set_accepted t) s)) with (strs (set_str x i (set_accepted t) s)) in P.
    apply (D g). rewrite <- P. symmetry. exact (proj_set_str s x i (set_accepted t) g NO).
  - (* LoopEnd *)
    inv_step H. exact D.
  - (* Open *)
    inv_step H. rename h0 into v. set (y0 := other (hx v)) in *. set (n := snext s y0) in *.
    set (s1 := add_str y0 (new_stream true (hkd v)) s) in *.
    intros g a b f c P. rewrite (bad_gone cwd s) by reflexivity.
    assert (F : forall y j t, strs s y j = Some t -> strs s1 y j = Some t).
    { intros y j t E. cbn. destruct (side_eqb_spec y y0) as [->|]; [|exact E]. cbn.
      destruct (Nat.eqb_spec j (snext s y0)) as [->|]; [|exact E]. apply (slt s I) in E. lia. }
    destruct (Nat.eq_dec g h) as [->|Ng].
    + unfold proj in P. rewrite h_eq in P. cbn [hp set_hp hx hsrc] in P.
      destruct (src_ok s I _ _ Heqo) as (t & T1 & T2 & T3 & T4). change (strs (set_h h _ s1)) with (strs s1) in P.
      rewrite (F _ _ _ T1) in P. fold y0 in P.
      assert (NW : strs s1 y0 n = Some (new_stream true (hkd v))).
      { cbn. fold n. destruct (side_eqb_spec y0 y0); [|congruence]. now rewrite Nat.eqb_refl. }
      rewrite NW in P. injection P as <- <- <- <-.
      destruct (J _ _ _ T1 T2) as ((J1 & J2 & J3) & J4).
      { intros h' v' E X Y. replace h' with h in E by (eapply (src_inj s I); eauto). replace v' with v by congruence.
        now rewrite Heqh1. }
      assert (R : readable t = true) by (unfold readable; now rewrite T2).
      split.
      * split; [intros; discriminate|]. split; [congruence|]. cbn. rewrite J3. split; [reflexivity|].
        split; [congruence|]. split; [|discriminate]. apply J4.
        intros h' v' E X Y. replace h' with h in E by (eapply (src_inj s I); eauto). congruence.
      * split; [congruence|]. split; [auto|]. cbn. rewrite J1. repeat split; auto. congruence.
    + rewrite proj_set_h in P by exact Ng. apply (D g). rewrite <- P. unfold proj. cbn [hs s1 add_str].
      destruct (hs s g) as [w|] eqn:G; [|reflexivity]. destruct (hp w) as [| |e f0 b0] eqn:Q; try reflexivity.
      destruct (src_ok s I _ _ G) as (t & T & _). destruct (dst_ok s I _ _ e G) as (u & U & _); [now rewrite Q|].
      rewrite T, U, (F _ _ _ T), (F _ _ _ U). reflexivity.
  - (* OpenFail *)
    assert (G0 : forall g t u f b, forall s1, (forall g', g' <> h -> proj s1 g' = proj s g') -> proj s1 h = None ->
              (forall y, is_gone s1 y = is_gone s y) -> proj s1 g = Some (t, u, f, b) ->
              dir_ok (bad cwd s1 t u) f t u /\ dir_ok (bad cwd s1 t u) b u t).
    { intros g t u f b s1 A1 A2 A3 P. destruct (Nat.eq_dec g h) as [->|N]; [congruence|].
      rewrite (bad_gone _ _ _ _ _ A3). rewrite (A1 _ N) in P. exact (D _ _ _ _ _ P). }
    inv_step H; intros g t u f b0 P; eapply G0; try exact P; try (intros; reflexivity).
    1: { intros g' N. rewrite proj_set_str, proj_set_h; auto. rewrite owns_set_h by exact N. intro O. apply N.
         symmetry. eapply owns_unique; [exact I| |exact O]. exists h0. auto. }
    1: { unfold proj. cbn [hs set_str]. rewrite h_eq. reflexivity. }
    all: try (intros g' N; now rewrite proj_set_h).
    all: unfold proj; rewrite h_eq; reflexivity.
  - (* Read *)
    inv_step H. subst. rename h0 into v, p2 into i, p3 into o, s0 into t, Heqo0 into En, Heqo1 into T. bools.
    destruct (strs s (fst o) (snd o)) as [u|] eqn:U.
    2:{ exfalso. destruct (owns_ends _ _ _ _ _ _ _ Heqo En) as [_ (v' & V & [[O1 O2] | [O1 O2]])].
        - destruct (src_ok s I _ _ V) as (z & Z & _). congruence.
        - destruct (dst_ok s I _ _ _ V O2) as (z & Z & _). congruence. }
    assert (Nio := ends_neq _ _ _ _ _ En). destruct (owns_ends _ _ _ _ _ _ _ Heqo En) as [Oi Oo].
    eapply (handler_step cwd s _ h v d i o (Copying []) t u _ (set_unread (skipn n (unread t)) t) u D I Heqo En T U).
    + intros g N. rewrite proj_set_h, proj_set_str; auto. intro O. first [exact (own_excl _ _ _ _ I Oi _ N O) | exact (own_excl _ _ _ _ I Oo _ N O)].
    + reflexivity.
    + apply h_eq.
    + cbn [strs set_h]. apply str_eq.
    + cbn [strs set_h]. rewrite str_neq; auto.
    + reflexivity.
    + intros q bd [R1 R2] [A1 (A2 & A3 & A4 & A5 & A6)] Q. split; [|exact Q].
      split; [exact A1|]. split.
      { cbn. intro X. destruct (A2 X) as [-> ->]. destruct n; auto. }
      change (readable (set_unread (skipn n (unread t)) t)) with (readable t). cbn [sent unread set_unread rcancel].
      split; [rewrite firstn_skipn; exact A3|]. split; [|auto]. intro X. destruct (A2 X) as [_ ->]. now rewrite firstn_nil.
  - (* ReadEOF *)
    inv_step H. subst. rename h0 into v, p2 into i, p3 into o, s0 into t, Heqo0 into En, Heqo1 into T.
    destruct (strs s (fst o) (snd o)) as [u|] eqn:U.
    2:{ exfalso. destruct (owns_ends _ _ _ _ _ _ _ Heqo En) as [_ (v' & V & [[O1 O2] | [O1 O2]])].
        - destruct (src_ok s I _ _ V) as (z & Z & _). congruence.
        - destruct (dst_ok s I _ _ _ V O2) as (z & Z & _). congruence. }
    assert (Nio := ends_neq _ _ _ _ _ En). destruct (owns_ends _ _ _ _ _ _ _ Heqo En) as [Oi Oo].
    assert (Ov : forall bd, dir_ok bd (Copying []) t u -> over t /\ got u = sent t).
    { intros bd [A1 (A2 & A3 & A4 & A5 & A6)]. cbn in A3. apply orb_prop in Heqb. destruct Heqb as [X|X]; bools.
      - split; [right; exact X|]. destruct (A2 X) as [_ Y]. rewrite A3, Y, app_nil_r. reflexivity.
      - destruct (unread t) eqn:Y; [|discriminate]. split; [left; assumption|]. now rewrite A3, app_nil_r. }
    destruct (cwd d) eqn:Cw.
    + assert (Bd : bad cwd s t u = true) by (unfold bad; destruct d; rewrite Cw, ?orb_true_r; reflexivity).
      destruct (close_two_strs (set_h h (set_pc v d (Finished false)) s) i o t u T U Nio) as [C1 C2].
      eapply (handler_step cwd s _ h v d i o (Copying []) t u _ _ _ D I Heqo En T U); try eassumption.
      * intros g N. rewrite proj_close_two, proj_set_h; auto; rewrite owns_set_h by exact N; intro O; first [exact (own_excl _ _ _ _ I Oi _ N O) | exact (own_excl _ _ _ _ I Oo _ N O)].
      * intro y. rewrite gone_close_two. reflexivity.
      * rewrite close_two_hs. apply h_eq.
      * unfold bad. cbn. reflexivity.
      * cbv zeta. rewrite Bd. intros q R P Q. split.
        -- apply l_close_in, l_close_out. destruct (Ov _ P) as [X Y]. destruct P as (P1 & P2 & _). split; [exact P1|].
           split; [exact P2|]. split; [rewrite Y; apply prefix_refl|]. split; [auto|discriminate].
        -- apply l_close_in, l_close_out, Q.
    + eapply (handler_step cwd s _ h v d i o (Copying []) t u _ t u D I Heqo En T U); try eassumption; try reflexivity.
      * intros g N. rewrite proj_set_h; auto.
      * apply h_eq.
      * intros q bd R P Q. split; [|exact Q]. destruct (Ov _ P) as [X Y]. destruct P as (P1 & P2 & P3).
        split; [exact P1|]. split; [exact P2|]. split; [exact Y|]. split; [exact X|]. apply P3.
  - (* ReadErr *)
    inv_step H. subst. rename h0 into v, p2 into i, p3 into o, s0 into t, Heqo0 into En, Heqo1 into T.
    destruct (strs s (fst o) (snd o)) as [u|] eqn:U.
    2:{ exfalso. destruct (owns_ends _ _ _ _ _ _ _ Heqo En) as [_ (v' & V & [[O1 O2] | [O1 O2]])].
        - destruct (src_ok s I _ _ V) as (z & Z & _). congruence.
        - destruct (dst_ok s I _ _ _ V O2) as (z & Z & _). congruence. }
    assert (Nio := ends_neq _ _ _ _ _ En). destruct (owns_ends _ _ _ _ _ _ _ Heqo En) as [Oi Oo].
    destruct (close_two_strs (set_h h (set_pc v d (Finished true)) s) i o t u T U Nio) as [C1 C2].
    eapply (handler_step cwd s _ h v d i o (Copying []) t u _ _ _ D I Heqo En T U); try eassumption.
    + intros g N. rewrite proj_close_two, proj_set_h; auto; rewrite owns_set_h by exact N; intro O; first [exact (own_excl _ _ _ _ I Oi _ N O) | exact (own_excl _ _ _ _ I Oo _ N O)].
    + intro y. rewrite gone_close_two. reflexivity.
    + rewrite close_two_hs. apply h_eq.
    + unfold bad. cbn. reflexivity.
    + cbv zeta. intros q R P Q.
      assert (Bd : bad cwd s t u = true).
      { bools. destruct P as (_ & _ & _ & _ & P & _). rewrite P in *. rewrite orb_false_r in H0.
        apply orb_prop in H0. destruct H0 as [H0|H0]; [apply orb_prop in H0; destruct H0 as [H0|H0]|].
        - eapply is_gone_bad; eauto.
        - unfold bad. rewrite H0, ?orb_true_r. reflexivity.
        - unfold bad. rewrite H0, ?orb_true_r. reflexivity. }
      rewrite Bd in *. split; apply l_close_in, l_close_out; [|exact Q]. eapply l_fin_err; [|exact P]. exact Logic.I.
  - (* Write *)
    inv_step H. subst. rename h0 into v, p2 into i, p3 into o, s0 into u, Heqo0 into En, Heqo1 into U. bools.
    destruct (strs s (fst i) (snd i)) as [t|] eqn:T.
    2:{ exfalso. destruct (owns_ends _ _ _ _ _ _ _ Heqo En) as [(v' & V & [[O1 O2] | [O1 O2]]) _].
        - destruct (src_ok s I _ _ V) as (z & Z & _). congruence.
        - destruct (dst_ok s I _ _ _ V O2) as (z & Z & _). congruence. }
    assert (Nio := ends_neq _ _ _ _ _ En). destruct (owns_ends _ _ _ _ _ _ _ Heqo En) as [Oi Oo].
    eapply (handler_step cwd s _ h v d i o _ t u (Copying []) t (deliver (a :: l) u) D I Heqo En T U).
    + intros g N. rewrite proj_set_h, proj_set_str; auto. intro O. first [exact (own_excl _ _ _ _ I Oi _ N O) | exact (own_excl _ _ _ _ I Oo _ N O)].
    + reflexivity.
    + apply h_eq.
    + cbn [strs set_h]. rewrite str_neq; auto.
    + cbn [strs set_h]. apply str_eq.
    + reflexivity.
    + intros q bd R P Q. split; [|exact Q]. destruct P as (P1 & P2 & P3 & P4 & P5 & P6). split; [exact P1|].
      split; [exact P2|]. cbn [got deliver]. split; [rewrite P3, <- app_assoc; reflexivity|]. auto.
  - (* WriteErr *)
    inv_step H. subst. rename h0 into v, p2 into i, p3 into o, s0 into u, Heqo0 into En, Heqo1 into U.
    destruct (strs s (fst i) (snd i)) as [t|] eqn:T.
    2:{ exfalso. destruct (owns_ends _ _ _ _ _ _ _ Heqo En) as [(v' & V & [[O1 O2] | [O1 O2]]) _].
        - destruct (src_ok s I _ _ V) as (z & Z & _). congruence.
        - destruct (dst_ok s I _ _ _ V O2) as (z & Z & _). congruence. }
    assert (Nio := ends_neq _ _ _ _ _ En). destruct (owns_ends _ _ _ _ _ _ _ Heqo En) as [Oi Oo].
    assert (Bd : rw t u -> dir_ok (bad cwd s t u) (Copying (a :: l)) t u -> bad cwd s t u = true).
    { intros R P. rewrite (readable_bad t u R _ _ _ P) in Heqb. cbn [negb] in Heqb. rewrite orb_false_r in Heqb.
      apply orb_prop in Heqb. destruct Heqb as [X|X]; [apply orb_prop in X; destruct X as [X|X]|].
      - eapply is_gone_bad; eauto.
      - destruct P as (_ & _ & _ & _ & _ & P). auto.
      - unfold bad. rewrite X, ?orb_true_r. reflexivity. }
    set (u1 := if wfin u || negb (writable u) then u else deliver (firstn n (a :: l)) u).
    set (s1 := if wfin u || negb (writable u) then s else set_str (fst o) (snd o) (deliver (firstn n (a :: l)) u) s).
    assert (T1 : strs s1 (fst i) (snd i) = Some t).
    { unfold s1. destruct (wfin u || negb (writable u)); [exact T|]. rewrite str_neq; auto. }
    assert (U1 : strs s1 (fst o) (snd o) = Some u1).
    { unfold s1, u1. destruct (wfin u || negb (writable u)); [exact U|]. apply str_eq. }
    destruct (close_two_strs (set_h h (set_pc v d (Finished true)) s1) i o t u1 T1 U1 Nio) as [C1 C2].
    eapply (handler_step cwd s _ h v d i o _ t u _ _ _ D I Heqo En T U); try eassumption.
    + intros g N. rewrite proj_close_two, proj_set_h; auto.
      * unfold s1. destruct (wfin u || negb (writable u)); [reflexivity|]. rewrite proj_set_str; auto.
        intro O. first [exact (own_excl _ _ _ _ I Oi _ N O) | exact (own_excl _ _ _ _ I Oo _ N O)].
      * rewrite owns_set_h by exact N. intro O.
        unfold s1 in O. destruct (wfin u || negb (writable u)); [|rewrite owns_set_str in O]; first [exact (own_excl _ _ _ _ I Oi _ N O) | exact (own_excl _ _ _ _ I Oo _ N O)].
      * rewrite owns_set_h by exact N. intro O.
        unfold s1 in O. destruct (wfin u || negb (writable u)); [|rewrite owns_set_str in O]; first [exact (own_excl _ _ _ _ I Oi _ N O) | exact (own_excl _ _ _ _ I Oo _ N O)].
    + intro y. rewrite gone_close_two. unfold s1. destruct (wfin u || negb (writable u)); reflexivity.
    + rewrite close_two_hs. apply h_eq.
    + unfold u1. destruct (wfin u || negb (writable u)); reflexivity.
    + cbv zeta. intros q R P Q. specialize (Bd R P). rewrite Bd in *. split; apply l_close_in, l_close_out.
      * unfold u1. destruct (wfin u || negb (writable u)); [eapply l_fin_err; [|exact P]; exact Logic.I|].
        apply l_deliver_err, P.
      * unfold u1. destruct (wfin u || negb (writable u)); exact Q.
  - (* CloseWrite *)
    inv_step H; subst; rename h0 into v, p2 into i, p3 into o, s0 into u, Heqo0 into En, Heqo1 into U.
    + destruct (strs s (fst i) (snd i)) as [t|] eqn:T.
      2:{ exfalso. destruct (owns_ends _ _ _ _ _ _ _ Heqo En) as [(v' & V & [[O1 O2] | [O1 O2]]) _].
          - destruct (src_ok s I _ _ V) as (z & Z & _). congruence.
          - destruct (dst_ok s I _ _ _ V O2) as (z & Z & _). congruence. }
      assert (Nio := ends_neq _ _ _ _ _ En). destruct (owns_ends _ _ _ _ _ _ _ Heqo En) as [Oi Oo].
      destruct (close_two_strs (set_h h (set_pc v d (Finished true)) s) i o t u T U Nio) as [C1 C2].
      assert (Bd : bad cwd s t u = true) by (bools; unfold bad; match goal with X : stopped u = true |- _ => rewrite X end; rewrite ?orb_true_r; reflexivity).
      eapply (handler_step cwd s _ h v d i o _ t u _ _ _ D I Heqo En T U); try eassumption.
      * intros g N. rewrite proj_close_two, proj_set_h; auto; rewrite owns_set_h by exact N; intro O; first [exact (own_excl _ _ _ _ I Oi _ N O) | exact (own_excl _ _ _ _ I Oo _ N O)].
      * intro y. rewrite gone_close_two. reflexivity.
      * rewrite close_two_hs. apply h_eq.
      * reflexivity.
      * cbv zeta. rewrite Bd. intros q R P Q. split; apply l_close_in, l_close_out; [|exact Q].
        eapply l_fin_err; [|exact P]; exact Logic.I.
    + destruct (strs s (fst i) (snd i)) as [t|] eqn:T.
      2:{ exfalso. destruct (owns_ends _ _ _ _ _ _ _ Heqo En) as [(v' & V & [[O1 O2] | [O1 O2]]) _].
          - destruct (src_ok s I _ _ V) as (z & Z & _). congruence.
          - destruct (dst_ok s I _ _ _ V O2) as (z & Z & _). congruence. }
      assert (Nio := ends_neq _ _ _ _ _ En). destruct (owns_ends _ _ _ _ _ _ _ Heqo En) as [Oi Oo].
      eapply (handler_step cwd s _ h v d i o _ t u WriteClosed t (close_st u) D I Heqo En T U).
      * intros g N. rewrite proj_set_h, proj_set_str; auto. intro O. first [exact (own_excl _ _ _ _ I Oi _ N O) | exact (own_excl _ _ _ _ I Oo _ N O)].
      * reflexivity.
      * apply h_eq.
      * cbn [strs set_h]. rewrite str_neq; auto.
      * cbn [strs set_h]. apply str_eq.
      * reflexivity.
      * intros q bd R P Q. split; [|exact Q]. destruct P as (P1 & P2 & P3 & P4 & P5).
        split. { change (writable (close_st u)) with (writable u). cbn. destruct (wfin u); cbn; [auto|]. destruct (writable u); cbn; auto. }
        split; [exact P2|]. split; [exact P3|]. split; [exact P4|].
        change (writable (close_st u)) with (writable u). cbn [wfin close_st].
        destruct (stopped u) eqn:St; [right; unfold bd, bad; rewrite St, ?orb_true_r; reflexivity|].
        left. cbn. rewrite andb_true_r. destruct (wfin u); [rewrite P1; reflexivity|]. reflexivity.
  - (* CloseRead *)
    inv_step H. subst. rename h0 into v, p2 into i, p3 into o, s0 into t, s1 into u, Heqo0 into En, Heqo1 into T, Heqo2 into U.
    assert (Nio := ends_neq _ _ _ _ _ En). destruct (owns_ends _ _ _ _ _ _ _ Heqo En) as [Oi Oo].
    eapply (handler_step cwd s _ h v d i o _ t u (Finished false) (cancel_read t) (set_rdl u) D I Heqo En T U).
    + intros g N. rewrite proj_set_h, !proj_set_str; auto; rewrite ?owns_set_str; intro O; first [exact (own_excl _ _ _ _ I Oi _ N O) | exact (own_excl _ _ _ _ I Oo _ N O)].
    + reflexivity.
    + apply h_eq.
    + cbn [strs set_h]. rewrite str_neq by auto. apply str_eq.
    + cbn [strs set_h]. apply str_eq.
    + reflexivity.
    + intros q bd R P Q. split; [|exact Q]. destruct P as (P1 & P2 & P3 & P4 & P5).
      split; [exact P1|]. split; [exact P2|]. change (over (cancel_read t)) with (over t). cbn [got set_rdl sent cancel_read].
      split; [rewrite P3; apply prefix_refl|]. split; [auto|discriminate].
  - (* MainEnd *)
    inv_step H. intros g a b f c P. change (proj (close_all s) g) with (proj s g) in P.
    destruct (D g a b f c P) as [D1 D2].
    assert (M : bad cwd s a b = true -> bad cwd (close_all s) a b = true).
    { intros _. eapply (is_gone_bad cwd (close_all s) CL). reflexivity. }
    split; eapply dir_mono; eauto.
Qed.

(** *** Streams nothing was copied from or to *)

Definition quiet (s : state) (x : side) (i : nat) : Prop :=
  forall h v, hs s h = Some v -> hx v = x -> hsrc v = i -> dst_of (hp v) = None.
Definition opening (s : state) (x : side) (i : nat) : Prop :=
  forall h v, hs s h = Some v -> hx v = x -> hsrc v = i -> hp v = HOpening.

(** A step that keeps stream (x, i) and does not start joining it. *)
Lemma idle_keep s s' : idle_inv s ->
  (forall x i t', strs s' x i = Some t' -> byProxy t' = false -> quiet s' x i ->
     (exists t, strs s x i = Some t /\ byProxy t = false /\ quiet s x i /\ (opening s' x i -> opening s x i) /\
                (idle t -> idle t') /\ (opening s' x i -> rcancel t = false -> rcancel t' = false)) \/
     (idle t' /\ rcancel t' = false)) ->
  idle_inv s'.
Proof.
  intros J K x i t' E B Q. destruct (K x i t' E B Q) as [(t & A1 & A2 & A3 & A4 & A5 & A6) | [A1 A2]]; [|auto].
  destruct (J x i t A1 A2 A3) as [J1 J2]. split; [auto|]. intro O. apply A6; [exact O|]. apply J2. apply A4. exact O.
Qed.

Lemma idle_same_h s s' : hs s' = hs s -> idle_inv s ->
  (forall x i t', strs s' x i = Some t' -> byProxy t' = false -> quiet s' x i ->
     exists t, strs s x i = Some t /\ byProxy t = false /\ (idle t -> idle t') /\ (rcancel t = false -> rcancel t' = false)) ->
  idle_inv s'.
Proof.
  intros Eh J K. apply (idle_keep s); [exact J|]. intros x i t' E B Q. left.
  destruct (K x i t' E B Q) as (t & A1 & A2 & A3 & A4). exists t. split; [exact A1|]. split; [exact A2|].
  unfold quiet, opening in *. rewrite Eh in *. repeat split; auto; apply A3; assumption.
Qed.

Lemma peer_idle t t' : peer_op t t' -> byProxy t' = byProxy t /\ (idle t -> idle t') /\ rcancel t' = rcancel t.
Proof.
  intros O. destruct O; split; try reflexivity; split; try reflexivity; unfold idle; cbn; auto.
  intros (-> & -> & ->). auto.
Qed.

Lemma peer_idle_inv s x i t t' : strs s x i = Some t -> peer_op t t' -> idle_inv s -> idle_inv (set_str x i t' s).
Proof.
  intros E O J. destruct (peer_idle _ _ O) as (P1 & P2 & P3).
  apply (idle_same_h s); [reflexivity|exact J|]. intros y j w. rewrite str_set.
  destruct (side_eqb_spec y x) as [->|]; cbn; [|eauto 6].
  destruct (Nat.eqb_spec j i) as [->|]; [|eauto 6]. intros W B _. injection W as <-. exists t.
  split; [exact E|]. split; [congruence|]. split; [exact P2|]. congruence.
Qed.

(** A joining handler does not touch streams that are not joined. *)
Lemma work_idle s s' h v d i o p p' : idle_inv s -> shape_inv s -> hs s h = Some v -> ends v d = Some (i, o, p) ->
  hs s' = (fun j => if j =? h then Some (set_pc v d p') else hs s j) ->
  (forall x j, (x, j) <> i -> (x, j) <> o -> strs s' x j = strs s x j) ->
  (forall x j t, strs s' x j = Some t -> byProxy t = false -> exists t0, strs s x j = Some t0 /\ byProxy t0 = false) ->
  idle_inv s'.
Proof.
  intros J I E En Hs K B. apply (idle_keep s); [exact J|]. intros x j t' T' B' Q. left.
  assert (W : hp v = match hp v with HBridge _ _ _ => hp v | _ => hp v end) by (destruct (hp v); reflexivity).
  unfold ends in En. destruct (hp v) as [| |e f b] eqn:P; try discriminate. clear W.
  assert (Src : forall u, hs s' h = Some u -> hx u = hx v /\ hsrc u = hsrc v /\ dst_of (hp u) = Some e).
  { intros u. rewrite Hs, Nat.eqb_refl. intro X. injection X as <-. unfold set_pc. rewrite P. destruct d; auto. }
  assert (Hh : hs s' h = Some (set_pc v d p')) by (rewrite Hs, Nat.eqb_refl; reflexivity).
  assert (Ni : (x, j) <> (hx v, hsrc v)).
  { intro X. injection X as -> ->. destruct (Src _ Hh) as (S1 & S2 & S3). specialize (Q h _ Hh S1 S2). congruence. }
  assert (No : (x, j) <> (other (hx v), e)).
  { intro X. injection X as -> ->. destruct (B _ _ _ T' B') as (t0 & T0 & B0).
    destruct (dst_ok s I _ _ e E) as (u & U1 & U2 & _); [now rewrite P|]. congruence. }
  rewrite K in T' by (destruct d; injection En as <- <- <-; assumption).
  exists t'. split; [exact T'|]. split; [exact B'|].
  split.
  { intros g w G X Y. destruct (Nat.eq_dec g h) as [->|N].
    - exfalso. apply Ni. replace w with v in * by congruence. congruence.
    - apply (Q g w); auto. rewrite Hs. destruct (Nat.eqb_spec g h); [congruence|exact G]. }
  split.
  { intros O g w G X Y. destruct (Nat.eq_dec g h) as [->|N].
    - exfalso. apply Ni. replace w with v in * by congruence. congruence.
    - apply (O g w); auto. rewrite Hs. destruct (Nat.eqb_spec g h); [congruence|exact G]. }
  auto.
Qed.

Lemma close_two_other s i o x j : (x, j) <> i -> (x, j) <> o -> strs (close_two i o s) x j = strs s x j.
Proof.
  intros A B. unfold close_two. destruct (strs s (fst o) (snd o)); [|reflexivity]. cbv zeta.
  assert (S : forall y k t r, (x, j) <> (y, k) -> strs (set_str y k t r) x j = strs r x j).
  { intros y k t r N. rewrite str_set. destruct (side_eqb_spec x y) as [->|]; cbn; [|reflexivity].
    destruct (Nat.eqb_spec j k) as [->|]; [congruence|reflexivity]. }
  destruct i as [i1 i2], o as [o1 o2]. cbn [fst snd] in *.
  destruct (strs _ i1 i2); rewrite !S; auto.
Qed.
Lemma set_str_other s y k t x j : (x, j) <> (y, k) -> strs (set_str y k t s) x j = strs s x j.
Proof.
  intro N. rewrite str_set. destruct (side_eqb_spec x y) as [->|]; cbn; [|reflexivity].
  destruct (Nat.eqb_spec j k) as [->|]; [congruence|reflexivity].
Qed.

Lemma same_back s s' : same s s' -> forall x j t, strs s' x j = Some t -> byProxy t = false ->
  exists t0, strs s x j = Some t0 /\ byProxy t0 = false.
Proof.
  intros (_ & _ & S & _) x j t T B. destruct (map_some _ _ _ _ (S x j) T) as (t0 & T0 & Q).
  exists t0. split; [exact T0|]. unfold shape in Q. congruence.
Qed.

Lemma step_idle cwd s e s' : shape_inv s -> idle_inv s -> step cwd s e = Some s' -> idle_inv s'.
Proof.
  intros I J H.
  assert (SM : changes_shape e = false -> same s s') by (intro C; exact (step_same _ _ _ _ C H)).
  assert (pair_eta : forall (z : side * nat), (fst z, snd z) = z) by (intros [? ?]; reflexivity).
  destruct e.
  - (* PeerOpen *)
    inv_step H. apply (idle_keep s); [exact J|]. intros y j t'. cbn.
    destruct (side_eqb_spec y x) as [->|]; cbn.
    + destruct (Nat.eqb_spec j (snext s x)) as [->|].
      * intros E _ _. injection E as <-. right. repeat split.
      * intros E B Q. left. exists t'. auto 10.
    + intros E B Q. left. exists t'. auto 10.
  - inv_step H. bools. eapply peer_idle_inv; eauto. constructor; auto.
  - inv_step H. eapply peer_idle_inv; eauto. constructor.
  - inv_step H. eapply peer_idle_inv; eauto. constructor.
  - inv_step H. eapply peer_idle_inv; eauto. constructor.
  - inv_step H. eapply peer_idle_inv; eauto. constructor.
  - inv_step H. exact J.
  - (* Accept *)
    inv_step H. rename s0 into t. apply (idle_keep s); [exact J|]. intros y j t' E B Q. left. cbn [strs add_h] in E.
    assert (Qs : quiet s y j).
    { intros h v G X Y. apply (Q h v); auto. cbn. destruct (Nat.eqb_spec h (hnext s)) as [->|]; [|exact G].
      apply (hlt s I) in G. lia. }
    assert (Os : opening (add_h {| hx := x; hsrc := i; hkd := skd t; hp := HOpening |} (set_str x i (set_accepted t) s)) y j -> opening s y j).
    { intros O h v G X Y. apply (O h v); auto. cbn. destruct (Nat.eqb_spec h (hnext s)) as [->|]; [|exact G].
      apply (hlt s I) in G. lia. }
    rewrite str_set in E. destruct (side_eqb_spec y x) as [->|]; cbn in E; [|exists t'; auto 10].
    destruct (Nat.eqb_spec j i) as [->|]; [|exists t'; auto 10]. injection E as <-.
    exists t. split; [assumption|]. split; [exact B|]. split; [exact Qs|]. split; [exact Os|]. split; intro; auto.
  - inv_step H. exact J.
  - (* Open *)
    inv_step H. rename h0 into v. apply (idle_keep s); [exact J|]. intros y j t' E B Q. left.
    cbn [strs set_h add_str] in E. set (y0 := other (hx v)) in *.
    assert (E' : strs s y j = Some t').
    { destruct (side_eqb_spec y y0) as [->|]; cbn in E; [|exact E].
      destruct (j =? snext s y0); [|exact E]. injection E as <-. discriminate B. }
    assert (Nh : forall u, hs s h = Some u -> hx u = y -> hsrc u = j -> False).
    { intros u G X Y. specialize (Q h _ (h_eq _ _ _)). replace u with v in * by congruence. cbn in Q.
      specialize (Q X Y). discriminate. }
    exists t'. split; [exact E'|]. split; [exact B|]. split.
    { intros g w G X Y. destruct (Nat.eq_dec g h) as [->|N]; [exfalso; eauto|].
      apply (Q g w); auto. cbn. destruct (Nat.eqb_spec g h); [congruence|exact G]. }
    split; [|auto].
    intros O g w G X Y. destruct (Nat.eq_dec g h) as [->|N]; [exfalso; eauto|].
    apply (O g w); auto. cbn. destruct (Nat.eqb_spec g h); [congruence|exact G].
  - (* OpenFail *)
    assert (G0 : forall v t1, hs s h = Some v -> hp v = HOpening -> strs s (hx v) (hsrc v) = Some t1 ->
      forall s1, hs s1 = (fun j => if j =? h then Some (set_hp v HFailed) else hs s j) ->
      (forall x j, (x, j) <> (hx v, hsrc v) -> strs s1 x j = strs s x j) ->
      (strs s1 (hx v) (hsrc v) = Some t1 \/ strs s1 (hx v) (hsrc v) = Some (cancel_read t1)) -> idle_inv s1).
    { intros v t1 E P T s1 Hs K T1. apply (idle_keep s); [exact J|]. intros x j t' T' B Q. left.
      assert (Qs : quiet s x j).
      { intros g w G X Y. destruct (Nat.eq_dec g h) as [->|N].
        - replace w with v by congruence. now rewrite P.
        - apply (Q g w); auto. rewrite Hs. destruct (Nat.eqb_spec g h); [congruence|exact G]. }
      assert (Os : opening s1 x j -> opening s x j).
      { intros O g w G X Y. destruct (Nat.eq_dec g h) as [->|N].
        - congruence.
        - apply (O g w); auto. rewrite Hs. destruct (Nat.eqb_spec g h); [congruence|exact G]. }
      assert (D : (x, j) = (hx v, hsrc v) \/ (x, j) <> (hx v, hsrc v)).
      { destruct (side_eqb_spec x (hx v)), (Nat.eq_dec j (hsrc v)); subst; auto; right; congruence. }
      destruct D as [D|D].
      - injection D as -> ->.
        assert (NO : opening s1 (hx v) (hsrc v) -> False).
        { intro O. assert (X := O h (set_hp v HFailed)). rewrite Hs, Nat.eqb_refl in X. specialize (X eq_refl eq_refl eq_refl).
          discriminate. }
        exists t1. split; [exact T|]. split.
        { destruct T1 as [T1|T1]; rewrite T1 in T'; injection T' as <-; exact B. }
        split; [exact Qs|]. split; [exact Os|]. split; [|intro O; exfalso; auto].
        destruct T1 as [T1|T1]; rewrite T1 in T'; injection T' as <-; auto.
      - rewrite K in T' by exact D. exists t'. auto 10. }
    cbn [step] in H. destruct (hs s h) as [v|] eqn:E; [|discriminate]. destruct (hp v) eqn:P; try discriminate.
    destruct (is_gone s (other (hx v)) || is_gone s CL); [|discriminate].
    destruct (src_ok s I _ _ E) as (t1 & T1 & _). rewrite T1 in H.
    destruct (gone s (other (hx v))) as [[|]|]; injection H as <-;
      (eapply (G0 v t1); [reflexivity|exact P|exact T1|reflexivity| |]); try (intros; reflexivity); try (left; exact T1).
    + intros x j N. etransitivity; [apply set_str_other; exact N|reflexivity].
    + right. apply str_eq.
  - inv_step H. subst. specialize (SM eq_refl). eapply (work_idle s _ h h0 d p2 p3 _ _); [exact J|exact I|exact Heqo|exact Heqo0|reflexivity| |exact (same_back _ _ SM)].
    intros x j A B. cbn [strs set_h]. apply set_str_other. now rewrite pair_eta.
  - inv_step H. subst. specialize (SM eq_refl). destruct (cwd d).
    + eapply (work_idle s _ h h0 d p2 p3 _ (Finished false)); [exact J|exact I|exact Heqo|exact Heqo0| | |exact (same_back _ _ SM)].
      * rewrite close_two_hs. reflexivity.
      * intros x j A B. rewrite close_two_other; auto.
    + eapply (work_idle s _ h h0 d p2 p3 _ CopyDone); [exact J|exact I|exact Heqo|exact Heqo0|reflexivity| |exact (same_back _ _ SM)]. reflexivity.
  - inv_step H. subst. specialize (SM eq_refl).
    eapply (work_idle s _ h h0 d p2 p3 _ (Finished true)); [exact J|exact I|exact Heqo|exact Heqo0| | |exact (same_back _ _ SM)].
    + rewrite close_two_hs. reflexivity.
    + intros x j A B. rewrite close_two_other; auto.
  - inv_step H. subst. specialize (SM eq_refl). eapply (work_idle s _ h h0 d p2 p3 _ (Copying [])); [exact J|exact I|exact Heqo|exact Heqo0|reflexivity| |exact (same_back _ _ SM)].
    intros x j A B. cbn [strs set_h]. apply set_str_other. now rewrite pair_eta.
  - inv_step H. subst. specialize (SM eq_refl).
    eapply (work_idle s _ h h0 d p2 p3 _ (Finished true)); [exact J|exact I|exact Heqo|exact Heqo0| | |exact (same_back _ _ SM)].
    + rewrite close_two_hs. cbn. destruct (wfin s0 || negb (writable s0)); reflexivity.
    + intros x j A B. rewrite close_two_other by auto. cbn [strs set_h].
      destruct (wfin s0 || negb (writable s0)); [reflexivity|]. apply set_str_other. now rewrite pair_eta.
  - inv_step H; subst; specialize (SM eq_refl).
    + eapply (work_idle s _ h h0 d p2 p3 _ (Finished true)); [exact J|exact I|exact Heqo|exact Heqo0| | |exact (same_back _ _ SM)].
      * rewrite close_two_hs. reflexivity.
      * intros x j A B. rewrite close_two_other; auto.
    + eapply (work_idle s _ h h0 d p2 p3 _ WriteClosed); [exact J|exact I|exact Heqo|exact Heqo0|reflexivity| |exact (same_back _ _ SM)].
      intros x j A B. cbn [strs set_h]. apply set_str_other. now rewrite pair_eta.
  - inv_step H. subst. specialize (SM eq_refl). eapply (work_idle s _ h h0 d p2 p3 _ (Finished false)); [exact J|exact I|exact Heqo|exact Heqo0|reflexivity| |exact (same_back _ _ SM)].
    intros x j A B. cbn [strs set_h]. rewrite !set_str_other; auto; now rewrite pair_eta.
  - inv_step H. exact J.
Qed.

Lemma run_all cwd tr : forall s s', shape_inv s -> idle_inv s -> data_inv cwd s -> run cwd s tr = Some s' ->
  shape_inv s' /\ idle_inv s' /\ data_inv cwd s'.
Proof.
  induction tr as [|e tr IH]; cbn; intros s s' I J D H; [injection H as <-; auto|].
  destruct (step cwd s e) as [s1|] eqn:E; [|discriminate].
  apply (IH s1); eauto using step_shape, step_idle, step_data.
Qed.

Lemma reach_all cwd dg tr s : run cwd (init dg) tr = Some s -> shape_inv s /\ idle_inv s /\ data_inv cwd s.
Proof.
  apply run_all; [apply init_shape| |].
  - intros x i t E. discriminate.
  - intros g t u f b E. discriminate.
Qed.
