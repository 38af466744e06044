(** Key rotation: proofs for TokenModel.rotate and TokenModel.pick. *)
From Verif Require Import Base TokenModel TokenSpec.
Open Scope Z_scope.

Definition rot_step (tpm : bool) : list key * nat -> Z -> list key * nat :=
  fun '(ks, id) t => (rotate tpm id t ks, (id + 3)%nat).

Lemma keys_after_snoc tpm ts t :
  exists id, keys_after tpm (ts ++ [t]) = rotate tpm id t (keys_after tpm ts).
Proof.
  unfold keys_after. rewrite fold_left_app. cbn [fold_left].
  destruct (fold_left _ ts ([], O)) as [ks id]. exists id. reflexivity.
Qed.

(** ** Identifiers are unique *)
Definition ids_ok (st : list key * nat) : Prop :=
  NoDup (map kid (fst st)) /\ Forall (fun k => (kid k < snd st)%nat) (fst st).

Lemma batch_ids tpm id now : NoDup (map kid (batch tpm id now)) /\
  Forall (fun k => (id <= kid k < id + 3)%nat) (batch tpm id now).
Proof.
  unfold batch. destruct tpm; cbn; split; repeat constructor; cbn; try lia; intuition; try lia.
Qed.

Lemma NoDup_app_disj {A : Type} (l1 l2 : list A) :
  NoDup l1 -> NoDup l2 -> (forall x, In x l1 -> In x l2 -> False) -> NoDup (l1 ++ l2).
Proof.
  induction l1 as [|a l1 IH]; cbn; intros H1 H2 D; [exact H2|].
  inversion H1; subst. constructor.
  - rewrite in_app_iff. intros [H|H]; [auto|]. exact (D a (or_introl eq_refl) H).
  - apply IH; auto. intros x Hx. apply D. right. exact Hx.
Qed.

Lemma rotate_shape tpm id now ks :
  exists ks1, (ks1 = ks /\ ks <> [] \/ (ks = [] /\ ks1 = batch tpm id now) \/ ks1 = ks ++ batch tpm id now) /\
    (rotate tpm id now ks = ks1 \/ exists k, ks1 = k :: rotate tpm id now ks /\ created k + 7 * day < now).
Proof.
  unfold rotate, day. set (ks0 := match ks with [] => batch tpm id now | _ => ks end).
  set (ks1 := match rev ks0 with [] => ks0 | newest :: _ => _ end).
  exists ks1. split.
  - unfold ks1. destruct ks as [|k ks].
    + right. left. split; [reflexivity|]. unfold ks0. unfold batch. destruct tpm; cbn -[Z.mul];
      replace (now + 24 * hour <? now) with false by (symmetry; apply Z.ltb_ge; unfold hour; lia); reflexivity.
    + cbv zeta in ks0. subst ks0. destruct (rev (k :: ks)) as [|newest r]; [left; split; [reflexivity|discriminate]|].
      destruct (_ <? _); [right; right; reflexivity|left; split; [reflexivity|discriminate]].
  - destruct ks1 as [|k rest]; [left; reflexivity|]. destruct (created k + 7 * 24 * hour <? now) eqn:E; [|left; reflexivity].
    right. exists k. split; [reflexivity|]. apply Z.ltb_lt in E. lia.
Qed.

Lemma ids_ok_step tpm st t : ids_ok st -> ids_ok (rot_step tpm st t).
Proof.
  destruct st as [ks id]. intros [Hn Hf]. cbn [rot_step]. cbn in Hn, Hf.
  destruct (rotate_shape tpm id t ks) as (ks1 & H1 & H2).
  assert (ids_ok (ks1, (id + 3)%nat)) as [Hn1 Hf1].
  { destruct (batch_ids tpm id t) as [Bn Bf].
    assert (Hf' : Forall (fun k => (kid k < id + 3)%nat) ks) by (eapply Forall_impl; [|exact Hf]; cbn; intros; lia).
    assert (Bf' : Forall (fun k => (kid k < id + 3)%nat) (batch tpm id t)) by (eapply Forall_impl; [|exact Bf]; cbn; intros; lia).
    destruct H1 as [[-> _]|[[_ ->]| ->]]; split; cbn; auto.
    - rewrite map_app. apply NoDup_app_disj; auto. intros x Hx Hb.
      apply in_map_iff in Hx, Hb. destruct Hx as (k & <- & Hk), Hb as (k' & E & Hk').
      rewrite Forall_forall in Hf, Bf. specialize (Hf _ Hk). specialize (Bf _ Hk'). lia.
    - apply Forall_app. auto. }
  destruct H2 as [->|(k & E & _)]; [split; auto|]. cbn in Hn1, Hf1. rewrite E in Hn1, Hf1. cbn in Hn1.
  inversion Hn1. inversion Hf1. subst. split; auto.
Qed.

Lemma fold_ids tpm ts st : ids_ok st -> ids_ok (fold_left (fun '(ks, id) t => (rotate tpm id t ks, (id + 3)%nat)) ts st).
Proof.
  revert st. induction ts as [|t ts IH]; intros st H; [exact H|]. cbn [fold_left]. apply IH.
  exact (ids_ok_step tpm st t H).
Qed.

Lemma keys_unique tpm ts : NoDup (map kid (keys_after tpm ts)).
Proof. unfold keys_after. apply (fold_ids tpm ts ([], O)). split; cbn; constructor. Qed.

Lemma get_key_In ks k : NoDup (map kid ks) -> In k ks -> get_key ks (kid k) = Some k.
Proof.
  induction ks as [|k' ks IH]; intros Hn Hin; [destruct Hin|]. cbn in Hn. inversion Hn; subst. cbn.
  destruct Hin as [->|Hin]; [rewrite Nat.eqb_refl; reflexivity|].
  destruct (Nat.eqb (kid k') (kid k)) eqn:E; [|auto]. apply Nat.eqb_eq in E. exfalso. apply H1. rewrite E. apply in_map. exact Hin.
Qed.

(** ** A key is kept until it is older than seven days *)
Lemma rotate_keeps tpm id now ks k : In k ks -> now <= created k + 7 * day -> In k (rotate tpm id now ks).
Proof.
  intros Hin Ha. destruct (rotate_shape tpm id now ks) as (ks1 & H1 & H2).
  assert (In k ks1) by (destruct H1 as [[-> _]|[[-> ->]| ->]]; [auto|destruct Hin|apply in_or_app; auto]).
  destruct H2 as [->|(k' & -> & Hk')]; [auto|]. destruct H as [->|H]; [lia|exact H].
Qed.

Lemma keys_keep tpm ts ts2 k : In k (keys_after tpm ts) -> Forall (fun t => t <= created k + 7 * day) ts2 ->
  In k (keys_after tpm (ts ++ ts2)).
Proof.
  revert ts. induction ts2 as [|t ts2 IH]; intros ts Hin Hf; [rewrite app_nil_r; exact Hin|].
  inversion Hf; subst. replace (ts ++ t :: ts2) with ((ts ++ [t]) ++ ts2) by (rewrite <- app_assoc; reflexivity).
  apply IH; auto. destruct (keys_after_snoc tpm ts t) as [id ->]. apply rotate_keeps; auto.
Qed.

(** ** The keys of one type *)
Definition of_type (t : ktype) (k : key) : bool := ktype_eqb (ktyp k) t.
Definition supported (tpm : bool) (t : ktype) : Prop := tpm = true -> t <> ED.

Lemma batch_type tpm id now t : supported tpm t -> exists k, filter (of_type t) (batch tpm id now) = [k] /\ created k = now /\ ktyp k = t.
Proof. intro H. unfold batch. destruct t, tpm; cbn; eauto. exfalso. apply H; reflexivity. Qed.

Lemma pick_filter now t ks tk : pick now t ks tk = pick now t (filter (of_type t) ks) tk.
Proof.
  revert tk. induction ks as [|k ks IH]; intro tk; [reflexivity|]. cbn [pick filter]. unfold of_type at 1.
  destruct (ktype_eqb (ktyp k) t) eqn:E; cbn [negb]; [|apply IH]. cbn [pick]. rewrite E. cbn [negb]. apply IH.
Qed.

(** Sorted with gaps at most g; the last element is c. *)
Fixpoint chain (g : Z) (c : Z) (ks : list key) : Prop :=
  match ks with
  | [] => False
  | [k] => created k = c
  | k :: (k' :: _) as rest => created k <= created k' <= created k + g /\ chain g c rest
  end.

Lemma chain_snoc g c ks k : chain g c ks -> c <= created k <= c + g -> chain g (created k) (ks ++ [k]).
Proof.
  induction ks as [|a ks IH]; [intros []|]. destruct ks as [|b ks]; intros H Hk.
  - cbn in H |- *. subst. auto.
  - destruct H as [H1 H2]. cbn [app chain]. split; [exact H1|]. apply IH; auto.
Qed.
Lemma chain_le g c ks : chain g c ks -> Forall (fun k => created k <= c) ks.
Proof.
  induction ks as [|a ks IH]; [intros []|]. destruct ks as [|b ks]; intro H.
  - cbn in H. subst. repeat constructor. lia.
  - destruct H as [H1 H2]. specialize (IH H2). constructor; auto. inversion IH; subst. lia.
Qed.
Lemma chain_sorted g c k ks : chain g c (k :: ks) -> Forall (fun k' => created k <= created k') ks.
Proof.
  revert k. induction ks as [|b ks IH]; intros k H; [constructor|]. destruct H as [H1 H2]. constructor; [lia|].
  specialize (IH b H2). eapply Forall_impl; [|exact IH]. cbn. intros. lia.
Qed.
Lemma chain_tail g c k ks : chain g c (k :: ks) -> ks <> [] -> chain g c ks.
Proof. destruct ks; [congruence|]. intros [_ H] _. exact H. Qed.

(** Keys too young are never picked when there already is one. *)
Lemma pick_young now t ks tk : Forall (fun k => now <= created k + 2 * hour) ks -> pick now t ks (Some tk) = Some tk.
Proof.
  induction ks as [|k ks IH]; intro H; [reflexivity|]. inversion H; subst. cbn [pick].
  replace (created k + 2 * hour <? now) with false by (symmetry; apply Z.ltb_ge; auto).
  destruct (negb _); auto.
Qed.

Lemma pick_age now t g c k0 ks : 0 <= g -> chain g c (k0 :: ks) -> ktyp k0 = t -> Forall (fun k => ktyp k = t) ks ->
  exists k, pick now t ks (Some k0) = Some k /\ In k (k0 :: ks) /\ Z.min c (now - 2 * hour - g) <= created k.
Proof.
  intro Hg. revert k0. induction ks as [|k ks IH]; intros k0 Hc Ht Hf.
  - exists k0. cbn in Hc. repeat split; [left; reflexivity|]. lia.
  - inversion Hf; subst. cbn [pick]. replace (ktype_eqb (ktyp k) (ktyp k0)) with true by (rewrite H1; destruct (ktyp k0); reflexivity).
    cbn [negb]. destruct (created k + 2 * hour <? now) eqn:E.
    + destruct (IH k) as (k1 & A & B & C); [apply Hc|exact H1|exact H2|]. exists k1. repeat split; auto. right. exact B.
    + apply Z.ltb_ge in E. exists k0. split; [|split; [left; reflexivity|]].
      * apply pick_young. apply chain_tail, chain_sorted in Hc; [|discriminate]. eapply Forall_impl; [|exact Hc]. cbn beta. intros a Ha. lia.
      * destruct Hc as [Hc _]. lia.
Qed.

(** ** The invariant of a history of rotations *)
(** After a rotation at r the keys end with a complete batch, created at c, at most
    24 hours before r; the keys of each type are in order and not far apart. *)
Definition inv (tpm : bool) (g r : Z) (ks : list key) : Prop :=
  exists l id c, ks = l ++ batch tpm id c /\ c <= r <= c + 24 * hour /\
    forall t, supported tpm t -> chain (24 * hour + g) c (filter (of_type t) ks).

Lemma rev_batch tpm id c : exists k r, rev (batch tpm id c) = k :: r /\ created k = c.
Proof. unfold batch. destruct tpm; cbn; eauto. Qed.

Lemma chain_drop g c t k ks : chain g c (filter (of_type t) (k :: ks)) -> filter (of_type t) ks <> [] -> chain g c (filter (of_type t) ks).
Proof. cbn [filter]. destruct (of_type t k); [|auto]. intros H Hn. exact (chain_tail _ _ _ _ H Hn). Qed.

Lemma filter_app_l {A : Type} (f : A -> bool) l1 l2 : filter f (l1 ++ l2) = filter f l1 ++ filter f l2.
Proof. induction l1 as [|a l IH]; cbn; [reflexivity|]. destruct (f a); cbn; congruence. Qed.

Lemma inv_rotate tpm g r r' id ks : inv tpm g r ks -> r <= r' <= r + g -> inv tpm g r' (rotate tpm id r' ks).
Proof.
  intros (l & id0 & c & -> & Hr & Hc) Hr'.
  assert (Hne : l ++ batch tpm id0 c <> []) by (unfold batch; intro E; apply app_eq_nil in E; destruct E; discriminate).
  assert (Hrot : exists l2 id2 c2, 
    rotate tpm id r' (l ++ batch tpm id0 c) =
      (match l2 ++ batch tpm id2 c2 with k :: rest => if created k + 7 * 24 * hour <? r' then rest else l2 ++ batch tpm id2 c2 | [] => [] end) /\
    c2 <= r' <= c2 + 24 * hour /\ forall t, supported tpm t -> chain (24 * hour + g) c2 (filter (of_type t) (l2 ++ batch tpm id2 c2))).
  { unfold rotate. replace (match l ++ batch tpm id0 c with [] => batch tpm id r' | _ :: _ => l ++ batch tpm id0 c end) with (l ++ batch tpm id0 c)
      by (destruct (l ++ batch tpm id0 c); [congruence|reflexivity]).
    rewrite rev_app_distr. destruct (rev_batch tpm id0 c) as (kn & rr & E & Ec). rewrite E. cbn [app]. rewrite Ec.
    destruct (c + 24 * hour <? r') eqn:El.
    - apply Z.ltb_lt in El. exists (l ++ batch tpm id0 c), id, r'. split; [reflexivity|]. split; [unfold hour; lia|].
      intros t Ht. rewrite filter_app_l. destruct (batch_type tpm id r' t Ht) as (k & -> & Ek & _).
      rewrite <- Ek. apply (chain_snoc _ c); [apply Hc; exact Ht|]. rewrite Ek. lia.
    - apply Z.ltb_ge in El. exists l, id0, c. split; [reflexivity|]. split; [lia|]. exact Hc. }
  destruct Hrot as (l2 & id2 & c2 & -> & Hr2 & Hc2).
  destruct l2 as [|k l2].
  - exists [], id2, c2. unfold batch in *. cbn [app] in *. 
    replace (created _ + 7 * 24 * hour <? r') with false by (symmetry; apply Z.ltb_ge; cbn [created]; unfold hour in *; lia).
    auto.
  - cbn [app]. destruct (_ <? _).
    + exists l2, id2, c2. repeat split; try lia. intros t Ht. specialize (Hc2 t Ht). cbn [app] in Hc2.
      apply chain_drop in Hc2; [exact Hc2|]. rewrite filter_app_l. destruct (batch_type tpm id2 c2 t Ht) as (k' & -> & _).
      destruct (filter _ l2); discriminate.
    + exists (k :: l2), id2, c2. repeat split; try lia. exact Hc2.
Qed.

Lemma keys_first tpm t : keys_after tpm [t] = batch tpm O t.
Proof.
  assert (A : t + 24 * hour <? t = false) by (apply Z.ltb_ge; unfold hour; lia).
  assert (B : t + 7 * 24 * hour <? t = false) by (apply Z.ltb_ge; unfold hour; lia).
  unfold keys_after. cbn [fold_left fst]. unfold rotate, batch. destruct tpm; cbn [rev app created]; rewrite A; cbn [created]; rewrite B; reflexivity.
Qed.

Lemma inv_first tpm g t : inv tpm g t (keys_after tpm [t]).
Proof.
  rewrite keys_first. exists [], O, t. split; [reflexivity|]. split; [unfold hour; lia|].
  intros ty Hty. destruct (batch_type tpm O t ty Hty) as (k & E & Ec & _). rewrite E. exact Ec.
Qed.

Lemma paced_app d t0 ts t : paced d t0 (ts ++ [t]) -> paced d t0 ts /\ last (t0 :: ts) t0 <= t <= last (t0 :: ts) t0 + d.
Proof.
  revert t0. induction ts as [|a ts IH]; intros t0 H; [cbn in *; tauto|]. destruct H as [H1 H2]. destruct (IH a H2) as [A B].
  split; [split; auto|]. replace (last (t0 :: a :: ts) t0) with (last (a :: ts) a); [exact B|].
  clear. change (last (t0 :: a :: ts) t0) with (last (a :: ts) t0). 
  revert a. induction ts as [|b ts IH]; intro a; [reflexivity|]. change (last (b :: ts) a = last (b :: ts) t0).
  clear IH. revert b. induction ts as [|x ts IH]; intro b; [reflexivity|]. exact (IH x).
Qed.

Lemma inv_history tpm d t0 ts : 0 <= d -> paced d t0 ts -> inv tpm d (last (t0 :: ts) t0) (keys_after tpm (t0 :: ts)).
Proof.
  intro Hd. induction ts as [|t ts IH] using rev_ind; intro H; [apply inv_first|].
  apply paced_app in H. destruct H as [H1 H2]. 
  destruct (keys_after_snoc tpm (t0 :: ts) t) as [id E]. change (t0 :: ts ++ [t]) with ((t0 :: ts) ++ [t]).
  rewrite E. replace (last ((t0 :: ts) ++ [t]) t0) with t by (rewrite last_last; reflexivity).
  apply inv_rotate with (last (t0 :: ts) t0); auto.
Qed.

(** The key that signs at a time is not too old. *)
Lemma signing_age tpm d r now ks t : 0 <= d -> inv tpm d r ks -> r <= now <= r + d -> supported tpm t ->
  exists k, pick now t ks None = Some k /\ In k ks /\ ktyp k = t /\ now - (26 * hour + d) <= created k /\
    (created k <= now).
Proof.
  intros Hd (l & id & c & E & Hr & Hc) Hnow Ht. specialize (Hc t Ht). rewrite pick_filter.
  assert (Hall : Forall (fun k => ktyp k = t /\ In k ks) (filter (of_type t) ks)).
  { apply Forall_forall. intros k Hk. apply filter_In in Hk. destruct Hk as [Hk1 Hk2]. split; [|exact Hk1].
    unfold of_type in Hk2. destruct (ktyp k), t; auto; discriminate. }
  destruct (filter (of_type t) ks) as [|k0 rest] eqn:Ef; [destruct Hc|].
  assert (Hle := chain_le _ _ _ Hc).
  pose proof (Forall_inv Hall) as [Ht0 Hin0]. pose proof (Forall_inv_tail Hall) as Hrest. cbn [pick].
  replace (ktype_eqb (ktyp k0) t) with true by (rewrite Ht0; destruct t; reflexivity). cbn [negb].
  destruct (pick_age now t (24 * hour + d) c k0 rest) as (k & A & B & C); auto.
  { unfold hour. lia. }
  { eapply Forall_impl; [|exact Hrest]. intros a [Ha _]. exact Ha. }
  exists k. rewrite Forall_forall in Hle, Hall. specialize (Hle k B). specialize (Hall k B). destruct Hall as [Ha Hb].
  repeat split; auto; unfold hour in *; lia.
Qed.

(** ** Every supported type always has a key *)
Lemma pick_some now t ks k : ks <> [] -> exists k', pick now t ks (Some k) = Some k'.
Proof.
  revert k. induction ks as [|a ks IH]; intros k H; [congruence|]. cbn [pick]. destruct ks as [|b ks].
  - cbn. destruct (negb _); [eauto|]. destruct (_ <? _); eauto.
  - destruct (negb _); [apply IH; discriminate|]. destruct (_ <? _); apply IH; discriminate.
Qed.

Lemma pick_exists now t ks k : In k ks -> ktyp k = t -> exists k', pick now t ks None = Some k'.
Proof.
  intros Hin Ht. rewrite pick_filter. assert (Hf : In k (filter (of_type t) ks)).
  { apply filter_In. split; auto. unfold of_type. rewrite Ht. destruct t; reflexivity. }
  assert (Hall : Forall (fun k => ktyp k = t) (filter (of_type t) ks)).
  { apply Forall_forall. intros a Ha. apply filter_In in Ha. destruct Ha as [_ Ha]. unfold of_type in Ha. destruct (ktyp a), t; auto; discriminate. }
  destruct (filter (of_type t) ks) as [|a rest]; [destruct Hf|]. cbn [pick]. pose proof (Forall_inv Hall) as H1. cbn beta in H1.
  replace (ktype_eqb (ktyp a) t) with true by (rewrite H1; destruct t; reflexivity). cbn [negb].
  destruct rest as [|b rest]; [cbn; eauto|]. apply pick_some. discriminate.
Qed.

(** The last batch is always complete, whatever the times. *)
Definition complete (tpm : bool) (ks : list key) : Prop := exists l id c, ks = l ++ batch tpm id c.
Lemma rotate_complete tpm id now ks : (ks = [] \/ complete tpm ks) -> complete tpm (rotate tpm id now ks).
Proof.
  intro H.
  assert (R : exists l id2 c2, rotate tpm id now ks =
      (match l ++ batch tpm id2 c2 with k :: rest => if created k + 7 * 24 * hour <? now then rest else l ++ batch tpm id2 c2 | [] => [] end) /\
      (l = [] -> now <= c2 + 24 * hour)).
  { unfold rotate. set (ks0 := match ks with [] => batch tpm id now | _ => ks end).
    assert (E : exists l id0 c, ks0 = l ++ batch tpm id0 c).
    { destruct H as [->|(l & id0 & c & ->)]; [exists [], id, now; reflexivity|]. exists l, id0, c. unfold ks0.
      destruct (l ++ batch tpm id0 c) eqn:E; [|reflexivity]. apply app_eq_nil in E. destruct E. discriminate. }
    destruct E as (l & id0 & c & ->). rewrite rev_app_distr. destruct (rev_batch tpm id0 c) as (kn & rr & E & Ec). rewrite E. cbn [app].
    destruct (created kn + 24 * hour <? now) eqn:El.
    - exists (l ++ batch tpm id0 c), id, now. split; [reflexivity|]. unfold hour. lia.
    - exists l, id0, c. split; [reflexivity|]. apply Z.ltb_ge in El. rewrite Ec in El. auto. }
  destruct R as (l & id2 & c2 & -> & Hl). destruct l as [|k l].
  - exists [], id2, c2. specialize (Hl eq_refl). unfold batch. cbn [app].
    replace (created _ + 7 * 24 * hour <? now) with false by (symmetry; apply Z.ltb_ge; cbn [created]; unfold hour in *; lia). reflexivity.
  - cbn [app]. destruct (_ <? _); [exists l, id2, c2|exists (k :: l), id2, c2]; reflexivity.
Qed.

Lemma history_complete tpm ts : ts <> [] -> complete tpm (keys_after tpm ts).
Proof.
  induction ts as [|t ts IH] using rev_ind; [congruence|]. intros _.
  destruct (keys_after_snoc tpm ts t) as [id ->]. apply rotate_complete.
  destruct ts as [|a ts]; [left; reflexivity|]. right. apply IH. discriminate.
Qed.

Lemma complete_has tpm ks t : complete tpm ks -> supported tpm t -> exists k, In k ks /\ ktyp k = t.
Proof.
  intros (l & id & c & ->) Ht. destruct (batch_type tpm id c t Ht) as (k & E & _ & Hk). exists k. split; [|exact Hk].
  assert (In k (filter (of_type t) (batch tpm id c))) by (rewrite E; left; reflexivity). apply filter_In in H. apply in_or_app. tauto.
Qed.

(** What pick returns. *)
Lemma pick_In now t ks tk k : pick now t ks tk = Some k -> tk = Some k \/ (In k ks /\ ktyp k = t).
Proof.
  revert tk. induction ks as [|a ks IH]; intros tk H; [left; exact H|]. cbn [pick] in H.
  destruct (ktype_eqb (ktyp a) t) eqn:E; cbn [negb] in H.
  - apply IH in H. destruct H as [H|[H H']]; [|right; split; [right; exact H|exact H']].
    assert (Ht : ktyp a = t) by (destruct (ktyp a), t; auto; discriminate).
    destruct tk as [k0|]; [|injection H as <-; right; split; [left; reflexivity|exact Ht]].
    destruct (_ <? _); [injection H as <-; right; split; [left; reflexivity|exact Ht]|left; exact H].
  - apply IH in H. destruct H as [H|[H H']]; [left; exact H|right; split; [right; exact H|exact H']].
Qed.

Lemma pick_fresh_only now t ks tk k : pick now t ks tk = Some k ->
  (tk = Some k) \/ created k + 2 * hour < now \/
  (tk = None /\ exists l1 l2, ks = l1 ++ k :: l2 /\ (forall k', In k' l1 -> ktyp k' <> t)).
Proof.
  revert tk. induction ks as [|a ks IH]; intros tk H; [left; exact H|]. cbn [pick] in H.
  destruct (ktype_eqb (ktyp a) t) eqn:E; cbn [negb] in H.
  - apply IH in H. destruct tk as [k0|].
    + destruct (created a + 2 * hour <? now) eqn:E2.
      * destruct H as [H|[H|[H _]]]; [|auto|discriminate]. injection H as <-. apply Z.ltb_lt in E2. auto.
      * destruct H as [H|[H|[H _]]]; auto. discriminate.
    + destruct H as [H|[H|[H _]]]; [|auto|discriminate]. injection H as <-. right. right. split; [reflexivity|].
      exists [], ks. split; [reflexivity|]. intros k' [].
  - apply IH in H. destruct H as [H|[H|(H & l1 & l2 & -> & Hl)]]; auto. right. right. split; [exact H|].
    exists (a :: l1), l2. split; [reflexivity|]. intros k' [->|Hk']; [|auto]. intro Ht. rewrite Ht in E. destruct t; discriminate.
Qed.

(** ** The number of keys *)
Definition size (tpm : bool) : nat := if tpm then 2 else 3.
Lemma batch_times tpm id c : map created (batch tpm id c) = repeat c (size tpm).
Proof. unfold batch, size. destruct tpm; reflexivity. Qed.

(** Batches created more than a day apart, the last one at time c. *)
Fixpoint spaced (c : Z) (cs : list Z) : Prop :=
  match cs with
  | [] => True
  | c' :: cs' => c + 24 * hour < c' /\ spaced c' cs'
  end.

Definition final (c : Z) (cs : list Z) : Z := last cs c.
Lemma final_cons c c' cs : final c (c' :: cs) = final c' cs.
Proof.
  unfold final. revert c c'. induction cs as [|a cs IH]; intros c c'; [reflexivity|]. change (last (a :: cs) c = last (a :: cs) c').
  rewrite IH. symmetry. rewrite IH. reflexivity.
Qed.
Lemma spaced_final c cs : spaced c cs -> c + Z.of_nat (List.length cs) * (24 * hour) <= final c cs.
Proof.
  revert c. induction cs as [|c' cs IH]; intros c H; [cbn; lia|]. destruct H as [H1 H2]. rewrite final_cons. specialize (IH c' H2).
  cbn [List.length]. lia.
Qed.
Lemma spaced_snoc c cs x : spaced c cs -> final c cs + 24 * hour < x -> spaced c (cs ++ [x]).
Proof.
  revert c. induction cs as [|c' cs IH]; intros c H Hx; [cbn in *; auto|]. destruct H as [H1 H2]. rewrite final_cons in Hx. split; auto.
Qed.

Definition layout (n j : nat) (c : Z) (cs : list Z) : list Z := repeat c j ++ List.concat (map (fun c => repeat c n) cs).

Definition bounded_inv (tpm : bool) (g r : Z) (ks : list key) : Prop :=
  exists j c cs, (1 <= j <= size tpm)%nat /\ map created ks = layout (size tpm) j c cs /\ spaced c cs /\
    final c cs <= r <= final c cs + 24 * hour /\
    r - c <= 7 * day + Z.of_nat (size tpm - j) * g.

Lemma repeat_snoc {A : Type} (x : A) n : repeat x n ++ [x] = x :: repeat x n.
Proof. induction n; cbn; congruence. Qed.
Lemma layout_last n j c cs : (1 <= j)%nat -> (1 <= n)%nat -> exists l, layout n j c cs = l ++ [final c cs].
Proof.
  intros Hj Hn. unfold layout. destruct cs as [|c' cs] using rev_ind.
  - cbn. rewrite app_nil_r. destruct j as [|j]; [lia|]. exists (repeat c j). cbn [final last]. cbn [repeat]. rewrite repeat_snoc. reflexivity.
  - unfold final. rewrite last_last, map_app, concat_app. cbn [map List.concat]. rewrite app_nil_r.
    destruct n as [|n]; [lia|]. exists (repeat c j ++ List.concat (map (fun c => repeat c (S n)) cs) ++ repeat c' n).
    rewrite <- !app_assoc. rewrite repeat_snoc. reflexivity.
Qed.

Lemma rotate_times tpm id now ks l x : ks <> [] -> map created ks = l ++ [x] ->
  map created (rotate tpm id now ks) =
  let times := if x + 24 * hour <? now then map created ks ++ repeat now (size tpm) else map created ks in
  match times with t :: rest => if t + 7 * 24 * hour <? now then rest else times | [] => [] end.
Proof.
  intros Hne Hl. unfold rotate. cbv zeta. replace (match ks with [] => batch tpm id now | _ => ks end) with ks by (destruct ks; [congruence|reflexivity]).
  assert (E : exists kn r, rev ks = kn :: r /\ created kn = x).
  { destruct (rev ks) as [|kn r] eqn:E. { apply (f_equal (@rev key)) in E. rewrite rev_involutive in E. contradiction. }
    exists kn, r. split; [reflexivity|]. apply (f_equal (@rev key)) in E. rewrite rev_involutive in E. subst ks. cbn [rev] in Hl.
    rewrite map_app in Hl. cbn in Hl. apply app_inj_tail in Hl. tauto. }
  destruct E as (kn & r & -> & ->). destruct (x + 24 * hour <? now).
  - rewrite <- (batch_times tpm id now), <- map_app. destruct (ks ++ batch tpm id now) as [|k rest]; [reflexivity|]. cbn [map]. destruct (_ <? _); reflexivity.
  - destruct ks as [|k rest]; [reflexivity|]. cbn [map]. destruct (_ <? _); reflexivity.
Qed.

Lemma bounded_rotate tpm g r r' id ks : 0 <= g <= 8 * hour -> bounded_inv tpm g r ks -> r <= r' <= r + g ->
  bounded_inv tpm g r' (rotate tpm id r' ks).
Proof.
  intros Hg (j & c & cs & Hj & Hm & Hs & Hf & Ha) Hr.
  assert (Hn : (1 <= size tpm <= 3)%nat) by (destruct tpm; cbn; lia).
  destruct (layout_last (size tpm) j c cs) as [l Hl]; [lia|lia|]. rewrite <- Hm in Hl.
  assert (Hne : ks <> []) by (intros ->; destruct l; discriminate).
  assert (HT := rotate_times tpm id r' ks l _ Hne Hl). cbv zeta in HT.
  assert (HT2 : exists cs2, (if final c cs + 24 * hour <? r' then map created ks ++ repeat r' (size tpm) else map created ks) = layout (size tpm) j c cs2 /\
     spaced c cs2 /\ final c cs2 <= r' <= final c cs2 + 24 * hour).
  { destruct (_ <? _) eqn:E.
    - apply Z.ltb_lt in E. exists (cs ++ [r']). split; [|split].
      + rewrite Hm. unfold layout. rewrite map_app, concat_app. cbn [map List.concat]. rewrite app_nil_r, app_assoc. reflexivity.
      + apply spaced_snoc; auto.
      + unfold final. rewrite last_last. unfold hour. lia.
    - apply Z.ltb_ge in E. exists cs. repeat split; auto; lia. }
  destruct HT2 as (cs2 & E2 & Hs2 & Hf2). rewrite E2 in HT.
  destruct j as [|j]; [lia|]. change (layout (size tpm) (S j) c cs2) with (c :: layout (size tpm) j c cs2) in HT.
  cbv iota in HT. destruct (c + 7 * 24 * hour <? r') eqn:E; [apply Z.ltb_lt in E|apply Z.ltb_ge in E].
  - destruct j as [|j].
    + destruct cs2 as [|c2 cs2]. { exfalso. unfold final in Hf2. cbn in Hf2. unfold hour in *. lia. }
      exists (size tpm), c2, cs2. rewrite final_cons in Hf2. destruct Hs2 as [Hs2 Hs3].
      repeat split; try lia; auto.
      replace (size tpm - size tpm)%nat with O by lia. change (Z.of_nat 0) with 0. 
      assert (Z.of_nat (size tpm - 1) * g <= 2 * g) by (apply Z.mul_le_mono_nonneg_r; lia).
      unfold day, hour in *. lia.
    + exists (S j), c, cs2. repeat split; try lia; auto. 
      replace (Z.of_nat (size tpm - S j)) with (Z.of_nat (size tpm - S (S j)) + 1) by lia. lia.
  - exists (S j), c, cs2. repeat split; try lia; auto. 
    assert (0 <= Z.of_nat (size tpm - S j) * g) by (apply Z.mul_nonneg_nonneg; lia). unfold day. lia.
Qed.

Lemma bounded_history tpm g t0 ts : 0 <= g <= 8 * hour -> paced g t0 ts ->
  bounded_inv tpm g (last (t0 :: ts) t0) (keys_after tpm (t0 :: ts)).
Proof.
  intro Hg. induction ts as [|t ts IH] using rev_ind; intro H.
  - exists (size tpm), t0, []. unfold layout, final. cbn [map List.concat last]. rewrite app_nil_r. split; [destruct tpm; cbn; lia|].
    split; [|split; [exact I|]].
    + rewrite keys_first. apply batch_times.
    + split; [unfold hour; lia|]. replace (size tpm - size tpm)%nat with O by lia. unfold day, hour. lia.
  - apply paced_app in H. destruct H as [H1 H2].
    destruct (keys_after_snoc tpm (t0 :: ts) t) as [id E]. change (t0 :: ts ++ [t]) with ((t0 :: ts) ++ [t]).
    rewrite E. replace (last ((t0 :: ts) ++ [t]) t0) with t by (rewrite last_last; reflexivity).
    apply bounded_rotate with (last (t0 :: ts) t0); auto.
Qed.

Lemma layout_length n j c cs : List.length (layout n j c cs) = (j + n * List.length cs)%nat.
Proof.
  unfold layout. rewrite app_length, repeat_length. f_equal. induction cs as [|a cs IH]; cbn [map List.concat List.length]; [lia|].
  rewrite app_length, repeat_length, IH. lia.
Qed.

Lemma bounded_length tpm g t0 ts : 0 <= g <= 8 * hour -> paced g t0 ts ->
  (List.length (keys_after tpm (t0 :: ts)) <= 8 * size tpm)%nat.
Proof.
  intros Hg H. destruct (bounded_history tpm g t0 ts Hg H) as (j & c & cs & Hj & Hm & Hs & Hf & Ha).
  apply (f_equal (@List.length Z)) in Hm. rewrite map_length, layout_length in Hm. rewrite Hm.
  apply spaced_final in Hs.
  assert (Hn : (1 <= size tpm <= 3)%nat) by (destruct tpm; cbn; lia).
  assert (Z.of_nat (size tpm - j) * g <= 2 * g) by (apply Z.mul_le_mono_nonneg_r; lia).
  assert (List.length cs <= 7)%nat by (unfold day, hour in *; lia).
  nia.
Qed.

(** When a rotation runs more than 24 hours after the newest key, two or more keys
    are added and at most one is removed. *)
Lemma rotate_grows tpm id now ks l x : ks <> [] -> map created ks = l ++ [x] -> x + 24 * hour < now ->
  (List.length ks + size tpm <= S (List.length (rotate tpm id now ks)))%nat /\ exists l', map created (rotate tpm id now ks) = l' ++ [now].
Proof.
  intros Hne Hl Hx. assert (HT := rotate_times tpm id now ks l x Hne Hl). cbv zeta in HT.
  replace (x + 24 * hour <? now) with true in HT by (symmetry; apply Z.ltb_lt; exact Hx).
  rewrite <- (map_length created (rotate tpm id now ks)).
  destruct ks as [|k ks]; [congruence|]. cbn [map app] in HT. 
  assert (Hr : exists l', repeat now (size tpm) = l' ++ [now]) by (destruct tpm; [exists [now]|exists [now; now]]; reflexivity).
  destruct Hr as [l' Hr].
  rewrite HT. cbv iota. destruct (_ <? _).
  - split; [cbn [List.length]; rewrite app_length, map_length, repeat_length; lia|]. rewrite Hr. exists (map created ks ++ l'). rewrite <- app_assoc. reflexivity.
  - split; [cbn [List.length]; rewrite app_length, map_length, repeat_length; lia|]. rewrite Hr. exists (created k :: map created ks ++ l'). cbn. rewrite <- app_assoc. reflexivity.
Qed.

Definition restarts (n : nat) : list Z := map (fun i => Z.of_nat i * (25 * hour)) (seq 0 n).

Lemma restarts_grow tpm n : (n <= List.length (keys_after tpm (restarts (S n))))%nat /\
  (exists l, map created (keys_after tpm (restarts (S n))) = l ++ [Z.of_nat n * (25 * hour)]).
Proof.
  induction n as [|n [IH [l Hl]]].
  - destruct tpm; cbn; (split; [lia|]); [exists [0]|exists [0; 0]]; reflexivity.
  - unfold restarts at 1 2. rewrite seq_S, map_app. cbn [map]. fold (restarts (S n)).
    destruct (keys_after_snoc tpm (restarts (S n)) (Z.of_nat (0 + S n) * (25 * hour))) as [id E]. rewrite E.
    assert (Hne : keys_after tpm (restarts (S n)) <> []) by (intro E2; rewrite E2 in Hl; destruct l; discriminate).
    destruct (rotate_grows tpm id (Z.of_nat (0 + S n) * (25 * hour)) _ l _ Hne Hl) as [A [l' B]].
    + unfold hour. lia.
    + split; [|exists l'; exact B]. assert (2 <= size tpm)%nat by (destruct tpm; cbn; lia). lia.
Qed.

Lemma restarts_paced n : match restarts (S n) with t0 :: ts => paced (25 * hour) t0 ts | [] => False end.
Proof.
  unfold restarts. cbn [seq map]. generalize O at 1 2. revert n.
  induction n as [|n IH]; intro m; cbn [seq map paced]; [exact I|]. split; [unfold hour; lia|]. apply IH.
Qed.

(** ** Tokens stay verifiable *)
Lemma token_lives tpm t0 ts sign ts2 now t c tok :
  supported tpm t -> paced (5 * day) t0 (ts ++ [sign]) ->
  Forall (fun x => x <= now) ts2 -> now < sign + 20 * hour ->
  create_token (keys_after tpm (t0 :: ts)) sign t c = Some tok ->
  exp_ok c now = true -> nbf_ok c now = true ->
  validate (keys_after tpm ((t0 :: ts) ++ ts2)) now tok = Some c.
Proof.
  intros Ht Hp H2 Hnow Hc He Hb. apply paced_app in Hp. destruct Hp as [Hp Hs].
  destruct (signing_age tpm (5 * day) (last (t0 :: ts) t0) sign (keys_after tpm (t0 :: ts)) t) as (k & A & B & C & D & _); auto.
  { unfold day, hour. lia. } { apply inv_history; auto. unfold day, hour. lia. }
  unfold create_token in Hc. rewrite A in Hc. injection Hc as <-.
  assert (Hk : In k (keys_after tpm ((t0 :: ts) ++ ts2))).
  { apply keys_keep; [exact B|]. eapply Forall_impl; [|exact H2]. cbn. intros x Hx. unfold day, hour in *. lia. }
  unfold validate. cbn [t_kid t_signer t_claims]. rewrite (get_key_In _ k (keys_unique _ _) Hk), Nat.eqb_refl, He, Hb.
  destruct (ktyp k); reflexivity.
Qed.
