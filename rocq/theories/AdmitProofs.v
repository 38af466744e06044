From Verif Require Import Base AdmitModel.

Lemma filter_len {A} f (l : list A) : List.length (filter f l) <= List.length l.
Proof. induction l as [|x l IH]; simpl; [lia|]. destruct (f x); simpl; lia. Qed.

(** [ok t]: for every admitted entry, it and the entries that were there before
    it are fewer than the limit. *)
Fixpoint ok (m : nat) (t : tracker) : Prop :=
  match t with
  | [] => True
  | x :: t' => (admitted x = true -> S (List.length t') < m) /\ ok m t'
  end.

Lemma ok_filter m f t : ok m t -> ok m (filter f t).
Proof.
  induction t as [|x t IH]; simpl; [auto|]. intros [H1 H2].
  destruct (f x); simpl; [|auto]. split; [|auto].
  intros Ha. specialize (H1 Ha). pose proof (filter_len f t). lia.
Qed.

Lemma step_ok m t e : ok m t -> ok m (step m t e).
Proof.
  intros H. destruct e as [id|id]; cbn [step].
  - cbn [ok admitted]. split; [|exact H]. intros Ha. apply negb_true_iff, Nat.leb_gt in Ha. exact Ha.
  - apply ok_filter. exact H.
Qed.

Lemma run_ok m evs : ok m (run m evs).
Proof.
  unfold run. assert (G : forall t, ok m t -> ok m (fold_left (step m) evs t)).
  { induction evs as [|e evs IH]; cbn [fold_left]; intros t Ht; [exact Ht|].
    apply IH, step_ok, Ht. }
  apply G. exact I.
Qed.

Lemma ok_served m t : ok m t -> served t = 0 \/ served t < m.
Proof.
  unfold served. induction t as [|x t IH]; simpl; [auto|]. intros [H1 H2].
  destruct (admitted x); simpl; [|auto]. right. specialize (H1 eq_refl).
  pose proof (filter_len admitted t). lia.
Qed.

Lemma served_bound m evs : served (run m evs) <= m - 1.
Proof. destruct (ok_served m _ (run_ok m evs)); lia. Qed.

Lemma refused_when_full m evs id x :
  hd_error (run m (evs ++ [Arrive id])) = Some x -> admitted x = false ->
  m - 1 <= List.length (run m evs).
Proof.
  unfold run. rewrite fold_left_app. cbn [fold_left]. unfold step at 1. cbn [hd_error].
  intros H Ha. injection H as <-. cbn [admitted] in Ha. apply negb_false_iff, Nat.leb_le in Ha. lia.
Qed.

Lemma admitted_when_room m evs id :
  S (List.length (run m evs)) < m ->
  hd_error (run m (evs ++ [Arrive id])) = Some {| eId := id; admitted := true |}.
Proof.
  intros H. unfold run in *. rewrite fold_left_app. cbn [fold_left]. unfold step at 1.
  destruct (Nat.leb_spec m (S (List.length (fold_left (step m) evs [])))); [lia|reflexivity].
Qed.

Lemma tracked_open m evs id :
  In id (map eId (run m evs)) <-> exists a b, evs = a ++ Arrive id :: b /\ ~ In (Closed id) b.
Proof.
  induction evs as [|e evs IH] using rev_ind.
  - cbn. split; [tauto|]. intros (a & b & H & _). destruct a; discriminate.
  - unfold run in *. rewrite fold_left_app. cbn [fold_left].
    destruct e as [i|i]; cbn [step].
    + cbn [map eId In]. rewrite IH. split.
      * intros [-> | (a & b & -> & H)].
        -- exists evs, []. split; [reflexivity|auto].
        -- exists a, (b ++ [Arrive i]). split; [now rewrite <- app_assoc|].
           rewrite in_app_iff. cbn. intros [H' | [H' | []]]; [auto|discriminate].
      * intros (a & b & E & H). destruct b as [|x b _] using rev_ind.
        -- apply app_inj_tail in E. destruct E as [_ E]. injection E as ->. auto.
        -- rewrite app_comm_cons, app_assoc in E. apply app_inj_tail in E. destruct E as [-> _].
           right. exists a, b. split; [reflexivity|]. intro. apply H, in_or_app. auto.
    + rewrite in_map_iff. split.
      * intros (x & <- & Hx). apply filter_In in Hx. destruct Hx as [Hx Hne].
        apply negb_true_iff, Nat.eqb_neq in Hne.
        destruct (proj1 IH (in_map eId _ _ Hx)) as (a & b & -> & H).
        exists a, (b ++ [Closed i]). split; [now rewrite <- app_assoc|].
        rewrite in_app_iff. cbn. intros [H' | [H' | []]]; [auto|]. injection H' as ->. auto.
      * intros (a & b & E & H). destruct b as [|x b _] using rev_ind.
        -- apply app_inj_tail in E. destruct E as [_ E]. discriminate.
        -- rewrite app_comm_cons, app_assoc in E. apply app_inj_tail in E. destruct E as [-> <-].
           assert (G : In id (map eId (fold_left (step m) (a ++ Arrive id :: b) []))).
           { apply IH. exists a, b. split; [reflexivity|]. intro. apply H, in_or_app. auto. }
           apply in_map_iff in G. destruct G as (x & <- & Hx). exists x. split; [reflexivity|].
           apply filter_In. split; [exact Hx|]. apply negb_true_iff, Nat.eqb_neq.
           intro Heq. apply H, in_or_app. right. left. now rewrite Heq.
Qed.

Lemma tracked_nodup m evs :
  (forall a b id, evs = a ++ Arrive id :: b -> ~ In (Arrive id) a) -> NoDup (map eId (run m evs)).
Proof.
  induction evs as [|e evs IH] using rev_ind; intro H; [constructor|].
  assert (IH' : NoDup (map eId (run m evs))).
  { apply IH. intros a b id ->. apply (H a (b ++ [e]) id). now rewrite <- app_assoc. }
  assert (T := tracked_open m evs). unfold run in *. rewrite fold_left_app. cbn [fold_left].
  destruct e as [i|i]; cbn [step].
  - cbn [map eId]. constructor; [|exact IH']. rewrite T. intros (a & b & -> & _).
    eapply (H (a ++ Arrive i :: b) [] i); [reflexivity|]. apply in_or_app. right. now left.
  - clear - IH'. induction (fold_left (step m) evs []) as [|x l IHl]; cbn; [constructor|].
    cbn in IH'. inversion IH' as [|? ? N D]; subst.
    destruct (negb (eId x =? i)); cbn; [|auto]. constructor; [|auto].
    intro G. apply N. apply in_map_iff in G. destruct G as (y & Ey & Hy). apply filter_In in Hy.
    rewrite <- Ey. apply in_map. tauto.
Qed.
