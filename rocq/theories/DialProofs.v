From Verif Require Import Base DialModel.

Lemma NoDup_map_in {A B} (f : A -> B) l :
  (forall x y, In x l -> In y l -> f x = f y -> x = y) -> NoDup l -> NoDup (map f l).
Proof.
  induction l as [|x l IH]; intros Hf Hl; [constructor|]. cbn [map]. inversion_clear Hl as [|? ? Hx Hl'].
  constructor.
  - rewrite in_map_iff. intros (y & E & Hy). apply Hx.
    rewrite <- (Hf y x (or_intror Hy) (or_introl eq_refl) E). exact Hy.
  - apply IH; [|exact Hl']. intros a b Ha Hb. apply Hf; right; assumption.
Qed.

(** The [m] addresses starting from [next] in cyclic order. *)
Definition cyclic (n next m : nat) : list nat := map (fun k => (next + k) mod n) (seq 0 m).

Lemma cyclic_S n next m : 0 < n ->
  cyclic n next (S m) = next mod n :: cyclic n ((next + 1) mod n) m.
Proof.
  intros Hn. unfold cyclic. cbn [seq map]. rewrite Nat.add_0_r. f_equal.
  rewrite <- seq_shift, map_map. apply map_ext. intros k.
  rewrite Nat.add_mod_idemp_l by lia. f_equal. lia.
Qed.

Lemma cyclic_app n next a b : 0 < n ->
  cyclic n next (a + b) = cyclic n next a ++ cyclic n ((next + a) mod n) b.
Proof.
  intros Hn. revert next. induction a as [|a IH]; intros next.
  - cbn [Nat.add]. rewrite Nat.add_0_r. unfold cyclic. cbn [seq map app]. apply map_ext. intros k.
    rewrite Nat.add_mod_idemp_l by lia. reflexivity.
  - cbn [Nat.add]. rewrite !cyclic_S by exact Hn. rewrite IH. cbn [app]. f_equal. f_equal. f_equal.
    rewrite Nat.add_mod_idemp_l by lia. f_equal. lia.
Qed.

(** Each address occurs exactly once in a full turn. *)
Lemma cyclic_nodup n next m : 0 < n -> m <= n -> NoDup (cyclic n next m).
Proof.
  intros Hn Hm. unfold cyclic. apply NoDup_map_in; [|apply seq_NoDup].
  intros x y Hx Hy E. apply in_seq in Hx, Hy.
  assert (Hd : forall a b, a <= b -> b < n -> (next + a) mod n = (next + b) mod n -> a = b).
  { intros a b Hab Hb Eq. 
    assert (Hz : ((b - a) mod n) = 0).
    { pose proof (Nat.div_mod (next + a) n ltac:(lia)) as D1.
      pose proof (Nat.div_mod (next + b) n ltac:(lia)) as D2.
      rewrite Eq in D1. 
      assert (Hsub : b - a = n * ((next + b) / n - (next + a) / n)) by nia.
      rewrite Hsub, Nat.mul_comm. apply Nat.mod_mul. lia. }
    rewrite Nat.mod_small in Hz by lia. lia. }
  destruct (Nat.le_ge_cases x y); [apply Hd|symmetry; apply Hd]; try lia.
Qed.

Lemma cyclic_bound n next m i : 0 < n -> In i (cyclic n next m) -> i < n.
Proof.
  intros Hn H. unfold cyclic in H. apply in_map_iff in H as (k & <- & _). apply Nat.mod_upper_bound. lia.
Qed.

Lemma cyclic_length n next m : List.length (cyclic n next m) = m.
Proof. unfold cyclic. rewrite map_length, seq_length. reflexivity. Qed.

Lemma cyclic_full n next i : 0 < n -> i < n -> count_occ Nat.eq_dec (cyclic n next n) i = 1.
Proof.
  intros Hn Hi. apply NoDup_count_occ'; [apply cyclic_nodup; lia|].
  assert (Hincl : incl (seq 0 n) (cyclic n next n)).
  { apply (NoDup_length_incl (cyclic_nodup n next n Hn (le_n n))).
    - rewrite seq_length, cyclic_length. lia.
    - intros x Hx. apply in_seq. pose proof (cyclic_bound _ _ _ _ Hn Hx). lia. }
  apply Hincl. apply in_seq. lia.
Qed.

Lemma cyclic_count n k : forall next i, 0 < n -> i < n ->
  count_occ Nat.eq_dec (cyclic n next (k * n)) i = k.
Proof.
  induction k as [|k IH]; intros next i Hn Hi; [reflexivity|].
  cbn [Nat.mul]. rewrite cyclic_app by exact Hn. rewrite count_occ_app, cyclic_full, IH by assumption.
  reflexivity.
Qed.

(** ** One dial *)

Lemma dial_loop_spec n ok : 0 < n -> forall max k next, next < n -> 0 < max ->
  exists t, t <= max /\ 0 < t /\
    snd (dial_loop n ok k max next) = cyclic n next t /\
    snd (fst (dial_loop n ok k max next)) = (next + t) mod n /\
    (forall j, j < t - 1 -> ok (k + j) ((next + j) mod n) = false) /\
    match fst (fst (dial_loop n ok k max next)) with
    | Some i => i = (next + (t - 1)) mod n /\ ok (k + (t - 1)) i = true
    | None => t = max /\ ok (k + (t - 1)) ((next + (t - 1)) mod n) = false
    end.
Proof.
  intros Hn. induction max as [|max IH]; intros k next Hnx Hm; [lia|].
  cbn [dial_loop]. unfold take. cbv zeta.
  assert (Hc1 : cyclic n next 1 = [next]).
  { unfold cyclic. cbn. rewrite Nat.add_0_r, Nat.mod_small by exact Hnx. reflexivity. }
  destruct (ok k next) eqn:Eok.
  - exists 1. cbn [fst snd]. rewrite Hc1. repeat split; try lia.
    + rewrite Nat.sub_diag, Nat.add_0_r, Nat.mod_small; auto.
    + rewrite Nat.sub_diag, Nat.add_0_r. exact Eok.
  - destruct max as [|max'].
    + exists 1. cbn [fst snd]. rewrite Hc1. repeat split; try lia.
      rewrite Nat.sub_diag, !Nat.add_0_r, Nat.mod_small by exact Hnx. exact Eok.
    + destruct (IH (S k) ((next + 1) mod n)) as (t & T1 & T2 & T3 & T4 & T5 & T6);
        [apply Nat.mod_upper_bound; lia|lia|].
      destruct (dial_loop n ok (S k) (S max') ((next + 1) mod n)) as [[r nx] l]. cbn [fst snd] in *.
      assert (Hmod : forall j, ((next + 1) mod n + j) mod n = (next + S j) mod n).
      { intros j. rewrite Nat.add_mod_idemp_l by lia. f_equal. lia. }
      exists (S t). split; [lia|]. split; [lia|]. split.
      { rewrite cyclic_S by exact Hn. rewrite Nat.mod_small by exact Hnx. rewrite T3. reflexivity. }
      split. { rewrite T4, Hmod. reflexivity. }
      split.
      { intros [|j] Hj.
        - rewrite !Nat.add_0_r, Nat.mod_small by exact Hnx. exact Eok.
        - rewrite <- Hmod. replace (k + S j) with (S k + j) by lia. apply T5. lia. }
      replace (S t - 1) with (S (t - 1)) by lia. rewrite <- Hmod.
      replace (k + S (t - 1)) with (S k + (t - 1)) by lia.
      destruct r as [i|]; [exact T6|]. destruct T6 as [T6 T7]. split; [lia|exact T7].
Qed.

Lemma dial_error n ok next nx tried : next < n ->
  dial n ok next = (None, nx, tried) ->
  tried = cyclic n next n /\ (forall i, i < n -> count_occ Nat.eq_dec tried i = 1) /\
  (forall j, j < n -> ok j ((next + j) mod n) = false).
Proof.
  intros Hnx H. assert (Hn : 0 < n) by lia.
  destruct (dial_loop_spec n ok Hn n 0 next Hnx Hn) as (t & T1 & T2 & T3 & T4 & T5 & T6).
  unfold dial in H. destruct n as [|n']; [lia|].
  rewrite H in *. cbn [fst snd] in *. destruct T6 as [-> T6]. split; [exact T3|]. split.
  - intros i Hi. rewrite T3. apply cyclic_full; assumption.
  - intros j Hj. destruct (Nat.eq_dec j (S n' - 1)) as [->|]; [exact T6|]. apply T5. lia.
Qed.

Lemma dial_success n ok next i nx tried : next < n ->
  dial n ok next = (Some i, nx, tried) ->
  exists t, t < n /\ i = (next + t) mod n /\ tried = cyclic n next (S t) /\ nx = (i + 1) mod n /\
    ok t i = true /\ forall j, j < t -> ok j ((next + j) mod n) = false.
Proof.
  intros Hnx H. assert (Hn : 0 < n) by lia.
  destruct (dial_loop_spec n ok Hn n 0 next Hnx Hn) as (t & T1 & T2 & T3 & T4 & T5 & T6).
  unfold dial in H. destruct n as [|n']; [lia|].
  rewrite H in *. cbn [fst snd] in *. destruct T6 as [T6 T7]. exists (t - 1).
  replace (S (t - 1)) with t by lia. split; [lia|]. split; [exact T6|]. split; [exact T3|].
  split; [|split; [exact T7|exact T5]].
  rewrite T4, T6. rewrite Nat.add_mod_idemp_l by lia. f_equal. lia.
Qed.

Lemma dials_cyclic n next oks : next < n -> (forall ok k i, In ok oks -> ok k i = true) ->
  dials n next oks = map Some (cyclic n next (List.length oks)).
Proof.
  revert next. induction oks as [|ok oks IH]; intros next Hnx Hok; [reflexivity|].
  cbn [dials List.length]. rewrite cyclic_S by lia. cbn [map]. unfold dial.
  destruct n as [|n']; [lia|]. cbn [dial_loop]. unfold take.
  rewrite (Hok ok 0 next (or_introl eq_refl)). rewrite (Nat.mod_small next) by exact Hnx. f_equal.
  apply IH; [apply Nat.mod_upper_bound; lia|]. intros. apply Hok. right. assumption.
Qed.

(** ** Concurrent dials *)

Lemma crun_cyclic n evs : 0 < n -> forall s s' l, cnext s < n -> crun n s evs = Some (s', l) ->
  l = cyclic n (cnext s) (List.length l).
Proof.
  intros Hn. induction evs as [|e evs IH]; cbn [crun]; intros s s' l Hs H.
  - injection H as <- <-. reflexivity.
  - destruct (cstep n s e) as [[s1 o]|] eqn:E; [|discriminate].
    destruct (crun n s1 evs) as [[s2 l2]|] eqn:E2; [|discriminate]. injection H as <- <-.
    assert (G : (o = None /\ cnext s1 = cnext s) \/ (o = Some (cnext s) /\ cnext s1 = (cnext s + 1) mod n)).
    { destruct e as [t|t ok]; cbn [cstep] in E.
      - destruct (threads s t); try discriminate; injection E as <- <-; left; auto.
      - destruct (threads s t) as [|[|m] seen| |]; try discriminate. unfold take in E.
        injection E as <- <-. right. auto. }
    destruct G as [[-> G]|[-> G]].
    + rewrite <- G. apply (IH s1 s2 l2); [rewrite G; exact Hs|exact E2].
    + cbn [List.length]. rewrite cyclic_S by exact Hn. rewrite (Nat.mod_small (cnext s)) by exact Hs.
      f_equal. rewrite <- G. apply (IH s1 s2 l2); [|exact E2]. rewrite G. apply Nat.mod_upper_bound. lia.
Qed.

(** A dial makes at most [n] attempts and fails only after [n]. *)
Definition tries_ok (n : nat) (x : thread) : Prop :=
  match x with
  | Idle => True
  | Dialling m seen => m + List.length seen = n
  | Connected _ seen => List.length seen <= n
  | Failed seen => List.length seen = n
  end.

Lemma crun_tries n evs : 0 < n -> forall s s' l, (forall t, tries_ok n (threads s t)) ->
  crun n s evs = Some (s', l) -> forall t, tries_ok n (threads s' t).
Proof.
  intros Hn. induction evs as [|e evs IH]; cbn [crun]; intros s s' l Hs H.
  - injection H as <- <-. exact Hs.
  - destruct (cstep n s e) as [[s1 o]|] eqn:E; [|discriminate].
    destruct (crun n s1 evs) as [[s2 l2]|] eqn:E2; [|discriminate]. injection H as <- _.
    apply (IH s1 s2 l2); [|exact E2]. intros t.
    destruct e as [u|u ok]; cbn [cstep] in E.
    + assert (s1 = set_thread s u (Dialling n [])) by (destruct (threads s u); congruence). subst s1.
      cbn [threads set_thread]. destruct (t =? u); [cbn; lia|apply Hs].
    + pose proof (Hs u) as Hu. destruct (threads s u) as [|[|m] seen| |]; try discriminate.
      unfold take in E. injection E as <- _. cbn [threads set_thread].
      destruct (t =? u); [|apply Hs]. cbn [tries_ok] in Hu.
      destruct ok; [|destruct m]; cbn [tries_ok]; rewrite app_length; cbn; lia.
Qed.
