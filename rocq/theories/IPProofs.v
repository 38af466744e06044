From Verif Require Import Base IPModel IPSpec.
From Coq Require Import ZifyBool ZifyNat ZifyN.

#[local] Arguments mask_byte : simpl never.

Fixpoint bools_eqb (a b : list bool) : bool :=
  match a, b with
  | [], [] => true
  | x :: a', y :: b' => Bool.eqb x y && bools_eqb a' b'
  | _, _ => false
  end.

Lemma bools_eqb_spec a : forall b, bools_eqb a b = true <-> a = b.
Proof.
  induction a as [|x a IH]; destruct b as [|y b]; simpl; split; intros H; try discriminate; auto.
  - apply andb_true_iff in H as [H1 H2]. apply eqb_prop in H1. apply IH in H2. congruence.
  - injection H as -> ->. rewrite eqb_reflx. apply IH. reflexivity.
Qed.

Definition range256 : list N := map N.of_nat (seq 0 256).

Lemma range256_In x : (x < 256)%N -> In x range256.
Proof.
  intros H. unfold range256. apply in_map_iff. exists (N.to_nat x).
  split; [lia|]. apply in_seq. lia.
Qed.

Definition byte_check (k : nat) (x y : N) : bool :=
  Bool.eqb (N.land (N.land (mask_byte k) x) (mask_byte k) =? N.land y (mask_byte k))%N
           (bools_eqb (firstn k (byte_bits x)) (firstn k (byte_bits y))).

Lemma byte_check_all :
  forallb (fun k => forallb (fun x => forallb (byte_check k x) range256) range256) (seq 0 9) = true.
Proof. vm_compute. reflexivity. Qed.

Lemma byte_check_spec8 k x y : k <= 8 -> (x < 256)%N -> (y < 256)%N ->
  (N.land (N.land (mask_byte k) x) (mask_byte k) = N.land y (mask_byte k) <->
   firstn k (byte_bits x) = firstn k (byte_bits y)).
Proof.
  intros Hk Hx Hy. pose proof byte_check_all as H.
  rewrite forallb_forall in H. specialize (H k ltac:(apply in_seq; lia)).
  cbv beta in H. rewrite forallb_forall in H. specialize (H x (range256_In x Hx)).
  cbv beta in H. rewrite forallb_forall in H. specialize (H y (range256_In y Hy)).
  unfold byte_check in H. apply eqb_prop in H.
  rewrite <- N.eqb_eq, H. apply bools_eqb_spec.
Qed.

Lemma byte_check_spec k x y : (x < 256)%N -> (y < 256)%N ->
  (N.land (N.land (mask_byte k) x) (mask_byte k) = N.land y (mask_byte k) <->
   firstn k (byte_bits x) = firstn k (byte_bits y)).
Proof.
  intros Hx Hy. destruct (Nat.le_gt_cases k 8) as [H|H]; [apply byte_check_spec8; assumption|].
  assert (Hm : mask_byte k = mask_byte 8).
  { unfold mask_byte. destruct (Nat.leb_spec 8 k); [reflexivity|lia]. }
  rewrite Hm, byte_check_spec8 by (try lia; assumption).
  rewrite !firstn_all2; try (simpl; lia); reflexivity.
Qed.

Lemma app_inj_len {A} (a b c d : list A) :
  List.length a = List.length c -> (a ++ b = c ++ d <-> a = c /\ b = d).
Proof.
  revert c. induction a as [|x a IH]; destruct c as [|y c]; simpl; intros Hl; try discriminate.
  - split; [auto|intros [_ H]; exact H].
  - injection Hl as Hl. specialize (IH c Hl). split.
    + intros H. injection H as -> H. apply IH in H as [-> ->]. auto.
    + intros [H1 H2]. injection H1 as -> ->. subst. reflexivity.
Qed.

Lemma masked_eq_spec base : forall ones a,
  is_bytes base -> is_bytes a -> List.length a = List.length base ->
  masked_eq (mask_ip (cidr_mask ones (List.length base)) base)
            (cidr_mask ones (List.length base)) a = true <->
  firstn ones (bits base) = firstn ones (bits a).
Proof.
  induction base as [|x base IH]; intros ones a Hb Ha Hl.
  - destruct a; [|discriminate]. simpl. split; reflexivity.
  - destruct a as [|y a]; [discriminate|].
    inversion Hb; subst. inversion Ha; subst. injection Hl as Hl.
    cbn [List.length cidr_mask mask_ip masked_eq].
    rewrite andb_true_iff, N.eqb_eq, byte_check_spec by assumption.
    rewrite IH by assumption.
    unfold bits. cbn [flat_map]. rewrite !firstn_app.
    change (List.length (byte_bits x)) with 8. change (List.length (byte_bits y)) with 8.
    symmetry. apply app_inj_len. rewrite !firstn_length. reflexivity.
Qed.

Lemma mask_ip_length m a : List.length m = List.length a -> List.length (mask_ip m a) = List.length a.
Proof.
  revert a. induction m as [|k m IH]; destruct a as [|x a]; simpl; intros H; try discriminate; auto.
Qed.

Lemma cidr_mask_length ones l : List.length (cidr_mask ones l) = l.
Proof. revert ones. induction l as [|l IH]; intros ones; simpl; [reflexivity|]. rewrite IH. reflexivity. Qed.

Lemma nlist_eqb_spec a : forall b, nlist_eqb a b = true <-> a = b.
Proof.
  induction a as [|x a IH]; destruct b as [|y b]; simpl; split; intros H; try discriminate; auto.
  - apply andb_true_iff in H as [H1 H2]. apply N.eqb_eq in H1. apply IH in H2. congruence.
  - injection H as -> ->. rewrite N.eqb_refl. apply IH. reflexivity.
Qed.

(** The 16-byte form of an IPv4 address. *)
Lemma family_view_mapped w x y z : family_view (v4_prefix ++ [w; x; y; z]) = [w; x; y; z].
Proof. reflexivity. Qed.

Lemma family_view_other a : ~ mapped a -> family_view a = a.
Proof.
  intros H. unfold family_view.
  repeat (match goal with |- match ?x with _ => _ end = _ => destruct x end; try reflexivity).
  exfalso. apply H. repeat eexists.
Qed.

Lemma len16 a : List.length a = 16 -> firstn 12 a = v4_prefix -> mapped a.
Proof.
  intros Hl Hf. rewrite <- (firstn_skipn 12 a), Hf.
  assert (Hs : List.length (skipn 12 a) = 4) by (rewrite skipn_length; lia).
  destruct (skipn 12 a) as [|w [|x [|y [|z [|? ?]]]]]; try discriminate.
  exists w, x, y, z. reflexivity.
Qed.

Lemma to4_view a :
  match to4 a with Some x => x | None => a end = family_view a.
Proof.
  unfold to4. destruct (Nat.eqb_spec (List.length a) 4) as [H4|H4].
  - rewrite family_view_other; [reflexivity|].
    intros (w & x & y & z & ->). simpl in H4. discriminate.
  - destruct (List.length a =? 16) eqn:E16; cbn [andb].
    + destruct (nlist_eqb (firstn 12 a) v4_prefix) eqn:Ep.
      * apply Nat.eqb_eq in E16. apply nlist_eqb_spec in Ep.
        destruct (len16 a E16 Ep) as (w & x & y & z & ->). reflexivity.
      * rewrite family_view_other; [reflexivity|].
        intros (w & x & y & z & ->). simpl in Ep. discriminate.
    + rewrite family_view_other; [reflexivity|].
      intros (w & x & y & z & ->). simpl in E16. discriminate.
Qed.

Lemma contains_v4 base ones a :
  is_bytes base -> is_bytes a -> List.length base = 4 ->
  contains (parse_cidr base ones) a = true <-> in_range base ones a.
Proof.
  intros Hb Ha Hl. unfold contains. rewrite to4_view.
  assert (Hn : network_and_mask (parse_cidr base ones) =
               Some (mask_ip (cidr_mask ones 4) base, cidr_mask ones 4)).
  { unfold network_and_mask, parse_cidr. cbn [netIP netMask]. rewrite Hl.
    unfold to4. rewrite mask_ip_length by (rewrite cidr_mask_length; lia).
    rewrite Hl, cidr_mask_length. cbn [Nat.eqb].
    rewrite mask_ip_length by (rewrite cidr_mask_length; lia). rewrite Hl. reflexivity. }
  rewrite Hn. rewrite mask_ip_length by (rewrite cidr_mask_length; lia).
  assert (Hv : is_bytes (family_view a)).
  { destruct (list_eq_dec N.eq_dec (family_view a) a) as [->|Hne]; [exact Ha|].
    rewrite <- to4_view in *. unfold to4 in *.
    destruct (List.length a =? 4); [exact Ha|].
    destruct ((List.length a =? 16) && _); [|exact Ha].
    unfold is_bytes in *. rewrite Forall_forall in *. intros x Hx. apply Ha.
    rewrite <- (firstn_skipn 12 a). apply in_or_app. right. exact Hx. }
  unfold in_range. destruct (Nat.eqb_spec (List.length (family_view a)) (List.length base)) as [E|E].
  - rewrite <- Hl. rewrite masked_eq_spec by assumption. tauto.
  - split; [discriminate|]. intros [H _]. contradiction.
Qed.

Lemma land_cleared_mapped base ones :
  is_bytes base -> List.length base = 16 -> ~ mapped base ->
  ~ mapped (mask_ip (cidr_mask ones 16) base).
Proof.
  intros Hb Hl Hm (w & x & y & z & H). apply Hm. clear Hm.
  do 16 (destruct base as [|? base]; [discriminate Hl|]).
  destruct base; [|discriminate Hl]. clear Hl.
  repeat match goal with H : is_bytes (_ :: _) |- _ => inversion H; subst; clear H
                    | H : Forall _ (_ :: _) |- _ => inversion H; subst; clear H end.
  cbn [cidr_mask mask_ip] in H. cbn [v4_prefix app] in H.
  injection H as M0 M1 M2 M3 M4 M5 M6 M7 M8 M9 M10 M11 _ _ _ _.
  (* byte 11 of the masked address is 255, so at least 96 bits are kept *)
  rewrite <- !Nat.sub_add_distr in *. cbn [Nat.add] in *.
  assert (H96 : 96 <= ones).
  { destruct (Nat.le_gt_cases 96 ones) as [G|G]; [exact G|exfalso].
    assert (Hc : exists k, k < 8 /\ ones - 88 = k) by (exists (ones - 88); lia).
    destruct Hc as (k & Hk & Ek). rewrite Ek in M11.
    apply (f_equal (fun v => N.testbit v 0)) in M11. rewrite N.land_spec in M11.
    do 8 (destruct k as [|k]; [discriminate M11|]). lia. }
  assert (L : forall v k, (v < 256)%N -> 8 <= k ->
            N.land (mask_byte k) v = v).
  { intros v k Hv Hk. unfold mask_byte. destruct (Nat.leb_spec 8 k); [|lia].
    rewrite N.land_comm. change 255%N with (N.ones 8). rewrite N.land_ones.
    apply N.mod_small. exact Hv. }
  rewrite L in M0 by (try assumption; lia).
  rewrite L in M1 by (try assumption; lia).
  rewrite L in M2 by (try assumption; lia).
  rewrite L in M3 by (try assumption; lia).
  rewrite L in M4 by (try assumption; lia).
  rewrite L in M5 by (try assumption; lia).
  rewrite L in M6 by (try assumption; lia).
  rewrite L in M7 by (try assumption; lia).
  rewrite L in M8 by (try assumption; lia).
  rewrite L in M9 by (try assumption; lia).
  rewrite L in M10 by (try assumption; lia).
  rewrite L in M11 by (try assumption; lia).
  subst. repeat eexists.
Qed.

Lemma not_mapped_to4 a : List.length a = 16 -> ~ mapped a -> to4 a = None.
Proof.
  intros Hl Hm. unfold to4. rewrite Hl. cbn [Nat.eqb andb].
  destruct (nlist_eqb (firstn 12 a) v4_prefix) eqn:E; [|reflexivity].
  exfalso. apply Hm. apply nlist_eqb_spec in E. apply len16; assumption.
Qed.

Lemma is_bytes_view a : is_bytes a -> is_bytes (family_view a).
Proof.
  intros Ha. rewrite <- to4_view. unfold to4.
  destruct (List.length a =? 4); [exact Ha|].
  destruct ((List.length a =? 16) && _); [|exact Ha].
  unfold is_bytes in *. rewrite Forall_forall in *. intros x Hx. apply Ha.
  rewrite <- (firstn_skipn 12 a). apply in_or_app. right. exact Hx.
Qed.

Lemma contains_v6 base ones a :
  is_bytes base -> is_bytes a -> List.length base = 16 -> ~ mapped base ->
  contains (parse_cidr base ones) a = true <-> in_range base ones a.
Proof.
  intros Hb Ha Hl Hm. unfold contains. rewrite to4_view.
  assert (Hlm : List.length (mask_ip (cidr_mask ones 16) base) = 16)
    by (rewrite mask_ip_length by (rewrite cidr_mask_length; lia); exact Hl).
  assert (Hn : network_and_mask (parse_cidr base ones) =
               Some (mask_ip (cidr_mask ones 16) base, cidr_mask ones 16)).
  { unfold network_and_mask, parse_cidr. cbn [netIP netMask]. rewrite Hl.
    rewrite not_mapped_to4 by (try exact Hlm; apply land_cleared_mapped; assumption).
    rewrite Hlm, cidr_mask_length. cbn [Nat.eqb]. rewrite Hlm. reflexivity. }
  rewrite Hn, Hlm. unfold in_range. rewrite Hl.
  destruct (Nat.eqb_spec (List.length (family_view a)) 16) as [E|E].
  - rewrite <- Hl at 1 2. rewrite masked_eq_spec; try assumption; [tauto| |congruence].
    apply is_bytes_view. exact Ha.
  - split; [discriminate|]. intros [H _]. contradiction.
Qed.

Lemma any_contains_spec l a : any_contains l a = true <-> exists n, In n l /\ contains n a = true.
Proof.
  induction l as [|n l IH]; simpl.
  - split; [discriminate|intros (n & [] & _)].
  - destruct (contains n a) eqn:E.
    + split; [intros _; exists n; auto|reflexivity].
    + rewrite IH. split; [intros (m & Hm & Hc); exists m; auto|].
      intros (m & [->|Hm] & Hc); [congruence|]. exists m. auto.
Qed.

(** The allow / deny decision on literals as written in the configuration. *)
Lemma check_ip_spec deny allow a :
  is_bytes a ->
  (forall l, deny = Some l -> Forall cidr_ok l) -> (forall l, allow = Some l -> Forall cidr_ok l) ->
  check_ip (option_map (map (fun c => parse_cidr (fst c) (snd c))) deny)
           (option_map (map (fun c => parse_cidr (fst c) (snd c))) allow) (AddrIP a) = true <->
  (forall l c, deny = Some l -> In c l -> ~ in_range (fst c) (snd c) a) /\
  (forall l, allow = Some l -> exists c, In c l /\ in_range (fst c) (snd c) a).
Proof.
  intros Ha Hd Hl.
  assert (Hc : forall c, cidr_ok c -> contains (parse_cidr (fst c) (snd c)) a = true <-> in_range (fst c) (snd c) a).
  { intros c [Hb [H4|[H16 Hm]]]; [apply contains_v4|apply contains_v6]; auto. }
  assert (Hany : forall l, Forall cidr_ok l ->
    any_contains (map (fun c => parse_cidr (fst c) (snd c)) l) a = true <->
    exists c, In c l /\ in_range (fst c) (snd c) a).
  { intros l Hf. rewrite Forall_forall in Hf. rewrite any_contains_spec. split.
    - intros (n & Hn & Hx). apply in_map_iff in Hn as (c & <- & Hn). exists c. split; [exact Hn|].
      apply Hc; auto.
    - intros (c & Hn & Hx). exists (parse_cidr (fst c) (snd c)). split.
      + apply in_map_iff. exists c. auto.
      + apply Hc; auto. }
  unfold check_ip.
  assert (Hdeny : match option_map (map (fun c => parse_cidr (fst c) (snd c))) deny with
                  | Some l => any_contains l a | None => false end = true <->
                  exists l c, deny = Some l /\ In c l /\ in_range (fst c) (snd c) a).
  { destruct deny as [l|]; cbn [option_map].
    - rewrite (Hany l (Hd l eq_refl)). split.
      + intros (c & H1 & H2). exists l, c. auto.
      + intros (l' & c & E & H1 & H2). injection E as ->. exists c. auto.
    - split; [discriminate|intros (l & c & E & _); discriminate]. }
  destruct (match option_map (map (fun c => parse_cidr (fst c) (snd c))) deny with
            | Some l => any_contains l a | None => false end) eqn:Ed.
  - split; [discriminate|]. intros [H _]. exfalso.
    destruct (proj1 Hdeny eq_refl) as (l & c & E & H1 & H2). exact (H l c E H1 H2).
  - assert (Hnd : forall l c, deny = Some l -> In c l -> ~ in_range (fst c) (snd c) a).
    { intros l c E H1 H2. assert (H : false = true) by (apply Hdeny; exists l, c; auto). discriminate. }
    destruct allow as [l|]; cbn [option_map].
    + rewrite (Hany l (Hl l eq_refl)). split.
      * intros H. split; [exact Hnd|]. intros l' E. injection E as <-. exact H.
      * intros [_ H]. apply H. reflexivity.
    + split; [intros _|reflexivity]. split; [exact Hnd|]. intros l E. discriminate.
Qed.
